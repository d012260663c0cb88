(** Every call is made of the primitive effects of World.v; consequences that
    hold for all such programs follow by induction on how they are made. *)
From Coq Require Import Arith NArith String List Lia Bool Init.Byte.
From Coq Require Import ZifyBool ZifyNat ZifyN.
From Verif Require Import Bytes Layout World ScsiDefs NvmeDefs Common ReadCmds WriteCmds SmallCmds
  UnmapCmd StatusCmd ModeSenseCmd InquiryCmd TranslationCls.
Import ListNotations.
Local Open Scope string_scope.
Local Open Scope list_scope.
Local Open Scope N_scope.

(** [prog d A m]: [m] is made of primitive effects; releases are allowed if [d] *)
Inductive prog (d : bool) : forall A : Type, M A -> Prop :=
| p_ret A (a : A) : prog d A (ret a)
| p_ub A s : prog d A (ub s)
| p_bind A B (m : M A) (k : A -> M B) : prog d A m -> (forall a, prog d B (k a)) -> prog d B (bind m k)
| p_load a n : prog d _ (load a n)
| p_store a bs : prog d _ (store a bs)
| p_alloc ps n : prog d _ (AllocPages ps n)
| p_dealloc a n : d = true -> prog d _ (DeallocPages a n)
| p_junk n : prog d _ (stack_junk n).
Arguments prog d {A}.

Lemma prog_weaken {A} (m : M A) : prog false m -> prog true m.
Proof. induction 1; try discriminate; econstructor; eauto. Qed.

Section B.
Variable d : bool.
Lemma p_Read l s : prog d (ReadValue l s).
Proof. unfold ReadValue. destruct (_ <? _); [apply p_ret|]. apply p_bind; [apply p_load|intros; apply p_ret]. Qed.
Lemma p_at s i : prog d (span_at s i).
Proof. unfold span_at. destruct (_ <? _); [|apply p_ub]. apply p_bind; [apply p_load|intros; apply p_ret]. Qed.
Lemma p_WriteN bs s n : prog d (WriteValue_n bs s n).
Proof. unfold WriteValue_n. destruct (_ || _); [apply p_ret|]. apply p_bind; [apply p_store|intros; apply p_ret]. Qed.
Lemma p_Write bs s : prog d (WriteValue bs s).
Proof. apply p_WriteN. Qed.
Lemma p_field l s a : prog d (rd_field l s a).
Proof. unfold rd_field. destruct (lay_find l s) as [[o w]|]; [|apply p_ub]. apply p_bind; [apply p_load|intros; apply p_ret]. Qed.
Lemma p_SetPages al ps x y : prog d (SetPages al ps x y).
Proof.
  unfold SetPages. destruct (_ || _); [apply p_ret|]. apply p_bind; [apply p_alloc|intros]. apply p_bind; [apply p_alloc|intros].
  destruct (_ || _); apply p_ret.
Qed.

Ltac prog1 :=
  match goal with
  | |- prog _ (ret _) => apply p_ret
  | |- prog _ (ub _) => apply p_ub
  | |- prog _ (load _ _) => apply p_load
  | |- prog _ (store _ _) => apply p_store
  | |- prog _ (AllocPages _ _) => apply p_alloc
  | |- prog _ (stack_junk _) => apply p_junk
  | |- prog _ (ReadValue _ _) => apply p_Read
  | |- prog _ (SetPages _ _ _ _) => apply p_SetPages
  | |- prog _ (span_at _ _) => apply p_at
  | |- prog _ (WriteValue_n _ _ _) => apply p_WriteN
  | |- prog _ (WriteValue _ _) => apply p_Write
  | |- prog _ (rd_field _ _ _) => apply p_field
  | |- prog _ (bind _ _) => apply p_bind; [|intro]
  | |- prog _ (match ?x with _ => _ end) => destruct x
  | |- prog _ (let '_ := ?x in _) => destruct x
  | |- prog _ (if ?x then _ else _) => destruct x
  end.
Ltac prog_let :=
  match goal with
  | |- prog ?d (let x := ?v in @?k x) =>
      lazymatch type of v with
      | forall _, _ => change (prog d (k v)); cbv beta
      | _ => change (prog d (k v)); let y := fresh in generalize v; intro y; cbv beta
      end
  end.
Ltac progs := repeat first [prog_let | prog1].

(** ** Begin *)
Lemma p_desc n : forall s, prog d (read_descriptors n s).
Proof. induction n as [|n IH]; intros s; cbn [read_descriptors]; progs. apply IH. Qed.
Lemma p_ranges ds : forall s, prog d (write_ranges ds s).
Proof. induction ds as [|x ds IH]; intros s; cbn [write_ranges]; progs. apply IH. Qed.
Lemma p_Unmap c b wr ps nsid al : prog d (UnmapToNvme c b wr ps nsid al).
Proof. unfold UnmapToNvme. repeat first [progress progs | apply p_desc | apply p_ranges]. Qed.
Lemma p_Mode a wrs al ps nsid n : prog d (ModeSenseToNvme a wrs al ps nsid n).
Proof. unfold ModeSenseToNvme, GenerateBlockDescriptorIdentifyCmd, GenerateCacheGetFeaturesCmd. progs. Qed.
Lemma p_Mode6 c wrs al ps nsid n rl : prog d (ModeSense6ToNvme c wrs al ps nsid n rl).
Proof. unfold ModeSense6ToNvme. repeat first [progress progs | apply p_Mode]. Qed.
Lemma p_Mode10 c wrs al ps nsid n rl : prog d (ModeSense10ToNvme c wrs al ps nsid n rl).
Proof. unfold ModeSense10ToNvme. repeat first [progress progs | apply p_Mode]. Qed.
Lemma p_Luns c wr ps al rl : prog d (ReportLunsToNvme c wr ps al rl).
Proof. unfold ReportLunsToNvme. progs. Qed.
Lemma p_BLuns c t rl : prog d (Begin_ReportLuns c t rl).
Proof. unfold Begin_ReportLuns. apply p_bind; [apply p_Luns|]. intros [[[? ?] ?] ?]. apply p_ret. Qed.
Lemma p_BMaint c t rl : prog d (Begin_MaintenanceIn c t rl).
Proof. unfold Begin_MaintenanceIn. apply p_bind; [unfold ValidateReportSupportedOpCodes; progs|]. intros [? ?]. apply p_BLuns. Qed.
Lemma p_B6 c nsid t rl : prog d (Begin_ModeSense6 c nsid t rl).
Proof. unfold Begin_ModeSense6. apply p_bind; [apply p_Mode6|]. intros [[[[? ?] ?] ?] ?]. apply p_ret. Qed.
Lemma p_switch opc c b nsid t rl : prog d (Begin_switch opc c b nsid t rl).
Proof.
  unfold Begin_switch.
  repeat match goal with |- prog _ (if ?x then _ else _) => destruct x end; try apply p_ret; try apply p_BLuns; try apply p_BMaint; try apply p_B6.
  - unfold Begin_Inquiry, InquiryToNvme. progs.
  - unfold Begin_Unmap. apply p_bind; [apply p_Unmap|]. intros [[? ?] ?]. apply p_B6.
  - unfold Begin_ModeSense10. apply p_bind; [apply p_Mode10|]. intros [[[[? ?] ?] ?] ?]. apply p_BMaint.
  - unfold Begin_ReadCapacity10, ReadCapacity10ToNvme. progs.
  - unfold Begin_RequestSense, RequestSenseToNvme. progs.
  - unfold Begin_Read, Read6ToNvme. progs.
  - unfold Begin_Read, Read10ToNvme. progs.
  - unfold Begin_Read, Read12ToNvme. progs.
  - unfold Begin_Read, Read16ToNvme. progs.
  - unfold Begin_Verify10, VerifyToNvme. progs.
  - unfold Begin_Write, Write6ToNvme. progs.
  - unfold Begin_Write, Write10ToNvme. progs.
  - unfold Begin_Write, Write12ToNvme. progs.
  - unfold Begin_Write, Write16ToNvme. progs.
Qed.

(** ** Complete *)
Lemma p_lbads ns : prog d (rd_lbads ns). Proof. unfold rd_lbads. progs. Qed.
Lemma p_nsid ns i : prog d (rd_nsid ns i). Proof. unfold rd_nsid. progs. Qed.
Lemma p_shl n : prog d (shl1_int n). Proof. unfold shl1_int. progs. Qed.
Lemma p_ReadCapacity b c : prog d (ReadCapacity10ToScsi b c).
Proof. unfold ReadCapacity10ToScsi. progs; apply p_lbads. Qed.
Lemma p_RequestSense c b : prog d (RequestSenseToScsi c b).
Proof. unfold RequestSenseToScsi, TranslateDescriptorSenseData, TranslateFixedSenseData. progs. Qed.
Lemma p_Report b : prog d (WriteReportSupportedOpCodesResult b).
Proof. unfold WriteReportSupportedOpCodesResult. progs. Qed.
Lemma p_NsLen ns : prog d (GetNsListLength ns).
Proof.
  unfold GetNsListLength. generalize 0 at 1. generalize kIdentifyNsListMaxLength.
  induction n as [|n IH]; intros i; cbn [GetNsListLength_loop]; progs; auto using p_nsid.
Qed.
Lemma p_LunsLoop ns b n : forall i, prog d (ReportLuns_loop ns b n i).
Proof. induction n as [|n IH]; intros i; cbn [ReportLuns_loop]; progs; auto using p_nsid. Qed.
Lemma p_LunsToScsi c b : prog d (ReportLunsToScsi c b).
Proof. unfold ReportLunsToScsi. progs; auto using p_NsLen, p_LunsLoop. Qed.
Lemma p_Block i b l : prog d (WriteBlockDescriptor i b l).
Proof. unfold WriteBlockDescriptor. progs; auto using p_lbads, p_shl. Qed.
Lemma p_Page p g b : prog d (WritePageData p g b).
Proof. unfold WritePageData. progs. Qed.
Lemma p_ModeScsi a i10 g i b : prog d (ModeSenseToScsi a i10 g i b).
Proof.
  unfold ModeSenseToScsi, WriteMode10Header, WriteMode6Header. destruct (ca_dbd a); progs; auto using p_Block, p_Page.
Qed.
Lemma p_Mode6Scsi c i g b : prog d (ModeSense6ToScsi c i g b).
Proof. unfold ModeSense6ToScsi. progs; apply p_ModeScsi. Qed.
Lemma p_Mode10Scsi c i g b : prog d (ModeSense10ToScsi c i g b).
Proof. unfold ModeSense10ToScsi. progs; apply p_ModeScsi. Qed.
Lemma p_BuildId ns b : prog d (BuildIdentificationDescriptor ns b).
Proof. unfold BuildIdentificationDescriptor. progs. Qed.
Lemma p_Inquiry c b x y : prog d (InquiryToScsi c b x y).
Proof.
  unfold InquiryToScsi, TranslateStandardInquiry, TranslateSupportedVpdPages, TranslateUnitSerialNumberVpd, TranslateDeviceIdentificationVpd,
    TranslateExtendedInquiryDataVpd, TranslateBlockDeviceCharacteristicsVpd, TranslateBlockLimitsVpd, TranslateLogicalBlockProvisioningVpd.
  progs; auto using p_BuildId.
Qed.
Lemma p_fill s st : prog d (FillSenseBuffer s st).
Proof. unfold FillSenseBuffer. progs. Qed.
Lemma p_cswitch opc c b cpls t : prog d (Complete_switch opc c b cpls t).
Proof.
  unfold Complete_switch, cpl0_cdw0.
  progs.
  all: match goal with
  | |- prog _ (InquiryToScsi _ _ _ _) => apply p_Inquiry
  | |- prog _ (ModeSense6ToScsi _ _ _ _) => apply p_Mode6Scsi
  | |- prog _ (ModeSense10ToScsi _ _ _ _) => apply p_Mode10Scsi
  | |- prog _ (WriteReportSupportedOpCodesResult _) => apply p_Report
  | |- prog _ (ReportLunsToScsi _ _) => apply p_LunsToScsi
  | |- prog _ (ReadCapacity10ToScsi _ _) => apply p_ReadCapacity
  | |- prog _ (RequestSenseToScsi _ _) => apply p_RequestSense
  end.
Qed.
End B.

(** ** whole calls *)
Lemma p_FlushLoop n : forall i al, prog true (FlushLoop n i al).
Proof.
  induction n as [|n IH]; intros i al; cbn [FlushLoop]; [apply p_ret|]. destruct (aget al i); [|apply p_ub]. apply p_bind; [|intros; apply IH].
  unfold FlushOne. apply p_bind; [destruct (negb _)|intros x; destruct (negb _)]; try apply p_ret; (apply p_bind; [apply p_dealloc; reflexivity|intros; apply p_ret]).
Qed.
Lemma p_Flush t : prog true (FlushMemory t).
Proof. unfold FlushMemory. apply p_bind; [apply p_FlushLoop|intros; apply p_ret]. Qed.
Lemma p_Abort t : prog true (AbortPipeline t).
Proof. unfold AbortPipeline. cbv zeta. apply p_bind; [apply p_Flush|intros; apply p_ret]. Qed.
Lemma p_Begin t c b lun : prog true (Begin t c b lun).
Proof.
  unfold Begin. destruct (negb _); [apply p_ret|]. destruct (len c =? 0); [apply p_ret|]. cbv zeta.
  apply p_bind; [apply p_at|intros o]. apply p_bind; [apply p_switch|intros [t1 l]].
  apply p_bind; [|intros t2; apply p_ret]. unfold Begin_finish. destruct (negb _); [|apply p_ret].
  apply p_bind; [apply p_Flush|intros; apply p_ret].
Qed.
Lemma p_Complete t cpls b s : prog true (Complete t cpls b s).
Proof.
  unfold Complete. destruct (is_uninitialized _); [apply p_ret|].
  destruct (negb _); [apply p_bind; [apply p_Abort|intros; apply p_ret]|].
  destruct (negb _); [apply p_bind; [apply p_fill|intros]; apply p_bind; [apply p_Abort|intros; apply p_ret]|].
  destruct (first_error cpls); [apply p_bind; [apply p_fill|intros]; apply p_bind; [apply p_Abort|intros; apply p_ret]|].
  cbv zeta. apply p_bind; [apply p_at|intros]. apply p_bind; [apply p_cswitch|intros]. apply p_bind; [apply p_Abort|intros; apply p_ret].
Qed.
