(** The data phase does not look at uninitialised stack storage (serial number
    page apart). *)
From Coq Require Import Arith NArith String List Lia Bool Init.Byte.
From Coq Require Import ZifyBool ZifyNat ZifyN.
From Verif Require Import Bytes Layout World ScsiDefs NvmeDefs Common ReadCmds WriteCmds SmallCmds
  UnmapCmd StatusCmd ModeSenseCmd InquiryCmd TranslationCls Spec InquirySpec Facts Logic JunkFacts InquiryFacts.
Import ListNotations.
Local Open Scope string_scope.
Local Open Scope list_scope.
Local Open Scope N_scope.

Lemma blind_WriteN bs s n : blind (WriteValue_n bs s n).
Proof. unfold WriteValue_n. destruct (_ || _); [apply blind_ret|]. apply blind_bind; [apply blind_store|intros; apply blind_ret]. Qed.
Lemma blind_Write bs s : blind (WriteValue bs s).
Proof. apply blind_WriteN. Qed.
Lemma blind_field l s a : blind (rd_field l s a).
Proof. unfold rd_field. destruct (lay_find l s) as [[o w]|]; [|apply blind_ub]. apply blind_bind; [apply blind_load|intros; apply blind_ret]. Qed.

Ltac blind1 :=
  match goal with
  | |- blind (ret _) => apply blind_ret
  | |- blind (ub _) => apply blind_ub
  | |- blind (load _ _) => apply blind_load
  | |- blind (store _ _) => apply blind_store
  | |- blind (AllocPages _ _) => apply blind_Alloc
  | |- blind (DeallocPages _ _) => apply blind_Dealloc
  | |- blind (ReadValue _ _) => apply blind_Read
  | |- blind (span_at _ _) => apply blind_at
  | |- blind (WriteValue_n _ _ _) => apply blind_WriteN
  | |- blind (WriteValue _ _) => apply blind_Write
  | |- blind (rd_field _ _ _) => apply blind_field
  | |- blind (bind _ _) => apply blind_bind; [|intro]
  | |- blind (match ?x with _ => _ end) => destruct x
  | |- blind (let '_ := ?x in _) => destruct x
  | |- blind (if ?x then _ else _) => destruct x
  end.
Ltac blinds := repeat (cbv zeta; blind1).

Lemma blind_lbads ns : blind (rd_lbads ns). Proof. unfold rd_lbads. blinds. Qed.
Lemma blind_nsid ns i : blind (rd_nsid ns i). Proof. unfold rd_nsid. blinds. Qed.
Lemma blind_shl n : blind (shl1_int n). Proof. unfold shl1_int. blinds. Qed.
Lemma blind_ReadCapacity b c : blind (ReadCapacity10ToScsi b c).
Proof. unfold ReadCapacity10ToScsi. blinds; apply blind_lbads. Qed.
Lemma blind_RequestSense c b : blind (RequestSenseToScsi c b).
Proof. unfold RequestSenseToScsi, TranslateDescriptorSenseData, TranslateFixedSenseData. blinds. Qed.
Lemma blind_Report b : blind (WriteReportSupportedOpCodesResult b).
Proof. unfold WriteReportSupportedOpCodesResult. blinds. Qed.
Lemma blind_NsLen ns : blind (GetNsListLength ns).
Proof.
  unfold GetNsListLength. generalize 0 at 1. generalize kIdentifyNsListMaxLength.
  induction n as [|n IH]; intros i; cbn [GetNsListLength_loop]; blinds; auto using blind_nsid.
Qed.
Lemma blind_LunsLoop ns b n : forall i, blind (ReportLuns_loop ns b n i).
Proof. induction n as [|n IH]; intros i; cbn [ReportLuns_loop]; blinds; auto using blind_nsid. Qed.
Lemma blind_LunsToScsi c b : blind (ReportLunsToScsi c b).
Proof.
  unfold ReportLunsToScsi. blinds; auto using blind_NsLen, blind_LunsLoop.
Qed.
Lemma blind_Block i b l : blind (WriteBlockDescriptor i b l).
Proof. unfold WriteBlockDescriptor. blinds; auto using blind_lbads, blind_shl. Qed.
Lemma blind_Page p g b : blind (WritePageData p g b).
Proof. unfold WritePageData. blinds. Qed.
Lemma blind_ModeScsi a i10 g i b : blind (ModeSenseToScsi a i10 g i b).
Proof.
  unfold ModeSenseToScsi, WriteMode10Header, WriteMode6Header. destruct (ca_dbd a); blinds; auto using blind_Block, blind_Page.
Qed.
Lemma blind_Mode6Scsi c i g b : blind (ModeSense6ToScsi c i g b).
Proof. unfold ModeSense6ToScsi. blinds; apply blind_ModeScsi. Qed.
Lemma blind_Mode10Scsi c i g b : blind (ModeSense10ToScsi c i g b).
Proof. unfold ModeSense10ToScsi. blinds; apply blind_ModeScsi. Qed.
Lemma blind_BuildId ns b : blind (BuildIdentificationDescriptor ns b).
Proof. unfold BuildIdentificationDescriptor. blinds. Qed.
Definition blind_at_w {A} (m : M A) (w : world) : Prop := forall j, m (HistorySpec.with_junk w j) = shift j (m w).
Lemma blind_Inquiry s buffer a b w bs : span_holds w s bs -> ~ (inq_evpd bs = 1 /\ inq_page bs = 0x80) ->
  blind_at_w (InquiryToScsi (subspan s 1) buffer a b) w.
Proof.
  intros Hs Hn j. destruct (le_lt_dec 6 (length bs)) as [Hl|Hl].
  - unfold InquiryToScsi, bind.
    assert (Hs' : span_holds (HistorySpec.with_junk w j) s bs) by (destruct Hs as [A B]; split; [exact A|exact B]).
    rewrite (cdb_ReadValue InquiryCommand s w bs Hs Hl ltac:(cbn; lia)), (cdb_ReadValue InquiryCommand s _ bs Hs' Hl ltac:(cbn; lia)).
    cbv zeta. change (sizeof InquiryCommand) with 5%nat.
    rewrite InquiryFacts.inq_evpd_eq, InquiryFacts.inq_page_eq by exact Hl.
    assert (He : inq_evpd bs < 2) by apply (bits_lt _ 0 1).
    destruct (N.eqb_spec (inq_evpd bs) 0) as [E0|E0]; cbn [negb].
    + apply (fun H : blind _ => H w j). unfold TranslateStandardInquiry. blinds.
    + destruct (inq_page bs =? kSupportedVpd); [apply (fun H : blind _ => H w j); unfold TranslateSupportedVpdPages; blinds|].
      destruct (N.eqb_spec (inq_page bs) kUnitSerialNumber) as [E8|E8]; [exfalso; apply Hn; split; [lia|exact E8]|].
      destruct (inq_page bs =? kDeviceIdentification); [apply (fun H : blind _ => H w j); unfold TranslateDeviceIdentificationVpd; blinds; auto using blind_BuildId|].
      destruct (inq_page bs =? kExtended); [apply (fun H : blind _ => H w j); unfold TranslateExtendedInquiryDataVpd; blinds|].
      destruct (inq_page bs =? kBlockLimitsVpd); [apply (fun H : blind _ => H w j); unfold TranslateBlockLimitsVpd; blinds|].
      destruct (inq_page bs =? kBlockDeviceCharacteristicsVpd); [apply (fun H : blind _ => H w j); unfold TranslateBlockDeviceCharacteristicsVpd; blinds|].
      destruct (inq_page bs =? kLogicalBlockProvisioningVpd); [apply (fun H : blind _ => H w j); unfold TranslateLogicalBlockProvisioningVpd; blinds|].
      reflexivity.
  - unfold InquiryToScsi, bind. assert (len (subspan s 1) < 5).
    { destruct Hs as [E _]. unfold subspan. destruct (N.leb_spec (len s) 1); [reflexivity|]. cbn [len]. lia. }
    rewrite !ReadValue_short by exact H. reflexivity.
Qed.

Lemma blind_switch_at opc s buffer cpls t w bs : span_holds w s bs -> opc = byte_at bs 0 ->
  ~ (byte_at bs 0 = 0x12 /\ inq_evpd bs = 1 /\ inq_page bs = 0x80) ->
  blind_at_w (Complete_switch opc (subspan s 1) buffer cpls t) w.
Proof.
  intros Hs Ho Hn j. unfold Complete_switch. cbv zeta.
  destruct (opc =? kVerify10); [reflexivity|].
  destruct (N.eqb_spec opc kInquiry) as [Ei|Ei].
  { apply (blind_Inquiry s buffer _ _ w bs Hs). intros [A B]. apply Hn. split; [rewrite <- Ho; exact Ei|auto]. }
  destruct (opc =? kModeSense6); [apply (fun H : blind _ => H w j); unfold cpl0_cdw0; destruct cpls; blinds; apply blind_Mode6Scsi|].
  destruct (opc =? kModeSense10); [apply (fun H : blind _ => H w j); unfold cpl0_cdw0; destruct cpls; blinds; apply blind_Mode10Scsi|].
  destruct (opc =? kMaintenanceIn); [apply (fun H : blind _ => H w j); blinds; apply blind_Report|].
  destruct (opc =? kReportLuns); [apply (fun H : blind _ => H w j), blind_LunsToScsi|].
  destruct (opc =? kUnmap); [reflexivity|].
  destruct (opc =? kReadCapacity10); [apply (fun H : blind _ => H w j), blind_ReadCapacity|].
  destruct (opc =? kRequestSense); [apply (fun H : blind _ => H w j), blind_RequestSense|].
  destruct (_ || _); [reflexivity|]. destruct (opc =? kSync10); [reflexivity|]. destruct (_ || _); reflexivity.
Qed.

Lemma blind_Abort t : blind (AbortPipeline t).
Proof.
  unfold AbortPipeline, FlushMemory. apply blind_bind; [|intros; blinds].
  repeat first [apply blind_FlushLoop | apply blind_bind; [|intro] | apply blind_ret].
Qed.
