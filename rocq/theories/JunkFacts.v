(** Begin does not look at uninitialised automatic storage. *)
From Coq Require Import Arith NArith String List Lia Bool Init.Byte.
From Verif Require Import Bytes Layout World ScsiDefs NvmeDefs Common ReadCmds WriteCmds SmallCmds UnmapCmd ModeSenseCmd InquiryCmd TranslationCls HistorySpec.
Import ListNotations.
Local Open Scope string_scope.
Local Open Scope list_scope.
Local Open Scope N_scope.

Definition shift {A} (j : nat -> N -> byte) (o : outcome A) : outcome A :=
  match o with Ret a w => Ret a (with_junk w j) | UB s => UB s end.
Definition blind {A} (m : M A) : Prop := forall w j, m (with_junk w j) = shift j (m w).

Lemma blind_ret {A} (a : A) : blind (ret a). Proof. intros w j. reflexivity. Qed.
Lemma blind_ub {A} s : blind (@ub A s). Proof. intros w j. reflexivity. Qed.
Lemma blind_bind {A B} (m : M A) (k : A -> M B) : blind m -> (forall a, blind (k a)) -> blind (bind m k).
Proof. intros Hm Hk w j. unfold bind. rewrite Hm. destruct (m w) as [a w'|]; cbn [shift]; [apply Hk|reflexivity]. Qed.
Lemma blind_load a n : blind (load a n).
Proof. intros w j. unfold load. cbn [with_junk mem]. destruct (load_bytes (mem w) a n); reflexivity. Qed.
Lemma blind_store a bs : blind (store a bs).
Proof. intros w j. unfold store. cbn [with_junk mem]. destruct (load_bytes (mem w) a (length bs)); reflexivity. Qed.
Lemma blind_Alloc ps n : blind (AllocPages ps n).
Proof.
  intros w j. unfold AllocPages. cbn [with_junk alloc_cb ans tick fill mem]. destruct (alloc_cb w); [|reflexivity]. cbn [negb].
  destruct (u64 (ans w (tick w) ps n) =? 0); reflexivity.
Qed.
Lemma blind_Dealloc a n : blind (DeallocPages a n).
Proof. intros w j. unfold DeallocPages. cbn [with_junk dealloc_cb]. destruct (dealloc_cb w); reflexivity. Qed.
Lemma blind_Read l s : blind (ReadValue l s).
Proof. unfold ReadValue. destruct (_ <? _); [apply blind_ret|]. apply blind_bind; [apply blind_load|intros; apply blind_ret]. Qed.
Lemma blind_at s i : blind (span_at s i).
Proof. unfold span_at. destruct (_ <? _); [|apply blind_ub]. apply blind_bind; [apply blind_load|intros; apply blind_ret]. Qed.
Lemma blind_SetPages al ps d m : blind (SetPages al ps d m).
Proof.
  unfold SetPages. destruct (_ || _); [apply blind_ret|]. apply blind_bind; [apply blind_Alloc|intros]. apply blind_bind; [apply blind_Alloc|intros].
  destruct (_ || _); apply blind_ret.
Qed.

Ltac blindly :=
  repeat first
    [ apply blind_ret | apply blind_ub | apply blind_load | apply blind_store | apply blind_Alloc | apply blind_Dealloc
    | apply blind_Read | apply blind_at | apply blind_SetPages
    | apply blind_bind; [|intro]
    | match goal with
      | |- blind (match ?x with _ => _ end) => destruct x
      | |- blind (let '_ := ?x in _) => destruct x
      | |- blind (if ?x then _ else _) => destruct x
      end ].

Lemma blind_desc n : forall s, blind (read_descriptors n s).
Proof. induction n as [|n IH]; intros s; cbn [read_descriptors]; blindly. apply IH. Qed.
Lemma blind_ranges ds : forall s, blind (write_ranges ds s).
Proof. induction ds as [|d ds IH]; intros s; cbn [write_ranges]; blindly. apply IH. Qed.
Lemma blind_Unmap c b wr ps nsid al : blind (UnmapToNvme c b wr ps nsid al).
Proof. unfold UnmapToNvme. repeat first [progress blindly | apply blind_desc | apply blind_ranges]. Qed.
Lemma blind_Mode a wrs al ps nsid n : blind (ModeSenseToNvme a wrs al ps nsid n).
Proof. unfold ModeSenseToNvme, GenerateBlockDescriptorIdentifyCmd, GenerateCacheGetFeaturesCmd. blindly. Qed.
Lemma blind_Mode6 c wrs al ps nsid n rl : blind (ModeSense6ToNvme c wrs al ps nsid n rl).
Proof. unfold ModeSense6ToNvme. repeat first [progress blindly | apply blind_Mode]. Qed.
Lemma blind_Mode10 c wrs al ps nsid n rl : blind (ModeSense10ToNvme c wrs al ps nsid n rl).
Proof. unfold ModeSense10ToNvme. repeat first [progress blindly | apply blind_Mode]. Qed.
Lemma blind_Luns c wr ps al rl : blind (ReportLunsToNvme c wr ps al rl).
Proof. unfold ReportLunsToNvme. blindly. Qed.
Lemma blind_BLuns c t rl : blind (Begin_ReportLuns c t rl).
Proof. unfold Begin_ReportLuns. apply blind_bind; [apply blind_Luns|]. intros [[[? ?] ?] ?]. apply blind_ret. Qed.
Lemma blind_BMaint c t rl : blind (Begin_MaintenanceIn c t rl).
Proof. unfold Begin_MaintenanceIn. apply blind_bind; [unfold ValidateReportSupportedOpCodes; blindly|]. intros [? ?]. apply blind_BLuns. Qed.
Lemma blind_B6 c nsid t rl : blind (Begin_ModeSense6 c nsid t rl).
Proof. unfold Begin_ModeSense6. apply blind_bind; [apply blind_Mode6|]. intros [[[[? ?] ?] ?] ?]. apply blind_ret. Qed.
Lemma blind_switch opc c b nsid t rl : blind (Begin_switch opc c b nsid t rl).
Proof.
  unfold Begin_switch.
  repeat match goal with |- blind (if ?x then _ else _) => destruct x end; try apply blind_ret; try apply blind_BLuns; try apply blind_BMaint; try apply blind_B6.
  - unfold Begin_Inquiry, InquiryToNvme. blindly.
  - unfold Begin_Unmap. apply blind_bind; [apply blind_Unmap|]. intros [[? ?] ?]. apply blind_B6.
  - unfold Begin_ModeSense10. apply blind_bind; [apply blind_Mode10|]. intros [[[[? ?] ?] ?] ?]. apply blind_BMaint.
  - unfold Begin_ReadCapacity10, ReadCapacity10ToNvme. blindly.
  - unfold Begin_RequestSense, RequestSenseToNvme. blindly.
  - unfold Begin_Read, Read6ToNvme. blindly.
  - unfold Begin_Read, Read10ToNvme. blindly.
  - unfold Begin_Read, Read12ToNvme. blindly.
  - unfold Begin_Read, Read16ToNvme. blindly.
  - unfold Begin_Verify10, VerifyToNvme. blindly.
  - unfold Begin_Write, Write6ToNvme. blindly.
  - unfold Begin_Write, Write10ToNvme. blindly.
  - unfold Begin_Write, Write12ToNvme. blindly.
  - unfold Begin_Write, Write16ToNvme. blindly.
Qed.
Lemma blind_FlushLoop n : forall i al, blind (FlushLoop n i al).
Proof. induction n as [|n IH]; intros i al; cbn [FlushLoop]; [apply blind_ret|]. destruct (aget al i); [|apply blind_ub]. apply blind_bind; [unfold FlushOne; blindly|intros; apply IH]. Qed.
Lemma blind_Begin t c b lun : blind (Begin t c b lun).
Proof.
  unfold Begin. destruct (negb _); [apply blind_ret|]. destruct (len c =? 0); [apply blind_ret|]. cbv zeta.
  apply blind_bind; [apply blind_at|intros o]. apply blind_bind; [apply blind_switch|intros [t1 l]].
  apply blind_bind; [|intros t2; apply blind_ret]. unfold Begin_finish. destruct (negb _); [|apply blind_ret].
  apply blind_bind; [|intros; apply blind_ret]. unfold FlushMemory. apply blind_bind; [apply blind_FlushLoop|intros; apply blind_ret].
Qed.
