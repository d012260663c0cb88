(** Complete: frame and bookkeeping; the protocol invariant over histories. *)
From Coq Require Import Arith NArith String List Lia Bool Init.Byte Permutation.
From Coq Require Import ZifyBool ZifyNat ZifyN.
From Verif Require Import Bytes Layout World ScsiDefs NvmeDefs Common ReadCmds WriteCmds SmallCmds
  UnmapCmd StatusCmd ModeSenseCmd InquiryCmd TranslationCls Spec Facts Logic BeginFacts.
Import ListNotations.
Local Open Scope string_scope.
Local Open Scope list_scope.
Local Open Scope N_scope.

(** ** Everything Complete runs writes only inside the data buffer *)
Ltac in_sub := solve [ intros; repeat (eapply subspan_in); eassumption
                     | auto
                     | let x := fresh "x" in let H := fresh in
                       intros x H; repeat (apply subspan_in in H); auto ].
Ltac confine_step :=
  match goal with
  | |- confined _ (bind _ _) => apply confined_bind; [|intros]
  | |- confined _ (ret _) => apply confined_ret
  | |- confined _ (ub _) => apply confined_ub
  | |- confined _ (load _ _) => apply confined_load
  | |- confined _ (ReadValue _ _) => apply confined_ReadValue
  | |- confined _ (rd_field _ _ _) => apply confined_rd_field
  | |- confined _ (WriteValue _ _) => apply confined_WriteValue; in_sub
  | |- confined _ (WriteValue_n _ _ _) => apply confined_WriteValue_n; in_sub
  | |- confined _ (stack_junk _) => apply confined_junk
  | |- confined _ (if ?b then _ else _) => destruct b
  | |- confined _ (let '(_, _) := ?p in _) => destruct p
  | |- confined _ (match ?o with Some _ => _ | None => _ end) => destruct o
  | x : (_ * _)%type |- _ => destruct x
  end.
Ltac confine := repeat (cbv beta zeta; confine_step).

Lemma rd_lbads_confined P ns : confined P (rd_lbads ns).
Proof. unfold rd_lbads. confine. Qed.
Lemma rd_nsid_confined P ns i : confined P (rd_nsid ns i).
Proof. unfold rd_nsid. confine. Qed.
Lemma shl1_int_confined P n : confined P (shl1_int n).
Proof. unfold shl1_int. confine. Qed.

Section Buffer.
  Variable P : N -> Prop.

  Lemma ReadCapacity10ToScsi_confined b c : (forall x, in_span b x -> P x) -> confined P (ReadCapacity10ToScsi b c).
  Proof. intros H. unfold ReadCapacity10ToScsi. confine; apply rd_lbads_confined. Qed.

  Lemma RequestSenseToScsi_confined c b : (forall x, in_span b x -> P x) -> confined P (RequestSenseToScsi c b).
  Proof. intros H. unfold RequestSenseToScsi, TranslateDescriptorSenseData, TranslateFixedSenseData. confine. Qed.

  Lemma WriteReport_confined b : (forall x, in_span b x -> P x) -> confined P (WriteReportSupportedOpCodesResult b).
  Proof. intros H. unfold WriteReportSupportedOpCodesResult. confine. Qed.

  Lemma GetNsListLength_confined ns : confined P (GetNsListLength ns).
  Proof.
    unfold GetNsListLength. generalize 0 at 1. generalize kIdentifyNsListMaxLength.
    induction n as [|n IH]; intros i; cbn [GetNsListLength_loop]; confine; auto using rd_nsid_confined.
  Qed.
  Lemma ReportLuns_loop_confined ns b n : (forall x, in_span b x -> P x) -> forall i, confined P (ReportLuns_loop ns b n i).
  Proof.
    intros H. induction n as [|n IH]; intros i; cbn [ReportLuns_loop]; confine; auto using rd_nsid_confined.
  Qed.
  Lemma ReportLunsToScsi_confined c b : (forall x, in_span b x -> P x) -> confined P (ReportLunsToScsi c b).
  Proof.
    intros H. unfold ReportLunsToScsi. confine; auto using GetNsListLength_confined, ReportLuns_loop_confined.
  Qed.

  Lemma WriteBlockDescriptor_confined i b l : (forall x, in_span b x -> P x) -> confined P (WriteBlockDescriptor i b l).
  Proof. intros H. unfold WriteBlockDescriptor. confine; auto using rd_lbads_confined, shl1_int_confined. Qed.
  Lemma WritePageData_confined p g b : (forall x, in_span b x -> P x) -> confined P (WritePageData p g b).
  Proof. intros H. unfold WritePageData. confine. Qed.
  Lemma ModeSenseToScsi_confined a i10 g i b : (forall x, in_span b x -> P x) -> confined P (ModeSenseToScsi a i10 g i b).
  Proof.
    intros H. unfold ModeSenseToScsi, WriteMode10Header, WriteMode6Header. destruct (ca_dbd a); confine;
      try (apply WriteBlockDescriptor_confined; in_sub); apply WritePageData_confined; in_sub.
  Qed.
  Lemma ModeSense6ToScsi_confined c i g b : (forall x, in_span b x -> P x) -> confined P (ModeSense6ToScsi c i g b).
  Proof. intros H. unfold ModeSense6ToScsi. confine. apply ModeSenseToScsi_confined. exact H. Qed.
  Lemma ModeSense10ToScsi_confined c i g b : (forall x, in_span b x -> P x) -> confined P (ModeSense10ToScsi c i g b).
  Proof. intros H. unfold ModeSense10ToScsi. confine. apply ModeSenseToScsi_confined. exact H. Qed.

  Lemma BuildIdentificationDescriptor_confined ns b : (forall x, in_span b x -> P x) ->
    confined P (BuildIdentificationDescriptor ns b).
  Proof. intros H. unfold BuildIdentificationDescriptor. confine. Qed.
  Lemma InquiryToScsi_confined c b i0 i1 : (forall x, in_span b x -> P x) -> confined P (InquiryToScsi c b i0 i1).
  Proof.
    intros H. unfold InquiryToScsi, TranslateSupportedVpdPages, TranslateUnitSerialNumberVpd,
      TranslateDeviceIdentificationVpd, TranslateExtendedInquiryDataVpd, TranslateBlockLimitsVpd,
      TranslateBlockDeviceCharacteristicsVpd, TranslateLogicalBlockProvisioningVpd, TranslateStandardInquiry.
    confine. apply BuildIdentificationDescriptor_confined; in_sub.
  Qed.

  Lemma Complete_switch_confined opc c b cpls t : (forall x, in_span b x -> P x) ->
    confined P (Complete_switch opc c b cpls t).
  Proof.
    intros H. unfold Complete_switch, cpl0_cdw0. cbv zeta.
    repeat match goal with |- confined P (if ?b then _ else _) => destruct b end;
      confine; auto using InquiryToScsi_confined, ModeSense6ToScsi_confined, ModeSense10ToScsi_confined,
        WriteReport_confined, ReportLunsToScsi_confined, ReadCapacity10ToScsi_confined, RequestSenseToScsi_confined;
      destruct cpls; confine.
  Qed.
End Buffer.

(** ** Complete *)
Definition buffers (b s : span) (x : N) : Prop := in_span b x \/ in_span s x.

Lemma released_nil_inv w w' : released w w' [] -> mem w' = mem w /\ trace w' = trace w.
Proof.
  intros [A _ _ D]. split; [exact A|]. rewrite D. destruct (dealloc_cb w); apply app_nil_r.
Qed.

(** Complete on a busy object *)
Lemma Complete_spec t cpls buffer sense w : wf t -> pipeline_status t <> kUninitialized ->
  pst (Complete t cpls buffer sense) w (fun r w' => let '(t', rsp) := r in
    idle t' /\ exists w1, framed (buffers buffer sense) w w1 /\ released w1 w' (held t) /\
    (N.of_nat (length cpls) <> nvme_cmd_count t -> cr_status rsp = ApiFailure /\ w1 = w) /\
    (N.of_nat (length cpls) = nvme_cmd_count t -> cr_status rsp = ApiSuccess)).
Proof.
  intros W Hu. unfold Complete. destruct (is_uninitialized (pipeline_status t)) eqn:Eu.
  { destruct (pipeline_status t); try discriminate. contradiction. }
  assert (A : forall t2 w1, wf t2 -> tst (AbortPipeline t2) w1 (fun t' w' => idle t' /\ released w1 w' (held t2)))
    by (intros; apply AbortPipeline_spec; assumption).
  assert (A' : forall t2 w1, wf t2 -> pst (AbortPipeline t2) w1 (fun t' w' => idle t' /\ released w1 w' (held t2))).
  { intros t2 w1 H. specialize (A t2 w1 H). unfold tst in A. unfold pst. destruct (AbortPipeline t2 w1); auto. }
  destruct (N.eqb_spec (N.of_nat (length cpls)) (nvme_cmd_count t)) as [En|En]; cbn [negb].
  2:{ apply pst_bind. eapply pst_mono; [apply A'; exact W|]. intros t' w' [I R]. apply pst_ret.
      split; [exact I|]. exists w. split; [apply framed_refl|]. split; [exact R|]. split; [auto|contradiction]. }
  destruct (is_success (pipeline_status t)) eqn:Es; cbn [negb].
  2:{ cbv zeta. apply pst_bind. eapply pst_mono.
      { apply (FillSenseBuffer_confined _ _ (buffers buffer sense)). intros x Hx. right. exact Hx. }
      intros b w1 F. apply pst_bind. eapply pst_mono; [apply A'; exact W|]. intros t' w' [I R]. apply pst_ret.
      split; [exact I|]. exists w1. split; [exact F|]. split; [exact R|]. split; [contradiction|reflexivity]. }
  destruct (first_error cpls) as [s|].
  - apply pst_bind. eapply pst_mono.
    { apply (FillSenseBuffer_confined _ _ (buffers buffer sense)). intros x Hx. right. exact Hx. }
    intros b w1 F. apply pst_bind. eapply pst_mono; [apply A'; exact W|]. intros t' w' [I R]. apply pst_ret.
    split; [exact I|]. exists w1. split; [exact F|]. split; [exact R|]. split; [contradiction|reflexivity].
  - cbv zeta. apply pst_bind. eapply pst_mono; [apply confined_span_at|]. intros opc w1 F1.
    apply pst_bind. eapply pst_mono.
    { apply (Complete_switch_confined (buffers buffer sense)). intros x Hx. left. exact Hx. }
    intros st w2 F2. apply pst_bind. eapply pst_mono; [apply A'; exact W|]. intros t' w' [I R]. apply pst_ret.
    split; [exact I|]. exists w2. split; [exact (framed_trans _ _ _ _ F1 F2)|]. split; [exact R|].
    split; [contradiction|reflexivity].
Qed.

(** ** The invariant of histories *)
Record inv (b : bool) (t : Translation) : Prop := {
  i_busy : b = negb (is_uninitialized (pipeline_status t));
  i_wf : wf t;
  i_idle : pipeline_status t <> kSuccess -> nvme_cmd_count t = 0 /\ held t = []
}.
Lemma inv_idle t : inv false t -> idle t.
Proof.
  intros [B W I]. assert (pipeline_status t = kUninitialized).
  { destruct (pipeline_status t); try discriminate. reflexivity. }
  split; [assumption|]. apply I. congruence.
Qed.
Lemma idle_inv t : idle t -> inv false t.
Proof.
  intros (A & B & C). split.
  - rewrite A. reflexivity.
  - apply wf_fresh. split; assumption.
  - intros _. split; assumption.
Qed.

Lemma Begin_busy t cdb buffer lun w : pipeline_status t <> kUninitialized ->
  Begin t cdb buffer lun w = Ret (t, {| br_status := ApiFailure; br_alloc_len := 0 |}) w.
Proof. intros H. unfold Begin. destruct (pipeline_status t); try reflexivity. contradiction. Qed.

Lemma Complete_idle t cpls buffer sense w : pipeline_status t = kUninitialized ->
  Complete t cpls buffer sense w = Ret (t, {| cr_status := ApiFailure; cr_scsi_status := 0 |}) w.
Proof. intros H. unfold Complete. rewrite H. reflexivity. Qed.

Lemma no_ok_span w s : ok_span false w s. Proof. intros H. discriminate. Qed.

Lemma inv_begin b t cdb buffer lun w t' r w' : inv b t -> Begin t cdb buffer lun w = Ret (t', r) w' ->
  inv (b || is_api_success (br_status r)) t'.
Proof.
  intros I E. destruct b.
  - rewrite Begin_busy in E.
    + injection E as <- <- <-. exact I.
    + intros Hu. pose proof (i_busy _ _ I) as B. rewrite Hu in B. discriminate.
  - pose proof (Begin_idle_spec false t cdb buffer lun w (inv_idle _ I) (no_ok_span _ _) (no_ok_span _ _)) as H.
    unfold cst in H. rewrite E in H. destruct H as (Hr & W & Hu & Hf & _). rewrite Hr. cbn.
    constructor; auto. destruct (pipeline_status t'); try reflexivity. contradiction.
Qed.

Lemma inv_abort b t w t' w' : inv b t -> AbortPipeline t w = Ret t' w' -> inv false t'.
Proof.
  intros I E. pose proof (AbortPipeline_spec t w (i_wf _ _ I)) as H.
  apply (tst_use _ _ _ _ _ H) in E as [Hi _]. apply idle_inv. exact Hi.
Qed.

Lemma inv_complete b t cpls buffer sense w t' r w' : inv b t ->
  Complete t cpls buffer sense w = Ret (t', r) w' -> inv false t'.
Proof.
  intros I E. destruct (is_uninitialized (pipeline_status t)) eqn:Eu.
  - assert (Hu : pipeline_status t = kUninitialized) by (destruct (pipeline_status t); try discriminate; reflexivity).
    rewrite Complete_idle in E by exact Hu. injection E as <- _ _.
    pose proof (i_busy _ _ I) as B. rewrite Eu in B. cbn in B. subst b. exact I.
  - pose proof (Complete_spec t cpls buffer sense w (i_wf _ _ I)) as H.
    assert (Hu : pipeline_status t <> kUninitialized) by (intros Hu; rewrite Hu in Eu; discriminate).
    specialize (H Hu). apply (pst_use _ _ _ _ _ H) in E. destruct E as [Hi _]. apply idle_inv. exact Hi.
Qed.

Lemma idle_init wr : idle (Translation_init wr).
Proof. split; [reflexivity|]. split; reflexivity. Qed.

Theorem reach_inv env b t w : reach env b t w -> inv b t.
Proof.
  induction 1 as [wr w He Ht|b t w w' H IH He Ht|b t w cdb buffer lun t' r w' H IH E
                 |b t w cpls buffer sense t' r w' H IH E|b t w t' w' H IH E].
  - apply idle_inv, idle_init.
  - exact IH.
  - eapply inv_begin; eassumption.
  - eapply inv_complete; eassumption.
  - eapply inv_abort; eassumption.
Qed.

(** ** The ledger *)
Lemma ledger_app a b : ledger (a ++ b) = fold_left ledger_step b (ledger a).
Proof. unfold ledger. apply fold_left_app. Qed.

Lemma ledger_alloc evs l : Forall is_alloc evs ->
  exists l', fold_left ledger_step evs (Some l) = Some l' /\ Permutation l' (acquired evs ++ l).
Proof.
  intros H. revert l. induction H as [|e evs He H IH]; intros l; cbn [fold_left acquired].
  - exists l. split; [reflexivity|apply Permutation_refl].
  - destruct e as [ps n a|]; [|contradiction]. cbn [ledger_step].
    destruct (IH (if a =? 0 then l else (a, n) :: l)) as [l' [E P]]. exists l'. split; [exact E|].
    rewrite P. destruct (a =? 0); cbn [app]; [apply Permutation_refl|].
    apply Permutation_sym, Permutation_middle.
Qed.

Lemma remove_run_in p l : In p l -> exists l', remove_run p l = Some l' /\ Permutation (p :: l') l.
Proof.
  induction l as [|q l IH]; intros H; [contradiction|]. cbn [remove_run].
  destruct ((fst p =? fst q) && (snd p =? snd q)) eqn:E.
  - exists l. split; [reflexivity|]. assert (p = q) by (destruct p, q; cbn in E; f_equal; lia). subst. apply Permutation_refl.
  - destruct H as [->|H]; [rewrite !N.eqb_refl in E; discriminate|].
    destruct (IH H) as [l' [E' P]]. rewrite E'. exists (q :: l'). split; [reflexivity|].
    rewrite perm_swap. constructor. exact P.
Qed.

Lemma ledger_release l : forall o o', Permutation o (l ++ o') ->
  exists o'', fold_left ledger_step (releases l) (Some o) = Some o'' /\ Permutation o'' o'.
Proof.
  induction l as [|[a n] l IH]; intros o o' P; cbn [releases map fold_left app] in *.
  - exists o. split; [reflexivity|exact P].
  - cbn [ledger_step fst snd]. destruct (remove_run_in (a, n) o) as [o1 [E P1]].
    { apply (Permutation_in (l := (a, n) :: l ++ o')); [apply Permutation_sym; exact P|left; reflexivity]. }
    rewrite E. apply IH. apply Permutation_cons_inv with (a := (a, n)). rewrite P1. exact P.
Qed.

(** the environment assumption is not touched by the library *)
Lemma sane_cfg w w' : same_cfg w w' -> sane_allocator w -> sane_allocator w'.
Proof.
  intros [A B C _ _] (H1 & H2 & H3). split; [congruence|]. split; [congruence|]. intros k ps. rewrite C. apply H3.
Qed.

Definition books (t : Translation) (w : world) : Prop :=
  sane_allocator w /\ exists l, ledger (trace w) = Some l /\ Permutation l (held t).

Lemma released_books t w w' l : sane_allocator w -> released w w' l ->
  (exists o, ledger (trace w) = Some o /\ Permutation o (l ++ held t)) -> books t w'.
Proof.
  intros Hs R (o & E & P). split; [eapply sane_cfg; [apply R|exact Hs]|].
  destruct R as [_ _ _ D]. destruct Hs as (_ & Hd & _). rewrite Hd in D. rewrite D, ledger_app, E.
  apply ledger_release. exact P.
Qed.

Theorem reach_books b t w : reach sane_allocator b t w -> books t w.
Proof.
  intros R. induction R as [wr w He Ht|b t w w' H IH He Ht|b t w cdb buffer lun t' r w' H IH E
                 |b t w cpls buffer sense t' r w' H IH E|b t w t' w' H IH E].
  - split; [exact He|]. exists []. rewrite Ht. split; [reflexivity|]. cbn. constructor.
  - destruct IH as [_ IH]. split; [exact He|]. rewrite Ht. exact IH.
  - pose proof (reach_inv _ _ _ _ H) as I. destruct IH as (Hs & l & El & Pl). destruct b.
    + rewrite Begin_busy in E.
      * injection E as <- <- <-. split; [exact Hs|]. eauto.
      * intros Hu. pose proof (i_busy _ _ I) as B. rewrite Hu in B. discriminate.
    + pose proof (inv_idle _ I) as Hi.
      pose proof (Begin_idle_spec false t cdb buffer lun w Hi (no_ok_span _ _) (no_ok_span _ _)) as HB.
      unfold cst in HB. rewrite E in HB. destruct HB as (_ & _ & _ & _ & _ & w1 & evs & rel & G & Rl & _ & P).
      destruct Hi as (_ & _ & Hh). rewrite Hh in Pl. apply Permutation_sym, Permutation_nil in Pl. subst l.
      destruct Hs as (Ha & Hd & Hz).
      apply (released_books _ w1 _ rel).
      * eapply sane_cfg; [apply G|]. split; [exact Ha|split; assumption].
      * exact Rl.
      * rewrite (g_trace _ _ _ G), ledger_app, El.
        destruct (ledger_alloc evs [] (g_alloc _ _ _ G)) as [l' [E' P']]. exists l'. split; [exact E'|].
        rewrite P', app_nil_r. apply Permutation_sym. apply P. exact Hz.
  - pose proof (reach_inv _ _ _ _ H) as I. destruct IH as (Hs & l & El & Pl).
    destruct (is_uninitialized (pipeline_status t)) eqn:Eu.
    + assert (Hu : pipeline_status t = kUninitialized) by (destruct (pipeline_status t); try discriminate; reflexivity).
      rewrite Complete_idle in E by exact Hu. injection E as <- _ <-. split; [exact Hs|]. eauto.
    + assert (Hu : pipeline_status t <> kUninitialized) by (intros Hu; rewrite Hu in Eu; discriminate).
      pose proof (Complete_spec t cpls buffer sense w (i_wf _ _ I) Hu) as HC.
      apply (pst_use _ _ _ _ _ HC) in E. destruct E as ((_ & _ & Hh) & w1 & F & Rl & _).
      apply (released_books _ w1 _ (held t)).
      * eapply sane_cfg; [apply F|exact Hs].
      * exact Rl.
      * rewrite (f_trace _ _ _ F). exists l. split; [exact El|]. rewrite Hh, app_nil_r. exact Pl.
  - pose proof (reach_inv _ _ _ _ H) as I. destruct IH as (Hs & l & El & Pl).
    pose proof (AbortPipeline_spec t w (i_wf _ _ I)) as HA. apply (tst_use _ _ _ _ _ HA) in E.
    destruct E as ((_ & _ & Hh) & Rl). apply (released_books _ w _ (held t)); auto.
    exists l. split; [exact El|]. rewrite Hh, app_nil_r. exact Pl.
Qed.
