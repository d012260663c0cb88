(** Status translation, sense data, the failure paths of Complete. *)
From Coq Require Import Arith NArith String List Lia Bool Init.Byte Permutation.
From Coq Require Import ZifyBool ZifyNat ZifyN.
From Verif Require Import Bytes Layout World ScsiDefs NvmeDefs Common ReadCmds WriteCmds SmallCmds
  UnmapCmd StatusCmd ModeSenseCmd InquiryCmd TranslationCls Spec Facts Logic BeginFacts CompleteFacts
  WireFacts.
Import ListNotations.
Local Open Scope string_scope.
Local Open Scope list_scope.
Local Open Scope N_scope.

Definition tuple (s : ScsiStatus) : N * N * N * N := (st_status s, st_sense_key s, st_asc s, st_ascq s).
Definition tuple_eqb (a b : N * N * N * N) : bool :=
  let '(a1, a2, a3, a4) := a in let '(b1, b2, b3, b4) := b in
  (a1 =? b1) && (a2 =? b2) && (a3 =? b3) && (a4 =? b4).
Lemma tuple_eqb_eq a b : tuple_eqb a b = true -> a = b.
Proof.
  destruct a as [[[? ?] ?] ?], b as [[[? ?] ?] ?]. cbn. intros H.
  repeat (apply andb_prop in H as [H ?]). repeat match goal with H : (_ =? _) = true |- _ => apply N.eqb_eq in H end.
  congruence.
Qed.

Definition upto (n : nat) : list N := map N.of_nat (seq 0 n).
Lemma upto_in n x : x < N.of_nat n -> In x (upto n).
Proof.
  intros H. unfold upto. apply in_map_iff. exists (N.to_nat x). split; [lia|]. apply in_seq. lia.
Qed.

Lemma status_table_ok sct sc : sct < 8 -> sc < 256 -> tuple (StatusToScsi sct sc) = scsi_status_of sct sc.
Proof.
  intros H1 H2.
  assert (H : forallb (fun a => forallb (fun b => tuple_eqb (tuple (StatusToScsi a b)) (scsi_status_of a b))
                (upto 256)) (upto 8) = true) by (vm_compute; reflexivity).
  rewrite forallb_forall in H. specialize (H sct (upto_in 8 sct H1)).
  rewrite forallb_forall in H. specialize (H sc (upto_in 256 sc H2)).
  apply tuple_eqb_eq. exact H.
Qed.

Lemma status_good sct sc : sct < 8 -> sc < 256 ->
  (fst (fst (fst (scsi_status_of sct sc))) = GOOD <-> sct = 0 /\ sc = 0).
Proof.
  intros H1 H2.
  assert (H : forallb (fun a => forallb (fun b =>
     Bool.eqb (fst (fst (fst (scsi_status_of a b))) =? GOOD) ((a =? 0) && (b =? 0)))
                (upto 256)) (upto 8) = true) by (vm_compute; reflexivity).
  rewrite forallb_forall in H. specialize (H sct (upto_in 8 sct H1)).
  rewrite forallb_forall in H. specialize (H sc (upto_in 256 sc H2)).
  apply eqb_prop in H. split; intros E.
  - rewrite E in H. change (GOOD =? GOOD) with true in H. lia.
  - destruct E as [-> ->]. reflexivity.
Qed.

Lemma cpl_sct_lt c : cpl_sct c < 8. Proof. apply (bits_lt c _ 3). Qed.
Lemma cpl_sc_lt c : cpl_sc c < 256. Proof. apply (bits_lt c _ 8). Qed.

Lemma cpl_fields c : get GenericCpl "sct" c = cpl_sct c /\ get GenericCpl "sc" c = cpl_sc c /\
  get GenericCpl "cdw0" c = cpl_dw0 c.
Proof. fields. split; [reflexivity|]. split; reflexivity. Qed.

(** sense keys and codes fit *)
Lemma table_range sct sc : sct < 8 -> sc < 256 ->
  let '(_, k, a, q) := scsi_status_of sct sc in k < 16 /\ a < 256 /\ q < 256.
Proof.
  intros H1 H2.
  assert (H : forallb (fun a => forallb (fun b => let '(_, k, a, q) := scsi_status_of a b in
     (k <? 16) && (a <? 256) && (q <? 256)) (upto 256)) (upto 8) = true) by (vm_compute; reflexivity).
  rewrite forallb_forall in H. specialize (H sct (upto_in 8 sct H1)).
  rewrite forallb_forall in H. specialize (H sc (upto_in 256 sc H2)).
  destruct (scsi_status_of sct sc) as [[[? k] a] q]. lia.
Qed.

Lemma first_error_ok cpls : Forall cpl_ok cpls -> first_error cpls = None.
Proof.
  induction 1 as [|c cpls [H1 H2] H IH]; cbn [first_error]; [reflexivity|].
  destruct (cpl_fields c) as (-> & -> & _). rewrite H1, H2. cbn. exact IH.
Qed.

Lemma first_error_at pre c post : Forall cpl_ok pre -> ~ cpl_ok c ->
  exists s, first_error (pre ++ c :: post) = Some s /\ tuple s = scsi_status_of (cpl_sct c) (cpl_sc c) /\
    st_status s <> GOOD.
Proof.
  induction 1 as [|c' cpls [H1 H2] H IH]; intros Hc; cbn [first_error app].
  - destruct (cpl_fields c) as (-> & -> & _).
    pose proof (status_table_ok _ _ (cpl_sct_lt c) (cpl_sc_lt c)) as T.
    pose proof (status_good _ _ (cpl_sct_lt c) (cpl_sc_lt c)) as G. rewrite <- T in G. cbn in G.
    assert (Hn : st_status (StatusToScsi (cpl_sct c) (cpl_sc c)) <> 0) by (intros E; apply Hc, G, E).
    destruct (N.eqb_spec (st_status (StatusToScsi (cpl_sct c) (cpl_sc c))) kGood) as [E|E].
    { exfalso. apply Hn. exact E. }
    cbn [negb]. eexists. split; [reflexivity|]. split; [exact T|exact Hn].
  - destruct (cpl_fields c') as (-> & -> & _). rewrite H1, H2. cbn. apply IH. exact Hc.
Qed.

(** *** the sense bytes *)
Definition sense_number (j : N) (s : ScsiStatus) : N :=
  set_bits (set_bits (set_bits (set_bits (set_bits j 0 7 0x72) 8 4 (st_sense_key s)) 16 8 (st_asc s))
    24 8 (st_ascq s)) 56 8 0.

Lemma byte_at_le_encode n x i : (i < n)%nat -> byte_at (le_encode n x) i = bits x (8 * N.of_nat i) 8.
Proof.
  intros H. unfold byte_at. rewrite nth_le_encode by exact H. apply b2n_n2b_small. apply (bits_lt x _ 8).
Qed.

Lemma sense_bytes j s : st_sense_key s < 16 -> st_asc s < 256 -> st_ascq s < 256 ->
  sense_says (st_sense_key s) (st_asc s) (st_ascq s) (le_encode 8 (sense_number j s)).
Proof.
  intros H1 H2 H3. unfold sense_says, sense_number. rewrite le_encode_length, !byte_at_le_encode by lia.
  change (8 * N.of_nat 0) with 0. change (8 * N.of_nat 1) with 8. change (8 * N.of_nat 2) with 16.
  change (8 * N.of_nat 3) with 24. change (8 * N.of_nat 7) with 56.
  rewrite !bits_bits by (vm_compute; discriminate).
  change (0 + 0) with 0. change (8 + 0) with 8. cbits.
  repeat split; try reflexivity; apply bits_small; assumption.
Qed.

Lemma FillSense_ok sense s w : span_mapped w sense -> 8 <= len sense ->
  exists j w1, FillSenseBuffer sense s w = Ret true w1 /\
    w1 = set_mem (set_tick w (S (tick w)))
           (store_bytes (mem w) (ptr sense) (le_encode 8 (sense_number (le j) s))) /\
    j = map (fun i => junk w (tick w) (N.of_nat i)) (seq 0 8).
Proof.
  intros Hm Hl. unfold FillSenseBuffer. unfold bind, stack_junk.
  change (sizeof DescriptorFormatSenseData) with 8%nat.
  set (j := map (fun i => junk w (tick w) (N.of_nat i)) (seq 0 8)).
  cbv zeta. fields. change kCurrentDescriptorError with 0x72.
  fold (sense_number (le j) s).
  exists j. eexists. split; [|split; reflexivity].
  unfold repr. change (sizeof DescriptorFormatSenseData) with 8%nat.
  rewrite WriteValue_ok; [reflexivity| |]; rewrite le_encode_length.
  - exact Hl.
  - cbn [mem set_tick]. intros x Hx. apply Hm. lia.
Qed.

Lemma FillSense_short sense s w : len sense < 8 ->
  FillSenseBuffer sense s w = Ret false (set_tick w (S (tick w))).
Proof.
  intros H. unfold FillSenseBuffer, bind, stack_junk. cbv zeta. fields.
  unfold repr. change (sizeof DescriptorFormatSenseData) with 8%nat.
  rewrite WriteValue_short by (rewrite le_encode_length; exact H). reflexivity.
Qed.

(** what the failure paths leave behind *)
Definition sensed (w w' : world) (sense : span) (key asc ascq : N) : Prop :=
  (len sense < 8 -> same_memory w w') /\
  (8 <= len sense -> exists bs, sense_says key asc ascq bs /\ wrote w w' (ptr sense) bs).

Lemma FillSense_sensed sense s w : span_mapped w sense ->
  st_sense_key s < 16 -> st_asc s < 256 -> st_ascq s < 256 ->
  exists b w1, FillSenseBuffer sense s w = Ret b w1 /\ trace w1 = trace w /\ same_cfg w w1 /\
    sensed w w1 sense (st_sense_key s) (st_asc s) (st_ascq s).
Proof.
  intros Hm H1 H2 H3. destruct (N.ltb_spec (len sense) 8) as [Hl|Hl].
  - rewrite FillSense_short by exact Hl. do 2 eexists. split; [reflexivity|]. split; [reflexivity|].
    split; [constructor; reflexivity|].
    split; [intros _ x; reflexivity|lia].
  - destruct (FillSense_ok sense s w Hm Hl) as (j & w1 & E & -> & _). rewrite E. do 2 eexists.
    split; [reflexivity|]. split; [reflexivity|]. split; [constructor; reflexivity|].
    split; [lia|]. intros _. exists (le_encode 8 (sense_number (le j) s)).
    split; [apply sense_bytes; assumption|].
    pose proof (wrote_store w (ptr sense) (le_encode 8 (sense_number (le j) s))) as W. exact W.
Qed.

Lemma sensed_released w w1 w2 sense k a q l : sensed w w1 sense k a q -> released w1 w2 l -> sensed w w2 sense k a q.
Proof.
  intros [S1 S2] R. pose proof (r_mem _ _ _ R) as M. split.
  - intros H x. rewrite M. apply S1. exact H.
  - intros H. destruct (S2 H) as (bs & Hs & [W1 W2]). exists bs. split; [exact Hs|]. split.
    + intros i b Hi. rewrite M. apply W1. exact Hi.
    + intros x Hx. rewrite M. apply W2. exact Hx.
Qed.

Lemma Complete_rejected t cpls buffer sense w : wf t -> rejected t -> nvme_cmd_count t = 0 -> held t = [] ->
  span_mapped w sense -> cpls = [] ->
  exists t' w', Complete t cpls buffer sense w = Ret (t', api_ok CHECK_CONDITION) w' /\ idle t' /\
    sensed w w' sense 5 0x24 0 /\ trace w' = trace w.
Proof.
  intros W [Hs Hu] Hn Hh Hm ->. unfold Complete. cbn [length].
  destruct (is_uninitialized (pipeline_status t)) eqn:Eu; [destruct (pipeline_status t); try discriminate; contradiction|].
  rewrite Hn. cbn [N.of_nat N.eqb negb].
  destruct (is_success (pipeline_status t)) eqn:Es; [destruct (pipeline_status t); try discriminate; contradiction|].
  cbn [negb]. cbv zeta. unfold bind.
  set (s := {| st_status := kCheckCondition; st_sense_key := kIllegalRequest; st_asc := 0x24; st_ascq := 0 |}).
  destruct (FillSense_sensed sense s w Hm) as (b & w1 & -> & Tr & _ & Hse); try reflexivity.
  pose proof (AbortPipeline_spec t w1 W) as A. apply tst_inv in A as (t' & w2 & -> & Hi & R).
  rewrite Hh in R. destruct (released_nil_inv _ _ R) as [_ Tr2].
  exists t', w2. split; [reflexivity|]. split; [exact Hi|].
  split; [eapply sensed_released; eassumption|congruence].
Qed.

Lemma Complete_error t cpls pre c post buffer sense w : wf t -> accepted t ->
  N.of_nat (length cpls) = nvme_cmd_count t -> cpls = pre ++ c :: post -> Forall cpl_ok pre -> ~ cpl_ok c ->
  span_mapped w sense ->
  let '(st, key, asc, ascq) := scsi_status_of (cpl_sct c) (cpl_sc c) in
  exists t' w1 w', Complete t cpls buffer sense w = Ret (t', api_ok st) w' /\ st <> GOOD /\ idle t' /\
    sensed w w' sense key asc ascq /\ released w1 w' (held t) /\ trace w1 = trace w /\ same_cfg w w1.
Proof.
  intros W Ha Hn -> Hp Hc Hm.
  destruct (first_error_at pre c post Hp Hc) as (s & Es & Et & Hg).
  pose proof (table_range _ _ (cpl_sct_lt c) (cpl_sc_lt c)) as Rg.
  rewrite <- Et in *. unfold tuple in *. destruct Rg as (R1 & R2 & R3).
  unfold Complete. rewrite Ha. cbn [is_uninitialized is_success negb].
  rewrite Hn, N.eqb_refl. cbn [negb]. rewrite Es. unfold bind.
  destruct (FillSense_sensed sense s w Hm R1 R2 R3) as (b & w1 & -> & Tr & Cf & Hse).
  pose proof (AbortPipeline_spec t w1 W) as A. apply tst_inv in A as (t' & w2 & -> & Hi & R).
  exists t', w1, w2. split; [reflexivity|]. split; [exact Hg|]. split; [exact Hi|].
  split; [eapply sensed_released; eassumption|]. auto.
Qed.

Lemma Complete_mismatch t cpls buffer sense w : wf t -> pipeline_status t <> kUninitialized ->
  N.of_nat (length cpls) <> nvme_cmd_count t ->
  exists t' w', Complete t cpls buffer sense w =
      Ret (t', {| cr_status := ApiFailure; cr_scsi_status := 0 |}) w' /\ idle t' /\ released w w' (held t).
Proof.
  intros W Hu Hn. unfold Complete.
  destruct (is_uninitialized (pipeline_status t)) eqn:Eu; [destruct (pipeline_status t); try discriminate; contradiction|].
  destruct (N.eqb_spec (N.of_nat (length cpls)) (nvme_cmd_count t)); [contradiction|]. cbn [negb]. unfold bind.
  pose proof (AbortPipeline_spec t w W) as A. apply tst_inv in A as (t' & w2 & -> & Hi & R).
  exists t', w2. auto.
Qed.
