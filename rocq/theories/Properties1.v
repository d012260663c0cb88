(** C01-C12: the API protocol, pages, failure reporting, memory safety. *)
From Coq Require Import Arith NArith String List Lia Bool Init.Byte Permutation.
From Verif Require Import Bytes Layout World Common StatusCmd ModeSenseCmd TranslationCls Spec Facts Logic BeginFacts
  CompleteFacts StatusFacts Witness.
Import ListNotations.
Local Open Scope list_scope.
Local Open Scope N_scope.

(** ** C01 *)
Theorem C01_begin_accepted_iff_idle : forall env b t w cdb buffer lun t' r w',
  reach env b t w -> Begin t cdb buffer lun w = Ret (t', r) w' ->
  (br_status r = ApiSuccess <-> b = false) /\
  (b = true -> t' = t /\ w' = w).
Proof.
  intros env b t w cdb buffer lun t' r w' R E. pose proof (reach_inv _ _ _ _ R) as I. destruct b.
  - rewrite Begin_busy in E.
    + injection E as <- <- <-. split; [split; discriminate|auto].
    + intros Hu. pose proof (i_busy _ _ I) as Hb. rewrite Hu in Hb. discriminate.
  - split; [|discriminate]. split; [reflexivity|intros _].
    pose proof (Begin_idle_spec false t cdb buffer lun w (inv_idle _ I) (no_ok_span _ _) (no_ok_span _ _)) as H.
    unfold cst in H. rewrite E in H. apply H.
Qed.
Print Assumptions C01_begin_accepted_iff_idle.

Theorem C01_complete_needs_translation : forall env b t w cpls buffer sense t' r w',
  reach env b t w -> Complete t cpls buffer sense w = Ret (t', r) w' ->
  (cr_status r = ApiSuccess -> b = true) /\
  (b = false -> cr_status r = ApiFailure /\ t' = t /\ w' = w).
Proof.
  intros env b t w cpls buffer sense t' r w' R E. pose proof (reach_inv _ _ _ _ R) as I. destruct b.
  - split; [auto|discriminate].
  - rewrite Complete_idle in E by apply (inv_idle _ I). injection E as <- <- <-. split; [discriminate|auto].
Qed.
Print Assumptions C01_complete_needs_translation.

(** a busy object does occur: after a Begin with a TEST UNIT READY CDB *)
Example C01_busy_reachable : exists t w, reach any_env true t w.
Proof.
  destruct (begin_check_ok (B [0;0;0;0;0;0]) [] (ex_buf 0) 0
    (fun t r w => is_api_success (br_status r))) as (t & r & w & E & F); [vm_compute; reflexivity|].
  exists t, w. pose proof (reach_begin _ _ _ _ _ _ _ _ _ _ (ex_reach _ _ _ _ any_env I) E) as H.
  cbn [orb] in H. rewrite F in H. exact H.
Qed.

(** ** C02 *)
Definition reusable (t : Translation) : Prop :=
  exposes t = [] /\ nvme_cmd_count t = 0 /\ held t = [] /\
  forall w cdb buffer lun, span_mapped w cdb -> span_mapped w buffer ->
  exists t' r w', Begin t cdb buffer lun w = Ret (t', r) w' /\ br_status r = ApiSuccess.

Lemma idle_reusable t : idle t -> reusable t.
Proof.
  intros H. pose proof H as (_ & Hn & Hh). split; [unfold exposes, GetNvmeWrappers; rewrite Hn; reflexivity|].
  split; [exact Hn|]. split; [exact Hh|]. intros w cdb buffer lun H1 H2.
  pose proof (Begin_idle_spec true t cdb buffer lun w H (fun _ => H1) (fun _ => H2)) as S.
  apply cst_tst, tst_inv in S as ([t' r] & w' & E & S). exists t', r, w'. split; [exact E|apply S].
Qed.

Theorem C02_reusable_after_complete : forall env b t w cpls buffer sense t' r w',
  reach env b t w -> Complete t cpls buffer sense w = Ret (t', r) w' -> reusable t'.
Proof.
  intros env b t w cpls buffer sense t' r w' R E. apply idle_reusable, inv_idle.
  eapply inv_complete; [eapply reach_inv; exact R|exact E].
Qed.
Print Assumptions C02_reusable_after_complete.

Theorem C02_reusable_after_abort : forall env b t w, reach env b t w ->
  exists t' w', AbortPipeline t w = Ret t' w' /\ reusable t'.
Proof.
  intros env b t w R. pose proof (reach_inv _ _ _ _ R) as I.
  pose proof (AbortPipeline_spec t w (i_wf _ _ I)) as S. apply tst_inv in S as (t' & w' & E & Hi & _).
  exists t', w'. split; [exact E|apply idle_reusable; exact Hi].
Qed.
Print Assumptions C02_reusable_after_abort.

(** ** C03 *)
Theorem C03_no_leak_no_double_free : forall b t w, reach sane_allocator b t w ->
  exists outstanding, ledger (trace w) = Some outstanding /\ Permutation outstanding (held t) /\
    (b = false -> outstanding = []).
Proof.
  intros b t w R. pose proof (reach_inv _ _ _ _ R) as I. destruct (reach_books _ _ _ R) as (_ & l & E & P).
  exists l. split; [exact E|]. split; [exact P|]. intros ->. destruct (inv_idle _ I) as (_ & _ & Hh).
  rewrite Hh in P. apply Permutation_nil, Permutation_sym. exact P.
Qed.
Print Assumptions C03_no_leak_no_double_free.

(** the ledger is not trivially empty: INQUIRY holds two pages *)
Example C03_two_pages_held : exists t w, reach sane_allocator true t w /\
  ledger (trace w) = Some [(0x300000, 1); (0x100000, 1)] /\ held t = [(0x100000, 1); (0x300000, 1)].
Proof.
  destruct (begin_check_ok (B [0x12;0;0;0;36;0]) [] (ex_buf 36) 0
    (fun t r w => is_api_success (br_status r) &&
       match ledger (trace w) with Some [(0x300000, 1); (0x100000, 1)] => true | _ => false end &&
       match held t with [(0x100000, 1); (0x300000, 1)] => true | _ => false end))
    as (t & r & w & E & F); [vm_compute; reflexivity|].
  apply andb_prop in F as [F F3]. apply andb_prop in F as [F1 F2].
  exists t, w. pose proof (reach_begin _ _ _ _ _ _ _ _ _ _ (ex_reach _ _ _ _ sane_allocator (ex_sane _ _ _ _)) E) as H.
  cbn [orb] in H. rewrite F1 in H. split; [exact H|].
  repeat match goal with H : context [match ?x with _ => _ end] |- _ => destruct x; try discriminate H end; auto.
Qed.

(** ** C04 *)
Theorem C04_at_most_three_commands : forall env b t w, reach env b t w ->
  nvme_cmd_count t <= 3 /\ N.of_nat (length (exposes t)) = nvme_cmd_count t /\
  (b = false \/ rejected t -> exposes t = []).
Proof.
  intros env b t w R. pose proof (reach_inv _ _ _ _ R) as I. destruct (i_wf _ _ I) as (Hn & _).
  split; [exact Hn|]. unfold exposes, GetNvmeWrappers. rewrite map_length, firstn_length. cbn [length].
  split; [lia|]. intros H. replace (nvme_cmd_count t) with 0; [reflexivity|]. symmetry.
  apply (i_idle _ _ I). destruct H as [->|[H _]]; [|exact H]. destruct (inv_idle _ I) as (-> & _). discriminate.
Qed.
Print Assumptions C04_at_most_three_commands.

(** ** C05 *)
Theorem C05_untranslatable_is_check_condition : forall env t w buffer sense,
  reach env true t w -> rejected t -> span_mapped w sense ->
  exposes t = [] /\ held t = [] /\
  exists t' w', Complete t [] buffer sense w = Ret (t', api_ok CHECK_CONDITION) w' /\
    (len sense < 8 -> same_memory w w') /\
    (8 <= len sense -> exists bs, sense_says 0x5 0x24 0x00 bs /\ wrote w w' (ptr sense) bs).
Proof.
  intros env t w buffer sense R Hr Hm. pose proof (reach_inv _ _ _ _ R) as I.
  destruct (i_idle _ _ I (proj1 Hr)) as [Hn Hh]. split.
  { unfold exposes, GetNvmeWrappers. rewrite Hn. reflexivity. }
  split; [exact Hh|].
  destruct (Complete_rejected t [] buffer sense w (i_wf _ _ I) Hr Hn Hh Hm eq_refl)
    as (t' & w' & E & _ & S & _). exists t', w'. split; [exact E|exact S].
Qed.
Print Assumptions C05_untranslatable_is_check_condition.

(** an unknown opcode is rejected *)
Example C05_rejection_reachable : exists t w, reach any_env true t w /\ rejected t.
Proof.
  destruct (begin_check_ok (B [0xc1;0;0;0;0;0]) [] (ex_buf 0) 0
    (fun t r w => is_api_success (br_status r) && is_failure (pipeline_status t)))
    as (t & r & w & E & F); [vm_compute; reflexivity|]. apply andb_prop in F as [F1 F2].
  exists t, w. pose proof (reach_begin _ _ _ _ _ _ _ _ _ _ (ex_reach _ _ _ _ any_env I) E) as H.
  cbn [orb] in H. rewrite F1 in H. split; [exact H|].
  split; intros Hc; rewrite Hc in F2; discriminate.
Qed.

(** ** C06 *)
Theorem C06_wrong_completion_count : forall env t w cpls buffer sense,
  reach env true t w -> N.of_nat (length cpls) <> nvme_cmd_count t ->
  exists t' w', Complete t cpls buffer sense w =
      Ret (t', {| cr_status := ApiFailure; cr_scsi_status := 0 |}) w' /\
    same_memory w w' /\ reusable t' /\
    (dealloc_cb w = true -> trace w' = trace w ++ map (fun p => EvDealloc (fst p) (snd p)) (held t)).
Proof.
  intros env t w cpls buffer sense R Hn. pose proof (reach_inv _ _ _ _ R) as I.
  assert (Hu : pipeline_status t <> kUninitialized).
  { intros Hu. pose proof (i_busy _ _ I) as Hb. rewrite Hu in Hb. discriminate. }
  destruct (Complete_mismatch t cpls buffer sense w (i_wf _ _ I) Hu Hn) as (t' & w' & E & Hi & [A _ _ D]).
  exists t', w'. split; [exact E|]. split; [intros x; rewrite A; reflexivity|].
  split; [apply idle_reusable; exact Hi|]. intros Hd. rewrite D, Hd. reflexivity.
Qed.
Print Assumptions C06_wrong_completion_count.

(** ** C07 *)
Theorem C07_first_failure_decides : forall env t w pre c post buffer sense,
  reach env true t w -> accepted t -> N.of_nat (length (pre ++ c :: post)) = nvme_cmd_count t ->
  Forall cpl_ok pre -> ~ cpl_ok c -> span_mapped w sense ->
  let '(status, key, asc, ascq) := scsi_status_of (cpl_sct c) (cpl_sc c) in
  exists t' w', Complete t (pre ++ c :: post) buffer sense w = Ret (t', api_ok status) w' /\
    status <> GOOD /\ reusable t' /\
    (dealloc_cb w = true -> trace w' = trace w ++ map (fun p => EvDealloc (fst p) (snd p)) (held t)) /\
    (len sense < 8 -> same_memory w w') /\
    (8 <= len sense -> exists bs, sense_says key asc ascq bs /\ wrote w w' (ptr sense) bs).
Proof.
  intros env t w pre c post buffer sense R Ha Hn Hp Hc Hm. pose proof (reach_inv _ _ _ _ R) as I.
  pose proof (Complete_error t _ pre c post buffer sense w (i_wf _ _ I) Ha Hn eq_refl Hp Hc Hm) as H.
  destruct (scsi_status_of (cpl_sct c) (cpl_sc c)) as [[[st key] asc] ascq].
  destruct H as (t' & w1 & w' & E & Hg & Hi & [S1 S2] & [_ _ _ D] & Tr & Cf).
  exists t', w'. split; [exact E|]. split; [exact Hg|]. split; [apply idle_reusable; exact Hi|].
  split; [|split; assumption]. intros Hd. rewrite D, Tr, (sc_dealloc _ _ Cf), Hd. reflexivity.
Qed.
Print Assumptions C07_first_failure_decides.

(** LBA out of range on an accepted READ(10) *)
Definition ex_read10 : list byte := B [0x28;0;0;0;0;9;0;0;1;0].
Definition ex_cpl_lba_range : N := 0x80 * 2 ^ (96 + 17).
Example C07_premises_met : exists t w, reach any_env true t w /\ accepted t /\
  N.of_nat (length ([] ++ ex_cpl_lba_range :: [])) = nvme_cmd_count t /\ ~ cpl_ok ex_cpl_lba_range /\
  scsi_status_of (cpl_sct ex_cpl_lba_range) (cpl_sc ex_cpl_lba_range) = (CHECK_CONDITION, 5, 0x21, 0).
Proof.
  destruct (begin_check_ok ex_read10 [] (ex_buf 4096) 0
    (fun t r w => is_api_success (br_status r) && is_success (pipeline_status t) && (nvme_cmd_count t =? 1)))
    as (t & r & w & E & F); [vm_compute; reflexivity|].
  apply andb_prop in F as [F F3]. apply andb_prop in F as [F1 F2].
  exists t, w. pose proof (reach_begin _ _ _ _ _ _ _ _ _ _ (ex_reach _ _ _ _ any_env I) E) as H.
  cbn [orb] in H. rewrite F1 in H. split; [exact H|]. split.
  { unfold accepted. destruct (pipeline_status t); try discriminate. reflexivity. }
  apply N.eqb_eq in F3. rewrite F3. split; [reflexivity|]. split; [|vm_compute; reflexivity].
  intros [_ H2]. vm_compute in H2. discriminate.
Qed.

(** ** C08 *)
Theorem C08_status_table : forall sct sc, sct < 8 -> sc < 256 ->
  (let s := StatusToScsi sct sc in (st_status s, st_sense_key s, st_asc s, st_ascq s)) = scsi_status_of sct sc /\
  (st_status (StatusToScsi sct sc) = GOOD <-> sct = 0 /\ sc = 0).
Proof.
  intros sct sc H1 H2. pose proof (status_table_ok sct sc H1 H2) as T. split; [exact T|].
  pose proof (status_good sct sc H1 H2) as G. rewrite <- T in G. exact G.
Qed.
Print Assumptions C08_status_table.

(** through the API: a Complete that returns GOOD means every command succeeded *)
Theorem C08_good_means_success : forall env t w cpls buffer sense t' w',
  reach env true t w -> Complete t cpls buffer sense w = Ret (t', api_ok GOOD) w' ->
  span_mapped w sense -> accepted t /\ Forall cpl_ok cpls.
Proof.
  intros env t w cpls buffer sense t' w' R E Hm. pose proof (reach_inv _ _ _ _ R) as I.
  assert (Hn : N.of_nat (length cpls) = nvme_cmd_count t).
  { destruct (N.eq_dec (N.of_nat (length cpls)) (nvme_cmd_count t)) as [H|H]; [exact H|exfalso].
    destruct (C06_wrong_completion_count _ _ _ _ buffer sense R H) as (t2 & w2 & E2 & _). rewrite E2 in E; unfold api_ok in E; discriminate. }
  assert (Ha : accepted t).
  { unfold accepted. destruct (pipeline_status t) eqn:Es; [reflexivity|exfalso..].
    - pose proof (i_busy _ _ I) as Hb. rewrite Es in Hb. discriminate.
    - assert (Hr : rejected t) by (split; rewrite Es; discriminate).
      destruct (i_idle _ _ I (proj1 Hr)) as [Hc _]. rewrite Hc in Hn. destruct cpls; [|cbn in Hn; lia].
      destruct (C05_untranslatable_is_check_condition _ _ _ buffer sense R Hr Hm) as (_ & _ & t2 & w2 & E2 & _).
      rewrite E2 in E. discriminate.
    - assert (Hr : rejected t) by (split; rewrite Es; discriminate).
      destruct (i_idle _ _ I (proj1 Hr)) as [Hc _]. rewrite Hc in Hn. destruct cpls; [|cbn in Hn; lia].
      destruct (C05_untranslatable_is_check_condition _ _ _ buffer sense R Hr Hm) as (_ & _ & t2 & w2 & E2 & _).
      rewrite E2 in E. discriminate.
    - assert (Hr : rejected t) by (split; rewrite Es; discriminate).
      destruct (i_idle _ _ I (proj1 Hr)) as [Hc _]. rewrite Hc in Hn. destruct cpls; [|cbn in Hn; lia].
      destruct (C05_untranslatable_is_check_condition _ _ _ buffer sense R Hr Hm) as (_ & _ & t2 & w2 & E2 & _).
      rewrite E2 in E. discriminate. }
  split; [exact Ha|].
  assert (D : forall c, {cpl_ok c} + {~ cpl_ok c}).
  { intros c. unfold cpl_ok. destruct (N.eq_dec (cpl_sct c) 0); destruct (N.eq_dec (cpl_sc c) 0); tauto. }
  assert (S : Forall cpl_ok cpls \/ exists pre c post, cpls = pre ++ c :: post /\ Forall cpl_ok pre /\ ~ cpl_ok c).
  { clear - D. induction cpls as [|c cpls IH]; [left; constructor|].
    destruct (D c) as [Hc|Hc].
    - destruct IH as [IH|(pre & c' & post & -> & Hp & Hc')]; [left; constructor; assumption|].
      right. exists (c :: pre), c', post. split; [reflexivity|]. split; [constructor; assumption|exact Hc'].
    - right. exists [], c, cpls. auto. }
  destruct S as [S|(pre & c & post & -> & Hp & Hc)]; [exact S|exfalso].
  pose proof (C07_first_failure_decides env t w pre c post buffer sense R Ha Hn Hp Hc Hm) as H.
  destruct (scsi_status_of (cpl_sct c) (cpl_sc c)) as [[[st key] asc] ascq].
  destruct H as (t2 & w2 & E2 & Hg & _). rewrite E2 in E. injection E as _ E _. unfold api_ok in E. congruence.
Qed.
Print Assumptions C08_good_means_success.

(** ** C09 *)
(** full statement: whenever sense is written, [sense_says] and
    [sense_reserved_zero] hold of the 8 bytes.  The reserved bits are not
    initialised: *)
Theorem C09_reserved_sense_bits_refuted : exists t w t' r w',
  reach any_env true t w /\ rejected t /\
  Complete t [] (ex_buf 0) ex_sense w = Ret (t', r) w' /\
  forall bs, length bs = 8%nat -> bytes_at w' (ptr ex_sense) bs -> ~ sense_reserved_zero bs.
Proof.
  destruct (begin_check_ok (B [0xc1;0;0;0;0;0]) [] (ex_buf 0) 0
    (fun t r w => is_api_success (br_status r) && is_failure (pipeline_status t) &&
       check (Complete t [] (ex_buf 0) ex_sense w) (fun r w' =>
         match mem w' 0x40004 with Some b => negb (b2n b =? 0) | None => false end)))
    as (t & r & w & E & F); [vm_compute; reflexivity|].
  apply andb_prop in F as [F F3]. apply andb_prop in F as [F1 F2].
  apply check_ret in F3 as ([t' r'] & w' & E' & F3).
  exists t, w, t', r', w'. pose proof (reach_begin _ _ _ _ _ _ _ _ _ _ (ex_reach _ _ _ _ any_env I) E) as H.
  cbn [orb] in H. rewrite F1 in H. split; [exact H|].
  split; [split; intros Hc; rewrite Hc in F2; discriminate|]. split; [exact E'|].
  intros bs Hl Hb (_ & _ & H4 & _). 
  destruct bs as [|b0 [|b1 [|b2 [|b3 [|b4 bs]]]]]; try discriminate Hl.
  specialize (Hb 4%nat b4 eq_refl). change (ptr ex_sense + N.of_nat 4) with 0x40004 in Hb. rewrite Hb in F3.
  unfold byte_at in H4. cbn [nth] in H4. rewrite H4 in F3. discriminate.
Qed.
Print Assumptions C09_reserved_sense_bits_refuted.

(** what does hold: exactly 8 bytes are written and every named field is right
    (see also C05, C07); missing: reserved bits zero *)
Theorem C09_sense_fields_partial : forall sense s w b w',
  st_sense_key s < 16 -> st_asc s < 256 -> st_ascq s < 256 -> span_mapped w sense ->
  FillSenseBuffer sense s w = Ret b w' ->
  (b = false /\ len sense < 8 /\ same_memory w w') \/
  (b = true /\ 8 <= len sense /\
   exists bs, sense_says (st_sense_key s) (st_asc s) (st_ascq s) bs /\ wrote w w' (ptr sense) bs).
Proof.
  intros sense s w b w' H1 H2 H3 Hm E. destruct (N.ltb_spec (len sense) 8) as [Hl|Hl].
  - rewrite FillSense_short in E by exact Hl. injection E as <- <-. left. repeat split; auto.
  - destruct (FillSense_ok sense s w Hm Hl) as (j & w1 & E' & -> & _). rewrite E' in E.
    injection E as <- <-. right. split; [reflexivity|]. split; [exact Hl|]. eexists.
    split; [apply sense_bytes; assumption|]. apply (wrote_store w).
Qed.
Print Assumptions C09_sense_fields_partial.

(** ** C10 *)
Theorem C10_begin_frame : forall env b t w cdb buffer lun t' r w',
  reach env b t w -> Begin t cdb buffer lun w = Ret (t', r) w' ->
  exists evs, trace w' = trace w ++ evs /\
    forall x, mem w' x = mem w x \/
      exists page_size n a, In (EvAlloc page_size n a) evs /\ a <> 0 /\ a <= x < a + page_size * n.
Proof.
  intros env b t w cdb buffer lun t' r w' R E. pose proof (reach_inv _ _ _ _ R) as I. destruct b.
  - rewrite Begin_busy in E.
    + injection E as <- <- <-. exists []. rewrite app_nil_r. auto.
    + intros Hu. pose proof (i_busy _ _ I) as Hb. rewrite Hu in Hb. discriminate.
  - pose proof (Begin_idle_spec false t cdb buffer lun w (inv_idle _ I) (no_ok_span _ _) (no_ok_span _ _)) as H.
    unfold cst in H. rewrite E in H. destruct H as (_ & _ & _ & _ & _ & w1 & evs & rel & G & Rl & _).
    exists (evs ++ if dealloc_cb w1 then releases rel else []). split.
    + rewrite (r_trace _ _ _ Rl), (g_trace _ _ _ G), app_assoc. reflexivity.
    + intros x. rewrite (r_mem _ _ _ Rl). destruct (g_mem _ _ _ G x) as [H|(ps & n & a & H1 & H2)]; [auto|].
      right. exists ps, n, a. split; [apply in_or_app; auto|exact H2].
Qed.
Print Assumptions C10_begin_frame.

Theorem C10_complete_frame : forall env b t w cpls buffer sense t' r w',
  reach env b t w -> Complete t cpls buffer sense w = Ret (t', r) w' ->
  forall x, ~ in_span buffer x -> ~ in_span sense x -> mem w' x = mem w x.
Proof.
  intros env b t w cpls buffer sense t' r w' R E x H1 H2. pose proof (reach_inv _ _ _ _ R) as I.
  destruct (is_uninitialized (pipeline_status t)) eqn:Eu.
  - assert (Hu : pipeline_status t = kUninitialized) by (destruct (pipeline_status t); try discriminate; reflexivity).
    rewrite Complete_idle in E by exact Hu. injection E as _ _ <-. reflexivity.
  - assert (Hu : pipeline_status t <> kUninitialized) by (intros Hu; rewrite Hu in Eu; discriminate).
    pose proof (Complete_spec t cpls buffer sense w (i_wf _ _ I) Hu) as H.
    apply (pst_use _ _ _ _ _ H) in E. destruct E as (_ & w1 & F & Rl & _).
    rewrite (r_mem _ _ _ Rl). apply (f_mem _ _ _ F). intros [Hx|Hx]; contradiction.
Qed.
Print Assumptions C10_complete_frame.

(** ** C11 *)
Theorem C11_begin_defined : forall env b t w cdb buffer lun,
  reach env b t w -> span_mapped w cdb -> span_mapped w buffer ->
  exists t' r w', Begin t cdb buffer lun w = Ret (t', r) w'.
Proof.
  intros env b t w cdb buffer lun R H1 H2. pose proof (reach_inv _ _ _ _ R) as I. destruct b.
  - do 3 eexists. apply Begin_busy. intros Hu. pose proof (i_busy _ _ I) as Hb. rewrite Hu in Hb. discriminate.
  - pose proof (Begin_idle_spec true t cdb buffer lun w (inv_idle _ I) (fun _ => H1) (fun _ => H2)) as S.
    apply cst_tst, tst_inv in S as ([t' r] & w' & E & _). eauto.
Qed.
Print Assumptions C11_begin_defined.
Example C11_premises_met : reach any_env false ex_obj (ex_world ex_read10) /\
  span_mapped (ex_world ex_read10) (ex_cdb ex_read10) /\ span_mapped (ex_world ex_read10) (ex_buf 4096).
Proof.
  split; [apply ex_reach; exact I|]. split.
  - eapply span_holds_mapped. apply ex_cdb_holds.
  - apply ex_buf_mapped; vm_compute; discriminate.
Qed.
