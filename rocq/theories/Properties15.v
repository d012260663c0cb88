(** C76-: several objects; what each call does to the page ledger. *)
From Coq Require Import Arith NArith ZArith String List Lia Bool Init.Byte Permutation.
From Coq Require Import ZifyBool ZifyNat ZifyN.
From Verif Require Import Bytes Layout World ScsiDefs NvmeDefs Common TranslationCls
  StatusCmd Spec RwSpec InquirySpec HistorySpec ManySpec Facts Logic BeginFacts CompleteFacts JunkFacts BlindFacts Witness Properties1 Properties9.
Import ListNotations.
Local Open Scope string_scope.
Local Open Scope list_scope.
Local Open Scope N_scope.

(** ** C76 *)
Lemma all_held_mid a t b : Permutation (all_held (a ++ t :: b)) (held t ++ all_held (a ++ b)).
Proof.
  unfold all_held. rewrite !map_app, !concat_app. cbn [map concat]. rewrite !app_assoc. apply Permutation_app_tail, Permutation_app_comm.
Qed.

Definition sound_books (ts : list Translation) (w : world) : Prop :=
  sane_allocator w /\ exists l, ledger (trace w) = Some l /\ Permutation l (all_held ts).

Lemma released_shared a b t w w' l : sane_allocator w -> released w w' l ->
  (exists o, ledger (trace w) = Some o /\ Permutation o (l ++ held t ++ all_held (a ++ b))) -> sound_books (a ++ t :: b) w'.
Proof.
  intros Hs R (o & E & P). split; [eapply sane_cfg; [apply R|exact Hs]|].
  destruct R as [_ _ _ D]. destruct Hs as (_ & Hd & _). rewrite Hd in D. rewrite D, ledger_app, E.
  destruct (ledger_release l _ _ P) as (o'' & E' & P'). exists o''. split; [exact E'|]. rewrite P'. apply Permutation_sym, all_held_mid.
Qed.

Definition all_ok (ts : list Translation) : Prop := Forall (fun t => exists b, inv b t) ts.
Lemma all_ok_mid a t b : all_ok (a ++ t :: b) -> (exists f, inv f t) /\ forall t', (exists f, inv f t') -> all_ok (a ++ t' :: b).
Proof.
  intros H. apply Forall_app in H as [Ha Hb]. inversion Hb; subst. split; [assumption|].
  intros t' H'. apply Forall_app. split; [exact Ha|]. constructor; assumption.
Qed.

Lemma many_ok env ts w : many env ts w -> all_ok ts.
Proof.
  induction 1 as [w He Ht|ts wr w H IH|ts w w' H IH He Ht|a t b w cdb buffer lun t' r w' H IH E|a t b w cpls buffer sense t' r w' H IH E|a t b w t' w' H IH E].
  - constructor.
  - constructor; [exists false; apply idle_inv, idle_init|exact IH].
  - exact IH.
  - destruct (all_ok_mid _ _ _ IH) as [[f I] K]. apply K. eexists. eapply inv_begin; eassumption.
  - destruct (all_ok_mid _ _ _ IH) as [[f I] K]. apply K. eexists. eapply inv_complete; eassumption.
  - destruct (all_ok_mid _ _ _ IH) as [[f I] K]. apply K. eexists. eapply inv_abort; eassumption.
Qed.

Lemma many_books ts w : many sane_allocator ts w -> sound_books ts w.
Proof.
  induction 1 as [w He Ht|ts wr w H IH|ts w w' H IH He Ht|a t b w cdb buffer lun t' r w' H IH E|a t b w cpls buffer sense t' r w' H IH E|a t b w t' w' H IH E].
  - split; [exact He|]. exists []. rewrite Ht. split; [reflexivity|constructor].
  - exact IH.
  - destruct IH as [_ IH]. split; [exact He|]. rewrite Ht. exact IH.
  - destruct (all_ok_mid _ _ _ (many_ok _ _ _ H)) as [[f I] _]. destruct IH as (Hs & l & El & Pl). destruct f.
    + rewrite Begin_busy in E.
      * injection E as <- <- <-. split; [exact Hs|]. eauto.
      * intros Hu. pose proof (i_busy _ _ I) as B. rewrite Hu in B. discriminate.
    + pose proof (inv_idle _ I) as Hi.
      pose proof (Begin_idle_spec false t cdb buffer lun w Hi (no_ok_span _ _) (no_ok_span _ _)) as HB.
      unfold cst in HB. rewrite E in HB. destruct HB as (_ & _ & _ & _ & _ & w1 & evs & rel & G & Rl & _ & P).
      destruct Hi as (_ & _ & Hh). destruct Hs as (Ha & Hd & Hz).
      apply (released_shared a b t' w1 _ rel).
      * eapply sane_cfg; [apply G|]. split; [exact Ha|split; assumption].
      * exact Rl.
      * rewrite (g_trace _ _ _ G), ledger_app, El.
        destruct (ledger_alloc evs l (g_alloc _ _ _ G)) as [l' [E' P']]. exists l'. split; [exact E'|].
        rewrite P', Pl, (all_held_mid a t b), Hh. cbn [app]. rewrite app_assoc. apply Permutation_app_tail.
        apply Permutation_sym. apply P. exact Hz.
  - destruct (all_ok_mid _ _ _ (many_ok _ _ _ H)) as [[f I] _]. destruct IH as (Hs & l & El & Pl).
    destruct (is_uninitialized (pipeline_status t)) eqn:Eu.
    + assert (Hu : pipeline_status t = kUninitialized) by (destruct (pipeline_status t); try discriminate; reflexivity).
      rewrite Complete_idle in E by exact Hu. injection E as <- _ <-. split; [exact Hs|]. eauto.
    + assert (Hu : pipeline_status t <> kUninitialized) by (intros Hu; rewrite Hu in Eu; discriminate).
      pose proof (Complete_spec t cpls buffer sense w (i_wf _ _ I) Hu) as HC.
      apply (pst_use _ _ _ _ _ HC) in E. destruct E as ((_ & _ & Hh) & w1 & F & Rl & _).
      apply (released_shared a b t' w1 _ (held t)).
      * eapply sane_cfg; [apply F|exact Hs].
      * exact Rl.
      * rewrite (f_trace _ _ _ F). exists l. split; [exact El|]. rewrite Hh. cbn [app]. rewrite Pl. apply all_held_mid.
  - destruct (all_ok_mid _ _ _ (many_ok _ _ _ H)) as [[f I] _]. destruct IH as (Hs & l & El & Pl).
    pose proof (AbortPipeline_spec t w (i_wf _ _ I)) as HA. apply (tst_use _ _ _ _ _ HA) in E.
    destruct E as ((_ & _ & Hh) & Rl). apply (released_shared a b t' w _ (held t)); auto.
    exists l. split; [exact El|]. rewrite Hh. cbn [app]. rewrite Pl. apply all_held_mid.
Qed.

(** The pages out are exactly those the objects hold, whoever was called when:
    none is lost, none is returned twice, none is returned by another object *)
Theorem C76_shared_ledger : forall ts w, many sane_allocator ts w ->
  exists l, ledger (trace w) = Some l /\ Permutation l (all_held ts).
Proof. intros ts w H. apply many_books, H. Qed.
Print Assumptions C76_shared_ledger.

Lemma disjoint_sym pg r1 r2 : disjoint_runs pg r1 r2 -> disjoint_runs pg r2 r1.
Proof. unfold disjoint_runs. tauto. Qed.
Lemma pairwise_remove pg p l : forall l', pairwise (disjoint_runs pg) l -> remove_run p l = Some l' ->
  pairwise (disjoint_runs pg) l' /\ (forall q, In q l' -> In q l).
Proof.
  induction l as [|q l IH]; intros l' H E; cbn [remove_run] in E; [discriminate|]. destruct H as [H1 H2].
  destruct ((fst p =? fst q) && (snd p =? snd q)); [injection E as <-; split; [exact H2|intros; right; assumption]|].
  destruct (remove_run p l) as [l1|] eqn:E1; [|discriminate]. cbn [option_map] in E. injection E as <-.
  destruct (IH _ H2 eq_refl) as [A B]. split.
  - split; [|exact A]. apply Forall_forall. intros y Hy. rewrite Forall_forall in H1. apply H1, B, Hy.
  - intros y [<-|Hy]; [left; reflexivity|right; apply B, Hy].
Qed.
Lemma honest_pairwise pg tr : forall l, pairwise (disjoint_runs pg) l -> honest pg l tr ->
  match fold_left ledger_step tr (Some l) with Some o => pairwise (disjoint_runs pg) o | None => True end.
Proof.
  induction tr as [|e tr IH]; intros l P H; cbn [fold_left]; [exact P|]. cbn [honest] in H. destruct H as [H1 H2].
  destruct e as [ps n a|a n]; cbn [ledger_step] in *.
  - apply IH; [|exact H2]. destruct (N.eqb_spec a 0) as [Ez|Ez]; [exact P|]. split; [exact (H1 Ez)|exact P].
  - destruct (remove_run (a, n) l) as [l'|] eqn:E.
    + apply IH; [|exact H2]. exact (proj1 (pairwise_remove _ _ _ _ P E)).
    + assert (N : forall tr, fold_left ledger_step tr None = None) by (clear; induction tr; [reflexivity|exact IHtr]).
      rewrite N. exact I.
Qed.
Lemma pairwise_perm pg l l' : Permutation l l' -> pairwise (disjoint_runs pg) l -> pairwise (disjoint_runs pg) l'.
Proof.
  induction 1 as [|x l l' H IH|x y l|l1 l2 l3 H1 IH1 H2 IH2]; intros P; auto.
  - destruct P as [A B]. split; [|apply IH, B]. apply (Permutation_Forall H), A.
  - destruct P as [A [B C]]. inversion A; subst. split; [constructor; [apply disjoint_sym; assumption|exact B]|]. split; assumption.
Qed.

(** With an allocator that does not hand out what is still out, no two pages in
    use overlap, within one object or across objects: commands in flight do not
    overwrite each other's data *)
Theorem C76_no_sharing : forall pg ts w, many sane_allocator ts w -> honest pg [] (trace w) ->
  pairwise (disjoint_runs pg) (all_held ts).
Proof.
  intros pg ts w H Hh. destruct (C76_shared_ledger _ _ H) as (l & El & Pl).
  pose proof (honest_pairwise pg (trace w) [] I Hh) as P. unfold ledger in El. rewrite El in P.
  exact (pairwise_perm _ _ _ Pl P).
Qed.
Print Assumptions C76_no_sharing.

(** two objects, an INQUIRY in progress on each *)
Definition ex_inq : list byte := B [0x12; 0; 0; 0; 36; 0].
Definition ex_two : option (list (N * N) * list event) :=
  match Begin ex_obj (ex_cdb ex_inq) (ex_buf 64) 0 (ex_world ex_inq) with
  | Ret (t1, _) w1 =>
      match Begin ex_obj (ex_cdb ex_inq) (ex_buf 64) 1 w1 with
      | Ret (t2, _) w2 => Some (all_held [t1; t2], trace w2)
      | UB _ => None
      end
  | UB _ => None
  end.
Lemma ex_two_run : ex_two = Some ([(0x100000, 1); (0x300000, 1); (0x500000, 1); (0x700000, 1)],
  [EvAlloc 4096 1 0x100000; EvAlloc 4096 0 0; EvAlloc 4096 1 0x300000; EvAlloc 4096 0 0;
   EvAlloc 4096 1 0x500000; EvAlloc 4096 0 0; EvAlloc 4096 1 0x700000; EvAlloc 4096 0 0]).
Proof. vm_compute. reflexivity. Qed.
Lemma ex_two_honest tr : option_map snd ex_two = Some tr -> honest 4096 [] tr.
Proof.
  rewrite ex_two_run. cbn [option_map snd]. intros H. apply Some_eq in H. subst tr. cbn [honest ledger_step N.eqb Pos.eqb].
  repeat match goal with
      | |- _ /\ _ => split | |- True => exact I | |- _ -> _ => intros _
      | |- Forall _ [] => apply Forall_nil | |- Forall _ (_ :: _) => apply Forall_cons
      | |- disjoint_runs _ _ _ => unfold disjoint_runs; cbn [fst snd]; lia end.
Qed.
Lemma ex_two_reached : forall h tr, ex_two = Some (h, tr) ->
  exists ts w, many sane_allocator ts w /\ length ts = 2%nat /\ all_held ts = h /\ trace w = tr.
Proof.
  intros h tr. unfold ex_two.
  destruct (Begin ex_obj (ex_cdb ex_inq) (ex_buf 64) 0 (ex_world ex_inq)) as [[t1 r1] w1|] eqn:E1; [|discriminate].
  destruct (Begin ex_obj (ex_cdb ex_inq) (ex_buf 64) 1 w1) as [[t2 r2] w2|] eqn:E2; [|discriminate].
  intros H. apply Some_eq, pair_eq in H as [Hh Ht]. exists [t1; t2], w2.
  split; [|split; [reflexivity|split; [exact Hh|exact Ht]]].
  apply (many_begin sane_allocator [t1] ex_obj [] w1 _ _ _ _ _ _) with (2 := E2).
  apply (many_begin sane_allocator [] ex_obj [ex_obj] (ex_world ex_inq) _ _ _ _ _ _) with (2 := E1).
  apply (many_new _ [ex_obj] ex_wrs), (many_new _ [] ex_wrs), many_none; [apply ex_sane|reflexivity].
Qed.
Example C76_met : exists ts w, many sane_allocator ts w /\ length ts = 2%nat /\ length (all_held ts) = 4%nat /\ honest 4096 [] (trace w).
Proof.
  destruct (ex_two_reached _ _ ex_two_run) as (ts & w & A & B & C & D). exists ts, w. split; [exact A|]. split; [exact B|].
  split; [rewrite C; reflexivity|]. apply ex_two_honest. rewrite ex_two_run, D. reflexivity.
Qed.

(** ** C77 *)

(** Complete and Abort hand back exactly the pages held, each once, and ask for
    none (whether or not a translation was in progress) *)
Theorem C77_complete_returns_exactly : forall env b t w cpls buffer sense t' r w',
  reach env b t w -> dealloc_cb w = true -> Complete t cpls buffer sense w = Ret (t', r) w' ->
  trace w' = trace w ++ map (fun p => EvDealloc (fst p) (snd p)) (held t) /\ held t' = [].
Proof.
  intros env b t w cpls buffer sense t' r w' R Hd E. pose proof (reach_inv _ _ _ _ R) as I.
  destruct (is_uninitialized (pipeline_status t)) eqn:Eu.
  - assert (Hu : pipeline_status t = kUninitialized) by (destruct (pipeline_status t); try discriminate; reflexivity).
    rewrite Complete_idle in E by exact Hu. injection E as <- _ <-.
    destruct (i_idle _ _ I) as [_ Hh]; [rewrite Hu; discriminate|]. rewrite Hh. split; [symmetry; apply app_nil_r|reflexivity].
  - assert (Hu : pipeline_status t <> kUninitialized) by (intros Hu; rewrite Hu in Eu; discriminate).
    pose proof (Complete_spec t cpls buffer sense w (i_wf _ _ I) Hu) as HC.
    apply (pst_use _ _ _ _ _ HC) in E. destruct E as ((_ & _ & Hh) & w1 & F & Rl & _). split; [|exact Hh].
    rewrite (r_trace _ _ _ Rl), (f_trace _ _ _ F). destruct (f_cfg _ _ _ F) as [_ -> _ _ _]. rewrite Hd. reflexivity.
Qed.
Print Assumptions C77_complete_returns_exactly.
Theorem C77_abort_returns_exactly : forall env b t w t' w',
  reach env b t w -> dealloc_cb w = true -> AbortPipeline t w = Ret t' w' ->
  trace w' = trace w ++ map (fun p => EvDealloc (fst p) (snd p)) (held t) /\ held t' = [].
Proof.
  intros env b t w t' w' R Hd E. pose proof (reach_inv _ _ _ _ R) as I.
  pose proof (AbortPipeline_spec t w (i_wf _ _ I)) as HA. apply (tst_use _ _ _ _ _ HA) in E.
  destruct E as ((_ & _ & Hh) & Rl). split; [|exact Hh]. rewrite (r_trace _ _ _ Rl), Hd. reflexivity.
Qed.
Print Assumptions C77_abort_returns_exactly.

(** A Begin that is not accepted has returned whatever it obtained: the pages out
    are the same as before, whatever was out *)
Theorem C77_rejected_returns_all : forall ts w t cdb buffer lun t' r w' l,
  many sane_allocator (t :: ts) w -> Begin t cdb buffer lun w = Ret (t', r) w' -> ~ accepted t' ->
  ledger (trace w) = Some l ->
  held t' = [] /\ exists l', ledger (trace w') = Some l' /\ Permutation l' l.
Proof.
  intros ts w t cdb buffer lun t' r w' l H E Hr El.
  pose proof (many_begin _ [] t ts w _ _ _ _ _ _ H E) as H'. cbn [app] in H'.
  destruct (C76_shared_ledger _ _ H) as (l0 & E0 & P0). rewrite El in E0. injection E0 as <-.
  destruct (C76_shared_ledger _ _ H') as (l1 & E1 & P1).
  pose proof (many_ok _ _ _ H') as K. inversion K as [|? ? [f I] _ Hx]. subst.
  pose proof (many_ok _ _ _ H) as K0. inversion K0 as [|? ? [f0 I0] _ Hx]. subst.
  destruct (i_idle _ _ I Hr) as [_ Hh]. split; [exact Hh|]. exists l1. split; [exact E1|].
  assert (Hn : held t = []).
  { destruct f0; [|exact (proj2 (proj2 (inv_idle _ I0)))]. rewrite Begin_busy in E.
    - injection E as <- _ _. exact Hh.
    - intros Hu. pose proof (i_busy _ _ I0) as B. rewrite Hu in B. discriminate. }
  rewrite P1, P0. unfold all_held. cbn [map concat]. rewrite Hh, Hn. apply Permutation_refl.
Qed.
Print Assumptions C77_rejected_returns_all.

(** ** C78 *)

(** The NVMe commands do not depend on uninitialised storage ([with_junk w j] is
    [w] with other contents of uninitialised stack storage) *)
Theorem C78_commands_initialised : forall t cdb buffer lun w j t' r w',
  Begin t cdb buffer lun w = Ret (t', r) w' -> Begin t cdb buffer lun (with_junk w j) = Ret (t', r) (with_junk w' j).
Proof. intros t cdb buffer lun w j t' r w' E. rewrite blind_Begin, E. reflexivity. Qed.
Print Assumptions C78_commands_initialised.

(** Nor does the data returned with GOOD, for any command but INQUIRY page 80h *)
Theorem C78_data_initialised_partial : forall t0 cdb buf0 lun w0 t rb w1 bs w cpls buffer sense t' r w' j,
  idle t0 -> Begin t0 cdb buf0 lun w0 = Ret (t, rb) w1 -> span_holds w cdb bs ->
  ~ (byte_at bs 0 = 0x12 /\ inq_evpd bs = 1 /\ inq_page bs = 0x80) ->
  Complete t cpls buffer sense w = Ret (t', r) w' -> cr_status r = ApiSuccess -> cr_scsi_status r = GOOD ->
  Complete t cpls buffer sense (with_junk w j) = Ret (t', r) (with_junk w' j).
Proof.
  intros t0 cdb buf0 lun w0 t rb w1 bs w cpls buffer sense t' r w' j Hi EB Hs Hn EC Ha Hg.
  pose proof (Begin_idle_spec false t0 cdb buf0 lun w0 Hi (no_ok_span _ _) (no_ok_span _ _)) as HB.
  unfold cst in HB. rewrite EB in HB. destruct HB as (_ & _ & Hu & _ & Hc & _).
  assert (K : blind_at_w (Complete t cpls buffer sense) w); [|rewrite K, EC; reflexivity].
  revert EC. unfold Complete. destruct (is_uninitialized (pipeline_status t)) eqn:Eu.
  { intros EC. apply ret_eq in EC as [EC _]. apply pair_eq in EC as [_ <-]. discriminate Ha. }
  destruct (N.of_nat (length cpls) =? nvme_cmd_count t); cbn [negb].
  2:{ intros EC. exfalso. unfold bind in EC. destruct (AbortPipeline t w) as [t2 w2|]; [|discriminate EC].
      apply ret_eq in EC as [EC _]. apply pair_eq in EC as [_ <-]. discriminate Ha. }
  destruct (is_success (pipeline_status t)) eqn:Es; cbn [negb].
  2:{ intros EC. exfalso. cbv zeta in EC. unfold bind in EC. destruct (FillSenseBuffer _ _ w) as [b2 w2|]; [|discriminate EC].
      destruct (AbortPipeline t w2) as [t3 w3|]; [|discriminate EC].
      apply ret_eq in EC as [EC _]. apply pair_eq in EC as [_ <-]. discriminate Hg. }
  destruct (first_error cpls) as [s|] eqn:Ef.
  { intros EC. exfalso. unfold bind in EC. destruct (FillSenseBuffer _ _ w) as [b2 w2|]; [|discriminate EC].
    destruct (AbortPipeline t w2) as [t3 w3|]; [|discriminate EC].
    apply ret_eq in EC as [EC _]. apply pair_eq in EC as [_ <-]. exact (first_error_not_good _ _ Ef Hg). }
  intros _ k. assert (Hp : pipeline_status t = kSuccess) by (destruct (pipeline_status t); try discriminate; reflexivity).
  rewrite (Hc Hp). cbv zeta. unfold bind at 1 4.
  destruct (Nat.eq_dec (length bs) 0) as [Hz|Hz].
  { assert (len cdb = 0) by (destruct Hs as [-> _]; lia).
    assert (U : forall w, span_at cdb 0 w = UB "span index out of range") by (intros; unfold span_at; rewrite H; reflexivity).
    rewrite !U. reflexivity. }
  rewrite (blind_at cdb 0 w k).
  assert (A : span_at cdb 0 w = Ret (byte_at bs 0) w).
  { change 0 with (N.of_nat 0) at 1. apply span_at_ok; [exact Hs|lia]. }
  rewrite A. cbn [shift]. unfold bind at 1 3.
  rewrite (blind_switch_at (byte_at bs 0) cdb buffer cpls t w bs Hs eq_refl Hn k).
  destruct (Complete_switch (byte_at bs 0) (subspan cdb 1) buffer cpls t w) as [st w2|]; cbn [shift]; [|reflexivity].
  apply (blind_bind _ _ (blind_Abort _)). intros; apply blind_ret.
Qed.
Print Assumptions C78_data_initialised_partial.
(** missing: INQUIRY page 80h, whose digits can be uninitialised
    (C29_uninitialised_refuted).  A REQUEST SENSE meets the hypotheses: *)
Definition ex_rs : list byte := B [0x03; 0; 0; 0; 18; 0].
Definition ex_rs_run : option (N * bool) :=
  match Begin ex_obj (ex_cdb ex_rs) (ex_buf 64) 0 (ex_world ex_rs) with
  | Ret (t, _) w => match Complete t [] (ex_buf 64) ex_sense w with
      | Ret (_, r) _ => Some (cr_scsi_status r, is_api_success (cr_status r))
      | UB _ => None end
  | UB _ => None
  end.
Example C78_met : idle ex_obj /\ span_holds (ex_world ex_rs) (ex_cdb ex_rs) ex_rs /\ ex_rs_run = Some (GOOD, true).
Proof. split; [apply idle_init|]. split; [apply ex_cdb_holds|vm_compute; reflexivity]. Qed.
