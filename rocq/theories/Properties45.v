(** C113: commands queued at once give back what they took, once. *)
From Coq Require Import Arith NArith ZArith String List Lia Bool Init.Byte Permutation.
From Coq Require Import ZifyBool ZifyNat ZifyN.
From Verif Require Import Bytes Layout World ScsiDefs NvmeDefs Common ModeSenseCmd TranslationCls EngineE2e MockModule
  Spec RwSpec InquirySpec SmallSpec ModeSpec UnmapSpec EngineSpec MockSpec ConcSpec DiskSpec ConcDiskSpec AcceptSpec ConcAllSpec
  Facts Logic BeginFacts CompleteFacts StatusFacts RwFacts RelFacts ProgFacts EngineFacts MockFacts ConcFacts ConcDiskFacts
  Properties9 Properties11 Properties21 Properties25 Properties41 Properties42 Witness Properties43 Properties44.
Import ListNotations.
Local Open Scope string_scope.
Local Open Scope list_scope.
Local Open Scope N_scope.

Lemma ledger_none tr : fold_left ledger_step tr None = None.
Proof. induction tr as [|e tr IH]; [reflexivity|exact IH]. Qed.
Lemma ledger_prefix a b o : ledger (a ++ b) = Some o -> exists l, ledger a = Some l.
Proof. rewrite ledger_app. destruct (ledger a) as [l|]; [eauto|]. rewrite ledger_none. discriminate. Qed.

(** one complete run alone: the ledger of its calls is defined *)
Lemma run_ledger w0 p mm D v r v' : equipped p mm -> supplied w0 [p] -> present mm w0 -> alloc_cb w0 = true -> dealloc_cb w0 = true ->
  alone mm w0 v -> (forall k, exists k', ans v k = ans w0 k') -> trace v = [] -> code_of p D v = Ret r v' -> exists l, ledger (trace v') = Some l.
Proof.
  intros (E1 & E2 & E3 & E4 & E5 & E6) [S1 S2] Hp Ha Hde (V1 & V2 & V3) Hd Tv E. destruct (S1 p (or_introl eq_refl)) as [S4 S3].
  set (n := sc_bufflen (p_cmnd p) mod 65536) in *.
  assert (Sn : sane_allocator v).
  { split; [congruence|]. split; [congruence|]. intros k s. destruct (Hd k) as (k' & ->). apply S2. }
  destruct (N.eq_dec n 0) as [Hn|Hn]; [|destruct (N.eq_dec (p_kz p) 0) as [Hk|Hk]].
  2:{ (* kzalloc fails *) unfold code_of in E. rewrite Hk, mock_eq in E. cbv zeta in E. change (len (rq_data (mock_request 0 (p_wild p) (p_cmnd p)))) with n in E.
      replace (0 <? n) with true in E by lia. change (0 =? 0) with true in E. cbn [andb] in E. unfold bind, kzalloc in E. change (0 =? 0) with true in E. cbv iota in E.
      apply ret_eq in E as [_ <-]. cbn [trace log]. rewrite Tv. exists []. reflexivity. }
  all: assert (Un : unused v (p_kz p) n) by
    (first [ intros x Hx; lia
           | destruct S3 as [S3|[S3 _]]; [contradiction|]; intros x Hx; rewrite V1; specialize (S3 x Hx); destruct (mm x) as [b|] eqn:Z; [rewrite (Hp x b Z) in S3; discriminate S3|reflexivity] ]).
  all: assert (Gd : exists d, sg_holds v (sc_sgl (p_cmnd p)) d /\ N.of_nat (length d) = N.min n (sg_total (sc_sgl (p_cmnd p)))).
  1,3: set (as_ := firstn (N.to_nat n) (sg_addrs (sc_sgl (p_cmnd p))));
    exists (map (fun x => match mm x with Some b => b | None => x00 end) as_);
    assert (La : length as_ = Nat.min (N.to_nat n) (length (sg_addrs (sc_sgl (p_cmnd p))))) by apply firstn_length;
    (split; [split; [rewrite map_length; lia|]|pose proof (sg_total_length (sc_sgl (p_cmnd p))); rewrite map_length, La; lia]);
    intros i a b Ea Eb; rewrite V1; rewrite nth_error_map in Eb;
    assert (Li : (i < length as_)%nat) by (apply nth_error_Some; intros Z; rewrite Z in Eb; discriminate Eb);
    assert (Ea' : nth_error as_ i = Some a) by (unfold as_; rewrite <- Ea; rewrite <- (firstn_skipn (N.to_nat n) (sg_addrs (sc_sgl (p_cmnd p)))) at 2; rewrite nth_error_app1; [reflexivity|exact Li]);
    rewrite Ea' in Eb; cbn [option_map] in Eb; apply Some_eq in Eb as <-; specialize (E6 a (nth_error_In _ _ Ea)); destruct (mm a); [reflexivity|contradiction].
  all: destruct Gd as (d & G1 & G2);
    destruct (C90_adapter_leaks_exactly D (p_wrs p) (p_kz p) (p_wild p) (p_cmnd p) v (p_cdb p) d [] r v' Sn) as (qs & o' & _ & L & _);
    [rewrite Tv; reflexivity|intros i b Hb; rewrite V1; apply E2; exact Hb|exact E3|exact E4|exact Un| |exact E|exists o'; exact L];
    intros _; split; [exact G1|split; [exact G2|]]; intros k s m; cbv zeta; destruct (Hd k) as (k' & ->); apply S4.
Qed.

(** the ledger of all threads together *)
Lemma ledger_add new : forall lt lt' L rest, fold_left ledger_step new (Some lt) = Some lt' -> Permutation L (lt ++ rest) ->
  exists L', fold_left ledger_step new (Some L) = Some L' /\ Permutation L' (lt' ++ rest).
Proof.
  induction new as [|e new IH]; intros lt lt' L rest E P; cbn [fold_left] in *.
  - apply Some_eq in E as <-. exists L. auto.
  - destruct e as [s n a|a n]; cbn [ledger_step] in *.
    + apply (IH _ _ (if a =? 0 then L else (a, n) :: L) rest E). destruct (a =? 0); [exact P|]. cbn [app]. apply perm_skip. exact P.
    + destruct (remove_run (a, n) lt) as [l1|] eqn:R; [|rewrite ledger_none in E; discriminate E].
      assert (P1 : Permutation lt ((a, n) :: l1)).
      { clear -R. revert l1 R. induction lt as [|q l IHl]; intros l1 R; cbn [remove_run] in R; [discriminate R|].
        destruct ((fst (a, n) =? fst q) && (snd (a, n) =? snd q)) eqn:Q.
        - apply Some_eq in R as <-. cbn [fst snd] in Q. replace q with (a, n); [apply Permutation_refl|]. destruct q; cbn [fst snd] in Q. f_equal; lia.
        - destruct (remove_run (a, n) l) as [l2|] eqn:R2; [|discriminate R]. cbn [option_map] in R. apply Some_eq in R as <-.
          eapply perm_trans; [apply perm_skip, IHl; reflexivity|apply perm_swap]. }
      destruct (Properties11.remove_run_in (a, n) L (l1 ++ rest)) as (L1 & -> & P2).
      { eapply perm_trans; [exact P|]. change ((a, n) :: l1 ++ rest) with (((a, n) :: l1) ++ rest). apply Permutation_app_tail. exact P1. }
      apply (IH l1 lt' L1 rest E P2).
Qed.
Definition own_ledgers (st : list progress) (ls : list (list (N * N))) : Prop := Forall2 (fun g l => ledger (g_evs g) = Some l) st ls.
Lemma starts_ledgers ps : forall mems, exists ls, own_ledgers (starts ps mems) ls /\ concat ls = [].
Proof.
  induction ps as [|p ps IH]; intros mems; [exists []; split; [constructor|reflexivity]|]. destruct mems as [|mm mems]; [exists []; split; [constructor|reflexivity]|].
  destruct (IH mems) as (ls & L & C). exists ([] :: ls). split; [constructor; [reflexivity|exact L]|exact C].
Qed.
Lemma gen_shared (dev : driver -> Prop) w ps mems o :
  (forall w' st, at_once dev w (starts ps mems) w' st -> forall i g, nth_error st i = Some g -> exists l, ledger (g_evs g) = Some l) ->
  ledger (trace w) = Some o -> forall w' st, at_once dev w (starts ps mems) w' st ->
  exists ls L, own_ledgers st ls /\ ledger (trace w') = Some L /\ Permutation L (concat ls ++ o).
Proof.
  intros Hl Ho w' st H. induction H as [|w1 l1 subs m cs dma evs l2 B a k b w2 new H IH Hn E Hh Tn|w1 l1 subs m cs dma evs l2 s k drv c w2 H IH Hn Hd E Hx Hk].
  - destruct (starts_ledgers ps mems) as (ls & L & C). exists ls, o. split; [exact L|]. split; [exact Ho|]. rewrite C. apply Permutation_refl.
  - destruct IH as (ls & L & F & EL & P). apply Forall2_app_inv_l in F as (k1 & k2 & F1 & F2 & ->). inversion F2 as [|g lg q2 k3 G F3]; subst. clear F2. cbn [g_evs] in G.
    assert (H2 := ao_act dev w _ w1 l1 subs m cs dma evs l2 B a k b w2 new H Hn E Hh Tn).
    destruct (Hl _ _ H2 (length l1) _ ltac:(rewrite nth_mid, Nat.eqb_refl; reflexivity)) as (lg' & G'). cbn [g_evs] in G'.
    assert (Gf : fold_left ledger_step new (Some lg) = Some lg') by (rewrite ledger_app, G in G'; exact G').
    destruct (ledger_add new lg lg' L (concat k1 ++ concat k3 ++ o) Gf) as (L' & EL' & P').
    { eapply perm_trans; [exact P|]. rewrite concat_app. cbn [concat]. rewrite <- !app_assoc. apply Permutation_app_swap_app. }
    exists (k1 ++ lg' :: k3), L'. split; [apply Forall2_app; [exact F1|constructor; [exact G'|exact F3]]|]. split; [rewrite Tn, ledger_app, EL; exact EL'|].
    eapply perm_trans; [exact P'|]. rewrite concat_app. cbn [concat]. rewrite <- !app_assoc. apply Permutation_app_swap_app.
  - destruct IH as (ls & L & F & EL & P). apply Forall2_app_inv_l in F as (k1 & k2 & F1 & F2 & ->). inversion F2 as [|g lg q2 k3 G F3]; subst. clear F2. cbn [g_evs] in G.
    exists (k1 ++ lg :: k3), L. split; [apply Forall2_app; [exact F1|constructor; [exact G|exact F3]]|]. split; [|exact P].
    unfold hand_over in E. destruct (drv (length subs) s (mem w1)) as [m2 cp]. apply ret_eq in E as [_ <-]. exact EL.
Qed.

(** ** The guarantees, for any device and commands other than MODE SENSE, and with
    MODE SENSE for devices with sane block sizes *)
Definition admissible (dev : driver -> Prop) (ps : list pending) : Prop :=
  (dev = (fun _ => True) /\ forall p, In p ps -> other_command (p_cdb p)) \/ (dev = sane_device /\ forall p, In p ps -> answerable (p_cdb p)).
Lemma admissible_prefix dev w ps mems w' st i p mm g : all_queued w ps mems -> admissible dev ps ->
  at_once dev w (starts ps mems) w' st -> nth_error ps i = Some p -> nth_error mems i = Some mm -> nth_error st i = Some g ->
  exists D v r v' e, alone mm w v /\ (forall k, exists k', ans v k = ans w k') /\ trace v = [] /\ code_of p D v = Ret r v' /\ trace v' = g_evs g ++ e /\
    exists l, mr_subs r = fst (g_state g) ++ l.
Proof.
  intros (H1 & H2 & H3 & H4) [[-> Ho]|[-> Ho]] H Ep Em Eg.
  - exact (gen_prefix w ps mems H2 H1 H4 H3 other_command Ho (fun _ => True) harmless gave plain_solo plain_replay plain_good plain_broken plain_given gave_none
      (fun c m2 cpl s m y => seen_shape c m2 cpl m y) plain_faith w' st i p mm g H Ep Em Eg).
  - exact (gen_prefix w ps mems H2 H1 H4 H3 answerable Ho sane_device sane_good (fun _ _ => True) sane_solo sane_replay sane_good_extend sane_broken
      (fun _ _ _ _ _ _ _ => I) (fun _ => I) sane_shape sane_faith w' st i p mm g H Ep Em Eg).
Qed.
Lemma admissible_drained dev w ps mems w' st i p mm g : all_queued w ps mems -> admissible dev ps ->
  at_once dev w (starts ps mems) w' st -> nth_error ps i = Some p -> nth_error mems i = Some mm -> nth_error st i = Some g ->
  exists D v r v' e, alone mm w v /\ (forall k, (exists k', ans v k = ans w k') \/ ans v k = fun _ _ => 0) /\ trace v = [] /\
    code_of p D v = Ret r v' /\ trace v' = g_evs g ++ e /\ no_pages e /\ exists l, mr_subs r = fst (g_state g) ++ l.
Proof.
  intros (H1 & H2 & H3 & H4) [[-> Ho]|[-> Ho]] H Ep Em Eg.
  - exact (gen_drained w ps mems H2 H1 H4 H3 other_command Ho (fun _ => True) harmless gave plain_solo plain_replay plain_good plain_broken plain_given gave_none
      (fun c m2 cpl s m y => seen_shape c m2 cpl m y) plain_faith w' st i p mm g H Ep Em Eg).
  - exact (gen_drained w ps mems H2 H1 H4 H3 answerable Ho sane_device sane_good (fun _ _ => True) sane_solo sane_replay sane_good_extend sane_broken
      (fun _ _ _ _ _ _ _ => I) (fun _ => I) sane_shape sane_faith w' st i p mm g H Ep Em Eg).
Qed.
Lemma admissible_isolated dev w ps mems w' st i p mm g r : all_queued w ps mems -> admissible dev ps ->
  at_once dev w (starts ps mems) w' st -> nth_error ps i = Some p -> nth_error mems i = Some mm -> nth_error st i = Some g -> returned (g_state g) r ->
  exists D mm', answered_alone w p mm D r (g_evs g) mm'.
Proof.
  intros Hq [[-> Ho]|[-> Ho]] H Ep Em Eg Hr.
  - destruct (C112_isolated_partial w ps mems w' st i p mm g r Hq Ho H Ep Em Eg Hr) as (D & mm' & _ & _ & A & _). exists D, mm'. exact A.
  - destruct (C112_isolated_mode_partial w ps mems w' st i p mm g r Hq Ho H Ep Em Eg Hr) as (D & mm' & _ & _ & A & _). exists D, mm'. exact A.
Qed.
Lemma at_once_length dev w st0 w' st : at_once dev w st0 w' st -> length st = length st0.
Proof. induction 1; rewrite ?app_length in *; cbn [length] in *; lia. Qed.

Lemma find_thread (dev : driver -> Prop) w ps mems w' st i g : all_queued w ps mems -> at_once dev w (starts ps mems) w' st -> nth_error st i = Some g -> exists p mm, nth_error ps i = Some p /\ nth_error mems i = Some mm.
Proof.
  intros Hq H Eg. destruct Hq as (H1 & _). pose proof (at_once_length _ _ _ _ _ H) as L. rewrite (starts_len ps mems H1) in L.
  assert (i < length st)%nat by (apply nth_error_Some; rewrite Eg; discriminate).
  destruct (nth_error ps i) as [p|] eqn:Ep; [|apply nth_error_None in Ep; lia]. destruct (nth_error mems i) as [mm|] eqn:Em; [|apply nth_error_None in Em; lia]. eauto.
Qed.
Section Ledger.
Variables (dev : driver -> Prop) (w : world) (ps : list pending) (mems : list memory).
Hypothesis Hq : all_queued w ps mems.
Hypothesis Ha : admissible dev ps.
Hypothesis Hcb : alloc_cb w = true /\ dealloc_cb w = true.
Lemma own_defined w' st : at_once dev w (starts ps mems) w' st -> forall i g, nth_error st i = Some g -> exists l, ledger (g_evs g) = Some l.
Proof.
  intros H i g Eg. destruct (find_thread dev w ps mems w' st i g Hq H Eg) as (p & mm & Ep & Em).
  destruct (admissible_prefix dev w ps mems w' st i p mm g Hq Ha H Ep Em Eg) as (D & v & r & v' & e & A & Dr & Tv & E & T & _).
  destruct Hq as (H1 & H2 & [S1 S2] & H4).
  destruct (run_ledger w p mm D v r v' (H4 i p mm Ep Em)) as (l & L); try assumption; try apply Hcb.
  - split; [|exact S2]. intros p' [<-|[]]. apply S1. exact (nth_error_In _ _ Ep).
  - exact (proj1 H2 i mm Em).
  - rewrite T in L. exact (ledger_prefix _ _ _ L).
Qed.
End Ledger.

(** At every moment the page ledger of all threads together is in order -- nothing
    is freed twice, and nothing that was not allocated -- and what is
    outstanding is what the single threads have not yet given back; each thread
    gives back only what it was itself given. *)
Theorem C113_shared_ledger_partial : forall dev w ps mems w' st o,
  all_queued w ps mems -> admissible dev ps -> alloc_cb w = true /\ dealloc_cb w = true -> ledger (trace w) = Some o ->
  at_once dev w (starts ps mems) w' st ->
  exists ls L, own_ledgers st ls /\ ledger (trace w') = Some L /\ Permutation L (concat ls ++ o).
Proof.
  intros dev w ps mems w' st o Hq Ha Hcb Ho H.
  exact (gen_shared dev w ps mems o (fun w2 st2 H2 => own_defined dev w ps mems Hq Ha Hcb w2 st2 H2) Ho w' st H).
Qed.
Print Assumptions C113_shared_ledger_partial.

(** the thread has returned, and not given up before it submitted anything (C58_leak_refuted) *)
Definition came_through (s : progress) : Prop := exists r, returned (g_state s) r /\ (mr_result r <> TASK_ABORTED \/ mr_subs r <> []).
(** When all have come to their end everything has been given back. *)
Theorem C113_all_released_partial : forall dev w ps mems w' st o,
  all_queued w ps mems -> admissible dev ps -> alloc_cb w = true /\ dealloc_cb w = true -> ledger (trace w) = Some o ->
  at_once dev w (starts ps mems) w' st -> (forall g, In g st -> came_through g) ->
  exists L, ledger (trace w') = Some L /\ Permutation L o.
Proof.
  intros dev w ps mems w' st o Hq Ha Hcb Ho H Hc. destruct (C113_shared_ledger_partial dev w ps mems w' st o Hq Ha Hcb Ho H) as (ls & L & F & EL & P).
  exists L. split; [exact EL|]. eapply perm_trans; [exact P|].
  assert (Z : concat ls = []); [|rewrite Z; apply Permutation_refl].
  assert (Zl : forall l, In l ls -> l = []).
  { intros l Hl. apply In_nth_error in Hl as (i & Hl).
    assert (Hg : exists g, nth_error st i = Some g /\ ledger (g_evs g) = Some l).
    { clear -F Hl. revert i Hl. induction F as [|g l0 st ls G F IH]; intros [|i] Hl; try discriminate Hl.
      - apply Some_eq in Hl as <-. exists g. auto.
      - exact (IH i Hl). }
    destruct Hg as (g & Eg & G). destruct (Hc g (nth_error_In _ _ Eg)) as (r & Hr & Hn).
    destruct (find_thread dev w ps mems w' st i g Hq H Eg) as (p & mm & Ep & Em).
    destruct (admissible_isolated dev w ps mems w' st i p mm g r Hq Ha H Ep Em Eg Hr) as (D & mm' & v & v' & (V1 & V2 & V3) & Dr & Tv & E & T & _).
    destruct Hq as (_ & _ & [_ S2] & _).
    destruct (C58_kernel_memory_released_partial D (p_wrs p) (p_kz p) (p_wild p) (p_cmnd p) v [] r v') as (o' & O1 & O2); [|rewrite Tv; reflexivity|exact E|exact Hn|].
    - split; [rewrite V2; apply Hcb|]. split; [rewrite V3; apply Hcb|]. intros k s. destruct (Dr k) as (k' & ->). apply S2.
    - rewrite T, G in O1. apply Some_eq in O1 as <-. apply Permutation_sym, Permutation_nil in O2. exact O2. }
  clear -Zl. induction ls as [|l ls IH]; [reflexivity|]. cbn [concat]. rewrite (Zl l (or_introl eq_refl)), IH; [reflexivity|]. intros l0 Hl. apply Zl. right. exact Hl.
Qed.
Print Assumptions C113_all_released_partial.

(** ** The premises are met *)
Example C113_premises_met : let c2 := ex_sense43 in
  all_queued (ex_world43 c2) (ex_ps c2) (ex_mems43 c2) /\ admissible (fun _ => True) (ex_ps c2) /\ ledger (trace (ex_world43 c2)) = Some [] /\
  (alloc_cb (ex_world43 c2) = true /\ dealloc_cb (ex_world43 c2) = true) /\
  exists w g1 g2, at_once (fun _ => True) (ex_world43 c2) (starts (ex_ps c2) (ex_mems43 c2)) w [g1; g2] /\ came_through g1 /\ came_through g2.
Proof.
  cbv zeta. destruct C112_premises_met as (Q & O & w & g1 & g2 & r1 & r2 & A & R1 & R2 & X1 & X2). apply pair_eq in X2 as [X2 _]. apply pair_eq in X2 as [X2 _].
  split; [exact Q|]. split; [left; split; [reflexivity|exact O]|]. split; [reflexivity|]. split; [split; reflexivity|].
  exists w, g1, g2. split; [exact A|]. split; [exists r1|exists r2]; (split; [assumption|left]); [rewrite X1|rewrite X2]; discriminate.
Qed.
