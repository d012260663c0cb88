(** C86: calls may run at the same time. *)
From Coq Require Import Arith NArith String List Lia Bool Init.Byte Permutation.
From Coq Require Import ZifyBool ZifyNat ZifyN.
From Verif Require Import Bytes Layout World ScsiDefs NvmeDefs Common ModeSenseCmd StatusCmd TranslationCls Spec RwSpec MockSpec
  Facts Logic BeginFacts CompleteFacts ProgFacts Witness Properties1 Properties8 Properties9 Properties23 ConcSpec ConcFacts.
Import ListNotations.
Local Open Scope string_scope.
Local Open Scope list_scope.
Local Open Scope N_scope.

Lemma nth_mid {T} (l1 l2 : list T) x i : nth_error (l1 ++ x :: l2) i = if Nat.eqb i (length l1) then Some x else nth_error (l1 ++ l2) (if Nat.ltb i (length l1) then i else pred i).
Proof.
  destruct (Nat.eqb_spec i (length l1)) as [->|N].
  - rewrite nth_error_app2 by lia. rewrite Nat.sub_diag. reflexivity.
  - destruct (Nat.ltb_spec i (length l1)) as [L|L].
    + rewrite !nth_error_app1 by lia. reflexivity.
    + rewrite !nth_error_app2 by lia. replace (i - length l1)%nat with (S (i - length l1 - 1)) by lia. cbn [nth_error]. f_equal. lia.
Qed.
Lemma nth_mid_other {T} (l1 l2 : list T) x y i : i <> length l1 -> nth_error (l1 ++ x :: l2) i = nth_error (l1 ++ y :: l2) i.
Proof. intros N. rewrite !nth_mid. replace (Nat.eqb i (length l1)) with false by (symmetry; apply Nat.eqb_neq; exact N). reflexivity. Qed.
Lemma events_app i l j evs : events_of i (l ++ map (pair j) evs) = events_of i l ++ (if Nat.eqb j i then evs else []).
Proof.
  unfold events_of. rewrite filter_app, map_app. f_equal. induction evs as [|e evs IH]; cbn [map filter fst]; [destruct (Nat.eqb j i); reflexivity|].
  destruct (Nat.eqb j i); cbn [map snd]; [f_equal; exact IH|exact IH].
Qed.
Lemma record_world {A} w w2 evs (m0 : M A) mm0 m mm : alloc_cb w2 = alloc_cb w -> dealloc_cb w2 = dealloc_cb w ->
  on_record w evs m0 mm0 m mm -> on_record w2 evs m0 mm0 m mm.
Proof. intros H1 H2 (t & u & H). exists t, u. intros v (A1 & A2 & A3). apply H. split; [exact A1|]. split; congruence. Qed.

Section Pool.
Context {A : Type}.
Variables (ms : list (M A)) (mems : list memory) (w : world).
Hypothesis Hown : each_own mems w.
Hypothesis Hlen : length mems = length ms.
Hypothesis Hwork : forall i m mm, nth_error ms i = Some m -> nth_error mems i = Some mm -> works_alone m mm w.
Hypothesis Hprog : Forall program ms.

Record pool_inv (l : list (nat * event)) (w' : world) (ms' : list (M A)) (cur : nat -> memory) : Prop := {
  pi_len : length ms' = length ms;
  pi_prog : Forall program ms';
  pi_flags : alloc_cb w' = alloc_cb w /\ dealloc_cb w' = dealloc_cb w;
  pi_rec : forall i m m0 mm0, nth_error ms' i = Some m -> nth_error ms i = Some m0 -> nth_error mems i = Some mm0 ->
    on_record w' (events_of i l) m0 mm0 m (cur i);
  pi_here : forall i, (i < length ms)%nat -> present (cur i) w';
  pi_sep : forall i j, (i < length ms)%nat -> (j < length ms)%nat -> i <> j -> separate (cur i) (cur j);
  pi_frame : forall x, mem w x <> None -> (forall mm, In mm mems -> mm x = None) ->
    mem w' x = mem w x /\ forall i, (i < length ms)%nat -> cur i x = None
}.

Lemma pool_start : pool_inv [] w ms (fun i => nth i mems (fun _ => None)).
Proof.
  destruct Hown as [O1 O2]. split.
  - reflexivity.
  - exact Hprog.
  - split; reflexivity.
  - intros i m m0 mm0 H1 H2 H3. rewrite H1 in H2. injection H2 as <-. rewrite (nth_error_nth _ _ _ H3). apply record_start.
  - intros i Hi. apply (O1 i). apply nth_error_nth'. lia.
  - intros i j Hi Hj Hn. apply (O2 i j); [apply nth_error_nth'; lia|apply nth_error_nth'; lia|exact Hn].
  - intros x Hx Hm. split; [reflexivity|]. intros i Hi. apply Hm. apply nth_In. lia.
Qed.

Lemma pool_step l w1 l1 m l2 B (a : M B) k b w2 evs cur : pool_inv l w1 (l1 ++ m :: l2) cur ->
  starts_with m a k -> a w1 = Ret b w2 -> trace w2 = trace w1 ++ evs -> honest_step w1 w2 ->
  exists cur', pool_inv (l ++ map (pair (length l1)) evs) w2 (l1 ++ k b :: l2) cur'.
Proof.
  intros I Hs E Tr Hh. destruct (pi_flags _ _ _ _ I) as [F1 F2]. set (i := length l1).
  assert (Hi : (i < length ms)%nat) by (rewrite <- (pi_len _ _ _ _ I), app_length; cbn [length]; unfold i; lia).
  destruct (nth_error ms i) as [m0|] eqn:E0; [|apply nth_error_None in E0; lia].
  destruct (nth_error mems i) as [mm0|] eqn:Em; [|apply nth_error_None in Em; lia].
  assert (Ei : nth_error (l1 ++ m :: l2) i = Some m) by (rewrite nth_mid; unfold i; rewrite Nat.eqb_refl; reflexivity).
  pose proof (pi_rec _ _ _ _ I i m m0 mm0 Ei E0 Em) as R.
  destruct (record_step m0 mm0 w (Hwork i m0 mm0 E0 Em) w1 _ m (cur i) B a k b w2 F1 F2 R (pi_here _ _ _ _ I i Hi) Hs E Hh) as (mm2 & new & T2 & P2 & G1 & G2 & R2 & Fr).
  rewrite Tr in T2. apply app_inv_head in T2. subst new.
  exists (fun j => if Nat.eqb j i then mm2 else cur j).
  assert (Other : forall j, (j < length ms)%nat -> j <> i -> present (cur j) w2 /\ separate mm2 (cur j)).
  { intros j Hj Hn. pose proof (pi_sep _ _ _ _ I i j Hi Hj (not_eq_sym Hn)) as Sep. split.
    - intros x v Hx. pose proof (pi_here _ _ _ _ I j Hj x v Hx) as Hx1. destruct (Fr x) as [_ Q]; [congruence| |congruence].
      destruct (Sep x) as [Q|Q]; [exact Q|congruence].
    - intros x. destruct (cur j x) as [v|] eqn:Ex; [|auto]. left. pose proof (pi_here _ _ _ _ I j Hj x v Ex) as Hx1.
      apply Fr; [congruence|]. destruct (Sep x) as [Q|Q]; [exact Q|congruence]. }
  split.
  - rewrite <- (pi_len _ _ _ _ I), !app_length. reflexivity.
  - pose proof (pi_prog _ _ _ _ I) as P. rewrite Forall_app in *. destruct P as [P1 P]. split; [exact P1|]. inversion P as [|? ? _ P3]; subst. constructor; [apply Hs|exact P3].
  - split; congruence.
  - intros j m' m0' mm0' Hj H0 Hm. rewrite events_app. fold i. destruct (Nat.eqb_spec j i) as [->|Hn].
    + rewrite Nat.eqb_refl. rewrite nth_mid in Hj. unfold i in Hj at 1. rewrite Nat.eqb_refl in Hj. injection Hj as <-.
      rewrite E0 in H0. injection H0 as <-. rewrite Em in Hm. injection Hm as <-. exact R2.
    + replace (Nat.eqb i j) with false by (symmetry; apply Nat.eqb_neq; auto). rewrite app_nil_r.
      rewrite (nth_mid_other l1 l2 (k b) m j Hn) in Hj. apply (record_world w1); [congruence|congruence|]. exact (pi_rec _ _ _ _ I j m' m0' mm0' Hj H0 Hm).
  - intros j Hj. destruct (Nat.eqb_spec j i) as [->|Hn]; [exact P2|]. apply Other; assumption.
  - intros j j' Hj Hj' Hn. destruct (Nat.eqb_spec j i) as [->|Hn1], (Nat.eqb_spec j' i) as [->|Hn2]; [congruence| | |].
    + apply Other; assumption.
    + intros x. destruct (proj2 (Other j Hj Hn1) x); auto.
    + exact (pi_sep _ _ _ _ I j j' Hj Hj' Hn).
  - intros x Hx Hm. destruct (pi_frame _ _ _ _ I x Hx Hm) as [Q1 Q2]. destruct (Fr x) as [Q3 Q4]; [congruence|apply Q2; exact Hi|].
    split; [congruence|]. intros j Hj. destruct (Nat.eqb_spec j i) as [->|_]; [exact Q3|apply Q2; exact Hj].
Qed.
Lemma pool_reach l w' ms' : schedule w ms l w' ms' -> exists cur, pool_inv l w' ms' cur.
Proof.
  induction 1 as [|l w1 l1 m l2 B a k b w2 evs H [cur I] Hs E Tr Hh]; [eexists; apply pool_start|].
  exact (pool_step _ _ _ _ _ _ _ _ _ _ _ _ I Hs E Tr Hh).
Qed.
End Pool.

(** ** C86 *)

(** threads that are defined alone, each with its own memory, under any schedule *)
Theorem C86_threads : forall A (ms : list (M A)) mems w l w' ms',
  each_own mems w -> length mems = length ms -> Forall program ms ->
  (forall i m mm, nth_error ms i = Some m -> nth_error mems i = Some mm -> works_alone m mm w) ->
  schedule w ms l w' ms' ->
  (* no thread has run into undefined behaviour: every one is finished or can go
     on, and whatever it does next is defined *)
  (forall m, In m ms' -> ~ is_undefined m) /\
  (forall m, In m ms' -> (exists r, finished m r) \/
     (exists B (a : M B) k b w2, starts_with m a k /\ a w' = Ret b w2)) /\
  (forall m B (a : M B) k, In m ms' -> starts_with m a k -> exists b w2, a w' = Ret b w2) /\
  (* a finished thread has the result, the calls of the page callbacks and the
     memory it gets alone, with an allocator that answers it in the same way *)
  (forall i m mm m' r, nth_error ms i = Some m -> nth_error mems i = Some mm -> nth_error ms' i = Some m' -> finished m' r ->
     exists v v', alone mm w v /\ trace v = [] /\ m v = Ret r v' /\ trace v' = events_of i l /\ present (mem v') w') /\
  (* memory that belongs to no thread is left alone *)
  (forall x, mem w x <> None -> (forall mm, In mm mems -> mm x = None) -> mem w' x = mem w x).
Proof.
  intros A ms mems w l w' ms' Hown Hlen Hprog Hwork H.
  destruct (pool_reach ms mems w Hown Hlen Hwork Hprog l w' ms' H) as [cur I]. destruct (pi_flags _ _ _ _ _ _ _ I) as [F1 F2].
  assert (Next : forall m, In m ms' -> ~ is_undefined m /\ forall B (a : M B) k, starts_with m a k -> exists b w2, a w' = Ret b w2).
  { intros m Hin. apply In_nth_error in Hin as [i Hi].
    assert (Li : (i < length ms)%nat) by (rewrite <- (pi_len _ _ _ _ _ _ _ I); apply nth_error_Some; congruence).
    destruct (nth_error ms i) as [m0|] eqn:E0; [|apply nth_error_None in E0; lia].
    destruct (nth_error mems i) as [mm0|] eqn:Em; [|apply nth_error_None in Em; lia].
    exact (record_next m0 mm0 w (Hwork i m0 mm0 E0 Em) w' _ m (cur i) F1 F2 (pi_rec _ _ _ _ _ _ _ I i m m0 mm0 Hi E0 Em) (pi_here _ _ _ _ _ _ _ I i Li)). }
  split; [|split; [|split; [|split]]].
  - intros m Hin. apply (Next m Hin).
  - intros m Hin. destruct (Next m Hin) as [N1 N2]. pose proof (pi_prog _ _ _ _ _ _ _ I) as P. rewrite Forall_forall in P. specialize (P m Hin).
    destruct P as [m r F|m U|m B a k Ha Hk P]; [left; eauto|contradiction|]. right.
    destruct (N2 B a k) as (b & w2 & E); [split; [exact Ha|split; [exact Hk|exact P]]|]. exists B, a, k, b, w2. split; [|exact E]. split; [exact Ha|]. split; [exact Hk|exact P].
  - intros m B a k Hin Hs. apply (proj2 (Next m Hin) B a k Hs).
  - intros i m mm m' r H0 Hm Hi Hf.
    assert (Li : (i < length ms)%nat) by (apply nth_error_Some; congruence).
    destruct (pi_rec _ _ _ _ _ _ _ I i m' m mm Hi H0 Hm) as (t & u & R).
    destruct (probe_ok (cur i) w' u t (events_of i l)) as (P1 & _ & P3). set (v := probe (cur i) w' u t (events_of i l)) in *.
    exists (rewind v mm), v. split; [|split; [reflexivity|split; [|split; [reflexivity|]]]].
    + destruct P1 as (_ & A1 & A2). split; [reflexivity|]. cbn [alloc_cb dealloc_cb rewind]. split; congruence.
    + rewrite (R v P1 eq_refl eq_refl P3). apply Hf.
    + exact (pi_here _ _ _ _ _ _ _ I i Li).
  - intros x Hx Hm. apply (pi_frame _ _ _ _ _ _ _ I x Hx Hm).
Qed.
Print Assumptions C86_threads.

Lemma ready_works c mm w : ready c mm -> works_alone (run_call c) mm w.
Proof.
  intros R v (Hm & _). destruct c as [t cdb buffer lun|t cpls buffer sense|t]; cbn [run_call ready] in *.
  - destruct R as ((env & b & w0 & Rt) & H1 & H2). pose proof (reach_inv _ _ _ _ Rt) as I.
    assert (E : exists t' r v', Begin t cdb buffer lun v = Ret (t', r) v').
    { destruct b.
      - do 3 eexists. apply Begin_busy. intros Hu. pose proof (i_busy _ _ I) as Hb. rewrite Hu in Hb. discriminate.
      - pose proof (Begin_idle_spec true t cdb buffer lun v (inv_idle _ I)) as S.
        assert (S1 : ok_span true v cdb) by (intros _ x Hx; rewrite Hm; apply H1; exact Hx).
        assert (S2 : ok_span true v buffer) by (intros _ x Hx; rewrite Hm; apply H2; exact Hx).
        specialize (S S1 S2). apply cst_tst, tst_inv in S as ([t' r] & w' & E & _). eauto. }
    destruct E as (t' & r & v' & E). unfold bind. rewrite E. eauto.
  - destruct R as (t0 & w0 & cdb & bs & b0 & lun & r & w1 & Hi & Hc & E & Ho & (Hl & Hcd) & H1 & H2 & H3).
    assert (K1 : span_holds v cdb bs) by (split; [exact Hl|]; intros i b Hb; rewrite Hm; apply Hcd; exact Hb).
    assert (K2 : span_mapped v buffer) by (intros x Hx; rewrite Hm; apply H1; exact Hx).
    assert (K3 : span_mapped v sense) by (intros x Hx; rewrite Hm; apply H2; exact Hx).
    assert (K4 : forall p n, In (p, n) (held t) -> mapped v p (4096 * n)) by (intros p n Hin x Hx; rewrite Hm; exact (H3 p n x Hin Hx)).
    assert (D : exists x v', Complete t cpls buffer sense v = Ret x v').
    { destruct Ho as [Ho|(page & Hpl & Hu & Hpg)].
      - destruct (C12_complete_defined_partial t0 w0 cdb bs b0 lun t r w1 Hi Hc E Ho v cpls buffer sense K1 K2 K3 K4) as (t2 & r2 & v' & E2). eauto.
      - destruct (Complete t cpls buffer sense v) as [x v'|s] eqn:Ec; [eauto|exfalso].
        destruct (C88_undefined_iff t0 w0 cdb bs b0 lun t r w1 Hi Hc E v cpls buffer sense page K1 K2 K3 K4 Hpl) as [X _].
        { intros _ p Hp. destruct (Hpg p Hp) as [Ap By]. split; [intros _; exact Ap|]. intros i b Hb. rewrite Hm. apply By. exact Hb. }
        destruct X as (_ & _ & _ & X); [exists s; exact Ec|]. rewrite Hu in X. discriminate X. }
    destruct D as ([t2 r2] & v' & E2). unfold bind. rewrite E2. eauto.
  - destruct R as (env & b & w0 & Rt). pose proof (AbortPipeline_spec t v (i_wf _ _ (reach_inv _ _ _ _ Rt))) as S.
    apply tst_inv in S as (t' & v' & E & _). unfold bind. rewrite E. eauto.
Qed.

Lemma ready_nth cs mems i c mm : Forall2 ready cs mems -> nth_error cs i = Some c -> nth_error mems i = Some mm -> ready c mm.
Proof.
  intros Hr. revert i. induction Hr as [|c' mm' cs mems R _ IH]; intros [|i] Ec Hm; try discriminate; cbn [nth_error] in *.
  - injection Ec as <-. injection Hm as <-. exact R.
  - exact (IH i Ec Hm).
Qed.

(** calls of the library on different objects, under any schedule: no undefined
    behaviour, and each call answers as it would alone *)
Theorem C86_calls : forall cs mems w l w' ms',
  each_own mems w -> Forall2 ready cs mems -> schedule w (map run_call cs) l w' ms' ->
  (forall m, In m ms' -> ~ is_undefined m) /\
  (forall m, In m ms' -> (exists r, finished m r) \/
     (exists B (a : M B) k b w2, starts_with m a k /\ a w' = Ret b w2)) /\
  (forall m B (a : M B) k, In m ms' -> starts_with m a k -> exists b w2, a w' = Ret b w2) /\
  (forall i c mm m' r, nth_error cs i = Some c -> nth_error mems i = Some mm -> nth_error ms' i = Some m' -> finished m' r ->
     exists v v', alone mm w v /\ trace v = [] /\ run_call c v = Ret r v' /\ trace v' = events_of i l /\ present (mem v') w') /\
  (forall x, mem w x <> None -> (forall mm, In mm mems -> mm x = None) -> mem w' x = mem w x).
Proof.
  intros cs mems w l w' ms' Hown Hr H.
  destruct (C86_threads _ (map run_call cs) mems w l w' ms' Hown) as (T0 & T1 & T2 & T3 & T4).
  - rewrite map_length. clear -Hr. induction Hr; cbn [length]; [reflexivity|f_equal; assumption].
  - apply Forall_forall. intros m Hm. apply in_map_iff in Hm as (c & <- & _). apply program_call.
  - intros i m mm H0 Hm. rewrite nth_error_map in H0. destruct (nth_error cs i) as [c|] eqn:Ec; [|discriminate H0]. injection H0 as <-.
    exact (ready_works c mm w (ready_nth cs mems i c mm Hr Ec Hm)).
  - exact H.
  - split; [exact T0|]. split; [exact T1|]. split; [exact T2|]. split; [|exact T4].
    intros i c mm m' r Hc Hm Hi Hf. apply (T3 i (run_call c) mm m' r); [rewrite nth_error_map, Hc; reflexivity|exact Hm|exact Hi|exact Hf].
Qed.
Print Assumptions C86_calls.

(** ** C86: there is such a schedule *)

(** an allocator that never gives the same memory twice: the [k]-th answer is the
    [k]-th megabyte; too large requests are refused *)
Definition megabytes (w : world) : Prop :=
  (forall k size n, ans w k size n = if (size * n <=? 0x100000) && (N.of_nat k + 2 <=? 0x1000) then 0x100000 * (N.of_nat k + 1) else 0) /\
  forall x, 0x100000 * (N.of_nat (tick w) + 1) <= x -> mem w x = None.

Lemma megabytes_step B (a : M B) w b w2 : megabytes w -> atomic a -> a w = Ret b w2 ->
  megabytes w2 /\ honest_step w w2 /\ exists evs, trace w2 = trace w ++ evs.
Proof.
  intros [H1 H2] Ha E. destruct Ha as [a n|a bs|size n|a n|n].
  - unfold load in E. destruct (load_bytes _ _ _); [|discriminate E]. injection E as _ <-. split; [split; assumption|]. split.
    + intros s n' p T. exfalso. apply (f_equal (@length event)) in T. rewrite app_length in T. cbn [length] in T. lia.
    + exists []. rewrite app_nil_r. reflexivity.
  - unfold store in E. destruct (load_bytes (mem w) a (length bs)) as [l|] eqn:El; [|discriminate E]. injection E as _ <-. split; [|split].
    + split; [exact H1|]. cbn [mem set_mem tick]. intros x Hx. unfold store_bytes. destruct ((a <=? x) && (x <? a + N.of_nat (length bs))) eqn:R; [|apply H2; exact Hx].
      exfalso. apply (load_dom _ _ _ _ El x); [lia|apply H2; exact Hx].
    + intros s n' p T. exfalso. apply (f_equal (@length event)) in T. rewrite app_length in T. cbn [length set_mem trace] in T. lia.
    + exists []. rewrite app_nil_r. reflexivity.
  - unfold AllocPages in E. destruct (alloc_cb w); cbn [negb] in E.
    + set (p := u64 (ans w (tick w) size n)) in *.
      assert (Hp : p <> 0 -> p = 0x100000 * (N.of_nat (tick w) + 1) /\ size * n <= 0x100000).
      { unfold p. rewrite H1. destruct ((size * n <=? 0x100000) && (N.of_nat (tick w) + 2 <=? 0x1000)) eqn:R; [|intros Q; contradiction Q; reflexivity].
        intros _. split; [|lia]. unfold u64. apply N.mod_small. assert (N.of_nat (tick w) + 2 <= 0x1000) by lia. lia. }
      assert (Hw : megabytes w2).
      { destruct (N.eqb_spec p 0) as [Z|Z]; injection E as _ <-; (split; [exact H1|]); cbn [mem set_mem log set_tick tick]; intros x Hx.
        - apply H2. lia.
        - destruct (Hp Z) as [-> Hs]. unfold map_pages. destruct (_ && _) eqn:R; [lia|]. apply H2. lia. }
      split; [exact Hw|]. split.
      * intros s n' p' T Z. assert (T' : trace w2 = trace w ++ [EvAlloc size n p]) by (destruct (p =? 0); injection E as _ <-; reflexivity).
        rewrite T' in T. apply app_inv_head in T. injection T as <- <- <-. intros x Hx. destruct (Hp Z) as [P _]. apply H2. lia.
      * exists [EvAlloc size n p]. destruct (p =? 0); injection E as _ <-; reflexivity.
    + injection E as _ <-. split; [split; assumption|]. split.
      * intros s n' p T. exfalso. apply (f_equal (@length event)) in T. rewrite app_length in T. cbn [length] in T. lia.
      * exists []. rewrite app_nil_r. reflexivity.
  - unfold DeallocPages in E. destruct (dealloc_cb w); cbn [negb] in E; injection E as _ <-; (split; [split; assumption|]); split.
    + intros s n' p T. cbn [log trace] in T. apply app_inv_head in T. discriminate T.
    + eexists. reflexivity.
    + intros s n' p T. exfalso. apply (f_equal (@length event)) in T. rewrite app_length in T. cbn [length] in T. lia.
    + exists []. rewrite app_nil_r. reflexivity.
  - unfold stack_junk in E. injection E as _ <-. split; [|split].
    + split; [exact H1|]. cbn [mem set_tick tick]. intros x Hx. apply H2. lia.
    + intros s n' p T. exfalso. apply (f_equal (@length event)) in T. rewrite app_length in T. cbn [length set_tick trace] in T. lia.
    + exists []. rewrite app_nil_r. reflexivity.
Qed.

(** the threads can all be brought to their end, in any order *)
Theorem C86_all_finish : forall A (ms : list (M A)) mems w,
  each_own mems w -> length mems = length ms -> Forall program ms ->
  (forall i m mm, nth_error ms i = Some m -> nth_error mems i = Some mm -> works_alone m mm w) -> megabytes w ->
  forall l1 w1 ms1, schedule w ms l1 w1 ms1 -> 
  exists l w' ms', schedule w ms (l1 ++ l) w' ms' /\ forall m, In m ms' -> exists r, finished m r.
Proof.
  intros A ms mems w Hown Hlen Hprog Hwork Hb l1 w1 ms1 H1.
  assert (B1 : megabytes w1).
  { clear Hown Hlen Hprog Hwork. induction H1 as [|l w1 l0 m l2 B a k b w2 evs _ IH Hs E _ _]; [exact Hb|]. exact (proj1 (megabytes_step _ a w1 b w2 IH (proj1 Hs) E)). }
  (* the threads before the first unfinished one *)
  assert (Go : forall todo pre l1 w1, Forall program todo -> (forall m, In m pre -> exists r, finished m r) ->
            schedule w ms l1 w1 (pre ++ todo) -> megabytes w1 ->
            exists l w' ms', schedule w ms (l1 ++ l) w' ms' /\ forall m, In m ms' -> exists r, finished m r).
  { clear l1 w1 ms1 H1 B1. induction todo as [|m todo IH]; intros pre l1 w1 Hp Hf Hs Hm.
    - rewrite app_nil_r in Hs. exists [], w1, pre. rewrite app_nil_r. auto.
    - inversion Hp as [|? ? Pm Pt]; subst. revert l1 w1 Hs Hm. induction Pm as [m r F|m U|m B a k Ha Hk Pk IHk]; intros l1 w1 Hs Hm.
      + apply (IH (pre ++ [m]) l1 w1); [exact Pt| |rewrite <- app_assoc; exact Hs|exact Hm].
        intros m' Hi. apply in_app_or in Hi as [Hi|[<-|[]]]; [apply Hf; exact Hi|eauto].
      + exfalso. apply (proj1 (C86_threads _ ms mems w _ _ _ Hown Hlen Hprog Hwork Hs) m); [apply in_or_app; right; left; reflexivity|exact U].
      + assert (St : starts_with m a k) by (split; [exact Ha|split; [exact Hk|exact Pk]]).
        destruct (C86_threads _ ms mems w _ _ _ Hown Hlen Hprog Hwork Hs) as (_ & _ & T2 & _).
        destruct (T2 m B a k) as (b & w2 & E); [apply in_or_app; right; left; reflexivity|exact St|].
        destruct (megabytes_step _ a w1 b w2 Hm Ha E) as (Hm2 & Hh & evs & Tr).
        destruct (IHk b) with (l1 := l1 ++ map (pair (length pre)) evs) (w1 := w2) as (l & w' & ms' & Hs' & Hf').
        * constructor; [apply Pk|exact Pt].
        * exact (sch_step _ _ _ _ _ _ _ _ _ _ _ _ _ Hs St E Tr Hh).
        * exact Hm2.
        * rewrite <- app_assoc in Hs'. eauto. }
  apply (Go ms1 [] l1 w1); [|intros m []|exact H1|exact B1].
  clear -Hprog H1. induction H1 as [|l w1 l0 m l2 B a k b w2 evs _ IH Hs _ _ _]; [exact Hprog|].
  rewrite Forall_app in *. destruct IH as [P1 P]. split; [exact P1|]. inversion P; subst. constructor; [apply Hs|assumption].
Qed.
Print Assumptions C86_all_finish.

(** three calls on three objects: READ(10) and INQUIRY begin while an aborted
    command is given up; the CDBs are at 0x1000 and 0x2000, the buffers of 4096
    and 36 bytes at 0x20000 and 0x30000 *)
Definition ex_cdb1 : list byte := B [0x28; 0; 0; 0; 0; 8; 0; 0; 8; 0].
Definition ex_cdb2 : list byte := B [0x12; 0; 0; 0; 36; 0].
Definition ex_mem1 : memory := region 0x1000 ex_cdb1 (zeros 0x20000 4096 (fun _ => None)).
Definition ex_mem2 : memory := region 0x2000 ex_cdb2 (zeros 0x30000 36 (fun _ => None)).
Definition ex_calls : list call := [
  CallBegin ex_obj {| ptr := 0x1000; len := 10 |} {| ptr := 0x20000; len := 4096 |} 0;
  CallBegin ex_obj {| ptr := 0x2000; len := 6 |} {| ptr := 0x30000; len := 36 |} 0;
  CallAbort ex_obj ].
Definition ex_mems : list memory := [ex_mem1; ex_mem2; fun _ => None].
Definition ex_both : world :=
  {| mem := fun x => match ex_mem1 x with Some b => Some b | None => ex_mem2 x end; alloc_cb := true; dealloc_cb := true;
     ans := fun k size n => if (size * n <=? 0x100000) && (N.of_nat k + 2 <=? 0x1000) then 0x100000 * (N.of_nat k + 1) else 0;
     fill := fun _ _ => x00; junk := fun _ _ => xff; tick := 0; trace := [] |}.

Lemma region_in a bs m x : a <= x < a + N.of_nat (length bs) -> region a bs m x <> None.
Proof.
  intros H. unfold region. replace ((a <=? x) && (x <? a + N.of_nat (length bs))) with true by lia. intros E. apply nth_error_None in E. lia.
Qed.
Lemma region_not a bs m x : ~ (a <= x < a + N.of_nat (length bs)) -> region a bs m x = m x.
Proof. intros H. unfold region. replace ((a <=? x) && (x <? a + N.of_nat (length bs))) with false by lia. reflexivity. Qed.
Lemma ex_mem1_dom x : ex_mem1 x = None <-> ~ (0x1000 <= x < 0x100a \/ 0x20000 <= x < 0x21000).
Proof.
  assert (L : N.of_nat (length ex_cdb1) = 10) by reflexivity. unfold ex_mem1. destruct (N.leb_spec 0x1000 x), (N.ltb_spec x (0x1000 + N.of_nat (length ex_cdb1))).
  1: split; [intros E; exfalso; revert E; apply region_in; lia|lia].
  all: rewrite region_not by lia; unfold zeros; destruct ((0x20000 <=? x) && (x <? 0x20000 + 4096)) eqn:R; split; intros Q; first [reflexivity|discriminate Q|lia|exfalso; lia].
Qed.
Lemma ex_mem2_dom x : ex_mem2 x = None <-> ~ (0x2000 <= x < 0x2006 \/ 0x30000 <= x < 0x30024).
Proof.
  assert (L : N.of_nat (length ex_cdb2) = 6) by reflexivity. unfold ex_mem2. destruct (N.leb_spec 0x2000 x), (N.ltb_spec x (0x2000 + N.of_nat (length ex_cdb2))).
  1: split; [intros E; exfalso; revert E; apply region_in; lia|lia].
  all: rewrite region_not by lia; unfold zeros; destruct ((0x30000 <=? x) && (x <? 0x30000 + 36)) eqn:R; split; intros Q; first [reflexivity|discriminate Q|lia|exfalso; lia].
Qed.

Example C86_met : each_own ex_mems ex_both /\ Forall2 ready ex_calls ex_mems /\ megabytes ex_both /\
  exists l w' ms', schedule ex_both (map run_call ex_calls) l w' ms' /\ forall m, In m ms' -> exists r, finished m r.
Proof.
  assert (Own : each_own ex_mems ex_both).
  { split.
    - intros [|[|[|i]]] mm H; cbn [nth_error ex_mems] in H; [| | |destruct i; discriminate H]; injection H as <-; intros x b E.
      + cbn [mem ex_both]. rewrite E. reflexivity.
      + cbn [mem ex_both]. replace (ex_mem1 x) with (@None byte); [exact E|]. symmetry. apply ex_mem1_dom. intros Q.
        assert (Z : ex_mem2 x = None) by (apply ex_mem2_dom; lia). congruence.
      + discriminate E.
    - assert (S : separate ex_mem1 ex_mem2).
      { intros x. destruct (ex_mem2 x) eqn:E; [|auto]. left. apply ex_mem1_dom. intros Q. assert (Z : ex_mem2 x = None) by (apply ex_mem2_dom; lia). congruence. }
      intros [|[|[|i]]] [|[|[|j]]] m1 m2 H1 H2 Hn; cbn [nth_error ex_mems] in H1, H2;
        try (destruct i; discriminate H1); try (destruct j; discriminate H2); try congruence; injection H1 as <-; injection H2 as <-; intros x; auto;
        destruct (S x); auto. }
  assert (Used : used_object ex_obj).
  { exists (fun _ => True), false, (ex_world []). apply (ex_reach (fun _ _ => x00) xff [] []). exact I. }
  assert (Rd : Forall2 ready ex_calls ex_mems).
  { constructor; [|constructor; [|constructor; [exact Used|constructor]]]; (split; [exact Used|]); (split; intros x [H1 H2] E; [|]);
      cbn [ptr len] in *; (apply ex_mem1_dom in E || apply ex_mem2_dom in E); lia. }
  assert (Mb : megabytes ex_both).
  { split; [reflexivity|]. cbn [tick mem ex_both]. intros x Hx. replace (ex_mem1 x) with (@None byte); [apply ex_mem2_dom; lia|symmetry; apply ex_mem1_dom; lia]. }
  split; [exact Own|]. split; [exact Rd|]. split; [exact Mb|].
  apply (C86_all_finish _ (map run_call ex_calls) ex_mems ex_both Own eq_refl) with (l1 := []) (w1 := ex_both) (ms1 := map run_call ex_calls); [| |exact Mb|constructor].
  - apply Forall_forall. intros m Hm. apply in_map_iff in Hm as (c & <- & _). apply program_call.
  - intros i m mm H1 H2. rewrite nth_error_map in H1. destruct (nth_error ex_calls i) as [c|] eqn:Ec; [|discriminate H1]. injection H1 as <-.
    exact (ready_works c mm ex_both (ready_nth _ _ i c mm Rd Ec H2)).
Qed.
