(** Threads with separate memories do not notice each other. *)
From Coq Require Import Arith NArith String List Lia Bool Init.Byte.
From Coq Require Import ZifyBool ZifyNat ZifyN.
From Verif Require Import Bytes World Common StatusCmd TranslationCls Spec MockSpec Facts Logic ProgFacts ConcSpec.
Import ListNotations.
Local Open Scope string_scope.
Local Open Scope list_scope.
Local Open Scope N_scope.

(** ** one atomic action, in the shared world and alone *)
Definition after (v : world) (mm : memory) (d : nat) (evs : list event) : world :=
  {| mem := mm; alloc_cb := alloc_cb v; dealloc_cb := dealloc_cb v; ans := ans v; fill := fill v; junk := junk v;
     tick := tick v + d; trace := trace v ++ evs |}.
Definition same_draw (w v : world) : Prop :=
  ans v (tick v) = ans w (tick w) /\ fill v (tick v) = fill w (tick w) /\ junk v (tick v) = junk w (tick w).

Lemma load_present mm m a n l : (forall x b, mm x = Some b -> m x = Some b) -> load_bytes mm a n = Some l -> load_bytes m a n = Some l.
Proof.
  intros H. revert a l. induction n as [|n IH]; intros a l E; cbn [load_bytes] in *; [exact E|].
  destruct (mm a) as [b|] eqn:Ea; [|discriminate]. rewrite (H _ _ Ea). destruct (load_bytes mm (a + 1) n) as [l'|] eqn:El; [|discriminate].
  rewrite (IH _ _ El). exact E.
Qed.
Lemma load_dom mm a n l : load_bytes mm a n = Some l -> forall x, a <= x < a + N.of_nat n -> mm x <> None.
Proof.
  revert a l. induction n as [|n IH]; intros a l E x Hx; [lia|]. cbn [load_bytes] in E.
  destruct (mm a) as [b|] eqn:Ea; [|discriminate]. destruct (load_bytes mm (a + 1) n) as [l'|] eqn:El; [|discriminate].
  destruct (N.eq_dec x a) as [->|Hn]; [congruence|]. apply (IH _ _ El). lia.
Qed.
Lemma after_0 v : after v (mem v) 0 [] = v.
Proof. unfold after. rewrite Nat.add_0_r, app_nil_r. destruct v; reflexivity. Qed.

Lemma atom_step B (a : M B) mm w b w2 : atomic a -> present mm w -> a w = Ret b w2 -> honest_step w w2 ->
  (forall v, alone mm w v -> same_draw w v -> exists r v', a v = Ret r v') ->
  exists mm2 d evs, trace w2 = trace w ++ evs /\ present mm2 w2 /\ alloc_cb w2 = alloc_cb w /\ dealloc_cb w2 = dealloc_cb w /\
    (forall v, alone mm w v -> (d <> 0%nat -> same_draw w v) -> a v = Ret b (after v mm2 d evs)) /\
    (forall x, mem w x <> None -> mm x = None -> mm2 x = None /\ mem w2 x = mem w x).
Proof.
  intros Ha Hp E Hh Hd. set (v0 := {| mem := mm; alloc_cb := alloc_cb w; dealloc_cb := dealloc_cb w; ans := ans w; fill := fill w; junk := junk w; tick := tick w; trace := [] |}).
  assert (A0 : alone mm w v0) by (split; [reflexivity|split; reflexivity]).
  assert (D0 : same_draw w v0) by (split; [reflexivity|split; reflexivity]).
  destruct (Hd v0 A0 D0) as (r0 & v0' & E0). clear Hd D0. destruct Ha as [a n|a bs|size n|a n|n].
  - unfold load in E, E0. cbn [mem v0] in E0. destruct (load_bytes mm a n) as [l|] eqn:El; [|discriminate E0].
    rewrite (load_present mm (mem w) a n l Hp El) in E. injection E as <- <-.
    exists mm, 0%nat, []. split; [rewrite app_nil_r; reflexivity|]. split; [exact Hp|]. split; [reflexivity|]. split; [reflexivity|]. split; [|auto].
    intros v (<- & _) _. unfold load. rewrite El, after_0. reflexivity.
  - unfold store in E, E0. cbn [mem v0] in E0. destruct (load_bytes mm a (length bs)) as [l|] eqn:El; [|discriminate E0].
    rewrite (load_present mm (mem w) a _ l Hp El) in E. injection E as <- <-.
    exists (store_bytes mm a bs), 0%nat, []. cbn [trace set_mem alloc_cb dealloc_cb]. split; [rewrite app_nil_r; reflexivity|]. split; [|split; [reflexivity|split; [reflexivity|split]]].
    + intros x c. unfold store_bytes. cbn [mem set_mem]. destruct (_ && _); auto.
    + intros v (<- & _) _. unfold store. rewrite El. unfold after. rewrite Nat.add_0_r, app_nil_r. reflexivity.
    + intros x Hx Hm. cbn [mem set_mem]. unfold store_bytes. destruct ((a <=? x) && (x <? a + N.of_nat (length bs))) eqn:R; [|auto].
      exfalso. apply (load_dom _ _ _ _ El x); [lia|exact Hm].
  - unfold AllocPages in E. destruct (alloc_cb w) eqn:Ec; cbn [negb] in E.
    + set (p := u64 (ans w (tick w) size n)) in *. exists (if p =? 0 then mm else map_pages mm p (size * n) (fill w (tick w))), 1%nat, [EvAlloc size n p].
      assert (T : trace w2 = trace w ++ [EvAlloc size n p]) by (destruct (p =? 0); injection E as _ <-; reflexivity).
      split; [exact T|].
      split; [|split; [destruct (p =? 0); injection E as _ <-; exact Ec|split; [destruct (p =? 0); injection E as _ <-; reflexivity|split]]].
      * destruct (p =? 0); injection E as _ <-; [exact Hp|]. intros x c. cbn [mem set_mem log set_tick]. unfold map_pages. destruct (_ && _); auto.
      * intros v (Hm & Hc & _) Hs. destruct (Hs ltac:(discriminate)) as (Q1 & Q2 & _). rewrite Ec in Hc. unfold AllocPages. rewrite Hc, Q1, Q2. fold p. cbn [negb].
        assert (B : b = p) by (destruct (p =? 0); injection E as <- _; reflexivity). rewrite B.
        unfold after, log, set_tick, set_mem. rewrite Nat.add_1_r, <- Hm. destruct (p =? 0); reflexivity.
      * intros x Hx Hm. specialize (Hh _ _ _ T). destruct (N.eqb_spec p 0) as [Z|Z]; injection E as _ <-; [auto|]. specialize (Hh Z).
        cbn [mem set_mem log set_tick]. unfold map_pages. destruct ((p <=? x) && (x <? p + size * n)) eqn:R; [|auto].
        exfalso. apply Hx. apply Hh. lia.
    + injection E as <- <-. exists mm, 0%nat, []. split; [rewrite app_nil_r; reflexivity|]. split; [exact Hp|]. split; [exact Ec|]. split; [reflexivity|]. split; [|auto].
      intros v (<- & Hc & _) _. unfold AllocPages. rewrite Hc, ?Ec. cbn [negb]. rewrite after_0. reflexivity.
  - unfold DeallocPages in E. destruct (dealloc_cb w) eqn:Ec; cbn [negb] in E; injection E as <- <-.
    + exists mm, 0%nat, [EvDealloc a n]. split; [reflexivity|]. split; [exact Hp|]. split; [reflexivity|]. split; [exact Ec|]. split; [|auto].
      intros v (Hm & _ & Hc) _. unfold DeallocPages. rewrite Hc, ?Ec. cbn [negb]. unfold after. rewrite Nat.add_0_r, <- Hm. reflexivity.
    + exists mm, 0%nat, []. split; [rewrite app_nil_r; reflexivity|]. split; [exact Hp|]. split; [reflexivity|]. split; [exact Ec|]. split; [|auto].
      intros v (<- & _ & Hc) _. unfold DeallocPages. rewrite Hc, ?Ec. cbn [negb]. rewrite after_0. reflexivity.
  - unfold stack_junk in E. injection E as <- <-. exists mm, 1%nat, []. cbn [trace set_tick]. split; [rewrite app_nil_r; reflexivity|]. split; [exact Hp|]. split; [reflexivity|]. split; [reflexivity|]. split; [|auto].
    intros v (Hm & _) Hs. destruct (Hs ltac:(discriminate)) as (_ & _ & Q). unfold stack_junk. rewrite Q. unfold after. rewrite Nat.add_1_r, app_nil_r, <- Hm. reflexivity.
Qed.

(** ** a thread's record: what it has drawn so far, and what it would have done alone *)
Definition rewind (v : world) (mm0 : memory) : world :=
  {| mem := mm0; alloc_cb := alloc_cb v; dealloc_cb := dealloc_cb v; ans := ans v; fill := fill v; junk := junk v; tick := 0; trace := [] |}.
Definition on_record {A} (w : world) (evs : list event) (m0 : M A) (mm0 : memory) (m : M A) (mm : memory) : Prop :=
  exists (t : nat) u, forall v, alone mm w v -> tick v = t -> trace v = evs ->
    (forall k, (k < t)%nat -> ans v k = ans u k /\ fill v k = fill u k /\ junk v k = junk u k) ->
    m0 (rewind v mm0) = m v.

Lemma record_start {A} w (m : M A) mm : on_record w [] m mm m mm.
Proof.
  exists 0%nat, w. intros v (<- & _) T Tr _. unfold rewind. destruct v as [me ac dc an fi ju ti tr]. cbn in *. rewrite T, Tr. reflexivity.
Qed.
Lemma alone_after mm mm' w w2 v d e : alloc_cb w2 = alloc_cb w -> dealloc_cb w2 = dealloc_cb w -> alone mm w v -> alone mm' w2 (after v mm' d e).
Proof. intros H1 H2 (_ & H3 & H4). split; [reflexivity|]. cbn. split; congruence. Qed.

Section Rec.
Context {A : Type}.
Variables (m0 : M A) (mm0 : memory) (w0 : world).
Hypothesis Hw : works_alone m0 mm0 w0.

(** a run alone that draws next what the shared world draws next *)
Definition probe (mm : memory) (w u : world) (t : nat) (evs : list event) : world :=
  let pick {T} (f g : nat -> T) k := if Nat.eqb k t then f (tick w) else g k in
  {| mem := mm; alloc_cb := alloc_cb w; dealloc_cb := dealloc_cb w; ans := pick (ans w) (ans u); fill := pick (fill w) (fill u);
     junk := pick (junk w) (junk u); tick := t; trace := evs |}.
Lemma probe_ok mm w u t evs : alone mm w (probe mm w u t evs) /\ same_draw w (probe mm w u t evs) /\
  forall k, (k < t)%nat -> ans (probe mm w u t evs) k = ans u k /\ fill (probe mm w u t evs) k = fill u k /\ junk (probe mm w u t evs) k = junk u k.
Proof.
  split; [split; [reflexivity|split; reflexivity]|]. split.
  - unfold same_draw, probe. cbn. rewrite Nat.eqb_refl. auto.
  - intros k Hk. unfold probe. cbn. replace (Nat.eqb k t) with false by (symmetry; apply Nat.eqb_neq; lia). auto.
Qed.
Lemma record_defined w evs m mm : alloc_cb w = alloc_cb w0 -> dealloc_cb w = dealloc_cb w0 -> on_record w evs m0 mm0 m mm ->
  exists v r v', alone mm w v /\ same_draw w v /\ m v = Ret r v'.
Proof.
  intros H1 H2 (t & u & H). destruct (probe_ok mm w u t evs) as (P1 & P2 & P3). exists (probe mm w u t evs).
  destruct (Hw (rewind (probe mm w u t evs) mm0)) as (r & v' & E); [split; [reflexivity|split; assumption]|].
  exists r, v'. split; [exact P1|]. split; [exact P2|]. rewrite <- (H _ P1 eq_refl eq_refl P3). exact E.
Qed.
(** next actions are defined in the shared world *)
Lemma record_next w evs m mm : alloc_cb w = alloc_cb w0 -> dealloc_cb w = dealloc_cb w0 -> on_record w evs m0 mm0 m mm -> present mm w ->
  ~ is_undefined m /\ forall B (a : M B) k, starts_with m a k -> exists b w2, a w = Ret b w2.
Proof.
  intros H1 H2 R Hp. destruct (record_defined w evs m mm H1 H2 R) as (v & r & v' & Al & Dr & E). split.
  - intros (s & U). rewrite U in E. discriminate E.
  - intros B a k (Ha & Hk & _). rewrite Hk in E. unfold bind in E. destruct (a v) as [b v1|] eqn:Ea; [|discriminate E]. clear Hk E.
    destruct Ha as [a n|a bs|size n|a n|n]; unfold load, store, AllocPages, DeallocPages, stack_junk in *; destruct Al as (Hm & _).
    + rewrite Hm in Ea. destruct (load_bytes mm a n) as [l|] eqn:El; [|discriminate Ea]. rewrite (load_present mm (mem w) a n l Hp El). eauto.
    + rewrite Hm in Ea. destruct (load_bytes mm a (length bs)) as [l|] eqn:El; [|discriminate Ea]. rewrite (load_present mm (mem w) a _ l Hp El). eauto.
    + destruct (negb (alloc_cb w)); [eauto|]. eauto.
    + destruct (negb (dealloc_cb w)); eauto.
    + eauto.
Qed.
(** one more step *)
Lemma record_step w evs m mm B (a : M B) k b w2 : alloc_cb w = alloc_cb w0 -> dealloc_cb w = dealloc_cb w0 ->
  on_record w evs m0 mm0 m mm -> present mm w -> starts_with m a k -> a w = Ret b w2 -> honest_step w w2 ->
  exists mm2 new, trace w2 = trace w ++ new /\ present mm2 w2 /\ alloc_cb w2 = alloc_cb w0 /\ dealloc_cb w2 = dealloc_cb w0 /\
    on_record w2 (evs ++ new) m0 mm0 (k b) mm2 /\
    (forall x, mem w x <> None -> mm x = None -> mm2 x = None /\ mem w2 x = mem w x).
Proof.
  intros H1 H2 (t & u & R) Hp (Ha & Hk & _) E Hh.
  assert (Loc : forall v, alone mm w v -> tick v = t -> trace v = evs ->
    (forall k, (k < t)%nat -> ans v k = ans u k /\ fill v k = fill u k /\ junk v k = junk u k) -> exists r v', a v = Ret r v').
  { intros v Al T Tr Rc. destruct (Hw (rewind v mm0)) as (r & v' & E0).
    - destruct Al as (_ & A1 & A2). split; [reflexivity|]. cbn. split; congruence.
    - rewrite (R v Al T Tr Rc), Hk in E0. unfold bind in E0. destruct (a v) as [b1 v1|]; [eauto|discriminate E0]. }
  destruct (atom_step B a mm w b w2 Ha Hp E Hh) as (mm2 & d & new & T2 & P2 & C1 & C2 & St & Fr).
  { intros v Al Dr. destruct (probe_ok mm w u t evs) as (P1 & P2 & P3).
    destruct (Loc _ P1 eq_refl eq_refl P3) as (r & v' & E1).
    (* definedness of an action does not depend on what is drawn *)
    destruct Al as (Hm & Hc1 & Hc2). destruct P1 as (Hm' & _).
    destruct Ha as [a n|a bs|size n|a n|n]; unfold load, store, AllocPages, DeallocPages, stack_junk in *.
    - rewrite Hm' in E1. rewrite Hm. destruct (load_bytes mm a n); [eauto|discriminate E1].
    - rewrite Hm' in E1. rewrite Hm. destruct (load_bytes mm a (length bs)); [eauto|discriminate E1].
    - destruct (negb (alloc_cb v)); eauto.
    - destruct (negb (dealloc_cb v)); eauto.
    - eauto. }
  exists mm2, new. split; [exact T2|]. split; [exact P2|]. split; [congruence|]. split; [congruence|]. split; [|exact Fr].
  (* the record grows by what was drawn *)
  exists (t + d)%nat, (probe mm w u t evs). intros v (Hm & Hc1 & Hc2) T Tr Rc.
  set (v1 := {| mem := mm; alloc_cb := alloc_cb v; dealloc_cb := dealloc_cb v; ans := ans v; fill := fill v; junk := junk v; tick := t; trace := evs |}).
  assert (Al : alone mm w v1) by (split; [reflexivity|]; cbn; split; congruence).
  assert (V : v = after v1 mm2 d new).
  { unfold after, v1. cbn. rewrite <- Hm. destruct v. cbn in *. subst. reflexivity. }
  assert (Sa : a v1 = Ret b (after v1 mm2 d new)).
  { apply St; [exact Al|]. intros Hd. assert (Q := Rc t ltac:(lia)). unfold probe in Q. cbn in Q. rewrite Nat.eqb_refl in Q. exact Q. }
  assert (Q : m0 (rewind v1 mm0) = m v1).
  { apply R; [exact Al|reflexivity|reflexivity|]. intros j Hj. specialize (Rc j ltac:(lia)). unfold probe in Rc. cbn in Rc.
    replace (Nat.eqb j t) with false in Rc by (symmetry; apply Nat.eqb_neq; lia). exact Rc. }
  rewrite Hk in Q. unfold bind in Q. rewrite Sa in Q. rewrite <- V in Q. exact Q.
Qed.
End Rec.

(** ** every call is a program *)
Lemma program_ext {A} (m m' : M A) : (forall w, m' w = m w) -> program m -> program m'.
Proof.
  intros H P. destruct P as [m r F|m [s F]|m B a k Ha Hk P].
  - apply (pg_done _ r). intros w. rewrite H. apply F.
  - apply pg_undefined. exists s. intros w. rewrite H. apply F.
  - apply (pg_act _ B a k Ha); [|exact P]. intros w. rewrite H. apply Hk.
Qed.
Lemma program_bind {A C} (m : M A) (f : A -> M C) : program m -> (forall a, program (f a)) -> program (bind m f).
Proof.
  intros P Hf. induction P as [m r F|m [s F]|m B a k Ha Hk P IH].
  - apply (program_ext (f r)); [|apply Hf]. intros w. unfold bind. rewrite F. reflexivity.
  - apply pg_undefined. exists s. intros w. unfold bind. rewrite F. reflexivity.
  - apply (pg_act _ B a (fun b => bind (k b) f) Ha); [|exact IH]. intros w. unfold bind in *. rewrite Hk. destruct (a w); reflexivity.
Qed.
Lemma program_atomic B (a : M B) : atomic a -> program a.
Proof.
  intros Ha. apply (pg_act _ B a ret Ha).
  - intros w. unfold bind, ret. destruct (a w); reflexivity.
  - intros b. apply (pg_done _ b). intros w. reflexivity.
Qed.
Lemma program_prog A (m : M A) : prog true m -> program m.
Proof.
  induction 1 as [A a|A s|A B m k _ IHm _ IHk|a n|a bs|ps n|a n _|n]; try (apply program_atomic; constructor).
  - apply (pg_done _ a). intros w. reflexivity.
  - apply pg_undefined. exists s. intros w. reflexivity.
  - apply program_bind; assumption.
Qed.
Lemma program_call c : program (run_call c).
Proof.
  destruct c; cbn [run_call]; apply program_bind; try (apply program_prog; auto using p_Begin, p_Complete, p_Abort).
  - intros [t' r]. eapply pg_done. intros w. reflexivity.
  - intros [t' r]. eapply pg_done. intros w. reflexivity.
  - intros t'. eapply pg_done. intros w. reflexivity.
Qed.
