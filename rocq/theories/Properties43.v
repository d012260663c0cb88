(** C112: commands of every kind queued at once do not disturb each other. *)
From Coq Require Import Arith NArith ZArith String List Lia Bool Init.Byte Permutation.
From Coq Require Import ZifyBool ZifyNat ZifyN.
From Verif Require Import Bytes Layout World ScsiDefs NvmeDefs Common ModeSenseCmd TranslationCls EngineE2e MockModule
  Spec RwSpec InquirySpec SmallSpec UnmapSpec EngineSpec MockSpec ConcSpec DiskSpec ConcDiskSpec ConcAllSpec
  Facts Logic BeginFacts CompleteFacts StatusFacts RwFacts RelFacts ProgFacts EngineFacts MockFacts ConcFacts ConcDiskFacts
  Properties9 Properties11 Properties21 Properties41 Witness.
Import ListNotations.
Local Open Scope string_scope.
Local Open Scope list_scope.
Local Open Scope N_scope.

Lemma code_runs p : runs_on [] (code_of p).
Proof. exact (thread_runs {| q_wrs := p_wrs p; q_kz := p_kz p; q_wild := p_wild p; q_cmnd := p_cmnd p; q_io := IoRead 0 0 0 |}). Qed.
Lemma starts_nth ps : forall mems i g, nth_error (starts ps mems) i = Some g -> exists p mm, nth_error ps i = Some p /\ nth_error mems i = Some mm /\ g = start_of p mm.
Proof.
  induction ps as [|p ps IH]; intros [|mm mems] [|i] g E; cbn [starts nth_error] in *; try discriminate E.
  - apply Some_eq in E. exists p, mm. auto.
  - apply IH. exact E.
Qed.
Lemma starts_len ps : forall mems, length mems = length ps -> length (starts ps mems) = length ps.
Proof. induction ps as [|p ps IH]; intros [|mm mems] H; cbn [starts length] in *; try discriminate H; [reflexivity|]. f_equal. apply IH. lia. Qed.

(** a device seen through the completion and the memory it left *)
Definition in_cdb (c : scsi_cmnd) (x : N) : bool := (sc_cmnd c <=? x) && (x <? sc_cmnd c + sc_cmd_len c).
Definition seen (c : scsi_cmnd) (m2 : memory) (cpl : N) (m : memory) : memory * N :=
  (fun x => if in_cdb c x then m x else match m x, m2 x with Some _, Some b => Some b | _, _ => m x end, cpl).
Definition extend (n : nat) (D : driver) (e : submission -> memory -> memory * N) : driver := fun k s m => if Nat.ltb k n then D k s m else e s m.
Definition agree (n : nat) (D D' : driver) : Prop := forall k s m, (k < n)%nat -> D' k s m = D k s m.
Definition broken : driver := fun _ _ m => (m, N.shiftl 6 113).
Lemma action_hands B (a : M B) w b w2 x : action a -> a w = Ret b w2 -> handed_out w w2 x -> mem w2 x <> None.
Proof.
  intros Ha E (size & n & p & T & Hp & Hx).
  assert (No : forall l : list event, l = l ++ [EvAlloc size n p] -> False) by (intros l Q; apply (f_equal (@length _)) in Q; rewrite app_length in Q; cbn [length] in Q; lia).
  assert (No2 : forall (l : list event) s1 n1 p1, l ++ [EvAlloc s1 n1 p1] = l ++ [EvAlloc size n p] -> s1 = size /\ n1 = n /\ p1 = p).
  { intros l s1 n1 p1 Q. apply app_inv_head in Q. injection Q as -> -> ->. auto. }
  assert (Mp : forall m f, map_pages m p (size * n) f x <> None).
  { intros m f. unfold map_pages. replace ((p <=? x) && (x <? p + size * n)) with true by lia. discriminate. }
  destruct Ha as [B a0 Hl|kz k|a k]; [destruct Hl as [a k|a bs|s k|a k|k]| |].
  - unfold load in E. destruct (load_bytes (mem w) a k); [|discriminate E]. injection E as _ <-. destruct (No _ T).
  - unfold store in E. destruct (load_bytes (mem w) a (length bs)); [|discriminate E]. injection E as _ <-. destruct (No _ T).
  - unfold AllocPages in E. destruct (negb (alloc_cb w)); [injection E as _ <-; destruct (No _ T)|].
    destruct (u64 (ans w (tick w) s k) =? 0) eqn:Z; injection E as _ <-; cbn [trace log set_tick set_mem mem] in T |- *; destruct (No2 _ _ _ _ T) as (Q1 & Q2 & Q3); [lia|].
    rewrite Q3, Q1, Q2. apply Mp.
  - unfold DeallocPages in E. destruct (negb (dealloc_cb w)); injection E as _ <-; [destruct (No _ T)|]. cbn [trace log] in T. apply app_inv_head in T. discriminate T.
  - unfold stack_junk in E. injection E as _ <-. destruct (No _ T).
  - unfold kzalloc in E. injection E as _ <-. cbn [trace log] in T.
    assert (T' : trace w ++ [EvAlloc 1 k kz] = trace w ++ [EvAlloc size n p]) by (destruct (kz =? 0); exact T).
    destruct (No2 _ _ _ _ T') as (Q1 & Q2 & Q3). rewrite Q3. replace (p =? 0) with false by lia. cbn [mem log set_mem]. rewrite <- Q1, <- Q2 in Mp. rewrite <- (N.mul_1_l k). apply Mp.
  - unfold kfree in E. injection E as _ <-. cbn [trace log] in T. apply app_inv_head in T. discriminate T.
Qed.

(** the allocator gives no page any more *)
Definition dry (w : world) : Prop := forall k, (tick w <= k)%nat -> ans w k = fun _ _ => 0.
Definition no_pages (e : list event) : Prop := forall n a, In (EvAlloc 4096 n a) e -> a = 0.
Lemma action_dry B (a : M B) w b w2 : action a -> a w = Ret b w2 -> dry w -> dry w2 /\ exists e, trace w2 = trace w ++ e /\ no_pages e.
Proof.
  intros Ha E Hw.
  assert (Same : dry w /\ exists e, trace w = trace w ++ e /\ no_pages e) by (split; [exact Hw|exists []; split; [symmetry; apply app_nil_r|intros ? ? []]]).
  destruct Ha as [B a0 Hl|kz k|a k]; [destruct Hl as [a k|a bs|s k|a k|k]| |].
  - unfold load in E. destruct (load_bytes (mem w) a k); [|discriminate E]. injection E as _ <-. exact Same.
  - unfold store in E. destruct (load_bytes (mem w) a (length bs)); [|discriminate E]. injection E as _ <-. exact Same.
  - unfold AllocPages in E. destruct (negb (alloc_cb w)); [injection E as _ <-; exact Same|]. rewrite (Hw (tick w)) in E by lia. change (u64 0) with 0 in E. change (0 =? 0) with true in E.
    cbv iota in E. injection E as _ <-. split; [intros j Hj; cbn [log set_tick tick ans] in *; apply Hw; lia|]. eexists. split; [reflexivity|].
    intros n a [Q|[]]. injection Q as _ _ Q. congruence.
  - unfold DeallocPages in E. destruct (negb (dealloc_cb w)); injection E as _ <-; [exact Same|]. split; [exact Hw|]. eexists. split; [reflexivity|]. intros n x [Q|[]]. discriminate Q.
  - unfold stack_junk in E. injection E as _ <-. split; [intros j Hj; cbn [set_tick tick ans] in *; apply Hw; lia|]. exists []. split; [symmetry; apply app_nil_r|intros ? ? []].
  - unfold kzalloc in E. injection E as _ <-. split; [destruct (kz =? 0); exact Hw|]. exists [EvAlloc 1 k kz]. split; [destruct (kz =? 0); reflexivity|]. intros n x [Q|[]]. discriminate Q.
  - unfold kfree in E. injection E as _ <-. split; [exact Hw|]. eexists. split; [reflexivity|]. intros n x [Q|[]]. discriminate Q.
Qed.
Lemma runs_dry l m : runs_on l m -> forall drv v r v', m drv v = Ret r v' -> dry v -> exists e, trace v' = trace v ++ e /\ no_pages e.
Proof.
  induction 1 as [l m r F Hr|l m U|l m B a k Ha Hk R IH|l m s k Hk R IH]; intros drv v r0 v' E Hv.
  - rewrite F in E. apply ret_eq in E as [_ <-]. exists []. split; [symmetry; apply app_nil_r|intros ? ? []].
  - destruct (U drv) as [s F]. rewrite F in E. discriminate E.
  - rewrite Hk in E. unfold bind in E. destruct (a v) as [b v1|] eqn:Ea; [|discriminate E].
    destruct (action_dry B a v b v1 Ha Ea Hv) as (Hv1 & e1 & T1 & N1). destruct (IH b drv _ _ _ E Hv1) as (e2 & T2 & N2).
    exists (e1 ++ e2). split; [rewrite T2, T1, app_assoc; reflexivity|]. intros n x Hx. apply in_app_iff in Hx as [Hx|Hx]; [exact (N1 _ _ Hx)|exact (N2 _ _ Hx)].
  - rewrite Hk in E. unfold bind, hand_over in E. destruct (drv (length l) s (mem v)) as [m' c]. exact (IH _ drv (set_mem v m') _ _ E Hv).
Qed.

Section AtOnce.
Variables (w0 : world) (ps : list pending) (mems : list memory).
Hypothesis Hown : each_own mems w0.
Hypothesis Hlen : length mems = length ps.
Hypothesis Hequ : forall i p mm, nth_error ps i = Some p -> nth_error mems i = Some mm -> equipped p mm.
Hypothesis Hsup : supplied w0 ps.
Variable allowed : list byte -> Prop.
Hypothesis Hall : forall p, In p ps -> allowed (p_cdb p).
Variables (dev : driver -> Prop) (good : driver -> scsi_cmnd -> Prop) (given : driver -> list N -> Prop).
(** the guarantee for a command alone *)
Hypothesis Hsolo : forall drv wrs kz wild c w bs, Properties41.queued w kz c bs -> kz = 0 \/ pages_apart w {| ptr := kz; len := sc_bufflen c mod 65536 |} ->
  good drv c -> allowed bs -> exists r w', scsi_queuecommand drv wrs kz wild c w = Ret r w'.
(** a device that does what was seen *)
Variable replay : scsi_cmnd -> memory -> N -> submission -> memory -> memory * N.
Hypothesis Rgood : forall c D n m2 cpl, good D c -> good (extend n D (replay c m2 cpl)) c.
Hypothesis Rbroken : forall c, good broken c.
Hypothesis Rgiven : forall c D m2 cpl cs, given D cs -> cpl mod 2 ^ 128 = cpl -> given (extend (length cs) D (replay c m2 cpl)) (cs ++ [cpl]).
Hypothesis Rnone : forall D, given D [].
Hypothesis Rshape : forall c m2 cpl s m x, fst (replay c m2 cpl s m) x <> None <-> m x <> None.
Hypothesis Rfaith : forall c drv k s w1 w2 cpl cur, dev drv -> hand_over drv k s w1 = Ret cpl w2 -> present cur w1 ->
  (forall x, mem w1 x <> None -> mem w2 x <> None) -> (forall x, in_cdb c x = true -> mem w2 x = mem w1 x) ->
  present (fst (replay c (mem w2) cpl s cur)) w2 /\ snd (replay c (mem w2) cpl s cur) mod 2 ^ 128 = cpl.

Definition drawn_from (u : world) : Prop := forall k, exists k', ans u k = ans w0 k'.
Lemma solo i p mm D v : nth_error ps i = Some p -> nth_error mems i = Some mm -> good D (p_cmnd p) -> drawn_from v ->
  exists r v', code_of p D (rewind v mm) = Ret r v'.
Proof.
  intros Ep Em Hd Hv. destruct (Hequ i p mm Ep Em) as (_ & E2 & E3 & E4 & E5 & E6). destruct Hsup as [S1 S2].
  destruct (S1 p (nth_error_In _ _ Ep)) as [S4 S3]. apply (Hsolo D _ _ _ _ _ (p_cdb p)).
  - split; [exact E2|]. split; [exact E3|]. split; [exact E4|]. split; [exact E5|]. split; [exact E6|]. split; [|split].
    + destruct S3 as [S3|[S3 _]]; [left; exact S3|right]. intros x Hx. cbn [rewind mem]. destruct (mm x) as [b|] eqn:Z; [|reflexivity].
      specialize (S3 x Hx). rewrite (proj1 Hown i mm Em x b Z) in S3. discriminate S3.
    + intros k size n. cbn [rewind ans]. destruct (Hv k) as (k' & ->). apply S4.
    + intros k size. cbn [rewind ans]. destruct (Hv k) as (k' & ->). apply S2.
  - destruct S3 as [S3|[_ S3]]; [left; exact S3|right]. intros k size n. cbn [rewind ans]. destruct (Hv k) as (k' & ->). apply S3.
  - exact Hd.
  - apply Hall. exact (nth_error_In _ _ Ep).
Qed.

Record thread_inv (p : pending) (mm0 : memory) (w : world) (g : progress) (cur : memory) : Prop := {
  ti_runs : runs_on (fst (g_state g)) (snd (g_state g));
  ti_cpls : length (g_cpls g) = length (fst (g_state g));
  ti_track : exists D t u, good D (p_cmnd p) /\ given D (g_cpls g) /\ drawn_from u /\
    (forall D', agree (length (fst (g_state g))) D D' -> tracked w0 t u (g_evs g) (code_of p D') mm0 (snd (g_state g) D') cur) /\
    exists D2, gave D2 (g_cpls g) /\
      forall D', agree (length (fst (g_state g))) D2 D' -> tracked w0 t u (g_evs g) (code_of p D') mm0 (snd (g_state g) D') cur;
  ti_here : present cur w;
  ti_high : forall x, 2 ^ 64 <= x -> cur x = None;
  ti_keep : forall x, mm0 x <> None -> cur x <> None;
  ti_dma : forall x, g_dma g x -> mem w x <> None;
  ti_cdb : forall x, in_span (cdb_of p) x -> mem w x <> None /\ ~ g_dma g x }.
Record all_inv (w : world) (st : list progress) (cur : nat -> memory) : Prop := {
  al_len : length st = length ps;
  al_flags : alloc_cb w = alloc_cb w0 /\ dealloc_cb w = dealloc_cb w0 /\ ans w = ans w0;
  al_thread : forall i p mm0 g, nth_error ps i = Some p -> nth_error mems i = Some mm0 -> nth_error st i = Some g -> thread_inv p mm0 w g (cur i);
  al_sep : forall i j g x, nth_error st i = Some g -> (j < length ps)%nat -> i <> j -> (cur i x <> None \/ g_dma g x) -> cur j x = None;
  al_frame : forall x, mem w0 x <> None -> (forall mm, In mm mems -> mm x = None) ->
    mem w x = mem w0 x /\ forall i g, nth_error st i = Some g -> cur i x = None /\ ~ g_dma g x }.

Lemma all_start : all_inv w0 (starts ps mems) (fun i => nth i mems (fun _ => None)).
Proof.
  destruct Hown as [O1 O2].
  assert (Nm : forall i mm, nth_error mems i = Some mm -> nth i mems (fun _ => None) = mm) by (intros i mm E; apply nth_error_nth; exact E).
  split.
  - apply starts_len. exact Hlen.
  - auto.
  - intros i p mm0 g Ep Em Eg. destruct (starts_nth _ _ _ _ Eg) as (p' & mm' & Ep' & Em' & ->). rewrite Ep in Ep'. apply Some_eq in Ep' as <-. rewrite Em in Em'. apply Some_eq in Em' as <-.
    rewrite (Nm i mm0 Em). destruct (Hequ i p mm0 Ep Em) as (E1 & E2 & E3 & _). split; cbn [g_state g_cpls g_dma g_evs start_of fst snd length].
    + apply code_runs.
    + reflexivity.
    + exists broken, 0%nat, w0. split; [apply Rbroken|]. split; [apply Rnone|]. split; [intros k; exists k; reflexivity|].
      split; [intros D' _; apply track_start|]. exists broken. split; [intros k s m c Hk; destruct k; discriminate Hk|]. intros D' _. apply track_start.
    + exact (O1 i mm0 Em).
    + exact E1.
    + auto.
    + intros x [Hx _]. destruct (mm0 x) as [b|] eqn:Z; [|contradiction]. rewrite (O1 i mm0 Em x b Z). discriminate.
    + intros x Hx. split; [|intros [_ Q]; exact (Q Hx)]. unfold in_span, cdb_of in Hx. cbn [ptr len] in Hx.
      destruct (nth_error (p_cdb p) (N.to_nat (x - sc_cmnd (p_cmnd p)))) as [b|] eqn:Z; [|apply nth_error_None in Z; lia].
      specialize (E2 _ _ Z). replace (sc_cmnd (p_cmnd p) + N.of_nat (N.to_nat (x - sc_cmnd (p_cmnd p)))) with x in E2 by lia. rewrite (O1 i mm0 Em x b E2). discriminate.
  - intros i j g x Eg Hj Hn H. destruct (starts_nth _ _ _ _ Eg) as (p & mm & Ep & Em & ->). rewrite (Nm i mm Em) in H.
    destruct (nth_error mems j) as [mj|] eqn:Ej; [|apply nth_error_None in Ej; lia]. rewrite (Nm j mj Ej).
    assert (Hx : mm x <> None) by (destruct H as [H|[H _]]; exact H). destruct (O2 i j mm mj Em Ej Hn x) as [Q|Q]; [contradiction|exact Q].
  - intros x Hx Hm. split; [reflexivity|]. intros i g Eg. destruct (starts_nth _ _ _ _ Eg) as (p & mm & Ep & Em & ->). rewrite (Nm i mm Em).
    pose proof (Hm mm (nth_error_In _ _ Em)) as Q. split; [exact Q|]. intros [Z _]. contradiction.
Qed.

(** one thread moves from [g], [cur i] to [g2], [cur2] *)
Lemma all_move w l1 g l2 cur w2 g2 cur2 : all_inv w (l1 ++ g :: l2) cur ->
  (forall p mm0, nth_error ps (length l1) = Some p -> nth_error mems (length l1) = Some mm0 -> thread_inv p mm0 w2 g2 cur2) ->
  alloc_cb w2 = alloc_cb w0 /\ dealloc_cb w2 = dealloc_cb w0 /\ ans w2 = ans w0 ->
  (forall x, mem w x <> None -> mem w2 x <> None) ->
  (forall x, mem w x <> None -> ~ g_dma g x -> cur (length l1) x = None -> mem w2 x = mem w x) ->
  (forall x, cur2 x <> None -> cur (length l1) x <> None \/ mem w x = None) -> (forall x, g_dma g2 x -> g_dma g x \/ mem w x = None) ->
  all_inv w2 (l1 ++ g2 :: l2) (fun j => if Nat.eqb j (length l1) then cur2 else cur j).
Proof.
  intros I Hi Hf Hmap Hfr HnC HnD.
  assert (Hnew : forall x, cur2 x <> None \/ g_dma g2 x -> (cur (length l1) x <> None \/ g_dma g x) \/ mem w x = None).
  { intros x [Z|Z]; [destruct (HnC x Z)|destruct (HnD x Z)]; auto. }
  set (i := length l1) in *.
  assert (Eg : nth_error (l1 ++ g :: l2) i = Some g) by (rewrite nth_mid; unfold i; rewrite Nat.eqb_refl; reflexivity).
  assert (Eg2 : nth_error (l1 ++ g2 :: l2) i = Some g2) by (rewrite nth_mid; unfold i; rewrite Nat.eqb_refl; reflexivity).
  assert (Hil : (i < length ps)%nat) by (rewrite <- (al_len _ _ _ I); apply nth_error_Some; rewrite Eg; discriminate).
  assert (Oth : forall j, j <> i -> nth_error (l1 ++ g2 :: l2) j = nth_error (l1 ++ g :: l2) j) by (intros j Hj; apply nth_mid_other; exact Hj).
  assert (Keep : forall j gj, j <> i -> nth_error (l1 ++ g :: l2) j = Some gj -> forall x b, cur j x = Some b -> mem w x = Some b -> mem w2 x = Some b).
  { intros j gj Hj Egj x b Hx Hw. assert (Jl : (j < length ps)%nat) by (rewrite <- (al_len _ _ _ I); apply nth_error_Some; rewrite Egj; discriminate).
    rewrite Hfr; [exact Hw|rewrite Hw; discriminate| |].
    - intros Z. rewrite (al_sep _ _ _ I i j g x Eg Jl (not_eq_sym Hj) (or_intror Z)) in Hx. discriminate Hx.
    - destruct (cur i x) as [v|] eqn:Z; [|reflexivity]. rewrite (al_sep _ _ _ I i j g x Eg Jl (not_eq_sym Hj)) in Hx; [discriminate Hx|left; rewrite Z; discriminate]. }
  split.
  - rewrite <- (al_len _ _ _ I), !app_length. reflexivity.
  - exact Hf.
  - intros j p mm0 gj Ep Em Ej. destruct (Nat.eqb_spec j i) as [->|Hj].
    + rewrite Eg2 in Ej. apply Some_eq in Ej as <-. apply Hi; assumption.
    + rewrite Oth in Ej by exact Hj. destruct (al_thread _ _ _ I j p mm0 gj Ep Em Ej) as [T1 T2 T3 T4 T5 T8 T6 T7]. split; auto.
      * intros x b Hx. apply (Keep j gj Hj Ej x b Hx). apply T4. exact Hx.
      * intros x Hx. destruct (T7 x Hx). split; [apply Hmap|]; assumption.
  - intros j k gj x Ej Hk Hn H. destruct (Nat.eqb_spec j i) as [->|Hj].
    + rewrite Eg2 in Ej. apply Some_eq in Ej as <-. destruct (Nat.eqb_spec k i) as [->|Hki]; [contradiction|].
      destruct (Hnew x H) as [Q|Q]; [exact (al_sep _ _ _ I i k g x Eg Hk Hn Q)|].
      destruct (cur k x) as [b|] eqn:Z; [|reflexivity]. exfalso.
      destruct (nth_error ps k) as [p|] eqn:Ep; [|apply nth_error_None in Ep; lia]. destruct (nth_error mems k) as [mm|] eqn:Em; [|apply nth_error_None in Em; lia].
      destruct (nth_error (l1 ++ g :: l2) k) as [gk|] eqn:Egk; [|apply nth_error_None in Egk; rewrite (al_len _ _ _ I) in Egk; lia].
      rewrite (ti_here _ _ _ _ _ (al_thread _ _ _ I k p mm gk Ep Em Egk) x b Z) in Q. discriminate Q.
    + rewrite Oth in Ej by exact Hj. destruct (Nat.eqb_spec k i) as [->|Hki]; [|exact (al_sep _ _ _ I j k gj x Ej Hk Hn H)].
      pose proof (al_sep _ _ _ I j i gj x Ej Hil Hj H) as Q1. destruct (cur2 x) as [b|] eqn:Z; [|reflexivity]. exfalso.
      assert (Jl : (j < length ps)%nat) by (rewrite <- (al_len _ _ _ I); apply nth_error_Some; rewrite Ej; discriminate).
      destruct (nth_error ps j) as [p|] eqn:Ep; [|apply nth_error_None in Ep; lia]. destruct (nth_error mems j) as [mm|] eqn:Em; [|apply nth_error_None in Em; lia].
      pose proof (al_thread _ _ _ I j p mm gj Ep Em Ej) as T.
      destruct (HnC x) as [Q|Q]; [rewrite Z; discriminate|contradiction|].
      destruct H as [H|H]; [destruct (cur j x) as [v|] eqn:V; [|contradiction]; rewrite (ti_here _ _ _ _ _ T x v V) in Q; discriminate Q|exact (ti_dma _ _ _ _ _ T x H Q)].
  - intros x Hx Hm. destruct (al_frame _ _ _ I x Hx Hm) as [Q1 Q2]. split.
    + rewrite Hfr; [exact Q1|rewrite Q1; exact Hx|apply (Q2 i g Eg)|apply (Q2 i g Eg)].
    + intros j gj Ej. destruct (Nat.eqb_spec j i) as [->|Hj].
      * rewrite Eg2 in Ej. apply Some_eq in Ej as <-. destruct (Q2 i g Eg) as [Q3 Q4].
        assert (Z : ~ (cur2 x <> None \/ g_dma g2 x)). { intros Z. destruct (Hnew x Z) as [[Q|Q]|Q]; [contradiction|contradiction|]. rewrite Q1 in Q. contradiction. }
        destruct (cur2 x); [exfalso; apply Z; left; discriminate|]. split; [reflexivity|]. intros Z2. apply Z. right. exact Z2.
      * rewrite Oth in Ej by exact Hj. exact (Q2 j gj Ej).
Qed.

Lemma probe_drawn mm w u t ev : ans w = ans w0 -> drawn_from u -> drawn_from (probe mm w u t ev).
Proof. intros H Hu k. unfold probe. cbn [ans]. destruct (Nat.eqb k t); [rewrite H; eexists; reflexivity|apply Hu]. Qed.

(** the next step of a thread is defined *)
Lemma thread_defined w st cur i p mm0 g : all_inv w st cur -> nth_error ps i = Some p -> nth_error mems i = Some mm0 -> nth_error st i = Some g ->
  exists D t u, let ev := g_evs g in good D (p_cmnd p) /\ given D (g_cpls g) /\ drawn_from u /\
    (forall D', agree (length (fst (g_state g))) D D' -> tracked w0 t u ev (code_of p D') mm0 (snd (g_state g) D') (cur i)) /\
    (exists r v', snd (g_state g) D (probe (cur i) w u t ev) = Ret r v') /\
    exists D2, gave D2 (g_cpls g) /\
      forall D', agree (length (fst (g_state g))) D2 D' -> tracked w0 t u ev (code_of p D') mm0 (snd (g_state g) D') (cur i).
Proof.
  intros I Ep Em Eg. destruct (ti_track _ _ _ _ _ (al_thread _ _ _ I i p mm0 g Ep Em Eg)) as (D & t & u & H1 & H2 & H3 & H4 & H5). set (ev := g_evs g) in *.
  exists D, t, u. cbv zeta. split; [exact H1|]. split; [exact H2|]. split; [exact H3|]. split; [exact H4|]. split; [|exact H5].
  destruct (al_flags _ _ _ I) as (F1 & F2 & F3). destruct (probe_ok (cur i) w u t ev) as ((P0 & P1 & P2) & P3 & P4).
  destruct (solo i p mm0 D (probe (cur i) w u t ev) Ep Em H1 (probe_drawn _ _ _ _ _ F3 H3)) as (r & v' & E).
  exists r, v'. rewrite <- (H4 D ltac:(intros k s m _; reflexivity) (probe (cur i) w u t ev)); [exact E| |reflexivity|reflexivity|exact P4].
  split; [exact P0|]. split; congruence.
Qed.

Lemma all_steps w st : at_once dev w0 (starts ps mems) w st -> exists cur, all_inv w st cur.
Proof.
  induction 1 as [|w1 l1 subs m cs dma evs l2 B a k b w2 new0 _ [cur I] Hn E Hh Tn|w1 l1 subs m cs dma evs l2 s k drv c w2 _ [cur I] Hn Hdev E Hd Hk].
  - exists (fun i => nth i mems (fun _ => None)). apply all_start.
  - set (g := {| g_state := (subs, m); g_cpls := cs; g_dma := dma; g_evs := evs |}) in *. set (i := length l1).
    assert (Eg : nth_error (l1 ++ g :: l2) i = Some g) by (rewrite nth_mid; unfold i; rewrite Nat.eqb_refl; reflexivity).
    assert (Hil : (i < length ps)%nat) by (rewrite <- (al_len _ _ _ I); apply nth_error_Some; rewrite Eg; discriminate).
    destruct (nth_error ps i) as [p|] eqn:Ep; [|apply nth_error_None in Ep; lia]. destruct (nth_error mems i) as [mm0|] eqn:Em; [|apply nth_error_None in Em; lia].
    destruct (thread_defined _ _ _ _ _ _ _ I Ep Em Eg) as (D & t & u & H1 & H2 & H3 & H4 & (r & v' & Er) & D2 & H5 & H6). set (ev := g_evs g) in *.
    destruct (al_thread _ _ _ I i p mm0 g Ep Em Eg) as [T1 T2 _ T4 T5 T8 T6 T7]. destruct (al_flags _ _ _ I) as (F1 & F2 & F3).
    destruct Hn as (Ha & Hm & Hr). cbn [g g_state fst snd g_cpls g_dma g_evs] in *.
    assert (Da : exists b' v1, a (probe (cur i) w1 u t ev) = Ret b' v1).
    { rewrite Hm in Er. unfold bind in Er. destruct (a (probe (cur i) w1 u t ev)); [eauto|discriminate Er]. }
    destruct (track_step_at w0 w1 t u ev (cur i) F1 F2 B a b w2 Ha Da T4 T5 E Hh) as (mm2 & t2 & new & S9 & S1 & S2 & S3 & S4 & S5 & S6 & S7 & S8).
    destruct (action_eff B a w1 b w2 Ha E) as (eff & d & new' & X1 & X2 & X3 & X4).
    assert (W2 : w2 = after w1 (eff (mem w1)) d new').
    { rewrite (X1 w1) in E; [|auto|reflexivity|reflexivity|split; [reflexivity|split; reflexivity]]. injection E as <-. reflexivity. }
    assert (Hmap : forall x, mem w1 x <> None -> mem w2 x <> None) by (intros x Hx; rewrite W2; cbn [after mem]; apply X3; exact Hx).
    assert (Hand : forall x, handed_out w1 w2 x -> mem w1 x = None).
    { intros x (size & n & q & Q1 & Q2 & Q3). destruct Hh as [Hh _]. exact (Hh size n q Q1 Q2 x Q3). }
    exists (fun j => if Nat.eqb j i then mm2 else cur j).
    apply (all_move w1 l1 g l2 cur w2 _ mm2 I); cbn [g g_dma].
    + intros p' mm0' Ep' Em'. fold i in Ep', Em'. rewrite Ep in Ep'. apply Some_eq in Ep' as <-. rewrite Em in Em'. apply Some_eq in Em' as <-.
      split; cbn [g_state g_cpls g_dma g_evs fst snd].
      * apply Hr.
      * exact T2.
      * assert (new0 = new) as -> by (rewrite S1 in Tn; apply app_inv_head in Tn; symmetry; exact Tn). exists D, t2, (probe (cur i) w1 u t ev). split; [exact H1|]. split; [exact H2|]. split; [apply probe_drawn; assumption|].
        split; [intros D' Ag; apply (S8 _ (code_of p D') mm0 (m D') (fun y => k y D') (H4 D' Ag)); apply Hm|].
        exists D2. split; [exact H5|]. intros D' Ag. apply (S8 _ (code_of p D') mm0 (m D') (fun y => k y D') (H6 D' Ag)). apply Hm.
      * exact S3.
      * intros x Hx. apply S4. exact Hx.
      * intros x Hx. specialize (T8 x Hx). apply S9. exact T8.
      * intros x [Hx|Hx]; [apply Hmap, T6; exact Hx|exact (action_hands B a w1 b w2 x Ha E Hx)].
      * intros x Hx. destruct (T7 x Hx) as [Q1 Q2]. split; [apply Hmap; exact Q1|]. intros [Q|Q]; [exact (Q2 Q)|exact (Q1 (Hand x Q))].
    + split; [exact S5|]. split; [exact S6|]. rewrite W2. exact F3.
    + exact Hmap.
    + intros x Hx _ Hc. apply S7; assumption.
    + intros x Hx. destruct (mem w1 x) eqn:Z; [|auto]. left. intros Q. destruct (S7 x ltac:(rewrite Z; discriminate) Q). contradiction.
    + intros x [Hx|Hx]; [auto|]. right. apply Hand. exact Hx.
  - set (g := {| g_state := (subs, m); g_cpls := cs; g_dma := dma; g_evs := evs |}) in *. set (i := length l1).
    assert (Eg : nth_error (l1 ++ g :: l2) i = Some g) by (rewrite nth_mid; unfold i; rewrite Nat.eqb_refl; reflexivity).
    assert (Hil : (i < length ps)%nat) by (rewrite <- (al_len _ _ _ I); apply nth_error_Some; rewrite Eg; discriminate).
    destruct (nth_error ps i) as [p|] eqn:Ep; [|apply nth_error_None in Ep; lia]. destruct (nth_error mems i) as [mm0|] eqn:Em; [|apply nth_error_None in Em; lia].
    destruct (al_thread _ _ _ I i p mm0 g Ep Em Eg) as [T1 T2 (D & t & u & H1 & H2 & H3 & H4 & D2 & H5 & H6) T4 T5 T8 T6 T7]. destruct (al_flags _ _ _ I) as (F1 & F2 & F3).
    destruct Hn as (Hm & Hr). cbn [g g_state fst snd g_cpls g_dma g_evs] in *.
    assert (W2 : exists m2 cp, c = cp mod 2 ^ 128 /\ w2 = set_mem w1 m2).
    { unfold hand_over in E. destruct (drv (length subs) s (mem w1)) as [m2 cp]. exists m2, cp. split; [|injection E; intros; congruence].
      assert (Q : Some (cp mod 2 ^ 128) = Some c) by (apply (f_equal (fun r => match r with Ret y _ => Some y | UB _ => None end) E)). apply Some_eq in Q. symmetry. exact Q. }
    destruct W2 as (m2 & cp & Ec & W2).
    assert (Cm : c mod 2 ^ 128 = c) by (rewrite Ec; apply N.mod_mod; discriminate).
    destruct (Rfaith (p_cmnd p) drv (length subs) s w1 w2 c (cur i) Hdev E T4 Hk) as [Y1 Y2].
    { intros x Hx. apply Hd. apply T7. unfold in_span, cdb_of. cbn [ptr len]. unfold in_cdb in Hx. lia. }
    set (cur2 := fst (replay (p_cmnd p) (mem w2) c s (cur i))) in *.
    assert (C2 : forall x, cur2 x <> None <-> cur i x <> None) by (intros x; apply Rshape).
    exists (fun j => if Nat.eqb j i then cur2 else cur j).
    apply (all_move w1 l1 g l2 cur w2 _ cur2 I); cbn [g g_dma].
    + intros p' mm0' Ep' Em'. fold i in Ep', Em'. rewrite Ep in Ep'. apply Some_eq in Ep' as <-. rewrite Em in Em'. apply Some_eq in Em' as <-.
      split; cbn [g_state g_cpls g_dma g_evs fst snd].
      * apply Hr.
      * rewrite !app_length. cbn [length]. rewrite T2. reflexivity.
      * assert (Gen : forall X F, snd (F s (cur i)) mod 2 ^ 128 = c -> fst (F s (cur i)) = cur2 ->
          (forall D', agree (length subs) X D' -> tracked w0 t u evs (code_of p D') mm0 (m D') (cur i)) ->
          forall D', agree (length (subs ++ [s])) (extend (length subs) X F) D' -> tracked w0 t u evs (code_of p D') mm0 (k c D') cur2).
        { intros X F Fc Fm HX D' Ag v (Vm & V1 & V2) Tv Tr Rc. set (v3 := set_mem v (cur i)).
           assert (Q : code_of p D' (rewind v3 mm0) = m D' v3).
           { apply HX; [|split; [reflexivity|split; [exact V1|exact V2]]|exact Tv|exact Tr|exact Rc].
             intros k' s' m' Hk'. rewrite (Ag k' s' m') by (rewrite app_length; lia). unfold extend. replace (Nat.ltb k' (length subs)) with true by (symmetry; apply Nat.ltb_lt; exact Hk'). reflexivity. }
           change (rewind v3 mm0) with (rewind v mm0) in Q. rewrite Q, Hm. unfold bind, hand_over. cbn [v3 set_mem mem].
           rewrite (Ag (length subs) s (cur i)) by (rewrite app_length; cbn [length]; lia). unfold extend. rewrite Nat.ltb_irrefl.
           rewrite <- Fm in Vm. destruct (F s (cur i)) as [mr cr]. cbn [fst snd] in Fc, Vm. rewrite Fc. f_equal. unfold v3, set_mem. rewrite <- Vm. destruct v; reflexivity. }
        exists (extend (length subs) D (replay (p_cmnd p) (mem w2) c)), t, u. split; [apply Rgood; exact H1|]. split; [|split; [exact H3|]].
        -- rewrite <- T2. apply Rgiven; assumption.
        -- split; [apply Gen; [exact Y2|reflexivity|exact H4]|]. exists (extend (length subs) D2 (fun _ _ => (cur2, c))). split.
           ++ rewrite <- T2. intros k0 s0 m0 c0 Hk0. unfold extend. destruct (Nat.ltb_spec k0 (length cs)) as [L|L].
              ** apply H5. rewrite nth_error_app1 in Hk0 by lia. exact Hk0.
              ** rewrite nth_error_app2 in Hk0 by lia. destruct (k0 - length cs)%nat as [|z]; [|destruct z; discriminate Hk0]. apply Some_eq in Hk0 as <-. exact Cm.
           ++ apply Gen; [exact Cm|reflexivity|exact H6].
      * exact Y1.
      * intros x Hx. specialize (T5 x Hx). destruct (cur2 x) eqn:Z; [|reflexivity]. exfalso. apply (proj1 (C2 x)); [rewrite Z; discriminate|exact T5].
      * intros x Hx. apply C2, T8. exact Hx.
      * intros x Hx. apply Hk, T6. exact Hx.
      * intros x Hx. destruct (T7 x Hx). split; [apply Hk|]; assumption.
    + rewrite W2. cbn [set_mem alloc_cb dealloc_cb ans]. auto.
    + exact Hk.
    + intros x _ Hx _. apply Hd. exact Hx.
    + intros x Hx. left. apply C2. exact Hx.
    + intros x Hx. left. exact Hx.
Qed.

Lemma gen_progress w st i g : at_once dev w0 (starts ps mems) w st -> nth_error st i = Some g ->
  ((exists r, returned (g_state g) r) \/ can_move w (g_state g)) /\
  forall B (a : M B) k, next_action (fst (g_state g)) (snd (g_state g)) a k -> exists b w', a w = Ret b w'.
Proof.
  intros H Eg. destruct (all_steps _ _ H) as [cur I].
  assert (Hil : (i < length ps)%nat) by (rewrite <- (al_len _ _ _ I); apply nth_error_Some; rewrite Eg; discriminate).
  destruct (nth_error ps i) as [p|] eqn:Ep; [|apply nth_error_None in Ep; lia]. destruct (nth_error mems i) as [mm0|] eqn:Em; [|apply nth_error_None in Em; lia].
  destruct (thread_defined _ _ _ _ _ _ _ I Ep Em Eg) as (D & t & u & _ & _ & _ & _ & (r & v' & Er) & _). set (ev := g_evs g) in *.
  destruct (al_thread _ _ _ I i p mm0 g Ep Em Eg) as [T1 T2 _ T4 _ _ _ _]. destruct (al_flags _ _ _ I) as (F1 & F2 & _).
  destruct (probe_ok (cur i) w u t ev) as ((P0 & P1 & P2) & P3 & P4).
  assert (Def : forall B (a : M B) k, next_action (fst (g_state g)) (snd (g_state g)) a k -> exists b w', a w = Ret b w').
  { intros B a k (Ha & Hk & _). rewrite Hk in Er. unfold bind in Er. destruct (a (probe (cur i) w u t ev)) as [b v1|] eqn:Ea; [|discriminate Er].
    destruct (action_eff B a _ b v1 Ha Ea) as (eff & d & new & Hu & _). exists b, (after w (eff (mem w)) d new). apply Hu; [|congruence|congruence|].
    - rewrite P0. exact T4.
    - intros _. destruct P3 as (Q1 & Q2 & Q3). split; [congruence|]. split; congruence. }
  split; [|exact Def]. inversion T1 as [l m r0 F Hr E1 E2|l m U E1 E2|l m B a k Ha Hk R E1 E2|l m s k Hk R E1 E2].
  - left. exists r0. exact F.
  - destruct (U D) as [s F]. rewrite F in Er. discriminate Er.
  - right. left. destruct (Def B a k) as (b & w' & Ea); [split; [exact Ha|split; assumption]|]. exists B, a, k, b, w'. split; [split; [exact Ha|split; assumption]|exact Ea].
  - right. right. exists s, k. split; assumption.
Qed.

Lemma gen_isolated w st i p mm g r : at_once dev w0 (starts ps mems) w st -> nth_error ps i = Some p -> nth_error mems i = Some mm -> nth_error st i = Some g -> returned (g_state g) r ->
  exists D mm', good D (p_cmnd p) /\ given D (g_cpls g) /\ answered_alone w0 p mm D r (g_evs g) mm' /\ present mm' w /\
    forall x, mm x <> None -> mm' x <> None.
Proof.
  intros H Ep Em Eg Hr. destruct (all_steps _ _ H) as [cur I].
  destruct (ti_track _ _ _ _ _ (al_thread _ _ _ I i p mm g Ep Em Eg)) as (D & t & u & H1 & H2 & H3 & H4 & _). set (ev := g_evs g) in *.
  destruct (al_flags _ _ _ I) as (F1 & F2 & F3). destruct (probe_ok (cur i) w u t ev) as ((P0 & P1 & P2) & P3 & P4).
  assert (E : code_of p D (rewind (probe (cur i) w u t ev) mm) = Ret r (probe (cur i) w u t ev)).
  { rewrite (H4 D ltac:(intros k s m _; reflexivity) (probe (cur i) w u t ev)); [apply Hr| |reflexivity|reflexivity|exact P4]. split; [exact P0|]. split; congruence. }
  exists D, (cur i). split; [exact H1|]. split; [exact H2|]. split; [exists (rewind (probe (cur i) w u t ev) mm), (probe (cur i) w u t ev)|].
  { split; [split; [reflexivity|split; cbn [rewind alloc_cb dealloc_cb probe]; assumption]|]. split; [exact (probe_drawn (cur i) w u t ev F3 H3)|]. split; [reflexivity|]. split; [exact E|split; reflexivity]. }
  split; [exact (ti_here _ _ _ _ _ (al_thread _ _ _ I i p mm g Ep Em Eg))|].
  exact (ti_keep _ _ _ _ _ (al_thread _ _ _ I i p mm g Ep Em Eg)).
Qed.

(** so does a device that gives fixed completions *)
Lemma gen_outcome w st i p mm g r : at_once dev w0 (starts ps mems) w st -> nth_error ps i = Some p -> nth_error mems i = Some mm -> nth_error st i = Some g -> returned (g_state g) r ->
  exists D mm', gave D (g_cpls g) /\ answered_alone w0 p mm D r (g_evs g) mm' /\ present mm' w /\
    forall x, mm x <> None -> mm' x <> None.
Proof.
  intros H Ep Em Eg Hr. destruct (all_steps _ _ H) as [cur I].
  destruct (ti_track _ _ _ _ _ (al_thread _ _ _ I i p mm g Ep Em Eg)) as (_ & t & u & _ & _ & H3 & _ & D & H2 & H4). set (ev := g_evs g) in *.
  destruct (al_flags _ _ _ I) as (F1 & F2 & F3). destruct (probe_ok (cur i) w u t ev) as ((P0 & P1 & P2) & P3 & P4).
  assert (E : code_of p D (rewind (probe (cur i) w u t ev) mm) = Ret r (probe (cur i) w u t ev)).
  { rewrite (H4 D ltac:(intros k s m _; reflexivity) (probe (cur i) w u t ev)); [apply Hr| |reflexivity|reflexivity|exact P4]. split; [exact P0|]. split; congruence. }
  exists D, (cur i). split; [exact H2|]. split; [exists (rewind (probe (cur i) w u t ev) mm), (probe (cur i) w u t ev)|].
  { split; [split; [reflexivity|split; cbn [rewind alloc_cb dealloc_cb probe]; assumption]|]. split; [exact (probe_drawn (cur i) w u t ev F3 H3)|]. split; [reflexivity|]. split; [exact E|split; reflexivity]. }
  split; [exact (ti_here _ _ _ _ _ (al_thread _ _ _ I i p mm g Ep Em Eg))|].
  exact (ti_keep _ _ _ _ _ (al_thread _ _ _ I i p mm g Ep Em Eg)).
Qed.

Lemma gen_prefix w st i p mm g : at_once dev w0 (starts ps mems) w st -> nth_error ps i = Some p -> nth_error mems i = Some mm -> nth_error st i = Some g ->
  exists D v r v' e, alone mm w0 v /\ drawn_from v /\ trace v = [] /\ code_of p D v = Ret r v' /\ trace v' = g_evs g ++ e /\
    exists l, mr_subs r = fst (g_state g) ++ l.
Proof.
  intros H Ep Em Eg. destruct (all_steps _ _ H) as [cur I].
  destruct (thread_defined _ _ _ _ _ _ _ I Ep Em Eg) as (D & t & u & H1 & H2 & H3 & H4 & (r & v' & Er) & _). set (ev := g_evs g) in *.
  destruct (al_flags _ _ _ I) as (F1 & F2 & F3). destruct (probe_ok (cur i) w u t ev) as ((P0 & P1 & P2) & P3 & P4).
  assert (E : code_of p D (rewind (probe (cur i) w u t ev) mm) = Ret r v').
  { rewrite (H4 D ltac:(intros k s m _; reflexivity) (probe (cur i) w u t ev)); [exact Er| |reflexivity|reflexivity|exact P4]. split; [exact P0|]. split; congruence. }
  destruct (runs_prefix _ _ (ti_runs _ _ _ _ _ (al_thread _ _ _ I i p mm g Ep Em Eg)) _ _ _ _ Er) as [Hl [e He]].
  exists D, (rewind (probe (cur i) w u t ev) mm), r, v', e. split; [split; [reflexivity|split; cbn [rewind alloc_cb dealloc_cb probe]; assumption]|].
  split; [exact (probe_drawn (cur i) w u t ev F3 H3)|]. split; [reflexivity|]. split; [exact E|]. split; [exact He|exact Hl].
Qed.

(** the same with an allocator that gives nothing from now on *)
Definition drained (v : world) : world :=
  {| mem := mem v; alloc_cb := alloc_cb v; dealloc_cb := dealloc_cb v; ans := fun k => if Nat.ltb k (tick v) then ans v k else fun _ _ => 0;
     fill := fill v; junk := junk v; tick := tick v; trace := trace v |}.
Lemma gen_drained w st i p mm g : at_once dev w0 (starts ps mems) w st -> nth_error ps i = Some p -> nth_error mems i = Some mm -> nth_error st i = Some g ->
  exists D v r v' e, alone mm w0 v /\ (forall k, (exists k', ans v k = ans w0 k') \/ ans v k = fun _ _ => 0) /\ trace v = [] /\
    code_of p D v = Ret r v' /\ trace v' = g_evs g ++ e /\ no_pages e /\ exists l, mr_subs r = fst (g_state g) ++ l.
Proof.
  intros H Ep Em Eg. destruct (all_steps _ _ H) as [cur I]. pose proof (al_thread _ _ _ I i p mm g Ep Em Eg) as T.
  destruct (ti_track _ _ _ _ _ T) as (D & t & u & H1 & _ & H3 & H4 & _). set (ev := g_evs g) in *.
  destruct (al_flags _ _ _ I) as (F1 & F2 & F3). destruct (probe_ok (cur i) w u t ev) as ((P0 & P1 & P2) & P3 & P4).
  set (v := drained (probe (cur i) w u t ev)).
  assert (Hv : forall k, (exists k', ans v k = ans w0 k') \/ ans v k = fun _ _ => 0).
  { intros k. unfold v, drained. cbn [ans]. destruct (Nat.ltb k _); [left; exact (probe_drawn (cur i) w u t ev F3 H3 k)|right; reflexivity]. }
  assert (Ev : code_of p D (rewind v mm) = snd (g_state g) D v).
  { apply (H4 D); [intros k s m _; reflexivity|split; [exact P0|split; [exact (eq_trans P1 F1)|exact (eq_trans P2 F2)]]|reflexivity|reflexivity|].
    intros k Hk. destruct (P4 k Hk) as (Q1 & Q2 & Q3). unfold v, drained. cbn [ans fill junk]. change (tick (probe (cur i) w u t ev)) with t.
    replace (Nat.ltb k t) with true by (symmetry; apply Nat.ltb_lt; exact Hk). auto. }
  assert (S : exists r v', code_of p D (rewind v mm) = Ret r v').
  { destruct (Hequ i p mm Ep Em) as (_ & E2 & E3 & E4 & E5 & E6). destruct Hsup as [S1 S2]. destruct (S1 p (nth_error_In _ _ Ep)) as [S4 S3].
    apply (Hsolo D _ _ _ _ _ (p_cdb p)).
    - split; [exact E2|]. split; [exact E3|]. split; [exact E4|]. split; [exact E5|]. split; [exact E6|]. split; [|split].
      + destruct S3 as [S3|[S3 _]]; [left; exact S3|right]. intros x Hx. cbn [rewind mem]. destruct (mm x) as [b|] eqn:Z; [|reflexivity].
        specialize (S3 x Hx). rewrite (proj1 Hown i mm Em x b Z) in S3. discriminate S3.
      + intros k size n. cbn [rewind ans]. destruct (Hv k) as [[k' ->]| ->]; [apply S4|left; reflexivity].
      + intros k size. cbn [rewind ans]. destruct (Hv k) as [[k' ->]| ->]; [apply S2|reflexivity].
    - destruct S3 as [S3|[_ S3]]; [left; exact S3|right]. intros k size n. cbn [rewind ans]. destruct (Hv k) as [[k' ->]| ->]; [apply S3|left; reflexivity].
    - exact H1.
    - apply Hall. exact (nth_error_In _ _ Ep). }
  destruct S as (r & v' & E). pose proof E as Er. rewrite Ev in Er.
  destruct (runs_prefix _ _ (ti_runs _ _ _ _ _ T) _ _ _ _ Er) as [Hl _].
  destruct (runs_dry _ _ (ti_runs _ _ _ _ _ T) _ _ _ _ Er) as (e & He & Hn).
  { intros k Hk. unfold v, drained in *. cbn [ans tick] in *. replace (Nat.ltb k _) with false; [reflexivity|]. symmetry. apply Nat.ltb_ge. exact Hk. }
  exists D, (rewind v mm), r, v', e. split; [split; [reflexivity|split; cbn [rewind alloc_cb dealloc_cb v drained probe]; [exact (eq_trans P1 F1)|exact (eq_trans P2 F2)]]|].
  split; [exact Hv|]. split; [reflexivity|]. split; [exact E|]. split; [exact He|]. split; [exact Hn|exact Hl].
Qed.

Lemma gen_frame w st x : at_once dev w0 (starts ps mems) w st -> mem w0 x <> None -> (forall mm, In mm mems -> mm x = None) -> mem w x = mem w0 x.
Proof. intros H Hx Hm. destruct (all_steps _ _ H) as [cur I]. apply (al_frame _ _ _ I x Hx Hm). Qed.
End AtOnce.

(** ** Any device, commands other than MODE SENSE *)
Definition plain_replay (c : scsi_cmnd) (m2 : memory) (cpl : N) (s : submission) (m : memory) : memory * N := seen c m2 cpl m.
Lemma seen_shape c m2 cpl m x : fst (seen c m2 cpl m) x <> None <-> m x <> None.
Proof. unfold seen. cbn [fst]. destruct (in_cdb c x); [tauto|]. destruct (m x); [|tauto]. destruct (m2 x); split; discriminate. Qed.
Lemma seen_cdb c m2 cpl m x : sc_cmnd c <= x < sc_cmnd c + sc_cmd_len c -> fst (seen c m2 cpl m) x = m x.
Proof. intros H. unfold seen. cbn [fst]. replace (in_cdb c x) with true; [reflexivity|]. unfold in_cdb. lia. Qed.
Lemma seen_present c w1 w2 cpl cur : present cur w1 -> (forall x, mem w1 x <> None -> mem w2 x <> None) -> (forall x, in_cdb c x = true -> mem w2 x = mem w1 x) ->
  present (fst (seen c (mem w2) cpl cur)) w2.
Proof.
  intros Hp Hk Hd x b Hx. unfold seen in Hx. cbn [fst] in Hx. destruct (in_cdb c x) eqn:Z.
  - rewrite Hd by exact Z. apply Hp. exact Hx.
  - destruct (cur x) as [b0|] eqn:Zc; [|discriminate Hx]. pose proof (Hk x ltac:(rewrite (Hp x b0 Zc); discriminate)) as Q. destruct (mem w2 x) as [b1|]; [exact Hx|contradiction].
Qed.
Lemma plain_good c D n m2 cpl : harmless D c -> harmless (extend n D (plain_replay c m2 cpl)) c.
Proof.
  intros H k s m x. unfold extend. destruct (Nat.ltb k n); [apply H|]. unfold plain_replay. split; [apply seen_shape|apply seen_cdb].
Qed.
Lemma plain_broken c : harmless broken c. Proof. intros k s m x. cbn. auto. Qed.
Lemma hand_mod drv k s w1 w2 cpl : hand_over drv k s w1 = Ret cpl w2 -> cpl = snd (drv k s (mem w1)) mod 2 ^ 128 /\ mem w2 = fst (drv k s (mem w1)).
Proof.
  unfold hand_over. destruct (drv k s (mem w1)) as [m2 cp]. intros E. apply ret_eq in E as [<- <-]. split; reflexivity.
Qed.
Lemma plain_given c D m2 cpl cs : gave D cs -> cpl mod 2 ^ 128 = cpl -> gave (extend (length cs) D (plain_replay c m2 cpl)) (cs ++ [cpl]).
Proof.
  intros H Hc k s m c' Hk. unfold extend. destruct (Nat.ltb_spec k (length cs)) as [L|L].
  - apply H. rewrite nth_error_app1 in Hk by lia. exact Hk.
  - rewrite nth_error_app2 in Hk by lia. destruct (k - length cs)%nat as [|z]; [|destruct z; discriminate Hk]. apply Some_eq in Hk. cbn [plain_replay seen snd]. rewrite Hc. exact Hk.
Qed.
Lemma gave_none D : gave D []. Proof. intros k s m c H. destruct k; discriminate H. Qed.
Lemma plain_faith c (drv : driver) k s w1 w2 cpl cur : True -> hand_over drv k s w1 = Ret cpl w2 -> present cur w1 ->
  (forall x, mem w1 x <> None -> mem w2 x <> None) -> (forall x, in_cdb c x = true -> mem w2 x = mem w1 x) ->
  present (fst (plain_replay c (mem w2) cpl s cur)) w2 /\ snd (plain_replay c (mem w2) cpl s cur) mod 2 ^ 128 = cpl.
Proof.
  intros _ E Hp Hk Hd. split; [unfold plain_replay; apply (seen_present c w1); assumption|]. cbn [plain_replay seen snd]. destruct (hand_mod _ _ _ _ _ _ E) as [-> _]. apply N.mod_mod. discriminate.
Qed.

(** not MODE SENSE *)
Definition other_command (bs : list byte) : Prop := ~ In (byte_at bs 0) [0x1a; 0x5a].
Lemma plain_solo drv wrs kz wild c w bs : Properties41.queued w kz c bs -> kz = 0 \/ pages_apart w {| ptr := kz; len := sc_bufflen c mod 65536 |} ->
  harmless drv c -> other_command bs -> exists r w', scsi_queuecommand drv wrs kz wild c w = Ret r w'.
Proof. intros Q _ Hd Ho. exact (C111_answered_partial drv wrs kz wild c w bs Q Hd Ho). Qed.

(** No thread ever runs into undefined behaviour or stops halfway: each has
    returned to its caller or can take its next step, whatever the others do. *)
Theorem C112_progress_partial : forall w ps mems w' st i g,
  all_queued w ps mems -> (forall p, In p ps -> other_command (p_cdb p)) ->
  at_once (fun _ => True) w (starts ps mems) w' st -> nth_error st i = Some g ->
  ((exists r, returned (g_state g) r) \/ can_move w' (g_state g)) /\
  forall B (a : M B) k, next_action (fst (g_state g)) (snd (g_state g)) a k -> exists b w2, a w' = Ret b w2.
Proof.
  intros w ps mems w' st i g (H1 & H2 & H3 & H4) Ho H Eg.
  exact (gen_progress w ps mems H2 H1 H4 H3 other_command Ho (fun _ => True) harmless gave plain_solo plain_replay plain_good plain_broken plain_given gave_none
    (fun c m2 cpl s m x => seen_shape c m2 cpl m x) plain_faith w' st i g H Eg).
Qed.
Print Assumptions C112_progress_partial.

(** What a thread returns, and what it finds in its part of memory then, is what
    it would have got alone, from a device that gives it the same completions. *)
Theorem C112_isolated_partial : forall w ps mems w' st i p mm g r,
  all_queued w ps mems -> (forall p, In p ps -> other_command (p_cdb p)) ->
  at_once (fun _ => True) w (starts ps mems) w' st -> nth_error ps i = Some p -> nth_error mems i = Some mm -> nth_error st i = Some g -> returned (g_state g) r ->
  exists drv mm', harmless drv (p_cmnd p) /\ gave drv (g_cpls g) /\ answered_alone w p mm drv r (g_evs g) mm' /\
    (forall x, mm x <> None -> mem w' x = mm' x) /\
    (sc_bufflen (p_cmnd p) mod 65536 = 0 \/ p_kz p <> 0 -> In (mr_result r) sam_status).
Proof.
  intros w ps mems w' st i p mm g r (H1 & H2 & H3 & H4) Ho H Ep Em Eg Hr.
  destruct (gen_isolated w ps mems H2 H1 H4 H3 other_command Ho (fun _ => True) harmless gave plain_solo plain_replay plain_good plain_broken plain_given gave_none
    (fun c m2 cpl s m x => seen_shape c m2 cpl m x) plain_faith w' st i p mm g r H Ep Em Eg Hr) as (D & mm' & G1 & G2 & G3 & G4 & G5).
  exists D, mm'. split; [exact G1|]. split; [exact G2|]. split; [exact G3|]. split.
  - intros x Hx. specialize (G5 x Hx). destruct (mm' x) as [b|] eqn:Z; [exact (G4 x b Z)|contradiction].
  - destruct G3 as (v & v' & _ & _ & _ & E & _). exact (C111_status_partial _ _ _ _ _ _ _ _ E).
Qed.
Print Assumptions C112_isolated_partial.

(** Memory that is in no thread's part does not change. *)
Theorem C112_bystanders_partial : forall w ps mems w' st x,
  all_queued w ps mems -> (forall p, In p ps -> other_command (p_cdb p)) ->
  at_once (fun _ => True) w (starts ps mems) w' st -> mem w x <> None -> (forall mm, In mm mems -> mm x = None) -> mem w' x = mem w x.
Proof.
  intros w ps mems w' st x (H1 & H2 & H3 & H4) Ho H Hx Hm.
  exact (gen_frame w ps mems H2 H1 H4 H3 other_command Ho (fun _ => True) harmless gave plain_solo plain_replay plain_good plain_broken plain_given gave_none
    (fun c m2 cpl s m y => seen_shape c m2 cpl m y) plain_faith w' st x H Hx Hm).
Qed.
Print Assumptions C112_bystanders_partial.

(** ** The premises are met *)
(** a part of memory: a CDB at z + 1000h, a buffer at z + 20000h, a sense buffer at z + 40000h *)
Definition ex_part43 (z : N) (cdb : list byte) : memory := fun x =>
  if (z + 0x1000 <=? x) && (x <? z + 0x1000 + N.of_nat (length cdb)) then nth_error cdb (N.to_nat (x - (z + 0x1000)))
  else if (z + 0x20000 <=? x) && (x <? z + 0x24000) then Some xcd
  else if (z + 0x40000 <=? x) && (x <? z + 0x40060) then Some x00 else None.
Definition ex_pending (z kz : N) (cdb : list byte) (n : N) : pending :=
  {| p_wrs := ex_wrs; p_kz := kz; p_wild := 0xdead; p_cdb := cdb;
     p_cmnd := {| sc_lun := 2; sc_cmnd := z + 0x1000; sc_cmd_len := N.of_nat (length cdb); sc_sense := z + 0x40000; sc_from_device := true; sc_bufflen := n; sc_sgl := [(z + 0x20000, n)] |} |}.
(** VERIFY(10), and REQUEST SENSE into a buffer of 96 bytes *)
Definition ex_verify43 := B [0x2f;0;0;0;0;7;0;0;1;0].
Definition ex_sense43 := B [0x03;0;0;0;96;0].
Definition ex_ps (c2 : list byte) : list pending := [ex_pending 0 0 ex_verify43 0; ex_pending 0x100000 0x190000 c2 96].
Definition ex_mems43 (c2 : list byte) : list memory := [ex_part43 0 ex_verify43; ex_part43 0x100000 c2].
Definition ex_world43 (c2 : list byte) : world :=
  {| mem := fun x => if x <? 0x100000 then ex_part43 0 ex_verify43 x else ex_part43 0x100000 c2 x; alloc_cb := true; dealloc_cb := true;
     ans := fun k size n => if n =? 0 then 0 else 0x1000000 + 0x100000 * N.of_nat (k mod 4); fill := fun _ _ => x00; junk := fun _ _ => x00; tick := 0; trace := [] |}.
(** what is left to do once kzalloc has given [buf] *)
Definition rest43 (p : pending) (buf : N) : thread := fun drv =>
  let n := mock_data_len (sc_bufflen (p_cmnd p)) in let c := p_cmnd p in
  if (0 <? n) && (buf =? 0) then ret {| mr_result := 23; mr_resid := None; mr_subs := [] |} else
  _ <- (if (0 <? n) && negb (sc_from_device c) then sg_copy_to_buffer (sc_sgl c) buf n else ret 0) ;;
  ' (resp, _, subs) <- ScsiToNvme drv (p_wrs p) (sc_cmnd c) (u16 (sc_cmd_len c)) (sc_lun c) (sc_sense c) SCSI_SENSE_BUFFERSIZE buf n (sc_from_device c) ;;
  resid <- (if sc_from_device c && (0 <? n) then sdb_len <- sg_copy_from_buffer (sc_sgl c) buf (er_alloc_len resp) ;; ret (Some (n - sdb_len)) else ret None) ;;
  _ <- (if 0 <? n then kfree buf n else ret tt) ;;
  ret {| mr_result := er_return_code resp; mr_resid := resid; mr_subs := subs |}.
Lemma first_kzalloc p : 0 < mock_data_len (sc_bufflen (p_cmnd p)) ->
  next_action [] (code_of p) (kzalloc (p_kz p) (mock_data_len (sc_bufflen (p_cmnd p)))) (rest43 p).
Proof.
  intros H. split; [apply ac_kzalloc|]. split.
  - intros drv w. unfold code_of, scsi_queuecommand, rest43. cbv zeta. replace (0 <? mock_data_len (sc_bufflen (p_cmnd p))) with true by lia. reflexivity.
  - intros b. exact (thread_rest {| q_wrs := p_wrs p; q_kz := p_kz p; q_wild := p_wild p; q_cmnd := p_cmnd p; q_io := IoRead 0 0 0 |} b).
Qed.
(** a thread that runs to its end without interruption *)
Lemma at_once_run (dev : driver -> Prop) w st drv : dev drv -> (forall k s mm, fst (drv k s mm) = mm) -> forall l m, runs_on l m -> forall w1 l1 l2 cs dma evs r w',
  at_once dev w st w1 (l1 ++ {| g_state := (l, m); g_cpls := cs; g_dma := dma; g_evs := evs |} :: l2) -> m drv w1 = Ret r w' ->
  (forall e, trace w' = trace w1 ++ e -> forall size n p, In (EvAlloc size n p) e -> p = 0) ->
  exists g, at_once dev w st w' (l1 ++ g :: l2) /\ returned (g_state g) r.
Proof.
  intros Hdev Hq l m R. induction R as [l m r0 F Hr|l m U|l m B a k Ha Hk R IH|l m s k Hk R IH]; intros w1 l1 l2 cs dma evs r w' H E Ht.
  - rewrite F in E. apply ret_eq in E as [-> ->]. eexists. split; [exact H|exact F].
  - destruct (U drv) as [s F]. rewrite F in E. discriminate E.
  - rewrite Hk in E. unfold bind in E. destruct (a w1) as [b w2|] eqn:Ea; [|discriminate E].
    destruct (action_eff B a w1 b w2 Ha Ea) as (eff & d & new & Hu & _).
    assert (W2 : trace w2 = trace w1 ++ new).
    { rewrite (Hu w1) in Ea; [|auto|reflexivity|reflexivity|split; [reflexivity|split; reflexivity]]. injection Ea as <-. reflexivity. }
    destruct (runs_prefix l (k b) (R b) drv w2 r w' E) as [_ [e2 He2]].
    assert (N0 : forall size n p, In (EvAlloc size n p) (new ++ e2) -> p = 0) by (apply Ht; rewrite He2, W2, app_assoc; reflexivity).
    assert (Hon : forall size n p, trace w2 = trace w1 ++ [EvAlloc size n p] -> p <> 0 -> False).
    { intros size n p T Hp. rewrite W2 in T. apply app_inv_head in T. apply Hp. apply (N0 size n p). rewrite T. left. reflexivity. }
    eapply (IH b); [|exact E|].
    + eapply (ao_act dev w st w1 l1 l m cs dma evs l2 B a k b w2 new H); [split; [exact Ha|split; [exact Hk|exact R]]|exact Ea| |exact W2].
      split; intros size n p T Hp; destruct (Hon size n p T Hp).
    + intros e He size n p Hin. apply (N0 size n p). rewrite He2 in He. apply app_inv_head in He. subst e. apply in_or_app. right. exact Hin.
  - rewrite Hk in E. unfold bind in E. destruct (hand_over drv (length l) s w1) as [c w2|] eqn:Eh; [|discriminate E].
    destruct (hand_mod _ _ _ _ _ _ Eh) as [_ Mh]. rewrite Hq in Mh.
    assert (T : trace w2 = trace w1) by (unfold hand_over in Eh; destruct (drv (length l) s (mem w1)); apply ret_eq in Eh as [_ <-]; reflexivity).
    eapply (IH c); [|exact E|rewrite T; exact Ht].
    eapply (ao_submit dev w st w1 l1 l m cs dma evs l2 s k drv c w2 H); [split; [exact Hk|exact R]|exact Hdev|exact Eh| |]; intros x; rewrite Mh; auto.
Qed.
(** a device that does nothing and reports success *)
Definition idle_dev : driver := fun _ _ m => (m, 0).
Definition ran (r : outcome mock_result) : option (N * option N * nat * list event) :=
  match r with Ret a w => Some (mr_result a, mr_resid a, length (mr_subs a), trace w) | UB _ => None end.
Definition ex_w1 (c2 : list byte) : world := match kzalloc 0x190000 96 (ex_world43 c2) with Ret _ w => w | UB _ => ex_world43 c2 end.
Definition ex_w2 (drv : driver) (c2 : list byte) : world := match code_of (ex_pending 0 0 ex_verify43 0) drv (ex_w1 c2) with Ret _ w => w | UB _ => ex_w1 c2 end.
Lemma ex_part43_none z cdb y : (length cdb <= 16)%nat -> y < z + 0x1000 \/ z + 0x40060 <= y -> ex_part43 z cdb y = None.
Proof.
  intros L H. unfold ex_part43. replace ((z + 0x1000 <=? y) && (y <? z + 0x1000 + N.of_nat (length cdb))) with false by lia.
  replace ((z + 0x20000 <=? y) && (y <? z + 0x24000)) with false by lia. replace ((z + 0x40000 <=? y) && (y <? z + 0x40060)) with false by lia. reflexivity.
Qed.
Lemma ex_equipped z kz cdb n : (length cdb <= 16)%nat -> z <= 0x100000 -> n <= 0x4000 -> equipped (ex_pending z kz cdb n) (ex_part43 z cdb).
Proof.
  intros L Hz Hn. split; [intros x Hx; apply ex_part43_none; [exact L|lia]|]. cbn [ex_pending p_cmnd p_cdb sc_cmnd sc_cmd_len sc_sense sc_sgl]. split; [|split; [reflexivity|split; [lia|split]]].
  - intros i b Hi. assert (i < length cdb)%nat by (apply nth_error_Some; rewrite Hi; discriminate). unfold ex_part43.
    replace ((z + 0x1000 <=? z + 0x1000 + N.of_nat i) && (z + 0x1000 + N.of_nat i <? z + 0x1000 + N.of_nat (length cdb))) with true by lia.
    replace (N.to_nat (z + 0x1000 + N.of_nat i - (z + 0x1000))) with i by lia. exact Hi.
  - intros x Hx. unfold ex_part43. replace ((z + 0x1000 <=? x) && (x <? z + 0x1000 + N.of_nat (length cdb))) with false by lia.
    replace ((z + 0x20000 <=? x) && (x <? z + 0x24000)) with false by lia. replace ((z + 0x40000 <=? x) && (x <? z + 0x40060)) with true by lia. discriminate.
  - intros x Hx. unfold sg_addrs in Hx. cbn [flat_map fst snd] in Hx. rewrite app_nil_r in Hx. apply in_map_iff in Hx as (i & <- & Hi). apply in_seq in Hi. unfold ex_part43.
    replace ((z + 0x1000 <=? z + 0x20000 + N.of_nat i) && (z + 0x20000 + N.of_nat i <? z + 0x1000 + N.of_nat (length cdb))) with false by lia.
    replace ((z + 0x20000 <=? z + 0x20000 + N.of_nat i) && (z + 0x20000 + N.of_nat i <? z + 0x24000)) with true by lia. discriminate.
Qed.
Lemma ex_all_queued c2 : (length c2 <= 16)%nat -> all_queued (ex_world43 c2) (ex_ps c2) (ex_mems43 c2).
Proof.
  intros L1. assert (L0 : (length ex_verify43 <= 16)%nat) by (vm_compute; lia).
  assert (Pg : forall s, ptr s + len s <= 0x1000000 -> pages_apart (ex_world43 c2) s).
  { intros s Hs k size n. cbv zeta. cbn [ex_world43 ans]. destruct (n =? 0); [left; reflexivity|]. right; right. pose proof (N.mod_lt (N.of_nat k) 4).
    unfold u64. rewrite N.mod_small; [lia|]. change (2 ^ 64) with 18446744073709551616. pose proof (Nat.mod_upper_bound k 4). lia. }
  split; [reflexivity|]. split; [split|split; [split|]].
  - intros [|[|i]] mm H; [| |destruct i; discriminate H]; apply Some_eq in H as <-; intros y b Hy; cbn [ex_world43 mem].
    + destruct (N.le_gt_cases 0x100000 y) as [G|G]; [rewrite ex_part43_none in Hy by (try exact L0; lia); discriminate|].
      replace (y <? 0x100000) with true by lia. exact Hy.
    + destruct (N.lt_ge_cases y 0x100000) as [G|G]; [rewrite ex_part43_none in Hy by (try exact L1; lia); discriminate|].
      replace (y <? 0x100000) with false by lia. exact Hy.
  - assert (S : separate (ex_part43 0 ex_verify43) (ex_part43 0x100000 c2)).
    { intros y. destruct (N.le_gt_cases 0x100000 y); [left|right]; apply ex_part43_none; try assumption; lia. }
    intros [|[|i]] [|[|j]] m1 m2 H1 H2 Hij; try (destruct i; discriminate H1); try (destruct j; discriminate H2); try congruence;
      apply Some_eq in H1 as <-; apply Some_eq in H2 as <-; [exact S|]. intros y. destruct (S y); auto.
  - intros p [<-|[<-|[]]]; (split; [apply Pg; unfold cdb_of, ex_pending; cbn [ptr len p_cmnd sc_cmnd sc_cmd_len]; lia|]); [left; reflexivity|right].
    split; [|apply Pg; vm_compute; discriminate]. intros y Hy. cbn [ex_pending p_cmnd p_kz sc_bufflen] in Hy. change (96 mod 65536) with 96 in Hy.
    cbn [ex_world43 mem]. replace (y <? 0x100000) with false by lia. apply ex_part43_none; [exact L1|lia].
  - reflexivity.
  - intros [|[|i]] p mm Hp Hm; [| |destruct i; discriminate Hp]; apply Some_eq in Hp as <-; apply Some_eq in Hm as <-; apply ex_equipped; try assumption; vm_compute; discriminate.
Qed.
(** the second command's buffer is allocated, then the first command runs, then
    the rest of the second *)
Lemma ex_both (dev : driver -> Prop) drv c2 a r : (length c2 <= 16)%nat -> dev drv -> (forall k s mm, fst (drv k s mm) = mm) ->
  ran (code_of (ex_pending 0 0 ex_verify43 0) drv (ex_w1 c2)) = Some (a, None, 1%nat, [EvAlloc 1 96 0x190000]) ->
  ran (rest43 (ex_pending 0x100000 0x190000 c2 96) 0x190000 drv (ex_w2 drv c2)) = Some (r, [EvAlloc 1 96 0x190000; EvDealloc 0x190000 96]) ->
  exists w g1 g2 r1 r2, at_once dev (ex_world43 c2) (starts (ex_ps c2) (ex_mems43 c2)) w [g1; g2] /\
    returned (g_state g1) r1 /\ returned (g_state g2) r2 /\ mr_result r1 = a /\ (mr_result r2, mr_resid r2, length (mr_subs r2)) = r.
Proof.
  intros L1 Hdev Hq Q1 Q2. set (p1 := ex_pending 0 0 ex_verify43 0) in *. set (p2 := ex_pending 0x100000 0x190000 c2 96) in *.
  pose (g1 := start_of p1 (ex_part43 0 ex_verify43)). pose (g2 := start_of p2 (ex_part43 0x100000 c2)).
  assert (A1 : at_once dev (ex_world43 c2) (starts (ex_ps c2) (ex_mems43 c2)) (ex_world43 c2) ([g1] ++ g2 :: [])) by apply ao_start.
  assert (A2 := ao_act dev (ex_world43 c2) _ (ex_world43 c2) [g1] [] (code_of p2) [] _ [] [] N _ (rest43 p2) 0x190000 (ex_w1 c2) [EvAlloc 1 96 0x190000] A1 (first_kzalloc p2 ltac:(vm_compute; reflexivity)) eq_refl).
  assert (Hon : honest (ex_world43 c2) (ex_w1 c2)).
  { split; intros size n p T Hp; change (trace (ex_w1 c2)) with ([] ++ [EvAlloc 1 96 0x190000]) in T; apply app_inv_head in T; injection T as <- <- <-; [|vm_compute; discriminate].
    intros y Hy. cbn [ex_world43 mem]. replace (y <? 0x100000) with false by lia. apply ex_part43_none; [exact L1|lia]. }
  specialize (A2 Hon eq_refl). set (g2' := {| g_state := ([], rest43 p2 0x190000); g_cpls := []; g_dma := _; g_evs := _ |}) in A2. change ([g1] ++ g2' :: []) with ([] ++ g1 :: [g2']) in A2.
  assert (E1 : exists r1, code_of p1 drv (ex_w1 c2) = Ret r1 (ex_w2 drv c2) /\ mr_result r1 = a /\ trace (ex_w2 drv c2) = [EvAlloc 1 96 0x190000]).
  { unfold ex_w2. fold p1. destruct (code_of p1 drv (ex_w1 c2)) as [r1 w|]; [|discriminate Q1]. exists r1. cbn [ran] in Q1. injection Q1 as X1 X2 X3 X4. auto. }
  destruct E1 as (r1 & E1 & R1 & T2).
  destruct (at_once_run dev (ex_world43 c2) (starts (ex_ps c2) (ex_mems43 c2)) drv Hdev Hq _ _ (code_runs p1) _ _ _ _ _ _ r1 (ex_w2 drv c2) A2 E1) as (g1' & A3 & F1).
  { intros e He size n p Hin. rewrite T2 in He. change (trace (ex_w1 c2)) with [EvAlloc 1 96 0x190000] in He. destruct e; [destruct Hin|discriminate He]. }
  assert (E2 : exists r2 w3, rest43 p2 0x190000 drv (ex_w2 drv c2) = Ret r2 w3 /\ (mr_result r2, mr_resid r2, length (mr_subs r2)) = r /\ trace w3 = trace (ex_w2 drv c2) ++ [EvDealloc 0x190000 96]).
  { destruct (rest43 p2 0x190000 drv (ex_w2 drv c2)) as [r2 w|]; [|discriminate Q2]. exists r2, w. cbn [ran] in Q2. apply Some_eq in Q2. apply pair_eq in Q2 as [X1 X2]. rewrite T2. auto. }
  destruct E2 as (r2 & w3 & E2 & R2 & T3).
  destruct (at_once_run dev (ex_world43 c2) (starts (ex_ps c2) (ex_mems43 c2)) drv Hdev Hq _ _
    (thread_rest {| q_wrs := p_wrs p2; q_kz := p_kz p2; q_wild := p_wild p2; q_cmnd := p_cmnd p2; q_io := IoRead 0 0 0 |} 0x190000) (ex_w2 drv c2) [g1'] [] _ _ _ r2 w3 A3 E2) as (g2'' & A4 & F2).
  { intros e He size n p Hin. rewrite T3 in He. apply app_inv_head in He. subst e. destruct Hin as [Hin|[]]. discriminate Hin. }
  exists w3, g1', g2'', r1, r2. split; [exact A4|]. auto 10.
Qed.
(** both are answered GOOD *)
Example C112_premises_met : let c2 := ex_sense43 in
  all_queued (ex_world43 c2) (ex_ps c2) (ex_mems43 c2) /\ (forall p, In p (ex_ps c2) -> other_command (p_cdb p)) /\
  exists w g1 g2 r1 r2, at_once (fun _ => True) (ex_world43 c2) (starts (ex_ps c2) (ex_mems43 c2)) w [g1; g2] /\
    returned (g_state g1) r1 /\ returned (g_state g2) r2 /\ mr_result r1 = GOOD /\ (mr_result r2, mr_resid r2, length (mr_subs r2)) = (GOOD, Some 0, 0%nat).
Proof.
  cbv zeta. assert (L : (length ex_sense43 <= 16)%nat) by (vm_compute; lia). split; [exact (ex_all_queued _ L)|]. split.
  { intros p [<-|[<-|[]]] [H|[H|[]]]; vm_compute in H; discriminate H. }
  apply (ex_both (fun _ => True) idle_dev ex_sense43); [exact L|exact I|reflexivity|vm_compute; reflexivity|vm_compute; reflexivity].
Qed.
