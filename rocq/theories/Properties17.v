(** C82: which pages are asked for, and what the module's callbacks supply. *)
From Coq Require Import Arith NArith String List Lia Bool Init.Byte Permutation.
From Coq Require Import ZifyBool ZifyNat ZifyN.
From Verif Require Import Bytes Layout World ScsiDefs NvmeDefs Common ModeSenseCmd StatusCmd TranslationCls EngineE2e MockModule
  Spec RwSpec EngineSpec MockSpec Facts Logic BeginFacts CompleteFacts StatusFacts RelFacts RwFacts EngineFacts MockFacts Witness
  Properties1 Properties2 Properties9 Properties11.
Import ListNotations.
Local Open Scope string_scope.
Local Open Scope list_scope.
Local Open Scope N_scope.

Lemma releases_no_alloc l ps n a : ~ In (EvAlloc ps n a) (releases l).
Proof. unfold releases. intros H. apply in_map_iff in H as (? & H & _). discriminate H. Qed.

(** ** C82 *)
Theorem C82_page_requests : forall env b t w cdb buffer lun t' r w',
  reach env b t w -> Begin t cdb buffer lun w = Ret (t', r) w' ->
  exists evs, trace w' = trace w ++ evs /\ forall page_size n a, In (EvAlloc page_size n a) evs -> page_size = 4096 /\ n <= 1.
Proof.
  intros env b t w cdb buffer lun t' r w' R E. pose proof (reach_inv _ _ _ _ R) as I. destruct b.
  - rewrite Begin_busy in E.
    + injection E as <- <- <-. exists []. rewrite app_nil_r. split; [reflexivity|intros ? ? ? []].
    + intros Hu. pose proof (i_busy _ _ I) as Hb. rewrite Hu in Hb. discriminate.
  - pose proof (Begin_idle_spec false t cdb buffer lun w (inv_idle _ I) (no_ok_span _ _) (no_ok_span _ _)) as H.
    unfold cst in H. rewrite E in H. destruct H as (_ & _ & _ & _ & _ & w1 & evs & rel & G & Rl & _).
    exists (evs ++ if dealloc_cb w1 then releases rel else []). split.
    + rewrite (r_trace _ _ _ Rl), (g_trace _ _ _ G), app_assoc. reflexivity.
    + intros ps n a Hin. apply in_app_or in Hin as [Hin|Hin].
      * destruct (drawn_in _ _ _ _ (g_from _ _ _ G) Hin) as (j & n' & _ & Hn & Ek). injection Ek as -> -> _. auto.
      * exfalso. destruct (dealloc_cb w1); [exact (releases_no_alloc _ _ _ _ Hin)|destruct Hin].
Qed.
Print Assumptions C82_page_requests.

Theorem C82_complete_requests_nothing : forall env b t w cpls buffer sense t' r w',
  reach env b t w -> Complete t cpls buffer sense w = Ret (t', r) w' ->
  exists evs, trace w' = trace w ++ evs /\ forall page_size n a, ~ In (EvAlloc page_size n a) evs.
Proof.
  intros env b t w cpls buffer sense t' r w' R E. pose proof (reach_inv _ _ _ _ R) as I.
  destruct (is_uninitialized (pipeline_status t)) eqn:Eu.
  - assert (Hu : pipeline_status t = kUninitialized) by (destruct (pipeline_status t); try discriminate; reflexivity).
    rewrite Complete_idle in E by exact Hu. injection E as _ _ <-. exists []. rewrite app_nil_r. split; [reflexivity|intros ? ? ? []].
  - assert (Hu : pipeline_status t <> kUninitialized) by (intros Hu; rewrite Hu in Eu; discriminate).
    pose proof (Complete_spec t cpls buffer sense w (i_wf _ _ I) Hu) as H.
    apply (pst_use _ _ _ _ _ H) in E. destruct E as (_ & w1 & F & Rl & _).
    exists (if dealloc_cb w1 then releases (held t) else []). split; [rewrite (r_trace _ _ _ Rl), (f_trace _ _ _ F); reflexivity|].
    intros ps n a. destruct (dealloc_cb w1); [apply releases_no_alloc|intros []].
Qed.
Print Assumptions C82_complete_requests_nothing.

(** the page callbacks of the kernel module (util.c) on any good heap: they are
    the kind of allocator the other theorems ask for ... *)
Theorem C82_module_callbacks : forall heap w, good_heap heap w ->
  sane_allocator (module_world heap w) /\ good_pages (module_world heap w).
Proof.
  intros heap w [H1 H2]. split; [repeat split|]. split; [reflexivity|]. split.
  - intros k. cbv zeta. change (ans (module_world heap w) k 4096 1) with (heap k 4096).
    destruct (H1 k) as [L U]. unfold u64. rewrite N.mod_small by apply L. split; [lia|exact U].
  - intros j k Hj Hk. cbv zeta. change (ans (module_world heap w) ?x 4096 1) with (heap x 4096).
    unfold u64. rewrite !N.mod_small by apply H1. apply H2; assumption.
Qed.
Print Assumptions C82_module_callbacks.

(** ... and the pages they hand out are zeroed; no pages means no address *)
Theorem C82_module_pages_zeroed : forall heap w n, n <= 1 ->
  exists a w', AllocPages 4096 n (module_world heap w) = Ret a w' /\ trace w' = trace w ++ [EvAlloc 4096 n a] /\
    (n = 0 -> a = 0) /\ (n = 1 -> heap (tick w) 4096 < 2 ^ 64 -> a = heap (tick w) 4096) /\
    (forall x, a <> 0 -> a <= x < a + 4096 * n -> mem w' x = Some x00) /\
    (forall x, a = 0 \/ ~ (a <= x < a + 4096 * n) -> mem w' x = mem w x).
Proof.
  intros heap w n Hn. unfold AllocPages. change (alloc_cb (module_world heap w)) with true. cbn [negb].
  change (ans (module_world heap w) (tick (module_world heap w)) 4096 n) with (if n =? 0 then 0 else heap (tick w) (u32 (4096 * n))).
  assert (D : n = 0 \/ n = 1) by lia. destruct D as [-> | ->].
  - do 2 eexists. split; [reflexivity|]. split; [reflexivity|]. split; [reflexivity|]. split; [discriminate|]. split; [intros x Hx; exfalso; apply Hx; reflexivity|reflexivity].
  - change (1 =? 0) with false. change (u32 (4096 * 1)) with 4096. change (4096 * 1) with 4096. cbv iota. set (a := u64 (heap (tick w) 4096)).
    destruct (N.eqb_spec a 0) as [E|E].
    + do 2 eexists. split; [reflexivity|]. split; [reflexivity|]. split; [discriminate|]. split; [intros _ L; unfold a, u64; apply N.mod_small; exact L|].
      split; [intros x Hx; contradiction|reflexivity].
    + do 2 eexists. split; [reflexivity|]. split; [reflexivity|]. split; [discriminate|]. split; [intros _ L; unfold a, u64; apply N.mod_small; exact L|].
      cbn [mem set_mem log module_world fill]. unfold map_pages. split.
      * intros x _ Hx. replace ((a <=? x) && (x <? a + 4096)) with true by lia. reflexivity.
      * intros x [Hx|Hx]; [contradiction|]. replace ((a <=? x) && (x <? a + 4096)) with false by lia. reflexivity.
Qed.
Print Assumptions C82_module_pages_zeroed.

Example C82_met : good_heap (fun k n => if n =? 4096 then 0x100000 + 0x1000 * N.of_nat (Nat.modulo k 4) else 0) (ex_world []).
Proof.
  split.
  - intros k. change (4096 =? 4096) with true. cbv iota. pose proof (Nat.mod_upper_bound k 4). split; [lia|].
    intros x Hx. cbn [mem ex_world ex_world_with]. unfold ex_mem, Witness.region, zeros. cbn [length].
    replace (x <? 0x1000 + N.of_nat 0) with false by lia. replace (x <? 0x10000 + N.of_nat 0) with false by lia.
    replace (x <? 0x20000 + 0x10000) with false by lia. replace (x <? 0x40000 + 32) with false by lia. rewrite !andb_false_r. reflexivity.
  - intros j k Hj Hk. change (4096 =? 4096) with true. cbv iota. cbn [tick ex_world ex_world_with] in *. rewrite !Nat.mod_small by lia. lia.
Qed.
