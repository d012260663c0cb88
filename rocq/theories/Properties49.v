(** C117: each command queued among others gets the outcome of its own request. *)
From Coq Require Import Arith NArith ZArith String List Lia Bool Init.Byte Permutation.
From Coq Require Import ZifyBool ZifyNat ZifyN.
From Verif Require Import Bytes Layout World ScsiDefs NvmeDefs Common ModeSenseCmd TranslationCls EngineE2e MockModule
  Spec RwSpec InquirySpec SmallSpec UnmapSpec EngineSpec MockSpec AcceptSpec ConcSpec DiskSpec ConcDiskSpec ConcAllSpec
  Facts Logic BeginFacts CompleteFacts StatusFacts RwFacts RelFacts ProgFacts EngineFacts MockFacts ConcFacts ConcDiskFacts
  Properties9 Properties11 Properties21 Properties26 Properties41 Properties42 Witness Properties43 Properties44 Properties45.
Import ListNotations.
Local Open Scope string_scope.
Local Open Scope list_scope.
Local Open Scope N_scope.

(** ** What was handed over is what the result lists *)
Definition quiet_dev : driver := fun _ _ m => (m, 0).
Definition mark_dev (n : nat) : driver := fun k _ m => (if Nat.eqb (S k) n then (fun x => if x =? 2 ^ 64 then Some x00 else m x) else m, 0).

Lemma mark_last l m : runs_on l m -> forall v r v', m quiet_dev v = Ret r v' -> (length l < length (mr_subs r))%nat ->
  (forall x, 2 ^ 64 <= x -> mem v x = None) -> trace v' = trace v ->
  exists v'', m (mark_dev (length (mr_subs r))) v = Ret r v'' /\ mem v'' (2 ^ 64) <> None.
Proof.
  induction 1 as [l m r F Hr|l m U|l m B a k Ha Hk R IH|l m s k Hk R IH]; intros v r0 v' E Hl Hh Ht.
  - rewrite F in E. apply ret_eq in E as [<- _]. rewrite Hr in Hl. lia.
  - destruct (U quiet_dev) as [s F]. rewrite F in E. discriminate E.
  - rewrite Hk in E. unfold bind in E. destruct (a v) as [b v1|] eqn:Ea; [|discriminate E].
    destruct (runs_prefix _ _ (R b) _ _ _ _ E) as [_ [e' He']].
    destruct (action_eff B a v b v1 Ha Ea) as (eff & d & new & Hu & Hp & _ & Hf). pose proof Ea as Ea'.
    rewrite (Hu v) in Ea; [|auto|reflexivity|reflexivity|split; [reflexivity|split; reflexivity]].
    apply ret_eq in Ea as [_ <-]. cbn [after trace] in He'. rewrite Ht, <- app_assoc in He'.
    rewrite <- (app_nil_r (trace v)) in He' at 1. apply app_inv_head in He'. symmetry in He'. apply app_eq_nil in He' as [-> ->].
    destruct (IH b _ r0 v' E Hl) as (v'' & E2 & M).
    + intros x Hx. cbn [after mem]. destruct (Hf x (Hh x Hx)) as [(sz & n & p & Q & _)|Q]; [discriminate Q|]. rewrite Q. apply Hh. exact Hx.
    + cbn [after trace]. rewrite app_nil_r. exact Ht.
    + exists v''. split; [|exact M]. rewrite Hk. unfold bind. rewrite Ea'. exact E2.
  - rewrite Hk in E. unfold bind, hand_over in E. unfold quiet_dev at 1 in E.
    destruct (runs_prefix _ _ (R _) _ _ _ _ E) as [[l' Hs] _].
    destruct l' as [|s' l'].
    + rewrite app_nil_r in Hs.
      destruct (frame_run _ _ (R _) _ _ _ _ [] E Hs) with (drv' := mark_dev (length (mr_subs r0))) (mu := fun x => if x =? 2 ^ 64 then Some x00 else mem v x) as (mu' & E2 & _ & H2).
      * intros x Hx. cbn [mem set_mem]. apply Hh. exact Hx.
      * cbn [trace set_mem]. rewrite app_nil_r. exact Ht.
      * intros ? ? ? [].
      * intros x Hx. cbn [mem set_mem]. replace (x =? 2 ^ 64) with false by lia. reflexivity.
      * exists (set_mem v' mu'). split; [|cbn [mem set_mem]; rewrite H2, N.eqb_refl by lia; discriminate].
        rewrite Hk. unfold bind, hand_over, mark_dev at 1. replace (Nat.eqb (S (length l)) (length (mr_subs r0))) with true; [exact E2|].
        symmetry. apply Nat.eqb_eq. rewrite Hs, app_length. cbn [length]. lia.
    + destruct (IH _ _ r0 v' E) as (v'' & E2 & M).
      * rewrite Hs, !app_length. cbn [length]. lia.
      * intros x Hx. cbn [mem set_mem]. apply Hh. exact Hx.
      * exact Ht.
      * exists v''. split; [|exact M]. rewrite Hk. unfold bind, hand_over, mark_dev at 1.
        replace (Nat.eqb (S (length l)) (length (mr_subs r0))) with false; [exact E2|].
        symmetry. apply Nat.eqb_neq. rewrite Hs, !app_length. cbn [length]. lia.
Qed.

Lemma returned_subs l m r (w : world) : runs_on l m -> (forall drv, finished (m drv) r) -> mr_subs r = l.
Proof.
  intros R F. set (v := set_mem w (fun _ => None)). pose proof (F quiet_dev v) as E. destruct (runs_prefix _ _ R _ _ _ _ E) as [[l' Hl] _].
  destruct l' as [|s l']; [rewrite app_nil_r in Hl; exact Hl|exfalso].
  destruct (mark_last _ _ R v r v E) as (v'' & E2 & M).
  - rewrite Hl, app_length. cbn [length]. lia.
  - reflexivity.
  - reflexivity.
  - rewrite (F (mark_dev _) v) in E2. apply ret_eq in E2 as [_ <-]. apply M. reflexivity.
Qed.

Lemma thread_known dev w ps mems w' st i p mm g r : all_queued w ps mems -> admissible dev ps ->
  at_once dev w (starts ps mems) w' st -> nth_error ps i = Some p -> nth_error mems i = Some mm -> nth_error st i = Some g -> returned (g_state g) r ->
  mr_subs r = fst (g_state g) /\ length (g_cpls g) = length (mr_subs r).
Proof.
  intros (H1 & H2 & H3 & H4) Ha H Ep Em Eg Hr.
  assert (T : runs_on (fst (g_state g)) (snd (g_state g)) /\ length (g_cpls g) = length (fst (g_state g))).
  { destruct Ha as [[-> Ho]|[-> Ho]].
    - destruct (all_steps w ps mems H2 H1 H4 H3 other_command Ho (fun _ => True) harmless gave plain_solo plain_replay plain_good plain_broken plain_given gave_none
        (fun c m2 cpl s m x => seen_shape c m2 cpl m x) plain_faith w' st H) as [cur I].
      pose proof (al_thread _ _ _ _ _ _ _ _ I i p mm g Ep Em Eg) as T. split; [apply T|apply T].
    - destruct (all_steps w ps mems H2 H1 H4 H3 answerable Ho sane_device sane_good (fun _ _ => True) sane_solo sane_replay sane_good_extend sane_broken
        (fun _ _ _ _ _ _ _ => I) (fun _ => I) sane_shape sane_faith w' st H) as [cur J].
      pose proof (al_thread _ _ _ _ _ _ _ _ J i p mm g Ep Em Eg) as T. split; [apply T|apply T]. }
  destruct T as [T1 T2]. pose proof (returned_subs _ _ r w' T1 Hr) as E. split; [exact E|]. rewrite E. exact T2.
Qed.
Lemma admissible_outcome dev w ps mems w' st i p mm g r : all_queued w ps mems -> admissible dev ps ->
  at_once dev w (starts ps mems) w' st -> nth_error ps i = Some p -> nth_error mems i = Some mm -> nth_error st i = Some g -> returned (g_state g) r ->
  exists D mm', gave D (g_cpls g) /\ answered_alone w p mm D r (g_evs g) mm' /\ present mm' w'.
Proof.
  intros (H1 & H2 & H3 & H4) Ha H Ep Em Eg Hr. destruct Ha as [[-> Ho]|[-> Ho]].
  - destruct (gen_outcome w ps mems H2 H1 H4 H3 other_command Ho (fun _ => True) harmless gave plain_solo plain_replay plain_good plain_broken plain_given gave_none
      (fun c m2 cpl s m x => seen_shape c m2 cpl m x) plain_faith w' st i p mm g r H Ep Em Eg Hr) as (D & mm' & G2 & G3 & G4 & _). exists D, mm'. auto.
  - destruct (gen_outcome w ps mems H2 H1 H4 H3 answerable Ho sane_device sane_good (fun _ _ => True) sane_solo sane_replay sane_good_extend sane_broken
      (fun _ _ _ _ _ _ _ => I) (fun _ => I) sane_shape sane_faith w' st i p mm g r H Ep Em Eg Hr) as (D & mm' & G2 & G3 & G4 & _). exists D, mm'. auto.
Qed.

Lemma gave_run drv : forall ss k cs m, length cs = length ss -> (forall j s m0 c, nth_error cs j = Some c -> snd (drv (k + j)%nat s m0) mod 2 ^ 128 = c) ->
  snd (device_run drv k ss m) = cs.
Proof.
  induction ss as [|s ss IH]; intros k [|c cs] m L G; try discriminate L; [reflexivity|]. cbn [device_run].
  pose proof (G 0%nat s m c eq_refl) as G0. rewrite Nat.add_0_r in G0. destruct (drv k s m) as [m1 c1]. cbn [snd] in G0.
  pose proof (IH (S k) cs m1 ltac:(cbn [length] in L; lia)) as X. destruct (device_run drv (S k) ss m1) as [m2 cs2]. cbn [snd] in *. rewrite G0. f_equal. apply X.
  intros j s0 m0 c0 Hj. rewrite Nat.add_succ_comm. apply (G (S j)). exact Hj.
Qed.

(** ** Specification *)
(** the scatterlist's buffers hold [d] in the thread's part [mm] of memory *)
Definition sends (mm : memory) (c : scsi_cmnd) (d : list byte) : Prop :=
  (length d <= length (sg_addrs (sc_sgl c)))%nat /\ forall i a b, nth_error (sg_addrs (sc_sgl c)) i = Some a -> nth_error d i = Some b -> mm a = Some b.

(** Whatever other commands are under way, a command that has come to its end has the
    status, residual and sense data that [verdict] (AcceptSpec) gives for its own CDB,
    its own data, the answers the page allocator gave it, and the completions of its
    own NVMe commands; and the shared memory holds that sense data.
    [admissible] (Properties45): any device, and any commands but MODE SENSE; or a
    device whose block sizes are below 2^32, and MODE SENSE too.
    Missing: the MODE SENSE CDBs whose behaviour is undefined (C111_mode_sense_refuted),
    and commands for which kzalloc fails (C111_out_of_memory_refuted). *)
Theorem C117_own_outcome_partial : forall dev w ps mems w' st i p mm g r d,
  all_queued w ps mems -> admissible dev ps ->
  at_once dev w (starts ps mems) w' st ->
  nth_error ps i = Some p -> nth_error mems i = Some mm -> nth_error st i = Some g -> returned (g_state g) r ->
  let c := p_cmnd p in let bs := p_cdb p in let n := sc_bufflen c mod 65536 in
  n = 0 \/ p_kz p <> 0 ->
  (byte_at bs 0 = 0x42 -> sends mm c d /\ N.of_nat (length d) = N.min n (sg_total (sc_sgl c))) ->
  (forall x, In x (sg_addrs (sc_sgl c)) -> x < sc_sense c \/ sc_sense c + 96 <= x) ->
  let residual k := if sc_from_device c && (0 <? n) then Some (n - N.min k (sg_total (sc_sgl c))) else None in
  mr_subs r = fst (g_state g) /\
  match verdict bs (handed c n d) n (page_answers (g_evs g)) (g_cpls g) with
  | None => r = {| mr_result := TASK_ABORTED; mr_resid := residual 0; mr_subs := [] |}
  | Some (status, key, asc, ascq) =>
      mr_result r = status /\ mr_resid r = residual (announced bs) /\
      (status <> GOOD -> exists sb, sense_says key asc ascq sb /\ bytes_at w' (sc_sense c) sb) /\
      (acceptable bs (handed c n d) n (page_answers (g_evs g)) = false -> mr_subs r = [])
  end.
Proof.
  intros dev w ps mems w' st i p mm g r d Hq Ho H Ep Em Eg Hr c bs n Hk Hu Hsg residual.
  destruct (thread_known dev w ps mems w' st i p mm g r Hq Ho H Ep Em Eg Hr) as [Es El]. split; [exact Es|].
  pose proof Hq as (H1 & H2 & [S1 S2] & H4).
  destruct (admissible_outcome dev w ps mems w' st i p mm g r Hq Ho H Ep Em Eg Hr) as (D & mm' & G2 & (v & v' & (A1 & A2 & A3) & Dr & Tv & E & T & Mv) & G4).
  destruct (H4 i p mm Ep Em) as (Q1 & Q2 & Q3 & Q4 & Q5 & Q6). fold c in Q2, Q3, Q4, Q5, Q6. fold bs in Q2, Q3.
  destruct (S1 p (nth_error_In _ _ Ep)) as [S4 S3].
  destruct (C91_adapter_outcome D (p_wrs p) (p_kz p) (p_wild p) c v bs d r v') as (pg & m & (evs & Te & <-) & V).
  - intros j b Hj. rewrite A1. apply Q2. exact Hj.
  - exact Q3.
  - exact Q4.
  - intros X k size m0. cbv zeta. destruct (Dr k) as (k' & ->). apply S4.
  - intros x Hx. rewrite A1. destruct (mm x) as [b|] eqn:Z; [|reflexivity]. destruct Hk as [Hk|Hk]; [unfold n in Hk; lia|].
    destruct S3 as [S3|[S3 _]]; [contradiction|]. fold c in S3. specialize (S3 x Hx). rewrite (proj1 H2 i mm Em x b Z) in S3. discriminate S3.
  - exact Hk.
  - intros X. destruct (Hu X) as ((U1 & U2) & U3). split; [split; [exact U1|]|split; [exact U3|]].
    + intros j a b Ha Hb. rewrite A1. exact (U2 j a b Ha Hb).
    + intros k size m0. cbv zeta. destruct (Dr k) as (k' & ->). apply S4.
  - exact Hsg.
  - exact E.
  - rewrite Tv in Te. cbn [app] in Te. rewrite T in Te. subst evs. cbv zeta in V.
    rewrite (gave_run D (mr_subs r) 0 (g_cpls g) m (eq_trans El eq_refl)) in V; [|intros j s m0 c0 Hj; exact (G2 j s m0 c0 Hj)].
    unfold residual, n. destruct (verdict bs (handed c (sc_bufflen c mod 65536) d) (sc_bufflen c mod 65536) (page_answers (g_evs g)) (g_cpls g)) as [[[[st0 k0] a0] x0]|]; [|exact V].
    destruct V as (V1 & V2 & V3 & V4). split; [exact V1|]. split; [exact V2|]. split; [|exact V4].
    intros Ng. destruct (V3 Ng) as (sb & B1 & B2). exists sb. split; [exact B1|]. intros j b Hj. apply G4. rewrite <- Mv. apply B2. exact Hj.
Qed.
Print Assumptions C117_own_outcome_partial.

(** In particular: GOOD exactly if the CDB is acceptable, its answer fits, and every
    NVMe command issued for it succeeded -- however the others fare. *)
Theorem C117_good_iff_partial : forall dev w ps mems w' st i p mm g r d,
  all_queued w ps mems -> admissible dev ps ->
  at_once dev w (starts ps mems) w' st ->
  nth_error ps i = Some p -> nth_error mems i = Some mm -> nth_error st i = Some g -> returned (g_state g) r ->
  let c := p_cmnd p in let bs := p_cdb p in let n := sc_bufflen c mod 65536 in
  n = 0 \/ p_kz p <> 0 ->
  (byte_at bs 0 = 0x42 -> sends mm c d /\ N.of_nat (length d) = N.min n (sg_total (sc_sgl c))) ->
  (forall x, In x (sg_addrs (sc_sgl c)) -> x < sc_sense c \/ sc_sense c + 96 <= x) ->
  (mr_result r = GOOD <->
   announced bs <= n /\ acceptable bs (handed c n d) n (page_answers (g_evs g)) = true /\ Forall cpl_ok (g_cpls g)).
Proof.
  intros dev w ps mems w' st i p mm g r d Hq Ho H Ep Em Eg Hr c bs n Hk Hu Hsg.
  destruct (C117_own_outcome_partial dev w ps mems w' st i p mm g r d Hq Ho H Ep Em Eg Hr Hk Hu Hsg) as [_ V]. fold c bs n in V. unfold verdict in V.
  rewrite <- completed_good. destruct (N.ltb_spec n (announced bs)) as [L|L].
  { subst r. cbn [mr_result]. split; [discriminate|lia]. }
  destruct (acceptable bs (handed c n d) n (page_answers (g_evs g))).
  - destruct (completed_with (g_cpls g)) as [[[st0 k] a] x]. destruct V as (-> & _). cbn [fst]. split; [auto|intros (_ & _ & X); exact X].
  - destruct V as (-> & _). split; [discriminate|intros (_ & X & _); discriminate X].
Qed.
Print Assumptions C117_good_iff_partial.

(** VERIFY(10) and REQUEST SENSE, interleaved, meet all of the premises, and both end. *)
Example C117_premises_met : let c2 := ex_sense43 in
  all_queued (ex_world43 c2) (ex_ps c2) (ex_mems43 c2) /\ admissible (fun _ => True) (ex_ps c2) /\
  (forall p, In p (ex_ps c2) -> (sc_bufflen (p_cmnd p) mod 65536 = 0 \/ p_kz p <> 0) /\ byte_at (p_cdb p) 0 <> 0x42 /\
    (forall x, In x (sg_addrs (sc_sgl (p_cmnd p))) -> x < sc_sense (p_cmnd p) \/ sc_sense (p_cmnd p) + 96 <= x)) /\
  exists w g1 g2 r1 r2, at_once (fun _ => True) (ex_world43 c2) (starts (ex_ps c2) (ex_mems43 c2)) w [g1; g2] /\
    returned (g_state g1) r1 /\ returned (g_state g2) r2 /\ mr_result r1 = GOOD /\ mr_result r2 = GOOD.
Proof.
  destruct C112_premises_met as (H1 & H2 & w & g1 & g2 & r1 & r2 & H3 & H4 & H5 & H6 & H7). cbv zeta.
  split; [exact H1|]. split; [left; split; [reflexivity|exact H2]|]. split.
  - assert (K : forall z n x, n <= 96 -> In x (sg_addrs [(z + 0x20000, n)]) -> x < z + 0x40000).
    { intros z n x Hn Hx. unfold sg_addrs in Hx. cbn [flat_map fst snd] in Hx. rewrite app_nil_r in Hx. apply in_map_iff in Hx as (k & <- & Hk). apply in_seq in Hk. lia. }
    intros p [<-|[<-|[]]]; cbn [ex_pending p_cmnd p_kz p_cdb sc_bufflen sc_sgl sc_sense].
    + split; [left; reflexivity|]. split; [vm_compute; discriminate|]. intros x Hx. left. apply (K 0 0); [lia|exact Hx].
    + split; [right; discriminate|]. split; [vm_compute; discriminate|]. intros x Hx. left. apply (K 0x100000 96); [lia|exact Hx].
  - exists w, g1, g2, r1, r2. apply pair_eq in H7 as [H7 _]. apply pair_eq in H7 as [H7 _].
    split; [exact H3|]. split; [exact H4|]. split; [exact H5|]. split; [exact H6|exact H7].
Qed.
(** and so do VERIFY(10), refused by the device, and MODE SENSE(6), answered by it *)
Example C117_mode_premises_met : let c2 := ex_mode44 in
  all_queued (ex_world43 c2) (ex_ps c2) (ex_mems43 c2) /\ admissible sane_device (ex_ps c2) /\
  exists w g1 g2 r1 r2, at_once sane_device (ex_world43 c2) (starts (ex_ps c2) (ex_mems43 c2)) w [g1; g2] /\
    returned (g_state g1) r1 /\ returned (g_state g2) r2 /\ mr_result r1 = CHECK_CONDITION /\ mr_result r2 = GOOD.
Proof.
  destruct C112_mode_premises_met as (H1 & H2 & w & g1 & g2 & r1 & r2 & H3 & H4 & H5 & H6 & H7). cbv zeta.
  split; [exact H1|]. split; [right; split; [reflexivity|exact H2]|]. exists w, g1, g2, r1, r2. apply pair_eq in H7 as [H7 _]. apply pair_eq in H7 as [H7 _].
  split; [exact H3|]. split; [exact H4|]. split; [exact H5|]. split; [exact H6|exact H7].
Qed.
