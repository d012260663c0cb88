(** C115: no uninitialised memory reaches the initiator. *)
From Coq Require Import Arith NArith ZArith String List Lia Bool Init.Byte Permutation.
From Coq Require Import ZifyBool ZifyNat ZifyN.
From Verif Require Import Bytes Layout World ScsiDefs NvmeDefs Common TranslationCls EngineE2e MockModule KernelDriver
  Spec RwSpec InquirySpec HistorySpec UnmapSpec EngineSpec MockSpec SenseSpec
  Facts Logic BeginFacts CompleteFacts StatusFacts RwFacts JunkFacts RelFacts BlindFacts EngineFacts MockFacts Witness
  Properties1 Properties3 Properties6 Properties9 Properties11 Properties12 Properties14 Properties15 Properties41 Properties46.
Import ListNotations.
Local Open Scope string_scope.
Local Open Scope list_scope.
Local Open Scope N_scope.

(** Specification: the two runs [w1] and [w2] end alike: the same memory, or both
    with the same sense data, whose reserved bits may differ, and the same
    memory everywhere else *)
Definition alike (w w1 w2 : world) (c : scsi_cmnd) : Prop :=
  (forall x, mem w2 x = mem w1 x) \/
  (exists key asc ascq, told w w1 c key asc ascq /\ told w w2 c key asc ascq) /\
  forall x, ~ (sc_sense c <= x < sc_sense c + 8) -> mem w2 x = mem w1 x.

Lemma sensed_alike w w1 w2 c key asc ascq w0 : (forall x, in_span (sense_of c) x -> mem w x = mem w0 x) -> (forall x, mem w x = mem w2 x) ->
  forall w3, sensed w w1 (sense_of c) key asc ascq -> sensed w2 w3 (sense_of c) key asc ascq -> alike w0 w1 w3 c.
Proof.
  intros M M2 w3 S1 S2. right. split.
  - exists key, asc, ascq. split; [eapply sensed_told; eassumption|]. eapply sensed_told; [exact S2|]. intros x Hx. rewrite <- M2. apply M, Hx.
  - intros x Hx. destruct S1 as [_ S1], S2 as [_ S2]. destruct (S1 ltac:(cbn; lia)) as (b1 & B1 & _ & F1). destruct (S2 ltac:(cbn; lia)) as (b2 & B2 & _ & F2).
    destruct B1 as [L1 _], B2 as [L2 _]. cbn [ptr sense_of] in F1, F2. rewrite F1, F2; [symmetry; apply M2|rewrite L2; lia|rewrite L1; lia].
Qed.

(** the engine: the same response and submissions, alike memory *)
Lemma engine_alike drv wrs q w w0 bs resp t subs w' c j : rq_sense q = sense_of c -> ptr (rq_cdb q) = sc_cmnd c -> len (rq_cdb q) = sc_cmd_len c ->
  harmless drv c -> spares drv c ->
  pages_apart w (sense_of c) -> span_mapped w (sense_of c) -> (forall x, in_span (sense_of c) x -> mem w x = mem w0 x) ->
  span_holds w (rq_cdb q) bs -> pages_apart w (rq_cdb q) -> zero_ok w -> ~ (byte_at bs 0 = 0x12 /\ inq_evpd bs = 1 /\ inq_page bs = 0x80) ->
  engine drv wrs q w = Ret (resp, t, subs) w' ->
  exists t2 w2, engine drv wrs q (with_junk w j) = Ret (resp, t2, subs) w2 /\ alike w0 w' w2 c.
Proof.
  intros Hq Hp Hl Hd Hs Hap Hmap Hm0 Hc Hpc Hz Hn E. destruct (engine_cases _ _ _ _ _ _ _ _ E) as (t1 & br & w1 & E1 & Hst & C).
  pose proof (begins_inv _ _ _ _ _ _ E1 Hst) as I. pose proof (begins_apart _ _ _ _ _ _ _ E1 Hap) as M1.
  destruct (begins_maps _ _ _ _ _ _ _ E1 Hz Hpc Hc) as (_ & C1 & _).
  assert (B : EngineSpec.begins wrs q (with_junk w j) = Ret (t1, br) (with_junk w1 j)).
  { unfold EngineSpec.begins in *. rewrite blind_Begin, E1. reflexivity. }
  unfold engine, ScsiToNvme.
  replace {| ptr := ptr (rq_cdb q); len := len (rq_cdb q) |} with (rq_cdb q) by (destruct (rq_cdb q); reflexivity).
  replace {| ptr := ptr (rq_data q); len := len (rq_data q) |} with (rq_data q) by (destruct (rq_data q); reflexivity).
  replace {| ptr := ptr (rq_sense q); len := len (rq_sense q) |} with (sense_of c) by (rewrite Hq; reflexivity).
  unfold EngineSpec.begins in B. unfold bind at 1. rewrite B, Hst.
  destruct C as [(L & -> & -> & -> & ->)|(L & -> & cr & E2 & ->)].
  { destruct (N.ltb_spec (len (rq_data q)) (br_alloc_len br)); [|lia]. do 2 eexists. split; [reflexivity|]. left. reflexivity. }
  destruct (N.ltb_spec (len (rq_data q)) (br_alloc_len br)); [lia|].
  unfold bind at 1. rewrite submit_loop_eq. change (mem (with_junk w1 j)) with (mem w1).
  rewrite Hq in E2. set (subs := map sub_of (GetNvmeWrappers t1)) in *. set (d := device_run drv 0 subs (mem w1)) in *.
  set (w2 := set_mem w1 (fst d)) in *. change (set_mem (with_junk w1 j) (fst d)) with (with_junk w2 j).
  change (if rq_data_in q then {| ptr := ptr (rq_data q); len := br_alloc_len br |} else null_span) with (response_span q (br_alloc_len br)).
  assert (M2 : forall x, in_span (sense_of c) x -> mem w2 x = mem w0 x).
  { intros x Hx. unfold w2, d. cbn [mem set_mem]. rewrite (run_spares drv c Hs subs 0%nat (mem w1) x Hx). rewrite M1 by exact Hx. apply Hm0, Hx. }
  assert (Hm2 : span_mapped w2 (sense_of c)). { intros x Hx. rewrite M2, <- Hm0 by exact Hx. apply Hmap, Hx. }
  assert (C2 : span_holds w2 (rq_cdb q) bs).
  { destruct C1 as [X1 X2]. split; [exact X1|]. intros i v Hi. unfold w2, d. cbn [mem set_mem]. assert (i < length bs)%nat by (apply nth_error_Some; rewrite Hi; discriminate).
    rewrite (proj2 (run_harmless drv c Hd subs 0%nat (mem w1))) by lia. apply X2, Hi. }
  assert (Hn2 : N.of_nat (length (snd d)) = nvme_cmd_count t1).
  { unfold d. rewrite device_run_length. unfold subs. rewrite map_length. pose proof (i_wf _ _ I) as (W & _). unfold GetNvmeWrappers. rewrite firstn_length. cbn [length]. lia. }
  assert (Hcase : accepted t1 \/ rejected t1).
  { pose proof (inv_busy _ I) as Q. unfold accepted, rejected. destruct (pipeline_status t1); [left; reflexivity|congruence|right; split; discriminate..]. }
  destruct Hcase as [Ep|Hr].
  - destruct (first_bad (snd d)) as [Ok|(pre & x & post & Ec & Hpre & Hx)].
    + destruct (Complete_all_ok _ _ _ _ _ _ _ _ Ep Hn2 Ok E2) as [G1 G2].
      pose proof (C78_data_initialised_partial _ _ _ _ _ t1 br w1 bs w2 _ _ _ _ _ _ j (idle_init wrs) E1 C2 Hn E2 G1 G2) as E3.
      unfold bind at 1. rewrite E3, G1. do 2 eexists. split; [reflexivity|]. left. reflexivity.
    + pose proof (Complete_error t1 _ pre x post (response_span q (br_alloc_len br)) (sense_of c) w2 (i_wf _ _ I) Ep Hn2 Ec Hpre Hx Hm2) as H1.
      pose proof (Complete_error t1 _ pre x post (response_span q (br_alloc_len br)) (sense_of c) (with_junk w2 j) (i_wf _ _ I) Ep Hn2 Ec Hpre Hx Hm2) as H2.
      destruct (scsi_status_of (cpl_sct x) (cpl_sc x)) as [[[st key] asc] ascq].
      destruct H1 as (t' & v1 & v2 & E3 & _ & _ & S1 & _), H2 as (t'' & v3 & v4 & E4 & _ & _ & S2 & _).
      rewrite E3 in E2. apply ret_eq in E2 as [E2 <-]. apply pair_eq in E2 as [_ <-].
      unfold bind at 1. rewrite E4. cbn [cr_status api_ok cr_scsi_status is_api_success]. do 2 eexists. split; [reflexivity|].
      eapply sensed_alike; [exact M2| |exact S1|exact S2]. intros y. reflexivity.
  - destruct (inv_rejected _ _ I Hr) as [X H0].
    assert (X0 : GetNvmeWrappers t1 = []) by (unfold exposes in X; apply map_eq_nil in X; exact X).
    assert (Hcp : snd d = []) by (unfold d, subs; rewrite X0; reflexivity).
    assert (Hc0 : nvme_cmd_count t1 = 0) by (rewrite <- Hn2, Hcp; reflexivity).
    destruct (Complete_rejected t1 (snd d) (response_span q (br_alloc_len br)) (sense_of c) w2 (i_wf _ _ I) Hr Hc0 H0 Hm2 Hcp) as (t' & v2 & E3 & _ & S1 & _).
    destruct (Complete_rejected t1 (snd d) (response_span q (br_alloc_len br)) (sense_of c) (with_junk w2 j) (i_wf _ _ I) Hr Hc0 H0 Hm2 Hcp) as (t'' & v4 & E4 & _ & S2 & _).
    rewrite E3 in E2. apply ret_eq in E2 as [E2 <-]. apply pair_eq in E2 as [_ <-].
    unfold bind at 1. rewrite E4. cbn [cr_status api_ok cr_scsi_status is_api_success]. do 2 eexists. split; [reflexivity|].
    eapply sensed_alike; [exact M2| |exact S1|exact S2]. intros y. reflexivity.
Qed.

(** ** The adapter *)
Lemma load_same n : forall a w1 w2 l, (forall x, a <= x < a + N.of_nat n -> mem w2 x = mem w1 x) -> load a n w1 = Ret l w1 -> load a n w2 = Ret l w2.
Proof.
  intros a w1 w2 l H E. unfold load in *. assert (L : load_bytes (mem w2) a n = load_bytes (mem w1) a n).
  { clear E. revert a H. induction n as [|n IH]; intros a H; [reflexivity|]. cbn [load_bytes]. rewrite H by lia. rewrite IH; [reflexivity|]. intros x Hx. apply H. lia. }
  rewrite L. destruct (load_bytes (mem w1) a n); [|discriminate E]. apply ret_eq in E as [<- _]. reflexivity.
Qed.
Lemma store_same a bs w1 w2 u w1' : (forall x, a <= x < a + N.of_nat (length bs) -> mem w2 x = mem w1 x) -> store a bs w1 = Ret u w1' ->
  exists w2', store a bs w2 = Ret tt w2' /\ forall x, mem w2 x = mem w1 x -> mem w2' x = mem w1' x.
Proof.
  intros H E. apply store_inv in E as (Hm & ->).
  assert (E2 : store a bs w2 = Ret tt (set_mem w2 (store_bytes (mem w2) a bs))).
  { apply store_ok. intros x Hx. rewrite H by exact Hx. apply Hm, Hx. }
  eexists. split; [exact E2|]. intros x Hx. cbn [mem set_mem]. unfold store_bytes. rewrite Hx. reflexivity.
Qed.
Lemma scatter_same sgl : forall bs w1 w2 k w1', (forall x, In x (sg_addrs sgl) -> mem w2 x = mem w1 x) -> sg_scatter sgl bs w1 = Ret k w1' ->
  exists w2', sg_scatter sgl bs w2 = Ret k w2' /\ forall x, mem w2 x = mem w1 x -> mem w2' x = mem w1' x.
Proof.
  induction sgl as [|[a l] sgl IH]; intros bs w1 w2 k w1' H E.
  - cbn [sg_scatter] in *. apply ret_eq in E as [<- <-]. exists w2. split; [reflexivity|auto].
  - cbn [sg_scatter] in *. apply bind_ret_inv in E as ([] & v1 & E1 & E). apply bind_ret_inv in E as (m & v2 & E2 & E). apply ret_eq in E as [<- <-].
    destruct (store_same a (firstn (N.to_nat l) bs) w1 w2 tt v1) as (u1 & F1 & P1); [|exact E1|].
    { intros x Hx. apply H. rewrite sg_addrs_cons. apply in_or_app. left. rewrite firstn_length in Hx. apply in_map_iff. exists (N.to_nat (x - a)). split; [lia|]. apply in_seq. lia. }
    destruct (IH (skipn (N.to_nat l) bs) v1 u1 m v2) as (u2 & F2 & P2); [|exact E2|].
    { intros x Hx. apply P1, H. rewrite sg_addrs_cons. apply in_or_app. right. exact Hx. }
    exists u2. unfold bind. rewrite F1, F2. split; [reflexivity|]. intros x Hx. apply P2, P1, Hx.
Qed.
Lemma blind_gather sgl : forall n, blind (sg_gather sgl n).
Proof. induction sgl as [|[a l] sgl IH]; intros n; cbn [sg_gather]; [apply blind_ret|]. apply blind_bind; [apply blind_load|]. intros y. apply blind_bind; [apply IH|]. intros z. apply blind_ret. Qed.
Lemma blind_copy sgl a n : blind (sg_copy_to_buffer sgl a n).
Proof. unfold sg_copy_to_buffer. apply blind_bind; [apply blind_gather|]. intros x. apply blind_bind; [apply blind_store|]. intros y. apply blind_ret. Qed.

(** What comes back -- status, residual, data, everything in memory -- and what
    is submitted does not depend on what the stack held, but for the reserved
    bits of sense data; missing: INQUIRY page 80h, see below. *)
Theorem C115_nothing_uninitialised_partial : forall drv wrs kz wild c w bs r w' j,
  Properties41.queued w kz c bs -> harmless drv c -> sense_alone w kz c -> spares drv c ->
  ~ (byte_at bs 0 = 0x12 /\ inq_evpd bs = 1 /\ inq_page bs = 0x80) ->
  scsi_queuecommand drv wrs kz wild c w = Ret r w' ->
  exists w2, scsi_queuecommand drv wrs kz wild c (with_junk w j) = Ret r w2 /\ alike w w' w2 c.
Proof.
  intros drv wrs kz wild c w bs r w' j (Hc & Hcl & Hcs & Hse & Hsg & Hkz & Hap & Hz) Hd (Sm & Spa & Sk & Ssg) Hs Hn E.
  rewrite mock_eq in *. cbv zeta in *. set (q := mock_request kz wild c) in *. change (len (rq_data q)) with (sc_bufflen c mod 65536) in *.
  change (rq_data_in q) with (sc_from_device c) in *. set (n := sc_bufflen c mod 65536) in *.
  change (mem (with_junk w j)) with (mem w). change (log (with_junk w j) (EvAlloc 1 n kz)) with (with_junk (log w (EvAlloc 1 n kz)) j).
  destruct ((0 <? n) && (kz =? 0)) eqn:Eo.
  { apply ret_eq in E as [<- <-]. replace (0 <? n) with true in * by lia. replace (kz =? 0) with true in * by lia. eexists. split; [reflexivity|]. left. reflexivity. }
  set (w1 := if 0 <? n then _ else w) in E.
  set (w1j := if 0 <? n then _ else with_junk w j).
  assert (W1 : w1j = with_junk w1 j) by (unfold w1j, w1; destruct (0 <? n); [destruct (kz =? 0)|]; reflexivity). rewrite W1. clear W1 w1j.
  assert (A1 : ans w1 = ans w) by (unfold w1; destruct (0 <? n); [destruct (kz =? 0)|]; reflexivity).
  assert (M1 : forall x, ~ (0 < n /\ kz <= x < kz + n) -> mem w1 x = mem w x).
  { intros x Hx. unfold w1. destruct (N.ltb_spec 0 n) as [Q|Q]; [|reflexivity]. destruct (kz =? 0); [reflexivity|]. cbn [mem set_mem]. unfold map_pages.
    replace ((kz <=? x) && (x <? kz + n)) with false by lia. reflexivity. }
  apply bind_ret_inv in E as (z & w2 & E2 & E).
  assert (B2 : (if (0 <? n) && negb (sc_from_device c) then sg_copy_to_buffer (sc_sgl c) kz n else ret 0) (with_junk w1 j) = Ret z (with_junk w2 j)).
  { assert (Bl : blind (if (0 <? n) && negb (sc_from_device c) then sg_copy_to_buffer (sc_sgl c) kz n else ret 0)) by (destruct ((0 <? n) && negb (sc_from_device c)); [apply blind_copy|apply blind_ret]).
    rewrite Bl, E2. reflexivity. }
  assert (A2 : ans w2 = ans w /\ forall x, ~ (0 < n /\ kz <= x < kz + n) -> mem w2 x = mem w x).
  { destruct (N.ltb_spec 0 n) as [Q|Q]; [destruct (sc_from_device c)|]; cbn [andb negb] in E2; try (apply ret_eq in E2 as [_ <-]; auto).
    unfold sg_copy_to_buffer in E2. apply bind_ret_inv in E2 as (y & v1 & G & E2). apply sg_gather_pure in G as (-> & Ly).
    apply bind_ret_inv in E2 as ([] & v2 & G & E2). apply ret_eq in E2 as [_ <-]. apply store_inv in G as (_ & ->). split; [exact A1|].
    intros x Hx. cbn [mem set_mem]. rewrite store_bytes_out; [apply M1, Hx|]. lia. }
  destruct A2 as [A2 M2]. clear E2 M1 A1.
  apply bind_ret_inv in E as ([[resp t] subs] & w3 & E3 & E).
  assert (Hkc : forall x, sc_cmnd c <= x < sc_cmnd c + sc_cmd_len c -> ~ (0 < n /\ kz <= x < kz + n)).
  { intros x Hx [Q1 Q2]. destruct Hkz as [->|Hu]; [lia|]. specialize (Hu x Q2).
    destruct (nth_error bs (N.to_nat (x - sc_cmnd c))) as [b|] eqn:Eb; [|apply nth_error_None in Eb; lia].
    specialize (Hc _ _ Eb). replace (sc_cmnd c + N.of_nat (N.to_nat (x - sc_cmnd c))) with x in Hc by lia. rewrite Hu in Hc. discriminate Hc. }
  assert (Hks : forall x, in_span (sense_of c) x -> ~ (0 < n /\ kz <= x < kz + n)).
  { intros x Hx [Q1 Q2]. unfold in_span in Hx. cbn [ptr len sense_of] in Hx. lia. }
  assert (Lq : len (rq_cdb q) = sc_cmd_len c) by (unfold q, mock_request; cbn [rq_cdb len]; apply N.mod_small; exact Hcs).
  destruct (engine_alike drv wrs q w2 w bs resp t subs w3 c j eq_refl eq_refl Lq Hd Hs) as (t2 & w3j & F3 & Al); try assumption.
  - intros k ps i. rewrite A2. apply Spa.
  - intros x Hx. rewrite M2 by (apply Hks, Hx). apply Sm, Hx.
  - intros x Hx. apply M2, Hks, Hx.
  - split; [rewrite Lq; symmetry; exact Hcl|]. intros i b Hi. assert (i < length bs)%nat by (apply nth_error_Some; rewrite Hi; discriminate).
    change (ptr (rq_cdb q)) with (sc_cmnd c). rewrite M2; [apply Hc, Hi|]. apply Hkc. lia.
  - intros k ps i. rewrite A2, Lq. apply Hap.
  - intros k ps. rewrite A2. apply Hz.
  - unfold bind at 1. rewrite B2. unfold bind at 1. rewrite F3.
    assert (Al8 : forall x, ~ (sc_sense c <= x < sc_sense c + 8) -> mem w3j x = mem w3 x) by (intros x Hx; destruct Al as [Al|[_ Al]]; auto).
    assert (La : er_alloc_len resp <= n).
    { destruct (engine_cases _ _ _ _ _ _ _ _ E3) as (t1' & br & w1' & _ & _ & C). change (len (rq_data q)) with n in C.
      destruct C as [(_ & -> & _)|(L & _ & cr & _ & ->)]; [cbn; lia|]. destruct (is_api_success _); cbn [er_alloc_len]; lia. }
    apply bind_ret_inv in E as (rs & w4 & E4 & E). apply bind_ret_inv in E as ([] & w5 & E5 & E). apply ret_eq in E as [<- <-].
    assert (K : exists w4j, (if sc_from_device c && (0 <? n) then k <- sg_copy_from_buffer (sc_sgl c) kz (er_alloc_len resp) ;; ret (Some (n - k)) else ret None) w3j = Ret rs w4j
        /\ (forall x, mem w3j x = mem w3 x -> mem w4j x = mem w4 x) /\ forall x, in_span (sense_of c) x -> mem w4j x = mem w3j x /\ mem w4 x = mem w3 x).
    { destruct (N.ltb_spec 0 n) as [Q|Q]; [destruct (sc_from_device c)|rewrite andb_false_r in *]; cbn [andb] in *;
        try (apply ret_eq in E4 as [<- <-]; exists w3j; split; [reflexivity|split; auto]).
      unfold sg_copy_from_buffer in *. apply bind_ret_inv in E4 as (k & v1 & G & E4). apply ret_eq in E4 as [<- <-].
      apply bind_ret_inv in G as (y & v2 & G1 & G2). pose proof (load_pure _ _ _ _ _ G1) as ->.
      assert (G1j : load kz (N.to_nat (N.min (er_alloc_len resp) (sg_total (sc_sgl c)))) w3j = Ret y w3j).
      { eapply load_same; [|exact G1]. intros x Hx. apply Al8. lia. }
      destruct (scatter_same (sc_sgl c) y w3 w3j k v1) as (v1j & G2j & P); [|exact G2|].
      { intros x Hx. apply Al8. intros Z. apply (Ssg x Hx). unfold in_span. cbn [ptr len sense_of]. lia. }
      exists v1j. split; [unfold bind; rewrite G1j, G2j; reflexivity|]. split; [exact P|].
      intros x Hx. split; [apply (proj2 (proj2 (sg_scatter_set _ _ _ _ _ G2j)))|apply (proj2 (proj2 (sg_scatter_set _ _ _ _ _ G2)))]; intros Z; exact (Ssg x Z Hx). }
    destruct K as (w4j & F4 & P4 & S4). unfold bind at 1. rewrite F4. 
    assert (F5 : exists w5j, (if 0 <? n then kfree kz n else ret tt) w4j = Ret tt w5j /\ mem w5j = mem w4j /\ mem w5 = mem w4).
    { destruct (0 <? n); [unfold kfree in *|]; apply ret_eq in E5 as [_ <-]; eexists; split; reflexivity || (split; reflexivity). }
    destruct F5 as (w5j & F5 & M5j & M5). unfold bind at 1. rewrite F5. eexists. split; [reflexivity|].
    destruct Al as [Al|[(key & asc & ascq & T1 & T2) _]].
    + left. intros x. rewrite M5j, M5. apply P4, Al.
    + right. split; [|intros x Hx; rewrite M5j, M5; apply P4, Al8, Hx]. exists key, asc, ascq.
      assert (Tk : forall v v' : world, (forall x, in_span (sense_of c) x -> mem v' x = mem v x) -> told w v c key asc ascq -> told w v' c key asc ascq).
      { intros v v' Hv [(b & Hb1 & Hb2) Hb3]. split.
        - exists b. split; [exact Hb1|]. intros i x Hi. rewrite Hv; [apply Hb2, Hi|]. destruct Hb1 as [Lb _]. unfold in_span. cbn [ptr len sense_of].
          assert (i < length b)%nat by (apply nth_error_Some; rewrite Hi; discriminate). lia.
        - intros x Hx. rewrite Hv; [apply Hb3, Hx|]. unfold in_span. cbn [ptr len sense_of]. lia. }
      split; [apply (Tk w3)|apply (Tk w3j)]; try assumption; intros x Hx; [rewrite M5|rewrite M5j]; apply (S4 x Hx).
Qed.
Print Assumptions C115_nothing_uninitialised_partial.

(** INQUIRY page 80h does hand stack bytes to the initiator: the same command, the
    same device, different data in the scatterlist depending on what the stack
    held. *)
Definition ex_unit_ns : list byte := ex_ns ex_head (repeat 0 8 ++ [1;0;0;0;0;0;0;0]) ex_id8.
Definition ex_unit : driver := fun k s m =>
  if 0x100000 <=? sub_buffer s then (store_bytes m (sub_buffer s) (match k with O => ex_unit_ns | S _ => ex_ct end), 0) else (m, 0).
Definition ex_run47 (j : nat -> N -> byte) (bs : list byte) :=
  match scsi_queuecommand ex_unit ex_wrs 0x90000 0xdead (ex_scsi bs true 96) (with_junk (ex_world41 false bs) j) with
  | Ret r w => Some (mr_result r, mr_resid r, map (mem w) (firstn 44 (sg_addrs (sc_sgl (ex_scsi bs true 96))))) | UB _ => None end.
Definition ex_serial : list byte := B [0x12;1;0x80;0;44;0].
Theorem C115_serial_number_refuted : exists bs j1 j2 d1 d2 x,
  Properties41.queued (ex_world41 false bs) 0x90000 (ex_scsi bs true 96) bs /\ harmless ex_unit (ex_scsi bs true 96) /\
  sense_alone (ex_world41 false bs) 0x90000 (ex_scsi bs true 96) /\ spares ex_unit (ex_scsi bs true 96) /\
  ex_run47 j1 bs = Some (GOOD, x, d1) /\ ex_run47 j2 bs = Some (GOOD, x, d2) /\ d1 <> d2.
Proof.
  exists ex_serial, (fun _ _ => xaa), (fun _ _ => xbb). do 3 eexists. split; [apply ex_queued; cbn; lia|].
  assert (H : forall k s m x, x < 0x100000 -> fst (ex_unit k s m) x = m x).
  { intros k s m x Hx. unfold ex_unit. destruct (N.leb_spec 0x100000 (sub_buffer s)); [|reflexivity]. cbn [fst]. apply store_bytes_out. lia. }
  split. { intros k s m x. split; [|intros Hx; apply H; cbn [sc_cmnd sc_cmd_len ex_scsi ex_cdb ptr len] in Hx; change (N.of_nat (length ex_serial)) with 6 in Hx; lia].
    unfold ex_unit. destruct (0x100000 <=? sub_buffer s); [apply ConcDiskFacts.store_bytes_some|auto]. }
  split; [apply ex_sense_alone|]. split. { intros k s m x Hx. apply H. unfold in_span, sense_of in Hx. cbn [ptr len sc_sense ex_scsi] in Hx. lia. }
  split; [vm_compute; reflexivity|]. split; [vm_compute; reflexivity|]. intros Z. apply (f_equal (fun l => nth 15 l None)) in Z. vm_compute in Z. discriminate Z.
Qed.
Print Assumptions C115_serial_number_refuted.

(** The premises are met: a standard INQUIRY, carried out; a refused CDB, whose sense
    data differ in the reserved bits only *)
Definition ex_sense47 (j : nat -> N -> byte) (bs : list byte) :=
  match scsi_queuecommand ex_unit ex_wrs 0x90000 0xdead (ex_scsi bs true 96) (with_junk (ex_world41 false bs) j) with
  | Ret r w => map (mem w) (map (fun i => 0x40000 + N.of_nat i) (seq 0 9)) | UB _ => [] end.
Example C115_premises_met :
  ~ (byte_at (B [0x12;0;0;0;36;0]) 0 = 0x12 /\ inq_evpd (B [0x12;0;0;0;36;0]) = 1 /\ inq_page (B [0x12;0;0;0;36;0]) = 0x80) /\
  (exists x d, ex_run47 (fun _ _ => xaa) (B [0x12;0;0;0;36;0]) = Some (GOOD, x, d) /\ ex_run47 (fun _ _ => xbb) (B [0x12;0;0;0;36;0]) = Some (GOOD, x, d)) /\
  ex_sense47 (fun _ _ => xff) (B [0xff]) = map Some (B [0xf2;0xf5;0x24;0;0xff;0xff;0xff;0;0]) /\
  ex_sense47 (fun _ _ => x00) (B [0xff]) = map Some (B [0x72;0x05;0x24;0;0;0;0;0;0]).
Proof.
  split; [intros (_ & Z & _); vm_compute in Z; discriminate Z|]. split; [do 2 eexists; split; vm_compute; reflexivity|]. split; vm_compute; reflexivity.
Qed.
