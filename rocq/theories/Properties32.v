(** C96: commands queued at the same time are linearizable. *)
From Coq Require Import Arith NArith ZArith String List Lia Bool Init.Byte Permutation.
From Coq Require Import ZifyBool ZifyNat ZifyN.
From Verif Require Import Bytes Layout World ScsiDefs NvmeDefs Common ModeSenseCmd StatusCmd TranslationCls EngineE2e MockModule KernelDriver
  Spec RwSpec EngineSpec MockSpec KernelSpec Facts Logic BeginFacts CompleteFacts StatusFacts RelFacts RwFacts EngineFacts MockFacts Witness
  Properties1 Properties2 Properties6 Properties8 Properties9 Properties11 Properties12 Properties13 DiskSpec DiskFacts Properties16 MixedSpec Properties20 ModuleSpec Properties27
  ConcSpec ConcFacts ConcDiskSpec ConcDiskFacts.
From Verif Require Properties21.
Import ListNotations.
Local Open Scope string_scope.
Local Open Scope list_scope.
Local Open Scope N_scope.

(** ** the adapter, with any device that keeps to the buffer *)
Lemma engine_io wrs q w t1 al n sq bs :
  begins wrs q w = Ret (t1, begin_ok al) w -> accepted t1 -> exposes t1 = [io n sq] -> held t1 = [] -> al <= len (rq_data q) ->
  span_holds w (rq_cdb q) bs -> ~ In (byte_at bs 0) [0x1a; 0x5a] ->
  exists s, sub_view s = (false, sqe_bytes sq, q_prp1 sq mod 2 ^ 64, n) /\ forall drv,
    let d := drv 0%nat s (mem w) in
    span_holds (set_mem w (fst d)) (rq_cdb q) bs -> span_mapped (set_mem w (fst d)) (response_span q al) -> span_mapped (set_mem w (fst d)) (rq_sense q) ->
    exists t2 st w2, engine drv wrs q w = Ret ({| er_return_code := st; er_alloc_len := al |}, t2, [s]) w2 /\
      (forall y, ~ buffers (response_span q al) (rq_sense q) y -> mem w2 y = fst d y) /\ (forall y, fst d y <> None -> mem w2 y <> None) /\ trace w2 = trace w.
Proof.
  intros E1 Ha X Hh Hl Hc Hin. destruct (one_wrapper _ _ X) as (x & Ex & Vx).
  exists (sub_of x). split.
  { rewrite sub_of_view, Vx. unfold sub_expected, io. cbn [x_admin x_bytes x_buffer_len]. rewrite sqe_prp1. reflexivity. }
  intros drv d Hc2 Hb2 Hs2.
  destruct (C12_complete_defined_partial (Translation_init wrs) w (rq_cdb q) bs (rq_data q) (rq_lun q) t1 (begin_ok al) w (idle_init wrs) Hc E1 Hin
    (set_mem w (fst d)) [snd d mod 2 ^ 128] (response_span q al) (rq_sense q) Hc2 Hb2 Hs2) as (t2 & cr & w3 & E2).
  { intros p k Hp. rewrite Hh in Hp. destruct Hp. }
  pose proof (begins_inv _ _ _ _ _ _ E1 eq_refl) as I.
  pose proof (Complete_spec t1 [snd d mod 2 ^ 128] (response_span q al) (rq_sense q) (set_mem w (fst d)) (i_wf _ _ I) (inv_busy _ I)) as S.
  apply (pst_use _ _ _ _ _ S) in E2 as Q. destruct Q as (_ & w2 & F & R & _ & Hn).
  assert (Hcr : cr = api_ok (cr_scsi_status cr)).
  { destruct cr as [st sc]. unfold api_ok. cbn [cr_scsi_status cr_status] in *. rewrite Hn; [reflexivity|].
    apply (f_equal (@length _)) in X. unfold exposes, GetNvmeWrappers in X. rewrite map_length, firstn_length in X. cbn [length] in *. lia. }
  rewrite Hcr in E2. exists t2, (cr_scsi_status cr), w3. split; [|split; [|split]].
  - erewrite (engine_ok drv wrs q w t1 al w t2 _ w3); [rewrite Ex; reflexivity|exact E1|exact Hl|].
    rewrite Ex. cbn [map device_run]. change (drv 0%nat (sub_of x) (mem w)) with d. destruct d as [m c]. exact E2.
  - intros y Hy. rewrite (r_mem _ _ _ R), (f_mem _ _ _ F) by exact Hy. reflexivity.
  - intros y Hy. rewrite (r_mem _ _ _ R). apply (f_dom _ _ _ F). exact Hy.
  - rewrite (r_trace _ _ _ R), (f_trace _ _ _ F), Hh. cbn [trace set_mem releases]. destruct (dealloc_cb w2); apply app_nil_r.
Qed.

Definition gentle (drv : driver) (kz n : N) (s : submission) (m : memory) : Prop :=
  (forall y, y < 2 ^ 64 -> ~ (kz <= y < kz + n) -> fst (drv 0%nat s m) y = m y) /\ (forall y, m y <> None -> fst (drv 0%nat s m) y <> None).

Lemma adapter_io wrs kz wild c w x : scsi_presents w kz c x ->
  exists s m1, io_submission x kz s /\ (forall y, kz <= y < kz + sc_bufflen c -> m1 y <> None) /\
    (forall y, ~ (kz <= y < kz + sc_bufflen c) -> m1 y = mem w y) /\
    match x with IoRead _ _ _ => True | IoWrite _ _ data => forall i b, nth_error data i = Some b -> m1 (kz + N.of_nat i) = Some b end /\
    forall drv, gentle drv kz (sc_bufflen c) s m1 ->
    exists r w', scsi_queuecommand drv wrs kz wild c w = Ret r w' /\ mr_subs r = [s] /\
      trace w' = trace w ++ [EvAlloc 1 (sc_bufflen c) kz; EvDealloc kz (sc_bufflen c)] /\
      forall y, 2 ^ 64 <= y -> mem w' y = fst (drv 0%nat s m1) y.
Proof.
  intros P. pose proof P as P0.
  destruct P0 as ((bs & Hc & Hcl & Hcs & Hcb & Hask) & (Hsm & Hsb) & Hsg & Hkz & Hun & Hkl & Hx).
  set (q := mock_request kz wild c). set (n := sc_bufflen c) in *. set (w1 := with_buffer w kz n).
  assert (Cdb : forall v, (forall y, y < 2 ^ 64 -> ~ (kz <= y < kz + n) -> mem v y = mem w y) -> span_holds v (rq_cdb q) bs).
  { intros v Hv. unfold q, mock_request. cbn [rq_cdb]. rewrite N.mod_small by lia. split; [cbn [len]; lia|]. cbn [ptr]. intros i b Hi.
    assert (i < length bs)%nat by (apply nth_error_Some; congruence). rewrite Hv; [apply Hc; exact Hi|lia|].
    intros Hy. pose proof (Hc i b Hi) as Q. rewrite Hun in Q by exact Hy. discriminate Q. }
  assert (Hop : ~ In (byte_at bs 0) [0x1a; 0x5a]).
  { destruct Hask as (f & _ & _ & _ & Ha). destruct x; destruct Ha as (_ & -> & _); destruct f; cbn; intuition discriminate. }
  assert (Hu : match x with IoRead u _ _ | IoWrite u _ _ => u = sc_lun c end).
  { destruct Hask as (f & _ & _ & _ & Ha). destruct x; apply Ha. }
  destruct x as [u b k|u b data].
  - assert (O1 : forall y, ~ (kz <= y < kz + n) -> mem w1 y = mem w y) by (intros y Hy; apply with_buffer_out; exact Hy).
    destruct (scsi_presents_api w w1 kz wild c _ P O1) as (Hn & Hqd & Hqs & P1).
    { intros y Hy. unfold w1, n. rewrite with_buffer_in by exact Hy. discriminate. }
    { exact I. }
    fold q n in Hn, Hqd, Hqs, P1. destruct P1 as (_ & _ & _ & _ & _ & (bs' & Hbs' & Hask') & Hlen).
    pose proof (asks_begin w1 q (IoRead u b k) bs' Hbs' Hask' Hlen (Translation_init wrs) (idle_init wrs)) as B. cbn beta iota in B.
    destruct B as (Hne & Hin & Hlun & Hlba & Hnn & Hnl & t1 & al & bl & fua & pr & EB & Ha & X & Hh & Hal1 & Hal2 & (f & Hf & ->) & Hpr & Hbl).
    destruct (engine_io wrs q w1 t1 al _ _ bs EB Ha X Hh) as (s & Vs & R).
    { rewrite Hal1 by reflexivity. exact Hlen. }
    { apply Cdb. intros y _ Hy. apply O1. exact Hy. }
    { exact Hop. }
    exists s, (mem w1). split; [|split; [|split; [exact O1|split; [exact I|]]]].
    { exists (rw_fua f bs'), pr, bl. split; [exact Hbl|]. rewrite Hqd in Vs. cbn [ptr] in Vs. cbn [io_opcode io_unit io_first io_blocks]. subst u. exact Vs. }
    { intros y Hy. unfold w1. rewrite with_buffer_in by exact Hy. discriminate. }
    intros drv [G1 G2]. destruct (R drv) as (t2 & st & w2 & E & M1 & M2 & T).
    { apply Cdb. intros y Hy Hz. cbn [mem set_mem]. rewrite G1 by assumption. apply O1. exact Hz. }
    { intros y Hy. apply G2. unfold response_span in Hy. destruct Hx as (Hdi & _). change (rq_data_in q) with (sc_from_device c) in Hy. rewrite Hdi, Hqd in Hy.
      unfold in_span in Hy. cbn [ptr len] in Hy. unfold w1. rewrite with_buffer_in; [discriminate|]. rewrite Hal1 in Hy by reflexivity. rewrite Hqd in Hlen. cbn [len] in Hlen. lia. }
    { intros y Hy. apply G2. rewrite Hqs in Hy. specialize (Hsm y Hy). unfold w1. rewrite with_buffer_old; [exact Hsm|exact Hun|exact Hsm]. }
    destruct Hx as (Hdi & Hnk & Hsv & Htot).
    assert (Hv2 : sg_valid w2 (sc_sgl c)).
    { destruct Hsv as [Hd Hm]. split; [exact Hd|]. intros y Hy. apply M2, G2. unfold w1. rewrite with_buffer_old; [apply Hm; exact Hy|exact Hun|apply Hm; exact Hy]. }
    assert (Hmap : mapped w2 kz (N.of_nat (N.to_nat n))).
    { rewrite N2Nat.id. intros y Hy. apply M2, G2. unfold w1. rewrite with_buffer_in by exact Hy. discriminate. }
    destruct (mapped_bytes _ _ _ Hmap) as (zs & Hl & Hb).
    assert (Hld : (length zs <= length (sg_addrs (sc_sgl c)))%nat).
    { pose proof (sg_total_length (sc_sgl c)). lia. }
    destruct (sg_scatter_ok (sc_sgl c) zs w2 Hv2 Hld) as (m' & Es' & Hh' & Hm').
    exists {| mr_result := st; mr_resid := Some 0; mr_subs := [s] |}, (log (set_mem w2 m') (EvDealloc kz n)).
    split; [|split; [reflexivity|split]].
    + rewrite mock_eq. cbv zeta. fold q. rewrite Hqd. cbn [len]. replace (0 <? n) with true by lia. replace (kz =? 0) with false by lia.
      change (rq_data_in q) with (sc_from_device c). rewrite Hdi. cbn [andb negb]. unfold bind at 1. unfold ret at 1.
      change (set_mem (log w (EvAlloc 1 n kz)) (map_pages (mem w) kz n (fun _ : N => x00))) with w1.
      unfold bind at 1. rewrite E. unfold bind at 1. unfold sg_copy_from_buffer. unfold bind at 1. unfold bind at 1. cbn [er_alloc_len].
      rewrite (load_ok w2 kz _ zs).
      * rewrite Es'. unfold ret at 1. unfold bind, kfree, ret. cbn [er_return_code].
        replace (n - N.of_nat (length zs)) with 0 by lia. reflexivity.
      * exact Hb.
      * rewrite Hal1 by reflexivity. lia.
    + cbn [trace log set_mem]. rewrite T. unfold w1, with_buffer. cbn [trace log set_mem]. rewrite <- app_assoc. reflexivity.
    + intros y Hy. cbn [mem log set_mem]. rewrite Hm'.
      * apply M1. unfold buffers. unfold response_span. change (rq_data_in q) with (sc_from_device c). rewrite Hdi, Hqd, Hqs. unfold in_span. cbn [ptr len].
        rewrite Hal1 by reflexivity. cbn [ptr len] in Hsb. lia.
      * intros Hz. apply In_firstn_In in Hz. apply Hsg in Hz as [Hz _]. lia.
  - destruct Hx as (Hdi & Hnd & Hh).
    set (w2 := set_mem w1 (store_bytes (mem w1) kz data)).
    assert (Hn2 : N.of_nat (length data) = n) by (symmetry; exact Hnd).
    assert (O1 : forall y, ~ (kz <= y < kz + n) -> mem w2 y = mem w y).
    { intros y Hy. unfold w2. cbn [mem set_mem]. rewrite store_bytes_out by (rewrite Hn2; exact Hy). apply with_buffer_out. exact Hy. }
    assert (Mb : forall y, kz <= y < kz + n -> mem w2 y <> None).
    { intros y Hy. unfold w2. cbn [mem set_mem]. replace y with (kz + N.of_nat (N.to_nat (y - kz))) by lia.
      erewrite store_bytes_in; [discriminate|]. apply nth_error_nth' with (d := x00). lia. }
    destruct (scsi_presents_api w w2 kz wild c _ P O1) as (Hn & Hqd & Hqs & P1).
    { exact Mb. }
    { intros i y Hi. unfold w2. cbn [mem set_mem]. apply store_bytes_in. exact Hi. }
    fold q n in Hn, Hqd, Hqs, P1. destruct P1 as (_ & _ & _ & _ & _ & (bs' & Hbs' & Hask') & Hlen).
    pose proof (asks_begin w2 q (IoWrite u b data) bs' Hbs' Hask' Hlen (Translation_init wrs) (idle_init wrs)) as B. cbn beta iota in B.
    destruct B as (Hne & Hin & Hlun & Hlba & Hnn & Hnl & t1 & al & bl & fua & pr & EB & Ha & X & Hh1 & Hal1 & Hal2 & (f & Hf & ->) & Hpr & Hbl).
    destruct (engine_io wrs q w2 t1 al _ _ bs EB Ha X Hh1) as (s & Vs & R).
    { rewrite Hal2 by reflexivity. apply N.le_0_l. }
    { apply Cdb. intros y _ Hy. apply O1. exact Hy. }
    { exact Hop. }
    exists s, (mem w2). split; [|split; [exact Mb|split; [exact O1|split; [intros i y Hi; unfold w2; cbn [mem set_mem]; apply store_bytes_in; exact Hi|]]]].
    { exists (rw_fua f bs'), pr, bl. split; [exact Hbl|]. rewrite Hqd in Vs. cbn [ptr] in Vs. cbn [io_opcode io_unit io_first io_blocks]. subst u. exact Vs. }
    intros drv [G1 G2]. destruct (R drv) as (t2 & st & w3 & E & M1 & M2 & T).
    { apply Cdb. intros y Hy Hz. cbn [mem set_mem]. rewrite G1 by assumption. apply O1. exact Hz. }
    { intros y Hy. exfalso. unfold response_span in Hy. change (rq_data_in q) with (sc_from_device c) in Hy. rewrite Hdi in Hy. destruct Hy as [_ Hy]. cbn in Hy. lia. }
    { intros y Hy. apply G2. rewrite Hqs in Hy. specialize (Hsm y Hy). rewrite O1; [exact Hsm|]. intros Hz. apply Hsm, Hun. exact Hz. }
    exists {| mr_result := st; mr_resid := None; mr_subs := [s] |}, (log w3 (EvDealloc kz n)).
    split; [|split; [reflexivity|split]].
    + rewrite mock_eq. cbv zeta. fold q. rewrite Hqd. cbn [len]. replace (0 <? n) with true by lia. replace (kz =? 0) with false by lia.
      change (rq_data_in q) with (sc_from_device c). rewrite Hdi. cbn [andb negb].
      change (set_mem (log w (EvAlloc 1 n kz)) (map_pages (mem w) kz n (fun _ : N => x00))) with w1.
      unfold bind at 1. unfold sg_copy_to_buffer. unfold bind at 1. rewrite (sg_gather_ok (sc_sgl c) _ data).
      * unfold bind at 1. rewrite store_ok.
        -- fold w2. unfold ret at 1. unfold bind at 1. rewrite E. unfold bind, kfree, ret. cbn [er_return_code]. reflexivity.
        -- intros y Hy. rewrite Hn2 in Hy. unfold w1. rewrite with_buffer_in by exact Hy. discriminate.
      * destruct Hh as [H1 H2]. split; [exact H1|]. intros i y z Hi Hb. unfold w1. rewrite with_buffer_old; [eapply H2; eassumption|exact Hun|].
        rewrite (H2 _ _ _ Hi Hb). discriminate.
      * destruct Hh as [H1 _]. lia.
    + cbn [trace log set_mem]. rewrite T. unfold w2, w1, with_buffer. cbn [trace log set_mem]. rewrite <- app_assoc. reflexivity.
    + intros y Hy. cbn [mem log set_mem]. apply M1. unfold buffers. unfold response_span. change (rq_data_in q) with (sc_from_device c). rewrite Hdi, Hqs.
      unfold in_span. cbn [ptr len null_span]. cbn [ptr len] in Hsb. lia.
Qed.

(** ** devices *)
Definition io_len (x : disk_io) : N := io_blocks x * 4096.
Definition transfer (x : disk_io) (kz : N) (m : memory) : memory :=
  match x with
  | IoRead u lba n => copy m (medium (u + 1) lba 0) kz (n * 4096)
  | IoWrite u lba data => copy m kz (medium (u + 1) lba 0) (blocks_of data * 4096)
  end.
(** with this command the device does nothing, or transfers the data *)
Definition carries (x : disk_io) (kz : N) (drv : driver) : Prop :=
  (exists cpl, forall s m, io_submission x kz s -> drv 0%nat s m = (m, cpl)) \/
  (io_first x + io_blocks x <= 2 ^ 64 /\ forall s m, io_submission x kz s -> drv 0%nat s m = (transfer x kz m, 0)).
Definition relevant (x : disk_io) (kz y : N) : Prop := kz <= y < kz + io_len x \/ 2 ^ 64 <= y.

Lemma medium_above u b i : 2 ^ 64 <= medium u b 0 + i.
Proof. pose proof (medium_high u b 0). lia. Qed.
Lemma carries_else x kz drv s m y : carries x kz drv -> io_submission x kz s -> ~ relevant x kz y -> fst (drv 0%nat s m) y = m y.
Proof.
  intros [[cpl C]|[_ C]] Hs Hy; rewrite C by exact Hs; cbn [fst]; [reflexivity|]. unfold relevant, io_len in Hy.
  destruct x as [u b n|u b data]; cbn [transfer io_blocks] in *; apply copy_out; [lia|]. pose proof (medium_high (u + 1) b 0). lia.
Qed.
Lemma carries_local x kz drv s m m' : carries x kz drv -> io_submission x kz s -> (forall y, relevant x kz y -> m y = m' y) ->
  snd (drv 0%nat s m) = snd (drv 0%nat s m') /\ forall y, relevant x kz y -> fst (drv 0%nat s m) y = fst (drv 0%nat s m') y.
Proof.
  intros [[cpl C]|[_ C]] Hs Hm; rewrite !C by exact Hs; cbn [fst snd]; (split; [reflexivity|]); [exact Hm|]. intros y Hy.
  destruct x as [u b n|u b data]; unfold relevant, io_len in *; cbn [transfer io_blocks] in *; unfold copy; destruct (_ && _) eqn:R; try (apply Hm; exact Hy); apply Hm.
  - right. apply medium_above.
  - left. lia.
Qed.
Lemma carries_keeps x kz drv s m d : carries x kz drv -> io_submission x kz s -> io_unit x < 2 ^ 32 - 1 -> (forall v, mem v = m -> stores v d) ->
  (forall y, kz <= y < kz + io_len x -> m y <> None) -> forall y, m y <> None -> fst (drv 0%nat s m) y <> None.
Proof.
  intros [[cpl C]|[Hr C]] Hs Hu St Hb y Hy; rewrite !C by exact Hs; cbn [fst]; [exact Hy|].
  destruct x as [u b n|u b data]; unfold io_len in *; cbn [transfer io_blocks io_first io_unit] in *; unfold copy; destruct (_ && _) eqn:R; try exact Hy.
  - set (i := y - kz). rewrite medium_step. specialize (St (set_mem (ex_world []) m) eq_refl u (b + i / 4096) (i mod 4096) Hu). cbn [mem set_mem] in St. rewrite St; [discriminate| |].
    + assert (i / 4096 < n) by (apply N.div_lt_upper_bound; lia). lia.
    + apply N.mod_lt. discriminate.
  - apply Hb. lia.
Qed.
(** the medium afterwards depends on the medium before and the data *)
Lemma carries_medium x kz drv s s' m m' : carries x kz drv -> io_submission x kz s -> io_submission x kz s' -> kz + io_len x <= 2 ^ 64 ->
  (forall y, 2 ^ 64 <= y -> m y = m' y) ->
  match x with IoRead _ _ _ => True | IoWrite _ _ data => forall y, kz <= y < kz + io_len x -> m y = m' y end ->
  forall y, 2 ^ 64 <= y -> fst (drv 0%nat s m) y = fst (drv 0%nat s' m') y.
Proof.
  intros [[cpl C]|[_ C]] Hs Hs' Hk Hm Hd y Hy; rewrite (C s), (C s') by assumption; cbn [fst]; [apply Hm; exact Hy|].
  destruct x as [u b n|u b data]; unfold io_len in *; cbn [transfer io_blocks] in *.
  - rewrite !copy_out by lia. apply Hm. exact Hy.
  - unfold copy. destruct (_ && _) eqn:R; [|apply Hm; exact Hy]. apply Hd. lia.
Qed.

Definition quiet : driver := fun _ _ m => (m, 0).
Definition spied (m : memory) : memory := fun y => if y <? 2 ^ 64 then m y else m (y - 2 ^ 64).
Definition spy : driver := fun _ _ m => (spied m, 0).
Lemma quiet_gentle kz n s m : gentle quiet kz n s m.
Proof. split; auto. Qed.
Lemma spy_gentle kz n s m : (forall y, 2 ^ 64 <= y -> m y = None) -> gentle spy kz n s m.
Proof.
  intros H. split; cbn [spy fst]; unfold spied.
  - intros y Hy _. replace (y <? 2 ^ 64) with true by lia. reflexivity.
  - intros y Hy. destruct (N.ltb_spec y (2 ^ 64)) as [L|L]; [exact Hy|]. exfalso. apply Hy, H. exact L.
Qed.
Lemma stores_join m mu d : (forall v, mem v = mu -> stores v d) -> forall v, mem v = join m mu -> stores v d.
Proof.
  intros St v Hv lun b o H1 H2 H3. specialize (St (set_mem v mu) eq_refl lun b o H1 H2 H3). cbn [mem set_mem] in St. rewrite Hv, join_high by apply medium_high. exact St.
Qed.
Lemma lowdev_gentle x kz drv mu s m d : carries x kz drv -> io_submission x kz s -> io_unit x < 2 ^ 32 - 1 -> kz + io_len x <= 2 ^ 64 ->
  (forall v, mem v = mu -> stores v d) ->
  (forall y, kz <= y < kz + io_len x -> m y <> None) -> (forall y, 2 ^ 64 <= y -> m y = None) -> gentle (lowdev drv mu) kz (io_len x) s m.
Proof.
  intros C Hs Hu Hk St Hb Hh. split; unfold lowdev; cbn [fst].
  - intros y Hy Hn. rewrite join_low by exact Hy. rewrite (carries_else x kz drv s _ y C Hs); [apply join_low; exact Hy|]. unfold relevant. lia.
  - intros y Hy. destruct (N.lt_ge_cases y (2 ^ 64)) as [L|L]; [|exfalso; apply Hy, Hh; exact L]. rewrite join_low by exact L.
    apply (carries_keeps x kz drv s _ d C Hs Hu).
    + apply stores_join. exact St.
    + intros z Hz. rewrite join_low by lia. apply Hb. exact Hz.
    + rewrite join_low by exact L. exact Hy.
Qed.
Lemma big_gentle x kz drv s m d : carries x kz drv -> io_submission x kz s -> io_unit x < 2 ^ 32 - 1 ->
  (forall v, mem v = m -> stores v d) -> (forall y, kz <= y < kz + io_len x -> m y <> None) -> gentle drv kz (io_len x) s m.
Proof.
  intros C Hs Hu St Hb. split.
  - intros y Hy Hn. apply (carries_else x kz drv s m y C Hs). unfold relevant. lia.
  - apply (carries_keeps x kz drv s m d C Hs Hu St Hb).
Qed.

(** ** what a command needs and leaves is below 2^64 *)
Lemma presents_len w kz c x : scsi_presents w kz c x -> sc_bufflen c = io_len x /\ kz + io_len x <= 2 ^ 64.
Proof.
  intros ((bs & _ & _ & _ & _ & (f & Hf & Hn & Hu & Hx)) & _ & _ & Hkz & _ & Hkl & Hy). unfold io_len.
  destruct x as [u b n|u b data]; cbn [io_blocks]; destruct Hx as (-> & _ & _ & -> & Hl).
  - destruct Hy as (_ & Hy & _). lia.
  - destruct Hy as (_ & Hy & _). unfold blocks_of. rewrite Hl, N.div_mul by discriminate. lia.
Qed.
Lemma presents_low w w' kz c x : scsi_presents w kz c x -> (forall y, y < 2 ^ 64 -> mem w' y = mem w y) -> scsi_presents w' kz c x.
Proof.
  intros ((bs & Hc & Hcl & Hcs & Hcb & Hask) & (Hsm & Hsb) & Hsg & Hkz & Hun & Hkl & Hx) Hm.
  split; [exists bs; split; [|auto]|split; [split; [|exact Hsb]|split; [exact Hsg|split; [exact Hkz|split; [|split; [exact Hkl|]]]]]].
  - intros i b Hi. assert (i < length bs)%nat by (apply nth_error_Some; congruence). rewrite Hm by lia. apply Hc. exact Hi.
  - intros y Hy. rewrite Hm; [apply Hsm; exact Hy|]. unfold in_span in Hy. cbn [ptr len] in *. lia.
  - intros y Hy. rewrite Hm by lia. apply Hun. exact Hy.
  - destruct x as [u b k|u b data].
    + destruct Hx as (H1 & H2 & (H3 & H4) & H5). split; [exact H1|]. split; [exact H2|]. split; [|exact H5]. split; [exact H3|].
      intros y Hy. rewrite Hm; [apply H4; exact Hy|]. apply Hsg. exact Hy.
    + destruct Hx as (H1 & H2 & H3 & H4). split; [exact H1|]. split; [exact H2|]. split; [exact H3|].
      intros i y b0 Hi Hb. rewrite Hm; [eapply H4; eassumption|]. apply Hsg. eapply nth_error_In. exact Hi.
Qed.
Lemma observes_low v w kz c x r a : scsi_presents v kz c x -> forall v', scsi_observes v' c r x a ->
  (forall y b, y < 2 ^ 64 -> mem v' y = Some b -> mem w y = Some b) -> scsi_observes w c r x a.
Proof.
  intros (_ & (_ & Hsb) & Hsg & _) v' O Hm.
  assert (Sen : out_of_range_sense v' (sc_sense c) -> out_of_range_sense w (sc_sense c)).
  { intros (bs & Hsay & Hb). exists bs. split; [exact Hsay|]. intros i y Hi. apply Hm; [|apply Hb; exact Hi].
    assert (i < length bs)%nat by (apply nth_error_Some; congruence). destruct Hsay as [L8 _]. cbn [ptr len] in Hsb. lia. }
  destruct x as [u b k|u b data], a as [bs| |]; cbn [scsi_observes] in *; try exact O; try (destruct O as [O1 O2]; split; [exact O1|apply Sen; exact O2]).
  destruct O as (H1 & H2 & H3 & H4 & H5). split; [exact H1|]. split; [exact H2|]. split; [exact H3|]. split; [exact H4|].
  intros i y c0 Hi Hb. apply Hm; [|eapply H5; eassumption]. apply Hsg. eapply nth_error_In. exact Hi.
Qed.

Lemma F2_nth {A B} (R : A -> B -> Prop) l l' : Forall2 R l l' -> forall i a b, nth_error l i = Some a -> nth_error l' i = Some b -> R a b.
Proof.
  induction 1 as [|x y l l' H _ IH]; intros [|i] a b Ha Hb; try discriminate; cbn [nth_error] in *.
  - injection Ha as <-. injection Hb as <-. exact H.
  - exact (IH i a b Ha Hb).
Qed.

Lemma F2_len {A B} (R : A -> B -> Prop) l l' : Forall2 R l l' -> length l = length l'.
Proof. induction 1; cbn [length]; congruence. Qed.

(** ** the general argument *)
Lemma together_trans dev w0 st0 l1 w1 st1 l2 w2 st2 :
  together dev w0 st0 l1 w1 st1 -> together dev w1 st1 l2 w2 st2 -> together dev w0 st0 (l1 ++ l2) w2 st2.
Proof.
  intros H1 H2. induction H2.
  - rewrite app_nil_r. exact H1.
  - rewrite app_assoc. eapply tg_act; eassumption.
  - rewrite app_assoc. eapply tg_submit; eassumption.
Qed.

Section Linear.
Context {K : Type}.
Variables (dev : driver -> Prop) (dv : K -> driver) (ok : K -> Prop) (step : disk -> disk_io -> disk -> answer -> Prop)
  (out : K -> disk_io -> disk -> disk * answer).
Hypothesis Hdev : forall drv, dev drv -> exists k, ok k /\ drv = dv k.
Hypothesis Hstep : forall k d x, ok k -> step d x (fst (out k x d)) (snd (out k x d)).
Hypothesis Hcarry : forall k x kz, ok k -> 0 < kz < 2 ^ 64 -> io_first x < 2 ^ 64 -> 1 <= io_blocks x <= 65536 -> io_unit x < 2 ^ 32 - 1 -> carries x kz (dv k).
Hypothesis Hseq : forall k wrs kz wild c w x d, ok k -> stores w d -> scsi_presents w kz c x ->
  exists r w', scsi_queuecommand (dv k) wrs kz wild c w = Ret r w' /\ scsi_observes w' c r x (snd (out k x d)) /\ stores w' (fst (out k x d)).
Variable w0 : world.

Definition works (q : queued) (mm0 : memory) (drv : driver) : Prop := forall v, exists r v' s,
  thread_of q drv (rewind v mm0) = Ret r v' /\ mr_subs r = [s] /\ io_submission (q_io q) (q_kz q) s /\
  trace v' = [EvAlloc 1 (io_len (q_io q)) (q_kz q); EvDealloc (q_kz q) (io_len (q_io q))].
Lemma prepared_facts q mm : prepared_in q mm -> 0 < q_kz q < 2 ^ 64 /\ io_first (q_io q) < 2 ^ 64 /\ 1 <= io_blocks (q_io q) <= 65536 /\ io_unit (q_io q) < 2 ^ 32 - 1 /\
  sc_bufflen (q_cmnd q) = io_len (q_io q) /\ q_kz q + io_len (q_io q) <= 2 ^ 64.
Proof.
  intros [_ P]. specialize (P (set_mem w0 mm) eq_refl). destruct (presents_bounds _ _ _ _ P) as (B1 & B2 & B3 & B4). destruct (presents_len _ _ _ _ P) as [B5 B6]. auto 10.
Qed.
Lemma works_gentle q mm drv : prepared_in q mm ->
  (forall s m, io_submission (q_io q) (q_kz q) s -> (forall y, q_kz q <= y < q_kz q + io_len (q_io q) -> m y <> None) -> (forall y, 2 ^ 64 <= y -> m y = None) ->
     gentle drv (q_kz q) (io_len (q_io q)) s m) -> works q mm drv.
Proof.
  intros P G v. destruct (prepared_facts q mm P) as (_ & _ & _ & _ & B5 & B6). destruct P as [Hh P].
  destruct (adapter_io (q_wrs q) (q_kz q) (q_wild q) (q_cmnd q) (rewind v mm) (q_io q) (P (rewind v mm) eq_refl)) as (s & m1 & Hs & Hb & Ho & _ & R). rewrite B5 in *.
  destruct (R drv) as (r & v' & E & E1 & T & _).
  { apply G; [exact Hs|exact Hb|]. intros y Hy. rewrite Ho by lia. apply Hh. exact Hy. }
  exists r, v', s. auto.
Qed.
Lemma works_quiet q mm : prepared_in q mm -> works q mm quiet.
Proof. intros P. apply works_gentle; [exact P|]. intros s m _ _ _. apply quiet_gentle. Qed.
Lemma works_low q mm k mu d : prepared_in q mm -> ok k -> (forall v, mem v = mu -> stores v d) -> works q mm (lowdev (dv k) mu).
Proof.
  intros P Hk St. destruct (prepared_facts q mm P) as (B1 & B2 & B3 & B4 & B5 & B6). apply works_gentle; [exact P|]. intros s m Hs Hb Hh.
  apply (lowdev_gentle _ _ _ _ _ _ d); try assumption. apply Hcarry; assumption.
Qed.

(** before its command is handed over a thread does the same whatever the device;
    afterwards it does what it does alone with a device that contains nothing but
    the answer *)
Inductive phase (q : queued) (mm0 : memory) (subs : list submission) (m : thread) (cur : memory) : list event -> option answer -> Prop :=
| ph_before t u evs : subs = [] -> (forall drv, tracked w0 t u evs (thread_of q drv) mm0 (m drv) cur) -> phase q mm0 subs m cur evs None
| ph_after s k mu d t u evs : subs = [s] -> ok k -> (forall v, mem v = mu -> stores v d) ->
    tracked w0 t u evs (thread_of q (lowdev (dv k) mu)) mm0 (m (lowdev (dv k) mu)) cur -> phase q mm0 subs m cur evs (Some (snd (out k (q_io q) d))).

(** the device the thread has, and a run alone *)
Lemma phase_runs q mm0 subs m cur ev o : prepared_in q mm0 -> phase q mm0 subs m cur ev o ->
  exists drv t u, works q mm0 drv /\ tracked w0 t u ev (thread_of q drv) mm0 (m drv) cur.
Proof.
  intros P [t u evs _ T|s k mu d t u evs _ Hk St T].
  - exists quiet, t, u. split; [apply works_quiet; exact P|apply T].
  - exists (lowdev (dv k) mu), t, u. split; [eapply works_low; eassumption|exact T].
Qed.
Lemma phase_next q mm0 subs m cur ev o w : prepared_in q mm0 -> phase q mm0 subs m cur ev o -> alloc_cb w = alloc_cb w0 -> dealloc_cb w = dealloc_cb w0 ->
  exists drv v r v' s, alone cur w0 v /\ same_draw w v /\ m drv v = Ret r v' /\ mr_subs r = [s].
Proof.
  intros P Ph F1 F2. destruct (phase_runs _ _ _ _ _ _ _ P Ph) as (drv & t & u & W & T).
  destruct (probe_ok cur w u t ev) as ((A1 & A2 & A3) & P2 & P3). set (v := probe cur w u t ev) in *.
  destruct (W v) as (r & v' & s & E & Es & _). exists drv, v, r, v', s.
  assert (Al : alone cur w0 v) by (split; [exact A1|split; congruence]).
  split; [exact Al|]. split; [exact P2|]. split; [|exact Es]. rewrite <- (T v Al eq_refl eq_refl P3). exact E.
Qed.
Lemma phase_act q mm0 subs m cur ev o w B (a : M B) k b w2 : prepared_in q mm0 -> phase q mm0 subs m cur ev o ->
  alloc_cb w = alloc_cb w0 -> dealloc_cb w = dealloc_cb w0 -> present cur w -> (forall x, 2 ^ 64 <= x -> cur x = None) ->
  next_action subs m a k -> a w = Ret b w2 -> honest w w2 ->
  exists cur2 new, trace w2 = trace w ++ new /\ phase q mm0 subs (k b) cur2 (ev ++ new) o /\
    (forall x, mem w x = None -> mem w2 x = None \/ exists size n p, new = [EvAlloc size n p] /\ p <> 0 /\ p <= x < p + size * n) /\ present cur2 w2 /\ (forall x, 2 ^ 64 <= x -> cur2 x = None /\ mem w2 x = mem w x) /\
    alloc_cb w2 = alloc_cb w0 /\ dealloc_cb w2 = dealloc_cb w0 /\ (forall x, mem w x <> None -> cur x = None -> cur2 x = None /\ mem w2 x = mem w x).
Proof.
  intros P Ph F1 F2 Hp Hh (Ha & Hk & _) E Ho.
  assert (Def : forall drv t u evs, works q mm0 drv -> tracked w0 t u evs (thread_of q drv) mm0 (m drv) cur -> exists b' v1, a (probe cur w u t evs) = Ret b' v1).
  { intros drv t u evs W T. destruct (probe_ok cur w u t evs) as ((A1 & A2 & A3) & _ & P3). set (v := probe cur w u t evs) in *.
    destruct (W v) as (r & v' & s & Er & _). rewrite (T v) in Er; [|split; [exact A1|split; congruence]|reflexivity|reflexivity|exact P3].
    rewrite Hk in Er. unfold bind in Er. destruct (a v) as [b' v1|]; [eauto|discriminate Er]. }
  destruct Ph as [t u evs Hs T|s kk mu d t u evs Hs Hkk St T].
  - destruct (track_step w0 w t u evs cur F1 F2 B a b w2 Ha (Def quiet t u evs (works_quiet _ _ P) (T quiet)) Hp Hh E Ho)
      as (mm2 & t2 & u2 & new & H01 & H02 & H1 & H2 & H3 & H4 & H5 & H6).
    exists mm2, new. split; [exact H01|]. split; [|split; [exact H02|auto]]. apply (ph_before _ _ _ _ _ t2 u2 _ Hs). intros drv. apply (H6 _ _ _ (m drv) (fun b0 => k b0 drv)); [apply T|apply Hk].
  - destruct (track_step w0 w t u evs cur F1 F2 B a b w2 Ha (Def _ t u evs (works_low _ _ _ _ _ P Hkk St) T) Hp Hh E Ho)
      as (mm2 & t2 & u2 & new & H01 & H02 & H1 & H2 & H3 & H4 & H5 & H6).
    exists mm2, new. split; [exact H01|]. split; [|split; [exact H02|auto]]. apply (ph_after _ _ _ _ _ s kk mu d t2 u2 _ Hs Hkk St). apply (H6 _ _ _ (m (lowdev (dv kk) mu)) (fun b0 => k b0 (lowdev (dv kk) mu))); [apply T|apply Hk].
Qed.

(** the command is handed over *)
Lemma phase_submit q mm0 subs m cur ev o w s k kk d c w2 : prepared_in q mm0 -> phase q mm0 subs m cur ev o ->
  alloc_cb w = alloc_cb w0 -> dealloc_cb w = dealloc_cb w0 -> present cur w -> (forall x, 2 ^ 64 <= x -> cur x = None) ->
  next_submission subs m s k -> ok kk -> stores w d -> hand_over (dv kk) (length subs) s w = Ret c w2 ->
  o = None /\ exists cur2, phase q mm0 (subs ++ [s]) (k c) cur2 ev (Some (snd (out kk (q_io q) d))) /\ present cur2 w2 /\ (forall x, 2 ^ 64 <= x -> cur2 x = None) /\
    alloc_cb w2 = alloc_cb w0 /\ dealloc_cb w2 = dealloc_cb w0 /\ stores w2 (fst (out kk (q_io q) d)) /\
    (forall x, x < 2 ^ 64 -> cur x = None -> cur2 x = None /\ mem w2 x = mem w x).
Proof.
  intros P Ph F1 F2 Hp Hh (Hk & Rk) Hkk St E. destruct (prepared_facts q mm0 P) as (B1 & B2 & B3 & B4 & B5 & B6).
  set (x := q_io q) in *. set (kz := q_kz q) in *.
  pose proof (Hcarry kk x kz Hkk B1 B2 B3 B4) as C. set (drv := dv kk) in *.
  destruct Ph as [t u evs -> T|s1 k1 mu d1 t u evs -> Hk1 St1 T].
  2:{ exfalso. destruct (probe_ok cur w u t evs) as ((A1 & A2 & A3) & _ & P3). set (v := probe cur w u t evs) in *.
      destruct (works_low q mm0 k1 mu d1 P Hk1 St1 v) as (r & v' & s' & Er & Es & _). rewrite (T v) in Er; [|split; [exact A1|split; congruence]|reflexivity|reflexivity|exact P3].
      rewrite Hk in Er. unfold bind, hand_over in Er. destruct (lowdev (dv k1) mu _ s (mem v)) as [mm cc].
      destruct (runs_prefix _ _ (Rk _) _ _ _ _ Er) as [[l' Hl] _]. rewrite Es in Hl. discriminate Hl. }
  split; [reflexivity|]. cbn [length app] in *.
  destruct (probe_ok cur w u t evs) as ((A1 & A2 & A3) & _ & P3). set (v := probe cur w u t evs) in *.
  assert (Al : alone cur w0 v) by (split; [exact A1|split; congruence]).
  assert (Tv : forall dr, thread_of q dr (rewind v mm0) = (let '(mm, cc) := dr 0%nat s cur in k (cc mod 2 ^ 128) dr (set_mem v mm))).
  { intros dr. rewrite (T dr v Al eq_refl eq_refl P3), Hk. unfold bind, hand_over. rewrite A1. destruct (dr 0%nat s cur). reflexivity. }
  destruct P as [Hm0 P]. pose proof (P (rewind v mm0) eq_refl) as P0.
  destruct (adapter_io (q_wrs q) kz (q_wild q) (q_cmnd q) (rewind v mm0) x P0) as (s' & m1 & Hs & Hb & Hoth & Hdat & R). rewrite B5 in *.
  assert (Hm1 : forall y, 2 ^ 64 <= y -> m1 y = None) by (intros y Hy; rewrite Hoth by lia; apply Hm0; exact Hy).
  destruct (R quiet (quiet_gentle _ _ _ _)) as (r & v' & Eq & Es & Tr & _).
  change (scsi_queuecommand quiet (q_wrs q) kz (q_wild q) (q_cmnd q)) with (thread_of q quiet) in Eq. rewrite Tv in Eq. cbn [quiet] in Eq.
  destruct (runs_prefix _ _ (Rk _) _ _ _ _ Eq) as [[l' Hl] [e He]]. rewrite Es in Hl. injection Hl as -> <-.
  cbn [rewind trace app] in Tr. cbn [set_mem trace] in He.
  assert (Hlow : forall size n p, In (EvAlloc size n p) e -> p <> 0 -> p + size * n <= 2 ^ 64).
  { intros size n p Hin _. assert (Hin' : In (EvAlloc size n p) (trace v')) by (rewrite He; apply in_or_app; right; exact Hin).
    rewrite Tr in Hin'. destruct Hin' as [Q|[Q|[]]]; [|discriminate Q]. injection Q as <- <- <-. lia. }
  (* the thread's memory is that of the run alone *)
  assert (Cur : forall y, y < 2 ^ 64 -> cur y = m1 y).
  { intros y Hy. destruct (R spy (spy_gentle _ _ _ _ Hm1)) as (r2 & v2 & E2 & _ & _ & Hsp).
    change (scsi_queuecommand spy (q_wrs q) kz (q_wild q) (q_cmnd q)) with (thread_of q spy) in E2. rewrite Tv in E2. cbn [spy] in E2.
    destruct (frame_run _ _ (Rk _) _ _ _ _ e Eq Es) with (drv' := spy) (mu := spied cur) as (mu' & E3 & _ & H3).
    - exact Hh.
    - exact He.
    - exact Hlow.
    - intros z Hz. cbn [mem set_mem]. unfold spied. replace (z <? 2 ^ 64) with true by lia. reflexivity.
    - change (k (0 mod 2 ^ 128) spy (set_mem v (spied cur)) = Ret r (set_mem v' mu')) in E3. rewrite E2 in E3. apply ret_eq in E3 as [_ ->].
      specialize (Hsp (2 ^ 64 + y)). cbn [mem set_mem spy fst] in Hsp. rewrite H3 in Hsp by lia. unfold spied in Hsp.
      replace (2 ^ 64 + y <? 2 ^ 64) with false in Hsp by lia. replace (2 ^ 64 + y - 2 ^ 64) with y in Hsp by lia. apply Hsp. lia. }
  assert (Own : forall y, kz <= y < kz + io_len x -> cur y <> None) by (intros y Hy; rewrite Cur by lia; apply Hb; exact Hy).
  set (mu := mem w). assert (Smu : forall v0, mem v0 = mu -> stores v0 d).
  { intros v0 Hv0 lun b o H1 H2 H3. rewrite Hv0. apply St; assumption. }
  assert (Rel : forall y, relevant x kz y -> join cur mu y = mu y).
  { intros y [Hy|Hy]; [|apply join_high; exact Hy]. rewrite join_low by lia. destruct (cur y) as [z|] eqn:Z; [|exfalso; apply (Own y Hy); exact Z]. symmetry. apply (Hp y z Z). }
  destruct (carries_local x kz drv s _ _ C Hs Rel) as [L1 L2].
  unfold hand_over in E. fold mu in E. destruct (drv 0%nat s mu) as [mw cw] eqn:Ed. apply ret_eq in E as [<- <-]. cbn [fst snd] in *.
  set (cur2 := fst (lowdev drv mu 0%nat s cur)).
  assert (C2 : forall y, y < 2 ^ 64 -> cur2 y = fst (drv 0%nat s (join cur mu)) y).
  { intros y Hy. unfold cur2, lowdev. cbn [fst]. apply join_low. exact Hy. }
  assert (Mw : forall y, ~ relevant x kz y -> mw y = mem w y).
  { intros y Hy. pose proof (carries_else x kz drv s mu y C Hs Hy) as Q. rewrite Ed in Q. exact Q. }
  exists cur2. split; [|split; [|split; [|split; [exact F1|split; [exact F2|split]]]]].
  - apply (ph_after _ _ _ _ _ s kk mu d t u evs eq_refl Hkk Smu). fold drv. intros v3 (V1 & V2 & V3) T3 Tr3 D3.
    assert (Q := T (lowdev drv mu) (set_mem v3 cur)). rewrite Hk in Q. unfold bind, hand_over in Q. cbn [mem set_mem length] in Q.
    assert (V : set_mem (set_mem v3 cur) (fst (lowdev drv mu 0%nat s cur)) = v3) by (fold cur2; rewrite <- V1; destruct v3; reflexivity).
    assert (Sn : snd (lowdev drv mu 0%nat s cur) = cw) by exact L1.
    destruct (lowdev drv mu 0%nat s cur) as [ml cl]. cbn [fst snd] in V, Sn. subst cl. rewrite V in Q.
    apply Q; [split; [reflexivity|split; assumption]|exact T3|exact Tr3|exact D3].
  - intros y z Hy. cbn [mem set_mem]. destruct (N.lt_ge_cases y (2 ^ 64)) as [L|L].
    + rewrite C2 in Hy by exact L. destruct (N.lt_ge_cases y kz) as [K1|K1]; [|destruct (N.lt_ge_cases y (kz + io_len x)) as [K2|K2]].
      * assert (Nr : ~ relevant x kz y) by (unfold relevant; lia). rewrite (carries_else x kz drv s _ y C Hs Nr), join_low in Hy by exact L. rewrite Mw by exact Nr. apply Hp. exact Hy.
      * rewrite <- L2; [exact Hy|]. left. lia.
      * assert (Nr : ~ relevant x kz y) by (unfold relevant; lia). rewrite (carries_else x kz drv s _ y C Hs Nr), join_low in Hy by exact L. rewrite Mw by exact Nr. apply Hp. exact Hy.
    + unfold cur2, lowdev in Hy. cbn [fst] in Hy. rewrite join_high in Hy by exact L. discriminate Hy.
  - intros y Hy. unfold cur2, lowdev. cbn [fst]. apply join_high. exact Hy.
  - (* the medium *)
    set (W := rewind v (join mm0 mu)).
    assert (PW : scsi_presents W kz (q_cmnd q) x) by (apply (presents_low (rewind v mm0)); [exact P0|]; intros y Hy; apply join_low; exact Hy).
    assert (SW : stores W d) by (apply (stores_join mm0 mu d Smu); reflexivity).
    destruct (Hseq kk (q_wrs q) kz (q_wild q) (q_cmnd q) W x d Hkk SW PW) as (r2 & v2 & E2 & _ & S2). fold drv in E2.
    destruct (adapter_io (q_wrs q) kz (q_wild q) (q_cmnd q) W x PW) as (s2 & m2 & Hs2 & Hb2 & Ho2 & Hd2 & R2). rewrite B5 in *.
    assert (S3 : forall v0, mem v0 = m2 -> stores v0 d).
    { intros v0 Hv0 lun b o H1 H2 H3. rewrite Hv0, Ho2; [apply SW; assumption|]. pose proof (medium_high (lun + 1) b o). lia. }
    destruct (R2 drv (big_gentle x kz drv s2 m2 d C Hs2 B4 S3 Hb2)) as (r3 & v3 & E3 & _ & _ & Hi3). rewrite E2 in E3. apply ret_eq in E3 as [_ <-].
    apply (stores_same v2); [exact S2|]. intros y Hy. cbn [mem set_mem]. rewrite Hi3 by exact Hy.
    pose proof (carries_medium x kz drv s s2 mu m2 C Hs Hs2 B6) as Q. rewrite Ed in Q. apply Q; [| |exact Hy].
    + intros z Hz. rewrite Ho2 by lia. cbn [W rewind mem]. rewrite join_high by exact Hz. reflexivity.
    + revert Hdat Hd2 Rel Cur. clear -B6. intros Hdat Hd2 Rel Cur. unfold io_len, relevant in *.
      destruct x as [lu lb n|lu lb data]; [exact I|]. intros z Hz. set (i := N.to_nat (z - kz)).
      destruct (nth_error data i) as [bb|] eqn:Nb.
      * assert (Zi : z = kz + N.of_nat i) by lia. rewrite Zi at 2. rewrite (Hd2 _ _ Nb). rewrite <- (Rel z) by (left; exact Hz). rewrite join_low by lia. rewrite Cur by lia. rewrite Zi. apply Hdat. exact Nb.
      * exfalso. apply nth_error_None in Nb. cbn [io_blocks] in Hz. unfold blocks_of in Hz. pose proof (N.mul_div_le (N.of_nat (length data)) 4096 ltac:(discriminate)). lia.
  - intros y Hy Hc. assert (Nr : ~ relevant x kz y) by (intros [Z|Z]; [apply (Own y Z); exact Hc|lia]).
    split; [|apply Mw; exact Nr]. rewrite C2 by exact Hy. rewrite (carries_else x kz drv s _ y C Hs Nr), join_low by exact Hy. exact Hc.
Qed.

(** the thread is finished *)
Lemma phase_done q mm0 subs m cur ev o w r : prepared_in q mm0 -> phase q mm0 subs m cur ev o -> alloc_cb w = alloc_cb w0 -> dealloc_cb w = dealloc_cb w0 ->
  present cur w -> (forall x, 2 ^ 64 <= x -> cur x = None) -> (forall drv, finished (m drv) r) -> exists a, o = Some a /\ scsi_observes w (q_cmnd q) r (q_io q) a.
Proof.
  intros P Ph F1 F2 Hp Hhigh Fin. destruct (prepared_facts q mm0 P) as (B1 & B2 & B3 & B4 & B5 & B6).
  destruct Ph as [t u evs -> T|s k mu d t u evs -> Hk St T].
  { exfalso. destruct (probe_ok cur w u t evs) as ((A1 & A2 & A3) & _ & P3). set (v := probe cur w u t evs) in *.
    destruct P as [Hm0 P].
    destruct (adapter_io (q_wrs q) (q_kz q) (q_wild q) (q_cmnd q) (rewind v mm0) (q_io q) (P (rewind v mm0) eq_refl)) as (s' & m1 & _ & Hb & Ho & _ & R). rewrite B5 in *.
    destruct (R spy) as (r' & v' & Er & _ & _ & Hi).
    { apply spy_gentle. intros y Hy. rewrite Ho by lia. apply Hm0. exact Hy. }
    change (scsi_queuecommand spy (q_wrs q) (q_kz q) (q_wild q) (q_cmnd q)) with (thread_of q spy) in Er.
    rewrite (T spy v) in Er; [|split; [exact A1|split; congruence]|reflexivity|reflexivity|exact P3].
    rewrite Fin in Er. apply ret_eq in Er as [_ <-]. unfold io_len in *. specialize (Hi (2 ^ 64 + q_kz q) ltac:(lia)). rewrite A1, Hhigh in Hi by lia. cbn [spy fst] in Hi. unfold spied in Hi.
    replace (2 ^ 64 + q_kz q <? 2 ^ 64) with false in Hi by lia. replace (2 ^ 64 + q_kz q - 2 ^ 64) with (q_kz q) in Hi by lia. apply (Hb (q_kz q)); [lia|]. symmetry. exact Hi. }
  eexists. split; [reflexivity|].
  destruct (probe_ok cur w u t evs) as ((A1 & A2 & A3) & _ & P3). set (v := probe cur w u t evs) in *.
  destruct (works_low q mm0 k mu d P Hk St v) as (r' & v' & s' & Er & Es & Hs & Tr). assert (Er' := Er). rewrite (T v) in Er'; [|split; [exact A1|split; congruence]|reflexivity|reflexivity|exact P3].
  rewrite Fin in Er'. apply ret_eq in Er' as [<- <-]. destruct P as [Hm0 P].
  pose proof (Hcarry k (q_io q) (q_kz q) Hk B1 B2 B3 B4) as C.
  destruct (lift_run [] (thread_of q) (thread_runs q) (dv k) mu s' (rewind v mm0) r v (trace v) Er Es) with (mb := join mm0 mu) as (mb' & E2 & L2).
  - exact Hm0.
  - reflexivity.
  - intros size n p Hin _. rewrite Tr in Hin. destruct Hin as [Q|[Q|[]]]; [|discriminate Q]. injection Q as <- <- <-. lia.
  - intros m1 m2 Hm. cbn [length]. destruct (carries_local _ _ _ s' m1 m2 C Hs) as [L1 L2]; [auto|]. split; [exact L1|]. intros y.
    destruct (N.lt_ge_cases y (2 ^ 64)) as [L|L]; [|apply L2; right; exact L]. destruct (N.lt_ge_cases y (q_kz q)) as [K1|K1]; [|destruct (N.lt_ge_cases y (q_kz q + io_len (q_io q))) as [K2|K2]].
    + rewrite !(carries_else _ _ _ s' _ y C Hs) by (unfold relevant; lia). apply Hm.
    + apply L2. left. lia.
    + rewrite !(carries_else _ _ _ s' _ y C Hs) by (unfold relevant; lia). apply Hm.
  - intros y Hy. apply join_low. exact Hy.
  - intros y Hy. apply join_high. exact Hy.
  - set (W := set_mem (rewind v mm0) (join mm0 mu)) in *.
    assert (PW : scsi_presents W (q_kz q) (q_cmnd q) (q_io q)) by (apply (presents_low (rewind v mm0)); [apply P; reflexivity|]; intros y Hy; apply join_low; exact Hy).
    assert (SW : stores W d) by (apply (stores_join mm0 mu d St); reflexivity).
    destruct (Hseq k (q_wrs q) (q_kz q) (q_wild q) (q_cmnd q) W (q_io q) d Hk SW PW) as (r2 & v2 & E3 & O & _).
    change (scsi_queuecommand (dv k) (q_wrs q) (q_kz q) (q_wild q) (q_cmnd q)) with (thread_of q (dv k)) in E3. rewrite E2 in E3. apply ret_eq in E3 as [<- <-].
    apply (observes_low W w (q_kz q) _ _ _ _ PW _ O). intros y z Hy Hz. cbn [mem set_mem] in Hz. rewrite L2, A1 in Hz by exact Hy. apply Hp. exact Hz.
Qed.

(** allocations are those of the run alone *)
Lemma phase_honest q mm0 subs m cur ev o w B (a : M B) k b w2 : prepared_in q mm0 -> phase q mm0 subs m cur ev o ->
  alloc_cb w = alloc_cb w0 -> dealloc_cb w = dealloc_cb w0 -> present cur w -> next_action subs m a k -> a w = Ret b w2 ->
  (ev = [] -> unused w (q_kz q) (io_len (q_io q))) ->
  honest w w2 /\ forall new, trace w2 = trace w ++ new -> forall size n p, new = [EvAlloc size n p] -> ev = [] /\ size = 1 /\ n = io_len (q_io q) /\ p = q_kz q.
Proof.
  intros P Ph F1 F2 Hp (Ha & Hk & Rk) E Hun. destruct (prepared_facts q mm0 P) as (B1 & B2 & B3 & B4 & B5 & B6).
  assert (X : forall new, trace w2 = trace w ++ new -> forall size n p, new = [EvAlloc size n p] -> ev = [] /\ size = 1 /\ n = io_len (q_io q) /\ p = q_kz q).
  { intros new Tn size n p ->. destruct (phase_runs _ _ _ _ _ _ _ P Ph) as (drv & t & u & W & T).
    destruct (probe_ok cur w u t ev) as ((A1 & A2 & A3) & P2 & P3). set (v := probe cur w u t ev) in *.
    destruct (W v) as (r & v' & s & Er & _ & _ & Tr). rewrite (T v) in Er; [|split; [exact A1|split; congruence]|reflexivity|reflexivity|exact P3].
    rewrite Hk in Er. unfold bind in Er. destruct (a v) as [b' v1|] eqn:Ev; [|discriminate Er].
    destruct (action_eff B a v b' v1 Ha Ev) as (eff & d & new & Hu & _).
    rewrite (Hu v) in Ev; [|auto|reflexivity|reflexivity|split; [reflexivity|split; reflexivity]]. apply ret_eq in Ev as [_ <-].
    rewrite (Hu w) in E.
    2:{ rewrite A1. exact Hp. } 2,3: congruence.
    2:{ intros _. destruct P2 as (Q1 & Q2 & Q3). split; [|split]; congruence. }
    apply ret_eq in E as [_ <-]. cbn [after trace] in Tn. apply app_inv_head in Tn. subst new.
    destruct (runs_prefix _ _ (Rk _) _ _ _ _ Er) as [_ [e He]]. cbn [after trace] in He. rewrite Tr in He. change (trace v) with ev in He.
    destruct ev as [|x ev]; [|exfalso; destruct ev as [|x' ev]; [|destruct ev]; discriminate He]. injection He as <- <- <- _. auto. }
  split; [|exact X]. split.
  - intros size n p Tn Z. destruct (X _ Tn _ _ _ eq_refl) as (He & -> & -> & ->). rewrite N.mul_1_l. apply Hun. exact He.
  - intros size n p Tn Z. destruct (X _ Tn _ _ _ eq_refl) as (He & -> & -> & ->). lia.
Qed.

Variables (qs : list queued) (mems : list memory) (d0 : disk).
Hypothesis Hown : each_own mems w0.
Hypothesis Hprep : Forall2 prepared_in qs mems.
Hypothesis Hst : stores w0 d0.

Record lin_inv (l : list (nat * bool)) (w : world) (st : list state) (cur : nat -> memory) (ord : list (nat * answer)) (d : disk) : Prop := {
  li_len : length st = length qs;
  li_runs : forall subs m, In (subs, m) st -> runs_on subs m;
  li_flags : alloc_cb w = alloc_cb w0 /\ dealloc_cb w = dealloc_cb w0;
  li_phase : forall i q mm0 subs m, nth_error qs i = Some q -> nth_error mems i = Some mm0 -> nth_error st i = Some (subs, m) ->
    exists ev o, phase q mm0 subs m (cur i) ev o /\ match o with None => ~ In i (map fst ord) | Some a => In (i, a) ord end /\
      (room_for qs w0 -> ev = [] -> unused w (q_kz q) (io_len (q_io q)));
  li_here : forall i, (i < length qs)%nat -> present (cur i) w;
  li_high : forall i x, (i < length qs)%nat -> 2 ^ 64 <= x -> cur i x = None;
  li_sep : forall i j, (i < length qs)%nat -> (j < length qs)%nat -> i <> j -> separate (cur i) (cur j);
  li_frame : forall x, x < 2 ^ 64 -> mem w0 x <> None -> (forall mm, In mm mems -> mm x = None) ->
    mem w x = mem w0 x /\ forall i, (i < length qs)%nat -> cur i x = None;
  li_ord : one_by_one step qs d0 ord d;
  li_lab : map fst ord = order_of l;
  li_nodup : NoDup (map fst ord);
  li_stores : stores w d }.

Lemma lens : length mems = length qs.
Proof. symmetry. exact (F2_len _ _ _ Hprep). Qed.
Lemma prep_nth i q mm : nth_error qs i = Some q -> nth_error mems i = Some mm -> prepared_in q mm.
Proof. apply (F2_nth _ _ _ Hprep). Qed.
Lemma lin_start : lin_inv [] w0 (queue_of qs) (fun i => nth i mems (fun _ => None)) [] d0.
Proof.
  pose proof lens as Hlen. destruct Hown as [O1 O2]. split.
  - apply map_length.
  - intros subs m Hin. apply in_map_iff in Hin as (q & E & _). apply pair_eq in E as [<- <-]. apply thread_runs.
  - split; reflexivity.
  - intros i q mm0 subs m Hq Hm Hs. unfold queue_of in Hs. rewrite nth_error_map, Hq in Hs. cbn [option_map] in Hs. apply Some_eq, pair_eq in Hs as [<- <-].
    exists [], None. split; [|split; [intros []|]].
    + apply (ph_before _ _ _ _ _ 0%nat w0 [] eq_refl). intros drv. rewrite (nth_error_nth _ _ _ Hm). apply track_start.
    + intros [H _] _. destruct (prepared_facts q mm0 (prep_nth _ _ _ Hq Hm)) as (_ & _ & _ & _ & B5 & _). rewrite <- B5. apply H. eapply nth_error_In. exact Hq.
  - intros i Hi. apply (O1 i). apply nth_error_nth'. lia.
  - intros i x Hi Hx. destruct (nth_error qs i) as [q|] eqn:Hq; [|apply nth_error_None in Hq; lia].
    assert (Hm : nth_error mems i = Some (nth i mems (fun _ => None))) by (apply nth_error_nth'; lia). apply (prep_nth _ _ _ Hq Hm). exact Hx.
  - intros i j Hi Hj Hn. apply (O2 i j); [apply nth_error_nth'; lia|apply nth_error_nth'; lia|exact Hn].
  - intros x _ Hx Hm. split; [reflexivity|]. intros i Hi. apply Hm. apply nth_In. lia.
  - constructor.
  - reflexivity.
  - constructor.
  - exact Hst.
Qed.

Lemma order_snoc l i b : order_of (l ++ [(i, b)]) = order_of l ++ (if b then [i] else []).
Proof. unfold order_of. rewrite filter_app, map_app. cbn [filter snd]. destruct b; reflexivity. Qed.

(** the other threads *)
Section Others.
Variables (i : nat) (cur : nat -> memory) (cur2 : memory) (w w2 : world).
Hypothesis Hi : (i < length qs)%nat.
Hypothesis Hhere : forall j, (j < length qs)%nat -> present (cur j) w.
Hypothesis Hhigh : forall j x, (j < length qs)%nat -> 2 ^ 64 <= x -> cur j x = None.
Hypothesis Hsep : forall j k, (j < length qs)%nat -> (k < length qs)%nat -> j <> k -> separate (cur j) (cur k).
Hypothesis Hfr : forall x, x < 2 ^ 64 -> mem w x <> None -> cur i x = None -> cur2 x = None /\ mem w2 x = mem w x.
Hypothesis Hp2 : present cur2 w2.
Hypothesis Hh2 : forall x, 2 ^ 64 <= x -> cur2 x = None.
Let cur' j := if Nat.eqb j i then cur2 else cur j.

Lemma others_one j : (j < length qs)%nat -> j <> i -> present (cur j) w2 /\ separate cur2 (cur j).
Proof.
  intros Hj Hn. pose proof (Hsep i j Hi Hj (not_eq_sym Hn)) as Sep. split.
  - intros x v Hx. pose proof (Hhere j Hj x v Hx) as Hx1. destruct (N.lt_ge_cases x (2 ^ 64)) as [L|L]; [|rewrite (Hhigh j x Hj L) in Hx; discriminate Hx].
    destruct (Hfr x L) as [_ Q]; [congruence| |congruence]. destruct (Sep x) as [Q|Q]; [exact Q|congruence].
  - intros x. destruct (cur j x) as [v|] eqn:Ex; [|auto]. left. pose proof (Hhere j Hj x v Ex) as Hx1.
    destruct (N.lt_ge_cases x (2 ^ 64)) as [L|L]; [|apply Hh2; exact L]. apply Hfr; [exact L|congruence|]. destruct (Sep x) as [Q|Q]; [exact Q|congruence].
Qed.
Lemma others_here j : (j < length qs)%nat -> present (cur' j) w2.
Proof. intros Hj. unfold cur'. destruct (Nat.eqb_spec j i) as [->|Hn]; [exact Hp2|]. apply others_one; assumption. Qed.
Lemma others_high j x : (j < length qs)%nat -> 2 ^ 64 <= x -> cur' j x = None.
Proof. intros Hj Hx. unfold cur'. destruct (Nat.eqb_spec j i) as [->|Hn]; [apply Hh2; exact Hx|]. apply Hhigh; assumption. Qed.
Lemma others_sep j k : (j < length qs)%nat -> (k < length qs)%nat -> j <> k -> separate (cur' j) (cur' k).
Proof.
  intros Hj Hk Hn. unfold cur'. destruct (Nat.eqb_spec j i) as [->|Hn1], (Nat.eqb_spec k i) as [->|Hn2]; [congruence| | |].
  - apply others_one; assumption.
  - intros x. destruct (proj2 (others_one j Hj Hn1) x); auto.
  - apply Hsep; assumption.
Qed.
End Others.

Lemma lin_step l w st : together dev w0 (queue_of qs) l w st -> exists cur ord d, lin_inv l w st cur ord d.
Proof.
  pose proof lens as Hlen.
  induction 1 as [|l w l1 subs m l2 B a k b w2 _ (cur & ord & d & I) Hn E Ho|l w l1 subs m l2 s k drv c w2 _ (cur & ord & d & I) Hn Hdv E].
  - do 3 eexists. apply lin_start.
  - destruct (li_flags _ _ _ _ _ _ I) as [F1 F2]. set (i := length l1).
    assert (Hi : (i < length qs)%nat) by (rewrite <- (li_len _ _ _ _ _ _ I), app_length; cbn [length]; unfold i; lia).
    destruct (nth_error qs i) as [q|] eqn:Eq; [|apply nth_error_None in Eq; lia].
    destruct (nth_error mems i) as [mm0|] eqn:Em; [|apply nth_error_None in Em; lia].
    assert (Ei : nth_error (l1 ++ (subs, m) :: l2) i = Some (subs, m)) by (rewrite Properties21.nth_mid; unfold i; rewrite Nat.eqb_refl; reflexivity).
    destruct (li_phase _ _ _ _ _ _ I i q mm0 subs m Eq Em Ei) as (ev & o & Ph & Oo & Rm).
    pose proof (prep_nth _ _ _ Eq Em) as Pq. destruct (prepared_facts q mm0 Pq) as (_ & _ & _ & _ & B5 & _).
    destruct (phase_act q mm0 subs m (cur i) ev o w B a k b w2 Pq Ph F1 F2 (li_here _ _ _ _ _ _ I i Hi) (fun x => li_high _ _ _ _ _ _ I i x Hi) Hn E Ho)
      as (cur2 & new & Tn & Ph2 & Dom & Hp2 & Hh2 & G1 & G2 & Fr).
    assert (Al : room_for qs w0 -> forall x, mem w x = None -> mem w2 x = None \/ ev = [] /\ new <> [] /\ q_kz q <= x < q_kz q + io_len (q_io q)).
    { intros Room x Hx. destruct (Dom x Hx) as [Q|(size & n & p & Hnew & Hp0 & Hr)]; [left; exact Q|right].
      destruct (phase_honest q mm0 subs m (cur i) ev o w B a k b w2 Pq Ph F1 F2 (li_here _ _ _ _ _ _ I i Hi) Hn E (Rm Room)) as [_ X].
      destruct (X new Tn size n p Hnew) as (-> & -> & -> & ->). split; [reflexivity|]. split; [rewrite Hnew; discriminate|lia]. }
    exists (fun j => if Nat.eqb j i then cur2 else cur j), ord, d. split.
    + rewrite <- (li_len _ _ _ _ _ _ I), !app_length. reflexivity.
    + intros sb mt Hin. apply in_app_or in Hin as [Hin|[Hin|Hin]].
      * apply (li_runs _ _ _ _ _ _ I). apply in_or_app. left. exact Hin.
      * apply pair_eq in Hin as [<- <-]. apply Hn.
      * apply (li_runs _ _ _ _ _ _ I). apply in_or_app. right. right. exact Hin.
    + split; assumption.
    + intros j qj mmj sb mt Hq Hm Hs. destruct (Nat.eqb_spec j i) as [->|Hne].
      * rewrite Properties21.nth_mid in Hs. unfold i in Hs at 1. rewrite Nat.eqb_refl in Hs. apply Some_eq, pair_eq in Hs as [<- <-]. rewrite Eq in Hq. injection Hq as <-. rewrite Em in Hm. injection Hm as <-.
        exists (ev ++ new), o. split; [exact Ph2|]. split; [exact Oo|]. intros Room Hnil. apply app_eq_nil in Hnil as [He Hw]. intros x Hx.
        destruct (Al Room x) as [Q|(_ & Q & _)]; [apply (Rm Room He); exact Hx|exact Q|contradiction].
      * rewrite (Properties21.nth_mid_other l1 l2 _ (subs, m) j Hne) in Hs. destruct (li_phase _ _ _ _ _ _ I j qj mmj sb mt Hq Hm Hs) as (evj & oj & Phj & Ooj & Rmj).
        exists evj, oj. split; [exact Phj|]. split; [exact Ooj|]. intros Room Hnil x Hx. destruct (Al Room x) as [Q|(_ & _ & Q)]; [apply (Rmj Room Hnil); exact Hx|exact Q|].
        exfalso. destruct Room as [_ Room]. apply (Room i j q qj x Eq Hq (not_eq_sym Hne)); [lia|].
        destruct (prepared_facts qj mmj (prep_nth _ _ _ Hq Hm)) as (_ & _ & _ & _ & B5j & _). lia.
    + intros j Hj. eapply (others_here i cur cur2 w w2 Hi (li_here _ _ _ _ _ _ I) (li_high _ _ _ _ _ _ I) (li_sep _ _ _ _ _ _ I)); auto. intros x Hx. apply Hh2. exact Hx.
    + intros j x Hj Hx. apply (others_high i cur cur2 (li_high _ _ _ _ _ _ I)); auto. intros y Hy. apply Hh2. exact Hy.
    + intros j j' Hj Hj' Hne. eapply (others_sep i cur cur2 w w2 Hi (li_here _ _ _ _ _ _ I) (li_high _ _ _ _ _ _ I) (li_sep _ _ _ _ _ _ I)); auto. intros y Hy. apply Hh2. exact Hy.
    + intros x L Hx Hm. destruct (li_frame _ _ _ _ _ _ I x L Hx Hm) as [Q1 Q2]. destruct (Fr x) as [Q3 Q4]; [congruence|apply Q2; exact Hi|].
      split; [congruence|]. intros j Hj. destruct (Nat.eqb_spec j i) as [->|_]; [exact Q3|apply Q2; exact Hj].
    + apply (li_ord _ _ _ _ _ _ I).
    + rewrite order_snoc, app_nil_r. apply (li_lab _ _ _ _ _ _ I).
    + apply (li_nodup _ _ _ _ _ _ I).
    + apply (stores_same w); [apply (li_stores _ _ _ _ _ _ I)|]. intros y Hy. apply Hh2. exact Hy.
  - destruct (li_flags _ _ _ _ _ _ I) as [F1 F2]. set (i := length l1).
    assert (Hi : (i < length qs)%nat) by (rewrite <- (li_len _ _ _ _ _ _ I), app_length; cbn [length]; unfold i; lia).
    destruct (nth_error qs i) as [q|] eqn:Eq; [|apply nth_error_None in Eq; lia].
    destruct (nth_error mems i) as [mm0|] eqn:Em; [|apply nth_error_None in Em; lia].
    assert (Ei : nth_error (l1 ++ (subs, m) :: l2) i = Some (subs, m)) by (rewrite Properties21.nth_mid; unfold i; rewrite Nat.eqb_refl; reflexivity).
    destruct (li_phase _ _ _ _ _ _ I i q mm0 subs m Eq Em Ei) as (ev & o & Ph & Oo & Rm).
    pose proof (prep_nth _ _ _ Eq Em) as Pq. destruct (prepared_facts q mm0 Pq) as (_ & _ & _ & _ & B5 & _).
    destruct (Hdev drv Hdv) as (kk & Hkk & ->).
    destruct (phase_submit q mm0 subs m (cur i) ev o w s k kk d c w2 Pq Ph F1 F2 (li_here _ _ _ _ _ _ I i Hi) (fun x => li_high _ _ _ _ _ _ I i x Hi) Hn Hkk (li_stores _ _ _ _ _ _ I) E)
      as (-> & cur2 & Ph2 & Hp2 & Hh2 & G1 & G2 & S2 & Fr).
    assert (Fr' : forall x, x < 2 ^ 64 -> mem w x <> None -> cur i x = None -> cur2 x = None /\ mem w2 x = mem w x) by (intros x L _ Hx; apply Fr; assumption).
    assert (Al : forall x, x < 2 ^ 64 -> mem w x = None -> mem w2 x = None).
    { intros x L Hx. destruct (Fr x L) as [_ Q]; [|congruence]. destruct (cur i x) as [z|] eqn:Z; [|reflexivity]. rewrite (li_here _ _ _ _ _ _ I i Hi x z Z) in Hx. discriminate Hx. }
    exists (fun j => if Nat.eqb j i then cur2 else cur j), (ord ++ [(i, snd (out kk (q_io q) d))]), (fst (out kk (q_io q) d)). split.
    + rewrite <- (li_len _ _ _ _ _ _ I), !app_length. reflexivity.
    + intros sb mt Hin. apply in_app_or in Hin as [Hin|[Hin|Hin]].
      * apply (li_runs _ _ _ _ _ _ I). apply in_or_app. left. exact Hin.
      * apply pair_eq in Hin as [<- <-]. apply Hn.
      * apply (li_runs _ _ _ _ _ _ I). apply in_or_app. right. right. exact Hin.
    + split; assumption.
    + intros j qj mmj sb mt Hq Hm Hs. destruct (prepared_facts qj mmj (prep_nth _ _ _ Hq Hm)) as (_ & _ & _ & _ & B5j & B6j). destruct (Nat.eqb_spec j i) as [->|Hne].
      * rewrite Properties21.nth_mid in Hs. unfold i in Hs at 1. rewrite Nat.eqb_refl in Hs. apply Some_eq, pair_eq in Hs as [<- <-]. rewrite Eq in Hq. injection Hq as <-. rewrite Em in Hm. injection Hm as <-.
        exists ev, (Some (snd (out kk (q_io q) d))). split; [exact Ph2|]. split; [apply in_or_app; right; left; reflexivity|]. intros Room Hnil x Hx. apply Al; [lia|]. apply (Rm Room Hnil). exact Hx.
      * rewrite (Properties21.nth_mid_other l1 l2 _ (subs, m) j Hne) in Hs. destruct (li_phase _ _ _ _ _ _ I j qj mmj sb mt Hq Hm Hs) as (evj & oj & Phj & Ooj & Rmj).
        exists evj, oj. split; [exact Phj|]. split.
        { destruct oj; [apply in_or_app; left; exact Ooj|]. rewrite map_app. intros Hin. apply in_app_or in Hin as [Hin|[Hin|[]]]; [exact (Ooj Hin)|]. cbn [fst] in Hin. congruence. }
        intros Room Hnil x Hx. apply Al; [lia|]. apply (Rmj Room Hnil). exact Hx.
    + intros j Hj. eapply (others_here i cur cur2 w w2 Hi (li_here _ _ _ _ _ _ I) (li_high _ _ _ _ _ _ I) (li_sep _ _ _ _ _ _ I)); auto.
    + intros j x Hj Hx. apply (others_high i cur cur2 (li_high _ _ _ _ _ _ I)); auto.
    + intros j j' Hj Hj' Hne. eapply (others_sep i cur cur2 w w2 Hi (li_here _ _ _ _ _ _ I) (li_high _ _ _ _ _ _ I) (li_sep _ _ _ _ _ _ I)); auto.
    + intros x L Hx Hm. destruct (li_frame _ _ _ _ _ _ I x L Hx Hm) as [Q1 Q2]. destruct (Fr x L) as [Q3 Q4]; [apply Q2; exact Hi|].
      split; [congruence|]. intros j Hj. destruct (Nat.eqb_spec j i) as [->|_]; [exact Q3|apply Q2; exact Hj].
    + apply (obo_snoc _ _ _ _ _ _ _ _ _ (li_ord _ _ _ _ _ _ I) Eq). apply Hstep. exact Hkk.
    + rewrite order_snoc, map_app, (li_lab _ _ _ _ _ _ I). reflexivity.
    + rewrite map_app. cbn [map fst]. apply NoDup_app_disjoint; [apply (li_nodup _ _ _ _ _ _ I)|repeat constructor; auto|]. intros j Hj [<-|[]]. exact (Oo Hj).
    + exact S2.
Qed.

Lemma lin_main l w st : together dev w0 (queue_of qs) l w st ->
  exists ord d, one_by_one step qs d0 ord d /\ map fst ord = order_of l /\ NoDup (order_of l) /\ stores w d /\
    (forall i q s r, nth_error qs i = Some q -> nth_error st i = Some s -> returned s r ->
       exists a, In (i, a) ord /\ scsi_observes w (q_cmnd q) r (q_io q) a) /\
    (forall x, x < 2 ^ 64 -> mem w0 x <> None -> (forall mm, In mm mems -> mm x = None) -> mem w x = mem w0 x).
Proof.
  intros H. pose proof lens as Hlen. destruct (lin_step l w st H) as (cur & ord & d & I). exists ord, d. split; [apply (li_ord _ _ _ _ _ _ I)|]. split; [apply (li_lab _ _ _ _ _ _ I)|].
  split; [rewrite <- (li_lab _ _ _ _ _ _ I); apply (li_nodup _ _ _ _ _ _ I)|]. split; [apply (li_stores _ _ _ _ _ _ I)|]. split.
  - intros i q [subs m] r Hq Hs Hr. destruct (li_flags _ _ _ _ _ _ I) as [F1 F2].
    assert (Hi : (i < length qs)%nat) by (apply nth_error_Some; congruence).
    destruct (nth_error mems i) as [mm0|] eqn:Em; [|apply nth_error_None in Em; lia].
    destruct (li_phase _ _ _ _ _ _ I i q mm0 subs m Hq Em Hs) as (ev & o & Ph & Oo & _).
    destruct (phase_done q mm0 subs m (cur i) ev o w r (prep_nth _ _ _ Hq Em) Ph F1 F2 (li_here _ _ _ _ _ _ I i Hi) (fun x => li_high _ _ _ _ _ _ I i x Hi) Hr) as (a & -> & O). eauto.
  - intros x L Hx Hm. apply (li_frame _ _ _ _ _ _ I x L Hx Hm).
Qed.

Lemma lin_next l w st : together dev w0 (queue_of qs) l w st -> forall s, In s st ->
  runs_on (fst s) (snd s) /\ ~ (forall drv, is_undefined (snd s drv)) /\
  forall B (a : M B) k, next_action (fst s) (snd s) a k -> exists b w2, a w = Ret b w2 /\ (room_for qs w0 -> honest w w2).
Proof.
  intros H [subs m] Hin. pose proof lens as Hlen. destruct (lin_step l w st H) as (cur & ord & d & I). destruct (li_flags _ _ _ _ _ _ I) as [F1 F2].
  pose proof (li_runs _ _ _ _ _ _ I subs m Hin) as Rn. cbn [fst snd]. split; [exact Rn|].
  apply In_nth_error in Hin as [i Hs].
  assert (Hi : (i < length qs)%nat) by (rewrite <- (li_len _ _ _ _ _ _ I); apply nth_error_Some; congruence).
  destruct (nth_error qs i) as [q|] eqn:Eq; [|apply nth_error_None in Eq; lia].
  destruct (nth_error mems i) as [mm0|] eqn:Em; [|apply nth_error_None in Em; lia].
  destruct (li_phase _ _ _ _ _ _ I i q mm0 subs m Eq Em Hs) as (ev & o & Ph & _ & Rm). pose proof (prep_nth _ _ _ Eq Em) as Pq.
  destruct (phase_next q mm0 subs m (cur i) ev o w Pq Ph F1 F2) as (drv & v & r & v' & s' & (A1 & A2 & A3) & Dr & Er & _). split.
  - intros U. destruct (U drv) as [z Z]. rewrite Z in Er. discriminate Er.
  - intros B a k Hn. assert (Hn' := Hn). destruct Hn' as (Ha & Hk & _). rewrite Hk in Er. unfold bind in Er. destruct (a v) as [b v1|] eqn:Ea; [|discriminate Er].
    destruct (action_eff B a v b v1 Ha Ea) as (eff & dd & new & Hu & _).
    assert (Ew : a w = Ret b (after w (eff (mem w)) dd new)).
    { apply Hu; [rewrite A1; apply (li_here _ _ _ _ _ _ I i Hi)|congruence|congruence|]. intros _. destruct Dr as (Q1 & Q2 & Q3). split; [|split]; congruence. }
    exists b, (after w (eff (mem w)) dd new). split; [exact Ew|]. intros Room.
    apply (phase_honest q mm0 subs m (cur i) ev o w B a k b _ Pq Ph F1 F2 (li_here _ _ _ _ _ _ I i Hi) Hn Ew (Rm Room)).
Qed.
Lemma lin_progress l w st : together dev w0 (queue_of qs) l w st -> forall s, In s st -> (exists r, returned s r) \/ can_move w s.
Proof.
  intros H s Hin. destruct (lin_next l w st H s Hin) as (R & U & N). destruct s as [subs m]. unfold returned, can_move. cbn [fst snd] in *.
  destruct R as [l0 m r F Hr|l0 m U'|l0 m B a k Ha Hk R|l0 m s k Hk R].
  - left. exists r. exact F.
  - contradiction.
  - right. left. destruct (N B a k) as (b & w2 & E & _); [split; [exact Ha|split; [exact Hk|exact R]]|]. exists B, a, k, b, w2. split; [|exact E]. split; [exact Ha|split; [exact Hk|exact R]].
  - right. right. exists s, k. split; [exact Hk|exact R].
Qed.
(** a thread comes to its end on its own *)
Lemma lin_alone drv : dev drv -> room_for qs w0 -> forall l w st0 pre s post l2 w2,
  together dev w0 (queue_of qs) l w st0 -> together dev w st0 l2 w2 (pre ++ s :: post) -> (forall p, In p l2 -> fst p = length pre) ->
  exists l' w' s' r, together dev w st0 l' w' (pre ++ s' :: post) /\ (forall p, In p l' -> fst p = length pre) /\ returned s' r.
Proof.
  intros Hd Room l w st0 pre [subs m] post l2 w2 H H2 Hl.
  destruct (lin_next _ w2 _ (together_trans _ _ _ _ _ _ _ _ _ H H2) (subs, m)) as (R & _ & _); [apply in_or_app; right; left; reflexivity|]. cbn [fst snd] in R.
  revert l2 w2 H2 Hl. induction R as [l0 m r F Hr|l0 m U'|l0 m B a k Ha Hk R IHR|l0 m s k Hk R IHR]; intros l2 w2 H2 Hl;
    destruct (lin_next _ w2 _ (together_trans _ _ _ _ _ _ _ _ _ H H2) (l0, m)) as (_ & U & Nx); try (apply in_or_app; right; left; reflexivity).
  - exists l2, w2, (l0, m), r. auto.
  - exfalso. apply U. exact U'.
  - assert (Hn : next_action l0 m a k) by (split; [exact Ha|split; [exact Hk|exact R]]).
    destruct (Nx B a k Hn) as (b & w3 & E & Ho).
    apply (IHR b (l2 ++ [(length pre, false)]) w3); [exact (tg_act _ _ _ _ _ _ _ _ _ _ _ _ _ _ H2 Hn E (Ho Room))|].
    intros p Hp'. apply in_app_or in Hp' as [Hp'|[<-|[]]]; [apply Hl; exact Hp'|reflexivity].
  - assert (Hn : next_submission l0 m s k) by (split; [exact Hk|exact R]).
    destruct (hand_over drv (length l0) s w2) as [c w3|] eqn:E; [|unfold hand_over in E; destruct (drv (length l0) s (mem w2)); discriminate E].
    apply (IHR c (l2 ++ [(length pre, true)]) w3); [exact (tg_submit _ _ _ _ _ _ _ _ _ _ _ _ _ _ H2 Hn Hd E)|].
    intros p Hp'. apply in_app_or in Hp' as [Hp'|[<-|[]]]; [apply Hl; exact Hp'|reflexivity].
Qed.
Lemma lin_finish drv : dev drv -> room_for qs w0 -> forall l w st, together dev w0 (queue_of qs) l w st ->
  exists l' w' st', together dev w0 (queue_of qs) (l ++ l') w' st' /\ forall s, In s st' -> exists r, returned s r.
Proof.
  intros Hd Room.
  assert (Go : forall todo pre l w, together dev w0 (queue_of qs) l w (pre ++ todo) -> (forall s, In s pre -> exists r, returned s r) ->
     exists l' w' st', together dev w0 (queue_of qs) (l ++ l') w' st' /\ forall s, In s st' -> exists r, returned s r).
  { induction todo as [|[subs m] todo IH]; intros pre l w H Hpre.
    - rewrite app_nil_r in H. exists [], w, pre. rewrite app_nil_r. auto.
    - destruct (lin_next l w _ H (subs, m)) as (R & _ & _); [apply in_or_app; right; left; reflexivity|]. cbn [fst snd] in R.
      revert l w H. induction R as [l0 m r F Hr|l0 m U'|l0 m B a k Ha Hk R IHR|l0 m s k Hk R IHR]; intros l w H.
      + apply (IH (pre ++ [(l0, m)]) l w); [rewrite <- app_assoc; exact H|]. intros s Hin. apply in_app_or in Hin as [Hin|[<-|[]]]; [apply Hpre; exact Hin|exists r; exact F].
      + exfalso. destruct (lin_next l w _ H (l0, m)) as (_ & U & _); [apply in_or_app; right; left; reflexivity|]. apply U. exact U'.
      + destruct (lin_next l w _ H (l0, m)) as (_ & _ & Nx); [apply in_or_app; right; left; reflexivity|].
        assert (Hn : next_action l0 m a k) by (split; [exact Ha|split; [exact Hk|exact R]]).
        destruct (Nx B a k Hn) as (b & w2 & E & Ho).
        destruct (IHR b (l ++ [(length pre, false)]) w2) as (l' & w' & st' & H' & Hf).
        { exact (tg_act _ _ _ _ _ _ _ _ _ _ _ _ _ _ H Hn E (Ho Room)). }
        rewrite <- app_assoc in H'. eauto.
      + assert (Hn : next_submission l0 m s k) by (split; [exact Hk|exact R]).
        destruct (hand_over drv (length l0) s w) as [c w2|] eqn:E; [|unfold hand_over in E; destruct (drv (length l0) s (mem w)); discriminate E].
        destruct (IHR c (l ++ [(length pre, true)]) w2) as (l' & w' & st' & H' & Hf).
        { exact (tg_submit _ _ _ _ _ _ _ _ _ _ _ _ _ _ H Hn Hd E). }
        rewrite <- app_assoc in H'. eauto. }
  intros l w st H. apply (Go st [] l w H). intros s [].
Qed.
(** a thread that has returned has its place in the order *)
Lemma lin_real_time l1 w1 st1 l2 i j s r : together dev w0 (queue_of qs) l1 w1 st1 ->
  nth_error st1 i = Some s -> returned s r -> (forall b, ~ In (j, b) l1) -> In j (order_of (l1 ++ l2)) ->
  exists a b c, order_of (l1 ++ l2) = a ++ i :: b ++ j :: c.
Proof.
  intros H Hi Hr Hj Hin. pose proof lens as Hlen.
  assert (Li : In i (order_of l1)).
  { destruct (lin_step l1 w1 st1 H) as (cur & ord0 & dd & I). assert (Ln : length st1 = length qs) by apply (li_len _ _ _ _ _ _ I). clear I.
    destruct (lin_main l1 w1 st1 H) as (ord & d & _ & Ho & _ & _ & Hret & _).
    assert (Lq : (i < length qs)%nat) by (rewrite <- Ln; apply nth_error_Some; congruence).
    destruct (nth_error qs i) as [q|] eqn:Eq; [|apply nth_error_None in Eq; lia].
    destruct (Hret i q s r Eq Hi Hr) as (a & Ha & _). rewrite <- Ho. change i with (fst (i, a)). apply in_map. exact Ha. }
  unfold order_of in *. rewrite filter_app, map_app in *. apply in_app_or in Hin as [Hin|Hin].
  - exfalso. apply in_map_iff in Hin as ([j' b] & E & Hin). cbn [fst] in E. subst j'. apply filter_In in Hin as [Hin _]. exact (Hj b Hin).
  - apply in_split in Li as (a & b & ->). apply in_split in Hin as (b' & c & ->). exists a, (b ++ b'), c. rewrite <- !app_assoc. reflexivity.
Qed.
End Linear.

(** ** C96 *)
Lemma reliable_like cap drv : reliable cap drv -> disk_like cap drv.
Proof. intros (ident & cpl & ->) k s m Ha Ho. apply device_disk_like; assumption. Qed.
Lemma like_carries cap drv x kz : cap_ok cap -> disk_like cap drv -> 0 < kz < 2 ^ 64 -> io_first x < 2 ^ 64 -> 1 <= io_blocks x <= 65536 -> io_unit x < 2 ^ 32 - 1 -> carries x kz drv.
Proof.
  intros Hc D Hk Hf Hn Hu.
  assert (E : forall s m, io_submission x kz s -> drv 0%nat s m =
    if cap (io_unit x + 1) <? io_first x + io_blocks x then (m, lba_out_of_range) else (transfer x kz m, 0)).
  { intros s m (fua & pr & l & _ & V). rewrite (disk_like_eq cap drv 0%nat s m _ _ _ _ _ _ _ _ _ D V); [|destruct x; auto|exact Hf|exact Hn].
    rewrite lun_nsid by exact Hu. rewrite (N.mod_small kz) by lia. destruct (cap _ <? _); [reflexivity|]. destruct x; reflexivity. }
  destruct (N.ltb_spec (cap (io_unit x + 1)) (io_first x + io_blocks x)) as [L|L].
  - left. exists lba_out_of_range. intros s m Hs. rewrite E by exact Hs. reflexivity.
  - right. split; [pose proof (Hc (io_unit x + 1)); lia|]. intros s m Hs. rewrite E by exact Hs. reflexivity.
Qed.
Section Devices.
Variable cap : N -> N.
Hypothesis Hcap : cap_ok cap.
Let luns lun := cap (lun + 1).
Definition reliable_out (_ : driver) (x : disk_io) (d : disk) : disk * answer := disk_step luns d x.
Definition kernel_out (kn : kernel) (x : disk_io) (d : disk) : disk * answer :=
  if accepts_b kn && within_b luns x then disk_step luns d x else (d, pretence x).
Lemma rel_dev drv : reliable cap drv -> exists k, reliable cap k /\ drv = (fun x : driver => x) k.
Proof. eauto. Qed.
Lemma rel_step k d x : reliable cap k -> disk_does cap d x (fst (reliable_out k x d)) (snd (reliable_out k x d)).
Proof. intros _. unfold disk_does, reliable_out. fold luns. destruct (disk_step luns d x); reflexivity. Qed.
Lemma rel_carry k x kz : reliable cap k -> 0 < kz < 2 ^ 64 -> io_first x < 2 ^ 64 -> 1 <= io_blocks x <= 65536 -> io_unit x < 2 ^ 32 - 1 -> carries x kz k.
Proof. intros R. apply (like_carries cap); [exact Hcap|apply reliable_like; exact R]. Qed.
Lemma rel_seq k wrs kz wild c w x d : reliable cap k -> stores w d -> scsi_presents w kz c x ->
  exists r w', scsi_queuecommand k wrs kz wild c w = Ret r w' /\ scsi_observes w' c r x (snd (reliable_out k x d)) /\ stores w' (fst (reliable_out k x d)).
Proof.
  intros R Hs P. pose proof (adapter_step_dev cap k wrs kz wild c w x d (reliable_like _ _ R) Hcap Hs P) as Z. unfold reliable_out, luns.
  destruct (disk_step (fun lun => cap (lun + 1)) d x) as [d' a]. destruct Z as (r & w' & E & O & S & _). exists r, w'. auto.
Qed.
Lemma ker_dev drv : through_kernel cap drv -> exists kn, backed cap kn /\ drv = kernel_driver kn.
Proof. auto. Qed.
Lemma ker_lost kn x : accepts_b kn && within_b luns x = false -> ~ (accepting kn /\ within luns x).
Proof. intros A [X Y]. apply accepts_spec in X. apply within_spec in Y. rewrite X, Y in A. discriminate A. Qed.
Lemma ker_step kn d x : backed cap kn -> module_may cap d x (fst (kernel_out kn x d)) (snd (kernel_out kn x d)).
Proof.
  intros B. exists kn. split; [exact B|]. unfold kernel_out. fold luns. destruct (accepts_b kn && within_b luns x) eqn:A.
  - apply andb_true_iff in A as [A W]. apply carried_out; [apply accepts_spec; exact A|apply within_spec; exact W].
  - apply lost. apply ker_lost. exact A.
Qed.
Lemma ker_carry kn x kz : backed cap kn -> 0 < kz < 2 ^ 64 -> io_first x < 2 ^ 64 -> 1 <= io_blocks x <= 65536 -> io_unit x < 2 ^ 32 - 1 -> carries x kz (kernel_driver kn).
Proof.
  intros B Hk Hf Hn Hu. destruct (accepts_b kn && within_b luns x) eqn:A.
  - apply andb_true_iff in A as [A W]. apply within_spec in W. pose proof (kernel_serves cap kn x kz B Hk Hf Hn Hu A W) as S.
    destruct (like_carries cap (nvme_disk cap) x kz Hcap (disk_like_self cap) Hk Hf Hn Hu) as [[cpl C]|[H C]].
    + left. exists cpl. intros s m Hs. rewrite S by exact Hs. apply C. exact Hs.
    + right. split; [exact H|]. intros s m Hs. rewrite S by exact Hs. apply C. exact Hs.
  - left. exists 0. intros s m Hs. exact (kernel_loses cap kn x kz s m B Hk Hf Hn Hu (ker_lost kn x A) Hs).
Qed.
Lemma ker_seq kn wrs kz wild c w x d : backed cap kn -> stores w d -> scsi_presents w kz c x ->
  exists r w', scsi_queuecommand (kernel_driver kn) wrs kz wild c w = Ret r w' /\ scsi_observes w' c r x (snd (kernel_out kn x d)) /\ stores w' (fst (kernel_out kn x d)).
Proof.
  intros B Hs P. destruct (presents_bounds _ _ _ _ P) as (B1 & B2 & B3 & B4). unfold kernel_out. destruct (accepts_b kn && within_b luns x) eqn:A.
  - apply andb_true_iff in A as [A W]. apply within_spec in W.
    pose proof (adapter_step_for cap (kernel_driver kn) wrs kz wild c w x d (kernel_serves cap kn x kz B B1 B2 B3 B4 A W) Hcap Hs P) as Z. fold luns in Z.
    destruct (disk_step luns d x) as [d' a]. destruct Z as (r & w' & E & O & S & _). exists r, w'. auto.
  - destruct (adapter_lost (kernel_driver kn) wrs kz wild c w x d) as (r & w' & E & O & S & _); [|exact Hs|exact P|].
    { intros s m. exact (kernel_loses cap kn x kz s m B B1 B2 B3 B4 (ker_lost kn x A)). }
    exists r, w'. auto.
Qed.
End Devices.

(** Commands queued at the same time, on a disk that works: the answers are those
    of a disk that executes the commands one after the other, in the order in which
    they were handed over, and the medium is what such a disk contains. *)
Theorem C96_linearizable : forall cap qs mems w0 d0 l w st,
  cap_ok cap -> each_own mems w0 -> Forall2 prepared_in qs mems -> stores w0 d0 -> together (reliable cap) w0 (queue_of qs) l w st ->
  exists ord d, one_by_one (disk_does cap) qs d0 ord d /\ map fst ord = order_of l /\ NoDup (order_of l) /\ stores w d /\
    (forall i q s r, nth_error qs i = Some q -> nth_error st i = Some s -> returned s r ->
       exists a, In (i, a) ord /\ scsi_observes w (q_cmnd q) r (q_io q) a) /\
    (forall x, x < 2 ^ 64 -> mem w0 x <> None -> (forall mm, In mm mems -> mm x = None) -> mem w x = mem w0 x).
Proof.
  intros cap qs mems w0 d0 l w st Hc Ho Hp Hs H.
  exact (lin_main (reliable cap) (fun x => x) (reliable cap) (disk_does cap) (reliable_out cap) (rel_dev cap) (rel_step cap) (rel_carry cap Hc) (rel_seq cap Hc) w0 qs mems d0 Ho Hp Hs l w st H).
Qed.
Print Assumptions C96_linearizable.

(** The same through the complete kernel module: one after the other, each command
    is carried out or lost (C92). *)
Theorem C96_module_linearizable : forall cap qs mems w0 d0 l w st,
  cap_ok cap -> each_own mems w0 -> Forall2 prepared_in qs mems -> stores w0 d0 -> together (through_kernel cap) w0 (queue_of qs) l w st ->
  exists ord d, one_by_one (module_may cap) qs d0 ord d /\ map fst ord = order_of l /\ NoDup (order_of l) /\ stores w d /\
    (forall i q s r, nth_error qs i = Some q -> nth_error st i = Some s -> returned s r ->
       exists a, In (i, a) ord /\ scsi_observes w (q_cmnd q) r (q_io q) a) /\
    (forall x, x < 2 ^ 64 -> mem w0 x <> None -> (forall mm, In mm mems -> mm x = None) -> mem w x = mem w0 x).
Proof.
  intros cap qs mems w0 d0 l w st Hc Ho Hp Hs H.
  exact (lin_main (through_kernel cap) kernel_driver (backed cap) (module_may cap) (kernel_out cap) (ker_dev cap) (ker_step cap) (ker_carry cap Hc) (ker_seq cap Hc) w0 qs mems d0 Ho Hp Hs l w st H).
Qed.
Print Assumptions C96_module_linearizable.

(** No thread gets stuck or runs into undefined behaviour. *)
Theorem C96_progress : forall cap dev qs mems w0 d0 l w st,
  cap_ok cap -> dev = reliable cap \/ dev = through_kernel cap -> each_own mems w0 -> Forall2 prepared_in qs mems -> stores w0 d0 ->
  together dev w0 (queue_of qs) l w st -> forall s, In s st ->
  ((exists r, returned s r) \/ can_move w s) /\ ~ (forall drv, is_undefined (snd s drv)) /\
  forall B (a : M B) k, next_action (fst s) (snd s) a k -> exists b w', a w = Ret b w'.
Proof.
  intros cap dev qs mems w0 d0 l w st Hc Hd Ho Hp Hs H s Hin. destruct Hd as [-> | ->].
  - split; [|split].
    + exact (lin_progress (reliable cap) (fun x => x) (reliable cap) (disk_does cap) (reliable_out cap) (rel_dev cap) (rel_step cap) (rel_carry cap Hc) (rel_seq cap Hc) w0 qs mems d0 Ho Hp Hs l w st H s Hin).
    + apply (lin_next (reliable cap) (fun x => x) (reliable cap) (disk_does cap) (reliable_out cap) (rel_dev cap) (rel_step cap) (rel_carry cap Hc) (rel_seq cap Hc) w0 qs mems d0 Ho Hp Hs l w st H s Hin).
    + intros B a k Hn. destruct (lin_next (reliable cap) (fun x => x) (reliable cap) (disk_does cap) (reliable_out cap) (rel_dev cap) (rel_step cap) (rel_carry cap Hc) (rel_seq cap Hc) w0 qs mems d0 Ho Hp Hs l w st H s Hin) as (_ & _ & X).
      destruct (X B a k Hn) as (b & w' & E & _). eauto.
  - split; [|split].
    + exact (lin_progress (through_kernel cap) kernel_driver (backed cap) (module_may cap) (kernel_out cap) (ker_dev cap) (ker_step cap) (ker_carry cap Hc) (ker_seq cap Hc) w0 qs mems d0 Ho Hp Hs l w st H s Hin).
    + apply (lin_next (through_kernel cap) kernel_driver (backed cap) (module_may cap) (kernel_out cap) (ker_dev cap) (ker_step cap) (ker_carry cap Hc) (ker_seq cap Hc) w0 qs mems d0 Ho Hp Hs l w st H s Hin).
    + intros B a k Hn. destruct (lin_next (through_kernel cap) kernel_driver (backed cap) (module_may cap) (kernel_out cap) (ker_dev cap) (ker_step cap) (ker_carry cap Hc) (ker_seq cap Hc) w0 qs mems d0 Ho Hp Hs l w st H s Hin) as (_ & _ & X).
      destruct (X B a k Hn) as (b & w' & E & _). eauto.
Qed.
Print Assumptions C96_progress.

(** With room for the buffers, whatever has happened, all commands can come to
    their end. *)
Theorem C96_all_finish : forall cap dev drv qs mems w0 d0 l w st,
  cap_ok cap -> dev = reliable cap \/ dev = through_kernel cap -> dev drv -> each_own mems w0 -> Forall2 prepared_in qs mems -> stores w0 d0 -> room_for qs w0 ->
  together dev w0 (queue_of qs) l w st ->
  exists l' w' st', together dev w0 (queue_of qs) (l ++ l') w' st' /\ forall s, In s st' -> exists r, returned s r.
Proof.
  intros cap dev drv qs mems w0 d0 l w st Hc Hd Hdrv Ho Hp Hs Room H. destruct Hd as [-> | ->].
  - exact (lin_finish (reliable cap) (fun x => x) (reliable cap) (disk_does cap) (reliable_out cap) (rel_dev cap) (rel_step cap) (rel_carry cap Hc) (rel_seq cap Hc) w0 qs mems d0 Ho Hp Hs drv Hdrv Room l w st H).
  - exact (lin_finish (through_kernel cap) kernel_driver (backed cap) (module_may cap) (kernel_out cap) (ker_dev cap) (ker_step cap) (ker_carry cap Hc) (ker_seq cap Hc) w0 qs mems d0 Ho Hp Hs drv Hdrv Room l w st H).
Qed.
Print Assumptions C96_all_finish.

(** No thread waits for another one: from every state, any thread comes to its end
    if it alone takes steps. *)
Theorem C96_no_waiting : forall cap dev drv qs mems w0 d0 l w st i s,
  cap_ok cap -> dev = reliable cap \/ dev = through_kernel cap -> dev drv -> each_own mems w0 -> Forall2 prepared_in qs mems -> stores w0 d0 -> room_for qs w0 ->
  together dev w0 (queue_of qs) l w st -> nth_error st i = Some s ->
  exists l' w' st' s' r, together dev w st l' w' st' /\ (forall p, In p l' -> fst p = i) /\ nth_error st' i = Some s' /\ returned s' r.
Proof.
  intros cap dev drv qs mems w0 d0 l w st i s Hc Hd Hdrv Ho Hp Hs Room H Hi. apply nth_error_split in Hi as (pre & post & -> & <-).
  assert (X : exists l' w' s' r, together dev w (pre ++ s :: post) l' w' (pre ++ s' :: post) /\ (forall p, In p l' -> fst p = length pre) /\ returned s' r).
  { destruct Hd as [-> | ->].
    - apply (lin_alone (reliable cap) (fun x => x) (reliable cap) (disk_does cap) (reliable_out cap) (rel_dev cap) (rel_step cap) (rel_carry cap Hc) (rel_seq cap Hc) w0 qs mems d0 Ho Hp Hs drv Hdrv Room
        l w _ pre s post [] w H (tg_start _ _ _)). intros p [].
    - apply (lin_alone (through_kernel cap) kernel_driver (backed cap) (module_may cap) (kernel_out cap) (ker_dev cap) (ker_step cap) (ker_carry cap Hc) (ker_seq cap Hc) w0 qs mems d0 Ho Hp Hs drv Hdrv Room
        l w _ pre s post [] w H (tg_start _ _ _)). intros p []. }
  destruct X as (l' & w' & s' & r & T & A & R). exists l', w', (pre ++ s' :: post), s', r. split; [exact T|]. split; [exact A|]. split; [|exact R].
  rewrite nth_error_app2 by lia. rewrite Nat.sub_diag. reflexivity.
Qed.
Print Assumptions C96_no_waiting.

(** A command that was answered before another one took its first step comes before
    it in the order. *)
Theorem C96_real_time : forall cap dev qs mems w0 d0 l1 w1 st1 l2 i j s r,
  cap_ok cap -> dev = reliable cap \/ dev = through_kernel cap -> each_own mems w0 -> Forall2 prepared_in qs mems -> stores w0 d0 ->
  together dev w0 (queue_of qs) l1 w1 st1 -> nth_error st1 i = Some s -> returned s r -> (forall b, ~ In (j, b) l1) -> In j (order_of (l1 ++ l2)) ->
  exists before between after, order_of (l1 ++ l2) = before ++ i :: between ++ j :: after.
Proof.
  intros cap dev qs mems w0 d0 l1 w1 st1 l2 i j s r Hc Hd Ho Hp Hs. destruct Hd as [-> | ->].
  - apply (lin_real_time (reliable cap) (fun x => x) (reliable cap) (disk_does cap) (reliable_out cap) (rel_dev cap) (rel_step cap) (rel_carry cap Hc) (rel_seq cap Hc) w0 qs mems d0 Ho Hp Hs).
  - apply (lin_real_time (through_kernel cap) kernel_driver (backed cap) (module_may cap) (kernel_out cap) (ker_dev cap) (ker_step cap) (ker_carry cap Hc) (ker_seq cap Hc) w0 qs mems d0 Ho Hp Hs).
Qed.
Print Assumptions C96_real_time.

(** ** Consequence: a thread that starts after a WRITE was answered reads what was
    written *)
Lemma obo_split step qs d ord d' : one_by_one step qs d ord d' -> forall a b, ord = a ++ b ->
  exists d1, one_by_one step qs d a d1 /\ one_by_one step qs d1 b d'.
Proof.
  induction 1 as [|l d1 i q d2 an H IH Hq Hst]; intros a b E.
  - symmetry in E. apply app_eq_nil in E as [-> ->]. exists d. split; constructor.
  - destruct (rev b) as [|z b'] eqn:Eb.
    + apply (f_equal (@rev _)) in Eb. rewrite rev_involutive in Eb. cbn in Eb. subst b. rewrite app_nil_r in E. subst a.
      exists d2. split; [econstructor; eassumption|constructor].
    + apply (f_equal (@rev _)) in Eb. rewrite rev_involutive in Eb. cbn [rev] in Eb. subst b. rewrite app_assoc in E.
      apply app_inj_tail in E as [-> <-]. destruct (IH a (rev b') eq_refl) as (dm & X & Y). exists dm. split; [exact X|]. econstructor; eassumption.
Qed.
Lemma obo_functional cap qs d ord1 d1 : one_by_one (disk_does cap) qs d ord1 d1 -> forall ord2 d2, one_by_one (disk_does cap) qs d ord2 d2 ->
  map fst ord1 = map fst ord2 -> ord1 = ord2 /\ d1 = d2.
Proof.
  induction 1 as [|l d1 i q d1' an H IH Hq Hst]; intros ord2 d2 H2 E.
  - destruct ord2; [|discriminate E]. inversion H2; [auto|]. destruct l; discriminate.
  - destruct H2 as [|l2 e i2 q2 e' an2 H2 Hq2 Hst2]; [rewrite map_app in E; destruct (map fst l); discriminate E|].
    rewrite !map_app in E. cbn [map fst] in E. apply app_inj_tail in E as [E1 <-]. destruct (IH _ _ H2 E1) as [<- <-].
    rewrite Hq in Hq2. apply Some_eq in Hq2 as <-. unfold disk_does in *. rewrite Hst in Hst2. apply pair_eq in Hst2 as [<- <-]. auto.
Qed.
Definition with_io (qs : list queued) (p : nat * answer) : disk_io * answer :=
  (match nth_error qs (fst p) with Some q => q_io q | None => IoRead 0 0 0 end, snd p).
Lemma obo_explains cap qs d ord d' : one_by_one (disk_does cap) qs d ord d' -> explains (fun lun => cap (lun + 1)) d (map (with_io qs) ord) d'.
Proof.
  induction 1 as [|l d1 i q d2 an H IH Hq Hst]; [constructor|]. rewrite map_app. cbn [map]. unfold with_io at 2. cbn [fst snd]. rewrite Hq.
  pose proof (explains_snoc _ _ _ _ (q_io q) IH) as X. unfold disk_does in Hst. rewrite Hst in X. exact X.
Qed.

(** Whatever the threads' interleaving: thread [i] wrote block [b] and was answered
    GOOD; thread [j] takes its first step after that, and reads the block.  No
    other command writes it.  Then [j] gets the bytes [i] wrote. *)
Theorem C96_read_your_writes : forall cap qs mems w0 d0 l1 w1 st1 l2 w st i qi si ri j qj sj rj lun lba data lba' n b o,
  cap_ok cap -> each_own mems w0 -> Forall2 prepared_in qs mems -> stores w0 d0 ->
  together (reliable cap) w0 (queue_of qs) l1 w1 st1 -> together (reliable cap) w1 st1 l2 w st ->
  nth_error qs i = Some qi -> q_io qi = IoWrite lun lba data -> nth_error st1 i = Some si -> returned si ri -> mr_result ri = GOOD ->
  nth_error qs j = Some qj -> q_io qj = IoRead lun lba' n -> (forall h, ~ In (j, h) l1) ->
  nth_error st j = Some sj -> returned sj rj -> mr_result rj = GOOD ->
  lba <= b < lba + blocks_of data -> lba' <= b < lba' + n -> o < 4096 ->
  (forall k q a, nth_error qs k = Some q -> k <> i -> ~ writes_block lun b (q_io q, a)) ->
  exists bs, N.of_nat (length bs) = n * 4096 /\ sg_holds w (sc_sgl (q_cmnd qj)) bs /\
    block_byte lba' b o bs = block_byte lba b o data /\ block_byte lba b o data <> None.
Proof.
  intros cap qs mems w0 d0 l1 w1 st1 l2 w st i qi si ri j qj sj rj lun lba data lba' n b o Hc Ho Hp Hs H1 H2 Hqi Xi Hsi Rti Gi Hqj Xj Hj Hsj Rtj Gj Hb Hb' Hoo Hw.
  destruct (C96_linearizable cap qs mems w0 d0 l1 w1 st1 Hc Ho Hp Hs H1) as (ord1 & d1 & O1 & M1 & _ & _ & Ret1 & _).
  pose proof (together_trans _ _ _ _ _ _ _ _ _ H1 H2) as H.
  destruct (C96_linearizable cap qs mems w0 d0 (l1 ++ l2) w st Hc Ho Hp Hs H) as (ord & d & O & M & Nd & _ & Ret & _).
  assert (Mo : order_of (l1 ++ l2) = order_of l1 ++ order_of l2) by (unfold order_of; rewrite filter_app, map_app; reflexivity).
  destruct (Ret1 i qi si ri Hqi Hsi Rti) as (ai & Ii & Obi). destruct (Ret j qj sj rj Hqj Hsj Rtj) as (aj & Ij & Obj).
  rewrite Xi in Obi. rewrite Xj in Obj.
  assert (ai = AnsDone) as ->. { destruct ai; cbn in Obi; try contradiction; try reflexivity. destruct Obi as [Z _]. rewrite Gi in Z. discriminate Z. }
  assert (Zj : exists bs, aj = AnsData bs). { destruct aj; cbn in Obj; try contradiction; eauto. destruct Obj as [Z _]. rewrite Gj in Z. discriminate Z. }
  destruct Zj as [bs ->]. cbn in Obj. destruct Obj as (_ & _ & Lb & Sg).
  assert (S : exists ord2, ord = ord1 ++ ord2 /\ map fst ord2 = order_of l2).
  { exists (skipn (length ord1) ord). pose proof (firstn_skipn (length ord1) ord) as F.
    assert (Q : map fst (firstn (length ord1) ord) = order_of l1 /\ map fst (skipn (length ord1) ord) = order_of l2).
    { rewrite <- firstn_map, <- skipn_map, M, Mo. assert (length ord1 = length (order_of l1)) as -> by (rewrite <- M1, map_length; reflexivity).
      rewrite firstn_app, Nat.sub_diag, firstn_all, skipn_app, Nat.sub_diag, skipn_all. cbn. rewrite app_nil_r. auto. }
    destruct (obo_split _ _ _ _ _ O _ _ (eq_sym F)) as (dm & Oa & _).
    destruct (obo_functional _ _ _ _ _ O1 _ _ Oa) as [E _]; [rewrite M1; symmetry; apply Q|].
    split; [rewrite E at 1; symmetry; exact F|apply Q]. }
  destruct S as (ord2 & -> & M2).
  assert (Ij2 : In (j, AnsData bs) ord2).
  { apply in_app_or in Ij as [Ij|Ij]; [exfalso|exact Ij]. apply (in_map fst) in Ij. rewrite M1 in Ij. unfold order_of in Ij. cbn [fst] in Ij.
    apply in_map_iff in Ij as ([j' h] & E & F). cbn [fst] in E. subst j'. apply filter_In in F as [F _]. exact (Hj h F). }
  apply in_split in Ii as (pa & pb & ->). apply in_split in Ij2 as (pc & pd & ->).
  exists bs. split; [exact Lb|]. split; [exact Sg|].
  assert (Eq : (pa ++ (i, AnsDone) :: pb) ++ pc ++ (j, AnsData bs) :: pd = (pa ++ (i, AnsDone) :: (pb ++ pc) ++ [(j, AnsData bs)]) ++ pd)
    by (repeat (rewrite <- ?app_assoc; cbn [app]); reflexivity).
  rewrite Eq in O. destruct (obo_split _ _ _ _ _ O _ _ eq_refl) as (dm & Oa & _). clear O.
  assert (NdO : NoDup (map fst pa ++ i :: map fst (pb ++ pc) ++ j :: map fst pd)).
  { rewrite <- M, Eq in Nd. repeat rewrite ?map_app in Nd; cbn [map fst] in Nd. repeat rewrite ?map_app in Nd; cbn [map fst] in Nd.
    repeat rewrite ?map_app. repeat (rewrite <- ?app_assoc in Nd; cbn [app] in Nd). repeat (rewrite <- ?app_assoc; cbn [app]). exact Nd. }
  apply NoDup_remove_2 in NdO. apply obo_explains in Oa. rewrite map_app in Oa. cbn [map] in Oa. rewrite map_app in Oa. cbn [map] in Oa.
  unfold with_io at 2 4 in Oa. cbn [fst snd] in Oa. rewrite Hqi, Hqj, Xi, Xj in Oa. split.
  - refine (explains_read_back _ _ _ _ _ _ _ _ _ _ _ _ _ _ Oa eq_refl _ Hb Hb' Hoo).
    intros p Hp'. apply in_map_iff in Hp' as ([k a] & <- & Hk). unfold with_io. cbn [fst snd].
    assert (k <> i). { intros ->. apply NdO. apply in_or_app. right. apply in_or_app. left. change i with (fst (i, a)). apply in_map. exact Hk. }
    destruct (nth_error qs k) as [q|] eqn:Ek; [exact (Hw k q a Ek ltac:(assumption))|]. intros Z; exact Z.
  - unfold block_byte. apply nth_error_Some. unfold blocks_of in *. pose proof (N.mul_div_le (N.of_nat (length data)) 4096). lia.
Qed.
Print Assumptions C96_read_your_writes.

(** ** The premises are met: two threads, one writes block 7 of unit 2, the other
    reads its blocks 6 and 7 *)
Definition ex_part (z : N) (cdb : list byte) : memory := fun x =>
  if (z + 0x1000 <=? x) && (x <? z + 0x100a) then nth_error cdb (N.to_nat (x - (z + 0x1000)))
  else if (z + 0x20000 <=? x) && (x <? z + 0x24000) then Some xcd
  else if (z + 0x40000 <=? x) && (x <? z + 0x40060) then Some x00 else None.
Definition ex_cmnd (z : N) (din : bool) (n : N) : scsi_cmnd :=
  {| sc_lun := 2; sc_cmnd := z + 0x1000; sc_cmd_len := 10; sc_sense := z + 0x40000; sc_from_device := din; sc_bufflen := n; sc_sgl := [(z + 0x20000, n)] |}.
Definition ex_q0 : queued :=
  {| q_wrs := ex_wrs; q_kz := 0x90000; q_wild := 0; q_cmnd := ex_cmnd 0 false 4096; q_io := IoWrite 2 7 (ex_data (N.to_nat 4096) xcd) |}.
Definition ex_q1 : queued :=
  {| q_wrs := ex_wrs; q_kz := 0x190000; q_wild := 0; q_cmnd := ex_cmnd 0x100000 true 8192; q_io := IoRead 2 6 2 |}.
Definition ex_mems : list memory := [ex_part 0 ex_write7; ex_part 0x100000 ex_read6].
Definition ex_mem2 : memory := fun x =>
  if 2 ^ 64 <=? x then Some (ex_pattern x) else if x <? 0x100000 then ex_part 0 ex_write7 x else ex_part 0x100000 ex_read6 x.
Definition ex_world2 : world := set_mem (ex_world []) ex_mem2.

Lemma ex_cmnd_addr z din n y : In y (sg_addrs (sc_sgl (ex_cmnd z din n))) -> z + 0x20000 <= y < z + 0x20000 + n.
Proof.
  unfold ex_cmnd, sg_addrs. cbn [sc_sgl flat_map fst snd]. rewrite app_nil_r. intros H. apply in_map_iff in H as (i & <- & H). apply in_seq in H. lia.
Qed.
Lemma ex_part_cdb z cdb i b : length cdb = 10%nat -> nth_error cdb i = Some b -> ex_part z cdb (z + 0x1000 + N.of_nat i) = Some b.
Proof.
  intros L H. assert (i < 10)%nat by (rewrite <- L; apply nth_error_Some; congruence). unfold ex_part.
  replace ((z + 0x1000 <=? z + 0x1000 + N.of_nat i) && (z + 0x1000 + N.of_nat i <? z + 0x100a)) with true by lia.
  replace (N.to_nat (z + 0x1000 + N.of_nat i - (z + 0x1000))) with i by lia. exact H.
Qed.
Lemma ex_part_data z cdb y : z + 0x20000 <= y < z + 0x24000 -> ex_part z cdb y = Some xcd.
Proof.
  intros H. unfold ex_part. replace ((z + 0x1000 <=? y) && (y <? z + 0x100a)) with false by lia.
  replace ((z + 0x20000 <=? y) && (y <? z + 0x24000)) with true by lia. reflexivity.
Qed.
Lemma ex_part_sense z cdb y : z + 0x40000 <= y < z + 0x40060 -> ex_part z cdb y = Some x00.
Proof.
  intros H. unfold ex_part. replace ((z + 0x1000 <=? y) && (y <? z + 0x100a)) with false by lia.
  replace ((z + 0x20000 <=? y) && (y <? z + 0x24000)) with false by lia. replace ((z + 0x40000 <=? y) && (y <? z + 0x40060)) with true by lia. reflexivity.
Qed.
Lemma ex_part_none z cdb y : y < z + 0x1000 \/ z + 0x40060 <= y -> ex_part z cdb y = None.
Proof.
  intros H. unfold ex_part. replace ((z + 0x1000 <=? y) && (y <? z + 0x100a)) with false by lia.
  replace ((z + 0x20000 <=? y) && (y <? z + 0x24000)) with false by lia. replace ((z + 0x40000 <=? y) && (y <? z + 0x40060)) with false by lia. reflexivity.
Qed.
Lemma ex_part_presents z cdb din n x v : length cdb = 10%nat -> z <= 0x100000 -> n <= 0x4000 -> mem v = ex_part z cdb -> asks cdb 2 15 x ->
  match x with
  | IoRead _ _ k => din = true /\ n = k * 4096
  | IoWrite _ _ data => din = false /\ n = N.of_nat (length data) /\ forall b, In b data -> b = xcd
  end -> scsi_presents v (0x90000 + z) (ex_cmnd z din n) x.
Proof.
  intros L Hz Hn E Hx HX. unfold scsi_presents. cbv zeta. cbn [ex_cmnd sc_cmnd sc_cmd_len sc_sense sc_bufflen sc_lun sc_from_device].
  split; [|split; [|split; [|split; [|split; [|split]]]]].
  - exists cdb. split; [intros i b Hi; rewrite E; exact (ex_part_cdb z cdb i b L Hi)|].
    split; [rewrite L; reflexivity|]. split; [reflexivity|]. split; [lia|exact Hx].
  - split; [|cbn [ptr len]; lia]. cbn [ptr len]. intros y Hy; cbn [ptr len] in Hy. rewrite E, ex_part_sense by lia. discriminate.
  - intros y Hy. apply ex_cmnd_addr in Hy. unfold in_span. cbn [ptr len]. split; lia.
  - lia.
  - intros y Hy. rewrite E. apply ex_part_none. lia.
  - lia.
  - assert (T : sg_total (sc_sgl (ex_cmnd z din n)) = n) by (cbn [sc_sgl ex_cmnd]; unfold sg_total; cbn [fold_right map fst snd]; lia).
    destruct x as [u f k|u f data].
    + destruct HX as [-> ->]. split; [reflexivity|]. split; [reflexivity|]. split; [|lia].
      split; [|]. 
      * unfold ex_cmnd, sg_addrs. cbn [sc_sgl flat_map fst snd]. rewrite app_nil_r.
        apply FinFun.Injective_map_NoDup; [intros a b; lia|apply seq_NoDup].
      * intros y Hy. apply ex_cmnd_addr in Hy. rewrite E, ex_part_data by lia. discriminate.
    + destruct HX as (-> & -> & Hd). split; [reflexivity|]. split; [reflexivity|]. split.
      * pose proof (sg_total_length (sc_sgl (ex_cmnd z false (N.of_nat (length data))))) as T'. rewrite T in T'. lia.
      * intros i y b Hi Hb. apply nth_error_In in Hb. apply Hd in Hb as ->. apply nth_error_In in Hi. apply ex_cmnd_addr in Hi.
        rewrite E. apply ex_part_data. lia.
Qed.

Example C96_premises_met :
  cap_ok ex_cap /\ each_own ex_mems ex_world2 /\ Forall2 prepared_in [ex_q0; ex_q1] ex_mems /\ stores ex_world2 ex_disk /\ room_for [ex_q0; ex_q1] ex_world2.
Proof.
  assert (L : N.of_nat (length (ex_data (N.to_nat 4096) xcd)) = 4096) by (unfold ex_data; rewrite repeat_length; apply N2Nat.id).
  split; [|split; [|split; [|split]]].
  - intros n. unfold ex_cap. discriminate.
  - split.
    + intros [|[|i]] mm H; [| |destruct i; discriminate H]; injection H as <-; intros y b Hy; unfold ex_world2; cbn [mem set_mem]; unfold ex_mem2.
      * destruct (N.le_gt_cases (0x40060) y) as [G|G]; [rewrite ex_part_none in Hy by lia; discriminate|].
        replace (2 ^ 64 <=? y) with false by lia. replace (y <? 0x100000) with true by lia. exact Hy.
      * destruct (N.le_gt_cases (0x140060) y) as [G|G]; [rewrite ex_part_none in Hy by lia; discriminate|].
        destruct (N.lt_ge_cases y (0x101000)) as [G'|G']; [rewrite ex_part_none in Hy by lia; discriminate|].
        replace (2 ^ 64 <=? y) with false by lia. replace (y <? 0x100000) with false by lia. exact Hy.
    + assert (S : separate (ex_part 0 ex_write7) (ex_part 0x100000 ex_read6)).
      { intros y. destruct (N.le_gt_cases 0x100000 y); [left|right]; apply ex_part_none; lia. }
      intros [|[|i]] [|[|j]] m1 m2 H1 H2 Hij; try (destruct i; discriminate H1); try (destruct j; discriminate H2); try congruence;
        injection H1 as <-; injection H2 as <-; [exact S|]. intros y. destruct (S y); auto.
  - constructor; [|constructor; [|constructor]].
    + split; [intros y Hy; apply ex_part_none; lia|]. intros v Hv. change (q_kz ex_q0) with (0x90000 + 0). apply (ex_part_presents 0 ex_write7); [reflexivity|discriminate|discriminate|exact Hv| |].
      * exists RW10. split; [cbn; lia|]. split; [split; discriminate|]. split; [reflexivity|]. split; [reflexivity|]. split; [reflexivity|].
        split; [discriminate|]. split; [reflexivity|]. rewrite L. reflexivity.
      * split; [reflexivity|]. split; [symmetry; exact L|]. intros b Hb. exact (repeat_spec _ _ _ Hb).
    + split; [intros y Hy; apply ex_part_none; lia|]. intros v Hv. change (q_kz ex_q1) with (0x90000 + 0x100000). apply (ex_part_presents 0x100000 ex_read6); [reflexivity|discriminate|discriminate|exact Hv| |].
      * exists RW10. split; [cbn; lia|]. split; [split; discriminate|]. split; [reflexivity|]. split; [reflexivity|]. split; [reflexivity|].
        split; [discriminate|]. split; reflexivity.
      * split; reflexivity.
  - intros lun b o _ _ _. unfold ex_world2. cbn [mem set_mem]. unfold ex_mem2. pose proof (medium_high (lun + 1) b o) as H.
    apply N.leb_le in H. rewrite H. reflexivity.
  - split.
    + intros q [<-|[<-|[]]] y Hy; unfold ex_world2; cbn [mem set_mem]; unfold ex_mem2.
      * change (q_kz ex_q0) with 0x90000 in Hy. change (sc_bufflen (q_cmnd ex_q0)) with 4096 in Hy.
        replace (2 ^ 64 <=? y) with false by lia. replace (y <? 0x100000) with true by lia. apply ex_part_none. lia.
      * change (q_kz ex_q1) with 0x190000 in Hy. change (sc_bufflen (q_cmnd ex_q1)) with 8192 in Hy.
        replace (2 ^ 64 <=? y) with false by lia. replace (y <? 0x100000) with false by lia. apply ex_part_none. lia.
    + assert (S : forall x, 0x90000 <= x < 0x90000 + 4096 -> 0x190000 <= x < 0x190000 + 8192 -> False) by (intros; lia).
      intros [|[|i]] [|[|j]] q1 q2 x H1 H2 Hij; try (destruct i; discriminate H1); try (destruct j; discriminate H2); try congruence;
        injection H1 as <-; injection H2 as <-; intros A B; [exact (S x A B)|exact (S x B A)].
Qed.
(** so both commands come to their end, and the read finds block 7 as it was or as
    written, depending on the order *)
Example C96_both_answered : exists l w st,
  together (reliable ex_cap) ex_world2 (queue_of [ex_q0; ex_q1]) l w st /\ (forall s, In s st -> exists r, returned s r).
Proof.
  destruct C96_premises_met as (Hc & Ho & Hp & Hs & Hr).
  destruct (C96_all_finish ex_cap (reliable ex_cap) (nvme_device ex_cap ex_ident ex_cpl) [ex_q0; ex_q1] ex_mems ex_world2 ex_disk [] ex_world2 _ Hc (or_introl eq_refl)
    (ex_intro _ ex_ident (ex_intro _ ex_cpl eq_refl)) Ho Hp Hs Hr (tg_start _ _ _)) as (l & w & st & H & F).
  exists l, w, st. split; [exact H|exact F].
Qed.
