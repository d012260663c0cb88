(** C56-C60: the SCSI adapter, end to end. *)
From Coq Require Import Arith NArith String List Lia Bool Init.Byte Permutation.
From Coq Require Import ZifyBool ZifyNat ZifyN.
From Verif Require Import Bytes Layout World ScsiDefs NvmeDefs Common ModeSenseCmd StatusCmd TranslationCls EngineE2e MockModule
  Spec RwSpec EngineSpec MockSpec Facts Logic BeginFacts CompleteFacts StatusFacts RelFacts RwFacts EngineFacts MockFacts Witness
  Properties1 Properties2 Properties6 Properties9.
Import ListNotations.
Local Open Scope string_scope.
Local Open Scope list_scope.
Local Open Scope N_scope.

Lemma one_wrapper t x : exposes t = [x] -> exists r, GetNvmeWrappers t = [r] /\ view r = x.
Proof. unfold exposes. destruct (GetNvmeWrappers t) as [|r [|? ?]]; intros H; try discriminate. injection H as <-. exists r. auto. Qed.

Lemma mapped_after_map w kz n x : kz <> 0 -> unused w kz n -> mem w x <> None ->
  map_pages (mem w) kz n (fun _ => x00) x = mem w x.
Proof.
  intros Hk Hf Hx. unfold map_pages. destruct ((kz <=? x) && (x <? kz + n)) eqn:E; [|reflexivity]. exfalso. apply Hx, Hf. lia.
Qed.


Lemma sqe_prp1 q : le (slice 24 8 (sqe_bytes q)) = q_prp1 q mod 2 ^ 64.
Proof.
  unfold sqe_bytes.
  replace (slice 24 8 _) with (le_encode 8 (q_prp1 q)) by reflexivity.
  rewrite le_le_encode. reflexivity.
Qed.

(** the engine on a request that becomes a single data command *)
Lemma engine_one drv wrs q w t1 al n sq bs :
  begins wrs q w = Ret (t1, begin_ok al) w -> accepted t1 -> exposes t1 = [io n sq] -> held t1 = [] -> al <= len (rq_data q) ->
  span_holds w (rq_cdb q) bs -> bs <> [] ->
  In (byte_at bs 0) [0x00; 0x08; 0x28; 0xa8; 0x88; 0x0a; 0x2a; 0xaa; 0x8a; 0x35; 0x2f] ->
  exists s, sub_view s = (false, sqe_bytes sq, q_prp1 sq mod 2 ^ 64, n) /\
    let d := drv 0%nat s (mem w) in
    (cpl_ok (snd d mod 2 ^ 128) -> span_holds (set_mem w (fst d)) (rq_cdb q) bs ->
     exists t2 w2, engine drv wrs q w = Ret ({| er_return_code := GOOD; er_alloc_len := al |}, t2, [s]) w2 /\
       (forall x, mem w2 x = fst d x) /\ trace w2 = trace w).
Proof.
  intros E1 Ha X Hh Hl Hc Hne Hin. destruct (one_wrapper _ _ X) as (x & Ex & Vx).
  exists (sub_of x). split.
  { rewrite sub_of_view, Vx. unfold sub_expected, io. cbn [x_admin x_bytes x_buffer_len]. rewrite sqe_prp1. reflexivity. }
  intros d Hok Hc2.
  destruct (C50_data_commands_partial (Translation_init wrs) w (rq_cdb q) bs (rq_data q) (rq_lun q) t1 (begin_ok al) w (idle_init wrs) Hc Hne Hin
    E1 Ha (set_mem w (fst d)) bs [snd d mod 2 ^ 128] (response_span q al) (rq_sense q) Hc2 Hne eq_refl) as (t2 & w3 & E2 & M).
  { rewrite X. reflexivity. }
  { constructor; [exact Hok|constructor]. }
  exists t2, w3. split.
  - erewrite (engine_ok drv wrs q w t1 al w t2 GOOD w3); [rewrite Ex; reflexivity|exact E1|exact Hl|].
    rewrite Ex. cbn [map device_run]. change (drv 0%nat (sub_of x) (mem w)) with d. destruct d as [m c]. exact E2.
  - split; [exact M|].
    pose proof (begins_inv _ _ _ _ _ _ E1 eq_refl) as I.
    pose proof (Complete_spec t1 [snd d mod 2 ^ 128] (response_span q al) (rq_sense q) (set_mem w (fst d)) (i_wf _ _ I) (inv_busy _ I)) as S.
    apply (pst_use _ _ _ _ _ S) in E2. destruct E2 as (_ & w2 & F & R & _). rewrite (r_trace _ _ _ R), (f_trace _ _ _ F), Hh.
    cbn [trace set_mem releases]. destruct (dealloc_cb w2); apply app_nil_r.
Qed.


Lemma with_buffer_old w kz n x : unused w kz n -> mem w x <> None -> mem (with_buffer w kz n) x = mem w x.
Proof.
  intros Hf Hx. unfold with_buffer. cbn [mem set_mem]. unfold map_pages. destruct ((kz <=? x) && (x <? kz + n)) eqn:E; [|reflexivity].
  exfalso. apply Hx, Hf. lia.
Qed.
Lemma with_buffer_out w kz n x : ~ (kz <= x < kz + n) -> mem (with_buffer w kz n) x = mem w x.
Proof.
  intros Hx. unfold with_buffer. cbn [mem set_mem]. unfold map_pages. destruct ((kz <=? x) && (x <? kz + n)) eqn:E; [lia|reflexivity].
Qed.
Lemma with_buffer_in w kz n x : kz <= x < kz + n -> mem (with_buffer w kz n) x = Some x00.
Proof.
  intros Hx. unfold with_buffer. cbn [mem set_mem]. unfold map_pages. destruct ((kz <=? x) && (x <? kz + n)) eqn:E; [reflexivity|lia].
Qed.
Lemma bytes_mapped w a bs i : bytes_at w a bs -> (i < length bs)%nat -> mem w (a + N.of_nat i) <> None.
Proof. intros H L. destruct (nth_error bs i) as [b|] eqn:E; [rewrite (H _ _ E); discriminate|apply nth_error_None in E; lia]. Qed.

Lemma load_inv w a n l w' : load a n w = Ret l w' -> w' = w /\ length l = n /\ bytes_at w a l.
Proof.
  unfold load. destruct (load_bytes (mem w) a n) as [l'|] eqn:E; [|discriminate]. intros H. injection H as <- <-.
  split; [reflexivity|]. split; [eapply load_bytes_length; exact E|]. intros i b. eapply load_bytes_nth. exact E.
Qed.

(** a request that returns: what the adapter did around the engine *)
Lemma sg_gather_pure sgl : forall n w x w', sg_gather sgl n w = Ret x w' -> w' = w /\ (length x <= n)%nat.
Proof.
  induction sgl as [|[a l] sgl IH]; intros n w x w' E.
  - cbn [sg_gather] in E. unfold ret in E. injection E as <- <-. split; [reflexivity|cbn [length]; lia].
  - cbn [sg_gather] in E. apply bind_ret_inv in E as (y & w1 & E1 & E). apply bind_ret_inv in E as (z & w2 & E2 & E).
    unfold ret in E. injection E as <- <-. apply load_inv in E1 as (-> & L & _). apply IH in E2 as (-> & L2).
    split; [reflexivity|]. rewrite app_length. lia.
Qed.
Lemma sg_scatter_set sgl : forall bs w k w', sg_scatter sgl bs w = Ret k w' ->
  w' = set_mem w (mem w') /\ k = N.min (N.of_nat (length bs)) (sg_total sgl) /\
  (forall x, ~ In x (sg_addrs sgl) -> mem w' x = mem w x).
Proof.
  induction sgl as [|[a l] sgl IH]; intros bs w k w' E.
  - cbn [sg_scatter] in E. unfold ret in E. injection E as <- <-. rewrite set_mem_same. split; [reflexivity|]. split; [cbn [sg_total fold_right]; lia|reflexivity].
  - cbn [sg_scatter] in E. apply bind_ret_inv in E as ([] & w1 & E1 & E). apply bind_ret_inv in E as (z & w2 & E2 & E).
    unfold ret in E. injection E as <- <-. apply store_inv in E1 as (_ & ->). apply IH in E2 as (H1 & H2 & H3).
    split; [rewrite H1 at 1; cbn [mem set_mem]; rewrite set_mem_set; reflexivity|]. split.
    + rewrite H2. cbn [sg_total fold_right snd]. fold (sg_total sgl). rewrite firstn_length, skipn_length. lia.
    + intros x Hx. rewrite sg_addrs_cons in Hx. rewrite H3 by (intros Y; apply Hx, in_or_app; right; exact Y). cbn [mem set_mem].
      apply store_bytes_out. intros Y. apply Hx, in_or_app. left. apply seg_in. rewrite firstn_length in Y. lia.
Qed.

(** what the adapter leaves alone around the engine: everything but its buffer *)
Record prepared (w w2 : world) (kz n : N) : Prop := {
  p_mem : forall x, ~ (kz <= x < kz + n) -> mem w2 x = mem w x;
  p_dom : forall x, mem w x <> None -> mem w2 x <> None;
  p_trace : trace w2 = trace w ++ (if 0 <? n then [EvAlloc 1 n kz] else []);
  p_cfg : same_cfg w w2
}.

Lemma mock_inv drv wrs kz wild c w r w' : let q := mock_request kz wild c in let n := len (rq_data q) in
  scsi_queuecommand drv wrs kz wild c w = Ret r w' -> n = 0 \/ kz <> 0 ->
  exists w2 resp t subs w3 w4,
    prepared w w2 kz n /\
    (rq_data_in q = true -> 0 < n -> w2 = with_buffer w kz n) /\
    engine drv wrs q w2 = Ret (resp, t, subs) w3 /\
    mr_result r = er_return_code resp /\ mr_subs r = subs /\
    (if rq_data_in q && (0 <? n)
     then let k := N.min (er_alloc_len resp) (sg_total (sc_sgl c)) in
          mr_resid r = Some (n - k) /\ exists bs, N.of_nat (length bs) = k /\ bytes_at w3 kz bs /\ sg_scatter (sc_sgl c) bs w3 = Ret k w4
     else mr_resid r = None /\ w4 = w3) /\
    w' = (if 0 <? n then log w4 (EvDealloc kz n) else w4).
Proof.
  intros q n E H. rewrite mock_eq in E. cbv zeta in E. fold q in E. fold n in E.
  replace ((0 <? n) && (kz =? 0)) with false in E by lia.
  set (w1 := if 0 <? n then _ else w) in E.
  assert (W1 : w1 = if 0 <? n then with_buffer w kz n else w).
  { unfold w1. destruct (0 <? n) eqn:En; [|reflexivity]. replace (kz =? 0) with false by lia. reflexivity. }
  assert (P1 : prepared w w1 kz n).
  { rewrite W1. destruct (0 <? n) eqn:En; constructor; rewrite ?En; try reflexivity; auto.
    - intros x Hx. apply with_buffer_out. exact Hx.
    - intros x Hx. unfold with_buffer. cbn [mem set_mem]. unfold map_pages. destruct ((kz <=? x) && (x <? kz + n)); [discriminate|exact Hx].
    - repeat split.
    - rewrite app_nil_r. reflexivity.
    - repeat split. }
  clearbody w1.
  apply bind_ret_inv in E as (z & w2 & E0 & E). apply bind_ret_inv in E as ([[resp t] subs] & w3 & E1 & E).
  apply bind_ret_inv in E as (rs & w4 & E2 & E). apply bind_ret_inv in E as ([] & w5 & E3 & E). unfold ret in E. injection E as <- <-.
  assert (P2 : prepared w w2 kz n /\ (rq_data_in q = true -> w2 = w1)).
  { destruct ((0 <? n) && negb (rq_data_in q)) eqn:C.
    - split; [|intros Y; rewrite Y in C; rewrite andb_false_r in C; discriminate].
      unfold sg_copy_to_buffer in E0. apply bind_ret_inv in E0 as (y & w6 & Eg & E0). apply bind_ret_inv in E0 as ([] & w7 & Es & E0).
      unfold ret in E0. injection E0 as _ <-. apply sg_gather_pure in Eg as (-> & L). apply store_inv in Es as (Hm & ->). destruct P1 as [A D T C1].
      constructor; [| |exact T|eapply same_cfg_trans; [exact C1|repeat split]].
      + intros x Hx. cbn [mem set_mem]. rewrite store_bytes_out by lia. apply A. exact Hx.
      + intros x Hx. cbn [mem set_mem]. unfold store_bytes. destruct ((kz <=? x) && (x <? kz + N.of_nat (length y))) eqn:Y; [discriminate|apply D; exact Hx].
    - unfold ret in E0. injection E0 as _ <-. auto. }
  destruct P2 as [P2 P2'].
  exists w2, resp, t, subs, w3, w4. split; [exact P2|]. split.
  { intros Y Z. rewrite (P2' Y), W1. replace (0 <? n) with true by lia. reflexivity. }
  split; [exact E1|]. split; [reflexivity|]. split; [reflexivity|]. cbn [mr_resid]. split.
  - destruct (rq_data_in q && (0 <? n)) eqn:C.
    + apply bind_ret_inv in E2 as (k & w6 & E2 & E4). unfold ret in E4. injection E4 as <- <-. unfold sg_copy_from_buffer in E2.
      apply bind_ret_inv in E2 as (bs & w7 & El & E2). apply load_inv in El as (-> & L & Hb). cbv zeta.
      assert (K : k = N.min (er_alloc_len resp) (sg_total (sc_sgl c))).
      { apply sg_scatter_set in E2 as Z. destruct Z as (_ & Z & _). lia. }
      rewrite <- K. split; [reflexivity|]. exists bs. split; [lia|]. split; [exact Hb|exact E2].
    + unfold ret in E2. injection E2 as <- <-. auto.
  - destruct (0 <? n); [unfold kfree in E3; injection E3 as <-; reflexivity|unfold ret in E3; injection E3 as <-; reflexivity].
Qed.

(** ** C56 *)

(** A READ of at most 15 blocks through the whole stack: exactly one NVMe Read
    for those blocks of the LUN's namespace is submitted, the device's data
    arrives in the initiator's scatterlist, nothing else changes (besides the
    adapter's own buffer, which is released), residual 0, GOOD. *)
Theorem C56_read_end_to_end : forall f drv wrs kz wild c w bs pr d,
  (* the request *)
  bytes_at w (sc_cmnd c) bs -> N.of_nat (length bs) = sc_cmd_len c -> sc_cmd_len c < 65536 ->
  byte_at bs 0 = read_opcode f -> (rw_len f <= length bs)%nat -> 1 <= rw_blocks f bs <= 15 -> read_prinfo f bs = Some pr ->
  sc_from_device c = true -> sc_bufflen c = rw_blocks f bs * 4096 ->
  sg_valid w (sc_sgl c) -> sc_bufflen c <= sg_total (sc_sgl c) ->
  (* the environment *)
  kz <> 0 -> unused w kz (sc_bufflen c) -> kz + sc_bufflen c <= 2 ^ 64 ->
  N.of_nat (length d) = sc_bufflen c -> answers_with drv d ->
  exists subs w',
    scsi_queuecommand drv wrs kz wild c w = Ret {| mr_result := GOOD; mr_resid := Some 0; mr_subs := subs |} w' /\
    map sub_view subs =
      [(false, sqe_bytes (rw_sqe 0x02 (sc_lun c) kz (rw_lba f bs) (rw_blocks f bs) (rw_fua f bs) pr), kz, sc_bufflen c)] /\
    sg_holds w' (sc_sgl c) d /\
    (forall x, ~ (kz <= x < kz + sc_bufflen c) -> ~ In x (firstn (length d) (sg_addrs (sc_sgl c))) -> mem w' x = mem w x) /\
    trace w' = trace w ++ [EvAlloc 1 (sc_bufflen c) kz; EvDealloc kz (sc_bufflen c)].
Proof.
  intros f drv wrs kz wild c w bs pr d Hc Hcl Hcs Ho Hf Hn Hp Hdi Hbl Hsg Hst Hkz Hun Hkl Hdl Hans.
  set (q := mock_request kz wild c). assert (Hlen : len (rq_data q) = sc_bufflen c).
  { unfold q, mock_request. cbn [rq_data len]. apply N.mod_small. lia. }
  assert (Hq : rq_cdb q = {| ptr := sc_cmnd c; len := sc_cmd_len c |}).
  { unfold q, mock_request. cbn [rq_cdb]. rewrite N.mod_small by lia. reflexivity. }
  assert (Hqd : rq_data q = {| ptr := kz; len := sc_bufflen c |}).
  { unfold q, mock_request. cbn [rq_data]. cbv zeta. rewrite N.mod_small by lia. replace (0 <? sc_bufflen c) with true by lia. reflexivity. }
  set (w1 := with_buffer w kz (sc_bufflen c)).
  assert (Hne : bs <> []) by (intros ->; destruct f; discriminate Ho).
  assert (Hc1 : span_holds w1 (rq_cdb q) bs).
  { rewrite Hq. split; [cbn [len]; lia|]. cbn [ptr]. intros i b Hi. unfold w1. rewrite with_buffer_old; [apply Hc; exact Hi|exact Hun|].
    rewrite (Hc _ _ Hi). discriminate. }
  assert (Hr : read_ok f bs (rq_data q)).
  { split; [exact Hf|]. split; [lia|]. split; [rewrite Hp; discriminate|]. rewrite Hlen. lia. }
  destruct (Begin_read_ok f (Translation_init wrs) (rq_cdb q) (rq_data q) (sc_lun c) w1 bs pr (idle_init wrs) Hc1 Ho Hr Hp) as (t1 & E1 & Ha & X & Hh).
  destruct (engine_one drv wrs q w1 t1 (rw_blocks f bs * 4096) _ _ bs E1 Ha X Hh) as (s & Vs & Es).
  { rewrite Hlen. lia. }
  { exact Hc1. }
  { exact Hne. }
  { rewrite Ho. destruct f; cbn; tauto. }
  cbv zeta in Es. destruct (Hans 0%nat s (mem w1)) as (Hok & Hd1 & Hd2).
  assert (Sb : sub_buffer s = kz).
  { assert (Y : sub_buffer s = ptr (rq_data q) mod 2 ^ 64) by (change (snd (fst (sub_view s)) = ptr (rq_data q) mod 2 ^ 64); rewrite Vs; reflexivity). rewrite Y, Hqd. cbn [ptr]. apply N.mod_small. lia. }
  rewrite Sb, Hdl in *.
  assert (Hout : forall i, (i < length bs)%nat -> ~ (kz <= sc_cmnd c + N.of_nat i < kz + sc_bufflen c)).
  { intros i Hi Hx. apply (bytes_mapped _ _ _ _ Hc Hi). apply Hun. exact Hx. }
  destruct (Es Hok) as (t2 & w2 & E2 & M2 & T2).
  { rewrite Hq. split; [cbn [len]; lia|]. cbn [ptr]. intros i b Hi. cbn [mem set_mem]. rewrite Hd2.
    - destruct Hc1 as [_ Hc1]. rewrite Hq in Hc1. apply Hc1. exact Hi.
    - apply Hout. apply nth_error_Some. congruence. }
  (* delivery *)
  assert (Hin : forall x, In x (sg_addrs (sc_sgl c)) -> ~ (kz <= x < kz + sc_bufflen c)).
  { intros x Hx Hk. destruct Hsg as [_ Hm]. apply (Hm _ Hx). apply Hun. exact Hk. }
  assert (Hv2 : sg_valid w2 (sc_sgl c)).
  { destruct Hsg as [Hd Hm]. split; [exact Hd|]. intros x Hx. rewrite M2, Hd2 by (apply Hin; exact Hx).
    unfold w1. rewrite with_buffer_old; auto. }
  assert (Hld : (length d <= length (sg_addrs (sc_sgl c)))%nat).
  { pose proof (sg_total_length (sc_sgl c)). lia. }
  destruct (sg_scatter_ok (sc_sgl c) d w2 Hv2 Hld) as (m' & Es' & Hh' & Hm').
  eexists [s], _. split; [|split; [|split; [|split]]].
  - rewrite mock_eq. cbv zeta. fold q. rewrite Hlen. replace (0 <? sc_bufflen c) with true by lia. replace (kz =? 0) with false by lia.
    change (rq_data_in q) with (sc_from_device c). rewrite Hdi. cbn [andb negb]. unfold bind at 1. unfold ret at 1.
    change (set_mem (log w (EvAlloc 1 (sc_bufflen c) kz)) (map_pages (mem w) kz (sc_bufflen c) (fun _ : N => x00))) with w1.
    unfold bind at 1. rewrite E2. unfold bind at 1. unfold sg_copy_from_buffer. unfold bind at 1. unfold bind at 1. cbn [er_alloc_len].
    rewrite (load_ok w2 kz _ d).
    + rewrite Es'. unfold ret at 1. unfold bind, kfree, ret. cbn [er_return_code]. rewrite Hdl, N.sub_diag. reflexivity.
    + intros i b Hi. rewrite M2. apply Hd1. exact Hi.
    + lia.
  - cbn [map]. rewrite Vs. rewrite <- Hbl. f_equal. unfold rw_sqe. cbn [q_prp1]. rewrite Hqd. cbn [ptr]. rewrite (N.mod_small kz) by lia. reflexivity.
  - destruct Hh' as [H1 H2]. split; [exact H1|]. intros i a b. cbn [mem log set_mem]. apply H2.
  - intros x Hx Hx2. cbn [mem log set_mem]. rewrite Hm' by exact Hx2. rewrite M2, Hd2 by exact Hx. apply with_buffer_out. exact Hx.
  - cbn [trace log set_mem]. rewrite T2. unfold w1, with_buffer. cbn [trace log set_mem]. rewrite <- app_assoc. reflexivity.
Qed.
Print Assumptions C56_read_end_to_end.

(** READ(10) of one block at LBA 7 of LUN 2 into a scatterlist of two halves,
    the device answering 4096 bytes 0xab *)
Definition ex_data (n : nat) (b : byte) : list byte := repeat b n.
Definition ex_answer (d : list byte) : driver := fun _ s m => (store_bytes m (sub_buffer s) d, 0).
Lemma ex_answers d : answers_with (ex_answer d) d.
Proof.
  intros k s m. unfold ex_answer. cbn [fst snd]. split; [|split].
  - split; reflexivity.
  - intros i b Hi. apply store_bytes_in. exact Hi.
  - intros x Hx. apply store_bytes_out. exact Hx.
Qed.
Definition ex_scsi (cdb : list byte) (din : bool) (n : N) : scsi_cmnd :=
  {| sc_lun := 2; sc_cmnd := ptr (ex_cdb cdb); sc_cmd_len := len (ex_cdb cdb); sc_sense := 0x40000; sc_from_device := din; sc_bufflen := n;
     sc_sgl := [(0x20000 + n / 2, n / 2); (0x20000, n / 2)] |}.
(** result, residual, submissions, and the scatterlist's bytes afterwards *)
Definition mock_run (drv : driver) (kz : N) (c : scsi_cmnd) (w : world) :=
  match scsi_queuecommand drv ex_wrs kz 0xdead c w with
  | Ret r w' => Some (mr_result r, mr_resid r, map (fun s => (sub_admin s, sub_buffer s, sub_bufflen s)) (mr_subs r),
                      map (mem w') (sg_addrs (sc_sgl c)))
  | _ => None
  end.
Definition ex_read10 : list byte := B [0x28;0;0;0;0;7;0;0;1;0].
Lemma NoDup_app_disjoint {A} (l1 l2 : list A) : NoDup l1 -> NoDup l2 -> (forall x, In x l1 -> ~ In x l2) -> NoDup (l1 ++ l2).
Proof.
  induction l1 as [|a l1 IH]; intros H1 H2 H; [exact H2|]. inversion H1; subst. cbn [app]. constructor.
  - intros Hin. apply in_app_or in Hin as [Hin|Hin]; [contradiction|]. exact (H a (or_introl eq_refl) Hin).
  - apply IH; [assumption|exact H2|]. intros x Hx. apply H. right. exact Hx.
Qed.
Lemma ex_sgl_range cdb din n x : In x (sg_addrs (sc_sgl (ex_scsi cdb din n))) -> 0x20000 <= x < 0x20000 + n.
Proof.
  unfold ex_scsi, sg_addrs. cbn [sc_sgl flat_map fst snd]. rewrite app_nil_r. pose proof (N.div_mod n 2). pose proof (N.mod_lt n 2).
  intros H1. apply in_app_or in H1 as [H1|H1]; apply in_map_iff in H1 as (i & <- & H1); apply in_seq in H1; lia.
Qed.
Lemma ex_sgl_nodup cdb din n : NoDup (sg_addrs (sc_sgl (ex_scsi cdb din n))).
Proof.
  unfold ex_scsi, sg_addrs. cbn [sc_sgl flat_map fst snd]. rewrite app_nil_r. apply NoDup_app_disjoint.
  - apply FinFun.Injective_map_NoDup; [intros a b H; lia|apply seq_NoDup].
  - apply FinFun.Injective_map_NoDup; [intros a b H; lia|apply seq_NoDup].
  - intros y H1 H2. apply in_map_iff in H1 as (i & <- & H1), H2 as (k & E & H2). apply in_seq in H1, H2. lia.
Qed.
(** the example memory: the 64 KiB at 0x20000 are mapped, nothing is beyond
    0x40020 *)
Lemma ex_mem_data cdb out x : N.of_nat (length cdb) <= 0xf000 -> N.of_nat (length out) <= 0x10000 -> 0x20000 <= x < 0x30000 -> mem (ex_world_with (fun _ _ => x00) xff cdb out) x = Some x00.
Proof.
  intros Hc Ho Hx. cbn [mem ex_world_with]. unfold ex_mem, region, zeros.
  replace (x <? 0x1000 + N.of_nat (length cdb)) with false by lia. rewrite andb_false_r.
  replace (x <? 0x10000 + N.of_nat (length out)) with false by lia. rewrite andb_false_r.
  replace ((0x20000 <=? x) && (x <? 0x20000 + 0x10000)) with true by lia. reflexivity.
Qed.
Lemma ex_mem_high cdb out x : N.of_nat (length cdb) <= 0xf000 -> N.of_nat (length out) <= 0x10000 -> 0x40020 <= x -> mem (ex_world_with (fun _ _ => x00) xff cdb out) x = None.
Proof.
  intros Hc Ho Hx. cbn [mem ex_world_with]. unfold ex_mem, region, zeros.
  replace (x <? 0x1000 + N.of_nat (length cdb)) with false by lia. rewrite andb_false_r.
  replace (x <? 0x10000 + N.of_nat (length out)) with false by lia. rewrite andb_false_r.
  replace (x <? 0x20000 + 0x10000) with false by lia. rewrite andb_false_r.
  replace (x <? 0x40000 + 32) with false by lia. rewrite andb_false_r. reflexivity.
Qed.
Lemma ex_sgl_valid cdb din n : N.of_nat (length cdb) <= 0xf000 -> n <= 0x10000 -> sg_valid (ex_world cdb) (sc_sgl (ex_scsi cdb din n)).
Proof.
  intros Hc Hn. split; [apply ex_sgl_nodup|]. intros x Hx. apply ex_sgl_range in Hx. unfold ex_world. rewrite ex_mem_data; [discriminate|exact Hc|discriminate|lia].
Qed.
Lemma ex_unused cdb n : N.of_nat (length cdb) <= 0xf000 -> unused (ex_world cdb) 0x90000 n.
Proof. intros Hc x Hx. apply ex_mem_high; [exact Hc|discriminate|lia]. Qed.

(** the hypotheses of C56 hold, so the read returns the device's bytes *)
Example C56_premises_met : exists subs w',
  scsi_queuecommand (ex_answer (ex_data (N.to_nat 4096) xab)) ex_wrs 0x90000 0xdead (ex_scsi ex_read10 true 4096) (ex_world ex_read10) =
    Ret {| mr_result := GOOD; mr_resid := Some 0; mr_subs := subs |} w' /\
  sg_holds w' (sc_sgl (ex_scsi ex_read10 true 4096)) (ex_data (N.to_nat 4096) xab).
Proof.
  destruct (C56_read_end_to_end RW10 (ex_answer (ex_data (N.to_nat 4096) xab)) ex_wrs 0x90000 0xdead (ex_scsi ex_read10 true 4096) (ex_world ex_read10)
    ex_read10 15 (ex_data (N.to_nat 4096) xab)) as (subs & w' & E & _ & S & _).
  - apply (ex_cdb_holds (fun _ _ => x00) xff ex_read10 []).
  - reflexivity.
  - reflexivity.
  - reflexivity.
  - cbn. lia.
  - split; discriminate.
  - reflexivity.
  - reflexivity.
  - reflexivity.
  - apply ex_sgl_valid; discriminate.
  - discriminate.
  - discriminate.
  - apply ex_unused. discriminate.
  - discriminate.
  - unfold ex_data. rewrite repeat_length. apply N2Nat.id.
  - apply ex_answers.
  - exists subs, w'. split; [exact E|exact S].
Qed.

(** ** C57 *)

(** A WRITE of at most 15 blocks: exactly one NVMe Write for those blocks is
    submitted, and when it reaches the device the submitted buffer holds the
    initiator's bytes in order ([m] is the memory the device works on); if the
    device acknowledges it (and leaves the CDB alone), the result is GOOD. *)
Theorem C57_write_end_to_end : forall f drv wrs kz wild c w bs pr data,
  (* the request *)
  bytes_at w (sc_cmnd c) bs -> N.of_nat (length bs) = sc_cmd_len c -> sc_cmd_len c < 65536 ->
  byte_at bs 0 = write_opcode f -> (rw_len f <= length bs)%nat -> 1 <= rw_blocks f bs <= 15 -> write_prinfo f bs = Some pr ->
  sc_from_device c = false -> sc_bufflen c = rw_blocks f bs * 4096 ->
  sg_holds w (sc_sgl c) data -> N.of_nat (length data) = sc_bufflen c ->
  (* the environment *)
  kz <> 0 -> unused w kz (sc_bufflen c) -> kz + sc_bufflen c <= 2 ^ 64 ->
  exists s m,
    sub_view s =
      (false, sqe_bytes (rw_sqe 0x01 (sc_lun c) kz (rw_lba f bs) (rw_blocks f bs) (rw_fua f bs) pr), kz, sc_bufflen c) /\
    (forall i b, nth_error data i = Some b -> m (kz + N.of_nat i) = Some b) /\
    (forall x, ~ (kz <= x < kz + sc_bufflen c) -> m x = mem w x) /\
    let after := drv 0%nat s m in
    (cpl_ok (snd after mod 2 ^ 128) -> (forall i, (i < length bs)%nat -> fst after (sc_cmnd c + N.of_nat i) = m (sc_cmnd c + N.of_nat i)) ->
     exists w',
       scsi_queuecommand drv wrs kz wild c w = Ret {| mr_result := GOOD; mr_resid := None; mr_subs := [s] |} w' /\
       (forall x, mem w' x = fst after x) /\
       trace w' = trace w ++ [EvAlloc 1 (sc_bufflen c) kz; EvDealloc kz (sc_bufflen c)]).
Proof.
  intros f drv wrs kz wild c w bs pr data Hc Hcl Hcs Ho Hf Hn Hp Hdi Hbl Hsg Hdl Hkz Hun Hkl.
  set (q := mock_request kz wild c). assert (Hlen : len (rq_data q) = sc_bufflen c).
  { unfold q, mock_request. cbn [rq_data len]. apply N.mod_small. lia. }
  assert (Hq : rq_cdb q = {| ptr := sc_cmnd c; len := sc_cmd_len c |}).
  { unfold q, mock_request. cbn [rq_cdb]. rewrite N.mod_small by lia. reflexivity. }
  assert (Hqd : rq_data q = {| ptr := kz; len := sc_bufflen c |}).
  { unfold q, mock_request. cbn [rq_data]. cbv zeta. rewrite N.mod_small by lia. replace (0 <? sc_bufflen c) with true by lia. reflexivity. }
  set (w1 := with_buffer w kz (sc_bufflen c)).
  set (w2 := set_mem w1 (store_bytes (mem w1) kz data)).
  assert (Hne : bs <> []) by (intros ->; destruct f; discriminate Ho).
  assert (Hout : forall i, (i < length bs)%nat -> ~ (kz <= sc_cmnd c + N.of_nat i < kz + sc_bufflen c)).
  { intros i Hi Hx. apply (bytes_mapped _ _ _ _ Hc Hi). apply Hun. exact Hx. }
  assert (M2 : forall x, ~ (kz <= x < kz + sc_bufflen c) -> mem w2 x = mem w x).
  { intros x Hx. unfold w2. cbn [mem set_mem]. rewrite store_bytes_out by (rewrite Hdl; exact Hx). apply with_buffer_out. exact Hx. }
  assert (Hc2 : span_holds w2 (rq_cdb q) bs).
  { rewrite Hq. split; [cbn [len]; lia|]. cbn [ptr]. intros i b Hi. rewrite M2; [apply Hc; exact Hi|]. apply Hout. apply nth_error_Some. congruence. }
  destruct (C17_write_exact f (Translation_init wrs) (rq_cdb q) (rq_data q) (sc_lun c) w2 bs pr (idle_init wrs) Hc2 Ho Hf) as (t1 & E1 & Ha & X).
  { lia. }
  { exact Hp. }
  { rewrite Hlen. lia. }
  assert (Hh : held t1 = []).
  { assert (Hr : write_ok f bs) by (repeat split; auto; try lia; rewrite Hp; discriminate).
    destruct (Begin_write_ok f (Translation_init wrs) (rq_cdb q) (rq_data q) (sc_lun c) w2 bs pr (idle_init wrs) Hc2 Ho Hr Hp) as (t1' & E1' & _ & _ & Hh).
    rewrite E1 in E1'. apply ret_eq in E1' as [E1' _]. apply pair_eq in E1' as [-> _]. exact Hh. }
  destruct (engine_one drv wrs q w2 t1 0 _ _ bs E1 Ha X Hh) as (s & Vs & Es).
  { lia. }
  { exact Hc2. }
  { exact Hne. }
  { rewrite Ho. destruct f; cbn; tauto. }
  cbv zeta in Es.
  exists s, (mem w2). split; [|split; [|split]].
  - rewrite Vs, Hlen. unfold rw_sqe, nsid_of. cbn [q_prp1]. rewrite Hqd. cbn [ptr]. rewrite (N.mod_small kz) by lia. reflexivity.
  - intros i b Hi. unfold w2. cbn [mem set_mem]. apply store_bytes_in. exact Hi.
  - exact M2.
  - intros after Hok Hcdb. destruct (Es Hok) as (t2 & w3 & E2 & M3 & T3).
    { rewrite Hq. split; [cbn [len]; lia|]. cbn [ptr]. intros i b Hi. cbn [mem set_mem].
      assert (Hi' : (i < length bs)%nat) by (apply nth_error_Some; congruence).
      change (fst (drv 0%nat s (mem w2))) with (fst after). rewrite (Hcdb i Hi'). destruct Hc2 as [_ Hc2]. rewrite Hq in Hc2. apply Hc2. exact Hi. }
    eexists. split; [|split].
    + rewrite mock_eq. cbv zeta. fold q. rewrite Hlen. replace (0 <? sc_bufflen c) with true by lia. replace (kz =? 0) with false by lia.
      change (rq_data_in q) with (sc_from_device c). rewrite Hdi. cbn [andb negb].
      change (set_mem (log w (EvAlloc 1 (sc_bufflen c) kz)) (map_pages (mem w) kz (sc_bufflen c) (fun _ : N => x00))) with w1.
      unfold bind at 1. unfold sg_copy_to_buffer. unfold bind at 1. rewrite (sg_gather_ok (sc_sgl c) _ data).
      * unfold bind at 1. rewrite store_ok.
        -- fold w2. unfold ret at 1. unfold bind at 1. rewrite E2. unfold bind, kfree, ret. cbn [er_return_code]. reflexivity.
        -- intros x Hx. rewrite Hdl in Hx. unfold w1. rewrite with_buffer_in by exact Hx. discriminate.
      * destruct Hsg as [H1 H2]. split; [exact H1|]. intros i a b Hi Hb. unfold w1. rewrite with_buffer_old; [eapply H2; eassumption|exact Hun|].
        rewrite (H2 _ _ _ Hi Hb). discriminate.
      * destruct Hsg as [H1 _]. lia.
    + intros x. cbn [mem log]. apply M3.
    + cbn [trace log]. rewrite T3. unfold w2, w1, with_buffer. cbn [trace log set_mem]. rewrite <- app_assoc. reflexivity.
Qed.
Print Assumptions C57_write_end_to_end.

Definition ex_write1 : list byte := B [0x2a;0;0;0;0;7;0;0;1;0].
(** what the device found in the buffer *)
(** a device that acknowledges the write only if it finds the initiator's bytes *)
Definition ex_checks (b : byte) : driver := fun _ s m => (m, match m (sub_buffer s) with Some x => if Byte.eqb x b then 0 else 1 | None => 1 end).
Definition ex_write_world : world :=
  set_mem (ex_world ex_write1) (store_bytes (mem (ex_world ex_write1)) 0x20000 (ex_data (N.to_nat 4096) xcd)).
Lemma ex_data_nth n b i c : nth_error (ex_data n b) i = Some c -> c = b.
Proof. intros H. apply nth_error_In in H. apply repeat_spec in H. exact H. Qed.
Lemma ex_data_len : N.of_nat (length (ex_data (N.to_nat 4096) xcd)) = 4096.
Proof. unfold ex_data. rewrite repeat_length. apply N2Nat.id. Qed.
Example C57_premises_met : exists s w',
  scsi_queuecommand (ex_checks xcd) ex_wrs 0x90000 0xdead (ex_scsi ex_write1 false 4096) ex_write_world =
    Ret {| mr_result := GOOD; mr_resid := None; mr_subs := [s] |} w'.
Proof.
  assert (Low : forall x, ~ (0x20000 <= x < 0x21000) -> mem ex_write_world x = mem (ex_world ex_write1) x).
  { intros x Hx. unfold ex_write_world. cbn [mem set_mem]. apply store_bytes_out. rewrite ex_data_len. lia. }
  assert (In : forall x, 0x20000 <= x < 0x21000 -> mem ex_write_world x = Some xcd).
  { intros x Hx. unfold ex_write_world. cbn [mem set_mem]. replace x with (0x20000 + N.of_nat (N.to_nat (x - 0x20000))) by lia.
    apply store_bytes_in. pose proof ex_data_len as L. set (d := ex_data (N.to_nat 4096) xcd) in *.
    rewrite (nth_error_nth' d x00) by lia. f_equal. apply (ex_data_nth (N.to_nat 4096) xcd (N.to_nat (x - 0x20000))). apply nth_error_nth'. fold d. lia. }
  destruct (C57_write_end_to_end RW10 (ex_checks xcd) ex_wrs 0x90000 0xdead (ex_scsi ex_write1 false 4096) ex_write_world
    ex_write1 8 (ex_data (N.to_nat 4096) xcd)) as (s & m & V & H1 & H2 & H3).
  - intros i b Hi. rewrite Low; [apply (ex_cdb_holds (fun _ _ => x00) xff ex_write1 []); exact Hi|].
    assert (i < 10)%nat by (change 10%nat with (length ex_write1); apply nth_error_Some; congruence).
    change (sc_cmnd (ex_scsi ex_write1 false 4096)) with 0x1000. lia.
  - reflexivity.
  - reflexivity.
  - reflexivity.
  - cbn. lia.
  - split; discriminate.
  - reflexivity.
  - reflexivity.
  - reflexivity.
  - split.
    + pose proof (sg_total_length (sc_sgl (ex_scsi ex_write1 false 4096))) as T. change (sg_total _) with 4096 in T. pose proof ex_data_len. lia.
    + intros i x b Hi Hb. apply ex_data_nth in Hb as ->. apply nth_error_In, ex_sgl_range in Hi. apply In. lia.
  - apply ex_data_len.
  - discriminate.
  - intros x Hx. change (sc_bufflen (ex_scsi ex_write1 false 4096)) with 4096 in Hx. rewrite Low by lia. apply (ex_unused ex_write1 4096); [discriminate|exact Hx].
  - discriminate.
  - cbv zeta in H3. destruct H3 as (w' & E & _); [|reflexivity|exists s, w'; exact E].
    assert (B : sub_buffer s = 0x90000) by (change (snd (fst (sub_view s)) = 0x90000); rewrite V; reflexivity).
    unfold ex_checks. cbn [snd]. rewrite B.
    assert (E0 : nth_error (ex_data (N.to_nat 4096) xcd) 0 = Some xcd) by reflexivity.
    apply H1 in E0. rewrite N.add_0_r in E0. rewrite E0. split; reflexivity.
Qed.

(** ** C58 *)

Lemma ledger_snoc tr o e : ledger tr = Some o -> ledger (tr ++ [e]) = ledger_step (Some o) e.
Proof. intros H. unfold ledger in *. rewrite fold_left_app, H. reflexivity. Qed.
Lemma remove_run_in p l : forall l', Permutation l (p :: l') -> exists l2, remove_run p l = Some l2 /\ Permutation l2 l'.
Proof.
  intros l' H. assert (In p l) as Hin by (eapply Permutation_in; [apply Permutation_sym; exact H|left; reflexivity]).
  assert (G : exists l2, remove_run p l = Some l2 /\ Permutation l (p :: l2)).
  { clear H l'. induction l as [|q l IH]; [destruct Hin|]. cbn [remove_run]. destruct ((fst p =? fst q) && (snd p =? snd q)) eqn:E.
    - exists l. split; [reflexivity|]. assert (p = q) as -> by (destruct p, q; cbn in E; f_equal; lia). apply Permutation_refl.
    - destruct Hin as [->|Hin]; [rewrite !N.eqb_refl in E; discriminate|]. destruct (IH Hin) as (l2 & -> & P). exists (q :: l2).
      split; [reflexivity|]. eapply perm_trans; [apply perm_skip, P|apply perm_swap]. }
  destruct G as (l2 & E & P). exists l2. split; [exact E|]. apply (Permutation_cons_inv (a := p)). eapply perm_trans; [apply Permutation_sym, P|exact H].
Qed.

Lemma engine_balanced drv wrs q w o resp t subs w' :
  sane_allocator w -> ledger (trace w) = Some o -> engine drv wrs q w = Ret (resp, t, subs) w' ->
  er_return_code resp <> TASK_ABORTED \/ subs <> [] ->
  exists o', ledger (trace w') = Some o' /\ Permutation o' o.
Proof.
  intros Hs Ho E H. apply (C48_pages_released_partial _ _ _ _ _ _ _ _ _ Hs Ho E). intros t1 r w1 E1. right.
  destruct (engine_cases _ _ _ _ _ _ _ _ E) as (t1' & r' & w1' & E1' & _ & C). rewrite E1 in E1'. apply ret_eq in E1' as [E1' _]. apply pair_eq in E1' as [_ ->].
  destruct C as [(_ & -> & _ & -> & _)|(L & _)]; [|exact L]. destruct H as [H|H]; contradiction H; reflexivity.
Qed.

(** Every kernel allocation made while serving a request -- the adapter's data
    buffer and the engine's pages -- is freed when it returns, unless the
    engine gave up before submitting anything (TASK ABORTED): that case leaks,
    next theorem. *)
Theorem C58_kernel_memory_released_partial : forall drv wrs kz wild c w o r w',
  sane_allocator w -> ledger (trace w) = Some o -> scsi_queuecommand drv wrs kz wild c w = Ret r w' ->
  mr_result r <> TASK_ABORTED \/ mr_subs r <> [] ->
  exists o', ledger (trace w') = Some o' /\ Permutation o' o.
Proof.
  intros drv wrs kz wild c w o r w' Hs Ho E H.
  set (q := mock_request kz wild c). set (n := len (rq_data q)).
  destruct (N.eq_dec n 0) as [Hn|Hn]; [|destruct (N.eq_dec kz 0) as [->|Hk]].
  - destruct (mock_inv drv wrs kz wild c w r w' E (or_introl Hn)) as (w2 & resp & t & subs & w3 & w4 & P & _ & E1 & Er & Es & D & W).
    fold q in P, E1, D, W. fold n in P, D, W. rewrite Hn in *. rewrite andb_false_r in D. change (0 <? 0) with false in W. cbv iota in W. destruct D as [_ ->]. subst w'.
    rewrite Er, Es in H. pose proof (p_trace _ _ _ _ P) as T. change (0 <? 0) with false in T. cbv iota in T. rewrite app_nil_r in T.
    eapply engine_balanced; [eapply sane_cfg; [apply P|exact Hs]|rewrite T; exact Ho|exact E1|exact H].
  - rewrite mock_eq in E. cbv zeta in E. fold q in E. fold n in E. replace ((0 <? n) && (0 =? 0)) with true in E by lia.
    replace (0 <? n) with true in E by lia. change (0 =? 0) with true in E. cbv iota in E. injection E as <- <-. cbn [trace log].
    rewrite (ledger_snoc _ _ _ Ho). cbn [ledger_step]. change (0 =? 0) with true. cbv iota. eauto using Permutation_refl.
  - destruct (mock_inv drv wrs kz wild c w r w' E (or_intror Hk)) as (w2 & resp & t & subs & w3 & w4 & P & _ & E1 & Er & Es & D & W).
    fold q in P, E1, D, W. fold n in P, D, W. replace (0 <? n) with true in * by lia. subst w'. rewrite Er, Es in H.
    pose proof (p_trace _ _ _ _ P) as T. replace (0 <? n) with true in T by lia.
    assert (L2 : ledger (trace w2) = Some ((kz, n) :: o)).
    { rewrite T, (ledger_snoc _ _ _ Ho). cbn [ledger_step]. replace (kz =? 0) with false by lia. reflexivity. }
    destruct (engine_balanced drv wrs q w2 _ resp t subs w3 (sane_cfg _ _ (p_cfg _ _ _ _ P) Hs) L2 E1 H) as (o3 & L3 & P3).
    assert (T4 : trace w4 = trace w3).
    { destruct (rq_data_in q && true).
      - destruct D as (_ & bs & _ & _ & D). apply sg_scatter_set in D as (-> & _). reflexivity.
      - destruct D as [_ ->]. reflexivity. }
    cbn [trace log]. rewrite T4, (ledger_snoc _ _ _ L3). cbn [ledger_step]. apply remove_run_in. exact P3.
Qed.
Print Assumptions C58_kernel_memory_released_partial.

(** the page callbacks the module installs are of the kind the theorem asks for *)
Lemma module_sane heap w : sane_allocator (module_world heap w).
Proof. repeat split. Qed.

(** INQUIRY with ALLOCATION LENGTH 255 and a 36-byte buffer: the data buffer is
    freed, two pages are not *)
Definition ex_inquiry255 : list byte := B [0x12;0;0;0;255;0].
Theorem C58_leak_refuted : exists w', sane_allocator (ex_world ex_inquiry255) /\ ledger (trace (ex_world ex_inquiry255)) = Some [] /\
  scsi_queuecommand (ex_answer []) ex_wrs 0x90000 0 (ex_scsi ex_inquiry255 true 36) (ex_world ex_inquiry255) =
    Ret {| mr_result := TASK_ABORTED; mr_resid := Some 36; mr_subs := [] |} w' /\
  exists a b, a <> 0 /\ b <> 0 /\ ledger (trace w') = Some [(a, 1); (b, 1)].
Proof.
  assert (X : match scsi_queuecommand (ex_answer []) ex_wrs 0x90000 0 (ex_scsi ex_inquiry255 true 36) (ex_world ex_inquiry255) with
    | Ret r w' => Some (mr_result r, mr_resid r, length (mr_subs r), ledger (trace w')) | _ => None end =
    Some (TASK_ABORTED, Some 36, 0%nat, Some [(0x300000, 1); (0x100000, 1)])) by (vm_compute; reflexivity).
  destruct (scsi_queuecommand _ _ _ _ _ _) as [[a b s] w'|] eqn:E; [|discriminate X]. exists w'.
  split; [repeat split|]. split; [reflexivity|]. cbn [mr_result mr_resid mr_subs] in X. apply Some_eq in X.
  apply pair_eq in X as [X X4]. apply pair_eq in X as [X X3]. apply pair_eq in X as [X1 X2]. subst a b. destruct s; [|discriminate X3].
  split; [reflexivity|]. exists 0x300000, 0x100000. split; [discriminate|]. split; [discriminate|exact X4].
Qed.
Print Assumptions C58_leak_refuted.

(** ** C59 *)
Lemma sg_scatter_ret sgl : forall bs w k w', sg_scatter sgl bs w = Ret k w' -> NoDup (sg_addrs sgl) -> (length bs <= length (sg_addrs sgl))%nat ->
  sg_holds w' sgl bs /\ (forall x, ~ In x (firstn (length bs) (sg_addrs sgl)) -> mem w' x = mem w x).
Proof.
  induction sgl as [|[a l] sgl IH]; intros bs w k w' E Hd Hl.
  - cbn [sg_addrs flat_map length] in *. destruct bs; [|cbn in *; lia]. cbn [sg_scatter] in E. unfold ret in E. injection E as _ <-.
    split; [split; [reflexivity|intros i x b H; destruct i; discriminate]|reflexivity].
  - rewrite sg_addrs_cons in Hd. rewrite sg_addrs_cons, app_length, map_length, seq_length in Hl. cbn [sg_scatter] in E. set (n := N.to_nat l) in *.
    apply bind_ret_inv in E as ([] & w1 & E1 & E). apply bind_ret_inv in E as (z & w2 & E2 & E). unfold ret in E. injection E as _ <-.
    apply store_inv in E1 as (_ & ->). pose proof E2 as E3. apply sg_scatter_set in E3 as (_ & _ & O).
    destruct (IH _ _ _ _ E2 (NoDup_tail _ _ Hd)) as ((L2 & B2) & O2); [rewrite skipn_length; lia|].
    split.
    + split; [rewrite sg_addrs_cons, app_length, map_length, seq_length; fold n; lia|]. intros i x b Hi Hb. rewrite sg_addrs_cons in Hi. fold n in Hi.
      destruct (Nat.lt_ge_cases i n) as [Li|Li].
      * rewrite nth_error_app1 in Hi by (rewrite map_length, seq_length; exact Li). pose proof Hi as Hi2. apply seg_nth in Hi as [_ ->].
        rewrite O.
        -- cbn [mem set_mem]. apply store_bytes_in. rewrite nth_error_firstn_lt by exact Li. exact Hb.
        -- intros Y. revert Hd. apply nth_error_In in Hi2. clear -Hi2 Y. revert Hi2.
           generalize (map (fun i0 : nat => a + N.of_nat i0) (seq 0 n)). intros p Hp Hd. induction p as [|u p IHp]; [destruct Hp|].
           cbn [app] in Hd. inversion Hd; subst. destruct Hp as [->|Hp]; [|apply IHp; assumption]. apply H1. apply in_or_app. right. exact Y.
      * rewrite nth_error_app2 in Hi by (rewrite map_length, seq_length; exact Li). rewrite map_length, seq_length in Hi.
        apply (B2 (i - n)%nat); [exact Hi|]. rewrite nth_error_skipn. replace (n + (i - n))%nat with i by lia. exact Hb.
    + intros x Hx. rewrite sg_addrs_cons in Hx. fold n in Hx. rewrite O2.
      * cbn [mem set_mem]. apply store_bytes_out. intros Y. apply Hx. rewrite firstn_app, map_length, seq_length. apply in_or_app. left.
        rewrite firstn_length in Y. apply (nth_error_In _ (N.to_nat (x - a))). rewrite nth_error_firstn_lt by lia. rewrite seg_nth_ok by lia. f_equal. lia.
      * intros Y. apply Hx. rewrite firstn_app, map_length, seq_length. apply in_or_app. right. rewrite skipn_length in Y. exact Y.
Qed.

(** A data-in request: the scatterlist receives, from its start, a prefix of
    the data buffer as the engine left it -- the response length the engine
    reported, or what fits -- nothing else changes after the engine, and the
    residual is the rest of the request's length. *)
Theorem C59_delivery : forall drv wrs kz wild c w r w', let n := sc_bufflen c mod 65536 in
  scsi_queuecommand drv wrs kz wild c w = Ret r w' -> sc_from_device c = true -> 0 < n -> kz <> 0 -> NoDup (sg_addrs (sc_sgl c)) ->
  exists resp t w3 bs,
    engine drv wrs (mock_request kz wild c) (with_buffer w kz n) = Ret (resp, t, mr_subs r) w3 /\ mr_result r = er_return_code resp /\
    bytes_at w3 kz bs /\ N.of_nat (length bs) = N.min (er_alloc_len resp) (sg_total (sc_sgl c)) /\ N.of_nat (length bs) <= n /\
    sg_holds w' (sc_sgl c) bs /\ mr_resid r = Some (n - N.of_nat (length bs)) /\
    (forall x, ~ In x (firstn (length bs) (sg_addrs (sc_sgl c))) -> mem w' x = mem w3 x).
Proof.
  intros drv wrs kz wild c w r w' n E Hd Hn Hk Hnd.
  destruct (mock_inv drv wrs kz wild c w r w' E (or_intror Hk)) as (w2 & resp & t & subs & w3 & w4 & P & W2 & E1 & Er & Es & D & W).
  change (len (rq_data (mock_request kz wild c))) with n in *. change (rq_data_in (mock_request kz wild c)) with (sc_from_device c) in *.
  rewrite Hd in D. replace (0 <? n) with true in D, W by lia. cbn [andb] in D. destruct D as (Hr & bs & Hl & Hb & Hs). rewrite (W2 Hd Hn) in E1. subst subs w'.
  destruct (engine_cases _ _ _ _ _ _ _ _ E1) as (t1 & r1 & w1 & _ & _ & C).
  assert (Ha : er_alloc_len resp <= n).
  { change n with (len (rq_data (mock_request kz wild c))). destruct C as [(_ & -> & _)|(L & _ & cr & _ & ->)]; [cbn; lia|]. destruct (is_api_success _); cbn [er_alloc_len]; lia. }
  destruct (sg_scatter_ret _ _ _ _ _ Hs Hnd) as (Hh & Ho).
  { pose proof (sg_total_length (sc_sgl c)). lia. }
  exists resp, t, w3, bs. split; [exact E1|]. split; [exact Er|]. split; [exact Hb|]. split; [exact Hl|]. split; [lia|].
  split; [destruct Hh as [H1 H2]; split; [exact H1|intros i a b; cbn [mem log]; apply H2]|]. split; [rewrite Hl; exact Hr|]. intros x Hx. cbn [mem log]. apply Ho. exact Hx.
Qed.
Print Assumptions C59_delivery.

(** no memory for the data buffer: result 23, nothing submitted, nothing changed *)
Theorem C59_out_of_memory : forall drv wrs wild c w, sc_bufflen c mod 65536 <> 0 ->
  exists w', scsi_queuecommand drv wrs 0 wild c w = Ret {| mr_result := 23; mr_resid := None; mr_subs := [] |} w' /\
    same_memory w w' /\ trace w' = trace w ++ [EvAlloc 1 (sc_bufflen c mod 65536) 0].
Proof.
  intros drv wrs wild c w Hn. rewrite mock_eq. cbv zeta. change (len (rq_data (mock_request 0 wild c))) with (sc_bufflen c mod 65536).
  replace (0 <? sc_bufflen c mod 65536) with true by lia. change (0 =? 0) with true. cbn [andb]. eexists. split; [reflexivity|]. split; [intros x; reflexivity|reflexivity].
Qed.
Print Assumptions C59_out_of_memory.

(** INQUIRY (ALLOCATION LENGTH 96) into a scatterlist of 2 x 18 bytes *)
Example C59_premises_met : exists k,
  match scsi_queuecommand (ex_answer []) ex_wrs 0x90000 0 (ex_scsi (B [0x12;0;0;0;96;0]) true 96) (ex_world (B [0x12;0;0;0;96;0])) with
  | Ret r _ => Some (mr_result r, mr_resid r, length (mr_subs r)) | _ => None end = Some (GOOD, Some k, 2%nat).
Proof. eexists. vm_compute. reflexivity. Qed.

(** ** C60 *)

(** the CDB as the engine sees it, once the adapter has its buffer *)
Lemma mock_cdb kz wild c w w2 bs : let q := mock_request kz wild c in
  prepared w w2 kz (len (rq_data q)) -> unused w kz (len (rq_data q)) ->
  bytes_at w (sc_cmnd c) bs -> N.of_nat (length bs) = sc_cmd_len c -> sc_cmd_len c < 65536 -> span_holds w2 (rq_cdb q) bs.
Proof.
  intros q P Hun Hc Hl Hs. unfold q, mock_request. cbn [rq_cdb]. rewrite N.mod_small by lia. split; [cbn [len]; lia|]. cbn [ptr].
  intros i b Hi. rewrite (p_mem _ _ _ _ P); [apply Hc; exact Hi|]. intros Hx. apply Hun in Hx. rewrite (Hc _ _ Hi) in Hx. discriminate.
Qed.

(** a refused CDB: nothing submitted, not GOOD *)
Lemma engine_refused drv wrs q w resp t subs w' : engine drv wrs q w = Ret (resp, t, subs) w' ->
  (forall t1 r w1, begins wrs q w = Ret (t1, r) w1 -> rejected t1) -> subs = [] /\ er_return_code resp <> GOOD.
Proof.
  intros E H. destruct (engine_cases _ _ _ _ _ _ _ _ E) as (t1 & r & w1 & E1 & Hs & C). specialize (H _ _ _ E1).
  pose proof (begins_inv _ _ _ _ _ _ E1 Hs) as I. destruct (inv_rejected _ _ I H) as [X _].
  destruct C as [(_ & -> & _ & -> & _)|(_ & -> & cr & E2 & ->)]; [split; [reflexivity|discriminate]|]. split.
  - unfold exposes in X. apply map_eq_nil in X. rewrite X. reflexivity.
  - destruct (cr_status cr) eqn:Ec; cbn [is_api_success]; [|discriminate]. cbn [er_return_code]. intros G.
    destruct (Complete_good _ _ _ _ _ _ _ _ (inv_busy _ I) E2 Ec G) as [A _]. destruct H as [H _]. contradiction.
Qed.

(** For a READ, whatever its size: each command submitted transfers exactly the
    submitted buffer length, which is within the buffer the adapter allocated. *)
Theorem C60_read_within_buffer_partial : forall f drv wrs kz wild c w bs r w',
  bytes_at w (sc_cmnd c) bs -> N.of_nat (length bs) = sc_cmd_len c -> sc_cmd_len c < 65536 -> byte_at bs 0 = read_opcode f ->
  kz <> 0 -> unused w kz (sc_bufflen c mod 65536) ->
  scsi_queuecommand drv wrs kz wild c w = Ret r w' ->
  Forall (fun s => exists sq, sub_view s = (false, sqe_bytes sq, kz mod 2 ^ 64, sub_bufflen s) /\ q_opc sq = 0x02 /\
                     nvme_blocks sq * 4096 = sub_bufflen s /\ sub_bufflen s <= sc_bufflen c mod 65536) (mr_subs r).
Proof.
  intros f drv wrs kz wild c w bs r w' Hc Hl Hs Ho Hk Hun E.
  destruct (mock_inv drv wrs kz wild c w r w' E (or_intror Hk)) as (w2 & resp & t & subs & w3 & w4 & P & _ & E1 & _ & -> & _).
  set (q := mock_request kz wild c) in *.
  pose proof (mock_cdb kz wild c w w2 bs P Hun Hc Hl Hs) as Hc2. fold q in Hc2.
  destruct (engine_cases _ _ _ _ _ _ _ _ E1) as (t1 & r1 & w1 & B & Hs1 & C). pose proof (begins_inv _ _ _ _ _ _ B Hs1) as I.
  destruct C as [(_ & _ & _ & -> & _)|(_ & -> & _)]; [constructor|].
  destruct (C15_read_accepted_iff f (Translation_init wrs) (rq_cdb q) (rq_data q) (rq_lun q) w2 bs (idle_init wrs) Hc2 Ho) as (t1' & r1' & w1' & B' & _ & A & R).
  unfold begins in B. rewrite B in B'. apply ret_eq in B' as [B' _]. apply pair_eq in B' as [<- _].
  assert (D : accepted t1 \/ rejected t1).
  { unfold accepted, rejected. pose proof (inv_busy _ I). destruct (pipeline_status t1); try tauto; right; split; discriminate. }
  destruct D as [D|D].
  - destruct (C16_read_fits_buffer f (Translation_init wrs) (rq_cdb q) (rq_data q) (rq_lun q) w2 bs t1 r1 w1 (idle_init wrs) Hc2 Ho B D) as (sq & n & X & Oq & Pq & Bq & _ & Lq & _).
    destruct (one_wrapper _ _ X) as (x & -> & Vx). constructor; [|constructor]. exists sq. rewrite sub_of_view, Vx. unfold sub_expected, io. cbn [x_admin x_bytes x_buffer_len].
    assert (Sn : sub_bufflen (sub_of x) = n).
    { change (x_buffer_len (view x) = n). rewrite Vx. reflexivity. }
    rewrite sqe_prp1, Sn, Pq. assert (Hn : 0 < len (rq_data q)) by (unfold nvme_blocks in Bq; lia).
    replace (ptr (rq_data q)) with kz.
    + split; [reflexivity|]. split; [exact Oq|]. split; [exact Bq|exact Lq].
    + unfold q, mock_request in *. cbn [rq_data ptr len] in *. cbv zeta. apply N.ltb_lt in Hn. rewrite Hn. reflexivity.
  - destruct (inv_rejected _ _ I D) as [X _]. unfold exposes in X. apply map_eq_nil in X. rewrite X. constructor.
Qed.
Print Assumptions C60_read_within_buffer_partial.

(** A READ of 16 blocks or more is never carried out. *)
Theorem C55_large_reads_refuted : forall f drv wrs kz wild c w bs r w',
  bytes_at w (sc_cmnd c) bs -> N.of_nat (length bs) = sc_cmd_len c -> sc_cmd_len c < 65536 -> byte_at bs 0 = read_opcode f ->
  16 <= rw_blocks f bs -> sc_bufflen c = rw_blocks f bs * 4096 ->
  kz <> 0 -> unused w kz (sc_bufflen c mod 65536) ->
  scsi_queuecommand drv wrs kz wild c w = Ret r w' ->
  mr_subs r = [] /\ mr_result r <> GOOD.
Proof.
  intros f drv wrs kz wild c w bs r w' Hc Hl Hs Ho Hn Hb Hk Hun E.
  destruct (mock_inv drv wrs kz wild c w r w' E (or_intror Hk)) as (w2 & resp & t & subs & w3 & w4 & P & _ & E1 & -> & -> & _).
  set (q := mock_request kz wild c) in *.
  pose proof (mock_cdb kz wild c w w2 bs P Hun Hc Hl Hs) as Hc2. fold q in Hc2.
  eapply engine_refused; [exact E1|]. intros t1 r1 w1 B.
  destruct (C15_read_accepted_iff f (Translation_init wrs) (rq_cdb q) (rq_data q) (rq_lun q) w2 bs (idle_init wrs) Hc2 Ho) as (t1' & r1' & w1' & B' & _ & A & R).
  unfold begins in B. rewrite B in B'. apply ret_eq in B' as [B' _]. apply pair_eq in B' as [<- _]. apply R. intros (_ & _ & _ & L).
  change (len (rq_data q)) with (sc_bufflen c mod 65536) in L. pose proof (N.mod_lt (sc_bufflen c) 65536). lia.
Qed.
Print Assumptions C55_large_reads_refuted.

(** A WRITE of 16 to 65535 blocks: the NVMe Write submitted is for all of them,
    but its buffer is short by a multiple of 64 KiB -- and when the number of
    blocks is a multiple of 16 there is none: the address submitted is that of
    an uninitialised variable. *)
Theorem C60_write_overrun_refuted : forall f drv wrs kz wild c w bs pr r w',
  bytes_at w (sc_cmnd c) bs -> N.of_nat (length bs) = sc_cmd_len c -> sc_cmd_len c < 65536 -> byte_at bs 0 = write_opcode f ->
  (rw_len f <= length bs)%nat -> 16 <= rw_blocks f bs <= 65535 -> write_prinfo f bs = Some pr -> sc_bufflen c = rw_blocks f bs * 4096 ->
  kz <> 0 -> unused w kz (sc_bufflen c mod 65536) ->
  scsi_queuecommand drv wrs kz wild c w = Ret r w' ->
  exists s sq, mr_subs r = [s] /\ sub_view s = (false, sqe_bytes sq, sub_buffer s, sub_bufflen s) /\ q_opc sq = 0x01 /\ nvme_blocks sq = rw_blocks f bs /\
    sub_bufflen s = sc_bufflen c mod 65536 /\ sub_bufflen s < nvme_blocks sq * 4096 /\
    sub_buffer s = (if rw_blocks f bs mod 16 =? 0 then wild else kz) mod 2 ^ 64.
Proof.
  intros f drv wrs kz wild c w bs pr r w' Hc Hl Hs Ho Hf Hn Hp Hb Hk Hun E.
  destruct (mock_inv drv wrs kz wild c w r w' E (or_intror Hk)) as (w2 & resp & t & subs & w3 & w4 & P & _ & E1 & _ & -> & _).
  set (q := mock_request kz wild c) in *.
  pose proof (mock_cdb kz wild c w w2 bs P Hun Hc Hl Hs) as Hc2. fold q in Hc2.
  pose proof (N.mod_lt (sc_bufflen c) 65536) as Hlt.
  destruct (C17_write_exact f (Translation_init wrs) (rq_cdb q) (rq_data q) (rq_lun q) w2 bs pr (idle_init wrs) Hc2 Ho Hf) as (t1 & B & A & X);
    [lia|exact Hp|change (len (rq_data q)) with (sc_bufflen c mod 65536); lia|].
  destruct (engine_cases _ _ _ _ _ _ _ _ E1) as (t1' & r1' & w1' & B' & _ & C). unfold begins in B'. rewrite B in B'.
  apply ret_eq in B' as [B' _]. apply pair_eq in B' as [<- <-].
  destruct C as [(L & _)|(_ & -> & _)]; [cbn [br_alloc_len begin_ok] in L; lia|].
  destruct (one_wrapper _ _ X) as (x & -> & Vx). exists (sub_of x).
  change {| q_opc := 1; q_nsid := (rq_lun q + 1) mod 2 ^ 32; q_prp1 := ptr (rq_data q); q_cdw10 := rw_lba f bs mod 2 ^ 32; q_cdw11 := rw_lba f bs / 2 ^ 32;
            q_cdw12 := rw_blocks f bs - 1 + pr * 2 ^ 26 + rw_fua f bs * 2 ^ 30 |}
    with (rw_sqe 1 (rq_lun q) (ptr (rq_data q)) (rw_lba f bs) (rw_blocks f bs) (rw_fua f bs) pr) in Vx. set (sq := rw_sqe _ _ _ _ _ _ _) in Vx. exists sq.
  assert (Sv : sub_view (sub_of x) = (false, sqe_bytes sq, q_prp1 sq mod 2 ^ 64, len (rq_data q))).
  { rewrite sub_of_view, Vx. unfold sub_expected, io. cbn [x_admin x_bytes x_buffer_len]. rewrite sqe_prp1. reflexivity. }
  assert (S1 : sub_buffer (sub_of x) = q_prp1 sq mod 2 ^ 64) by (change (snd (fst (sub_view (sub_of x))) = q_prp1 sq mod 2 ^ 64); rewrite Sv; reflexivity).
  assert (S2 : sub_bufflen (sub_of x) = sc_bufflen c mod 65536) by (change (snd (sub_view (sub_of x)) = sc_bufflen c mod 65536); rewrite Sv; reflexivity).
  split; [reflexivity|]. split; [rewrite Sv, S1, S2; reflexivity|]. split; [reflexivity|].
  assert (Nb : nvme_blocks sq = rw_blocks f bs) by (apply rw_nvme_blocks; lia).
  split; [exact Nb|]. split; [exact S2|]. split; [rewrite S2, Nb; lia|].
  rewrite S1. f_equal. unfold sq, rw_sqe. cbn [q_prp1]. unfold q, mock_request. cbn [rq_data ptr]. cbv zeta.
  assert (M : sc_bufflen c mod 65536 = 4096 * (rw_blocks f bs mod 16)).
  { rewrite Hb. change 65536 with (16 * 4096). rewrite N.mul_mod_distr_r by discriminate. apply N.mul_comm. }
  rewrite M. destruct (N.eqb_spec (rw_blocks f bs mod 16) 0) as [Z|Z].
  - rewrite Z. reflexivity.
  - replace (0 <? 4096 * (rw_blocks f bs mod 16)) with true by lia. reflexivity.
Qed.
Print Assumptions C60_write_overrun_refuted.

(** WRITE(10) of 16 blocks *)
Definition ex_write16b : list byte := B [0x2a;0;0;0;0;7;0;0;16;0].
Example C60_premises_met : rw_blocks RW10 ex_write16b = 16 /\ write_prinfo RW10 ex_write16b = Some 8 /\
  match scsi_queuecommand (ex_answer []) ex_wrs 0x90000 0xdead (ex_scsi ex_write16b false 65536) (ex_world ex_write16b) with
  | Ret r _ => Some (mr_result r, map (fun s => (sub_buffer s, sub_bufflen s)) (mr_subs r)) | _ => None end = Some (GOOD, [(0xdead, 0)]).
Proof. split; [reflexivity|]. split; [reflexivity|]. vm_compute. reflexivity. Qed.

(** ** C61 *)
Lemma mock_nodata drv wrs kz wild c w : sc_bufflen c = 0 ->
  scsi_queuecommand drv wrs kz wild c w =
  (' (resp, _, subs) <- engine drv wrs (mock_request kz wild c) ;; ret {| mr_result := er_return_code resp; mr_resid := None; mr_subs := subs |}) w.
Proof.
  intros H. rewrite mock_eq. cbv zeta. change (len (rq_data (mock_request kz wild c))) with (sc_bufflen c mod 65536). rewrite H.
  change (0 mod 65536) with 0. change (0 <? 0) with false. rewrite andb_false_r. cbn [andb]. unfold bind at 1. unfold ret at 1.
  unfold bind. destruct (engine drv wrs (mock_request kz wild c) w) as [[[resp t] subs] w'|]; reflexivity.
Qed.

(** TEST UNIT READY: GOOD, nothing submitted, nothing changed *)
Theorem C61_test_unit_ready_end_to_end : forall drv wrs kz wild c w bs,
  bytes_at w (sc_cmnd c) bs -> N.of_nat (length bs) = sc_cmd_len c -> sc_cmd_len c < 65536 -> bs <> [] -> byte_at bs 0 = 0x00 -> sc_bufflen c = 0 ->
  exists w', scsi_queuecommand drv wrs kz wild c w = Ret {| mr_result := GOOD; mr_resid := None; mr_subs := [] |} w' /\
    same_memory w w' /\ trace w' = trace w.
Proof.
  intros drv wrs kz wild c w bs Hc Hl Hs Hne Ho Hb. rewrite mock_nodata by exact Hb. set (q := mock_request kz wild c).
  assert (Hq : span_holds w (rq_cdb q) bs).
  { unfold q, mock_request. cbn [rq_cdb]. rewrite N.mod_small by lia. split; [cbn [len]; lia|exact Hc]. }
  destruct (C22_test_unit_ready (Translation_init wrs) (rq_cdb q) (rq_data q) (rq_lun q) w bs (idle_init wrs) Hq Hne Ho) as (t1 & E1 & X & _ & C).
  destruct (C w (response_span q 0) (rq_sense q) Hq) as (t2 & w3 & E2 & _ & M & T). exists w3. unfold bind.
  assert (Z : GetNvmeWrappers t1 = []) by (unfold exposes in X; apply map_eq_nil in X; exact X).
  rewrite (engine_ok drv wrs q w t1 0 w t2 GOOD w3); [|exact E1|lia|].
  - rewrite Z. split; [reflexivity|]. split; [exact M|exact T].
  - rewrite Z. cbn [map device_run fst snd]. rewrite set_mem_same. exact E2.
Qed.
Print Assumptions C61_test_unit_ready_end_to_end.

(** SYNCHRONIZE CACHE(10): one NVMe Flush to the LUN's namespace; GOOD if the
    device acknowledges it and leaves the CDB alone *)
Theorem C61_sync_cache_end_to_end : forall drv wrs kz wild c w bs,
  bytes_at w (sc_cmnd c) bs -> N.of_nat (length bs) = sc_cmd_len c -> sc_cmd_len c < 65536 -> byte_at bs 0 = 0x35 -> sc_bufflen c = 0 ->
  exists s n,
    sub_view s = (false, sqe_bytes {| q_opc := 0x00; q_nsid := (sc_lun c + 1) mod 2 ^ 32; q_prp1 := 0; q_cdw10 := 0; q_cdw11 := 0; q_cdw12 := 0 |}, 0, n) /\
    let after := drv 0%nat s (mem w) in
    (cpl_ok (snd after mod 2 ^ 128) -> (forall i, (i < length bs)%nat -> fst after (sc_cmnd c + N.of_nat i) = mem w (sc_cmnd c + N.of_nat i)) ->
     exists w', scsi_queuecommand drv wrs kz wild c w = Ret {| mr_result := GOOD; mr_resid := None; mr_subs := [s] |} w' /\
       (forall x, mem w' x = fst after x) /\ trace w' = trace w).
Proof.
  intros drv wrs kz wild c w bs Hc Hl Hs Ho Hb. set (q := mock_request kz wild c).
  assert (Hne : bs <> []) by (intros ->; discriminate Ho).
  assert (Hq : span_holds w (rq_cdb q) bs).
  { unfold q, mock_request. cbn [rq_cdb]. rewrite N.mod_small by lia. split; [cbn [len]; lia|exact Hc]. }
  destruct (Begin_sync_ok (Translation_init wrs) (rq_cdb q) (rq_data q) (rq_lun q) w bs (idle_init wrs) Hq Ho) as (t1 & E1 & Ha & X & Hh).
  destruct (engine_one drv wrs q w t1 0 _ _ bs E1 Ha X Hh) as (s & Vs & Es); [lia|exact Hq|exact Hne|rewrite Ho; cbn; tauto|].
  exists s. eexists. split; [exact Vs|]. cbv zeta in Es |- *. intros Hok Hcdb. destruct (Es Hok) as (t2 & w2 & E2 & M2 & T2).
  { destruct Hq as [H1 H2]. split; [exact H1|]. intros i b Hi. cbn [mem set_mem].
    change (ptr (rq_cdb q)) with (sc_cmnd c). rewrite Hcdb by (apply nth_error_Some; congruence). apply Hc. exact Hi. }
  exists w2. split; [|split; assumption]. rewrite mock_nodata by exact Hb. fold q. unfold bind. rewrite E2. reflexivity.
Qed.
Print Assumptions C61_sync_cache_end_to_end.

Example C61_premises_met :
  mock_run (ex_answer []) 0 (ex_scsi (B [0x35;0;0;0;0;0;0;0;0;0]) false 0) (ex_world (B [0x35;0;0;0;0;0;0;0;0;0])) = Some (GOOD, None, [(false, 0, 77)], []) /\
  mock_run (ex_answer []) 0 (ex_scsi (B [0;0;0;0;0;0]) false 0) (ex_world (B [0;0;0;0;0;0])) = Some (GOOD, None, [], []).
Proof. split; vm_compute; reflexivity. Qed.
