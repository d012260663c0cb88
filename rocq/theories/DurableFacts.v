(** Lemmas for C87: the command a read or write leads to, for any device. *)
From Coq Require Import Arith NArith String List Lia Bool Init.Byte Permutation.
From Coq Require Import ZifyBool ZifyNat ZifyN.
From Verif Require Import Bytes Layout World ScsiDefs NvmeDefs Common ModeSenseCmd StatusCmd TranslationCls EngineE2e MockModule
  Spec RwSpec EngineSpec MockSpec Facts Logic BeginFacts CompleteFacts StatusFacts RelFacts RwFacts EngineFacts MockFacts Witness
  Properties1 Properties2 Properties6 Properties9 Properties11 Properties14 DiskSpec DiskFacts Properties16 MixedSpec Properties20 DurableSpec.
Import ListNotations.
Local Open Scope string_scope.
Local Open Scope list_scope.
Local Open Scope N_scope.

Definition io_parts (x : disk_io) : N * N * N * N :=   (* opcode, unit, first block, number of blocks *)
  match x with IoRead u lba n => (2, u, lba, n) | IoWrite u lba data => (1, u, lba, blocks_of data) end.
Definition io_sub (x : disk_io) (p : N) (fua : bool) (s : submission) : Prop :=
  let '(opc, u, lba, n) := io_parts x in
  u < 2 ^ 32 - 1 /\ lba < 2 ^ 64 /\ 1 <= n <= 65535 /\
  exists pr b l, pr < 16 /\ sub_view s = (false, sqe_bytes (rw_sqe opc u p lba n (N.b2n fua) pr), b, l).

Lemma bit_as_bits x o : bits x o 1 = N.b2n (N.testbit x o).
Proof.
  apply N.bits_inj. intros i. rewrite bits_testbit. destruct (N.eqb_spec i 0) as [->|Hi].
  - rewrite N.b2n_bit0. change (0 <? 1) with true. rewrite andb_true_r. reflexivity.
  - replace (i <? 1) with false by lia. rewrite andb_false_r. destruct (N.testbit x o); cbn [N.b2n]; [|symmetry; apply N.bits_0].
    symmetry. apply N.bits_above_log2. cbn. lia.
Qed.
Lemma fua_bit_ok f bs (rd : bool) : byte_at bs 0 = (if rd then read_opcode f else write_opcode f) -> rw_fua f bs = N.b2n (fua_bit bs).
Proof.
  intros H. unfold fua_bit. rewrite H. unfold rw_fua. destruct f, rd; try reflexivity; rewrite bit_as_bits; reflexivity.
Qed.

(** the engine, whatever the device does *)
Lemma engine_rw drv wrs q w x bs resp t subs w' : api_presents w q x -> span_holds w (rq_cdb q) bs ->
  engine drv wrs q w = Ret (resp, t, subs) w' ->
  exists s, subs = [s] /\ io_sub x (ptr (rq_data q)) (fua_bit bs) s /\
    forall y, 2 ^ 64 <= y -> mem w' y = fst (drv 0%nat s (mem w)) y.
Proof.
  intros ((_ & Hcb) & (Hdm & Hdb) & (Hsm & Hsb) & Hs8 & Hap & (bs' & Hc & Hask) & Hx) Hbs E.
  assert (bs' = bs) as ->.
  { destruct Hc as [L1 B1], Hbs as [L2 B2]. apply (bytes_at_unique w (ptr (rq_cdb q))); [exact B1|exact B2|lia]. }
  pose proof (asks_begin w q x bs Hc Hask Hx (Translation_init wrs) (idle_init wrs)) as B.
  assert (Hu : match x with IoRead u _ _ | IoWrite u _ _ => u = rq_lun q end).
  { destruct Hask as (f & _ & _ & _ & Hask). destruct x; apply Hask. }
  set (k := match x with IoRead _ lba n => (2, lba, n) | IoWrite _ lba data => (1, lba, blocks_of data) end) in B.
  destruct k as [[opc lba] n] eqn:K. unfold k in K. clear k.
  destruct B as (Hne & Hin & Hlun & Hlba & Hn & Hnl & t1 & al & bl & fua & pr & EB & Ha & X & Hh & Hal1 & Hal2 & (f & Hf & ->) & Hpr & _).
  destruct (one_wrapper _ _ X) as (r & G & V). pose proof (io_sub_view _ _ _ V) as SV.
  apply engine_cases in E as (t2 & br & w1 & B & _ & D). unfold begins in B. rewrite EB in B. apply ret_eq in B as [B <-]. apply pair_eq in B as [<- <-].
  assert (Hal : al <= len (rq_data q)).
  { destruct x; injection K as <- <- <-; [rewrite Hal1 by reflexivity; exact Hnl|rewrite Hal2 by reflexivity; lia]. }
  destruct D as [(L & _)|(L & -> & D)]; [cbn in L; lia|]. cbv zeta in D. destruct D as (cr & C & _).
  exists (submit_exposed r). rewrite G in *. cbn [map] in *. rewrite sub_of_exposed in *. split; [reflexivity|]. split.
  - assert (Ef : rw_fua f bs = N.b2n (fua_bit bs)).
    { apply (fua_bit_ok f bs (opc =? 2)). exact Hf. }
    unfold io_sub, io_parts. rewrite <- Ef. destruct x as [u b n'|u b data]; injection K as <- <- <-; subst u; (split; [exact Hlun|]); (split; [exact Hlba|]); (split; [exact Hn|]);
      exists pr; do 2 eexists; (split; [exact Hpr|exact SV]).
  - intros y Hy. eapply Complete_low in C.
    + destruct C as [C _]. rewrite C by exact Hy. cbn [device_run]. cbn [mem set_mem fst]. destruct (drv 0%nat (submit_exposed r) (mem w)) as [m c]. reflexivity.
    + pose proof (Begin_idle_spec false (Translation_init wrs) (rq_cdb q) (rq_data q) (rq_lun q) w (idle_init wrs) (no_ok_span _ _) (no_ok_span _ _)) as H.
      unfold cst in H. rewrite EB in H. apply H.
    + unfold accepted in Ha. rewrite Ha. discriminate.
    + intros z. unfold response_span, in_span. destruct (rq_data_in q); cbn [ptr len null_span br_alloc_len begin_ok]; lia.
    + intros z. unfold in_span. lia.
Qed.

(** ... and the adapter *)
Lemma adapter_rw drv wrs kz wild c w x bs r w' : scsi_presents w kz c x -> cdb_of w c bs ->
  scsi_queuecommand drv wrs kz wild c w = Ret r w' ->
  exists s m, mr_subs r = [s] /\ io_sub x kz (fua_bit bs) s /\ kz < 2 ^ 64 /\
    (forall y, 2 ^ 64 <= y -> m y = mem w y) /\
    match x with IoRead _ _ _ => True | IoWrite _ _ data => (forall i b, nth_error data i = Some b -> m (kz + N.of_nat i) = Some b) end /\
    forall y, 2 ^ 64 <= y -> mem w' y = fst (drv 0%nat s m) y.
Proof.
  intros P (Hb & Hbl & Hbs) E. pose proof P as P0.
  destruct P0 as ((bs' & Hb' & Hcl & Hcs & Hcb & Hask) & (Hsm & Hsb) & Hsg & Hkz & Hun & Hkl & Hx).
  set (q := mock_request kz wild c) in *. set (n := sc_bufflen c) in *. set (w1 := with_buffer w kz n).
  assert (Cdb : forall v, (forall y, ~ (kz <= y < kz + n) -> mem v y = mem w y) -> span_holds v (rq_cdb q) bs).
  { intros v Hv. unfold q, mock_request. cbn [rq_cdb]. rewrite N.mod_small by lia. split; [cbn [len]; lia|]. cbn [ptr]. intros i b Hi. rewrite Hv; [apply Hb; exact Hi|].
    intros Hy. pose proof (Hb i b Hi) as Q. rewrite Hun in Q by exact Hy. discriminate Q. }
  destruct x as [u b k|u b data].
  - (* READ *)
    assert (O1 : forall y, ~ (kz <= y < kz + n) -> mem w1 y = mem w y) by (intros y Hy; apply with_buffer_out; exact Hy).
    destruct (scsi_presents_api w w1 kz wild c _ P O1) as (Hn & Hqd & Hqs & P1).
    { intros y Hy. unfold w1, n. rewrite with_buffer_in by exact Hy. discriminate. }
    { exact I. }
    fold q n in Hn, Hqd, Hqs, P1.
    destruct (mock_inv _ _ _ _ _ _ _ _ E (or_intror Hkz)) as (w2 & resp & t & subs & w3 & w4 & Pr & Hw2 & E2 & _ & Es & D & ->).
    fold q in Pr, E2, D, Hw2. rewrite Hqd in *. cbn [len ptr] in *. destruct Hx as (Hdi & _).
    change (rq_data_in q) with (sc_from_device c) in *. rewrite Hdi in *. rewrite (Hw2 eq_refl) in * by lia. fold w1 in E2.
    destruct (engine_rw _ _ _ _ _ bs _ _ _ _ P1 (Cdb w1 O1) E2) as (s & -> & Hio & Hm).
    exists s, (mem w1). split; [exact Es|]. split; [rewrite Hqd in Hio; exact Hio|]. split; [lia|]. split; [intros y Hy; apply O1; lia|]. split; [exact I|].
    intros y Hy. rewrite <- Hm by exact Hy. assert (Z0 : (0 <? n) = true) by lia. fold q. rewrite ?Hqd. cbn [len]. rewrite Z0. cbn [andb mem log] in D |- *. rewrite Z0 in D.
    destruct D as (_ & bs2 & _ & _ & D). apply sg_scatter_set in D as (_ & _ & D). apply D. intros Z. apply Hsg in Z as [Z _]. lia.
  - (* WRITE *)
    destruct Hx as (Hdi & Hnd & Hh).
    set (w2 := set_mem w1 (store_bytes (mem w1) kz data)).
    assert (Hn2 : N.of_nat (length data) = n) by (symmetry; exact Hnd).
    assert (O1 : forall y, ~ (kz <= y < kz + n) -> mem w2 y = mem w y).
    { intros y Hy. unfold w2. cbn [mem set_mem]. rewrite store_bytes_out by (rewrite Hn2; exact Hy). apply with_buffer_out. exact Hy. }
    assert (Dt : bytes_at w2 kz data) by (intros i y Hi; unfold w2; cbn [mem set_mem]; apply store_bytes_in; exact Hi).
    destruct (scsi_presents_api w w2 kz wild c _ P O1) as (Hn & Hqd & Hqs & P1).
    { intros y Hy. unfold w2. cbn [mem set_mem]. fold n in Hy. replace y with (kz + N.of_nat (N.to_nat (y - kz))) by lia.
      erewrite store_bytes_in; [discriminate|]. apply nth_error_nth' with (d := x00). lia. }
    { exact Dt. }
    fold q n in Hn, Hqd, Hqs, P1.
    rewrite mock_eq in E. cbv zeta in E. fold q in E. rewrite Hqd in E. cbn [len] in E. replace (0 <? n) with true in E by lia. replace (kz =? 0) with false in E by lia.
    change (rq_data_in q) with (sc_from_device c) in E. rewrite Hdi in E. cbn [andb negb] in E.
    change (set_mem (log w (EvAlloc 1 n kz)) (map_pages (mem w) kz n (fun _ : N => x00))) with w1 in E.
    unfold bind at 1 in E. unfold sg_copy_to_buffer in E. unfold bind at 1 in E. rewrite (sg_gather_ok (sc_sgl c) _ data) in E.
    + unfold bind at 1 in E. rewrite store_ok in E.
      * fold w2 in E. unfold ret at 1 in E. apply bind_ret_inv in E as ([[resp t] subs] & w3 & E2 & E).
        unfold bind, kfree, ret in E. apply ret_eq in E as [E <-]. subst r.
        destruct (engine_rw _ _ _ _ _ bs _ _ _ _ P1 (Cdb w2 O1) E2) as (s & -> & Hio & Hm).
        exists s, (mem w2). split; [reflexivity|]. split; [rewrite Hqd in Hio; exact Hio|]. split; [lia|]. split; [intros y Hy; apply O1; lia|]. split; [exact Dt|]. exact Hm.
      * intros y Hy. rewrite Hn2 in Hy. unfold w1. rewrite with_buffer_in by exact Hy. discriminate.
    + destruct Hh as [H1 H2]. split; [exact H1|]. intros i y z Hi Hbz. unfold w1. rewrite with_buffer_old; [eapply H2; eassumption|exact Hun|].
      rewrite (H2 _ _ _ Hi Hbz). discriminate.
    + destruct Hh as [H1 _]. lia.
Qed.

(** SYNCHRONIZE CACHE answered GOOD: the device completed the Flush *)
Lemma adapter_sync drv wrs kz wild c w r w' : scsi_sync w c -> scsi_queuecommand drv wrs kz wild c w = Ret r w' -> mr_result r = GOOD ->
  exists s n, mr_subs r = [s] /\
    sub_view s = (false, sqe_bytes {| q_opc := 0x00; q_nsid := (sc_lun c + 1) mod 2 ^ 32; q_prp1 := 0; q_cdw10 := 0; q_cdw11 := 0; q_cdw12 := 0 |}, 0, n) /\
    cpl_ok (snd (drv 0%nat s (mem w)) mod 2 ^ 128) /\
    forall y, 2 ^ 64 <= y -> mem w' y = fst (drv 0%nat s (mem w)) y.
Proof.
  intros ((bs & (Hb & Hbl & Hbs) & Ho) & Hsn & Hb0 & Hl) E Hg. set (q := mock_request kz wild c).
  assert (Hq : span_holds w (rq_cdb q) bs).
  { unfold q, mock_request. cbn [rq_cdb]. rewrite N.mod_small by lia. split; [cbn [len]; lia|exact Hb]. }
  rewrite mock_nodata in E by exact Hb0. fold q in E. apply bind_ret_inv in E as ([[resp t] subs] & w1 & E1 & E). unfold ret in E. apply ret_eq in E as [E <-]. subst r.
  cbn [mr_result mr_subs] in *.
  destruct (C54_driver_errors_seen_partial _ _ _ _ _ _ _ _ E1 Hg) as (t1 & br & w2 & EB & Ha & Hok).
  destruct (Begin_sync_ok (Translation_init wrs) (rq_cdb q) (rq_data q) (rq_lun q) w bs (idle_init wrs) Hq Ho) as (t1' & EB' & _ & X & _).
  unfold begins in EB. rewrite EB' in EB. apply ret_eq in EB as [EB <-]. apply pair_eq in EB as [<- <-].
  destruct (one_wrapper _ _ X) as (rr & G & V). pose proof (io_sub_view _ _ _ V) as SV.
  apply engine_cases in E1 as (t2 & br & w3 & B & _ & D). unfold begins in B. rewrite EB' in B. apply ret_eq in B as [B <-]. apply pair_eq in B as [<- <-].
  destruct D as [(L & _)|(L & -> & D)]; [cbn in L; lia|]. cbv zeta in D. destruct D as (cr & C & _).
  exists (submit_exposed rr). rewrite G in *. cbn [map] in *. rewrite sub_of_exposed in *. eexists. split; [reflexivity|]. split; [exact SV|].
  cbn [device_run] in Hok, C. destruct (drv 0%nat (submit_exposed rr) (mem w)) as [m cc]. cbn [snd fst] in *. split; [inversion Hok; assumption|].
  intros y Hy. eapply Complete_low in C.
  - destruct C as [C _]. rewrite C by exact Hy. reflexivity.
  - pose proof (Begin_idle_spec false (Translation_init wrs) (rq_cdb q) (rq_data q) (rq_lun q) w (idle_init wrs) (no_ok_span _ _) (no_ok_span _ _)) as H.
    unfold cst in H. rewrite EB' in H. apply H.
  - unfold accepted in Ha. rewrite Ha. discriminate.
  - intros z. unfold response_span, in_span. cbn [begin_ok br_alloc_len]. destruct (rq_data_in q); cbn [ptr len null_span]; lia.
  - intros z. unfold in_span, q, mock_request. cbn [rq_sense ptr len]. lia.
Qed.
