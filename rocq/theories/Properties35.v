(** C99, C100: what READ CAPACITY announces is what READ and WRITE find. *)
From Coq Require Import Arith NArith String List Lia Bool Init.Byte.
From Coq Require Import ZifyBool ZifyNat ZifyN.
From Verif Require Import Bytes Layout World Common ModeSenseCmd TranslationCls EngineE2e MockModule.
From Verif Require Import Spec RwSpec InquirySpec SmallSpec ModeSpec EngineSpec MockSpec DiskSpec AdvertSpec.
From Verif Require Import Facts WireFacts Witness RwFacts AdminFacts SmallFacts EngineFacts MockFacts DiskFacts.
From Verif Require Import BeginFacts CompleteFacts Logic Properties1 Properties2 Properties4 Properties9 Properties11 Properties12 Properties16 Properties28.
Import ListNotations.
Local Open Scope string_scope.
Local Open Scope list_scope.
Local Open Scope N_scope.

(** ** C99 *)
Lemma unit_disk_like cap data drv : unit_device cap data drv -> disk_like cap drv.
Proof. intros (_ & _ & H & _) k s m Ha _. apply H. exact Ha. Qed.

Lemma capacity_answer : forall cap data drv wrs kz wild c w,
  unit_device cap data drv -> asks_capacity w kz c -> 9 <= ns_lbads (data 0 (nsid_of (sc_lun c))) <= 31 ->
  exists r w', scsi_queuecommand drv wrs kz wild c w = Ret r w' /\ mr_result r = GOOD /\
    announced_capacity w' c (N.min (cap (nsid_of (sc_lun c))) 0xffffffff) (2 ^ ns_lbads (data 0 (nsid_of (sc_lun c)))).
Proof.
  intros cap data drv wrs kz wild c w (_ & Hid & _ & Hz) ((bs & A1 & A2 & A3 & A4 & A5 & A6) & B1 & B2 & B3 & B4 & B5 & B6 & B7) Hb.
  destruct (C64_read_capacity_end_to_end_partial drv wrs kz wild c w bs data A1 A2 A3 A4 A5 A6 Hb B1 B2 B3 B4 B5 B6 B7 Hid) as (p & s & w' & E & _ & _ & S & _).
  eexists. exists w'. split; [exact E|]. split; [reflexivity|]. rewrite Hz in S by (apply N.mod_lt; discriminate).
  split; [|split; [|exact S]].
  - change (2 ^ 32) with 4294967296. lia.
  - apply N.pow_lt_mono_r; lia.
Qed.

(** Between the announced address and the blocks the unit has: the unit behaves
    exactly as a disk of [last] blocks (not [last + 1]), as long as the address
    was not capped. *)
Theorem C99_capacity_exact : forall cap data drv wrs kz wild c w,
  unit_device cap data drv -> asks_capacity w kz c -> 9 <= ns_lbads (data 0 (nsid_of (sc_lun c))) <= 31 -> sc_lun c < 2 ^ 32 - 1 ->
  exists r w' last block, scsi_queuecommand drv wrs kz wild c w = Ret r w' /\ mr_result r = GOOD /\ announced_capacity w' c last block /\
  forall wrs2 kz2 wild2 c2 w2 x d, stores w2 d -> scsi_presents w2 kz2 c2 x -> of_unit x = sc_lun c -> last < 0xffffffff ->
    exists r2 w3, scsi_queuecommand drv wrs2 kz2 wild2 c2 w2 = Ret r2 w3 /\
      scsi_observes w3 c2 r2 x (if from_block x + block_count x <=? last then served d x else AnsOutOfRange).
Proof.
  intros cap data drv wrs kz wild c w U A Hb Hl.
  destruct (capacity_answer cap data drv wrs kz wild c w U A Hb) as (r & w' & E & G & An).
  exists r, w'. do 2 eexists. split; [exact E|]. split; [exact G|]. split; [exact An|].
  intros wrs2 kz2 wild2 c2 w2 x d Hs P Hu Hlast.
  pose proof (adapter_step_dev cap drv wrs2 kz2 wild2 c2 w2 x d (unit_disk_like _ _ _ U) (proj1 U) Hs P) as Z.
  assert (En : nsid_of (sc_lun c) = sc_lun c + 1) by (unfold nsid_of; apply N.mod_small; lia). rewrite En in *.
  rewrite N.min_l by lia.
  destruct x as [u lba n|u lba dd]; cbn [disk_step of_unit from_block block_count served] in *; subst u;
    [destruct (N.leb_spec (lba + n) (cap (sc_lun c + 1)))|destruct (N.leb_spec (lba + blocks_of dd) (cap (sc_lun c + 1)))];
    destruct Z as (r2 & w3 & E2 & O & _); exists r2, w3; auto.
Qed.
Print Assumptions C99_capacity_exact.

(** Every block before the announced address can be read and written.  Missing
    for the full claim: the block at the announced address itself. *)
Theorem C99_capacity_partial : forall cap data drv wrs kz wild c w,
  unit_device cap data drv -> asks_capacity w kz c -> 9 <= ns_lbads (data 0 (nsid_of (sc_lun c))) <= 31 -> sc_lun c < 2 ^ 32 - 1 ->
  exists r w' last block, scsi_queuecommand drv wrs kz wild c w = Ret r w' /\ mr_result r = GOOD /\ announced_capacity w' c last block /\
  forall wrs2 kz2 wild2 c2 w2 x d, stores w2 d -> scsi_presents w2 kz2 c2 x -> of_unit x = sc_lun c ->
    from_block x + block_count x <= last ->
    exists r2 w3, scsi_queuecommand drv wrs2 kz2 wild2 c2 w2 = Ret r2 w3 /\ scsi_observes w3 c2 r2 x (served d x).
Proof.
  intros cap data drv wrs kz wild c w U A Hb Hl.
  destruct (capacity_answer cap data drv wrs kz wild c w U A Hb) as (r & w' & E & G & An).
  exists r, w'. do 2 eexists. split; [exact E|]. split; [exact G|]. split; [exact An|].
  intros wrs2 kz2 wild2 c2 w2 x d Hs P Hu Hlast.
  pose proof (adapter_step_dev cap drv wrs2 kz2 wild2 c2 w2 x d (unit_disk_like _ _ _ U) (proj1 U) Hs P) as Z.
  assert (En : nsid_of (sc_lun c) = sc_lun c + 1) by (unfold nsid_of; apply N.mod_small; lia). rewrite En in *.
  destruct x as [u lba n|u lba dd]; cbn [disk_step of_unit from_block block_count served] in *; subst u;
    [destruct (N.leb_spec (lba + n) (cap (sc_lun c + 1)))|destruct (N.leb_spec (lba + blocks_of dd) (cap (sc_lun c + 1)))]; try lia;
    destruct Z as (r2 & w3 & E2 & O & _); exists r2, w3; auto.
Qed.
Print Assumptions C99_capacity_partial.

(** Refuted: on every unit of 1 to FFFFFFFEh blocks, reading or writing the
    block at the announced address (the last block, says the announcement) is
    answered with LBA OUT OF RANGE. *)
Theorem C99_last_block_refuted : forall cap data drv wrs kz wild c w,
  unit_device cap data drv -> asks_capacity w kz c -> 9 <= ns_lbads (data 0 (nsid_of (sc_lun c))) <= 31 -> sc_lun c < 2 ^ 32 - 1 ->
  cap (sc_lun c + 1) < 0xffffffff ->
  exists r w' last block, scsi_queuecommand drv wrs kz wild c w = Ret r w' /\ mr_result r = GOOD /\ announced_capacity w' c last block /\
  forall wrs2 kz2 wild2 c2 w2 x d, stores w2 d -> scsi_presents w2 kz2 c2 x -> of_unit x = sc_lun c ->
    from_block x <= last < from_block x + block_count x ->
    exists r2 w3, scsi_queuecommand drv wrs2 kz2 wild2 c2 w2 = Ret r2 w3 /\
      mr_result r2 = CHECK_CONDITION /\ out_of_range_sense w3 (sc_sense c2).
Proof.
  intros cap data drv wrs kz wild c w U A Hb Hl Hc.
  destruct (capacity_answer cap data drv wrs kz wild c w U A Hb) as (r & w' & E & G & An).
  exists r, w'. do 2 eexists. split; [exact E|]. split; [exact G|]. split; [exact An|].
  intros wrs2 kz2 wild2 c2 w2 x d Hs P Hu Hlast.
  pose proof (adapter_step_dev cap drv wrs2 kz2 wild2 c2 w2 x d (unit_disk_like _ _ _ U) (proj1 U) Hs P) as Z.
  assert (En : nsid_of (sc_lun c) = sc_lun c + 1) by (unfold nsid_of; apply N.mod_small; lia). rewrite En in *.
  rewrite N.min_l in Hlast by lia.
  destruct x as [u lba n|u lba dd]; cbn [disk_step of_unit from_block block_count served] in *; subst u;
    [destruct (N.leb_spec (lba + n) (cap (sc_lun c + 1)))|destruct (N.leb_spec (lba + blocks_of dd) (cap (sc_lun c + 1)))]; try lia;
    destruct Z as (r2 & w3 & E2 & O & _); exists r2, w3; auto.
Qed.
Print Assumptions C99_last_block_refuted.

(** ** C100 *)
Lemma sized_read_cases f drv wrs kz wild c w bs block r w' :
  sized_request read_opcode read_prinfo block w kz c f bs ->
  scsi_queuecommand drv wrs kz wild c w = Ret r w' ->
  if block <? 4096 then mr_subs r = [] /\ mr_result r <> GOOD
  else exists s, mr_subs r = [s] /\ sub_bufflen s = rw_blocks f bs * 4096.
Proof.
  intros (Hc & Hl & Hs & Ho & Hr & Hn & Hp & Hb & Hsm & Hk & Hun) E.
  assert (Hmod : sc_bufflen c mod 65536 = sc_bufflen c) by (apply N.mod_small; exact Hsm).
  destruct (mock_inv drv wrs kz wild c w r w' E (or_intror Hk)) as (w2 & resp & t & subs & w3 & w4 & P & _ & E1 & -> & -> & _).
  set (q := mock_request kz wild c) in *. assert (Hun' : unused w kz (len (rq_data q))) by (change (len (rq_data q)) with (sc_bufflen c mod 65536); rewrite Hmod; exact Hun).
  pose proof (mock_cdb kz wild c w w2 bs P Hun' Hc Hl Hs) as Hc2. fold q in Hc2.
  assert (Hlen : len (rq_data q) = rw_blocks f bs * block) by (change (len (rq_data q)) with (sc_bufflen c mod 65536); rewrite Hmod; exact Hb).
  destruct (N.ltb_spec block 4096) as [L|L].
  - eapply engine_refused; [exact E1|]. intros t1 r1 w1 B.
    destruct (C15_read_accepted_iff f (Translation_init wrs) (rq_cdb q) (rq_data q) (rq_lun q) w2 bs (idle_init wrs) Hc2 Ho) as (t1' & r1' & w1' & B' & _ & A & R).
    unfold begins in B. rewrite B in B'. apply ret_eq in B' as [B' _]. apply pair_eq in B' as [<- _]. apply R. intros (_ & _ & _ & X).
    rewrite Hlen in X. nia.
  - assert (exists pr, read_prinfo f bs = Some pr) as [pr Hpr] by (destruct (read_prinfo f bs); [eauto|contradiction]).
    assert (Hok : read_ok f bs (rq_data q)) by (split; [exact Hr|split; [exact Hn|split; [exact Hp|rewrite Hlen; nia]]]).
    destruct (Begin_read_ok f (Translation_init wrs) (rq_cdb q) (rq_data q) (rq_lun q) w2 bs pr (idle_init wrs) Hc2 Ho Hok Hpr) as (t1 & B & _ & X & _).
    destruct (engine_cases _ _ _ _ _ _ _ _ E1) as (t1' & r1' & w1' & B' & _ & C). unfold begins in B'. rewrite B in B'.
    apply ret_eq in B' as [B' _]. apply pair_eq in B' as [<- <-].
    destruct C as [(L' & _)|(_ & -> & _)]; [cbn [br_alloc_len begin_ok] in L'; rewrite Hlen in L'; nia|].
    destruct (one_wrapper _ _ X) as (x & -> & Vx). exists (sub_of x). split; [reflexivity|].
    change (x_buffer_len (view x) = rw_blocks f bs * 4096). rewrite Vx. reflexivity.
Qed.

Lemma sized_write_case f drv wrs kz wild c w bs block r w' :
  sized_request write_opcode write_prinfo block w kz c f bs ->
  scsi_queuecommand drv wrs kz wild c w = Ret r w' ->
  exists s sq, mr_subs r = [s] /\ sub_view s = (false, sqe_bytes sq, sub_buffer s, sub_bufflen s) /\ q_opc sq = 0x01 /\
    nvme_blocks sq = rw_blocks f bs /\ sub_bufflen s = rw_blocks f bs * block.
Proof.
  intros (Hc & Hl & Hs & Ho & Hr & Hn & Hp & Hb & Hsm & Hk & Hun) E.
  assert (Hmod : sc_bufflen c mod 65536 = sc_bufflen c) by (apply N.mod_small; exact Hsm).
  rewrite <- Hmod in Hun. destruct (C60_write_exact f drv wrs kz wild c w bs r w' Hc Hl Hs Ho Hk Hun E) as [[_ N]|(s & sq & Q1 & Q2 & Q3 & Q4 & Q5 & _)].
  - exfalso. apply N. split; [exact Hr|]. split; [lia|exact Hp].
  - exists s, sq. split; [exact Q1|]. split; [exact Q2|]. split; [exact Q3|]. split.
    + rewrite Q4. rewrite N.mod_small by lia. lia.
    + rewrite Q5, Hmod. exact Hb.
Qed.

Lemma block_announced data drv wrs kz wild c w : identifies drv data -> asks_capacity w kz c ->
  9 <= ns_lbads (data 0 (nsid_of (sc_lun c))) <= 31 ->
  exists r w', scsi_queuecommand drv wrs kz wild c w = Ret r w' /\ mr_result r = GOOD /\
    exists last, announced_capacity w' c last (2 ^ ns_lbads (data 0 (nsid_of (sc_lun c)))).
Proof.
  intros Hid ((bs & A1 & A2 & A3 & A4 & A5 & A6) & B1 & B2 & B3 & B4 & B5 & B6 & B7) Hb.
  destruct (C64_read_capacity_end_to_end_partial drv wrs kz wild c w bs data A1 A2 A3 A4 A5 A6 Hb B1 B2 B3 B4 B5 B6 B7 Hid) as (p & s & w' & E & _ & _ & S & _).
  eexists. exists w'. split; [exact E|]. split; [reflexivity|]. eexists. split; [|split; [|exact S]].
  - change (2 ^ 32) with 4294967296. lia.
  - apply N.pow_lt_mono_r; lia.
Qed.

(** WRITEs: the device is handed the blocks asked for, in a buffer of the
    announced block length each - whatever that length is. *)
Theorem C100_write_block_length : forall data drv wrs kz wild c w, identifies drv data -> asks_capacity w kz c ->
  9 <= ns_lbads (data 0 (nsid_of (sc_lun c))) <= 31 ->
  exists r w' last block, scsi_queuecommand drv wrs kz wild c w = Ret r w' /\ mr_result r = GOOD /\ announced_capacity w' c last block /\
  block = 2 ^ ns_lbads (data 0 (nsid_of (sc_lun c))) /\
  forall drv2 wrs2 kz2 wild2 c2 w2 f bs r2 w3, sized_request write_opcode write_prinfo block w2 kz2 c2 f bs ->
    scsi_queuecommand drv2 wrs2 kz2 wild2 c2 w2 = Ret r2 w3 ->
    exists s sq, mr_subs r2 = [s] /\ sub_view s = (false, sqe_bytes sq, sub_buffer s, sub_bufflen s) /\ q_opc sq = 0x01 /\
      nvme_blocks sq = rw_blocks f bs /\ sub_bufflen s = rw_blocks f bs * block.
Proof.
  intros data drv wrs kz wild c w Hid A Hb. destruct (block_announced data drv wrs kz wild c w Hid A Hb) as (r & w' & E & G & last & An).
  exists r, w', last. eexists. split; [exact E|]. split; [exact G|]. split; [exact An|]. split; [reflexivity|].
  intros. eapply sized_write_case; eassumption.
Qed.
Print Assumptions C100_write_block_length.

(** READs, exactly: with blocks shorter than 4096 bytes nothing is ever read;
    otherwise the device is handed a buffer of 4096 bytes per block.  So READs
    work as announced for 4096-byte blocks and no others. *)
Theorem C100_read_block_length_partial : forall data drv wrs kz wild c w, identifies drv data -> asks_capacity w kz c ->
  9 <= ns_lbads (data 0 (nsid_of (sc_lun c))) <= 31 ->
  exists r w' last block, scsi_queuecommand drv wrs kz wild c w = Ret r w' /\ mr_result r = GOOD /\ announced_capacity w' c last block /\
  block = 2 ^ ns_lbads (data 0 (nsid_of (sc_lun c))) /\
  forall drv2 wrs2 kz2 wild2 c2 w2 f bs r2 w3, sized_request read_opcode read_prinfo block w2 kz2 c2 f bs ->
    scsi_queuecommand drv2 wrs2 kz2 wild2 c2 w2 = Ret r2 w3 ->
    ((exists s, mr_subs r2 = [s] /\ sub_bufflen s = rw_blocks f bs * block) <-> block = 4096).
Proof.
  intros data drv wrs kz wild c w Hid A Hb. destruct (block_announced data drv wrs kz wild c w Hid A Hb) as (r & w' & E & G & last & An).
  exists r, w', last. eexists. split; [exact E|]. split; [exact G|]. split; [exact An|]. split; [reflexivity|].
  intros drv2 wrs2 kz2 wild2 c2 w2 f bs r2 w3 P E2. pose proof (sized_read_cases _ _ _ _ _ _ _ _ _ _ _ P E2) as Z.
  destruct P as (_ & _ & _ & _ & _ & Hn & _). revert Z. generalize (2 ^ ns_lbads (data 0 (nsid_of (sc_lun c)))) as block. intros block Z.
  destruct (N.ltb_spec block 4096) as [L|L]; split.
  - intros (s & Hs & _). destruct Z as [Z _]. rewrite Z in Hs. discriminate Hs.
  - lia.
  - intros (s & Hs & Hlen). destruct Z as (s' & Hs' & Hlen'). rewrite Hs in Hs'. injection Hs' as <-. nia.
  - intros ->. exact Z.
Qed.
Print Assumptions C100_read_block_length_partial.

Theorem C100_short_blocks_refuted : forall data drv wrs kz wild c w, identifies drv data -> asks_capacity w kz c ->
  9 <= ns_lbads (data 0 (nsid_of (sc_lun c))) <= 11 ->
  exists r w' last block, scsi_queuecommand drv wrs kz wild c w = Ret r w' /\ mr_result r = GOOD /\ announced_capacity w' c last block /\
  forall drv2 wrs2 kz2 wild2 c2 w2 f bs r2 w3, sized_request read_opcode read_prinfo block w2 kz2 c2 f bs ->
    scsi_queuecommand drv2 wrs2 kz2 wild2 c2 w2 = Ret r2 w3 -> mr_subs r2 = [] /\ mr_result r2 <> GOOD.
Proof.
  intros data drv wrs kz wild c w Hid A Hb. destruct (block_announced data drv wrs kz wild c w Hid A ltac:(lia)) as (r & w' & E & G & last & An).
  exists r, w', last. eexists. split; [exact E|]. split; [exact G|]. split; [exact An|].
  intros drv2 wrs2 kz2 wild2 c2 w2 f bs r2 w3 P E2. pose proof (sized_read_cases _ _ _ _ _ _ _ _ _ _ _ P E2) as Z.
  assert (2 ^ ns_lbads (data 0 (nsid_of (sc_lun c))) < 2 ^ 12) as L by (apply N.pow_lt_mono_r; lia). change (2 ^ 12) with 4096 in L.
  apply N.ltb_lt in L. rewrite L in Z. exact Z.
Qed.
Print Assumptions C100_short_blocks_refuted.
Theorem C100_long_blocks_refuted : forall data drv wrs kz wild c w, identifies drv data -> asks_capacity w kz c ->
  13 <= ns_lbads (data 0 (nsid_of (sc_lun c))) <= 31 ->
  exists r w' last block, scsi_queuecommand drv wrs kz wild c w = Ret r w' /\ mr_result r = GOOD /\ announced_capacity w' c last block /\
  forall drv2 wrs2 kz2 wild2 c2 w2 f bs r2 w3, sized_request read_opcode read_prinfo block w2 kz2 c2 f bs ->
    scsi_queuecommand drv2 wrs2 kz2 wild2 c2 w2 = Ret r2 w3 ->
    exists s, mr_subs r2 = [s] /\ sub_bufflen s = rw_blocks f bs * 4096 /\ sub_bufflen s < rw_blocks f bs * block.
Proof.
  intros data drv wrs kz wild c w Hid A Hb. destruct (block_announced data drv wrs kz wild c w Hid A ltac:(lia)) as (r & w' & E & G & last & An).
  exists r, w', last. eexists. split; [exact E|]. split; [exact G|]. split; [exact An|].
  intros drv2 wrs2 kz2 wild2 c2 w2 f bs r2 w3 P E2. pose proof (sized_read_cases _ _ _ _ _ _ _ _ _ _ _ P E2) as Z.
  assert (2 ^ 12 < 2 ^ ns_lbads (data 0 (nsid_of (sc_lun c)))) as L by (apply N.pow_lt_mono_r; lia). change (2 ^ 12) with 4096 in L.
  destruct P as (_ & _ & _ & _ & _ & Hn & _). revert Z L. generalize (2 ^ ns_lbads (data 0 (nsid_of (sc_lun c)))) as block. intros block Z L.
  replace (block <? 4096) with false in Z by lia. destruct Z as (s & Hs & Hlen). exists s. split; [exact Hs|]. split; [exact Hlen|]. rewrite Hlen. nia.
Qed.
Print Assumptions C100_long_blocks_refuted.

(** ** The premises are met: a namespace of 7 blocks of 2^[lbads] bytes, READ
    CAPACITY, and then a WRITE to block 7 *)
Definition ex_ns35 (k lbads : N) : list byte := ex_capns [k;0;0;0;0;0;0;0] lbads.
Definition ex_unit35 (k lbads : N) : driver := fun i s m =>
  if sub_admin s then ex_device (ex_ns35 k lbads) i s m else nvme_disk (fun _ => k) i s m.
Lemma ex_ns35_length k lbads : N.of_nat (length (ex_ns35 k lbads)) = 4096.
Proof. unfold ex_ns35, ex_capns, B. rewrite !app_length, !repeat_length, ?map_length. reflexivity. Qed.
Lemma ex_identifies35 k lbads : identifies (ex_unit35 k lbads) (ex_data12 (ex_ns35 k lbads)).
Proof.
  destruct (ex_identifies (ex_ns35 k lbads) (ex_ns35_length k lbads)) as [A B]. split; [exact A|].
  intros s cns nsid p V i m. assert (sub_admin s = true) as Ha by (change (fst (fst (fst (sub_view s))) = true); rewrite V; reflexivity).
  unfold ex_unit35. rewrite Ha. exact (B s cns nsid p V i m).
Qed.
Example C99_premises_met :
  unit_device (fun _ => 7) (ex_data12 (ex_ns35 7 12)) (ex_unit35 7 12) /\
  asks_capacity (ex_world12 Properties4.ex_cap) 0x90000 (ex_scsi Properties4.ex_cap true 8) /\
  ns_lbads (ex_data12 (ex_ns35 7 12) 0 3) = 12 /\
  scsi_presents (ex_disk_world ex_write7) 0x90000 (ex_scsi ex_write7 false 4096) (IoWrite 2 7 (ex_data (N.to_nat 4096) xcd)) /\
  stores (ex_disk_world ex_write7) ex_disk.
Proof.
  split; [|split; [|split; [|split]]].
  - split; [intros n; discriminate|]. split; [apply ex_identifies35|]. split.
    + intros i s m Ha. unfold ex_unit35. rewrite Ha. reflexivity.
    + intros nsid _. vm_compute. reflexivity.
  - split.
    + exists Properties4.ex_cap. split; [|vm_compute; repeat split; auto; try discriminate; lia].
      intros i b Hi. do 10 (destruct i as [|i]; [vm_compute in Hi |- *; exact Hi|]). destruct i; discriminate Hi.
    + split; [reflexivity|]. split; [split; [discriminate|reflexivity]|]. split; [|split; [|split; [|split]]].
      * change (sg_addrs _) with [0x20004; 0x20005; 0x20006; 0x20007; 0x20000; 0x20001; 0x20002; 0x20003]. split.
        -- do 8 (apply NoDup_cons; [intros H; repeat (destruct H as [H|H]; [discriminate H|]); exact H|]). apply NoDup_nil.
        -- intros a Ha. cbn [In] in Ha. repeat (destruct Ha as [<-|Ha]; [vm_compute; discriminate|]). contradiction.
      * discriminate.
      * discriminate.
      * intros x Hx. change (sc_bufflen (ex_scsi Properties4.ex_cap true 8)) with 8 in Hx.
        assert (Hx' : exists i, (i < 8)%nat /\ x = 0x90000 + N.of_nat i) by (exists (N.to_nat (x - 0x90000)); lia).
        destruct Hx' as (i & Hi & ->). do 8 (destruct i as [|i]; [vm_compute; reflexivity|]). lia.
      * apply ex_good_pages; [vm_compute; lia|reflexivity].
  - vm_compute. reflexivity.
  - apply C80_premises_met.
  - apply C80_premises_met.
Qed.
(** a namespace of 512-byte blocks: a READ of one block into 512 bytes *)
Lemma ex_sized35 (op : N) block opcode info : info RW10 (B [op;0;0;0;0;6;0;0;1;0]) <> None -> opcode RW10 = op -> op < 256 -> 1 <= block < 65536 ->
  sized_request opcode info block (ex_disk_world (B [op;0;0;0;0;6;0;0;1;0])) 0x90000 (ex_scsi (B [op;0;0;0;0;6;0;0;1;0]) true block) RW10 (B [op;0;0;0;0;6;0;0;1;0]).
Proof.
  intros Hi Hop Hb256 Hb. set (cdb := B [op;0;0;0;0;6;0;0;1;0]) in *.
  assert (L : length cdb = 10%nat) by reflexivity.
  split; [|split; [|split; [|split; [|split; [|split; [|split; [|split; [|split; [|split]]]]]]]]].
  - intros i b Hn. assert (i < 10)%nat by (rewrite <- L; apply nth_error_Some; congruence).
    change (sc_cmnd (ex_scsi cdb true block)) with 4096. unfold ex_disk_world. cbn [mem set_mem]. unfold ex_disk_mem. rewrite L.
    replace (2 ^ 64 <=? 4096 + N.of_nat i) with false by lia.
    replace ((0x1000 <=? 4096 + N.of_nat i) && (4096 + N.of_nat i <? 0x1000 + N.of_nat 10)) with true by lia.
    replace (N.to_nat (4096 + N.of_nat i - 0x1000)) with i by lia. exact Hn.
  - reflexivity.
  - reflexivity.
  - rewrite Hop. unfold byte_at, cdb, B. cbn [map nth]. rewrite b2n_n2b. apply N.mod_small. exact Hb256.
  - rewrite L. cbn. lia.
  - change (rw_blocks RW10 cdb) with 1. lia.
  - exact Hi.
  - change (rw_blocks RW10 cdb) with 1. change (sc_bufflen (ex_scsi cdb true block)) with block. lia.
  - change (sc_bufflen (ex_scsi cdb true block)) with block. lia.
  - discriminate.
  - intros y Hy. change (sc_bufflen (ex_scsi cdb true block)) with block in Hy.
    unfold ex_disk_world. cbn [mem set_mem]. unfold ex_disk_mem. rewrite L.
    replace (2 ^ 64 <=? y) with false by lia. replace ((0x1000 <=? y) && (y <? 0x1000 + N.of_nat 10)) with false by lia.
    replace ((0x20000 <=? y) && (y <? 0x24000)) with false by lia. replace ((0x40000 <=? y) && (y <? 0x40060)) with false by lia. reflexivity.
Qed.
Example C100_premises_met : forall lbads, 9 <= lbads <= 15 ->
  identifies (ex_unit35 7 lbads) (ex_data12 (ex_ns35 7 lbads)) /\
  asks_capacity (ex_world12 Properties4.ex_cap) 0x90000 (ex_scsi Properties4.ex_cap true 8) /\
  ns_lbads (ex_data12 (ex_ns35 7 lbads) 0 3) = lbads /\
  (exists w c, sized_request read_opcode read_prinfo (2 ^ lbads) w 0x90000 c RW10 (B [0x28;0;0;0;0;6;0;0;1;0])) /\
  (exists w c, sized_request write_opcode write_prinfo (2 ^ lbads) w 0x90000 c RW10 (B [0x2a;0;0;0;0;6;0;0;1;0])).
Proof.
  intros lbads Hl. assert (Hb : 1 <= 2 ^ lbads < 65536).
  { split; [apply N.lt_pred_le; apply N.neq_0_lt_0; apply N.pow_nonzero; discriminate|]. change 65536 with (2 ^ 16). apply N.pow_lt_mono_r; lia. }
  split; [apply ex_identifies35|]. split; [apply C99_premises_met|]. split; [|split].
  - assert (lbads = 9 \/ lbads = 10 \/ lbads = 11 \/ lbads = 12 \/ lbads = 13 \/ lbads = 14 \/ lbads = 15) as H by lia.
    destruct H as [->|[->|[->|[->|[->|[->| ->]]]]]]; vm_compute; reflexivity.
  - do 2 eexists. apply ex_sized35; [discriminate|reflexivity|reflexivity|exact Hb].
  - do 2 eexists. apply ex_sized35; [discriminate|reflexivity|reflexivity|exact Hb].
Qed.
