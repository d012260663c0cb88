(** C121: what READ CAPACITY(10) tells of every namespace. *)
From Coq Require Import Arith NArith String List Lia Bool Init.Byte Permutation.
From Coq Require Import ZifyBool ZifyNat ZifyN.
From Verif Require Import Bytes Layout World ScsiDefs NvmeDefs Common ModeSenseCmd StatusCmd TranslationCls EngineE2e MockModule
  Spec RwSpec InquirySpec SmallSpec EngineSpec MockSpec Facts Logic BeginFacts CompleteFacts StatusFacts RelFacts RwFacts EngineFacts
  SmallFacts InquiryFacts SerialFacts MockFacts Witness Properties1 Properties2 Properties3 Properties4 Properties6 Properties9 Properties11 Properties12.
Import ListNotations.
Local Open Scope string_scope.
Local Open Scope list_scope.
Local Open Scope N_scope.

(** ** Specification *)
(** a READ CAPACITY(10) with room for its answer, to a device holding any namespaces *)
Record sizes (drv : driver) (kz : N) (c : scsi_cmnd) (w : world) (data : N -> N -> list byte) (bs : list byte) : Prop := {
  sz_cdb : bytes_at w (sc_cmnd c) bs;
  sz_len : N.of_nat (length bs) = sc_cmd_len c;
  sz_cmdlen : sc_cmd_len c < 65536;
  sz_ten : (10 <= length bs)%nat;
  sz_op : byte_at bs 0 = 0x25;
  sz_naca : bits (byte_at bs 9) 2 1 = 0;
  sz_reads : sc_from_device c = true;
  sz_buffer : 8 <= sc_bufflen c < 65536;
  sz_sg : sg_valid w (sc_sgl c);
  sz_total : sc_bufflen c <= sg_total (sc_sgl c);
  sz_kz : kz <> 0;
  sz_unused : unused w kz (sc_bufflen c);
  sz_pages : good_pages (with_buffer w kz (sc_bufflen c));
  sz_device : identifies drv data
}.
(** SBC-3 5.13: RETURNED LOGICAL BLOCK ADDRESS and LOGICAL BLOCK LENGTH of the data [d] *)
Definition returned_address (d : list byte) : N := be (slice 0 4 d).
Definition returned_length (d : list byte) : N := be (slice 4 4 d).

(** ** Proofs *)
Lemma capacity_data_read a b : a < 2 ^ 32 -> b < 2 ^ 32 ->
  length (capacity_data a b) = 8%nat /\ returned_address (capacity_data a b) = a /\ returned_length (capacity_data a b) = b.
Proof.
  intros Ha Hb. unfold returned_address, returned_length, capacity_data, slice. split; [|split].
  - rewrite app_length, !be_encode_length. reflexivity.
  - cbn [skipn]. rewrite firstn_app, be_encode_length, Nat.sub_diag, firstn_O, app_nil_r, firstn_all2 by (rewrite be_encode_length; lia).
    rewrite be_be_encode. apply N.mod_small. exact Ha.
  - rewrite skipn_app, be_encode_length, Nat.sub_diag, skipn_all2 by (rewrite be_encode_length; lia). cbn [skipn app].
    rewrite firstn_all2 by (rewrite be_encode_length; lia). rewrite be_be_encode. apply N.mod_small. exact Hb.
Qed.

(** Whatever the namespace: GOOD, exactly one Identify of the LUN's namespace, and
    exactly eight bytes: the number of its blocks (not the address of the last one)
    up to FFFFFFFFh and its block size, if that is 2^9 to 2^31, and zeros otherwise *)
Theorem C121_every_namespace_exact : forall drv wrs kz wild c w data bs, sizes drv kz c w data bs ->
  let ns := data 0 (nsid_of (sc_lun c)) in let fine := (9 <=? ns_lbads ns) && (ns_lbads ns <=? 31) in
  exists d p s w',
    scsi_queuecommand drv wrs kz wild c w = Ret {| mr_result := GOOD; mr_resid := Some (sc_bufflen c - 8); mr_subs := [s] |} w' /\
    sub_view s = (true, sqe_bytes (identify_sqe 0 (nsid_of (sc_lun c)) p), p, 4096) /\
    length d = 8%nat /\ sg_holds w' (sc_sgl c) d /\
    returned_address d = (if fine then N.min (ns_nsze ns) 0xffffffff else 0) /\
    returned_length d = (if fine then 2 ^ ns_lbads ns else 0) /\
    (forall x, mem w x <> None -> ~ In x (firstn 8 (sg_addrs (sc_sgl c))) -> mem w' x = mem w x).
Proof.
  intros drv wrs kz wild c w data bs I ns fine. destruct I. destruct fine eqn:Ef; unfold fine in Ef.
  - destruct (C64_read_capacity_end_to_end_partial drv wrs kz wild c w bs data) as (p & s & w' & E & _ & V & S & F); try assumption.
    { fold ns. lia. }
    fold ns in S. assert (Hp : 2 ^ ns_lbads ns < 2 ^ 32) by (apply N.pow_lt_mono_r; lia).
    destruct (capacity_data_read (N.min (ns_nsze ns) 0xffffffff) (2 ^ ns_lbads ns)) as (L & A & B); [lia|exact Hp|].
    exists (capacity_data (N.min (ns_nsze ns) 0xffffffff) (2 ^ ns_lbads ns)), p, s, w'. auto 10.
  - destruct (adapter_page drv wrs kz wild c w bs 8 0 (nsid_of (sc_lun c)) [] data) as (p & s & w' & E & _ & V & S & F); try assumption; try lia.
    + intros t cdb b v Hi Hv. eapply C40_read_capacity_command; eassumption.
    + intros t v cdb b0 t1 r w1 H1 H2 H3 H4.
      destruct (C40_failure_refuted (sc_lun c) bs ns {| ptr := kz; len := 8 |} sz_ten0 sz_op0 sz_naca0 (proj1 sz_device0 _ _) ltac:(left; lia) t v cdb b0 t1 r w1 H1 H2 H3 H4) as (p & X & C).
      exists p. split; [exact X|]. intros w2 cpl sense A1 A2 A3 A4 A5.
      destruct (C w2 cpl sense A1 A2 A3 A4 A5) as (t2 & w3 & E & I & Q). exists t2, w3. split; [exact E|]. split; [exact I|]. apply wrote_none, Q.
    + cbn. lia.
    + exists (repeat x00 8), p, s, w'. split; [exact E|]. split; [exact V|]. split; [reflexivity|]. split; [exact S|]. split; [reflexivity|]. split; [reflexivity|exact F].
Qed.
Print Assumptions C121_every_namespace_exact.

(** Of a namespace that has blocks the answer is right exactly if the block size is
    2^9 to 2^31 and there are more than FFFFFFFFh blocks *)
Theorem C121_right_iff : forall drv wrs kz wild c w data bs, sizes drv kz c w data bs ->
  let ns := data 0 (nsid_of (sc_lun c)) in 1 <= ns_nsze ns ->
  exists d r w', scsi_queuecommand drv wrs kz wild c w = Ret r w' /\ mr_result r = GOOD /\ length d = 8%nat /\ sg_holds w' (sc_sgl c) d /\
    (returned_address d = last_lba ns /\ returned_length d = 2 ^ ns_lbads ns <-> 9 <= ns_lbads ns <= 31 /\ 0xffffffff < ns_nsze ns).
Proof.
  intros drv wrs kz wild c w data bs I ns Hz.
  destruct (C121_every_namespace_exact drv wrs kz wild c w data bs I) as (d & p & s & w' & E & _ & L & S & A & B & _).
  fold ns in A, B. exists d. do 2 eexists. split; [exact E|]. split; [reflexivity|]. split; [exact L|]. split; [exact S|].
  unfold last_lba. destruct ((9 <=? ns_lbads ns) && (ns_lbads ns <=? 31)) eqn:Ef; rewrite A, B.
  - split; [intros [Q _]; lia|]. intros [_ Q]. split; [lia|reflexivity].
  - split; [|lia]. intros [_ Q]. symmetry in Q. apply N.pow_eq_0 in Q; [discriminate Q|]. intros Z. rewrite Z in Q. discriminate Q.
Qed.
Print Assumptions C121_right_iff.

(** No answer ever distinguishes a namespace of FFFFFFFFh blocks, whose last address
    READ CAPACITY(10) can express, from one too large for it: FFFFFFFFh, which tells
    an initiator to ask READ CAPACITY(16), is returned for both *)
Theorem C121_largest_refuted : forall drv wrs kz wild c w data bs, sizes drv kz c w data bs ->
  let ns := data 0 (nsid_of (sc_lun c)) in 9 <= ns_lbads ns <= 31 -> ns_nsze ns = 0xffffffff ->
  exists d r w', scsi_queuecommand drv wrs kz wild c w = Ret r w' /\ mr_result r = GOOD /\ length d = 8%nat /\ sg_holds w' (sc_sgl c) d /\
    last_lba ns = 0xfffffffe /\ returned_address d = 0xffffffff.
Proof.
  intros drv wrs kz wild c w data bs I ns Hb Hz.
  destruct (C121_every_namespace_exact drv wrs kz wild c w data bs I) as (d & p & s & w' & E & _ & L & S & A & B & _).
  fold ns in A. exists d. do 2 eexists. split; [exact E|]. split; [reflexivity|]. split; [exact L|]. split; [exact S|].
  unfold last_lba. rewrite A, Hz. replace ((9 <=? ns_lbads ns) && (ns_lbads ns <=? 31)) with true by lia. auto.
Qed.
Print Assumptions C121_largest_refuted.

(** The premises are met by a namespace of 65536 blocks of 4096 bytes, and by one with
    blocks of 256 bytes *)
Example C121_premises_met :
  let ns := ex_capns [0;0;1;0;0;0;0;0] 12 in
  sizes (ex_device ns) 0x90000 (ex_scsi ex_cap true 64) (ex_world12 ex_cap) (ex_data12 ns) ex_cap /\
  ns_nsze ns = 65536 /\ ns_lbads ns = 12 /\
  mock_run (ex_device ns) 0x90000 (ex_scsi ex_cap true 64) (ex_world12 ex_cap) =
  Some (0, Some 56, [(true, 0x100000, 4096)], map Some (B [0;1;0;0; 0;0;0x10;0] ++ repeat x00 56)) /\
  let small := ex_capns [0;0;1;0;0;0;0;0] 8 in
  ns_nsze small = 65536 /\ ns_lbads small = 8 /\
  mock_run (ex_device small) 0x90000 (ex_scsi ex_cap true 64) (ex_world12 ex_cap) =
  Some (0, Some 56, [(true, 0x100000, 4096)], map Some (repeat x00 64)).
Proof.
  split; [|vm_compute; auto 10]. constructor.
  - apply (ex_cdb_holds (fun _ _ => x00) xff ex_cap []); reflexivity.
  - reflexivity.
  - reflexivity.
  - cbn. lia.
  - reflexivity.
  - reflexivity.
  - reflexivity.
  - vm_compute. split; [discriminate|reflexivity].
  - apply (ex_sgl_valid ex_cap true 64); discriminate.
  - discriminate.
  - discriminate.
  - apply (ex_unused ex_cap). discriminate.
  - apply ex_good_pages; [cbn; lia|reflexivity].
  - apply ex_identifies. reflexivity.
Qed.
