(** C110: VERIFY(10) end to end. *)
From Coq Require Import Arith NArith ZArith String List Lia Bool Init.Byte Permutation.
From Coq Require Import ZifyBool ZifyNat ZifyN.
From Verif Require Import Bytes Layout World ScsiDefs NvmeDefs Common ModeSenseCmd TranslationCls EngineE2e MockModule KernelDriver
  Spec RwSpec InquirySpec SmallSpec ModeSpec UnmapSpec EngineSpec MockSpec AcceptSpec ModuleSpec
  Facts Logic BeginFacts CompleteFacts StatusFacts RwFacts RelFacts AcceptFacts AnnounceFacts EngineFacts MockFacts Witness
  Properties1 Properties2 Properties6 Properties9 Properties11 Properties13 Properties24 Properties25 Properties26 Properties30.
Import ListNotations.
Local Open Scope string_scope.
Local Open Scope list_scope.
Local Open Scope N_scope.

(** Specification: an initiator asks for a verification of blocks of a unit:
    complete CDB, at least one block, NACA = 0; any BYTCHK, and any data buffer
    (the data to compare with). *)
Definition asks_verify (w : world) (kz : N) (c : scsi_cmnd) (bs : list byte) : Prop :=
  bytes_at w (sc_cmnd c) bs /\ N.of_nat (length bs) = sc_cmd_len c /\ sc_cmd_len c < 65536 /\
  byte_at bs 0 = 0x2f /\ verify_ok bs /\
  (let n := sc_bufflen c mod 65536 in unused w kz n /\ (n = 0 \/ kz <> 0)) /\
  (forall x, In x (sg_addrs (sc_sgl c)) -> x < sc_sense c \/ sc_sense c + 96 <= x).
(** what it should be sent as: Compare (05h) for the namespace of the unit *)
Definition sub_nsid (s : submission) : N := le (slice 4 4 (le_encode 64 (sub_cmd s))).
Definition sub_opcode (s : submission) : N := le (slice 0 1 (le_encode 64 (sub_cmd s))).
(** NVMe: a command for a namespace that does not exist, such as 0, is failed
    with Invalid Namespace or Format (0Bh) *)
Definition rejects_namespace_0 (drv : driver) : Prop :=
  forall k s m, sub_admin s = false -> sub_opcode s = 0x05 -> sub_nsid s = 0 ->
    let c := snd (drv k s m) mod 2 ^ 128 in cpl_sct c = 0 /\ cpl_sc c = 0x0b.

(** ** C110 *)

Lemma verify_subs drv wrs kz wild c w bs r w' : asks_verify w kz c bs -> scsi_queuecommand drv wrs kz wild c w = Ret r w' ->
  exists s n, mr_subs r = [s] /\ sub_view s = (false, sqe_bytes (verify_sqe 0 0 bs), 0, n).
Proof.
  intros (Hc & Hl & Hlt & Ho & Hv & (Hun & Hk) & _) E.
  destruct (mock_inv _ _ _ _ _ _ _ _ E Hk) as (w2 & resp & t & subs & w3 & w4 & P & _ & E2 & _ & Hs & _).
  set (q := mock_request kz wild c) in *. pose proof (mock_cdb kz wild c w w2 bs P Hun Hc Hl Hlt) as Hc2. fold q in Hc2.
  destruct (engine_cases _ _ _ _ _ _ _ _ E2) as (tb & rb & wb & Eb & _ & C).
  destruct (Begin_verify_ok (Translation_init wrs) (rq_cdb q) (rq_data q) (rq_lun q) w2 bs (idle_init wrs) Hc2 Ho Hv) as (t1 & E1 & Ha & X & _).
  assert (Eb' : EngineSpec.begins wrs q w2 = Ret (t1, begin_ok 0) w2) by exact E1.
  rewrite Eb' in Eb. apply ret_eq in Eb as [Eb _]. apply pair_eq in Eb as [<- <-]. cbn [br_alloc_len begin_ok] in C.
  destruct C as [(Z & _)|(_ & -> & _)]; [lia|].
  destruct (one_wrapper _ _ X) as (x & Ex & Vx). rewrite Ex in Hs. cbn [map] in Hs. exists (sub_of x). eexists. split; [exact Hs|].
  rewrite sub_of_view, Vx. unfold sub_expected, io. cbn [x_admin x_bytes x_buffer_len]. rewrite sqe_prp1. reflexivity.
Qed.

(** Full claim: a GOOD answer to VERIFY means that the blocks were verified.
    Refuted: for every unit, and with every BYTCHK and data buffer, the one
    command submitted is a Compare without data for namespace 0, which is no
    unit's. *)
Theorem C110_wrong_namespace_refuted : forall drv wrs kz wild c w bs r w',
  asks_verify w kz c bs -> scsi_queuecommand drv wrs kz wild c w = Ret r w' ->
  exists s, mr_subs r = [s] /\ sub_admin s = false /\ sub_opcode s = 0x05 /\ sub_nsid s = 0 /\ sub_buffer s = 0.
Proof.
  intros drv wrs kz wild c w bs r w' Ha E. destruct (verify_subs _ _ _ _ _ _ _ _ _ Ha E) as (s & n & Hs & V). exists s. split; [exact Hs|].
  unfold sub_view in V. apply pair_eq in V as [V _]. apply pair_eq in V as [V V3]. apply pair_eq in V as [V1 V2].
  split; [exact V1|]. unfold sub_opcode, sub_nsid. rewrite V2. unfold sqe_bytes.
  split; [replace (slice 0 1 _) with (le_encode 1 5) by reflexivity; reflexivity|].
  split; [replace (slice 4 4 _) with (le_encode 4 0) by reflexivity; reflexivity|exact V3].
Qed.
Print Assumptions C110_wrong_namespace_refuted.

(** the answer is GOOD exactly if the device completes that command without
    error *)
Lemma verify_answer drv wrs kz wild c w bs r w' : asks_verify w kz c bs -> scsi_queuecommand drv wrs kz wild c w = Ret r w' ->
  exists m, let '(status, key, asc, ascq) := completed_with (snd (device_run drv 0 (mr_subs r) m)) in
    mr_result r = status /\ (status <> GOOD -> exists sb, sense_says key asc ascq sb /\ bytes_at w' (sc_sense c) sb).
Proof.
  intros (Hc & Hl & Hlt & Ho & (V1 & V2 & V3) & (Hun & Hk) & Hsg) E.
  destruct (C91_adapter_outcome drv wrs kz wild c w bs [] r w' Hc Hl Hlt) as (ps & m & _ & V); try assumption.
  { rewrite Ho. discriminate. } { rewrite Ho. discriminate. }
  exists m. cbv zeta in V. set (n := sc_bufflen c mod 65536) in *. unfold verdict in V.
  assert (A : announced bs = 0) by (unfold announced; rewrite Ho; reflexivity).
  assert (B : acceptable bs (handed c n []) n ps = true).
  { unfold acceptable. rewrite Ho. unfold at_least, no_naca, verify_blocks in *. destruct (N.eqb_spec (be (slice 7 2 bs)) 0); [contradiction|].
    assert (Z : N.testbit (byte_at bs 9) 2 = false).
    { pose proof (bits_testbit (byte_at bs 9) 2 1 0) as Z. rewrite V3 in Z. cbn [N.add N.testbit N.ltb N.compare] in Z. rewrite andb_true_r in Z. symmetry. exact Z. }
    rewrite Z. cbn [negb]. lia. }
  rewrite A, B in V. replace (n <? 0) with false in V by lia.
  destruct (completed_with _) as [[[status key] asc] ascq]. destruct V as (V4 & _ & V5 & _). split; [exact V4|exact V5].
Qed.

(** With a device that rejects commands for namespaces it does not have, VERIFY
    is always answered with CHECK CONDITION, for good and bad data alike. *)
Theorem C110_always_fails_refuted : forall drv wrs kz wild c w bs r w', rejects_namespace_0 drv ->
  asks_verify w kz c bs -> scsi_queuecommand drv wrs kz wild c w = Ret r w' ->
  mr_result r = CHECK_CONDITION /\ exists sb, sense_says 5 0x20 0x09 sb /\ bytes_at w' (sc_sense c) sb.
Proof.
  intros drv wrs kz wild c w bs r w' Hr Ha E. destruct (C110_wrong_namespace_refuted _ _ _ _ _ _ _ _ _ Ha E) as (s & Hs & S1 & S2 & S3 & _).
  destruct (verify_answer _ _ _ _ _ _ _ _ _ Ha E) as (m & V). rewrite Hs in V. cbn [device_run] in V.
  destruct (Hr 0%nat s m S1 S2 S3) as (R1 & R2). destruct (drv 0%nat s m) as [m1 c1]. cbn [snd] in R1, R2. cbn [snd completed_with] in V.
  rewrite R1, R2 in V. cbn [N.eqb Pos.eqb andb] in V. 
  replace (scsi_status_of 0 11) with (CHECK_CONDITION, 5, 0x20, 0x09) in V by (vm_compute; reflexivity). destruct V as [V1 V2]. split; [exact V1|]. apply V2. rewrite ?V1. discriminate.
Qed.
Print Assumptions C110_always_fails_refuted.

(** Through the complete kernel module VERIFY is always answered with GOOD, for
    good and bad data alike, and even if there is no device. *)
Theorem C110_module_always_good_refuted : forall kn wrs kz wild c w bs r w',
  asks_verify w kz c bs -> scsi_queuecommand (kernel_driver kn) wrs kz wild c w = Ret r w' -> mr_result r = GOOD.
Proof.
  intros kn wrs kz wild c w bs r w' Ha E. destruct (verify_answer _ _ _ _ _ _ _ _ _ Ha E) as (m & V).
  rewrite completed_ok in V; [apply V|]. apply all_ok_run. apply kernel_all_ok.
Qed.
Print Assumptions C110_module_always_good_refuted.

(** ** The premises are met *)
Definition ex_verify (bytchk : N) : list byte := B [0x2f; bytchk * 2; 0; 0; 0; 9; 0; 0; 1; 0].
Definition ex_rejecting : driver := fun _ s m =>
  (m, if negb (sub_admin s) && (sub_opcode s =? 5) && (sub_nsid s =? 0) then N.shiftl 0x0b 113 else 0).
Lemma ex_asks_verify bytchk n : In (bytchk, n) [(0, 0); (1, 64)] ->
  asks_verify (ex_world (ex_verify bytchk)) 0x90000 (ex_scsi (ex_verify bytchk) false n) (ex_verify bytchk).
Proof.
  intros H. assert (L : length (ex_verify bytchk) = 10%nat) by reflexivity.
  split; [apply (proj2 (ex_cdb_holds _ _ _ _))|]. split; [reflexivity|]. split; [reflexivity|]. split; [reflexivity|].
  split; [split; [rewrite L; lia|split; [vm_compute; discriminate|reflexivity]]|].
  assert (Hn : n <= 64) by (cbn [In] in H; repeat (destruct H as [H|H]; [injection H as <- <-; lia|]); contradiction).
  split; [split; [|right; discriminate]|].
  - intros x Hx. change (sc_bufflen _) with n in Hx. rewrite N.mod_small in Hx by lia. cbn [mem ex_world ex_world_with]. unfold ex_mem, Witness.region, zeros. rewrite L. cbn [length].
    replace (x <? 0x1000 + N.of_nat 10) with false by lia. rewrite andb_false_r.
    replace (x <? 0x10000 + N.of_nat 0) with false by lia. rewrite andb_false_r.
    replace (x <? 0x20000 + 0x10000) with false by lia. rewrite andb_false_r.
    replace (x <? 0x40000 + 32) with false by lia. rewrite andb_false_r. reflexivity.
  - intros x Hx. left. change (sc_sense _) with 0x40000. cbn [In] in H. repeat (destruct H as [H|H]; [injection H as <- <-|]); try contradiction.
    assert (F : forallb (fun a => a <? 0x40000) (sg_addrs (sc_sgl (ex_scsi (ex_verify 1) false 64))) = true) by (vm_compute; reflexivity).
    rewrite forallb_forall in F. specialize (F x Hx). lia.
Qed.
Definition ex_kernel40 (drv : driver) : kernel :=
  {| kn_ns := true; kn_admin_q := 1; kn_io_q := 2; kn_disk := 3; kn_alloc := fun _ => inl 9; kn_map := fun _ => 0%Z; kn_ret := fun _ => 0%Z; kn_exec := drv |}.
Definition ex_run40 (drv : driver) (bytchk n : N) := mock_run drv 0x90000 (ex_scsi (ex_verify bytchk) false n) (ex_world (ex_verify bytchk)).
Example C110_premises_met :
  asks_verify (ex_world (ex_verify 0)) 0x90000 (ex_scsi (ex_verify 0) false 0) (ex_verify 0) /\
  asks_verify (ex_world (ex_verify 1)) 0x90000 (ex_scsi (ex_verify 1) false 64) (ex_verify 1) /\
  rejects_namespace_0 ex_rejecting /\
  option_map (fun x => fst (fst (fst x))) (ex_run40 ex_rejecting 0 0) = Some CHECK_CONDITION /\
  option_map (fun x => fst (fst (fst x))) (ex_run40 ex_rejecting 1 64) = Some CHECK_CONDITION /\
  option_map (fun x => fst (fst (fst x))) (ex_run40 (kernel_driver (ex_kernel40 ex_rejecting)) 0 0) = Some GOOD /\
  option_map (fun x => fst (fst (fst x))) (ex_run40 (kernel_driver (ex_kernel40 ex_rejecting)) 1 64) = Some GOOD.
Proof.
  split; [apply ex_asks_verify; cbn [In]; auto|]. split; [apply ex_asks_verify; cbn [In]; auto|].
  split; [intros k s m H1 H2 H3; unfold ex_rejecting; cbn [snd]; rewrite H1, H2, H3; split; reflexivity|].
  split; [vm_compute; reflexivity|]. split; [vm_compute; reflexivity|]. split; vm_compute; reflexivity.
Qed.
