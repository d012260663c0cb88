(** C122: what a unit tells of itself is its own: it does not depend on other units,
    on earlier commands or on the memory the answer travels through. *)
From Coq Require Import Arith NArith String List Lia Bool Init.Byte Permutation.
From Coq Require Import ZifyBool ZifyNat ZifyN.
From Verif Require Import Bytes Layout World ScsiDefs NvmeDefs Common ModeSenseCmd StatusCmd TranslationCls EngineE2e MockModule
  Spec RwSpec InquirySpec SmallSpec EngineSpec MockSpec Facts Logic
  Witness Properties1 Properties2 Properties3 Properties4 Properties6 Properties9 Properties11 Properties12 Properties48 Properties54 Properties57.
Import ListNotations.
Local Open Scope string_scope.
Local Open Scope list_scope.
Local Open Scope N_scope.

(** ** Specification *)
(** the initiator's buffer holds [d] after a command that ended GOOD *)
Definition told (drv : driver) (wrs : ModeSenseCmd.arr3 NvmeCmdWrapper) (kz : N) (wild : N) (c : scsi_cmnd) (w : world) (d : list byte) : Prop :=
  exists r w', scsi_queuecommand drv wrs kz wild c w = Ret r w' /\ mr_result r = GOOD /\ sg_holds w' (sc_sgl c) d.

(** ** Proofs *)
Lemma be_inj a b : length a = length b -> be a = be b -> a = b.
Proof. intros L E. rewrite <- (be_encode_be a), <- (be_encode_be b), L, E. reflexivity. Qed.
Lemma nsid_small lun : lun < 0xffffffff -> nsid_of lun = lun + 1.
Proof. intros H. unfold nsid_of. apply N.mod_small. change (2 ^ 32) with 4294967296. lia. Qed.

Lemma capacity_same drv wrs kz wild c w data bs drv' wrs' kz' wild' c' w' data' bs' :
  sizes drv kz c w data bs -> sizes drv' kz' c' w' data' bs' ->
  data 0 (nsid_of (sc_lun c)) = data' 0 (nsid_of (sc_lun c')) ->
  exists d, length d = 8%nat /\ told drv wrs kz wild c w d /\ told drv' wrs' kz' wild' c' w' d.
Proof.
  intros I J Q.
  destruct (C121_every_namespace_exact drv wrs kz wild c w data bs I) as (d & p & s & v & E & _ & L & S & A & B & _).
  destruct (C121_every_namespace_exact drv' wrs' kz' wild' c' w' data' bs' J) as (d' & p' & s' & v' & E' & _ & L' & S' & A' & B' & _).
  cbv zeta in A, B, A', B'. rewrite <- Q in A', B'.
  assert (d = d') as <-.
  { assert (K : forall x y : list byte, length x = 8%nat -> length y = 8%nat -> returned_address x = returned_address y -> returned_length x = returned_length y -> x = y).
    { intros x y Lx Ly Ha Hl. unfold returned_address, returned_length in Ha, Hl.
      rewrite <- (firstn_skipn 4 x), <- (firstn_skipn 4 y). unfold slice in Ha, Hl. cbn [skipn] in Ha. f_equal.
      - apply be_inj; [|exact Ha]. rewrite !firstn_length. lia.
      - rewrite (firstn_all2 (skipn 4 x)), (firstn_all2 (skipn 4 y)) in Hl by (rewrite skipn_length; lia).
        apply be_inj; [|exact Hl]. rewrite !skipn_length. lia. }
    apply K; congruence. }
  exists d. split; [exact L|]. split; [exists {| mr_result := GOOD; mr_resid := Some (sc_bufflen c - 8); mr_subs := [s] |}, v|exists {| mr_result := GOOD; mr_resid := Some (sc_bufflen c' - 8); mr_subs := [s'] |}, v']; auto.
Qed.

(** READ CAPACITY(10) for the same unit of two devices that agree on this unit alone
    (or of one device, before and after anything happened to its other units), in
    whatever worlds, buffers and states of the adapter: the same eight bytes *)
Theorem C122_capacity_partial : forall drv wrs kz wild c w data bs drv' wrs' kz' wild' c' w' data' bs' lun,
  sizes drv kz c w data bs -> sizes drv' kz' c' w' data' bs' -> sc_lun c = lun -> sc_lun c' = lun -> lun < 0xffffffff ->
  data 0 (lun + 1) = data' 0 (lun + 1) ->
  exists d, length d = 8%nat /\ told drv wrs kz wild c w d /\ told drv' wrs' kz' wild' c' w' d.
Proof.
  intros drv wrs kz wild c w data bs drv' wrs' kz' wild' c' w' data' bs' lun I J E E' Hl Q.
  eapply capacity_same; try eassumption. rewrite E, E', (nsid_small lun Hl). exact Q.
Qed.
Print Assumptions C122_capacity_partial.

(** INQUIRY, with any allocation length: the same answer of every unit of two devices
    that agree on this unit and on the controller.  Missing: page 80h, which
    carries stack bytes for some units (C115_serial_number_exact) *)
Theorem C122_inquiry_partial : forall drv wrs kz wild c w data bs drv' wrs' kz' wild' c' w' data' lun,
  inquires drv kz c w data bs -> inquires drv' kz' c' w' data' bs -> sc_lun c = lun -> sc_lun c' = lun -> lun < 0xffffffff ->
  data 0 (lun + 1) = data' 0 (lun + 1) -> data 1 0 = data' 1 0 -> ~ (inq_evpd bs = 1 /\ inq_page bs = 0x80) ->
  exists d, length d = N.to_nat (be (slice 3 2 bs)) /\ told drv wrs kz wild c w d /\ told drv' wrs' kz' wild' c' w' d.
Proof.
  intros drv wrs kz wild c w data bs drv' wrs' kz' wild' c' w' data' lun I J El El' Hl Qn Qc H80.
  destruct (C119_every_length_exact drv wrs kz wild c w data bs I) as (d & p & p2 & s & s2 & v & D & E & _ & _ & S & _).
  destruct (C119_every_length_exact drv' wrs' kz' wild' c' w' data' bs J) as (d' & p' & p2' & s' & s2' & v' & D' & E' & _ & _ & S' & _).
  cbv zeta in D, D'. rewrite El', (nsid_small lun Hl) in D'. rewrite El, (nsid_small lun Hl) in D. rewrite <- Qn, <- Qc in D'.
  set (ns := data 0 (lun + 1)) in *. set (ct := data 1 0) in *. set (al := be (slice 3 2 bs)) in *.
  assert (F : forall a b, inquiry_answer lun bs ns ct a -> inquiry_answer lun bs ns ct b -> a = b).
  { intros a b. unfold inquiry_answer. destruct (N.eqb_spec (inq_evpd bs) 0); [congruence|].
    assert (Hp : inq_page bs <> 0x80).
    { intros Z. apply H80. split; [|exact Z]. unfold inq_evpd in *. pose proof (bits_lt (byte_at bs 1) 0 1). change (2 ^ 1) with 2 in *. lia. }
    revert Hp. generalize (inq_page bs). intros pg Hp.
    repeat match goal with |- context[match ?x with _ => _ end] => is_var x; destruct x end;
      try congruence; try contradiction; try (exfalso; apply Hp; reflexivity);
      intros (x & X & ->) (y & Y & ->); congruence. }
  assert (d = d') as <-.
  { destruct D as [(a & A & ->)|[N1 ->]], D' as [(b & B & ->)|[N2 ->]]; [rewrite (F a b A B); reflexivity|elim (N2 a A)|elim (N1 b B)|reflexivity]. }
  assert (L : (length d <= N.to_nat al)%nat). { destruct D as [(a & _ & ->)|[_ ->]]; [pose proof (shown_length al bs a); lia|cbn; lia]. }
  eexists. split; [|split; [eexists; eexists; split; [exact E|split; [reflexivity|exact S]]|eexists; eexists; split; [exact E'|split; [reflexivity|exact S']]]].
  rewrite app_length, repeat_length. lia.
Qed.
Print Assumptions C122_inquiry_partial.

(** Units whose LUNs differ by a multiple of 2^32 are not told apart, whatever the
    device holds: asking the second is answered with the capacity of the first *)
Theorem C122_alias_refuted : forall drv wrs kz wild c w bs wrs' kz' wild' c' w' bs' data k,
  sizes drv kz c w data bs -> sizes drv kz' c' w' data bs' -> sc_lun c' = sc_lun c + 2 ^ 32 * k ->
  exists d, length d = 8%nat /\ told drv wrs kz wild c w d /\ told drv wrs' kz' wild' c' w' d.
Proof.
  intros drv wrs kz wild c w bs wrs' kz' wild' c' w' bs' data k I J Q. eapply capacity_same; try eassumption.
  f_equal. rewrite Q. unfold nsid_of. replace (sc_lun c + 2 ^ 32 * k + 1) with (sc_lun c + 1 + k * 2 ^ 32) by lia.
  symmetry. apply N.mod_add. discriminate.
Qed.
Print Assumptions C122_alias_refuted.

(** Conversely capacities that differ are told apart: two units with usable block
    sizes whose block sizes, or whose numbers of blocks up to FFFFFFFFh, differ
    never answer with the same bytes *)
Theorem C122_told_apart : forall drv wrs kz wild c w data bs drv' wrs' kz' wild' c' w' data' bs' d d',
  sizes drv kz c w data bs -> sizes drv' kz' c' w' data' bs' ->
  let ns := data 0 (nsid_of (sc_lun c)) in let ns' := data' 0 (nsid_of (sc_lun c')) in
  9 <= ns_lbads ns <= 31 -> 9 <= ns_lbads ns' <= 31 ->
  ns_lbads ns <> ns_lbads ns' \/ N.min (ns_nsze ns) 0xffffffff <> N.min (ns_nsze ns') 0xffffffff ->
  length d = 8%nat -> length d' = 8%nat -> told drv wrs kz wild c w d -> told drv' wrs' kz' wild' c' w' d' -> d <> d'.
Proof.
  intros drv wrs kz wild c w data bs drv' wrs' kz' wild' c' w' data' bs' d d' I J ns ns' H H' Q L L' (r & v & E & _ & S) (r' & v' & E' & _ & S').
  destruct (C121_every_namespace_exact drv wrs kz wild c w data bs I) as (e & p & s & u & F & _ & M & T & A & B & _).
  destruct (C121_every_namespace_exact drv' wrs' kz' wild' c' w' data' bs' J) as (e' & p' & s' & u' & F' & _ & M' & T' & A' & B' & _).
  rewrite E in F. apply ret_eq in F as [_ <-]. rewrite E' in F'. apply ret_eq in F' as [_ <-].
  assert (d = e) as -> by (eapply holds_unique; [exact S|exact T|lia]).
  assert (d' = e') as -> by (eapply holds_unique; [exact S'|exact T'|lia]).
  fold ns in A, B. fold ns' in A', B'.
  replace ((9 <=? ns_lbads ns) && (ns_lbads ns <=? 31)) with true in A, B by lia.
  replace ((9 <=? ns_lbads ns') && (ns_lbads ns' <=? 31)) with true in A', B' by lia.
  intros ->. destruct Q as [Q|Q]; apply Q; [|congruence]. apply (N.pow_inj_r 2); [lia|congruence].
Qed.
Print Assumptions C122_told_apart.

(** The premises are met by two devices whose units differ in both *)
Example C122_premises_met :
  sizes (ex_device (ex_capns [0;0;1;0;0;0;0;0] 12)) 0x90000 (ex_scsi ex_cap true 64) (ex_world12 ex_cap) (ex_data12 (ex_capns [0;0;1;0;0;0;0;0] 12)) ex_cap /\
  sizes (ex_device (ex_capns [0;0;2;0;0;0;0;0] 9)) 0x90000 (ex_scsi ex_cap true 64) (ex_world12 ex_cap) (ex_data12 (ex_capns [0;0;2;0;0;0;0;0] 9)) ex_cap /\
  ns_lbads (ex_capns [0;0;1;0;0;0;0;0] 12) = 12 /\ ns_lbads (ex_capns [0;0;2;0;0;0;0;0] 9) = 9 /\
  inquires (ex_device ex_ns1) 0x90000 (ex_scsi (ex_short 1 0x83 64) true 256) (ex_world12 (ex_short 1 0x83 64)) (ex_data12 ex_ns1) (ex_short 1 0x83 64).
Proof.
  assert (K : forall a b, N.of_nat (length (ex_capns a b)) = 4096 -> sizes (ex_device (ex_capns a b)) 0x90000 (ex_scsi ex_cap true 64) (ex_world12 ex_cap) (ex_data12 (ex_capns a b)) ex_cap).
  { intros a b Hab. constructor.
    - apply (ex_cdb_holds (fun _ _ => x00) xff ex_cap []); reflexivity.
    - reflexivity.
    - reflexivity.
    - cbn. lia.
    - reflexivity.
    - reflexivity.
    - reflexivity.
    - vm_compute. split; [discriminate|reflexivity].
    - apply (ex_sgl_valid ex_cap true 64); discriminate.
    - discriminate.
    - discriminate.
    - apply (ex_unused ex_cap). discriminate.
    - apply ex_good_pages; [cbn; lia|reflexivity].
    - apply ex_identifies. exact Hab. }
  split; [apply K; reflexivity|]. split; [apply K; reflexivity|]. split; [reflexivity|]. split; [reflexivity|]. apply ex_inquires. reflexivity.
Qed.
