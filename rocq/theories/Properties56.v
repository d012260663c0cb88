(** C115: the serial number page of a settled unit, at any length, is free of
    uninitialised memory too. *)
From Coq Require Import Arith NArith ZArith String List Lia Bool Init.Byte Permutation.
From Coq Require Import ZifyBool ZifyNat ZifyN.
From Verif Require Import Bytes Layout World ScsiDefs NvmeDefs Common SmallCmds ModeSenseCmd InquiryCmd TranslationCls EngineE2e MockModule KernelDriver
  Spec RwSpec InquirySpec HistorySpec EngineSpec MockSpec
  Facts Logic WireFacts RwFacts AdminFacts InquiryFacts SerialFacts RelFacts EngineFacts MockFacts Witness
  Properties1 Properties3 Properties9 Properties11 Properties12 Properties41 Properties46 Properties47 Properties48 Properties53 Properties54.
Import ListNotations.
Local Open Scope string_scope.
Local Open Scope list_scope.
Local Open Scope N_scope.

Lemma inquires_junk drv kz c w data bs j : inquires drv kz c w data bs -> inquires drv kz c (with_junk w j) data bs.
Proof. intros A. destruct A. constructor; assumption. Qed.

Lemma serial_header lun ns ct img : serial_page lun ns ct img -> firstn 4 img = bytes [0; 0x80; 0; vpd_length 0x80 ns].
Proof.
  unfold serial_page, vpd_length. destruct (nonzero (ns_nguid ns)); [|destruct (nonzero (ns_eui64 ns))].
  - intros (d0 & d1 & j0 & j1 & _ & _ & _ & _ & ->). reflexivity.
  - intros (d & j & _ & _ & ->). reflexivity.
  - intros ->. reflexivity.
Qed.

(** For a settled unit, or with less room than the page needs, the command ends with
    the same status and residual, and leaves the same bytes everywhere in the memory
    the initiator had in use, whatever the uninitialised memory held *)
Theorem C115_settled_serial_number : forall drv wrs kz wild c w data bs j, inquires drv kz c w data bs ->
  inq_evpd bs = 1 -> inq_page bs = 0x80 -> settled c data \/ be (slice 3 2 bs) < 44 ->
  exists r w1 r2 w2, scsi_queuecommand drv wrs kz wild c w = Ret r w1 /\ scsi_queuecommand drv wrs kz wild c (with_junk w j) = Ret r2 w2 /\
    mr_result r2 = mr_result r /\ mr_resid r2 = mr_resid r /\ forall x, mem w x <> None -> mem w2 x = mem w1 x.
Proof.
  intros drv wrs kz wild c w data bs j I He Hp Hs.
  pose proof (inquires_junk _ _ _ _ _ _ j I) as J.
  destruct (C119_every_length_exact drv wrs kz wild c w data bs I) as (d & p & p' & s & s' & w1 & D & E & _ & _ & S & F).
  destruct (C119_every_length_exact drv wrs kz wild c (with_junk w j) data bs J) as (d2 & p2 & p2' & s2 & s2' & w2 & D2 & E2 & _ & _ & S2 & F2).
  pose proof (proj1 (iq_device _ _ _ _ _ _ I) 0 (nsid_of (sc_lun c))) as Ln. pose proof (proj1 (iq_device _ _ _ _ _ _ I) 1 0) as Lc.
  set (al := be (slice 3 2 bs)) in *. set (ns := data 0 (nsid_of (sc_lun c))) in *. set (ct := data 1 0) in *.
  assert (A : forall img, inquiry_answer (sc_lun c) bs ns ct img <-> serial_page (sc_lun c) ns ct img).
  { intros img. unfold inquiry_answer. rewrite He, Hp. cbn [N.eqb Pos.eqb]. reflexivity. }
  destruct (serial_exists (sc_lun c) ns ct Ln Lc) as [i0 P0].
  destruct D as [(i1 & D & ->)|[D _]]; [|exfalso; exact (D i0 (proj2 (A i0) P0))].
  destruct D2 as [(i2 & D2 & ->)|[D2 _]]; [|exfalso; exact (D2 i0 (proj2 (A i0) P0))].
  apply A in D, D2.
  assert (Q : shown al bs i1 = shown al bs i2).
  { unfold shown. rewrite (serial_page_length _ _ _ _ Lc D), (serial_page_length _ _ _ _ Lc D2). change (N.of_nat 44) with 44.
    destruct (N.leb_spec 44 al) as [L|L]; [|rewrite (serial_header _ _ _ _ D), (serial_header _ _ _ _ D2); reflexivity].
    destruct Hs as [Hs|Hs]; [|lia]. unfold settled, unit_identity, identity_of, unit_ns, unit_ct in Hs. fold ns ct in Hs.
    eapply serial_settled; [reflexivity| | |exact D|exact D2].
    - intros Z. rewrite Z in Hs. exact Hs.
    - intros Z Z2. rewrite Z, Z2 in Hs. exact Hs. }
  rewrite <- Q in S2. set (d := shown al bs i1 ++ repeat x00 (N.to_nat al - length (shown al bs i1))) in *.
  assert (Ld : length d = N.to_nat al) by (pose proof (shown_length al bs i1); unfold d; rewrite app_length, repeat_length; lia).
  do 4 eexists. split; [exact E|]. split; [exact E2|]. split; [reflexivity|]. split; [reflexivity|].
  intros x Hx. destruct (in_dec N.eq_dec x (firstn (N.to_nat al) (sg_addrs (sc_sgl c)))) as [Hi|Hi].
  - apply In_nth_error in Hi as [k Hk]. assert (Hk2 : (k < length (firstn (N.to_nat al) (sg_addrs (sc_sgl c))))%nat) by (apply nth_error_Some; rewrite Hk; discriminate).
    rewrite firstn_length in Hk2. assert (Ha : nth_error (sg_addrs (sc_sgl c)) k = Some x).
    { rewrite <- Hk. rewrite <- (firstn_skipn (N.to_nat al) (sg_addrs (sc_sgl c))) at 1. apply nth_error_app1. rewrite firstn_length. lia. }
    destruct (nth_error d k) as [b|] eqn:B; [|apply nth_error_None in B; lia].
    destruct S as [_ S], S2 as [_ S2]. rewrite (S2 _ _ _ Ha B), (S _ _ _ Ha B). reflexivity.
  - rewrite F2, F by assumption. reflexivity.
Qed.
Print Assumptions C115_settled_serial_number.
Example C115_settled_met :
  inquires (ex_device ex_ns1) 0x90000 (ex_scsi (ex_short 1 0x80 64) true 256) (ex_world12 (ex_short 1 0x80 64)) (ex_data12 ex_ns1) (ex_short 1 0x80 64) /\
  inq_evpd (ex_short 1 0x80 64) = 1 /\ inq_page (ex_short 1 0x80 64) = 0x80 /\ settled (ex_scsi (ex_short 1 0x80 64) true 256) (ex_data12 ex_ns1) /\
  44 <= be (slice 3 2 (ex_short 1 0x80 64)).
Proof. split; [apply ex_inquires; reflexivity|]. split; [reflexivity|]. split; [reflexivity|]. split; vm_compute; [split|]; discriminate. Qed.
