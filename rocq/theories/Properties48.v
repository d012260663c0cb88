(** C116: units are told apart, and recognised, by their identification pages. *)
From Coq Require Import Arith NArith ZArith String List Lia Bool Init.Byte Permutation.
From Coq Require Import ZifyBool ZifyNat ZifyN.
From Coq Require Strings.Byte.
From Verif Require Import Bytes Layout World ScsiDefs NvmeDefs Common TranslationCls EngineE2e MockModule
  Spec RwSpec InquirySpec HistorySpec EngineSpec MockSpec SenseSpec
  Facts Logic WireFacts RwFacts AdminFacts InquiryFacts SerialFacts EngineFacts MockFacts Witness
  Properties1 Properties3 Properties9 Properties11 Properties12 Properties41 Properties46 Properties47.
Import ListNotations.
Local Open Scope string_scope.
Local Open Scope list_scope.
Local Open Scope N_scope.

(** ** Specification *)
(** the initiator asks, with command [c] in memory [w], for vital product data page
    [page], and gives at least 44 bytes of room for it; the device behind [drv]
    answers Identify with [data] *)
Record asks (page : N) (drv : driver) (kz : N) (c : scsi_cmnd) (w : world) (data : N -> N -> list byte) (bs : list byte) : Prop := {
  as_cdb : bytes_at w (sc_cmnd c) bs;
  as_len : N.of_nat (length bs) = sc_cmd_len c;
  as_cmdlen : sc_cmd_len c < 65536;
  as_six : (6 <= length bs)%nat;
  as_inquiry : byte_at bs 0 = 0x12;
  as_evpd : inq_evpd bs = 1;
  as_page : inq_page bs = page;
  as_room : 44 <= be (slice 3 2 bs) <= sc_bufflen c;
  as_reads : sc_from_device c = true;
  as_buffer : sc_bufflen c < 65536;
  as_sg : sg_valid w (sc_sgl c);
  as_total : sc_bufflen c <= sg_total (sc_sgl c);
  as_kz : kz <> 0;
  as_unused : unused w kz (sc_bufflen c);
  as_pages : good_pages (with_buffer w kz (sc_bufflen c));
  as_device : identifies drv data
}.

(** queueing [c] in memory [w] is answered GOOD, with [d] in the initiator's buffer,
    as far as the CDB asked for data *)
Definition answers (drv : driver) (wrs : ModeSenseCmd.arr3 NvmeCmdWrapper) (kz wild : N) (c : scsi_cmnd) (w : world) (bs d : list byte) : Prop :=
  exists r w', scsi_queuecommand drv wrs kz wild c w = Ret r w' /\ mr_result r = GOOD /\
    length d = N.to_nat (be (slice 3 2 bs)) /\ sg_holds w' (sc_sgl c) d.

(** the namespace and controller data behind the addressed unit *)
Definition unit_ns (c : scsi_cmnd) (data : N -> N -> list byte) : list byte := data 0 (nsid_of (sc_lun c)).
Definition unit_ct (data : N -> N -> list byte) : list byte := data 1 0.
Definition unit_identity (c : scsi_cmnd) (data : N -> N -> list byte) : identity :=
  identity_of (sc_lun c) (unit_ns c data) (unit_ct data).

(** ** Proofs *)
Lemma holds_unique w sgl d d' : sg_holds w sgl d -> sg_holds w sgl d' -> length d = length d' -> d = d'.
Proof.
  intros [L1 H1] [L2 H2] E. apply nth_error_eq. intros i.
  destruct (Nat.lt_ge_cases i (length d)) as [Hi|Hi]; [|rewrite !(proj2 (nth_error_None _ _)) by lia; reflexivity].
  destruct (nth_error (sg_addrs sgl) i) as [a|] eqn:A; [|apply nth_error_None in A; lia].
  destruct (nth_error d i) as [b|] eqn:B1; [|apply nth_error_None in B1; lia].
  destruct (nth_error d' i) as [b'|] eqn:B2; [|apply nth_error_None in B2; lia].
  specialize (H1 _ _ _ A B1). specialize (H2 _ _ _ A B2). congruence.
Qed.
Lemma answers_unique drv wrs kz wild c w bs d d' : answers drv wrs kz wild c w bs d -> answers drv wrs kz wild c w bs d' -> d = d'.
Proof.
  intros (r & w' & E & _ & L & H) (r2 & w2 & E2 & _ & L2 & H2). rewrite E in E2. apply ret_eq in E2 as [-> ->].
  eapply holds_unique; [exact H|exact H2|lia].
Qed.

Lemma serial_exists lun ns ct : N.of_nat (length ns) = 4096 -> N.of_nat (length ct) = 4096 -> exists img, serial_page lun ns ct img.
Proof.
  intros Ln Lc. unfold serial_page. destruct (nonzero (ns_nguid ns)); [|destruct (nonzero (ns_eui64 ns))].
  - destruct (significant_ex (nguid_lo ns)) as [d0 S0]; [apply le8_lt, slice_length; unfold ns_nguid; rewrite slice_length; lia|].
    destruct (significant_ex (nguid_hi ns)) as [d1 S1]; [apply le8_lt, slice_length; unfold ns_nguid; rewrite slice_length; lia|].
    eexists. exists d0, d1, (repeat x00 (32 - d0)), (repeat x00 (16 - d1)). rewrite !repeat_length. auto 10.
  - destruct (significant_ex (le (ns_eui64 ns))) as [d S]; [apply le8_lt, slice_length; lia|].
    eexists. exists d, (repeat x00 (32 - d)). rewrite repeat_length. auto.
  - eauto.
Qed.

Lemma page_answer page drv wrs kz wild c w data bs img0 : asks page drv kz c w data bs ->
  inquiry_answer (sc_lun c) bs (unit_ns c data) (unit_ct data) img0 -> (length img0 <= 44)%nat ->
  exists img, inquiry_answer (sc_lun c) bs (unit_ns c data) (unit_ct data) img /\ length img = length img0 /\
    answers drv wrs kz wild c w bs (img ++ repeat x00 (N.to_nat (be (slice 3 2 bs)) - length img)).
Proof.
  intros A Hi Hl. destruct A.
  destruct (C63_inquiry_end_to_end drv wrs kz wild c w bs data img0) as (img & p & p' & s & s' & w' & I & L & E & _ & _ & S & _); try assumption; try lia.
  exists img. split; [exact I|]. split; [exact L|]. eexists _, w'. split; [exact E|]. split; [reflexivity|]. split; [|exact S].
  rewrite app_length, repeat_length. lia.
Qed.

Lemma first_44 (img : list byte) n : (length img <= 44)%nat -> (44 <= n)%nat -> firstn 44 (img ++ repeat x00 (n - length img)) = img ++ repeat x00 (44 - length img).
Proof.
  intros H Hn. rewrite firstn_app, firstn_all2 by lia. f_equal.
  replace (n - length img)%nat with ((44 - length img) + (n - 44))%nat by lia.
  rewrite repeat_app, firstn_app, firstn_all2, repeat_length by (rewrite repeat_length; lia).
  rewrite Nat.sub_diag. cbn [firstn]. apply app_nil_r.
Qed.

Lemma serial_answer drv wrs kz wild c w data bs : asks 0x80 drv kz c w data bs ->
  exists img d, serial_page (sc_lun c) (unit_ns c data) (unit_ct data) img /\ answers drv wrs kz wild c w bs d /\ firstn 44 d = img.
Proof.
  intros A. destruct (serial_exists (sc_lun c) (unit_ns c data) (unit_ct data)) as [i0 H0]; [apply (proj1 (as_device _ _ _ _ _ _ _ A))..|].
  assert (Eq : forall i, inquiry_answer (sc_lun c) bs (unit_ns c data) (unit_ct data) i = serial_page (sc_lun c) (unit_ns c data) (unit_ct data) i).
  { intros i. unfold inquiry_answer. rewrite (as_evpd _ _ _ _ _ _ _ A), (as_page _ _ _ _ _ _ _ A). reflexivity. }
  pose proof (proj1 (as_device _ _ _ _ _ _ _ A) 1 0) as Lc. fold (unit_ct data) in Lc.
  pose proof (as_room _ _ _ _ _ _ _ A) as R.
  destruct (page_answer _ drv wrs kz wild c w data bs i0 A) as (img & I & L & An); [rewrite Eq; exact H0|rewrite (serial_page_length _ _ _ _ Lc H0); lia|].
  rewrite Eq in I. pose proof (serial_page_length _ _ _ _ Lc I) as L44. exists img. eexists. split; [exact I|]. split; [exact An|].
  rewrite first_44 by lia. rewrite L44. cbn [Nat.sub repeat]. apply app_nil_r.
Qed.

(** two units with different identities, asked for their serial number page, on any
    two adapters, with any memory layouts and whatever the uninitialised memory holds,
    are told apart by the first 44 bytes of their answers *)
Theorem C116_serial_numbers_differ : forall drv wrs kz wild c w data bs drv' wrs' kz' wild' c' w' data' bs',
  asks 0x80 drv kz c w data bs -> asks 0x80 drv' kz' c' w' data' bs' ->
  unit_identity c data <> unit_identity c' data' ->
  exists d d', answers drv wrs kz wild c w bs d /\ answers drv' wrs' kz' wild' c' w' bs' d' /\ firstn 44 d <> firstn 44 d'.
Proof.
  intros drv wrs kz wild c w data bs drv' wrs' kz' wild' c' w' data' bs' A A' Ne.
  destruct (serial_answer drv wrs kz wild c w data bs A) as (i & d & I & An & F).
  destruct (serial_answer drv' wrs' kz' wild' c' w' data' bs' A') as (i' & d' & I' & An' & F').
  exists d, d'. split; [exact An|]. split; [exact An'|]. rewrite F, F'.
  apply (C29_distinct _ _ _ _ _ _ _ _ (proj1 (as_device _ _ _ _ _ _ _ A) _ _) (proj1 (as_device _ _ _ _ _ _ _ A) _ _)
           (proj1 (as_device _ _ _ _ _ _ _ A') _ _) (proj1 (as_device _ _ _ _ _ _ _ A') _ _) I I' Ne).
Qed.
Print Assumptions C116_serial_numbers_differ.

(** no half of the identifier has zero as its most significant byte *)
Definition settled (c : scsi_cmnd) (data : N -> N -> list byte) : Prop :=
  match unit_identity c data with
  | ByNguid _ => 2 ^ 56 <= nguid_lo (unit_ns c data) /\ 2 ^ 56 <= nguid_hi (unit_ns c data)
  | ByEui _ => 2 ^ 56 <= le (ns_eui64 (unit_ns c data))
  | BySerial _ _ => True
  end.

(** the digits are as many as the number needs *)
Lemma significant_many d x : significant d x -> 2 ^ 56 <= x -> (15 <= d <= 16)%nat.
Proof.
  intros H L. destruct (significant_le _ _ H) as [Hd Hx]. split; [|lia].
  destruct (Nat.le_gt_cases 15 d) as [|Hlt]; [assumption|]. exfalso.
  assert (B : 16 ^ N.of_nat d <= 16 ^ 14) by (apply N.pow_le_mono_r; [discriminate|lia]). change (16 ^ 14) with (2 ^ 56) in B. lia.
Qed.
Lemma significant_few d x : significant d x -> x < 2 ^ 56 -> (d <= 14)%nat.
Proof.
  intros [[-> _]|[Hd [L _]]] H; [lia|]. destruct (Nat.le_gt_cases d 14) as [|Hlt]; [assumption|]. exfalso.
  assert (B : 16 ^ 14 <= 16 ^ N.of_nat (d - 1)) by (apply N.pow_le_mono_r; [discriminate|lia]). change (16 ^ 14) with (2 ^ 56) in B. lia.
Qed.
Lemma significant_unique d d' x : significant d x -> significant d' x -> d = d'.
Proof.
  assert (K : forall d d', significant d x -> significant d' x -> (d < d')%nat -> False).
  { clear. intros d d' H H' L. destruct (significant_le _ _ H) as [Hd Hx]. destruct H' as [[-> _]|[Hd' [L' _]]]; [lia|].
    assert (B : 16 ^ N.of_nat d <= 16 ^ N.of_nat (d' - 1)) by (apply N.pow_le_mono_r; [discriminate|lia]). lia. }
  intros H H'. destruct (Nat.lt_trichotomy d d') as [C|[C|C]]; [exfalso; eauto|exact C|exfalso; eauto].
Qed.
Lemma half_settled d x j j' : (15 <= d <= 16)%nat -> half d x j = half d x j'.
Proof.
  intros H. assert (C : d = 16%nat \/ d = 15%nat) by lia. destruct C as [-> | ->]; [rewrite !half_16; reflexivity|].
  unfold half. rewrite !firstn_app, hexdigits_length. reflexivity.
Qed.

(** one page for one identity *)
Lemma serial_settled lun ns ct lun' ns' ct' img img' : identity_of lun ns ct = identity_of lun' ns' ct' ->
  (nonzero (ns_nguid ns) = true -> 2 ^ 56 <= nguid_lo ns /\ 2 ^ 56 <= nguid_hi ns) ->
  (nonzero (ns_nguid ns) = false -> nonzero (ns_eui64 ns) = true -> 2 ^ 56 <= le (ns_eui64 ns)) ->
  serial_page lun ns ct img -> serial_page lun' ns' ct' img' -> img = img'.
Proof.
  unfold identity_of, serial_page. intros E H1 H2.
  destruct (nonzero (ns_nguid ns)) eqn:Z; [|destruct (nonzero (ns_eui64 ns)) eqn:Z2];
    (destruct (nonzero (ns_nguid ns')) eqn:Z'; [|destruct (nonzero (ns_eui64 ns')) eqn:Z2']); try discriminate E.
  - injection E as E. assert (E0 : nguid_lo ns' = nguid_lo ns) by (unfold nguid_lo; rewrite E; reflexivity).
    assert (E1 : nguid_hi ns' = nguid_hi ns) by (unfold nguid_hi; rewrite E; reflexivity). rewrite E0, E1.
    intros (d0 & d1 & j0 & j1 & S0 & S1 & _ & _ & ->) (d0' & d1' & j0' & j1' & S0' & S1' & _ & _ & ->).
    destruct (H1 eq_refl) as [L0 L1].
    rewrite (significant_unique _ _ _ S0' S0), (significant_unique _ _ _ S1' S1).
    rewrite (half_settled d0 _ j0 j0'), (half_settled d1 _ j1 j1') by (eapply significant_many; eassumption). reflexivity.
  - injection E as E. rewrite <- E. intros (d & j & S & _ & ->) (d' & j' & S' & _ & ->).
    rewrite (significant_unique _ _ _ S' S), (half_settled d _ j j') by (eapply significant_many; [eassumption|auto]). reflexivity.
  - injection E as -> ->. intros -> ->. reflexivity.
Qed.

(** then the same unit always gives the same serial number page, so the page
    recognises it: equal exactly when the identities are.  Missing for the full claim:
    identifiers whose most significant byte is zero, whose page carries uninitialised
    memory (C115_serial_number_exact: one unit then gives differing answers) *)
Theorem C116_serial_numbers_recognise_partial : forall drv wrs kz wild c w data bs drv' wrs' kz' wild' c' w' data' bs',
  asks 0x80 drv kz c w data bs -> asks 0x80 drv' kz' c' w' data' bs' -> settled c data ->
  exists d d', answers drv wrs kz wild c w bs d /\ answers drv' wrs' kz' wild' c' w' bs' d' /\
    (firstn 44 d = firstn 44 d' <-> unit_identity c data = unit_identity c' data').
Proof.
  intros drv wrs kz wild c w data bs drv' wrs' kz' wild' c' w' data' bs' A A' F.
  destruct (serial_answer drv wrs kz wild c w data bs A) as (i & d & I & An & Fi).
  destruct (serial_answer drv' wrs' kz' wild' c' w' data' bs' A') as (i' & d' & I' & An' & Fi').
  exists d, d'. split; [exact An|]. split; [exact An'|]. rewrite Fi, Fi'.
  pose proof (proj1 (as_device _ _ _ _ _ _ _ A)) as L. pose proof (proj1 (as_device _ _ _ _ _ _ _ A')) as L'.
  split.
  - intros E. destruct (serial_exists (sc_lun c) (unit_ns c data) (unit_ct data)) as [_ _]; [apply L..|].
    assert (D : unit_identity c data = unit_identity c' data' \/ unit_identity c data <> unit_identity c' data').
    { destruct (unit_identity c data) as [l|l|l n], (unit_identity c' data') as [l2|l2|l2 n2]; try (right; discriminate).
      - destruct (list_eq_dec Strings.Byte.byte_eq_dec l l2); [left; f_equal; assumption|right; injection; assumption].
      - destruct (list_eq_dec Strings.Byte.byte_eq_dec l l2); [left; f_equal; assumption|right; injection; assumption].
      - destruct (list_eq_dec Strings.Byte.byte_eq_dec l l2) as [->|]; [destruct (N.eq_dec n n2) as [->|]|]; [left; reflexivity|right; injection; assumption|right; injection; tauto]. }
    destruct D as [D|D]; [exact D|]. exfalso. exact (C29_distinct _ _ _ _ _ _ _ _ (L _ _) (L _ _) (L' _ _) (L' _ _) I I' D E).
  - intros E. unfold settled, unit_identity, identity_of in F.
    eapply serial_settled; [exact E| | |exact I|exact I'].
    + intros Z. rewrite Z in F. exact F.
    + intros Z Z2. rewrite Z, Z2 in F. exact F.
Qed.
Print Assumptions C116_serial_numbers_recognise_partial.

Lemma id_length ns id : N.of_nat (length ns) = 4096 -> designator ns = Some id -> (length id <= 16)%nat.
Proof.
  intros Ln D. unfold designator in D. destruct (nonzero (ns_nguid ns)); [|destruct (nonzero (ns_eui64 ns)); [|discriminate]];
    injection D as <-; unfold ns_nguid, ns_eui64; rewrite slice_length; lia.
Qed.

Lemma id_answer drv wrs kz wild c w data bs : asks 0x83 drv kz c w data bs ->
  exists d, answers drv wrs kz wild c w bs d /\
    firstn 44 d = match designator (unit_ns c data) with
                  | Some id => device_id_page id ++ repeat x00 (44 - length (device_id_page id))
                  | None => repeat x00 44 end.
Proof.
  intros A. pose proof (as_room _ _ _ _ _ _ _ A) as R.
  destruct (designator (unit_ns c data)) as [id|] eqn:D.
  - assert (Li : (length (device_id_page id) <= 44)%nat).
    { assert (H : (length id <= 16)%nat) by (apply (id_length (unit_ns c data)); [apply (proj1 (as_device _ _ _ _ _ _ _ A))|exact D]).
      unfold device_id_page, designation_descriptor, bytes. rewrite !app_length, !map_length. cbn [length]. lia. }
    destruct (page_answer _ drv wrs kz wild c w data bs (device_id_page id) A) as (img & I & L & An); [|exact Li|].
    + unfold inquiry_answer. rewrite (as_evpd _ _ _ _ _ _ _ A), (as_page _ _ _ _ _ _ _ A). exists id. auto.
    + unfold inquiry_answer in I. rewrite (as_evpd _ _ _ _ _ _ _ A), (as_page _ _ _ _ _ _ _ A) in I. cbv iota in I.
      destruct I as (id' & D' & ->). rewrite D in D'. injection D' as <-. eexists. split; [exact An|]. apply first_44; lia.
  - destruct A. destruct (adapter_inquiry drv wrs kz wild c w bs data (fun img => img = []))
      as (img & p & p' & s & s' & w' & -> & E & _ & _ & S & _); try assumption; try lia.
    + eapply round_trip_mono; [|apply (proj1 (C30_device_identification_refuted (sc_lun c) bs (unit_ns c data) (unit_ct data) {| ptr := kz; len := be (slice 3 2 bs) |}
         (conj as_six0 as_inquiry0) as_evpd0 as_page0 (proj1 as_device0 _ _) (proj1 as_device0 _ _))); exact D].
      intros w2 w3 W. exists []. split; [reflexivity|]. split; [cbn; lia|]. apply wrote_none. exact W.
    + cbn [app length] in S. rewrite Nat.sub_0_r in S. eexists. split.
      * eexists _, w'. split; [exact E|]. split; [reflexivity|]. split; [apply repeat_length|exact S].
      * replace (N.to_nat (be (slice 3 2 bs))) with (44 + (N.to_nat (be (slice 3 2 bs)) - 44))%nat by lia.
        rewrite repeat_app, firstn_app, firstn_all2, repeat_length by (rewrite repeat_length; lia).
        rewrite Nat.sub_diag. cbn [firstn]. apply app_nil_r.
Qed.

(** the device identification pages of two units agree exactly if the units have the
    same designator: their NGUID, else their EUI-64, and none at all if both are zero *)
Theorem C116_device_identification_recognises : forall drv wrs kz wild c w data bs drv' wrs' kz' wild' c' w' data' bs',
  asks 0x83 drv kz c w data bs -> asks 0x83 drv' kz' c' w' data' bs' ->
  exists d d', answers drv wrs kz wild c w bs d /\ answers drv' wrs' kz' wild' c' w' bs' d' /\
    (firstn 44 d = firstn 44 d' <-> designator (unit_ns c data) = designator (unit_ns c' data')).
Proof.
  intros drv wrs kz wild c w data bs drv' wrs' kz' wild' c' w' data' bs' A A'.
  destruct (id_answer drv wrs kz wild c w data bs A) as (d & An & E).
  destruct (id_answer drv' wrs' kz' wild' c' w' data' bs' A') as (d' & An' & E').
  exists d, d'. split; [exact An|]. split; [exact An'|]. rewrite E, E'. clear E E' An An'.
  split; [|intros ->; reflexivity].
  pose proof (proj1 (as_device _ _ _ _ _ _ _ A)) as L. pose proof (proj1 (as_device _ _ _ _ _ _ _ A')) as L'.
  assert (H2 : forall c0 data0 id, (forall cns nsid, N.of_nat (length (data0 cns nsid)) = 4096) -> designator (unit_ns c0 data0) = Some id -> length id = 16%nat \/ length id = 8%nat).
  { intros c0 data0 id L0 D. pose proof (L0 0 (nsid_of (sc_lun c0))) as Ln. fold (unit_ns c0 data0) in Ln. unfold designator in D.
    destruct (nonzero (ns_nguid (unit_ns c0 data0))); [|destruct (nonzero (ns_eui64 (unit_ns c0 data0))); [|discriminate]];
      injection D as <-; [left|right]; apply slice_length; lia. }
  destruct (designator (unit_ns c data)) as [id|] eqn:D, (designator (unit_ns c' data')) as [id'|] eqn:D'.
  - pose proof (H2 _ _ _ L D) as Li. pose proof (H2 _ _ _ L' D') as Li'. unfold device_id_page, designation_descriptor.
    intros E. f_equal. cbn [bytes map app] in E. injection E as E0 _ E.
    assert (Len : length id = length id') by (destruct Li as [K|K], Li' as [K'|K']; rewrite K, K' in *; try reflexivity; discriminate E0).
    apply (f_equal (firstn (length id))) in E. rewrite !firstn_app, Nat.sub_diag in E. rewrite Len in E at 3 4. rewrite Nat.sub_diag in E. rewrite <- Len in E.
    cbn [firstn] in E. rewrite !app_nil_r in E. rewrite firstn_all in E. rewrite E. rewrite Len, firstn_all. reflexivity.
  - intros E. apply (f_equal (fun l => nth 1 l x00)) in E. discriminate E.
  - intros E. apply (f_equal (fun l => nth 1 l x00)) in E. discriminate E.
  - reflexivity.
Qed.
Print Assumptions C116_device_identification_recognises.

(** SPC-4 7.8.6 wants at least one designation descriptor; two units without NGUID and
    EUI-64 cannot be told apart: both answer zeros *)
Theorem C116_nameless_units_refuted : forall drv wrs kz wild c w data bs drv' wrs' kz' wild' c' w' data' bs',
  asks 0x83 drv kz c w data bs -> asks 0x83 drv' kz' c' w' data' bs' ->
  designator (unit_ns c data) = None -> designator (unit_ns c' data') = None ->
  exists d d', answers drv wrs kz wild c w bs d /\ answers drv' wrs' kz' wild' c' w' bs' d' /\
    firstn 44 d = repeat x00 44 /\ firstn 44 d' = repeat x00 44.
Proof.
  intros drv wrs kz wild c w data bs drv' wrs' kz' wild' c' w' data' bs' A A' D D'.
  destruct (id_answer drv wrs kz wild c w data bs A) as (d & An & E).
  destruct (id_answer drv' wrs' kz' wild' c' w' data' bs' A') as (d' & An' & E').
  rewrite D in E. rewrite D' in E'. exists d, d'. auto.
Qed.
Print Assumptions C116_nameless_units_refuted.

(** The premises are met: two namespaces with different NGUIDs, asked for both pages *)
Definition ex_id16b : list N := [0x11;0x22;0x33;0x44;0x55;0x66;0x77;0x88;0x99;0xaa;0xbb;0xcc;0xdd;0xee;0xff;0x11].
Definition ex_ns2 : list byte := ex_ns ex_head ex_id16b ex_id8.
Lemma ex_asks page ns : page < 256 -> N.of_nat (length ns) = 4096 ->
  asks page (ex_device ns) 0x90000 (ex_scsi (ex_inq 1 page) true 256) (ex_world12 (ex_inq 1 page)) (ex_data12 ns) (ex_inq 1 page).
Proof.
  intros Hp Hn. assert (L : length (ex_inq 1 page) = 6%nat) by reflexivity. constructor.
  - apply (ex_cdb_holds (fun _ _ => x00) xff (ex_inq 1 page) []); rewrite L; reflexivity.
  - reflexivity.
  - reflexivity.
  - rewrite L. lia.
  - reflexivity.
  - reflexivity.
  - unfold inq_page, ex_inq. unfold byte_at. cbn [nth B map]. apply b2n_n2b_small. exact Hp.
  - cbn [sc_bufflen ex_scsi]. unfold ex_inq. vm_compute. split; discriminate.
  - reflexivity.
  - reflexivity.
  - apply (ex_sgl_valid (ex_inq 1 page) true 256); [rewrite L|]; discriminate.
  - discriminate.
  - discriminate.
  - apply (ex_unused (ex_inq 1 page)). rewrite L. discriminate.
  - apply ex_good_pages; [rewrite L; lia|reflexivity].
  - apply ex_identifies. exact Hn.
Qed.
Example C116_premises_met :
  asks 0x80 (ex_device ex_ns1) 0x90000 (ex_scsi (ex_inq 1 0x80) true 256) (ex_world12 (ex_inq 1 0x80)) (ex_data12 ex_ns1) (ex_inq 1 0x80) /\
  asks 0x80 (ex_device ex_ns2) 0x90000 (ex_scsi (ex_inq 1 0x80) true 256) (ex_world12 (ex_inq 1 0x80)) (ex_data12 ex_ns2) (ex_inq 1 0x80) /\
  asks 0x83 (ex_device ex_ns1) 0x90000 (ex_scsi (ex_inq 1 0x83) true 256) (ex_world12 (ex_inq 1 0x83)) (ex_data12 ex_ns1) (ex_inq 1 0x83) /\
  unit_identity (ex_scsi (ex_inq 1 0x80) true 256) (ex_data12 ex_ns1) = ByNguid (B ex_id16) /\
  unit_identity (ex_scsi (ex_inq 1 0x80) true 256) (ex_data12 ex_ns2) = ByNguid (B ex_id16b) /\
  settled (ex_scsi (ex_inq 1 0x80) true 256) (ex_data12 ex_ns1) /\
  designator (unit_ns (ex_scsi (ex_inq 1 0x83) true 256) (ex_data12 ex_ns1)) = Some (B ex_id16) /\
  mock_run (ex_device ex_ns1) 0x90000 (ex_scsi (ex_inq 1 0x83) true 256) (ex_world12 (ex_inq 1 0x83)) =
    Some (0, Some 0, [(true, 0x100000, 4096); (true, 0x102000, 4096)], map Some (B ([0;0x83;19;1;2;0;16] ++ ex_id16) ++ repeat x00 233)).
Proof.
  split; [apply ex_asks; reflexivity|]. split; [apply ex_asks; reflexivity|]. split; [apply ex_asks; reflexivity|].
  split; [vm_compute; reflexivity|]. split; [vm_compute; reflexivity|]. split; [vm_compute; split; discriminate|]. split; vm_compute; reflexivity.
Qed.
