(** C115, exact: which units' serial number page carries uninitialised memory. *)
From Coq Require Import Arith NArith ZArith String List Lia Bool Init.Byte Permutation.
From Coq Require Import ZifyBool ZifyNat ZifyN.
From Verif Require Import Bytes Layout World ScsiDefs NvmeDefs Common SmallCmds ModeSenseCmd InquiryCmd TranslationCls EngineE2e MockModule KernelDriver
  Spec RwSpec InquirySpec HistorySpec EngineSpec MockSpec
  Facts Logic WireFacts RwFacts AdminFacts InquiryFacts SerialFacts RelFacts EngineFacts MockFacts Witness
  Properties1 Properties3 Properties9 Properties11 Properties12 Properties41 Properties46 Properties47 Properties48.
Import ListNotations.
Local Open Scope string_scope.
Local Open Scope list_scope.
Local Open Scope N_scope.

(** the page when every byte of uninitialised memory holds [b] *)
Definition serial_filled (b : byte) (ns img : list byte) : Prop :=
  if nonzero (ns_nguid ns) then
    exists d0 d1, significant d0 (nguid_lo ns) /\ significant d1 (nguid_hi ns) /\
      img = bytes [0; 0x80; 0; 40] ++ grouped 8 (half d0 (nguid_lo ns) (repeat b (32 - d0)) ++ half d1 (nguid_hi ns) (repeat b (16 - d1)))
  else if nonzero (ns_eui64 ns) then
    exists d, significant d (le (ns_eui64 ns)) /\
      img = bytes [0; 0x80; 0; 20] ++ grouped 4 (half d (le (ns_eui64 ns)) (repeat b (32 - d))) ++ repeat x00 20
  else True.

Lemma skipn_fill {A} (b : A) n m : skipn n (repeat b m) = repeat b (m - n).
Proof.
  revert m. induction n as [|n IH]; intros [|m]; cbn [skipn repeat Nat.sub]; try reflexivity. apply IH.
Qed.

Lemma hex_two_fill b d0 d1 x0 x1 : significant d0 x0 -> significant d1 x1 ->
  firstn 32 (sprintf_at (sprintf_at (repeat b 33) 0 (fmt_08lx x0)) 16 (fmt_08lx x1)) = half d0 x0 (repeat b (32 - d0)) ++ half d1 x1 (repeat b (16 - d1)).
Proof.
  intros H0 H1. rewrite (fmt_eq _ _ H0), (fmt_eq _ _ H1).
  destruct (significant_le _ _ H0) as [B0 _]. destruct (significant_le _ _ H1) as [B1 _].
  set (a := sprintf_at (repeat b 33) 0 (hexdigits d0 x0)).
  assert (La : length a = 33%nat) by (unfold a; rewrite sprintf_length; rewrite ?hexdigits_length, ?repeat_length; lia).
  assert (Ea : a = hexdigits d0 x0 ++ x00 :: repeat b (32 - d0)).
  { unfold a, sprintf_at. cbv zeta. cbn [firstn app]. rewrite app_length, hexdigits_length. cbn [length Nat.add].
    rewrite skipn_fill, <- app_assoc. cbn [app]. do 3 f_equal. lia. }
  unfold sprintf_at at 1. cbv zeta.
  rewrite firstn_app, firstn_firstn, firstn_length, La. replace (Nat.min 32 16) with 16%nat by lia.
  replace (32 - Nat.min 16 33)%nat with 16%nat by lia. rewrite app_length, hexdigits_length. cbn [length].
  f_equal.
  - rewrite Ea. reflexivity.
  - unfold half. rewrite <- app_assoc. cbn [app]. do 3 f_equal.
    rewrite Ea. rewrite skipn_app, hexdigits_length. rewrite skipn_all2 by (rewrite hexdigits_length; lia). cbn [app].
    replace (16 + (d1 + 1) - d0)%nat with (S (16 + d1 - d0)) by lia. cbn [skipn]. rewrite skipn_fill. f_equal. lia.
Qed.

Lemma hex_one_fill b d x : significant d x -> firstn 16 (sprintf_at (repeat b 33) 0 (fmt_08lx x)) = half d x (repeat b (32 - d)).
Proof.
  intros H. rewrite (fmt_eq _ _ H). destruct (significant_le _ _ H) as [B _].
  unfold sprintf_at, half. cbv zeta. cbn [firstn app]. rewrite app_length, hexdigits_length. cbn [length Nat.add].
  rewrite skipn_fill, <- app_assoc. cbn [app]. replace (33 - (d + 1))%nat with (32 - d)%nat by lia. reflexivity.
Qed.

Lemma filled_text w ns ct nsid b : (forall t i, junk w t i = b) -> N.of_nat (length ns) = 4096 ->
  serial_filled b ns (bytes [0; 0x80; 0; fst (serial_text w nsid ns ct)] ++ snd (serial_text w nsid ns ct)).
Proof.
  intros Hb Ln. unfold serial_filled, serial_text.
  replace (map (fun i => junk w (tick w) (N.of_nat i)) (seq 0 33)) with (repeat b 33) by (cbn [seq map repeat]; rewrite !Hb; reflexivity).
  destruct (nonzero (ns_nguid ns)) eqn:Z1; [|destruct (nonzero (ns_eui64 ns)) eqn:Z2]; cbn [orb fst snd]; [| |exact I].
  - assert (E0 : nguid_lo ns = le (slice 104 8 ns)) by (unfold nguid_lo, ns_nguid; rewrite slice_slice by lia; reflexivity).
    assert (E1 : nguid_hi ns = le (slice 112 8 ns)) by (unfold nguid_hi, ns_nguid; rewrite slice_slice by lia; reflexivity).
    rewrite <- E0, <- E1.
    destruct (significant_ex (nguid_lo ns)) as [d0 S0]; [rewrite E0; apply le8_lt, slice_length; lia|].
    destruct (significant_ex (nguid_hi ns)) as [d1 S1]; [rewrite E1; apply le8_lt, slice_length; lia|].
    destruct (significant_le _ _ S0) as [B0 _]. destruct (significant_le _ _ S1) as [B1 _].
    exists d0, d1. split; [exact S0|]. split; [exact S1|]. rewrite format_40, (hex_two_fill b d0 d1 _ _ S0 S1); [reflexivity|].
    assert (M : length (sprintf_at (repeat b 33) 0 (fmt_08lx (nguid_lo ns))) = 33%nat).
    { rewrite sprintf_length; rewrite ?repeat_length; [reflexivity|]. rewrite (fmt_eq _ _ S0), hexdigits_length. lia. }
    rewrite sprintf_length; [exact M|]. rewrite M, (fmt_eq _ _ S1), hexdigits_length. lia.
  - destruct (significant_ex (le (ns_eui64 ns))) as [d S0]; [apply le8_lt, slice_length; lia|].
    destruct (significant_le _ _ S0) as [B0 _].
    exists d. split; [exact S0|]. rewrite format_20, (hex_one_fill b d _ S0); [reflexivity|].
    rewrite sprintf_length; rewrite ?repeat_length; [reflexivity|]. rewrite (fmt_eq _ _ S0), hexdigits_length. lia.
Qed.

(** the page over the whole round trip *)
Lemma page80_filled lun bs ns ct buffer : inquiry_cdb bs -> inq_evpd bs = 1 -> inq_page bs = 0x80 ->
  N.of_nat (length ns) = 4096 -> N.of_nat (length ct) = 4096 -> 44 <= len buffer ->
  inquiry_round_trip lun bs ns ct buffer
    (fun w2 w3 => exists img, (serial_page lun ns ct img /\ forall b, (forall t i, junk w2 t i = b) -> serial_filled b ns img) /\
       wrote w2 w3 (ptr buffer) img).
Proof.
  intros Hq He Hp Ln Lc Hl. apply round_trip; auto.
  - intros w w1 w2 (img & P & W) E. exists img. split; [exact P|]. eapply wrote_stable; eauto.
  - intros w p q Hn Hc Hm. page_case He Hp.
    destruct (serial_text_ok w (nsid_of lun) ns ct Ln Lc lun eq_refl) as (P & L & F).
    destruct (serial_written w p q (nsid_of lun) ns ct buffer Hn Hc Ln Lc Hm Hl L) as (w' & E & W).
    do 2 eexists. split; [exact E|]. eexists. split; [|exact W]. split; [exact P|]. intros b Hb. apply filled_text; assumption.
Qed.

Lemma serial_answer_filled drv wrs kz wild c w data bs : asks 0x80 drv kz c w data bs ->
  exists img d, serial_page (sc_lun c) (unit_ns c data) (unit_ct data) img /\
    (forall b, (forall t i, junk w t i = b) -> serial_filled b (unit_ns c data) img) /\
    answers drv wrs kz wild c w bs d /\ firstn 44 d = img /\ d = img ++ repeat x00 (N.to_nat (be (slice 3 2 bs)) - 44).
Proof.
  intros A. pose proof (as_room _ _ _ _ _ _ _ A) as R.
  pose proof (proj1 (as_device _ _ _ _ _ _ _ A) 0 (nsid_of (sc_lun c))) as Ln. pose proof (proj1 (as_device _ _ _ _ _ _ _ A) 1 0) as Lc.
  assert (Hq : inquiry_cdb bs) by (split; [exact (as_six _ _ _ _ _ _ _ A)|exact (as_inquiry _ _ _ _ _ _ _ A)]).
  destruct A.
  fold (unit_ns c data) in Ln. fold (unit_ct data) in Lc.
  destruct (adapter_inquiry_junk drv wrs kz wild c w bs data
    (fun j img => serial_page (sc_lun c) (unit_ns c data) (unit_ct data) img /\ forall b, (forall t i, j t i = b) -> serial_filled b (unit_ns c data) img))
    as (img & p & p' & s & s' & w' & (I & J) & E & _ & _ & S & _); try assumption; try lia.
  - eapply round_trip_mono; [|apply (page80_filled (sc_lun c) bs (unit_ns c data) (unit_ct data) {| ptr := kz; len := be (slice 3 2 bs) |} Hq); try assumption; cbn [len]; lia].
    intros w2 w3 (img & [P1 P2] & W). exists img. split; [split; [exact P1|exact P2]|]. split; [|exact W].
    rewrite (serial_page_length _ _ _ _ Lc P1). lia.
  - pose proof (serial_page_length _ _ _ _ Lc I) as L44. rewrite L44 in S. exists img. eexists. split; [exact I|]. split; [exact J|].
    split; [|split; [|reflexivity]].
    + exists {| mr_result := GOOD; mr_resid := Some (sc_bufflen c - be (slice 3 2 bs)); mr_subs := [s; s'] |}, w'.
      split; [exact E|]. split; [reflexivity|]. split; [|exact S]. rewrite app_length, repeat_length, L44. lia.
    + rewrite firstn_app, L44, Nat.sub_diag, firstn_O, app_nil_r. apply firstn_all2. lia.
Qed.

Lemma half_fill_last b d x n : (8 <= d <= 14)%nat -> (16 <= n + d)%nat -> nth 15 (half d x (repeat b n)) x00 = b.
Proof.
  intros Hd Hn. unfold half. rewrite nth_firstn' by lia. rewrite app_nth2; rewrite hexdigits_length; [|lia].
  replace (15 - d)%nat with (S (14 - d)) by lia. cbn [nth]. rewrite nth_indep with (d' := b) by (rewrite repeat_length; lia). apply nth_repeat.
Qed.

Lemma app_both {A} (a b a' b' : list A) : length a = length a' -> a ++ b = a' ++ b' -> a = a' /\ b = b'.
Proof.
  revert a'. induction a as [|x a IH]; intros [|x' a'] L E; try discriminate L; [auto|]. cbn [app] in E. injection L as L.
  injection E as -> E. destruct (IH _ L E) as [-> ->]. auto.
Qed.

(** with other junk, another page *)
Lemma fills_differ ns i1 i2 b1 b2 : b1 <> b2 -> serial_filled b1 ns i1 -> serial_filled b2 ns i2 -> i1 = i2 ->
  (nonzero (ns_nguid ns) = true -> 2 ^ 56 <= nguid_lo ns /\ 2 ^ 56 <= nguid_hi ns) /\
  (nonzero (ns_nguid ns) = false -> nonzero (ns_eui64 ns) = true -> 2 ^ 56 <= le (ns_eui64 ns)).
Proof.
  intros Hb. unfold serial_filled.
  assert (K : forall d x n n', significant d x -> (16 <= n + d)%nat -> (16 <= n' + d)%nat -> half d x (repeat b1 n) = half d x (repeat b2 n') -> 2 ^ 56 <= x).
  { intros d x n n' S Hn Hn' E. destruct (N.le_gt_cases (2 ^ 56) x) as [|Hlt]; [assumption|]. exfalso.
    pose proof (significant_few _ _ S Hlt) as Hd. destruct (significant_le _ _ S) as [Hd8 _]. apply Hb.
    apply (f_equal (fun l => nth 15 l x00)) in E. rewrite !half_fill_last in E by lia. exact E. }
  destruct (nonzero (ns_nguid ns)) eqn:Z; [|destruct (nonzero (ns_eui64 ns)) eqn:Z2].
  - intros (d0 & d1 & S0 & S1 & ->) (d0' & d1' & S0' & S1' & ->) E. split; [intros _|discriminate].
    rewrite (significant_unique _ _ _ S0' S0), (significant_unique _ _ _ S1' S1) in E.
    destruct (significant_le _ _ S0) as [B0 _]. destruct (significant_le _ _ S1) as [B1 _].
    apply app_inv_head in E. apply grouped_inj in E; [|rewrite app_length, !half_length; rewrite ?repeat_length; lia..].
    apply app_both in E as [E0 E1]; [|rewrite !half_length; rewrite ?repeat_length; lia].
    split; [eapply (K d0); [exact S0| | |exact E0]; lia|eapply (K d1); [exact S1| | |exact E1]; lia].
  - intros (d & S & ->) (d' & S' & ->) E. split; [discriminate|]. intros _ _. rewrite (significant_unique _ _ _ S' S) in E.
    destruct (significant_le _ _ S) as [B0 _]. apply app_inv_head, app_inv_tail in E.
    apply grouped_inj in E; [|rewrite half_length; rewrite ?repeat_length; lia..]. eapply (K d); [exact S| | |exact E]; lia.
  - intros _ _ _. split; discriminate.
Qed.

Lemma asks_junk page drv kz c w data bs j : asks page drv kz c w data bs -> asks page drv kz c (with_junk w j) data bs.
Proof. intros A. destruct A. constructor; assumption. Qed.

(** Whatever the uninitialised memory holds, the unit's serial number page is the
    same, exactly if its identifier is settled: NGUID with neither half's most
    significant byte zero, without one EUI-64 whose most significant byte is not
    zero, without either always *)
Theorem C115_serial_number_exact : forall drv wrs kz wild c w data bs, asks 0x80 drv kz c w data bs ->
  ((forall j j' d d', answers drv wrs kz wild c (with_junk w j) bs d -> answers drv wrs kz wild c (with_junk w j') bs d' -> d = d')
   <-> settled c data).
Proof.
  intros drv wrs kz wild c w data bs A. unfold settled, unit_identity, identity_of. split.
  - intros H.
    destruct (serial_answer_filled drv wrs kz wild c _ data bs (asks_junk _ _ _ _ _ _ _ (fun _ _ => xaa) A)) as (i1 & d1 & _ & F1 & An1 & E1 & _).
    destruct (serial_answer_filled drv wrs kz wild c _ data bs (asks_junk _ _ _ _ _ _ _ (fun _ _ => xbb) A)) as (i2 & d2 & _ & F2 & An2 & E2 & _).
    pose proof (H _ _ _ _ An1 An2) as E. subst d2.
    destruct (fills_differ (unit_ns c data) i1 i2 xaa xbb) as [P1 P2].
    + discriminate.
    + apply F1. reflexivity.
    + apply F2. reflexivity.
    + rewrite <- E1, <- E2. reflexivity.
    + destruct (nonzero (ns_nguid (unit_ns c data))); [apply P1; reflexivity|]. destruct (nonzero (ns_eui64 (unit_ns c data))); [apply P2; reflexivity|exact I].
  - intros S j j' d d' H H'.
    destruct (serial_answer_filled drv wrs kz wild c _ data bs (asks_junk _ _ _ _ _ _ _ j A)) as (i1 & d1 & I1 & _ & An1 & _ & E1).
    destruct (serial_answer_filled drv wrs kz wild c _ data bs (asks_junk _ _ _ _ _ _ _ j' A)) as (i2 & d2 & I2 & _ & An2 & _ & E2).
    rewrite (answers_unique _ _ _ _ _ _ _ _ _ H An1), (answers_unique _ _ _ _ _ _ _ _ _ H' An2), E1, E2.
    f_equal. eapply serial_settled; [reflexivity| | |exact I1|exact I2].
    + intros Z. rewrite Z in S. exact S.
    + intros Z Z2. rewrite Z, Z2 in S. exact S.
Qed.
Print Assumptions C115_serial_number_exact.

(** A unit of each kind: [ex_ns1]'s NGUID is settled, one beginning in a zero byte is not *)
Definition ex_id16z : list N := [0x11;0x22;0x33;0x44;0x55;0x66;0x77;0x88;0x99;0xaa;0xbb;0xcc;0xdd;0xee;0xff;0].
Definition ex_ns53 : list byte := ex_ns ex_head ex_id16z ex_id8.
Example C115_exact_premises_met :
  asks 0x80 (ex_device ex_ns1) 0x90000 (ex_scsi (ex_inq 1 0x80) true 256) (ex_world12 (ex_inq 1 0x80)) (ex_data12 ex_ns1) (ex_inq 1 0x80) /\
  settled (ex_scsi (ex_inq 1 0x80) true 256) (ex_data12 ex_ns1) /\
  asks 0x80 (ex_device ex_ns53) 0x90000 (ex_scsi (ex_inq 1 0x80) true 256) (ex_world12 (ex_inq 1 0x80)) (ex_data12 ex_ns53) (ex_inq 1 0x80) /\
  ~ settled (ex_scsi (ex_inq 1 0x80) true 256) (ex_data12 ex_ns53).
Proof.
  split; [apply ex_asks; reflexivity|]. split; [vm_compute; split; discriminate|]. split; [apply ex_asks; reflexivity|].
  vm_compute. intros [_ H]. apply H. reflexivity.
Qed.
