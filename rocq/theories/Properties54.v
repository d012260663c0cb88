(** C119: INQUIRY for every allocation length, end to end. *)
From Coq Require Import Arith NArith ZArith String List Lia Bool Init.Byte Permutation.
From Coq Require Import ZifyBool ZifyNat ZifyN.
From Verif Require Import Bytes Layout World ScsiDefs NvmeDefs Common SmallCmds ModeSenseCmd InquiryCmd TranslationCls EngineE2e MockModule KernelDriver
  Spec RwSpec InquirySpec HistorySpec EngineSpec MockSpec
  Facts Logic WireFacts RwFacts AdminFacts InquiryFacts SerialFacts RelFacts EngineFacts MockFacts Witness
  Properties1 Properties3 Properties9 Properties11 Properties12 Properties41 Properties46 Properties47 Properties48.
Import ListNotations.
Local Open Scope string_scope.
Local Open Scope list_scope.
Local Open Scope N_scope.

(** ** Specification *)
(** the two pages written in two parts: a header of four bytes, then the rest *)
Definition two_parts (bs : list byte) : bool :=
  (inq_evpd bs =? 1) && ((inq_page bs =? 0x00) || (inq_page bs =? 0x80)).

(** what of the answer [img] is returned for an allocation length [al] *)
Definition shown (al : N) (bs img : list byte) : list byte :=
  if N.of_nat (length img) <=? al then img
  else if two_parts bs && (4 <=? al) then firstn 4 img else [].

(** a request for INQUIRY data, with any allocation length the data buffer has room for *)
Record inquires (drv : driver) (kz : N) (c : scsi_cmnd) (w : world) (data : N -> N -> list byte) (bs : list byte) : Prop := {
  iq_cdb : bytes_at w (sc_cmnd c) bs;
  iq_len : N.of_nat (length bs) = sc_cmd_len c;
  iq_cmdlen : sc_cmd_len c < 65536;
  iq_six : (6 <= length bs)%nat;
  iq_inquiry : byte_at bs 0 = 0x12;
  iq_room : be (slice 3 2 bs) <= sc_bufflen c;
  iq_reads : sc_from_device c = true;
  iq_buffer : 0 < sc_bufflen c < 65536;
  iq_sg : sg_valid w (sc_sgl c);
  iq_total : sc_bufflen c <= sg_total (sc_sgl c);
  iq_kz : kz <> 0;
  iq_unused : unused w kz (sc_bufflen c);
  iq_pages : good_pages (with_buffer w kz (sc_bufflen c));
  iq_device : identifies drv data
}.

(** ** Proofs *)
Lemma two_writes_header a b s n w : n = N.of_nat (length a) -> span_mapped w s -> N.of_nat (length a) <= len s < N.of_nat (length a + length b) ->
  exists w', (x <- WriteValue a s ;; if negb x then ret kFailure else
              y <- WriteValue b (subspan s n) ;; ret (if y then kSuccess else kFailure)) w = Ret kFailure w' /\ wrote w w' (ptr s) a.
Proof.
  intros Hn Hm [L2 L]. destruct (WriteValue_wrote a s w Hm L2) as (w1 & E & W & _). unfold bind at 1. rewrite E. cbn [negb].
  rewrite one_write_short; [eauto|]. subst n. unfold subspan. destruct (N.leb_spec (len s) (N.of_nat (length a))); cbn; lia.
Qed.
Lemma two_writes_none a b s n w : len s < N.of_nat (length a) ->
  (x <- WriteValue a s ;; if negb x then ret kFailure else
     y <- WriteValue b (subspan s n) ;; ret (if y then kSuccess else kFailure)) w = Ret kFailure w.
Proof. intros L. unfold bind at 1. rewrite WriteValue_short by exact L. reflexivity. Qed.

Lemma same_wrote lun bs ns ct buffer : inquiry_round_trip lun bs ns ct buffer (fun w2 w3 => same_memory w2 w3) ->
  inquiry_round_trip lun bs ns ct buffer (fun w2 w3 => wrote w2 w3 (ptr buffer) []).
Proof. apply round_trip_mono. intros w w' H. apply wrote_none, H. Qed.

Lemma standard_length ns ct : N.of_nat (length ct) = 4096 -> length (standard_inquiry ns ct) = 36%nat.
Proof. intros L. unfold standard_inquiry. rewrite !app_length, last4_length. unfold ct_mn. rewrite slice_slice, slice_length by lia. reflexivity. Qed.

Section Trips.
Variables (lun : N) (bs ns ct : list byte) (buffer : span).
Hypothesis Hq : inquiry_cdb bs.
Hypothesis Ln : N.of_nat (length ns) = 4096.
Hypothesis Lc : N.of_nat (length ct) = 4096.

Lemma trip_standard : inq_evpd bs = 0 ->
  inquiry_round_trip lun bs ns ct buffer (fun w2 w3 => wrote w2 w3 (ptr buffer) (shown (len buffer) bs (standard_inquiry ns ct))).
Proof.
  intros He. unfold shown, two_parts. rewrite He, standard_length by exact Lc. change (N.of_nat 36) with 36. cbn [N.eqb andb].
  destruct (C25_standard_inquiry lun bs ns ct buffer Hq He Ln Lc) as [A B].
  destruct (N.leb_spec 36 (len buffer)); [apply A; assumption|apply same_wrote, B; assumption].
Qed.

Lemma trip00 : inq_evpd bs = 1 -> inq_page bs = 0x00 ->
  inquiry_round_trip lun bs ns ct buffer (fun w2 w3 => wrote w2 w3 (ptr buffer) (shown (len buffer) bs supported_pages)).
Proof.
  intros He Hp. unfold shown, two_parts. rewrite He, Hp. cbn [N.eqb Pos.eqb andb orb]. change (N.of_nat (length supported_pages)) with 11.
  destruct (N.leb_spec 11 (len buffer)) as [L|L]; [apply page00; assumption|].
  apply round_trip; auto; [stable_wrote|]. intros w p q Hn Hc Hm. page_case He Hp.
  destruct (N.leb_spec 4 (len buffer)) as [L4|L4]; unfold TranslateSupportedVpdPages; cbv zeta.
  - destruct (two_writes_header (firstn 4 supported_pages) (skipn 4 supported_pages) buffer 4 w eq_refl Hm) as (w' & E & W).
    + change (N.of_nat (length (firstn 4 supported_pages))) with 4. change (N.of_nat (length (firstn 4 supported_pages) + length (skipn 4 supported_pages))) with 11. lia.
    + do 2 eexists. split; [exact E|exact W].
  - do 2 eexists. split; [apply (two_writes_none (firstn 4 supported_pages) (skipn 4 supported_pages) buffer 4 w L4)|].
    apply wrote_none. intros x. reflexivity.
Qed.

Lemma trip80 : inq_evpd bs = 1 -> inq_page bs = 0x80 ->
  inquiry_round_trip lun bs ns ct buffer (fun w2 w3 => exists img, serial_page lun ns ct img /\ wrote w2 w3 (ptr buffer) (shown (len buffer) bs img)).
Proof.
  intros He Hp. destruct (N.le_gt_cases 44 (len buffer)) as [L|L].
  { eapply round_trip_mono; [|apply page80; assumption]. intros w w' (img & P & W). exists img. split; [exact P|].
    unfold shown. rewrite (serial_page_length _ _ _ _ Lc P). change (N.of_nat 44) with 44. replace (44 <=? len buffer) with true by lia. exact W. }
  apply round_trip; auto.
  - intros w w1 w2 (img & P & W) E. exists img. split; [exact P|]. eapply wrote_stable; eauto.
  - intros w p q Hn Hc Hm. page_case He Hp.
    destruct (serial_text_ok w (nsid_of lun) ns ct Ln Lc lun eq_refl) as (P & L40 & F).
    rewrite (serial_shape w p q (nsid_of lun) ns ct buffer Hn Hc Ln Lc).
    set (hd := bytes [0; 0x80; 0; fst (serial_text w (nsid_of lun) ns ct)]) in *. set (tl := snd (serial_text w (nsid_of lun) ns ct)) in *.
    assert (Sh : shown (len buffer) bs (hd ++ tl) = if 4 <=? len buffer then hd else []).
    { unfold shown, two_parts. rewrite He, Hp. cbn [N.eqb Pos.eqb andb orb]. rewrite app_length, L40. change (N.of_nat (length hd + 40)) with 44.
      replace (44 <=? len buffer) with false by lia. destruct (4 <=? len buffer); reflexivity. }
    set (w0 := set_tick w (S (tick w))).
    destruct (N.leb_spec 4 (len buffer)) as [L4|L4].
    + destruct (two_writes_header hd tl buffer 4 w0 eq_refl Hm) as (w' & E & W); [rewrite L40; change (N.of_nat (length hd)) with 4; change (N.of_nat (length hd + 40)) with 44; lia|].
      do 2 eexists. split; [exact E|]. exists (hd ++ tl). split; [exact P|]. rewrite Sh. exact W.
    + do 2 eexists. split; [apply (two_writes_none hd tl buffer 4 w0 L4)|]. exists (hd ++ tl). split; [exact P|]. rewrite Sh.
      apply wrote_none. intros x. reflexivity.
Qed.

Lemma single img : two_parts bs = false ->
  (N.of_nat (length img) <= len buffer -> inquiry_round_trip lun bs ns ct buffer (fun w2 w3 => wrote w2 w3 (ptr buffer) img)) ->
  (len buffer < N.of_nat (length img) -> inquiry_round_trip lun bs ns ct buffer (fun w2 w3 => same_memory w2 w3)) ->
  inquiry_round_trip lun bs ns ct buffer (fun w2 w3 => wrote w2 w3 (ptr buffer) (shown (len buffer) bs img)).
Proof.
  intros T A B. unfold shown. rewrite T. cbn [andb]. destruct (N.leb_spec (N.of_nat (length img)) (len buffer)) as [L|L]; [exact (A L)|apply same_wrote, B, L].
Qed.

Lemma pageb1_short : inq_evpd bs = 1 -> inq_page bs = 0xb1 -> len buffer < 9 ->
  inquiry_round_trip lun bs ns ct buffer (fun w2 w3 => same_memory w2 w3).
Proof.
  intros He Hp Hl. apply round_trip; auto; [stable_same|]. intros w p q Hn Hc Hm. page_case He Hp. rewrite (bdc_shape w buffer).
  rewrite one_write_short by exact Hl. do 2 eexists. split; [reflexivity|]. intros x. reflexivity.
Qed.

(** every INQUIRY, every length *)
Lemma trip_any : inquiry_round_trip lun bs ns ct buffer (fun w2 w3 =>
   (exists img, inquiry_answer lun bs ns ct img /\ wrote w2 w3 (ptr buffer) (shown (len buffer) bs img)) \/
   ((forall img, ~ inquiry_answer lun bs ns ct img) /\ wrote w2 w3 (ptr buffer) [])).
Proof.
  pose proof (bits_lt (byte_at bs 1) 0 1) as Hev. fold (inq_evpd bs) in Hev. change (2 ^ 1) with 2 in Hev. unfold inquiry_answer.
  destruct (N.eqb_spec (inq_evpd bs) 0) as [He|He].
  { eapply round_trip_mono; [|apply trip_standard; exact He]. intros w w' W. left. eexists. split; [reflexivity|exact W]. }
  assert (He1 : inq_evpd bs = 1) by lia. clear He Hev.
  destruct (N.eq_dec (inq_page bs) 0x00) as [Hp|N0].
  { rewrite Hp in *. eapply round_trip_mono; [|apply trip00; auto]. intros w w' W. left. eauto. }
  destruct (N.eq_dec (inq_page bs) 0x80) as [Hp|N1].
  { rewrite Hp in *. eapply round_trip_mono; [|apply trip80; auto]. intros w w' W. left. exact W. }
  assert (T : two_parts bs = false).
  { unfold two_parts. rewrite He1. destruct (N.eqb_spec (inq_page bs) 0x00); [contradiction|]. destruct (N.eqb_spec (inq_page bs) 0x80); [contradiction|]. reflexivity. }
  destruct (N.eq_dec (inq_page bs) 0x83) as [Hp|N2].
  { rewrite Hp in *. destruct (designator ns) as [id|] eqn:D.
    - assert (L : N.of_nat (length (device_id_page id)) = 7 + N.of_nat (length id)).
      { unfold device_id_page, designation_descriptor, bytes. rewrite !app_length, !map_length. cbn [length]. lia. }
      eapply round_trip_mono; [|apply (single (device_id_page id) T)].
      + intros w w' W. left. exists (device_id_page id). split; [eauto|exact W].
      + intros K. eapply page83; eauto. lia.
      + intros K. eapply page83_short; eauto. lia.
    - eapply round_trip_mono; [|apply same_wrote, page83_none; auto]. intros w w' W. right. split; [|exact W].
      intros img (id & Z & _). discriminate Z. }
  destruct (N.eq_dec (inq_page bs) 0x86) as [Hp|N3].
  { rewrite Hp in *. destruct (code_spt ns) as [spt|] eqn:D.
    - eapply round_trip_mono; [|apply (single (extended_page spt ns ct) T)].
      + intros w w' W. left. exists (extended_page spt ns ct). split; [eauto|exact W].
      + intros K. eapply page86; eauto.
      + intros K. apply page86_none; auto.
    - eapply round_trip_mono; [|apply same_wrote, page86_none; auto]. intros w w' W. right. split; [|exact W].
      intros img (spt & Z & _). discriminate Z. }
  destruct (N.eq_dec (inq_page bs) 0xb0) as [Hp|N4].
  { rewrite Hp in *. eapply round_trip_mono; [|apply (single (block_limits_page ct) T); rewrite block_limits_length; intros K; [apply pageb0|apply pageb0_short]; auto]. eauto. }
  destruct (N.eq_dec (inq_page bs) 0xb1) as [Hp|N5].
  { rewrite Hp in *. eapply round_trip_mono; [|apply (single characteristics_page T); intros K; [apply pageb1; auto|apply pageb1_short; auto]]. eauto. }
  destruct (N.eq_dec (inq_page bs) 0xb2) as [Hp|N6].
  { rewrite Hp in *. eapply round_trip_mono; [|apply (single (provisioning_page ns ct) T); rewrite provisioning_length; intros K; [apply pageb2|apply pageb2_short]; auto]. eauto. }
  eapply round_trip_mono; [|apply same_wrote, C26_unlisted_writes_nothing; auto; cbn [In]; intuition congruence].
  intros w w' W. right. split; [|exact W]. intros img Hi. revert Hi N0 N1 N2 N3 N4 N5 N6. clear. generalize (inq_page bs). intros n Hi N0 N1 N2 N3 N4 N5 N6.
  destruct n as [|n]; [congruence|].
  do 8 (try (destruct n as [n|n|]; try exact Hi; try congruence)).
Qed.
End Trips.

Lemma shown_length al bs img : N.of_nat (length (shown al bs img)) <= al.
Proof.
  unfold shown. destruct (N.leb_spec (N.of_nat (length img)) al); [assumption|].
  destruct (two_parts bs); cbn [andb]; [|cbn; lia]. destruct (N.leb_spec 4 al); [|cbn; lia]. rewrite firstn_length. lia.
Qed.

(** Whatever the allocation length: GOOD, two Identify commands, an exact residual;
    the data is the whole answer if it fits, of pages 00h and 80h otherwise the
    header if that fits, else nothing, and zeros up to the allocation length; no
    answer (unlisted page, or no identifier or protection type for pages 83h and
    86h) is all zeros. *)
Theorem C119_every_length_exact : forall drv wrs kz wild c w data bs, inquires drv kz c w data bs ->
  let al := be (slice 3 2 bs) in let ns := data 0 (nsid_of (sc_lun c)) in let ct := data 1 0 in
  exists d p p' s s' w',
    ((exists img, inquiry_answer (sc_lun c) bs ns ct img /\ d = shown al bs img) \/
     (forall img, ~ inquiry_answer (sc_lun c) bs ns ct img) /\ d = []) /\
    scsi_queuecommand drv wrs kz wild c w = Ret {| mr_result := GOOD; mr_resid := Some (sc_bufflen c - al); mr_subs := [s; s'] |} w' /\
    sub_view s = (true, sqe_bytes (identify_sqe 0 (nsid_of (sc_lun c)) p), p, 4096) /\
    sub_view s' = (true, sqe_bytes (identify_sqe 1 0 p'), p', 4096) /\
    sg_holds w' (sc_sgl c) (d ++ repeat x00 (N.to_nat al - length d)) /\
    (forall x, mem w x <> None -> ~ In x (firstn (N.to_nat al) (sg_addrs (sc_sgl c))) -> mem w' x = mem w x).
Proof.
  intros drv wrs kz wild c w data bs I al ns ct.
  assert (Hq : inquiry_cdb bs) by (split; [exact (iq_six _ _ _ _ _ _ I)|exact (iq_inquiry _ _ _ _ _ _ I)]).
  pose proof (proj1 (iq_device _ _ _ _ _ _ I) 0 (nsid_of (sc_lun c))) as Ln. pose proof (proj1 (iq_device _ _ _ _ _ _ I) 1 0) as Lc.
  destruct I.
  set (P := fun d => (exists img, inquiry_answer (sc_lun c) bs ns ct img /\ d = shown al bs img) \/ (forall img, ~ inquiry_answer (sc_lun c) bs ns ct img) /\ d = []).
  destruct (adapter_inquiry drv wrs kz wild c w bs data P) as (d & p & p' & s & s' & w' & R); try assumption; [|exists d, p, p', s, s', w'; exact R].
  eapply round_trip_mono; [|apply (trip_any (sc_lun c) bs ns ct {| ptr := kz; len := al |} Hq Ln Lc)].
  intros w2 w3 [(img & A & W)|[A W]]; cbn [ptr len] in W.
  - exists (shown al bs img). split; [left; eauto|]. split; [apply shown_length|exact W].
  - exists []. split; [right; auto|]. split; [cbn; lia|exact W].
Qed.
Print Assumptions C119_every_length_exact.

(** SPC-4 4.2.5.6: an allocation length shorter than the answer truncates it.  Standard
    data asked for with less than 36 bytes is GOOD and all zeros instead: with three
    bytes or more, not the beginning of the answer *)
Theorem C119_truncation_refuted : forall drv wrs kz wild c w data bs, inquires drv kz c w data bs ->
  let al := be (slice 3 2 bs) in let ns := data 0 (nsid_of (sc_lun c)) in let ct := data 1 0 in
  inq_evpd bs = 0 -> 3 <= al < 36 ->
  exists subs w', scsi_queuecommand drv wrs kz wild c w = Ret {| mr_result := GOOD; mr_resid := Some (sc_bufflen c - al); mr_subs := subs |} w' /\
    sg_holds w' (sc_sgl c) (repeat x00 (N.to_nat al)) /\ ~ sg_holds w' (sc_sgl c) (firstn (N.to_nat al) (standard_inquiry ns ct)).
Proof.
  intros drv wrs kz wild c w data bs I al ns ct He Hal.
  destruct (C119_every_length_exact drv wrs kz wild c w data bs I) as (d & p & p' & s & s' & w' & D & E & _ & _ & S & _).
  fold al ns ct in D, E, S. pose proof (proj1 (iq_device _ _ _ _ _ _ I) 1 0) as Lc. fold ct in Lc.
  assert (d = []) as ->.
  { destruct D as [(img & A & ->)|[_ D]]; [|exact D]. unfold inquiry_answer in A. rewrite He in A. cbn [N.eqb] in A. subst img.
    unfold shown, two_parts. rewrite He, standard_length by exact Lc. replace (N.of_nat 36 <=? al) with false by lia. reflexivity. }
  cbn [app length] in S. rewrite Nat.sub_0_r in S. exists [s; s'], w'. split; [exact E|]. split; [exact S|]. intros S2.
  assert (Q : repeat x00 (N.to_nat al) = firstn (N.to_nat al) (standard_inquiry ns ct)).
  { eapply holds_unique; [exact S|exact S2|]. rewrite repeat_length, firstn_length, standard_length by exact Lc. lia. }
  apply (f_equal (fun l => nth 2 l x00)) in Q. rewrite nth_repeat, nth_firstn' in Q by lia. unfold standard_inquiry in Q. cbn in Q. discriminate Q.
Qed.
Print Assumptions C119_truncation_refuted.

(** The premises are met, and the runs show it: standard data with 5 bytes of room;
    the page list with 5 *)
Definition ex_short (evpd page al : N) : list byte := B [0x12; evpd; page; 0; al; 0].
Lemma ex_inquires evpd page al : al < 256 -> inquires (ex_device ex_ns1) 0x90000 (ex_scsi (ex_short evpd page al) true 256) (ex_world12 (ex_short evpd page al)) (ex_data12 ex_ns1) (ex_short evpd page al).
Proof.
  intros Ha. assert (L : length (ex_short evpd page al) = 6%nat) by reflexivity. constructor.
  - apply (ex_cdb_holds (fun _ _ => x00) xff (ex_short evpd page al) []); rewrite L; reflexivity.
  - reflexivity.
  - reflexivity.
  - rewrite L. lia.
  - reflexivity.
  - cbn [sc_bufflen ex_scsi]. unfold ex_short, slice. cbn [B map skipn firstn]. unfold be. cbn [rev app le]. rewrite !b2n_n2b_small by (exact Ha || reflexivity). lia.
  - reflexivity.
  - split; reflexivity.
  - apply (ex_sgl_valid (ex_short evpd page al) true 256); [rewrite L|]; discriminate.
  - discriminate.
  - discriminate.
  - apply (ex_unused (ex_short evpd page al)). rewrite L. discriminate.
  - apply ex_good_pages; [rewrite L; lia|reflexivity].
  - apply ex_identifies. reflexivity.
Qed.
Example C119_premises_met :
  inquires (ex_device ex_ns1) 0x90000 (ex_scsi (ex_short 0 0 5) true 256) (ex_world12 (ex_short 0 0 5)) (ex_data12 ex_ns1) (ex_short 0 0 5) /\
  inq_evpd (ex_short 0 0 5) = 0 /\ 3 <= be (slice 3 2 (ex_short 0 0 5)) < 36 /\
  inquires (ex_device ex_ns1) 0x90000 (ex_scsi (ex_short 1 0 6) true 256) (ex_world12 (ex_short 1 0 6)) (ex_data12 ex_ns1) (ex_short 1 0 6) /\
  option_map (fun r => (fst (fst (fst r)), snd (fst (fst r)), firstn 8 (snd r))) (mock_run (ex_device ex_ns1) 0x90000 (ex_scsi (ex_short 0 0 5) true 256) (ex_world12 (ex_short 0 0 5))) =
    Some (0, Some 251, map Some (B [0;0;0;0;0]) ++ map Some (repeat x00 3)) /\
  option_map (fun r => (fst (fst (fst r)), snd (fst (fst r)), firstn 8 (snd r))) (mock_run (ex_device ex_ns1) 0x90000 (ex_scsi (ex_short 1 0 6) true 256) (ex_world12 (ex_short 1 0 6))) =
    Some (0, Some 250, map Some (B [0;0;0;7;0;0]) ++ map Some (repeat x00 2)).
Proof.
  split; [apply ex_inquires; reflexivity|]. split; [reflexivity|]. split; [vm_compute; split; [discriminate|reflexivity]|].
  split; [apply ex_inquires; reflexivity|]. split; vm_compute; reflexivity.
Qed.
