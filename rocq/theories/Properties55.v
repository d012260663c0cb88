(** C120: discovering units with REPORT LUNS, whatever the allocation length. *)
From Coq Require Import Arith NArith String List Lia Bool Init.Byte Permutation.
From Coq Require Import ZifyBool ZifyNat ZifyN.
From Verif Require Import Bytes Layout World ScsiDefs NvmeDefs Common ModeSenseCmd StatusCmd TranslationCls EngineE2e MockModule
  Spec RwSpec InquirySpec SmallSpec EngineSpec MockSpec Facts Logic BeginFacts CompleteFacts StatusFacts RelFacts RwFacts EngineFacts
  SmallFacts InquiryFacts SerialFacts MockFacts Witness Properties1 Properties2 Properties3 Properties4 Properties6 Properties9 Properties11 Properties12 Properties48.
Import ListNotations.
Local Open Scope string_scope.
Local Open Scope list_scope.
Local Open Scope N_scope.

(** ** Specification *)
(** a REPORT LUNS with any allocation length the data buffer has room for *)
Record discovers (drv : driver) (kz : N) (c : scsi_cmnd) (w : world) (data : N -> N -> list byte) (bs : list byte) : Prop := {
  dc_cdb : bytes_at w (sc_cmnd c) bs;
  dc_len : N.of_nat (length bs) = sc_cmd_len c;
  dc_cmdlen : sc_cmd_len c < 65536;
  dc_twelve : (12 <= length bs)%nat;
  dc_op : byte_at bs 0 = 0xa0;
  dc_select : byte_at bs 2 <= 2;
  dc_room : 0 < be (slice 6 4 bs) <= sc_bufflen c;
  dc_reads : sc_from_device c = true;
  dc_buffer : sc_bufflen c < 65536;
  dc_sg : sg_valid w (sc_sgl c);
  dc_total : sc_bufflen c <= sg_total (sc_sgl c);
  dc_kz : kz <> 0;
  dc_unused : unused w kz (sc_bufflen c);
  dc_pages : good_pages (with_buffer w kz (sc_bufflen c));
  dc_device : identifies drv data
}.

(** LUN LIST LENGTH of the data [d], and the LUNs listed *)
Definition list_length (d : list byte) : N := be (firstn 4 d).
Definition listed (d : list byte) : list N := map (fun i => be (slice (8 + 8 * i) 8 d)) (seq 0 (N.to_nat (list_length d / 8))).

(** ** Proofs *)
Lemma lun_list_length n ids : length (lun_list n ids) = (8 + 8 * length ids)%nat.
Proof.
  unfold lun_list. rewrite !app_length, be_encode_length, repeat_length. induction ids as [|i ids IH]; [reflexivity|].
  cbn [map concat length]. rewrite app_length, be_encode_length. lia.
Qed.
Lemma lun_entries (f : N -> list byte) : (forall i, length (f i) = 8%nat) -> forall ids pre rest, length pre = 8%nat ->
  map (fun i => slice (8 + 8 * i) 8 (pre ++ concat (map f ids) ++ rest)) (seq 0 (length ids)) = map f ids.
Proof.
  intros Hf. assert (K : forall ids pre rest k, length pre = (8 + 8 * k)%nat ->
    map (fun i => slice (8 + 8 * i) 8 (pre ++ concat (map f ids) ++ rest)) (seq k (length ids)) = map f ids).
  { induction ids as [|x ids IH]; intros pre rest k L; [reflexivity|]. cbn [map concat length seq]. f_equal.
    - unfold slice. rewrite skipn_app, skipn_all2 by lia. rewrite L, Nat.sub_diag. cbn [skipn app]. rewrite <- app_assoc, firstn_app, Hf.
      rewrite firstn_all2 by (rewrite Hf; lia). cbn [Nat.sub firstn]. apply app_nil_r.
    - etransitivity; [|apply (IH (pre ++ f x) rest (S k)); rewrite app_length, Hf; lia]. apply map_ext. intros i. rewrite <- !app_assoc. reflexivity. }
  intros ids pre rest L. apply (K ids pre rest 0%nat). exact L.
Qed.
Lemma read_list n ids rest : N.of_nat (length ids) < 2 ^ 29 -> (forall i, In i ids -> i < 2 ^ 64) -> n = 8 * N.of_nat (length ids) ->
  list_length (lun_list n ids ++ rest) = n /\ listed (lun_list n ids ++ rest) = map (fun id => id - 1) ids.
Proof.
  intros Hn Hi E. assert (A : list_length (lun_list n ids ++ rest) = n).
  { unfold list_length, lun_list. rewrite <- !app_assoc. rewrite firstn_app, be_encode_length, firstn_all2 by (rewrite be_encode_length; lia).
    cbn [Nat.sub firstn]. rewrite app_nil_r, be_be_encode. apply N.mod_small. change (2 ^ (8 * N.of_nat 4)) with (2 ^ 32). lia. }
  split; [exact A|]. unfold listed. rewrite A, E. rewrite (N.mul_comm 8), N.div_mul, Nat2N.id by discriminate.
  rewrite <- (map_map (fun i => slice (8 + 8 * i) 8 (lun_list (N.of_nat (length ids) * 8) ids ++ rest)) be).
  unfold lun_list. rewrite <- app_assoc. rewrite <- (app_assoc (repeat x00 4)). rewrite app_assoc.
  rewrite (lun_entries (fun id => be_encode 8 (id - 1))) by (intros; rewrite ?app_length, ?be_encode_length, ?repeat_length; reflexivity).
  rewrite map_map. apply map_ext_in. intros i Hin. rewrite be_be_encode. apply N.mod_small. change (2 ^ (8 * N.of_nat 8)) with (2 ^ 64). specialize (Hi i Hin). lia.
Qed.

Lemma ids_lt page i : N.of_nat (length page) = 4096 -> In i (active_namespaces page) -> i < 2 ^ 64.
Proof.
  intros L Hi. destruct (active_prefix page (length (active_namespaces page)) (le_n _)) as [E K]. rewrite firstn_all in E.
  rewrite E in Hi. apply in_map_iff in Hi as (k & <- & Hk). unfold id_at.
  match goal with |- le ?l < _ => pose proof (le_lt l) as B; assert (Z : (length l <= 4)%nat) by (unfold slice; rewrite firstn_length; lia) end.
  eapply N.lt_le_trans; [exact B|]. apply N.pow_le_mono_r; [discriminate|lia].
Qed.

(** Whatever the allocation length, at least the header's 8 bytes: GOOD with exactly
    one Identify command, and as many LUNs as fit, the first ones, each its namespace
    ID less one -- but LUN LIST LENGTH is that of the LUNs returned, so it never
    says more than fits: an initiator that asks again when the list is longer than
    its buffer is never told to *)
Theorem C120_every_length_exact : forall drv wrs kz wild c w data bs, discovers drv kz c w data bs ->
  let al := be (slice 6 4 bs) in let ids := active_namespaces (data 2 0) in 8 <= al ->
  let n := N.min (N.of_nat (length ids)) ((al - 8) / 8) in
  exists d p s w',
    scsi_queuecommand drv wrs kz wild c w = Ret {| mr_result := GOOD; mr_resid := Some (sc_bufflen c - al); mr_subs := [s] |} w' /\
    sub_view s = (true, sqe_bytes (identify_sqe 2 0 p), p, 4096) /\
    length d = N.to_nat al /\ sg_holds w' (sc_sgl c) d /\
    list_length d = 8 * n /\ list_length d + 8 <= al /\
    listed d = map (fun id => id - 1) (firstn (N.to_nat n) ids) /\
    (forall i, N.to_nat (8 + 8 * n) <= i < N.to_nat al -> nth i d x00 = x00)%nat /\
    (forall x, mem w x <> None -> ~ In x (firstn (N.to_nat al) (sg_addrs (sc_sgl c))) -> mem w' x = mem w x).
Proof.
  intros drv wrs kz wild c w data bs I al ids Hal n.
  pose proof (proj1 (dc_device _ _ _ _ _ _ I) 2 0) as Lp.
  assert (T : forall t cdb b v, idle t -> span_holds v cdb bs -> one_page_begin t cdb b (sc_lun c) v al (identify_sqe 2 0)).
  { intros t cdb b v Hi Hv. apply C39_report_luns_command; try assumption; apply I. }
  pose proof (C39_report_luns_partial (sc_lun c) bs (data 2 0) {| ptr := kz; len := al |} (dc_twelve _ _ _ _ _ _ I) (dc_op _ _ _ _ _ _ I) (dc_select _ _ _ _ _ _ I) Lp) as R.
  destruct I. fold al in dc_room0. assert (Hb : al < 65536) by lia. 
  set (m := firstn (N.to_nat (((al - 8) mod 2 ^ 32) / 8)) ids).
  assert (Hm : m = firstn (N.to_nat n) ids).
  { unfold m, n. rewrite N.mod_small by lia. destruct (N.le_gt_cases (N.of_nat (length ids)) ((al - 8) / 8)) as [Q|Q].
    - rewrite N.min_l by lia. rewrite Nat2N.id, firstn_all. apply firstn_all2. lia.
    - rewrite N.min_r by lia. reflexivity. }
  assert (Lm : N.of_nat (length m) = n). { rewrite Hm, firstn_length. unfold n. lia. }
  assert (Hn : 8 * n + 8 <= al). { unfold n. assert ((al - 8) / 8 * 8 <= al - 8) by (rewrite N.mul_comm; apply N.mul_div_le; discriminate). lia. }
  destruct (adapter_page drv wrs kz wild c w bs al 2 0 (lun_list (8 * n) m) data) as (p & s & w' & E & _ & V & S & F); try assumption.
  - cbn [ptr len] in R. replace (al <? 8) with false in R by lia. fold ids in R. fold m in R. cbv zeta in R. rewrite Lm in R. exact R.
  - rewrite lun_list_length. lia.
  - pose proof (lun_list_length (8 * n) m) as LL.
    set (rest := repeat x00 (N.to_nat al - length (lun_list (8 * n) m))) in *.
    destruct (read_list (8 * n) m rest) as [A B]; [lia| |lia|].
    { intros i Hi. apply (ids_lt (data 2 0) i Lp). fold ids. rewrite Hm in Hi. rewrite <- (firstn_skipn (N.to_nat n) ids). apply in_or_app. left. exact Hi. }
    exists (lun_list (8 * n) m ++ rest), p, s, w'. split; [exact E|]. split; [exact V|].
    split; [unfold rest; rewrite app_length, repeat_length; lia|]. split; [exact S|]. split; [exact A|]. split; [rewrite A; lia|].
    split; [rewrite B, Hm; reflexivity|]. split; [|exact F].
    intros i Hi. rewrite app_nth2 by lia. unfold rest. destruct (Nat.lt_ge_cases (i - length (lun_list (8 * n) m)) (N.to_nat al - length (lun_list (8 * n) m))).
    + apply nth_repeat.
    + apply nth_overflow. rewrite repeat_length. assumption.
Qed.
Print Assumptions C120_every_length_exact.

(** SPC-4 6.33: LUN LIST LENGTH counts the whole list even if it is truncated, so that an
    initiator can ask again with room for it.  Whenever there are units that do not
    fit, the answer claims to be complete, and they are never discovered *)
Theorem C120_discovery_refuted : forall drv wrs kz wild c w data bs, discovers drv kz c w data bs ->
  let al := be (slice 6 4 bs) in let ids := active_namespaces (data 2 0) in
  8 <= al < 8 + 8 * N.of_nat (length ids) ->
  exists d r w', scsi_queuecommand drv wrs kz wild c w = Ret r w' /\ mr_result r = GOOD /\
    length d = N.to_nat al /\ sg_holds w' (sc_sgl c) d /\
    list_length d + 8 <= al /\ list_length d <> 8 * N.of_nat (length ids) /\
    (length (listed d) < length ids)%nat.
Proof.
  intros drv wrs kz wild c w data bs I al ids Hal.
  destruct (C120_every_length_exact drv wrs kz wild c w data bs I ltac:(lia)) as (d & p & s & w' & E & _ & L & S & A & B & C & _).
  fold al in A, B, C, L. fold ids in A, C. set (n := N.min (N.of_nat (length ids)) ((al - 8) / 8)) in *.
  assert (Q : n < N.of_nat (length ids)). { assert ((al - 8) / 8 < N.of_nat (length ids)) by (apply N.div_lt_upper_bound; lia). lia. }
  exists d. do 2 eexists. split; [exact E|]. split; [reflexivity|]. split; [exact L|]. split; [exact S|]. split; [exact B|]. split; [lia|].
  rewrite C, map_length, firstn_length. lia.
Qed.
Print Assumptions C120_discovery_refuted.

(** Every unit is discovered exactly by the allocation lengths the whole list fits in *)
Theorem C120_complete_iff : forall drv wrs kz wild c w data bs, discovers drv kz c w data bs ->
  let al := be (slice 6 4 bs) in let ids := active_namespaces (data 2 0) in 8 <= al ->
  exists d r w', scsi_queuecommand drv wrs kz wild c w = Ret r w' /\ length d = N.to_nat al /\ sg_holds w' (sc_sgl c) d /\
    (listed d = map (fun id => id - 1) ids <-> 8 + 8 * N.of_nat (length ids) <= al).
Proof.
  intros drv wrs kz wild c w data bs I al ids Hal.
  destruct (C120_every_length_exact drv wrs kz wild c w data bs I Hal) as (d & p & s & w' & E & _ & L & S & A & B & C & _).
  fold al in A, B, C, L. fold ids in A, C. set (n := N.min (N.of_nat (length ids)) ((al - 8) / 8)) in *.
  exists d. do 2 eexists. split; [exact E|]. split; [exact L|]. split; [exact S|]. rewrite C. split.
  - intros Q. apply (f_equal (@length N)) in Q. rewrite !map_length, firstn_length in Q.
    destruct (N.le_gt_cases (8 + 8 * N.of_nat (length ids)) al) as [|Z]; [assumption|]. exfalso.
    assert ((al - 8) / 8 < N.of_nat (length ids)) by (apply N.div_lt_upper_bound; lia). lia.
  - intros Q. assert (N.of_nat (length ids) <= (al - 8) / 8) by (apply N.div_le_lower_bound; lia). rewrite firstn_all2 by lia. reflexivity.
Qed.
Print Assumptions C120_complete_iff.

(** with less than 8 bytes of room nothing at all is told, but the status is GOOD *)
Theorem C120_no_room_refuted : forall drv wrs kz wild c w data bs, discovers drv kz c w data bs ->
  let al := be (slice 6 4 bs) in al < 8 ->
  exists r w', scsi_queuecommand drv wrs kz wild c w = Ret r w' /\ mr_result r = GOOD /\ mr_resid r = Some (sc_bufflen c - al) /\
    sg_holds w' (sc_sgl c) (repeat x00 (N.to_nat al)).
Proof.
  intros drv wrs kz wild c w data bs I al Hal.
  pose proof (proj1 (dc_device _ _ _ _ _ _ I) 2 0) as Lp.
  assert (T : forall t cdb b v, idle t -> span_holds v cdb bs -> one_page_begin t cdb b (sc_lun c) v al (identify_sqe 2 0)).
  { intros t cdb b v Hi Hv. apply C39_report_luns_command; try assumption; apply I. }
  pose proof (C39_report_luns_partial (sc_lun c) bs (data 2 0) {| ptr := kz; len := al |} (dc_twelve _ _ _ _ _ _ I) (dc_op _ _ _ _ _ _ I) (dc_select _ _ _ _ _ _ I) Lp) as R.
  cbn [ptr len] in R. replace (al <? 8) with true in R by lia.
  destruct I. fold al in dc_room0.
  destruct (adapter_page drv wrs kz wild c w bs al 2 0 [] data) as (p & s & w' & E & _ & _ & S & _); try assumption.
  - intros t v cdb b0 t1 r v1 H1 H2 H3 H4. destruct (R t v cdb b0 t1 r v1 H1 H2 H3 H4) as (p & X & C).
    exists p. split; [exact X|]. intros w2 cpl sense A1 A2 A3 A4 A5.
    destruct (C w2 cpl sense A1 A2 A3 A4 A5) as (t2 & w3 & E & I & Q). exists t2, w3. split; [exact E|]. split; [exact I|]. apply wrote_none, Q.
  - cbn. lia.
  - cbn [app length] in S. rewrite Nat.sub_0_r in S. do 2 eexists. split; [exact E|]. split; [reflexivity|]. split; [reflexivity|exact S].
Qed.
Print Assumptions C120_no_room_refuted.

(** The premises are met by three namespaces and 24 bytes of room: two are listed *)
Definition ex_luns24 : list byte := B [0xa0; 0; 0; 0; 0; 0; 0; 0; 0; 24; 0; 0].
Example C120_premises_met :
  discovers (ex_device ex_ns1) 0x90000 (ex_scsi ex_luns24 true 64) (ex_world12 ex_luns24) (ex_data12 ex_ns1) ex_luns24 /\
  be (slice 6 4 ex_luns24) = 24 /\ active_namespaces (ex_data12 ex_ns1 2 0) = [1; 7; 256] /\
  mock_run (ex_device ex_ns1) 0x90000 (ex_scsi ex_luns24 true 64) (ex_world12 ex_luns24) =
  Some (0, Some 40, [(true, 0x100000, 4096)], map Some (B [0;0;0;16; 0;0;0;0; 0;0;0;0;0;0;0;0; 0;0;0;0;0;0;0;6] ++ repeat x00 40)).
Proof.
  split; [|vm_compute; auto]. constructor.
  - apply (ex_cdb_holds (fun _ _ => x00) xff ex_luns24 []); reflexivity.
  - reflexivity.
  - reflexivity.
  - cbn. lia.
  - reflexivity.
  - vm_compute. discriminate.
  - vm_compute. split; [reflexivity|discriminate].
  - reflexivity.
  - reflexivity.
  - apply (ex_sgl_valid ex_luns24 true 64); discriminate.
  - discriminate.
  - discriminate.
  - apply (ex_unused ex_luns24). discriminate.
  - apply ex_good_pages; [cbn; lia|reflexivity].
  - apply ex_identifies. reflexivity.
Qed.
