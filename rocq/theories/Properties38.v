(** C108: REQUEST SENSE end to end. *)
From Coq Require Import Arith NArith ZArith String List Lia Bool Init.Byte Permutation.
From Coq Require Import ZifyBool ZifyNat ZifyN.
From Verif Require Import Bytes Layout World ScsiDefs NvmeDefs Common ReadCmds WriteCmds SmallCmds
  UnmapCmd StatusCmd ModeSenseCmd InquiryCmd TranslationCls Spec Facts Logic BeginFacts CompleteFacts
  WireFacts StatusFacts RwSpec RwFacts InquirySpec AdminFacts InquiryFacts SmallSpec SmallFacts ModeSpec ModeFacts
  EngineE2e MockModule KernelDriver EngineSpec MockSpec EngineFacts MockFacts Witness DiskSpec AdvertSpec CacheSpec
  Properties3 Properties4 Properties9 Properties11 Properties12.
Import ListNotations.
Local Open Scope string_scope.
Local Open Scope list_scope.
Local Open Scope N_scope.

(** Specification: an initiator asks for sense data (6-byte CDB, NACA = 0) with
    a data-in buffer at least as long as the allocation length (byte 4). *)
Definition asks_sense (w : world) (kz : N) (c : scsi_cmnd) (bs : list byte) : Prop :=
  bytes_at w (sc_cmnd c) bs /\ N.of_nat (length bs) = sc_cmd_len c /\ sc_cmd_len c < 65536 /\
  (6 <= length bs)%nat /\ byte_at bs 0 = 0x03 /\ bits (byte_at bs 5) 2 1 = 0 /\
  sc_from_device c = true /\ 0 < sc_bufflen c < 65536 /\ byte_at bs 4 <= sc_bufflen c /\
  sg_valid w (sc_sgl c) /\ sc_bufflen c <= sg_total (sc_sgl c) /\
  kz <> 0 /\ unused w kz (sc_bufflen c).
(** sense data for NO SENSE: descriptor format (72h, 8 bytes) if DESC is set,
    fixed format (70h, 18 bytes) otherwise; all other bytes zero *)
Definition no_sense_data (desc : bool) : list byte := if desc then x72 :: repeat x00 7 else x70 :: repeat x00 17.

(** ** C108 *)

(** REQUEST SENSE is answered with GOOD, no NVMe command is submitted, nothing
    but the initiator's buffer changes, and with an allocation length that has
    room for it the sense data is delivered, followed by zeros up to the
    allocation length.  Missing: shorter allocation lengths (see below). *)
Theorem C108_request_sense_partial : forall drv wrs kz wild c w bs, let al := byte_at bs 4 in let data := no_sense_data (N.testbit (byte_at bs 1) 0) in
  asks_sense w kz c bs ->
  exists w' img, scsi_queuecommand drv wrs kz wild c w = Ret {| mr_result := GOOD; mr_resid := Some (sc_bufflen c - al); mr_subs := [] |} w' /\
    img = (if N.of_nat (length data) <=? al then data else []) /\
    sg_holds w' (sc_sgl c) (img ++ repeat x00 (N.to_nat al - length img)) /\
    (forall x, mem w x <> None -> ~ In x (firstn (N.to_nat al) (sg_addrs (sc_sgl c))) -> mem w' x = mem w x).
Proof.
  intros drv wrs kz wild c w bs al data (Hc & Hcl & Hcs & Hl & Ho & Hn & Hdi & Hbl & Hal & Hsg & Hst & Hkz & Hun).
  set (q := mock_request kz wild c). set (w1 := with_buffer w kz (sc_bufflen c)).
  destruct (adapter_request kz wild c w bs Hc Hcl Hcs Hbl Hun) as (Hc1 & Hqd & Hm). fold q in Hc1, Hqd, Hm. fold w1 in Hc1, Hm.
  destruct (C41_request_sense (Translation_init wrs) (rq_cdb q) (rq_data q) (rq_lun q) w1 bs (idle_init wrs) Hc1 Hl Ho Hn)
    as (t1 & B & _ & X & _ & Cm).
  assert (X0 : GetNvmeWrappers t1 = []) by (unfold exposes in X; destruct (GetNvmeWrappers t1); [reflexivity|discriminate X]).
  assert (Hr : response_span q al = {| ptr := kz; len := al |}).
  { unfold response_span. change (rq_data_in q) with (sc_from_device c). rewrite Hdi, Hqd. reflexivity. }
  destruct (Cm w1 (response_span q al) (rq_sense q) Hc1) as (t2 & w3 & E3 & _ & W1 & W2).
  { rewrite Hr. rewrite Hqd in Hm. intros y Hy. cbn [ptr len] in *. apply Hm. cbn [ptr len]. lia. }
  cbv zeta in W1, W2. change (if N.testbit (byte_at bs 1) 0 then x72 :: repeat x00 7 else x70 :: repeat x00 17) with data in W1, W2.
  rewrite Hr in W1, W2. cbn [ptr len] in W1, W2.
  assert (E : engine drv wrs q w1 = Ret ({| er_return_code := GOOD; er_alloc_len := al |}, t2, []) w3).
  { erewrite (engine_ok drv wrs q w1 t1 al w1 t2 GOOD w3); [rewrite X0; reflexivity|exact B|rewrite Hqd; exact Hal|].
    rewrite X0. cbn [map device_run fst snd]. rewrite set_mem_same. exact E3. }
  set (img := if N.of_nat (length data) <=? al then data else []).
  assert (W : wrote w1 w3 kz img).
  { unfold img. destruct (N.leb_spec (N.of_nat (length data)) al) as [Z|Z]; [exact (W1 Z)|]. pose proof (W2 Z) as S.
    split; [intros i b Hi; destruct i; discriminate Hi|]. intros x _. apply S. }
  destruct (adapter_wrote drv wrs kz wild c w al img t2 [] w1 w3) as (w' & E' & S & F); try assumption.
  { intros; reflexivity. }
  { unfold img. destruct (N.leb_spec (N.of_nat (length data)) al) as [Z|Z]; [exact Z|]. cbn [length]. lia. }
  exists w', img. split; [exact E'|]. split; [reflexivity|]. split; [exact S|exact F].
Qed.
Print Assumptions C108_request_sense_partial.

(** Refuted: sense data is to be cut at the allocation length, but with one that
    is too short the initiator gets only zeros, for which the first byte, the
    response code 70h or 72h, is not valid. *)
Theorem C108_short_refuted : forall drv wrs kz wild c w bs, let al := byte_at bs 4 in let data := no_sense_data (N.testbit (byte_at bs 1) 0) in
  asks_sense w kz c bs -> 0 < al < N.of_nat (length data) ->
  exists w', scsi_queuecommand drv wrs kz wild c w = Ret {| mr_result := GOOD; mr_resid := Some (sc_bufflen c - al); mr_subs := [] |} w' /\
    sg_holds w' (sc_sgl c) (repeat x00 (N.to_nat al)) /\ ~ sg_holds w' (sc_sgl c) (firstn (N.to_nat al) data).
Proof.
  intros drv wrs kz wild c w bs al data Ha Hal. destruct (C108_request_sense_partial drv wrs kz wild c w bs Ha) as (w' & img & E & I & HS & _).
  fold al data in E, I, HS. replace (N.of_nat (length data) <=? al) with false in I by lia. subst img. cbn [app length] in HS. rewrite Nat.sub_0_r in HS.
  exists w'. split; [exact E|]. split; [exact HS|]. intros S'.
  destruct (N.to_nat al) as [|k] eqn:K; [lia|]. destruct HS as [L HS]. destruct S' as [_ S'].
  destruct (nth_error (sg_addrs (sc_sgl c)) 0) as [x|] eqn:Hx.
  - pose proof (HS 0%nat x x00 Hx eq_refl) as A. 
    assert (D : exists b, nth_error (firstn (S k) data) 0 = Some b /\ b <> x00).
    { unfold data, no_sense_data. destruct (N.testbit (byte_at bs 1) 0); eexists; split; [reflexivity|discriminate|reflexivity|discriminate]. }
    destruct D as (b & D & Hb). pose proof (S' 0%nat x b Hx D) as A'. rewrite A in A'. apply Some_eq in A'. apply Hb. symmetry. exact A'.
  - apply nth_error_None in Hx. rewrite repeat_length in L. lia.
Qed.
Print Assumptions C108_short_refuted.

(** ** The premises are met *)
Definition ex_sense (desc al : N) : list byte := B [0x03; desc; 0; 0; al; 0].
Lemma ex_asks_sense desc al : In (desc, al) [(0, 96); (1, 96); (0, 8)] ->
  asks_sense (ex_world12 (ex_sense desc al)) 0x90000 (ex_scsi (ex_sense desc al) true 96) (ex_sense desc al).
Proof.
  intros H. assert (L : length (ex_sense desc al) = 6%nat) by reflexivity.
  assert (Z : forall x, 0x20000 <= x < 0x20060 -> mem (ex_world12 (ex_sense desc al)) x <> None).
  { intros x Hx. cbn [mem ex_world12 ex_world ex_world_with]. unfold ex_mem, Witness.region, zeros. rewrite L. cbn [length].
    replace ((0x1000 <=? x) && (x <? 0x1000 + N.of_nat 6)) with false by lia.
    replace ((0x10000 <=? x) && (x <? 0x10000 + N.of_nat 0)) with false by lia.
    replace ((0x20000 <=? x) && (x <? 0x20000 + 0x10000)) with true by lia. discriminate. }
  split; [intros i b Hi; do 6 (destruct i as [|i]; [cbn [nth_error ex_sense] in Hi; cbn [In] in H; repeat (destruct H as [H|H]; [injection H as <- <-; vm_compute in Hi |- *; exact Hi|]); contradiction|]); destruct i; discriminate Hi|].
  split; [reflexivity|]. split; [reflexivity|]. split; [rewrite L; lia|]. split; [reflexivity|]. split; [reflexivity|]. split; [reflexivity|]. split; [split; [reflexivity|reflexivity]|].
  split; [change (sc_bufflen _) with 96; cbn [In] in H; repeat (destruct H as [H|H]; [injection H as <- <-; vm_compute; discriminate|]); contradiction|]. split; [split|split; [discriminate|split; [discriminate|]]].
  - change (sg_addrs (sc_sgl (ex_scsi (ex_sense desc al) true 96))) with (sg_addrs [(0x20030, 48); (0x20000, 48)]).
    assert (D : nodup N.eq_dec (sg_addrs [(0x20030, 48); (0x20000, 48)]) = sg_addrs [(0x20030, 48); (0x20000, 48)]) by (vm_compute; reflexivity).
    rewrite <- D. apply NoDup_nodup.
  - intros a Ha. apply Z. change (sg_addrs (sc_sgl (ex_scsi (ex_sense desc al) true 96))) with (sg_addrs [(0x20030, 48); (0x20000, 48)]) in Ha.
    assert (F : forallb (fun a => (0x20000 <=? a) && (a <? 0x20060)) (sg_addrs [(0x20030, 48); (0x20000, 48)]) = true) by (vm_compute; reflexivity).
    rewrite forallb_forall in F. specialize (F a Ha). lia.
  - intros x Hx. change (sc_bufflen (ex_scsi (ex_sense desc al) true 96)) with 96 in Hx. cbn [mem ex_world12 ex_world ex_world_with]. unfold ex_mem, Witness.region, zeros. rewrite L. cbn [length].
    replace (x <? 0x1000 + N.of_nat 6) with false by lia. rewrite andb_false_r.
    replace (x <? 0x10000 + N.of_nat 0) with false by lia. rewrite andb_false_r.
    replace (x <? 0x20000 + 0x10000) with false by lia. rewrite andb_false_r.
    replace (x <? 0x40000 + 32) with false by lia. rewrite andb_false_r. reflexivity.
Qed.
Definition ex_run38 (desc al : N) := mock_run (fun _ _ m => (m, 0)) 0x90000 (ex_scsi (ex_sense desc al) true 96) (ex_world12 (ex_sense desc al)).
Example C108_premises_met :
  asks_sense (ex_world12 (ex_sense 0 96)) 0x90000 (ex_scsi (ex_sense 0 96) true 96) (ex_sense 0 96) /\
  asks_sense (ex_world12 (ex_sense 0 8)) 0x90000 (ex_scsi (ex_sense 0 8) true 96) (ex_sense 0 8) /\
  ex_run38 0 96 = Some (0, Some 0, [], map Some (x70 :: repeat x00 95)) /\
  ex_run38 1 96 = Some (0, Some 0, [], map Some (x72 :: repeat x00 95)) /\
  option_map (fun x => (snd (fst (fst x)), firstn 8 (snd x))) (ex_run38 0 8) = Some (Some 88, map Some (repeat x00 8)).
Proof.
  split; [apply ex_asks_sense; cbn [In]; auto|]. split; [apply ex_asks_sense; cbn [In]; auto|].
  split; [vm_compute; reflexivity|]. split; vm_compute; reflexivity.
Qed.
