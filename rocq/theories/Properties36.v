(** C101-C105: what INQUIRY and MODE SENSE announce. *)
From Coq Require Import Arith NArith String List Lia Bool Init.Byte.
From Coq Require Import ZifyBool ZifyNat ZifyN.
From Verif Require Import Bytes Layout World Common ModeSenseCmd TranslationCls EngineE2e MockModule.
From Verif Require Import Spec HistorySpec RwSpec InquirySpec SmallSpec ModeSpec UnmapSpec EngineSpec MockSpec AdvertSpec.
From Verif Require Import Facts WireFacts Witness RwFacts AdminFacts SmallFacts BeginFacts CompleteFacts Logic.
From Verif Require Import Properties1 Properties2 Properties3 Properties4 Properties5 Properties7 Properties9 Properties11.
Import ListNotations.
Local Open Scope string_scope.
Local Open Scope list_scope.
Local Open Scope N_scope.

(** ** C101 *)
Lemma limits_announced ns ct : N.of_nat (length ns) = 4096 -> N.of_nat (length ct) = 4096 ->
  announces_in_page 0xb0 ns ct (max_transfer_is (ct_max_transfer ct)).
Proof.
  intros Ln Lc lun bs buffer Hq He Hp Hl. eapply round_trip_mono; [|apply pageb0; auto]. intros w w' [W _].
  exists (block_limits_page ct). split; [exact W|]. split.
  - unfold block_limits_page. rewrite !app_length, !be_encode_length, !repeat_length. reflexivity.
  - unfold max_transfer_is. change (slice 8 4 (block_limits_page ct)) with (be_encode 4 (ct_max_transfer ct)). rewrite be_be_encode. apply N.mod_small.
    change (2 ^ (8 * N.of_nat 4)) with (2 ^ 32). unfold ct_max_transfer. destruct (ct_mdts ct =? 0); [reflexivity|]. apply N.pow_lt_mono_r; lia.
Qed.

(** A READ within the announced limit is accepted.  Missing for the full claim:
    65536 blocks, the limit announced when the controller's is at least that. *)
Theorem C101_within_limit_partial : forall ns ct, N.of_nat (length ns) = 4096 -> N.of_nat (length ct) = 4096 ->
  let limit := if ct_mdts ct =? 0 then 0 else 2 ^ N.min (ct_mdts ct) 16 in
  announces_in_page 0xb0 ns ct (max_transfer_is limit) /\ limit <= 65536 /\
  forall f t cdb buffer lun w bs, idle t -> span_holds w cdb bs -> byte_at bs 0 = read_opcode f -> (rw_len f <= length bs)%nat ->
    read_prinfo f bs <> None -> 1 <= rw_blocks f bs -> within_limit limit (rw_blocks f bs) -> rw_blocks f bs * 4096 <= len buffer ->
    rw_blocks f bs <= 65535 ->
    exists t' r w', Begin t cdb buffer lun w = Ret (t', r) w' /\ accepted t'.
Proof.
  intros ns ct Ln Lc. change (if ct_mdts ct =? 0 then 0 else 2 ^ N.min (ct_mdts ct) 16) with (ct_max_transfer ct). intros limit. subst limit. split; [apply limits_announced; assumption|]. split.
  { unfold ct_max_transfer. destruct (ct_mdts ct =? 0); [lia|]. change 65536 with (2 ^ 16). apply N.pow_le_mono_r; lia. }
  intros f t cdb buffer lun w bs Hi Hc Ho Hl Hp H1 _ Hb Hn.
  destruct (C15_read_accepted_iff f t cdb buffer lun w bs Hi Hc Ho) as (t' & r & w' & E & _ & A & _). exists t', r, w'. split; [exact E|].
  apply A. split; [exact Hl|]. split; [lia|]. split; [exact Hp|exact Hb].
Qed.
Print Assumptions C101_within_limit_partial.

(** Refuted: a controller without a limit, or with one of 2^16 pages or more, is
    announced as "no limit" or 65536; every READ of 65536 blocks is refused. *)
Theorem C101_largest_refuted : forall ns ct, N.of_nat (length ns) = 4096 -> N.of_nat (length ct) = 4096 ->
  ct_mdts ct = 0 \/ 16 <= ct_mdts ct ->
  let limit := if ct_mdts ct =? 0 then 0 else 2 ^ N.min (ct_mdts ct) 16 in
  announces_in_page 0xb0 ns ct (max_transfer_is limit) /\ within_limit limit 65536 /\
  forall f t cdb buffer lun w bs, idle t -> span_holds w cdb bs -> byte_at bs 0 = read_opcode f -> rw_blocks f bs = 65536 ->
    refuses t cdb buffer lun w.
Proof.
  intros ns ct Ln Lc Hm. change (if ct_mdts ct =? 0 then 0 else 2 ^ N.min (ct_mdts ct) 16) with (ct_max_transfer ct). intros limit. subst limit. split; [apply limits_announced; assumption|]. split.
  { unfold within_limit, ct_max_transfer. destruct Hm as [->|Hm]; [left; reflexivity|]. right. replace (ct_mdts ct =? 0) with false by lia.
    rewrite N.min_r by exact Hm. reflexivity. }
  intros f t cdb buffer lun w bs Hi Hc Ho Hn. destruct (C15_read_accepted_iff f t cdb buffer lun w bs Hi Hc Ho) as (t' & r & w' & E & Hs & _ & R).
  exists t', r, w'. split; [exact E|]. split; [exact Hs|].
  assert (Rj : rejected t') by (apply R; intros (_ & X & _); lia). split; [exact Rj|].
  pose proof (inv_begin _ _ _ _ _ _ _ _ _ (idle_inv _ Hi) E) as I. exact (inv_rejected _ _ I Rj).
Qed.
Print Assumptions C101_largest_refuted.

(** ... and the limit is not enforced: a READ of one block more than announced is
    accepted and sent to the device. *)
Theorem C101_not_enforced_refuted : forall ns ct, N.of_nat (length ns) = 4096 -> N.of_nat (length ct) = 4096 -> 1 <= ct_mdts ct <= 15 ->
  let limit := if ct_mdts ct =? 0 then 0 else 2 ^ N.min (ct_mdts ct) 16 in
  announces_in_page 0xb0 ns ct (max_transfer_is limit) /\
  forall f t cdb buffer lun w bs, idle t -> span_holds w cdb bs -> byte_at bs 0 = read_opcode f -> (rw_len f <= length bs)%nat ->
    read_prinfo f bs <> None -> rw_blocks f bs = limit + 1 -> rw_blocks f bs * 4096 <= len buffer ->
    ~ within_limit limit (rw_blocks f bs) /\ exists t' r w', Begin t cdb buffer lun w = Ret (t', r) w' /\ accepted t'.
Proof.
  intros ns ct Ln Lc Hm. change (if ct_mdts ct =? 0 then 0 else 2 ^ N.min (ct_mdts ct) 16) with (ct_max_transfer ct). intros limit. subst limit. split; [apply limits_announced; assumption|].
  intros f t cdb buffer lun w bs Hi Hc Ho Hl Hp Hn Hb.
  assert (1 <= ct_max_transfer ct < 65535) as L.
  { unfold ct_max_transfer. replace (ct_mdts ct =? 0) with false by lia. rewrite N.min_l by lia.
    assert (2 ^ ct_mdts ct <= 2 ^ 15) by (apply N.pow_le_mono_r; lia). change (2 ^ 15) with 32768 in *.
    pose proof (N.pow_nonzero 2 (ct_mdts ct)). lia. }
  split; [unfold within_limit; lia|].
  destruct (C15_read_accepted_iff f t cdb buffer lun w bs Hi Hc Ho) as (t' & r & w' & E & _ & A & _). exists t', r, w'. split; [exact E|].
  apply A. split; [exact Hl|]. split; [lia|]. split; [exact Hp|exact Hb].
Qed.
Print Assumptions C101_not_enforced_refuted.

(** Through the adapter the announced limit is out of reach: for a controller
    with a limit of 16 pages or more (or none), a READ of 16 blocks is within the
    limit, and no such READ is ever carried out. *)
Theorem C101_adapter_refuted : forall ns ct, N.of_nat (length ns) = 4096 -> N.of_nat (length ct) = 4096 ->
  ct_mdts ct = 0 \/ 4 <= ct_mdts ct ->
  let limit := if ct_mdts ct =? 0 then 0 else 2 ^ N.min (ct_mdts ct) 16 in
  announces_in_page 0xb0 ns ct (max_transfer_is limit) /\ within_limit limit 16 /\
  forall f drv wrs kz wild c w bs r w',
    bytes_at w (sc_cmnd c) bs -> N.of_nat (length bs) = sc_cmd_len c -> sc_cmd_len c < 65536 -> byte_at bs 0 = read_opcode f ->
    16 <= rw_blocks f bs -> within_limit limit (rw_blocks f bs) -> sc_bufflen c = rw_blocks f bs * 4096 ->
    kz <> 0 -> unused w kz (sc_bufflen c mod 65536) ->
    scsi_queuecommand drv wrs kz wild c w = Ret r w' -> mr_subs r = [] /\ mr_result r <> GOOD.
Proof.
  intros ns ct Ln Lc Hm. change (if ct_mdts ct =? 0 then 0 else 2 ^ N.min (ct_mdts ct) 16) with (ct_max_transfer ct). intros limit. subst limit. split; [apply limits_announced; assumption|]. split.
  { unfold within_limit, ct_max_transfer. destruct Hm as [->|Hm]; [left; reflexivity|]. right. replace (ct_mdts ct =? 0) with false by lia.
    change 16 with (2 ^ 4) at 1. apply N.pow_le_mono_r; lia. }
  intros f drv wrs kz wild c w bs r w' H1 H2 H3 H4 H5 _ H6 H7 H8 H9. eapply C55_large_reads_refuted; eassumption.
Qed.
Print Assumptions C101_adapter_refuted.

(** ** C102 *)
Lemma provisioning_announced ns ct : N.of_nat (length ns) = 4096 -> N.of_nat (length ct) = 4096 ->
  announces_in_page 0xb2 ns ct (lbpu_is (negb (ct_dsm ct =? 0))) /\
  announces_in_page 0xb0 ns ct (unmap_limits_are (if ct_dsm ct =? 0 then 0 else 1) (if ct_dsm ct =? 0 then 0 else 256)).
Proof.
  intros Ln Lc. split; intros lun bs buffer Hq He Hp Hl.
  - eapply round_trip_mono; [|apply pageb2; auto]. intros w w' [W _].
    exists (provisioning_page ns ct). split; [exact W|]. unfold lbpu_is, provisioning_page. split.
    + rewrite app_length, repeat_length. destruct (ct_dsm ct =? 0); reflexivity.
    + destruct (ct_dsm ct =? 0); [reflexivity|]. destruct (ns_thin ns =? 0); reflexivity.
  - eapply round_trip_mono; [|apply pageb0; auto]. intros w w' [W _].
    exists (block_limits_page ct). split; [exact W|]. split.
    + unfold block_limits_page. rewrite !app_length, !be_encode_length, !repeat_length. reflexivity.
    + assert (D : ct_dsm ct = 0 \/ ct_dsm ct = 1).
      { unfold ct_dsm, bits. rewrite N.land_ones. change (2 ^ 1) with 2. pose proof (N.mod_lt (N.shiftr (byte_at ct 520) 2) 2). lia. }
      unfold unmap_limits_are.
      change (slice 20 4 (block_limits_page ct)) with (be_encode 4 (ct_dsm ct)).
      change (slice 24 4 (block_limits_page ct)) with (be_encode 4 (if ct_dsm ct =? 0 then 0 else 256)).
      destruct D as [-> | ->]; split; reflexivity.
Qed.

(** A controller without Deallocate: the unit announces that UNMAP is not
    supported, and UNMAP is refused.  Missing for the full claim: units that
    announce UNMAP. *)
Theorem C102_not_announced_partial : forall ns ct, N.of_nat (length ns) = 4096 -> N.of_nat (length ct) = 4096 -> ct_dsm ct = 0 ->
  announces_in_page 0xb2 ns ct (lbpu_is false) /\ announces_in_page 0xb0 ns ct (unmap_limits_are 0 0) /\
  forall t cdb bs buffer pl n lun w, idle t -> span_holds w cdb bs -> span_holds w buffer pl -> pages_apart w cdb ->
    unmap_request bs pl n -> unmap_reserved_zero bs -> refuses t cdb buffer lun w.
Proof.
  intros ns ct Ln Lc Hd. destruct (provisioning_announced ns ct Ln Lc) as [A B]. rewrite Hd in A, B. split; [exact A|]. split; [exact B|].
  exact C37_api_refuted.
Qed.
Print Assumptions C102_not_announced_partial.
(** Refuted: a controller with Deallocate makes the unit announce UNMAP, one
    block and 256 descriptors per command; every such UNMAP is refused. *)
Theorem C102_announced_refuted : forall ns ct, N.of_nat (length ns) = 4096 -> N.of_nat (length ct) = 4096 -> ct_dsm ct = 1 ->
  announces_in_page 0xb2 ns ct (lbpu_is true) /\ announces_in_page 0xb0 ns ct (unmap_limits_are 1 256) /\
  forall t cdb bs buffer pl n lun w, idle t -> span_holds w cdb bs -> span_holds w buffer pl -> pages_apart w cdb ->
    unmap_request bs pl n -> unmap_reserved_zero bs -> refuses t cdb buffer lun w.
Proof.
  intros ns ct Ln Lc Hd. destruct (provisioning_announced ns ct Ln Lc) as [A B]. rewrite Hd in A, B. split; [exact A|]. split; [exact B|].
  exact C37_api_refuted.
Qed.
Print Assumptions C102_announced_refuted.

(** ** C103 *)
Lemma mode_data_length ns page wce (dbd : bool) :
  N.of_nat (length (concat (mode6_data (if dbd then None else Some (short_descriptor ns)) page wce))) <= 255.
Proof.
  unfold mode6_data, mode_pages, short_descriptor.
  destruct dbd, (page =? 8), (page =? 10), (page =? 26), wce; cbn [concat]; rewrite ?app_length, ?be_encode_length; vm_compute; discriminate.
Qed.
Lemma mode_announced lun bs ns : mode6_cdb bs -> N.of_nat (length ns) = 4096 -> ns_lbads ns < 32 ->
  mode_announces lun bs ns (fun img => exists wce, img = concat (mode6_data (if ms_dbd bs then None else Some (short_descriptor ns)) (ms_page bs) wce)).
Proof.
  intros [Hl Ho] Ln Hb t w cdb b0 t1 r w1 Hi Hc E Ha.
  destruct (C35_mode_data_partial t w cdb bs b0 lun t1 r w1 Hi Hc Hl Ho E Ha) as (p & X & K). exists p. split.
  - intros Hd. rewrite Hd in X. cbn [app map] in X. eauto.
  - intros w2 cpls buffer sense Hne Hn Hok Hc2 Hm Hlen Hp. destruct cpls as [|cpl cpls]; [contradiction|].
    destruct (K w2 cpl cpls ns buffer sense Hn Hok Hc2 Hm) as (t2 & w3 & E2 & _ & W & _).
    + intros Hd. destruct (Hp Hd) as [P1 P2]. auto.
    + pose proof (mode_data_length ns (ms_page bs) (N.testbit (cpl_dw0 cpl) 0) (ms_dbd bs)). lia.
    + exists t2, w3. eexists. split; [exact E2|]. split; [exact W|]. eauto.
Qed.
Lemma mode_mono lun bs ns (P Q : list byte -> Prop) : (forall l, P l -> Q l) -> mode_announces lun bs ns P -> mode_announces lun bs ns Q.
Proof.
  intros H A t w cdb b0 t1 r w1 Hi Hc E Ha. destruct (A t w cdb b0 t1 r w1 Hi Hc E Ha) as (p & X & F).
  exists p. split; [exact X|]. intros w2 cpls buffer sense H1 H2 H3 H4 H5 H6 H7.
  destruct (F w2 cpls buffer sense H1 H2 H3 H4 H5 H6 H7) as (t2 & w3 & img & R & I & W). eauto 10.
Qed.

(** DPOFUA is announced, and the FUA bit of every READ and WRITE(10/12/16) that
    is accepted reaches the device (bit 30 of dword 12). *)
Theorem C103_force_unit_access : forall ns, N.of_nat (length ns) = 4096 -> ns_lbads ns < 32 ->
  (forall lun bs, mode6_cdb bs -> mode_announces lun bs ns (dpofua_is true)) /\
  forall f t cdb buffer lun w bs t' r w', f <> RW6 -> idle t -> span_holds w cdb bs ->
    byte_at bs 0 = read_opcode f \/ byte_at bs 0 = write_opcode f -> rw_blocks f bs <= 65535 -> len buffer < 2 ^ 32 ->
    Begin t cdb buffer lun w = Ret (t', r) w' -> accepted t' ->
    exists n q, exposes t' = [io n q] /\ N.testbit (q_cdw12 q) 30 = N.testbit (byte_at bs 1) 3.
Proof.
  intros ns Ln Hb. split.
  { intros lun bs Hm. eapply mode_mono; [|apply mode_announced; assumption]. intros img (wce & ->). unfold mode6_data. destruct (ms_dbd bs); reflexivity. }
  intros f t cdb buffer lun w bs t' r w' Hf Hi Hc Ho Hn Hlen E Ha.
  assert (Bit : forall n pr fua, n < 2 ^ 16 -> pr < 16 -> fua < 2 -> N.testbit (n + pr * 2 ^ 26 + fua * 2 ^ 30) 30 = N.testbit fua 0).
  { intros n pr fua H1 H2 H3. rewrite N.testbit_eqb, N.testbit_eqb. change (2 ^ 0) with 1. rewrite N.div_1_r.
    rewrite N.div_add by discriminate. rewrite (N.div_small (n + pr * 2 ^ 26)); [reflexivity|]. change (2 ^ 16) with 65536 in H1. change (2 ^ 26) with 67108864. change (2 ^ 30) with 1073741824. lia. }
  assert (F1 : forall x, bits x 3 1 < 2) by (intros x; unfold bits; rewrite N.land_ones; apply N.mod_lt; discriminate).
  assert (F2 : forall x, N.testbit (bits x 3 1) 0 = N.testbit x 3) by (intros x; unfold bits; rewrite N.land_spec, N.shiftr_spec by lia; cbn; rewrite andb_true_r; reflexivity).
  destruct Ho as [Ho|Ho].
  - destruct (C15_read_accepted_iff f t cdb buffer lun w bs Hi Hc Ho) as (t2 & r2 & w2 & E2 & _ & A & _). rewrite E in E2. apply ret_eq in E2 as [E2 _]. apply pair_eq in E2 as [<- _].
    destruct (proj1 A Ha) as (L & N1 & Hp & Hbuf). destruct (read_prinfo f bs) as [pr|] eqn:Hpr; [|contradiction].
    assert (Hpi : prinfo 15 (rw_protect bs) = Some pr) by (destruct f; [contradiction|exact Hpr..]).
    destruct (C14_read_exact f t cdb buffer lun w bs pr Hf Hi Hc Ho L N1 Hpi Hbuf) as (t3 & E3 & _ & X). rewrite E in E3. apply ret_eq in E3 as [E3 _]. apply pair_eq in E3 as [-> _].
    rewrite X. do 2 eexists. split; [reflexivity|]. cbn [q_cdw12]. rewrite Bit; [apply F2|change (2 ^ 16) with 65536; lia| |apply F1]. eapply prinfo_lt; [|exact Hpi]. lia.
  - destruct (C17_write_accepted_iff f t cdb buffer lun w bs Hi Hc Ho) as (t2 & r2 & w2 & E2 & _ & A). cbv zeta in A. rewrite E in E2. apply ret_eq in E2 as [E2 _]. apply pair_eq in E2 as [<- _].
    destruct (proj1 (proj1 A) Ha) as (L & N1 & Hp). destruct (write_prinfo f bs) as [pr|] eqn:Hpr; [|contradiction].
    destruct (C17_write_exact f t cdb buffer lun w bs pr Hi Hc Ho L (conj N1 Hn) Hpr Hlen) as (t3 & E3 & _ & X). rewrite E in E3. apply ret_eq in E3 as [E3 _]. apply pair_eq in E3 as [-> _].
    rewrite X. do 2 eexists. split; [reflexivity|]. cbn [q_cdw12].
    assert (Hpi : prinfo 8 (rw_protect bs) = Some pr) by (destruct f; [contradiction|exact Hpr..]).
    replace (rw_fua f bs) with (bits (byte_at bs 1) 3 1) by (destruct f; [contradiction|reflexivity..]).
    rewrite Bit; [apply F2|change (2 ^ 16) with 65536; lia| |apply F1]. eapply prinfo_lt; [|exact Hpi]. lia.
Qed.
Print Assumptions C103_force_unit_access.

(** D_SENSE is announced, and sense data are in descriptor format whenever a
    command does not end with GOOD. *)
Theorem C103_descriptor_sense : forall ns, N.of_nat (length ns) = 4096 -> ns_lbads ns < 32 ->
  (forall lun bs, mode6_cdb bs -> In (ms_page bs) [0x0a; 0x3f] -> mode_announces lun bs ns (d_sense_is true)) /\
  forall env t w cpls buffer sense t' s w', reach env true t w -> span_mapped w sense -> 8 <= len sense ->
    Complete t cpls buffer sense w = Ret (t', api_ok s) w' -> s <> GOOD ->
    exists key asc ascq bs, sense_says key asc ascq bs /\ wrote w w' (ptr sense) bs.
Proof.
  intros ns Ln Hb. split.
  { intros lun bs Hm Hp. eapply mode_mono; [|apply mode_announced; assumption]. intros img (wce & ->). unfold mode6_data.
    exists control_page. cbn [In] in Hp. destruct Hp as [<-|[<-|[]]]; destruct (ms_dbd bs), wce; split; reflexivity. }
  intros env t w cpls buffer sense t' s w' R Hm Hl E Hs. pose proof (reach_inv _ _ _ _ R) as I.
  destruct (N.eq_dec (N.of_nat (length cpls)) (nvme_cmd_count t)) as [Hn|Hn].
  2:{ exfalso. destruct (C06_wrong_completion_count _ _ _ cpls buffer sense R Hn) as (t2 & w2 & E2 & _). rewrite E in E2. apply ret_eq in E2 as [E2 _]. apply pair_eq in E2 as [_ E2].
      apply (f_equal cr_status) in E2. discriminate E2. }
  assert (D : accepted t \/ rejected t).
  { unfold accepted, rejected. pose proof (inv_busy _ I). destruct (pipeline_status t); try tauto; right; split; discriminate. }
  destruct D as [Ha|Hr].
  - assert (F : Forall cpl_ok cpls \/ exists pre c post, cpls = pre ++ c :: post /\ Forall cpl_ok pre /\ ~ cpl_ok c).
    { clear. induction cpls as [|c l IH]; [left; constructor|].
      destruct (N.eq_dec (cpl_sct c) 0) as [A|A].
      1: destruct (N.eq_dec (cpl_sc c) 0) as [B|B].
      1: destruct IH as [IH|(pre & c1 & post & -> & F & N)]; [left; constructor; [split; assumption|exact IH]|right; exists (c :: pre), c1, post; split; [reflexivity|split; [constructor; [split; assumption|exact F]|exact N]]].
      all: right; exists [], c, l; split; [reflexivity|split; [constructor|intros [H1 H2]; contradiction]]. }
    destruct F as [F|(pre & c & post & -> & F & N)].
    + exfalso. destruct (Complete_all_ok _ _ _ _ _ _ _ _ Ha Hn F E) as [_ G]. apply Hs. exact G.
    + pose proof (C07_first_failure_decides _ _ _ pre c post buffer sense R Ha Hn F N Hm) as Z.
      destruct (scsi_status_of (cpl_sct c) (cpl_sc c)) as [[[st key] asc] ascq]. destruct Z as (t2 & w2 & E2 & _ & _ & _ & _ & Z). rewrite E in E2. apply ret_eq in E2 as [_ <-].
      destruct (Z Hl) as (bs & Z1 & Z2). exists key, asc, ascq, bs. auto.
  - destruct (C05_untranslatable_is_check_condition _ _ _ buffer sense R Hr Hm) as (X & _ & t2 & w2 & E2 & _ & Z).
    destruct (i_idle _ _ I (proj1 Hr)) as [Hz _]. rewrite Hz in Hn. destruct cpls; [|discriminate Hn]. rewrite E in E2. apply ret_eq in E2 as [_ <-].
    destruct (Z Hl) as (bs & Z1 & Z2). exists 0x5, 0x24, 0, bs. auto.
Qed.
Print Assumptions C103_descriptor_sense.

(** ** C104 *)
Lemma descriptor_announced ns lun bs : mode6_cdb bs -> ms_dbd bs = false -> N.of_nat (length ns) = 4096 -> ns_lbads ns < 24 ->
  mode_announces lun bs ns (descriptor_is (ns_ncap ns mod 2 ^ 32) (2 ^ ns_lbads ns)).
Proof.
  intros Hm Hd Ln Hb. eapply mode_mono; [|apply mode_announced; [exact Hm|exact Ln|lia]]. intros img (wce & ->). rewrite Hd. unfold mode6_data, descriptor_is.
  set (rest := mode_pages (ms_page bs) wce). set (h := header6 _ _).
  assert (E1 : slice 4 4 (concat (h :: short_descriptor ns :: rest)) = be_encode 4 (ns_ncap ns)) by reflexivity.
  assert (E2 : slice 9 3 (concat (h :: short_descriptor ns :: rest)) = be_encode 3 (2 ^ ns_lbads ns)) by reflexivity.
  split; [reflexivity|]. rewrite E1, E2, !be_be_encode. split; [reflexivity|]. apply N.mod_small. change (2 ^ (8 * N.of_nat 3)) with (2 ^ 24). apply N.pow_lt_mono_r; lia.
Qed.
Lemma capacity_announced lun ns : N.of_nat (length ns) = 4096 -> 9 <= ns_lbads ns <= 31 ->
  capacity_announces lun ns (N.min (ns_nsze ns) 0xffffffff) (2 ^ ns_lbads ns).
Proof.
  intros Ln Hb bs buffer Hl Ho Hn Hs. pose proof (C40_read_capacity_partial lun bs ns buffer Hl Ho Hn Ln Hb Hs) as T.
  intros t w cdb b0 t1 r w1 H1 H2 H3 H4. destruct (T t w cdb b0 t1 r w1 H1 H2 H3 H4) as (p & X & C).
  exists p. split; [exact X|]. intros w2 cpl sense A1 A2 A3 A4 A5.
  destruct (C w2 cpl sense A1 A2 A3 A4 A5) as (t2 & w3 & E & I & ((Q & _) & _)). eauto 10.
Qed.

(** The block lengths agree.  Missing for the full claim: the number of blocks, see the
    refutations. *)
Theorem C104_block_length_partial : forall ns lun bs, mode6_cdb bs -> ms_dbd bs = false -> N.of_nat (length ns) = 4096 -> 9 <= ns_lbads ns < 24 ->
  let block := 2 ^ ns_lbads ns in
  capacity_announces lun ns (N.min (ns_nsze ns) 0xffffffff) block /\ mode_announces lun bs ns (descriptor_is (ns_ncap ns mod 2 ^ 32) block).
Proof. intros ns lun bs Hm Hd Ln Hb. split; [apply capacity_announced; [exact Ln|lia]|apply descriptor_announced; try assumption; lia]. Qed.
Print Assumptions C104_block_length_partial.
(** Refuted: a namespace of [n] blocks, 1 to FFFFFFFFh, has by the block
    descriptor [n] blocks and by READ CAPACITY the last address [n], that is
    [n + 1] blocks. *)
Theorem C104_block_count_refuted : forall ns lun bs n, mode6_cdb bs -> ms_dbd bs = false -> N.of_nat (length ns) = 4096 -> 9 <= ns_lbads ns < 24 ->
  ns_ncap ns = n -> ns_nsze ns = n -> 1 <= n <= 0xffffffff ->
  capacity_announces lun ns n (2 ^ ns_lbads ns) /\ mode_announces lun bs ns (descriptor_is n (2 ^ ns_lbads ns)).
Proof.
  intros ns lun bs n Hm Hd Ln Hb Hc Hz Hn. destruct (C104_block_length_partial ns lun bs Hm Hd Ln Hb) as [A B]. rewrite Hz, N.min_l in A by lia.
  rewrite Hc, N.mod_small in B by (change (2 ^ 32) with 4294967296; lia). auto.
Qed.
Print Assumptions C104_block_count_refuted.
(** Refuted: the block descriptor of a namespace of [n >= 2^32] blocks states the
    number modulo 2^32 (it should be FFFFFFFFh): 0 for 2^32 blocks. *)
Theorem C104_large_refuted : forall ns lun bs n, mode6_cdb bs -> ms_dbd bs = false -> N.of_nat (length ns) = 4096 -> 9 <= ns_lbads ns < 24 ->
  ns_ncap ns = n -> ns_nsze ns = n -> 2 ^ 32 <= n ->
  capacity_announces lun ns 0xffffffff (2 ^ ns_lbads ns) /\ mode_announces lun bs ns (descriptor_is (n mod 2 ^ 32) (2 ^ ns_lbads ns)).
Proof.
  intros ns lun bs n Hm Hd Ln Hb Hc Hz Hn. destruct (C104_block_length_partial ns lun bs Hm Hd Ln Hb) as [A B]. change (2 ^ 32) with 4294967296 in *. rewrite Hz, N.min_r in A by lia.
  rewrite Hc in B. auto.
Qed.
Print Assumptions C104_large_refuted.

(** ** C105 *)
Lemma protect_announced ns ct : N.of_nat (length ns) = 4096 -> N.of_nat (length ct) = 4096 ->
  inquiry_announces ns ct (protect_is (negb (ns_dps ns =? 0))).
Proof.
  intros Ln Lc lun bs buffer Hq He Hl. eapply round_trip_mono; [|apply (proj1 (C25_standard_inquiry lun bs ns ct buffer Hq He Ln Lc)); exact Hl].
  intros w w' [W _]. exists (standard_inquiry ns ct). split; [exact W|]. split.
  - unfold standard_inquiry. rewrite !app_length, InquiryFacts.last4_length. unfold ct_mn. rewrite slice_slice, slice_length by lia. reflexivity.
  - unfold protect_is, standard_inquiry. destruct (ns_dps ns =? 0); reflexivity.
Qed.
(** Transfers that ask for no protection checks are accepted on every unit.
    Missing for the full claim: the refusal of the others on units that announce
    no protection. *)
Theorem C105_unprotected_partial : forall ns ct, N.of_nat (length ns) = 4096 -> N.of_nat (length ct) = 4096 -> ns_dps ns = 0 ->
  inquiry_announces ns ct (protect_is false) /\
  forall f t cdb buffer lun w bs, f <> RW6 -> idle t -> span_holds w cdb bs -> (rw_len f <= length bs)%nat -> 1 <= rw_blocks f bs <= 65535 ->
    rw_blocks f bs * 4096 <= len buffer -> rw_protect bs = 0 \/ 6 <= rw_protect bs ->
    byte_at bs 0 = read_opcode f \/ byte_at bs 0 = write_opcode f ->
    exists t' r w', Begin t cdb buffer lun w = Ret (t', r) w' /\ (accepted t' <-> rw_protect bs = 0).
Proof.
  intros ns ct Ln Lc Hd. split; [pose proof (protect_announced ns ct Ln Lc) as P; rewrite Hd in P; exact P|].
  intros f t cdb buffer lun w bs Hf Hi Hc Hl Hn Hb Hp Ho.
  assert (P : forall z, prinfo z (rw_protect bs) <> None <-> rw_protect bs = 0).
  { intros z. destruct Hp as [Hp|Hp]; [rewrite Hp; split; [reflexivity|discriminate]|].
    assert (rw_protect bs < 8) by (unfold rw_protect, bits; rewrite N.land_ones; apply N.mod_lt; discriminate).
    assert (rw_protect bs = 6 \/ rw_protect bs = 7) as [-> | ->] by lia; cbn; split; try contradiction; try discriminate; intros H0; exfalso; apply H0; reflexivity. }
  destruct Ho as [Ho|Ho].
  - destruct (C15_read_accepted_iff f t cdb buffer lun w bs Hi Hc Ho) as (t' & r & w' & E & _ & A & _). exists t', r, w'. split; [exact E|]. rewrite A. unfold read_ok.
    replace (read_prinfo f bs) with (prinfo 15 (rw_protect bs)) by (destruct f; [contradiction|reflexivity..]). rewrite P. tauto.
  - destruct (C17_write_accepted_iff f t cdb buffer lun w bs Hi Hc Ho) as (t' & r & w' & E & _ & A). cbv zeta in A. exists t', r, w'. split; [exact E|]. destruct A as [A _]. rewrite A.
    replace (write_prinfo f bs) with (prinfo 8 (rw_protect bs)) by (destruct f; [contradiction|reflexivity..]). rewrite P. split; [tauto|]. intros. split; [exact Hl|]. split; [lia|assumption].
Qed.
Print Assumptions C105_unprotected_partial.
(** Refuted: a unit that announces no protection accepts READ and WRITE with
    RDPROTECT/WRPROTECT 1 to 5. *)
Theorem C105_protected_refuted : forall ns ct, N.of_nat (length ns) = 4096 -> N.of_nat (length ct) = 4096 -> ns_dps ns = 0 ->
  inquiry_announces ns ct (protect_is false) /\
  forall f t cdb buffer lun w bs, f <> RW6 -> idle t -> span_holds w cdb bs -> (rw_len f <= length bs)%nat -> 1 <= rw_blocks f bs <= 65535 ->
    rw_blocks f bs * 4096 <= len buffer -> 1 <= rw_protect bs <= 5 ->
    byte_at bs 0 = read_opcode f \/ byte_at bs 0 = write_opcode f ->
    exists t' r w', Begin t cdb buffer lun w = Ret (t', r) w' /\ accepted t'.
Proof.
  intros ns ct Ln Lc Hd. split; [pose proof (protect_announced ns ct Ln Lc) as P; rewrite Hd in P; exact P|].
  intros f t cdb buffer lun w bs Hf Hi Hc Hl Hn Hb Hp Ho.
  assert (P : forall z, prinfo z (rw_protect bs) <> None).
  { intros z. assert (rw_protect bs = 1 \/ rw_protect bs = 2 \/ rw_protect bs = 3 \/ rw_protect bs = 4 \/ rw_protect bs = 5) as H by lia.
    destruct H as [-> |[-> |[-> |[-> | -> ]]]]; discriminate. }
  destruct Ho as [Ho|Ho].
  - destruct (C15_read_accepted_iff f t cdb buffer lun w bs Hi Hc Ho) as (t' & r & w' & E & _ & A & _). exists t', r, w'. split; [exact E|]. apply A. unfold read_ok.
    replace (read_prinfo f bs) with (prinfo 15 (rw_protect bs)) by (destruct f; [contradiction|reflexivity..]). auto.
  - destruct (C17_write_accepted_iff f t cdb buffer lun w bs Hi Hc Ho) as (t' & r & w' & E & _ & A). cbv zeta in A. exists t', r, w'. split; [exact E|]. apply A.
    replace (write_prinfo f bs) with (prinfo 8 (rw_protect bs)) by (destruct f; [contradiction|reflexivity..]). split; [exact Hl|]. split; [lia|apply P].
Qed.
Print Assumptions C105_protected_refuted.

(** ** The premises are met *)
Definition ex_ct36 (mdts oncs : N) : list byte := repeat x00 77 ++ B [mdts] ++ repeat x00 442 ++ B [oncs] ++ repeat x00 3575.
Definition ex_ns36 (nsze : list N) (lbads : N) : list byte := B nsze ++ B nsze ++ repeat x00 114 ++ B [lbads] ++ repeat x00 3965.
Example C101_premises_met :
  N.of_nat (length (ex_ct36 4 4)) = 4096 /\ ct_mdts (ex_ct36 4 4) = 4 /\ ct_mdts (ex_ct36 0 4) = 0 /\ ct_mdts (ex_ct36 20 4) = 20 /\
  (* READ(12) of 65536 blocks, READ(10) of 17 *)
  rw_blocks RW12 (B [0xa8;0;0;0;0;0;0;1;0;0;0;0]) = 65536 /\ byte_at (B [0xa8;0;0;0;0;0;0;1;0;0;0;0]) 0 = read_opcode RW12 /\
  rw_blocks RW10 (B [0x28;0;0;0;0;0;0;0;17;0]) = 2 ^ 4 + 1.
Proof. vm_compute. repeat split. Qed.
Example C102_premises_met :
  N.of_nat (length (ex_ct36 4 4)) = 4096 /\ ct_dsm (ex_ct36 4 4) = 1 /\ ct_dsm (ex_ct36 4 0) = 0 /\
  unmap_request (B [0x42;0;0;0;0;0;0;0;24;0]) (B [0;22;0;16;0;0;0;0; 0;0;0;0;0;0;0;5; 0;0;0;1; 0;0;0;0]) 1 /\
  unmap_reserved_zero (B [0x42;0;0;0;0;0;0;0;24;0]).
Proof. vm_compute. repeat split; try discriminate; lia. Qed.
(** the mode data for page 3Fh with a block descriptor *)
Example C103_premises_met : let bs := B [0x1a;0;0x3f;0;255;0] in let ns := ex_ns36 [0;1;0;0;0;0;0;0] 12 in
  mode6_cdb bs /\ ms_dbd bs = false /\ In (ms_page bs) [0x0a; 0x3f] /\ N.of_nat (length ns) = 4096 /\ ns_lbads ns = 12 /\
  mode_page 0x0a (concat (mode6_data (Some (short_descriptor ns)) 0x3f true)) = Some control_page /\
  mode_page 0x08 (concat (mode6_data (Some (short_descriptor ns)) 0x3f true)) = Some (caching_page true) /\
  mode_page 0x1a (concat (mode6_data (Some (short_descriptor ns)) 0x3f true)) = Some power_page.
Proof. vm_compute. repeat split; auto. Qed.
Example C104_premises_met : let ns := ex_ns36 [0;1;0;0;0;0;0;0] 12 in let big := ex_ns36 [0;0;0;0;1;0;0;0] 9 in
  ns_nsze ns = 256 /\ ns_ncap ns = 256 /\ ns_nsze big = 2 ^ 32 /\ ns_ncap big = 2 ^ 32 /\ ns_lbads big = 9.
Proof. vm_compute. repeat split. Qed.
Example C105_premises_met : let bs := B [0x28;0x20;0;0;0;0;0;0;1;0] in
  ns_dps (ex_ns36 [0;1;0;0;0;0;0;0] 12) = 0 /\ rw_protect bs = 1 /\ rw_blocks RW10 bs = 1 /\ (rw_len RW10 <= length bs)%nat.
Proof. cbv zeta. split; [vm_compute; reflexivity|]. split; [reflexivity|]. split; [reflexivity|]. cbn. lia. Qed.
