(** The announced response length is a function of the CDB alone. *)
From Coq Require Import Arith NArith String List Lia Bool Init.Byte.
From Coq Require Import ZifyBool ZifyNat ZifyN.
From Verif Require Import Bytes Layout World ScsiDefs NvmeDefs Common ReadCmds WriteCmds SmallCmds UnmapCmd ModeSenseCmd InquiryCmd TranslationCls
  Spec RwSpec InquirySpec SmallSpec ModeSpec UnmapSpec AcceptSpec
  Facts Logic BeginFacts WireFacts RwFacts AdminFacts InquiryFacts SmallFacts ModeFacts Mode10Facts UnmapFacts RelFacts CatalogFacts ProgFacts AcceptFacts Properties4 Properties9.
Import ListNotations.
Local Open Scope string_scope.
Local Open Scope list_scope.
Local Open Scope N_scope.

Lemma switch_of t cdb buffer lun w bs t' r w' : idle t -> span_holds w cdb bs -> bs <> [] -> Begin t cdb buffer lun w = Ret (t', r) w' ->
  exists t2 w2, Begin_switch (byte_at bs 0) (subspan cdb 1) buffer (nsid_of lun) (started t cdb) 0 w = Ret (t2, br_alloc_len r) w2.
Proof.
  intros (Hs & _ & _) Hc Hb E. unfold Begin in E. rewrite Hs in E. cbn [is_uninitialized negb] in E.
  assert (Hl : (0 < length bs)%nat) by (destruct bs; [contradiction|cbn; lia]).
  destruct (N.eqb_spec (len cdb) 0) as [E0|_]; [destruct Hc as [Hc _]; lia|].
  cbv zeta in E. fold (started t cdb) in E. rewrite nsid_eq in E. unfold bind at 1 in E.
  change 0 with (N.of_nat 0) in E at 1. rewrite (span_at_ok w cdb bs 0 Hc Hl) in E.
  apply bind_ret_inv in E as ([t2 al] & w2 & E1 & E). apply bind_ret_inv in E as (t3 & w3 & _ & E).
  apply ret_eq in E as [E _]. apply pair_eq in E as [_ <-]. exists t2, w2. exact E1.
Qed.

Lemma Legacy_len wr nsid n buffer : n <= 65535 -> snd (LegacyRead wr nsid n kLbaSize buffer) = n * 4096.
Proof.
  intros H. unfold LegacyRead, kLbaSize. cbv zeta. rewrite u32_small by (change (2 ^ 32) with 4294967296; lia).
  destruct (_ <? _); reflexivity.
Qed.
Lemma Read_len p fua n wr nsid buffer al : snd (Read p fua n wr nsid kLbaSize buffer al) = if (1 <=? n) && (n <=? 65535) then n * 4096 else al.
Proof.
  unfold Read. destruct (N.eqb_spec n 0) as [->|H0]; [reflexivity|]. destruct (N.ltb_spec 0xffff n) as [H1|H1].
  { replace (n <=? 65535) with false by lia. rewrite andb_false_r. reflexivity. }
  replace ((1 <=? n) && (n <=? 65535)) with true by lia. cbv zeta.
  assert (X : N.land n 0xffff = n) by (change 0xffff with (N.ones 16); rewrite N.land_ones; apply N.mod_small; change (2 ^ 16) with 65536; lia).
  rewrite X. assert (Y : u16 n = n) by (unfold u16; apply N.mod_small; change (2 ^ 16) with 65536; lia). rewrite Y.
  pose proof (Legacy_len wr nsid n buffer H1) as L. destruct (LegacyRead wr nsid n kLbaSize buffer) as [[st wr1] a]. cbn [snd] in L. subst a.
  destruct st; try reflexivity. destruct (BuildPrinfo p); reflexivity.
Qed.

Definition read_announced (f : rw_form) (bs : list byte) : N :=
  if at_least (rw_len f) bs && (1 <=? rw_blocks f bs) && (rw_blocks f bs <=? 65535) then rw_blocks f bs * 4096 else 0.
Lemma read_ann f cdb bs wr nsid buffer w st wr' al w' : span_holds w cdb bs -> (0 < length bs)%nat ->
  read_fun f (subspan cdb 1) wr nsid kLbaSize buffer 0 w = Ret (st, wr', al) w' -> al = read_announced f bs.
Proof.
  intros Hc H0 E. unfold read_announced, at_least. destruct (le_lt_dec (rw_len f) (length bs)) as [Hl|Hl].
  2:{ replace (Nat.leb (rw_len f) (length bs)) with false by lia. cbn [andb].
      destruct f; cbn [read_fun rw_len] in *; unfold Read6ToNvme, Read10ToNvme, Read12ToNvme, Read16ToNvme, bind in E;
      match type of E with context [ReadValue ?L _] => rewrite (cdb_ReadValue_short L cdb w bs Hc) in E by (cbn; lia) end;
      apply ret_eq in E as [E _]; apply pair_eq in E as [_ <-]; reflexivity. }
  replace (Nat.leb (rw_len f) (length bs)) with true by lia. cbn [andb].
  destruct f; cbn [read_fun rw_len rw_blocks] in *.
  - unfold Read6ToNvme, bind in E. rewrite (cdb_ReadValue Read6Command cdb w bs Hc) in E by (cbn; lia).
    change (sizeof Read6Command) with 5%nat in E. apply ret_eq in E as [E _]. unfold Read6_body in E.
    assert (T : get Read6Command "transfer_length" (le (slice 1 5 bs)) = byte_at bs 4) by (cdb_fields; rewrite le_slice_1 by lia; reflexivity).
    rewrite T in E. cbv zeta in E. pose proof (byte_at_lt bs 4) as B4. set (n := if byte_at bs 4 =? 0 then 256 else byte_at bs 4) in *.
    assert (Hnb : 1 <= n <= 256) by (unfold n; destruct (N.eqb_spec (byte_at bs 4) 0); lia).
    pose proof (Legacy_len wr nsid n buffer ltac:(lia)) as L.
    destruct (LegacyRead wr nsid n kLbaSize buffer) as [[st1 wr1] a1]. cbn [snd] in L. subst a1.
    replace ((1 <=? n) && (n <=? 65535)) with true by lia.
    destruct st1; apply pair_eq in E as [_ <-]; reflexivity.
  - unfold Read10ToNvme, bind in E. rewrite (cdb_ReadValue Read10Command cdb w bs Hc) in E by (cbn; lia).
    change (sizeof Read10Command) with 9%nat in E. apply ret_eq in E as [E _]. unfold Read10_body in E.
    assert (T : ntohs (get Read10Command "transfer_length" (le (slice 1 9 bs))) = be (slice 7 2 bs)).
    { cdb_fields. unfold ntohs. rewrite !bswap_le by (apply slice_length; lia). reflexivity. }
    rewrite T in E. match type of E with context [Read ?p ?f ?n ?wr ?ns _ ?b ?a] => pose proof (Read_len p f n wr ns b a) as L;
      destruct (Read p f n wr ns kLbaSize b a) as [[st1 wr1] a1] end. cbn [snd] in L.
    destruct st1; apply pair_eq in E as [_ <-]; exact L.
  - unfold Read12ToNvme, bind in E. rewrite (cdb_ReadValue Read12Command cdb w bs Hc) in E by (cbn; lia).
    change (sizeof Read12Command) with 11%nat in E. apply ret_eq in E as [E _]. unfold Read12_body in E.
    assert (T : ntohl (get Read12Command "transfer_length" (le (slice 1 11 bs))) = be (slice 6 4 bs)).
    { cdb_fields. unfold ntohl. rewrite !bswap_le by (apply slice_length; lia). reflexivity. }
    rewrite T in E. match type of E with context [Read ?p ?f ?n ?wr ?ns _ ?b ?a] => pose proof (Read_len p f n wr ns b a) as L;
      destruct (Read p f n wr ns kLbaSize b a) as [[st1 wr1] a1] end. cbn [snd] in L.
    destruct st1; apply pair_eq in E as [_ <-]; exact L.
  - unfold Read16ToNvme, bind in E. rewrite (cdb_ReadValue Read16Command cdb w bs Hc) in E by (cbn; lia).
    change (sizeof Read16Command) with 15%nat in E. apply ret_eq in E as [E _]. unfold Read16_body in E.
    assert (T : ntohl (get Read16Command "transfer_length" (le (slice 1 15 bs))) = be (slice 10 4 bs)).
    { cdb_fields. unfold ntohl. rewrite !bswap_le by (apply slice_length; lia). reflexivity. }
    rewrite T in E. match type of E with context [Read ?p ?f ?n ?wr ?ns _ ?b ?a] => pose proof (Read_len p f n wr ns b a) as L;
      destruct (Read p f n wr ns kLbaSize b a) as [[st1 wr1] a1] end. cbn [snd] in L.
    destruct st1; apply pair_eq in E as [_ <-]; exact L.
Qed.
Lemma read_switch_ann f cdb bs buffer nsid t w t2 al w2 : span_holds w cdb bs -> (0 < length bs)%nat ->
  Begin_switch (read_opcode f) (subspan cdb 1) buffer nsid t 0 w = Ret (t2, al) w2 -> al = read_announced f bs.
Proof.
  intros Hc H0 E. rewrite read_switch in E. unfold Begin_Read in E. apply bind_ret_inv in E as ([[st wr] rl] & w3 & E1 & E). cbv beta zeta iota in E.
  apply ret_eq in E as [E _]. apply pair_eq in E as [_ <-]. eapply read_ann; eassumption.
Qed.
Lemma write_switch_ann f cdb buffer nsid t w t2 al w2 :
  Begin_switch (write_opcode f) (subspan cdb 1) buffer nsid t 0 w = Ret (t2, al) w2 -> al = 0.
Proof.
  intros E. rewrite write_switch in E. unfold Begin_Write in E. apply bind_ret_inv in E as ([st wr] & w3 & _ & E). cbv beta zeta iota in E.
  apply ret_eq in E as [E _]. apply pair_eq in E as [_ <-]. reflexivity.
Qed.

(** ** the others *)
Lemma mode6_ann cdb bs wrs al ps nsid k rl w st wrs' al' n x w' : span_holds w cdb bs -> (0 < length bs)%nat ->
  ModeSense6ToNvme (subspan cdb 1) wrs al ps nsid k rl w = Ret (st, wrs', al', n, x) w' -> x = if at_least 6 bs then byte_at bs 4 else rl.
Proof.
  intros Hc H0 E. unfold ModeSense6ToNvme in E. unfold at_least. destruct (le_lt_dec 6 (length bs)) as [Hl|Hl].
  - replace (Nat.leb 6 (length bs)) with true by lia. unfold bind at 1 in E. rewrite (cdb_ReadValue ModeSense6Command cdb w bs Hc) in E by (cbn; lia).
    change (sizeof ModeSense6Command) with 5%nat in E. cbv zeta in E. rewrite (ms_alloc_eq bs Hl) in E.
    apply bind_ret_inv in E as ([[[a b] c] d] & w3 & _ & E). apply ret_eq in E as [E _]. apply pair_eq in E as [_ <-]. reflexivity.
  - replace (Nat.leb 6 (length bs)) with false by lia. unfold bind at 1 in E. rewrite (cdb_ReadValue_short ModeSense6Command cdb w bs Hc) in E by (cbn; lia).
    apply ret_eq in E as [E _]. apply pair_eq in E as [_ <-]. reflexivity.
Qed.
Lemma begin_mode6_ann cdb bs nsid t rl w t2 al w2 : span_holds w cdb bs -> (0 < length bs)%nat ->
  Begin_ModeSense6 (subspan cdb 1) nsid t rl w = Ret (t2, al) w2 -> al = if at_least 6 bs then byte_at bs 4 else rl.
Proof.
  intros Hc H0 E. unfold Begin_ModeSense6 in E. apply bind_ret_inv in E as ([[[[a b] c] d] x] & w3 & E1 & E). cbv beta zeta iota in E.
  apply ret_eq in E as [E _]. apply pair_eq in E as [_ <-]. eapply mode6_ann; eassumption.
Qed.
Lemma mode10_ann cdb bs wrs al ps nsid k w st wrs' al' n x w' : span_holds w cdb bs -> (0 < length bs)%nat ->
  ModeSense10ToNvme (subspan cdb 1) wrs al ps nsid k 0 w = Ret (st, wrs', al', n, x) w' -> x = if at_least 10 bs then be (slice 7 2 bs) else 0.
Proof.
  intros Hc H0 E. unfold ModeSense10ToNvme in E. unfold at_least. destruct (le_lt_dec 10 (length bs)) as [Hl|Hl].
  - replace (Nat.leb 10 (length bs)) with true by lia. unfold bind at 1 in E. rewrite (cdb_ReadValue ModeSense10Command cdb w bs Hc) in E by (cbn; lia).
    change (sizeof ModeSense10Command) with 9%nat in E. cbv zeta in E. rewrite (ms10_alloc_eq bs Hl) in E.
    apply bind_ret_inv in E as ([[[a b] c] d] & w3 & _ & E). apply ret_eq in E as [E _]. apply pair_eq in E as [_ <-]. reflexivity.
  - replace (Nat.leb 10 (length bs)) with false by lia. unfold bind at 1 in E. rewrite (cdb_ReadValue_short ModeSense10Command cdb w bs Hc) in E by (cbn; lia).
    apply ret_eq in E as [E _]. apply pair_eq in E as [_ <-]. reflexivity.
Qed.
Lemma validate_ann cdb bs rl w st x w' : span_holds w cdb bs -> (0 < length bs)%nat ->
  ValidateReportSupportedOpCodes (subspan cdb 1) rl w = Ret (st, x) w' ->
  w' = w /\ x = if at_least 12 bs && (byte_at bs 3 =? 0x93) && (byte_at bs 2 mod 8 =? 1) then 4 else rl.
Proof.
  intros Hc H0 E. unfold ValidateReportSupportedOpCodes, bind in E. unfold at_least. destruct (le_lt_dec 12 (length bs)) as [Hl|Hl].
  - replace (Nat.leb 12 (length bs)) with true by lia. cbn [andb]. rewrite (cdb_ReadValue ReportOpCodesCommand cdb w bs Hc) in E by (cbn; lia).
    change (sizeof ReportOpCodesCommand) with 11%nat in E.
    assert (E1 : get ReportOpCodesCommand "reporting_options" (le (slice 1 11 bs)) = byte_at bs 2 mod 8).
    { cdb_fields. unfold bits. rewrite N.shiftr_0_r, N.land_ones. reflexivity. }
    assert (E2 : get ReportOpCodesCommand "requested_op_code" (le (slice 1 11 bs)) = byte_at bs 3).
    { cdb_fields. rewrite slice_1 by lia. unfold byte_at. cbn [le]. lia. }
    rewrite E1, E2 in E. apply ret_eq in E as [E <-]. split; [reflexivity|].
    change kWriteSame16 with 0x93 in E. destruct (byte_at bs 3 =? 0x93), (byte_at bs 2 mod 8 =? 1); cbn [negb orb andb] in *; apply pair_eq in E as [_ <-]; reflexivity.
  - replace (Nat.leb 12 (length bs)) with false by lia. rewrite (cdb_ReadValue_short ReportOpCodesCommand cdb w bs Hc) in E by (cbn; lia).
    apply ret_eq in E as [E <-]. apply pair_eq in E as [_ <-]. split; reflexivity.
Qed.
Lemma luns_ann cdb bs t rl w t2 al w2 : span_holds w cdb bs -> (0 < length bs)%nat -> Begin_ReportLuns (subspan cdb 1) t rl w = Ret (t2, al) w2 ->
  al = if at_least 12 bs && (byte_at bs 2 <=? 2) then be (slice 6 4 bs) else rl.
Proof.
  intros Hc H0 E. unfold Begin_ReportLuns in E. apply bind_ret_inv in E as ([[[a b] c] x] & w3 & E1 & E). cbv beta zeta iota in E.
  apply ret_eq in E as [E _]. apply pair_eq in E as [_ <-]. unfold ReportLunsToNvme in E1. unfold at_least.
  destruct (le_lt_dec 12 (length bs)) as [Hl|Hl].
  - replace (Nat.leb 12 (length bs)) with true by lia. cbn [andb]. unfold bind at 1 in E1. rewrite (cdb_ReadValue ReportLunsCommand cdb w bs Hc) in E1 by (cbn; lia).
    change (sizeof ReportLunsCommand) with 11%nat in E1. cbv zeta in E1. rewrite (rl_alloc bs Hl) in E1.
    rewrite (rl_select bs Hl) in E1. unfold select_report in E1. change (report_alloc_len bs) with (be (slice 6 4 bs)) in E1.
    destruct (N.leb_spec (byte_at bs 2) 2) as [H2|H2].
    + replace (negb (byte_at bs 2 =? 0) && negb (byte_at bs 2 =? 1) && negb (byte_at bs 2 =? 2)) with false in E1 by lia.
      apply bind_ret_inv in E1 as ([st al] & w4 & _ & E1). destruct (is_failure st); apply ret_eq in E1 as [E1 _]; apply pair_eq in E1 as [_ <-]; reflexivity.
    + replace (negb (byte_at bs 2 =? 0) && negb (byte_at bs 2 =? 1) && negb (byte_at bs 2 =? 2)) with true in E1 by lia.
      apply ret_eq in E1 as [E1 _]; apply pair_eq in E1 as [_ <-]; reflexivity.
  - replace (Nat.leb 12 (length bs)) with false by lia. unfold bind at 1 in E1. rewrite (cdb_ReadValue_short ReportLunsCommand cdb w bs Hc) in E1 by (cbn; lia).
    apply ret_eq in E1 as [E1 _]. apply pair_eq in E1 as [_ <-]. reflexivity.
Qed.
Definition report_announced (bs : list byte) (k : N) : N :=
  if at_least 12 bs then
    if byte_at bs 2 <=? 2 then be (slice 6 4 bs)
    else if (byte_at bs 3 =? 0x93) && (byte_at bs 2 mod 8 =? 1) then 4 else k
  else k.
Lemma maint_ann cdb bs t rl w t2 al w2 : span_holds w cdb bs -> (0 < length bs)%nat -> Begin_MaintenanceIn (subspan cdb 1) t rl w = Ret (t2, al) w2 ->
  al = report_announced bs rl.
Proof.
  intros Hc H0 E. unfold Begin_MaintenanceIn in E. apply bind_ret_inv in E as ([st x] & w3 & E1 & E). cbv beta zeta iota in E.
  apply (validate_ann cdb bs) in E1 as [-> X]; [|exact Hc|exact H0]. apply (luns_ann cdb bs) in E; [|exact Hc|exact H0]. subst al x. unfold report_announced.
  destruct (at_least 12 bs); cbn [andb]; [|reflexivity]. destruct (byte_at bs 2 <=? 2); reflexivity.
Qed.

(** pages apart from the CDB leave it alone *)
Lemma mode_keeps a wrs al nsid k w st wrs' al' n w' s bs : ModeSenseToNvme a wrs al kPageSize nsid k w = Ret (st, wrs', al', n) w' ->
  pages_apart w s -> span_holds w s bs -> span_holds w' s bs.
Proof.
  intros E Hp Hs. unfold ModeSenseToNvme in E. apply bind_ret_inv in E as ([[[st1 wrs1] al1] k1] & w1 & E1 & E).
  assert (H1 : span_holds w1 s bs).
  { destruct (ca_dbd a); [apply ret_eq in E1 as [_ <-]; exact Hs|]. destruct (aget wrs k) as [wr|]; [|discriminate E1].
    apply bind_ret_inv in E1 as ([[st2 wr2] al2] & w2 & E2 & E1). apply ret_eq in E1 as [_ E1]. subst w1.
    unfold GenerateBlockDescriptorIdentifyCmd in E2. apply bind_ret_inv in E2 as ([st3 al3] & w3 & E3 & E2).
    assert (Hw : w3 = w2) by (destruct (is_failure st3); apply ret_eq in E2 as [_ E2]; exact E2). subst w3.
    apply (SetPages_mem _ _ _ _ _ _ E3 Hp Hs). }
  assert (Hw : w1 = w'); [|subst; exact H1].
  destruct (negb (is_success st1)); [apply ret_eq in E as [_ <-]; reflexivity|].
  destruct (negb (ca_page_code a =? kCacheMode) && negb (ca_page_code a =? kAllSupportedModes)).
  - destruct ((ca_page_code a =? kControlMode) || (ca_page_code a =? kPowerConditionMode)); apply ret_eq in E as [_ <-]; reflexivity.
  - destruct (aget wrs1 k1); [|discriminate E]. destruct (GenerateCacheGetFeaturesCmd n0 (ca_pc a) nsid). apply ret_eq in E as [_ <-]. reflexivity.
Qed.
Lemma mode10_keeps cdb bs wrs al nsid k rl w st wrs' al' n x w' : span_holds w cdb bs -> pages_apart w cdb ->
  ModeSense10ToNvme (subspan cdb 1) wrs al kPageSize nsid k rl w = Ret (st, wrs', al', n, x) w' -> span_holds w' cdb bs.
Proof.
  intros Hs Hp E. unfold ModeSense10ToNvme in E. apply bind_ret_inv in E as (o & w1 & E1 & E).
  assert (w1 = w). { unfold ReadValue in E1. destruct (_ <? _); [apply ret_eq in E1 as [_ <-]; reflexivity|]. apply bind_ret_inv in E1 as (b & w2 & E2 & E1).
    apply ret_eq in E1 as [_ <-]. unfold load in E2. destruct (load_bytes _ _ _) in E2; [|discriminate E2]. injection E2 as _ <-. reflexivity. }
  subst w1. destruct o as [c|]; [|apply ret_eq in E as [_ <-]; exact Hs].
  cbv zeta in E. apply bind_ret_inv in E as ([[[a b] d] e] & w2 & E2 & E). apply ret_eq in E as [_ <-]. eapply mode_keeps; eassumption.
Qed.
Lemma unmap_keeps cdb bs buffer pl wr lun al w st wr' al' w' : span_holds w cdb bs -> span_holds w buffer pl -> pages_apart w cdb -> byte_at bs 0 = 0x42 -> data_addr al = 0 ->
  UnmapToNvme (subspan cdb 1) buffer wr kPageSize (nsid_of lun) al w = Ret (st, wr', al') w' -> span_holds w' cdb bs.
Proof.
  intros Hc Hb Hap Ho Zd E. destruct (unmap_dec bs pl Ho) as [(_ & n & D)|(_ & D)].
  - destruct (unmap_ok cdb bs buffer pl n wr (nsid_of lun) al w) as
      [(p & m & wr1 & w1 & E1 & Hp & T & K & _ & _ & H)|(al1 & w1 & E1 & K & H & Hz & C)]; try assumption.
    + unfold nsid_of. apply N.mod_lt. discriminate.
    + rewrite E in E1. apply ret_eq in E1 as [_ <-]. exact H.
    + rewrite E in E1. apply ret_eq in E1 as [_ <-]. exact H.
  - destruct (unmap_bad cdb bs buffer pl wr (nsid_of lun) al w Hc Hb Ho D) as (st1 & E1 & _). rewrite E in E1. apply ret_eq in E1 as [_ <-]. exact Hc.
Qed.

Lemma not_known_announced bs : ~ In (byte_at bs 0) known_opcodes -> announced bs = 0.
Proof.
  intros Hk. unfold announced. cbv zeta. revert Hk. generalize (byte_at bs 0) as x. intros x Hk.
  destruct x as [|x]; [exfalso; apply Hk; vm_compute; tauto|].
  do 8 (destruct x as [x|x|]; try reflexivity; try (exfalso; apply Hk; vm_compute; tauto)).
Qed.

Lemma naca_no bs i : no_naca i bs = negb (naca i bs =? 1).
Proof. unfold no_naca, naca. rewrite <- bit_testbit. reflexivity. Qed.

Theorem Begin_announces t cdb buffer lun w bs pl t' r w' : idle t -> span_holds w cdb bs ->
  (byte_at bs 0 = 0x42 -> span_holds w buffer pl /\ pages_apart w cdb) -> (byte_at bs 0 = 0x5a -> pages_apart w cdb) ->
  Begin t cdb buffer lun w = Ret (t', r) w' -> br_alloc_len r = announced bs.
Proof.
  intros Hi Hc Hu Hm E. destruct (list_eq_dec Byte.byte_eq_dec bs []) as [->|Hne].
  { destruct Hi as (Hs & _). unfold Begin in E. rewrite Hs in E. cbn [is_uninitialized negb] in E. destruct Hc as [Hl _]. cbn in Hl. rewrite Hl in E.
    change (0 =? 0) with true in E. apply ret_eq in E as [E _]. apply pair_eq in E as [_ <-]. reflexivity. }
  assert (H0 : (0 < length bs)%nat) by (destruct bs; [contradiction|cbn; lia]).
  destruct (switch_of t cdb buffer lun w bs t' r w' Hi Hc Hne E) as (t2 & w2 & S). clear E. set (al := br_alloc_len r) in *. clearbody al.
  destruct (in_dec N.eq_dec (byte_at bs 0) known_opcodes) as [Hk|Hk].
  2:{ rewrite not_known_announced by exact Hk. unfold Begin_switch in S.
      set (o := byte_at bs 0) in *.
      repeat match type of S with context [o =? ?k] =>
        let H := fresh in assert (H : (o =? k) = false) by (apply N.eqb_neq; intros X; apply Hk; rewrite X; vm_compute; tauto); rewrite H in S; clear H end.
      cbn [orb] in S.
      apply ret_eq in S as [S _]. apply pair_eq in S as [_ <-]. reflexivity. }
  cbn [known_opcodes In] in Hk. repeat (destruct Hk as [Hk|Hk]); try contradiction; symmetry in Hk; rewrite Hk in S; unfold announced; rewrite Hk; cbv zeta.
  - change (Begin_switch 0x12) with (fun c (_ : span) => Begin_Inquiry c) in S. cbv beta in S. unfold Begin_Inquiry in S.
    apply bind_ret_inv in S as ([[[[[a b] c] d] e] x] & w3 & E1 & S). cbv beta zeta iota in S. apply ret_eq in S as [S _]. apply pair_eq in S as [_ <-].
    unfold InquiryToNvme in E1. unfold at_least. destruct (le_lt_dec 6 (length bs)) as [Hl|Hl].
    + replace (Nat.leb 6 (length bs)) with true by lia. unfold bind at 1 in E1. rewrite (cdb_ReadValue InquiryCommand cdb w bs Hc) in E1 by (cbn; lia).
      change (sizeof InquiryCommand) with 5%nat in E1. cbv zeta in E1. rewrite (inq_alloc_eq bs Hl) in E1.
      apply bind_ret_inv in E1 as ([st1 al1] & w4 & _ & E1). destruct (negb (is_success st1)); [apply ret_eq in E1 as [E1 _]; apply pair_eq in E1 as [_ <-]; reflexivity|].
      apply bind_ret_inv in E1 as ([st2 al2] & w5 & _ & E1). destruct (negb (is_success st2)); apply ret_eq in E1 as [E1 _]; apply pair_eq in E1 as [_ <-]; reflexivity.
    + replace (Nat.leb 6 (length bs)) with false by lia. unfold bind at 1 in E1. rewrite (cdb_ReadValue_short InquiryCommand cdb w bs Hc) in E1 by (cbn; lia).
      apply ret_eq in E1 as [E1 _]. apply pair_eq in E1 as [_ <-]. reflexivity.
  - destruct (Hu Hk) as [Hb Hap]. change (Begin_switch 0x42) with Begin_Unmap in S. unfold Begin_Unmap in S.
    apply bind_ret_inv in S as ([[a b] c] & w3 & E1 & S). cbv beta zeta iota in S.
    pose proof Hi as (_ & _ & Hh). apply held_nil in Hh as (Z0 & _ & _).
    assert (Hc3 : span_holds w3 cdb bs) by (eapply unmap_keeps; [exact Hc|exact Hb|exact Hap|exact Hk|exact (empty_data _ Z0)|exact E1]).
    exact (begin_mode6_ann _ _ _ _ _ _ _ _ _ Hc3 H0 S).
  - change (Begin_switch 0x1a) with (fun c (_ : span) => Begin_ModeSense6 c) in S. cbv beta in S. exact (begin_mode6_ann _ _ _ _ _ _ _ _ _ Hc H0 S).
  - change (Begin_switch 0x5a) with (fun c (_ : span) => Begin_ModeSense10 c) in S. cbv beta in S. unfold Begin_ModeSense10 in S.
    apply bind_ret_inv in S as ([[[[a b] c] d] x] & w3 & E1 & S). cbv beta zeta iota in S.
    pose proof (mode10_keeps _ _ _ _ _ _ _ _ _ _ _ _ _ _ Hc (Hm Hk) E1) as Hc3.
    apply (mode10_ann _ bs) in E1; [|exact Hc|exact H0]. subst x. exact (maint_ann _ _ _ _ _ _ _ _ Hc3 H0 S).
  - change (Begin_switch 0xa3) with (fun c (_ : span) (_ : N) => Begin_MaintenanceIn c) in S. cbv beta in S. exact (maint_ann _ _ _ _ _ _ _ _ Hc H0 S).
  - change (Begin_switch 0xa0) with (fun c (_ : span) (_ : N) => Begin_ReportLuns c) in S. cbv beta in S. exact (luns_ann _ _ _ _ _ _ _ _ Hc H0 S).
  - change (Begin_switch 0x25) with (fun c (_ : span) => Begin_ReadCapacity10 c) in S. cbv beta in S. unfold Begin_ReadCapacity10 in S.
    apply bind_ret_inv in S as ([[[a b] c] x] & w3 & E1 & S). cbv beta zeta iota in S. apply ret_eq in S as [S _]. apply pair_eq in S as [_ <-].
    unfold ReadCapacity10ToNvme in E1. unfold at_least. destruct (le_lt_dec 10 (length bs)) as [Hl|Hl].
    + replace (Nat.leb 10 (length bs)) with true by lia. cbn [andb]. unfold bind at 1 in E1. rewrite (cdb_ReadValue ReadCapacity10Command cdb w bs Hc) in E1 by (cbn; lia).
      change (sizeof ReadCapacity10Command) with 9%nat in E1. cbv zeta in E1. rewrite (rc_naca bs Hl) in E1. rewrite naca_no.
      destruct (naca 9 bs =? 1); cbn [negb].
      * apply ret_eq in E1 as [E1 _]. apply pair_eq in E1 as [_ <-]. reflexivity.
      * apply bind_ret_inv in E1 as ([st1 al1] & w4 & _ & E1). destruct (negb (is_success st1)); apply ret_eq in E1 as [E1 _]; apply pair_eq in E1 as [_ <-]; reflexivity.
    + replace (Nat.leb 10 (length bs)) with false by lia. unfold bind at 1 in E1. rewrite (cdb_ReadValue_short ReadCapacity10Command cdb w bs Hc) in E1 by (cbn; lia).
      apply ret_eq in E1 as [E1 _]. apply pair_eq in E1 as [_ <-]. reflexivity.
  - change (Begin_switch 0x03) with (fun c (_ : span) (_ : N) => Begin_RequestSense c) in S. cbv beta in S. unfold Begin_RequestSense in S.
    apply bind_ret_inv in S as ([a x] & w3 & E1 & S). cbv beta zeta iota in S. apply ret_eq in S as [S _]. apply pair_eq in S as [_ <-].
    unfold RequestSenseToNvme, bind in E1. unfold at_least. destruct (le_lt_dec 6 (length bs)) as [Hl|Hl].
    + replace (Nat.leb 6 (length bs)) with true by lia. cbn [andb]. rewrite (cdb_ReadValue RequestSenseCommand cdb w bs Hc) in E1 by (cbn; lia).
      change (sizeof RequestSenseCommand) with 5%nat in E1. rewrite (rs_naca bs Hl), (rs_alloc bs Hl) in E1. rewrite naca_no. apply ret_eq in E1 as [E1 _].
      destruct (naca 5 bs =? 1); cbn [negb]; apply pair_eq in E1 as [_ <-]; reflexivity.
    + replace (Nat.leb 6 (length bs)) with false by lia. rewrite (cdb_ReadValue_short RequestSenseCommand cdb w bs Hc) in E1 by (cbn; lia).
      apply ret_eq in E1 as [E1 _]. apply pair_eq in E1 as [_ <-]. reflexivity.
  - exact (read_switch_ann RW6 _ _ _ _ _ _ _ _ _ Hc H0 S).
  - exact (read_switch_ann RW10 _ _ _ _ _ _ _ _ _ Hc H0 S).
  - exact (read_switch_ann RW12 _ _ _ _ _ _ _ _ _ Hc H0 S).
  - exact (read_switch_ann RW16 _ _ _ _ _ _ _ _ _ Hc H0 S).
  - change (Begin_switch 0x35) with (fun (_ : span) (_ : span) => Begin_Sync10) in S. apply ret_eq in S as [S _]. apply pair_eq in S as [_ <-]. reflexivity.
  - change (Begin_switch 0x2f) with (fun c (_ : span) (_ : N) => Begin_Verify10 c) in S. cbv beta in S. unfold Begin_Verify10 in S.
    apply bind_ret_inv in S as ([a x] & w3 & E1 & S). cbv beta zeta iota in S. apply ret_eq in S as [S _]. apply pair_eq in S as [_ <-]. reflexivity.
  - apply ret_eq in S as [S _]. apply pair_eq in S as [_ <-]. reflexivity.
  - exact (write_switch_ann RW6 _ _ _ _ _ _ _ _ S).
  - exact (write_switch_ann RW10 _ _ _ _ _ _ _ _ S).
  - exact (write_switch_ann RW12 _ _ _ _ _ _ _ _ S).
  - exact (write_switch_ann RW16 _ _ _ _ _ _ _ _ S).
Qed.
