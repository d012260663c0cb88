(** INQUIRY: from the CDB to the two Identify commands and back. *)
From Coq Require Import Arith NArith String List Lia Bool Init.Byte Permutation.
From Coq Require Import ZifyBool ZifyNat ZifyN.
From Verif Require Import Bytes Layout World ScsiDefs NvmeDefs Common ReadCmds WriteCmds SmallCmds
  UnmapCmd StatusCmd ModeSenseCmd InquiryCmd TranslationCls Spec Facts Logic BeginFacts CompleteFacts
  WireFacts StatusFacts RwSpec RwFacts InquirySpec AdminFacts.
Import ListNotations.
Local Open Scope string_scope.
Local Open Scope list_scope.
Local Open Scope N_scope.

(** ** Forward *)
Definition inquiry_pending (t : Translation) (cdb : span) (lun p q : N) : Prop :=
  wf t /\ accepted t /\ scsi_cmd_ t = cdb /\ nvme_cmd_count t = 2 /\
  get GenericCmd "prp1" (cmd (e0 (nvme_wrappers t))) = p /\
  get GenericCmd "nsid" (cmd (e0 (nvme_wrappers t))) = nsid_of lun /\
  get GenericCmd "prp1" (cmd (e1 (nvme_wrappers t))) = q.

Lemma inq_alloc_eq bs : (6 <= length bs)%nat ->
  ntohs (get InquiryCommand "allocation_length" (le (slice 1 5 bs))) = inq_alloc_len bs.
Proof.
  intros H. cdb_fields. unfold ntohs, inq_alloc_len. rewrite bswap_le by (apply slice_length; lia). reflexivity.
Qed.


Definition mk_alloc (p m : N) : Allocation :=
  {| data_addr := p; data_page_count := 1; mdata_addr := m; mdata_page_count := 0 |}.

Lemma InquiryToNvme_case cdb bs wn wc lun a0 a1 al w : span_holds w cdb bs -> (6 <= length bs)%nat ->
  data_addr a0 = 0 -> data_addr a1 = 0 ->
  exists st wn' wc' a0' a1' w',
    InquiryToNvme (subspan cdb 1) wn wc kPageSize (nsid_of lun) a0 a1 al w =
      Ret (st, wn', wc', a0', a1', inq_alloc_len bs) w' /\
    ((st = kSuccess /\ exists p q m n, p <> 0 /\ q <> 0 /\
        trace w' = trace w ++ [EvAlloc 4096 1 p; EvAlloc 4096 0 m] ++ [EvAlloc 4096 1 q; EvAlloc 4096 0 n] /\
        a0' = mk_alloc p m /\ a1' = mk_alloc q n /\
        view wn' = admin 4096 (identify_sqe 0 (nsid_of lun) p) /\ view wc' = admin 4096 (identify_sqe 1 0 q) /\
        get GenericCmd "prp1" (cmd wn') = p /\ get GenericCmd "nsid" (cmd wn') = nsid_of lun /\
        get GenericCmd "prp1" (cmd wc') = q) \/
     (st = kFailure /\ out_of_pages w w')).
Proof.
  intros Hc Hl H0 H1. unfold InquiryToNvme, bind at 1.
  rewrite (cdb_ReadValue InquiryCommand cdb w bs Hc) by (cbn; lia).
  change (sizeof InquiryCommand) with 5%nat. rewrite (inq_alloc_eq bs Hl). cbv zeta.
  destruct (SetPages_case a0 w H0) as (st & a0' & w1 & E & K & C). unfold bind at 1. rewrite E.
  destruct C as [(-> & p & m & Hp & Hp' & Ht & ->)|(-> & Hz & C)].
  2:{ cbn [is_success negb]. do 6 eexists. split; [reflexivity|]. right. split; [reflexivity|].
      destruct C as [C|(m & C)]; [left; exact C|right]. eexists. split; [exact C|]. left. reflexivity. }
  cbn [is_success negb]. destruct (SetPages_case a1 w1 H1) as (st & a1' & w2 & E2 & K2 & C). unfold bind at 1. rewrite E2.
  destruct C as [(-> & q & n & Hq & Hq' & Ht2 & ->)|(-> & Hz & C)].
  2:{ cbn [is_success negb]. do 6 eexists. split; [reflexivity|]. right. split; [reflexivity|].
      destruct C as [C|(n & C)].
      - left. rewrite <- (sc_alloc _ _ K). exact C.
      - right. rewrite Ht, <- app_assoc in C. eexists. split; [exact C|]. right. right. left. reflexivity. }
  cbn [is_success negb]. do 6 eexists. split; [reflexivity|]. left. split; [reflexivity|].
  exists p, q, m, n. split; [exact Hp|]. split; [exact Hq|]. split; [rewrite Ht2, Ht, <- app_assoc; reflexivity|].
  split; [reflexivity|]. split; [reflexivity|].
  cbn [data_addr].
  split; [|split; [|split; [|split]]].
  - unfold view, admin. cbn [cmd set_cmd set_is_admin set_buffer_len is_admin buffer_len]. f_equal. wire_tac.
  - unfold view, admin. cbn [cmd set_cmd set_is_admin set_buffer_len is_admin buffer_len]. f_equal. wire_tac.
  - cbn [cmd set_cmd set_is_admin set_buffer_len]. fields. bits_simpl. rewrite bits_low. apply N.mod_small. exact Hp'.
  - cbn [cmd set_cmd set_is_admin set_buffer_len]. fields. bits_simpl. rewrite bits_low. apply N.mod_small. apply nsid_lt.
  - cbn [cmd set_cmd set_is_admin set_buffer_len]. fields. bits_simpl. rewrite bits_low. apply N.mod_small. exact Hq'.
Qed.

Lemma Begin_inquiry_case t cdb buffer lun w bs : idle t -> span_holds w cdb bs -> inquiry_cdb bs ->
  exists t' w', Begin t cdb buffer lun w = Ret (t', begin_ok (inq_alloc_len bs)) w' /\
    ((exists p q ev1 ev2, inquiry_pending t' cdb lun p q /\ p <> 0 /\ q <> 0 /\
        page_request p ev1 /\ page_request q ev2 /\ trace w' = trace w ++ ev1 ++ ev2 /\
        exposes t' = [admin 4096 (identify_sqe 0 (nsid_of lun) p); admin 4096 (identify_sqe 1 0 q)] /\
        In (p, 1) (held t') /\ In (q, 1) (held t')) \/
     (out_of_pages w w' /\ rejected t' /\ exposes t' = [] /\ held t' = [])).
Proof.
  intros Hi Hc (Hl & Ho).
  assert (Hne : bs <> []) by (intros ->; cbn in Hl; lia).
  pose proof Hi as (_ & _ & Hh). apply held_nil in Hh as (Z0 & Z1 & Z2).
  destruct (InquiryToNvme_case cdb bs (e0 (nvme_wrappers (started t cdb))) (e1 (nvme_wrappers (started t cdb))) lun
    (e0 (allocations (started t cdb))) (e1 (allocations (started t cdb))) 0 w Hc Hl (empty_data _ Z0) (empty_data _ Z1))
    as (st & wn & wc & a0 & a1 & w' & E & C).
  match type of C with _ \/ ?Q => assert (Hs : exists t2, Begin_switch 0x12 (subspan cdb 1) buffer (nsid_of lun) (started t cdb) 0 w
     = Ret (t2, inq_alloc_len bs) w' /\ t2 = set_count (set_status (set_allocations (set_wrappers (started t cdb)
     (Build_arr3 wn wc (e2 (nvme_wrappers t)))) (Build_arr3 a0 a1 (e2 (allocations t)))) st) 2) end.
  { eexists. split; [|reflexivity]. change (Begin_switch 0x12) with (fun c (_ : span) => Begin_Inquiry c). cbv beta.
    unfold Begin_Inquiry. cbv zeta. unfold bind at 1. rewrite E. reflexivity. }
  destruct Hs as (t2 & Es & Et2).
  destruct C as [(-> & p & q & m & n & Hp & Hq & Ht & -> & -> & V0 & V1 & G0 & G1 & G2)|(-> & Hout)].
  - exists t2, w'. assert (Ha : accepted t2) by (rewrite Et2; reflexivity).
    pose proof (Begin_accepts t cdb buffer lun w bs 0x12 _ _ _ Hi Hc Hne Ho Es Ha) as Eb.
    split; [exact Eb|]. left.
    exists p, q, [EvAlloc 4096 1 p; EvAlloc 4096 0 m], [EvAlloc 4096 1 q; EvAlloc 4096 0 n].
    split.
    { split; [|split; [exact Ha|]].
      - rewrite Et2. repeat split; cbn; try lia. intros _. exact Z2.
      - rewrite Et2. cbn. repeat split; assumption. }
    split; [exact Hp|]. split; [exact Hq|]. split; [eexists; reflexivity|]. split; [eexists; reflexivity|].
    split; [exact Ht|]. rewrite Et2. split.
    { change ([view wn; view wc] = [admin 4096 (identify_sqe 0 (nsid_of lun) p); admin 4096 (identify_sqe 1 0 q)]).
      rewrite V0, V1. reflexivity. }
    unfold held. cbn [allocations set_count set_status set_allocations e0 e1 e2 mk_alloc].
    unfold held_by at 1 2 4 5. cbn [mk_alloc data_addr data_page_count mdata_addr mdata_page_count].
    destruct (N.eqb_spec p 0); [contradiction|]. destruct (N.eqb_spec q 0); [contradiction|].
    split; rewrite ?in_app_iff; cbn; auto 6.
  - assert (Ha : ~ accepted t2) by (rewrite Et2; discriminate).
    destruct (Begin_refuses_trace t cdb buffer lun w bs 0x12 _ _ _ Hi Hc Hne Ho Es Ha) as (t' & w2 & Eb & Hr & Hx & Hd & R).
    exists t', w2. split; [exact Eb|]. right. split; [|auto].
    destruct Hout as [X|(evs & X & Y)]; [left; exact X|right]. rewrite (r_trace _ _ _ R), X.
    eexists. rewrite <- app_assoc. split; [reflexivity|]. apply in_app_iff. auto.
Qed.

Lemma Begin_inquiry_short t cdb buffer lun w bs : idle t -> span_holds w cdb bs -> byte_at bs 0 = 0x12 ->
  (length bs < 6)%nat -> refuses t cdb buffer lun w.
Proof.
  intros Hi Hc Ho Hl.
  assert (Hne : bs <> []) by (eapply cdb_nonempty; [exact Ho|discriminate]).
  eapply Begin_refuses; try eassumption.
  - change (Begin_switch 0x12) with (fun c (_ : span) => Begin_Inquiry c). cbv beta.
    unfold Begin_Inquiry, InquiryToNvme. cbv zeta. unfold bind.
    rewrite (cdb_ReadValue_short InquiryCommand cdb w bs Hc) by (cbn; lia). reflexivity.
  - discriminate.
Qed.

(** ** Back *)
Lemma Complete_inquiry t cdb lun p q cpls buffer sense w bs st w1 : inquiry_pending t cdb lun p q ->
  span_holds w cdb bs -> inquiry_cdb bs -> length cpls = 2%nat -> Forall cpl_ok cpls ->
  (let c := le (slice 1 5 bs) in
   if negb (get InquiryCommand "evpd" c =? 0) then
        let pg := get InquiryCommand "page_code" c in
        if pg =? kSupportedVpd then TranslateSupportedVpdPages buffer
        else if pg =? kUnitSerialNumber then TranslateUnitSerialNumberVpd q p (nsid_of lun) buffer
        else if pg =? kDeviceIdentification then TranslateDeviceIdentificationVpd p buffer
        else if pg =? kExtended then TranslateExtendedInquiryDataVpd p q buffer
        else if pg =? kBlockLimitsVpd then TranslateBlockLimitsVpd q buffer
        else if pg =? kBlockDeviceCharacteristicsVpd then
          TranslateBlockDeviceCharacteristicsVpd buffer
        else if pg =? kLogicalBlockProvisioningVpd then
          TranslateLogicalBlockProvisioningVpd q p buffer
        else ret kInvalidInput
      else TranslateStandardInquiry q p buffer) w = Ret st w1 ->
  exists t' w', Complete t cpls buffer sense w = Ret (t', api_ok GOOD) w' /\ idle t' /\ released w1 w' (held t).
Proof.
  intros (W & Ha & Hs & Hn & G0 & G1 & G2) Hc (Hl & Ho) Hk Hok E.
  assert (Hne : bs <> []) by (intros ->; cbn in Hl; lia).
  eapply Complete_good; try eassumption.
  - rewrite Hk, Hn. reflexivity.
  - rewrite Hs. exact Hc.
  - rewrite Hs. unfold Complete_switch. cbv zeta.
    change (0x12 =? kVerify10) with false. change (0x12 =? kInquiry) with true. cbv iota.
    unfold InquiryToScsi, bind at 1. rewrite (cdb_ReadValue InquiryCommand cdb w bs Hc) by (cbn; lia).
    cbv zeta. rewrite G0, G1, G2. exact E.
Qed.

Lemma inq_evpd_eq bs : (6 <= length bs)%nat -> get InquiryCommand "evpd" (le (slice 1 5 bs)) = inq_evpd bs.
Proof. intros H. cdb_fields. reflexivity. Qed.
Lemma inq_page_eq bs : (6 <= length bs)%nat -> get InquiryCommand "page_code" (le (slice 1 5 bs)) = inq_page bs.
Proof. intros H. cdb_fields. rewrite le_slice_1 by lia. reflexivity. Qed.

(** ** Standard INQUIRY data *)
Definition lastn (k : nat) (l : list byte) := skipn (length l - k) l.
Lemma lastn_snoc k l b : lastn (S k) (l ++ [b]) = lastn k l ++ [b].
Proof.
  unfold lastn. rewrite app_length. cbn [length]. replace (length l + 1 - S k)%nat with (length l - k)%nat by lia.
  rewrite skipn_app. replace (length l - k - length l)%nat with 0%nat by lia. reflexivity.
Qed.
Lemma lastn_0 l : lastn 0 l = [].
Proof. unfold lastn. apply skipn_all2. lia. Qed.
Lemma lastn_length k l : length (lastn k l) = Nat.min k (length l).
Proof. unfold lastn. rewrite skipn_length. lia. Qed.

Lemma upd_app {A} (l1 l2 : list A) x b : upd (l1 ++ x :: l2) (length l1) b = l1 ++ b :: l2.
Proof. induction l1 as [|y l1 IH]; cbn; [reflexivity|]. rewrite IH. reflexivity. Qed.
Lemma repeat_snoc {A} (x : A) n : repeat x (S n) = repeat x n ++ [x].
Proof. induction n as [|n IH]; [reflexivity|]. cbn [repeat app] in *. rewrite <- IH. reflexivity. Qed.
Lemma firstn_S_snoc {A} (d : A) n l : (n < length l)%nat -> firstn (S n) l = firstn n l ++ [nth n l d].
Proof.
  revert l. induction n as [|n IH]; intros [|x l] H; cbn in H; try lia; [reflexivity|].
  cbn [firstn nth app]. f_equal. apply IH. lia.
Qed.

Lemma revision_loop_eq fr : forall i room tail, (i <= length fr)%nat ->
  revision_loop fr i room (repeat x00 room ++ tail) =
  let l := lastn room (filter graphic (firstn i fr)) in repeat x00 (room - length l) ++ l ++ tail.
Proof.
  induction i as [|i IH]; intros room tail Hi.
  - cbn [revision_loop firstn filter]. unfold lastn. cbn [length Nat.sub skipn app]. rewrite Nat.sub_0_r. reflexivity.
  - cbn [revision_loop]. destruct room as [|room].
    + rewrite lastn_0. reflexivity.
    + rewrite (firstn_S_snoc x00) by lia. rewrite filter_app. cbn [filter].
      set (ch := nth i fr x00).
      assert (Hg : negb (b2n ch =? 0x20) && (0x21 <=? b2n ch) && (b2n ch <=? 0x7e) = graphic ch).
      { unfold graphic. destruct (N.eqb_spec (b2n ch) 0x20) as [->|_]; reflexivity. }
      rewrite Hg. destruct (graphic ch).
      * rewrite lastn_snoc.
        assert (Hu : upd (repeat x00 (S room) ++ tail) room ch = repeat x00 room ++ (ch :: tail)).
        { rewrite repeat_snoc, <- app_assoc. cbn [app].
          replace room with (length (repeat x00 room)) at 2 by apply repeat_length.
          apply upd_app. }
        rewrite Hu, IH by lia. cbv zeta. rewrite app_length. cbn [length].
        replace (S room - (length (lastn room (filter graphic (firstn i fr))) + 1))%nat
          with (room - length (lastn room (filter graphic (firstn i fr))))%nat by lia.
        rewrite <- app_assoc. reflexivity.
      * rewrite app_nil_r. apply IH. lia.
Qed.
Lemma revision_last4 fr : length fr = 8%nat -> revision_loop fr 8 4 (repeat x00 4) = last4 fr.
Proof.
  intros H. pose proof (revision_loop_eq fr 8 4 [] ltac:(lia)) as E. rewrite app_nil_r in E. rewrite E.
  cbv zeta. rewrite firstn_all2 by lia. rewrite app_nil_r. reflexivity.
Qed.
Lemma last4_length fr : length (last4 fr) = 4%nat.
Proof. unfold last4. rewrite app_length, repeat_length, skipn_length. lia. Qed.

Lemma byte_bits_split (x : N) : x < 256 -> (bits x 0 3 =? 0) && (bits x 3 1 =? 0) = (bits x 0 4 =? 0).
Proof.
  intros H. destruct (Byte.of_N x) as [b|] eqn:E.
  - apply Byte.to_of_N in E. subst x. destruct b; reflexivity.
  - apply Byte.of_N_None_iff in E. lia.
Qed.
Lemma dps_eq ns : (bits (byte_at ns 29) 0 3 =? 0) && (bits (byte_at ns 29) 3 1 =? 0) = (ns_dps ns =? 0).
Proof. apply byte_bits_split. apply byte_at_lt. Qed.
Lemma standard_bytes ns ct : N.of_nat (length ns) = 4096 -> N.of_nat (length ct) = 4096 ->
  let result := mk InquiryData
    [("version", 6); ("response_data_format", 2); ("additional_length", 0x1f);
     ("protect", if (bits (byte_at ns 29) 0 3 =? 0) && (bits (byte_at ns 29) 3 1 =? 0) then 0 else 1); ("tpgs", 0); ("cmdque", 1)] in
  let result := set InquiryData "vendor_identification" (le kNvmeVendorIdentification) result in
  let result := set InquiryData "product_identification" (le (slice 24 16 ct)) result in
  let result := set InquiryData "product_revision_level"
                  (le (revision_loop (slice 64 8 ct) 8 4 (repeat x00 4))) result in
  firstn 36 (repr InquiryData result) = standard_inquiry ns ct.
Proof.
  intros Hn Hc. cbv zeta. rewrite revision_last4 by (apply slice_length; lia).
  unfold repr. change (sizeof InquiryData) with 96%nat. rewrite firstn_le_encode by lia. fields.
  struct_bytes [1;1;1;1;1;1;1;1;8;16;4]%nat.
  change (bits 31 0 8) with 31. change (bits 6 0 8) with 6. change (set_bits 0 0 4 2) with 2. change (set_bits 0 1 1 1) with 2.
  change 64 with (8 * N.of_nat 8) at 1. change 128 with (8 * N.of_nat 16). change 32 with (8 * N.of_nat 4).
  rewrite !le_encode_bits_full.
  rewrite (le_encode_le' 16 (slice 24 16 ct)) by (apply slice_length; lia).
  rewrite (le_encode_le' 4 (last4 (slice 64 8 ct))) by apply last4_length.
  rewrite dps_eq, app_nil_r. unfold standard_inquiry, ct_mn, ct_fr. rewrite slice_slice by lia.
  destruct (ns_dps ns =? 0); reflexivity.
Qed.

Lemma WriteValue_n_firstn bs n s : (n <= length bs)%nat -> WriteValue_n bs s n = WriteValue (firstn n bs) s.
Proof.
  intros H. unfold WriteValue, WriteValue_n. rewrite firstn_length. replace (Nat.min n (length bs)) with n by lia.
  rewrite firstn_firstn. replace (Nat.min n n) with n by lia.
  replace (Nat.ltb (length bs) n) with false by lia. replace (Nat.ltb n n) with false by lia. reflexivity.
Qed.
Lemma one_write_ok bs s w : span_mapped w s -> N.of_nat (length bs) <= len s ->
  exists w', (b <- WriteValue bs s ;; ret (if b then kSuccess else kFailure)) w = Ret kSuccess w' /\
    wrote w w' (ptr s) bs.
Proof.
  intros Hm Hl. destruct (WriteValue_wrote bs s w Hm Hl) as (w' & E & W & _). exists w'. unfold bind. rewrite E.
  split; [reflexivity|exact W].
Qed.
Lemma one_write_short bs s w : len s < N.of_nat (length bs) ->
  (b <- WriteValue bs s ;; ret (if b then kSuccess else kFailure)) w = Ret kFailure w.
Proof. intros H. unfold bind. rewrite WriteValue_short by exact H. reflexivity. Qed.

Lemma wrote_mapped_span w w' a bs s : wrote w w' a bs -> span_mapped w s -> span_mapped w' s.
Proof.
  intros [B F] H x Hx.
  destruct (N.lt_ge_cases x a) as [L|L]; [rewrite F by lia; apply H; exact Hx|].
  destruct (N.lt_ge_cases x (a + N.of_nat (length bs))) as [L2|L2]; [|rewrite F by lia; apply H; exact Hx].
  destruct (nth_error bs (N.to_nat (x - a))) as [b|] eqn:E.
  - pose proof (B _ _ E) as M. replace (a + N.of_nat (N.to_nat (x - a))) with x in M by lia. rewrite M. discriminate.
  - apply nth_error_None in E. lia.
Qed.

Lemma two_writes_ok a b s n w : n = N.of_nat (length a) -> span_mapped w s -> N.of_nat (length a + length b) <= len s ->
  (0 < length b)%nat ->
  exists w', (x <- WriteValue a s ;; if negb x then ret kFailure else
              y <- WriteValue b (subspan s n) ;; ret (if y then kSuccess else kFailure)) w = Ret kSuccess w' /\
    wrote w w' (ptr s) (a ++ b).
Proof.
  intros -> Hm Hl Hb. destruct (WriteValue_wrote a s w Hm) as (w1 & E & W & _); [lia|].
  pose proof (wrote_mapped_span _ _ _ _ _ W Hm) as Hm1.
  destruct (one_write_ok b (subspan s (N.of_nat (length a))) w1) as (w2 & E2 & W2).
  - apply subspan_mapped. exact Hm1.
  - unfold subspan. destruct (N.leb_spec (len s) (N.of_nat (length a))); cbn; lia.
  - exists w2. unfold bind at 1. rewrite E. cbn [negb]. split; [exact E2|].
    eapply wrote_app; [exact W|]. unfold subspan in W2.
    destruct (N.leb_spec (len s) (N.of_nat (length a))); cbn in W2; [lia|exact W2].
Qed.

Lemma two_writes_any a b s n w : n = N.of_nat (length a) -> span_mapped w s -> (0 < length b)%nat ->
  exists st w', (x <- WriteValue a s ;; if negb x then ret kFailure else
              y <- WriteValue b (subspan s n) ;; ret (if y then kSuccess else kFailure)) w = Ret st w' /\
    (same_memory w w' \/ wrote w w' (ptr s) a \/ wrote w w' (ptr s) (a ++ b)).
Proof.
  intros Hn Hm Hb. destruct (N.le_gt_cases (N.of_nat (length a + length b)) (len s)) as [L|L].
  { destruct (two_writes_ok a b s n w Hn Hm L Hb) as (w' & E & W). do 2 eexists. split; [exact E|]. auto. }
  destruct (N.le_gt_cases (N.of_nat (length a)) (len s)) as [L2|L2].
  - destruct (WriteValue_wrote a s w Hm L2) as (w1 & E & W & _). unfold bind at 1. rewrite E. cbn [negb].
    rewrite one_write_short.
    + do 2 eexists. split; [reflexivity|]. auto.
    + subst n. unfold subspan. destruct (N.leb_spec (len s) (N.of_nat (length a))); cbn; lia.
  - unfold bind at 1. rewrite WriteValue_short by exact L2. do 2 eexists. split; [reflexivity|]. left. intros x. reflexivity.
Qed.

Lemma wrote_app_rev w w1 w2 a xs ys :
  wrote w w1 (a + N.of_nat (length xs)) ys -> wrote w1 w2 a xs -> wrote w w2 a (xs ++ ys).
Proof.
  intros [H1 F1] [H2 F2]. split.
  - apply bytes_at_app. split; [exact H2|]. intros i b Hi. rewrite F2 by lia. apply H1. exact Hi.
  - intros x Hx. rewrite app_length in Hx. rewrite F2 by lia. apply F1. lia.
Qed.
Lemma le_nonzero l : negb (le l =? 0) = existsb (fun b => negb (b2n b =? 0)) l.
Proof.
  induction l as [|b l IH]; [reflexivity|]. cbn [le existsb]. rewrite <- IH.
  destruct (N.eqb_spec (b2n b) 0); destruct (N.eqb_spec (le l) 0); cbn [negb orb];
  destruct (N.eqb_spec (b2n b + 256 * le l) 0); try reflexivity; lia.
Qed.

Lemma bit1 (x : N) k : bits x k 1 = if N.testbit x k then 1 else 0.
Proof.
  apply N.bits_inj. intros i. rewrite bits_testbit. destruct (N.eq_dec i 0) as [->|Hi].
  - rewrite ?N.add_0_r, ?N.add_0_l. change (0 <? 1) with true. rewrite ?andb_true_r. destruct (N.testbit x k); reflexivity.
  - replace (i <? 1) with false by lia. rewrite ?andb_false_r. destruct (N.testbit x k); [|rewrite N.bits_0; reflexivity].
    destruct i as [|i]; [contradiction|]. destruct i; reflexivity.
Qed.

Section Pages.
Variables (w : world) (p q : N) (ns ct : list byte) (buffer : span).
Hypothesis Hns : bytes_at w p ns.
Hypothesis Hct : bytes_at w q ct.
Hypothesis Ln : N.of_nat (length ns) = 4096.
Hypothesis Lc : N.of_nat (length ct) = 4096.
Hypothesis Hm : span_mapped w buffer.

Lemma std_shape : TranslateStandardInquiry q p buffer w =
  (b <- WriteValue (standard_inquiry ns ct) buffer ;; ret (if b then kSuccess else kFailure)) w.
Proof.
  unfold TranslateStandardInquiry. unfold bind at 1. rd_step Hns. unfold bind at 1. rd_step Hns.
  change 24 with (N.of_nat 24) at 1. unfold bind at 1. rewrite (load_page w q ct 24 16 Hct) by lia.
  change 64 with (N.of_nat 64) at 1. unfold bind at 1. rewrite (load_page w q ct 64 8 Hct) by lia.
  cbv zeta. rewrite WriteValue_n_firstn.
  - rewrite (standard_bytes ns ct Ln Lc). reflexivity.
  - unfold repr. rewrite le_encode_length. cbn. lia.
Qed.

Lemma supported_ok : 11 <= len buffer -> exists w', TranslateSupportedVpdPages buffer w = Ret kSuccess w' /\
  wrote w w' (ptr buffer) supported_pages.
Proof. intros H. unfold TranslateSupportedVpdPages. cbv zeta. apply (two_writes_ok (bytes [0; 0; 0; 7])); [reflexivity|exact Hm|cbn; lia|cbn; lia]. Qed.

Lemma bdc_shape : TranslateBlockDeviceCharacteristicsVpd buffer w =
  (b <- WriteValue (bytes [0; 0x83; 0x3c; 0; 1; 0; 0; 0; 0]) buffer ;; ret (if b then kSuccess else kFailure)) w.
Proof. reflexivity. Qed.

Lemma limits_shape : TranslateBlockLimitsVpd q buffer w =
  (b <- WriteValue (block_limits_page ct) buffer ;; ret (if b then kSuccess else kFailure)) w.
Proof.
  unfold TranslateBlockLimitsVpd. unfold bind at 1. rd_step Hct. cbv zeta. unfold bind at 1. rd_step Hct.
  unfold bind at 1. rd_step Hct.
  match goal with |- bind (WriteValue ?a _) _ _ = bind (WriteValue ?b _) _ _ => replace a with b; [reflexivity|] end.
  rewrite le_slice_1 by lia. fold (ct_mdts ct). fold (ct_compare_write ct). fold (ct_dsm ct).
  match goal with |- context [htonl (if _ <? _ then _ else _)] => idtac end.
  replace (if 16 <? ct_mdts ct then 2 ^ 16 else if ct_mdts ct =? 0 then 0 else N.shiftl 1 (ct_mdts ct)) with (ct_max_transfer ct).
  2:{ unfold ct_max_transfer. destruct (N.ltb_spec 16 (ct_mdts ct)).
      - replace (ct_mdts ct =? 0) with false by lia. rewrite N.min_r by lia. reflexivity.
      - rewrite N.min_l by lia. rewrite N.shiftl_1_l. reflexivity. }
  set (m := ct_max_transfer ct). set (cw := ct_compare_write ct). set (d := ct_dsm ct).
  unfold repr. change (sizeof BlockLimitsVpd) with 64%nat. fields.
  struct_bytes [1;1;1;1;1;1;2;4;8;4;4;36]%nat. 
  change 32 with (8 * N.of_nat 4). rewrite !le_encode_bits_full. unfold htonl. rewrite !le_encode_bswap.
  unfold block_limits_page. fold m. fold cw. fold d.
  replace (if 255 <? m then 255 else m) with (N.min 255 m).
  2:{ destruct (N.ltb_spec 255 m); lia. }
  rewrite !le_encode_0, app_nil_r. unfold bytes. cbn [map app].
  reflexivity.
Qed.

Lemma provisioning_shape : TranslateLogicalBlockProvisioningVpd q p buffer w =
  (b <- WriteValue (provisioning_page ns ct) buffer ;; ret (if b then kSuccess else kFailure)) w.
Proof.
  unfold TranslateLogicalBlockProvisioningVpd. unfold bind at 1. rd_step Hct. unfold bind at 1. rd_step Hns. cbv zeta.
  fold (ct_dsm ct). fold (ns_thin ns). unfold provisioning_page.
  destruct (ct_dsm ct =? 0); destruct (ns_thin ns =? 0); reflexivity.
Qed.

Lemma spt_eq : GetSptValueFromDPC (bits (byte_at ns 28) 0 1) (bits (byte_at ns 28) 1 1) (bits (byte_at ns 28) 2 1) = code_spt ns.
Proof.
  rewrite !bit1. unfold code_spt, ns_type. change (3 - 1) with 2. change (2 - 1) with 1. change (1 - 1) with 0.
  destruct (N.testbit (byte_at ns 28) 0); destruct (N.testbit (byte_at ns 28) 1); destruct (N.testbit (byte_at ns 28) 2); reflexivity.
Qed.

Lemma extended_shape : TranslateExtendedInquiryDataVpd p q buffer w =
  match code_spt ns with
  | None => Ret kFailure w
  | Some spt => (b <- WriteValue (extended_page spt ns ct) buffer ;; ret (if b then kSuccess else kFailure)) w
  end.
Proof.
  unfold TranslateExtendedInquiryDataVpd. do 5 (unfold bind at 1; rd_step Hns). cbv zeta. rewrite spt_eq.
  destruct (code_spt ns) as [spt|] eqn:E; [|reflexivity]. unfold bind at 1. rd_step Hct.
  match goal with |- context [if negb ?a || negb ?b then 1 else 0] =>
    replace (negb a || negb b) with (negb (ns_dps ns =? 0)) by (rewrite <- dps_eq; destruct a, b; reflexivity) end.
  fold (ct_vwc ct). 
  match goal with |- bind (WriteValue ?a _) _ _ = bind (WriteValue ?b _) _ _ => replace a with b; [reflexivity|] end.
  assert (Hv : ct_vwc ct = 0 \/ ct_vwc ct = 1).
  { unfold ct_vwc. rewrite bit1. destruct (N.testbit _ _); auto. }
  unfold extended_page. unfold code_spt, spc_spt in E.
  destruct (ns_type 3 ns), (ns_type 2 ns), (ns_type 1 ns); try discriminate; injection E as <-;
  destruct Hv as [-> | ->]; destruct (ns_dps ns =? 0); vm_compute; reflexivity.
Qed.

Lemma nz_nguid : negb (le (slice 104 8 ns) =? 0) || negb (le (slice 112 8 ns) =? 0) = nonzero (ns_nguid ns).
Proof.
  unfold ns_nguid. change 16%nat with (8 + 8)%nat. rewrite slice_app. unfold nonzero. rewrite existsb_app.
  rewrite <- !le_nonzero. reflexivity.
Qed.

Lemma devid_shape : TranslateDeviceIdentificationVpd p buffer w =
  match designator ns with
  | None => Ret kFailure w
  | Some id => 
      (b <- WriteValue id (subspan (subspan buffer 3) 4) ;;
       if negb b then ret kFailure else
       b <- WriteValue (bytes [1; 2; 0; N.of_nat (length id)]) (subspan buffer 3) ;;
       if negb b then ret kFailure else
       b <- WriteValue (bytes [0; 0x83; 3 + N.of_nat (length id)]) buffer ;; ret (if b then kSuccess else kFailure)) w
  end.
Proof.
  unfold TranslateDeviceIdentificationVpd, BuildIdentificationDescriptor.
  unfold bind at 1. unfold bind at 1. rd_step Hns. unfold bind at 1. rd_step Hns. unfold bind at 1. rd_step Hns. cbv zeta.
  rewrite nz_nguid, (le_nonzero (slice 120 8 ns)). fold (ns_eui64 ns). unfold designator. fold (nonzero (ns_eui64 ns)).
  change (N.of_nat (sizeof DeviceIdentificationVpd)) with 3. change (N.of_nat (sizeof IdentificationDescriptor)) with 4.
  destruct (nonzero (ns_nguid ns)); [|destruct (nonzero (ns_eui64 ns)); [|reflexivity]].
  - rewrite !le_encode_le' by (apply slice_length; lia).
    replace (slice 104 8 ns ++ slice 112 8 ns) with (ns_nguid ns) by (unfold ns_nguid; change 16%nat with (8 + 8)%nat; rewrite slice_app; reflexivity).
    assert (L : length (ns_nguid ns) = 16%nat) by (apply slice_length; lia). rewrite L. change (N.of_nat 16) with 16.
    unfold bind. destruct (WriteValue (ns_nguid ns) (subspan (subspan buffer 3) 4) w) as [b w1|]; [|reflexivity].
    destruct b; [|reflexivity]. cbn [negb].
    change (repr IdentificationDescriptor _) with (bytes [1; 2; 0; 16]).
    destruct (WriteValue (bytes [1; 2; 0; 16]) (subspan buffer 3) w1) as [b w2|]; [|reflexivity].
    destruct b; [|reflexivity]. cbn [negb is_success ret].
    change (repr DeviceIdentificationVpd _) with (bytes [0; 0x83; 19]).
    reflexivity.
  - rewrite !le_encode_le' by (apply slice_length; lia).
    assert (L : length (ns_eui64 ns) = 8%nat) by (apply slice_length; lia). rewrite L. change (N.of_nat 8) with 8.
    unfold bind. destruct (WriteValue (ns_eui64 ns) (subspan (subspan buffer 3) 4) w) as [b w1|]; [|reflexivity].
    destruct b; [|reflexivity]. cbn [negb].
    change (repr IdentificationDescriptor _) with (bytes [1; 2; 0; 8]).
    destruct (WriteValue (bytes [1; 2; 0; 8]) (subspan buffer 3) w1) as [b w2|]; [|reflexivity].
    destruct b; [|reflexivity]. cbn [negb is_success ret].
    change (repr DeviceIdentificationVpd _) with (bytes [0; 0x83; 11]).
    reflexivity.
Qed.


Lemma designator_length id : designator ns = Some id -> (0 < length id)%nat /\ (length id <= 16)%nat.
Proof.
  unfold designator. destruct (nonzero (ns_nguid ns)); [|destruct (nonzero (ns_eui64 ns)); [|discriminate]];
  intros E; injection E as <-; (unfold ns_nguid, ns_eui64; rewrite slice_length by lia; lia).
Qed.

Lemma devid_ok id : designator ns = Some id -> 7 + N.of_nat (length id) <= len buffer ->
  exists w', TranslateDeviceIdentificationVpd p buffer w = Ret kSuccess w' /\ wrote w w' (ptr buffer) (device_id_page id).
Proof.
  intros E Hl. rewrite devid_shape, E. destruct (designator_length _ E) as [L1 L2].
  assert (S3 : subspan buffer 3 = {| ptr := ptr buffer + 3; len := len buffer - 3 |}).
  { unfold subspan. destruct (N.leb_spec (len buffer) 3); [lia|reflexivity]. }
  assert (S7 : subspan (subspan buffer 3) 4 = {| ptr := ptr buffer + 3 + 4; len := len buffer - 3 - 4 |}).
  { rewrite S3. unfold subspan. cbn [len ptr]. destruct (N.leb_spec (len buffer - 3) 4); [lia|reflexivity]. }
  destruct (WriteValue_wrote id (subspan (subspan buffer 3) 4) w) as (w1 & E1 & W1 & _).
  { apply subspan_mapped, subspan_mapped, Hm. }
  { rewrite S7. cbn. lia. }
  pose proof (wrote_mapped_span _ _ _ _ _ W1 Hm) as Hm1.
  destruct (WriteValue_wrote (bytes [1; 2; 0; N.of_nat (length id)]) (subspan buffer 3) w1) as (w2 & E2 & W2 & _).
  { apply subspan_mapped, Hm1. }
  { rewrite S3. cbn. lia. }
  pose proof (wrote_mapped_span _ _ _ _ _ W2 Hm1) as Hm2.
  destruct (one_write_ok (bytes [0; 0x83; 3 + N.of_nat (length id)]) buffer w2 Hm2) as (w3 & E3 & W3).
  { cbn. lia. }
  exists w3. unfold bind at 1. rewrite E1. cbn [negb]. unfold bind at 1. rewrite E2. cbn [negb]. split; [exact E3|].
  unfold device_id_page, designation_descriptor. change 0x83 with 131 in *.
  eapply wrote_app_rev; [|exact W3]. rewrite S3 in W2. cbn [ptr] in W2.
  eapply wrote_app_rev; [|exact W2]. rewrite S7 in W1. exact W1.
Qed.

Lemma devid_short id : designator ns = Some id -> len buffer < 7 + N.of_nat (length id) ->
  TranslateDeviceIdentificationVpd p buffer w = Ret kFailure w.
Proof.
  intros E Hl. rewrite devid_shape, E. destruct (designator_length _ E) as [L1 L2].
  unfold bind at 1. rewrite WriteValue_short; [reflexivity|].
  unfold subspan. destruct (N.leb_spec (len buffer) 3); cbn [len ptr null_span]; [destruct (N.leb_spec 0 4); cbn; lia|].
  destruct (N.leb_spec (len buffer - 3) 4); cbn; lia.
Qed.
End Pages.

(** ** There and back *)
Lemma round_trip lun bs ns ct buffer (post : world -> world -> Prop) :
  inquiry_cdb bs -> N.of_nat (length ns) = 4096 -> N.of_nat (length ct) = 4096 ->
  (forall w w1 w2, post w w1 -> mem w2 = mem w1 -> post w w2) ->
  (forall w p q, bytes_at w p ns -> bytes_at w q ct -> span_mapped w buffer ->
   exists st w1,
   (if negb (inq_evpd bs =? 0) then
        let pg := inq_page bs in
        if pg =? 0x00 then TranslateSupportedVpdPages buffer
        else if pg =? 0x80 then TranslateUnitSerialNumberVpd q p (nsid_of lun) buffer
        else if pg =? 0x83 then TranslateDeviceIdentificationVpd p buffer
        else if pg =? 0x86 then TranslateExtendedInquiryDataVpd p q buffer
        else if pg =? 0xb0 then TranslateBlockLimitsVpd q buffer
        else if pg =? 0xb1 then TranslateBlockDeviceCharacteristicsVpd buffer
        else if pg =? 0xb2 then TranslateLogicalBlockProvisioningVpd q p buffer
        else ret kInvalidInput
      else TranslateStandardInquiry q p buffer) w = Ret st w1 /\ post w w1) ->
  inquiry_round_trip lun bs ns ct buffer post.
Proof.
  intros Hq Ln Lc Hs Hp t w cdb b0 t1 r w1 Hi Hc Eb Ha.
  destruct (Begin_inquiry_case t cdb b0 lun w bs Hi Hc Hq) as (t' & w' & E & C). rewrite E in Eb.
  injection Eb as <- _ <-. destruct C as [C|(_ & [C _] & _)]; [|contradiction].
  destruct C as (p & q & ev1 & ev2 & P & _ & _ & _ & _ & _ & X & _). exists p, q. split.
  { destruct P as (_ & _ & _ & _ & <- & _ & <-). split; [apply (bits_lt _ _ 64)|]. split; [apply (bits_lt _ _ 64)|exact X]. }
  intros w2 cpls sense Hc2 Hn Hct Hm Hk Hok.
  destruct (Hp w2 p q Hn Hct Hm) as (st & w3 & E3 & Q).
  destruct (Complete_inquiry t' cdb lun p q cpls buffer sense w2 bs st w3 P Hc2 Hq Hk Hok) as (t2 & w4 & E4 & Hi4 & R).
  - cbv zeta. destruct Hq as [Hl _]. rewrite inq_evpd_eq, inq_page_eq by exact Hl. exact E3.
  - exists t2, w4. split; [exact E4|]. split; [exact Hi4|]. eapply Hs; [exact Q|apply (r_mem _ _ _ R)].
Qed.

Lemma wrote_stable a bs w w1 w2 : wrote w w1 a bs -> mem w2 = mem w1 -> wrote w w2 a bs.
Proof. intros [A B] E. split; [intros i b H; rewrite E; apply A; exact H|intros x H; rewrite E; apply B; exact H]. Qed.
Lemma same_stable w w1 w2 : same_memory w w1 -> mem w2 = mem w1 -> same_memory w w2.
Proof. intros A E x. rewrite E. apply A. Qed.
