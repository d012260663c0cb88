(** READ CAPACITY(10), REPORT LUNS, REQUEST SENSE, MAINTENANCE IN. *)
From Coq Require Import Arith NArith String List Lia Bool Init.Byte Permutation.
From Coq Require Import ZifyBool ZifyNat ZifyN.
From Verif Require Import Bytes Layout World ScsiDefs NvmeDefs Common ReadCmds WriteCmds SmallCmds
  UnmapCmd StatusCmd ModeSenseCmd InquiryCmd TranslationCls Spec Facts Logic BeginFacts CompleteFacts
  WireFacts StatusFacts RwSpec RwFacts InquirySpec AdminFacts InquiryFacts SmallSpec.
Import ListNotations.
Local Open Scope string_scope.
Local Open Scope list_scope.
Local Open Scope N_scope.

(** ** One page *)
Definition page_pending (t : Translation) (cdb : span) (p : N) : Prop :=
  wf t /\ accepted t /\ scsi_cmd_ t = cdb /\ nvme_cmd_count t = 1 /\
  get GenericCmd "prp1" (cmd (e0 (nvme_wrappers t))) = p.

Definition one_page_pending (t : Translation) (cdb buffer : span) (lun : N) (w : world)
  (al : N) (q : N -> sqe) : Prop :=
  exists t' w', Begin t cdb buffer lun w = Ret (t', begin_ok al) w' /\
    ((exists p evs, page_pending t' cdb p /\ p <> 0 /\ page_request p evs /\ trace w' = trace w ++ evs /\
        exposes t' = [admin 4096 (q p)] /\ In (p, 1) (held t')) \/
     (out_of_pages w w' /\ rejected t' /\ exposes t' = [] /\ held t' = [])).

Lemma pending_begin t cdb buffer lun w al q :
  one_page_pending t cdb buffer lun w al q -> one_page_begin t cdb buffer lun w al q.
Proof.
  intros (t' & w' & E & C). exists t', w'. split; [exact E|]. destruct C as [C|C]; [left|right; exact C].
  destruct C as (p & evs & (_ & Ha & _) & C). split; [exact Ha|]. exists p, evs. exact C.
Qed.

Lemma page_begin t cdb buffer lun w bs opc al q : idle t -> span_holds w cdb bs -> bs <> [] -> byte_at bs 0 = opc ->
  (forall st a w1, SetPages (e0 (allocations t)) kPageSize 1 0 w = Ret (st, a) w1 ->
   exists wr, Begin_switch opc (subspan cdb 1) buffer (nsid_of lun) (started t cdb) 0 w =
       Ret (set_count (set_status (set_al0 (set_wr0 (started t cdb) wr) a) st) 1, al) w1 /\
     (st = kSuccess -> data_addr a < 2 ^ 64 ->
        view wr = admin 4096 (q (data_addr a)) /\ get GenericCmd "prp1" (cmd wr) = data_addr a)) ->
  one_page_pending t cdb buffer lun w al q.
Proof.
  intros Hi Hc Hne Ho H.
  pose proof Hi as (_ & _ & Hh). apply held_nil in Hh as (Z0 & Z1 & Z2).
  destruct (SetPages_case (e0 (allocations t)) w (empty_data _ Z0)) as (st & a & w1 & E & K & C).
  destruct (H st a w1 E) as (wr & Es & Hw).
  destruct C as [(-> & p & m & Hp & Hp' & Ht & ->)|(-> & Hz & C)].
  - destruct (Hw eq_refl Hp') as [V G]. cbn [data_addr] in V, G.
    eexists. exists w1. split; [eapply Begin_accepts; try eassumption; reflexivity|]. left.
    exists p, [EvAlloc 4096 1 p; EvAlloc 4096 0 m].
    split. { repeat split; cbn; try lia; try exact G; intros _; assumption. }
    split; [exact Hp|]. split; [eexists; reflexivity|]. split; [exact Ht|]. split.
    { change ([view wr] = [admin 4096 (q p)]). rewrite V. reflexivity. }
    apply in_app_iff. left. unfold held_by.
    cbn [allocations set_count set_status set_al0 set_allocations e0 e1 e2 data_addr data_page_count].
    change (aset ?x 0 ?y) with (Build_arr3 y (e1 x) (e2 x)). cbn [e0 data_addr data_page_count]. destruct (N.eqb_spec p 0); [contradiction|]. left. reflexivity.
  - assert (Ha : ~ accepted (set_count (set_status (set_al0 (set_wr0 (started t cdb) wr) a) kFailure) 1)) by discriminate.
    destruct (Begin_refuses_trace t cdb buffer lun w bs opc _ _ _ Hi Hc Hne Ho Es Ha) as (t' & w2 & Eb & Hr & Hx & Hd & R).
    exists t', w2. split; [exact Eb|]. right. split; [|auto].
    destruct C as [X|(m & X)]; [left; exact X|right]. rewrite (r_trace _ _ _ R), X.
    eexists. rewrite <- app_assoc. split; [reflexivity|]. left. reflexivity.
Qed.

Lemma page_trip lun bs q page buffer (post : world -> world -> Prop) opc : (forall t cdb b0 w, idle t -> span_holds w cdb bs ->
    exists al, one_page_pending t cdb b0 lun w al q) ->
  byte_at bs 0 = opc -> bs <> [] -> (forall w w1 w2, post w w1 -> mem w2 = mem w1 -> post w w2) ->
  (forall t cdb w p cpl, page_pending t cdb p -> span_holds w cdb bs -> bytes_at w p page -> span_mapped w buffer ->
    apart p buffer ->
    exists st w1, Complete_switch opc (subspan cdb 1) buffer [cpl] t w = Ret st w1 /\ post w w1) ->
  page_round_trip lun bs q page buffer post.
Proof.
  intros Hb Ho Hne Hs Hp t w cdb b0 t1 r w1 Hi Hc Eb Ha.
  destruct (Hb t cdb b0 w Hi Hc) as (al & t' & w' & E & C). rewrite E in Eb.
  injection Eb as <- _ <-. destruct C as [C|(_ & [C _] & _)]; [|contradiction].
  destruct C as (p & evs & P & _ & _ & _ & X & _). exists p. split; [split; [|exact X]|].
  { destruct P as (_ & _ & _ & _ & <-). apply (bits_lt _ _ 64). }
  intros w2 cpl sense Hc2 Hn Hm Hap Hok.
  destruct (Hp t' cdb w2 p cpl P Hc2 Hn Hm Hap) as (st & w3 & E3 & Q).
  destruct P as (W & _ & Hsc & Hk & _).
  destruct (Complete_good t' [cpl] buffer sense w2 bs opc st w3) as (t2 & w4 & E4 & Hi4 & R); try assumption.
  - rewrite Hk. reflexivity.
  - constructor; [exact Hok|constructor].
  - rewrite Hsc. exact Hc2.
  - rewrite Hsc. exact E3.
  - exists t2, w4. split; [exact E4|]. split; [exact Hi4|]. eapply Hs; [exact Q|apply (r_mem _ _ _ R)].
Qed.

Lemma ltb_ge a b : b <= a -> (a <? b) = false. Proof. lia. Qed.

(** ** READ CAPACITY(10) *)
Lemma rc_naca bs : (10 <= length bs)%nat -> get ReadCapacity10Command "naca" (le (slice 1 9 bs)) = naca 9 bs.
Proof. intros H. cdb_fields. reflexivity. Qed.

Lemma Begin_capacity t cdb buffer lun w bs : idle t -> span_holds w cdb bs -> read_capacity_cdb bs -> naca 9 bs = 0 ->
  one_page_pending t cdb buffer lun w 8 (identify_sqe 0 (nsid_of lun)).
Proof.
  intros Hi Hc (Hl & Ho) Hn.
  assert (Hne : bs <> []) by (intros ->; cbn in Hl; lia).
  apply page_begin with (bs := bs) (opc := 0x25); try assumption.
  intros st a w1 E. change (Begin_switch 0x25) with (fun c (_ : span) => Begin_ReadCapacity10 c). cbv beta.
  unfold Begin_ReadCapacity10, ReadCapacity10ToNvme. unfold bind at 2. cbv zeta.
  unfold bind at 1. rewrite (cdb_ReadValue ReadCapacity10Command cdb w bs Hc) by (cbn; lia).
  change (sizeof ReadCapacity10Command) with 9%nat. rewrite (rc_naca bs Hl), Hn. cbv iota beta. change (0 =? 1) with false. cbv iota.
  unfold bind. change (allocations (started t cdb)) with (allocations t). rewrite E.
  destruct st; cbn [is_success negb]; eexists; (split; [reflexivity|]); try discriminate. intros _ Hp. split.
  - unfold view, admin. cbn [cmd set_cmd set_is_admin set_buffer_len is_admin buffer_len]. f_equal. wire_tac.
  - cbn [cmd set_cmd set_is_admin set_buffer_len]. fields. bits_simpl. rewrite bits_low. apply N.mod_small. exact Hp.
Qed.

Lemma Begin_capacity_refuses t cdb buffer lun w bs : idle t -> span_holds w cdb bs -> byte_at bs 0 = 0x25 ->
  (length bs < 10)%nat \/ naca 9 bs = 1 -> refuses t cdb buffer lun w.
Proof.
  intros Hi Hc Ho H.
  assert (Hne : bs <> []) by (eapply cdb_nonempty; [exact Ho|discriminate]).
  destruct (le_lt_dec 10 (length bs)) as [Hl|Hl].
  - destruct H as [H|H]; [lia|]. eapply Begin_refuses; try eassumption.
    + change (Begin_switch 0x25) with (fun c (_ : span) => Begin_ReadCapacity10 c). cbv beta.
      unfold Begin_ReadCapacity10, ReadCapacity10ToNvme. cbv zeta. unfold bind.
      rewrite (cdb_ReadValue ReadCapacity10Command cdb w bs Hc) by (cbn; lia).
      change (sizeof ReadCapacity10Command) with 9%nat. rewrite (rc_naca bs Hl), H. reflexivity.
    + discriminate.
  - eapply Begin_refuses; try eassumption.
    + change (Begin_switch 0x25) with (fun c (_ : span) => Begin_ReadCapacity10 c). cbv beta.
      unfold Begin_ReadCapacity10, ReadCapacity10ToNvme. cbv zeta. unfold bind.
      rewrite (cdb_ReadValue_short ReadCapacity10Command cdb w bs Hc) by (cbn; lia). reflexivity.
    + discriminate.
Qed.

Lemma rd_lbads_ok w p ns : bytes_at w p ns -> N.of_nat (length ns) = 4096 -> rd_lbads p w = Ret (ns_lbads ns) w.
Proof.
  intros Hb Hl. unfold rd_lbads, bind. rd_step Hb.
  set (f := bits (byte_at ns 26) 0 4). assert (Hf : f < 16) by (apply (bits_lt _ 0 4)).
  replace (p + 128 + 4 * f + 2) with (p + N.of_nat (128 + 4 * ns_format ns + 2)) by (unfold ns_format; fold f; lia).
  rewrite (load_page w p ns _ 1 Hb) by (unfold ns_format; fold f; lia).
  unfold ret. rewrite le_slice_1 by (unfold ns_format; fold f; lia). reflexivity.
Qed.

Definition nsze32 (ns : list byte) : N := N.min (ns_nsze ns) 0xffffffff.

Lemma capacity_repr a b : repr ReadCapacity10Data (set ReadCapacity10Data "block_length" (htonl b)
    (mk ReadCapacity10Data [("returned_logical_block_address", htonl a)])) = capacity_data a b.
Proof.
  unfold repr, capacity_data. change (sizeof ReadCapacity10Data) with 8%nat. fields. struct_bytes [4; 4]%nat.
  rewrite !le_encode_bits_full. unfold htonl. rewrite !le_encode_bswap, app_nil_r. reflexivity.
Qed.
Lemma capacity_data_length a b : length (capacity_data a b) = 8%nat.
Proof. unfold capacity_data. rewrite app_length, !be_encode_length. reflexivity. Qed.

Lemma capacity_body w p ns buffer t : get GenericCmd "prp1" (cmd (e0 (nvme_wrappers t))) = p ->
  bytes_at w p ns -> N.of_nat (length ns) = 4096 -> span_mapped w buffer ->
  exists st w1, ReadCapacity10ToScsi buffer (cmd (e0 (nvme_wrappers t))) w = Ret st w1 /\
    (block_size_ok ns -> 8 <= len buffer -> wrote w w1 (ptr buffer) (capacity_data (nsze32 ns) (2 ^ ns_lbads ns))) /\
    (~ block_size_ok ns \/ len buffer < 8 -> w1 = w).
Proof.
  intros Hp Hb Hl Hm. unfold ReadCapacity10ToScsi. cbv zeta. rewrite Hp. unfold bind at 1. rd_step Hb.
  unfold bind at 1. rewrite (rd_lbads_ok w p ns Hb Hl).
  unfold block_size_ok. fold (ns_nsze ns).
  destruct (N.ltb_spec (ns_lbads ns) 9) as [H|H].
  { do 2 eexists. split; [reflexivity|]. split; [lia|reflexivity]. }
  destruct (N.ltb_spec 31 (ns_lbads ns)) as [H'|H'].
  { do 2 eexists. split; [reflexivity|]. split; [lia|reflexivity]. }
  rewrite capacity_repr. destruct (N.ltb_spec (len buffer) 8) as [Hs|Hs].
  { do 2 eexists. split; [apply one_write_short; rewrite capacity_data_length; lia|]. split; [lia|reflexivity]. }
  destruct (one_write_ok (capacity_data (if 0xffffffff <? ltohll (ns_nsze ns) then 0xffffffff else u32 (ltohll (ns_nsze ns)))
     (u32 (N.shiftl 1 (ns_lbads ns)))) buffer w Hm) as (w1 & E1 & E2); [rewrite capacity_data_length; lia|].
  do 2 eexists. split; [exact E1|]. split; [|lia]. intros _ _.
  replace (nsze32 ns) with (if 0xffffffff <? ltohll (ns_nsze ns) then 0xffffffff else u32 (ltohll (ns_nsze ns))).
  2:{ change (ltohll (ns_nsze ns)) with (ns_nsze ns). unfold nsze32, u32. destruct (N.ltb_spec 0xffffffff (ns_nsze ns)); [lia|]. rewrite N.mod_small by (change (2 ^ 32) with 0x100000000; lia). lia. }
  replace (2 ^ ns_lbads ns) with (u32 (N.shiftl 1 (ns_lbads ns))); [exact E2|].
  rewrite N.shiftl_1_l. unfold u32. apply N.mod_small.
  apply N.lt_le_trans with (2 ^ 32); [apply N.pow_lt_mono_r; lia|reflexivity].
Qed.

Lemma stable2 (A B : Prop) (f : world -> list byte) (g : world -> N) :
  forall w w1 w2, ((A -> wrote w w1 (g w) (f w)) /\ (B -> same_memory w w1)) -> mem w2 = mem w1 ->
  ((A -> wrote w w2 (g w) (f w)) /\ (B -> same_memory w w2)).
Proof.
  intros w w1 w2 [H1 H2] M. split; intros X.
  - eapply wrote_stable; [apply H1; exact X|exact M].
  - eapply same_stable; [apply H2; exact X|exact M].
Qed.

Lemma same_refl w : same_memory w w. Proof. intros x. reflexivity. Qed.

Lemma capacity_trip lun bs ns buffer : read_capacity_cdb bs -> naca 9 bs = 0 -> N.of_nat (length ns) = 4096 ->
  page_round_trip lun bs (identify_sqe 0 (nsid_of lun)) ns buffer (fun w2 w3 =>
    (block_size_ok ns /\ 8 <= len buffer -> wrote w2 w3 (ptr buffer) (capacity_data (nsze32 ns) (2 ^ ns_lbads ns))) /\
    (~ block_size_ok ns \/ len buffer < 8 -> same_memory w2 w3)).
Proof.
  intros Hq Hn Hl. apply page_trip with (opc := 0x25).
  - intros t cdb b0 w Hi Hc. eexists. apply Begin_capacity with (bs := bs); assumption.
  - apply Hq.
  - destruct Hq as [H _]. intros ->. cbn in H. lia.
  - intros w w1 w2. apply (stable2 _ _ (fun _ => _) (fun _ => _)).
  - intros t cdb w p cpl (_ & _ & _ & _ & Hp) _ Hb Hm _.
    destruct (capacity_body w p ns buffer t Hp Hb Hl Hm) as (st & w1 & E & H1 & H2).
    exists st, w1. split; [exact E|]. split; [intros [A B]; apply H1; assumption|].
    intros X. rewrite (H2 X). apply same_refl.
Qed.

(** ** REPORT LUNS *)
Lemma rl_select bs : (12 <= length bs)%nat -> get ReportLunsCommand "select_report" (le (slice 1 11 bs)) = select_report bs.
Proof. intros H. cdb_fields. rewrite le_slice_1 by lia. reflexivity. Qed.
Lemma rl_alloc bs : (12 <= length bs)%nat -> ntohl (get ReportLunsCommand "alloc_length" (le (slice 1 11 bs))) = report_alloc_len bs.
Proof.
  intros H. cdb_fields. unfold ntohl, report_alloc_len. rewrite bswap_le by (apply slice_length; lia). reflexivity.
Qed.

(** the case label kReportLuns, entered from [t0], which agrees with the started
    object [t] on wrappers and allocations *)
Lemma Begin_ReportLuns_case t0 t cdb bs w rl : span_holds w cdb bs -> (12 <= length bs)%nat ->
  select_report bs <= 2 -> scsi_cmd_ t0 = scsi_cmd_ t -> nvme_wrappers t0 = nvme_wrappers t -> allocations t0 = allocations t ->
  forall st a w1, SetPages (e0 (allocations t)) kPageSize 1 0 w = Ret (st, a) w1 ->
   exists wr, Begin_ReportLuns (subspan cdb 1) t0 rl w =
       Ret (set_count (set_status (set_al0 (set_wr0 t wr) a) st) 1, report_alloc_len bs) w1 /\
     (st = kSuccess -> data_addr a < 2 ^ 64 ->
        view wr = admin 4096 (identify_sqe 2 0 (data_addr a)) /\ get GenericCmd "prp1" (cmd wr) = data_addr a).
Proof.
  intros Hc Hl Hs H1 H2 H3 st a w1 E. destruct t0 as [ps sc cnt nw als]; cbn [scsi_cmd_ nvme_wrappers allocations] in H1, H2, H3. subst sc nw als.
  unfold Begin_ReportLuns, ReportLunsToNvme. unfold bind at 2. cbv zeta.
  unfold bind at 1. rewrite (cdb_ReadValue ReportLunsCommand cdb w bs Hc) by (cbn; lia).
  change (sizeof ReportLunsCommand) with 11%nat. rewrite (rl_select bs Hl), (rl_alloc bs Hl).
  replace (negb (select_report bs =? 0) && negb (select_report bs =? 1) && negb (select_report bs =? 2)) with false by lia.
  unfold bind. cbn [allocations]. rewrite E.
  destruct (is_failure st) eqn:F.
  { assert (st = kFailure) as -> by (destruct st; try discriminate; reflexivity).
    eexists. split; [reflexivity|]. discriminate. }
  assert (st = kSuccess) as ->.
  { clear -E F. unfold SetPages, bind in E.
    destruct (negb (data_addr (e0 (allocations t)) =? 0)); [injection E as <- _ _; discriminate|].
    repeat match type of E with
    | context [match ?x with _ => _ end] => destruct x; try discriminate
    end; injection E as <- _ _; try discriminate; reflexivity. }
  eexists. split; [reflexivity|]. intros _ Hp. split.
  - unfold view, admin. cbn [cmd set_cmd set_is_admin set_buffer_len is_admin buffer_len]. f_equal. wire_tac.
  - cbn [cmd set_cmd set_is_admin set_buffer_len]. fields. bits_simpl. rewrite bits_low. apply N.mod_small. exact Hp.
Qed.

Lemma Begin_luns t cdb buffer lun w bs : idle t -> span_holds w cdb bs -> report_luns_cdb bs -> select_report bs <= 2 ->
  one_page_pending t cdb buffer lun w (report_alloc_len bs) (identify_sqe 2 0).
Proof.
  intros Hi Hc (Hl & Ho) Hs.
  assert (Hne : bs <> []) by (intros ->; cbn in Hl; lia).
  apply page_begin with (bs := bs) (opc := 0xa0); try assumption.
  change (Begin_switch 0xa0) with (fun c (_ : span) (_ : N) => Begin_ReportLuns c). cbv beta.
  apply (Begin_ReportLuns_case (started t cdb) (started t cdb)); auto.
Qed.

Lemma ReportLuns_bad c bs t0 rl w : span_holds w c bs -> (length bs < 12)%nat \/ 2 < select_report bs ->
  (0 < length bs)%nat ->
  exists t2 al, Begin_ReportLuns (subspan c 1) t0 rl w = Ret (t2, al) w /\ ~ accepted t2.
Proof.
  intros Hc H H0. unfold Begin_ReportLuns, ReportLunsToNvme. unfold bind.
  destruct (le_lt_dec 12 (length bs)) as [Hl|Hl].
  - rewrite (cdb_ReadValue ReportLunsCommand c w bs Hc) by (cbn; lia).
    change (sizeof ReportLunsCommand) with 11%nat. cbv zeta. rewrite (rl_select bs Hl).
    replace (negb (select_report bs =? 0) && negb (select_report bs =? 1) && negb (select_report bs =? 2)) with true by lia.
    do 2 eexists. split; [reflexivity|discriminate].
  - rewrite (cdb_ReadValue_short ReportLunsCommand c w bs Hc) by (cbn; lia).
    do 2 eexists. split; [reflexivity|discriminate].
Qed.

Lemma Begin_luns_refuses t cdb buffer lun w bs : idle t -> span_holds w cdb bs -> byte_at bs 0 = 0xa0 ->
  (length bs < 12)%nat \/ 2 < select_report bs -> refuses t cdb buffer lun w.
Proof.
  intros Hi Hc Ho H.
  assert (Hne : bs <> []) by (eapply cdb_nonempty; [exact Ho|discriminate]).
  destruct (ReportLuns_bad cdb bs (started t cdb) 0 w Hc H) as (t2 & al & E & Ha).
  { destruct bs; [contradiction|cbn; lia]. }
  eapply Begin_refuses; try eassumption.
Qed.

Definition id_at (page : list byte) (i : nat) : N := le (slice (4 * i) 4 page).

Lemma rd_nsid_ok w p page (i : nat) : bytes_at w p page -> (4 * i + 4 <= length page)%nat ->
  rd_nsid p (N.of_nat i) w = Ret (id_at page i) w.
Proof.
  intros Hb Hl. unfold rd_nsid, bind. replace (p + 4 * N.of_nat i) with (p + N.of_nat (4 * i)) by lia.
  rewrite (load_page w p page _ 4 Hb) by lia. reflexivity.
Qed.

Lemma until_zero_count w p page : bytes_at w p page -> forall fuel i, (4 * (i + fuel) <= length page)%nat ->
  GetNsListLength_loop p fuel (N.of_nat i) w =
  Ret (N.of_nat (i + length (until_zero (map (id_at page) (seq i fuel))))) w.
Proof.
  intros Hb fuel. induction fuel as [|fuel IH]; intros i Hl.
  - cbn. rewrite Nat.add_0_r. reflexivity.
  - cbn [GetNsListLength_loop seq map until_zero]. unfold bind. rewrite (rd_nsid_ok w p page i Hb) by lia.
    destruct (id_at page i =? 0).
    + cbn. rewrite Nat.add_0_r. reflexivity.
    + replace (N.of_nat i + 1) with (N.of_nat (S i)) by lia. rewrite IH by lia. cbn [length]. f_equal. lia.
Qed.

Lemma until_zero_prefix l : until_zero l = firstn (length (until_zero l)) l.
Proof. induction l as [|x l IH]; [reflexivity|]. cbn. destruct (x =? 0); [reflexivity|]. cbn. rewrite <- IH. reflexivity. Qed.
Lemma until_zero_nz l : Forall (fun x => x <> 0) (until_zero l).
Proof. induction l as [|x l IH]; [constructor|]. cbn. destruct (N.eqb_spec x 0); constructor; assumption. Qed.
Lemma until_zero_le l : (length (until_zero l) <= length l)%nat.
Proof. induction l as [|x l IH]; [reflexivity|]. cbn. destruct (x =? 0); cbn; lia. Qed.

Lemma id_at_lt page i : id_at page i < 2 ^ 32.
Proof.
  unfold id_at. pose proof (le_lt (slice (4 * i) 4 page)) as H. eapply N.lt_le_trans; [exact H|].
  apply N.pow_le_mono_r; [discriminate|]. unfold slice. rewrite firstn_length. lia.
Qed.

Lemma htonll_encode x : x < 2 ^ 64 -> le_encode 8 (htonll x) = be_encode 8 x.
Proof.
  intros H. assert (E : x = le (le_encode 8 x)) by (rewrite le_le_encode; symmetry; apply N.mod_small; exact H).
  rewrite E at 1. rewrite htonll_be by apply le_encode_length. unfold be, be_encode.
  apply le_encode_le'. rewrite rev_length. apply le_encode_length.
Qed.

Lemma wrote_bytes_at w w' a bs p page : wrote w w' a bs -> bytes_at w p page ->
  a + N.of_nat (length bs) <= p \/ p + N.of_nat (length page) <= a -> bytes_at w' p page.
Proof.
  intros [_ H] Hb Hd i b Hi. rewrite H; [apply Hb; exact Hi|].
  assert (i < length page)%nat by (apply nth_error_Some; congruence). lia.
Qed.

Lemma ReportLuns_loop_ok p page buffer : N.of_nat (length page) = 4096 -> apart p buffer ->
  forall fuel i w, (i + fuel <= 1024)%nat -> 8 + 8 * N.of_nat (i + fuel) <= len buffer ->
  bytes_at w p page -> span_mapped w buffer -> Forall (fun x => x <> 0) (map (id_at page) (seq i fuel)) ->
  exists w1, ReportLuns_loop p buffer fuel (N.of_nat i) w = Ret tt w1 /\
    wrote w w1 (ptr buffer + (8 + 8 * N.of_nat i)) (concat (map (fun id => be_encode 8 (id - 1)) (map (id_at page) (seq i fuel)))).
Proof.
  intros Lp Hap. induction fuel as [|fuel IH]; intros i w Hi Hl Hb Hm Hz.
  - exists w. split; [reflexivity|]. apply wrote_nil.
  - cbn [ReportLuns_loop seq map concat]. unfold bind at 1. rewrite (rd_nsid_ok w p page i Hb) by lia.
    cbv zeta. cbn [seq map] in Hz. apply Forall_cons_iff in Hz as [Hz0 Hz].
    pose proof (id_at_lt page i) as Hlt.
    change (ltohl (id_at page i)) with (id_at page i).
    rewrite sub32_1 by lia.
    assert (H64 : id_at page i - 1 < 2 ^ 64).
    { eapply N.lt_trans; [|apply (N.pow_lt_mono_r 2 32 64); lia]. lia. }
    rewrite (htonll_encode _ H64). unfold u32. rewrite (N.mod_small (8 + N.of_nat i * 8)) by (change (2 ^ 32) with 0x100000000; lia).
    assert (Hsub : subspan buffer (8 + N.of_nat i * 8) =
      {| ptr := ptr buffer + (8 + 8 * N.of_nat i); len := len buffer - (8 + 8 * N.of_nat i) |}).
    { unfold subspan. replace (N.of_nat i * 8) with (8 * N.of_nat i) by lia.
      replace (len buffer <=? 8 + 8 * N.of_nat i) with false by lia. reflexivity. }
    destruct (WriteValue_wrote (be_encode 8 (id_at page i - 1)) (subspan buffer (8 + N.of_nat i * 8)) w) as (w1 & E & W & _).
    { apply subspan_mapped. exact Hm. }
    { rewrite be_encode_length, Hsub. cbn [len]. lia. }
    unfold bind at 1. rewrite E. replace (N.of_nat i + 1) with (N.of_nat (S i)) by lia.
    rewrite Hsub in W. cbn [ptr] in W.
    destruct (IH (S i) w1) as (w2 & E2 & W2); try lia; try assumption.
    { eapply wrote_bytes_at; [exact W|exact Hb|]. rewrite be_encode_length. unfold apart in Hap. lia. }
    { eapply wrote_mapped_span; eassumption. }
    exists w2. split; [exact E2|]. eapply wrote_app; [exact W|]. rewrite be_encode_length.
    replace (ptr buffer + (8 + 8 * N.of_nat i) + N.of_nat 8) with (ptr buffer + (8 + 8 * N.of_nat (S i))) by lia.
    exact W2.
Qed.

Lemma luns_repr x : x < 2 ^ 32 -> repr ReportLunsParamData (mk ReportLunsParamData [("list_byte_length", htonl x)]) =
  be_encode 4 x ++ repeat x00 4.
Proof.
  intros Hx. unfold repr. change (sizeof ReportLunsParamData) with 8%nat. fields. struct_bytes [4; 4]%nat.
  rewrite !le_encode_bits_full. unfold htonl, htonl_h. rewrite le_encode_bswap. reflexivity.
Qed.
Lemma luns_repr' x y : repr ReportLunsParamData (set ReportLunsParamData "list_byte_length" (htonl x) 
   (mk ReportLunsParamData [("list_byte_length", htonl y)])) = be_encode 4 x ++ repeat x00 4.
Proof.
  unfold repr. change (sizeof ReportLunsParamData) with 8%nat. fields. struct_bytes [4; 4]%nat.
  rewrite !le_encode_bits_full. unfold htonl, htonl_h. rewrite le_encode_bswap. reflexivity.
Qed.
Lemma luns_get x : x < 2 ^ 32 -> ntohl (get ReportLunsParamData "list_byte_length" (mk ReportLunsParamData [("list_byte_length", htonl x)])) = x.
Proof.
  intros Hx. fields. bits_simpl. unfold ntohl, htonl, htonl_h. rewrite bits_low.
  rewrite (N.mod_small (bswap 4 x)) by (apply (bswap_lt 4)). apply (bswap_involutive 4). exact Hx.
Qed.

Lemma map_id_list page : id_list page = map (id_at page) (seq 0 1024).
Proof. reflexivity. Qed.

Lemma seq_firstn m n s : (m <= n)%nat -> firstn m (seq s n) = seq s m.
Proof.
  revert n s. induction m as [|m IH]; intros n s H; [reflexivity|].
  destruct n as [|n]; [lia|]. cbn. rewrite IH by lia. reflexivity.
Qed.

Lemma active_prefix page m : (m <= length (active_namespaces page))%nat ->
  firstn m (active_namespaces page) = map (id_at page) (seq 0 m) /\ (m <= 1024)%nat.
Proof.
  unfold active_namespaces. rewrite map_id_list. generalize 1024%nat as n. intros n H.
  pose proof (until_zero_le (map (id_at page) (seq 0 n))) as L. rewrite map_length, seq_length in L.
  rewrite until_zero_prefix, firstn_firstn, Nat.min_l by exact H. split; [|lia].
  rewrite firstn_map, seq_firstn by lia. reflexivity.
Qed.

Definition luns_post (page : list byte) (buffer : span) (w2 w3 : world) : Prop :=
  if len buffer <? 8 then same_memory w2 w3
  else let ids := reported (len buffer) (active_namespaces page) in
       wrote w2 w3 (ptr buffer) (lun_list (8 * N.of_nat (length ids)) ids).

Lemma firstn_nz m l : Forall (fun x : N => x <> 0) l -> Forall (fun x => x <> 0) (firstn m l).
Proof. intros H. revert m. induction H; intros [|m]; cbn; constructor; auto. Qed.

Lemma luns_tail w p page buffer (m : nat) hdr : bytes_at w p page -> N.of_nat (length page) = 4096 ->
  span_mapped w buffer -> apart p buffer -> (m <= length (active_namespaces page))%nat ->
  8 + 8 * N.of_nat m <= len buffer -> length hdr = 8%nat ->
  exists w1, (b <- WriteValue hdr buffer ;;
    if negb b then ret kSuccess else _ <- ReportLuns_loop p buffer m 0 ;; ret kSuccess) w = Ret kSuccess w1 /\
    wrote w w1 (ptr buffer) (hdr ++ concat (map (fun id => be_encode 8 (id - 1)) (firstn m (active_namespaces page)))).
Proof.
  intros Hb Hl Hm Hap Hk Hf Hh.
  destruct (WriteValue_wrote hdr buffer w Hm) as (w1 & E & W & _); [lia|].
  destruct (active_prefix page m Hk) as [Hp Hk'].
  destruct (ReportLuns_loop_ok p page buffer Hl Hap m 0 w1) as (w2 & E2 & W2).
  - lia.
  - exact Hf.
  - eapply wrote_bytes_at; [exact W|exact Hb|]. unfold apart in Hap. lia.
  - eapply wrote_mapped_span; eassumption.
  - rewrite <- Hp. apply firstn_nz. apply until_zero_nz.
  - exists w2. split.
    + unfold bind. rewrite E. cbn [negb]. change 0 with (N.of_nat 0) at 1. rewrite E2. reflexivity.
    + eapply wrote_app; [exact W|]. rewrite Hh, Hp. exact W2.
Qed.

Lemma luns_body w p page buffer c : get GenericCmd "prp1" c = p ->
  bytes_at w p page -> N.of_nat (length page) = 4096 -> span_mapped w buffer -> apart p buffer ->
  exists st w1, ReportLunsToScsi c buffer w = Ret st w1 /\ luns_post page buffer w w1.
Proof.
  intros Hp Hb Hl Hm Hap. unfold ReportLunsToScsi, luns_post.
  change (N.of_nat (sizeof ReportLunsParamData)) with 8. cbv zeta.
  destruct (N.ltb_spec (len buffer) 8) as [H8|H8].
  { do 2 eexists. split; [reflexivity|apply same_refl]. }
  rewrite Hp. unfold bind at 1. unfold GetNsListLength. change 0 with (N.of_nat 0) at 1.
  rewrite (until_zero_count w p page Hb) by (unfold kIdentifyNsListMaxLength; lia).
  change (map (id_at page) (seq 0 kIdentifyNsListMaxLength)) with (id_list page).
  change (until_zero (id_list page)) with (active_namespaces page). cbn [Nat.add].
  destruct (active_prefix page (length (active_namespaces page)) (le_n _)) as [_ Hk].
  set (k := length (active_namespaces page)) in *.
  unfold u32. rewrite (N.mod_small (N.of_nat k * 8)) by (change (2 ^ 32) with 0x100000000; lia).
  rewrite luns_get by (change (2 ^ 32) with 0x100000000; lia). unfold reported, luns_that_fit.
  set (r := (len buffer - 8) mod 2 ^ 32).
  assert (Hr : r <= len buffer - 8) by (apply N.mod_le; discriminate).
  pose proof (N.div_mod r 8 ltac:(discriminate)) as Hdm. pose proof (N.mod_lt r 8 ltac:(discriminate)) as Hml.
  destruct (N.ltb_spec r (N.of_nat k * 8)) as [Hx|Hx].
  - replace ((r - r mod 8) / 8) with (r / 8).
    2:{ replace (r - r mod 8) with (r / 8 * 8) by lia. rewrite N.div_mul by discriminate. reflexivity. }
    rewrite luns_repr'.
    assert (Hq : (N.to_nat (r / 8) <= length (active_namespaces page))%nat) by (fold k; lia).
    destruct (luns_tail w p page buffer (N.to_nat (r / 8)) (be_encode 4 (r - r mod 8) ++ repeat x00 4)) as (w1 & E & W); try assumption; try lia.
    { rewrite app_length, be_encode_length. reflexivity. }
    do 2 eexists. split; [exact E|].
    unfold lun_list. rewrite firstn_length, Nat.min_l by exact Hq.
    replace (8 * N.of_nat (N.to_nat (r / 8))) with (r - r mod 8) by lia. rewrite app_assoc. exact W.
  - rewrite luns_repr by (change (2 ^ 32) with 0x100000000; lia).
    destruct (luns_tail w p page buffer k (be_encode 4 (N.of_nat k * 8) ++ repeat x00 4)) as (w1 & E & W); try assumption; try lia.
    { rewrite app_length, be_encode_length. reflexivity. }
    rewrite Nat2N.id. do 2 eexists. split; [exact E|].
    assert (Hge : (k <= N.to_nat (r / 8))%nat) by lia.
    rewrite firstn_all2 by (fold k; exact Hge). fold k. unfold k in W at 2. rewrite firstn_all in W.
    unfold lun_list. replace (8 * N.of_nat k) with (N.of_nat k * 8) by lia. rewrite app_assoc. exact W.
Qed.

Lemma luns_trip lun bs page buffer : report_luns_cdb bs -> select_report bs <= 2 -> N.of_nat (length page) = 4096 ->
  page_round_trip lun bs (identify_sqe 2 0) page buffer (luns_post page buffer).
Proof.
  intros Hq Hn Hl. apply page_trip with (opc := 0xa0).
  - intros t cdb b0 w Hi Hc. eexists. apply Begin_luns with (bs := bs); assumption.
  - apply Hq.
  - destruct Hq as [H _]. intros ->. cbn in H. lia.
  - intros w w1 w2 H M. unfold luns_post in *. destruct (len buffer <? 8).
    + eapply same_stable; eassumption.
    + eapply wrote_stable; eassumption.
  - intros t cdb w p cpl (_ & _ & _ & _ & Hp) _ Hb Hm Hap.
    change (Complete_switch 0xa0) with (fun (_ buffer : span) (_ : list N) t => ReportLunsToScsi (cmd (e0 (nvme_wrappers t))) buffer).
    cbv beta. eapply luns_body; eassumption.
Qed.

(** ** REQUEST SENSE *)
Lemma rs_naca bs : (6 <= length bs)%nat -> get RequestSenseCommand "naca" (le (slice 1 5 bs)) = naca 5 bs.
Proof. intros H. cdb_fields. reflexivity. Qed.
Lemma rs_desc bs : (6 <= length bs)%nat -> get RequestSenseCommand "desc" (le (slice 1 5 bs)) = bits (byte_at bs 1) 0 1.
Proof. intros H. cdb_fields. reflexivity. Qed.
Lemma rs_alloc bs : (6 <= length bs)%nat -> get RequestSenseCommand "allocation_length" (le (slice 1 5 bs)) = byte_at bs 4.
Proof. intros H. cdb_fields. rewrite le_slice_1 by lia. reflexivity. Qed.

Lemma bit_case b : bits b 0 1 = 0 \/ bits b 0 1 = 1.
Proof. pose proof (bits_lt b 0 1). change (2 ^ 1) with 2 in *. lia. Qed.

Lemma Begin_sense t cdb buffer lun w bs : idle t -> span_holds w cdb bs -> request_sense_cdb bs -> naca 5 bs = 0 ->
  Begin t cdb buffer lun w = Ret (started t cdb, begin_ok (byte_at bs 4)) w.
Proof.
  intros Hi Hc (Hl & Ho) Hn.
  assert (Hne : bs <> []) by (intros ->; cbn in Hl; lia).
  eapply Begin_accepts; try eassumption; [|reflexivity].
  change (Begin_switch 0x03) with (fun c (_ : span) (_ : N) => Begin_RequestSense c). cbv beta.
  unfold Begin_RequestSense, RequestSenseToNvme, bind.
  rewrite (cdb_ReadValue RequestSenseCommand cdb w bs Hc) by (cbn; lia).
  change (sizeof RequestSenseCommand) with 5%nat. rewrite (rs_naca bs Hl), Hn, (rs_alloc bs Hl). reflexivity.
Qed.
Lemma Begin_sense_refuses t cdb buffer lun w bs : idle t -> span_holds w cdb bs -> byte_at bs 0 = 0x03 ->
  (length bs < 6)%nat \/ naca 5 bs = 1 -> refuses t cdb buffer lun w.
Proof.
  intros Hi Hc Ho H.
  assert (Hne : bs <> []) by (eapply cdb_nonempty; [exact Ho|discriminate]).
  destruct (le_lt_dec 6 (length bs)) as [Hl|Hl].
  - destruct H as [H|H]; [lia|]. eapply Begin_refuses; try eassumption.
    + change (Begin_switch 0x03) with (fun c (_ : span) (_ : N) => Begin_RequestSense c). cbv beta.
      unfold Begin_RequestSense, RequestSenseToNvme, bind.
      rewrite (cdb_ReadValue RequestSenseCommand cdb w bs Hc) by (cbn; lia).
      change (sizeof RequestSenseCommand) with 5%nat. rewrite (rs_naca bs Hl), H. reflexivity.
    + discriminate.
  - eapply Begin_refuses; try eassumption.
    + change (Begin_switch 0x03) with (fun c (_ : span) (_ : N) => Begin_RequestSense c). cbv beta.
      unfold Begin_RequestSense, RequestSenseToNvme, bind.
      rewrite (cdb_ReadValue_short RequestSenseCommand cdb w bs Hc) by (cbn; lia). reflexivity.
    + discriminate.
Qed.

Lemma sense_body w cdb bs buffer : span_holds w cdb bs -> (6 <= length bs)%nat -> span_mapped w buffer ->
  let data := no_sense (bits (byte_at bs 1) 0 1) in
  exists st w1, RequestSenseToScsi (subspan cdb 1) buffer w = Ret st w1 /\
    (N.of_nat (length data) <= len buffer -> wrote w w1 (ptr buffer) data) /\
    (len buffer < N.of_nat (length data) -> w1 = w).
Proof.
  intros Hc Hl Hm data. unfold RequestSenseToScsi, bind at 1.
  rewrite (cdb_ReadValue RequestSenseCommand cdb w bs Hc) by (cbn; lia).
  change (sizeof RequestSenseCommand) with 5%nat. rewrite (rs_desc bs Hl).
  assert (E : (if bits (byte_at bs 1) 0 1 =? 1 then TranslateDescriptorSenseData buffer else TranslateFixedSenseData buffer) =
    (b <- WriteValue data buffer ;; ret (if b then kSuccess else kFailure))).
  { unfold data, no_sense. destruct (bit_case (byte_at bs 1)) as [-> | ->]; reflexivity. }
  rewrite E. destruct (N.ltb_spec (len buffer) (N.of_nat (length data))) as [H|H].
  - do 2 eexists. split; [apply one_write_short; exact H|]. split; [lia|reflexivity].
  - destruct (one_write_ok data buffer w Hm H) as (w1 & E1 & E2). do 2 eexists. split; [exact E1|]. split; [intros _; exact E2|lia].
Qed.

Lemma sense_complete t cdb bs buffer sense w : idle t -> request_sense_cdb bs -> span_holds w cdb bs -> span_mapped w buffer ->
  let data := no_sense (bits (byte_at bs 1) 0 1) in
  exists t2 w3, Complete (started t cdb) [] buffer sense w = Ret (t2, api_ok GOOD) w3 /\ idle t2 /\
    (N.of_nat (length data) <= len buffer -> wrote w w3 (ptr buffer) data) /\
    (len buffer < N.of_nat (length data) -> same_memory w w3).
Proof.
  intros Hi (Hl & Ho) Hc Hm data.
  destruct (sense_body w cdb bs buffer Hc Hl Hm) as (st & w1 & E & H1 & H2). fold data in H1, H2.
  assert (Hne : bs <> []) by (intros ->; cbn in Hl; lia).
  pose proof Hi as (_ & Hcount & Hh).
  destruct (Complete_good (started t cdb) [] buffer sense w bs 0x03 st w1) as (t2 & w4 & E4 & Hi4 & R); try assumption.
  - apply wf_fresh. apply started_fresh. exact Hi.
  - reflexivity.
  - change (nvme_cmd_count (started t cdb)) with (nvme_cmd_count t). rewrite Hcount. reflexivity.
  - constructor.
  - exists t2, w4. split; [exact E4|]. split; [exact Hi4|]. split; intros X.
    + eapply wrote_stable; [apply H1; exact X|apply (r_mem _ _ _ R)].
    + intros x. rewrite (r_mem _ _ _ R), (H2 X). reflexivity.
Qed.

(** ** MAINTENANCE IN *)
Lemma Validate_any c rl w bs : span_holds w c bs -> (0 < length bs)%nat ->
  exists st rl', ValidateReportSupportedOpCodes (subspan c 1) rl w = Ret (st, rl') w.
Proof.
  intros Hc H0. unfold ValidateReportSupportedOpCodes, bind. destruct (le_lt_dec 12 (length bs)) as [Hl|Hl].
  - rewrite (cdb_ReadValue ReportOpCodesCommand c w bs Hc) by (cbn; lia). unfold ret.
    match goal with |- context [if ?b then _ else _] => destruct b end; eauto.
  - rewrite (cdb_ReadValue_short ReportOpCodesCommand c w bs Hc) by (cbn; lia). unfold ret. eauto.
Qed.

Lemma Begin_maint t cdb buffer lun w bs : idle t -> span_holds w cdb bs -> maintenance_in_cdb bs -> select_report bs <= 2 ->
  one_page_pending t cdb buffer lun w (report_alloc_len bs) (identify_sqe 2 0).
Proof.
  intros Hi Hc (Hl & Ho) Hs.
  assert (Hne : bs <> []) by (intros ->; cbn in Hl; lia).
  apply page_begin with (bs := bs) (opc := 0xa3); try assumption.
  change (Begin_switch 0xa3) with (fun c (_ : span) (_ : N) => Begin_MaintenanceIn c). cbv beta.
  intros st a w1 E. unfold Begin_MaintenanceIn, bind at 1.
  destruct (Validate_any cdb 0 w bs Hc) as (sv & rl' & Ev); [lia|]. rewrite Ev. cbv zeta.
  apply (Begin_ReportLuns_case _ (started t cdb)); auto.
Qed.
Lemma Begin_maint_refuses t cdb buffer lun w bs : idle t -> span_holds w cdb bs -> byte_at bs 0 = 0xa3 ->
  (length bs < 12)%nat \/ 2 < select_report bs -> refuses t cdb buffer lun w.
Proof.
  intros Hi Hc Ho H.
  assert (Hne : bs <> []) by (eapply cdb_nonempty; [exact Ho|discriminate]).
  assert (H0 : (0 < length bs)%nat) by (destruct bs; [contradiction|cbn; lia]).
  destruct (Validate_any cdb 0 w bs Hc H0) as (sv & rl' & Ev).
  destruct (ReportLuns_bad cdb bs (set_count (set_status (started t cdb) sv) 0) rl' w Hc H H0) as (t2 & al & E & Ha).
  eapply Begin_refuses; try eassumption.
  change (Begin_switch 0xa3) with (fun c (_ : span) (_ : N) => Begin_MaintenanceIn c). cbv beta.
  unfold Begin_MaintenanceIn, bind at 1. rewrite Ev. exact E.
Qed.

Definition maint_post (buffer : span) (w2 w3 : world) : Prop :=
  (4 <= len buffer -> wrote w2 w3 (ptr buffer) not_supported) /\ (len buffer < 4 -> same_memory w2 w3).

Lemma maint_trip lun bs page buffer : maintenance_in_cdb bs -> select_report bs <= 2 ->
  page_round_trip lun bs (identify_sqe 2 0) page buffer (maint_post buffer).
Proof.
  intros Hq Hn. apply page_trip with (opc := 0xa3).
  - intros t cdb b0 w Hi Hc. eexists. apply Begin_maint with (bs := bs); assumption.
  - apply Hq.
  - destruct Hq as [H _]. intros ->. cbn in H. lia.
  - intros w w1 w2. apply (stable2 _ _ (fun _ => _) (fun _ => _)).
  - intros t cdb w p cpl (_ & _ & _ & _ & Hp) _ Hb Hm Hap.
    change (Complete_switch 0xa3) with (fun (_ buffer : span) (_ : list N) t =>
      _ <- WriteReportSupportedOpCodesResult buffer ;; ret (pipeline_status t)).
    cbv beta. unfold WriteReportSupportedOpCodesResult. cbv zeta.
    change (repr OneCommandParamData (mk OneCommandParamData [("support", 1)])) with not_supported.
    destruct (N.ltb_spec (len buffer) 4) as [H|H].
    + unfold bind. rewrite (WriteValue_short not_supported buffer w) by exact H.
      do 2 eexists. split; [reflexivity|]. split; [lia|]. intros _. apply same_refl.
    + destruct (WriteValue_wrote not_supported buffer w Hm H) as (w1 & E1 & E2 & _). unfold bind. rewrite E1.
      do 2 eexists. split; [reflexivity|]. split; [intros _; exact E2|lia].
Qed.

(** ** Comparing byte strings in memory *)
Lemma bytes_at_inj w a xs ys : length xs = length ys -> bytes_at w a xs -> bytes_at w a ys -> xs = ys.
Proof.
  intros Hl Hx Hy. apply (nth_ext _ _ x00 x00 Hl). intros n Hn.
  pose proof (Hx n (nth n xs x00)) as A. pose proof (Hy n (nth n ys x00)) as C.
  rewrite A in C by (apply nth_error_nth'; exact Hn).
  assert (Some (nth n xs x00) = Some (nth n ys x00)) as E by (apply C; apply nth_error_nth'; lia). congruence.
Qed.

Lemma slice_entries l : forall i, (i < length l)%nat ->
  slice (8 * i) 8 (concat (map (fun id => be_encode 8 (id - 1)) l)) = be_encode 8 (nth i l 0 - 1).
Proof.
  induction l as [|x l IH]; intros i Hi; [cbn in Hi; lia|]. cbn [map concat]. destruct i as [|i].
  - unfold slice. rewrite Nat.mul_0_r. cbn [skipn nth]. rewrite firstn_app, be_encode_length.
    replace (8 - 8)%nat with 0%nat by lia. rewrite firstn_O, app_nil_r. apply firstn_all2. rewrite be_encode_length. lia.
  - cbn [nth]. rewrite <- (IH i) by (cbn in Hi; lia). unfold slice. f_equal.
    rewrite skipn_app, be_encode_length. rewrite skipn_all2 by (rewrite be_encode_length; lia).
    cbn [app]. f_equal. lia.
Qed.
