(** UNMAP: the translation function and what Begin makes of it. *)
From Coq Require Import Arith NArith String List Lia Bool Init.Byte Permutation.
From Coq Require Import ZifyBool ZifyNat ZifyN.
From Verif Require Import Bytes Layout World ScsiDefs NvmeDefs Common UnmapCmd ModeSenseCmd TranslationCls Spec RwSpec InquirySpec SmallSpec ModeSpec UnmapSpec
  Facts Logic BeginFacts CompleteFacts WireFacts RwFacts AdminFacts InquiryFacts SmallFacts ModeFacts.
Import ListNotations.
Local Open Scope string_scope.
Local Open Scope list_scope.
Local Open Scope N_scope.

(** ** Reading *)
Definition descr (pl : list byte) (i : nat) : N := le (slice (8 + 16 * i) 16 pl).

Lemma read_descriptors_ok n : forall s w bs, span_holds w s bs -> (16 * n <= length bs)%nat ->
  read_descriptors n s w = Ret (Some (map (fun i => le (slice (16 * i) 16 bs)) (seq 0 n))) w.
Proof.
  induction n as [|n IH]; intros s w bs H Hl; [reflexivity|]. cbn [read_descriptors seq map]. unfold bind at 1.
  rewrite (ReadValue_ok UnmapBlockDescriptor s w bs H) by (change (sizeof UnmapBlockDescriptor) with 16%nat; lia).
  change (sizeof UnmapBlockDescriptor) with 16%nat. unfold bind.
  destruct (le_lt_dec (length bs) 16) as [L|L].
  - assert (n = 0%nat) by lia. subst n. reflexivity.
  - rewrite (IH _ w (skipn 16 bs) (subspan_holds w s bs 16 H L)) by (rewrite skipn_length; lia).
    unfold ret. do 2 f_equal. f_equal. rewrite <- seq_shift, map_map. apply map_ext. intros i. unfold slice. rewrite skipn_skipn'.
    do 3 f_equal. lia.
Qed.

(** ** Writing *)
Definition range_ok (w : world) (a d : N) : Prop :=
  bytes_at w (a + 4) (le_encode 4 (bswap_32 (get UnmapBlockDescriptor "logical_block_count" d))) /\
  bytes_at w (a + 8) (le_encode 8 (bswap_64 (get UnmapBlockDescriptor "logical_block_addr" d))).

Lemma bytes_at_frame w w' a bs : (forall x, a <= x < a + N.of_nat (length bs) -> mem w' x = mem w x) -> bytes_at w a bs -> bytes_at w' a bs.
Proof.
  intros F H i b Hi. rewrite F; [apply H; exact Hi|]. assert (i < length bs)%nat by (apply nth_error_Some; congruence). lia.
Qed.

Lemma write_ranges_ok ds : forall a w, mapped w a (16 * N.of_nat (length ds)) ->
  exists w', write_ranges ds {| ptr := a; len := 16 * N.of_nat (length ds) |} w = Ret true w' /\
    trace w' = trace w /\ same_cfg w w' /\
    (forall x, ~ (a <= x < a + 16 * N.of_nat (length ds)) -> mem w' x = mem w x) /\
    forall i d, nth_error ds i = Some d -> range_ok w' (a + 16 * N.of_nat i) d.
Proof.
  induction ds as [|d ds IH]; intros a w H; cbn [write_ranges].
  - exists w. split; [reflexivity|]. split; [reflexivity|]. split; [apply same_cfg_refl|]. split; [reflexivity|]. intros i d Hi. destruct i; discriminate.
  - change (N.of_nat (sizeof DatasetManagmentRange)) with 16. change (offset_of DatasetManagmentRange "lba") with 8; change (offset_of DatasetManagmentRange "lb_count") with 4. cbn [ptr len length] in *.
    replace (16 * N.of_nat (S (length ds)) <? 16) with false by lia.
    set (w1 := set_mem w (store_bytes (mem w) (a + 8) (le_encode 8 (bswap_64 (get UnmapBlockDescriptor "logical_block_addr" d))))).
    set (w2 := set_mem w1 (store_bytes (mem w1) (a + 4) (le_encode 4 (bswap_32 (get UnmapBlockDescriptor "logical_block_count" d))))).
    unfold bind at 1. rewrite store_ok by (rewrite le_encode_length; apply (mapped_sub w a (16 * N.of_nat (S (length ds)))); [exact H|lia|lia]).
    fold w1. unfold bind at 1.
    assert (H1 : mapped w1 a (16 * N.of_nat (S (length ds)))) by (apply store_mapped; exact H).
    rewrite store_ok by (rewrite le_encode_length; apply (mapped_sub w1 a (16 * N.of_nat (S (length ds)))); [exact H1|lia|lia]).
    fold w2.
    assert (H2 : mapped w2 a (16 * N.of_nat (S (length ds)))) by (apply store_mapped; exact H1).
    assert (R2 : range_ok w2 a d).
    { split.
      - apply (wrote_store w1).
      - apply (bytes_at_frame w1); [|apply (wrote_store w)]. intros x Hx. rewrite le_encode_length in Hx. apply (wrote_store w1). rewrite le_encode_length. lia. }
    assert (F2 : forall x, ~ (a <= x < a + 16) -> mem w2 x = mem w x).
    { intros x Hx. transitivity (mem w1 x); [apply (wrote_store w1)|apply (wrote_store w)]; rewrite le_encode_length; lia. }
    destruct ds as [|d' ds'].
    + exists w2. split; [reflexivity|]. split; [reflexivity|]. split; [constructor; reflexivity|]. split.
      * intros x Hx. apply F2. cbn in Hx. lia.
      * intros i d0 Hi. destruct i as [|i]; [|destruct i; discriminate]. injection Hi as <-. replace (a + 16 * N.of_nat 0) with a by lia. exact R2.
    + set (l := d' :: ds') in *.
      assert (Hs : subspan {| ptr := a; len := 16 * N.of_nat (S (length l)) |} 16 = {| ptr := a + 16; len := 16 * N.of_nat (length l) |}).
      { unfold subspan. cbn [ptr len]. replace (16 * N.of_nat (S (length l)) <=? 16) with false by (unfold l; cbn [length]; lia). f_equal. lia. }
      rewrite Hs. destruct (IH (a + 16) w2) as (w' & E & T & C & F & R).
      { apply (mapped_sub w2 a (16 * N.of_nat (S (length l)))); [exact H2|lia|lia]. }
      exists w'. split; [exact E|]. split; [rewrite T; reflexivity|].
      split; [eapply same_cfg_trans; [|exact C]; constructor; reflexivity|]. split.
      * intros x Hx. rewrite F by lia. apply F2. lia.
      * intros i d0 Hi. destruct i as [|i].
        -- injection Hi as <-. replace (a + 16 * N.of_nat 0) with a by lia. destruct R2 as [A B].
           split; (eapply bytes_at_frame; [|eassumption]); intros x Hx; rewrite le_encode_length in Hx; apply F; lia.
        -- replace (a + 16 * N.of_nat (S i)) with (a + 16 + 16 * N.of_nat i) by lia. apply R. exact Hi.
Qed.

(** ** The translation function *)
Lemma unmap_fields bs : (10 <= length bs)%nat ->
  ntohs (get UnmapCommand "param_list_length" (le (slice 1 9 bs))) = unmap_list_length bs /\
  (get UnmapCommand "anchor" (le (slice 1 9 bs)) =? 1) = unmap_anchor bs.
Proof.
  intros H. split.
  - unfold unmap_list_length. cdb_fields. unfold ntohs. rewrite bswap_le; [reflexivity|]. apply slice_length. lia.
  - unfold unmap_anchor. cdb_fields. apply bit_testbit.
Qed.
Lemma list_fields pl : (8 <= length pl)%nat -> ntohs (get UnmapParamList "block_desc_data_length" (le (firstn 8 pl))) = descriptor_bytes pl.
Proof.
  intros H. unfold descriptor_bytes. change (firstn 8 pl) with (slice 0 8 pl). cdb_fields. unfold ntohs.
  rewrite bswap_le; [reflexivity|]. apply slice_length. lia.
Qed.
Lemma descr_fields l i : (16 * i + 16 <= length l)%nat ->
  bswap_32 (get UnmapBlockDescriptor "logical_block_count" (le (slice (16 * i) 16 l))) = be (slice (16 * i + 8) 4 l) /\
  bswap_64 (get UnmapBlockDescriptor "logical_block_addr" (le (slice (16 * i) 16 l))) = be (slice (16 * i) 8 l).
Proof.
  intros H. set (o := (16 * i)%nat) in *. split; fields.
  - rewrite (bits_le_slice_at l o 16 8 4 64 32) by (first [reflexivity|lia]). unfold bswap_32. rewrite bswap_le; [reflexivity|]. apply slice_length. lia.
  - rewrite (bits_le_slice_at l o 16 0 8 0 64) by (first [reflexivity|lia]). rewrite Nat.add_0_r. unfold bswap_64. rewrite bswap_le; [reflexivity|]. apply slice_length. lia.
Qed.

Lemma testbit0_case x : (x =? 1) = true \/ (x =? 1) = false. Proof. destruct (x =? 1); auto. Qed.

Lemma SetPages_mem al w r w' s bs : SetPages al kPageSize 1 0 w = Ret r w' -> pages_apart w s -> span_holds w s bs ->
  span_holds w' s bs /\ (fst r = kSuccess -> data_addr (snd r) + 4096 <= ptr s \/ ptr s + len s <= data_addr (snd r)).
Proof.
  unfold SetPages, kPageSize. intros E Ha [Hl Hb]. change (1 =? 0) with false in E. change (0 =? 0) with true in E. cbn [negb andb orb] in E.
  rewrite !orb_false_r in E.
  destruct (negb (data_addr al =? 0)).
  { unfold ret in E. injection E as <- <-. split; [split; assumption|discriminate]. }
  unfold AllocPages, bind in E. destruct (alloc_cb w) eqn:Eb; cbn [negb] in E.
  2:{ rewrite Eb in E. cbn in E. injection E as <- <-. split; [split; assumption|discriminate]. }
  pose proof (Ha (tick w) 4096 1) as A. cbv zeta in A. set (p := u64 (ans w (tick w) 4096 1)) in *.
  assert (M : forall w2, (forall x, in_span s x -> mem w2 x = mem w x) -> span_holds w2 s bs).
  { intros w2 H. split; [exact Hl|]. apply (bytes_at_frame w); [|exact Hb]. intros x Hx. apply H. unfold in_span. rewrite Hl. lia. }
  destruct (N.eqb_spec p 0) as [E0|E0]; cbn [alloc_cb log set_tick set_mem] in E; rewrite Eb in E; cbn [negb orb andb] in E;
    match type of E with context [u64 (ans ?v ?k ?q 0)] => set (m := u64 (ans v k q 0)) in E end.
  - unfold ret in E. injection E as <- <-. split; [|discriminate]. apply M. intros x _.
    destruct (m =? 0); cbn; [reflexivity|]. unfold map_pages. replace (4096 * 0) with 0 by reflexivity.
    replace ((m <=? x) && (x <? m + 0)) with false by lia. reflexivity.
  - unfold ret in E. injection E as <- <-. cbn [fst snd data_addr]. split.
    + apply M. intros x Hx. unfold in_span in Hx.
      destruct (m =? 0); cbn; unfold map_pages; [|replace (4096 * 0) with 0 by reflexivity; replace ((m <=? x) && (x <? m + 0)) with false by lia];
        replace ((p <=? x) && (x <? p + 4096)) with false by lia; reflexivity.
    + intros _. lia.
Qed.

Lemma unmap_ok cdb bs buffer pl n wr nsid al w : nsid < 2 ^ 32 -> span_holds w cdb bs -> span_holds w buffer pl -> unmap_request bs pl n ->
  data_addr al = 0 -> pages_apart w cdb ->
  (exists p m wr' w', UnmapToNvme (subspan cdb 1) buffer wr kPageSize nsid al w = Ret (kSuccess, wr', mk_alloc p m) w' /\
     p <> 0 /\ trace w' = trace w ++ page_events p m /\ same_cfg w w' /\
     view wr' = admin 4096 (deallocate_sqe nsid n p) /\ ranges_at w' p pl n /\ span_holds w' cdb bs) \/
  (exists al' w', UnmapToNvme (subspan cdb 1) buffer wr kPageSize nsid al w = Ret (kFailure, wr, al') w' /\
     same_cfg w w' /\ span_holds w' cdb bs /\ data_addr al' = 0 /\
     (alloc_cb w = false \/ exists m, trace w' = trace w ++ [EvAlloc 4096 1 0; EvAlloc 4096 0 m])).
Proof.
  intros Hns Hc Hb ((Hl & _) & Ha & Hp & Hn & Hd & Hpl) Hal Hap.
  destruct (unmap_fields bs Hl) as [F1 F2].
  assert (Hsub : span_holds w (subspan buffer 8) (skipn 8 pl)) by (apply (subspan_holds w buffer pl 8 Hb); lia).
  enough (Goal' : exists r w', UnmapToNvme (subspan cdb 1) buffer wr kPageSize nsid al w = Ret r w' /\
    ((exists p m, fst (fst r) = kSuccess /\ snd r = mk_alloc p m /\ p <> 0 /\ trace w' = trace w ++ page_events p m /\ same_cfg w w' /\
     view (snd (fst r)) = admin 4096 (deallocate_sqe nsid n p) /\ ranges_at w' p pl n /\ span_holds w' cdb bs) \/
    (exists al', r = (kFailure, wr, al') /\ same_cfg w w' /\ span_holds w' cdb bs /\ data_addr al' = 0 /\
     (alloc_cb w = false \/ exists m, trace w' = trace w ++ [EvAlloc 4096 1 0; EvAlloc 4096 0 m])))).
  { destruct Goal' as ([[st wr'] al'] & w' & E & [(p & m & R1 & R2 & G)|(al2 & R & G)]); cbn [fst snd] in *; try subst st al'.
    - left. exists p, m, wr', w'. split; [exact E|exact G].
    - right. injection R as -> -> ->. exists al2, w'. split; [exact E|exact G]. }
  unfold UnmapToNvme. unfold bind at 1. rewrite (cdb_ReadValue UnmapCommand cdb w bs Hc) by (cbn; lia).
  change (sizeof UnmapCommand) with 9%nat. rewrite F1, F2, Ha.
  change (N.of_nat (sizeof UnmapParamList)) with 8. replace (unmap_list_length bs <? 8) with false by lia.
  unfold bind at 1. rewrite (ReadValue_ok UnmapParamList buffer w pl Hb) by (change (sizeof UnmapParamList) with 8%nat; lia).
  change (sizeof UnmapParamList) with 8%nat. cbv zeta. rewrite list_fields by lia. rewrite Hd.
  change (N.of_nat (sizeof UnmapBlockDescriptor)) with 16.
  assert (Lb : len (subspan buffer 8) = N.of_nat (length pl - 8)) by (destruct Hsub as [-> _]; rewrite skipn_length; reflexivity).
  rewrite Lb. replace (N.of_nat (length pl - 8) <? 16 * N.of_nat n) with false by lia.
  replace (16 * N.of_nat n mod 16) with 0 by (symmetry; rewrite N.mul_comm; apply N.mod_mul; discriminate).
  cbn [negb N.eqb].
  replace (16 * N.of_nat n / 16) with (N.of_nat n) by (symmetry; rewrite N.mul_comm; apply N.div_mul; discriminate).
  replace ((N.of_nat n =? 0) || (256 <? N.of_nat n)) with false by lia.
  rewrite Nat2N.id. unfold bind at 1.
  rewrite (read_descriptors_ok n _ w (skipn 8 pl) Hsub) by (rewrite skipn_length; lia).
  set (ds := map _ (seq 0 n)).
  assert (Ld : length ds = n) by (unfold ds; rewrite map_length, seq_length; reflexivity).
  destruct (SetPages_case al w Hal) as (st & al' & w1 & E & K & C).
  pose proof (SetPages1_spec al kPageSize w eq_refl) as S. apply tst_inv in S as ([st' al''] & w1' & E' & evs & _ & S & _).
  rewrite E in E'. injection E' as <- <- <-. unfold bind at 1. rewrite E.
  destruct (SetPages_mem _ _ _ _ _ _ E Hap Hc) as [Hc1 Hdis]. cbn [fst snd] in Hdis.
  destruct C as [(-> & p & m & Hp0 & Hp' & Ht & ->)|(-> & Hz & C)].
  2:{ do 2 eexists. split; [reflexivity|]. right. exists al'. auto. }
  cbn [is_failure data_addr].
  destruct S as [S|[S|S]]; try (destruct S as [S _]; discriminate S). destruct S as (_ & _ & _ & _ & _ & Hm & _). cbn [data_addr] in Hm.
  change (N.of_nat (sizeof DatasetManagmentRange)) with 16. unfold bind at 1.
  destruct (write_ranges_ok ds p w1) as (w2 & E2 & T2 & C2 & Fr2 & R2).
  { rewrite Ld. apply (mapped_sub w1 p kPageSize); [exact Hm|lia|unfold kPageSize; lia]. }
  rewrite Ld in E2. rewrite E2. cbn [negb].
  do 2 eexists. split; [reflexivity|]. left. exists p, m. cbn [fst snd]. split; [reflexivity|]. split; [reflexivity|]. split; [exact Hp0|]. split; [rewrite T2; exact Ht|].
  split; [eapply same_cfg_trans; eassumption|]. split.
  - unfold view, admin. cbn [cmd set_cmd set_is_admin set_buffer_len is_admin buffer_len]. f_equal.
    assert (Hu : u8 (N.of_nat n - 1) = N.of_nat n - 1) by (unfold u8; apply N.mod_small; lia). rewrite Hu.
    unfold deallocate_sqe. wire_tac.
    rewrite bits_small by lia. unfold set_bits. rewrite N.ldiff_0_l, N.lor_0_l, N.shiftl_0_r, N.land_ones.
    apply N.mod_small. change (2 ^ 8) with 256. lia.
  - split.
    2:{ specialize (Hdis eq_refl). cbn [data_addr] in Hdis. destruct Hc1 as [Hcl Hcb]. split; [exact Hcl|].
        apply (bytes_at_frame w1); [|exact Hcb]. intros x Hx. apply Fr2. rewrite Ld. lia. }
    intros i Hi. assert (Hnth : nth_error ds i = Some (le (slice (16 * i) 16 (skipn 8 pl)))).
    { unfold ds. rewrite nth_error_map. rewrite (nth_error_nth' (seq 0 n) 0%nat) by (rewrite seq_length; exact Hi).
      rewrite seq_nth by exact Hi. reflexivity. }
    destruct (R2 i _ Hnth) as [A B].
    destruct (descr_fields (skipn 8 pl) i) as [D1 D2]; [rewrite skipn_length; lia|]. rewrite D1 in A. rewrite D2 in B.
    unfold descriptor_blocks, descriptor_lba.
    assert (Q : forall o k, slice o k (skipn 8 pl) = slice (8 + o) k pl).
    { intros o k. unfold slice. rewrite skipn_skipn'. do 2 f_equal. lia. }
    rewrite Q in A, B. replace (8 + (16 * i + 8))%nat with (16 + 16 * i)%nat in A by lia. split; assumption.
Qed.

Lemma unmap_bad cdb bs buffer pl wr nsid al w : span_holds w cdb bs -> span_holds w buffer pl -> byte_at bs 0 = 0x42 ->
  (forall n, ~ unmap_request bs pl n) ->
  exists st, UnmapToNvme (subspan cdb 1) buffer wr kPageSize nsid al w = Ret (st, wr, al) w /\ st <> kSuccess.
Proof.
  intros Hc Hb Ho Hbad. unfold UnmapToNvme. unfold bind at 1.
  destruct (le_lt_dec 10 (length bs)) as [Hl|Hl].
  2:{ rewrite (cdb_ReadValue_short UnmapCommand cdb w bs Hc) by (cbn; lia). eexists. split; [reflexivity|discriminate]. }
  destruct (unmap_fields bs Hl) as [F1 F2].
  rewrite (cdb_ReadValue UnmapCommand cdb w bs Hc) by (cbn; lia). change (sizeof UnmapCommand) with 9%nat. rewrite F1, F2.
  change (N.of_nat (sizeof UnmapParamList)) with 8.
  destruct (N.ltb_spec (unmap_list_length bs) 8) as [L1|L1]; [eexists; split; [reflexivity|discriminate]|].
  destruct (unmap_anchor bs) eqn:Ea; [eexists; split; [reflexivity|discriminate]|].
  unfold bind at 1. destruct (le_lt_dec 8 (length pl)) as [Hp|Hp].
  2:{ rewrite ReadValue_short by (change (sizeof UnmapParamList) with 8%nat; destruct Hb as [-> _]; lia). eexists. split; [reflexivity|discriminate]. }
  rewrite (ReadValue_ok UnmapParamList buffer w pl Hb) by (change (sizeof UnmapParamList) with 8%nat; lia).
  change (sizeof UnmapParamList) with 8%nat. cbv zeta. rewrite list_fields by lia.
  change (N.of_nat (sizeof UnmapBlockDescriptor)) with 16.
  assert (Lb : len (subspan buffer 8) = N.of_nat (length pl - 8)).
  { unfold subspan. destruct Hb as [-> _]. destruct (N.leb_spec (N.of_nat (length pl)) 8); cbn; lia. }
  rewrite Lb. destruct (N.ltb_spec (N.of_nat (length pl - 8)) (descriptor_bytes pl)) as [L2|L2]; [eexists; split; [reflexivity|discriminate]|].
  destruct (N.eqb_spec (descriptor_bytes pl mod 16) 0) as [L3|L3]; cbn [negb]; [|eexists; split; [reflexivity|discriminate]].
  destruct ((descriptor_bytes pl / 16 =? 0) || (256 <? descriptor_bytes pl / 16)) eqn:L4; [eexists; split; [reflexivity|discriminate]|].
  exfalso. apply (Hbad (N.to_nat (descriptor_bytes pl / 16))).
  assert (D : descriptor_bytes pl = 16 * (descriptor_bytes pl / 16)) by (pose proof (N.div_mod (descriptor_bytes pl) 16 ltac:(discriminate)); lia).
  set (q := descriptor_bytes pl / 16) in *. repeat split; try assumption; lia.
Qed.

(** ** Falling through into MODE SENSE(6) *)
Lemma mode_unknown a wrs al nsid w : known_page (ca_page_code a) = false ->
  exists st wrs' al' n w', ModeSenseToNvme a wrs al kPageSize nsid 1 w = Ret (st, wrs', al', n) w' /\ st <> kSuccess.
Proof.
  intros Hk. unfold ModeSenseToNvme.
  destruct (known_cases (ca_page_code a)) as (K1 & K2 & K3).
  assert (Hn : needs_cache (ca_page_code a) = false) by (destruct (needs_cache (ca_page_code a)); [rewrite K3 in Hk by reflexivity; discriminate|reflexivity]).
  rewrite K1, Hn. cbn [negb]. rewrite (K2 Hn), Hk.
  destruct (ca_dbd a).
  - unfold bind, ret. cbn [is_success negb]. do 5 eexists. split; [reflexivity|discriminate].
  - cbn [aget N.eqb]. unfold GenerateBlockDescriptorIdentifyCmd. cbv zeta.
    pose proof (SetPages1_spec al kPageSize w eq_refl) as S. apply tst_inv in S as ([st al'] & w1 & E & _). unfold bind. rewrite E.
    destruct st; cbn [is_failure]; unfold ret; cbn [is_success negb]; do 5 eexists; (split; [reflexivity|discriminate]).
Qed.

Lemma unmap_switch t cdb bs buffer lun w st wr al w1 : idle t -> span_holds w1 cdb bs -> (6 <= length bs)%nat ->
  UnmapToNvme (subspan cdb 1) buffer (e0 (nvme_wrappers t)) kPageSize (nsid_of lun) (e0 (allocations t)) w = Ret (st, wr, al) w1 ->
  let t1 := set_count (set_status (set_al0 (set_wr0 (started t cdb) wr) al) st) 1 in
  forall st2 wrs al2 n w2,
  ModeSenseToNvme {| ca_page_code := ms_page bs; ca_pc := ms_pc bs; ca_dbd := ms_dbd bs; ca_llbaa := false |}
    (nvme_wrappers t1) al kPageSize (nsid_of lun) 1 w1 = Ret (st2, wrs, al2, n) w2 ->
  Begin_switch 0x42 (subspan cdb 1) buffer (nsid_of lun) (started t cdb) 0 w =
    Ret (set_status (set_count (set_al0 (set_wrappers t1 wrs) al2) n) st2, byte_at bs 4) w2.
Proof.
  intros Hi Hc Hl E t1 st2 wrs al2 n w2 E2.
  change (Begin_switch 0x42) with Begin_Unmap. unfold Begin_Unmap. unfold bind at 1.
  change (nvme_wrappers (started t cdb)) with (nvme_wrappers t). change (allocations (started t cdb)) with (allocations t). rewrite E.
  cbv zeta. fold t1. unfold Begin_ModeSense6, ModeSense6ToNvme. unfold bind at 2. unfold bind at 1.
  rewrite (cdb_ReadValue ModeSense6Command cdb w1 bs Hc) by (cbn; lia).
  change (sizeof ModeSense6Command) with 5%nat. cbv zeta. rewrite (attrs6_eq bs Hl), (ms_alloc_eq bs Hl). unfold bind.
  change (nvme_cmd_count t1) with 1. change (e0 (allocations t1)) with al. rewrite E2. reflexivity.
Qed.

Lemma Begin_unmap_unknown t cdb bs buffer pl lun w : idle t -> span_holds w cdb bs -> span_holds w buffer pl -> byte_at bs 0 = 0x42 ->
  known_page (ms_page bs) = false -> pages_apart w cdb -> refuses t cdb buffer lun w.
Proof.
  intros Hi Hc Hb Ho Hk Hap.
  assert (Hne : bs <> []) by (eapply cdb_nonempty; [exact Ho|discriminate]).
  pose proof Hi as (_ & Hcount & Hh). apply held_nil in Hh as (Z0 & Z1 & Z2).
  assert (U : exists st wr al w1, UnmapToNvme (subspan cdb 1) buffer (e0 (nvme_wrappers t)) kPageSize (nsid_of lun) (e0 (allocations t)) w = Ret (st, wr, al) w1 /\
    span_holds w1 cdb bs).
  { assert (D : (exists n, unmap_request bs pl n) \/ forall n, ~ unmap_request bs pl n).
    { set (n := N.to_nat (descriptor_bytes pl / 16)).
      assert (D : unmap_request bs pl n \/ ~ unmap_request bs pl n).
      { unfold unmap_request, unmap_cdb. destruct (unmap_anchor bs); lia. }
      destruct D as [D|D]; [left; exists n; exact D|right]. intros k Hk'. apply D. replace n with k; [exact Hk'|].
      destruct Hk' as (_ & _ & _ & _ & Hd & _). unfold n. rewrite Hd, N.mul_comm, N.div_mul by discriminate. lia. }
    destruct D as [(n & D)|D].
    - destruct (unmap_ok cdb bs buffer pl n (e0 (nvme_wrappers t)) (nsid_of lun) (e0 (allocations t)) w) as
        [(p & m & wr' & w' & E & _ & _ & _ & _ & _ & H)|(al' & w' & E & _ & H & _)]; try assumption; try (apply (empty_data _ Z0)).
      + unfold nsid_of. apply N.mod_lt. discriminate.
      + do 4 eexists. split; eassumption.
      + do 4 eexists. split; eassumption.
    - destruct (unmap_bad cdb bs buffer pl (e0 (nvme_wrappers t)) (nsid_of lun) (e0 (allocations t)) w Hc Hb Ho D) as (st & E & _).
      do 4 eexists. split; eassumption. }
  destruct U as (st & wr & al & w1 & E & Hc1).
  destruct (le_lt_dec 6 (length bs)) as [Hl|Hl].
  - destruct (mode_unknown {| ca_page_code := ms_page bs; ca_pc := ms_pc bs; ca_dbd := ms_dbd bs; ca_llbaa := false |}
      (nvme_wrappers (set_count (set_status (set_al0 (set_wr0 (started t cdb) wr) al) st) 1)) al (nsid_of lun) w1 Hk) as (st2 & wrs & al2 & n & w2 & E2 & Hs).
    eapply Begin_refuses; try eassumption; [eapply unmap_switch; eassumption|]. exact Hs.
  - eapply Begin_refuses; try eassumption.
    + change (Begin_switch 0x42) with Begin_Unmap. unfold Begin_Unmap. unfold bind at 1.
      change (nvme_wrappers (started t cdb)) with (nvme_wrappers t). change (allocations (started t cdb)) with (allocations t). rewrite E.
      cbv zeta. unfold Begin_ModeSense6, ModeSense6ToNvme. unfold bind.
      rewrite (cdb_ReadValue_short ModeSense6Command cdb w1 bs Hc1) by (cbn; lia). reflexivity.
    + discriminate.
Qed.

(** the crafted reserved bytes with which the fall-through changes nothing *)
Definition inert (bs : list byte) : Prop := ms_dbd bs = true /\ known_page (ms_page bs) = true /\ needs_cache (ms_page bs) = false.
Lemma inert_mode bs wrs al lun w : inert bs ->
  ModeSenseToNvme {| ca_page_code := ms_page bs; ca_pc := ms_pc bs; ca_dbd := ms_dbd bs; ca_llbaa := false |} wrs al kPageSize (nsid_of lun) 1 w =
    Ret (kSuccess, wrs, al, 1) w.
Proof.
  intros (H1 & H2 & H3). destruct (known_cases (ms_page bs)) as (K1 & K2 & _).
  unfold ModeSenseToNvme. cbn [ca_dbd ca_page_code ca_pc]. rewrite H1, K1, H3, (K2 H3), H2. reflexivity.
Qed.

Lemma Begin_unmap_inert t cdb bs buffer lun w st wr al w1 : idle t -> span_holds w cdb bs -> span_holds w1 cdb bs -> (6 <= length bs)%nat -> byte_at bs 0 = 0x42 ->
  inert bs ->
  UnmapToNvme (subspan cdb 1) buffer (e0 (nvme_wrappers t)) kPageSize (nsid_of lun) (e0 (allocations t)) w = Ret (st, wr, al) w1 ->
  exists t', Begin t cdb buffer lun w = Ret (t', begin_ok (byte_at bs 4)) w1 /\ accepted t' /\ exposes t' = [view wr] /\
    e0 (allocations t') = al.
Proof.
  intros Hi Hc Hc1 Hl Ho Hn E. assert (Hne : bs <> []) by (eapply cdb_nonempty; [exact Ho|discriminate]).
  pose proof (unmap_switch t cdb bs buffer lun w st wr al w1 Hi Hc1 Hl E _ _ _ _ _ (inert_mode bs _ al lun w1 Hn)) as S.
  eexists. split; [eapply Begin_accepts; try eassumption; reflexivity|]. split; [reflexivity|]. split; reflexivity.
Qed.
