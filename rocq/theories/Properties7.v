(** C37, C38, C44: UNMAP, stale commands, responses that could not be produced. *)
From Coq Require Import Arith NArith String List Lia Bool Init.Byte Permutation.
From Coq Require Import ZifyBool ZifyNat ZifyN.
From Verif Require Import Bytes Layout World ScsiDefs NvmeDefs Common ModeSenseCmd StatusCmd SmallCmds UnmapCmd TranslationCls
  Spec RwSpec InquirySpec SmallSpec ModeSpec HistorySpec
  Facts Logic BeginFacts CompleteFacts StatusFacts RwFacts AdminFacts InquiryFacts SmallFacts ModeFacts RelFacts Witness
  Properties1 Properties3 Properties4 Properties6 UnmapSpec UnmapFacts JunkFacts.
Import ListNotations.
Local Open Scope string_scope.
Local Open Scope list_scope.
Local Open Scope N_scope.

(** ** C37 *)

(** The UNMAP translation function: a supported request becomes one Dataset
    Management command with AD set, NR = descriptors - 1 and the range list in
    a freshly allocated page; or the allocator refused.  Missing for the full
    claim: the command is marked as an admin command (it is an I/O command), and
    through the API the result of this function is discarded
    ([C37_api_refuted]). *)
Theorem C37_translation_partial : forall cdb bs buffer pl n wr nsid al w,
  nsid < 2 ^ 32 -> span_holds w cdb bs -> span_holds w buffer pl -> unmap_request bs pl n ->
  data_addr al = 0 -> pages_apart w cdb ->
  (exists p m wr' w', UnmapToNvme (subspan cdb 1) buffer wr 4096 nsid al w =
       Ret (kSuccess, wr', {| data_addr := p; data_page_count := 1; mdata_addr := m; mdata_page_count := 0 |}) w' /\
     p <> 0 /\ trace w' = trace w ++ [EvAlloc 4096 1 p; EvAlloc 4096 0 m] /\
     view wr' = admin 4096 (deallocate_sqe nsid n p) /\ ranges_at w' p pl n) \/
  (exists al' w', UnmapToNvme (subspan cdb 1) buffer wr 4096 nsid al w = Ret (kFailure, wr, al') w' /\
     data_addr al' = 0 /\
     (alloc_cb w = false \/ exists m, trace w' = trace w ++ [EvAlloc 4096 1 0; EvAlloc 4096 0 m])).
Proof.
  intros cdb bs buffer pl n wr nsid al w H1 H2 H3 H4 H5 H6.
  destruct (unmap_ok cdb bs buffer pl n wr nsid al w H1 H2 H3 H4 H5 H6) as [(p & m & wr' & w' & E & A & B & _ & C & D & _)|(al' & w' & E & _ & _ & A & B)].
  - left. exists p, m, wr', w'. split; [exact E|]. auto.
  - right. exists al', w'. auto.
Qed.
Print Assumptions C37_translation_partial.

Theorem C37_malformed_partial : forall cdb bs buffer pl wr nsid al w,
  span_holds w cdb bs -> span_holds w buffer pl -> byte_at bs 0 = 0x42 -> (forall n, ~ unmap_request bs pl n) ->
  exists st, UnmapToNvme (subspan cdb 1) buffer wr 4096 nsid al w = Ret (st, wr, al) w /\ st <> kSuccess.
Proof. exact unmap_bad. Qed.
Print Assumptions C37_malformed_partial.

Lemma ms_page_zero bs : byte_at bs 2 = 0 -> known_page (ms_page bs) = false.
Proof. intros H. unfold ms_page. rewrite H. reflexivity. Qed.

(** Through Begin, every UNMAP CDB whose reserved bytes are zero is refused,
    whatever its parameter list. *)
Theorem C37_api_refuted : forall t cdb bs buffer pl n lun w,
  idle t -> span_holds w cdb bs -> span_holds w buffer pl -> pages_apart w cdb ->
  unmap_request bs pl n -> unmap_reserved_zero bs -> refuses t cdb buffer lun w.
Proof.
  intros t cdb bs buffer pl n lun w Hi Hc Hb Hap ((_ & Ho) & _) (_ & H2 & _).
  eapply Begin_unmap_unknown; try eassumption. apply ms_page_zero; exact H2.
Qed.
Print Assumptions C37_api_refuted.

(** An UNMAP CDB whose reserved bytes look like a MODE SENSE(6) with DBD set
    and a page that needs no command: the Deallocate command is exposed, marked
    as an admin command. *)
Theorem C37_reserved_bits_partial : forall t cdb bs buffer pl n lun w,
  idle t -> span_holds w cdb bs -> span_holds w buffer pl -> pages_apart w cdb ->
  unmap_request bs pl n -> N.testbit (byte_at bs 1) 3 = true -> byte_at bs 2 = 0x0a \/ byte_at bs 2 = 0x1a ->
  (exists t' p evs w', Begin t cdb buffer lun w = Ret (t', begin_ok (byte_at bs 4)) w' /\ accepted t' /\
     p <> 0 /\ page_request p evs /\ trace w' = trace w ++ evs /\
     exposes t' = [admin 4096 (deallocate_sqe (nsid_of lun) n p)] /\ ranges_at w' p pl n) \/
  (exists t' w', Begin t cdb buffer lun w = Ret (t', begin_ok (byte_at bs 4)) w' /\ out_of_pages w w').
Proof.
  intros t cdb bs buffer pl n lun w Hi Hc Hb Hap Hr Hd Hp.
  assert (Hin : inert bs).
  { unfold inert. unfold ms_dbd, ms_page. split; [exact Hd|]. destruct Hp as [-> | ->]; split; reflexivity. }
  assert (Hn : nsid_of lun < 2 ^ 32) by (unfold nsid_of; apply N.mod_lt; discriminate).
  assert (Hz : data_addr (e0 (allocations t)) = 0) by (destruct Hi as (_ & _ & Hh); apply held_nil in Hh as (Z0 & _ & _); apply empty_data, Z0).
  pose proof Hr as ((Hl & Ho) & _).
  destruct (unmap_ok cdb bs buffer pl n (e0 (nvme_wrappers t)) (nsid_of lun) (e0 (allocations t)) w Hn Hc Hb Hr Hz Hap)
    as [(p & m & wr' & w' & E & A & B & _ & C & D & S)|(al' & w' & E & _ & S & A & B)].
  - left. destruct (Begin_unmap_inert t cdb bs buffer lun w _ _ _ _ Hi Hc S ltac:(lia) Ho Hin E) as (t' & E' & Ha & X & _).
    exists t', p, [EvAlloc 4096 1 p; EvAlloc 4096 0 m], w'. split; [exact E'|]. split; [exact Ha|]. split; [exact A|].
    split; [eexists; reflexivity|]. split; [exact B|]. split; [rewrite X, C; reflexivity|exact D].
  - right. destruct (Begin_unmap_inert t cdb bs buffer lun w _ _ _ _ Hi Hc S ltac:(lia) Ho Hin E) as (t' & E' & _).
    exists t', w'. split; [exact E'|]. destruct B as [B|(m & B)]; [left; exact B|right]. eexists. split; [exact B|left; reflexivity].
Qed.
Print Assumptions C37_reserved_bits_partial.

(** concrete request: two descriptors (LBA 5, 8 blocks; LBA 0x100000000, 1 block) *)
Definition ex_plist : list byte := B [0; 38; 0; 32; 0; 0; 0; 0;  0; 0; 0; 0; 0; 0; 0; 5;  0; 0; 0; 8;  0; 0; 0; 0;
                                      0; 0; 0; 1; 0; 0; 0; 0;  0; 0; 0; 1;  0; 0; 0; 0].
Definition ex_unmap (b1 b2 : N) : list byte := B [0x42; b1; b2; 0; 0; 0; 0; 0; 40; 0].
Definition with_list (w : world) (pl : list byte) : world := set_mem w (store_bytes (mem w) (ptr (ex_buf 64)) pl).
Example C37_premises_met :
  unmap_request (ex_unmap 0 0) ex_plist 2 /\ unmap_reserved_zero (ex_unmap 0 0) /\ unmap_request (ex_unmap 8 0x0a) ex_plist 2 /\
  N.testbit (byte_at (ex_unmap 8 0x0a) 1) 3 = true /\
  map (descriptor_lba ex_plist) [0%nat; 1%nat] = [5; 0x100000000] /\ map (descriptor_blocks ex_plist) [0%nat; 1%nat] = [8; 1].
Proof. unfold unmap_request, unmap_cdb, unmap_reserved_zero. repeat split; try (vm_compute; reflexivity); try (vm_compute; discriminate); cbn; lia. Qed.
Definition unmap_run (b1 b2 : N) : option (nat * list N * list (option byte)) :=
  let cdb := ex_unmap b1 b2 in
  match Begin ex_obj (ex_cdb cdb) (ex_buf 64) 6 (with_list (ex_world cdb) ex_plist) with
  | Ret (t, _) w =>
      let a := data_addr (e0 (allocations t)) in
      Some (length (exposes t), map (fun x => le (slice 40 4 (x_bytes x))) (exposes t),
            if a =? 0 then [] else map (fun i => mem w (a + i)) [4; 8; 20; 28])
  | UB _ => None
  end.
Example C37_run : unmap_run 0 0 = Some (0%nat, [], []) /\
  unmap_run 8 0x0a = Some (1%nat, [1], [Some x08; Some x05; Some x01; Some x01]).
Proof. split; vm_compute; reflexivity. Qed.

(** ** C38 *)

(** For every CDB but UNMAP's the commands exposed are a function of the CDB,
    the buffer, the LUN and the environment: not of what the object held before
    and not of uninitialised storage.  Missing: UNMAP ([C38_stale_refuted]) and
    the advertised buffer length ([C53_buffer_length_refuted]). *)
Theorem C38_fresh_partial : forall w cdb bs buffer lun, span_holds w cdb bs -> byte_at bs 0 <> 0x42 ->
  exists commands, forall t j t' r w', idle t -> Begin t cdb buffer lun (with_junk w j) = Ret (t', r) w' ->
    map wire_of (exposes t') = commands.
Proof.
  intros w cdb bs buffer lun Hc Ho.
  set (t0 := Translation_init (Build_arr3 (ex_wr 0) (ex_wr 0) (ex_wr 0))).
  assert (I0 : idle t0) by (split; [reflexivity|split; reflexivity]).
  exists (match Begin t0 cdb buffer lun w with Ret (t, _) _ => map wire_of (exposes t) | UB _ => [] end).
  intros t j t' r w' Hi E. rewrite blind_Begin in E.
  destruct (C53_history_independent_partial t t0 w cdb bs buffer lun Hi I0 Hc Ho) as [S _].
  unfold same_outcome, begin_seen in S.
  destruct (Begin t cdb buffer lun w) as [[t1 r1] w1|]; [|discriminate E]. cbn [shift] in E. injection E as -> _ _.
  destruct (Begin t0 cdb buffer lun w) as [[t2 r2] w2|]; [|contradiction]. destruct S as [_ S]. cbn [fst snd] in S.
  injection S as _ S. exact S.
Qed.
Print Assumptions C38_fresh_partial.

(** An UNMAP CDB with an unusable parameter list whose reserved bytes look like a
    MODE SENSE(6): accepted, and the command exposed is the one the object held
    before - for a new object, uninitialised memory. *)
Theorem C38_stale_refuted : forall t cdb bs buffer pl lun w,
  idle t -> span_holds w cdb bs -> span_holds w buffer pl -> (6 <= length bs)%nat -> byte_at bs 0 = 0x42 ->
  N.testbit (byte_at bs 1) 3 = true -> byte_at bs 2 = 0x0a \/ byte_at bs 2 = 0x1a -> (forall n, ~ unmap_request bs pl n) ->
  exists t', Begin t cdb buffer lun w = Ret (t', begin_ok (byte_at bs 4)) w /\ accepted t' /\
    exposes t' = [view (e0 (nvme_wrappers t))].
Proof.
  intros t cdb bs buffer pl lun w Hi Hc Hb Hl Ho Hd Hp Hn.
  assert (Hin : inert bs).
  { unfold inert. unfold ms_dbd, ms_page. split; [exact Hd|]. destruct Hp as [-> | ->]; split; reflexivity. }
  destruct (unmap_bad cdb bs buffer pl (e0 (nvme_wrappers t)) (nsid_of lun) (e0 (allocations t)) w Hc Hb Ho Hn) as (st & E & _).
  destruct (Begin_unmap_inert t cdb bs buffer lun w _ _ _ _ Hi Hc Hc Hl Ho Hin E) as (t' & E' & Ha & X & _).
  exists t'. auto.
Qed.
Print Assumptions C38_stale_refuted.

Example C38_premises_met : forall pl n, ~ unmap_request (B [0x42; 8; 0x0a; 0; 0; 0; 0; 0; 0; 0]) pl n.
Proof. intros pl n (_ & _ & H & _). vm_compute in H. apply H. reflexivity. Qed.

(** ** C44 *)

(** Once every NVMe command succeeded Complete reports GOOD, whether or not
    the response could be produced. *)
Theorem C44_always_good_refuted : forall t cpls buffer sense w t' r w',
  accepted t -> length cpls = length (exposes t) -> nvme_cmd_count t <= 3 -> Forall cpl_ok cpls ->
  Complete t cpls buffer sense w = Ret (t', r) w' -> r = api_ok GOOD.
Proof.
  intros t cpls buffer sense w t' r w' Ha Hn Hc Hok E. unfold accepted in Ha. unfold Complete in E. rewrite Ha in E. cbn [is_uninitialized] in E.
  assert (L : N.of_nat (length cpls) = nvme_cmd_count t).
  { rewrite Hn. unfold exposes, GetNvmeWrappers. rewrite map_length, firstn_length. cbn. lia. }
  rewrite L, N.eqb_refl in E. cbn [negb is_success] in E.
  rewrite (first_error_ok cpls Hok) in E.
  apply bind_ret_inv in E as (o & w1 & _ & E). apply bind_ret_inv in E as (s & w2 & _ & E).
  cbv zeta in E. apply bind_ret_inv in E as (t2 & w3 & _ & E). unfold ret in E. injection E as _ <- _. reflexivity.
Qed.
Print Assumptions C44_always_good_refuted.

(** in particular for a VPD page that is not supported, where nothing at all is
    written *)
Theorem C44_unsupported_page_refuted : forall lun bs ns ct buffer,
  inquiry_cdb bs -> inq_evpd bs = 1 -> ~ In (inq_page bs) [0x00; 0x80; 0x83; 0x86; 0xb0; 0xb1; 0xb2] ->
  N.of_nat (length ns) = 4096 -> N.of_nat (length ct) = 4096 ->
  inquiry_round_trip lun bs ns ct buffer same_memory.
Proof. exact C26_unlisted_writes_nothing. Qed.
Print Assumptions C44_unsupported_page_refuted.

(** ... and for a buffer too small for the standard INQUIRY data *)
Theorem C44_short_buffer_refuted : forall lun bs ns ct buffer,
  inquiry_cdb bs -> inq_evpd bs = 0 -> N.of_nat (length ns) = 4096 -> N.of_nat (length ct) = 4096 -> len buffer < 36 ->
  inquiry_round_trip lun bs ns ct buffer same_memory.
Proof. intros lun bs ns ct buffer H1 H2 H3 H4 H5. exact (proj2 (C25_standard_inquiry lun bs ns ct buffer H1 H2 H3 H4) H5). Qed.
Print Assumptions C44_short_buffer_refuted.

(** What does hold: a CDB Begin rejected, or a command the device failed, is
    never reported as GOOD. *)
Theorem C44_not_good_partial : forall env t w cpls buffer sense t' r w',
  reach env true t w -> span_mapped w sense -> rejected t \/ ~ Forall cpl_ok cpls ->
  Complete t cpls buffer sense w = Ret (t', r) w' -> r <> api_ok GOOD.
Proof.
  intros env t w cpls buffer sense t' r w' R Hm H E ->. destruct (C08_good_means_success _ _ _ _ _ _ _ _ R E Hm) as [Ha Hok].
  destruct H as [[H _]|H]; [apply H; exact Ha|contradiction].
Qed.
Print Assumptions C44_not_good_partial.

Example C44_run :
  api_run xff (B [0x12; 1; 0xc7; 0; 64; 0]) [repeat x00 4096; repeat x00 4096] [0; 0] 0 64 4 = Some (64, 2%nat, GOOD, B [0; 0; 0; 0]) /\
  api_run xff (B [0x12; 0; 0; 0; 8; 0]) [repeat x00 4096; repeat x00 4096] [0; 0] 0 8 4 = Some (8, 2%nat, GOOD, B [0; 0; 0; 0]).
Proof. split; vm_compute; reflexivity. Qed.
