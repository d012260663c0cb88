(** C39-C42: REPORT LUNS, READ CAPACITY(10), REQUEST SENSE, MAINTENANCE IN. *)
From Coq Require Import Arith NArith String List Lia Bool Init.Byte Permutation.
From Coq Require Import ZifyBool ZifyNat ZifyN.
From Verif Require Import Bytes Layout ScsiDefs World Common SmallCmds ModeSenseCmd TranslationCls Spec RwSpec InquirySpec SmallSpec Facts Logic BeginFacts
  CompleteFacts StatusFacts RwFacts AdminFacts InquiryFacts SmallFacts Witness.
Import ListNotations.
Local Open Scope string_scope.
Local Open Scope list_scope.
Local Open Scope N_scope.

(** ** A concrete command, executed: Begin, the device fills the pages named by
    the exposed commands and answers with [cpls], Complete; the result is the
    CDB's alloc_len, the number of commands, the SCSI status and the first [n]
    bytes of the data buffer (which was all zero) *)
Definition prp1_of (x : exposed) : N := le (slice 24 8 (x_bytes x)).
Fixpoint fill_pages (xs : list exposed) (pages : list (list byte)) (m : N -> option byte) : N -> option byte :=
  match xs, pages with
  | x :: xs', p :: pages' => region (prp1_of x) p (fill_pages xs' pages' m)
  | _, _ => m
  end.
Definition api_run (jk : byte) (cdb : list byte) (pages : list (list byte)) (cpls : list N) (lun blen : N) (n : nat)
  : option (N * nat * N * list byte) :=
  match Begin ex_obj (ex_cdb cdb) (ex_buf blen) lun (ex_world_with (fun _ _ => x00) jk cdb []) with
  | Ret (t1, b) w1 =>
      let w2 := set_mem w1 (fill_pages (exposes t1) pages (mem w1)) in
      match Complete t1 cpls (ex_buf blen) ex_sense w2 with
      | Ret (_, r) w3 =>
          match load 0x20000 n w3 with
          | Ret l _ => Some (br_alloc_len b, length (exposes t1), cr_scsi_status r, l)
          | UB _ => None
          end
      | UB _ => None
      end
  | UB _ => None
  end.

(** ** C39 *)

(** the command issued and the allocation length *)
Theorem C39_report_luns_command : forall t cdb buffer lun w bs,
  idle t -> span_holds w cdb bs -> (12 <= length bs)%nat -> byte_at bs 0 = 0xa0 -> byte_at bs 2 <= 2 ->
  one_page_begin t cdb buffer lun w (be (slice 6 4 bs)) (fun p =>
    {| q_opc := 0x06; q_nsid := 0; q_prp1 := p; q_cdw10 := 2; q_cdw11 := 0; q_cdw12 := 0 |}).
Proof. intros t cdb buffer lun w bs Hi Hc Hl Ho Hs. apply pending_begin. eapply Begin_luns; try eassumption. split; assumption. Qed.
Print Assumptions C39_report_luns_command.

Theorem C39_report_luns_refused : forall t cdb buffer lun w bs,
  idle t -> span_holds w cdb bs -> byte_at bs 0 = 0xa0 -> (length bs < 12)%nat \/ 2 < byte_at bs 2 ->
  refuses t cdb buffer lun w.
Proof. intros. eapply Begin_luns_refuses; eassumption. Qed.
Print Assumptions C39_report_luns_refused.

(** if the buffer holds the whole list, it is returned in full *)
Theorem C39_report_luns_lists_namespaces : forall lun bs page buffer,
  (12 <= length bs)%nat -> byte_at bs 0 = 0xa0 -> byte_at bs 2 <= 2 -> N.of_nat (length page) = 4096 ->
  let ids := active_namespaces page in
  8 + 8 * N.of_nat (length ids) <= len buffer -> len buffer < 2 ^ 32 ->
  page_round_trip lun bs (identify_sqe 2 0) page buffer (fun w2 w3 =>
    wrote w2 w3 (ptr buffer) (lun_list (8 * N.of_nat (length ids)) ids)).
Proof.
  intros lun bs page buffer Hl Ho Hs Hp ids Hb Hb2.
  pose proof (luns_trip lun bs page buffer (conj Hl Ho) Hs Hp) as T.
  intros t w cdb b0 t1 r w1 H1 H2 H3 H4. destruct (T t w cdb b0 t1 r w1 H1 H2 H3 H4) as (p & X & C).
  exists p. split; [exact X|]. intros w2 cpl sense A1 A2 A3 A4 A5.
  destruct (C w2 cpl sense A1 A2 A3 A4 A5) as (t2 & w3 & E & I & Q). exists t2, w3. split; [exact E|]. split; [exact I|].
  unfold luns_post in Q. replace (len buffer <? 8) with false in Q by lia. cbv zeta in Q.
  unfold reported, luns_that_fit in Q. rewrite N.mod_small in Q by lia.
  rewrite firstn_all2 in Q; [exact Q|]. fold ids.
  assert (N.of_nat (length ids) <= (len buffer - 8) / 8) by (apply N.div_le_lower_bound; lia). lia.
Qed.
Print Assumptions C39_report_luns_lists_namespaces.

(** in any buffer of at least 8 bytes: a prefix of the list, but the LUN LIST
    LENGTH is that of the prefix.  Missing for the full claim: the length of the
    whole list (see the refutation). *)
Theorem C39_report_luns_partial : forall lun bs page buffer,
  (12 <= length bs)%nat -> byte_at bs 0 = 0xa0 -> byte_at bs 2 <= 2 -> N.of_nat (length page) = 4096 ->
  page_round_trip lun bs (identify_sqe 2 0) page buffer (fun w2 w3 =>
    if len buffer <? 8 then same_memory w2 w3
    else let ids := firstn (N.to_nat (((len buffer - 8) mod 2 ^ 32) / 8)) (active_namespaces page) in
         wrote w2 w3 (ptr buffer) (lun_list (8 * N.of_nat (length ids)) ids)).
Proof. intros lun bs page buffer Hl Ho Hs Hp. apply luns_trip; try assumption. split; assumption. Qed.
Print Assumptions C39_report_luns_partial.

(** SPC-4: LUN LIST LENGTH is that of the whole list even if it was truncated.
    The translator never returns that when the buffer is too small. *)
Theorem C39_list_length_refuted : forall lun bs page buffer,
  (12 <= length bs)%nat -> byte_at bs 0 = 0xa0 -> byte_at bs 2 <= 2 -> N.of_nat (length page) = 4096 ->
  8 <= len buffer < 8 + 8 * N.of_nat (length (active_namespaces page)) ->
  page_round_trip lun bs (identify_sqe 2 0) page buffer (fun w2 w3 =>
    ~ bytes_at w3 (ptr buffer) (be_encode 4 (8 * N.of_nat (length (active_namespaces page))))).
Proof.
  intros lun bs page buffer Hl Ho Hs Hp Hb.
  pose proof (luns_trip lun bs page buffer (conj Hl Ho) Hs Hp) as T.
  intros t w cdb b0 t1 r w1 H1 H2 H3 H4. destruct (T t w cdb b0 t1 r w1 H1 H2 H3 H4) as (p & X & C).
  exists p. split; [exact X|]. intros w2 cpl sense A1 A2 A3 A4 A5.
  destruct (C w2 cpl sense A1 A2 A3 A4 A5) as (t2 & w3 & E & I & Q). exists t2, w3. split; [exact E|]. split; [exact I|].
  unfold luns_post in Q. replace (len buffer <? 8) with false in Q by lia. cbv zeta in Q.
  destruct (active_prefix page (length (active_namespaces page)) (le_n _)) as [_ Hk].
  set (k := length (active_namespaces page)) in *.
  set (m := length (reported (len buffer) (active_namespaces page))) in *.
  assert (Hm : (m < k)%nat).
  { unfold m, reported, luns_that_fit. rewrite firstn_length. fold k.
    assert ((len buffer - 8) mod 2 ^ 32 <= len buffer - 8) by (apply N.mod_le; discriminate).
    assert ((len buffer - 8) mod 2 ^ 32 / 8 < N.of_nat k) by (apply N.div_lt_upper_bound; lia). lia. }
  intros Hw. destruct Q as [Q _]. unfold lun_list in Q. apply bytes_at_app in Q as [Q _].
  assert (be_encode 4 (8 * N.of_nat m) = be_encode 4 (8 * N.of_nat k)) as Heq.
  { eapply bytes_at_inj; [|exact Q|exact Hw]. rewrite !be_encode_length. reflexivity. }
  apply (f_equal be) in Heq. rewrite !be_be_encode in Heq. change (2 ^ (8 * N.of_nat 4)) with 0x100000000 in Heq.
  rewrite !N.mod_small in Heq by lia. lia.
Qed.
Print Assumptions C39_list_length_refuted.

(** a command sent to a reported LUN addresses the namespace it stands for *)
Theorem C39_reported_lun_addresses_its_namespace : forall page i,
  (i < length (active_namespaces page))%nat ->
  let id := nth i (active_namespaces page) 0 in
  let lun := be (slice (8 * i) 8 (concat (map (fun id => be_encode 8 (id - 1)) (active_namespaces page)))) in
  lun = id - 1 /\ nsid_of lun = id.
Proof.
  intros page i Hi id lun.
  assert (Hid : id <> 0 /\ id < 2 ^ 32).
  { assert (Hin : In id (active_namespaces page)) by (apply nth_In; exact Hi). split.
    - pose proof (until_zero_nz (id_list page)) as F. rewrite Forall_forall in F. apply F. exact Hin.
    - destruct (active_prefix page _ (le_n _)) as [Hp _]. rewrite firstn_all in Hp. rewrite Hp in Hin.
      apply in_map_iff in Hin as (j & <- & _). apply id_at_lt. }
  assert (Hl : lun = id - 1).
  { unfold lun. rewrite slice_entries by exact Hi. fold id. rewrite be_be_encode. apply N.mod_small.
    eapply N.lt_trans; [|apply (N.pow_lt_mono_r 2 32 (8 * N.of_nat 8)); lia]. lia. }
  split; [exact Hl|]. rewrite Hl. unfold nsid_of. replace (id - 1 + 1) with id by lia. apply N.mod_small. apply Hid.
Qed.
Print Assumptions C39_reported_lun_addresses_its_namespace.

Definition ex_luns : list byte := B [0xa0; 0; 0; 0; 0; 0; 0; 0; 0; 0x40; 0; 0].
Definition ex_list : list byte := B [1;0;0;0; 7;0;0;0; 0;1;0;0] ++ repeat x00 4084.
Example C39_ids : active_namespaces ex_list = [1; 7; 256]. Proof. reflexivity. Qed.
Example C39_runs :
  api_run xff ex_luns [ex_list] [0] 0 64 40 = Some (64, 1%nat, GOOD,
    B ([0;0;0;24;0;0;0;0] ++ [0;0;0;0;0;0;0;0] ++ [0;0;0;0;0;0;0;6] ++ [0;0;0;0;0;0;0;255] ++ repeat 0 8)) /\
  api_run xff ex_luns [ex_list] [0] 0 20 24 = Some (64, 1%nat, GOOD,
    B ([0;0;0;8;0;0;0;0] ++ [0;0;0;0;0;0;0;0] ++ [0;0;0;0;0;0;0;0])).
Proof. split; vm_compute; reflexivity. Qed.

(** ** C40 *)
Theorem C40_read_capacity_command : forall t cdb buffer lun w bs,
  idle t -> span_holds w cdb bs -> (10 <= length bs)%nat -> byte_at bs 0 = 0x25 -> bits (byte_at bs 9) 2 1 = 0 ->
  one_page_begin t cdb buffer lun w 8 (fun p =>
    {| q_opc := 0x06; q_nsid := (lun + 1) mod 2 ^ 32; q_prp1 := p; q_cdw10 := 0; q_cdw11 := 0; q_cdw12 := 0 |}).
Proof. intros t cdb buffer lun w bs Hi Hc Hl Ho Hs. apply pending_begin. eapply Begin_capacity; try eassumption. split; assumption. Qed.
Print Assumptions C40_read_capacity_command.

Theorem C40_naca_refused : forall t cdb buffer lun w bs,
  idle t -> span_holds w cdb bs -> byte_at bs 0 = 0x25 -> (length bs < 10)%nat \/ bits (byte_at bs 9) 2 1 = 1 ->
  refuses t cdb buffer lun w.
Proof. intros. eapply Begin_capacity_refuses; eassumption. Qed.
Print Assumptions C40_naca_refused.

(** the block length is right; the address is right only for a namespace of more
    than FFFFFFFFh blocks.  Missing for the full claim: the address for all
    other namespaces (see the refutation). *)
Theorem C40_read_capacity_partial : forall lun bs ns buffer,
  (10 <= length bs)%nat -> byte_at bs 0 = 0x25 -> bits (byte_at bs 9) 2 1 = 0 -> N.of_nat (length ns) = 4096 ->
  9 <= ns_lbads ns <= 31 -> 8 <= len buffer ->
  page_round_trip lun bs (identify_sqe 0 (nsid_of lun)) ns buffer (fun w2 w3 =>
    wrote w2 w3 (ptr buffer) (capacity_data (N.min (ns_nsze ns) 0xffffffff) (2 ^ ns_lbads ns)) /\
    (0xffffffff < ns_nsze ns ->
       wrote w2 w3 (ptr buffer) (capacity_data (N.min (ns_nsze ns - 1) 0xffffffff) (2 ^ ns_lbads ns)))).
Proof.
  intros lun bs ns buffer Hl Ho Hn Hp Hb Hs.
  pose proof (capacity_trip lun bs ns buffer (conj Hl Ho) Hn Hp) as T.
  intros t w cdb b0 t1 r w1 H1 H2 H3 H4. destruct (T t w cdb b0 t1 r w1 H1 H2 H3 H4) as (p & X & C).
  exists p. split; [exact X|]. intros w2 cpl sense A1 A2 A3 A4 A5.
  destruct (C w2 cpl sense A1 A2 A3 A4 A5) as (t2 & w3 & E & I & Q & _). exists t2, w3. split; [exact E|]. split; [exact I|].
  specialize (Q (conj Hb Hs)). split; [exact Q|]. intros Hz. unfold nsze32 in Q.
  rewrite N.min_r in Q by lia. rewrite N.min_r by lia. exact Q.
Qed.
Print Assumptions C40_read_capacity_partial.

(** For every namespace of 1..FFFFFFFFh blocks the address returned is that of
    the block after the last one. *)
Theorem C40_last_lba_refuted : forall lun bs ns buffer,
  (10 <= length bs)%nat -> byte_at bs 0 = 0x25 -> bits (byte_at bs 9) 2 1 = 0 -> N.of_nat (length ns) = 4096 ->
  9 <= ns_lbads ns <= 31 -> 8 <= len buffer -> 1 <= ns_nsze ns <= 0xffffffff ->
  page_round_trip lun bs (identify_sqe 0 (nsid_of lun)) ns buffer (fun w2 w3 =>
    bytes_at w3 (ptr buffer) (be_encode 4 (ns_nsze ns)) /\ ~ bytes_at w3 (ptr buffer) (be_encode 4 (last_lba ns))).
Proof.
  intros lun bs ns buffer Hl Ho Hn Hp Hb Hs Hz.
  pose proof (C40_read_capacity_partial lun bs ns buffer Hl Ho Hn Hp Hb Hs) as T.
  intros t w cdb b0 t1 r w1 H1 H2 H3 H4. destruct (T t w cdb b0 t1 r w1 H1 H2 H3 H4) as (p & X & C).
  exists p. split; [exact X|]. intros w2 cpl sense A1 A2 A3 A4 A5.
  destruct (C w2 cpl sense A1 A2 A3 A4 A5) as (t2 & w3 & E & I & (Q & _) & _). exists t2, w3. split; [exact E|]. split; [exact I|].
  rewrite N.min_l in Q by lia. unfold capacity_data in Q. apply bytes_at_app in Q as [Q _].
  split; [exact Q|]. intros Hw.
  assert (be_encode 4 (ns_nsze ns) = be_encode 4 (last_lba ns)) as Heq.
  { eapply bytes_at_inj; [|exact Q|exact Hw]. rewrite !be_encode_length. reflexivity. }
  apply (f_equal be) in Heq. rewrite !be_be_encode in Heq. change (2 ^ (8 * N.of_nat 4)) with 0x100000000 in Heq.
  unfold last_lba in Heq. rewrite !N.mod_small in Heq by lia. lia.
Qed.
Print Assumptions C40_last_lba_refuted.

(** an unusable block size, or a buffer too small, is reported as GOOD with no
    data *)
Theorem C40_failure_refuted : forall lun bs ns buffer,
  (10 <= length bs)%nat -> byte_at bs 0 = 0x25 -> bits (byte_at bs 9) 2 1 = 0 -> N.of_nat (length ns) = 4096 ->
  ~ (9 <= ns_lbads ns <= 31) \/ len buffer < 8 ->
  page_round_trip lun bs (identify_sqe 0 (nsid_of lun)) ns buffer same_memory.
Proof.
  intros lun bs ns buffer Hl Ho Hn Hp Hb.
  pose proof (capacity_trip lun bs ns buffer (conj Hl Ho) Hn Hp) as T.
  intros t w cdb b0 t1 r w1 H1 H2 H3 H4. destruct (T t w cdb b0 t1 r w1 H1 H2 H3 H4) as (p & X & C).
  exists p. split; [exact X|]. intros w2 cpl sense A1 A2 A3 A4 A5.
  destruct (C w2 cpl sense A1 A2 A3 A4 A5) as (t2 & w3 & E & I & _ & Q). exists t2, w3. split; [exact E|]. split; [exact I|].
  apply Q. exact Hb.
Qed.
Print Assumptions C40_failure_refuted.

Definition ex_cap : list byte := B [0x25; 0; 0; 0; 0; 0; 0; 0; 0; 0].
Definition ex_capns (nsze : list N) (lbads : N) : list byte :=
  B nsze ++ repeat x00 122 ++ B [lbads] ++ repeat x00 3965.
Example C40_pages : let d := ex_capns [0x10;0x20;0;0;0;0;0;0] 9 in
  N.of_nat (length d) = 4096 /\ ns_lbads d = 9 /\ ns_nsze d = 0x2010.
Proof. vm_compute. auto. Qed.
Example C40_runs :
  api_run xff ex_cap [ex_capns [0x10;0x20;0;0;0;0;0;0] 9] [0] 0 64 10 =
    Some (8, 1%nat, GOOD, B [0;0;0x20;0x10; 0;0;2;0; 0;0]) /\
  api_run xff ex_cap [ex_capns [0;0;0;0;1;0;0;0] 12] [0] 0 64 10 =
    Some (8, 1%nat, GOOD, B [0xff;0xff;0xff;0xff; 0;0;0x10;0; 0;0]) /\
  api_run xff ex_cap [ex_capns [0;0;0;0;1;0;0;0] 8] [0] 0 64 10 = Some (8, 1%nat, GOOD, B (repeat 0 10)).
Proof. repeat split; vm_compute; reflexivity. Qed.

(** ** C41 *)
Theorem C41_request_sense : forall t cdb buffer0 lun w bs,
  idle t -> span_holds w cdb bs -> (6 <= length bs)%nat -> byte_at bs 0 = 0x03 -> bits (byte_at bs 5) 2 1 = 0 ->
  exists t1, Begin t cdb buffer0 lun w = Ret (t1, begin_ok (byte_at bs 4)) w /\ accepted t1 /\ exposes t1 = [] /\
    held t1 = [] /\
    forall w2 buffer sense, span_holds w2 cdb bs -> span_mapped w2 buffer ->
      let data := if N.testbit (byte_at bs 1) 0 then x72 :: repeat x00 7 else x70 :: repeat x00 17 in
      exists t2 w3, Complete t1 [] buffer sense w2 = Ret (t2, api_ok GOOD) w3 /\ idle t2 /\
        (N.of_nat (length data) <= len buffer -> wrote w2 w3 (ptr buffer) data) /\
        (len buffer < N.of_nat (length data) -> same_memory w2 w3).
Proof.
  intros t cdb buffer0 lun w bs Hi Hc Hl Ho Hn. exists (started t cdb).
  split; [eapply Begin_sense; try eassumption; split; assumption|].
  split; [reflexivity|]. destruct Hi as (Hi1 & Hi2 & Hi3).
  split; [unfold exposes, GetNvmeWrappers; change (nvme_cmd_count (started t cdb)) with (nvme_cmd_count t); rewrite Hi2; reflexivity|].
  split; [exact Hi3|]. intros w2 buffer sense Hc2 Hm data.
  assert (Hd : data = no_sense (bits (byte_at bs 1) 0 1)).
  { unfold data, no_sense. pose proof (bits_testbit (byte_at bs 1) 0 1 0) as Hb. cbn [N.add] in Hb. change (0 <? 1) with true in Hb. rewrite andb_true_r in Hb.
    rewrite <- Hb. destruct (bit_case (byte_at bs 1)) as [-> | ->]; reflexivity. }
  rewrite Hd. apply (sense_complete t cdb bs buffer sense w2); try assumption; repeat split; assumption.
Qed.
Print Assumptions C41_request_sense.

Theorem C41_refused : forall t cdb buffer lun w bs,
  idle t -> span_holds w cdb bs -> byte_at bs 0 = 0x03 -> (length bs < 6)%nat \/ bits (byte_at bs 5) 2 1 = 1 ->
  refuses t cdb buffer lun w.
Proof. intros. eapply Begin_sense_refuses; eassumption. Qed.
Print Assumptions C41_refused.

Example C41_runs :
  api_run xff (B [3;0;0;0;18;0]) [] [] 0 64 20 = Some (18, 0%nat, GOOD, B (0x70 :: repeat 0 19)) /\
  api_run xff (B [3;1;0;0;8;0]) [] [] 0 64 20 = Some (8, 0%nat, GOOD, B (0x72 :: repeat 0 19)) /\
  api_run xff (B [3;1;0;0;8;0]) [] [] 0 7 20 = Some (8, 0%nat, GOOD, B (repeat 0 20)).
Proof. repeat split; vm_compute; reflexivity. Qed.

(** ** C42 *)

(** what is answered.  Missing for the full claim: that no NVMe command is
    issued and that other requests are rejected (see the refutation). *)
Theorem C42_maintenance_in_partial : forall lun bs page buffer,
  (12 <= length bs)%nat -> byte_at bs 0 = 0xa3 -> byte_at bs 2 <= 2 ->
  page_round_trip lun bs (identify_sqe 2 0) page buffer (fun w2 w3 =>
    (4 <= len buffer -> wrote w2 w3 (ptr buffer) not_supported) /\ (len buffer < 4 -> same_memory w2 w3)).
Proof. intros lun bs page buffer Hl Ho Hs. apply maint_trip; [split; assumption|exact Hs]. Qed.
Print Assumptions C42_maintenance_in_partial.

Theorem C42_refused_partial : forall t cdb buffer lun w bs,
  idle t -> span_holds w cdb bs -> byte_at bs 0 = 0xa3 -> (length bs < 12)%nat \/ 2 < byte_at bs 2 ->
  refuses t cdb buffer lun w.
Proof. intros. eapply Begin_maint_refuses; eassumption. Qed.
Print Assumptions C42_refused_partial.

(** Every MAINTENANCE IN CDB whose byte 2 is at most 2, whatever service action
    and operation code it asks for, is translated to an Identify command and
    answered with the allocation length of its bytes 6-9. *)
Theorem C42_maintenance_in_refuted : forall t cdb buffer lun w bs,
  idle t -> span_holds w cdb bs -> (12 <= length bs)%nat -> byte_at bs 0 = 0xa3 -> byte_at bs 2 <= 2 ->
  one_page_begin t cdb buffer lun w (be (slice 6 4 bs)) (identify_sqe 2 0).
Proof. intros t cdb buffer lun w bs Hi Hc Hl Ho Hs. apply pending_begin. eapply Begin_maint; try eassumption. split; assumption. Qed.
Print Assumptions C42_maintenance_in_refuted.

(** a supported request issues one command; so does one that asks for READ(10) *)
Definition ex_maint (opt opc : N) : list byte := B [0xa3; 0x0c; opt; opc; 0; 0; 0; 0; 0; 4; 0; 0].
Example C42_asks : asks_write_same16 (ex_maint 1 0x93) /\ ~ asks_write_same16 (ex_maint 1 0x28).
Proof. split; [repeat split; reflexivity|]. intros (_ & _ & H). discriminate H. Qed.
Example C42_runs :
  api_run xff (ex_maint 1 0x93) [] [0] 0 64 5 = Some (4, 1%nat, GOOD, B [0;1;0;0;0]) /\
  api_run xff (ex_maint 1 0x28) [] [0] 0 64 5 = Some (4, 1%nat, GOOD, B [0;1;0;0;0]).
Proof. split; vm_compute; reflexivity. Qed.

(** The check itself, on the CDB without its operation code, does what the
    claim says, up to the service action, which it does not look at (a rejected
    request leaves the allocation length alone). *)
Theorem C42_validator_partial : forall s w op rest n, let bs := op :: rest in
  span_holds w s rest ->
  exists st n', ValidateReportSupportedOpCodes s n w = Ret (st, n') w /\
    (st = kSuccess <-> (12 <= length bs)%nat /\ bits (byte_at bs 2) 0 3 = 1 /\ byte_at bs 3 = 0x93) /\
    (st <> kSuccess -> st = kInvalidInput /\ n' = n) /\ (st = kSuccess -> n' = N.of_nat (length not_supported)).
Proof.
  intros s w op rest n bs Hs. unfold ValidateReportSupportedOpCodes, bind.
  destruct (le_lt_dec 12 (length bs)) as [H|H].
  - assert (Hz : (sizeof ReportOpCodesCommand <= length rest)%nat) by (cbn in H; change (sizeof ReportOpCodesCommand) with 11%nat; lia).
    rewrite (ReadValue_ok _ _ _ _ Hs Hz). change (sizeof ReportOpCodesCommand) with 11%nat.
    change (firstn 11 rest) with (slice 1 11 bs).
    assert (E1 : get ReportOpCodesCommand "reporting_options" (le (slice 1 11 bs)) = bits (byte_at bs 2) 0 3) by (cdb_fields; reflexivity).
    assert (E2 : get ReportOpCodesCommand "requested_op_code" (le (slice 1 11 bs)) = byte_at bs 3).
    { cdb_fields. rewrite slice_1 by lia. unfold byte_at. cbn [le]. lia. }
    rewrite E1, E2. unfold ret.
    destruct (N.eqb_spec (byte_at bs 3) kWriteSame16) as [A|A], (N.eqb_spec (bits (byte_at bs 2) 0 3) 1) as [B0|B0]; cbn [negb orb];
      do 2 eexists; (split; [reflexivity|]); (split; [split; [intros X; first [discriminate X | exact (conj H (conj B0 A))]|intros (_ & X & Y); first [reflexivity | contradiction]]|]);
      (split; [intros X; first [contradiction (X eq_refl) | split; reflexivity] | intros X; first [discriminate X | reflexivity]]).
  - rewrite ReadValue_short. 2:{ destruct Hs as [Hs _]. cbn in H. change (sizeof ReportOpCodesCommand) with 11%nat. lia. }
    unfold ret. do 2 eexists. split; [reflexivity|]. split; [split; [discriminate|lia]|]. split; [auto|discriminate].
Qed.
Print Assumptions C42_validator_partial.
Example C42_validator_met : span_holds (ex_world (tl (ex_maint 1 0x93))) (ex_cdb (tl (ex_maint 1 0x93))) (tl (ex_maint 1 0x93)) /\
  match ValidateReportSupportedOpCodes (ex_cdb (tl (ex_maint 1 0x93))) 77 (ex_world (tl (ex_maint 1 0x93))) with Ret (st, n) _ => Some (st, n) | UB _ => None end = Some (kSuccess, 4).
Proof. split; [apply ex_cdb_holds|vm_compute; reflexivity]. Qed.
