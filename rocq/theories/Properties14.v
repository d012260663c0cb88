(** C72-: which commands and which memory any CDB can reach; what Complete may
    touch; allocation failures; several objects. *)
From Coq Require Import Arith NArith ZArith String List Lia Bool Init.Byte Permutation.
From Coq Require Import ZifyBool ZifyNat ZifyN.
From Verif Require Import Bytes Layout World ScsiDefs NvmeDefs Common ModeSenseCmd StatusCmd TranslationCls
  Spec RwSpec InquirySpec SmallSpec ModeSpec CatalogSpec Facts Logic BeginFacts CompleteFacts StatusFacts RwFacts AdminFacts InquiryFacts
  SmallFacts ModeFacts CatalogFacts UnmapFacts Witness Properties1 Properties7 Properties9.
From Verif Require Import UnmapSpec.
Import ListNotations.
Local Open Scope string_scope.
Local Open Scope list_scope.
Local Open Scope N_scope.

(** ** C72 *)

(** whatever the CDB (UNMAP apart) *)
Theorem C72_only_expected_commands : forall t cdb buffer lun w bs t' r w',
  idle t -> span_holds w cdb bs -> byte_at bs 0 <> 0x42 -> Begin t cdb buffer lun w = Ret (t', r) w' ->
  Forall (expected_command (byte_at bs 0) lun buffer (held t')) (exposes t').
Proof. exact catalog. Qed.
Print Assumptions C72_only_expected_commands.

Lemma sqe_opcode q : byte_at (sqe_bytes q) 0 = q_opc q mod 2 ^ 8.
Proof.
  unfold sqe_bytes. replace (byte_at _ 0) with (byte_at (le_encode 1 (q_opc q)) 0) by reflexivity.
  replace (byte_at (le_encode 1 (q_opc q)) 0) with (le (le_encode 1 (q_opc q))) by (cbn [le_encode le byte_at nth]; unfold byte_at; cbn; lia).
  apply le_le_encode.
Qed.

(** only WRITE changes the medium: all other CDBs lead to Flush, Read and
    Compare on the I/O queue, and to Identify and Get Features on the admin
    queue *)
Theorem C72_read_only_commands : forall t cdb buffer lun w bs t' r w',
  idle t -> span_holds w cdb bs -> byte_at bs 0 <> 0x42 -> (forall f, byte_at bs 0 <> write_opcode f) ->
  Begin t cdb buffer lun w = Ret (t', r) w' ->
  Forall (fun x => In (x_admin x, byte_at (x_bytes x) 0) [(false, 0x00); (false, 0x02); (false, 0x05); (true, 0x06); (true, 0x0a)]) (exposes t').
Proof.
  intros t cdb buffer lun w bs t' r w' Hi Hc Hu Hw E.
  eapply Forall_impl; [|eapply catalog; eassumption]. intros x (k & q & Hk & A & B & O & _).
  rewrite A, B, sqe_opcode, O. destruct k; cbn; auto 8. exfalso.
  unfold may_use in Hk.
  repeat match type of Hk with context [if ?c then _ else _] => destruct c eqn:?; [cbn [In] in Hk; try (intuition discriminate)|] end; [|destruct Hk].
  match goal with H : existsb _ [0x0a; 0x2a; 0xaa; 0x8a] = true |- _ => apply existsb_exists in H as (v & Hv & Ev) end.
  apply N.eqb_eq in Ev. subst v. cbn [In] in Hv.
  destruct Hv as [Hv|[Hv|[Hv|[Hv|[]]]]]; [apply (Hw RW6)|apply (Hw RW10)|apply (Hw RW12)|apply (Hw RW16)]; symmetry; exact Hv.
Qed.
Print Assumptions C72_read_only_commands.

Lemma reached_idle wrs : idle (Translation_init wrs). Proof. apply idle_init. Qed.
Definition ex_inquiry14 : list byte := B [0x12; 0; 0; 0; 36; 0].
Definition ex_issue (cdb : list byte) : option (list (bool * N * N) * list (N * N)) :=
  match Begin ex_obj (ex_cdb cdb) (ex_buf 64) 6 (ex_world cdb) with
  | Ret (t, _) _ => Some (map (fun x => (x_admin x, byte_at (x_bytes x) 0, le (slice 24 8 (x_bytes x)))) (exposes t), held t)
  | UB _ => None
  end.
Example C72_met : idle ex_obj /\ span_holds (ex_world ex_inquiry14) (ex_cdb ex_inquiry14) ex_inquiry14 /\ ex_issue ex_inquiry14 = Some ([(true, 6, 1048576); (true, 6, 3145728)], [(1048576, 1); (3145728, 1)]).
Proof. split; [apply idle_init|]. split; [apply ex_cdb_holds|vm_compute]. reflexivity. Qed.

(** An UNMAP whose reserved bytes happen to look like a MODE SENSE(6): opcode
    09h goes to the admin queue, where it means Set Features; the feature it
    sets is the number of ranges minus one. *)
Theorem C37_set_features_refuted : forall t cdb bs buffer pl n lun w,
  idle t -> span_holds w cdb bs -> span_holds w buffer pl -> pages_apart w cdb ->
  unmap_request bs pl n -> N.testbit (byte_at bs 1) 3 = true -> byte_at bs 2 = 0x0a \/ byte_at bs 2 = 0x1a ->
  exists t' r w', Begin t cdb buffer lun w = Ret (t', r) w' /\
    ((accepted t' /\ exists x, exposes t' = [x] /\ x_admin x = true /\ byte_at (x_bytes x) 0 = 0x09 /\
        byte_at (x_bytes x) 40 = (N.of_nat n - 1) mod 2 ^ 8) \/ out_of_pages w w').
Proof.
  intros t cdb bs buffer pl n lun w Hi Hc Hb Hap Hr Hd Hp.
  destruct (C37_reserved_bits_partial t cdb bs buffer pl n lun w Hi Hc Hb Hap Hr Hd Hp)
    as [(t' & p & evs & w' & E & Ha & _ & _ & _ & X & _)|(t' & w' & E & O)].
  - do 3 eexists. split; [exact E|]. left. split; [exact Ha|]. eexists. split; [exact X|]. split; [reflexivity|]. split.
    + cbn [admin x_bytes]. rewrite sqe_opcode. reflexivity.
    + cbn [admin x_bytes]. unfold sqe_bytes.
      replace (byte_at _ 40) with (byte_at (le_encode 4 (N.of_nat n - 1)) 0) by reflexivity.
      cbn [le_encode]. unfold byte_at. cbn [nth]. rewrite b2n_n2b. reflexivity.
  - do 3 eexists. split; [exact E|]. right. exact O.
Qed.
Print Assumptions C37_set_features_refuted.

(** ** C73 *)
Lemma sqe_zero q : slice 16 8 (sqe_bytes q) = repeat x00 8 /\ slice 32 8 (sqe_bytes q) = repeat x00 8.
Proof. unfold sqe_bytes. split; reflexivity. Qed.

(** No metadata pointer, no second PRP; the first PRP is the caller's buffer
    (READ and WRITE only), a page the object obtained and holds, or zero in a
    command that carries none *)
Theorem C73_memory_named : forall t cdb buffer lun w bs t' r w',
  idle t -> span_holds w cdb bs -> byte_at bs 0 <> 0x42 -> Begin t cdb buffer lun w = Ret (t', r) w' ->
  Forall (fun x => slice 16 8 (x_bytes x) = repeat x00 8 /\ slice 32 8 (x_bytes x) = repeat x00 8 /\
    let prp1 := le (slice 24 8 (x_bytes x)) in
    (prp1 = ptr buffer mod 2 ^ 64 /\ exists f, byte_at bs 0 = read_opcode f \/ byte_at bs 0 = write_opcode f) \/
    (exists p, prp1 = p mod 2 ^ 64 /\ In (p, 1) (held t') /\ x_admin x = true /\ byte_at (x_bytes x) 0 = 0x06) \/
    (prp1 = 0 /\ In (x_admin x, byte_at (x_bytes x) 0) [(false, 0x00); (false, 0x05); (true, 0x0a)])) (exposes t').
Proof.
  intros t cdb buffer lun w bs t' r w' Hi Hc Hu E.
  eapply Forall_impl; [|eapply catalog; eassumption]. intros x (k & q & Hk & A & B & O & M & _).
  rewrite A, B, sqe_opcode, O. split; [apply sqe_zero|]. split; [apply sqe_zero|]. cbv zeta.
  replace (le (slice 24 8 (sqe_bytes q))) with (q_prp1 q mod 2 ^ 64) by (unfold sqe_bytes; replace (slice 24 8 _) with (le_encode 8 (q_prp1 q)) by reflexivity; rewrite le_le_encode; reflexivity).
  destruct k; cbn [names_memory] in M.
  - right; right. rewrite M. split; [reflexivity|cbn; auto].
  - left. rewrite M. split; [reflexivity|]. unfold may_use in Hk.
    repeat match type of Hk with context [if ?c then _ else _] => destruct c eqn:?; [cbn [In] in Hk; try (intuition discriminate)|] end; [|destruct Hk].
    match goal with H : existsb _ [0x0a; 0x2a; 0xaa; 0x8a] = true |- _ => apply existsb_exists in H as (v & Hv & Ev) end.
    apply N.eqb_eq in Ev. subst v. cbn [In] in Hv.
    destruct Hv as [Hv|[Hv|[Hv|[Hv|[]]]]]; [exists RW6|exists RW10|exists RW12|exists RW16]; right; symmetry; exact Hv.
  - left. rewrite M. split; [reflexivity|]. unfold may_use in Hk.
    repeat match type of Hk with context [if ?c then _ else _] => destruct c eqn:?; [cbn [In] in Hk; try (intuition discriminate)|] end; [|destruct Hk].
    match goal with H : existsb _ [0x08; 0x28; 0xa8; 0x88] = true |- _ => apply existsb_exists in H as (v & Hv & Ev) end.
    apply N.eqb_eq in Ev. subst v. cbn [In] in Hv.
    destruct Hv as [Hv|[Hv|[Hv|[Hv|[]]]]]; [exists RW6|exists RW10|exists RW12|exists RW16]; left; symmetry; exact Hv.
  - right; right. rewrite M. split; [reflexivity|cbn; auto].
  - right; left. exists (q_prp1 q). split; [reflexivity|]. split; [exact M|]. split; reflexivity.
  - right; right. rewrite M. split; [reflexivity|cbn; auto].
Qed.
Print Assumptions C73_memory_named.

(** ** C74 *)
Lemma confined_prefix (P : N -> Prop) (bs : list byte) sense : (forall x, N.of_nat (length bs) <= len sense /\ ptr sense <= x < ptr sense + N.of_nat (length bs) -> P x) ->
  confined P (WriteValue bs sense).
Proof.
  intros H. unfold WriteValue, WriteValue_n.
  destruct (N.ltb_spec (len sense) (N.of_nat (length bs))) as [Hl|Hl]; cbn [orb]; [apply confined_ret|].
  destruct (Nat.ltb_spec (length bs) (length bs)) as [Hn|Hn]; [apply confined_ret|].
  apply confined_bind; [|intros; apply confined_ret].
  apply confined_store. intros x Hx. apply H. rewrite firstn_length in Hx. lia.
Qed.
Definition sense_data (sense : span) (x : N) : Prop := 8 <= len sense /\ ptr sense <= x < ptr sense + 8.
Lemma FillSense_prefix sense s : confined (sense_data sense) (FillSenseBuffer sense s).
Proof.
  unfold FillSenseBuffer. apply confined_bind; [apply confined_junk|]. intros j. cbv zeta. apply confined_prefix.
  intros x Hx. unfold repr in Hx. rewrite le_encode_length in Hx. exact Hx.
Qed.

Lemma Complete_where t cpls buffer sense w : wf t ->
  pst (Complete t cpls buffer sense) w (fun r w' =>
    (cr_status (snd r) = ApiFailure -> same_memory w w') /\
    (cr_status (snd r) = ApiSuccess -> cr_scsi_status (snd r) = GOOD -> forall x, ~ in_span buffer x -> mem w' x = mem w x) /\
    (cr_status (snd r) = ApiSuccess -> cr_scsi_status (snd r) <> GOOD -> forall x, ~ sense_data sense x -> mem w' x = mem w x)).
Proof.
  intros W. unfold Complete. destruct (is_uninitialized (pipeline_status t)) eqn:Eu.
  { apply pst_ret. cbn [snd cr_status cr_scsi_status]. split; [intros _ x; reflexivity|]. split; discriminate. }
  assert (A : forall t2 w1, wf t2 -> pst (AbortPipeline t2) w1 (fun t' w' => mem w' = mem w1)).
  { intros t2 w1 H. pose proof (AbortPipeline_spec t2 w1 H) as X. unfold tst in X. unfold pst. destruct (AbortPipeline t2 w1); auto. destruct X as [_ [X _ _ _]]. exact X. }
  destruct (N.eqb_spec (N.of_nat (length cpls)) (nvme_cmd_count t)) as [En|En]; cbn [negb].
  2:{ apply pst_bind. eapply pst_mono; [apply A; exact W|]. intros t' w' R. apply pst_ret. cbn [snd cr_status cr_scsi_status].
      split; [intros _ x; rewrite R; reflexivity|]. split; discriminate. }
  destruct (is_success (pipeline_status t)) eqn:Es; cbn [negb].
  2:{ cbv zeta. apply pst_bind. eapply pst_mono; [apply FillSense_prefix|].
      intros b w1 F. apply pst_bind. eapply pst_mono; [apply A; exact W|]. intros t' w' R. apply pst_ret. cbn [snd cr_status cr_scsi_status st_status].
      split; [discriminate|]. split; [discriminate|]. intros _ _ x Hx. rewrite R. apply (f_mem _ _ _ F). exact Hx. }
  destruct (first_error cpls) as [s|] eqn:Ef.
  - apply pst_bind. eapply pst_mono; [apply FillSense_prefix|].
    intros b w1 F. apply pst_bind. eapply pst_mono; [apply A; exact W|]. intros t' w' R. apply pst_ret. cbn [snd cr_status cr_scsi_status].
    split; [discriminate|]. split.
    + intros _ Hg. exfalso. exact (Properties9.first_error_not_good _ _ Ef Hg).
    + intros _ _ x Hx. rewrite R. apply (f_mem _ _ _ F). exact Hx.
  - cbv zeta. apply pst_bind. eapply pst_mono; [apply (confined_span_at (in_span buffer))|]. intros opc w1 F1.
    apply pst_bind. eapply pst_mono; [apply (Complete_switch_confined (in_span buffer)); auto|].
    intros st w2 F2. apply pst_bind. eapply pst_mono; [apply A; exact W|]. intros t' w' R. apply pst_ret. cbn [snd cr_status cr_scsi_status].
    split; [discriminate|]. split; [|intros _ Hg; exfalso; apply Hg; reflexivity].
    intros _ _ x Hx. rewrite R. apply (f_mem _ _ _ (framed_trans _ _ _ _ F1 F2)). exact Hx.
Qed.

(** The status tells which buffer was written: none if the call failed, the
    data buffer if GOOD, and otherwise the first 8 bytes of the sense buffer *)
Theorem C74_status_says_what_was_written : forall env b t w cpls buffer sense t' r w',
  reach env b t w -> Complete t cpls buffer sense w = Ret (t', r) w' ->
  (cr_status r = ApiFailure -> same_memory w w') /\
  (cr_status r = ApiSuccess -> cr_scsi_status r = GOOD -> forall x, ~ in_span buffer x -> mem w' x = mem w x) /\
  (cr_status r = ApiSuccess -> cr_scsi_status r <> GOOD ->
    forall x, ~ (8 <= len sense /\ ptr sense <= x < ptr sense + 8) -> mem w' x = mem w x).
Proof.
  intros env b t w cpls buffer sense t' r w' R E.
  exact (pst_use _ _ _ _ _ (Complete_where t cpls buffer sense w (i_wf _ _ (reach_inv _ _ _ _ R))) E).
Qed.
Print Assumptions C74_status_says_what_was_written.

(** ** C75 *)

(** between [w] and [w'] the allocator could not serve a request for pages *)
Definition no_page (w w' : world) : Prop :=
  exists evs ps n, trace w' = trace w ++ evs /\ In (EvAlloc ps n 0) evs /\ n <> 0.

Lemma no_page_same w : ~ no_page w w.
Proof. intros (evs & ps & n & H & Hi & _). rewrite <- (app_nil_r (trace w)) in H at 1. apply app_inv_head in H. subst. destruct Hi. Qed.
Lemma no_page_served w w' p evs : p <> 0 -> page_request p evs -> trace w' = trace w ++ evs -> ~ no_page w w'.
Proof.
  intros Hp (m & ->) H (evs' & ps & n & H' & Hi & Hn). rewrite H in H'. apply app_inv_head in H'. subst evs'.
  destruct Hi as [X|[X|[]]]; injection X; intros; congruence.
Qed.

Definition gave_up (t : Translation) : Prop := rejected t /\ exposes t = [] /\ held t = [].
Lemma refuses_gave_up t cdb buffer lun w t' r w' : refuses t cdb buffer lun w -> Begin t cdb buffer lun w = Ret (t', r) w' -> gave_up t'.
Proof. intros (t1 & r1 & w1 & E & _ & X) H. rewrite E in H. injection H as <- _ _. exact X. Qed.
Lemma one_page_gave_up t cdb buffer lun w al q t' r w' : one_page_pending t cdb buffer lun w al q ->
  Begin t cdb buffer lun w = Ret (t', r) w' -> no_page w w' -> gave_up t'.
Proof.
  intros (t1 & w1 & E & C) H N. rewrite E in H. injection H as <- _ <-. destruct C as [(p & evs & _ & Hp & Hr & Ht & _)|(_ & C)]; [|exact C].
  exfalso. exact (no_page_served _ _ _ _ Hp Hr Ht N).
Qed.

Theorem C75_out_of_pages_partial : forall t cdb buffer lun w bs t' r w',
  idle t -> span_holds w cdb bs -> byte_at bs 0 <> 0x42 -> byte_at bs 0 <> 0x5a ->
  Begin t cdb buffer lun w = Ret (t', r) w' -> no_page w w' ->
  rejected t' /\ exposes t' = [] /\ held t' = [].
Proof.
  intros t cdb buffer lun w bs t' r w' Hi Hc Hu Hm E N. change (gave_up t').
  destruct (list_eq_dec Byte.byte_eq_dec bs []) as [->|Hne].
  { eapply refuses_gave_up; [|exact E]. apply Begin_empty; [exact Hi|]. destruct Hc as [-> _]. reflexivity. }
  destruct (in_dec N.eq_dec (byte_at bs 0) known_opcodes) as [Hk|Hk].
  2:{ eapply refuses_gave_up; [|exact E]. eapply Begin_unknown; eassumption. }
  assert (Same : forall t1 r1, Begin t cdb buffer lun w = Ret (t1, r1) w -> gave_up t').
  { intros t1 r1 H. rewrite H in E. injection E as _ _ <-. exfalso. exact (no_page_same _ N). }
  assert (Rd : forall f, byte_at bs 0 = read_opcode f -> gave_up t').
  { intros f Ho. destruct (read_ok_dec f bs buffer) as [Hr|Hr].
    2:{ eapply refuses_gave_up; [|exact E]. eapply Begin_read_fail; eassumption. }
    destruct (read_prinfo f bs) as [pr|] eqn:Ep; [|exfalso; destruct Hr as (_ & _ & Hr & _); contradiction].
    destruct (Begin_read_ok f t cdb buffer lun w bs pr Hi Hc Ho Hr Ep) as (t1 & E1 & _). exact (Same _ _ E1). }
  assert (Wr : forall f, byte_at bs 0 = write_opcode f -> gave_up t').
  { intros f Ho. destruct (write_ok_dec f bs) as [Hr|Hr].
    2:{ eapply refuses_gave_up; [|exact E]. eapply Begin_write_fail; eassumption. }
    destruct (write_prinfo f bs) as [pr|] eqn:Ep; [|exfalso; destruct Hr as (_ & _ & Hr); contradiction].
    destruct (Begin_write_ok f t cdb buffer lun w bs pr Hi Hc Ho Hr Ep) as (t1 & E1 & _). exact (Same _ _ E1). }
  assert (H0 : (0 < length bs)%nat) by (destruct bs; [contradiction|cbn; lia]).
  assert (Bit : forall i, naca i bs = 0 \/ naca i bs = 1).
  { intros i. unfold naca. pose proof (bits_lt (byte_at bs i) 2 1). change (2 ^ 1) with 2 in *. lia. }
  cbn [known_opcodes In] in Hk. repeat (destruct Hk as [Hk|Hk]); try contradiction; symmetry in Hk; try contradiction.
  - destruct (le_lt_dec 6 (length bs)) as [Hl|Hl].
    2:{ eapply refuses_gave_up; [|exact E]. eapply Begin_inquiry_short; eassumption. }
    destruct (Begin_inquiry_case t cdb buffer lun w bs Hi Hc (conj Hl Hk)) as (t1 & w1 & E1 & C).
    rewrite E1 in E. injection E as <- _ <-. destruct C as [(p & q & e1 & e2 & _ & Hp & Hq & (m1 & ->) & (m2 & ->) & Ht & _)|(_ & C)]; [|exact C].
    exfalso. destruct N as (evs & ps & n & H' & Hin & Hn). rewrite Ht in H'. apply app_inv_head in H'. subst evs.
    destruct Hin as [X|[X|[X|[X|[]]]]]; injection X; intros; congruence.
  - destruct (le_lt_dec 6 (length bs)) as [Hl|Hl].
    2:{ eapply refuses_gave_up; [|exact E]. eapply Begin_mode6_short; eassumption. }
    destruct (Begin_mode6 t cdb buffer lun w bs Hi Hc (conj Hl Hk)) as (t1 & w1 & E1 & C).
    rewrite E1 in E. injection E as <- _ <-.
    destruct (mode_ok (ms_page bs) (ms_pc bs)); [|exact C].
    destruct (ms_dbd bs).
    + destruct C as (-> & _). exfalso. exact (no_page_same _ N).
    + destruct C as [(p & evs & Hp & Hr & Ht & _)|(_ & C)]; [|exact C]. exfalso. exact (no_page_served _ _ _ _ Hp Hr Ht N).
  - destruct (le_lt_dec 12 (length bs)) as [Hl|Hl].
    2:{ eapply refuses_gave_up; [|exact E]. eapply Begin_maint_refuses; eauto. }
    destruct (N.leb_spec (select_report bs) 2) as [Hs|Hs].
    2:{ eapply refuses_gave_up; [|exact E]. eapply Begin_maint_refuses; eauto. }
    eapply one_page_gave_up; [eapply Begin_maint; try eassumption; split; assumption|exact E|exact N].
  - destruct (le_lt_dec 12 (length bs)) as [Hl|Hl].
    2:{ eapply refuses_gave_up; [|exact E]. eapply Begin_luns_refuses; eauto. }
    destruct (N.leb_spec (select_report bs) 2) as [Hs|Hs].
    2:{ eapply refuses_gave_up; [|exact E]. eapply Begin_luns_refuses; eauto. }
    eapply one_page_gave_up; [eapply Begin_luns; try eassumption; split; assumption|exact E|exact N].
  - destruct (le_lt_dec 10 (length bs)) as [Hl|Hl].
    2:{ eapply refuses_gave_up; [|exact E]. eapply Begin_capacity_refuses; eauto. }
    destruct (Bit 9%nat) as [Hn|Hn].
    2:{ eapply refuses_gave_up; [|exact E]. eapply Begin_capacity_refuses; eauto. }
    eapply one_page_gave_up; [eapply Begin_capacity; try eassumption; split; assumption|exact E|exact N].
  - destruct (le_lt_dec 6 (length bs)) as [Hl|Hl].
    2:{ eapply refuses_gave_up; [|exact E]. eapply Begin_sense_refuses; eauto. }
    destruct (Bit 5%nat) as [Hn|Hn].
    2:{ eapply refuses_gave_up; [|exact E]. eapply Begin_sense_refuses; eauto. }
    exact (Same _ _ (Begin_sense t cdb buffer lun w bs Hi Hc (conj Hl Hk) Hn)).
  - apply (Rd RW6 Hk).
  - apply (Rd RW10 Hk).
  - apply (Rd RW12 Hk).
  - apply (Rd RW16 Hk).
  - destruct (Begin_sync_ok t cdb buffer lun w bs Hi Hc Hk) as (t1 & E1 & _). exact (Same _ _ E1).
  - assert (D : verify_ok bs \/ ~ verify_ok bs).
    { unfold verify_ok. destruct (le_lt_dec 10 (length bs)); [|right; lia]. destruct (N.eq_dec (verify_blocks bs) 0); [right; tauto|].
      destruct (N.eq_dec (bits (byte_at bs 9) 2 1) 0); [left; auto|right; tauto]. }
    destruct D as [D|D]; [|eapply refuses_gave_up; [|exact E]; eapply Begin_verify_fail; eassumption].
    destruct (Begin_verify_ok t cdb buffer lun w bs Hi Hc Hk D) as (t1 & E1 & _). exact (Same _ _ E1).
  - destruct (Begin_tur_ok t cdb buffer lun w bs Hi Hc Hne Hk) as (t1 & E1 & _). exact (Same _ _ E1).
  - apply (Wr RW6 Hk).
  - apply (Wr RW10 Hk).
  - apply (Wr RW12 Hk).
  - apply (Wr RW16 Hk).
Qed.
Print Assumptions C75_out_of_pages_partial.

(** MODE SENSE(10), 12 bytes: the first request fails, the second is served,
    and the command is accepted *)
Definition ex_ms10 : list byte := B [0x5a; 0; 1; 0; 0; 0; 0; 0; 64; 0; 0; 0].
Definition ex_short_world : world :=
  let w := ex_world ex_ms10 in
  {| mem := mem w; alloc_cb := true; dealloc_cb := true;
     ans := fun k _ n => if (n =? 0) || Nat.eqb k 0 then 0 else 0x100000 * (N.of_nat k + 1);
     fill := fill w; junk := junk w; tick := 0; trace := [] |}.
Definition ex_short : option (bool * list event) :=
  match Begin ex_obj (ex_cdb ex_ms10) (ex_buf 64) 0 ex_short_world with
  | Ret (t, _) w => Some (is_success (pipeline_status t), trace w)
  | UB _ => None
  end.
Lemma ex_short_run : ex_short = Some (true, [EvAlloc 4096 1 0; EvAlloc 4096 0 0; EvAlloc 4096 1 0x300000; EvAlloc 4096 0 0]).
Proof. vm_compute. reflexivity. Qed.
Theorem C75_mode10_refuted : exists t cdb buffer lun w bs t' r w',
  idle t /\ span_holds w cdb bs /\ byte_at bs 0 = 0x5a /\ Begin t cdb buffer lun w = Ret (t', r) w' /\ no_page w w' /\ accepted t'.
Proof.
  pose proof ex_short_run as H. unfold ex_short in H.
  destruct (Begin ex_obj (ex_cdb ex_ms10) (ex_buf 64) 0 ex_short_world) as [[t1 r1] w1|] eqn:E; [|discriminate].
  apply Some_eq, pair_eq in H as [Hs Ht].
  exists ex_obj, (ex_cdb ex_ms10), (ex_buf 64), 0, ex_short_world, ex_ms10, t1, r1, w1.
  split; [apply idle_init|]. split; [exact (ex_cdb_holds (fun _ _ => x00) xff ex_ms10 [])|]. split; [reflexivity|]. split; [exact E|]. split.
  - exists (trace w1), 4096, 1. split; [reflexivity|]. split; [rewrite Ht; left; reflexivity|discriminate].
  - unfold accepted. destruct (pipeline_status t1); try discriminate Hs. reflexivity.
Qed.
Print Assumptions C75_mode10_refuted.

(** a READ CAPACITY(10) without pages meets the hypotheses of the theorem *)
Definition ex_rc10 : list byte := B [0x25; 0; 0; 0; 0; 0; 0; 0; 0; 0].
Definition ex_dry_world : world :=
  let w := ex_world ex_rc10 in
  {| mem := mem w; alloc_cb := true; dealloc_cb := true; ans := fun _ _ _ => 0; fill := fill w; junk := junk w; tick := 0; trace := [] |}.
Definition ex_dry : option (list event * N) :=
  match Begin ex_obj (ex_cdb ex_rc10) (ex_buf 64) 0 ex_dry_world with
  | Ret (t, _) w => Some (trace w, nvme_cmd_count t)
  | UB _ => None
  end.
Example C75_met : idle ex_obj /\ span_holds ex_dry_world (ex_cdb ex_rc10) ex_rc10 /\ ex_dry = Some ([EvAlloc 4096 1 0; EvAlloc 4096 0 0], 0).
Proof. split; [apply idle_init|]. split; [exact (ex_cdb_holds (fun _ _ => x00) xff ex_rc10 [])|vm_compute; reflexivity]. Qed.
