(** Every command any CDB but UNMAP can make Begin expose. *)
From Coq Require Import Arith NArith String List Lia Bool Init.Byte Permutation.
From Coq Require Import ZifyBool ZifyNat ZifyN.
From Verif Require Import Bytes Layout World ScsiDefs NvmeDefs Common ModeSenseCmd TranslationCls
  Spec RwSpec InquirySpec SmallSpec ModeSpec CatalogSpec Facts Logic BeginFacts CompleteFacts StatusFacts RwFacts AdminFacts InquiryFacts SmallFacts
  ModeFacts Mode10Facts.
Import ListNotations.
Local Open Scope string_scope.
Local Open Scope list_scope.
Local Open Scope N_scope.

(** MODE SENSE(10): refused, or (because of the missing break) answered with
    the Identify of REPORT LUNS *)
Lemma Begin_mode10_any t cdb buffer lun w bs : idle t -> span_holds w cdb bs -> byte_at bs 0 = 0x5a ->
  exists t' r w', Begin t cdb buffer lun w = Ret (t', r) w' /\
    (exposes t' = [] \/ exists p, exposes t' = [admin 4096 (identify_sqe 2 0 p)] /\ In (p, 1) (held t')).
Proof.
  intros Hi Hc Ho.
  destruct (le_lt_dec 12 (length bs)) as [Hl|Hl].
  2:{ destruct (Begin_mode10_refuses t cdb buffer lun w bs Hi Hc Ho ltac:(left; lia)) as (t' & r & w' & E & _ & _ & X & _). eauto 6. }
  destruct (N.leb_spec (byte_at bs 2) 2) as [H2|H2].
  2:{ destruct (Begin_mode10_refuses t cdb buffer lun w bs Hi Hc Ho ltac:(right; lia)) as (t' & r & w' & E & _ & _ & X & _). eauto 6. }
  assert (Hne : bs <> []) by (eapply cdb_nonempty; [exact Ho|discriminate]).
  pose proof Hi as (_ & Hcnt & Hh). apply held_nil in Hh as (Ha0 & _ & _).
  assert (Hd : data_addr (e0 (allocations (started t cdb))) = 0).
  { change (allocations (started t cdb)) with (allocations t). apply empty_data, Ha0. }
  destruct (mode10_state cdb bs (nvme_wrappers (started t cdb)) _ lun w Hc ltac:(lia) Hd)
    as (st & wrs' & al' & n & w' & E & bs' & Hc' & Hl' & C).
  destruct (Validate_any cdb (be (slice 7 2 bs)) w' bs' Hc' ltac:(lia)) as (sv & rl' & Ev).
  set (t0 := set_count (set_status (set_status (set_count (set_al0 (set_wrappers (started t cdb) wrs') al') n) st) sv) 0).
  assert (Es : forall t2 al w2, Begin_ReportLuns (subspan cdb 1) t0 rl' w' = Ret (t2, al) w2 ->
     Begin_switch 0x5a (subspan cdb 1) buffer (nsid_of lun) (started t cdb) 0 w = Ret (t2, al) w2).
  { intros t2 al w2 K. change (Begin_switch 0x5a) with (fun c (_ : span) => Begin_ModeSense10 c). cbv beta.
    unfold Begin_ModeSense10, bind at 1. change (nvme_cmd_count (started t cdb)) with (nvme_cmd_count t). rewrite Hcnt, E.
    unfold Begin_MaintenanceIn, bind at 1. rewrite Ev. exact K. }
  assert (Rej : forall t2 al w2, Begin_ReportLuns (subspan cdb 1) t0 rl' w' = Ret (t2, al) w2 -> ~ accepted t2 ->
     exists t' r w'0, Begin t cdb buffer lun w = Ret (t', r) w'0 /\
    (exposes t' = [] \/ exists p, exposes t' = [admin 4096 (identify_sqe 2 0 p)] /\ In (p, 1) (held t'))).
  { intros t2 al w2 K Hn. destruct (Begin_refuses_trace t cdb buffer lun w bs 0x5a _ _ _ Hi Hc Hne Ho (Es _ _ _ K) Hn) as (t' & w3 & Eb & _ & X & _).
    do 3 eexists. split; [exact Eb|]. left. exact X. }
  destruct (N.leb_spec (select_report bs') 2) as [Hs|Hs].
  2:{ destruct (ReportLuns_bad cdb bs' t0 rl' w' Hc' ltac:(right; exact Hs) ltac:(lia)) as (t2 & al & K & Hn). eapply Rej; eassumption. }
  destruct (N.eqb_spec (data_addr al') 0) as [Hz|Hz].
  - destruct (SetPages_case al' w' Hz) as (st' & a & w1 & Ea & _ & C').
    destruct (Begin_ReportLuns_case t0 t0 cdb bs' w' rl' Hc' ltac:(lia) Hs eq_refl eq_refl eq_refl _ _ _ Ea) as (wr & K & Hw).
    destruct C' as [(-> & p & m & Hp & Hp' & Ht & ->)|(-> & _ & _)].
    + destruct (Hw eq_refl Hp') as [V G]. cbn [data_addr] in V, G.
      do 3 eexists. split; [eapply Begin_accepts; [exact Hi|exact Hc|exact Hne|exact Ho|exact (Es _ _ _ K)|reflexivity]|]. right. exists p. split.
      { change ([view wr] = [admin 4096 (identify_sqe 2 0 p)]). rewrite V. reflexivity. }
      apply in_app_iff. left. unfold held_by.
      cbn [allocations set_count set_status set_al0 set_allocations e0 e1 e2 data_addr data_page_count].
      change (aset ?x 0 ?y) with (Build_arr3 y (e1 x) (e2 x)). cbn [e0 data_addr data_page_count]. destruct (N.eqb_spec p 0); [contradiction|]. left. reflexivity.
    + eapply Rej; [exact K|discriminate].
  - assert (SP : SetPages (e0 (allocations t0)) kPageSize 1 0 w' = Ret (kFailure, al') w').
    { change (e0 (allocations t0)) with al'. unfold SetPages. replace (data_addr al' =? 0) with false by lia. reflexivity. }
    destruct (Begin_ReportLuns_case t0 t0 cdb bs' w' rl' Hc' ltac:(lia) Hs eq_refl eq_refl eq_refl _ _ _ SP) as (wr & K & _).
    eapply Rej; [exact K|discriminate].
Qed.

(** operation codes the library does not know *)
Definition known_opcodes : list N :=
  [0x12; 0x42; 0x1a; 0x5a; 0xa3; 0xa0; 0x25; 0x03; 0x08; 0x28; 0xa8; 0x88; 0x35; 0x2f; 0x00; 0x0a; 0x2a; 0xaa; 0x8a].
Lemma Begin_unknown t cdb buffer lun w bs : idle t -> span_holds w cdb bs -> bs <> [] -> ~ In (byte_at bs 0) known_opcodes ->
  refuses t cdb buffer lun w.
Proof.
  intros Hi Hc Hne Hn.
  eapply Begin_refuses with (t2 := set_status (started t cdb) kFailure); try eassumption; [reflexivity| |discriminate].
  set (o := byte_at bs 0) in *. unfold Begin_switch.
  repeat match goal with |- context [o =? ?k] => let v := eval vm_compute in k in
     let H := fresh in assert (H : (o =? k) = false) by (apply N.eqb_neq; intros X; apply Hn; rewrite X; vm_compute; tauto); rewrite H end.
  reflexivity.
Qed.

Lemma Begin_empty t cdb buffer lun w : idle t -> len cdb = 0 -> refuses t cdb buffer lun w.
Proof.
  intros (Hs & Hn & Hh) H. unfold refuses, Begin. rewrite Hs, H. cbn [is_uninitialized negb N.eqb].
  do 3 eexists. split; [reflexivity|]. split; [reflexivity|]. split; [split; discriminate|]. split; [|exact Hh].
  unfold exposes, GetNvmeWrappers. cbn [nvme_cmd_count set_status]. rewrite Hn. reflexivity.
Qed.

Lemma expected_nil t opc lun buffer pages : exposes t = [] -> Forall (expected_command opc lun buffer pages) (exposes t).
Proof. intros ->. constructor. Qed.
Lemma expected_one t x opc lun buffer pages : exposes t = [x] -> expected_command opc lun buffer pages x ->
  Forall (expected_command opc lun buffer pages) (exposes t).
Proof. intros -> H. constructor; [exact H|constructor]. Qed.

Lemma refuses_catalog t cdb buffer lun w t' r w' opc : refuses t cdb buffer lun w -> Begin t cdb buffer lun w = Ret (t', r) w' ->
  Forall (expected_command opc lun buffer (held t')) (exposes t').
Proof. intros (t1 & r1 & w1 & E & _ & _ & X & _) H. rewrite E in H. injection H as <- _ _. apply expected_nil, X. Qed.

Lemma one_page_catalog t cdb buffer lun w al cns nsid t' r w' opc : one_page_pending t cdb buffer lun w al (identify_sqe cns nsid) ->
  In Identify (may_use opc) -> nsid = nsid_of lun \/ nsid = 0 -> Begin t cdb buffer lun w = Ret (t', r) w' ->
  Forall (expected_command opc lun buffer (held t')) (exposes t').
Proof.
  intros (t1 & w1 & E & C) Ho Hn H. rewrite E in H. injection H as <- _ _.
  destruct C as [(p & evs & _ & _ & _ & _ & X & Hp)|(_ & _ & X & _)]; [|apply expected_nil, X].
  apply (expected_one _ _ _ _ _ _ X). exists Identify, (identify_sqe cns nsid p). split; [exact Ho|]. repeat split; [exact Hp|exact Hn].
Qed.

Lemma cache_expected lun page pc q : In q (cache_cmds lun page pc) -> exists sel, q = get_features_sqe (nsid_of lun) sel.
Proof.
  unfold cache_cmds. destruct (needs_cache page); [|intros []]. destruct (sel_of pc); [|intros []]. intros [<-|[]]. eauto.
Qed.

Lemma wires_expected l cs opc lun buffer pages : map wire_of l = map admin_wire cs ->
  (forall q, In q cs -> exists k, In k (may_use opc) /\ on_admin_queue k = true /\ q_opc q = nvme_opcode k /\
     names_memory k buffer pages (q_prp1 q) /\ names_namespace k lun (q_nsid q)) ->
  Forall (expected_command opc lun buffer pages) l.
Proof.
  revert cs. induction l as [|x l IH]; intros [|q cs] H K; try discriminate; [constructor|].
  cbn [map] in H. injection H as Ha Hb H. constructor; [|apply (IH cs H); intros q' Hq; apply K; right; exact Hq].
  destruct (K q (or_introl eq_refl)) as (k & K1 & K2 & K3 & K4 & K5). exists k, q. rewrite K2. auto 8.
Qed.

Lemma read_ok_dec f bs buffer : read_ok f bs buffer \/ ~ read_ok f bs buffer.
Proof.
  unfold read_ok. destruct (Nat.le_gt_cases (rw_len f) (length bs)); [|right; lia].
  destruct (N.leb_spec 1 (rw_blocks f bs)); [|right; lia].
  destruct (N.leb_spec (rw_blocks f bs) 65535); [|right; lia].
  destruct (N.leb_spec (rw_blocks f bs * 4096) (len buffer)); [|right; lia].
  destruct (read_prinfo f bs); [left; repeat split; auto; discriminate|right; tauto].
Qed.
Lemma write_ok_dec f bs : write_ok f bs \/ ~ write_ok f bs.
Proof.
  unfold write_ok. destruct (Nat.le_gt_cases (rw_len f) (length bs)); [|right; lia].
  destruct (N.leb_spec 1 (rw_blocks f bs)); [|right; lia].
  destruct (write_prinfo f bs); [left; repeat split; auto; discriminate|right; tauto].
Qed.

Theorem catalog t cdb buffer lun w bs t' r w' : idle t -> span_holds w cdb bs -> byte_at bs 0 <> 0x42 ->
  Begin t cdb buffer lun w = Ret (t', r) w' ->
  Forall (expected_command (byte_at bs 0) lun buffer (held t')) (exposes t').
Proof.
  intros Hi Hc Hu E.
  destruct (list_eq_dec Byte.byte_eq_dec bs []) as [->|Hne].
  { eapply refuses_catalog; [|exact E]. apply Begin_empty; [exact Hi|]. destruct Hc as [-> _]. reflexivity. }
  destruct (in_dec N.eq_dec (byte_at bs 0) known_opcodes) as [Hk|Hk].
  2:{ eapply refuses_catalog; [|exact E]. eapply Begin_unknown; eassumption. }
  assert (Rd : forall f, byte_at bs 0 = read_opcode f -> Forall (expected_command (byte_at bs 0) lun buffer (held t')) (exposes t')).
  { intros f Ho. destruct (read_ok_dec f bs buffer) as [Hr|Hr].
    2:{ eapply refuses_catalog; [|exact E]. eapply Begin_read_fail; eassumption. }
    destruct (read_prinfo f bs) as [pr|] eqn:Ep; [|exfalso; destruct Hr as (_ & _ & Hr & _); contradiction].
    destruct (Begin_read_ok f t cdb buffer lun w bs pr Hi Hc Ho Hr Ep) as (t1 & E1 & _ & X & _).
    rewrite E1 in E. injection E as <- _ _. apply (expected_one _ _ _ _ _ _ X). exists NvmRead. eexists.
    split; [rewrite Ho; destruct f; left; reflexivity|]. split; [reflexivity|]. split; [reflexivity|]. repeat split. }
  assert (Wr : forall f, byte_at bs 0 = write_opcode f -> Forall (expected_command (byte_at bs 0) lun buffer (held t')) (exposes t')).
  { intros f Ho. destruct (write_ok_dec f bs) as [Hr|Hr].
    2:{ eapply refuses_catalog; [|exact E]. eapply Begin_write_fail; eassumption. }
    destruct (write_prinfo f bs) as [pr|] eqn:Ep; [|exfalso; destruct Hr as (_ & _ & Hr); contradiction].
    destruct (Begin_write_ok f t cdb buffer lun w bs pr Hi Hc Ho Hr Ep) as (t1 & E1 & _ & X & _).
    rewrite E1 in E. injection E as <- _ _. apply (expected_one _ _ _ _ _ _ X). exists NvmWrite. eexists.
    split; [rewrite Ho; destruct f; left; reflexivity|]. split; [reflexivity|]. split; [reflexivity|]. repeat split. }
  assert (H0 : (0 < length bs)%nat) by (destruct bs; [contradiction|cbn; lia]).
  assert (Bit : forall i, naca i bs = 0 \/ naca i bs = 1).
  { intros i. unfold naca. pose proof (bits_lt (byte_at bs i) 2 1). change (2 ^ 1) with 2 in *. lia. }
  cbn [known_opcodes In] in Hk. repeat (destruct Hk as [Hk|Hk]); try contradiction; symmetry in Hk; try contradiction.
  - (* INQUIRY *)
    destruct (le_lt_dec 6 (length bs)) as [Hl|Hl].
    2:{ eapply refuses_catalog; [|exact E]. eapply Begin_inquiry_short; eassumption. }
    destruct (Begin_inquiry_case t cdb buffer lun w bs Hi Hc (conj Hl Hk)) as (t1 & w1 & E1 & C).
    rewrite E1 in E. injection E as <- _ _. destruct C as [(p & q & e1 & e2 & _ & _ & _ & _ & _ & _ & X & P1 & P2)|(_ & _ & X & _)]; [|apply expected_nil, X].
    rewrite X, Hk. constructor; [|constructor; [|constructor]].
    + exists Identify. eexists. split; [left; reflexivity|]. split; [reflexivity|]. split; [reflexivity|]. split; [reflexivity|]. split; [exact P1|left; reflexivity].
    + exists Identify. eexists. split; [left; reflexivity|]. split; [reflexivity|]. split; [reflexivity|]. split; [reflexivity|]. split; [exact P2|right; reflexivity].
  - (* MODE SENSE(6) *)
    destruct (le_lt_dec 6 (length bs)) as [Hl|Hl].
    2:{ eapply refuses_catalog; [|exact E]. eapply Begin_mode6_short; eassumption. }
    destruct (Begin_mode6 t cdb buffer lun w bs Hi Hc (conj Hl Hk)) as (t1 & w1 & E1 & C).
    rewrite E1 in E. injection E as <- _ _.
    assert (Cache : forall q, In q (cache_cmds lun (ms_page bs) (ms_pc bs)) -> exists k, In k (may_use (byte_at bs 0)) /\ on_admin_queue k = true /\
       q_opc q = nvme_opcode k /\ names_memory k buffer (held t1) (q_prp1 q) /\ names_namespace k lun (q_nsid q)).
    { intros q Hq. destruct (cache_expected _ _ _ _ Hq) as (sel & ->). exists GetFeatures. rewrite Hk. split; [right; left; reflexivity|]. repeat split. }
    destruct (mode_ok (ms_page bs) (ms_pc bs)); [|destruct C as (_ & X & _); apply expected_nil, X].
    destruct (ms_dbd bs).
    + destruct C as (_ & _ & _ & X). eapply wires_expected; [exact X|]. exact Cache.
    + destruct C as [(p & evs & _ & _ & _ & _ & X & P)|(_ & _ & X & _)]; [|apply expected_nil, X].
      eapply wires_expected; [exact X|]. intros q [<-|Hq]; [|apply Cache, Hq].
      exists Identify. rewrite Hk. split; [left; reflexivity|]. split; [reflexivity|]. split; [reflexivity|]. split; [exact P|left; reflexivity].
  - (* MODE SENSE(10) *)
    destruct (Begin_mode10_any t cdb buffer lun w bs Hi Hc Hk) as (t1 & r1 & w1 & E1 & C).
    rewrite E1 in E. injection E as <- _ _. destruct C as [X|(p & X & P)]; [apply expected_nil, X|].
    apply (expected_one _ _ _ _ _ _ X). exists Identify. eexists. rewrite Hk. split; [left; reflexivity|].
    split; [reflexivity|]. split; [reflexivity|]. split; [reflexivity|]. split; [exact P|right; reflexivity].
  - (* MAINTENANCE IN *)
    destruct (le_lt_dec 12 (length bs)) as [Hl|Hl].
    2:{ eapply refuses_catalog; [|exact E]. eapply Begin_maint_refuses; eauto. }
    destruct (N.leb_spec (select_report bs) 2) as [Hs|Hs].
    2:{ eapply refuses_catalog; [|exact E]. eapply Begin_maint_refuses; eauto. }
    eapply one_page_catalog; [eapply Begin_maint; try eassumption; split; assumption|rewrite Hk; left; reflexivity|right; reflexivity|exact E].
  - (* REPORT LUNS *)
    destruct (le_lt_dec 12 (length bs)) as [Hl|Hl].
    2:{ eapply refuses_catalog; [|exact E]. eapply Begin_luns_refuses; eauto. }
    destruct (N.leb_spec (select_report bs) 2) as [Hs|Hs].
    2:{ eapply refuses_catalog; [|exact E]. eapply Begin_luns_refuses; eauto. }
    eapply one_page_catalog; [eapply Begin_luns; try eassumption; split; assumption|rewrite Hk; left; reflexivity|right; reflexivity|exact E].
  - (* READ CAPACITY *)
    destruct (le_lt_dec 10 (length bs)) as [Hl|Hl].
    2:{ eapply refuses_catalog; [|exact E]. eapply Begin_capacity_refuses; eauto. }
    destruct (Bit 9%nat) as [Hn|Hn].
    2:{ eapply refuses_catalog; [|exact E]. eapply Begin_capacity_refuses; eauto. }
    eapply one_page_catalog; [eapply Begin_capacity; try eassumption; split; assumption|rewrite Hk; left; reflexivity|left; reflexivity|exact E].
  - (* REQUEST SENSE *)
    destruct (le_lt_dec 6 (length bs)) as [Hl|Hl].
    2:{ eapply refuses_catalog; [|exact E]. eapply Begin_sense_refuses; eauto. }
    destruct (Bit 5%nat) as [Hn|Hn].
    2:{ eapply refuses_catalog; [|exact E]. eapply Begin_sense_refuses; eauto. }
    rewrite (Begin_sense t cdb buffer lun w bs Hi Hc (conj Hl Hk) Hn) in E. injection E as <- _ _.
    apply expected_nil. unfold exposes, GetNvmeWrappers. cbn [nvme_cmd_count started set_scsi_cmd set_status].
    destruct Hi as (_ & -> & _). reflexivity.
  - apply (Rd RW6 Hk).
  - apply (Rd RW10 Hk).
  - apply (Rd RW12 Hk).
  - apply (Rd RW16 Hk).
  - destruct (Begin_sync_ok t cdb buffer lun w bs Hi Hc Hk) as (t1 & E1 & _ & X & _). rewrite E1 in E. injection E as <- _ _.
    apply (expected_one _ _ _ _ _ _ X). exists Flush. eexists. rewrite Hk. split; [left; reflexivity|]. split; [reflexivity|]. split; [reflexivity|]. repeat split.
  - assert (D : verify_ok bs \/ ~ verify_ok bs).
    { unfold verify_ok. destruct (le_lt_dec 10 (length bs)); [|right; lia]. destruct (N.eq_dec (verify_blocks bs) 0); [right; tauto|].
      destruct (N.eq_dec (bits (byte_at bs 9) 2 1) 0); [left; auto|right; tauto]. }
    destruct D as [D|D]; [|eapply refuses_catalog; [|exact E]; eapply Begin_verify_fail; eassumption].
    destruct (Begin_verify_ok t cdb buffer lun w bs Hi Hc Hk D) as (t1 & E1 & _ & X & _). rewrite E1 in E. injection E as <- _ _.
    apply (expected_one _ _ _ _ _ _ X). exists NvmCompare. eexists. rewrite Hk. split; [left; reflexivity|]. split; [reflexivity|]. split; [reflexivity|]. repeat split.
  - destruct (Begin_tur_ok t cdb buffer lun w bs Hi Hc Hne Hk) as (t1 & E1 & _ & X & _). rewrite E1 in E. injection E as <- _ _.
    apply expected_nil, X.
  - apply (Wr RW6 Hk).
  - apply (Wr RW10 Hk).
  - apply (Wr RW12 Hk).
  - apply (Wr RW16 Hk).
Qed.
