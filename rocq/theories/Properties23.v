(** C88: exactly when Complete has undefined behaviour. *)
From Coq Require Import Arith NArith String List Lia Bool Init.Byte Permutation.
From Coq Require Import ZifyBool ZifyNat ZifyN.
From Verif Require Import Bytes Layout World ScsiDefs NvmeDefs Common ModeSenseCmd StatusCmd TranslationCls
  Spec RwSpec InquirySpec SmallSpec ModeSpec HistorySpec UndefSpec Facts Logic BeginFacts CompleteFacts StatusFacts RwFacts AdminFacts InquiryFacts SmallFacts
  ModeFacts Mode10Facts CatalogFacts DefinedFacts Witness Properties1 Properties4 Properties5 Properties6 Properties8.
Import ListNotations.
Local Open Scope string_scope.
Local Open Scope list_scope.
Local Open Scope N_scope.

(** ** MODE SENSE(10) in Begin *)
Lemma Begin_mode10_full t cdb buffer lun w bs : idle t -> span_holds w cdb bs -> byte_at bs 0 = 0x5a ->
  exists t' r w', Begin t cdb buffer lun w = Ret (t', r) w' /\
    (~ accepted t' \/ exists p, accepted t' /\ nvme_cmd_count t' = 1 /\ get GenericCmd "prp1" (cmd (e0 (nvme_wrappers t'))) = p /\ In (p, 1) (held t') /\
       (12 <= length bs)%nat /\ byte_at bs 2 <= 2).
Proof.
  intros Hi Hc Ho.
  destruct (le_lt_dec 12 (length bs)) as [Hl|Hl].
  2:{ destruct (Begin_mode10_refuses t cdb buffer lun w bs Hi Hc Ho ltac:(left; lia)) as (t' & r & w' & E & _ & X & _). do 3 eexists. split; [exact E|]. left. apply X. }
  destruct (N.leb_spec (byte_at bs 2) 2) as [H2|H2].
  2:{ destruct (Begin_mode10_refuses t cdb buffer lun w bs Hi Hc Ho ltac:(right; lia)) as (t' & r & w' & E & _ & X & _). do 3 eexists. split; [exact E|]. left. apply X. }
  assert (Hne : bs <> []) by (eapply cdb_nonempty; [exact Ho|discriminate]).
  pose proof Hi as (_ & Hcnt & Hh). apply held_nil in Hh as (Ha0 & _ & _).
  assert (Hd : data_addr (e0 (allocations (started t cdb))) = 0).
  { change (allocations (started t cdb)) with (allocations t). apply empty_data, Ha0. }
  destruct (mode10_state cdb bs (nvme_wrappers (started t cdb)) _ lun w Hc ltac:(lia) Hd)
    as (st & wrs' & al' & n & w' & E & bs' & Hc' & Hl' & C).
  destruct (Validate_any cdb (be (slice 7 2 bs)) w' bs' Hc' ltac:(lia)) as (sv & rl' & Ev).
  set (t0 := set_count (set_status (set_status (set_count (set_al0 (set_wrappers (started t cdb) wrs') al') n) st) sv) 0).
  assert (Es : forall t2 al w2, Begin_ReportLuns (subspan cdb 1) t0 rl' w' = Ret (t2, al) w2 ->
     Begin_switch 0x5a (subspan cdb 1) buffer (nsid_of lun) (started t cdb) 0 w = Ret (t2, al) w2).
  { intros t2 al w2 K. change (Begin_switch 0x5a) with (fun c (_ : span) => Begin_ModeSense10 c). cbv beta.
    unfold Begin_ModeSense10, bind at 1. change (nvme_cmd_count (started t cdb)) with (nvme_cmd_count t). rewrite Hcnt, E.
    unfold Begin_MaintenanceIn, bind at 1. rewrite Ev. exact K. }
  assert (Rej : forall t2 al w2, Begin_ReportLuns (subspan cdb 1) t0 rl' w' = Ret (t2, al) w2 -> ~ accepted t2 ->
     exists t' r w'0, Begin t cdb buffer lun w = Ret (t', r) w'0 /\ ~ accepted t').
  { intros t2 al w2 K Hn. destruct (Begin_refuses_trace t cdb buffer lun w bs 0x5a _ _ _ Hi Hc Hne Ho (Es _ _ _ K) Hn) as (t' & w3 & Eb & R & _).
    do 3 eexists. split; [exact Eb|]. apply R. }
  assert (Rej' : (exists t' r w'0, Begin t cdb buffer lun w = Ret (t', r) w'0 /\ ~ accepted t') -> exists t' r w'0, Begin t cdb buffer lun w = Ret (t', r) w'0 /\
    (~ accepted t' \/ exists p, accepted t' /\ nvme_cmd_count t' = 1 /\ get GenericCmd "prp1" (cmd (e0 (nvme_wrappers t'))) = p /\ In (p, 1) (held t') /\
       (12 <= length bs)%nat /\ byte_at bs 2 <= 2)).
  { intros (t' & r & w2 & Eb & N). do 3 eexists. split; [exact Eb|]. left. exact N. }
  destruct (N.leb_spec (select_report bs') 2) as [Hs|Hs].
  2:{ apply Rej'. destruct (ReportLuns_bad cdb bs' t0 rl' w' Hc' ltac:(right; exact Hs) ltac:(lia)) as (t2 & al & K & Hn). eapply Rej; eassumption. }
  destruct (N.eqb_spec (data_addr al') 0) as [Hz|Hz].
  - destruct (SetPages_case al' w' Hz) as (st' & a & w1 & Ea & _ & C').
    destruct (Begin_ReportLuns_case t0 t0 cdb bs' w' rl' Hc' ltac:(lia) Hs eq_refl eq_refl eq_refl _ _ _ Ea) as (wr & K & Hw).
    destruct C' as [(-> & p & m & Hp & Hp' & Ht & ->)|(-> & _ & _)].
    + destruct (Hw eq_refl Hp') as [V G]. cbn [data_addr] in V, G.
      do 3 eexists. split; [eapply Begin_accepts; [exact Hi|exact Hc|exact Hne|exact Ho|exact (Es _ _ _ K)|reflexivity]|]. right. exists p.
      split; [reflexivity|]. split; [reflexivity|]. split; [exact G|]. split; [|split; assumption].
      apply in_app_iff. left. unfold held_by.
      cbn [allocations set_count set_status set_al0 set_allocations e0 e1 e2 data_addr data_page_count].
      change (aset ?x 0 ?y) with (Build_arr3 y (e1 x) (e2 x)). cbn [e0 data_addr data_page_count]. destruct (N.eqb_spec p 0); [contradiction|]. left. reflexivity.
    + apply Rej'. eapply Rej; [exact K|discriminate].
  - assert (SP : SetPages (e0 (allocations t0)) kPageSize 1 0 w' = Ret (kFailure, al') w').
    { change (e0 (allocations t0)) with al'. unfold SetPages. replace (data_addr al' =? 0) with false by lia. reflexivity. }
    destruct (Begin_ReportLuns_case t0 t0 cdb bs' w' rl' Hc' ltac:(lia) Hs eq_refl eq_refl eq_refl _ _ _ SP) as (wr & K & _).
    apply Rej'. eapply Rej; [exact K|discriminate].
Qed.

(** ** the response function, for every attribute *)
Definition back_undefined (a : CommonCmdAttributes) (is10 : bool) (ns : list byte) (n : N) : bool :=
  let h := if is10 then 8 else 4 in
  (h <=? n) && (negb (ca_dbd a) && (32 <=? ns_lbads ns) || negb (known_page (ca_page_code a)) && (ca_dbd a || (h + (if ca_llbaa a then 16 else 8) <=? n))).
Lemma WritePageData_unknown page r buffer w : known_page page = false -> exists s, WritePageData page r buffer w = UB s.
Proof.
  intros H. unfold known_page in H. unfold WritePageData. cbv zeta.
  replace (page =? kCacheMode) with false by (change kCacheMode with 0x08; lia). replace (page =? kControlMode) with false by (change kControlMode with 0x0a; lia).
  replace (page =? kPowerConditionMode) with false by (change kPowerConditionMode with 0x1a; lia). replace (page =? kAllSupportedModes) with false by (change kAllSupportedModes with 0x3f; lia).
  eexists. reflexivity.
Qed.
Lemma header_any (a : CommonCmdAttributes) (is10 : bool) : exists h : list byte, length h = (if is10 then 8%nat else 4%nat) /\
  forall buffer, (if is10 then WriteMode10Header a buffer else WriteMode6Header a buffer) = WriteValue h buffer.
Proof.
  destruct is10; eexists; (split; [|intros buffer; reflexivity]); unfold repr; rewrite le_encode_length; reflexivity.
Qed.
Lemma mode_back_total a (is10 : bool) r c p ns buffer w : span_mapped w buffer ->
  (ca_dbd a = false -> get GenericCmd "prp1" c = p /\ bytes_at w p ns /\ N.of_nat (length ns) = 4096 /\ (0 < len buffer -> apart p buffer)) ->
  match ModeSenseToScsi a is10 r c buffer w with UB _ => true | Ret _ _ => false end = back_undefined a is10 ns (len buffer).
Proof.
  intros Hm Hd. unfold ModeSenseToScsi, back_undefined. cbv zeta. destruct (header_any a is10) as (h & Hh & Eh). rewrite Eh.
  set (k := if is10 then 8 else 4).
  assert (Hk : N.of_nat (length h) = k) by (rewrite Hh; destruct is10; reflexivity).
  assert (Hsz : N.of_nat (sizeof (if is10 then ModeParameter10Header else ModeParameter6Header)) = k) by (destruct is10; reflexivity). rewrite Hsz.
  destruct (write_piece h buffer w Hm) as (w1 & E & Wf & _). unfold bind at 1. rewrite E, Hk.
  destruct (N.leb_spec k (len buffer)) as [Hl|Hl]; cbn [negb andb]; [|reflexivity].
  rewrite Hk in Wf. destruct (Wf Hl) as [W1 M1].
  assert (M1' : span_mapped w1 (subspan buffer k)) by (apply subspan_mapped; exact M1).
  destruct (ca_dbd a) eqn:Edbd; cbn [negb andb orb].
  - unfold bind at 1. unfold ret at 1. cbn [negb]. rewrite andb_true_r.
    destruct (known_page (ca_page_code a)) eqn:Kn; cbn [negb].
    + destruct (pages_ok (ca_page_code a) r (subspan buffer k) w1 Kn M1') as (b & w2 & E2 & _). unfold bind. rewrite E2. reflexivity.
    + destruct (WritePageData_unknown (ca_page_code a) r (subspan buffer k) w1 Kn) as (s & E2). unfold bind. rewrite E2. reflexivity.
  - destruct (Hd eq_refl) as (Hp & Hb & Hln & Hap).
    assert (Hb1 : bytes_at w1 p ns). { eapply wrote_bytes_at; [exact W1|exact Hb|]. rewrite Hk. assert (0 < len buffer) as Hpos by (assert (0 < k) by (rewrite <- Hsz; destruct is10; reflexivity); lia). specialize (Hap Hpos). unfold apart in Hap. lia. }
    destruct (N.leb_spec 32 (ns_lbads ns)) as [H32|H32]; cbn [orb].
    { destruct (descr_ub c p ns (ca_llbaa a) (subspan buffer k) w1 Hp Hb1 Hln H32) as (s & Eu). unfold bind. rewrite Eu. reflexivity. }
    unfold bind at 1. rewrite (descr_ok c p ns (ca_llbaa a) (subspan buffer k) w1 Hp Hb1 Hln H32).
    set (d := descriptor (ca_llbaa a) ns).
    assert (Hdl : N.of_nat (length d) = if ca_llbaa a then 16 else 8) by (unfold d; rewrite descriptor_length; destruct (ca_llbaa a); reflexivity).
    destruct (write_piece d (subspan buffer k) w1 M1') as (w2 & E2 & Wf2 & _). unfold bind at 1. rewrite E2. rewrite Hdl in E2, Wf2 |- *. unfold ret at 1.
    assert (Hsl : len (subspan buffer k) = len buffer - k) by (unfold subspan; destruct (N.leb_spec (len buffer) k); cbn [len null_span]; lia).
    rewrite Hsl in Wf2 |- *. set (dl := if ca_llbaa a then 16 else 8) in *.
    replace (k + dl <=? len buffer) with (dl <=? len buffer - k) by (destruct (N.leb_spec dl (len buffer - k)), (N.leb_spec (k + dl) (len buffer)); lia).
    destruct (N.leb_spec dl (len buffer - k)) as [Hdf|Hdf]; cbn [negb]; [|rewrite andb_false_r; reflexivity].
    rewrite andb_true_r. destruct (Wf2 Hdf) as [_ M2].
    destruct (known_page (ca_page_code a)) eqn:Kn; cbn [negb].
    + destruct (pages_ok (ca_page_code a) r (subspan (subspan buffer k) dl) w2 Kn) as (b & w3 & E3 & _); [apply subspan_mapped; exact M2|]. unfold bind. rewrite E3. reflexivity.
    + destruct (WritePageData_unknown (ca_page_code a) r (subspan (subspan buffer k) dl) w2 Kn) as (s & E3). unfold bind. rewrite E3. reflexivity.
Qed.

(** ** Complete is undefined exactly when its switch is *)
Definition undefined {A} (m : M A) (w : world) : bool := match m w with UB _ => true | Ret _ _ => false end.
Lemma Complete_undefined t cpls buffer sense w cdb bs : wf t -> accepted t -> scsi_cmd_ t = cdb -> span_holds w cdb bs -> bs <> [] ->
  N.of_nat (length cpls) = nvme_cmd_count t -> Forall cpl_ok cpls ->
  undefined (Complete t cpls buffer sense) w = undefined (Complete_switch (byte_at bs 0) (subspan cdb 1) buffer cpls t) w.
Proof.
  intros W Ha Hs Hc Hne Hn Hok. unfold undefined, Complete. rewrite Ha. cbn [is_uninitialized is_success]. rewrite Hn, N.eqb_refl. cbn [negb].
  rewrite (first_error_ok _ Hok). unfold bind at 1. rewrite Hs. change 0 with (N.of_nat 0) at 1. rewrite (span_at_ok w cdb bs 0 Hc) by (destruct bs; [contradiction|cbn; lia]).
  unfold bind at 1. destruct (Complete_switch (byte_at bs 0) (subspan cdb 1) buffer cpls t w) as [st w2|s]; [|reflexivity].
  unfold bind. destruct (abort_defined (set_status t st) w2) as (t' & w' & ->); [exact W|]. reflexivity.
Qed.

(** ** C88 *)
Lemma mode6_switch t cpls buffer w cdb bs ns p : span_holds w cdb bs -> (6 <= length bs)%nat -> span_mapped w buffer ->
  (ms_dbd bs = false -> get GenericCmd "prp1" (cmd (e0 (nvme_wrappers t))) = p /\ bytes_at w p ns /\ N.of_nat (length ns) = 4096 /\ (0 < len buffer -> apart p buffer)) ->
  undefined (Complete_switch 0x1a (subspan cdb 1) buffer cpls t) w =
  match cpls with [] => true | _ => back_undefined {| ca_page_code := ms_page bs; ca_pc := ms_pc bs; ca_dbd := ms_dbd bs; ca_llbaa := false |} false ns (len buffer) end.
Proof.
  intros Hc Hl Hm Hd. change (Complete_switch 0x1a) with (fun c buffer_in cpls t =>
      d <- cpl0_cdw0 cpls ;; _ <- ModeSense6ToScsi c (cmd (e0 (nvme_wrappers t))) d buffer_in ;; ret (pipeline_status t)).
  cbv beta. unfold undefined, bind at 1. destruct cpls as [|cpl cpls]; [reflexivity|]. cbn [cpl0_cdw0]. unfold ret at 1. unfold bind at 1. unfold ModeSense6ToScsi, bind at 1.
  rewrite (cdb_ReadValue ModeSense6Command cdb w bs Hc) by (cbn; lia).
  change (sizeof ModeSense6Command) with 5%nat. rewrite (attrs6_eq bs Hl).
  rewrite <- (mode_back_total {| ca_page_code := ms_page bs; ca_pc := ms_pc bs; ca_dbd := ms_dbd bs; ca_llbaa := false |} false (get GenericCpl "cdw0" cpl) (cmd (e0 (nvme_wrappers t))) p ns buffer w Hm Hd).
  match goal with |- context [ModeSenseToScsi ?a ?b ?c ?d ?e ?f] => destruct (ModeSenseToScsi a b c d e f) end; reflexivity.
Qed.
Lemma mode10_switch t cpls buffer w cdb bs ns p : span_holds w cdb bs -> (10 <= length bs)%nat -> span_mapped w buffer ->
  (ms_dbd bs = false -> get GenericCmd "prp1" (cmd (e0 (nvme_wrappers t))) = p /\ bytes_at w p ns /\ N.of_nat (length ns) = 4096 /\ (0 < len buffer -> apart p buffer)) ->
  undefined (Complete_switch 0x5a (subspan cdb 1) buffer cpls t) w =
  match cpls with [] => true | _ => back_undefined {| ca_page_code := ms_page bs; ca_pc := ms_pc bs; ca_dbd := ms_dbd bs; ca_llbaa := ms10_llbaa bs |} true ns (len buffer) end.
Proof.
  intros Hc Hl Hm Hd. change (Complete_switch 0x5a) with (fun c buffer_in cpls t =>
      d <- cpl0_cdw0 cpls ;; _ <- ModeSense10ToScsi c (cmd (e0 (nvme_wrappers t))) d buffer_in ;; ret (pipeline_status t)).
  cbv beta. unfold undefined, bind at 1. destruct cpls as [|cpl cpls]; [reflexivity|]. cbn [cpl0_cdw0]. unfold ret at 1. unfold bind at 1. unfold ModeSense10ToScsi, bind at 1.
  rewrite (cdb_ReadValue ModeSense10Command cdb w bs Hc) by (cbn; lia).
  change (sizeof ModeSense10Command) with 9%nat. rewrite (attrs10_eq bs Hl).
  rewrite <- (mode_back_total {| ca_page_code := ms_page bs; ca_pc := ms_pc bs; ca_dbd := ms_dbd bs; ca_llbaa := ms10_llbaa bs |} true (get GenericCpl "cdw0" cpl) (cmd (e0 (nvme_wrappers t))) p ns buffer w Hm Hd).
  match goal with |- context [ModeSenseToScsi ?a ?b ?c ?d ?e ?f] => destruct (ModeSenseToScsi a b c d e f) end; reflexivity.
Qed.

(** For every object that could begin a command: Complete is undefined iff the
    command was accepted, all its completions are there and report success, and
    [complete_undefined] says so. *)
Theorem C88_undefined_iff : forall t w cdb bs b0 lun t1 r w1,
  idle t -> span_holds w cdb bs -> Begin t cdb b0 lun w = Ret (t1, r) w1 ->
  forall w2 cpls buffer sense page, span_holds w2 cdb bs -> span_mapped w2 buffer -> span_mapped w2 sense ->
    (forall p n, In (p, n) (held t1) -> mapped w2 p (4096 * n)) -> N.of_nat (length page) = 4096 ->
    (byte_at bs 0 = 0x1a \/ byte_at bs 0 = 0x5a -> forall p, In (p, 1) (held t1) -> (0 < len buffer -> apart p buffer) /\ bytes_at w2 p page) ->
    ((exists s, Complete t1 cpls buffer sense w2 = UB s) <->
     accepted t1 /\ length cpls = length (exposes t1) /\ Forall cpl_ok cpls /\ complete_undefined bs page (len buffer) = true).
Proof.
  intros t w cdb bs b0 lun t1 r w1 Hi Hc E w2 cpls buffer sense page Hc2 Hb Hs Hp Hpl Hpg.
  destruct (Begin_leaves t cdb bs b0 lun w t1 r w1 Hi Hc E) as [W L].
  assert (Sound : (exists s, Complete t1 cpls buffer sense w2 = UB s) <-> undefined (Complete t1 cpls buffer sense) w2 = true).
  { unfold undefined. destruct (Complete t1 cpls buffer sense w2) as [x w3|s]; split; intros H; try discriminate H; [destruct H as [s H]; discriminate H|reflexivity|exists s; reflexivity]. }
  rewrite Sound. clear Sound.
  assert (D : (accepted t1 /\ N.of_nat (length cpls) = nvme_cmd_count t1 /\ Forall cpl_ok cpls) \/
              ~ (accepted t1 /\ N.of_nat (length cpls) = nvme_cmd_count t1 /\ Forall cpl_ok cpls)).
  { assert (D1 : accepted t1 \/ ~ accepted t1) by (unfold accepted; destruct (pipeline_status t1); auto; right; discriminate).
    assert (D2 : Forall cpl_ok cpls \/ ~ Forall cpl_ok cpls).
    { destruct (first_error cpls) eqn:Ef; [right; intros X; rewrite (first_error_ok cpls X) in Ef; discriminate|left; apply first_error_none; exact Ef]. }
    destruct D1, D2, (N.eq_dec (N.of_nat (length cpls)) (nvme_cmd_count t1)); tauto. }
  assert (Hcount : N.of_nat (length (exposes t1)) = nvme_cmd_count t1).
  { destruct W as (W3 & _). unfold exposes, GetNvmeWrappers. rewrite map_length, firstn_length. cbn [length]. lia. }
  destruct D as [(Ha & Hn & Hok)|D].
  2:{ split; intros H.
      - exfalso. destruct (Complete_defined t1 cpls buffer sense w2 W Hs) as (t2 & r2 & w3 & E2); [intros A1 A2 A3; destruct D; auto|].
        unfold undefined in H. rewrite E2 in H. discriminate H.
      - exfalso. apply D. destruct H as (A1 & A2 & A3 & _). split; [exact A1|]. split; [rewrite A2; exact Hcount|exact A3]. }
  destruct (L Ha) as [Hsc Hne].
  assert (Eq : undefined (Complete t1 cpls buffer sense) w2 = complete_undefined bs page (len buffer)).
  2:{ rewrite Eq. split; [intros H; split; [exact Ha|]; split; [lia|]; split; [exact Hok|exact H]|intros (_ & _ & _ & H); exact H]. }
  unfold complete_undefined. destruct (N.eqb_spec (byte_at bs 0) 0x1a) as [Ho|Ho6]; [|destruct (N.eqb_spec (byte_at bs 0) 0x5a) as [Ho|Ho10]].
  - rewrite (Complete_undefined t1 cpls buffer sense w2 cdb bs W Ha Hsc Hc2 Hne Hn Hok), Ho.
    assert (Hl : (6 <= length bs)%nat).
    { destruct (le_lt_dec 6 (length bs)) as [Hl|Hl]; [exact Hl|exfalso].
      destruct (Begin_mode6_short t cdb b0 lun w bs Hi Hc Ho Hl) as (t2 & r2 & w3 & E2 & _ & (R & _) & _). rewrite E in E2. injection E2 as <- _ _. exact (R Ha). }
    destruct (Begin_mode6 t cdb b0 lun w bs Hi Hc (conj Hl Ho)) as (t' & w' & E' & C).
    rewrite E in E'. injection E' as -> -> ->.
    destruct (mode_ok (ms_page bs) (ms_pc bs)) eqn:Hmo.
    2:{ destruct C as ([C _] & _). destruct (C Ha). }
    assert (Hk : known_page (ms_page bs) = true) by (unfold mode_ok in Hmo; apply andb_true_iff in Hmo; tauto).
    destruct (ms_dbd bs) eqn:Hd.
    + destruct C as (_ & _ & P & _). pose proof P as (_ & _ & _ & Pn & _). rewrite Pn in Hn.
      rewrite (mode6_switch t' cpls buffer w2 cdb bs page 0 Hc2 Hl Hb ltac:(rewrite Hd; discriminate)).
      unfold back_undefined. cbn [ca_dbd ca_llbaa ca_page_code]. rewrite Hd, Hk. cbn [negb andb orb]. rewrite andb_false_r.
      unfold ms_cmds, cache_cmds in Hn. unfold mode_ok in Hmo. rewrite Hk in Hmo. cbn [andb] in Hmo.
      destruct (needs_cache (ms_page bs)) eqn:Nc; cbn [negb orb] in Hmo.
      * destruct (sel_of (ms_pc bs)); [|discriminate Hmo]. destruct cpls as [|cpl cpls]; [discriminate Hn|]. unfold needs_cache in Nc. lia.
      * destruct cpls as [|cpl cpls]; [|cbn in Hn; lia]. unfold known_page in Hk. unfold needs_cache in Nc. lia.
    + destruct C as [(p & evs & _ & _ & _ & P & _ & Hin)|(_ & [C _] & _)]; [|destruct (C Ha)].
      pose proof P as (_ & _ & _ & Pn & Pp). rewrite Pn in Hn. destruct (Hpg (or_introl Ho) p Hin) as [Ap By].
      rewrite (mode6_switch t' cpls buffer w2 cdb bs page p Hc2 Hl Hb ltac:(intros _; split; [exact Pp|]; split; [exact By|]; split; [exact Hpl|exact Ap])).
      unfold back_undefined. cbn [ca_dbd ca_llbaa ca_page_code]. rewrite Hd, Hk. cbn [negb andb orb]. rewrite orb_false_r.
      destruct cpls as [|cpl cpls]; [discriminate Hn|reflexivity].
  - rewrite (Complete_undefined t1 cpls buffer sense w2 cdb bs W Ha Hsc Hc2 Hne Hn Hok), Ho.
    destruct (Begin_mode10_full t cdb b0 lun w bs Hi Hc Ho) as (t' & r' & w' & E' & C). rewrite E in E'. injection E' as -> -> ->.
    destruct C as [C|(p & _ & P1 & Pp & Hin & Hl & H2)]; [destruct (C Ha)|]. rewrite P1 in Hn. destruct (Hpg (or_intror Ho) p Hin) as [Ap By].
    rewrite (mode10_switch t' cpls buffer w2 cdb bs page p Hc2 ltac:(lia) Hb ltac:(intros _; split; [exact Pp|]; split; [exact By|]; split; [exact Hpl|exact Ap])).
    unfold back_undefined. cbn [ca_dbd ca_llbaa ca_page_code].
    assert (Hk : known_page (ms_page bs) = false).
    { unfold known_page, ms_page. rewrite bits_div_mod. change (2 ^ 0) with 1. rewrite N.div_1_r. change (2 ^ 6) with 64. rewrite N.mod_small by lia. lia. }
    rewrite Hk. fold (ms10_llbaa bs). destruct cpls as [|cpl cpls]; [discriminate Hn|]. cbn [negb andb].
    destruct (ms_dbd bs), (32 <=? ns_lbads page); reflexivity.
  - destruct (C12_complete_defined_partial t w cdb bs b0 lun t1 r w1 Hi Hc E ltac:(cbn [In]; lia) w2 cpls buffer sense Hc2 Hb Hs Hp) as (t2 & r2 & w3 & E2).
    unfold undefined. rewrite E2. reflexivity.
Qed.
Print Assumptions C88_undefined_iff.

(** all sides of the condition, executed *)
Example C88_runs :
  (* MODE SENSE(6), block size exponent 31 and 32, buffers of 3 and 4 bytes *)
  complete_undefined (B [0x1a; 0; 0x0a; 0; 36; 0]) (mode_ns 31) 4 = false /\ complete_undefined (B [0x1a; 0; 0x0a; 0; 36; 0]) (mode_ns 32) 4 = true /\
  complete_undefined (B [0x1a; 0; 0x0a; 0; 36; 0]) (mode_ns 32) 3 = false /\
  api_run xff (B [0x1a; 0; 0x0a; 0; 36; 0]) [mode_ns 31] [0] 0 4 1 = Some (36, 1%nat, GOOD, B [23]) /\
  api_run xff (B [0x1a; 0; 0x0a; 0; 36; 0]) [mode_ns 32] [0] 0 4 1 = None /\
  api_run xff (B [0x1a; 0; 0x0a; 0; 36; 0]) [mode_ns 32] [0] 0 3 0 = Some (36, 1%nat, GOOD, []) /\
  (* without block descriptor *)
  complete_undefined (B [0x1a; 8; 0x08; 0; 36; 0]) [] 64 = false /\ complete_undefined (B [0x1a; 8; 0x1a; 0; 36; 0]) [] 64 = true /\
  api_run xff (B [0x1a; 8; 0x08; 0; 36; 0]) [] [0] 0 64 1 = Some (36, 1%nat, GOOD, B [23]) /\
  api_run xff (B [0x1a; 8; 0x1a; 0; 36; 0]) [] [] 0 64 1 = None /\
  (* MODE SENSE(10), buffers of 7 and 8 bytes *)
  complete_undefined (B [0x5a; 8; 1; 0; 0; 0; 0; 0; 36; 0; 0; 0]) [] 7 = false /\ complete_undefined (B [0x5a; 8; 1; 0; 0; 0; 0; 0; 36; 0; 0; 0]) [] 8 = true /\
  api_run xff (B [0x5a; 8; 1; 0; 0; 0; 0; 0; 36; 0; 0; 0]) [] [0] 0 7 0 = Some (9216, 1%nat, GOOD, []) /\
  api_run xff (B [0x5a; 8; 1; 0; 0; 0; 0; 0; 36; 0; 0; 0]) [] [0] 0 8 0 = None.
Proof. repeat split; vm_compute; reflexivity. Qed.
