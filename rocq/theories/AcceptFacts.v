From Coq Require Import Arith NArith String List Lia Bool Init.Byte.
From Coq Require Import ZifyBool ZifyNat ZifyN.
From Verif Require Import Bytes Layout World ScsiDefs NvmeDefs Common ModeSenseCmd UnmapCmd TranslationCls
  Spec RwSpec InquirySpec SmallSpec ModeSpec UnmapSpec AcceptSpec
  Facts Logic BeginFacts RwFacts AdminFacts InquiryFacts SmallFacts ModeFacts Mode10Facts UnmapFacts CatalogFacts ProgFacts.
Import ListNotations.
Local Open Scope string_scope.
Local Open Scope list_scope.
Local Open Scope N_scope.

(** ** answers *)
Lemma answered_same w : answered w w [].
Proof. exists []. rewrite app_nil_r. split; reflexivity. Qed.
Lemma answers_app a b : page_answers (a ++ b) = page_answers a ++ page_answers b.
Proof. apply flat_map_app. Qed.
Lemma answered_trans w w1 w2 a b : answered w w1 a -> answered w1 w2 b -> answered w w2 (a ++ b).
Proof. intros (e1 & T1 & <-) (e2 & T2 & <-). exists (e1 ++ e2). split; [rewrite T2, T1, app_assoc; reflexivity|apply answers_app]. Qed.
Lemma answered_unique w w' a b : answered w w' a -> answered w w' b -> a = b.
Proof. intros (e1 & T1 & <-) (e2 & T2 & <-). rewrite T1 in T2. apply app_inv_head in T2. subst. reflexivity. Qed.
Lemma answered_page w w' p m : trace w' = trace w ++ [EvAlloc 4096 1 p; EvAlloc 4096 0 m] -> answered w w' [p].
Proof. intros T. eexists. split; [exact T|reflexivity]. Qed.
Lemma answered_trace w w' w'' a : trace w'' = trace w' -> answered w w' a -> answered w w'' a.
Proof. intros T (e & T1 & <-). exists e. split; [congruence|reflexivity]. Qed.
Lemma answers_releases l : page_answers (releases l) = [].
Proof. unfold releases. induction l as [|x l IH]; [reflexivity|exact IH]. Qed.
Lemma answered_released w w' l : released w w' l -> answered w w' [].
Proof. intros R. exists (if dealloc_cb w then releases l else []). split; [exact (r_trace _ _ _ R)|]. destruct (dealloc_cb w); [apply answers_releases|reflexivity]. Qed.

Lemma same_answers w w' : alloc_cb w' = alloc_cb w -> trace w' = trace w ->
  alloc_cb w' = alloc_cb w /\ exists ps, answered w w' ps /\ (alloc_cb w = false -> ps = []).
Proof. intros C T. split; [exact C|]. exists []. split; [|reflexivity]. eapply answered_trace; [exact T|apply answered_same]. Qed.
Lemma prog_answers {A} d (m : M A) : prog d m -> forall w a w', m w = Ret a w' ->
  alloc_cb w' = alloc_cb w /\ exists ps, answered w w' ps /\ (alloc_cb w = false -> ps = []).
Proof.
  induction 1; intros w x w' E.
  - injection E as _ <-. apply same_answers; reflexivity.
  - discriminate E.
  - unfold bind in E. destruct (m w) as [a w1|] eqn:E1; [|discriminate E].
    destruct (IHprog _ _ _ E1) as (C1 & p1 & A1 & N1). destruct (H1 _ _ _ _ E) as (C2 & p2 & A2 & N2). split; [congruence|].
    exists (p1 ++ p2). split; [eapply answered_trans; eassumption|]. intros F. rewrite N1 by exact F. apply N2. congruence.
  - unfold load in E. destruct (load_bytes (mem w) a n) in E; [|discriminate E]. injection E as _ <-. apply same_answers; reflexivity.
  - unfold store in E. destruct (load_bytes (mem w) a (length bs)) in E; [|discriminate E]. injection E as _ <-. apply same_answers; reflexivity.
  - unfold AllocPages in E. destruct (alloc_cb w) eqn:Ec; cbn [negb] in E.
    + cbv zeta in E. set (a := u64 (ans w (tick w) ps n)) in *. injection E as _ <-. split; [destruct (a =? 0); exact Ec|].
      exists (page_answers [EvAlloc ps n a]). split; [|discriminate]. eexists. split; [|reflexivity]. destruct (a =? 0); reflexivity.
    + injection E as _ <-. split; [congruence|]. exists []. split; [apply answered_same|reflexivity].
  - unfold DeallocPages in E. destruct (negb (dealloc_cb w)); injection E as _ <-; [apply same_answers; reflexivity|].
    split; [reflexivity|]. exists []. split; [|reflexivity]. exists [EvDealloc a n]. split; reflexivity.
  - unfold stack_junk in E. injection E as _ <-. apply same_answers; reflexivity.
Qed.
Lemma Begin_answers t cdb buffer lun w t' r w' : Begin t cdb buffer lun w = Ret (t', r) w' ->
  exists ps, answered w w' ps /\ (alloc_cb w = false -> ps = []).
Proof. intros E. apply (prog_answers true (Begin t cdb buffer lun) (p_Begin _ _ _ _) _ _ _ E). Qed.

Lemma given_one p : given 1 [p] = negb (p =? 0).
Proof. unfold given. cbn. apply andb_true_r. Qed.
Lemma given_two p q : given 2 [p; q] = negb (p =? 0) && negb (q =? 0).
Proof. unfold given. cbn. rewrite andb_true_r. reflexivity. Qed.
Lemma given_in k ps : In 0 ps -> given k ps = false.
Proof. intros H. unfold given. apply andb_false_iff. right. apply not_true_is_false. intros X. rewrite forallb_forall in X. specialize (X _ H). discriminate X. Qed.
(** pages wanted but not obtained *)
Lemma out_not_given w w' k ps t cdb buffer lun t' r : Begin t cdb buffer lun w = Ret (t', r) w' -> out_of_pages w w' -> answered w w' ps ->
  given (S k) ps = false.
Proof.
  intros E [C|(evs & T & H)] A.
  - destruct (Begin_answers _ _ _ _ _ _ _ _ E) as (ps' & A' & N). rewrite (answered_unique _ _ _ _ A A'), N by exact C. reflexivity.
  - apply given_in. destruct A as (e & T' & <-). rewrite T in T'. apply app_inv_head in T'. subst e.
    apply in_flat_map. exists (EvAlloc 4096 1 0). split; [exact H|left; reflexivity].
Qed.

(** ** SetPages and MODE SENSE, for any starting point *)
Lemma SetPages_answers al w : exists st al' w' ps, SetPages al kPageSize 1 0 w = Ret (st, al') w' /\ answered w w' ps /\ (alloc_cb w = false -> ps = []) /\
  ((data_addr al <> 0 /\ st = kFailure /\ al' = al /\ ps = []) \/
   (data_addr al = 0 /\ st = kSuccess /\ data_addr al' <> 0 /\ given 1 ps = true) \/
   (data_addr al = 0 /\ st = kFailure /\ data_addr al' = 0 /\ (ps = [] /\ alloc_cb w = false \/ ps = [0]))).
Proof.
  destruct (N.eq_dec (data_addr al) 0) as [Hz|Hz].
  - destruct (SetPages_case al w Hz) as (st & al' & w' & E & _ & C). exists st, al', w'.
    destruct (prog_answers true _ (p_SetPages true al kPageSize 1 0) _ _ _ E) as (_ & ps & A & N). exists ps.
    split; [exact E|]. split; [exact A|]. split; [exact N|]. right.
    destruct C as [(-> & p & m & Hp & _ & T & ->)|(-> & Hd & C)]; [left|right]; (split; [exact Hz|]); (split; [reflexivity|]).
    + split; [exact Hp|]. rewrite (answered_unique _ _ _ _ A (answered_page _ _ _ _ T)), given_one. lia.
    + split; [exact Hd|]. destruct C as [C|(m & T)]; [left; auto|right; exact (answered_unique _ _ _ _ A (answered_page _ _ _ _ T))].
  - exists kFailure, al, w, []. split; [|split; [apply answered_same|split; [reflexivity|left; auto]]].
    unfold SetPages. replace (data_addr al =? 0) with false by lia. reflexivity.
Qed.

Lemma cache_status a wrs (al : Allocation) lun (k : N) w : ca_pc a < 4 -> k <= 2 ->
  exists st wrs' n,
   (if negb (ca_page_code a =? kCacheMode) && negb (ca_page_code a =? kAllSupportedModes) then
      if (ca_page_code a =? kControlMode) || (ca_page_code a =? kPowerConditionMode)
      then ret (kSuccess, wrs, al, k)
      else ret (kFailure, wrs, al, k)
    else
      match aget wrs k with
      | None => ub "nvme_wrappers index out of range"
      | Some wr =>
          let '(st, wr) := GenerateCacheGetFeaturesCmd wr (ca_pc a) (nsid_of lun) in
          ret (st, aset wrs k wr, al, k + 1)
      end) w = Ret (st, wrs', al, n) w /\ st = (if mode_ok (ca_page_code a) (ca_pc a) then kSuccess else kFailure).
Proof.
  intros Hpc Hk. destruct (known_cases (ca_page_code a)) as (K1 & K2 & K3). rewrite K1. unfold mode_ok.
  destruct (needs_cache (ca_page_code a)) eqn:Nc; cbn [negb].
  - rewrite (K3 eq_refl). cbn [andb orb].
    assert (Hw : exists wr, aget wrs k = Some wr).
    { assert (k = 0 \/ k = 1 \/ k = 2) as [-> | [-> | ->]] by lia; cbn; eauto. }
    destruct Hw as (wr & Hw). rewrite Hw. pose proof (features_case wr (ca_pc a) lun Hpc) as F.
    destruct (sel_of (ca_pc a)) as [sel|].
    + destruct F as (wr' & -> & V). do 3 eexists. split; reflexivity.
    + rewrite F. do 3 eexists. split; reflexivity.
  - rewrite (K2 eq_refl). cbn [orb]. rewrite andb_true_r. destruct (known_page (ca_page_code a)); do 3 eexists; split; reflexivity.
Qed.

Lemma mode_status a wrs al lun (k : N) w : ca_pc a < 4 -> k <= 1 ->
  exists st wrs' al' n w' ps, ModeSenseToNvme a wrs al kPageSize (nsid_of lun) k w = Ret (st, wrs', al', n) w' /\ answered w w' ps /\
    (alloc_cb w = false -> ps = []) /\ (data_addr al <> 0 -> ps = []) /\
    (st = kSuccess <-> mode_ok (ca_page_code a) (ca_pc a) = true /\ (ca_dbd a = true \/ data_addr al = 0 /\ given 1 ps = true)).
Proof.
  intros Hpc Hk. unfold ModeSenseToNvme. destruct (ca_dbd a) eqn:Ed.
  - unfold bind at 1. unfold ret at 1. cbn [is_success negb].
    destruct (cache_status a wrs al lun k w Hpc ltac:(lia)) as (st & wrs' & n & E & S). rewrite E.
    exists st, wrs', al, n, w, []. split; [reflexivity|]. split; [apply answered_same|]. split; [reflexivity|]. split; [reflexivity|].
    rewrite S. destruct (mode_ok _ _); split; intros X; auto; try discriminate X. destruct X as [X _]. discriminate X.
  - assert (Hw : exists wr, aget wrs k = Some wr) by (assert (k = 0 \/ k = 1) as [-> | ->] by lia; cbn; eauto).
    destruct Hw as (wr & Hw). rewrite Hw.
    destruct (SetPages_answers al w) as (st & al' & w' & ps & E & A & N & C).
    unfold GenerateBlockDescriptorIdentifyCmd. cbv zeta. unfold bind at 1 2 3. rewrite E.
    destruct C as [(Hz & -> & -> & ->)|[(Hz & -> & Hz' & G)|(Hz & -> & Hz' & G)]]; cbn [is_failure]; unfold ret at 1; cbv iota; unfold ret at 1; cbn [is_success negb].
    + do 5 eexists. exists []. split; [reflexivity|]. split; [exact A|]. split; [reflexivity|]. split; [reflexivity|].
      split; [discriminate|]. intros (_ & [X|[X _]]); [discriminate X|contradiction].
    + match goal with |- context [aset wrs k ?x] => destruct (cache_status a (aset wrs k x) al' lun (k + 1) w' Hpc ltac:(lia)) as (st & wrs' & n & E2 & S) end.
      rewrite E2. exists st, wrs', al', n, w', ps. split; [reflexivity|]. split; [exact A|]. split; [exact N|]. split; [contradiction|].
      rewrite S. destruct (mode_ok _ _); split; intros X; auto; try discriminate X. destruct X as [X _]. discriminate X.
    + do 5 eexists. exists ps. split; [reflexivity|]. split; [exact A|]. split; [exact N|]. split; [contradiction|].
      split; [discriminate|]. intros (_ & [X|[_ X]]); [discriminate X|]. destruct G as [[-> _]| ->]; discriminate X.
Qed.

Lemma switch_answers t cdb buffer lun w bs opc t2 al w2 ps : idle t -> span_holds w cdb bs -> bs <> [] -> byte_at bs 0 = opc ->
  Begin_switch opc (subspan cdb 1) buffer (nsid_of lun) (started t cdb) 0 w = Ret (t2, al) w2 -> answered w w2 ps ->
  exists t' w', Begin t cdb buffer lun w = Ret (t', begin_ok al) w' /\ answered w w' ps /\ (accepted t' <-> accepted t2).
Proof.
  intros Hi Hc Hne Ho E A.
  assert (D : accepted t2 \/ ~ accepted t2) by (unfold accepted; destruct (pipeline_status t2); auto; right; discriminate).
  destruct D as [D|D].
  - exists t2, w2. split; [eapply Begin_accepts; eassumption|]. split; [exact A|tauto].
  - destruct (Begin_refuses_trace t cdb buffer lun w bs opc t2 al w2 Hi Hc Hne Ho E D) as (t' & w' & Eb & [Hr _] & _ & _ & R).
    exists t', w'. split; [exact Eb|]. split; [rewrite <- (app_nil_r ps); eapply answered_trans; [exact A|eapply answered_released; exact R]|].
    split; intros X; [|contradiction]. exfalso. apply Hr. exact X.
Qed.

(** ** UNMAP *)
Lemma unmap_dec bs pl : byte_at bs 0 = 0x42 ->
  (unmap_acceptable bs pl = true /\ exists n, unmap_request bs pl n) \/ (unmap_acceptable bs pl = false /\ forall n, ~ unmap_request bs pl n).
Proof.
  intros Ho. unfold unmap_acceptable, at_least. set (d := descriptor_bytes pl).
  pose proof (N.div_mod d 16 ltac:(discriminate)) as D. pose proof (N.mod_lt d 16 ltac:(discriminate)) as L.
  match goal with |- (?b = true /\ _) \/ _ => destruct b eqn:E end; [left|right]; (split; [reflexivity|]).
  - exists (N.to_nat (d / 16)). unfold unmap_request, unmap_cdb. fold d. destruct (unmap_anchor bs); lia.
  - intros n ((Hl & _) & Ha & Hp & Hn & Hd & Hpl). fold d in Hd. rewrite Ha in E.
    assert (Q : d / 16 = N.of_nat n) by (rewrite Hd, N.mul_comm; apply N.div_mul; discriminate).
    assert (R : d mod 16 = 0) by (rewrite Hd, N.mul_comm; apply N.mod_mul; discriminate).
    rewrite Q, R in E. lia.
Qed.

Lemma Begin_unmap_iff t cdb bs buffer pl lun w : idle t -> span_holds w cdb bs -> span_holds w buffer pl -> pages_apart w cdb -> byte_at bs 0 = 0x42 ->
  exists t' r w' ps, Begin t cdb buffer lun w = Ret (t', r) w' /\ answered w w' ps /\
    (accepted t' <-> at_least 6 bs && mode_ok (ms_page bs) (ms_pc bs) &&
       (ms_dbd bs || if unmap_acceptable bs pl then given_at_second ps else given 1 ps) = true) /\
    (accepted t' -> br_alloc_len r = byte_at bs 4).
Proof.
  intros Hi Hc Hb Hap Ho. assert (Hne : bs <> []) by (eapply cdb_nonempty; [exact Ho|discriminate]).
  pose proof Hi as (_ & Hcount & Hh). apply held_nil in Hh as (Z0 & Z1 & Z2). pose proof (empty_data _ Z0) as Zd.
  assert (U : exists st wr al w1 ps, UnmapToNvme (subspan cdb 1) buffer (e0 (nvme_wrappers t)) kPageSize (nsid_of lun) (e0 (allocations t)) w = Ret (st, wr, al) w1 /\
    span_holds w1 cdb bs /\ answered w w1 ps /\ alloc_cb w1 = alloc_cb w /\
    (unmap_acceptable bs pl = true -> (exists p, ps = [p] /\ p <> 0 /\ data_addr al = p) \/ (data_addr al = 0 /\ (ps = [] /\ alloc_cb w = false \/ ps = [0]))) /\
    (unmap_acceptable bs pl = false -> ps = [] /\ data_addr al = 0)).
  { destruct (unmap_dec bs pl Ho) as [(-> & n & D)|(-> & D)].
    - destruct (unmap_ok cdb bs buffer pl n (e0 (nvme_wrappers t)) (nsid_of lun) (e0 (allocations t)) w) as
        [(p & m & wr' & w' & E & Hp & T & K & _ & _ & H)|(al' & w' & E & K & H & Hz & C)]; try assumption.
      + unfold nsid_of. apply N.mod_lt. discriminate.
      + do 4 eexists. exists [p]. split; [exact E|]. split; [exact H|]. split; [eapply answered_page; exact T|]. split; [apply K|].
        split; [|discriminate]. intros _. left. exists p. auto.
      + destruct (prog_answers true _ (p_Unmap true _ _ _ _ _ _) _ _ _ E) as (_ & ps & A & N).
        do 4 eexists. exists ps. split; [exact E|]. split; [exact H|]. split; [exact A|]. split; [apply K|].
        split; [|discriminate]. intros _. right. split; [exact Hz|]. destruct C as [C|(m & T)]; [left; auto|right].
        exact (answered_unique _ _ _ _ A (answered_page _ _ _ _ T)).
    - destruct (unmap_bad cdb bs buffer pl (e0 (nvme_wrappers t)) (nsid_of lun) (e0 (allocations t)) w Hc Hb Ho D) as (st & E & _).
      do 4 eexists. exists []. split; [exact E|]. split; [exact Hc|]. split; [apply answered_same|]. split; [reflexivity|]. split; [discriminate|auto]. }
  destruct U as (st & wr & al & w1 & ps & E & Hc1 & A & Cb & U1 & U2).
  unfold at_least. destruct (le_lt_dec 6 (length bs)) as [Hl|Hl].
  - replace (Nat.leb 6 (length bs)) with true by lia. cbn [andb].
    set (a := {| ca_page_code := ms_page bs; ca_pc := ms_pc bs; ca_dbd := ms_dbd bs; ca_llbaa := false |}).
    destruct (mode_status a (nvme_wrappers (set_count (set_status (set_al0 (set_wr0 (started t cdb) wr) al) st) 1)) al lun 1 w1 (ms_pc_lt bs) ltac:(lia))
      as (st2 & wrs & al2 & n & w2 & ps2 & E2 & A2 & N2 & Z2' & S).
    pose proof (unmap_switch t cdb bs buffer lun w st wr al w1 Hi Hc1 Hl E _ _ _ _ _ E2) as Sw.
    destruct (switch_answers t cdb buffer lun w bs 0x42 _ _ _ _ Hi Hc Hne Ho Sw (answered_trans _ _ _ _ _ A A2)) as (t' & w' & Eb & A3 & Acc).
    do 3 eexists. exists (ps ++ ps2). split; [exact Eb|]. split; [exact A3|]. split; [|reflexivity].
    rewrite Acc. change (accepted (set_status (set_count (set_al0 (set_wrappers (set_count (set_status (set_al0 (set_wr0 (started t cdb) wr) al) st) 1) wrs) al2) n) st2)) with (st2 = kSuccess).
    rewrite S. cbn [ca_page_code ca_pc ca_dbd a]. rewrite andb_true_iff, orb_true_iff. apply and_iff_compat_l. apply or_iff_compat_l.
    rewrite Cb in N2.
    destruct (unmap_acceptable bs pl).
    + destruct (U1 eq_refl) as [(p & -> & Hp & Hd)|(Hd & [(-> & Hn)| ->])].
      * rewrite (Z2' ltac:(congruence)). cbn [app given_at_second]. split; [intros [X _]; congruence|]. intros X. destruct p; discriminate X.
      * rewrite (N2 Hn). cbn. split; [intros [_ X]; discriminate X|intros X; discriminate X].
      * cbn [app]. destruct ps2 as [|q [|q' l]].
        -- cbn. split; [intros [_ X]; discriminate X|intros X; discriminate X].
        -- rewrite given_one. cbn [given_at_second]. tauto.
        -- cbn [given_at_second]. split; [intros [_ X]; discriminate X|intros X; discriminate X].
    + destruct (U2 eq_refl) as [-> Hd]. cbn [app]. tauto.
  - replace (Nat.leb 6 (length bs)) with false by lia. cbn [andb].
    assert (Sw : exists t2 al2, Begin_switch 0x42 (subspan cdb 1) buffer (nsid_of lun) (started t cdb) 0 w = Ret (t2, al2) w1 /\ ~ accepted t2).
    { change (Begin_switch 0x42) with Begin_Unmap. unfold Begin_Unmap. unfold bind at 1.
      change (nvme_wrappers (started t cdb)) with (nvme_wrappers t). change (allocations (started t cdb)) with (allocations t). rewrite E.
      cbv zeta. unfold Begin_ModeSense6, ModeSense6ToNvme. unfold bind.
      rewrite (cdb_ReadValue_short ModeSense6Command cdb w1 bs Hc1) by (cbn; lia). do 2 eexists. split; [reflexivity|discriminate]. }
    destruct Sw as (t2 & al2 & Sw & Na).
    destruct (switch_answers t cdb buffer lun w bs 0x42 _ _ _ _ Hi Hc Hne Ho Sw A) as (t' & w' & Eb & A3 & Acc).
    do 3 eexists. exists ps. split; [exact Eb|]. split; [exact A3|]. split; [|intros X; tauto].
    split; [tauto|discriminate].
Qed.

(** ** MODE SENSE(10) *)
Lemma Begin_mode10_iff t cdb bs buffer lun w : idle t -> span_holds w cdb bs -> byte_at bs 0 = 0x5a ->
  exists t' r w' ps, Begin t cdb buffer lun w = Ret (t', r) w' /\ answered w w' ps /\
    (accepted t' <-> at_least 12 bs && (byte_at bs 2 <=? 2) && (if ms_dbd bs then given 1 ps else given_at_second ps) = true) /\
    (accepted t' -> br_alloc_len r = be (slice 6 4 bs)).
Proof.
  intros Hi Hc Ho. assert (Hne : bs <> []) by (eapply cdb_nonempty; [exact Ho|discriminate]). unfold at_least.
  assert (Bad : (length bs < 12)%nat \/ 2 < byte_at bs 2 -> exists t' r w' ps, Begin t cdb buffer lun w = Ret (t', r) w' /\ answered w w' ps /\
    (accepted t' <-> Nat.leb 12 (length bs) && (byte_at bs 2 <=? 2) && (if ms_dbd bs then given 1 ps else given_at_second ps) = true) /\
    (accepted t' -> br_alloc_len r = be (slice 6 4 bs))).
  { intros Hb. destruct (Begin_mode10_refuses t cdb buffer lun w bs Hi Hc Ho Hb) as (t' & r & w' & E & _ & (X & _) & _).
    destruct (Begin_answers _ _ _ _ _ _ _ _ E) as (ps & A & _). exists t', r, w', ps. split; [exact E|]. split; [exact A|].
    replace (Nat.leb 12 (length bs) && (byte_at bs 2 <=? 2)) with false by lia. cbn [andb]. split; [split; [intros Y; exfalso; apply X; exact Y|discriminate]|].
    intros Y. exfalso. apply X. exact Y. }
  destruct (le_lt_dec 12 (length bs)) as [Hl|Hl]; [|apply Bad; left; exact Hl].
  destruct (N.leb_spec (byte_at bs 2) 2) as [H2|H2]; [|apply Bad; right; exact H2].
  replace (Nat.leb 12 (length bs)) with true by lia. cbn [andb]. clear Bad.
  pose proof Hi as (_ & Hcnt & Hh). apply held_nil in Hh as (Ha0 & _ & _).
  assert (Hd : data_addr (e0 (allocations (started t cdb))) = 0).
  { change (allocations (started t cdb)) with (allocations t). apply empty_data, Ha0. }
  destruct (mode10_state cdb bs (nvme_wrappers (started t cdb)) _ lun w Hc ltac:(lia) Hd)
    as (st & wrs' & al' & n & w' & E & bs' & Hc' & Hl' & C).
  destruct (Validate_any cdb (be (slice 7 2 bs)) w' bs' Hc' ltac:(lia)) as (sv & rl' & Ev).
  set (t0 := set_count (set_status (set_status (set_count (set_al0 (set_wrappers (started t cdb) wrs') al') n) st) sv) 0).
  assert (Es : forall t2 al w2, Begin_ReportLuns (subspan cdb 1) t0 rl' w' = Ret (t2, al) w2 ->
     Begin_switch 0x5a (subspan cdb 1) buffer (nsid_of lun) (started t cdb) 0 w = Ret (t2, al) w2).
  { intros t2 al w2 K. change (Begin_switch 0x5a) with (fun c (_ : span) => Begin_ModeSense10 c). cbv beta.
    unfold Begin_ModeSense10, bind at 1. change (nvme_cmd_count (started t cdb)) with (nvme_cmd_count t). rewrite Hcnt, E.
    unfold Begin_MaintenanceIn, bind at 1. rewrite Ev. exact K. }
  (* what the first request got *)
  destruct (mode10_forward cdb bs (nvme_wrappers (started t cdb)) _ lun w Hc ltac:(lia) Hd) as (st_ & wrs_ & al_ & n_ & w_ & E' & F).
  rewrite E in E'. injection E' as <- <- <- <- <-.
  destruct (mode_forward _ (nvme_wrappers (started t cdb)) _ lun w Hd (ms_pc_lt bs : ca_pc {| ca_page_code := ms_page bs; ca_pc := ms_pc bs; ca_dbd := ms_dbd bs; ca_llbaa := ms10_llbaa bs |} < 4))
    as (st2 & wrs2 & al2 & n2 & w2 & F2 & K & _ & D). rewrite F in F2. injection F2 as <- <- <- <- <-. cbn [ca_dbd] in D.
  destruct (prog_answers true _ (p_Mode10 true _ _ _ _ _ _ _) _ _ _ E) as (Cb & ps & A & N).
  assert (Fst : (ms_dbd bs = true /\ ps = [] /\ data_addr al' = 0) \/
    (ms_dbd bs = false /\ ((exists p, ps = [p] /\ p <> 0 /\ data_addr al' = p) \/ (data_addr al' = 0 /\ (ps = [] /\ alloc_cb w = false \/ ps = [0]))))).
  { destruct (ms_dbd bs); [left|right]; (split; [reflexivity|]).
    - destruct D as (-> & -> & _). split; [exact (answered_unique _ _ _ _ A (answered_same w))|exact Hd].
    - destruct D as [(p & m & Hp & T & -> & _)|(_ & Hz & D)]; [left|right].
      + exists p. split; [exact (answered_unique _ _ _ _ A (answered_page _ _ _ _ T))|]. split; [exact Hp|reflexivity].
      + split; [exact Hz|]. destruct D as [D|(m & T)]; [left; auto|right; exact (answered_unique _ _ _ _ A (answered_page _ _ _ _ T))]. }
  clear D.
  destruct (N.leb_spec (select_report bs') 2) as [Hs|Hs].
  2:{ (* the page was put over the CDB *)
      destruct C as [C| ->]; [|unfold select_report in Hs; lia].
      destruct Fst as [(_ & _ & X)|(-> & [(p & -> & Hp & _)|(X & _)])]; try contradiction.
      destruct (ReportLuns_bad cdb bs' t0 rl' w' Hc' ltac:(right; exact Hs) ltac:(lia)) as (t2 & al & K2 & Hn).
      destruct (switch_answers t cdb buffer lun w bs 0x5a _ _ _ _ Hi Hc Hne Ho (Es _ _ _ K2) A) as (t' & w3 & Eb & A3 & Acc).
      exists t', (begin_ok al), w3, [p]. split; [exact Eb|]. split; [exact A3|]. split; [|intros X; tauto].
      split; [tauto|]. destruct p; discriminate. }
  destruct (SetPages_answers al' w') as (st3 & al3 & w3 & ps3 & E3 & A3 & N3 & C3).
  destruct (Begin_ReportLuns_case t0 t0 cdb bs' w' rl' Hc' ltac:(lia) Hs eq_refl eq_refl eq_refl _ _ _ E3) as (wr & K3 & _).
  destruct (switch_answers t cdb buffer lun w bs 0x5a _ _ _ _ Hi Hc Hne Ho (Es _ _ _ K3) (answered_trans _ _ _ _ _ A A3)) as (t' & w4 & Eb & A4 & Acc).
  exists t', (begin_ok (report_alloc_len bs')), w4, (ps ++ ps3). split; [exact Eb|]. split; [exact A4|].
  change (accepted (set_count (set_status (set_al0 (set_wr0 t0 wr) al3) st3) 1)) with (st3 = kSuccess) in Acc.
  assert (Same : st3 = kSuccess -> bs' = bs).
  { intros ->. destruct C as [C|C]; [exfalso|exact C]. destruct C3 as [(_ & X & _)|[(X & _)|(_ & X & _)]]; [discriminate X|contradiction|discriminate X]. }
  split; [|intros X; apply Acc in X; rewrite (Same X); reflexivity].
  rewrite Acc. rewrite Cb in *.
  destruct Fst as [(-> & -> & Hz)|(-> & [(p & -> & Hp & Hz)|(Hz & Hps)])].
  - cbn [app]. destruct C3 as [(X & _)|[(_ & -> & _ & ->)|(_ & -> & _ & [(-> & _)| ->])]]; [contradiction|tauto| |]; cbn; split; intros Y; discriminate Y.
  - destruct C3 as [(_ & -> & _ & ->)|[(X & _)|(X & _)]]; [|congruence|congruence]. cbn [app]. split; [discriminate|]. destruct p; discriminate.
  - destruct C3 as [(X & _)|[(_ & -> & _ & G)|(_ & -> & _ & G)]]; [contradiction| |].
    + destruct Hps as [(_ & X)| ->]; [rewrite (N3 X) in G; discriminate G|]. destruct ps3 as [|q [|]]; try discriminate G. rewrite given_one in G. cbn. tauto.
    + split; [discriminate|]. destruct Hps as [(-> & _)| ->]; destruct G as [(-> & _)| ->]; discriminate.
Qed.
