(** C112 with MODE SENSE: as Properties43, for devices with sane block sizes. *)
From Coq Require Import Arith NArith ZArith String List Lia Bool Init.Byte Permutation.
From Coq Require Import ZifyBool ZifyNat ZifyN.
From Verif Require Import Bytes Layout World ScsiDefs NvmeDefs Common ModeSenseCmd TranslationCls EngineE2e MockModule
  Spec RwSpec InquirySpec SmallSpec ModeSpec UnmapSpec EngineSpec MockSpec ConcSpec DiskSpec ConcDiskSpec ConcAllSpec
  Facts Logic BeginFacts CompleteFacts StatusFacts RwFacts RelFacts ProgFacts EngineFacts MockFacts ConcFacts ConcDiskFacts
  Properties9 Properties11 Properties21 Properties41 Properties42 Witness Properties43.
Import ListNotations.
Local Open Scope string_scope.
Local Open Scope list_scope.
Local Open Scope N_scope.

Definition same_bytes (l l' : list byte) : bool := if list_eq_dec Byte.byte_eq_dec l l' then true else false.
Lemma same_bytes_iff l l' : same_bytes l l' = true <-> l = l'.
Proof. unfold same_bytes. destruct (list_eq_dec _ l l'); split; congruence. Qed.
Definition nsid_in (s : submission) : N := le (slice 4 4 (le_encode 64 (sub_cmd s))).
Definition is_identify (s : submission) : bool :=
  sub_admin s && same_bytes (le_encode 64 (sub_cmd s)) (sqe_bytes (identify_sqe 0 (nsid_in s) (sub_buffer s))) && (sub_buffer s <? 2 ^ 64) && (sub_bufflen s =? 4096).
Definition is_features (s : submission) : bool :=
  sub_admin s && existsb (fun sel => same_bytes (le_encode 64 (sub_cmd s)) (sqe_bytes (get_features_sqe (nsid_in s) sel))) [0; 1; 2; 3; 4; 5; 6; 7].
Lemma nsid_of_identify nsid p : le (slice 4 4 (sqe_bytes (identify_sqe 0 nsid p))) = nsid mod 2 ^ 32.
Proof. replace (slice 4 4 _) with (le_encode 4 nsid) by reflexivity. rewrite le_le_encode. reflexivity. Qed.
Lemma nsid_of_features nsid sel : nsid < 2 ^ 32 -> le (slice 4 4 (sqe_bytes (get_features_sqe nsid sel))) = nsid.
Proof. intros H. replace (slice 4 4 _) with (le_encode 4 nsid) by reflexivity. rewrite le_le_encode. apply N.mod_small. exact H. Qed.
Lemma identify_mod nsid p : sqe_bytes (identify_sqe 0 (nsid mod 2 ^ 32) p) = sqe_bytes (identify_sqe 0 nsid p).
Proof. unfold sqe_bytes, identify_sqe. cbn [q_opc q_nsid q_prp1 q_cdw10 q_cdw11 q_cdw12]. change (2 ^ 32) with (2 ^ (8 * N.of_nat 4)). rewrite le_encode_mod. reflexivity. Qed.
Lemma is_identify_view s nsid p : p < 2 ^ 64 -> sub_view s = (true, sqe_bytes (identify_sqe 0 nsid p), p, 4096) -> is_identify s = true /\ sub_buffer s = p.
Proof.
  intros Hp V. unfold sub_view in V. apply pair_eq in V as [V V4]. apply pair_eq in V as [V V3]. apply pair_eq in V as [V1 V2]. split; [|exact V3].
  unfold is_identify, nsid_in. rewrite V1, V2, V3, V4, nsid_of_identify, identify_mod.
  rewrite (proj2 (same_bytes_iff _ _) eq_refl). replace (p <? 2 ^ 64) with true by (symmetry; apply N.ltb_lt; exact Hp). reflexivity.
Qed.
Lemma view_identify s : is_identify s = true -> sub_view s = (true, sqe_bytes (identify_sqe 0 (nsid_in s) (sub_buffer s)), sub_buffer s, 4096) /\ sub_buffer s < 2 ^ 64.
Proof.
  unfold is_identify. intros H. apply andb_true_iff in H as [H H4]. apply andb_true_iff in H as [H H3]. apply andb_true_iff in H as [H1 H2].
  apply same_bytes_iff in H2. apply N.ltb_lt in H3. apply N.eqb_eq in H4. split; [|exact H3]. unfold sub_view. rewrite <- H2, H1, H4. reflexivity.
Qed.
Lemma is_features_view s nsid sel : nsid < 2 ^ 32 -> sel < 8 -> sub_admin s = true -> le_encode 64 (sub_cmd s) = sqe_bytes (get_features_sqe nsid sel) -> is_features s = true.
Proof.
  intros Hn Hs Ha E. unfold is_features, nsid_in. rewrite Ha, E, nsid_of_features by exact Hn. cbn [andb]. apply existsb_exists. exists sel. split; [|apply same_bytes_iff; reflexivity].
  cbn [In]. lia.
Qed.
Lemma view_features s : is_features s = true -> exists sel, nsid_in s < 2 ^ 32 /\ sel < 8 /\ sub_admin s = true /\ le_encode 64 (sub_cmd s) = sqe_bytes (get_features_sqe (nsid_in s) sel).
Proof.
  unfold is_features. intros H. apply andb_true_iff in H as [H1 H2]. apply existsb_exists in H2 as (sel & Hi & H2). apply same_bytes_iff in H2. exists sel.
  split; [|split; [|split; [exact H1|exact H2]]].
  - unfold nsid_in. pose proof (le_lt (slice 4 4 (le_encode 64 (sub_cmd s)))) as L. assert (Q : length (slice 4 4 (le_encode 64 (sub_cmd s))) = 4%nat).
    { unfold slice. rewrite firstn_length, skipn_length, le_encode_length. lia. }
    rewrite Q in L. exact L.
  - cbn [In] in Hi. lia.
Qed.
Lemma not_both s : is_identify s = true -> is_features s = false.
Proof.
  intros H. destruct (is_features s) eqn:E; [|reflexivity]. exfalso. destruct (view_features s E) as (sel & _ & _ & _ & F). destruct (view_identify s H) as [V _].
  unfold sub_view in V. apply pair_eq in V as [V _]. apply pair_eq in V as [V _]. apply pair_eq in V as [_ V]. rewrite F in V.
  apply (f_equal (fun l => nth_error l 0)) in V. vm_compute in V. discriminate V.
Qed.

Definition insane (m : memory) (p : N) : bool := match load_bytes m p (N.to_nat 4096) with Some page => negb (ns_lbads page <? 32) | None => false end.
Definition ok_cpl (c : N) : bool := (cpl_sct c =? 0) && (cpl_sc c =? 0).
Definition sane_replay (c : scsi_cmnd) (m2 : memory) (cpl : N) (s : submission) (m : memory) : memory * N :=
  if is_features s then (m, cpl)
  else (fst (seen c m2 cpl m), if is_identify s && insane (fst (seen c m2 cpl m)) (sub_buffer s) && ok_cpl (cpl mod 2 ^ 128) then N.shiftl 6 113 else cpl).
Definition sane_good (D : driver) (c : scsi_cmnd) : Prop := harmless D c /\ sane_device D.

Lemma sane_shape c m2 cpl s m x : fst (sane_replay c m2 cpl s m) x <> None <-> m x <> None.
Proof. unfold sane_replay. destruct (is_features s); [tauto|]. apply seen_shape. Qed.
Lemma not_ok : ~ cpl_ok (N.shiftl 6 113 mod 2 ^ 128).
Proof. intros [_ H]. vm_compute in H. discriminate H. Qed.
Lemma sane_good_extend c D n m2 cpl : sane_good D c -> sane_good (extend n D (sane_replay c m2 cpl)) c.
Proof.
  intros [H [S1 S2]]. split; [|split].
  - intros k s m x. unfold extend. destruct (Nat.ltb k n); [apply H|]. split; [apply sane_shape|]. unfold sane_replay. destruct (is_features s); [auto|apply seen_cdb].
  - intros k s m nsid p page Hp V. unfold extend. destruct (Nat.ltb k n); [apply (S1 k s m nsid p page Hp V)|].
    destruct (is_identify_view s nsid p Hp V) as [I B]. unfold sane_replay. rewrite (not_both s I), I, B. cbn [fst snd andb]. intros Ok Hl Hb.
    assert (L : load_bytes (fst (seen c m2 cpl m)) p (N.to_nat 4096) = Some page).
    { replace (N.to_nat 4096) with (length page) by lia. apply load_bytes_intro. exact Hb. }
    unfold insane in Ok. rewrite L in Ok. destruct (N.ltb_spec (ns_lbads page) 32) as [G|G]; [exact G|]. cbn [negb andb] in Ok. exfalso.
    destruct (ok_cpl (cpl mod 2 ^ 128)) eqn:Oc; [exact (not_ok Ok)|]. destruct Ok as [O1 O2]. unfold ok_cpl in Oc. rewrite O1, O2 in Oc. discriminate Oc.
  - intros k s m nsid sel Hn Hs Ha E. unfold extend. destruct (Nat.ltb k n); [apply (S2 k s m nsid sel Hn Hs Ha E)|].
    unfold sane_replay. rewrite (is_features_view s nsid sel Hn Hs Ha E). reflexivity.
Qed.
Lemma sane_broken c : sane_good broken c.
Proof.
  split; [apply plain_broken|]. split.
  - intros k s m nsid p page _ _ Ok. destruct (not_ok Ok).
  - reflexivity.
Qed.
Lemma sane_faith c (drv : driver) k s w1 w2 cpl cur : sane_device drv -> hand_over drv k s w1 = Ret cpl w2 -> present cur w1 ->
  (forall x, mem w1 x <> None -> mem w2 x <> None) -> (forall x, in_cdb c x = true -> mem w2 x = mem w1 x) ->
  present (fst (sane_replay c (mem w2) cpl s cur)) w2 /\ snd (sane_replay c (mem w2) cpl s cur) mod 2 ^ 128 = cpl.
Proof.
  intros [S1 S2] E Hp Hk Hd. destruct (hand_mod _ _ _ _ _ _ E) as [Ec Em]. assert (Cm : cpl mod 2 ^ 128 = cpl) by (rewrite Ec; apply N.mod_mod; discriminate).
  pose proof (seen_present c w1 w2 cpl cur Hp Hk Hd) as P. unfold sane_replay. destruct (is_features s) eqn:Ef; cbn [fst snd].
  - split; [|exact Cm]. destruct (view_features s Ef) as (sel & F1 & F2 & F3 & F4). intros x b Hx. rewrite Em, (S2 k s (mem w1) _ _ F1 F2 F3 F4). apply Hp. exact Hx.
  - split; [exact P|]. destruct (is_identify s) eqn:Ei; cbn [andb]; [|exact Cm]. destruct (view_identify s Ei) as [V B]. rewrite Cm.
    destruct (insane (fst (seen c (mem w2) cpl cur)) (sub_buffer s)) eqn:Z; cbn [andb]; [|exact Cm]. destruct (ok_cpl cpl) eqn:Oc; [|exact Cm]. exfalso.
    unfold insane in Z. destruct (load_bytes (fst (seen c (mem w2) cpl cur)) (sub_buffer s) (N.to_nat 4096)) as [page|] eqn:L; [|discriminate Z].
    assert (G : ns_lbads page < 32); [|apply N.ltb_lt in G; rewrite G in Z; discriminate Z].
    apply (S1 k s (mem w1) _ _ page B V).
    + rewrite <- Ec. unfold ok_cpl in Oc. apply andb_true_iff in Oc as [O1 O2]. split; apply N.eqb_eq; assumption.
    + rewrite (load_bytes_length _ _ _ _ L). apply N2Nat.id.
    + rewrite <- Em. intros i b Hi. apply P. exact (load_bytes_nth _ _ _ _ L i b Hi).
Qed.

(** all commands but those of C111_mode_sense_refuted and MODE SENSE(10) of twelve bytes or more *)
Definition answerable (bs : list byte) : Prop := ~ no_answer bs /\ (byte_at bs 0 = 0x5a -> (length bs < 12)%nat).
Lemma sane_solo drv wrs kz wild c w bs : Properties41.queued w kz c bs -> kz = 0 \/ pages_apart w {| ptr := kz; len := sc_bufflen c mod 65536 |} ->
  sane_good drv c -> answerable bs -> exists r w', scsi_queuecommand drv wrs kz wild c w = Ret r w'.
Proof.
  intros Q Hk [Hd Hs] [Ho H10].
  assert (P : pages_apart w {| ptr := kz; len := sc_bufflen c mod 65536 |} -> exists r w', scsi_queuecommand drv wrs kz wild c w = Ret r w').
  { intros P. apply (answered_mode drv wrs kz wild c w bs Q P Hd Hs); [intros Z; destruct (Ho Z)|exact H10]. }
  destruct Hk as [Hk|Hk]; [|exact (P Hk)]. destruct (N.eq_dec (sc_bufflen c mod 65536) 0) as [Z|Z].
  - apply P. intros k size n. cbv zeta. cbn [ptr len]. right; right. rewrite Z, Hk. lia.
  - rewrite Hk. destruct (C111_out_of_memory_refuted drv wrs wild c w Z) as (r & w' & E & _). exists r, w'. exact E.
Qed.
Theorem C112_progress_mode_partial : forall w ps mems w' st i g,
  all_queued w ps mems -> (forall p, In p ps -> answerable (p_cdb p)) ->
  at_once sane_device w (starts ps mems) w' st -> nth_error st i = Some g ->
  ((exists r, returned (g_state g) r) \/ can_move w' (g_state g)) /\
  forall B (a : M B) k, next_action (fst (g_state g)) (snd (g_state g)) a k -> exists b w2, a w' = Ret b w2.
Proof.
  intros w ps mems w' st i g (H1 & H2 & H3 & H4) Ho H Eg.
  exact (gen_progress w ps mems H2 H1 H4 H3 answerable Ho sane_device sane_good (fun _ _ => True) sane_solo sane_replay sane_good_extend sane_broken
    (fun _ _ _ _ _ _ _ => I) (fun _ => I) sane_shape sane_faith w' st i g H Eg).
Qed.
Print Assumptions C112_progress_mode_partial.

Theorem C112_isolated_mode_partial : forall w ps mems w' st i p mm g r,
  all_queued w ps mems -> (forall p, In p ps -> answerable (p_cdb p)) ->
  at_once sane_device w (starts ps mems) w' st -> nth_error ps i = Some p -> nth_error mems i = Some mm -> nth_error st i = Some g -> returned (g_state g) r ->
  exists drv mm', harmless drv (p_cmnd p) /\ sane_device drv /\ answered_alone w p mm drv r (g_evs g) mm' /\
    (forall x, mm x <> None -> mem w' x = mm' x) /\
    (sc_bufflen (p_cmnd p) mod 65536 = 0 \/ p_kz p <> 0 -> In (mr_result r) sam_status).
Proof.
  intros w ps mems w' st i p mm g r (H1 & H2 & H3 & H4) Ho H Ep Em Eg Hr.
  destruct (gen_isolated w ps mems H2 H1 H4 H3 answerable Ho sane_device sane_good (fun _ _ => True) sane_solo sane_replay sane_good_extend sane_broken
    (fun _ _ _ _ _ _ _ => I) (fun _ => I) sane_shape sane_faith w' st i p mm g r H Ep Em Eg Hr) as (D & mm' & [G1 G2] & _ & G3 & G4 & G5).
  exists D, mm'. split; [exact G1|]. split; [exact G2|]. split; [exact G3|]. split.
  - intros x Hx. specialize (G5 x Hx). destruct (mm' x) as [b|] eqn:Z; [exact (G4 x b Z)|contradiction].
  - destruct G3 as (v & v' & _ & _ & _ & E & _). exact (C111_status_partial _ _ _ _ _ _ _ _ E).
Qed.
Print Assumptions C112_isolated_mode_partial.

Theorem C112_bystanders_mode_partial : forall w ps mems w' st x,
  all_queued w ps mems -> (forall p, In p ps -> answerable (p_cdb p)) ->
  at_once sane_device w (starts ps mems) w' st -> mem w x <> None -> (forall mm, In mm mems -> mm x = None) -> mem w' x = mem w x.
Proof.
  intros w ps mems w' st x (H1 & H2 & H3 & H4) Ho H Hx Hm.
  exact (gen_frame w ps mems H2 H1 H4 H3 answerable Ho sane_device sane_good (fun _ _ => True) sane_solo sane_replay sane_good_extend sane_broken
    (fun _ _ _ _ _ _ _ => I) (fun _ => I) sane_shape sane_faith w' st x H Hx Hm).
Qed.
Print Assumptions C112_bystanders_mode_partial.

(** ** The premises are met *)
(** MODE SENSE(6) for the caching page without block descriptor, and a device that
    answers only Get Features *)
Definition ex_mode44 := B [0x1a;0x08;0x08;0;96;0].
Definition ex_dev44 : driver := fun _ s m => (m, if is_features s then 0 else N.shiftl 6 113).
Lemma ex_dev44_sane : sane_device ex_dev44.
Proof.
  split; [|reflexivity]. intros k s m nsid p page Hp V. destruct (is_identify_view s nsid p Hp V) as [I _].
  unfold ex_dev44. rewrite (not_both s I). intros Ok. destruct (not_ok Ok).
Qed.
Example C112_mode_premises_met : let c2 := ex_mode44 in
  all_queued (ex_world43 c2) (ex_ps c2) (ex_mems43 c2) /\ (forall p, In p (ex_ps c2) -> answerable (p_cdb p)) /\
  exists w g1 g2 r1 r2, at_once sane_device (ex_world43 c2) (starts (ex_ps c2) (ex_mems43 c2)) w [g1; g2] /\
    returned (g_state g1) r1 /\ returned (g_state g2) r2 /\ mr_result r1 = CHECK_CONDITION /\ (mr_result r2, mr_resid r2, length (mr_subs r2)) = (GOOD, Some 0, 1%nat).
Proof.
  cbv zeta. assert (L : (length ex_mode44 <= 16)%nat) by (vm_compute; lia). split; [exact (ex_all_queued _ L)|]. split.
  { intros p [<-|[<-|[]]]; (split; [|intros H; vm_compute in H; discriminate H]); intros (H1 & H2 & H3); vm_compute in H1; try discriminate H1.
    vm_compute in H3. repeat (destruct H3 as [H3|H3]; [discriminate H3|]). exact H3. }
  apply (ex_both sane_device ex_dev44 ex_mode44); [exact L|exact ex_dev44_sane|reflexivity|vm_compute; reflexivity|vm_compute; reflexivity].
Qed.
