(** C111 for MODE SENSE: answered too, if the device's blocks are not absurdly
    long, except for the two CDBs of C111_mode_sense_refuted. *)
From Coq Require Import Arith NArith ZArith String List Lia Bool Init.Byte Permutation.
From Coq Require Import ZifyBool ZifyNat ZifyN.
From Verif Require Import Bytes Layout World ScsiDefs NvmeDefs Common ModeSenseCmd TranslationCls EngineE2e MockModule KernelDriver
  Spec RwSpec InquirySpec SmallSpec ModeSpec UnmapSpec EngineSpec MockSpec AcceptSpec ModuleSpec UndefSpec
  Facts Logic BeginFacts CompleteFacts StatusFacts WireFacts RwFacts AdminFacts ModeFacts Mode10Facts JunkFacts RelFacts ProgFacts EngineFacts MockFacts Witness ConcDiskFacts CacheSpec
  Properties1 Properties2 Properties8 Properties9 Properties11 Properties12 Properties23 Properties26 Properties30 Properties37 Properties41 MixedSpec Properties3.
From Verif Require Properties5.
Import ListNotations.
Local Open Scope string_scope.
Local Open Scope list_scope.
Local Open Scope N_scope.

(** Specification: a device whose Identify Namespace data, when it delivers any,
    has a block size exponent (LBADS) below 32, and which does not write to memory
    for Get Features *)
Definition bytes_in (m : N -> option byte) (p : N) (bs : list byte) : Prop := forall i b, nth_error bs i = Some b -> m (p + N.of_nat i) = Some b.
Definition sane_device (drv : driver) : Prop :=
  (forall k s m nsid p page, p < 2 ^ 64 -> sub_view s = (true, sqe_bytes (identify_sqe 0 nsid p), p, 4096) -> cpl_ok (snd (drv k s m) mod 2 ^ 128) ->
     N.of_nat (length page) = 4096 -> bytes_in (fst (drv k s m)) p page -> ns_lbads page < 32) /\
  (forall k s m nsid sel, nsid < 2 ^ 32 -> sel < 8 -> sub_admin s = true -> le_encode 64 (sub_cmd s) = sqe_bytes (get_features_sqe nsid sel) -> fst (drv k s m) = m).
(** MODE SENSE(6) without block descriptor for a page without Get Features *)
Definition no_answer (bs : list byte) : Prop := byte_at bs 0 = 0x1a /\ ms_dbd bs = true /\ In (ms_page bs) [0x0a; 0x1a].

(** the pages held after Begin come from the page callback *)
Lemma begins_drawn wrs q w t1 r w1 : EngineSpec.begins wrs q w = Ret (t1, r) w1 -> zero_ok w ->
  forall p n, In (p, n) (held t1) -> accepted t1 /\ exists k, p = u64 (ans w k 4096 n) /\ p <> 0.
Proof.
  intros E Hz p n Hin. pose proof E as E0. unfold EngineSpec.begins in E0.
  pose proof (Begin_idle_spec false (Translation_init wrs) (rq_cdb q) (rq_data q) (rq_lun q) w (idle_init wrs) (no_ok_span _ _) (no_ok_span _ _)) as S.
  unfold cst in S. rewrite E0 in S. destruct S as (_ & _ & _ & Hrej & _ & w0 & evs' & rel & G & R & Z & P).
  assert (Ha : pipeline_status t1 = kSuccess).
  { destruct (pipeline_status t1) eqn:Q; [reflexivity|exfalso; rewrite (proj2 (Hrej ltac:(discriminate))) in Hin; destruct Hin..]. }
  split; [exact Ha|]. rewrite (Z Ha) in P. cbn [app] in P. pose proof (Permutation_in _ (P Hz) Hin) as Hac. destruct (acquired_in _ _ _ Hac) as (Hp & ps & Hev).
  destruct (drawn_in _ _ _ _ (g_from _ _ _ G) Hev) as (k & n' & _ & _ & Ek). exists k. injection Ek as -> -> ->. split; [reflexivity|exact Hp].
Qed.

Lemma begins_acquired wrs q w t1 r w1 evs : EngineSpec.begins wrs q w = Ret (t1, r) w1 -> zero_ok w -> trace w1 = trace w ++ evs ->
  forall p n, In (p, n) (held t1) -> In (p, n) (acquired evs).
Proof.
  intros E Hz T p n Hin. pose proof E as E0. unfold EngineSpec.begins in E0.
  pose proof (Begin_idle_spec false (Translation_init wrs) (rq_cdb q) (rq_data q) (rq_lun q) w (idle_init wrs) (no_ok_span _ _) (no_ok_span _ _)) as S.
  unfold cst in S. rewrite E0 in S. destruct S as (_ & _ & _ & Hrej & _ & w0 & evs' & rel & G & R & Z & P).
  assert (Ha : pipeline_status t1 = kSuccess).
  { destruct (pipeline_status t1) eqn:Q; [reflexivity|exfalso; rewrite (proj2 (Hrej ltac:(discriminate))) in Hin; destruct Hin..]. }
  rewrite (Z Ha) in R, P. cbn [app] in P.
  assert (T' : evs = evs').
  { pose proof (r_trace _ _ _ R) as T1. replace (if dealloc_cb w0 then releases [] else []) with (@nil event) in T1 by (destruct (dealloc_cb w0); reflexivity).
    rewrite app_nil_r, (g_trace _ _ _ G), T in T1. apply app_inv_head in T1. exact T1. }
  subst evs'. exact (Permutation_in _ (P Hz) Hin).
Qed.
Lemma first_sub t lun p cs : map wire_of (exposes t) = map admin_wire (identify_sqe 0 (nsid_of lun) p :: cs) ->
  exists ys, GetNvmeWrappers t = e0 (nvme_wrappers t) :: ys /\ map (fun y => wire_of (view y)) ys = map admin_wire cs.
Proof.
  intros X. cbn [map] in X. unfold exposes in X. unfold GetNvmeWrappers in *. destruct (N.to_nat (nvme_cmd_count t)) as [|k]; [discriminate X|]. cbn [firstn map] in X.
  exists (firstn k [e1 (nvme_wrappers t); e2 (nvme_wrappers t)]). split; [reflexivity|].
  rewrite map_map in X. assert (Cons : forall (A : Type) (a b : A) l l', a :: l = b :: l' -> a = b /\ l = l') by (intros A a b l l' Z; injection Z; auto).
  apply Cons in X as [_ X2]. exact X2.
Qed.

Lemma quiet_run42 drv nsid : sane_device drv -> nsid < 2 ^ 32 -> forall ss k m,
  Forall (fun s => exists sel, sel < 8 /\ sub_wire s = admin_wire (get_features_sqe nsid sel)) ss -> fst (device_run drv k ss m) = m.
Proof.
  intros [_ H] Hn. induction ss as [|s ss IH]; intros k m F; cbn [device_run]; [reflexivity|].
  inversion F as [|? ? (sel & Hs & W) F']; subst. unfold sub_wire, admin_wire in W. apply pair_eq in W as [W1 W2].
  destruct (drv k s m) as [m1 c1] eqn:E. assert (m1 = m) as -> by (change m1 with (fst (m1, c1)); rewrite <- E; apply (H k s m nsid sel); assumption).
  specialize (IH (S k) m F'). destruct (device_run drv (S k) ss m) as [m2 cs]. exact IH.
Qed.
Lemma zero_lt n : 0 < n -> 4096 <= 4096 * n. Proof. lia. Qed.

Lemma engine_returns_mode drv wrs q w bs c : harmless drv c -> sane_device drv -> ptr (rq_cdb q) = sc_cmnd c -> len (rq_cdb q) = sc_cmd_len c ->
  span_holds w (rq_cdb q) bs -> (no_answer bs -> (6 <= length bs)%nat -> len (rq_data q) < byte_at bs 4) -> (byte_at bs 0 = 0x5a -> (length bs < 12)%nat) -> span_mapped w (rq_data q) -> span_mapped w (rq_sense q) ->
  zero_ok w -> pages_apart w (rq_cdb q) -> (0 < len (rq_data q) -> pages_apart w (rq_data q)) ->
  exists resp t subs w', engine drv wrs q w = Ret (resp, t, subs) w' /\ (forall x, mem w x <> None -> mem w' x <> None).
Proof.
  intros Hd Hsane Hp Hl Hc Hna H10 Hb Hs Hz Hap Hapb.
  pose proof (Begin_idle_spec true (Translation_init wrs) (rq_cdb q) (rq_data q) (rq_lun q) w (idle_init wrs) (fun _ => span_holds_mapped _ _ _ Hc) (fun _ => Hb)) as S.
  apply cst_tst, tst_inv in S as ([t1 r] & w1 & E & S). destruct S as (Hr & _).
  assert (B : EngineSpec.begins wrs q w = Ret (t1, r) w1) by exact E.
  destruct (begins_maps _ _ _ _ _ _ _ B Hz Hap Hc) as (D1 & C1 & M1).
  pose proof (begins_drawn _ _ _ _ _ _ B Hz) as Dr.
  unfold engine, ScsiToNvme. 
  replace {| ptr := ptr (rq_cdb q); len := len (rq_cdb q) |} with (rq_cdb q) by (destruct (rq_cdb q); reflexivity).
  replace {| ptr := ptr (rq_data q); len := len (rq_data q) |} with (rq_data q) by (destruct (rq_data q); reflexivity).
  replace {| ptr := ptr (rq_sense q); len := len (rq_sense q) |} with (rq_sense q) by (destruct (rq_sense q); reflexivity).
  unfold bind at 1. rewrite E, Hr. destruct (N.ltb_spec (len (rq_data q)) (br_alloc_len r)) as [L|L].
  { do 4 eexists. split; [reflexivity|exact D1]. }
  unfold bind at 1. rewrite submit_loop_eq. set (subs := map sub_of (GetNvmeWrappers t1)).
  destruct (run_harmless drv c Hd subs 0%nat (mem w1)) as [R1 R2].
  set (run := device_run drv 0 subs (mem w1)) in *. set (m2 := fst run) in *. set (cpls := snd run) in *. set (w2 := set_mem w1 m2).
  set (b := if rq_data_in q then {| ptr := ptr (rq_data q); len := br_alloc_len r |} else null_span).
  assert (Hc2 : span_holds w2 (rq_cdb q) bs).
  { destruct C1 as [X1 X2]. split; [exact X1|]. intros i v Hi. unfold w2. cbn [mem set_mem].
    assert (i < length bs)%nat by (apply nth_error_Some; rewrite Hi; discriminate). rewrite R2 by lia. apply X2. exact Hi. }
  assert (Hb2 : span_mapped w2 b).
  { unfold b. destruct (rq_data_in q); intros x Hx; cbn [ptr len null_span] in Hx; [|lia]. unfold w2. cbn [mem set_mem]. apply R1, D1, Hb. lia. }
  assert (Hs2 : span_mapped w2 (rq_sense q)). { intros x Hx. unfold w2. cbn [mem set_mem]. apply R1, D1, Hs. exact Hx. }
  assert (Hm2 : forall p n, In (p, n) (held t1) -> mapped w2 p (4096 * n)). { intros p n Hin x Hx. unfold w2. cbn [mem set_mem]. apply R1, (M1 p n Hin). exact Hx. }
  assert (Hapart : forall p, In (p, 1) (held t1) -> 0 < len b -> apart p b).
  { intros p Hin Hpos. destruct (Dr p 1 Hin) as (_ & k & Ep & Hp0). unfold b, apart in *. destruct (rq_data_in q); cbn [ptr len null_span] in *; [|right; lia].
    destruct (Hapb ltac:(lia) k 4096 1) as [Z|[Z|Z]]; rewrite <- Ep in Z; [contradiction|left|right]; lia. }
  assert (Def : exists t2 r2 w3, Complete t1 cpls b (rq_sense q) w2 = Ret (t2, r2) w3).
  { assert (D : ~ In (byte_at bs 0) [0x1a; 0x5a] \/ byte_at bs 0 = 0x1a \/ byte_at bs 0 = 0x5a).
    { cbn [In]. destruct (N.eq_dec (byte_at bs 0) 0x1a), (N.eq_dec (byte_at bs 0) 0x5a); auto. left. intros [Z|[Z|[]]]; congruence. }
    destruct D as [D|D]. { apply (C12_complete_defined_partial (Translation_init wrs) w (rq_cdb q) bs (rq_data q) (rq_lun q) t1 r w1 (idle_init wrs) Hc E D w2 cpls b (rq_sense q) Hc2 Hb2 Hs2 Hm2). }
    (* MODE SENSE *)
    assert (Pg : exists page, N.of_nat (length page) = 4096 /\ (forall p, In (p, 1) (held t1) -> (0 < len b -> apart p b) /\ bytes_at w2 p page) /\
       (accepted t1 -> Forall cpl_ok cpls -> complete_undefined bs page (len b) = false)).
    { unfold complete_undefined. destruct D as [Ho|Ho].
      - rewrite Ho. change (0x1a =? 0x1a) with true. cbv iota.
        assert (Hl6 : (6 <= length bs)%nat \/ (length bs < 6)%nat) by lia. destruct Hl6 as [Hl6|Hl6].
        2:{ destruct (Begin_mode6_short (Translation_init wrs) (rq_cdb q) (rq_data q) (rq_lun q) w bs (idle_init wrs) Hc Ho Hl6) as (t2 & r2 & w3 & E2 & _ & (R & _) & _).
            rewrite E in E2. apply ret_eq in E2 as [E2 _]. apply pair_eq in E2 as [<- _]. exists (repeat x00 (N.to_nat 4096)).
            split; [rewrite repeat_length; lia|]. split; [intros p Hin; destruct (R (proj1 (Dr _ _ Hin)))|intros A; destruct (R A)]. }
        destruct (Begin_mode6 (Translation_init wrs) (rq_cdb q) (rq_data q) (rq_lun q) w bs (idle_init wrs) Hc (conj Hl6 Ho)) as (t' & w' & E' & C).
        rewrite E in E'. apply ret_eq in E' as [E' <-]. apply pair_eq in E' as [<- _].
        destruct (mode_ok (ms_page bs) (ms_pc bs)) eqn:Hmo.
        2:{ destruct C as ([C _] & _). exists (repeat x00 (N.to_nat 4096)).
            split; [rewrite repeat_length; lia|]. split; [intros p Hin; destruct (C (proj1 (Dr _ _ Hin)))|intros A; destruct (C A)]. }
        destruct (ms_dbd bs) eqn:Hdbd.
        { destruct C as (_ & Hh & _). exists (repeat x00 (N.to_nat 4096)). split; [rewrite repeat_length; lia|].
          split; [intros p Hin; rewrite Hh in Hin; destruct Hin|]. intros _ _.
          destruct ((ms_page bs =? 0x0a) || (ms_page bs =? 0x1a)) eqn:Z; [|reflexivity]. exfalso.
          assert (Na : no_answer bs) by (split; [exact Ho|]; split; [exact Hdbd|]; cbn [In]; lia). specialize (Hna Na Hl6).
          assert (An : br_alloc_len r = byte_at bs 4).
          { rewrite (proj1 (C91_announced_length _ _ _ _ _ _ [] _ _ _ (idle_init wrs) Hc ltac:(intros Z1; rewrite Ho in Z1; discriminate Z1) ltac:(intros Z1; rewrite Ho in Z1; discriminate Z1) E)).
            unfold announced. rewrite Ho. unfold at_least. replace (6 <=? length bs)%nat with true by (symmetry; apply Nat.leb_le; exact Hl6).
            destruct (1 <=? length bs)%nat eqn:Z1; [reflexivity|]. apply Nat.leb_gt in Z1. lia. }
          lia. }
        destruct C as [(p & evs & Hp0 & Hpr & Tr & P & X & Hin)|(_ & [C _] & _)].
        2:{ exists (repeat x00 (N.to_nat 4096)). split; [rewrite repeat_length; lia|]. split; [intros p Hin; destruct (C (proj1 (Dr _ _ Hin)))|intros A; destruct (C A)]. }
        (* one page is held *)
        destruct (load_mapped w2 p (N.to_nat 4096)) as (page & _ & Lp & Bp).
        { intros x Hx. apply (Hm2 p 1 Hin). lia. }
        exists page. split; [lia|].
        pose proof P as (_ & Ha & _ & _ & G). destruct Hpr as (m & ->).
        assert (Hp64 : p < 2 ^ 64) by (destruct (Dr p 1 Hin) as (_ & k & -> & _); unfold u64; apply N.mod_lt; discriminate).
        destruct (mode6_first _ _ _ _ _ _ _ _ _ (idle_init wrs) Hc (conj Hl6 Ho) Hdbd Hmo E Ha) as (p' & V & Gp).
        assert (p' = p) as -> by (rewrite <- Gp; exact G).
        destruct (first_sub t1 (rq_lun q) p _ X) as (ys & Ex & Wy). pose proof (ident_sub _ 0 (nsid_of (rq_lun q)) p V Hp64) as Vs.
        set (s := sub_of (e0 (nvme_wrappers t1))) in *.
        assert (Qr : forall k m', fst (device_run drv k (map sub_of ys) m') = m').
        { intros k m'. apply (quiet_run42 drv (nsid_of (rq_lun q)) Hsane (nsid_of_lt _)).
          assert (F : Forall (fun v => exists sel, sel < 8 /\ v = admin_wire (get_features_sqe (nsid_of (rq_lun q)) sel)) (map sub_wire (map sub_of ys))).
          { replace (map sub_wire (map sub_of ys)) with (map admin_wire (cache_cmds (rq_lun q) (ms_page bs) (ms_pc bs))).
            - apply Forall_map. eapply Forall_impl; [|apply cache_cmds_features]. intros v (sel & H1 & ->). exists sel. auto.
            - rewrite map_map, <- Wy. apply map_ext. intros y. symmetry. apply sub_of_wire. }
          exact (proj1 (Forall_map sub_wire (fun v => exists sel, sel < 8 /\ v = admin_wire (get_features_sqe (nsid_of (rq_lun q)) sel)) (map sub_of ys)) F). }
        assert (Run : m2 = fst (drv 0%nat s (mem w1)) /\ exists cs, cpls = snd (drv 0%nat s (mem w1)) mod 2 ^ 128 :: cs).
        { unfold m2, cpls, run, subs. rewrite Ex. cbn [map device_run]. fold s. destruct (drv 0%nat s (mem w1)) as [m1 c1]. cbn [fst snd].
          specialize (Qr 1%nat m1). destruct (device_run drv 1 (map sub_of ys) m1) as [m3 cs]. cbn [fst snd] in *. split; [exact Qr|]. exists cs. reflexivity. }
        destruct Run as (Em & cs & Ec).
        split.
        { intros p' Hin'. split; [apply Hapart; exact Hin'|]. pose proof (begins_acquired _ _ _ _ _ _ _ B Hz Tr _ _ Hin') as Q. cbn [acquired] in Q.
          replace p' with p; [exact Bp|]. apply in_app_or in Q as [Q|Q].
          - destruct (p =? 0); [destruct Q|]; destruct Q as [Q|[]]. apply pair_eq in Q as [Q _]. exact Q.
          - apply in_app_or in Q as [Q|[]]. destruct (m =? 0); [destruct Q|]; destruct Q as [Q|[]]. apply pair_eq in Q as [_ Q]. discriminate Q. }
        intros _ F. rewrite Ec in F. pose proof (Forall_inv F) as F1.
        destruct Hsane as [Hi _]. assert (Hlb : ns_lbads page < 32).
        { apply (Hi 0%nat s (mem w1) (nsid_of (rq_lun q)) p page Hp64 Vs F1 ltac:(lia)). intros i v Hv. rewrite <- Em. change m2 with (mem w2). apply Bp. exact Hv. }
        replace (32 <=? ns_lbads page) with false by lia. apply andb_false_r.
      - destruct (Begin_mode10_refuses (Translation_init wrs) (rq_cdb q) (rq_data q) (rq_lun q) w bs (idle_init wrs) Hc Ho) as (t2 & r2 & w3 & E2 & _ & (R & _) & _).
        { left. specialize (H10 Ho). lia. }
        rewrite E in E2. apply ret_eq in E2 as [E2 _]. apply pair_eq in E2 as [<- _]. exists (repeat x00 (N.to_nat 4096)).
        split; [rewrite repeat_length; lia|]. split; [intros p Hin; destruct (R (proj1 (Dr _ _ Hin)))|intros A; destruct (R A)]. }
    destruct Pg as (page & Lp & Hpg & Hu).
    destruct (Complete t1 cpls b (rq_sense q) w2) as [[t2 r2] w3|s] eqn:EC; [do 3 eexists; reflexivity|exfalso].
    destruct (proj1 (C88_undefined_iff (Translation_init wrs) w (rq_cdb q) bs (rq_data q) (rq_lun q) t1 r w1 (idle_init wrs) Hc E w2 cpls b (rq_sense q) page Hc2 Hb2 Hs2 Hm2 Lp (fun _ => Hpg)))
      as (A & _ & F & U); [exists s; exact EC|]. rewrite (Hu A F) in U. discriminate U. }
  destruct Def as (t2 & r2 & w3 & E3).
  pose proof (prog_maps _ _ _ (p_Complete _ _ _ _) _ _ _ E3) as (D3 & _).
  unfold bind at 1. fold run m2 cpls w2 b. rewrite E3.
  assert (D : forall x, mem w x <> None -> mem w3 x <> None).
  { intros x Hx. apply D3. unfold w2. cbn [mem set_mem]. apply R1, D1. exact Hx. }
  destruct (cr_status r2); do 4 eexists; (split; [reflexivity|exact D]).
Qed.

Lemma answered_mode : forall drv wrs kz wild c w bs,
  queued w kz c bs -> pages_apart w {| ptr := kz; len := sc_bufflen c mod 65536 |} -> harmless drv c -> sane_device drv ->
  (no_answer bs -> (6 <= length bs)%nat -> sc_bufflen c mod 65536 = 0 \/ kz <> 0 -> sc_bufflen c mod 65536 < byte_at bs 4) -> (byte_at bs 0 = 0x5a -> (length bs < 12)%nat) ->
  exists r w', scsi_queuecommand drv wrs kz wild c w = Ret r w'.
Proof.
  intros drv wrs kz wild c w bs (Hc & Hcl & Hcs & Hse & Hsg & Hkz & Hap & Hz) Hkb Hd Hsane Ho H10.
  rewrite mock_eq. cbv zeta. set (q := mock_request kz wild c). change (len (rq_data q)) with (sc_bufflen c mod 65536). change (rq_data_in q) with (sc_from_device c).
  set (n := sc_bufflen c mod 65536) in *.
  destruct (N.ltb_spec 0 n) as [Hn|Hn]; cbn [andb].
  2:{ (* no data *) assert (n = 0) by lia. rewrite andb_false_r. unfold bind at 1. unfold ret at 1.
      destruct (engine_returns_mode drv wrs q w bs c Hd Hsane) as (resp & t & subs & w3 & E & _); try assumption; try reflexivity.
      - unfold q, mock_request. cbn [rq_cdb len]. rewrite N.mod_small by lia. reflexivity.
      - unfold q, mock_request. cbn [rq_cdb]. rewrite N.mod_small by lia. split; [cbn [len]; lia|exact Hc].
      - intros Na L6. change (len (rq_data q)) with n. apply Ho; auto.
      - intros x Hx. change (len (rq_data q)) with n in Hx. lia.
      - unfold q, mock_request. cbn [rq_cdb]. rewrite N.mod_small by lia. exact Hap.
      - change (len (rq_data q)) with n. intros; lia.
      - unfold bind. rewrite E. do 2 eexists. reflexivity. }
  destruct (N.eqb_spec kz 0) as [K|K]; [do 2 eexists; reflexivity|]. destruct Hkz as [Hkz|Hun]; [contradiction|].
  set (w1 := set_mem (log w (EvAlloc 1 n kz)) (map_pages (mem w) kz n (fun _ => x00))).
  assert (D1 : forall x, mem w x <> None -> mem w1 x = mem w x).
  { intros x Hx. unfold w1. cbn [mem set_mem]. unfold map_pages. destruct ((kz <=? x) && (x <? kz + n)) eqn:Z; [|reflexivity]. exfalso. apply Hx, Hun. lia. }
  assert (B1 : forall x, kz <= x < kz + n -> mem w1 x <> None).
  { intros x Hx. unfold w1. cbn [mem set_mem]. unfold map_pages. replace ((kz <=? x) && (x <? kz + n)) with true by lia. discriminate. }
  (* the copy for data-out *)
  assert (G : exists z w2, (if negb (sc_from_device c) then sg_copy_to_buffer (sc_sgl c) kz n else ret 0) w1 = Ret z w2 /\
     (forall x, mem w1 x <> None -> mem w2 x <> None) /\ (forall x, ~ (kz <= x < kz + n) -> mem w2 x = mem w1 x) /\ ans w2 = ans w1).
  { destruct (sc_from_device c); cbn [negb]; [exists 0, w1; split; [reflexivity|auto]|].
    destruct (gather_ok (sc_sgl c) (N.to_nat n) w1) as (bs1 & E1 & L1). { intros x Hx. rewrite D1; apply Hsg; exact Hx. }
    unfold sg_copy_to_buffer, bind. rewrite E1, store_ok by (intros x Hx; apply B1; lia).
    do 2 eexists. split; [reflexivity|]. split; [intros x; cbn [mem set_mem]; apply store_bytes_some|]. split; [|reflexivity].
    intros x Hx. cbn [mem set_mem]. unfold store_bytes. destruct ((kz <=? x) && (x <? kz + N.of_nat (length bs1))) eqn:Z; [lia|reflexivity]. }
  destruct G as (z & w2 & E2 & G1 & G2 & G3). unfold bind at 1. rewrite E2.
  assert (Ow : forall x, mem w x <> None -> mem w2 x = mem w x).
  { intros x Hx. rewrite G2; [apply D1; exact Hx|]. intros Z. apply Hx, Hun. exact Z. }
  destruct (engine_returns_mode drv wrs q w2 bs c Hd Hsane) as (resp & t & subs & w3 & E & D3); try assumption; try reflexivity.
  - unfold q, mock_request. cbn [rq_cdb len]. rewrite N.mod_small by lia. reflexivity.
  - unfold q, mock_request. cbn [rq_cdb]. rewrite N.mod_small by lia. split; [cbn [len]; lia|]. intros i b Hi. rewrite Ow; [apply Hc; exact Hi|]. cbn [ptr]. rewrite (Hc _ _ Hi). discriminate.
  - intros Na L6. change (len (rq_data q)) with n. apply Ho; auto.
  - unfold q, mock_request. cbn [rq_data]. cbv zeta. fold n. replace (0 <? n) with true by lia. intros x Hx. cbn [ptr len] in Hx. apply G1, B1. exact Hx.
  - intros x Hx. rewrite Ow; apply Hse; exact Hx.
  - intros k ps. rewrite G3. apply Hz.
  - unfold q, mock_request. cbn [rq_cdb]. rewrite N.mod_small by lia. intros k ps m. rewrite G3. apply Hap.
  - intros _. unfold q, mock_request. cbn [rq_data]. cbv zeta. fold n. replace (0 <? n) with true by lia. intros k ps m. rewrite G3. apply Hkb.
  - unfold bind at 1. rewrite E.
    destruct (C49_response_fits _ _ _ _ _ _ _ _ E) as (_ & _ & _ & _ & L & _). change (len (rq_data q)) with n in L.
    assert (B3 : forall x, kz <= x < kz + n -> mem w3 x <> None) by (intros x Hx; apply D3, G1, B1; exact Hx).
    rewrite andb_true_r. destruct (sc_from_device c).
    + unfold bind at 1. unfold bind at 1. unfold sg_copy_from_buffer. unfold bind at 1.
      destruct (load_mapped w3 kz (N.to_nat (N.min (er_alloc_len resp) (sg_total (sc_sgl c))))) as (img & El & _ & _).
      { intros x Hx. apply B3. lia. }
      rewrite El. destruct (scatter_ok (sc_sgl c) img w3) as (k & w4 & E4).
      { intros x Hx. apply D3. rewrite Ow; apply Hsg; exact Hx. }
      rewrite E4. unfold bind, ret, kfree. do 2 eexists. reflexivity.
    + unfold bind, ret, kfree. do 2 eexists. reflexivity.
Qed.

(** MODE SENSE(6) without block descriptor for the Control or Power Condition page,
    which the translator accepts and the engine does not refuse for want of room: *)
Definition unanswerable (bs : list byte) (kz : N) (c : scsi_cmnd) : Prop :=
  let n := sc_bufflen c mod 65536 in
  no_answer bs /\ (6 <= length bs)%nat /\ byte_at bs 4 <= n /\ (n = 0 \/ kz <> 0).

Lemma engine_no_answer drv wrs q w bs : span_holds w (rq_cdb q) bs -> no_answer bs -> (6 <= length bs)%nat -> byte_at bs 4 <= len (rq_data q) ->
  exists s, engine drv wrs q w = UB s.
Proof.
  intros Hc1 (Ho & Hdbd & Hpg) Hl Hn.
  assert (Hm6 : mode_ok (ms_page bs) (ms_pc bs) = true) by (unfold mode_ok, known_page, needs_cache; cbn [In] in Hpg; lia).
  destruct (Properties5.C34_mode_sense6_commands (Translation_init wrs) (rq_cdb q) (rq_data q) (rq_lun q) w bs (idle_init wrs) Hc1 Hl Ho Hm6) as (t1 & w2 & E1 & C).
  rewrite Hdbd in C. destruct C as (-> & _).
  destruct (Properties5.C35_no_command_refuted _ _ _ _ _ _ _ _ _ (idle_init wrs) Hc1 Hl Ho Hdbd Hpg E1) as (_ & X & U).
  assert (X0 : GetNvmeWrappers t1 = []) by (unfold exposes in X; destruct (GetNvmeWrappers t1); [reflexivity|discriminate X]).
  destruct (U w (response_span q (byte_at bs 4)) (rq_sense q) Hc1) as (e & Ue). exists e.
  unfold engine, ScsiToNvme. unfold response_span in Ue.
  replace {| ptr := ptr (rq_cdb q); len := len (rq_cdb q) |} with (rq_cdb q) by (destruct (rq_cdb q); reflexivity).
  replace {| ptr := ptr (rq_data q); len := len (rq_data q) |} with (rq_data q) by (destruct (rq_data q); reflexivity).
  replace {| ptr := ptr (rq_sense q); len := len (rq_sense q) |} with (rq_sense q) by (destruct (rq_sense q); reflexivity).
  unfold bind at 1. rewrite E1. cbn [br_status br_alloc_len begin_ok].
  replace (len (rq_data q) <? byte_at bs 4) with false by lia. unfold bind at 1. rewrite X0. cbn [submit_loop]. unfold ret at 1.
  unfold bind. rewrite Ue. reflexivity.
Qed.

(** Exactly the answered commands: every queued command is answered - the adapter
    comes to its end, without undefined behaviour, and calls the mid-layer back
    once - unless it is [unanswerable].  Outside: MODE SENSE(10) with a CDB of 12
    bytes or more (the standard's has 10), see C88. *)
Theorem C111_answered_exactly : forall drv wrs kz wild c w bs,
  queued w kz c bs -> pages_apart w {| ptr := kz; len := sc_bufflen c mod 65536 |} -> harmless drv c -> sane_device drv ->
  (byte_at bs 0 = 0x5a -> (length bs < 12)%nat) ->
  ((exists r w', scsi_queuecommand drv wrs kz wild c w = Ret r w') <-> ~ unanswerable bs kz c).
Proof.
  intros drv wrs kz wild c w bs Q Hkb Hd Hsane H10. split.
  2:{ intros U. apply (answered_mode drv wrs kz wild c w bs); try assumption. intros Na L6 K.
      destruct (N.lt_ge_cases (sc_bufflen c mod 65536) (byte_at bs 4)) as [X|X]; [exact X|]. exfalso. apply U. unfold unanswerable. auto. }
  intros (r & w' & E) (Na & L6 & L & K). destruct Q as (Hc & Hcl & Hcs & Hse & Hsg & Hkz & Hap & Hz).
  rewrite mock_eq in E. cbv zeta in E. set (q := mock_request kz wild c) in *. change (len (rq_data q)) with (sc_bufflen c mod 65536) in E.
  change (rq_data_in q) with (sc_from_device c) in E. set (n := sc_bufflen c mod 65536) in *.
  assert (Hu : forall w2, (forall x, mem w x <> None -> mem w2 x = mem w x) -> exists s, engine drv wrs q w2 = UB s).
  { intros w2 Ow. apply (engine_no_answer drv wrs q w2 bs); try assumption.
    unfold q, mock_request. cbn [rq_cdb]. rewrite N.mod_small by lia. split; [cbn [len]; lia|]. intros i b Hi. rewrite Ow; [apply Hc; exact Hi|].
    cbn [ptr]. rewrite (Hc _ _ Hi). discriminate. }
  destruct (N.ltb_spec 0 n) as [Hn|Hn]; cbn [andb] in E.
  2:{ rewrite andb_false_r in E. unfold bind at 1 in E. unfold ret at 1 in E. destruct (Hu w ltac:(auto)) as (s & U). unfold bind at 1 in E. rewrite U in E. discriminate E. }
  destruct K as [K|K]; [lia|]. replace (kz =? 0) with false in E by lia. destruct Hkz as [Hkz|Hun]; [contradiction|].
  apply bind_ret_inv in E as (z & w2 & E1 & E). 
  destruct (Hu w2) as (s & U); [|apply bind_ret_inv in E as (z2 & w3 & E2 & _); rewrite U in E2; discriminate E2].
  set (w1 := set_mem (log w (EvAlloc 1 n kz)) (map_pages (mem w) kz n (fun _ => x00))) in *.
  assert (D1 : forall x, mem w x <> None -> mem w1 x = mem w x).
  { intros x Hx. unfold w1. cbn [mem set_mem]. unfold map_pages. destruct ((kz <=? x) && (x <? kz + n)) eqn:Z; [|reflexivity]. exfalso. apply Hx, Hun. lia. }
  assert (B1 : forall x, kz <= x < kz + n -> mem w1 x <> None).
  { intros x Hx. unfold w1. cbn [mem set_mem]. unfold map_pages. replace ((kz <=? x) && (x <? kz + n)) with true by lia. discriminate. }
  intros x Hx. destruct (sc_from_device c); cbn [negb] in E1; [apply ret_eq in E1 as [_ <-]; apply D1; exact Hx|].
  destruct (gather_ok (sc_sgl c) (N.to_nat n) w1) as (bs1 & G1 & L1). { intros y Hy. rewrite D1; apply Hsg; exact Hy. }
  unfold sg_copy_to_buffer, bind in E1. rewrite G1, store_ok in E1 by (intros y Hy; apply B1; lia). apply ret_eq in E1 as [_ <-].
  cbn [mem set_mem]. unfold store_bytes. destruct ((kz <=? x) && (x <? kz + N.of_nat (length bs1))) eqn:Z; [|apply D1; exact Hx].
  exfalso. apply Hx, Hun. unfold n in *. lia.
Qed.
Print Assumptions C111_answered_exactly.

(** ** The premises are met *)
(** A device with Identify data and a cache (C106) qualifies, and so does one that
    refuses to write below [lo]. *)
Lemma page_eq m p (d page : list byte) : length d = length page -> bytes_in m p d -> bytes_in m p page -> d = page.
Proof.
  intros L H1 H2. apply nth_error_eq. intros i. destruct (nth_error d i) as [b|] eqn:E.
  - destruct (nth_error page i) as [b'|] eqn:E'. { f_equal. pose proof (H1 _ _ E) as Q. rewrite (H2 _ _ E') in Q. apply Some_eq in Q. symmetry. exact Q. }
    exfalso. apply nth_error_None in E'. assert (i < length d)%nat by (apply nth_error_Some; rewrite E; discriminate). lia.
  - symmetry. apply nth_error_None. apply nth_error_None in E. lia.
Qed.
Lemma cached_sane drv data wce id0 : cached_device drv data wce id0 -> (forall nsid, ns_lbads (data 0 nsid) < 32) -> sane_device drv.
Proof.
  intros (H1 & H2 & _ & H4) H. split.
  - intros k s m nsid p page Hp V _ L B. assert (Sb : sub_buffer s = p) by (change (snd (fst (sub_view s)) = p); rewrite V; reflexivity).
    destruct (H2 s 0 nsid p Hp V k m) as (_ & D & _). rewrite Sb in D. specialize (H1 0 nsid).
    rewrite <- (page_eq _ p (data 0 nsid) page ltac:(lia) D B). apply H.
  - intros k s m nsid sel Hn Hs Ha W. exact (proj1 (H4 s nsid sel k m Ha W Hn Hs)).
Qed.
Definition host_of (s : submission) : N := le (slice 24 8 (le_encode 64 (sub_cmd s))).
Definition guarded (lo : N) (drv : driver) : driver := fun k s m => if sub_admin s && (lo <=? host_of s) then drv k s m else (m, N.shiftl 6 113).
Lemma guarded_sane lo drv : sane_device drv -> sane_device (guarded lo drv).
Proof.
  intros [H1 H2]. unfold guarded. split.
  - intros k s m nsid p page Hp V. destruct (sub_admin s && (lo <=? host_of s)); [apply (H1 k s m nsid p page Hp V)|]. cbn [snd]. intros [_ Z]. vm_compute in Z. discriminate Z.
  - intros k s m nsid sel Hn Hs Ha W. destruct (sub_admin s && (lo <=? host_of s)); [|reflexivity]. apply (H2 k s m nsid sel); assumption.
Qed.
Definition ex_dev42 : driver := guarded 0x100000 ex_dev37.
Lemma ex_dev42_sane : sane_device ex_dev42.
Proof. apply guarded_sane. apply (cached_sane _ (fun _ _ => ex_ns1) (fun _ _ => true) false); [apply ex_cached; vm_compute; reflexivity|intros _; vm_compute; reflexivity]. Qed.
Lemma ex_dev42_harmless c : sc_cmnd c + sc_cmd_len c <= 0x100000 -> harmless ex_dev42 c.
Proof.
  intros H k s m x. unfold ex_dev42, guarded, ex_dev37, nvme_device, host_of. cbv zeta. set (host := le (slice 24 8 (le_encode 64 (sub_cmd s)))).
  destruct (sub_admin s); cbn [andb]; [|auto]. destruct (N.leb_spec 0x100000 host); [|auto].
  destruct (_ =? 6); cbn [fst]; [|auto]. destruct ((host <=? x) && (x <? host + 4096)) eqn:Z; split; auto; [discriminate|intros; lia].
Qed.
(** Control page with block descriptor; Caching page with; all pages without
    descriptor; MODE SENSE(10), refused *)
Definition ex_run42 (bs : list byte) :=
  match scsi_queuecommand ex_dev42 ex_wrs 0x90000 0xdead (ex_scsi bs true 96) (ex_world41 false bs) with
  | Ret r _ => Some (mr_result r, length (mr_subs r)) | UB _ => None end.
Example C111_mode_premises_met :
  let bs := B [0x1a; 0; 0x0a; 0; 96; 0] in
  queued (ex_world41 false bs) 0x90000 (ex_scsi bs true 96) bs /\
  pages_apart (ex_world41 false bs) {| ptr := 0x90000; len := sc_bufflen (ex_scsi bs true 96) mod 65536 |} /\
  harmless ex_dev42 (ex_scsi bs true 96) /\ sane_device ex_dev42 /\ ~ no_answer bs /\
  ex_run42 bs = Some (GOOD, 1%nat) /\ ex_run42 (B [0x1a; 0; 0x08; 0; 96; 0]) = Some (CHECK_CONDITION, 2%nat) /\
  ex_run42 (B [0x1a; 8; 0x3f; 0; 96; 0]) = Some (CHECK_CONDITION, 1%nat) /\
  ex_run42 (B [0x5a; 8; 0x3f; 0; 0; 0; 0; 0; 96; 0]) = Some (CHECK_CONDITION, 0%nat).
Proof.
  cbv zeta. split; [apply ex_queued; cbn; lia|]. split.
  { intros k ps n. cbv zeta. cbn [ans ex_world41 ex_world12]. destruct (n =? 0); [left; reflexivity|]. right; right.
    change (sc_bufflen _ mod 65536) with 96. cbn [ptr len]. unfold u64. pose proof (N.mod_lt (N.of_nat k) 4). change (2 ^ 64) with 18446744073709551616. rewrite N.mod_small; lia. }
  split; [apply ex_dev42_harmless; vm_compute; discriminate|]. split; [exact ex_dev42_sane|].
  split; [intros (_ & Z & _); vm_compute in Z; discriminate Z|].
  split; [vm_compute; reflexivity|]. split; [vm_compute; reflexivity|]. split; vm_compute; reflexivity.
Qed.
