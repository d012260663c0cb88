(** C106, C107: MODE SENSE(6) end to end, and the write cache. *)
From Coq Require Import Arith NArith ZArith String List Lia Bool Init.Byte Permutation.
From Coq Require Import ZifyBool ZifyNat ZifyN.
From Verif Require Import Bytes Layout World ScsiDefs NvmeDefs Common ReadCmds WriteCmds SmallCmds
  UnmapCmd StatusCmd ModeSenseCmd InquiryCmd TranslationCls Spec Facts Logic BeginFacts CompleteFacts
  WireFacts StatusFacts RwSpec RwFacts InquirySpec AdminFacts InquiryFacts SmallSpec SmallFacts ModeSpec ModeFacts
  EngineE2e MockModule KernelDriver EngineSpec MockSpec EngineFacts MockFacts Witness DiskSpec AdvertSpec CacheSpec
  DiskFacts MixedSpec DurableSpec DurableFacts Properties3 Properties4 Properties5 Properties9 Properties11 Properties12 Properties22.
Import ListNotations.
Local Open Scope string_scope.
Local Open Scope list_scope.
Local Open Scope N_scope.

(** the Identify of MODE SENSE(6) announces its page's 4096 bytes *)
Lemma mode6_first t cdb buffer lun w bs t' r w' : idle t -> span_holds w cdb bs -> mode6_cdb bs ->
  ms_dbd bs = false -> mode_ok (ms_page bs) (ms_pc bs) = true -> Begin t cdb buffer lun w = Ret (t', r) w' -> accepted t' ->
  exists p, view (e0 (nvme_wrappers t')) = admin 4096 (identify_sqe 0 (nsid_of lun) p) /\ get GenericCmd "prp1" (cmd (e0 (nvme_wrappers t'))) = p.
Proof.
  intros Hi Hc (Hl & Ho) Hdbd Hok Eb Ha.
  assert (Hne : bs <> []) by (intros ->; cbn in Hl; lia).
  pose proof Hi as (_ & Hcount & Hh). apply held_nil in Hh as (Z0 & Z1 & Z2).
  set (a := {| ca_page_code := ms_page bs; ca_pc := ms_pc bs; ca_dbd := ms_dbd bs; ca_llbaa := false |}).
  destruct (mode_forward a (nvme_wrappers t) (e0 (allocations t)) lun w (empty_data _ Z0) (ms_pc_lt bs))
    as (st & wrs & al & n & w1 & E & K & Hn & C).
  assert (Es : Begin_switch 0x1a (subspan cdb 1) buffer (nsid_of lun) (started t cdb) 0 w =
    Ret (set_status (set_count (set_al0 (set_wrappers (started t cdb) wrs) al) n) st, byte_at bs 4) w1).
  { change (Begin_switch 0x1a) with (fun c (_ : span) => Begin_ModeSense6 c). cbv beta.
    unfold Begin_ModeSense6, ModeSense6ToNvme. unfold bind at 2. unfold bind at 1.
    rewrite (cdb_ReadValue ModeSense6Command cdb w bs Hc) by (cbn; lia).
    change (sizeof ModeSense6Command) with 5%nat. cbv zeta. rewrite (attrs6_eq bs Hl), (ms_alloc_eq bs Hl). fold a.
    unfold bind. change (nvme_cmd_count (started t cdb)) with (nvme_cmd_count t). rewrite Hcount.
    change (nvme_wrappers (started t cdb)) with (nvme_wrappers t).
    change (allocations (started t cdb)) with (allocations t). rewrite E. reflexivity. }
  cbn [ca_dbd ca_page_code ca_pc a] in C. rewrite Hdbd, Hok in C.
  set (t2 := set_status (set_count (set_al0 (set_wrappers (started t cdb) wrs) al) n) st) in *.
  destruct C as [(p & m & Hp & Ht & -> & Hst & -> & C1 & C2 & V & G)|(-> & Hz & C)].
  - assert (X : Begin t cdb buffer lun w = Ret (t2, begin_ok (byte_at bs 4)) w1) by (eapply Begin_accepts; try eassumption; reflexivity).
    rewrite Eb in X. apply ret_eq in X as [X _]. apply pair_eq in X as [-> _]. exists p. split; [exact V|exact G].
  - exfalso. assert (Na : ~ accepted t2) by discriminate.
    destruct (Begin_refuses_trace t cdb buffer lun w bs 0x1a _ _ _ Hi Hc Hne Ho Es Na) as (t3 & w3 & X & [R _] & _).
    rewrite Eb in X. apply ret_eq in X as [X _]. apply pair_eq in X as [-> _]. exact (R Ha).
Qed.

(** Get Features submissions leave memory alone *)
Lemma quiet_run drv data wce id0 nsid : cached_device drv data wce id0 -> nsid < 2 ^ 32 ->
  forall ss k m, Forall (fun s => exists sel, sel < 8 /\ sub_wire s = admin_wire (get_features_sqe nsid sel)) ss ->
  fst (device_run drv k ss m) = m /\ length (snd (device_run drv k ss m)) = length ss /\ Forall cpl_ok (snd (device_run drv k ss m)).
Proof.
  intros (_ & _ & _ & Hf) Hn. induction ss as [|s ss IH]; intros k m H; [cbn; auto|].
  inversion H as [|? ? (sel & Hs & V) H']; subst. unfold sub_wire, admin_wire in V. apply pair_eq in V as [V1 V2].
  destruct (Hf s nsid sel k m V1 V2 Hn Hs) as (Q1 & Q2 & _). cbn [device_run].
  destruct (drv k s m) as [m1 c1]. cbn [fst snd] in Q1, Q2. subst m1. destruct (IH (S k) m H') as (A & B & C).
  destruct (device_run drv (S k) ss m) as [m2 cs]. cbn [fst snd length] in *. subst m2. split; [reflexivity|]. split; [rewrite B; reflexivity|]. constructor; assumption.
Qed.

Lemma sub_of_wire x : sub_wire (sub_of x) = wire_of (view x). Proof. reflexivity. Qed.
Lemma cache_cmds_features lun page pc : Forall (fun q => exists sel, sel < 8 /\ q = get_features_sqe (nsid_of lun) sel) (cache_cmds lun page pc).
Proof.
  unfold cache_cmds. destruct (needs_cache page); [|constructor]. destruct (sel_of pc) as [sel|] eqn:E; [|constructor].
  constructor; [|constructor]. exists sel. split; [|reflexivity]. unfold sel_of in E.
  destruct pc as [|[[?|?|]|[?|?|]|]]; try discriminate; injection E as <-; lia.
Qed.
Lemma nsid_of_lt lun : nsid_of lun < 2 ^ 32. Proof. unfold nsid_of. apply N.mod_lt. discriminate. Qed.

Lemma engine_mode drv data wce id0 wrs q w bs : let al := byte_at bs 4 in let nsid := nsid_of (rq_lun q) in let ns := data 0 nsid in
  cached_device drv data wce id0 -> span_holds w (rq_cdb q) bs -> mode6_cdb bs -> mode_ok (ms_page bs) (ms_pc bs) = true -> ms_dbd bs = false ->
  ns_lbads ns < 32 -> rq_data_in q = true -> al <= len (rq_data q) -> 0 < len (rq_data q) -> span_mapped w (rq_data q) -> good_pages w ->
  exists p s subs t2 w2 w3,
    sub_view s = (true, sqe_bytes (identify_sqe 0 nsid p), p, 4096) /\
    map sub_wire subs = map admin_wire (cache_cmds (rq_lun q) (ms_page bs) (ms_pc bs)) /\
    engine drv wrs q w = Ret ({| er_return_code := GOOD; er_alloc_len := al |}, t2, s :: subs) w3 /\
    wrote w2 w3 (ptr (rq_data q)) (fitting al (mode6_data (Some (short_descriptor ns)) (ms_page bs) id0)) /\
    (forall x, mem w x <> None -> mem w2 x = mem w x).
Proof.
  intros al nsid ns Hdev Hc Hq Hok Hdbd Hlb Hdi Hal Hpos Hm Hg.
  destruct (Begin_mode6 (Translation_init wrs) (rq_cdb q) (rq_data q) (rq_lun q) w bs (idle_init wrs) Hc Hq) as (t1 & w1 & E1 & C).
  rewrite Hok, Hdbd in C. assert (B : EngineSpec.begins wrs q w = Ret (t1, begin_ok al) w1) by exact E1.
  destruct C as [(p & evs & Hp & Hpr & Tr & P & X & _)|(Ho & _)]; [|exfalso; exact (begins_has_pages _ _ _ _ _ _ B Hg Ho)].
  pose proof P as (_ & Ha & _ & _ & G).
  destruct (begins_page _ _ _ _ _ _ _ p B Ha Hg Tr) as (_ & Hp64 & Hun).
  { destruct Hpr as (m & ->). left. reflexivity. }
  pose proof (begins_keeps _ _ _ _ _ _ B Hg) as Keep.
  destruct (mode6_first _ _ _ _ _ _ _ _ _ (idle_init wrs) Hc Hq Hdbd Hok E1 Ha) as (p' & V & Gp).
  cbn [ms_cmds app map] in X.
  assert (Ex : exists x ys, GetNvmeWrappers t1 = x :: ys /\ e0 (nvme_wrappers t1) = x /\ wire_of (view x) = admin_wire (identify_sqe 0 nsid p) /\
     map (fun y => wire_of (view y)) ys = map admin_wire (cache_cmds (rq_lun q) (ms_page bs) (ms_pc bs))).
  { unfold exposes in X. unfold GetNvmeWrappers in *. destruct (N.to_nat (nvme_cmd_count t1)) as [|k]; [discriminate X|]. cbn [firstn map] in X.
    exists (e0 (nvme_wrappers t1)), (firstn k [e1 (nvme_wrappers t1); e2 (nvme_wrappers t1)]). split; [reflexivity|]. split; [reflexivity|].
    rewrite map_map in X. assert (Cons : forall (A : Type) (a b : A) l l', a :: l = b :: l' -> a = b /\ l = l') by (intros A a b l l' Z; injection Z; auto).
    apply Cons in X as [X1 X2]. split; [exact X1|exact X2]. }
  destruct Ex as (x & ys & Ex & E0 & Wx & Wy).
  assert (p' = p) as -> by (rewrite <- Gp; exact G).
  rewrite E0 in V. pose proof (ident_sub x 0 nsid p V Hp64) as Vs. set (s := sub_of x) in *.
  assert (Sb : sub_buffer s = p) by (change (snd (fst (sub_view s)) = p); rewrite Vs; reflexivity).
  assert (Wys : map sub_wire (map sub_of ys) = map admin_wire (cache_cmds (rq_lun q) (ms_page bs) (ms_pc bs))).
  { rewrite map_map, <- Wy. apply map_ext. intros y. apply sub_of_wire. }
  pose proof Hdev as (Hln & Hid & Hi0 & _).
  pose proof (Hln 0 nsid) as Ln. fold ns in Ln.
  set (d := drv 0%nat s (mem w1)). destruct (Hid s 0 nsid p Hp64 Vs 0%nat (mem w1)) as (Hk & Hd1 & Hd2). fold d ns in Hk, Hd1, Hd2. rewrite Sb, Ln in *.
  pose proof (Hi0 s 0 nsid p 0%nat (mem w1) Hp64 Vs) as Hbit. fold d in Hbit.
  destruct (quiet_run drv data wce id0 nsid Hdev (nsid_of_lt _) (map sub_of ys) 1%nat (fst d)) as (R1 & R2 & R3).
  { assert (F : Forall (fun v => exists sel, sel < 8 /\ v = admin_wire (get_features_sqe nsid sel)) (map sub_wire (map sub_of ys))).
    { rewrite Wys. apply Forall_map. eapply Forall_impl; [|apply cache_cmds_features]. intros v (sel & H1 & ->). exists sel. auto. }
    exact (proj1 (Forall_map sub_wire (fun v => exists sel, sel < 8 /\ v = admin_wire (get_features_sqe nsid sel)) (map sub_of ys)) F). }
  set (w2 := set_mem w1 (fst d)).
  assert (K2 : forall y, mem w y <> None -> mem w2 y = mem w y).
  { intros y Hy. unfold w2. cbn [mem set_mem]. rewrite Hd2; [apply Keep; exact Hy|]. intros Z. apply Hy, Hun. exact Z. }
  assert (Hr : response_span q al = {| ptr := ptr (rq_data q); len := al |}) by (unfold response_span; rewrite Hdi; reflexivity).
  assert (Run : device_run drv 0%nat (s :: map sub_of ys) (mem w1) = (fst d, snd d mod 2 ^ 128 :: snd (device_run drv 1%nat (map sub_of ys) (fst d)))).
  { cbn [device_run]. fold d. destruct d as [m1 c1]. cbn [fst snd] in *. destruct (device_run drv 1%nat (map sub_of ys) m1) as [m2 cs]. cbn [fst snd] in *. subst m2. reflexivity. }
  assert (Lys : length ys = length (cache_cmds (rq_lun q) (ms_page bs) (ms_pc bs))).
  { apply (f_equal (@length _)) in Wy. rewrite !map_length in Wy. exact Wy. }
  destruct (mode_complete6 t1 (rq_cdb q) (Some p) _ bs ns (snd d mod 2 ^ 128) (snd (device_run drv 1%nat (map sub_of ys) (fst d))) (response_span q al) (rq_sense q) w2 P)
    as (t2 & w3 & E3 & _ & W).
  - destruct Hc as [Hc1 Hc2]. split; [exact Hc1|]. intros i b Hi. rewrite K2; [apply Hc2; exact Hi|]. rewrite (Hc2 _ _ Hi). discriminate.
  - exact Hq.
  - unfold mode_ok in Hok. apply andb_prop in Hok. apply Hok.
  - cbn [length ms_cmds app]. rewrite R2, map_length, Lys. reflexivity.
  - constructor; assumption.
  - rewrite Hr. intros y Hy. cbn [ptr len] in Hy. unfold mapped. rewrite K2; apply Hm; lia.
  - intros _. exists p. split; [reflexivity|]. split; [intros i b Hi; unfold w2; cbn [mem set_mem]; apply Hd1; exact Hi|]. split; [exact Ln|]. split; [exact Hlb|].
    rewrite Hr. unfold SmallSpec.apart. cbn [ptr len]. destruct (N.le_gt_cases (p + 4096) (ptr (rq_data q))) as [Z|Z]; [left; exact Z|].
    destruct (N.le_gt_cases (ptr (rq_data q) + al) p) as [Z2|Z2]; [right; exact Z2|].
    exfalso.
    apply (Hm (N.max p (ptr (rq_data q)))); [lia|]. apply Hun. lia.
  - rewrite Hdbd, Hr, Hbit in W. cbn [ptr len] in W.
    exists p, s, (map sub_of ys), t2, w2, w3. split; [exact Vs|]. split; [exact Wys|]. split; [|split; [exact W|exact K2]].
    erewrite (engine_ok drv wrs q w t1 al w1 t2 GOOD w3); [rewrite Ex; reflexivity|exact B|exact Hal|].
    rewrite Ex. cbn [map]. fold s. rewrite Run. cbn [fst snd]. exact E3.
Qed.

(** without block descriptor: only Get Features *)
Lemma engine_mode_dbd drv data wce id0 wrs q w bs : let al := byte_at bs 4 in let nsid := nsid_of (rq_lun q) in
  cached_device drv data wce id0 -> span_holds w (rq_cdb q) bs -> mode6_cdb bs -> ms_dbd bs = true -> In (ms_page bs) [0x08; 0x3f] ->
  forall sel, sel_of (ms_pc bs) = Some sel ->
  rq_data_in q = true -> al <= len (rq_data q) -> span_mapped w (rq_data q) ->
  exists s t2 w3,
    sub_wire s = admin_wire (get_features_sqe nsid sel) /\ sub_buffer s = 0 /\
    engine drv wrs q w = Ret ({| er_return_code := GOOD; er_alloc_len := al |}, t2, [s]) w3 /\
    wrote w w3 (ptr (rq_data q)) (fitting al (mode6_data None (ms_page bs) (wce nsid sel))).
Proof.
  intros al nsid Hdev Hc Hq Hdbd Hpg sel Hsel Hdi Hal Hm.
  assert (Hn : needs_cache (ms_page bs) = true) by (unfold needs_cache; cbn [In] in Hpg; lia).
  assert (Hkn : known_page (ms_page bs) = true) by (unfold known_page; cbn [In] in Hpg; lia).
  assert (Hok : mode_ok (ms_page bs) (ms_pc bs) = true) by (unfold mode_ok; rewrite Hkn, Hn, Hsel; reflexivity).
  destruct (Begin_mode6 (Translation_init wrs) (rq_cdb q) (rq_data q) (rq_lun q) w bs (idle_init wrs) Hc Hq) as (t1 & w1 & E1 & C).
  rewrite Hok, Hdbd in C. assert (B : EngineSpec.begins wrs q w = Ret (t1, begin_ok al) w1) by exact E1.
  destruct C as (-> & _ & P & X). cbn [ms_cmds app] in P, X. unfold cache_cmds in P, X. rewrite Hn, Hsel in P, X. cbn [map length] in P, X.
  assert (Ex : exists x, GetNvmeWrappers t1 = [x] /\ wire_of (view x) = admin_wire (get_features_sqe nsid sel)).
  { unfold exposes in X. destruct (GetNvmeWrappers t1) as [|x [|y l]]; cbn [map] in X; try discriminate X. exists x. split; [reflexivity|].
    assert (Cons : forall (A : Type) (a b : A) l l', a :: l = b :: l' -> a = b /\ l = l') by (intros A a b l l' Z; injection Z; auto).
    apply Cons in X as [X1 _]. exact X1. }
  destruct Ex as (x & Ex & Wx). set (s := sub_of x).
  assert (Ws : sub_wire s = admin_wire (get_features_sqe nsid sel)) by (unfold s; rewrite sub_of_wire; exact Wx).
  pose proof Ws as Ws'. unfold sub_wire, admin_wire in Ws'. apply pair_eq in Ws' as [Wa Wb].
  assert (Ls : sel < 8) by (unfold sel_of in Hsel; destruct (ms_pc bs) as [|[[?|?|]|[?|?|]|]]; try discriminate Hsel; injection Hsel as <-; lia).
  pose proof Hdev as (_ & _ & _ & Hf). destruct (Hf s nsid sel 0%nat (mem w) Wa Wb (nsid_of_lt _) Ls) as (Q1 & Q2 & Q3).
  assert (Hr : response_span q al = {| ptr := ptr (rq_data q); len := al |}) by (unfold response_span; rewrite Hdi; reflexivity).
  destruct (mode_complete6 t1 (rq_cdb q) None _ bs [] (snd (drv 0%nat s (mem w)) mod 2 ^ 128) [] (response_span q al) (rq_sense q) w P)
    as (t2 & w3 & E3 & _ & W).
  - exact Hc.
  - exact Hq.
  - exact Hkn.
  - reflexivity.
  - constructor; [exact Q2|constructor].
  - rewrite Hr. intros y Hy. cbn [ptr len] in Hy. apply Hm. lia.
  - rewrite Hdbd. discriminate.
  - rewrite Hdbd, Hr, Q3 in W. cbn [ptr len] in W.
    exists s, t2, w3. split; [exact Ws|]. split.
    { pose proof (sub_of_view x) as S. apply (f_equal (fun z => snd (fst z))) in S. cbn [sub_view sub_expected fst snd] in S.
      change (sub_buffer s) with (sub_buffer (sub_of x)). rewrite S. change (x_bytes (view x)) with (snd (wire_of (view x))). rewrite Wx. cbn [snd admin_wire]. rewrite sqe_prp1. reflexivity. }
    split; [|exact W].
    erewrite (engine_ok drv wrs q w t1 al w t2 GOOD w3); [rewrite Ex; reflexivity|exact B|exact Hal|].
    rewrite Ex. cbn [map device_run]. fold s. destruct (drv 0%nat s (mem w)) as [m1 c1]. cbn [fst snd] in *. subst m1. rewrite set_mem_same. exact E3.
Qed.

(** ** C106 *)

(** MODE SENSE(6) with a block descriptor: Identify Namespace and, for the pages
    with WCE, Get Features are submitted; the initiator gets the mode data, cut
    at the allocation length to the pieces that fit and padded with zeros, and
    the residual is exact.  Missing: the WCE bit is that of Identify's
    completion, not the answer to Get Features. *)
Theorem C106_with_descriptor_partial : forall drv data wce id0 wrs kz wild c w bs,
  let al := byte_at bs 4 in let nsid := nsid_of (sc_lun c) in let ns := data 0 nsid in
  cached_device drv data wce id0 -> asks_mode w kz c bs -> mode_ok (ms_page bs) (ms_pc bs) = true -> ms_dbd bs = false -> ns_lbads ns < 32 ->
  exists p s subs w' img,
    scsi_queuecommand drv wrs kz wild c w = Ret {| mr_result := GOOD; mr_resid := Some (sc_bufflen c - al); mr_subs := s :: subs |} w' /\
    sub_view s = (true, sqe_bytes (identify_sqe 0 nsid p), p, 4096) /\
    map sub_wire subs = map admin_wire (cache_cmds (sc_lun c) (ms_page bs) (ms_pc bs)) /\
    img = fitting al (mode6_data (Some (short_descriptor ns)) (ms_page bs) id0) /\
    sg_holds w' (sc_sgl c) (img ++ repeat x00 (N.to_nat al - length img)) /\
    (forall x, mem w x <> None -> ~ In x (firstn (N.to_nat al) (sg_addrs (sc_sgl c))) -> mem w' x = mem w x).
Proof.
  intros drv data wce id0 wrs kz wild c w bs al nsid ns Hdev (Hc & Hcl & Hcs & Hq & Hdi & Hbl & Hal & Hsg & Hst & Hkz & Hun & Hg) Hok Hdbd Hlb.
  set (q := mock_request kz wild c). set (w1 := with_buffer w kz (sc_bufflen c)).
  destruct (adapter_request kz wild c w bs Hc Hcl Hcs Hbl Hun) as (Hc1 & Hqd & Hm). fold q in Hc1, Hqd, Hm. fold w1 in Hc1, Hm.
  destruct (engine_mode drv data wce id0 wrs q w1 bs Hdev Hc1 Hq Hok Hdbd Hlb Hdi) as (p & s & subs & t2 & w2 & w3 & V & Wi & E & W & K2).
  - rewrite Hqd. exact Hal.
  - rewrite Hqd. apply Hbl.
  - exact Hm.
  - exact Hg.
  - rewrite Hqd in W. cbn [ptr] in W.
    set (img := fitting al (mode6_data (Some (short_descriptor ns)) (ms_page bs) id0)).
    destruct (adapter_wrote drv wrs kz wild c w al img t2 (s :: subs) w2 w3) as (w' & E' & S & F); try assumption.
    { apply fitting_le. }
    exists p, s, subs, w', img. auto 10.
Qed.
Print Assumptions C106_with_descriptor_partial.

(** ... without one: Get Features alone, and everything is right. *)
Theorem C106_without_descriptor : forall drv data wce id0 wrs kz wild c w bs sel,
  let al := byte_at bs 4 in let nsid := nsid_of (sc_lun c) in
  cached_device drv data wce id0 -> asks_mode w kz c bs -> ms_dbd bs = true -> In (ms_page bs) [0x08; 0x3f] -> sel_of (ms_pc bs) = Some sel ->
  exists s w' img,
    scsi_queuecommand drv wrs kz wild c w = Ret {| mr_result := GOOD; mr_resid := Some (sc_bufflen c - al); mr_subs := [s] |} w' /\
    sub_wire s = admin_wire (get_features_sqe nsid sel) /\ sub_buffer s = 0 /\
    img = fitting al (mode6_data None (ms_page bs) (wce nsid sel)) /\
    sg_holds w' (sc_sgl c) (img ++ repeat x00 (N.to_nat al - length img)) /\
    (forall x, mem w x <> None -> ~ In x (firstn (N.to_nat al) (sg_addrs (sc_sgl c))) -> mem w' x = mem w x).
Proof.
  intros drv data wce id0 wrs kz wild c w bs sel al nsid Hdev (Hc & Hcl & Hcs & Hq & Hdi & Hbl & Hal & Hsg & Hst & Hkz & Hun & Hg) Hdbd Hpg Hsel.
  set (q := mock_request kz wild c). set (w1 := with_buffer w kz (sc_bufflen c)).
  destruct (adapter_request kz wild c w bs Hc Hcl Hcs Hbl Hun) as (Hc1 & Hqd & Hm). fold q in Hc1, Hqd, Hm. fold w1 in Hc1, Hm.
  destruct (engine_mode_dbd drv data wce id0 wrs q w1 bs Hdev Hc1 Hq Hdbd Hpg sel Hsel Hdi) as (s & t2 & w3 & Wi & Sb & E & W).
  - rewrite Hqd. exact Hal.
  - exact Hm.
  - rewrite Hqd in W. cbn [ptr] in W.
    set (img := fitting al (mode6_data None (ms_page bs) (wce nsid sel))).
    destruct (adapter_wrote drv wrs kz wild c w al img t2 [s] w1 w3) as (w' & E' & S & F); try assumption.
    { intros; reflexivity. }
    { apply fitting_le. }
    exists s, w', img. auto 10.
Qed.
Print Assumptions C106_without_descriptor.

(** Refuted: for the Control (0Ah) and Power Condition (1Ah) pages without block
    descriptor no command is needed, and the engine then reads the first of zero
    completions: undefined behaviour in the kernel. *)
Theorem C106_no_command_refuted : forall drv wrs kz wild c w bs, asks_mode w kz c bs -> ms_dbd bs = true -> In (ms_page bs) [0x0a; 0x1a] ->
  exists s, scsi_queuecommand drv wrs kz wild c w = UB s.
Proof.
  intros drv wrs kz wild c w bs (Hc & Hcl & Hcs & Hq & Hdi & Hbl & Hal & Hsg & Hst & Hkz & Hun & Hg) Hdbd Hpg.
  set (q := mock_request kz wild c). set (w1 := with_buffer w kz (sc_bufflen c)).
  destruct (adapter_request kz wild c w bs Hc Hcl Hcs Hbl Hun) as (Hc1 & Hqd & Hm). fold q in Hc1, Hqd, Hm. fold w1 in Hc1, Hm.
  assert (Hm6 : mode_ok (ms_page bs) (ms_pc bs) = true) by (unfold mode_ok, known_page, needs_cache; cbn [In] in Hpg; lia).
  destruct (C34_mode_sense6_commands (Translation_init wrs) (rq_cdb q) (rq_data q) (rq_lun q) w1 bs (idle_init wrs) Hc1 (proj1 Hq) (proj2 Hq) Hm6) as (t1 & w2 & E1 & C).
  rewrite Hdbd in C. destruct C as (-> & _).
  destruct (C35_no_command_refuted _ _ _ _ _ _ _ _ _ (idle_init wrs) Hc1 (proj1 Hq) (proj2 Hq) Hdbd Hpg E1) as (_ & X & U).
  assert (X0 : GetNvmeWrappers t1 = []) by (unfold exposes in X; destruct (GetNvmeWrappers t1); [reflexivity|discriminate X]).
  destruct (U w1 (response_span q (byte_at bs 4)) (rq_sense q) Hc1) as (e & Ue). exists e.
  assert (Ee : engine drv wrs q w1 = UB e).
  { unfold engine, ScsiToNvme. unfold response_span in Ue. change (rq_data_in q) with (sc_from_device c) in *. 
    change {| ptr := ptr (rq_cdb q); len := len (rq_cdb q) |} with (rq_cdb q).
    unfold bind at 1. change {| ptr := ptr (rq_data q); len := len (rq_data q) |} with (rq_data q). rewrite E1. cbn [br_status br_alloc_len begin_ok].
    rewrite Hqd in *. cbn [len ptr] in *. replace (sc_bufflen c <? byte_at bs 4) with false by lia. unfold bind at 1. rewrite X0. cbn [submit_loop]. unfold ret at 1.
    unfold bind. rewrite Hdi in *. change {| ptr := ptr (rq_sense q); len := len (rq_sense q) |} with (rq_sense q). rewrite Ue. reflexivity. }
  rewrite mock_eq. cbv zeta. fold q. rewrite Hqd. cbn [len]. replace (0 <? sc_bufflen c) with true by lia. replace (kz =? 0) with false by lia.
  change (rq_data_in q) with (sc_from_device c). rewrite Hdi. cbn [andb negb]. unfold bind at 1. unfold ret at 1.
  change (set_mem (log w (EvAlloc 1 (sc_bufflen c) kz)) (map_pages (mem w) kz (sc_bufflen c) (fun _ : N => x00))) with w1.
  unfold bind at 1. rewrite Ee. reflexivity.
Qed.
Print Assumptions C106_no_command_refuted.

(** ** C107 *)
Lemma sg_holds_front w sgl a b : sg_holds w sgl (a ++ b) -> sg_holds w sgl a.
Proof.
  intros [L H]. rewrite app_length in L. split; [lia|]. intros i x y Hx Hy. apply (H i x y Hx). rewrite nth_error_app1; [exact Hy|]. apply nth_error_Some. rewrite Hy. discriminate.
Qed.
Lemma data_shows descr ns page b : In page [0x08; 0x3f] ->
  wce_is b (concat (mode6_data (if descr : bool then Some (short_descriptor ns) else None) page b)).
Proof. intros H. exists (caching_page b). cbn [In] in H. destruct H as [<-|[<-|[]]]; destruct descr, b; split; reflexivity. Qed.
Lemma data_fits descr ns page b : In page [0x08; 0x3f] ->
  N.of_nat (length (concat (mode6_data (if descr : bool then Some (short_descriptor ns) else None) page b))) <= 84.
Proof. intros H. cbn [In] in H. destruct H as [<-|[<-|[]]]; destruct descr, b; vm_compute; discriminate. Qed.

(** Without block descriptor (DBD = 1), for the current values, and if the
    device's completions reach the engine: the announced WCE is the device's. *)
Theorem C107_without_descriptor_partial : forall drv data wce id0 wrs kz wild c w bs,
  cached_device drv data wce id0 -> asks_mode w kz c bs -> ms_dbd bs = true -> In (ms_page bs) [0x08; 0x3f] -> ms_pc bs = 0 -> 84 <= byte_at bs 4 ->
  exists r w', scsi_queuecommand drv wrs kz wild c w = Ret r w' /\ mr_result r = GOOD /\ shows_wce w' c (wce (nsid_of (sc_lun c)) 0).
Proof.
  intros drv data wce id0 wrs kz wild c w bs Hdev Ha Hd Hp Hpc Hal. destruct (C106_without_descriptor drv data wce id0 wrs kz wild c w bs 0 Hdev Ha Hd Hp) as (s & w' & img & E & _ & _ & -> & S & _).
  { rewrite Hpc. reflexivity. }
  do 2 eexists. split; [exact E|]. split; [reflexivity|]. apply sg_holds_front in S. pose proof (data_fits false [] (ms_page bs) (wce (nsid_of (sc_lun c)) 0) Hp) as L. cbv iota in L.
  rewrite fitting_all in S by (etransitivity; [exact L|exact Hal]). eexists. split; [exact S|]. exact (data_shows false [] _ _ Hp).
Qed.
Print Assumptions C107_without_descriptor_partial.

(** Refuted with block descriptor (DBD = 0; what initiators send): WCE is the
    meaningless bit of Identify's completion, whatever the device has. *)
Theorem C107_with_descriptor_refuted : forall drv data wce id0 wrs kz wild c w bs,
  cached_device drv data wce id0 -> asks_mode w kz c bs -> ms_dbd bs = false -> In (ms_page bs) [0x08; 0x3f] -> ms_pc bs = 0 -> 84 <= byte_at bs 4 ->
  ns_lbads (data 0 (nsid_of (sc_lun c))) < 32 ->
  exists r w', scsi_queuecommand drv wrs kz wild c w = Ret r w' /\ mr_result r = GOOD /\ shows_wce w' c id0.
Proof.
  intros drv data wce id0 wrs kz wild c w bs Hdev Ha Hd Hp Hpc Hal Hlb.
  assert (Hok : mode_ok (ms_page bs) (ms_pc bs) = true) by (rewrite Hpc; unfold mode_ok, known_page, needs_cache; cbn [In sel_of] in *; lia).
  destruct (C106_with_descriptor_partial drv data wce id0 wrs kz wild c w bs Hdev Ha Hok Hd Hlb) as (p & s & subs & w' & img & E & _ & _ & -> & S & _).
  do 2 eexists. split; [exact E|]. split; [reflexivity|]. apply sg_holds_front in S. set (ns := data 0 (nsid_of (sc_lun c))) in *. pose proof (data_fits true ns (ms_page bs) id0 Hp) as L. cbv iota in L.
  rewrite fitting_all in S by (etransitivity; [exact L|exact Hal]). eexists. split; [exact S|]. exact (data_shows true ns _ _ Hp).
Qed.
Print Assumptions C107_with_descriptor_refuted.

(** Refuted through the complete kernel module: the driver never passes the
    completion on, so WCE = 0 is announced for every device, with or without
    block descriptor. *)
Lemma kernel_cached kn data wce id0 : takes_admin kn -> cached_device (kn_exec kn) data wce id0 -> cached_device (kernel_driver kn) data (fun _ _ => false) false.
Proof.
  intros (Hns & Hq & Hd & Hk) (L & Hid & _ & Hf).
  assert (R : forall k s m, sub_admin s = true -> kernel_driver kn k s m = (fst (kn_exec kn k s m), 0)).
  { intros k s m Ha. unfold kernel_driver, submit_command. rewrite Hns, Ha. unfold nvme_submit_user_cmd. destruct (Hk k) as ((rq & Q) & M).
    replace (kn_admin_q kn =? 0) with false by lia. rewrite Q, M. replace (kn_disk kn =? 0) with false by lia. cbn [Z.eqb negb].
    destruct (negb (sub_buffer s =? 0) && negb (sub_bufflen s =? 0)); reflexivity. }
  split; [exact L|split; [|split]].
  - intros s cns nsid p Hp V k m. pose proof V as V'. unfold sub_view in V'. do 3 apply pair_eq in V' as [V' _]. rewrite (R k s m V'). cbn [fst snd].
    split; [split; reflexivity|]. destruct (Hid s cns nsid p Hp V k m) as (_ & A & B). split; [exact A|exact B].
  - intros s cns nsid p k m _ V. unfold sub_view in V. do 3 apply pair_eq in V as [V _]. rewrite (R k s m V). reflexivity.
  - intros s nsid sel k m Ha V Hn Hs. rewrite (R k s m Ha). cbn [fst snd]. split; [apply (Hf s nsid sel k m Ha V Hn Hs)|]. split; [split; reflexivity|reflexivity].
Qed.
Theorem C107_module_refuted : forall kn data wce id0 wrs kz wild c w bs,
  takes_admin kn -> cached_device (kn_exec kn) data wce id0 -> asks_mode w kz c bs -> In (ms_page bs) [0x08; 0x3f] -> ms_pc bs = 0 -> 84 <= byte_at bs 4 ->
  ns_lbads (data 0 (nsid_of (sc_lun c))) < 32 ->
  exists r w', scsi_queuecommand (kernel_driver kn) wrs kz wild c w = Ret r w' /\ mr_result r = GOOD /\ shows_wce w' c false.
Proof.
  intros kn data wce id0 wrs kz wild c w bs Hk Hdev Ha Hp Hpc Hal Hlb. pose proof (kernel_cached kn data wce id0 Hk Hdev) as D.
  destruct (ms_dbd bs) eqn:Hd.
  - exact (C107_without_descriptor_partial _ _ _ _ wrs kz wild c w bs D Ha Hd Hp Hpc Hal).
  - exact (C107_with_descriptor_refuted _ _ _ _ wrs kz wild c w bs D Ha Hd Hp Hpc Hal Hlb).
Qed.
Print Assumptions C107_module_refuted.

(** ... and it matters: on a device with the cache enabled (and zero in the
    reserved dword of Identify's completion) the unit announces that there is no
    volatile cache, and every write acknowledged without FUA, in every state, is
    gone after a power failure if the device has not saved it by then. *)
Theorem C107_lost_write_refuted : forall cap data ident cpl,
  cached_device (nvme_device cap ident cpl) data (fun _ _ => true) false ->
  (forall wrs kz wild c w bs, asks_mode w kz c bs -> ms_dbd bs = false -> In (ms_page bs) [0x08; 0x3f] -> ms_pc bs = 0 -> 84 <= byte_at bs 4 ->
     ns_lbads (data 0 (nsid_of (sc_lun c))) < 32 ->
     exists r w', scsi_queuecommand (nvme_device cap ident cpl) wrs kz wild c w = Ret r w' /\ mr_result r = GOOD /\ shows_wce w' c false) /\
  (forall w0 st0 l w st wrs kz wild c bs lun lba new r w' w'', lived cap w0 st0 l w st ->
     scsi_presents w kz c (IoWrite lun lba new) -> cdb_of w c bs -> fua_bit bs = false ->
     scsi_queuecommand (nvme_device cap ident cpl) wrs kz wild c w = Ret r w' -> scsi_observes w' c r (IoWrite lun lba new) AnsDone ->
     restarts st w'' -> lived cap w0 st0 ((l ++ [Served (IoWrite lun lba new) false AnsDone]) ++ [PowerFailed]) w'' st).
Proof.
  intros cap data ident cpl Hdev. split.
  - intros wrs kz wild c w bs Ha Hd Hp Hpc Hal Hlb. exact (C107_with_descriptor_refuted _ _ _ _ wrs kz wild c w bs Hdev Ha Hd Hp Hpc Hal Hlb).
  - intros w0 st0 l w st wrs kz wild c bs lun lba new r w' w'' Hlv Hpr Hcdb Hf E Ob Hre.
    eapply lv_failed; [|exact Hre]. rewrite <- Hf. eapply lv_io; [exact Hlv|exact Hpr|exact Hcdb|exact E|exact Ob|].
    destruct (adapter_rw _ _ _ _ _ _ _ _ _ _ Hpr Hcdb E) as (s & m & Es & Hio & _).
    split; [intros nsid b _; left; intros o _; reflexivity|]. intros i s' nsid b Hs _ M _. exfalso.
    rewrite Es in Hs. destruct i as [|[|i]]; try discriminate Hs. apply Some_eq in Hs as <-.
    unfold io_sub, io_parts in Hio. destruct Hio as (Hu & Hlba & Hn & pr & p2 & l2 & Hprr & V).
    unfold sub_view in V. apply pair_eq in V as [V _]. apply pair_eq in V as [V _]. apply pair_eq in V as [Va Vc].
    unfold makes_safe in M. cbv zeta in M. rewrite Vc in M. destruct M as (_ & _ & M).
    destruct (rw_sqe_fields 1 lun kz lba (blocks_of new) (N.b2n (fua_bit bs)) pr) as (F1 & _); [lia|lia|lia|].
    rewrite F1 in M. destruct M as [M|(_ & M & _)]; [discriminate M|]. rewrite rw_sqe_fua in M by (try exact Hprr; lia). rewrite Hf in M. discriminate M.
Qed.
Print Assumptions C107_lost_write_refuted.

(** ** The premises are met *)

(** a device with its cache enabled: MixedSpec's, all Identify pages are [ns] *)
Definition ex_ident37 (ns : list byte) : submission -> N -> byte := fun _ i => nth (N.to_nat i) ns x00.
Definition ex_cpl37 : nat -> submission -> N := fun _ s => if le (slice 0 1 (le_encode 64 (sub_cmd s))) =? 0x06 then 0 else 1.
Lemma ex_cached cap ns : N.of_nat (length ns) = 4096 -> cached_device (nvme_device cap (ex_ident37 ns) ex_cpl37) (fun _ _ => ns) (fun _ _ => true) false.
Proof.
  intros Ln. 
  assert (O : forall s q, le_encode 64 (sub_cmd s) = sqe_bytes q -> le (slice 0 1 (le_encode 64 (sub_cmd s))) = q_opc q mod 2 ^ 8).
  { intros s q ->. unfold sqe_bytes. replace (slice 0 1 _) with (le_encode 1 (q_opc q)) by reflexivity. rewrite le_le_encode. reflexivity. }
  split; [intros; exact Ln|]. split; [|split].
  - intros s cns nsid p Hp V k m. assert (Sb : sub_buffer s = p) by (change (snd (fst (sub_view s)) = p); rewrite V; reflexivity).
    unfold sub_view in V. apply pair_eq in V as [V _]. apply pair_eq in V as [V _]. apply pair_eq in V as [Va Vc].
    pose proof (O s _ Vc) as Oc. change (q_opc (identify_sqe cns nsid p) mod 2 ^ 8) with 6 in Oc.
    assert (Hh : le (slice 24 8 (le_encode 64 (sub_cmd s))) = p) by (rewrite Vc, sqe_prp1; apply N.mod_small; exact Hp).
    unfold nvme_device, ex_cpl37. cbv zeta. rewrite Va, Oc, Hh. change (6 =? 6) with true. cbv iota. cbn [fst snd]. rewrite Sb.
    split; [split; reflexivity|]. split.
    + intros i b Hi. assert (i < length ns)%nat by (apply nth_error_Some; rewrite Hi; discriminate).
      replace ((p <=? p + N.of_nat i) && (p + N.of_nat i <? p + 4096)) with true by lia. unfold ex_ident37.
      replace (N.to_nat (p + N.of_nat i - p)) with i by lia. f_equal. apply nth_error_nth. exact Hi.
    + intros x Hx. rewrite Ln in Hx. replace ((p <=? x) && (x <? p + 4096)) with false by lia. reflexivity.
  - intros s cns nsid p k m Hp V. unfold sub_view in V. apply pair_eq in V as [V _]. apply pair_eq in V as [V _]. apply pair_eq in V as [Va Vc].
    pose proof (O s _ Vc) as Oc. change (q_opc (identify_sqe cns nsid p) mod 2 ^ 8) with 6 in Oc.
    unfold nvme_device, ex_cpl37. cbv zeta. rewrite Va, Oc. reflexivity.
  - intros s nsid sel k m Va Vc _ _. pose proof (O s _ Vc) as Oc. change (q_opc (get_features_sqe nsid sel) mod 2 ^ 8) with 10 in Oc.
    unfold nvme_device, ex_cpl37. cbv zeta. rewrite Va, Oc. change (10 =? 6) with false. cbn [fst snd]. split; [reflexivity|]. split; [split; reflexivity|reflexivity].
Qed.
(** MODE SENSE(6) for the Caching page and for all pages, with and without
    block descriptor *)
Definition ex_mode (dbd page : N) : list byte := B [0x1a; dbd * 8; page; 0; 96; 0].
Lemma ex_asks dbd page : In (dbd, page) [(0, 0x3f); (0, 0x0a); (1, 0x08); (1, 0x0a)] ->
  asks_mode (ex_world12 (ex_mode dbd page)) 0x90000 (ex_scsi (ex_mode dbd page) true 96) (ex_mode dbd page).
Proof.
  intros H. assert (L : length (ex_mode dbd page) = 6%nat) by reflexivity.
  assert (Z : forall x, 0x20000 <= x < 0x20060 -> mem (ex_world12 (ex_mode dbd page)) x <> None).
  { intros x Hx. cbn [mem ex_world12 ex_world ex_world_with]. unfold ex_mem, Witness.region, zeros. rewrite L. cbn [length].
    replace ((0x1000 <=? x) && (x <? 0x1000 + N.of_nat 6)) with false by lia.
    replace ((0x10000 <=? x) && (x <? 0x10000 + N.of_nat 0)) with false by lia.
    replace ((0x20000 <=? x) && (x <? 0x20000 + 0x10000)) with true by lia. discriminate. }
  split; [intros i b Hi; do 6 (destruct i as [|i]; [cbn [nth_error ex_mode] in Hi; cbn [In] in H; repeat (destruct H as [H|H]; [injection H as <- <-; vm_compute in Hi |- *; exact Hi|]); contradiction|]); destruct i; discriminate Hi|].
  split; [reflexivity|]. split; [reflexivity|]. split; [split; [rewrite L; lia|reflexivity]|]. split; [reflexivity|]. split; [split; [reflexivity|reflexivity]|].
  split; [change (byte_at (ex_mode dbd page) 4) with 96; discriminate|]. split; [split|split; [discriminate|split; [discriminate|split]]].
  - change (sg_addrs (sc_sgl (ex_scsi (ex_mode dbd page) true 96))) with (sg_addrs [(0x20030, 48); (0x20000, 48)]).
    assert (D : nodup N.eq_dec (sg_addrs [(0x20030, 48); (0x20000, 48)]) = sg_addrs [(0x20030, 48); (0x20000, 48)]) by (vm_compute; reflexivity).
    rewrite <- D. apply NoDup_nodup.
  - intros a Ha. apply Z. change (sg_addrs (sc_sgl (ex_scsi (ex_mode dbd page) true 96))) with (sg_addrs [(0x20030, 48); (0x20000, 48)]) in Ha.
    assert (F : forallb (fun a => (0x20000 <=? a) && (a <? 0x20060)) (sg_addrs [(0x20030, 48); (0x20000, 48)]) = true) by (vm_compute; reflexivity).
    rewrite forallb_forall in F. specialize (F a Ha). lia.
  - intros x Hx. change (sc_bufflen (ex_scsi (ex_mode dbd page) true 96)) with 96 in Hx. cbn [mem ex_world12 ex_world ex_world_with]. unfold ex_mem, Witness.region, zeros. rewrite L. cbn [length].
    replace (x <? 0x1000 + N.of_nat 6) with false by lia. rewrite andb_false_r.
    replace (x <? 0x10000 + N.of_nat 0) with false by lia. rewrite andb_false_r.
    replace (x <? 0x20000 + 0x10000) with false by lia. rewrite andb_false_r.
    replace (x <? 0x40000 + 32) with false by lia. rewrite andb_false_r. reflexivity.
  - apply ex_good_pages; [rewrite L; lia|reflexivity].
Qed.
Definition ex_dev37 : driver := nvme_device (fun _ => 100) (ex_ident37 ex_ns1) ex_cpl37.
Definition ex_run37 (drv : driver) (dbd page : N) :=
  mock_run drv 0x90000 (ex_scsi (ex_mode dbd page) true 96) (ex_world12 (ex_mode dbd page)).
Example C106_premises_met :
  cached_device ex_dev37 (fun _ _ => ex_ns1) (fun _ _ => true) false /\ ns_lbads ex_ns1 < 32 /\
  asks_mode (ex_world12 (ex_mode 0 0x0a)) 0x90000 (ex_scsi (ex_mode 0 0x0a) true 96) (ex_mode 0 0x0a) /\
  (* Control page with descriptor; Caching page without; Control page without *)
  ex_run37 ex_dev37 0 0x0a = Some (0, Some 0, [(true, 0x100000, 4096)], map Some (B [3 + 8 + 12; 0; 0x10; 8] ++ short_descriptor ex_ns1 ++ control_page ++ repeat x00 72)) /\
  option_map (fun x => snd x) (ex_run37 ex_dev37 1 0x08) = Some (map Some (B [23; 0; 0x10; 0; 8; 0x12; 0x84] ++ repeat x00 89)) /\
  ex_run37 ex_dev37 1 0x0a = None.
Proof.
  split; [apply ex_cached; vm_compute; reflexivity|]. split; [vm_compute; reflexivity|]. split; [apply ex_asks; cbn [In]; auto|].
  split; [vm_compute; reflexivity|]. split; vm_compute; reflexivity.
Qed.
(** the device has its cache enabled; with DBD = 1 the unit says so, with DBD = 0
    it denies it, and the kernel module denies it always *)
Definition ex_kernel37 : kernel :=
  {| kn_ns := true; kn_admin_q := 1; kn_io_q := 2; kn_disk := 3; kn_alloc := fun _ => inl 9; kn_map := fun _ => 0%Z; kn_ret := fun _ => 0%Z; kn_exec := ex_dev37 |}.
Example C107_premises_met :
  asks_mode (ex_world12 (ex_mode 0 0x3f)) 0x90000 (ex_scsi (ex_mode 0 0x3f) true 96) (ex_mode 0 0x3f) /\ ms_dbd (ex_mode 0 0x3f) = false /\ ms_pc (ex_mode 0 0x3f) = 0 /\
  takes_admin ex_kernel37 /\
  option_map (fun x => nth 14 (snd x) None) (ex_run37 ex_dev37 0 0x3f) = Some (Some x80) /\
  option_map (fun x => nth 6 (snd x) None) (ex_run37 ex_dev37 1 0x08) = Some (Some x84) /\
  option_map (fun x => nth 6 (snd x) None) (ex_run37 (kernel_driver ex_kernel37) 1 0x08) = Some (Some x80).
Proof.
  split; [apply ex_asks; cbn [In]; auto|]. split; [reflexivity|]. split; [reflexivity|].
  split; [split; [reflexivity|split; [discriminate|split; [discriminate|intros k; split; [exists 9; reflexivity|reflexivity]]]]|].
  split; [vm_compute; reflexivity|]. split; vm_compute; reflexivity.
Qed.
