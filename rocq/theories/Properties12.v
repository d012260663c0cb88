(** C62-C64: commands answered from Identify data, end to end. *)
From Coq Require Import Arith NArith String List Lia Bool Init.Byte Permutation.
From Coq Require Import ZifyBool ZifyNat ZifyN.
From Verif Require Import Bytes Layout World ScsiDefs NvmeDefs Common ModeSenseCmd StatusCmd TranslationCls EngineE2e MockModule
  Spec RwSpec InquirySpec SmallSpec EngineSpec MockSpec Facts Logic BeginFacts CompleteFacts StatusFacts RelFacts RwFacts EngineFacts
  InquiryFacts SerialFacts MockFacts Witness Properties1 Properties2 Properties3 Properties4 Properties6 Properties9 Properties11.
Import ListNotations.
Local Open Scope string_scope.
Local Open Scope list_scope.
Local Open Scope N_scope.

(** ** Begin in a world with a good allocator *)
Lemma begins_grows wrs q w t1 r w1 : begins wrs q w = Ret (t1, r) w1 ->
  exists w0 evs rel, grows w w0 evs /\ released w0 w1 rel /\ (accepted t1 -> rel = []).
Proof.
  intros E. pose proof (Begin_idle_spec false (Translation_init wrs) (rq_cdb q) (rq_data q) (rq_lun q) w (idle_init wrs) (no_ok_span _ _) (no_ok_span _ _)) as S.
  unfold cst in S. unfold begins in E. rewrite E in S. destruct S as (_ & _ & _ & _ & _ & w0 & evs & rel & G & R & Z & _). eauto 6.
Qed.
Lemma begins_keeps wrs q w t1 r w1 : begins wrs q w = Ret (t1, r) w1 -> good_pages w ->
  forall x, mem w x <> None -> mem w1 x = mem w x.
Proof.
  intros E (_ & Hg & _) x Hx. destruct (begins_grows _ _ _ _ _ _ E) as (w0 & evs & rel & G & R & _).
  rewrite (r_mem _ _ _ R). destruct (g_mem _ _ _ G x) as [H|(ps & n & a & Hin & Ha & Hr)]; [exact H|]. exfalso.
  destruct (drawn_in _ _ _ _ (g_from _ _ _ G) Hin) as (k & n' & _ & Hn & Ek). injection Ek as -> -> ->. apply Hx.
  assert (n' = 1) as -> by lia. apply (proj2 (Hg k)). exact Hr.
Qed.
Lemma begins_junk wrs q w t1 r w1 : begins wrs q w = Ret (t1, r) w1 -> junk w1 = junk w.
Proof.
  intros E. destruct (begins_grows _ _ _ _ _ _ E) as (w0 & evs & rel & G & R & _).
  rewrite (sc_junk _ _ (r_cfg _ _ _ R)). exact (sc_junk _ _ (g_cfg _ _ _ G)).
Qed.
Lemma begins_page wrs q w t1 r w1 evs p : begins wrs q w = Ret (t1, r) w1 -> accepted t1 -> good_pages w ->
  trace w1 = trace w ++ evs -> In (EvAlloc 4096 1 p) evs -> p <> 0 /\ p < 2 ^ 64 /\ unused w p 4096.
Proof.
  intros E Ha (_ & Hg & _) T Hin. destruct (begins_grows _ _ _ _ _ _ E) as (w0 & evs' & rel & G & R & Z). rewrite (Z Ha) in R.
  assert (evs = evs').
  { pose proof (r_trace _ _ _ R) as T1. replace (if dealloc_cb w0 then releases [] else []) with (@nil event) in T1 by (destruct (dealloc_cb w0); reflexivity).
    rewrite app_nil_r, (g_trace _ _ _ G), T in T1. apply app_inv_head in T1. exact T1. }
  subst evs'. destruct (drawn_in _ _ _ _ (g_from _ _ _ G) Hin) as (k & n' & _ & _ & Ek). injection Ek as <- ->. destruct (Hg k) as [H1 H2].
  split; [exact H1|]. split; [apply u64_lt|exact H2].
Qed.
Lemma begins_has_pages wrs q w t1 r w1 : begins wrs q w = Ret (t1, r) w1 -> good_pages w -> ~ out_of_pages w w1.
Proof.
  intros E (Hc & Hg & _) [H|(evs & T & Hin)]; [congruence|]. destruct (begins_grows _ _ _ _ _ _ E) as (w0 & evs' & rel & G & R & _).
  assert (In (EvAlloc 4096 1 0) (evs' ++ (if dealloc_cb w0 then releases rel else []))).
  { rewrite (r_trace _ _ _ R), (g_trace _ _ _ G), <- app_assoc in T. apply app_inv_head in T. rewrite T. exact Hin. }
  apply in_app_or in H as [H|H].
  - destruct (drawn_in _ _ _ _ (g_from _ _ _ G) H) as (k & n' & _ & _ & Ek). injection Ek as <- Ek. destruct (Hg k) as [H1 _]. apply H1. congruence.
  - destruct (dealloc_cb w0); [|destruct H]. unfold releases in H. apply in_map_iff in H as (? & H & _). discriminate H.
Qed.

(** ** One Identify command *)
Lemma engine_page drv wrs q w bs al sq page (post : world -> world -> Prop) :
  span_holds w (rq_cdb q) bs -> one_page_begin (Translation_init wrs) (rq_cdb q) (rq_data q) (rq_lun q) w al sq ->
  page_round_trip (rq_lun q) bs sq page (response_span q al) post ->
  rq_data_in q = true -> 0 < al <= len (rq_data q) -> span_mapped w (rq_data q) ->
  good_pages w -> N.of_nat (length page) = 4096 -> (forall p, q_prp1 (sq p) = p) ->
  (forall s p, sub_view s = (true, sqe_bytes (sq p), p, 4096) -> fills drv s page) ->
  exists p s t2 w2 w3,
    p <> 0 /\ unused w p 4096 /\ sub_view s = (true, sqe_bytes (sq p), p, 4096) /\
    engine drv wrs q w = Ret ({| er_return_code := GOOD; er_alloc_len := al |}, t2, [s]) w3 /\
    post w2 w3 /\ (forall x, mem w x <> None -> mem w2 x = mem w x).
Proof.
  intros Hc (t1 & w1 & E1 & C) T Hdi Hal Hm Hg Hl Hprp Hdev.
  assert (B : begins wrs q w = Ret (t1, begin_ok al) w1) by exact E1.
  destruct C as [(Ha & p & evs & Hp & Hpr & Tr & X & _)|(Ho & _)]; [|exfalso; exact (begins_has_pages _ _ _ _ _ _ B Hg Ho)].
  destruct (begins_page _ _ _ _ _ _ _ p B Ha Hg Tr) as (_ & Hp64 & Hun).
  { destruct Hpr as (m & ->). left. reflexivity. }
  pose proof (begins_keeps _ _ _ _ _ _ B Hg) as Keep.
  destruct (T (Translation_init wrs) w (rq_cdb q) (rq_data q) t1 (begin_ok al) w1 (idle_init wrs) Hc E1 Ha) as (p' & (Hp' & X') & K).
  destruct (one_wrapper _ _ X) as (x & Ex & Vx). destruct (one_wrapper _ _ X') as (x' & Ex' & Vx'). rewrite Ex in Ex'. injection Ex' as <-.
  assert (p' = p).
  { rewrite Vx in Vx'. assert (Y : sqe_bytes (sq p) = sqe_bytes (sq p')) by (change (x_bytes (admin 4096 (sq p)) = x_bytes (admin 4096 (sq p'))); rewrite Vx'; reflexivity).
    pose proof (sqe_prp1 (sq p)) as P1. pose proof (sqe_prp1 (sq p')) as P2. rewrite Y, P2, !Hprp in P1.
    rewrite (N.mod_small p) in P1 by exact Hp64. rewrite (N.mod_small p') in P1 by exact Hp'. exact P1. }
  subst p'.
  set (s := sub_of x).
  assert (Vs : sub_view s = (true, sqe_bytes (sq p), p, 4096)).
  { unfold s. rewrite sub_of_view, Vx. unfold sub_expected, admin. cbn [x_admin x_bytes x_buffer_len]. rewrite sqe_prp1, Hprp, N.mod_small by exact Hp64. reflexivity. }
  assert (Sb : sub_buffer s = p) by (change (snd (fst (sub_view s)) = p); rewrite Vs; reflexivity).
  set (d := drv 0%nat s (mem w1)). destruct (Hdev s p Vs 0%nat (mem w1)) as (Hok & Hd1 & Hd2). fold d in Hok, Hd1, Hd2. rewrite Sb, Hl in *.
  set (w2 := set_mem w1 (fst d)).
  assert (K2 : forall y, mem w y <> None -> mem w2 y = mem w y).
  { intros y Hy. unfold w2. cbn [mem set_mem]. rewrite Hd2; [apply Keep; exact Hy|]. intros Z. apply Hy, Hun. exact Z. }
  assert (Hr : response_span q al = {| ptr := ptr (rq_data q); len := al |}) by (unfold response_span; rewrite Hdi; reflexivity).
  assert (Hm2 : span_mapped w2 (response_span q al)).
  { rewrite Hr. intros y Hy. cbn [ptr len] in Hy. unfold mapped. rewrite K2; apply Hm; lia. }
  destruct (K w2 (snd d mod 2 ^ 128) (rq_sense q)) as (t2 & w3 & E3 & _ & Q).
  - destruct Hc as [Hc1 Hc2]. split; [exact Hc1|]. intros i b Hi. rewrite K2; [apply Hc2; exact Hi|]. rewrite (Hc2 _ _ Hi). discriminate.
  - intros i b Hi. unfold w2. cbn [mem set_mem]. apply Hd1. exact Hi.
  - exact Hm2.
  - rewrite Hr. unfold apart. cbn [ptr len]. destruct (N.le_gt_cases (p + 4096) (ptr (rq_data q))) as [Z|Z]; [left; exact Z|].
    destruct (N.le_gt_cases (ptr (rq_data q) + al) p) as [Z2|Z2]; [right; exact Z2|]. exfalso.
    apply (Hm (N.max p (ptr (rq_data q)))); [lia|]. apply Hun. lia.
  - exact Hok.
  - exists p, s, t2, w2, w3. split; [exact Hp|]. split; [exact Hun|]. split; [exact Vs|]. split; [|split; [exact Q|exact K2]].
    erewrite (engine_ok drv wrs q w t1 al w1 t2 GOOD w3); [rewrite Ex; reflexivity|exact B|lia|].
    rewrite Ex. cbn [map device_run]. change (drv 0%nat (sub_of x) (mem w1)) with d. unfold w2 in E3. destruct d as [m c]. exact E3.
Qed.

(** ** The two Identify commands of INQUIRY *)
Lemma two_wrappers t x y : exposes t = [x; y] -> exists r s, GetNvmeWrappers t = [r; s] /\ view r = x /\ view s = y.
Proof. unfold exposes. destruct (GetNvmeWrappers t) as [|a [|b [|? ?]]]; cbn; intros H; try discriminate. injection H as <- <-. eauto. Qed.
Lemma ident_wrapper x cns nsid p p' : view x = admin 4096 (identify_sqe cns nsid p) -> view x = admin 4096 (identify_sqe cns nsid p') ->
  p < 2 ^ 64 -> p' < 2 ^ 64 -> p' = p.
Proof.
  intros V V' Hp Hp'. rewrite V in V'.
  assert (Y : sqe_bytes (identify_sqe cns nsid p) = sqe_bytes (identify_sqe cns nsid p'))
    by (change (x_bytes (admin 4096 (identify_sqe cns nsid p)) = x_bytes (admin 4096 (identify_sqe cns nsid p'))); rewrite V'; reflexivity).
  pose proof (sqe_prp1 (identify_sqe cns nsid p)) as P1. pose proof (sqe_prp1 (identify_sqe cns nsid p')) as P2. rewrite Y, P2 in P1.
  cbn [q_prp1 identify_sqe] in P1. rewrite (N.mod_small p) in P1 by exact Hp. rewrite (N.mod_small p') in P1 by exact Hp'. exact P1.
Qed.
Lemma ident_sub x cns nsid p : view x = admin 4096 (identify_sqe cns nsid p) -> p < 2 ^ 64 ->
  sub_view (sub_of x) = (true, sqe_bytes (identify_sqe cns nsid p), p, 4096).
Proof.
  intros V Hp. rewrite sub_of_view, V. unfold sub_expected, admin. cbn [x_admin x_bytes x_buffer_len]. rewrite sqe_prp1. cbn [q_prp1 identify_sqe].
  rewrite N.mod_small by exact Hp. reflexivity.
Qed.

Lemma begins_two_pages wrs q w t1 r w1 p m p' m' : begins wrs q w = Ret (t1, r) w1 -> accepted t1 -> good_pages w ->
  trace w1 = trace w ++ [EvAlloc 4096 1 p; EvAlloc 4096 0 m; EvAlloc 4096 1 p'; EvAlloc 4096 0 m'] -> p + 4096 <= p' \/ p' + 4096 <= p.
Proof.
  intros E Ha (_ & _ & Hg) T. destruct (begins_grows _ _ _ _ _ _ E) as (w0 & evs & rel & G & R & Z). rewrite (Z Ha) in R.
  assert (evs = [EvAlloc 4096 1 p; EvAlloc 4096 0 m; EvAlloc 4096 1 p'; EvAlloc 4096 0 m']).
  { pose proof (r_trace _ _ _ R) as T1. replace (if dealloc_cb w0 then releases [] else []) with (@nil event) in T1 by (destruct (dealloc_cb w0); reflexivity).
    rewrite app_nil_r, (g_trace _ _ _ G), T in T1. apply app_inv_head in T1. symmetry. exact T1. }
  subst evs. destruct (g_from _ _ _ G) as ((_ & _ & ->) & _ & (_ & _ & ->) & _). apply (Hg (tick w) (S (S (tick w)))); lia.
Qed.

Lemma engine_inquiry drv wrs q w bs ns ct (post : world -> world -> Prop) :
  let al := be (slice 3 2 bs) in let nsid := nsid_of (rq_lun q) in
  span_holds w (rq_cdb q) bs -> (6 <= length bs)%nat -> byte_at bs 0 = 0x12 ->
  inquiry_round_trip (rq_lun q) bs ns ct (response_span q al) post ->
  rq_data_in q = true -> al <= len (rq_data q) -> span_mapped w (rq_data q) ->
  good_pages w -> N.of_nat (length ns) = 4096 -> N.of_nat (length ct) = 4096 ->
  (forall s p, sub_view s = (true, sqe_bytes (identify_sqe 0 nsid p), p, 4096) -> fills drv s ns) ->
  (forall s p, sub_view s = (true, sqe_bytes (identify_sqe 1 0 p), p, 4096) -> fills drv s ct) ->
  exists p p' s s' t2 w2 w3,
    unused w p 4096 /\ unused w p' 4096 /\ (p + 4096 <= p' \/ p' + 4096 <= p) /\
    sub_view s = (true, sqe_bytes (identify_sqe 0 nsid p), p, 4096) /\
    sub_view s' = (true, sqe_bytes (identify_sqe 1 0 p'), p', 4096) /\
    engine drv wrs q w = Ret ({| er_return_code := GOOD; er_alloc_len := al |}, t2, [s; s']) w3 /\
    post w2 w3 /\ (forall x, mem w x <> None -> mem w2 x = mem w x) /\ junk w2 = junk w.
Proof.
  intros al nsid Hc Hbl Hbo T Hdi Hal Hm Hg Hn Hct Hdn Hdc.
  destruct (C24_inquiry_commands (Translation_init wrs) (rq_cdb q) (rq_data q) (rq_lun q) w bs (idle_init wrs) Hc Hbl Hbo) as (t1 & w1 & E1 & C).
  assert (B : begins wrs q w = Ret (t1, begin_ok al) w1) by exact E1.
  destruct C as [(Ha & p & p' & ev1 & ev2 & (m & ->) & (m' & ->) & Hp & Hp' & Tr & X & _)|(Ho & _)]; [|exfalso; exact (begins_has_pages _ _ _ _ _ _ B Hg Ho)].
  destruct (begins_page _ _ _ _ _ _ _ p B Ha Hg Tr) as (_ & Hp64 & Hun); [left; reflexivity|].
  destruct (begins_page _ _ _ _ _ _ _ p' B Ha Hg Tr) as (_ & Hp64' & Hun'); [right; right; left; reflexivity|].
  pose proof (begins_two_pages _ _ _ _ _ _ _ _ _ _ B Ha Hg Tr) as Hdis.
  pose proof (begins_keeps _ _ _ _ _ _ B Hg) as Keep.
  destruct (T (Translation_init wrs) w (rq_cdb q) (rq_data q) t1 (begin_ok al) w1 (idle_init wrs) Hc E1 Ha) as (a & a' & (Ha64 & Ha64' & X') & K).
  destruct (two_wrappers _ _ _ X) as (x & y & Ex & Vx & Vy). destruct (two_wrappers _ _ _ X') as (x' & y' & Ex' & Vx' & Vy'). rewrite Ex in Ex'. injection Ex' as <- <-.
  pose proof (ident_wrapper x 0 nsid p a Vx Vx' Hp64 Ha64) as ->. pose proof (ident_wrapper y 1 0 p' a' Vy Vy' Hp64' Ha64') as ->.
  pose proof (ident_sub x 0 nsid p Vx Hp64) as Vs. pose proof (ident_sub y 1 0 p' Vy Hp64') as Vs'. set (s := sub_of x) in *. set (s' := sub_of y) in *.
  assert (Sb : sub_buffer s = p) by (change (snd (fst (sub_view s)) = p); rewrite Vs; reflexivity).
  assert (Sb' : sub_buffer s' = p') by (change (snd (fst (sub_view s')) = p'); rewrite Vs'; reflexivity).
  set (d := drv 0%nat s (mem w1)). set (d' := drv 1%nat s' (fst d)).
  destruct (Hdn s p Vs 0%nat (mem w1)) as (Hok & Hd1 & Hd2). fold d in Hok, Hd1, Hd2. rewrite Sb, Hn in *.
  destruct (Hdc s' p' Vs' 1%nat (fst d)) as (Hok' & Hd1' & Hd2'). fold d' in Hok', Hd1', Hd2'. rewrite Sb', Hct in *.
  set (w2 := set_mem w1 (fst d')).
  assert (K2 : forall z, mem w z <> None -> mem w2 z = mem w z).
  { intros z Hz. unfold w2. cbn [mem set_mem]. rewrite Hd2', Hd2; [apply Keep; exact Hz|intros Z; apply Hz, Hun; exact Z|intros Z; apply Hz, Hun'; exact Z]. }
  assert (Hr : response_span q al = {| ptr := ptr (rq_data q); len := al |}) by (unfold response_span; rewrite Hdi; reflexivity).
  destruct (K w2 [snd d mod 2 ^ 128; snd d' mod 2 ^ 128] (rq_sense q)) as (t2 & w3 & E3 & _ & Q).
  - destruct Hc as [Hc1 Hc2]. split; [exact Hc1|]. intros i b Hi. rewrite K2; [apply Hc2; exact Hi|]. rewrite (Hc2 _ _ Hi). discriminate.
  - intros i b Hi. unfold w2. cbn [mem set_mem]. assert (i < length ns)%nat by (apply nth_error_Some; congruence).
    rewrite Hd2' by lia. apply Hd1. exact Hi.
  - intros i b Hi. unfold w2. cbn [mem set_mem]. apply Hd1'. exact Hi.
  - rewrite Hr. intros z Hz. cbn [ptr len] in Hz. unfold mapped. rewrite K2; apply Hm; lia.
  - reflexivity.
  - constructor; [exact Hok|constructor; [exact Hok'|constructor]].
  - exists p, p', s, s', t2, w2, w3. split; [exact Hun|]. split; [exact Hun'|]. split; [exact Hdis|]. split; [exact Vs|]. split; [exact Vs'|].
    split; [|split; [exact Q|split; [exact K2|exact (begins_junk _ _ _ _ _ _ B)]]].
    erewrite (engine_ok drv wrs q w t1 al w1 t2 GOOD w3); [rewrite Ex; reflexivity|exact B|exact Hal|].
    rewrite Ex. cbn [map device_run]. fold s s'. unfold w2 in E3. subst d' d. destruct (drv 0%nat s (mem w1)) as [m1 c1]. cbn [fst snd] in *.
    destruct (drv 1%nat s' m1) as [m2 c2]. exact E3.
Qed.

(** ** The adapter around an engine that answers a data-in request *)
Lemma adapter_in drv wrs kz wild c w al resp t2 subs w3 :
  let q := mock_request kz wild c in let w1 := with_buffer w kz (sc_bufflen c) in
  sc_from_device c = true -> 0 < sc_bufflen c < 65536 -> kz <> 0 -> unused w kz (sc_bufflen c) ->
  sg_valid w (sc_sgl c) -> al <= sc_bufflen c -> sc_bufflen c <= sg_total (sc_sgl c) ->
  engine drv wrs q w1 = Ret ({| er_return_code := GOOD; er_alloc_len := al |}, t2, subs) w3 ->
  (forall x, mem w x <> None -> mem w3 x = mem w x) -> N.of_nat (length resp) = al -> bytes_at w3 kz resp ->
  exists w', scsi_queuecommand drv wrs kz wild c w = Ret {| mr_result := GOOD; mr_resid := Some (sc_bufflen c - al); mr_subs := subs |} w' /\
    sg_holds w' (sc_sgl c) resp /\
    (forall x, mem w x <> None -> ~ In x (firstn (length resp) (sg_addrs (sc_sgl c))) -> mem w' x = mem w x).
Proof.
  intros q w1 Hdi Hbl Hkz Hun Hsg Hal Hst E2 Keep Hl Hr.
  assert (Hlen : len (rq_data q) = sc_bufflen c).
  { unfold q, mock_request. cbn [rq_data len]. apply N.mod_small. lia. }
  assert (Hv3 : sg_valid w3 (sc_sgl c)).
  { destruct Hsg as [Hd Hm]. split; [exact Hd|]. intros x Hx. rewrite Keep; apply Hm; exact Hx. }
  assert (Hld : (length resp <= length (sg_addrs (sc_sgl c)))%nat).
  { pose proof (sg_total_length (sc_sgl c)). lia. }
  destruct (sg_scatter_ok (sc_sgl c) resp w3 Hv3 Hld) as (m' & Es' & Hh' & Hm').
  eexists. split; [|split].
  - rewrite mock_eq. cbv zeta. fold q. rewrite Hlen. replace (0 <? sc_bufflen c) with true by lia. replace (kz =? 0) with false by lia.
    change (rq_data_in q) with (sc_from_device c). rewrite Hdi. cbn [andb negb]. unfold bind at 1. unfold ret at 1.
    change (set_mem (log w (EvAlloc 1 (sc_bufflen c) kz)) (map_pages (mem w) kz (sc_bufflen c) (fun _ : N => x00))) with w1.
    unfold bind at 1. rewrite E2. unfold bind at 1. unfold sg_copy_from_buffer. unfold bind at 1. unfold bind at 1. cbn [er_alloc_len].
    rewrite (load_ok w3 kz _ resp); [|exact Hr|].
    + rewrite Es'. unfold ret at 1. unfold bind, kfree, ret. cbn [er_return_code]. rewrite Hl. reflexivity.
    + pose proof (sg_total_length (sc_sgl c)). lia.
  - destruct Hh' as [H1 H2]. split; [exact H1|]. intros i a b. cbn [mem log set_mem]. apply H2.
  - intros x Hx Hx2. cbn [mem log set_mem]. rewrite Hm' by exact Hx2. apply Keep. exact Hx.
Qed.

(** the delivered bytes: what Complete wrote, on zeros *)
Lemma adapter_wrote drv wrs kz wild c w al img t2 subs w2 w3 :
  let q := mock_request kz wild c in let w1 := with_buffer w kz (sc_bufflen c) in
  sc_from_device c = true -> 0 < sc_bufflen c < 65536 -> kz <> 0 -> unused w kz (sc_bufflen c) ->
  sg_valid w (sc_sgl c) -> al <= sc_bufflen c -> sc_bufflen c <= sg_total (sc_sgl c) ->
  engine drv wrs q w1 = Ret ({| er_return_code := GOOD; er_alloc_len := al |}, t2, subs) w3 ->
  (forall x, mem w1 x <> None -> mem w2 x = mem w1 x) -> wrote w2 w3 kz img -> N.of_nat (length img) <= al ->
  exists w', scsi_queuecommand drv wrs kz wild c w = Ret {| mr_result := GOOD; mr_resid := Some (sc_bufflen c - al); mr_subs := subs |} w' /\
    sg_holds w' (sc_sgl c) (img ++ repeat x00 (N.to_nat al - length img)) /\
    (forall x, mem w x <> None -> ~ In x (firstn (N.to_nat al) (sg_addrs (sc_sgl c))) -> mem w' x = mem w x).
Proof.
  intros q w1 Hdi Hbl Hkz Hun Hsg Hal Hst E K2 [W1 W2] Hl.
  assert (L : length (img ++ repeat x00 (N.to_nat al - length img)) = N.to_nat al) by (rewrite app_length, repeat_length; lia).
  destruct (adapter_in drv wrs kz wild c w al (img ++ repeat x00 (N.to_nat al - length img)) t2 subs w3) as (w' & E' & S & F); try assumption.
  - intros x Hx. assert (Z : ~ (kz <= x < kz + sc_bufflen c)) by (intros Z; apply Hx, Hun; exact Z).
    assert (Y : mem w1 x = mem w x) by (unfold w1; apply with_buffer_out; exact Z).
    rewrite W2 by lia. rewrite K2; [exact Y|]. rewrite Y. exact Hx.
  - rewrite L. lia.
  - apply bytes_at_app. split; [exact W1|]. intros i b Hi.
    assert (i < length (repeat x00 (N.to_nat al - length img)))%nat by (apply nth_error_Some; congruence). rewrite repeat_length in H.
    assert (b = x00) by (apply nth_error_In, repeat_spec in Hi; exact Hi). subst b.
    assert (Y : mem w1 (kz + N.of_nat (length img) + N.of_nat i) = Some x00) by (unfold w1; apply with_buffer_in; lia).
    rewrite W2 by lia. rewrite K2; rewrite Y; [reflexivity|discriminate].
  - exists w'. split; [exact E'|]. split; [exact S|]. rewrite L in F. exact F.
Qed.
Lemma wrote_none w w' a : same_memory w w' -> wrote w w' a [].
Proof. intros H. split; [intros i b Hi; destruct i; discriminate|intros x _; apply H]. Qed.

(** the request inside the adapter *)
Lemma adapter_request kz wild c w bs : let q := mock_request kz wild c in let w1 := with_buffer w kz (sc_bufflen c) in
  bytes_at w (sc_cmnd c) bs -> N.of_nat (length bs) = sc_cmd_len c -> sc_cmd_len c < 65536 ->
  0 < sc_bufflen c < 65536 -> unused w kz (sc_bufflen c) ->
  span_holds w1 (rq_cdb q) bs /\ rq_data q = {| ptr := kz; len := sc_bufflen c |} /\ span_mapped w1 (rq_data q).
Proof.
  intros q w1 Hc Hcl Hcs Hbl Hun.
  assert (Hqd : rq_data q = {| ptr := kz; len := sc_bufflen c |}).
  { unfold q, mock_request. cbn [rq_data]. cbv zeta. rewrite N.mod_small by lia. replace (0 <? sc_bufflen c) with true by lia. reflexivity. }
  split; [|split; [exact Hqd|]].
  - unfold q, mock_request. cbn [rq_cdb]. rewrite N.mod_small by lia. split; [cbn [len]; lia|]. cbn [ptr]. intros i b Hi. unfold w1.
    rewrite with_buffer_old; [apply Hc; exact Hi|exact Hun|]. rewrite (Hc _ _ Hi). discriminate.
  - rewrite Hqd. intros x Hx. cbn [ptr len] in Hx. unfold w1. rewrite with_buffer_in by exact Hx. discriminate.
Qed.

Lemma adapter_page drv wrs kz wild c w bs al cns nsid img data :
  (forall t cdb b w, idle t -> span_holds w cdb bs -> one_page_begin t cdb b (sc_lun c) w al (identify_sqe cns nsid)) ->
  page_round_trip (sc_lun c) bs (identify_sqe cns nsid) (data cns nsid) {| ptr := kz; len := al |} (fun w2 w3 => wrote w2 w3 kz img) ->
  bytes_at w (sc_cmnd c) bs -> N.of_nat (length bs) = sc_cmd_len c -> sc_cmd_len c < 65536 ->
  sc_from_device c = true -> sc_bufflen c < 65536 -> 0 < al <= sc_bufflen c -> N.of_nat (length img) <= al ->
  sg_valid w (sc_sgl c) -> sc_bufflen c <= sg_total (sc_sgl c) ->
  kz <> 0 -> unused w kz (sc_bufflen c) -> good_pages (with_buffer w kz (sc_bufflen c)) -> identifies drv data ->
  exists p s w',
    scsi_queuecommand drv wrs kz wild c w = Ret {| mr_result := GOOD; mr_resid := Some (sc_bufflen c - al); mr_subs := [s] |} w' /\
    unused w p 4096 /\ sub_view s = (true, sqe_bytes (identify_sqe cns nsid p), p, 4096) /\
    sg_holds w' (sc_sgl c) (img ++ repeat x00 (N.to_nat al - length img)) /\
    (forall x, mem w x <> None -> ~ In x (firstn (N.to_nat al) (sg_addrs (sc_sgl c))) -> mem w' x = mem w x).
Proof.
  intros Hb Ht Hc Hcl Hcs Hdi Hbl Hal Hil Hsg Hst Hkz Hun Hg Hid.
  set (q := mock_request kz wild c). set (w1 := with_buffer w kz (sc_bufflen c)).
  destruct (adapter_request kz wild c w bs Hc Hcl Hcs) as (Hc1 & Hqd & Hm); [lia|exact Hun|]. fold q in Hc1, Hqd, Hm. fold w1 in Hc1, Hm.
  assert (Hr : response_span q al = {| ptr := kz; len := al |}).
  { unfold response_span. change (rq_data_in q) with (sc_from_device c). rewrite Hdi, Hqd. reflexivity. }
  destruct (engine_page drv wrs q w1 bs al (identify_sqe cns nsid) (data cns nsid) (fun w2 w3 => wrote w2 w3 kz img)) as (p & s & t2 & w2 & w3 & Hp & Hu & Vs & E & W & K2).
  - exact Hc1.
  - apply Hb; [apply idle_init|exact Hc1].
  - rewrite Hr. exact Ht.
  - exact Hdi.
  - rewrite Hqd. exact Hal.
  - exact Hm.
  - exact Hg.
  - apply (proj1 Hid).
  - reflexivity.
  - intros s p Vs. apply (proj2 Hid s cns nsid p Vs).
  - destruct (adapter_wrote drv wrs kz wild c w al img t2 [s] w2 w3) as (w' & E' & S & F); try assumption; [lia|lia|].
    exists p, s, w'. split; [exact E'|]. split; [|split; [exact Vs|split; [exact S|exact F]]].
    intros x Hx. specialize (Hu x Hx). unfold w1, with_buffer in Hu. cbn [mem set_mem] in Hu. unfold map_pages in Hu.
    destruct ((kz <=? x) && (x <? kz + sc_bufflen c)); [discriminate|exact Hu].
Qed.

(** ** C62 *)

(** A REPORT LUNS whose allocation length has room for the whole list: one
    Identify (active namespace list) is submitted, and the initiator gets the
    header and one LUN per active namespace, then zeros; GOOD, the residual is
    what the allocation length leaves of the buffer, and no other memory in use
    changes. *)
Theorem C62_report_luns_end_to_end : forall drv wrs kz wild c w bs data,
  let al := be (slice 6 4 bs) in let ids := active_namespaces (data 2 0) in
  (* the request *)
  bytes_at w (sc_cmnd c) bs -> N.of_nat (length bs) = sc_cmd_len c -> sc_cmd_len c < 65536 ->
  (12 <= length bs)%nat -> byte_at bs 0 = 0xa0 -> byte_at bs 2 <= 2 ->
  sc_from_device c = true -> sc_bufflen c < 65536 -> 8 + 8 * N.of_nat (length ids) <= al <= sc_bufflen c ->
  sg_valid w (sc_sgl c) -> sc_bufflen c <= sg_total (sc_sgl c) ->
  (* the environment *)
  kz <> 0 -> unused w kz (sc_bufflen c) -> good_pages (with_buffer w kz (sc_bufflen c)) -> identifies drv data ->
  exists p s w',
    scsi_queuecommand drv wrs kz wild c w = Ret {| mr_result := GOOD; mr_resid := Some (sc_bufflen c - al); mr_subs := [s] |} w' /\
    unused w p 4096 /\ sub_view s = (true, sqe_bytes (identify_sqe 2 0 p), p, 4096) /\
    sg_holds w' (sc_sgl c) (be_encode 4 (8 * N.of_nat (length ids)) ++ repeat x00 4 ++ concat (map (fun id => be_encode 8 (id - 1)) ids)
                            ++ repeat x00 (N.to_nat al - (8 + 8 * length ids))) /\
    (forall x, mem w x <> None -> ~ In x (firstn (N.to_nat al) (sg_addrs (sc_sgl c))) -> mem w' x = mem w x).
Proof.
  intros drv wrs kz wild c w bs data al ids Hc Hcl Hcs Hl Ho Hs Hdi Hbl Hal Hsg Hst Hkz Hun Hg Hid.
  assert (L : length (lun_list (8 * N.of_nat (length ids)) ids) = (8 + 8 * length ids)%nat).
  { unfold lun_list. rewrite !app_length, be_encode_length, repeat_length. clear. induction ids as [|i ids IH]; [reflexivity|].
    cbn [map concat length]. rewrite app_length, be_encode_length. lia. }
  destruct (adapter_page drv wrs kz wild c w bs al 2 0 (lun_list (8 * N.of_nat (length ids)) ids) data) as (p & s & w' & E & Hu & V & S & F); try assumption.
  - intros t cdb b v Hi Hv. apply C39_report_luns_command; assumption.
  - apply C39_report_luns_lists_namespaces; try assumption; [apply (proj1 Hid)| |]; cbn [len]; fold ids; lia.
  - lia.
  - rewrite L. lia.
  - exists p, s, w'. split; [exact E|]. split; [exact Hu|]. split; [exact V|]. split; [|exact F].
    rewrite L in S. unfold lun_list in S. rewrite <- !app_assoc in S. exact S.
Qed.
Print Assumptions C62_report_luns_end_to_end.

(** ** Every INQUIRY answer *)
Lemma serial_page_length lun ns ct img : N.of_nat (length ct) = 4096 -> serial_page lun ns ct img -> length img = 44%nat.
Proof.
  intros Lc. unfold serial_page. destruct (nonzero (ns_nguid ns)); [|destruct (nonzero (ns_eui64 ns))].
  - intros (d0 & d1 & j0 & j1 & S0 & S1 & L0 & L1 & ->). destruct (significant_le _ _ S0) as [B0 _]. destruct (significant_le _ _ S1) as [B1 _].
    rewrite app_length, grouped_length; [reflexivity|]. rewrite app_length, !half_length; lia.
  - intros (d & j & S0 & L0 & ->). destruct (significant_le _ _ S0) as [B0 _].
    rewrite !app_length, grouped_length, repeat_length; [reflexivity|]. rewrite half_length; lia.
  - intros ->. rewrite !app_length, hexdigits_length, repeat_length. unfold ct_sn. rewrite slice_length by lia. reflexivity.
Qed.

Lemma inquiry_trip lun bs ns ct buffer img0 : inquiry_cdb bs -> N.of_nat (length ns) = 4096 -> N.of_nat (length ct) = 4096 ->
  inquiry_answer lun bs ns ct img0 -> N.of_nat (length img0) <= len buffer ->
  inquiry_round_trip lun bs ns ct buffer (fun w2 w3 => exists img, inquiry_answer lun bs ns ct img /\ length img = length img0 /\ wrote w2 w3 (ptr buffer) img).
Proof.
  intros Hq Ln Lc Hi Hl. unfold inquiry_answer in Hi |- *. pose proof (bits_lt (byte_at bs 1) 0 1) as Hev. fold (inq_evpd bs) in Hev. change (2 ^ 1) with 2 in Hev.
  destruct (N.eqb_spec (inq_evpd bs) 0) as [He|He].
  { subst img0. destruct (C25_standard_inquiry lun bs ns ct buffer Hq He Ln Lc) as [H _].
    eapply round_trip_mono; [|apply H].
    - intros w w' W. eexists. split; [reflexivity|]. split; [reflexivity|exact W].
    - assert (L : length (standard_inquiry ns ct) = 36%nat).
      { unfold standard_inquiry. rewrite !app_length, last4_length. unfold ct_mn. rewrite slice_slice, slice_length by lia. reflexivity. }
      lia. }
  assert (He1 : inq_evpd bs = 1) by lia. clear He Hev.
  destruct (N.eq_dec (inq_page bs) 0x00) as [Hp|N0].
  { rewrite Hp in *. subst img0. eapply round_trip_mono; [|apply page00; auto; exact Hl]. intros w w' W. eauto. }
  destruct (N.eq_dec (inq_page bs) 0x80) as [Hp|N1].
  { rewrite Hp in *. pose proof (serial_page_length _ _ _ _ Lc Hi) as L. eapply round_trip_mono; [|apply page80; auto; lia].
    intros w w' (img & P & W). exists img. split; [exact P|]. split; [|exact W]. rewrite L. apply (serial_page_length _ _ _ _ Lc P). }
  destruct (N.eq_dec (inq_page bs) 0x83) as [Hp|N2].
  { rewrite Hp in *. destruct Hi as (id & Hd & ->). eapply round_trip_mono; [|eapply page83; eauto].
    - intros w w' W. exists (device_id_page id). split; [exists id; auto|]. split; [reflexivity|exact W].
    - unfold device_id_page, designation_descriptor, bytes in Hl. rewrite !app_length, !map_length in Hl. cbn [length] in Hl. lia. }
  destruct (N.eq_dec (inq_page bs) 0x86) as [Hp|N3].
  { rewrite Hp in *. destruct Hi as (spt & Hd & ->). eapply round_trip_mono; [|eapply page86; eauto; exact Hl].
    intros w w' W. exists (extended_page spt ns ct). split; [exists spt; auto|]. split; [reflexivity|exact W]. }
  destruct (N.eq_dec (inq_page bs) 0xb0) as [Hp|N4].
  { rewrite Hp in *. subst img0. eapply round_trip_mono; [|apply pageb0; auto; rewrite block_limits_length in Hl; exact Hl]. intros w w' W. eauto. }
  destruct (N.eq_dec (inq_page bs) 0xb1) as [Hp|N5].
  { rewrite Hp in *. subst img0. eapply round_trip_mono; [|apply pageb1; auto; exact Hl]. intros w w' W. eauto. }
  destruct (N.eq_dec (inq_page bs) 0xb2) as [Hp|N6].
  { rewrite Hp in *. subst img0. eapply round_trip_mono; [|apply pageb2; auto; rewrite provisioning_length in Hl; exact Hl]. intros w w' W. eauto. }
  exfalso. revert Hi N0 N1 N2 N3 N4 N5 N6. clear. generalize (inq_page bs). intros n Hi N0 N1 N2 N3 N4 N5 N6.
  destruct n as [|n]; [congruence|].
  do 8 (try (destruct n as [n|n|]; try exact Hi; try congruence)).
Qed.

(** what is answered may depend on what the stack held *)
Lemma adapter_inquiry_junk drv wrs kz wild c w bs data (P : (nat -> N -> byte) -> list byte -> Prop) :
  let al := be (slice 3 2 bs) in let ns := data 0 (nsid_of (sc_lun c)) in let ct := data 1 0 in
  inquiry_round_trip (sc_lun c) bs ns ct {| ptr := kz; len := al |} (fun w2 w3 => exists img, P (junk w2) img /\ N.of_nat (length img) <= al /\ wrote w2 w3 kz img) ->
  bytes_at w (sc_cmnd c) bs -> N.of_nat (length bs) = sc_cmd_len c -> sc_cmd_len c < 65536 ->
  (6 <= length bs)%nat -> byte_at bs 0 = 0x12 ->
  sc_from_device c = true -> 0 < sc_bufflen c < 65536 -> al <= sc_bufflen c ->
  sg_valid w (sc_sgl c) -> sc_bufflen c <= sg_total (sc_sgl c) ->
  kz <> 0 -> unused w kz (sc_bufflen c) -> good_pages (with_buffer w kz (sc_bufflen c)) -> identifies drv data ->
  exists img p p' s s' w', P (junk w) img /\
    scsi_queuecommand drv wrs kz wild c w = Ret {| mr_result := GOOD; mr_resid := Some (sc_bufflen c - al); mr_subs := [s; s'] |} w' /\
    sub_view s = (true, sqe_bytes (identify_sqe 0 (nsid_of (sc_lun c)) p), p, 4096) /\
    sub_view s' = (true, sqe_bytes (identify_sqe 1 0 p'), p', 4096) /\
    sg_holds w' (sc_sgl c) (img ++ repeat x00 (N.to_nat al - length img)) /\
    (forall x, mem w x <> None -> ~ In x (firstn (N.to_nat al) (sg_addrs (sc_sgl c))) -> mem w' x = mem w x).
Proof.
  intros al ns ct Ht Hc Hcl Hcs Hl Ho Hdi Hbl Hal Hsg Hst Hkz Hun Hg Hid.
  set (q := mock_request kz wild c). set (w1 := with_buffer w kz (sc_bufflen c)).
  destruct (adapter_request kz wild c w bs Hc Hcl Hcs Hbl Hun) as (Hc1 & Hqd & Hm). fold q in Hc1, Hqd, Hm. fold w1 in Hc1, Hm.
  assert (Hr : response_span q al = {| ptr := kz; len := al |}).
  { unfold response_span. change (rq_data_in q) with (sc_from_device c). rewrite Hdi, Hqd. reflexivity. }
  destruct (engine_inquiry drv wrs q w1 bs ns ct (fun w2 w3 => exists img, P (junk w2) img /\ N.of_nat (length img) <= al /\ wrote w2 w3 kz img))
    as (p & p' & s & s' & t2 & w2 & w3 & _ & _ & _ & V & V' & E & (img & HP & Hi & W) & K2 & J2).
  - exact Hc1.
  - exact Hl.
  - exact Ho.
  - fold al. rewrite Hr. exact Ht.
  - exact Hdi.
  - fold al. rewrite Hqd. exact Hal.
  - exact Hm.
  - exact Hg.
  - apply (proj1 Hid).
  - apply (proj1 Hid).
  - intros s p V. exact (proj2 Hid s 0 _ p V).
  - intros s p V. exact (proj2 Hid s 1 0 p V).
  - fold al in E. destruct (adapter_wrote drv wrs kz wild c w al img t2 [s; s'] w2 w3) as (w' & E' & S & F); try assumption.
    exists img, p, p', s, s', w'. split; [rewrite J2 in HP; exact HP|]. auto 10.
Qed.

Lemma adapter_inquiry drv wrs kz wild c w bs data (P : list byte -> Prop) :
  let al := be (slice 3 2 bs) in let ns := data 0 (nsid_of (sc_lun c)) in let ct := data 1 0 in
  inquiry_round_trip (sc_lun c) bs ns ct {| ptr := kz; len := al |} (fun w2 w3 => exists img, P img /\ N.of_nat (length img) <= al /\ wrote w2 w3 kz img) ->
  bytes_at w (sc_cmnd c) bs -> N.of_nat (length bs) = sc_cmd_len c -> sc_cmd_len c < 65536 ->
  (6 <= length bs)%nat -> byte_at bs 0 = 0x12 ->
  sc_from_device c = true -> 0 < sc_bufflen c < 65536 -> al <= sc_bufflen c ->
  sg_valid w (sc_sgl c) -> sc_bufflen c <= sg_total (sc_sgl c) ->
  kz <> 0 -> unused w kz (sc_bufflen c) -> good_pages (with_buffer w kz (sc_bufflen c)) -> identifies drv data ->
  exists img p p' s s' w', P img /\
    scsi_queuecommand drv wrs kz wild c w = Ret {| mr_result := GOOD; mr_resid := Some (sc_bufflen c - al); mr_subs := [s; s'] |} w' /\
    sub_view s = (true, sqe_bytes (identify_sqe 0 (nsid_of (sc_lun c)) p), p, 4096) /\
    sub_view s' = (true, sqe_bytes (identify_sqe 1 0 p'), p', 4096) /\
    sg_holds w' (sc_sgl c) (img ++ repeat x00 (N.to_nat al - length img)) /\
    (forall x, mem w x <> None -> ~ In x (firstn (N.to_nat al) (sg_addrs (sc_sgl c))) -> mem w' x = mem w x).
Proof.
  intros al ns ct Ht. exact (adapter_inquiry_junk drv wrs kz wild c w bs data (fun _ => P) Ht).
Qed.

(** ** C63 *)

(** INQUIRY, standard data and every VPD page: two Identify commands are
    submitted (the LUN's namespace, the controller), and the initiator gets the
    answer specified for the request, then zeros; GOOD *)
Theorem C63_inquiry_end_to_end : forall drv wrs kz wild c w bs data img0,
  let al := be (slice 3 2 bs) in let ns := data 0 (nsid_of (sc_lun c)) in let ct := data 1 0 in
  (* the request, for an answer that fits the allocation length *)
  bytes_at w (sc_cmnd c) bs -> N.of_nat (length bs) = sc_cmd_len c -> sc_cmd_len c < 65536 ->
  (6 <= length bs)%nat -> byte_at bs 0 = 0x12 ->
  inquiry_answer (sc_lun c) bs ns ct img0 -> N.of_nat (length img0) <= al ->
  sc_from_device c = true -> 0 < sc_bufflen c < 65536 -> al <= sc_bufflen c ->
  sg_valid w (sc_sgl c) -> sc_bufflen c <= sg_total (sc_sgl c) ->
  (* the environment *)
  kz <> 0 -> unused w kz (sc_bufflen c) -> good_pages (with_buffer w kz (sc_bufflen c)) -> identifies drv data ->
  exists img p p' s s' w',
    inquiry_answer (sc_lun c) bs ns ct img /\ length img = length img0 /\
    scsi_queuecommand drv wrs kz wild c w = Ret {| mr_result := GOOD; mr_resid := Some (sc_bufflen c - al); mr_subs := [s; s'] |} w' /\
    sub_view s = (true, sqe_bytes (identify_sqe 0 (nsid_of (sc_lun c)) p), p, 4096) /\
    sub_view s' = (true, sqe_bytes (identify_sqe 1 0 p'), p', 4096) /\
    sg_holds w' (sc_sgl c) (img ++ repeat x00 (N.to_nat al - length img)) /\
    (forall x, mem w x <> None -> ~ In x (firstn (N.to_nat al) (sg_addrs (sc_sgl c))) -> mem w' x = mem w x).
Proof.
  intros drv wrs kz wild c w bs data img0 al ns ct Hc Hcl Hcs Hl Ho Hi Hil Hdi Hbl Hal Hsg Hst Hkz Hun Hg Hid.
  destruct (adapter_inquiry drv wrs kz wild c w bs data (fun img => inquiry_answer (sc_lun c) bs ns ct img /\ length img = length img0))
    as (img & p & p' & s & s' & w' & (A & B) & R); try assumption; [|].
  - eapply round_trip_mono; [|apply (inquiry_trip (sc_lun c) bs ns ct {| ptr := kz; len := al |} img0); try assumption; [split; assumption|apply (proj1 Hid)..]].
    intros w2 w3 (img & A & B & W). exists img. split; [split; assumption|]. split; [rewrite B; exact Hil|exact W].
  - exists img, p, p', s, s', w'. split; [exact A|]. split; [exact B|exact R].
Qed.
Print Assumptions C63_inquiry_end_to_end.

(** A VPD page that is not supported should be refused with CHECK CONDITION.
    Instead both Identify commands are carried out and the initiator gets zeros
    and GOOD. *)
Theorem C63_unsupported_page_refuted : forall drv wrs kz wild c w bs data,
  let al := be (slice 3 2 bs) in
  bytes_at w (sc_cmnd c) bs -> N.of_nat (length bs) = sc_cmd_len c -> sc_cmd_len c < 65536 ->
  (6 <= length bs)%nat -> byte_at bs 0 = 0x12 -> inq_evpd bs = 1 -> ~ In (inq_page bs) vpd_codes ->
  sc_from_device c = true -> 0 < sc_bufflen c < 65536 -> al <= sc_bufflen c ->
  sg_valid w (sc_sgl c) -> sc_bufflen c <= sg_total (sc_sgl c) ->
  kz <> 0 -> unused w kz (sc_bufflen c) -> good_pages (with_buffer w kz (sc_bufflen c)) -> identifies drv data ->
  exists subs w',
    scsi_queuecommand drv wrs kz wild c w = Ret {| mr_result := GOOD; mr_resid := Some (sc_bufflen c - al); mr_subs := subs |} w' /\
    length subs = 2%nat /\ sg_holds w' (sc_sgl c) (repeat x00 (N.to_nat al)).
Proof.
  intros drv wrs kz wild c w bs data al Hc Hcl Hcs Hl Ho He Hp Hdi Hbl Hal Hsg Hst Hkz Hun Hg Hid.
  destruct (adapter_inquiry drv wrs kz wild c w bs data (fun img => img = []))
    as (img & p & p' & s & s' & w' & -> & E & _ & _ & S & _); try assumption.
  - eapply round_trip_mono; [|apply C26_unlisted_writes_nothing; try assumption; [split; assumption|apply (proj1 Hid)..]].
    intros w2 w3 W. exists []. split; [reflexivity|]. split; [cbn; lia|]. apply wrote_none. exact W.
  - exists [s; s'], w'. split; [exact E|]. split; [reflexivity|]. cbn [app length] in S. rewrite Nat.sub_0_r in S. exact S.
Qed.
Print Assumptions C63_unsupported_page_refuted.

Lemma nth_error_eq {A} (l l' : list A) : (forall i, nth_error l i = nth_error l' i) -> l = l'.
Proof.
  revert l'. induction l as [|a l IH]; intros [|b l'] H; [reflexivity|discriminate (H 0%nat)|discriminate (H 0%nat)|].
  pose proof (H 0%nat) as H0. injection H0 as ->. f_equal. apply IH. intros i. exact (H (S i)).
Qed.

(** ** C64 *)

(** READ CAPACITY(10): one Identify of the LUN's namespace, and the initiator
    gets NSZE (capped at FFFFFFFFh) and the block size.  Missing for the full
    claim: the address of the last block, NSZE - 1 (see the refutation). *)
Theorem C64_read_capacity_end_to_end_partial : forall drv wrs kz wild c w bs data,
  let ns := data 0 (nsid_of (sc_lun c)) in
  bytes_at w (sc_cmnd c) bs -> N.of_nat (length bs) = sc_cmd_len c -> sc_cmd_len c < 65536 ->
  (10 <= length bs)%nat -> byte_at bs 0 = 0x25 -> bits (byte_at bs 9) 2 1 = 0 ->
  9 <= ns_lbads ns <= 31 ->
  sc_from_device c = true -> 8 <= sc_bufflen c < 65536 ->
  sg_valid w (sc_sgl c) -> sc_bufflen c <= sg_total (sc_sgl c) ->
  kz <> 0 -> unused w kz (sc_bufflen c) -> good_pages (with_buffer w kz (sc_bufflen c)) -> identifies drv data ->
  exists p s w',
    scsi_queuecommand drv wrs kz wild c w = Ret {| mr_result := GOOD; mr_resid := Some (sc_bufflen c - 8); mr_subs := [s] |} w' /\
    unused w p 4096 /\ sub_view s = (true, sqe_bytes (identify_sqe 0 (nsid_of (sc_lun c)) p), p, 4096) /\
    sg_holds w' (sc_sgl c) (be_encode 4 (N.min (ns_nsze ns) 0xffffffff) ++ be_encode 4 (2 ^ ns_lbads ns)) /\
    (forall x, mem w x <> None -> ~ In x (firstn 8 (sg_addrs (sc_sgl c))) -> mem w' x = mem w x).
Proof.
  intros drv wrs kz wild c w bs data ns Hc Hcl Hcs Hl Ho Hn Hb Hdi Hbl Hsg Hst Hkz Hun Hg Hid.
  destruct (adapter_page drv wrs kz wild c w bs 8 0 (nsid_of (sc_lun c)) (capacity_data (N.min (ns_nsze ns) 0xffffffff) (2 ^ ns_lbads ns)) data)
    as (p & s & w' & E & Hu & V & S & F); try assumption.
  - intros t cdb b v Hi Hv. eapply C40_read_capacity_command; eassumption.
  - intros t v cdb b0 t1 r w1 H1 H2 H3 H4.
    destruct (C40_read_capacity_partial (sc_lun c) bs ns {| ptr := kz; len := 8 |} Hl Ho Hn (proj1 Hid _ _) Hb (N.le_refl 8) t v cdb b0 t1 r w1 H1 H2 H3 H4) as (p & X & C).
    exists p. split; [exact X|]. intros w2 cpl sense A1 A2 A3 A4 A5.
    destruct (C w2 cpl sense A1 A2 A3 A4 A5) as (t2 & w3 & E & I & (Q & _)). exists t2, w3. auto.
  - lia.
  - lia.
  - unfold capacity_data. rewrite app_length, !be_encode_length. cbn. lia.
  - exists p, s, w'. split; [exact E|]. split; [exact Hu|]. split; [exact V|]. split; [|exact F].
    unfold capacity_data in S at 2. rewrite app_length, !be_encode_length in S. change (N.to_nat 8 - (4 + 4))%nat with 0%nat in S. cbn [repeat] in S. rewrite app_nil_r in S. exact S.
Qed.
Print Assumptions C64_read_capacity_end_to_end_partial.

(** an initiator reading a namespace of 1..FFFFFFFFh blocks is told of one block
    too many *)
Theorem C64_last_lba_refuted : forall drv wrs kz wild c w bs data r w',
  let ns := data 0 (nsid_of (sc_lun c)) in
  bytes_at w (sc_cmnd c) bs -> N.of_nat (length bs) = sc_cmd_len c -> sc_cmd_len c < 65536 ->
  (10 <= length bs)%nat -> byte_at bs 0 = 0x25 -> bits (byte_at bs 9) 2 1 = 0 ->
  9 <= ns_lbads ns <= 31 -> 1 <= ns_nsze ns <= 0xffffffff ->
  sc_from_device c = true -> 8 <= sc_bufflen c < 65536 ->
  sg_valid w (sc_sgl c) -> sc_bufflen c <= sg_total (sc_sgl c) ->
  kz <> 0 -> unused w kz (sc_bufflen c) -> good_pages (with_buffer w kz (sc_bufflen c)) -> identifies drv data ->
  scsi_queuecommand drv wrs kz wild c w = Ret r w' ->
  mr_result r = GOOD /\ ~ sg_holds w' (sc_sgl c) (be_encode 4 (last_lba ns)).
Proof.
  intros drv wrs kz wild c w bs data r w' ns Hc Hcl Hcs Hl Ho Hn Hb Hz Hdi Hbl Hsg Hst Hkz Hun Hg Hid E.
  destruct (C64_read_capacity_end_to_end_partial drv wrs kz wild c w bs data Hc Hcl Hcs Hl Ho Hn Hb Hdi Hbl Hsg Hst Hkz Hun Hg Hid) as (p & s & w2 & E2 & _ & _ & [S1 S2] & _).
  fold ns in S1, S2. rewrite E in E2. apply ret_eq in E2 as [-> ->]. split; [reflexivity|]. intros [T1 T2].
  assert (Heq : be_encode 4 (N.min (ns_nsze ns) 0xffffffff) = be_encode 4 (last_lba ns)).
  { apply nth_error_eq. intros i. destruct (Nat.lt_ge_cases i 4) as [Hi|Hi].
    - destruct (nth_error (sg_addrs (sc_sgl c)) i) as [a|] eqn:Ha.
      + destruct (nth_error (be_encode 4 (N.min (ns_nsze ns) 0xffffffff)) i) as [b1|] eqn:E1.
        * destruct (nth_error (be_encode 4 (last_lba ns)) i) as [b2|] eqn:E3.
          -- pose proof (T2 i a b2 Ha E3) as Y2. rewrite (S2 i a b1 Ha) in Y2; [exact Y2|]. rewrite nth_error_app1 by (rewrite be_encode_length; exact Hi). exact E1.
          -- apply nth_error_None in E3. rewrite be_encode_length in E3. lia.
        * apply nth_error_None in E1. rewrite be_encode_length in E1. lia.
      + apply nth_error_None in Ha. rewrite be_encode_length in T1. lia.
    - rewrite (proj2 (nth_error_None _ _)), (proj2 (nth_error_None _ _)) by (rewrite be_encode_length; exact Hi). reflexivity. }
  rewrite N.min_l in Heq by lia.
  apply (f_equal be) in Heq. rewrite !be_be_encode in Heq. change (2 ^ (8 * N.of_nat 4)) with 0x100000000 in Heq.
  unfold last_lba in Heq. rewrite !N.mod_small in Heq by lia. lia.
Qed.
Print Assumptions C64_last_lba_refuted.

(** ** The premises are met *)

(** a device holding three Identify pages, and an allocator with four pages *)
Definition ex_data12 (ns : list byte) (cns _ : N) : list byte :=
  match cns mod 2 ^ 32 with 0 => ns | 1 => ex_ct | _ => ex_list end.
Definition ex_device (ns : list byte) : driver := fun _ s m =>
  (store_bytes m (sub_buffer s) (ex_data12 ns (le (slice 40 4 (le_encode 64 (sub_cmd s)))) 0), 0).
Lemma ex_identifies ns : N.of_nat (length ns) = 4096 -> identifies (ex_device ns) (ex_data12 ns).
Proof.
  intros Hn. split.
  - intros cns nsid. unfold ex_data12. destruct (cns mod 2 ^ 32) as [|[pp|pp|]]; try exact Hn; vm_compute; reflexivity.
  - intros s cns nsid p V k m.
    assert (Y : le_encode 64 (sub_cmd s) = sqe_bytes (identify_sqe cns nsid p)).
    { change (snd (fst (fst (sub_view s))) = sqe_bytes (identify_sqe cns nsid p)). rewrite V. reflexivity. }
    assert (C : le (slice 40 4 (le_encode 64 (sub_cmd s))) = cns mod 2 ^ 32).
    { rewrite Y. unfold sqe_bytes. cbn [q_cdw10 identify_sqe]. replace (slice 40 4 _) with (le_encode 4 cns) by reflexivity. rewrite le_le_encode. reflexivity. }
    assert (D : ex_data12 ns (le (slice 40 4 (le_encode 64 (sub_cmd s)))) 0 = ex_data12 ns cns nsid).
    { rewrite C. unfold ex_data12. rewrite N.mod_mod by lia. reflexivity. }
    unfold ex_device. rewrite D. cbn [fst snd]. split; [split; reflexivity|]. split.
    + intros i b Hi. apply store_bytes_in. exact Hi.
    + intros x Hx. apply store_bytes_out. exact Hx.
Qed.
Definition ex_world12 (cdb : list byte) : world :=
  let w := ex_world cdb in
  {| mem := mem w; alloc_cb := true; dealloc_cb := true;
     ans := fun k _ n => if n =? 0 then 0 else 0x100000 + 4096 * (N.of_nat k mod 4);
     fill := fill w; junk := junk w; tick := 0; trace := [] |}.
Lemma ex_good_pages cdb n : (length cdb < 4096)%nat -> n < 65536 -> good_pages (with_buffer (ex_world12 cdb) 0x90000 n).
Proof.
  intros Hc Hn. split; [reflexivity|]. split.
  - intros k. cbv zeta. change (ans (with_buffer (ex_world12 cdb) 0x90000 n) k 4096 1) with (0x100000 + 4096 * (N.of_nat k mod 4)).
    pose proof (N.mod_lt (N.of_nat k) 4) as L. split.
    + unfold u64. rewrite N.mod_small by lia. lia.
    + intros x Hx. unfold u64 in Hx. rewrite N.mod_small in Hx by lia.
      unfold with_buffer. cbn [mem set_mem]. unfold map_pages. replace ((0x90000 <=? x) && (x <? 0x90000 + n)) with false by lia.
      cbn [mem log ex_world12 ex_world ex_world_with]. unfold ex_mem, region, zeros.
      replace (x <? 0x1000 + N.of_nat (length cdb)) with false by lia. cbn [length]. rewrite !andb_false_r.
      replace (x <? 0x10000 + N.of_nat 0) with false by lia. rewrite andb_false_r.
      replace (x <? 0x20000 + 0x10000) with false by lia. rewrite andb_false_r.
      replace (x <? 0x40000 + 32) with false by lia. rewrite andb_false_r. reflexivity.
  - intros j k Hj Hk. cbv zeta. cbn [tick with_buffer set_mem log ex_world12] in *.
    change (ans (with_buffer (ex_world12 cdb) 0x90000 n) ?a ?b ?c) with (if c =? 0 then 0 else 0x100000 + 4096 * (N.of_nat a mod 4)).
    cbn [N.eqb]. rewrite (N.mod_small (N.of_nat j)), (N.mod_small (N.of_nat k)) by lia. unfold u64. rewrite !N.mod_small by lia. lia.
Qed.

Example C62_premises_met :
  be (slice 6 4 ex_luns) = 64 /\ active_namespaces (ex_data12 ex_ns1 2 0) = [1; 7; 256] /\
  mock_run (ex_device ex_ns1) 0x90000 (ex_scsi ex_luns true 64) (ex_world12 ex_luns) =
  Some (0, Some 0, [(true, 0x100000, 4096)],
        map Some (B [0;0;0;24; 0;0;0;0; 0;0;0;0;0;0;0;0; 0;0;0;0;0;0;0;6; 0;0;0;0;0;0;0;255] ++ repeat x00 32)).
Proof. vm_compute. auto. Qed.
Example C63_premises_met :
  inquiry_answer 2 (ex_inq 0 0) ex_ns1 ex_ct (standard_inquiry ex_ns1 ex_ct) /\
  mock_run (ex_device ex_ns1) 0x90000 (ex_scsi (ex_inq 0 0) true 256) (ex_world12 (ex_inq 0 0)) =
  Some (0, Some 0, [(true, 0x100000, 4096); (true, 0x102000, 4096)], map Some (standard_inquiry ex_ns1 ex_ct ++ repeat x00 220)) /\
  (* a page that does not exist *)
  mock_run (ex_device ex_ns1) 0x90000 (ex_scsi (ex_inq 1 0x99) true 256) (ex_world12 (ex_inq 1 0x99)) =
  Some (0, Some 0, [(true, 0x100000, 4096); (true, 0x102000, 4096)], map Some (repeat x00 256)).
Proof. split; [reflexivity|]. vm_compute. auto. Qed.
Example C64_premises_met :
  let ns := ex_capns [0;0;1;0;0;0;0;0] 12 in
  ns_nsze ns = 65536 /\ ns_lbads ns = 12 /\
  mock_run (ex_device ns) 0x90000 (ex_scsi ex_cap true 8) (ex_world12 ex_cap) =
  Some (0, Some 0, [(true, 0x100000, 4096)], map Some (B [0;1;0;0; 0;0;0x10;0])).
Proof. vm_compute. auto. Qed.
