(** C111: every command queued to the adapter is answered. *)
From Coq Require Import Arith NArith ZArith String List Lia Bool Init.Byte Permutation.
From Coq Require Import ZifyBool ZifyNat ZifyN.
From Verif Require Import Bytes Layout World ScsiDefs NvmeDefs Common ModeSenseCmd TranslationCls EngineE2e MockModule KernelDriver
  Spec RwSpec InquirySpec SmallSpec ModeSpec UnmapSpec EngineSpec MockSpec AcceptSpec ModuleSpec
  Facts Logic BeginFacts CompleteFacts StatusFacts RwFacts JunkFacts RelFacts ProgFacts EngineFacts MockFacts Witness ConcDiskFacts CacheSpec
  Properties1 Properties2 Properties8 Properties9 Properties11 Properties12 Properties26 Properties30 Properties37.
Import ListNotations.
Local Open Scope string_scope.
Local Open Scope list_scope.
Local Open Scope N_scope.

(** Specification: what the kernel guarantees when it queues a command.  The CDB
    [bs], the sense buffer (96 bytes) and the scatterlist are mapped; kzalloc
    hands out unused memory or fails; the pages the page callback hands out do
    not overlap the CDB, and a request for no pages is answered with 0. *)
Definition queued (w : world) (kz : N) (c : scsi_cmnd) (bs : list byte) : Prop :=
  bytes_at w (sc_cmnd c) bs /\ N.of_nat (length bs) = sc_cmd_len c /\ sc_cmd_len c < 65536 /\
  mapped w (sc_sense c) 96 /\ (forall x, In x (sg_addrs (sc_sgl c)) -> mem w x <> None) /\
  (kz = 0 \/ unused w kz (sc_bufflen c mod 65536)) /\
  pages_apart w {| ptr := sc_cmnd c; len := sc_cmd_len c |} /\ (forall k page_size, ans w k page_size 0 = 0).
(** the device does not unmap memory, and does not write to the CDB *)
Definition harmless (drv : driver) (c : scsi_cmnd) : Prop := forall k s m x,
  (m x <> None -> fst (drv k s m) x <> None) /\ (sc_cmnd c <= x < sc_cmnd c + sc_cmd_len c -> fst (drv k s m) x = m x).
(** SAM-5 status codes *)
Definition sam_status : list N := [0x00; 0x02; 0x04; 0x08; 0x18; 0x28; 0x30; 0x40].

(** ** What a call allocates is mapped afterwards *)
Definition maps (w w' : world) : Prop :=
  (forall x, mem w x <> None -> mem w' x <> None) /\
  exists evs, trace w' = trace w ++ evs /\ forall ps n a, In (EvAlloc ps n a) evs -> a <> 0 -> mapped w' a (ps * n).
Lemma maps_refl w w' : mem w' = mem w -> trace w' = trace w -> maps w w'.
Proof. intros Hm Ht. split; [rewrite Hm; auto|]. exists []. split; [rewrite Ht; symmetry; apply app_nil_r|intros ? ? ? []]. Qed.
Lemma maps_trans w1 w2 w3 : maps w1 w2 -> maps w2 w3 -> maps w1 w3.
Proof.
  intros (A1 & e1 & T1 & M1) (A2 & e2 & T2 & M2). split; [auto|]. exists (e1 ++ e2). split; [rewrite T2, T1; symmetry; apply app_assoc|].
  intros ps n a Hin Ha. apply in_app_or in Hin as [Hin|Hin]; [|apply M2; assumption]. intros x Hx. apply A2. apply (M1 ps n a Hin Ha). exact Hx.
Qed.
Lemma prog_maps d A (m : M A) : prog d m -> forall w r w', m w = Ret r w' -> maps w w'.
Proof.
  induction 1 as [A a|A s|A B m k Hm IHm Hk IHk|a n|a bs|ps n|a n|n]; intros w r w' E.
  - unfold ret in E. apply ret_eq in E as [_ <-]. apply maps_refl; reflexivity.
  - discriminate E.
  - apply bind_ret_inv in E as (x & w1 & E1 & E2). eapply maps_trans; [eapply IHm; exact E1|eapply IHk; exact E2].
  - apply load_pure in E. subst w'. apply maps_refl; reflexivity.
  - apply store_inv in E as (_ & ->). split; [intros x Hx; cbn [mem set_mem]; apply store_bytes_some; exact Hx|]. exists []. split; [cbn; symmetry; apply app_nil_r|intros ? ? ? []].
  - unfold AllocPages in E. destruct (negb (alloc_cb w)). { apply ret_eq in E as [_ <-]. apply maps_refl; reflexivity. }
    cbv zeta in E. set (a := u64 (ans w (tick w) ps n)) in *. apply ret_eq in E as [_ <-]. split.
    + intros x Hx. destruct (a =? 0); [exact Hx|]. cbn [mem set_mem]. unfold map_pages. destruct (_ && _); [discriminate|exact Hx].
    + exists [EvAlloc ps n a]. split; [destruct (a =? 0); reflexivity|]. intros ps' n' a' [Z|[]] Ha. injection Z as <- <- <-. rewrite (proj2 (N.eqb_neq a 0) Ha).
      intros x Hx. cbn [mem set_mem]. unfold map_pages. replace ((a <=? x) && (x <? a + ps * n)) with true by lia. discriminate.
  - unfold DeallocPages in E. destruct (negb (dealloc_cb w)); apply ret_eq in E as [_ <-]; [apply maps_refl; reflexivity|].
    split; [auto|]. exists [EvDealloc a n]. split; [reflexivity|]. intros ? ? ? [Z|[]]. discriminate Z.
  - unfold stack_junk in E. apply ret_eq in E as [_ <-]. apply maps_refl; reflexivity.
Qed.

Lemma acquired_in evs p n : In (p, n) (acquired evs) -> p <> 0 /\ exists ps, In (EvAlloc ps n p) evs.
Proof.
  induction evs as [|[ps k a|a k] evs IH]; cbn [acquired]; [intros []| |].
  - intros H. apply in_app_or in H as [H|H].
    + destruct (N.eqb_spec a 0) as [Z|Z]; [destruct H|]. destruct H as [H|[]]. injection H as <- <-. split; [exact Z|]. exists ps. left. reflexivity.
    + destruct (IH H) as (Z & ps' & H'). split; [exact Z|]. exists ps'. right. exact H'.
  - intros H. destruct (IH H) as (Z & ps' & H'). split; [exact Z|]. exists ps'. right. exact H'.
Qed.

(** after Begin: memory that was mapped still is, the CDB is as it was, the
    object's pages are mapped *)
Lemma begins_maps wrs q w t1 r w1 bs : EngineSpec.begins wrs q w = Ret (t1, r) w1 -> zero_ok w -> pages_apart w (rq_cdb q) -> span_holds w (rq_cdb q) bs ->
  (forall x, mem w x <> None -> mem w1 x <> None) /\ span_holds w1 (rq_cdb q) bs /\ (forall p n, In (p, n) (held t1) -> mapped w1 p (4096 * n)).
Proof.
  intros E Hz Hap Hc. pose proof E as E0. unfold EngineSpec.begins in E0.
  destruct (prog_maps _ _ _ (p_Begin _ _ _ _) _ _ _ E0) as (D & evs & T & Mp).
  pose proof (Begin_idle_spec false (Translation_init wrs) (rq_cdb q) (rq_data q) (rq_lun q) w (idle_init wrs) (no_ok_span _ _) (no_ok_span _ _)) as S.
  unfold cst in S. rewrite E0 in S. destruct S as (_ & _ & _ & Hrej & _ & w0 & evs' & rel & G & R & Z & P).
  split; [exact D|]. split.
  - destruct Hc as [Hl Hc]. split; [exact Hl|]. intros i b Hi. rewrite (r_mem _ _ _ R).
    destruct (g_mem _ _ _ G (ptr (rq_cdb q) + N.of_nat i)) as [Q|(ps & n & a & Hin & Ha & Hr)]; [rewrite Q; apply Hc; exact Hi|]. exfalso.
    destruct (drawn_in _ _ _ _ (g_from _ _ _ G) Hin) as (k & n' & _ & _ & Ek). injection Ek as -> -> ->.
    assert (i < length bs)%nat by (apply nth_error_Some; rewrite Hi; discriminate).
    destruct (Hap k 4096 n') as [Q|[Q|Q]]; lia.
  - intros p n Hin.
    assert (Ha : pipeline_status t1 = kSuccess).
    { destruct (pipeline_status t1) eqn:Q; [reflexivity|exfalso; rewrite (proj2 (Hrej ltac:(discriminate))) in Hin; destruct Hin..]. }
    rewrite (Z Ha) in R, P. cbn [app] in P.
    assert (T' : evs = evs').
    { pose proof (r_trace _ _ _ R) as T1. replace (if dealloc_cb w0 then releases [] else []) with (@nil event) in T1 by (destruct (dealloc_cb w0); reflexivity).
      rewrite app_nil_r, (g_trace _ _ _ G), T in T1. apply app_inv_head in T1. exact T1. }
    subst evs'. pose proof (Permutation_in _ (P Hz) Hin) as Hac. destruct (acquired_in _ _ _ Hac) as (Hp & ps & Hev).
    destruct (drawn_in _ _ _ _ (g_from _ _ _ G) Hev) as (k & n' & _ & _ & Ek).
    assert (Eps : ps = 4096) by (injection Ek; auto). rewrite <- Eps. exact (Mp ps n p Hev Hp).
Qed.

(** the device's part *)
Lemma run_harmless drv c : harmless drv c -> forall ss k m,
  (forall x, m x <> None -> fst (device_run drv k ss m) x <> None) /\
  (forall x, sc_cmnd c <= x < sc_cmnd c + sc_cmd_len c -> fst (device_run drv k ss m) x = m x).
Proof.
  intros H. induction ss as [|s ss IH]; intros k m; cbn [device_run]; [cbn; auto|].
  destruct (drv k s m) as [m1 c1] eqn:E. assert (M1 : m1 = fst (drv k s m)) by (rewrite E; reflexivity).
  destruct (IH (S k) m1) as [I1 I2]. destruct (device_run drv (S k) ss m1) as [m2 cs]. cbn [fst] in *. subst m1. split; intros x Hx.
  - apply I1. apply (proj1 (H k s m x)). exact Hx.
  - rewrite I2 by exact Hx. apply (proj2 (H k s m x)). exact Hx.
Qed.

(** ** C111 *)
Lemma gather_ok sgl : forall n w, (forall x, In x (sg_addrs sgl) -> mem w x <> None) -> exists bs, sg_gather sgl n w = Ret bs w /\ (length bs <= n)%nat.
Proof.
  induction sgl as [|[a l] sgl IH]; intros n w H; cbn [sg_gather]; [exists []; split; [reflexivity|cbn; lia]|].
  cbn [sg_addrs flat_map fst snd] in H. fold (sg_addrs sgl) in H.
  assert (Ha : forall i, (i < N.to_nat l)%nat -> mem w (a + N.of_nat i) <> None).
  { intros i Hi. apply H. apply in_or_app. left. apply in_map_iff. exists i. split; [reflexivity|]. apply in_seq. lia. }
  set (k := Nat.min n (N.to_nat l)).
  destruct (load_mapped w a k) as (x & E & L & _).
  { intros y Hy. replace y with (a + N.of_nat (N.to_nat (y - a))) by lia. apply Ha. unfold k in Hy. lia. }
  destruct (IH (n - k)%nat w) as (y & E2 & L2). { intros z Hz. apply H. apply in_or_app. right. exact Hz. }
  exists (x ++ y). unfold bind. rewrite E, E2. split; [reflexivity|]. rewrite app_length. unfold k in *. lia.
Qed.
Lemma scatter_ok sgl : forall bs w, (forall x, In x (sg_addrs sgl) -> mem w x <> None) -> exists k w', sg_scatter sgl bs w = Ret k w'.
Proof.
  induction sgl as [|[a l] sgl IH]; intros bs w H; cbn [sg_scatter]; [do 2 eexists; reflexivity|].
  cbn [sg_addrs flat_map fst snd] in H. fold (sg_addrs sgl) in H. unfold bind at 1. rewrite store_ok.
  2:{ intros y Hy. rewrite firstn_length in Hy. replace y with (a + N.of_nat (N.to_nat (y - a))) by lia. apply H. apply in_or_app. left.
      apply in_map_iff. exists (N.to_nat (y - a)). split; [reflexivity|]. apply in_seq. lia. }
  destruct (IH (skipn (N.to_nat l) bs) (set_mem w (store_bytes (mem w) a (firstn (N.to_nat l) bs)))) as (k & w' & E).
  { intros x Hx. cbn [mem set_mem]. apply store_bytes_some. apply H. apply in_or_app. right. exact Hx. }
  unfold bind. rewrite E. do 2 eexists. reflexivity.
Qed.

Lemma engine_returns drv wrs q w bs c : harmless drv c -> ptr (rq_cdb q) = sc_cmnd c -> len (rq_cdb q) = sc_cmd_len c ->
  span_holds w (rq_cdb q) bs -> ~ In (byte_at bs 0) [0x1a; 0x5a] -> span_mapped w (rq_data q) -> span_mapped w (rq_sense q) ->
  zero_ok w -> pages_apart w (rq_cdb q) ->
  exists resp t subs w', engine drv wrs q w = Ret (resp, t, subs) w' /\ (forall x, mem w x <> None -> mem w' x <> None).
Proof.
  intros Hd Hp Hl Hc Ho Hb Hs Hz Hap.
  pose proof (Begin_idle_spec true (Translation_init wrs) (rq_cdb q) (rq_data q) (rq_lun q) w (idle_init wrs) (fun _ => span_holds_mapped _ _ _ Hc) (fun _ => Hb)) as S.
  apply cst_tst, tst_inv in S as ([t1 r] & w1 & E & S). destruct S as (Hr & _).
  assert (B : EngineSpec.begins wrs q w = Ret (t1, r) w1) by exact E.
  destruct (begins_maps _ _ _ _ _ _ _ B Hz Hap Hc) as (D1 & C1 & M1).
  unfold engine, ScsiToNvme. 
  replace {| ptr := ptr (rq_cdb q); len := len (rq_cdb q) |} with (rq_cdb q) by (destruct (rq_cdb q); reflexivity).
  replace {| ptr := ptr (rq_data q); len := len (rq_data q) |} with (rq_data q) by (destruct (rq_data q); reflexivity).
  replace {| ptr := ptr (rq_sense q); len := len (rq_sense q) |} with (rq_sense q) by (destruct (rq_sense q); reflexivity).
  unfold bind at 1. rewrite E, Hr. destruct (N.ltb_spec (len (rq_data q)) (br_alloc_len r)) as [L|L].
  { do 4 eexists. split; [reflexivity|exact D1]. }
  unfold bind at 1. rewrite submit_loop_eq. set (subs := map sub_of (GetNvmeWrappers t1)).
  destruct (run_harmless drv c Hd subs 0%nat (mem w1)) as [R1 R2].
  destruct (device_run drv 0 subs (mem w1)) as [m2 cpls]. cbn [fst snd] in *. set (w2 := set_mem w1 m2).
  set (b := if rq_data_in q then {| ptr := ptr (rq_data q); len := br_alloc_len r |} else null_span).
  destruct (C12_complete_defined_partial (Translation_init wrs) w (rq_cdb q) bs (rq_data q) (rq_lun q) t1 r w1 (idle_init wrs) Hc E Ho w2 cpls b (rq_sense q)) as (t2 & r2 & w3 & E3).
  - destruct C1 as [X1 X2]. split; [exact X1|]. intros i v Hi. unfold w2. cbn [mem set_mem]. 
    assert (i < length bs)%nat by (apply nth_error_Some; rewrite Hi; discriminate). rewrite R2 by lia. apply X2. exact Hi.
  - unfold b. destruct (rq_data_in q); intros x Hx; cbn [ptr len null_span] in Hx; [|lia]. unfold w2. cbn [mem set_mem]. apply R1, D1, Hb. lia.
  - intros x Hx. unfold w2. cbn [mem set_mem]. apply R1, D1, Hs. exact Hx.
  - intros p n Hin x Hx. unfold w2. cbn [mem set_mem]. apply R1, (M1 p n Hin). exact Hx.
  - pose proof (prog_maps _ _ _ (p_Complete _ _ _ _) _ _ _ E3) as (D3 & _).
    unfold bind at 1. fold w2. rewrite E3.
    assert (D : forall x, mem w x <> None -> mem w3 x <> None).
    { intros x Hx. apply D3. unfold w2. cbn [mem set_mem]. apply R1, D1. exact Hx. }
    destruct (cr_status r2); do 4 eexists; (split; [reflexivity|exact D]).
Qed.

(** Every command other than MODE SENSE is answered: the adapter comes to its
    end, without undefined behaviour, and calls the mid-layer back once.
    Missing: MODE SENSE, see C106, and the refutation below. *)
Theorem C111_answered_partial : forall drv wrs kz wild c w bs,
  queued w kz c bs -> harmless drv c -> ~ In (byte_at bs 0) [0x1a; 0x5a] ->
  exists r w', scsi_queuecommand drv wrs kz wild c w = Ret r w'.
Proof.
  intros drv wrs kz wild c w bs (Hc & Hcl & Hcs & Hse & Hsg & Hkz & Hap & Hz) Hd Ho.
  rewrite mock_eq. cbv zeta. set (q := mock_request kz wild c). change (len (rq_data q)) with (sc_bufflen c mod 65536). change (rq_data_in q) with (sc_from_device c).
  set (n := sc_bufflen c mod 65536) in *.
  destruct (N.ltb_spec 0 n) as [Hn|Hn]; cbn [andb].
  2:{ (* no data *) assert (n = 0) by lia. rewrite andb_false_r. unfold bind at 1. unfold ret at 1.
      destruct (engine_returns drv wrs q w bs c Hd) as (resp & t & subs & w3 & E & _); try assumption; try reflexivity.
      - unfold q, mock_request. cbn [rq_cdb len]. rewrite N.mod_small by lia. reflexivity.
      - unfold q, mock_request. cbn [rq_cdb]. rewrite N.mod_small by lia. split; [cbn [len]; lia|exact Hc].
      - intros x Hx. change (len (rq_data q)) with n in Hx. lia.
      - unfold q, mock_request. cbn [rq_cdb]. rewrite N.mod_small by lia. exact Hap.
      - unfold bind. rewrite E. do 2 eexists. reflexivity. }
  destruct (N.eqb_spec kz 0) as [K|K]; [do 2 eexists; reflexivity|]. destruct Hkz as [Hkz|Hun]; [contradiction|].
  set (w1 := set_mem (log w (EvAlloc 1 n kz)) (map_pages (mem w) kz n (fun _ => x00))).
  assert (D1 : forall x, mem w x <> None -> mem w1 x = mem w x).
  { intros x Hx. unfold w1. cbn [mem set_mem]. unfold map_pages. destruct ((kz <=? x) && (x <? kz + n)) eqn:Z; [|reflexivity]. exfalso. apply Hx, Hun. lia. }
  assert (B1 : forall x, kz <= x < kz + n -> mem w1 x <> None).
  { intros x Hx. unfold w1. cbn [mem set_mem]. unfold map_pages. replace ((kz <=? x) && (x <? kz + n)) with true by lia. discriminate. }
  (* the copy for data-out *)
  assert (G : exists z w2, (if negb (sc_from_device c) then sg_copy_to_buffer (sc_sgl c) kz n else ret 0) w1 = Ret z w2 /\
     (forall x, mem w1 x <> None -> mem w2 x <> None) /\ (forall x, ~ (kz <= x < kz + n) -> mem w2 x = mem w1 x) /\ ans w2 = ans w1).
  { destruct (sc_from_device c); cbn [negb]; [exists 0, w1; split; [reflexivity|auto]|].
    destruct (gather_ok (sc_sgl c) (N.to_nat n) w1) as (bs1 & E1 & L1). { intros x Hx. rewrite D1; apply Hsg; exact Hx. }
    unfold sg_copy_to_buffer, bind. rewrite E1, store_ok by (intros x Hx; apply B1; lia).
    do 2 eexists. split; [reflexivity|]. split; [intros x; cbn [mem set_mem]; apply store_bytes_some|]. split; [|reflexivity].
    intros x Hx. cbn [mem set_mem]. unfold store_bytes. destruct ((kz <=? x) && (x <? kz + N.of_nat (length bs1))) eqn:Z; [lia|reflexivity]. }
  destruct G as (z & w2 & E2 & G1 & G2 & G3). unfold bind at 1. rewrite E2.
  assert (Ow : forall x, mem w x <> None -> mem w2 x = mem w x).
  { intros x Hx. rewrite G2; [apply D1; exact Hx|]. intros Z. apply Hx, Hun. exact Z. }
  destruct (engine_returns drv wrs q w2 bs c Hd) as (resp & t & subs & w3 & E & D3); try assumption; try reflexivity.
  - unfold q, mock_request. cbn [rq_cdb len]. rewrite N.mod_small by lia. reflexivity.
  - unfold q, mock_request. cbn [rq_cdb]. rewrite N.mod_small by lia. split; [cbn [len]; lia|]. intros i b Hi. rewrite Ow; [apply Hc; exact Hi|]. cbn [ptr]. rewrite (Hc _ _ Hi). discriminate.
  - unfold q, mock_request. cbn [rq_data]. cbv zeta. fold n. replace (0 <? n) with true by lia. intros x Hx. cbn [ptr len] in Hx. apply G1, B1. exact Hx.
  - intros x Hx. rewrite Ow; apply Hse; exact Hx.
  - intros k ps. rewrite G3. apply Hz.
  - unfold q, mock_request. cbn [rq_cdb]. rewrite N.mod_small by lia. intros k ps m. rewrite G3. apply Hap.
  - unfold bind at 1. rewrite E.
    destruct (C49_response_fits _ _ _ _ _ _ _ _ E) as (_ & _ & _ & _ & L & _). change (len (rq_data q)) with n in L.
    assert (B3 : forall x, kz <= x < kz + n -> mem w3 x <> None) by (intros x Hx; apply D3, G1, B1; exact Hx).
    rewrite andb_true_r. destruct (sc_from_device c).
    + unfold bind at 1. unfold bind at 1. unfold sg_copy_from_buffer. unfold bind at 1.
      destruct (load_mapped w3 kz (N.to_nat (N.min (er_alloc_len resp) (sg_total (sc_sgl c))))) as (img & El & _ & _).
      { intros x Hx. apply B3. lia. }
      rewrite El. destruct (scatter_ok (sc_sgl c) img w3) as (k & w4 & E4).
      { intros x Hx. apply D3. rewrite Ow; apply Hsg; exact Hx. }
      rewrite E4. unfold bind, ret, kfree. do 2 eexists. reflexivity.
    + unfold bind, ret, kfree. do 2 eexists. reflexivity.
Qed.
Print Assumptions C111_answered_partial.

(** Refuted for MODE SENSE(6) without block descriptor for the Control and Power
    Condition pages: undefined behaviour, so no answer. *)
Theorem C111_mode_sense_refuted : forall drv wrs kz wild c w bs, asks_mode w kz c bs -> ms_dbd bs = true -> In (ms_page bs) [0x0a; 0x1a] ->
  ~ exists r w', scsi_queuecommand drv wrs kz wild c w = Ret r w'.
Proof.
  intros drv wrs kz wild c w bs H1 H2 H3 (r & w' & E). destruct (C106_no_command_refuted drv wrs kz wild c w bs H1 H2 H3) as (s & U). rewrite U in E. discriminate E.
Qed.
Print Assumptions C111_mode_sense_refuted.

Lemma table_sam : forallb (fun e => existsb (N.eqb (fst (fst (fst (snd e))))) sam_status) status_table = true.
Proof. vm_compute. reflexivity. Qed.
Lemma assoc2_in k l v : assoc2 k l = Some v -> exists k', In (k', v) l.
Proof.
  induction l as [|[k1 v1] l IH]; cbn [assoc2]; [discriminate|]. destruct (_ && _); intros H; [exists k1; left; f_equal; apply Some_eq; exact H|].
  destruct (IH H) as (k' & Hin). exists k'. right. exact Hin.
Qed.
Lemma status_sam sct sc : In (fst (fst (fst (scsi_status_of sct sc)))) sam_status.
Proof.
  unfold scsi_status_of. destruct (assoc2 (sct, sc) status_table) as [v|] eqn:E; [|right; left; reflexivity].
  apply assoc2_in in E as (k & Hin). pose proof table_sam as T. rewrite forallb_forall in T. specialize (T _ Hin). cbn [snd] in T.
  apply existsb_exists in T as (x & Hx & Q). apply N.eqb_eq in Q. rewrite Q. exact Hx.
Qed.
Lemma completed_sam cpls : In (fst (fst (fst (completed_with cpls)))) sam_status.
Proof. induction cpls as [|c cs IH]; cbn [completed_with]; [left; reflexivity|]. destruct (_ && _); [exact IH|apply status_sam]. Qed.

(** The answer is a SAM status.  Missing: when the adapter's own buffer cannot
    be allocated. *)
Theorem C111_status_partial : forall drv wrs kz wild c w r w',
  scsi_queuecommand drv wrs kz wild c w = Ret r w' -> sc_bufflen c mod 65536 = 0 \/ kz <> 0 -> In (mr_result r) sam_status.
Proof.
  intros drv wrs kz wild c w r w' E Hk.
  destruct (mock_inv _ _ _ _ _ _ _ _ E Hk) as (w2 & resp & t & subs & w3 & w4 & _ & _ & E2 & -> & _).
  destruct (engine_cases _ _ _ _ _ _ _ _ E2) as (tb & rb & wb & Eb & Hr & C). pose proof (begins_inv _ _ _ _ _ _ Eb Hr) as I.
  assert (TA : In TASK_ABORTED sam_status) by (cbn [In sam_status]; do 7 right; left; reflexivity).
  destruct C as [(_ & -> & _)|(_ & -> & cr & C & ->)]; [exact TA|]. destruct (is_api_success (cr_status cr)); [|exact TA]. cbn [er_return_code].
  assert (Hn : N.of_nat (length (snd (device_run drv 0 (map sub_of (GetNvmeWrappers tb)) (mem wb)))) = nvme_cmd_count tb).
  { rewrite device_run_length, map_length. pose proof (i_wf _ _ I) as (W & _). unfold GetNvmeWrappers. rewrite firstn_length. cbn [length]. lia. }
  destruct (Complete_verdict _ _ _ _ _ _ _ _ (i_wf _ _ I) (inv_busy _ I) Hn C) as (_ & Y & N).
  assert (D : accepted tb \/ ~ accepted tb) by (unfold accepted; destruct (pipeline_status tb); auto; right; discriminate).
  destruct D as [D|D]; [rewrite (proj1 (Y D)); apply completed_sam|rewrite (proj1 (N D)); right; left; reflexivity].
Qed.
Print Assumptions C111_status_partial.

(** Refuted when it cannot: the answer is 23 (17h), which is no status. *)
Theorem C111_out_of_memory_refuted : forall drv wrs wild c w, sc_bufflen c mod 65536 <> 0 ->
  exists r w', scsi_queuecommand drv wrs 0 wild c w = Ret r w' /\ mr_result r = 23 /\ ~ In 23 sam_status.
Proof.
  intros drv wrs wild c w Hn. rewrite mock_eq. cbv zeta. change (len (rq_data (mock_request 0 wild c))) with (sc_bufflen c mod 65536).
  replace (0 <? sc_bufflen c mod 65536) with true by lia. change (0 =? 0) with true. cbn [andb]. do 2 eexists. split; [reflexivity|]. split; [reflexivity|].
  cbn [In sam_status]. intros H. repeat (destruct H as [H|H]; [discriminate H|]). exact H.
Qed.
Print Assumptions C111_out_of_memory_refuted.

(** ** The premises are met *)
(** ex_world12 with all of the sense buffer mapped, and with a page allocator
    that hands out nothing if [no] *)
Definition ex_world41 (no : bool) (bs : list byte) : world :=
  {| mem := fun x => if (0x40000 <=? x) && (x <? 0x40060) then Some x00 else mem (ex_world12 bs) x; alloc_cb := true; dealloc_cb := true;
     ans := if no then fun _ _ _ => 0 else ans (ex_world12 bs); fill := fun _ _ => x00; junk := fun _ _ => x00; tick := 0; trace := [] |}.
Lemma ex_queued no bs : (length bs <= 16)%nat -> queued (ex_world41 no bs) 0x90000 (ex_scsi bs true 96) bs.
Proof.
  intros L.
  assert (Z : forall x, 0x20000 <= x < 0x20060 -> mem (ex_world41 no bs) x <> None).
  { intros x Hx. cbn [mem ex_world41 ex_world12 ex_world ex_world_with]. replace (0x40000 <=? x) with false by lia. cbn [andb]. unfold ex_mem, Witness.region, zeros. cbn [length].
    replace ((0x1000 <=? x) && (x <? 0x1000 + N.of_nat (length bs))) with false by lia.
    replace ((0x10000 <=? x) && (x <? 0x10000 + N.of_nat 0)) with false by lia.
    replace ((0x20000 <=? x) && (x <? 0x20000 + 0x10000)) with true by lia. discriminate. }
  split; [|split; [reflexivity|split; [unfold ex_scsi, ex_cdb; cbn [sc_cmd_len len]; lia|]]].
  { intros i b Hi. assert (i < length bs)%nat by (apply nth_error_Some; rewrite Hi; discriminate).
    change (sc_cmnd _) with 0x1000. cbn [mem ex_world41 ex_world12]. replace (0x40000 <=? 0x1000 + N.of_nat i) with false by lia. cbn [andb].
    exact (proj2 (ex_cdb_holds (fun _ _ => x00) xff bs []) i b Hi). }
  split. { intros x Hx. change (sc_sense _) with 0x40000 in Hx. cbn [mem ex_world41]. replace ((0x40000 <=? x) && (x <? 0x40060)) with true by lia. discriminate. }
  split.
  { intros a Ha. apply Z. change (sg_addrs (sc_sgl (ex_scsi bs true 96))) with (sg_addrs [(0x20030, 48); (0x20000, 48)]) in Ha.
    assert (F : forallb (fun a => (0x20000 <=? a) && (a <? 0x20060)) (sg_addrs [(0x20030, 48); (0x20000, 48)]) = true) by (vm_compute; reflexivity).
    rewrite forallb_forall in F. specialize (F a Ha). lia. }
  split; [right|split].
  - intros x Hx. change (sc_bufflen (ex_scsi bs true 96) mod 65536) with 96 in Hx. cbn [mem ex_world41 ex_world12 ex_world ex_world_with].
    replace (x <? 0x40060) with false by lia. rewrite andb_false_r. unfold ex_mem, Witness.region, zeros. cbn [length].
    replace (x <? 0x1000 + N.of_nat (length bs)) with false by lia. rewrite andb_false_r.
    replace (x <? 0x10000 + N.of_nat 0) with false by lia. rewrite andb_false_r.
    replace (x <? 0x20000 + 0x10000) with false by lia. rewrite andb_false_r.
    replace (x <? 0x40000 + 32) with false by lia. rewrite andb_false_r. reflexivity.
  - intros k ps n. cbv zeta. cbn [ans ex_world41 ex_world12]. destruct no; [left; reflexivity|]. destruct (n =? 0); [left; reflexivity|]. right; right.
    unfold u64. rewrite N.mod_small; unfold ex_scsi, ex_cdb; cbn [sc_cmnd sc_cmd_len ptr len]; pose proof (N.mod_lt (N.of_nat k) 4); [change (2 ^ 64) with 18446744073709551616|]; lia.
  - intros k ps. cbn [ans ex_world41 ex_world12]. destruct no; reflexivity.
Qed.
(** a device that writes to the named buffer only if it is one of the pages *)
Definition ex_harmless : driver := fun _ s m =>
  if 0x100000 <=? sub_buffer s then (store_bytes m (sub_buffer s) (repeat xaa 16), 0) else (m, N.shiftl 0x80 113).
Lemma ex_harmless_ok c : sc_cmnd c + sc_cmd_len c <= 0x100000 -> harmless ex_harmless c.
Proof.
  intros H k s m x. unfold ex_harmless. destruct (N.leb_spec 0x100000 (sub_buffer s)); cbn [fst]; split; auto.
  - apply store_bytes_some.
  - intros Hx. unfold store_bytes. replace (sub_buffer s <=? x) with false by lia. reflexivity.
Qed.
(** INQUIRY; the same without pages; READ(10) without room, refused; an unknown
    opcode; the empty CDB; and INQUIRY when the buffer cannot be allocated *)
Definition ex_run41 (no : bool) (kz : N) (bs : list byte) :=
  match scsi_queuecommand ex_harmless ex_wrs kz 0xdead (ex_scsi bs true 96) (ex_world41 no bs) with
  | Ret r _ => Some (mr_result r, mr_resid r, length (mr_subs r)) | UB _ => None end.
Example C111_premises_met :
  queued (ex_world41 false (B [0x12;0;0;0;36;0])) 0x90000 (ex_scsi (B [0x12;0;0;0;36;0]) true 96) (B [0x12;0;0;0;36;0]) /\
  harmless ex_harmless (ex_scsi (B [0x12;0;0;0;36;0]) true 96) /\
  ex_run41 false 0x90000 (B [0x12;0;0;0;36;0]) = Some (GOOD, Some 60, 2%nat) /\
  ex_run41 true 0x90000 (B [0x12;0;0;0;36;0]) = Some (CHECK_CONDITION, Some 60, 0%nat) /\
  ex_run41 false 0x90000 (B [0x28;0;0;0;0;0;0;0;1;0]) = Some (TASK_ABORTED, Some 96, 0%nat) /\
  ex_run41 false 0x90000 (B [0xff]) = Some (CHECK_CONDITION, Some 96, 0%nat) /\
  ex_run41 false 0x90000 [] = Some (CHECK_CONDITION, Some 96, 0%nat) /\
  ex_run41 false 0 (B [0x12;0;0;0;36;0]) = Some (23, None, 0%nat).
Proof.
  split; [apply ex_queued; cbn; lia|]. split; [apply ex_harmless_ok; vm_compute; discriminate|].
  split; [vm_compute; reflexivity|]. split; [vm_compute; reflexivity|]. split; [vm_compute; reflexivity|]. split; [vm_compute; reflexivity|]. split; vm_compute; reflexivity.
Qed.
