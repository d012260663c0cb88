(** C90: which pages the engine and the adapter fail to free. *)
From Coq Require Import Arith NArith String List Lia Bool Init.Byte Permutation.
From Coq Require Import ZifyBool ZifyNat ZifyN.
From Verif Require Import Bytes Layout World ScsiDefs NvmeDefs Common ModeSenseCmd TranslationCls EngineE2e MockModule
  Spec RwSpec InquirySpec SmallSpec ModeSpec UnmapSpec EngineSpec MockSpec AcceptSpec
  Facts Logic BeginFacts CompleteFacts RwFacts AdminFacts InquiryFacts SmallFacts ModeFacts UnmapFacts RelFacts CatalogFacts ProgFacts AcceptFacts EngineFacts MockFacts Witness
  Properties1 Properties2 Properties9 Properties11 Properties24.
Import ListNotations.
Local Open Scope string_scope.
Local Open Scope list_scope.
Local Open Scope N_scope.

Lemma given_pages_app a b : given_pages (a ++ b) = given_pages a ++ given_pages b.
Proof. unfold given_pages. rewrite filter_app, map_app. reflexivity. Qed.
Lemma acquired_answers an : (forall k s, an k s 0 = 0) -> forall evs k, drawn an k evs -> acquired evs = given_pages (page_answers evs).
Proof.
  intros Hz. induction evs as [|[s n a|a n] evs IH]; intros k H; cbn [drawn acquired page_answers flat_map] in *; [reflexivity| |contradiction].
  destruct H as ((-> & Hn & ->) & H). rewrite given_pages_app, (IH _ H). f_equal.
  assert (n = 0 \/ n = 1) as [-> | ->] by lia.
  - rewrite Hz. reflexivity.
  - change ((4096 =? 4096) && (1 =? 1)) with true. cbv iota. unfold given_pages. cbn [filter map]. destruct (_ =? 0); reflexivity.
Qed.

(** what an accepted object holds are the pages given *)
Lemma begins_held wrs q w t1 r w1 ps : sane_allocator w -> begins wrs q w = Ret (t1, r) w1 -> accepted t1 -> answered w w1 ps ->
  Permutation (held t1) (given_pages ps).
Proof.
  intros (Ha & Hd & Hz) E Hacc A.
  pose proof (Begin_idle_spec false (Translation_init wrs) (rq_cdb q) (rq_data q) (rq_lun q) w (idle_init wrs) (no_ok_span _ _) (no_ok_span _ _)) as S.
  unfold cst in S. unfold begins in E. rewrite E in S. destruct S as (_ & _ & _ & _ & _ & w2 & evs & rel & G & Rl & Hr & P).
  specialize (P Hz). rewrite (Hr Hacc) in *. cbn [app] in P.
  assert (T : trace w1 = trace w ++ evs).
  { rewrite (r_trace _ _ _ Rl), (g_trace _ _ _ G). destruct (dealloc_cb w2); unfold releases; cbn [map rev]; apply app_nil_r. }
  rewrite (answered_unique _ _ _ _ A (ex_intro _ _ (conj T eq_refl))), <- (acquired_answers _ Hz _ _ (g_from _ _ _ G)). exact P.
Qed.

Lemma mock_inv_data drv wrs kz wild c w r w' : let q := mock_request kz wild c in let n := len (rq_data q) in
  scsi_queuecommand drv wrs kz wild c w = Ret r w' -> n = 0 \/ kz <> 0 ->
  exists w2 resp t subs w3 w4,
    prepared w w2 kz n /\
    (forall d, unused w kz n -> sg_holds w (sc_sgl c) d -> N.of_nat (length d) = N.min n (sg_total (sc_sgl c)) -> span_holds w2 (rq_data q) (handed c n d)) /\
    (rq_data_in q = true -> 0 < n -> w2 = with_buffer w kz n) /\
    engine drv wrs q w2 = Ret (resp, t, subs) w3 /\
    mr_result r = er_return_code resp /\ mr_subs r = subs /\
    (if rq_data_in q && (0 <? n)
     then let k := N.min (er_alloc_len resp) (sg_total (sc_sgl c)) in
          mr_resid r = Some (n - k) /\ exists bs, N.of_nat (length bs) = k /\ bytes_at w3 kz bs /\ sg_scatter (sc_sgl c) bs w3 = Ret k w4
     else mr_resid r = None /\ w4 = w3) /\
    w' = (if 0 <? n then log w4 (EvDealloc kz n) else w4).
Proof.
  intros q n E H. rewrite mock_eq in E. cbv zeta in E. fold q in E. fold n in E.
  replace ((0 <? n) && (kz =? 0)) with false in E by lia.
  set (w1 := if 0 <? n then _ else w) in E.
  assert (W1 : w1 = if 0 <? n then with_buffer w kz n else w).
  { unfold w1. destruct (0 <? n) eqn:En; [|reflexivity]. replace (kz =? 0) with false by lia. reflexivity. }
  assert (P1 : prepared w w1 kz n).
  { rewrite W1. destruct (0 <? n) eqn:En; constructor; rewrite ?En; try reflexivity; auto.
    - intros x Hx. apply with_buffer_out. exact Hx.
    - intros x Hx. unfold with_buffer. cbn [mem set_mem]. unfold map_pages. destruct ((kz <=? x) && (x <? kz + n)); [discriminate|exact Hx].
    - repeat split.
    - rewrite app_nil_r. reflexivity.
    - repeat split. }
  assert (Q : forall d, unused w kz n -> sg_holds w (sc_sgl c) d -> N.of_nat (length d) = N.min n (sg_total (sc_sgl c)) -> forall z w2,
    (if (0 <? n) && negb (rq_data_in q) then sg_copy_to_buffer (sc_sgl c) kz n else ret 0) w1 = Ret z w2 -> span_holds w2 (rq_data q) (handed c n d)).
  { intros d Hun Hd Hdl z w2 E0. assert (Hlh : N.of_nat (length (handed c n d)) = n).
    { unfold handed. rewrite app_length, repeat_length. destruct (sc_from_device c); cbn [length]; lia. }
    split; [rewrite Hlh; reflexivity|]. change (ptr (rq_data q)) with (if 0 <? n then kz else wild). destruct (N.ltb_spec 0 n) as [Hn|Hn].
    2:{ intros i b Hi. assert (X : (i < length (handed c n d))%nat) by (apply nth_error_Some; congruence). lia. }
    change (rq_data_in q) with (sc_from_device c) in E0. cbn [andb] in E0. unfold handed in *.
    assert (Z : forall x, kz <= x < kz + n -> mem w1 x = Some x00).
    { intros x Hx. rewrite W1. apply with_buffer_in. exact Hx. }
    destruct (sc_from_device c); cbn [negb] in E0.
    - apply ret_eq in E0 as [_ <-]. intros i b Hi. cbn [app length] in Hi. rewrite Nat.sub_0_r in Hi.
      assert (X : (i < N.to_nat n)%nat) by (rewrite <- (repeat_length x00 (N.to_nat n)); apply nth_error_Some; congruence).
      rewrite nth_error_repeat in Hi by exact X. injection Hi as <-. apply Z. lia.
    - unfold sg_copy_to_buffer in E0. pose proof (sg_total_length (sc_sgl c)) as TL.
      unfold bind at 1 in E0. rewrite (sg_gather_ok (sc_sgl c) (N.to_nat n) d w1) in E0; [|split; [apply Hd|]|lia].
      + apply bind_ret_inv in E0 as ([] & w7 & Es & E0). apply ret_eq in E0 as [_ <-]. apply store_inv in Es as (Hm & ->). intros i b Hi. cbn [mem set_mem].
        destruct (le_lt_dec (length d) i) as [G|G].
        * rewrite nth_error_app2 in Hi by exact G. rewrite store_bytes_out by lia.
          assert (X : (i - length d < N.to_nat n - length d)%nat) by (rewrite <- (repeat_length x00 (N.to_nat n - length d)); apply nth_error_Some; congruence).
          rewrite nth_error_repeat in Hi by exact X. injection Hi as <-. apply Z. lia.
        * rewrite nth_error_app1 in Hi by exact G. apply store_bytes_in. exact Hi.
      + intros i a b Ha Hb. rewrite W1. destruct Hd as [_ Hd]. pose proof (Hd i a b Ha Hb) as X. replace (0 <? n) with true by lia. rewrite with_buffer_old; [exact X|exact Hun|congruence]. }
  clearbody w1.
  apply bind_ret_inv in E as (z & w2 & E0 & E). apply bind_ret_inv in E as ([[resp t] subs] & w3 & E1 & E).
  apply bind_ret_inv in E as (rs & w4 & E2 & E). apply bind_ret_inv in E as ([] & w5 & E3 & E). unfold ret in E. injection E as <- <-.
  assert (P2 : prepared w w2 kz n /\ (rq_data_in q = true -> w2 = w1)).
  { destruct ((0 <? n) && negb (rq_data_in q)) eqn:C.
    - split; [|intros Y; rewrite Y in C; rewrite andb_false_r in C; discriminate].
      unfold sg_copy_to_buffer in E0. apply bind_ret_inv in E0 as (y & w6 & Eg & E0). apply bind_ret_inv in E0 as ([] & w7 & Es & E0).
      unfold ret in E0. injection E0 as _ <-. apply sg_gather_pure in Eg as (-> & L). apply store_inv in Es as (Hm & ->). destruct P1 as [A D T C1].
      constructor; [| |exact T|eapply same_cfg_trans; [exact C1|repeat split]].
      + intros x Hx. cbn [mem set_mem]. rewrite store_bytes_out by lia. apply A. exact Hx.
      + intros x Hx. cbn [mem set_mem]. unfold store_bytes. destruct ((kz <=? x) && (x <? kz + N.of_nat (length y))) eqn:Y; [discriminate|apply D; exact Hx].
    - unfold ret in E0. injection E0 as _ <-. auto. }
  destruct P2 as [P2 P2'].
  exists w2, resp, t, subs, w3, w4. split; [exact P2|]. split; [intros d U1 U2 U3; exact (Q d U1 U2 U3 _ _ E0)|]. split.
  { intros Y Z. rewrite (P2' Y), W1. replace (0 <? n) with true by lia. reflexivity. }
  split; [exact E1|]. split; [reflexivity|]. split; [reflexivity|]. cbn [mr_resid]. split.
  - destruct (rq_data_in q && (0 <? n)) eqn:C.
    + apply bind_ret_inv in E2 as (k & w6 & E2 & E4). unfold ret in E4. injection E4 as <- <-. unfold sg_copy_from_buffer in E2.
      apply bind_ret_inv in E2 as (bs & w7 & El & E2). apply load_inv in El as (-> & L & Hb). cbv zeta.
      assert (K : k = N.min (er_alloc_len resp) (sg_total (sc_sgl c))).
      { apply sg_scatter_set in E2 as Z. destruct Z as (_ & Z & _). lia. }
      rewrite <- K. split; [reflexivity|]. exists bs. split; [lia|]. split; [exact Hb|exact E2].
    + unfold ret in E2. injection E2 as <- <-. auto.
  - destruct (0 <? n); [unfold kfree in E3; injection E3 as <-; reflexivity|unfold ret in E3; injection E3 as <-; reflexivity].
Qed.

(** ** C90 *)
Definition lost (bs pl : list byte) (n : N) (ps : list N) : list (N * N) :=
  if acceptable bs pl n ps && (n <? promised bs) then given_pages ps else [].

Lemma complete_answers t1 cpls b s w t' cr w' : wf t1 -> pipeline_status t1 <> kUninitialized -> Complete t1 cpls b s w = Ret (t', cr) w' -> answered w w' [].
Proof.
  intros W U E. pose proof (Complete_spec t1 cpls b s w W U) as S. apply (pst_use _ _ _ _ _ S) in E. destruct E as (_ & w2 & F & R & _).
  change ([] : list N) with (@nil N ++ @nil N). eapply answered_trans; [|eapply answered_released; exact R].
  eapply answered_trace; [exact (f_trace _ _ _ F)|apply answered_same].
Qed.

Theorem C90_engine_leaks_exactly : forall drv wrs q w bs pl o resp t subs w',
  sane_allocator w -> ledger (trace w) = Some o -> span_holds w (rq_cdb q) bs ->
  (byte_at bs 0 = 0x42 -> span_holds w (rq_data q) pl /\ pages_apart w (rq_cdb q)) ->
  engine drv wrs q w = Ret (resp, t, subs) w' ->
  exists ps o', answered w w' ps /\ ledger (trace w') = Some o' /\
    Permutation o' ((if acceptable bs pl (len (rq_data q)) ps && (len (rq_data q) <? promised bs) then given_pages ps else []) ++ o).
Proof.
  intros drv wrs q w bs pl o resp t subs w' Hs Ho Hc Hu E.
  pose proof (C48_pages_released_partial drv wrs q w o resp t subs w' Hs Ho E) as Bal.
  destruct (engine_cases _ _ _ _ _ _ _ _ E) as (t1 & r & w1 & E1 & Hr & C).
  destruct (C89_accepted_iff (Translation_init wrs) (rq_cdb q) (rq_data q) (rq_lun q) w bs pl t1 r w1 (idle_init wrs) Hc E1 Hu) as (ps & A & Acc & Prom).
  exists ps. pose proof (begins_inv _ _ _ _ _ _ E1 Hr) as I.
  assert (A' : answered w w' ps).
  { destruct C as [(_ & _ & _ & _ & ->)|(_ & _ & cr & E2 & _)]; [exact A|].
    rewrite <- (app_nil_r ps). eapply answered_trans; [exact A|]. apply complete_answers in E2; [|exact (i_wf _ _ I)|exact (inv_busy _ I)].
    destruct E2 as (e & T & <-). exists e. split; [exact T|reflexivity]. }
  destruct (acceptable bs pl (len (rq_data q)) ps) eqn:Ea; cbn [andb].
  - assert (Ha : accepted t1) by (apply Acc; reflexivity). rewrite (Prom Ha) in *.
    destruct (N.ltb_spec (len (rq_data q)) (promised bs)) as [L|L].
    + destruct C as [(_ & _ & _ & _ & ->)|(L2 & _)]; [|lia].
      destruct (begins_ledger _ _ _ _ _ _ _ Hs Ho E1) as (_ & o1 & L1 & P1). exists o1. split; [exact A|]. split; [exact L1|].
      rewrite P1. apply Permutation_app_tail. eapply begins_held; eassumption.
    + destruct Bal as (o' & L' & P'); [|exists o'; auto]. intros t2 r2 w2 E2. rewrite E1 in E2. apply ret_eq in E2 as [E2 _]. apply pair_eq in E2 as [<- <-].
      right. rewrite (Prom Ha). exact L.
  - destruct Bal as (o' & L' & P'); [|exists o'; auto]. intros t2 r2 w2 E2. rewrite E1 in E2. apply ret_eq in E2 as [E2 _]. apply pair_eq in E2 as [<- <-].
    left. split; [intros X; apply Acc in X; discriminate X|exact (inv_busy _ I)].
Qed.
Print Assumptions C90_engine_leaks_exactly.

Theorem C90_adapter_leaks_exactly : forall drv wrs kz wild c w bs d o r w',
  sane_allocator w -> ledger (trace w) = Some o ->
  bytes_at w (sc_cmnd c) bs -> N.of_nat (length bs) = sc_cmd_len c -> sc_cmd_len c < 65536 ->
  let n := sc_bufflen c mod 65536 in unused w kz n ->
  (byte_at bs 0 = 0x42 -> sg_holds w (sc_sgl c) d /\ N.of_nat (length d) = N.min n (sg_total (sc_sgl c)) /\
     pages_apart w {| ptr := sc_cmnd c; len := sc_cmd_len c |}) ->
  scsi_queuecommand drv wrs kz wild c w = Ret r w' ->
  exists ps o', answered w w' ps /\ ledger (trace w') = Some o' /\
    Permutation o' ((if acceptable bs (handed c n d) n ps && (n <? promised bs) then given_pages ps else []) ++ o).
Proof.
  intros drv wrs kz wild c w bs d o r w' Hs Ho Hc Hl Hlt n Hun Hu E.
  set (q := mock_request kz wild c).
  assert (Hcases : (0 < n /\ kz = 0) \/ (n = 0 \/ kz <> 0)) by lia.
  destruct Hcases as [[Hn Hk]|Hk].
  - exists [], o. rewrite mock_eq in E. cbv zeta in E. fold q in E. change (len (rq_data q)) with n in E. subst kz.
    replace ((0 <? n) && (0 =? 0)) with true in E by lia.
    replace (0 <? n) with true in E by lia. change (0 =? 0) with true in E. cbv iota in E. injection E as _ <-. split; [|split].
    + exists [EvAlloc 1 n 0]. split; reflexivity.
    + cbn [trace log]. rewrite (ledger_snoc _ _ _ Ho). reflexivity.
    + destruct (_ && _); apply Permutation_refl.
  - destruct (mock_inv_data drv wrs kz wild c w r w' E Hk) as (w2 & resp & t & subs & w3 & w4 & P & Hd & _ & E1 & _ & _ & D & W).
    fold q in P, E1, D, W. change (len (rq_data q)) with n in P, D, W.
    pose proof (mock_cdb kz wild c w w2 bs P Hun Hc Hl Hlt) as Hc2. fold q in Hc2.
    assert (Hu2 : byte_at bs 0 = 0x42 -> span_holds w2 (rq_data q) (handed c n d) /\ pages_apart w2 (rq_cdb q)).
    { intros X. destruct (Hu X) as (X1 & X2 & X3). split; [apply Hd; assumption|].
      intros k ps0 n0. specialize (X3 k ps0 n0). destruct (p_cfg _ _ _ _ P). unfold q, mock_request. cbn [rq_cdb ptr len] in *. rewrite N.mod_small by exact Hlt.
      cbv zeta in *. congruence. }
    pose proof (p_trace _ _ _ _ P) as T.
    set (o2 := if 0 <? n then (kz, n) :: o else o).
    assert (L2 : ledger (trace w2) = Some o2).
    { rewrite T. unfold o2. destruct (N.ltb_spec 0 n) as [Hn|Hn]; [|rewrite app_nil_r; exact Ho].
      rewrite (ledger_snoc _ _ _ Ho). cbn [ledger_step]. replace (kz =? 0) with false by lia. reflexivity. }
    destruct (C90_engine_leaks_exactly drv wrs q w2 bs (handed c n d) o2 resp t subs w3 (sane_cfg _ _ (p_cfg _ _ _ _ P) Hs) L2 Hc2 Hu2 E1) as (ps & o3 & A3 & L3 & P3).
    change (len (rq_data q)) with n in P3. fold (lost bs (handed c n d) n ps) in P3 |- *.
    exists ps.
    assert (T4 : trace w4 = trace w3).
    { destruct (rq_data_in q && (0 <? n)).
      - destruct D as (_ & bs' & _ & _ & D). apply sg_scatter_set in D as (-> & _). reflexivity.
      - destruct D as [_ ->]. reflexivity. }
    assert (A2 : answered w w2 []).
    { eexists. split; [exact T|]. destruct (0 <? n); reflexivity. }
    pose proof (answered_trans _ _ _ _ _ A2 A3) as A4. cbn [app] in A4. apply (answered_trace _ _ w4) in A4; [|exact T4].
    unfold o2 in P3. subst w'. destruct (N.ltb_spec 0 n) as [Hn|Hn].
    + cbn [trace log]. rewrite T4, (ledger_snoc _ _ _ L3). cbn [ledger_step].
      destruct (remove_run_in (kz, n) o3 (lost bs (handed c n d) n ps ++ o)) as (o4 & R4 & P4).
      { rewrite P3. apply Permutation_sym, Permutation_middle. }
      exists o4. split; [|split; [exact R4|exact P4]].
      destruct A4 as (e & Te & <-). exists (e ++ [EvDealloc kz n]). split; [cbn [trace log]; rewrite Te, app_assoc; reflexivity|].
      rewrite answers_app. apply app_nil_r.
    + exists o3. split; [exact A4|]. rewrite T4. split; [exact L3|exact P3].
Qed.
Print Assumptions C90_adapter_leaks_exactly.

(** both sides, executed: INQUIRY with ALLOCATION LENGTH 255 and 36 for 36 bytes of data *)
Definition ex_ledger (bs : list byte) : option (option (list (N * N)) * list N) :=
  match scsi_queuecommand (ex_answer []) ex_wrs 0x90000 0 (ex_scsi bs true 36) (ex_world bs) with
  | Ret _ w' => Some (ledger (trace w'), page_answers (trace w'))
  | UB _ => None
  end.
Example C90_runs :
  ex_ledger (B [0x12;0;0;0;255;0]) = Some (Some [(0x300000, 1); (0x100000, 1)], [0x100000; 0x300000]) /\
  acceptable (B [0x12;0;0;0;255;0]) [] 36 [0x100000; 0x300000] && (36 <? promised (B [0x12;0;0;0;255;0])) = true /\
  given_pages [0x100000; 0x300000] = [(0x100000, 1); (0x300000, 1)] /\
  ex_ledger (B [0x12;0;0;0;36;0]) = Some (Some [], [0x100000; 0x300000]) /\
  acceptable (B [0x12;0;0;0;36;0]) [] 36 [0x100000; 0x300000] && (36 <? promised (B [0x12;0;0;0;36;0])) = false.
Proof. repeat split; vm_compute; reflexivity. Qed.
