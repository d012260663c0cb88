(** C91: the announced length, and the outcome of every request. *)
From Coq Require Import Arith NArith String List Lia Bool Init.Byte.
From Coq Require Import ZifyBool ZifyNat ZifyN.
From Verif Require Import Bytes Layout World ScsiDefs NvmeDefs Common ModeSenseCmd TranslationCls EngineE2e MockModule
  Spec RwSpec InquirySpec SmallSpec ModeSpec UnmapSpec EngineSpec MockSpec AcceptSpec
  Facts Logic BeginFacts CompleteFacts StatusFacts RwFacts AdminFacts InquiryFacts SmallFacts ModeFacts UnmapFacts RelFacts CatalogFacts ProgFacts AcceptFacts AnnounceFacts EngineFacts MockFacts Witness
  Properties1 Properties2 Properties6 Properties9 Properties11 Properties24 Properties25.
Import ListNotations.
Local Open Scope string_scope.
Local Open Scope list_scope.
Local Open Scope N_scope.

Ltac split_all bs H := unfold read_acceptable, rw_len in *;
  repeat match goal with H : _ && _ = true |- _ => apply andb_true_iff in H as [? ?] end;
  repeat match goal with H : ?b = true |- context [?b] => rewrite H end; cbn [andb].
(** ** C91 *)
Theorem C91_announced_length : forall t cdb buffer lun w bs pl t' r w',
  idle t -> span_holds w cdb bs ->
  (byte_at bs 0 = 0x42 -> span_holds w buffer pl /\ pages_apart w cdb) -> (byte_at bs 0 = 0x5a -> pages_apart w cdb) ->
  Begin t cdb buffer lun w = Ret (t', r) w' ->
  br_alloc_len r = announced bs /\ (forall n ps, acceptable bs pl n ps = true -> announced bs = promised bs).
Proof.
  intros t cdb buffer lun w bs pl t' r w' Hi Hc Hu Hm E. split; [eapply Begin_announces; eassumption|].
  clear. intros n ps H. unfold acceptable in H. unfold announced, promised. cbv zeta. destruct (at_least 1 bs); [|discriminate H]. cbn [andb] in H.
  revert H. generalize (byte_at bs 0) as o. intros o H.
  destruct o as [|o]; [reflexivity|].
  do 8 (destruct o as [o|o|]; try reflexivity; try discriminate H; try (split_all bs H; reflexivity)).
Qed.
Print Assumptions C91_announced_length.

Lemma completed_first cpls : match first_error cpls with
  | None => completed_with cpls = (GOOD, 0, 0, 0) | Some s => tuple s = completed_with cpls end.
Proof.
  induction cpls as [|c cs IH]; [reflexivity|].
  destruct (N.eqb_spec (cpl_sct c) 0) as [H1|H1]; [destruct (N.eqb_spec (cpl_sc c) 0) as [H2|H2]|].
  - cbn [completed_with]. rewrite H1, H2. change ((0 =? 0) && (0 =? 0)) with true. cbv iota.
    assert (X : first_error (c :: cs) = first_error cs); [|rewrite X; exact IH].
    cbn [first_error]. destruct (cpl_fields c) as (-> & -> & _). rewrite H1, H2. reflexivity.
  - destruct (first_error_at [] c cs (Forall_nil _) ltac:(intros [? ?]; contradiction)) as (s & E & T & _). cbn [app] in E. rewrite E, T. cbn [completed_with].
    rewrite H1. change (0 =? 0) with true. cbn [andb]. replace (cpl_sc c =? 0) with false by lia. reflexivity.
  - destruct (first_error_at [] c cs (Forall_nil _) ltac:(intros [? ?]; contradiction)) as (s & E & T & _). cbn [app] in E. rewrite E, T. cbn [completed_with].
    replace (cpl_sct c =? 0) with false by lia. reflexivity.
Qed.
Lemma completed_good cpls : fst (fst (fst (completed_with cpls))) = GOOD <-> Forall cpl_ok cpls.
Proof.
  pose proof (completed_first cpls) as C. destruct (first_error cpls) as [s|] eqn:E.
  - pose proof (first_error_not_good _ _ E) as N. rewrite <- C. unfold tuple. cbn [fst]. split; [contradiction|].
    intros F. rewrite (StatusFacts.first_error_ok _ F) in E. discriminate E.
  - rewrite C. split; [intros _; apply first_error_none; exact E|reflexivity].
Qed.

Definition says (w : world) (sense : span) (key asc ascq : N) : Prop :=
  8 <= len sense -> exists sb, sense_says key asc ascq sb /\ bytes_at w (ptr sense) sb.

Lemma Fill_says sense s w b w1 : FillSenseBuffer sense s w = Ret b w1 -> st_sense_key s < 16 -> st_asc s < 256 -> st_ascq s < 256 ->
  says w1 sense (st_sense_key s) (st_asc s) (st_ascq s).
Proof.
  intros E H1 H2 H3 Hl. unfold FillSenseBuffer in E. apply bind_ret_inv in E as (j & w2 & _ & E). cbv zeta in E.
  revert E. fields. change kCurrentDescriptorError with 0x72. fold (sense_number (le j) s). intros E.
  unfold repr in E. change (sizeof DescriptorFormatSenseData) with 8%nat in E. unfold WriteValue, WriteValue_n in E. rewrite le_encode_length in E.
  change (Nat.ltb 8 8) with false in E. rewrite orb_false_r in E. change (N.of_nat 8) with 8 in E.
  destruct (N.ltb_spec (len sense) 8) as [X|_]; [lia|]. apply bind_ret_inv in E as (u & w3 & E1 & E). apply ret_eq in E as [_ <-].
  rewrite firstn_all2 in E1 by (rewrite le_encode_length; lia).
  exists (le_encode 8 (sense_number (le j) s)). split; [apply sense_bytes; assumption|].
  apply store_inv in E1. destruct E1 as (_ & ->). intros i x Hi. cbn [mem set_mem]. apply store_bytes_in. exact Hi.
Qed.

Lemma says_mem w w' sense k a q : mem w' = mem w -> says w sense k a q -> says w' sense k a q.
Proof. intros M S H. destruct (S H) as (sb & H1 & H2). exists sb. split; [exact H1|]. intros i b Hi. rewrite M. apply H2. exact Hi. Qed.
Lemma abort_mem t w t' w' : wf t -> AbortPipeline t w = Ret t' w' -> forall x, mem w' x = mem w x.
Proof. intros W E x. pose proof (AbortPipeline_spec t w W) as S. apply tst_inv in S as (t2 & w2 & E2 & _ & R). rewrite E in E2. injection E2 as _ ->. rewrite (r_mem _ _ _ R). reflexivity. Qed.

(** what Complete answers *)
Lemma Complete_verdict t cpls b s w t' cr w' : wf t -> pipeline_status t <> kUninitialized -> N.of_nat (length cpls) = nvme_cmd_count t -> Complete t cpls b s w = Ret (t', cr) w' ->
  cr_status cr = ApiSuccess /\
  (accepted t -> cr_scsi_status cr = fst (fst (fst (completed_with cpls))) /\
     (cr_scsi_status cr <> GOOD -> let '(_, k, a, q) := completed_with cpls in says w' s k a q)) /\
  (~ accepted t -> cr_scsi_status cr = CHECK_CONDITION /\ says w' s 5 0x24 0).
Proof.
  intros W Hu Hn E. unfold Complete in E. destruct (is_uninitialized (pipeline_status t)) eqn:Eu.
  { exfalso. apply Hu. destruct (pipeline_status t); try reflexivity; discriminate Eu. }
  rewrite Hn, N.eqb_refl in E. cbn [negb] in E.
  destruct (is_success (pipeline_status t)) eqn:Es; cbn [negb] in E.
  - assert (A : accepted t) by (unfold accepted; destruct (pipeline_status t); try reflexivity; discriminate Es).
    pose proof (completed_first cpls) as C. destruct (first_error cpls) as [st|] eqn:Ef.
    + apply bind_ret_inv in E as (x & w1 & E1 & E). apply bind_ret_inv in E as (t2 & w2 & E2 & E). apply ret_eq in E as [E <-]. apply pair_eq in E as [_ <-].
      split; [reflexivity|]. split; [|intros X; contradiction]. intros _. rewrite <- C. unfold tuple. cbn [fst cr_scsi_status]. split; [reflexivity|]. intros _.
      assert (Rg : st_sense_key st < 16 /\ st_asc st < 256 /\ st_ascq st < 256).
      { assert (D : exists pre c post, cpls = pre ++ c :: post /\ Forall cpl_ok pre /\ ~ cpl_ok c).
        { clear - Ef. induction cpls as [|c l IH]; [discriminate Ef|].
          assert (Dc : cpl_ok c \/ ~ cpl_ok c) by (unfold cpl_ok; lia). destruct Dc as [Dc|Dc].
          - destruct IH as (pre & c' & post & -> & Hp & Hc).
            { cbn [first_error] in Ef. destruct Dc as [D1 D2]. destruct (cpl_fields c) as (F1 & F2 & _). rewrite F1, F2, D1, D2 in Ef. exact Ef. }
            exists (c :: pre), c', post. split; [reflexivity|]. split; [constructor; assumption|exact Hc].
          - exists [], c, l. split; [reflexivity|]. split; [constructor|exact Dc]. }
        destruct D as (pre & c & post & -> & Hp & Hc). destruct (first_error_at pre c post Hp Hc) as (s' & Es' & Et & _). rewrite Ef in Es'. apply Some_eq in Es'. subst s'.
        pose proof (table_range _ _ (cpl_sct_lt c) (cpl_sc_lt c)) as Rg. rewrite <- Et in Rg. exact Rg. }
      destruct Rg as (R1 & R2 & R3). intros Hl.
      destruct (Fill_says _ _ _ _ _ E1 R1 R2 R3 Hl) as (sb & H1 & H2). exists sb. split; [exact H1|]. intros i v Hi. rewrite (abort_mem _ _ _ _ W E2). apply H2. exact Hi.
    + apply bind_ret_inv in E as (x & w1 & _ & E). apply bind_ret_inv in E as (st & w2 & _ & E). cbv zeta in E. apply bind_ret_inv in E as (t2 & w3 & _ & E).
      apply ret_eq in E as [E _]. apply pair_eq in E as [_ <-]. split; [reflexivity|]. split; [|intros X; contradiction]. intros _. rewrite C. split; [reflexivity|].
      intros X. exfalso. apply X. reflexivity.
  - assert (A : ~ accepted t) by (unfold accepted; intros X; rewrite X in Es; discriminate Es).
    cbv zeta in E. apply bind_ret_inv in E as (x & w1 & E1 & E). apply bind_ret_inv in E as (t2 & w2 & E2 & E). apply ret_eq in E as [E <-]. apply pair_eq in E as [_ <-].
    split; [reflexivity|]. split; [intros X; contradiction|]. intros _. split; [reflexivity|]. intros Hl.
    destruct (Fill_says _ _ _ _ _ E1 eq_refl eq_refl eq_refl Hl) as (sb & H1 & H2). exists sb. split; [exact H1|]. intros i v Hi. rewrite (abort_mem _ _ _ _ W E2). apply H2. exact Hi.
Qed.

Theorem C91_engine_outcome : forall drv wrs q w bs pl resp t subs w',
  span_holds w (rq_cdb q) bs ->
  (byte_at bs 0 = 0x42 -> span_holds w (rq_data q) pl /\ pages_apart w (rq_cdb q)) -> (byte_at bs 0 = 0x5a -> pages_apart w (rq_cdb q)) ->
  engine drv wrs q w = Ret (resp, t, subs) w' ->
  exists t1 r w1 ps, begins wrs q w = Ret (t1, r) w1 /\ answered w w' ps /\
    let cpls := snd (device_run drv 0 subs (mem w1)) in
    match verdict bs pl (len (rq_data q)) ps cpls with
    | None => resp = {| er_return_code := TASK_ABORTED; er_alloc_len := 0 |} /\ subs = []
    | Some (status, key, asc, ascq) =>
        resp = {| er_return_code := status; er_alloc_len := announced bs |} /\
        (status <> GOOD -> says w' (rq_sense q) key asc ascq) /\
        (acceptable bs pl (len (rq_data q)) ps = false -> subs = [])
    end.
Proof.
  intros drv wrs q w bs pl resp t subs w' Hc Hu Hm E. destruct (engine_cases _ _ _ _ _ _ _ _ E) as (t1 & r & w1 & E1 & Hr & C).
  destruct (C89_accepted_iff (Translation_init wrs) (rq_cdb q) (rq_data q) (rq_lun q) w bs pl t1 r w1 (idle_init wrs) Hc E1 Hu) as (ps & A & Acc & _).
  pose proof (Begin_announces (Translation_init wrs) (rq_cdb q) (rq_data q) (rq_lun q) w bs pl t1 r w1 (idle_init wrs) Hc Hu Hm E1) as An.
  pose proof (begins_inv _ _ _ _ _ _ E1 Hr) as I. exists t1, r, w1, ps. split; [exact E1|].
  rewrite An in C. unfold verdict. destruct C as [(L & -> & -> & -> & ->)|(L & -> & cr & E2 & ->)].
  - split; [exact A|]. cbv zeta. replace (len (rq_data q) <? announced bs) with true by lia. split; reflexivity.
  - cbv zeta. set (cpls := snd (device_run drv 0 (map sub_of (GetNvmeWrappers t1)) (mem w1))) in *.
    assert (Hn : N.of_nat (length cpls) = nvme_cmd_count t1).
    { unfold cpls. rewrite device_run_length, map_length. pose proof (i_wf _ _ I) as (W & _). unfold GetNvmeWrappers. rewrite firstn_length. cbn [length]. lia. }
    split.
    { replace ps with (ps ++ []) by apply app_nil_r. eapply answered_trans; [exact A|]. eapply complete_answers with (w := set_mem w1 _); [apply (i_wf _ _ I)|apply (inv_busy _ I)|exact E2]. }
    replace (len (rq_data q) <? announced bs) with false by lia.
    destruct (Complete_verdict _ _ _ _ _ _ _ _ (i_wf _ _ I) (inv_busy _ I) Hn E2) as (S & Ya & Na). rewrite S. cbn [is_api_success].
    destruct (acceptable bs pl (len (rq_data q)) ps).
    + destruct (Ya (proj2 Acc eq_refl)) as [Es Se]. destruct (completed_with cpls) as [[[st k] a] x]. cbn [fst] in Es. rewrite Es in *. split; [reflexivity|]. split; [exact Se|discriminate].
    + assert (Rj : ~ accepted t1) by (intros X; apply Acc in X; discriminate X). destruct (Na Rj) as [Es Se]. rewrite Es. split; [reflexivity|]. split; [intros _; exact Se|]. intros _.
      destruct (inv_rejected _ _ I (conj Rj (inv_busy _ I))) as [X _]. unfold exposes in X. apply map_eq_nil in X. rewrite X. reflexivity.
Qed.
Print Assumptions C91_engine_outcome.

(** GOOD exactly when the data buffer is large enough, the request is
    acceptable and every NVMe command succeeded *)
Theorem C91_good_iff : forall drv wrs q w bs pl resp t subs w',
  span_holds w (rq_cdb q) bs ->
  (byte_at bs 0 = 0x42 -> span_holds w (rq_data q) pl /\ pages_apart w (rq_cdb q)) -> (byte_at bs 0 = 0x5a -> pages_apart w (rq_cdb q)) ->
  engine drv wrs q w = Ret (resp, t, subs) w' ->
  exists t1 r w1 ps, begins wrs q w = Ret (t1, r) w1 /\ answered w w' ps /\
    (er_return_code resp = GOOD <->
     announced bs <= len (rq_data q) /\ acceptable bs pl (len (rq_data q)) ps = true /\ Forall cpl_ok (snd (device_run drv 0 subs (mem w1)))).
Proof.
  intros drv wrs q w bs pl resp t subs w' Hc Hu Hm E.
  destruct (C91_engine_outcome drv wrs q w bs pl resp t subs w' Hc Hu Hm E) as (t1 & r & w1 & ps & E1 & A & V). exists t1, r, w1, ps.
  split; [exact E1|]. split; [exact A|]. cbv zeta in V. unfold verdict in V. rewrite <- completed_good.
  destruct (N.ltb_spec (len (rq_data q)) (announced bs)) as [L|L].
  { destruct V as [-> _]. cbn [er_return_code]. split; [discriminate|lia]. }
  destruct (acceptable bs pl (len (rq_data q)) ps).
  - destruct (completed_with (snd (device_run drv 0 subs (mem w1)))) as [[[st k] a] x]. destruct V as [-> _]. cbn [er_return_code fst]. split; [auto|intros (_ & _ & X); exact X].
  - destruct V as [-> _]. cbn [er_return_code]. split; [discriminate|intros (_ & X & _); discriminate X].
Qed.
Print Assumptions C91_good_iff.

Theorem C91_adapter_outcome : forall drv wrs kz wild c w bs d r w',
  bytes_at w (sc_cmnd c) bs -> N.of_nat (length bs) = sc_cmd_len c -> sc_cmd_len c < 65536 ->
  (byte_at bs 0 = 0x5a -> pages_apart w {| ptr := sc_cmnd c; len := sc_cmd_len c |}) ->
  let n := sc_bufflen c mod 65536 in unused w kz n -> n = 0 \/ kz <> 0 ->
  (byte_at bs 0 = 0x42 -> sg_holds w (sc_sgl c) d /\ N.of_nat (length d) = N.min n (sg_total (sc_sgl c)) /\
     pages_apart w {| ptr := sc_cmnd c; len := sc_cmd_len c |}) ->
  (forall x, In x (sg_addrs (sc_sgl c)) -> x < sc_sense c \/ sc_sense c + 96 <= x) ->
  scsi_queuecommand drv wrs kz wild c w = Ret r w' ->
  exists ps m, answered w w' ps /\
    let residual k := if sc_from_device c && (0 <? n) then Some (n - N.min k (sg_total (sc_sgl c))) else None in
    match verdict bs (handed c n d) n ps (snd (device_run drv 0 (mr_subs r) m)) with
    | None => r = {| mr_result := TASK_ABORTED; mr_resid := residual 0; mr_subs := [] |}
    | Some (status, key, asc, ascq) =>
        mr_result r = status /\ mr_resid r = residual (announced bs) /\
        (status <> GOOD -> exists sb, sense_says key asc ascq sb /\ bytes_at w' (sc_sense c) sb) /\
        (acceptable bs (handed c n d) n ps = false -> mr_subs r = [])
    end.
Proof.
  intros drv wrs kz wild c w bs d r w' Hc Hl Hlt Hm n Hun Hk Hu Hsg E. set (q := mock_request kz wild c).
  destruct (mock_inv_data drv wrs kz wild c w r w' E Hk) as (w2 & resp & t & subs & w3 & w4 & P & Hd & _ & E1 & Er & Es & D & W).
  fold q in P, E1, D, W. change (len (rq_data q)) with n in P, D, W. change (rq_data_in q) with (sc_from_device c) in D.
  pose proof (mock_cdb kz wild c w w2 bs P Hun Hc Hl Hlt) as Hc2. fold q in Hc2.
  assert (Hm2 : byte_at bs 0 = 0x5a -> pages_apart w2 (rq_cdb q)).
  { intros X k ps0 n0. specialize (Hm X k ps0 n0). destruct (p_cfg _ _ _ _ P). unfold q, mock_request. cbn [rq_cdb ptr len] in *. rewrite N.mod_small by exact Hlt.
    cbv zeta in *. congruence. }
  assert (Hu2 : byte_at bs 0 = 0x42 -> span_holds w2 (rq_data q) (handed c n d) /\ pages_apart w2 (rq_cdb q)).
  { intros X. destruct (Hu X) as (X1 & X2 & X3). split; [apply Hd; assumption|].
    intros k ps0 n0. specialize (X3 k ps0 n0). destruct (p_cfg _ _ _ _ P). unfold q, mock_request. cbn [rq_cdb ptr len] in *. rewrite N.mod_small by exact Hlt.
    cbv zeta in *. congruence. }
  destruct (C91_engine_outcome drv wrs q w2 bs (handed c n d) resp t subs w3 Hc2 Hu2 Hm2 E1) as (t1 & r1 & w1 & ps & _ & A3 & V).
  exists ps, (mem w1). cbv zeta in V. change (len (rq_data q)) with n in V. change (rq_sense q) with {| ptr := sc_sense c; len := 96 |} in V.
  assert (T4 : trace w4 = trace w3 /\ (forall x, ~ In x (sg_addrs (sc_sgl c)) -> mem w4 x = mem w3 x)).
  { destruct (sc_from_device c && (0 <? n)).
    - destruct D as (_ & bs' & _ & _ & D). apply sg_scatter_set in D as (-> & _ & M). split; [reflexivity|exact M].
    - destruct D as [_ ->]. split; reflexivity. }
  destruct T4 as [T4 M4].
  assert (M' : mem w' = mem w4) by (subst w'; destruct (0 <? n); reflexivity).
  split.
  { assert (A2 : answered w w2 []).
    { eexists. split; [exact (p_trace _ _ _ _ P)|]. destruct (0 <? n); reflexivity. }
    pose proof (answered_trans _ _ _ _ _ A2 A3) as A4. cbn [app] in A4. apply (answered_trace _ _ w4) in A4; [|exact T4]. subst w'.
    destruct (0 <? n); [|exact A4]. destruct A4 as (e & Te & <-). exists (e ++ [EvDealloc kz n]). split; [cbn [trace log]; rewrite Te, app_assoc; reflexivity|].
    rewrite answers_app. apply app_nil_r. }
  cbv zeta. rewrite <- Es in V.
  assert (Rs : mr_resid r = if sc_from_device c && (0 <? n) then Some (n - N.min (er_alloc_len resp) (sg_total (sc_sgl c))) else None).
  { destruct (sc_from_device c && (0 <? n)); [destruct D as (X & _)|destruct D as [X _]]; exact X. }
  destruct (verdict bs (handed c n d) n ps (snd (device_run drv 0 (mr_subs r) (mem w1)))) as [[[[st k] a] x]|].
  - destruct V as (-> & Se & Su). cbn [er_return_code er_alloc_len] in *. split; [exact Er|]. split; [exact Rs|]. split; [|exact Su].
    intros X. destruct (Se X ltac:(cbn [len]; lia)) as (sb & H1 & H2). exists sb. split; [exact H1|]. intros i b Hi. cbn [ptr] in H2. rewrite M', M4; [apply H2; exact Hi|].
    intros Y. apply Hsg in Y. pose proof (proj1 H1) as L8. assert (Hx : (i < length sb)%nat) by (apply nth_error_Some; rewrite Hi; discriminate). lia.
  - destruct V as (-> & Su). cbn [er_return_code er_alloc_len] in *. destruct r as [ra rb rc]. cbn [mr_result mr_resid mr_subs] in *. rewrite Er, Rs, Su. reflexivity.
Qed.
Print Assumptions C91_adapter_outcome.

(** executed: an unsupported opcode, an INQUIRY that asks for too much, one that
    does not, a READ refused for its small buffer, and one the device fails *)
Definition ex_outcome (drv : driver) (bs : list byte) (n : N) :=
  match scsi_queuecommand drv ex_wrs 0x90000 0 (ex_scsi bs true n) (ex_world bs) with
  | Ret r w' => Some (mr_result r, mr_resid r, length (mr_subs r), verdict bs (repeat x00 (N.to_nat n)) n (page_answers (trace w')) (snd (device_run drv 0 (mr_subs r) (mem w'))))
  | UB _ => None
  end.
Definition ex_failing : driver := fun _ _ m => (m, N.shiftl 0x80 113).
Example C91_runs :
  ex_outcome (ex_answer []) (B [0xff;0;0;0;0;0]) 36 = Some (CHECK_CONDITION, Some 36, 0%nat, Some (CHECK_CONDITION, 5, 0x24, 0)) /\
  ex_outcome (ex_answer []) (B [0x12;0;0;0;255;0]) 36 = Some (TASK_ABORTED, Some 36, 0%nat, None) /\
  ex_outcome (ex_answer []) (B [0x12;0;0;0;36;0]) 36 = Some (GOOD, Some 0, 2%nat, Some (GOOD, 0, 0, 0)) /\
  ex_outcome (ex_answer []) (B [0x28;0;0;0;0;0;0;0;1;0]) 36 = Some (TASK_ABORTED, Some 36, 0%nat, None) /\
  ex_outcome ex_failing (B [0x12;0;0;0;36;0]) 36 = Some (CHECK_CONDITION, Some 0, 2%nat, Some (CHECK_CONDITION, 5, 0x21, 0)).
Proof. repeat split; vm_compute; reflexivity. Qed.
