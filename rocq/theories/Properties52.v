(** C118: whatever the schedule, a command is carried out with the NVMe commands its
    own CDB calls for, on its own unit and memory, and no others. *)
From Coq Require Import Arith NArith ZArith String List Lia Bool Init.Byte Permutation.
From Coq Require Import ZifyBool ZifyNat ZifyN.
From Verif Require Import Bytes Layout World ScsiDefs NvmeDefs Common ModeSenseCmd TranslationCls EngineE2e MockModule
  Spec RwSpec InquirySpec SmallSpec UnmapSpec EngineSpec MockSpec CatalogSpec AcceptSpec ConcSpec DiskSpec ConcDiskSpec ConcAllSpec
  Facts Logic BeginFacts CompleteFacts StatusFacts RwFacts RelFacts ProgFacts EngineFacts MockFacts CatalogFacts AcceptFacts ConcFacts ConcDiskFacts
  Properties9 Properties11 Properties14 Properties21 Properties24 Properties25 Properties26 Properties41 Properties42 Witness Properties43 Properties44 Properties45 Properties49.
Import ListNotations.
Local Open Scope string_scope.
Local Open Scope list_scope.
Local Open Scope N_scope.

(** ** Specification *)
(** the NVMe command handed to the driver: queue, 64 bytes, buffer length *)
Definition handed_over (s : submission) : exposed := {| x_admin := sub_admin s; x_buffer_len := sub_bufflen s; x_bytes := le_encode 64 (sub_cmd s) |}.
(** [expected_command] is that of CatalogSpec: the command is one the operation code
    may be carried out with, and it names the LUN's namespace, and the caller's buffer
    or a page given by the allocator; the buffer the driver is told is the one the
    command names (PRP entry 1, bytes 24 to 31) *)
Definition expected (opcode lun : N) (buffer : span) (pages : list (N * N)) (s : submission) : Prop :=
  expected_command opcode lun buffer pages (handed_over s) /\ sub_buffer s = le (slice 24 8 (le_encode 64 (sub_cmd s))).
(** the buffer kzalloc gave for the command *)
Definition kbuffer (p : pending) : span :=
  let n := sc_bufflen (p_cmnd p) mod 65536 in {| ptr := if 0 <? n then p_kz p else p_wild p; len := n |}.

(** ** The engine and the adapter *)
Lemma expected_more op lun b pages pages' s : incl pages pages' -> expected op lun b pages s -> expected op lun b pages' s.
Proof.
  intros I [(k & q & A & B & C & D & E & F) G]. split; [|exact G]. exists k, q. repeat (split; [assumption|]). split; [|exact F].
  destruct k; cbn [names_memory] in *; try exact E. apply I. exact E.
Qed.

Theorem C118_engine : forall drv wrs q w bs resp t subs w',
  sane_allocator w -> span_holds w (rq_cdb q) bs -> byte_at bs 0 <> 0x42 ->
  engine drv wrs q w = Ret (resp, t, subs) w' ->
  exists pg, answered w w' pg /\ Forall (expected (byte_at bs 0) (rq_lun q) (rq_data q) (given_pages pg)) subs.
Proof.
  intros drv wrs q w bs resp t subs w' Hs Hc Hn E.
  destruct (engine_cases _ _ _ _ _ _ _ _ E) as (t1 & r & w1 & E1 & Hr & C).
  pose proof (begins_inv _ _ _ _ _ _ E1 Hr) as I.
  destruct (C89_accepted_iff (Translation_init wrs) (rq_cdb q) (rq_data q) (rq_lun q) w bs [] t1 r w1 (idle_init wrs) Hc E1) as (ps & A & _ & _).
  { intros X. contradiction. }
  exists ps. destruct C as [(_ & _ & _ & -> & ->)|(_ & -> & cr & E2 & _)]; [split; [exact A|constructor]|]. split.
  { rewrite <- (app_nil_r ps). eapply answered_trans; [exact A|]. apply complete_answers in E2; [|exact (i_wf _ _ I)|exact (inv_busy _ I)].
    destruct E2 as (e & T & <-). exists e. split; [exact T|reflexivity]. }
  destruct (PeanoNat.Nat.eq_dec (length (GetNvmeWrappers t1)) 0) as [L|L].
  { apply length_zero_iff_nil in L. rewrite L. constructor. }
  assert (Ha : accepted t1).
  { unfold accepted. destruct (pipeline_status t1) eqn:P; try reflexivity; exfalso; apply L;
      (destruct (inv_rejected _ _ I) as [X _]; [split; [congruence|exact (inv_busy _ I)]|]; unfold exposes in X; apply map_eq_nil in X; rewrite X; reflexivity). }
  pose proof (catalog (Translation_init wrs) (rq_cdb q) (rq_data q) (rq_lun q) w bs t1 r w1 (idle_init wrs) Hc Hn E1) as K.
  pose proof (begins_held wrs q w t1 r w1 ps Hs E1 Ha A) as P.
  unfold exposes in K. rewrite Forall_map in K. rewrite Forall_map. eapply Forall_impl; [|exact K].
  intros x Hx. apply (expected_more _ _ _ (held t1)).
  { intros y Hy. apply (Permutation_in _ P). exact Hy. }
  pose proof (sub_of_view x) as V. unfold sub_view, sub_expected in V. cbn [view x_admin x_buffer_len x_bytes] in V.
  apply pair_eq in V as [V V4]. apply pair_eq in V as [V V3]. apply pair_eq in V as [V1 V2].
  split; [exact Hx|]. rewrite V2. exact V3.
Qed.
Print Assumptions C118_engine.

Theorem C118_adapter : forall drv wrs kz wild c w bs r w',
  sane_allocator w -> bytes_at w (sc_cmnd c) bs -> N.of_nat (length bs) = sc_cmd_len c -> sc_cmd_len c < 65536 ->
  let n := sc_bufflen c mod 65536 in unused w kz n -> byte_at bs 0 <> 0x42 ->
  scsi_queuecommand drv wrs kz wild c w = Ret r w' ->
  exists pg, answered w w' pg /\
    Forall (expected (byte_at bs 0) (sc_lun c) {| ptr := if 0 <? n then kz else wild; len := n |} (given_pages pg)) (mr_subs r).
Proof.
  intros drv wrs kz wild c w bs r w' Hs Hc Hl Hlt n Hun Hu E. set (q := mock_request kz wild c).
  assert (Hcases : (0 < n /\ kz = 0) \/ (n = 0 \/ kz <> 0)) by lia.
  destruct Hcases as [[Hn Hk]|Hk].
  - rewrite mock_eq in E. cbv zeta in E. fold q in E. change (len (rq_data q)) with n in E. subst kz.
    replace ((0 <? n) && (0 =? 0)) with true in E by lia.
    replace (0 <? n) with true in E by lia. change (0 =? 0) with true in E. cbv iota in E. apply ret_eq in E as [<- <-].
    exists []. split; [exists [EvAlloc 1 n 0]; split; reflexivity|constructor].
  - destruct (mock_inv_data drv wrs kz wild c w r w' E Hk) as (w2 & resp & t & subs & w3 & w4 & P & _ & _ & E1 & _ & -> & D & W).
    fold q in P, E1, D, W. change (len (rq_data q)) with n in P, D, W.
    pose proof (mock_cdb kz wild c w w2 bs P Hun Hc Hl Hlt) as Hc2. fold q in Hc2.
    destruct (C118_engine drv wrs q w2 bs resp t subs w3 (sane_cfg _ _ (p_cfg _ _ _ _ P) Hs) Hc2 Hu E1) as (pg & A3 & F).
    exists pg. split; [|exact F].
    assert (T4 : trace w4 = trace w3).
    { destruct (rq_data_in q && (0 <? n)).
      - destruct D as (_ & bs' & _ & _ & D). apply sg_scatter_set in D as (-> & _). reflexivity.
      - destruct D as [_ ->]. reflexivity. }
    pose proof (p_trace _ _ _ _ P) as T.
    assert (A2 : answered w w2 []).
    { eexists. split; [exact T|]. destruct (0 <? n); reflexivity. }
    pose proof (answered_trans _ _ _ _ _ A2 A3) as A4. cbn [app] in A4. apply (answered_trace _ _ w4) in A4; [|exact T4].
    subst w'. destruct (N.ltb_spec 0 n) as [Hn|Hn]; [|exact A4].
    destruct A4 as (e & Te & <-). exists (e ++ [EvDealloc kz n]). split; [cbn [trace log]; rewrite Te, app_assoc; reflexivity|].
    rewrite answers_app. apply app_nil_r.
Qed.
Print Assumptions C118_adapter.

(** ** Among others *)
Lemma solo_expected w p mm D v r v' : equipped p mm -> supplied w [p] -> present mm w -> alloc_cb w = true /\ dealloc_cb w = true -> byte_at (p_cdb p) 0 <> 0x42 ->
  alone mm w v -> (forall k, (exists k', ans v k = ans w k') \/ ans v k = fun _ _ => 0) -> trace v = [] -> code_of p D v = Ret r v' ->
  Forall (expected (byte_at (p_cdb p) 0) (sc_lun (p_cmnd p)) (kbuffer p) (given_pages (page_answers (trace v')))) (mr_subs r).
Proof.
  intros (E1 & E2 & E3 & E4 & E5 & E6) [S1 S2] Hp [Ha Hde] Hu (V1 & V2 & V3) Hd Tv E. destruct (S1 p (or_introl eq_refl)) as [S4 S3].
  set (n := sc_bufflen (p_cmnd p) mod 65536) in *.
  assert (Sn : sane_allocator v).
  { split; [congruence|]. split; [congruence|]. intros k s. destruct (Hd k) as [[k' ->]| ->]; [apply S2|reflexivity]. }
  unfold code_of in E.
  assert (Hcases : (n <> 0 /\ p_kz p = 0) \/ (n = 0 \/ p_kz p <> 0)) by lia.
  destruct Hcases as [[Hn Hk]|Hk].
  { rewrite Hk, mock_eq in E. cbv zeta in E. change (len (rq_data (mock_request 0 (p_wild p) (p_cmnd p)))) with n in E.
    replace (0 <? n) with true in E by lia. change (0 =? 0) with true in E. cbn [andb] in E. apply ret_eq in E as [<- _]. constructor. }
  destruct (C118_adapter D (p_wrs p) (p_kz p) (p_wild p) (p_cmnd p) v (p_cdb p) r v' Sn) as (qs & (e & Te & <-) & F); try assumption.
  - intros i b Hb. rewrite V1. apply E2. exact Hb.
  - intros x Hx. destruct Hk as [Hk|Hk]; [unfold n in Hk; lia|]. destruct S3 as [S3|[S3 _]]; [contradiction|].
    rewrite V1. specialize (S3 x Hx). destruct (mm x) as [b|] eqn:Z; [rewrite (Hp x b Z) in S3; discriminate S3|reflexivity].
  - rewrite Te, Tv. exact F.
Qed.
Lemma no_pages_answers e : no_pages e -> given_pages (page_answers e) = [].
Proof.
  induction e as [|[s n a|a n] e IH]; intros H; [reflexivity| |].
  - change (page_answers (EvAlloc s n a :: e)) with ((if (s =? 4096) && (n =? 1) then [a] else []) ++ page_answers e).
    rewrite given_pages_app, IH by (intros k x Hx; apply (H k x); right; exact Hx). rewrite app_nil_r.
    destruct (N.eqb_spec s 4096) as [->|]; [|reflexivity]. cbn [andb]. destruct (n =? 1); [|reflexivity]. rewrite (H n a (or_introl eq_refl)). reflexivity.
  - apply IH. intros k x Hx. apply (H k x). right. exact Hx.
Qed.

(** At every moment, under every schedule, the NVMe commands a thread has handed over
    so far -- whether or not it has come to its end -- are commands its own operation
    code may be carried out with, on its own unit; reads and writes name its own
    kzalloc buffer, and no command names other memory but pages the allocator has
    already given to this very thread.
    Missing: UNMAP (0x42), as in C72, and the MODE SENSE CDBs whose behaviour is
    undefined. *)
Theorem C118_only_expected_partial : forall dev w ps mems w' st i p mm g,
  all_queued w ps mems -> admissible dev ps -> alloc_cb w = true /\ dealloc_cb w = true ->
  at_once dev w (starts ps mems) w' st ->
  nth_error ps i = Some p -> nth_error mems i = Some mm -> nth_error st i = Some g -> byte_at (p_cdb p) 0 <> 0x42 ->
  Forall (expected (byte_at (p_cdb p) 0) (sc_lun (p_cmnd p)) (kbuffer p) (given_pages (page_answers (g_evs g)))) (fst (g_state g)).
Proof.
  intros dev w ps mems w' st i p mm g Hq Ha Hcb H Ep Em Eg Hu.
  destruct (admissible_drained dev w ps mems w' st i p mm g Hq Ha H Ep Em Eg) as (D & v & r & v' & e & A & Dr & Tv & E & T & Hn & l & Hl).
  destruct Hq as (H1 & H2 & [S1 S2] & H4).
  pose proof (solo_expected w p mm D v r v' (H4 i p mm Ep Em)) as F.
  rewrite T, answers_app, given_pages_app, (no_pages_answers e Hn), app_nil_r, Hl, Forall_app in F. apply F; try assumption.
  - split; [|exact S2]. intros p' [<-|[]]. apply S1. exact (nth_error_In _ _ Ep).
  - exact (proj1 H2 i mm Em).
Qed.
Print Assumptions C118_only_expected_partial.

(** VERIFY(10) and MODE SENSE(6), interleaved, meet all of the premises; the second
    has handed a command over: a Get Features for its LUN, on the admin queue. *)
Example C118_premises_met : let c2 := ex_mode44 in
  all_queued (ex_world43 c2) (ex_ps c2) (ex_mems43 c2) /\ admissible sane_device (ex_ps c2) /\
  (alloc_cb (ex_world43 c2) = true /\ dealloc_cb (ex_world43 c2) = true) /\
  (forall p, In p (ex_ps c2) -> byte_at (p_cdb p) 0 <> 0x42) /\
  exists w g1 g2 r1 r2, at_once sane_device (ex_world43 c2) (starts (ex_ps c2) (ex_mems43 c2)) w [g1; g2] /\
    returned (g_state g1) r1 /\ returned (g_state g2) r2 /\
    exists s q, fst (g_state g2) = [s] /\ sub_admin s = true /\ le_encode 64 (sub_cmd s) = sqe_bytes q /\ In (q_nsid q) [3; 0].
Proof.
  destruct C112_mode_premises_met as (H1 & H2 & w & g1 & g2 & r1 & r2 & H3 & H4 & H5 & H6 & H7). cbv zeta.
  assert (Ha : admissible sane_device (ex_ps ex_mode44)) by (right; split; [reflexivity|exact H2]).
  split; [exact H1|]. split; [exact Ha|]. split; [split; reflexivity|]. split.
  { intros p [<-|[<-|[]]] Z; vm_compute in Z; discriminate Z. }
  exists w, g1, g2, r1, r2. split; [exact H3|]. split; [exact H4|]. split; [exact H5|].
  destruct (thread_known sane_device _ _ _ w [g1; g2] 1 _ _ g2 r2 H1 Ha H3 eq_refl eq_refl eq_refl H5) as [Es _].
  pose proof (C118_only_expected_partial sane_device _ _ _ w [g1; g2] 1 _ _ g2 H1 Ha (conj eq_refl eq_refl) H3 eq_refl eq_refl eq_refl) as F.
  apply pair_eq in H7 as [_ L]. rewrite Es in L. destruct (fst (g_state g2)) as [|s [|s' l]]; try discriminate L.
  specialize (F ltac:(vm_compute; discriminate)). apply Forall_inv in F as ((k & q & Hk & A & B & O & M & Nn) & _).
  change (may_use _) with [Identify; GetFeatures] in Hk. exists s, q. split; [reflexivity|].
  destruct Hk as [<-|[<-|[]]]; (split; [exact A|]; split; [exact B|]).
  - destruct Nn as [->| ->]; [left; reflexivity|right; left; reflexivity].
  - left. symmetry. exact Nn.
Qed.
