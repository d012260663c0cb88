(** C85: data survive all other commands. *)
From Coq Require Import Arith NArith String List Lia Bool Init.Byte Permutation.
From Coq Require Import ZifyBool ZifyNat ZifyN.
From Verif Require Import Bytes Layout World ScsiDefs NvmeDefs Common ModeSenseCmd StatusCmd TranslationCls EngineE2e MockModule
  Spec RwSpec EngineSpec MockSpec CatalogSpec Facts Logic BeginFacts CompleteFacts StatusFacts RelFacts RwFacts EngineFacts MockFacts CatalogFacts Witness
  Properties1 Properties2 Properties6 Properties9 Properties11 Properties14 DiskSpec DiskFacts Properties16 MixedSpec.
Import ListNotations.
Local Open Scope string_scope.
Local Open Scope list_scope.
Local Open Scope N_scope.

Lemma device_disk_like cap ident cpl : disk_like cap (nvme_device cap ident cpl).
Proof.
  intros k s m Ha Ho. unfold nvme_device. cbv zeta. rewrite Ha.
  set (o := le (slice 0 1 (le_encode 64 (sub_cmd s)))) in *. destruct Ho as [<-|[<-|[]]]; reflexivity.
Qed.

Definition keeps_medium (drv : driver) (s : submission) : Prop :=
  forall k m x, 2 ^ 64 <= x -> fst (drv k s m) x = m x.
Lemma device_run_keeps drv ss : Forall (keeps_medium drv) ss -> forall k m x, 2 ^ 64 <= x -> fst (device_run drv k ss m) x = m x.
Proof.
  induction 1 as [|s ss Hs H IH]; intros k m x Hx; cbn [device_run]; [reflexivity|].
  pose proof (Hs k m x Hx) as E. destruct (drv k s m) as [m1 c]. specialize (IH (S k) m1 x Hx).
  destruct (device_run drv (S k) ss m1) as [m2 cs]. cbn [fst] in *. congruence.
Qed.

Lemma sqe_op_bits q : le (slice 0 1 (sqe_bytes q)) = q_opc q mod 2 ^ 8.
Proof. unfold sqe_bytes. replace (slice 0 1 _) with (le_encode 1 (q_opc q)) by reflexivity. rewrite le_le_encode. reflexivity. Qed.

Lemma sqe_nlb q : le (slice 48 2 (sqe_bytes q)) = q_cdw12 q mod 2 ^ 16.
Proof. unfold sqe_bytes. replace (slice 48 2 _) with (le_encode 2 (q_cdw12 q)) by reflexivity. rewrite le_le_encode. reflexivity. Qed.
Lemma acquired_alloc evs p n : In (p, n) (acquired evs) -> exists size, In (EvAlloc size n p) evs.
Proof.
  induction evs as [|[ps k a|a k] evs IH]; cbn [acquired]; [intros []| |].
  - intros H. apply in_app_or in H as [H|H].
    + destruct (a =? 0); [destruct H|]. destruct H as [H|[]]. injection H as -> ->. exists ps. left. reflexivity.
    + destruct (IH H) as [z Hz]. exists z. right. exact Hz.
  - intros H. destruct (IH H) as [z Hz]. exists z. right. exact Hz.
Qed.
Lemma may_write o : In NvmWrite (may_use o) -> exists f, o = write_opcode f.
Proof.
  unfold may_use. intros Hk.
  repeat match type of Hk with context [if ?c then _ else _] => destruct c eqn:?; [cbn [In] in Hk; try (intuition discriminate)|] end; [|destruct Hk].
  match goal with H : existsb _ [0x0a; 0x2a; 0xaa; 0x8a] = true |- _ => apply existsb_exists in H as (v & Hv & Ev) end.
  apply N.eqb_eq in Ev. subst v. cbn [In] in Hv.
  destruct Hv as [Hv|[Hv|[Hv|[Hv|[]]]]]; [exists RW6|exists RW10|exists RW12|exists RW16]; symmetry; exact Hv.
Qed.
Lemma may_read o : In NvmRead (may_use o) -> exists f, o = read_opcode f.
Proof.
  unfold may_use. intros Hk.
  repeat match type of Hk with context [if ?c then _ else _] => destruct c eqn:?; [cbn [In] in Hk; try (intuition discriminate)|] end; [|destruct Hk].
  match goal with H : existsb _ [0x08; 0x28; 0xa8; 0x88] = true |- _ => apply existsb_exists in H as (v & Hv & Ev) end.
  apply N.eqb_eq in Ev. subst v. cbn [In] in Hv.
  destruct Hv as [Hv|[Hv|[Hv|[Hv|[]]]]]; [exists RW6|exists RW10|exists RW12|exists RW16]; symmetry; exact Hv.
Qed.

(** what [Begin] exposes for such a CDB *)
Lemma other_keeps_subs cap ident cpl t cdb buffer lun w bs t' r w' :
  idle t -> span_holds w cdb bs -> other_command bs -> low buffer -> pages_in_memory w ->
  Begin t cdb buffer lun w = Ret (t', r) w' ->
  Forall (keeps_medium (nvme_device cap ident cpl)) (map submit_exposed (GetNvmeWrappers t')) /\ same_medium w w'.
Proof.
  intros Hi Hc [Hu Hw] Hb [Hp Hz] E.
  pose proof (Begin_idle_spec false t cdb buffer lun w Hi (no_ok_span _ _) (no_ok_span _ _)) as H.
  unfold cst in H. rewrite E in H. destruct H as (_ & W & Hni & _ & _ & w1 & evs & rel & G & Rl & _ & P).
  specialize (P Hz).
  assert (Fr : forall x, in_fresh evs x -> x < 2 ^ 64).
  { intros x (ps & n & a & Hin & Ha & Hx). destruct (drawn_in _ _ _ _ (g_from _ _ _ G) Hin) as (j & n' & _ & Hn & Ev).
    injection Ev as -> -> ->. specialize (Hp j). assert (n' = 0 \/ n' = 1) as [->| ->] by lia; lia. }
  split.
  2:{ intros x Hx. rewrite (r_mem _ _ _ Rl). destruct (g_mem _ _ _ G x) as [Q|Q]; [exact Q|]. apply Fr in Q. lia. }
  assert (Hd : forall p, In (p, 1) (held t') -> p + 4096 <= 2 ^ 64).
  { intros p Hin. assert (Q : In (p, 1) (acquired evs)) by (apply (Permutation_in _ P); apply in_or_app; auto).
    apply acquired_alloc in Q as [size Q]. destruct (drawn_in _ _ _ _ (g_from _ _ _ G) Q) as (j & n' & _ & Hn & Ev).
    injection Ev as -> <- ->. apply Hp. }
  pose proof (inv_begin false t cdb buffer lun w t' r w' (idle_inv _ Hi) E) as I.
  assert (D : accepted t' \/ rejected t').
  { unfold accepted, rejected. destruct (pipeline_status t'); try tauto; right; split; discriminate. }
  destruct D as [Ha|Hr].
  2:{ destruct (inv_rejected _ _ I Hr) as [X _]. unfold exposes in X. apply map_eq_nil in X. rewrite X. constructor. }
  pose proof (catalog t cdb buffer lun w bs t' r w' Hi Hc Hu E) as K. unfold exposes in K. rewrite Forall_map in K. rewrite Forall_map.
  rewrite Forall_forall in K. apply Forall_forall. intros s Hs. specialize (K s Hs). destruct K as (k & q & Hk & A & B & O & M & _).
  change (x_admin (view s)) with (sub_admin (submit_exposed s)) in A. change (x_bytes (view s)) with (le_encode 64 (sub_cmd (submit_exposed s))) in B.
  intros j m x Hx. unfold nvme_device. cbv zeta. rewrite A, B, sqe_op_bits, O, sqe_prp1.
  destruct k; cbn [on_admin_queue nvme_opcode names_memory] in *.
  - reflexivity.
  - exfalso. apply may_write in Hk as [f Hf]. destruct (C17_write_accepted_iff f t cdb buffer lun w bs Hi Hc Hf) as (t2 & r2 & w2 & E2 & _ & H & _).
    rewrite E in E2. apply ret_eq in E2 as [E2 _]. apply pair_eq in E2 as [-> _]. apply (Hw f Hf). apply H. exact Ha.
  - apply may_read in Hk as [f Hf].
    destruct (C16_read_fits_buffer f t cdb buffer lun w bs t' r w' Hi Hc Hf E Ha) as (q' & n & X & Oq & Pq & Bq & _ & Lq & _).
    assert (Q : view s = io n q').
    { assert (In (view s) (exposes t')) by (apply in_map; exact Hs). rewrite X in H. destruct H as [H|[]]. congruence. }
    assert (B' : le_encode 64 (sub_cmd (submit_exposed s)) = sqe_bytes q') by (apply (f_equal x_bytes) in Q; exact Q).
    change (2 mod 2 ^ 8) with 2. cbn [N.eqb Pos.eqb orb]. unfold nvme_disk. cbv zeta. rewrite A, B', sqe_op_bits, Oq, sqe_prp1, sqe_nlb, Pq.
    change (2 mod 2 ^ 8) with 2. cbn [N.eqb Pos.eqb orb]. destruct (_ <? _); [reflexivity|]. cbn [fst]. apply copy_out.
    change (q_cdw12 q' mod 2 ^ 16 + 1) with (nvme_blocks q'). intros Y.
    assert (1 <= nvme_blocks q') by (unfold nvme_blocks; lia).
    specialize (Hb (ptr buffer + (len buffer - 1))). unfold in_span in Hb.
    rewrite (N.mod_small (ptr buffer)) in Y by lia. lia.
  - reflexivity.
  - change (6 mod 2 ^ 8 =? 6) with true. cbv iota. cbn [fst]. specialize (Hd _ M). rewrite N.mod_small by lia.
    destruct ((q_prp1 q <=? x) && (x <? q_prp1 q + 4096)) eqn:Y; [lia|reflexivity].
  - reflexivity.
Qed.

Lemma Complete_low t cpls buffer sense w t' r w' : wf t -> pipeline_status t <> kUninitialized -> low buffer -> low sense ->
  Complete t cpls buffer sense w = Ret (t', r) w' -> same_medium w w' /\ idle t'.
Proof.
  intros W Hu Hb Hs E. pose proof (Complete_spec t cpls buffer sense w W Hu) as H.
  apply (pst_use _ _ _ _ _ H) in E. destruct E as (Hi & w1 & F & Rl & _). split; [|exact Hi].
  intros x Hx. rewrite (r_mem _ _ _ Rl). apply (f_mem _ _ _ F). intros [Y|Y]; [apply Hb in Y|apply Hs in Y]; lia.
Qed.
Lemma same_medium_trans w1 w2 w3 : same_medium w1 w2 -> same_medium w2 w3 -> same_medium w1 w3.
Proof. intros H1 H2 x Hx. rewrite H2, H1 by exact Hx. reflexivity. Qed.

(** drivers that touch the medium only where such a device does *)
Definition tame (cap : N -> N) (drv : driver) : Prop :=
  forall s, (forall ident cpl, keeps_medium (nvme_device cap ident cpl) s) -> keeps_medium drv s.
Lemma device_tame cap ident cpl : tame cap (nvme_device cap ident cpl).
Proof. intros s H. apply H. Qed.
Lemma other_tame_subs cap drv t cdb buffer lun w bs t' r w' :
  tame cap drv -> idle t -> span_holds w cdb bs -> other_command bs -> low buffer -> pages_in_memory w ->
  Begin t cdb buffer lun w = Ret (t', r) w' ->
  Forall (keeps_medium drv) (map submit_exposed (GetNvmeWrappers t')) /\ same_medium w w'.
Proof.
  intros T Hi Hc Ho Hb Hp E. split.
  - apply Forall_forall. intros s Hs. apply T. intros ident cpl.
    destruct (other_keeps_subs cap ident cpl t cdb buffer lun w bs t' r w' Hi Hc Ho Hb Hp E) as [K _].
    rewrite Forall_forall in K. exact (K s Hs).
  - exact (proj2 (other_keeps_subs cap (fun _ _ => x00) (fun _ _ => 0) t cdb buffer lun w bs t' r w' Hi Hc Ho Hb Hp E)).
Qed.

(** ** C85 *)

(** whatever the device answers *)
Theorem C85_other_keeps_data : forall cap ident cpl t w q status t' w',
  idle t -> api_other w q -> api_io (nvme_device cap ident cpl) t q w = Ret (t', status) w' ->
  same_medium w w' /\ idle t'.
Proof.
  intros cap ident cpl t w q status t' w' Hi ((bs & Hc & Ho) & Hd & Hs & Hp) E. unfold api_io in E.
  apply bind_ret_inv in E as ([t1 r1] & w1 & E1 & E). apply bind_ret_inv in E as (cpls & w2 & E2 & E). apply bind_ret_inv in E as ([t2 r2] & w3 & E3 & E).
  unfold ret in E. apply ret_eq in E as [E <-]. apply pair_eq in E as [<- _].
  destruct (other_keeps_subs cap ident cpl t _ _ _ w bs t1 r1 w1 Hi Hc Ho Hd Hp E1) as [K S1].
  pose proof (Begin_idle_spec false t _ (rq_data q) (rq_lun q) w Hi (no_ok_span _ (rq_cdb q)) (no_ok_span _ _)) as H.
  unfold cst in H. rewrite E1 in H. destruct H as (_ & W & Hni & _).
  pose proof (device_run_keeps _ _ K 0%nat (mem w1)) as R. destruct (device_run _ 0 _ (mem w1)) as [m cs]. cbn [fst] in R.
  apply ret_eq in E2 as [<- <-].
  destruct (Complete_low _ _ _ _ _ _ _ _ W Hni Hd Hs E3) as [S3 I3]. split; [|exact I3].
  apply (same_medium_trans _ w1); [exact S1|]. apply (same_medium_trans _ (set_mem w1 m)); [exact R|exact S3].
Qed.
Print Assumptions C85_other_keeps_data.

Theorem C85_api_refines : forall cap t0 w0 l t w d, cap_ok cap -> idle t0 -> stores w0 d -> api_mixed cap t0 w0 l t w ->
  exists d', explains (fun lun => cap (lun + 1)) d l d' /\ stores w d' /\ idle t.
Proof.
  intros cap t0 w0 l t w d Hcap Hi Hs H.
  induction H as [|l t w w' H IH Hm|l t w ident cpl q x a st t' w' H IH P E O|l t w ident cpl q st t' w' H IH P E].
  - exists d. split; [constructor|]. auto.
  - destruct IH as (d' & X & S & I). exists d'. split; [exact X|]. split; [exact (stores_same _ _ _ S Hm)|exact I].
  - destruct IH as (d1 & X & S & I). pose proof (api_step_dev cap _ t w q x d1 (device_disk_like cap ident cpl) Hcap I S P) as Z.
    destruct (disk_step (fun lun => cap (lun + 1)) d1 x) as [d' a'] eqn:D.
    destruct Z as (t2 & st2 & w2 & E2 & O2 & S2 & I2 & _). rewrite E in E2.
    assert (Q := E2). apply ret_eq in Q as [Q <-]. apply pair_eq in Q as [<- <-].
    pose proof (api_observes_unique _ _ _ _ _ _ O O2) as ->.
    exists d'. split; [|auto]. pose proof (explains_snoc _ _ _ _ x X) as Y. rewrite D in Y. exact Y.
  - destruct IH as (d1 & X & S & I). destruct (C85_other_keeps_data _ _ _ _ _ _ _ _ _ I P E) as [M I'].
    exists d1. split; [exact X|]. split; [exact (stores_same _ _ _ S M)|exact I'].
Qed.
Print Assumptions C85_api_refines.

Lemma engine_other cap drv wrs q w resp t subs w' : tame cap drv -> api_other w q ->
  engine drv wrs q w = Ret (resp, t, subs) w' -> same_medium w w'.
Proof.
  intros T ((bs & Hc & Ho) & Hd & Hs & Hp) E. apply engine_cases in E as (t1 & r & w1 & B & _ & D).
  destruct (other_tame_subs cap drv _ _ _ _ w bs t1 r w1 T (idle_init wrs) Hc Ho Hd Hp B) as [K S1].
  destruct D as [(_ & _ & _ & _ & ->)|(L & -> & D)]; [exact S1|]. cbv zeta in D. destruct D as (cr & C & _).
  pose proof (Begin_idle_spec false (Translation_init wrs) _ (rq_data q) (rq_lun q) w (idle_init wrs) (no_ok_span _ (rq_cdb q)) (no_ok_span _ _)) as H.
  unfold cst in H. unfold begins in B. rewrite B in H. destruct H as (_ & W & Hni & _).
  rewrite (map_ext _ _ sub_of_exposed) in C.
  pose proof (device_run_keeps _ _ K 0%nat (mem w1)) as R.
  eapply Complete_low in C; [|exact W|exact Hni| |exact Hs].
  - destruct C as [C _]. apply (same_medium_trans _ w1); [exact S1|]. eapply same_medium_trans; [|exact C]. exact R.
  - intros x. unfold response_span, in_span. destruct (rq_data_in q); cbn [ptr len null_span]; [|lia]. intros Hx. apply Hd. unfold in_span. lia.
Qed.

Lemma adapter_other cap drv wrs kz wild c w r w' :
  tame cap drv -> scsi_other w kz c -> scsi_queuecommand drv wrs kz wild c w = Ret r w' -> same_medium w w'.
Proof.
  intros T ((bs & Hb & Hl & Hc & Ho) & Hs & Hsg & Hun & Hkz & Hp) E.
  set (q := mock_request kz wild c).
  assert (Hq : rq_cdb q = {| ptr := sc_cmnd c; len := sc_cmd_len c |}).
  { unfold q, mock_request. cbn [rq_cdb]. rewrite N.mod_small by lia. reflexivity. }
  assert (Hqd : len (rq_data q) = sc_bufflen c mod 65536) by reflexivity.
  assert (Hqn : len (rq_data q) <= sc_bufflen c) by (rewrite Hqd; apply N.mod_le; discriminate).
  destruct ((0 <? len (rq_data q)) && (kz =? 0)) eqn:Nul.
  { rewrite mock_eq in E. cbv zeta in E. fold q in E. rewrite Nul in E.
    replace (0 <? len (rq_data q)) with true in E by lia. replace (kz =? 0) with true in E by lia. apply ret_eq in E as [_ <-]. intros x Hx. reflexivity. }
  assert (K : len (rq_data q) = 0 \/ kz <> 0) by lia.
  destruct (mock_inv _ _ _ _ _ _ _ _ E (K : len (rq_data (mock_request kz wild c)) = 0 \/ kz <> 0)) as (w2 & resp & t & subs & w3 & w4 & Pr & _ & E2 & _ & _ & D & ->).
  fold q in Pr, E2, D.
  assert (S1 : same_medium w w2) by (intros x Hx; apply (p_mem _ _ _ _ Pr); lia).
  assert (S2 : same_medium w2 w3).
  { apply (engine_other cap drv wrs q w2 resp t subs w3 T); [|exact E2]. split; [|split; [|split]].
    - exists bs. split; [|exact Ho]. rewrite Hq. split; [cbn [len]; lia|]. intros i b Hi. cbn [ptr]. rewrite (p_mem _ _ _ _ Pr).
      + apply Hb. exact Hi.
      + intros Hx. apply (bytes_mapped _ _ _ i Hb); [apply nth_error_Some; congruence|]. apply Hun. lia.
    - intros x. unfold in_span, q, mock_request in *. cbn [rq_data ptr len] in *. destruct (0 <? sc_bufflen c mod 65536) eqn:Z; lia.
    - intros x. unfold in_span, q, mock_request. cbn [rq_sense ptr len]. lia.
    - unfold pages_in_memory. rewrite (sc_ans _ _ (p_cfg _ _ _ _ Pr)). exact Hp. }
  apply (same_medium_trans _ w2); [exact S1|]. apply (same_medium_trans _ w3); [exact S2|].
  assert (S4 : same_medium w3 w4).
  { intros x Hx. destruct (rq_data_in q && (0 <? len (rq_data q))).
    - destruct D as (_ & bs' & _ & _ & D). apply sg_scatter_set in D as (_ & _ & D). apply D. intros Y. apply Hsg in Y. lia.
    - destruct D as [_ ->]. reflexivity. }
  fold q. clear E D. destruct (0 <? len (rq_data q)); exact S4.
Qed.
Theorem C85_adapter_keeps_data : forall cap ident cpl wrs kz wild c w r w',
  scsi_other w kz c -> scsi_queuecommand (nvme_device cap ident cpl) wrs kz wild c w = Ret r w' -> same_medium w w'.
Proof. intros cap ident cpl wrs kz wild c w r w'. apply (adapter_other cap), device_tame. Qed.
Print Assumptions C85_adapter_keeps_data.

Theorem C85_adapter_refines : forall cap w0 l w d, cap_ok cap -> stores w0 d -> scsi_mixed cap w0 l w ->
  exists d', explains (fun lun => cap (lun + 1)) d l d' /\ stores w d'.
Proof.
  intros cap w0 l w d Hcap Hs H.
  induction H as [|l w w' H IH Hm|l w ident cpl wrs kz wild c x a r w' H IH P E O|l w ident cpl wrs kz wild c r w' H IH P E].
  - exists d. split; [constructor|exact Hs].
  - destruct IH as (d' & X & S). exists d'. split; [exact X|]. exact (stores_same _ _ _ S Hm).
  - destruct IH as (d1 & X & S). pose proof (adapter_step_dev cap _ wrs kz wild c w x d1 (device_disk_like cap ident cpl) Hcap S P) as Z.
    destruct (disk_step (fun lun => cap (lun + 1)) d1 x) as [d' a'] eqn:D.
    destruct Z as (r2 & w2 & E2 & O2 & S2 & _). rewrite E in E2.
    apply ret_eq in E2 as [<- <-].
    pose proof (scsi_observes_unique _ _ _ _ _ _ O O2) as ->.
    exists d'. split; [|exact S2]. pose proof (explains_snoc _ _ _ _ x X) as Y. rewrite D in Y. exact Y.
  - destruct IH as (d1 & X & S). exists d1. split; [exact X|]. apply (stores_same _ _ _ S). exact (C85_adapter_keeps_data _ _ _ _ _ _ _ _ _ _ P E).
Qed.
Print Assumptions C85_adapter_refines.

(** acknowledged writes are read back, however many other commands came between *)
Theorem C85_read_your_writes : forall cap w0 w l1 l2 lun lba data lba' n bs b o,
  cap_ok cap -> (exists d, stores w0 d) ->
  scsi_mixed cap w0 (l1 ++ (IoWrite lun lba data, AnsDone) :: l2 ++ [(IoRead lun lba' n, AnsData bs)]) w ->
  lba <= b < lba + blocks_of data -> lba' <= b < lba' + n -> (forall p, In p l2 -> ~ writes_block lun b p) -> o < 4096 ->
  block_byte lba' b o bs = block_byte lba b o data /\ block_byte lba b o data <> None.
Proof.
  intros cap w0 w l1 l2 lun lba data lba' n bs b o Hcap [d Hs] H Hb Hb' Hw Ho.
  destruct (C85_adapter_refines cap w0 _ w d Hcap Hs H) as (d' & X & _). split.
  - exact (explains_read_back _ _ _ _ _ _ _ _ _ _ _ _ _ _ X eq_refl Hw Hb Hb' Ho).
  - unfold block_byte. apply nth_error_Some. unfold blocks_of in *. pose proof (N.mul_div_le (N.of_nat (length data)) 4096). lia.
Qed.
Print Assumptions C85_read_your_writes.

(** *** block 7 of unit 2 is written, INQUIRY is served, and the block is read *)
Definition ex_inquiry85 : list byte := B [0x12; 0; 0; 0; 36; 0].
Definition ex_ident : submission -> N -> byte := fun _ i => ex_pattern (i + 3).
Definition ex_cpl : nat -> submission -> N := fun _ _ => 0.
Definition ex_later_with (cdb : list byte) (w : world) : world :=
  set_mem (ex_world []) (fun x => if 2 ^ 64 <=? x then mem w x else ex_disk_mem cdb x).
Lemma ex_inquiry_presented w : scsi_other (ex_later_with ex_inquiry85 w) 0x90000 (ex_scsi ex_inquiry85 true 64).
Proof.
  assert (Lw : forall y, y < 2 ^ 64 -> mem (ex_later_with ex_inquiry85 w) y = ex_disk_mem ex_inquiry85 y).
  { intros y Hy. unfold ex_later_with. cbn [mem set_mem]. replace (2 ^ 64 <=? y) with false by lia. reflexivity. }
  split; [|split; [|split; [|split; [|split]]]].
  - exists ex_inquiry85. split; [|split; [reflexivity|split; [reflexivity|]]].
    + intros i b Hi. change (sc_cmnd _) with 0x1000.
      assert (i < 6)%nat by (change 6%nat with (length ex_inquiry85); apply nth_error_Some; congruence).
      rewrite Lw by lia. unfold ex_disk_mem. change (N.of_nat (length ex_inquiry85)) with 6.
      replace (2 ^ 64 <=? 0x1000 + N.of_nat i) with false by lia.
      replace ((0x1000 <=? 0x1000 + N.of_nat i) && (0x1000 + N.of_nat i <? 0x1000 + 6)) with true by lia.
      replace (N.to_nat (0x1000 + N.of_nat i - 0x1000)) with i by lia. exact Hi.
    + split; [discriminate|]. intros f. destruct f; discriminate.
  - discriminate.
  - unfold ex_scsi, sg_addrs. cbn [sc_sgl flat_map fst snd]. rewrite app_nil_r. change (64 / 2) with 32. intros y H.
    apply in_app_or in H as [H|H]; apply in_map_iff in H as (i & <- & H); apply in_seq in H; lia.
  - intros y Hy. change (sc_bufflen _) with 64 in Hy. rewrite Lw by lia. unfold ex_disk_mem. change (N.of_nat (length ex_inquiry85)) with 6.
    replace (2 ^ 64 <=? y) with false by lia. replace ((0x1000 <=? y) && (y <? 0x1000 + 6)) with false by lia.
    replace ((0x20000 <=? y) && (y <? 0x24000)) with false by lia. replace ((0x40000 <=? y) && (y <? 0x40060)) with false by lia. reflexivity.
  - discriminate.
  - split; [|reflexivity]. intros k. change (ans _ k 4096 1) with (0x100000 * (N.of_nat k + 1)). unfold u64.
    change (2 ^ 64) with (0x100000 * 2 ^ 44). rewrite N.mul_mod_distr_l by discriminate.
    assert ((N.of_nat k + 1) mod 2 ^ 44 < 2 ^ 44) by (apply N.mod_lt; discriminate). lia.
Qed.
Example C85_premises_met : exists w bs,
  scsi_mixed ex_cap (ex_disk_world ex_write7)
    ([] ++ (IoWrite 2 7 (ex_data (N.to_nat 4096) xcd), AnsDone) :: [] ++ [(IoRead 2 6 2, AnsData bs)]) w /\
  7 <= 7 < 7 + blocks_of (ex_data (N.to_nat 4096) xcd) /\ 6 <= 7 < 6 + 2.
Proof.
  assert (L : N.of_nat (length (ex_data (N.to_nat 4096) xcd)) = 4096) by (unfold ex_data; rewrite repeat_length; apply N2Nat.id).
  assert (Bl : blocks_of (ex_data (N.to_nat 4096) xcd) = 1) by (unfold blocks_of; rewrite L; reflexivity).
  destruct C80_premises_met as (P & Hc & S & A & _).
  pose proof (adapter_step_dev ex_cap _ ex_wrs 0x90000 0 _ _ _ ex_disk (device_disk_like ex_cap ex_ident ex_cpl) Hc S P) as Z.
  change (fun lun => ex_cap (lun + 1)) with ex_cap in Z. destruct (disk_step ex_cap ex_disk _) as [d1 a1]. cbn [snd] in A. subst a1.
  destruct Z as (r1 & w1 & E1 & O1 & S1 & _).
  assert (H1 : scsi_mixed ex_cap (ex_disk_world ex_write7) ([] ++ [(IoWrite 2 7 (ex_data (N.to_nat 4096) xcd), AnsDone)]) w1)
    by (eapply sm_io; [apply sm_nil|exact P|exact E1|exact O1]).
  (* INQUIRY *)
  assert (X : match scsi_queuecommand (nvme_device ex_cap ex_ident ex_cpl) ex_wrs 0x90000 0 (ex_scsi ex_inquiry85 true 64) (ex_later_with ex_inquiry85 w1) with
              | Ret r _ => mr_result r =? GOOD | UB _ => false end = true) by (vm_compute; reflexivity).
  destruct (scsi_queuecommand _ ex_wrs 0x90000 0 (ex_scsi ex_inquiry85 true 64) (ex_later_with ex_inquiry85 w1)) as [ri wi|] eqn:Ei; [|discriminate X].
  assert (Mi : same_medium w1 wi).
  { eapply same_medium_trans; [|exact (C85_adapter_keeps_data _ _ _ _ _ _ _ _ _ _ (ex_inquiry_presented w1) Ei)].
    intros y Hy. unfold ex_later_with. cbn [mem set_mem]. replace (2 ^ 64 <=? y) with true by lia. reflexivity. }
  assert (H2 : scsi_mixed ex_cap (ex_disk_world ex_write7) ([] ++ [(IoWrite 2 7 (ex_data (N.to_nat 4096) xcd), AnsDone)]) wi).
  { eapply sm_other; [|exact (ex_inquiry_presented w1)|exact Ei]. eapply sm_env; [exact H1|].
    intros y Hy. unfold ex_later_with. cbn [mem set_mem]. replace (2 ^ 64 <=? y) with true by lia. reflexivity. }
  assert (S2 : stores (ex_later wi) d1).
  { apply (stores_same w1); [exact S1|]. intros y Hy. rewrite <- (Mi y Hy). unfold ex_later. cbn [mem set_mem]. replace (2 ^ 64 <=? y) with true by lia. reflexivity. }
  pose proof (adapter_step_dev ex_cap _ ex_wrs 0x90000 0 _ _ _ d1 (device_disk_like ex_cap ex_ident ex_cpl) Hc S2 (ex_read_presented wi)) as Z.
  change (fun lun => ex_cap (lun + 1)) with ex_cap in Z.
  change (disk_step ex_cap d1 (IoRead 2 6 2)) with (d1, AnsData (disk_read d1 2 6 2)) in Z.
  destruct Z as (r2 & w2 & E2 & O2 & S3 & _).
  exists w2, (disk_read d1 2 6 2). split; [|split].
  - change ([] ++ ?a :: [] ++ [?b]) with (([] ++ [a]) ++ [b]).
    eapply sm_io; [|apply ex_read_presented|exact E2|exact O2]. eapply sm_env; [exact H2|].
    intros y Hy. unfold ex_later. cbn [mem set_mem]. replace (2 ^ 64 <=? y) with true by lia. reflexivity.
  - rewrite Bl. lia.
  - lia.
Qed.
