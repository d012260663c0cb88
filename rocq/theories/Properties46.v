(** C114: a command that fails says why. *)
From Coq Require Import Arith NArith ZArith String List Lia Bool Init.Byte Permutation.
From Coq Require Import ZifyBool ZifyNat ZifyN.
From Verif Require Import Bytes Layout World ScsiDefs NvmeDefs Common TranslationCls EngineE2e MockModule KernelDriver
  Spec RwSpec UnmapSpec EngineSpec MockSpec SenseSpec
  Facts Logic BeginFacts CompleteFacts StatusFacts EngineFacts MockFacts Witness
  Properties1 Properties6 Properties9 Properties11 Properties12 Properties14 Properties41.
Import ListNotations.
Local Open Scope string_scope.
Local Open Scope list_scope.
Local Open Scope N_scope.

(** Begin leaves memory outside the pages alone *)
Lemma begins_apart wrs q w t1 r w1 s : EngineSpec.begins wrs q w = Ret (t1, r) w1 -> pages_apart w s -> forall x, in_span s x -> mem w1 x = mem w x.
Proof.
  intros E Hap x Hx. unfold EngineSpec.begins in E.
  pose proof (Begin_idle_spec false (Translation_init wrs) (rq_cdb q) (rq_data q) (rq_lun q) w (idle_init wrs) (no_ok_span _ _) (no_ok_span _ _)) as S.
  unfold cst in S. rewrite E in S. destruct S as (_ & _ & _ & _ & _ & w0 & evs' & rel & G & R & _).
  rewrite (r_mem _ _ _ R). destruct (g_mem _ _ _ G x) as [Q|(ps & n & a & Hin & Ha & Hr)]; [exact Q|]. exfalso.
  destruct (drawn_in _ _ _ _ (g_from _ _ _ G) Hin) as (k & n' & _ & _ & Ek). injection Ek as -> -> ->.
  unfold in_span in Hx. destruct (Hap k 4096 n') as [Q|[Q|Q]]; lia.
Qed.
Lemma run_spares drv c : spares drv c -> forall ss k m x, in_span (sense_of c) x -> fst (device_run drv k ss m) x = m x.
Proof.
  intros H. induction ss as [|s ss IH]; intros k m x Hx; cbn [device_run]; [reflexivity|].
  pose proof (H k s m x Hx) as H1. destruct (drv k s m) as [m1 c1]. specialize (IH (S k) m1 x Hx).
  destruct (device_run drv (S k) ss m1) as [m2 cs]. cbn [fst] in *. rewrite IH. exact H1.
Qed.
Lemma first_bad cpls : Forall cpl_ok cpls \/ exists pre x post, cpls = pre ++ x :: post /\ Forall cpl_ok pre /\ ~ cpl_ok x.
Proof.
  induction cpls as [|c l IH]; [left; constructor|].
  destruct (N.eq_dec (cpl_sct c) 0) as [H1|H1]; [destruct (N.eq_dec (cpl_sc c) 0) as [H2|H2]|].
  - destruct IH as [IH|(pre & x & post & -> & A & B)]; [left; constructor; [split; assumption|exact IH]|].
    right. exists (c :: pre), x, post. split; [reflexivity|]. split; [constructor; [split; assumption|exact A]|exact B].
  - right. exists [], c, l. split; [reflexivity|]. split; [constructor|]. intros [_ Z]. exact (H2 Z).
  - right. exists [], c, l. split; [reflexivity|]. split; [constructor|]. intros [Z _]. exact (H1 Z).
Qed.

Lemma sensed_told w0 w w' c key asc ascq : sensed w w' (sense_of c) key asc ascq -> (forall x, in_span (sense_of c) x -> mem w x = mem w0 x) -> told w0 w' c key asc ascq.
Proof.
  intros [_ H] Hm. destruct (H ltac:(cbn; lia)) as (bs & Hs & Hb & Hf). split; [exists bs; split; [exact Hs|exact Hb]|].
  intros x Hx. destruct Hs as [Hl _]. rewrite Hf; [apply Hm; unfold in_span; cbn; lia|]. cbn [ptr sense_of]. rewrite Hl. lia.
Qed.

(** the engine *)
Lemma engine_explains drv wrs q w resp t subs w' c r : rq_sense q = sense_of c -> spares drv c -> pages_apart w (sense_of c) -> span_mapped w (sense_of c) ->
  (len (rq_data q) = 0 \/ ptr (rq_data q) + len (rq_data q) <= sc_sense c \/ sc_sense c + 96 <= ptr (rq_data q)) ->
  engine drv wrs q w = Ret (resp, t, subs) w' -> mr_result r = er_return_code resp -> mr_subs r = subs ->
  exists m, (forall x, pages_apart w {| ptr := x; len := 1 |} -> m x = mem w x) /\ explained w w' c r (snd (device_run drv 0 (mr_subs r) m)).
Proof.
  intros Hq Hd Hap Hmap Hdat E Er Es. destruct (engine_cases _ _ _ _ _ _ _ _ E) as (t1 & br & w1 & E1 & Hs & C).
  pose proof (begins_inv _ _ _ _ _ _ E1 Hs) as I. pose proof (begins_apart _ _ _ _ _ _ _ E1 Hap) as M1. exists (mem w1).
  split; [intros x Hx; apply (begins_apart _ _ _ _ _ _ _ E1 Hx); unfold in_span; cbn [ptr len]; lia|].
  destruct C as [(L & -> & _ & -> & ->)|(L & -> & cr & E2 & ->)]; [apply why_gave_up; [exact Er|exact Es|exact M1]|].
  rewrite Hq in E2. rewrite Es. set (subs := map sub_of (GetNvmeWrappers t1)) in *. set (d := device_run drv 0 subs (mem w1)) in *.
  assert (M2 : forall x, in_span (sense_of c) x -> fst d x = mem w x).
  { intros x Hx. unfold d. rewrite (run_spares drv c Hd subs 0%nat (mem w1) x Hx). apply M1, Hx. }
  assert (Hm2 : span_mapped (set_mem w1 (fst d)) (sense_of c)).
  { intros x Hx. cbn [mem set_mem]. rewrite M2 by exact Hx. apply Hmap, Hx. }
  assert (Hn : N.of_nat (length (snd d)) = nvme_cmd_count t1).
  { unfold d. rewrite device_run_length. unfold subs. rewrite map_length. pose proof (i_wf _ _ I) as (W & _). unfold GetNvmeWrappers. rewrite firstn_length. cbn [length]. lia. }
  assert (Hcase : accepted t1 \/ rejected t1).
  { pose proof (inv_busy _ I) as Q. unfold accepted, rejected. destruct (pipeline_status t1); [left; reflexivity|congruence|right; split; discriminate..]. }
  destruct Hcase as [Ep|Hr].
  - (* translated *)
    destruct (first_bad (snd d)) as [Ok|(pre & x & post & Ec & Hpre & Hx)].
    + destruct (Complete_all_ok _ _ _ _ _ _ _ _ Ep Hn Ok E2) as [G1 G2]. rewrite G1 in Er. cbn [is_api_success er_return_code] in Er. 
      apply why_good; [rewrite Er; exact G2|exact Ok|]. intros y Hy.
      pose proof (pst_use _ _ _ _ _ (Complete_where t1 (snd d) (response_span q (br_alloc_len br)) (sense_of c) (set_mem w1 (fst d)) (i_wf _ _ I)) E2) as (_ & W & _).
      cbn [snd] in W. rewrite (W G1 G2 y); [cbn [mem set_mem]; apply M2, Hy|].
      unfold response_span, in_span in *. cbn [ptr len sense_of] in Hy. destruct (rq_data_in q); cbn [ptr len null_span]; lia.
    + pose proof (Complete_error t1 _ pre x post (response_span q (br_alloc_len br)) (sense_of c) _ (i_wf _ _ I) Ep Hn Ec Hpre Hx Hm2) as H.
      destruct (scsi_status_of (cpl_sct x) (cpl_sc x)) as [[[st key] asc] ascq] eqn:Et. destruct H as (t' & w2 & w3 & E3 & Hg & _ & Hse & _).
      rewrite E3 in E2. apply ret_eq in E2 as [E2 ->]. apply pair_eq in E2 as [_ <-]. cbn [cr_status api_ok cr_scsi_status is_api_success er_return_code] in Er.
      eapply why_failed; [exact Ec|exact Hpre|exact Hx|exact Et|exact Er|exact Hg|]. eapply sensed_told; [exact Hse|]. exact M2.
  - (* refused *)
    destruct (inv_rejected _ _ I Hr) as [X H0].
    assert (X0 : GetNvmeWrappers t1 = []) by (unfold exposes in X; apply map_eq_nil in X; exact X).
    assert (Hsub : subs = []) by (unfold subs; rewrite X0; reflexivity).
    assert (Hcp : snd d = []) by (unfold d; rewrite Hsub; reflexivity).
    assert (Hc0 : nvme_cmd_count t1 = 0) by (rewrite <- Hn, Hcp; reflexivity).
    destruct (Complete_rejected t1 (snd d) (response_span q (br_alloc_len br)) (sense_of c) _ (i_wf _ _ I) Hr Hc0 H0 Hm2 Hcp) as (t' & w3 & E3 & _ & Hse & _).
    rewrite E3 in E2; apply ret_eq in E2 as [E2 ->]; apply pair_eq in E2 as [_ <-]; cbn [cr_status api_ok cr_scsi_status is_api_success er_return_code] in Er.
    apply why_refused; [exact Er|rewrite Es; exact Hsub|eapply sensed_told; [exact Hse|exact M2]].
Qed.

(** ** C114 *)

(** Every command that comes back says why: GOOD only if every command submitted
    succeeded, and then the sense buffer is left alone; otherwise the status and
    the sense data are those of the first completion that reports a failure, or
    ILLEGAL REQUEST / INVALID FIELD IN CDB if the command was refused, in which
    case nothing was submitted; or the command was given up before anything was
    submitted. *)
Theorem C114_failures_are_explained : forall drv wrs kz wild c w r w',
  scsi_queuecommand drv wrs kz wild c w = Ret r w' -> sense_alone w kz c -> spares drv c ->
  exists m, memory_of w kz c m /\ explained w w' c r (snd (device_run drv 0 (mr_subs r) m)).
Proof.
  intros drv wrs kz wild c w r w' E (Hm & Hap & Hk & Hsg) Hd.
  set (n := sc_bufflen c mod 65536) in *.
  destruct (N.eq_dec n 0) as [Hn|Hn].
  2: destruct (N.eq_dec kz 0) as [Hz|Hz].
  2:{ (* no memory *) subst kz. rewrite mock_eq in E. cbv zeta in E. change (len (rq_data (mock_request 0 wild c))) with n in E.
      replace (0 <? n) with true in E by lia. change (0 =? 0) with true in E. cbn [andb] in E. apply ret_eq in E as [<- <-].
      exists (mem w). split; [intros x _ _; reflexivity|]. apply why_no_memory; [reflexivity|reflexivity|]. intros x _. reflexivity. }
  all: destruct (mock_inv drv wrs kz wild c w r w' E) as (w2 & resp & t & subs & w3 & w4 & P & _ & E1 & Er & Es & D & W); [auto|].
  all: change (len (rq_data (mock_request kz wild c))) with n in *; change (rq_data_in (mock_request kz wild c)) with (sc_from_device c) in *.
  all: assert (K : n = 0 \/ kz + n <= sc_sense c \/ sc_sense c + 96 <= kz) by tauto.
  all: assert (M0 : forall x, in_span (sense_of c) x -> mem w2 x = mem w x)
         by (intros x Hx; apply (p_mem _ _ _ _ P); unfold in_span in Hx; cbn [ptr len sense_of] in Hx; lia).
  all: destruct (engine_explains drv wrs (mock_request kz wild c) w2 resp t subs w3 c r eq_refl Hd) as (m & Mm & X); try assumption;
    [intros k ps j; rewrite (sc_ans _ _ (p_cfg _ _ _ _ P)); apply Hap
    |intros x Hx; rewrite (M0 x Hx); apply Hm, Hx
    |change (len (rq_data (mock_request kz wild c))) with n; cbn [mock_request rq_data ptr]; fold n; destruct (N.ltb_spec 0 n); lia|].
  all: assert (M4 : forall x, in_span (sense_of c) x -> mem w' x = mem w3 x).
  1,3: intros x Hx; assert (Q : mem w4 x = mem w3 x);
       [destruct (sc_from_device c && (0 <? n));
         [destruct D as (_ & bs & _ & _ & D); apply sg_scatter_set in D as (_ & _ & D); apply D; intros Hin; exact (Hsg x Hin Hx)
         |destruct D as [_ ->]; reflexivity]
       |subst w'; destruct (0 <? n); exact Q].
  all: exists m; split; [intros x Hx Hpa; rewrite Mm; [apply (p_mem _ _ _ _ P); exact Hx|intros k ps j; rewrite (sc_ans _ _ (p_cfg _ _ _ _ P)); apply Hpa]|].
  all: destruct X as [X1 X2 X3|pre x post st key asc ascq X1 X2 X3 X4 X5 X6 [(bs & X7 & X8) X9]|X1 X2 [(bs & X7 & X8) X9]|X1 X2 X3|X1 X2 X3].
  all: try (assert (T : silent w w' c) by (intros y Hy; rewrite (M4 y Hy), (X3 y Hy); apply M0, Hy)).
  all: try (assert (Tb : bytes_at w' (sc_sense c) bs) by (intros i b Hi; rewrite M4; [apply X8, Hi|]; unfold in_span; cbn [ptr len sense_of];
      assert (i < length bs)%nat by (apply nth_error_Some; rewrite Hi; discriminate); destruct X7 as [Hl _]; lia)).
  all: try (assert (Tr : forall y, sc_sense c + 8 <= y < sc_sense c + 96 -> mem w' y = mem w y) by (intros y Hy;
      assert (Hin : in_span (sense_of c) y) by (unfold in_span; cbn [ptr len sense_of]; lia); rewrite (M4 y Hin), (X9 y Hy); apply M0, Hin)).
  all: first [apply why_good; assumption|eapply why_failed; [exact X1|exact X2|exact X3|exact X4|exact X5|exact X6|split; [exists bs; split; assumption|assumption]]
    |apply why_refused; [exact X1|exact X2|split; [exists bs; split; assumption|assumption]]|apply why_gave_up; assumption|apply why_no_memory; assumption].
Qed.
Print Assumptions C114_failures_are_explained.

(** CHECK CONDITION is always accompanied by sense data. *)
Theorem C114_check_condition_has_sense : forall drv wrs kz wild c w r w',
  scsi_queuecommand drv wrs kz wild c w = Ret r w' -> sense_alone w kz c -> spares drv c -> mr_result r = CHECK_CONDITION ->
  exists key asc ascq, told w w' c key asc ascq /\
    (mr_subs r = [] /\ (key, asc, ascq) = (5, 0x24, 0) \/ exists x, ~ cpl_ok x /\ scsi_status_of (cpl_sct x) (cpl_sc x) = (CHECK_CONDITION, key, asc, ascq)).
Proof.
  intros drv wrs kz wild c w r w' E Ha Hd Hr. destruct (C114_failures_are_explained _ _ _ _ _ _ _ _ E Ha Hd) as (m & _ & X).
  destruct X as [X1 X2 X3|pre x post st key asc ascq X1 X2 X3 X4 X5 X6 X7|X1 X2 X3|X1 X2 X3|X1 X2 X3]; try (rewrite X1 in Hr; discriminate Hr).
  - exists key, asc, ascq. split; [exact X7|]. right. exists x. split; [exact X3|]. rewrite X4, <- Hr, X5. reflexivity.
  - exists 5, 0x24, 0. split; [exact X3|]. left. split; [exact X2|reflexivity].
Qed.
Print Assumptions C114_check_condition_has_sense.

(** Through the complete kernel module: CHECK CONDITION only for refused
    commands, since no failure of the device comes back (C54). *)
Theorem C114_kernel_module : forall kn wrs kz wild c w r w',
  scsi_queuecommand (kernel_driver kn) wrs kz wild c w = Ret r w' -> sense_alone w kz c ->
  (forall k s m x, in_span (sense_of c) x -> fst (kn_exec kn k s m) x = m x) -> mr_result r = CHECK_CONDITION ->
  mr_subs r = [] /\ told w w' c 5 0x24 0.
Proof.
  intros kn wrs kz wild c w r w' E Ha Hd Hr.
  assert (Hk : spares (kernel_driver kn) c).
  { intros k s m x Hx. unfold kernel_driver, submit_command. destruct (kn_ns kn); [|reflexivity]. unfold nvme_submit_user_cmd.
    destruct (_ =? 0); [reflexivity|]. destruct (kn_alloc kn k); [|reflexivity]. cbv zeta. destruct (_ && _); [|apply Hd, Hx].
    destruct (negb (Z.eqb _ _)); [reflexivity|]. destruct (kn_disk kn =? 0); [reflexivity|apply Hd, Hx]. }
  destruct (C114_failures_are_explained _ _ _ _ _ _ _ _ E Ha Hk) as (m & _ & X).
  destruct X as [X1 X2 X3|pre x post st key asc ascq X1 X2 X3 X4 X5 X6 X7|X1 X2 X3|X1 X2 X3|X1 X2 X3]; try (rewrite X1 in Hr; discriminate Hr).
  - exfalso. apply X3. assert (Hin : In x (snd (device_run (kernel_driver kn) 0 (mr_subs r) m))) by (rewrite X1; apply in_or_app; right; left; reflexivity).
    clear -Hin. revert Hin. generalize 0%nat as k. revert m. induction (mr_subs r) as [|s ss IH]; intros m k Hin; cbn [device_run] in Hin; [destruct Hin|].
    assert (Z : snd (kernel_driver kn k s m) = 0) by (unfold kernel_driver; destruct (submit_command kn k s m) as [[[? ?] ?]|]; reflexivity).
    destruct (kernel_driver kn k s m) as [m1 c1]. cbn [snd] in Z. subst c1. specialize (IH m1 (S k)).
    destruct (device_run (kernel_driver kn) (S k) ss m1) as [m2 cs]. cbn [snd In] in *. destruct Hin as [<-|Hin]; [split; reflexivity|exact (IH Hin)].
  - split; assumption.
Qed.
Print Assumptions C114_kernel_module.

(** ** The premises are met *)
Definition ex_failing : driver := fun _ _ m => (m, N.shiftl 0x80 113).
Lemma ex_sense_alone bs : sense_alone (ex_world41 false bs) 0x90000 (ex_scsi bs true 96).
Proof.
  split; [|split; [|split]].
  - intros x Hx. unfold in_span, sense_of in Hx. cbn [ptr len sc_sense ex_scsi] in Hx. cbn [mem ex_world41].
    replace ((0x40000 <=? x) && (x <? 0x40060)) with true by lia. discriminate.
  - intros k ps n. cbv zeta. cbn [ans ex_world41 ex_world12]. destruct (n =? 0); [left; reflexivity|]. right; right.
    unfold sense_of. cbn [ptr len sc_sense ex_scsi]. unfold u64. rewrite N.mod_small; pose proof (N.mod_lt (N.of_nat k) 4); [change (2 ^ 64) with 18446744073709551616|]; lia.
  - right; right; right. cbn. lia.
  - intros x Hin. unfold in_span, sense_of. cbn [ptr len sc_sense ex_scsi]. cbn [sc_sgl ex_scsi] in Hin. rewrite !MockFacts.sg_addrs_cons in Hin. apply in_app_or in Hin as [Hin|Hin]; [|apply in_app_or in Hin as [Hin|[]]].
    all: apply in_map_iff in Hin as (i & <- & Hin); apply in_seq in Hin; change (96 / 2) with 48 in *; lia.
Qed.
Definition ex_run46 (drv : driver) (bs : list byte) :=
  match scsi_queuecommand drv ex_wrs 0x90000 0xdead (ex_scsi bs true 96) (ex_world41 false bs) with
  | Ret r w => Some (mr_result r, length (mr_subs r), map (mem w) (map (fun i => 0x40000 + N.of_nat i) (seq 0 9)))
  | UB _ => None end.
(** INQUIRY carried out; the same with a device that reports LBA OUT OF RANGE; an
    unknown opcode; READ(10) with no room in the buffer *)
Example C114_premises_met :
  (forall bs, sense_alone (ex_world41 false bs) 0x90000 (ex_scsi bs true 96)) /\ (forall c, spares ex_failing c) /\
  ex_run46 (fun _ _ m => (m, 0)) (B [0x12;0;0;0;36;0]) = Some (GOOD, 2%nat, repeat (Some x00) 9) /\
  ex_run46 ex_failing (B [0x12;0;0;0;36;0]) = Some (CHECK_CONDITION, 2%nat, map Some (B [0x72;5;0x21;0;0;0;0;0;0])) /\
  ex_run46 ex_failing (B [0xff]) = Some (CHECK_CONDITION, 0%nat, map Some (B [0x72;5;0x24;0;0;0;0;0;0])) /\
  ex_run46 ex_failing (B [0x28;0;0;0;0;0;0;0;1;0]) = Some (TASK_ABORTED, 0%nat, repeat (Some x00) 9).
Proof.
  split; [exact ex_sense_alone|]. split; [intros c k s m x _; reflexivity|].
  split; [vm_compute; reflexivity|]. split; [vm_compute; reflexivity|]. split; vm_compute; reflexivity.
Qed.
