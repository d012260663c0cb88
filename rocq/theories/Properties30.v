(** C94: what the complete module tells the initiator about the device. *)
From Coq Require Import Arith NArith ZArith String List Lia Bool Init.Byte.
From Coq Require Import ZifyBool ZifyNat ZifyN.
From Verif Require Import Bytes Layout World ScsiDefs NvmeDefs Common ModeSenseCmd TranslationCls EngineE2e MockModule KernelDriver
  Spec RwSpec InquirySpec SmallSpec ModeSpec UnmapSpec EngineSpec MockSpec AcceptSpec ModuleSpec
  Facts Logic BeginFacts CompleteFacts StatusFacts RwFacts RelFacts AcceptFacts AnnounceFacts EngineFacts MockFacts Witness
  Properties1 Properties2 Properties6 Properties9 Properties11 Properties13 Properties24 Properties25 Properties26.
Import ListNotations.
Local Open Scope string_scope.
Local Open Scope list_scope.
Local Open Scope N_scope.

(** ** a driver that completes everything without error *)
Definition all_ok (drv : driver) : Prop := forall k s m, cpl_ok (snd (drv k s m) mod 2 ^ 128).
Lemma kernel_all_ok kn : all_ok (kernel_driver kn).
Proof. intros k s m. unfold kernel_driver. destruct (submit_command kn k s m) as [[[z l] m']|]; split; reflexivity. Qed.
Lemma all_ok_run drv ss : all_ok drv -> forall k m, Forall cpl_ok (snd (device_run drv k ss m)).
Proof.
  intros H. induction ss as [|s ss IH]; intros k m; cbn [device_run]; [constructor|].
  pose proof (H k s m) as X. destruct (drv k s m) as [m1 c]. specialize (IH (S k) m1). destruct (device_run drv (S k) ss m1) as [m2 cs].
  cbn [snd] in *. constructor; [exact X|exact IH].
Qed.
Lemma completed_ok cpls : Forall cpl_ok cpls -> completed_with cpls = (GOOD, 0, 0, 0).
Proof.
  induction 1 as [|c cs [H1 H2] H IH]; [reflexivity|]. cbn [completed_with]. rewrite H1, H2. exact IH.
Qed.

Lemma engine_blind drv drv' wrs q w resp t subs w1 resp' t' subs' w1' : all_ok drv -> all_ok drv' ->
  engine drv wrs q w = Ret (resp, t, subs) w1 -> engine drv' wrs q w = Ret (resp', t', subs') w1' -> resp = resp' /\ subs = subs'.
Proof.
  intros A A' E E'. destruct (engine_cases _ _ _ _ _ _ _ _ E) as (tb & r & wb & Eb & Hr & C).
  destruct (engine_cases _ _ _ _ _ _ _ _ E') as (tb' & r' & wb' & Eb' & _ & C').
  rewrite Eb in Eb'. apply ret_eq in Eb' as [Eb' <-]. apply pair_eq in Eb' as [<- <-].
  pose proof (begins_inv _ _ _ _ _ _ Eb Hr) as I.
  destruct C as [(L & -> & _ & -> & _)|(L & -> & cr & C & ->)]; destruct C' as [(L' & -> & _ & -> & _)|(L' & -> & cr' & C' & ->)]; try lia.
  { split; reflexivity. }
  split; [|reflexivity].
  assert (Hn : forall d, N.of_nat (length (snd (device_run d 0 (map sub_of (GetNvmeWrappers tb)) (mem wb)))) = nvme_cmd_count tb).
  { intros d. rewrite device_run_length, map_length. pose proof (i_wf _ _ I) as (W & _). unfold GetNvmeWrappers. rewrite firstn_length. cbn [length]. lia. }
  destruct (Complete_verdict _ _ _ _ _ _ _ _ (i_wf _ _ I) (inv_busy _ I) (Hn drv) C) as (S & Y & N).
  destruct (Complete_verdict _ _ _ _ _ _ _ _ (i_wf _ _ I) (inv_busy _ I) (Hn drv') C') as (S' & Y' & N').
  rewrite S, S'. cbn [is_api_success]. f_equal.
  destruct (pipeline_status tb) eqn:P; try (rewrite (proj1 (N ltac:(unfold accepted; rewrite P; discriminate))), (proj1 (N' ltac:(unfold accepted; rewrite P; discriminate))); reflexivity).
  rewrite (proj1 (Y P)), (proj1 (Y' P)), !completed_ok; [reflexivity|apply all_ok_run; assumption|apply all_ok_run; assumption].
Qed.
Lemma copied_count sgl kz n w k w' : sg_copy_from_buffer sgl kz n w = Ret k w' -> k = N.min n (sg_total sgl).
Proof.
  intros E. unfold sg_copy_from_buffer in E. apply bind_ret_inv in E as (bs & w1 & El & E). apply load_inv in El as (-> & L & _).
  apply sg_scatter_set in E as (_ & Z & _). lia.
Qed.
Lemma adapter_blind drv drv' wrs kz wild c w r w1 r' w1' : all_ok drv -> all_ok drv' ->
  scsi_queuecommand drv wrs kz wild c w = Ret r w1 -> scsi_queuecommand drv' wrs kz wild c w = Ret r' w1' -> r = r'.
Proof.
  intros A A' F F'. rewrite mock_eq in F, F'. cbv zeta in F, F'.
  destruct ((0 <? len (rq_data (mock_request kz wild c))) && (kz =? 0)) eqn:Nul.
  { apply ret_eq in F as [<- _]. apply ret_eq in F' as [<- _]. reflexivity. }
  apply bind_ret_inv in F as (z & v & F0 & F). apply bind_ret_inv in F' as (z' & v' & F0' & F'). rewrite F0 in F0'. apply ret_eq in F0' as [_ <-].
  apply bind_ret_inv in F as ([[e t0] ss] & v1 & F1 & F). apply bind_ret_inv in F' as ([[e' t0'] ss'] & v1' & F1' & F').
  destruct (engine_blind _ _ _ _ _ _ _ _ _ _ _ _ _ A A' F1 F1') as [<- <-].
  apply bind_ret_inv in F as (rs & v2 & F2 & F). apply bind_ret_inv in F as ([] & v3 & F3 & F). unfold ret in F. apply ret_eq in F as [F _].
  apply bind_ret_inv in F' as (rs' & v2' & F2' & F'). apply bind_ret_inv in F' as ([] & v3' & F3' & F'). unfold ret in F'. apply ret_eq in F' as [F' _].
  subst r r'. assert (X : rs = rs'); [|rewrite X; reflexivity].
  destruct (rq_data_in _ && _).
  - apply bind_ret_inv in F2 as (k & v4 & F2 & G). apply bind_ret_inv in F2' as (k' & v4' & F2' & G').
    apply copied_count in F2. apply copied_count in F2'. unfold ret in G, G'. apply ret_eq in G as [<- _]. apply ret_eq in G' as [<- _]. congruence.
  - unfold ret in F2, F2'. apply ret_eq in F2 as [<- _]. apply ret_eq in F2' as [<- _]. reflexivity.
Qed.

(** ** C94 *)

(** The status, residual count and sense data of every command queued to the
    module, whatever the state of the block layer and whatever the device does
    with the NVMe commands *)
Theorem C94_module_answer : forall kn wrs kz wild c w bs d r w',
  (* the CDB, its bytes apart from pages the allocator hands out *)
  bytes_at w (sc_cmnd c) bs -> N.of_nat (length bs) = sc_cmd_len c -> sc_cmd_len c < 65536 ->
  (byte_at bs 0 = 0x5a -> pages_apart w {| ptr := sc_cmnd c; len := sc_cmd_len c |}) ->
  (* the buffer *)
  let n := sc_bufflen c mod 65536 in unused w kz n -> n = 0 \/ kz <> 0 ->
  (byte_at bs 0 = 0x42 -> sg_holds w (sc_sgl c) d /\ N.of_nat (length d) = N.min n (sg_total (sc_sgl c)) /\
     pages_apart w {| ptr := sc_cmnd c; len := sc_cmd_len c |}) ->
  (forall x, In x (sg_addrs (sc_sgl c)) -> x < sc_sense c \/ sc_sense c + 96 <= x) ->
  scsi_queuecommand (kernel_driver kn) wrs kz wild c w = Ret r w' ->
  exists ps, answered w w' ps /\
    mr_result r = module_status bs (handed c n d) n ps /\
    mr_resid r = (if sc_from_device c && (0 <? n)
                  then Some (n - N.min (if mr_result r =? TASK_ABORTED then 0 else announced bs) (sg_total (sc_sgl c))) else None) /\
    (mr_result r = CHECK_CONDITION -> exists sb, sense_says 5 0x24 0 sb /\ bytes_at w' (sc_sense c) sb) /\
    (mr_result r <> GOOD -> mr_subs r = []).
Proof.
  intros kn wrs kz wild c w bs d r w' Hc Hl Hlt Hm n Hun Hk Hu Hsg E.
  destruct (C91_adapter_outcome (kernel_driver kn) wrs kz wild c w bs d r w' Hc Hl Hlt Hm Hun Hk Hu Hsg E) as (ps & m & A & V).
  exists ps. split; [exact A|]. cbv zeta in V. fold n in V. unfold verdict in V. unfold module_status.
  destruct (n <? announced bs).
  { subst r. cbn [mr_result mr_resid mr_subs]. split; [reflexivity|]. split; [reflexivity|]. split; [discriminate|reflexivity]. }
  destruct (acceptable bs (handed c n d) n ps).
  - rewrite completed_ok in V by (apply all_ok_run, kernel_all_ok). destruct V as (V1 & V2 & _). rewrite V1. split; [reflexivity|]. split; [exact V2|].
    split; [discriminate|]. intros X. contradiction.
  - destruct V as (V1 & V2 & V3 & V4). rewrite V1 in *. split; [reflexivity|]. split; [exact V2|]. split; [|intros _; apply V4; reflexivity].
    intros _. apply V3. discriminate.
Qed.
Print Assumptions C94_module_answer.

(** the direction that holds: a command not answered GOOD has had no effect on
    the device.  Missing: that a command answered GOOD has been carried out. *)
Theorem C94_refused_not_sent_partial : forall kn wrs kz wild c w r w',
  scsi_queuecommand (kernel_driver kn) wrs kz wild c w = Ret r w' -> mr_result r <> GOOD -> mr_subs r = [].
Proof.
  intros kn wrs kz wild c w r w' E Hg.
  destruct ((0 <? len (rq_data (mock_request kz wild c))) && (kz =? 0)) eqn:Nul.
  { rewrite mock_eq in E. cbv zeta in E. rewrite Nul in E. apply ret_eq in E as [<- _]. reflexivity. }
  assert (K : len (rq_data (mock_request kz wild c)) = 0 \/ kz <> 0) by lia.
  destruct (mock_inv _ _ _ _ _ _ _ _ E K) as (w2 & resp & t & subs & w3 & w4 & _ & _ & E2 & R1 & R2 & _).
  rewrite R1 in Hg. rewrite R2. destruct (engine_cases _ _ _ _ _ _ _ _ E2) as (tb & rb & wb & Eb & Hr & C).
  pose proof (begins_inv _ _ _ _ _ _ Eb Hr) as I.
  destruct C as [(_ & _ & _ & -> & _)|(L & -> & cr & C & Hres)]; [reflexivity|].
  set (cpls := snd (device_run (kernel_driver kn) 0 (map sub_of (GetNvmeWrappers tb)) (mem wb))) in *.
  assert (Hn : N.of_nat (length cpls) = nvme_cmd_count tb).
  { unfold cpls. rewrite device_run_length, map_length. pose proof (i_wf _ _ I) as (W & _). unfold GetNvmeWrappers. rewrite firstn_length. cbn [length]. lia. }
  destruct (Complete_verdict _ _ _ _ _ _ _ _ (i_wf _ _ I) (inv_busy _ I) Hn C) as (S & Y & _).
  rewrite S in Hres. cbn [is_api_success] in Hres. subst resp. cbn [er_return_code] in Hg.
  assert (Rj : rejected tb).
  { split; [|apply (inv_busy _ I)]. intros X. apply Hg. rewrite (proj1 (Y X)), completed_ok; [reflexivity|apply all_ok_run, kernel_all_ok]. }
  destruct (inv_rejected _ _ I Rj) as [X _]. unfold exposes in X. apply map_eq_nil in X. rewrite X. reflexivity.
Qed.
Print Assumptions C94_refused_not_sent_partial.

(** the one that does not: the answer and the NVMe commands do not depend on the
    block layer and the device at all; a module whose block layer takes no
    command, so that none reaches the device and memory stays as it is, gives the
    same answers as one with a faultless device *)
Theorem C94_blind : forall kn kn' wrs kz wild c w r w1 r' w1',
  scsi_queuecommand (kernel_driver kn) wrs kz wild c w = Ret r w1 ->
  scsi_queuecommand (kernel_driver kn') wrs kz wild c w = Ret r' w1' -> r = r'.
Proof. intros kn kn' wrs kz wild c w r w1 r' w1'. apply adapter_blind; apply kernel_all_ok. Qed.
Print Assumptions C94_blind.
Theorem C94_not_carried_out_refuted : forall kn kn' wrs kz wild c w r w1 r' w1',
  scsi_queuecommand (kernel_driver kn) wrs kz wild c w = Ret r w1 -> mr_result r = GOOD ->
  dead kn' -> scsi_queuecommand (kernel_driver kn') wrs kz wild c w = Ret r' w1' ->
  mr_result r' = GOOD /\ forall k s m, In s (mr_subs r') -> exists ret, submit_command kn' k s m = Some (ret, [], m).
Proof.
  intros kn kn' wrs kz wild c w r w1 r' w1' E G D E'. rewrite <- (C94_blind kn kn' _ _ _ _ _ _ _ _ _ E E'). split; [exact G|].
  intros k s m _. apply exhausted_nothing. exact D.
Qed.
Print Assumptions C94_not_carried_out_refuted.

(** executed, with a device that fails everything and with no device at all: an
    INQUIRY and a SYNCHRONIZE CACHE are answered GOOD, an unsupported command and one that
    asks for too much are not *)
Definition ex_refusing : kernel :=
  {| kn_ns := true; kn_disk := 0; kn_admin_q := 0; kn_io_q := 0; kn_alloc := fun _ => inr (-12)%Z; kn_map := fun _ => (-5)%Z;
     kn_exec := fun _ _ m => (m, 0); kn_ret := fun _ => 77%Z |}.
Lemma ex_refusing_dead : dead ex_refusing.
Proof. split; [reflexivity|intros k; eexists; reflexivity]. Qed.
Definition ex_said (kn : kernel) (bs : list byte) (n : N) :=
  match scsi_queuecommand (kernel_driver kn) ex_wrs 0x90000 0 (ex_scsi bs true n) (ex_world bs) with
  | Ret r w' => Some (mr_result r, mr_resid r, length (mr_subs r), module_status bs (repeat x00 (N.to_nat n)) n (page_answers (trace w')))
  | UB _ => None
  end.
Example C94_runs : forall kn, In kn [ex_refusing; ex_kernel (fun _ => inl 5) (N.shiftl 0x81 113)] ->
  ex_said kn (B [0x12;0;0;0;36;0]) 36 = Some (GOOD, Some 0, 2%nat, GOOD) /\
  ex_said kn (B [0x35;0;0;0;0;0;0;0;0;0]) 0 = Some (GOOD, None, 1%nat, GOOD) /\
  ex_said kn (B [0x12;0;0;0;255;0]) 36 = Some (TASK_ABORTED, Some 36, 0%nat, TASK_ABORTED) /\
  ex_said kn (B [0xff;0;0;0;0;0]) 36 = Some (CHECK_CONDITION, Some 36, 0%nat, CHECK_CONDITION).
Proof. intros kn [<-|[<-|[]]]; repeat split; vm_compute; reflexivity. Qed.
