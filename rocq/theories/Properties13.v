(** C65-C71: the Linux driver glue and the module's life cycle. *)
From Coq Require Import Arith NArith ZArith String List Lia Bool Init.Byte Permutation.
From Coq Require Import ZifyBool ZifyNat ZifyN.
From Verif Require Import Bytes Layout World ScsiDefs NvmeDefs Common ModeSenseCmd StatusCmd TranslationCls EngineE2e MockModule
  KernelDriver ModuleLife KernelSpec
  Spec RwSpec InquirySpec SmallSpec EngineSpec MockSpec Facts Logic BeginFacts CompleteFacts StatusFacts RelFacts RwFacts EngineFacts
  MockFacts Witness Properties1 Properties2 Properties6 Properties9 Properties11 Properties12.
Import ListNotations.
Local Open Scope string_scope.
Local Open Scope list_scope.
Local Open Scope N_scope.

(** all paths through nvme_submit_user_cmd *)
Lemma submit_cases kn k disk queue s m : let r := nvme_submit_user_cmd kn k disk queue s m in
  (queue = 0 /\ r = (kn_ret kn k, [], m)) \/
  (queue <> 0 /\ exists e, kn_alloc kn k = inr e /\ r = (e, [], m)) \/
  (queue <> 0 /\ exists rq, kn_alloc kn k = inl rq /\
     ((has_buffer s /\ kn_map kn k <> 0%Z /\ r = (kn_map kn k, [KAlloc queue rq; KFree rq], m)) \/
      (has_buffer s /\ kn_map kn k = 0%Z /\ disk = 0 /\
         r = ((-19)%Z, [KAlloc queue rq; KMap rq (sub_buffer s) (sub_bufflen s); KFree rq], m)) \/
      (has_buffer s /\ kn_map kn k = 0%Z /\ disk <> 0 /\
         r = (0%Z, [KAlloc queue rq; KMap rq (sub_buffer s) (sub_bufflen s); KExec queue disk rq (sub_cmd s); KFree rq], fst (kn_exec kn k s m))) \/
      (~ has_buffer s /\ r = (kn_ret kn k, [KAlloc queue rq; KExec queue disk rq (sub_cmd s); KFree rq], fst (kn_exec kn k s m))))).
Proof.
  cbv zeta. unfold nvme_submit_user_cmd, has_buffer. destruct (N.eqb_spec queue 0) as [Q|Q]; [left; auto|right].
  destruct (kn_alloc kn k) as [rq|e] eqn:Ea; [right|left; eauto]. split; [exact Q|]. exists rq. split; [reflexivity|].
  destruct (N.eqb_spec (sub_buffer s) 0) as [B|B]; [do 3 right; split; [tauto|reflexivity]|].
  destruct (N.eqb_spec (sub_bufflen s) 0) as [L|L]; [do 3 right; split; [tauto|reflexivity]|]. cbn [negb andb].
  destruct (Z.eqb_spec (kn_map kn k) 0) as [M|M]; cbn [negb]; [|left; auto]. right.
  destruct (N.eqb_spec disk 0) as [D|D]; [left|right; left]; auto 6.
Qed.

(** ** C65 *)
Ltac inc := repeat match goal with
  | H : _ \/ _ |- _ => destruct H as [H|H]
  | H : False |- _ => destruct H
  | H : @eq kevent _ _ |- _ => first [discriminate H | injection H; clear H; intros; subst]
  end.

(** Every request taken from the block layer is given back, once, at the end;
    the command runs at most once, on the right queue and disk, with the data
    buffer mapped first; it runs exactly when the block layer allows it; and if
    it does not run, memory is unchanged.  The block device's reference is never
    dropped. *)
Theorem C65_request_lifecycle : forall kn k disk queue s m,
  let '(_, es, m') := nvme_submit_user_cmd kn k disk queue s m in
  (forall rq, (exists q, In (KAlloc q rq) es) <-> In (KFree rq) es) /\ NoDup es /\
  (forall rq pre post, es = pre ++ KFree rq :: post -> post = []) /\
  (length (filter is_exec es) <= 1)%nat /\
  (forall q d rq c, In (KExec q d rq c) es ->
     q = queue /\ d = disk /\ c = sub_cmd s /\ In (KAlloc queue rq) es /\
     (has_buffer s -> exists pre post, es = pre ++ KMap rq (sub_buffer s) (sub_bufflen s) :: post /\ In (KExec q d rq c) post)) /\
  (executed queue s es <->
     queue <> 0 /\ (exists rq, kn_alloc kn k = inl rq) /\ (has_buffer s -> kn_map kn k = 0%Z /\ disk <> 0)) /\
  (~ executed queue s es -> m' = m) /\ ~ In KPut es.
Proof.
  intros kn k disk queue s m.
  destruct (submit_cases kn k disk queue s m) as
    [(Q & ->)|[(Q & e & A & ->)|(Q & rq & A & [(B & M & ->)|[(B & M & D & ->)|[(B & M & D & ->)|(B & ->)]]])]].
  all: split; [intros rq'; split; [intros (q' & H)|intros H]; cbn [In] in *; inc; eauto 6; fail|].
  all: split; [repeat constructor; cbn [In]; intros H; inc; fail|].
  all: split; [intros rq' pre post E; do 5 (destruct pre as [|? pre]; cbn [app] in E; [try discriminate E; injection E; congruence|try discriminate E; injection E as _ E]); fail|].
  all: split; [cbn [filter is_exec length]; lia|].
  all: split; [intros q' d' rq' c' H; cbn [In] in H; inc; repeat (split; [reflexivity|]);
               (split; [left; reflexivity|intros Hb; try contradiction; eexists [_]; eexists; (split; [reflexivity|left; reflexivity])])|].
  all: unfold executed; cbn [In].
  all: split; [split; [intros (d' & rq' & H); inc; (split; [assumption|split; [eauto|intros Hb; first [contradiction|auto]]])|intros (HQ & (rq' & HA) & HB); first [congruence|exfalso; destruct (HB B); congruence|eauto 8]]|].
  all: split; [|intros H; inc; fail].
  all: try reflexivity.
  all: try (intros H; exfalso; apply H; eauto 8; fail).
Qed.
Print Assumptions C65_request_lifecycle.

Definition ex_kernel (alloc : nat -> N + Z) (status : N) : kernel :=
  {| kn_ns := true; kn_disk := 7; kn_admin_q := 1; kn_io_q := 2; kn_alloc := alloc; kn_map := fun _ => 0%Z;
     kn_exec := fun _ _ m => (m, status); kn_ret := fun _ => 12345%Z |}.
Definition ex_sub (buf n : N) : submission := {| sub_admin := false; sub_cmd := 2; sub_buffer := buf; sub_bufflen := n |}.
Example C65_executed : executed 2 (ex_sub 0x1000 4096)
  (snd (fst (nvme_submit_user_cmd (ex_kernel (fun _ => inl 5) 0) 0 7 2 (ex_sub 0x1000 4096) (fun _ => None)))).
Proof. exists 7, 5. cbn. auto. Qed.

(** ** C66 *)

(** A command that was not carried out is reported with a nonzero code, given
    that the queue exists and that error pointers are nonzero; a data command
    that succeeded is reported with 0.  Missing for the full claim: errors of
    the device, null queues, commands without data (see the refutations). *)
Theorem C66_return_code_partial : forall kn k disk queue s m,
  queue <> 0 -> (forall e, kn_alloc kn k = inr e -> e <> 0%Z) ->
  let '(r, es, _) := nvme_submit_user_cmd kn k disk queue s m in
  (~ executed queue s es -> r <> 0%Z) /\ (executed queue s es -> has_buffer s -> r = 0%Z).
Proof.
  intros kn k disk queue s m HQ HE.
  destruct (submit_cases kn k disk queue s m) as
    [(Q & ->)|[(Q & e & A & ->)|(Q & rq & A & [(B & M & ->)|[(B & M & D & ->)|[(B & M & D & ->)|(B & ->)]]])]]; [contradiction|..].
  all: unfold executed; cbn [In]; split.
  all: try (intros (d' & rq' & H); inc; fail).
  all: try (intros H; exfalso; apply H; eauto 8; fail).
  all: auto.
  - intros _ X. discriminate X.
  - intros _ X. contradiction.
Qed.
Print Assumptions C66_return_code_partial.

(** whatever status the device completes a data command with, 0 is returned *)
Theorem C66_device_error_refuted : forall kn k disk queue s m rq,
  queue <> 0 -> kn_alloc kn k = inl rq -> has_buffer s -> kn_map kn k = 0%Z -> disk <> 0 ->
  let '(r, es, _) := nvme_submit_user_cmd kn k disk queue s m in
  executed queue s es /\ r = 0%Z.
Proof.
  intros kn k disk queue s m rq HQ HA HB HM HD.
  destruct (submit_cases kn k disk queue s m) as
    [(Q & ->)|[(Q & e & A & ->)|(Q & rq' & A & [(B & M & ->)|[(B & M & D & ->)|[(B & M & D & ->)|(B & ->)]]])]]; try contradiction; try congruence.
  split; [|reflexivity]. exists disk, rq'. cbn [In]. auto.
Qed.
Print Assumptions C66_device_error_refuted.
Example C66_device_error_met : snd (kn_exec (ex_kernel (fun _ => inl 5) 0x281) 0 (ex_sub 0x1000 4096) (fun _ => None)) = 0x281 /\
  fst (fst (nvme_submit_user_cmd (ex_kernel (fun _ => inl 5) 0x281) 0 7 2 (ex_sub 0x1000 4096) (fun _ => None))) = 0%Z.
Proof. split; reflexivity. Qed.

(** without a queue, or for a command without data, the code returned is the
    uninitialised local variable: any value *)
Theorem C66_indeterminate_refuted : forall kn k disk queue s m,
  queue = 0 \/ (~ has_buffer s /\ exists rq, kn_alloc kn k = inl rq) ->
  fst (fst (nvme_submit_user_cmd kn k disk queue s m)) = kn_ret kn k.
Proof.
  intros kn k disk queue s m H.
  destruct (submit_cases kn k disk queue s m) as
    [(Q & ->)|[(Q & e & A & ->)|(Q & rq' & A & [(B & M & ->)|[(B & M & D & ->)|[(B & M & D & ->)|(B & ->)]]])]];
    destruct H as [H|(H & (rq & H'))]; try contradiction; try congruence; reflexivity.
Qed.
Print Assumptions C66_indeterminate_refuted.
Example C66_indeterminate_met : ~ has_buffer (ex_sub 0 77) /\
  fst (fst (nvme_submit_user_cmd (ex_kernel (fun _ => inl 5) 0) 0 7 2 (ex_sub 0 77) (fun _ => None))) = 12345%Z.
Proof. split; [intros [H _]; apply H; reflexivity|reflexivity]. Qed.

(** ** C67 *)

(** If the block layer accepts every request, every command submitted is carried
    out, on its queue, and its effect is the device's.  Missing for the full
    claim: that the initiator hears about it when it does not. *)
Theorem C67_commands_reach_device_partial : forall kn k s m,
  kn_ns kn = true -> kn_admin_q kn <> 0 -> kn_io_q kn <> 0 -> kn_disk kn <> 0 ->
  (forall k, exists rq, kn_alloc kn k = inl rq) -> (forall k, kn_map kn k = 0%Z) ->
  exists r es, submit_command kn k s m = Some (r, es, fst (kn_exec kn k s m)) /\
    executed (if sub_admin s then kn_admin_q kn else kn_io_q kn) s es.
Proof.
  intros kn k s m Hns Ha Hi Hd HA HM. unfold submit_command. rewrite Hns.
  set (queue := if sub_admin s then _ else _). assert (HQ : queue <> 0) by (unfold queue; destruct (sub_admin s); assumption).
  destruct (HA k) as (rq0 & A0).
  destruct (submit_cases kn k (kn_disk kn) queue s m) as
    [(Q & ->)|[(Q & e & A & ->)|(Q & rq' & A & [(B & M & ->)|[(B & M & D & ->)|[(B & M & D & ->)|(B & ->)]]])]]; try contradiction; try congruence.
  - do 2 eexists. split; [reflexivity|]. exists (kn_disk kn), rq'. cbn [In]. auto.
  - do 2 eexists. split; [reflexivity|]. exists (kn_disk kn), rq'. cbn [In]. auto.
Qed.
Print Assumptions C67_commands_reach_device_partial.

(** a kernel that can allocate no request *)
Definition out_of_requests (kn : kernel) : Prop := kn_ns kn = true /\ forall k, exists e, kn_alloc kn k = inr e.
Lemma exhausted_driver kn k s m : out_of_requests kn -> kernel_driver kn k s m = (m, 0).
Proof.
  intros (Hns & HA). unfold kernel_driver, submit_command. rewrite Hns. unfold nvme_submit_user_cmd.
  destruct (HA k) as (e & ->). destruct (_ =? 0); reflexivity.
Qed.
Lemma exhausted_nothing kn k s m : out_of_requests kn -> exists r, submit_command kn k s m = Some (r, [], m).
Proof.
  intros (Hns & HA). unfold submit_command. rewrite Hns. unfold nvme_submit_user_cmd.
  destruct (HA k) as (e & ->). destruct (_ =? 0); eauto.
Qed.

(** A READ of at most 15 blocks when the kernel cannot allocate a request:
    nothing is read from the device, and the initiator is given zeros with
    GOOD. *)
Theorem C67_silent_read_refuted : forall f kn wrs kz wild c w bs pr,
  bytes_at w (sc_cmnd c) bs -> N.of_nat (length bs) = sc_cmd_len c -> sc_cmd_len c < 65536 ->
  byte_at bs 0 = read_opcode f -> (rw_len f <= length bs)%nat -> 1 <= rw_blocks f bs <= 15 -> read_prinfo f bs = Some pr ->
  sc_from_device c = true -> sc_bufflen c = rw_blocks f bs * 4096 ->
  sg_valid w (sc_sgl c) -> sc_bufflen c <= sg_total (sc_sgl c) ->
  kz <> 0 -> unused w kz (sc_bufflen c) ->
  out_of_requests kn ->
  exists s w',
    scsi_queuecommand (kernel_driver kn) wrs kz wild c w = Ret {| mr_result := GOOD; mr_resid := Some 0; mr_subs := [s] |} w' /\
    (forall k m, exists r, submit_command kn k s m = Some (r, [], m)) /\
    sg_holds w' (sc_sgl c) (repeat x00 (N.to_nat (sc_bufflen c))).
Proof.
  intros f kn wrs kz wild c w bs pr Hc Hcl Hcs Ho Hf Hn Hp Hdi Hbl Hsg Hst Hkz Hun Hk.
  set (q := mock_request kz wild c). set (w1 := with_buffer w kz (sc_bufflen c)).
  destruct (adapter_request kz wild c w bs Hc Hcl Hcs) as (Hc1 & Hqd & Hm); [lia|exact Hun|]. fold q in Hc1, Hqd, Hm. fold w1 in Hc1, Hm.
  assert (Hne : bs <> []) by (intros ->; destruct f; discriminate Ho).
  assert (Hr : read_ok f bs (rq_data q)).
  { split; [exact Hf|]. split; [lia|]. split; [rewrite Hp; discriminate|]. rewrite Hqd. cbn [len]. lia. }
  destruct (Begin_read_ok f (Translation_init wrs) (rq_cdb q) (rq_data q) (sc_lun c) w1 bs pr (idle_init wrs) Hc1 Ho Hr Hp) as (t1 & E1 & Ha & X & Hh).
  destruct (engine_one (kernel_driver kn) wrs q w1 t1 (rw_blocks f bs * 4096) _ _ bs E1 Ha X Hh) as (s & Vs & Es).
  { rewrite Hqd. cbn [len]. lia. }
  { exact Hc1. }
  { exact Hne. }
  { rewrite Ho. destruct f; cbn; tauto. }
  cbv zeta in Es. rewrite exhausted_driver in Es by exact Hk. cbn [fst snd] in Es.
  destruct Es as (t2 & w2 & E2 & M2 & _).
  { split; reflexivity. }
  { rewrite set_mem_same. exact Hc1. }
  destruct (adapter_in (kernel_driver kn) wrs kz wild c w (sc_bufflen c) (repeat x00 (N.to_nat (sc_bufflen c))) t2 [s] w2) as (w' & E & S & _); try assumption.
  - lia.
  - lia.
  - rewrite <- Hbl in E2. exact E2.
  - intros x Hx. rewrite M2. unfold w1. apply with_buffer_old; assumption.
  - rewrite repeat_length. lia.
  - intros i b Hi. assert (i < length (repeat x00 (N.to_nat (sc_bufflen c))))%nat by (apply nth_error_Some; congruence). rewrite repeat_length in H.
    apply nth_error_In, repeat_spec in Hi. subst b. rewrite M2. unfold w1. apply with_buffer_in. lia.
  - exists s, w'. split; [rewrite N.sub_diag in E; exact E|]. split; [|exact S]. intros k m. apply exhausted_nothing. exact Hk.
Qed.
Print Assumptions C67_silent_read_refuted.

(** likewise a WRITE: nothing is written, GOOD *)
Theorem C67_silent_write_refuted : forall f kn wrs kz wild c w bs pr data,
  bytes_at w (sc_cmnd c) bs -> N.of_nat (length bs) = sc_cmd_len c -> sc_cmd_len c < 65536 ->
  byte_at bs 0 = write_opcode f -> (rw_len f <= length bs)%nat -> 1 <= rw_blocks f bs <= 15 -> write_prinfo f bs = Some pr ->
  sc_from_device c = false -> sc_bufflen c = rw_blocks f bs * 4096 ->
  sg_holds w (sc_sgl c) data -> N.of_nat (length data) = sc_bufflen c ->
  kz <> 0 -> unused w kz (sc_bufflen c) -> kz + sc_bufflen c <= 2 ^ 64 ->
  out_of_requests kn ->
  exists s w',
    scsi_queuecommand (kernel_driver kn) wrs kz wild c w = Ret {| mr_result := GOOD; mr_resid := None; mr_subs := [s] |} w' /\
    (forall k m, exists r, submit_command kn k s m = Some (r, [], m)).
Proof.
  intros f kn wrs kz wild c w bs pr data Hc Hcl Hcs Ho Hf Hn Hp Hdi Hbl Hsg Hdl Hkz Hun Hkl Hk.
  destruct (C57_write_end_to_end f (kernel_driver kn) wrs kz wild c w bs pr data Hc Hcl Hcs Ho Hf Hn Hp Hdi Hbl Hsg Hdl Hkz Hun Hkl) as (s & m & _ & _ & _ & R).
  cbv zeta in R. rewrite exhausted_driver in R by exact Hk. cbn [fst snd] in R. destruct R as (w' & E & _).
  - split; reflexivity.
  - reflexivity.
  - exists s, w'. split; [exact E|]. intros k m'. apply exhausted_nothing. exact Hk.
Qed.
Print Assumptions C67_silent_write_refuted.
Lemma ex_out_of_requests : out_of_requests (ex_kernel (fun _ => inr (-12)%Z) 0).
Proof. split; [reflexivity|intros k; eexists; reflexivity]. Qed.
Example C67_premises_met : exists s w',
  scsi_queuecommand (kernel_driver (ex_kernel (fun _ => inr (-12)%Z) 0)) ex_wrs 0x90000 0xdead (ex_scsi ex_read10 true 4096) (ex_world ex_read10) =
    Ret {| mr_result := GOOD; mr_resid := Some 0; mr_subs := [s] |} w' /\
  sg_holds w' (sc_sgl (ex_scsi ex_read10 true 4096)) (repeat x00 (N.to_nat 4096)).
Proof.
  destruct (C67_silent_read_refuted RW10 (ex_kernel (fun _ => inr (-12)%Z) 0) ex_wrs 0x90000 0xdead (ex_scsi ex_read10 true 4096) (ex_world ex_read10)
    ex_read10 15) as (s & w' & E & _ & S).
  - apply (ex_cdb_holds (fun _ _ => x00) xff ex_read10 []).
  - reflexivity.
  - reflexivity.
  - reflexivity.
  - cbn. lia.
  - split; discriminate.
  - reflexivity.
  - reflexivity.
  - reflexivity.
  - apply ex_sgl_valid; discriminate.
  - discriminate.
  - discriminate.
  - apply ex_unused. discriminate.
  - apply ex_out_of_requests.
  - exists s, w'. split; [exact E|exact S].
Qed.

(** ** C68 *)

(** the registrations that survive [init], by where it stopped *)
Definition bdev_of (b : boot) : list kobj := if bt_opened b =? 0 then [] else [BlockDev].

(** A module that fails to load has undone every registration with the driver
    core and the SCSI layer.  Missing for the full claim: the block device. *)
Theorem C68_failed_load_partial : forall b, let '(r, es, _, _) := scsi_mock_init b in
  r <> 0%Z -> replay [] es = Some (bdev_of b).
Proof.
  intros b. unfold scsi_mock_init, scsi_mock_add_device, bus_driver_probe, bdev_of.
  destruct (bt_opened b =? 0), (bt_root b), (Z.eqb (bt_bus b) 0), (Z.eqb (bt_driver b) 0), (Z.eqb (bt_device b) 0) eqn:Ed;
    cbn [negb app]; rewrite ?Ed; cbn [negb]; try (intros _; reflexivity).
  all: destruct (bt_host b); [destruct (Z.eqb (bt_add b) 0)|]; cbn [negb orb N.ltb N.compare app]; rewrite ?Ed; cbn [negb Z.eqb];
    intros H; try reflexivity; exfalso; apply H; reflexivity.
Qed.
Print Assumptions C68_failed_load_partial.

(** the block device stays open: its only reference is lost *)
Theorem C68_block_device_refuted : forall b, bt_opened b <> 0 -> bt_root b = false ->
  let '(r, es, _, _) := scsi_mock_init b in r <> 0%Z /\ replay [] es = Some [BlockDev].
Proof.
  intros b Ho Hr. unfold scsi_mock_init. rewrite Hr. cbn [negb]. destruct (N.eqb_spec (bt_opened b) 0); [contradiction|].
  split; [discriminate|reflexivity].
Qed.
Print Assumptions C68_block_device_refuted.

(** releases happen after those of what is attached, except that a failing
    device_register has the driver unregistered after its bus *)
Theorem C68_order_refuted : forall b, bt_root b = true -> bt_bus b = 0%Z -> bt_driver b = 0%Z -> bt_device b <> 0%Z ->
  let '(r, es, _, _) := scsi_mock_init b in r <> 0%Z /\ ~ orderly es.
Proof.
  intros b Hr Hb Hd He. unfold scsi_mock_init, scsi_mock_add_device. rewrite Hr, Hb, Hd. cbn [negb Z.eqb].
  destruct (Z.eqb_spec (bt_device b) 0) as [E|E]; [contradiction|]. cbn [negb]. destruct (Z.eqb_spec (bt_device b) 0); [contradiction|]. cbn [negb].
  split; [discriminate|]. intros O.
  destruct (bt_opened b =? 0); cbn [app] in O.
  - refine (O [Got RootDev; Got BusType; Got MockDriver; Gave RootDev] BusType [Gave MockDriver] MockDriver [MockDriver; BusType] eq_refl eq_refl (or_introl eq_refl) I).
  - refine (O [Got BlockDev; Got RootDev; Got BusType; Got MockDriver; Gave RootDev] BusType [Gave MockDriver] MockDriver [MockDriver; BusType; BlockDev] eq_refl eq_refl (or_introl eq_refl) I).
Qed.
Print Assumptions C68_order_refuted.
Definition ex_boot (opened : N) (root : bool) (dev : Z) (host : bool) : boot :=
  {| bt_opened := opened; bt_disk := 3; bt_priv := 4; bt_root := root; bt_bus := 0; bt_driver := 0; bt_device := dev; bt_host := host; bt_add := 0 |}.
Example C68_met : fst (fst (fst (scsi_mock_init (ex_boot 9 true (-12) true)))) = (-22)%Z /\
  snd (fst (fst (scsi_mock_init (ex_boot 9 true (-12) true)))) =
    [Got BlockDev; Got RootDev; Got BusType; Got MockDriver; Gave RootDev; Gave BusType; Gave MockDriver].
Proof. split; reflexivity. Qed.

(** ** C69 *)

(** Loading and then unloading the module releases everything registered with
    the driver core and the SCSI layer, each thing after what is attached to it.
    Missing for the full claim: the block device. *)
Lemma orderly_of (es : list kreg) :
  (forall n, match nth_error es n with
             | Some (Gave o) => match replay [] (firstn n es) with Some l => Forall (fun a => ~ needs a o) l | None => True end
             | _ => True end) -> orderly es.
Proof.
  intros H pre o post a l E R Hin. specialize (H (length pre)). subst es.
  rewrite nth_error_app2 in H by apply Nat.le_refl. rewrite Nat.sub_diag in H. cbn [nth_error] in H.
  rewrite firstn_app, Nat.sub_diag, firstn_O, app_nil_r, firstn_all, R in H.
  rewrite Forall_forall in H. apply H. exact Hin.
Qed.

Theorem C69_unload_partial : forall b, let '(r, es, bound, _) := scsi_mock_init b in
  r = 0%Z -> replay [] (es ++ scsi_mock_exit bound) = Some (bdev_of b) /\ orderly (es ++ scsi_mock_exit bound).
Proof.
  intros b. unfold scsi_mock_init, scsi_mock_add_device, bus_driver_probe, bdev_of, scsi_mock_exit, bus_remove.
  destruct (bt_opened b =? 0), (bt_root b), (Z.eqb (bt_bus b) 0), (Z.eqb (bt_driver b) 0), (Z.eqb (bt_device b) 0) eqn:Ed;
    cbn [negb app]; rewrite ?Ed; cbn [negb]; try (intros H; discriminate H).
  all: destruct (bt_host b); [destruct (Z.eqb (bt_add b) 0) eqn:Ea|]; cbn [negb orb N.ltb N.compare app]; rewrite ?Ed, ?Ea; cbn [negb Z.eqb app Z.opp ENODEV];
    intros H; try discriminate H.
  all: split; [reflexivity|].
  all: apply orderly_of; intros n;
    do 13 (destruct n as [|n]; [cbn [nth_error firstn replay drop kobj_eq option_map]; repeat apply Forall_cons; try apply Forall_nil; try exact I; intros N; exact N|]); destruct n; exact I.
Qed.
Print Assumptions C69_unload_partial.

(** a module that opened the block device keeps it open after it is unloaded *)
Theorem C69_block_device_refuted : forall b, bt_opened b <> 0 -> let '(r, es, bound, _) := scsi_mock_init b in
  r = 0%Z -> replay [] (es ++ scsi_mock_exit bound) = Some [BlockDev].
Proof.
  intros b Ho. pose proof (C69_unload_partial b) as H. destruct (scsi_mock_init b) as [[[r es] bound] reg].
  intros E. destruct (H E) as (R & _). rewrite R. unfold bdev_of. destruct (N.eqb_spec (bt_opened b) 0); [contradiction|reflexivity].
Qed.
Print Assumptions C69_block_device_refuted.
Example C69_met : scsi_mock_init (ex_boot 9 true 0 true) =
  (0%Z, [Got BlockDev; Got RootDev; Got BusType; Got MockDriver; Got MockDevice; Got HostMem; Got HostAdded], true, 1).
Proof. reflexivity. Qed.

(** the release order is the reverse of the order of acquisition ([replay] keeps
    what is held, latest first) *)
Theorem C69_reverse_order : forall b, let '(r, es, bound, _) := scsi_mock_init b in
  r = 0%Z -> exists l, replay [] es = Some l /\
    scsi_mock_exit bound = map Gave (filter (fun o => negb (kobj_eq o BlockDev)) l).
Proof.
  intros b. unfold scsi_mock_init, scsi_mock_add_device, bus_driver_probe, scsi_mock_exit, bus_remove.
  destruct (bt_opened b =? 0), (bt_root b), (Z.eqb (bt_bus b) 0), (Z.eqb (bt_driver b) 0), (Z.eqb (bt_device b) 0) eqn:Ed;
    cbn [negb app]; rewrite ?Ed; cbn [negb]; try (intros H; discriminate H).
  all: destruct (bt_host b); [destruct (Z.eqb (bt_add b) 0) eqn:Ea|]; cbn [negb orb N.ltb N.compare app]; rewrite ?Ed, ?Ea; cbn [negb Z.eqb app Z.opp ENODEV];
    intros H; try discriminate H.
  all: eexists; split; reflexivity.
Qed.
Print Assumptions C69_reverse_order.

(** ** C70 *)

(** The module loads exactly if the four registrations with the driver core
    succeed, and then they are held.  Missing for the full claim: that the NVMe
    device was found and that a SCSI host was added. *)
Theorem C70_load_partial : forall b, let '(r, es, _, _) := scsi_mock_init b in
  (r = 0%Z <-> bt_root b = true /\ bt_bus b = 0%Z /\ bt_driver b = 0%Z /\ bt_device b = 0%Z) /\
  (r = 0%Z -> exists l, replay [] es = Some l /\ incl [RootDev; BusType; MockDriver; MockDevice] l).
Proof.
  intros b. unfold scsi_mock_init, scsi_mock_add_device, bus_driver_probe.
  destruct (bt_opened b =? 0), (bt_root b), (Z.eqb_spec (bt_bus b) 0), (Z.eqb_spec (bt_driver b) 0), (Z.eqb (bt_device b) 0) eqn:Ed;
    cbn [negb app]; rewrite ?Ed; cbn [negb].
  all: first [apply Z.eqb_eq in Ed|apply Z.eqb_neq in Ed].
  all: try (split; [split; [intros H; discriminate H|intros (H1 & H2 & H3 & H4); congruence]|intros H; discriminate H]).
  all: destruct (bt_host b); [destruct (Z.eqb (bt_add b) 0) eqn:Ea|]; cbn [negb orb N.ltb N.compare app Z.eqb Z.opp ENODEV]; rewrite ?Ea; cbn [negb Z.eqb app].
  all: split; [split; [intros _; auto|reflexivity]|intros _].
  all: eexists; split; [reflexivity|]; intros x Hx; cbn [In] in *; tauto.
Qed.
Print Assumptions C70_load_partial.

(** The NVMe side reports success exactly if the block device could be opened,
    it has a disk, and the disk has a namespace; and then these are what later
    commands use.  Missing for the full claim: that loading depends on it. *)
Theorem C70_driver_init_partial : forall b kn,
  (fst (fst (nvme_driver_init (bt_opened b) (bt_disk b) (bt_priv b))) = 0%Z <-> bt_opened b <> 0 /\ bt_disk b <> 0 /\ bt_priv b <> 0) /\
  (bt_opened b <> 0 -> bt_disk b <> 0 -> bt_priv b <> 0 -> kn_ns (after_init b kn) = true /\ kn_disk (after_init b kn) = bt_disk b).
Proof.
  intros b kn. unfold after_init, nvme_driver_init.
  destruct (N.eqb_spec (bt_opened b) 0) as [E1|E1], (N.eqb_spec (bt_disk b) 0) as [E2|E2], (N.eqb_spec (bt_priv b) 0) as [E3|E3];
    cbn [fst snd kn_ns kn_disk]; (split; [split; [intros H; try discriminate H; auto|intros (A & B & C); try contradiction; reflexivity]|intros A B C; try contradiction]).
  split; [|reflexivity]. destruct (bt_priv b); [contradiction|reflexivity].
Qed.
Print Assumptions C70_driver_init_partial.
Example C70_driver_init_met : fst (fst (nvme_driver_init 9 1 2)) = 0%Z /\ fst (fst (nvme_driver_init 9 1 0)) = (-1)%Z.
Proof. split; reflexivity. Qed.

(** It loads although the NVMe device is missing or is not an NVMe namespace;
    every command then dereferences a pointer that is not one. *)
Theorem C70_no_device_refuted : forall b kn, fst (fst (nvme_driver_init (bt_opened b) (bt_disk b) (bt_priv b))) <> 0%Z ->
  bt_root b = true -> bt_bus b = 0%Z -> bt_driver b = 0%Z -> bt_device b = 0%Z ->
  fst (fst (fst (scsi_mock_init b))) = 0%Z /\
  forall k s m, submit_command (after_init b kn) k s m = None.
Proof.
  intros b kn Hf H1 H2 H3 H4. pose proof (C70_load_partial b) as H. destruct (scsi_mock_init b) as [[[r es] bound] reg].
  split; [apply (proj1 H); auto|]. intros k s m. unfold submit_command, after_init.
  unfold nvme_driver_init in *. destruct (bt_opened b =? 0); [reflexivity|]. destruct (bt_disk b =? 0); [reflexivity|].
  destruct (N.eqb_spec (bt_priv b) 0) as [E|E]; cbn [fst] in Hf; [|contradiction]. rewrite E. reflexivity.
Qed.
Print Assumptions C70_no_device_refuted.

(** It loads although no SCSI host could be allocated or added: there is no
    adapter, and nothing says so. *)
Theorem C70_no_host_refuted : forall b, bt_host b = false \/ bt_add b <> 0%Z ->
  bt_root b = true -> bt_bus b = 0%Z -> bt_driver b = 0%Z -> bt_device b = 0%Z ->
  let '(r, es, bound, _) := scsi_mock_init b in
  r = 0%Z /\ bound = false /\ ~ In (Got HostAdded) es.
Proof.
  intros b Hh H1 H2 H3 H4. unfold scsi_mock_init, scsi_mock_add_device, bus_driver_probe. rewrite H1, H2, H3, H4.
  cbn [negb Z.eqb orb N.ltb N.compare]. destruct (bt_host b); cbn [negb].
  - destruct Hh as [Hh|Hh]; [discriminate|]. destruct (Z.eqb_spec (bt_add b) 0); [contradiction|]. cbn [negb].
    split; [reflexivity|]. split; [apply Z.eqb_neq; assumption|]. destruct (bt_opened b =? 0); cbn [app In]; intuition discriminate.
  - split; [reflexivity|]. split; [reflexivity|]. destruct (bt_opened b =? 0); cbn [app In]; intuition discriminate.
Qed.
Print Assumptions C70_no_host_refuted.
Example C70_met : fst (fst (fst (scsi_mock_init (ex_boot 0 true 0 true)))) = 0%Z /\
  submit_command (after_init (ex_boot 0 true 0 true) (ex_kernel (fun _ => inl 5) 0)) 0 (ex_sub 4096 77) (fun _ => None) = None /\
  scsi_mock_init (ex_boot 9 true 0 false) = (0%Z, [Got BlockDev; Got RootDev; Got BusType; Got MockDriver; Got MockDevice], false, 0).
Proof. repeat split; reflexivity. Qed.

(** ** C71 *)

(** The probe binds only the adapter's own device and only while no host is
    registered; it binds it exactly if a host could be allocated and added, and
    otherwise holds nothing.  Missing for the full claim: binding again after the
    device was removed. *)
Theorem C71_probe_partial : forall b mine registered,
  let '(r, es, registered') := bus_driver_probe b mine registered in
  (r = 0%Z <-> mine = true /\ registered = 0 /\ bt_host b = true /\ bt_add b = 0%Z) /\
  (r = 0%Z -> replay [] es = Some [HostAdded; HostMem] /\ registered' = 1 /\ replay [] (es ++ bus_remove) = Some []) /\
  (r <> 0%Z -> replay [] es = Some [] /\ registered' = registered).
Proof.
  intros b mine registered. unfold bus_driver_probe.
  destruct mine; cbn [negb orb].
  2:{ split; [split; [discriminate|intros (H & _); discriminate H]|]. split; [discriminate|intros _; auto]. }
  destruct (N.ltb_spec 0 registered) as [H|H].
  { split; [split; [discriminate|intros (_ & H' & _); lia]|]. split; [discriminate|intros _; auto]. }
  assert (registered = 0) by lia. subst registered.
  destruct (bt_host b); cbn [negb].
  2:{ split; [split; [discriminate|intros (_ & _ & H' & _); discriminate H']|]. split; [discriminate|intros _; auto]. }
  destruct (Z.eqb_spec (bt_add b) 0) as [E|E]; cbn [negb].
  - split; [split; auto|]. split; [intros _; auto|intros H'; exfalso; apply H'; reflexivity].
  - split; [split; [intros H'; contradiction|intros (_ & _ & _ & H'); contradiction]|].
    split; [intros H'; contradiction|intros _; auto].
Qed.
Print Assumptions C71_probe_partial.

(** The same device can not be bound a second time: after bus_remove released
    the host, the next probe is refused. *)
Theorem C71_rebind_refuted : forall b b',
  let '(r, es, registered) := bus_driver_probe b true 0 in
  r = 0%Z -> replay [] (es ++ bus_remove) = Some [] /\
    fst (fst (bus_driver_probe b' true registered)) <> 0%Z.
Proof.
  intros b b'. pose proof (C71_probe_partial b true 0) as H. destruct (bus_driver_probe b true 0) as [[r es] reg].
  intros E. destruct H as (_ & H & _). destruct (H E) as (_ & -> & R). split; [exact R|].
  unfold bus_driver_probe. cbn [negb orb N.ltb N.compare fst]. discriminate.
Qed.
Print Assumptions C71_rebind_refuted.
Example C71_met : bus_driver_probe (ex_boot 9 true 0 true) true 0 = (0%Z, [Got HostMem; Got HostAdded], 1).
Proof. reflexivity. Qed.
