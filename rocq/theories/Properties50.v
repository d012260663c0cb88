(** C19, C67: the exact forms. *)
From Coq Require Import Arith NArith ZArith String List Lia Bool Init.Byte Permutation.
From Coq Require Import ZifyBool ZifyNat ZifyN.
From Verif Require Import Bytes Layout World ScsiDefs NvmeDefs Common TranslationCls EngineE2e MockModule KernelDriver ModuleLife
  Spec RwSpec EngineSpec MockSpec KernelSpec Facts Logic BeginFacts CompleteFacts WireFacts RwFacts Witness
  Properties1 Properties2 Properties9 Properties11 Properties13.
Import ListNotations.
Local Open Scope string_scope.
Local Open Scope list_scope.
Local Open Scope N_scope.

(** the blocks the submitted command of an accepted WRITE transfers are the
    transfer length, less 65536 as often as leaves at least 1; it stays within the
    caller's buffer exactly if the buffer covers them: nothing else is checked *)
Theorem C19_write_exact : forall f t cdb buffer lun w bs t' r w',
  idle t -> span_holds w cdb bs -> byte_at bs 0 = write_opcode f ->
  Begin t cdb buffer lun w = Ret (t', r) w' -> accepted t' ->
  exists q, exposes t' = [io (len buffer mod 2 ^ 32) q] /\ q_opc q = 0x01 /\ q_prp1 q = ptr buffer /\
    (nvme_blocks q * 4096 <= len buffer <-> ((rw_blocks f bs - 1) mod 65536 + 1) * 4096 <= len buffer).
Proof.
  intros f t cdb buffer lun w bs t' r w' Hi Hc Ho E Ha.
  destruct (C17_write_accepted_iff f t cdb buffer lun w bs Hi Hc Ho) as (t2 & r2 & w2 & E2 & _ & I & _).
  rewrite E in E2. apply ret_eq in E2 as [E2 _]. apply pair_eq in E2 as [<- _]. apply I in Ha. clear I.
  assert (exists pr, write_prinfo f bs = Some pr) as [pr Hp].
  { destruct Ha as (_ & _ & Hp). destruct (write_prinfo f bs); [eauto|contradiction]. }
  destruct (Begin_write_ok f t cdb buffer lun w bs pr Hi Hc Ho Ha Hp) as (t2 & E2 & _ & X2 & _).
  rewrite E in E2. apply ret_eq in E2 as [E2 _]. apply pair_eq in E2 as [<- _].
  eexists. split; [rewrite X2; reflexivity|]. split; [reflexivity|]. split; [reflexivity|].
  destruct Ha as (_ & Hn & _). unfold nvme_blocks. cbn [q_cdw12].
  assert (K : write_d12 f bs pr mod 2 ^ 16 = (rw_blocks f bs - 1) mod 65536).
  { destruct f; cbn [write_d12]; [reflexivity|apply write_dw12_nlb; exact Hn..]. }
  rewrite K. reflexivity.
Qed.
Print Assumptions C19_write_exact.
(** a WRITE(10) of 3 blocks overruns a buffer of 8192 bytes, and fits one of 12288 *)
Example C19_exact_premises_met : exists t' q,
  Begin ex_obj (ex_cdb ex_write10) (ex_buf 8192) 0 (ex_world ex_write10) = Ret (t', begin_ok 0) (ex_world ex_write10) /\
  accepted t' /\ exposes t' = [io 8192 q] /\ ~ nvme_blocks q * 4096 <= 8192 /\ nvme_blocks q * 4096 <= 12288.
Proof.
  destruct (C17_write_exact RW10 ex_obj (ex_cdb ex_write10) (ex_buf 8192) 0 (ex_world ex_write10) ex_write10 8)
    as (t' & E & Ha & X);
    [first [discriminate | apply ex_idle | apply ex_cdb_holds | reflexivity | cbn; lia | split; vm_compute; discriminate
           | vm_compute; discriminate] ..|].
  exists t'. eexists. split; [exact E|]. split; [exact Ha|]. split; [exact X|]. split; vm_compute; [intros H; apply H; reflexivity|discriminate].
Qed.

(** a command handed to the driver is carried out by the device exactly if there is
    a namespace, the queue exists, the block layer gives a request, and, if there is
    data, it can be mapped and the disk exists *)
Theorem C67_reaches_exact : forall kn k s m,
  let queue := if sub_admin s then kn_admin_q kn else kn_io_q kn in
  (exists r es m', submit_command kn k s m = Some (r, es, m') /\ executed queue s es) <->
  (kn_ns kn = true /\ queue <> 0 /\ (exists rq, kn_alloc kn k = inl rq) /\
   (has_buffer s -> kn_map kn k = 0%Z /\ kn_disk kn <> 0)).
Proof.
  intros kn k s m queue. unfold submit_command. fold queue. destruct (kn_ns kn).
  2: { split; [intros (r & es & m' & X & _); discriminate X|intros (X & _); discriminate X]. }
  pose proof (submit_cases kn k (kn_disk kn) queue s m) as C. cbv zeta in C.
  split.
  - intros (r & es & m' & E & X). apply Some_eq in E. split; [reflexivity|]. rewrite E in C.
    destruct X as (d & rq & X).
    destruct C as [(Q & C)|[(Q & e & A & C)|(Q & rq' & A & [(B & M & C)|[(B & M & D & C)|[(B & M & D & C)|(B & C)]]])]];
      apply pair_eq in C as [C _]; apply pair_eq in C as [_ C]; rewrite C in X; cbn [In] in X; inc;
      (split; [exact Q|]); (split; [eauto|]); intros H; auto; contradiction.
  - intros (_ & Q & (rq & A) & H).
    destruct C as [(Q' & C)|[(_ & e & A' & C)|(_ & rq' & A' & [(B & M & C)|[(B & M & D & C)|[(B & M & D & C)|(B & C)]]])]];
      try contradiction; try congruence; try (destruct (H B); congruence); rewrite C; do 3 eexists; (split; [reflexivity|]).
    + exists (kn_disk kn), rq'. cbn [In]. auto.
    + exists (kn_disk kn), rq'. cbn [In]. auto.
Qed.
Print Assumptions C67_reaches_exact.
(** the memory a command leaves: the device's if it is carried out, untouched if not *)
Definition carried_out (kn : kernel) (k : nat) (s : submission) (m : N -> option byte) : Prop :=
  exists r es m', submit_command kn k s m = Some (r, es, m') /\ executed (if sub_admin s then kn_admin_q kn else kn_io_q kn) s es.
Theorem C67_effect_exact : forall kn k s m,
  (carried_out kn k s m -> fst (kernel_driver kn k s m) = fst (kn_exec kn k s m)) /\
  (~ carried_out kn k s m -> fst (kernel_driver kn k s m) = m).
Proof.
  intros kn k s m. unfold carried_out, kernel_driver, submit_command. destruct (kn_ns kn).
  2: { split; [intros (r & es & m' & X & _); discriminate X|reflexivity]. }
  set (queue := if sub_admin s then _ else _).
  pose proof (submit_cases kn k (kn_disk kn) queue s m) as C. cbv zeta in C.
  destruct C as [(Q & ->)|[(Q & e & A & ->)|(Q & rq' & A & [(B & M & ->)|[(B & M & D & ->)|[(B & M & D & ->)|(B & ->)]]])]]; cbn [fst]; split; intros H; try reflexivity.
  1-4: destruct H as (r & es & m' & E & d & rq & X); apply Some_eq in E; apply pair_eq in E as [E _]; apply pair_eq in E as [_ E]; rewrite <- E in X; cbn [In] in X; inc.
  all: exfalso; apply H; do 3 eexists; (split; [reflexivity|]); exists (kn_disk kn), rq'; cbn [In]; auto.
Qed.
Print Assumptions C67_effect_exact.
Example C67_exact_premises_met : exists s, has_buffer s /\
  (exists r es m', submit_command (ex_kernel (fun _ => inl 7) 0) 0 s (fun _ => None) = Some (r, es, m') /\ executed (kn_io_q (ex_kernel (fun _ => inl 7) 0)) s es) /\
  ~ (exists r es m', submit_command (ex_kernel (fun _ => inr (-12)%Z) 0) 0 s (fun _ => None) = Some (r, es, m') /\ executed (kn_io_q (ex_kernel (fun _ => inr (-12)%Z) 0)) s es).
Proof.
  set (s := {| sub_admin := false; sub_cmd := 2; sub_buffer := 0x90000; sub_bufflen := 4096 |}). exists s.
  split; [split; discriminate|]. split.
  - apply (C67_reaches_exact (ex_kernel (fun _ => inl 7) 0) 0 s). split; [reflexivity|]. split; [discriminate|]. split; [eexists; reflexivity|]. intros _. split; [reflexivity|discriminate].
  - intros H. apply (C67_reaches_exact (ex_kernel (fun _ => inr (-12)%Z) 0) 0 s) in H as (_ & _ & (rq & X) & _). discriminate X.
Qed.
