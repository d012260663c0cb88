(** Specification: READ and WRITE commands queued at the same time, from any
    number of threads, to logical units that all of them share. *)
From Coq Require Import Arith NArith List Bool Init.Byte.
From Verif Require Import Bytes World Common ModeSenseCmd TranslationCls EngineE2e MockModule KernelDriver Spec RwSpec MockSpec ConcSpec DiskSpec MixedSpec ModuleSpec.
Import ListNotations.
Local Open Scope list_scope.
Local Open Scope N_scope.

(** ** Threads *)

(** what is left to do of one queued command, given the NVMe driver below *)
Definition thread := driver -> M mock_result.

(** what happens without interruption: the actions of ConcSpec, and a call of the
    kernel's allocator *)
Inductive action : forall B : Type, M B -> Prop :=
| ac_library B (a : M B) : atomic a -> action B a
| ac_kzalloc kz n : action _ (kzalloc kz n)
| ac_kfree a n : action _ (kfree a n).
Arguments action {B}.

(** NVMe command number [i] of the thread is carried out by the device *)
Definition hand_over (drv : driver) (i : nat) (s : submission) : M N :=
  fun w => let '(m, cpl) := drv i s (mem w) in Ret (cpl mod 2 ^ 128) (set_mem w m).

(** a thread that has handed over [l] so far: it is finished, undefined, does an
    action, or hands over the next command *)
Inductive runs_on : list submission -> thread -> Prop :=
| ro_done l m r : (forall drv, finished (m drv) r) -> mr_subs r = l -> runs_on l m
| ro_undefined l m : (forall drv, is_undefined (m drv)) -> runs_on l m
| ro_act l m B (a : M B) k : action a -> (forall drv w, m drv w = bind a (fun b => k b drv) w) -> (forall b, runs_on l (k b)) -> runs_on l m
| ro_submit l m s k : (forall drv w, m drv w = bind (hand_over drv (length l) s) (fun c => k c drv) w) ->
    (forall c, runs_on (l ++ [s]) (k c)) -> runs_on l m.

Definition next_action (l : list submission) (m : thread) {B} (a : M B) (k : B -> thread) : Prop :=
  action a /\ (forall drv w, m drv w = bind a (fun b => k b drv) w) /\ forall b, runs_on l (k b).
Definition next_submission (l : list submission) (m : thread) (s : submission) (k : N -> thread) : Prop :=
  (forall drv w, m drv w = bind (hand_over drv (length l) s) (fun c => k c drv) w) /\ forall c, runs_on (l ++ [s]) (k c).

(** allocators hand out main memory that is not in use *)
Definition honest (w w' : world) : Prop := honest_step w w' /\
  forall size n p, trace w' = trace w ++ [EvAlloc size n p] -> p <> 0 -> p + size * n <= 2 ^ 64.

(** [together dev w st l w' st']: started in [w], the threads [st] have come to
    [w'] and [st'].  [l] are the steps, in their order: which thread, and whether
    it handed an NVMe command over.  Any thread may take the next step; whenever a
    command is handed over, the device is any of [dev]. *)
Definition state := (list submission * thread)%type.
Inductive together (dev : driver -> Prop) (w : world) (st : list state) : list (nat * bool) -> world -> list state -> Prop :=
| tg_start : together dev w st [] w st
| tg_act l w1 l1 subs m l2 B (a : M B) k b w2 :
    together dev w st l w1 (l1 ++ (subs, m) :: l2) -> next_action subs m a k -> a w1 = Ret b w2 -> honest w1 w2 ->
    together dev w st (l ++ [(length l1, false)]) w2 (l1 ++ (subs, k b) :: l2)
| tg_submit l w1 l1 subs m l2 s k drv c w2 :
    together dev w st l w1 (l1 ++ (subs, m) :: l2) -> next_submission subs m s k -> dev drv -> hand_over drv (length subs) s w1 = Ret c w2 ->
    together dev w st (l ++ [(length l1, true)]) w2 (l1 ++ (subs ++ [s], k c) :: l2).

(** ** Queued commands *)
Record queued := { q_wrs : arr3 NvmeCmdWrapper; q_kz : N; q_wild : N; q_cmnd : scsi_cmnd; q_io : disk_io }.
Definition thread_of (q : queued) : thread := fun drv => scsi_queuecommand drv (q_wrs q) (q_kz q) (q_wild q) (q_cmnd q).
Definition queue_of (qs : list queued) : list state := map (fun q => ([], thread_of q)) qs.
(** the part [mm] of main memory holds what the command needs *)
Definition prepared_in (q : queued) (mm : memory) : Prop :=
  (forall x, 2 ^ 64 <= x -> mm x = None) /\ forall v, mem v = mm -> scsi_presents v (q_kz q) (q_cmnd q) (q_io q).

(** the buffers the kernel's allocator hands out are not in use, and they are
    different ones *)
Definition room_for (qs : list queued) (w : world) : Prop :=
  (forall q, In q qs -> unused w (q_kz q) (sc_bufflen (q_cmnd q))) /\
  (forall i j q1 q2 x, nth_error qs i = Some q1 -> nth_error qs j = Some q2 -> i <> j ->
     q_kz q1 <= x < q_kz q1 + sc_bufflen (q_cmnd q1) -> ~ (q_kz q2 <= x < q_kz q2 + sc_bufflen (q_cmnd q2))).
(** the thread has returned [r] to its caller *)
Definition returned (s : state) (r : mock_result) : Prop := forall drv, finished (snd s drv) r.
(** the thread can take a step of its own *)
Definition can_move (w : world) (s : state) : Prop :=
  (exists B (a : M B) k b w', next_action (fst s) (snd s) a k /\ a w = Ret b w') \/ (exists sub k, next_submission (fst s) (snd s) sub k).

(** ** One after the other *)

(** [step d x d' a]: on the disk [d] the command [x] may be answered [a] and leave
    [d'].  [l]: the commands in their order (by number), each with its answer *)
Inductive one_by_one (step : disk -> disk_io -> disk -> answer -> Prop) (qs : list queued) (d : disk) : list (nat * answer) -> disk -> Prop :=
| obo_nil : one_by_one step qs d [] d
| obo_snoc l d1 i q d2 a : one_by_one step qs d l d1 -> nth_error qs i = Some q -> step d1 (q_io q) d2 a ->
    one_by_one step qs d (l ++ [(i, a)]) d2.
(** the order in which the threads handed their commands over *)
Definition order_of (l : list (nat * bool)) : list nat := map fst (filter snd l).

(** ** Devices; [cap nsid] is the size of a namespace, unit [lun] is namespace [lun + 1] *)
Definition reliable (cap : N -> N) (drv : driver) : Prop := exists ident cpl, drv = nvme_device cap ident cpl.
Definition disk_does (cap : N -> N) (d : disk) (x : disk_io) (d' : disk) (a : answer) : Prop :=
  disk_step (fun lun => cap (lun + 1)) d x = (d', a).
(** the NVMe driver of the kernel module, on top of a block layer in any state *)
Definition through_kernel (cap : N -> N) (drv : driver) : Prop := exists kn, backed cap kn /\ drv = kernel_driver kn.
Definition module_may (cap : N -> N) (d : disk) (x : disk_io) (d' : disk) (a : answer) : Prop :=
  exists kn, backed cap kn /\ module_does (fun lun => cap (lun + 1)) kn d x d' a.
