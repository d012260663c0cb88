(** Specification: the logical units as seen through the complete kernel module,
    that is the SCSI adapter, the engine, the translation library and the NVMe
    driver on top of the Linux block layer. *)
From Coq Require Import Arith NArith ZArith List Bool Init.Byte.
From Verif Require Import Bytes World TranslationCls EngineE2e MockModule KernelDriver Spec RwSpec EngineSpec MockSpec DiskSpec MixedSpec AcceptSpec.
Import ListNotations.
Local Open Scope list_scope.
Local Open Scope N_scope.

(** the driver has found its namespace, and behind the block layer is a device
    with namespaces of [cap] blocks as in MixedSpec: it executes reads and writes,
    answers Identify with any data, and any other command in any way *)
Definition backed (cap : N -> N) (kn : kernel) : Prop :=
  kn_ns kn = true /\ forall k s m, exists ident cpl, kn_exec kn k s m = nvme_device cap ident cpl k s m.
(** the block layer takes the command: there is a queue and a disk, a request is
    available and the buffer can be mapped *)
Definition accepting (kn : kernel) : Prop :=
  kn_io_q kn <> 0 /\ kn_disk kn <> 0 /\ (exists rq, kn_alloc kn 0%nat = inl rq) /\ kn_map kn 0%nat = 0%Z.

(** the command stays within the logical unit *)
Definition within (cap : N -> N) (x : disk_io) : Prop :=
  match x with
  | IoRead lun lba n => lba + n <= cap lun
  | IoWrite lun lba data => lba + blocks_of data <= cap lun
  end.
(** an answer GOOD to a command that was not carried out *)
Definition pretence (x : disk_io) : answer :=
  match x with
  | IoRead _ _ n => AnsData (repeat x00 (N.to_nat (n * 4096)))
  | IoWrite _ _ _ => AnsDone
  end.
(** what the module does with [x] when the block layer is in state [kn] *)
Inductive module_does (cap : N -> N) (kn : kernel) (d : disk) (x : disk_io) : disk -> answer -> Prop :=
| carried_out : accepting kn -> within cap x -> module_does cap kn d x (fst (disk_step cap d x)) (snd (disk_step cap d x))
| lost : ~ (accepting kn /\ within cap x) -> module_does cap kn d x d (pretence x).
Inductive module_explains (cap : N -> N) (d : disk) : list (kernel * disk_io * answer) -> disk -> Prop :=
| me_nil : module_explains cap d [] d
| me_snoc l d1 kn x a d2 : module_explains cap d l d1 -> module_does cap kn d1 x d2 a -> module_explains cap d (l ++ [(kn, x, a)]) d2.

(** histories: commands queued one after the other, the block layer in an
    arbitrary state each time; in between the environment may do anything,
    except to the medium, and commands other than READ, WRITE and UNMAP may be
    queued.  Unit [lun] is namespace [lun + 1]. *)
Inductive module_history (cap : N -> N) (w0 : world) : list (kernel * disk_io * answer) -> world -> Prop :=
| mh_nil : module_history cap w0 [] w0
| mh_env l w w' : module_history cap w0 l w -> same_medium w w' -> module_history cap w0 l w'
| mh_io l w kn wrs kz wild c x a r w' : module_history cap w0 l w -> backed cap kn -> scsi_presents w kz c x ->
    scsi_queuecommand (kernel_driver kn) wrs kz wild c w = Ret r w' -> scsi_observes w' c r x a ->
    module_history cap w0 (l ++ [(kn, x, a)]) w'
| mh_other l w kn wrs kz wild c r w' : module_history cap w0 l w -> backed cap kn -> scsi_other w kz c ->
    scsi_queuecommand (kernel_driver kn) wrs kz wild c w = Ret r w' -> module_history cap w0 l w'.
(** every command was taken by the block layer and stays within its unit *)
Definition all_well (cap : N -> N) (l : list (kernel * disk_io * answer)) : Prop :=
  forall kn x a, In (kn, x, a) l -> accepting kn /\ within (fun lun => cap (lun + 1)) x.
Definition exchanged (l : list (kernel * disk_io * answer)) : list (disk_io * answer) := map (fun e => (snd (fst e), snd e)) l.

(** ** What the initiator is told *)
(** the status of a command with CDB [bs] and [n] bytes of buffer (holding [pl]),
    the pages asked for being answered with [ps]: the device has no part in it *)
Definition module_status (bs pl : list byte) (n : N) (ps : list N) : N :=
  if n <? announced bs then TASK_ABORTED
  else if acceptable bs pl n ps then GOOD
  else CHECK_CONDITION.
(** nothing is submitted, or everything submitted is refused: no command reaches
    the device *)
Definition dead (kn : kernel) : Prop :=
  kn_ns kn = true /\ forall k, exists e, kn_alloc kn k = inr e.
