(** Specification: power failures seen through the complete kernel module.  The
    device and the initiator's expectations are those of DurableSpec. *)
From Coq Require Import Arith NArith ZArith List Bool Init.Byte.
From Verif Require Import Bytes World TranslationCls EngineE2e MockModule KernelDriver Spec RwSpec EngineSpec MockSpec DiskSpec MixedSpec DurableSpec ModuleSpec.
Import ListNotations.
Local Open Scope list_scope.
Local Open Scope N_scope.

(** behind the block layer is the device of MixedSpec *)
Definition backed_by (cap : N -> N) (ident : submission -> N -> byte) (cpl : nat -> submission -> N) (kn : kernel) : Prop :=
  kn_ns kn = true /\ forall k s m, kn_exec kn k s m = nvme_device cap ident cpl k s m.
(** the NVMe command, the [i]-th of its SCSI command, is executed *)
Definition reached (kn : kernel) (i : nat) (s : submission) : Prop :=
  forall m, exists ret es m', submit_command kn i s m = Some (ret, es, m') /\ exists queue disk rq, In (KExec queue disk rq (sub_cmd s)) es.
(** the NVMe commands were all executed and completed without error *)
Definition carried (kn : kernel) (subs : list submission) : Prop :=
  forall i s m, nth_error subs i = Some s -> reached kn i s /\ cpl_ok (snd (kn_exec kn i s m) mod 2 ^ 128).
(** [settles] for the commands that reached the device *)
Definition module_settles (cap : N -> N) (cpl : nat -> submission -> N) (kn : kernel) (subs : list submission) (m st st' : storage) : Prop :=
  saved_some m st st' /\
  forall i s nsid b, nth_error subs i = Some s -> reached kn i s -> block_of nsid b -> makes_safe cap s nsid b ->
    (le (slice 0 1 (le_encode 64 (sub_cmd s))) = 0 -> cpl_ok (cpl i s mod 2 ^ 128)) -> holds_same st' m nsid b.

(** what happens, each with whether the device carried it out; the initiator
    sees only the second component *)
Definition mhappening := (bool * happening)%type.
Definition really (e : mhappening) : list happening :=
  match e with
  | (true, h) => [h]
  | (false, CutShort _) => [PowerFailed]
  | (false, PowerFailed) => [PowerFailed]
  | (false, _) => []
  end.

Inductive module_lived (cap : N -> N) (w0 : world) (st0 : storage) : list mhappening -> world -> storage -> Prop :=
| ml_start : module_lived cap w0 st0 [] w0 st0
| ml_env l w st w' st' : module_lived cap w0 st0 l w st -> same_medium w w' -> saved_some (mem w) st st' -> module_lived cap w0 st0 l w' st'
| ml_io l w st ident cpl kn wrs kz wild c bs x a r w' st' ok : module_lived cap w0 st0 l w st -> backed_by cap ident cpl kn ->
    scsi_presents w kz c x -> cdb_of w c bs ->
    scsi_queuecommand (kernel_driver kn) wrs kz wild c w = Ret r w' -> scsi_observes w' c r x a ->
    module_settles cap cpl kn (mr_subs r) (mem w') st st' -> (ok = true <-> carried kn (mr_subs r)) ->
    module_lived cap w0 st0 (l ++ [(ok, Served x (fua_bit bs) a)]) w' st'
| ml_other l w st ident cpl kn wrs kz wild c r w' st' : module_lived cap w0 st0 l w st -> backed_by cap ident cpl kn -> scsi_other w kz c ->
    scsi_queuecommand (kernel_driver kn) wrs kz wild c w = Ret r w' ->
    module_settles cap cpl kn (mr_subs r) (mem w') st st' ->
    module_lived cap w0 st0 l w' st'
| ml_sync l w st ident cpl kn wrs kz wild c r w' st' ok : module_lived cap w0 st0 l w st -> backed_by cap ident cpl kn -> scsi_sync w c ->
    scsi_queuecommand (kernel_driver kn) wrs kz wild c w = Ret r w' -> mr_result r = GOOD ->
    module_settles cap cpl kn (mr_subs r) (mem w') st st' -> (ok = true <-> carried kn (mr_subs r)) ->
    module_lived cap w0 st0 (l ++ [(ok, Synced (sc_lun c))]) w' st'
| ml_failed l w st w' : module_lived cap w0 st0 l w st -> restarts st w' -> module_lived cap w0 st0 (l ++ [(true, PowerFailed)]) w' st
| ml_cut l w st done cpl kn wrs kz wild c x r w1 st1 w' ok : module_lived cap w0 st0 l w st ->
    kn_ns kn = true -> (forall k s m, kn_exec kn k s m = interrupted cap done cpl k s m) -> scsi_presents w kz c x ->
    scsi_queuecommand (kernel_driver kn) wrs kz wild c w = Ret r w1 ->
    saved_some (mem w1) st st1 -> restarts st1 w' -> (ok = true <-> forall i s, nth_error (mr_subs r) i = Some s -> reached kn i s) ->
    module_lived cap w0 st0 (l ++ [(ok, CutShort x)]) w' st1.
