(** Specification: an NVMe device that also answers the other commands, and
    histories in which reads and writes are mixed with them. *)
From Coq Require Import Arith NArith List Bool Init.Byte.
From Verif Require Import Bytes World Common ModeSenseCmd TranslationCls EngineE2e MockModule Spec RwSpec EngineSpec MockSpec DiskSpec.
Import ListNotations.
Local Open Scope list_scope.
Local Open Scope N_scope.

(** the disk of DiskSpec; in addition Identify (admin opcode 06h) puts 4096
    bytes, any, at the host address of the command.  All commands other than
    Read and Write are completed in any way, and leave the medium alone. *)
Definition nvme_device (cap : N -> N) (ident : submission -> N -> byte) (cpl : nat -> submission -> N) : driver := fun k s m =>
  let c := le_encode 64 (sub_cmd s) in
  let opc := le (slice 0 1 c) in
  let host := le (slice 24 8 c) in
  if sub_admin s then
    if opc =? 0x06 then (fun x => if (host <=? x) && (x <? host + 4096) then Some (ident s (x - host)) else m x, cpl k s)
    else (m, cpl k s)
  else if (opc =? 0x01) || (opc =? 0x02) then nvme_disk cap k s m
  else (m, cpl k s).

(** any CDB but UNMAP and a well-formed WRITE *)
Definition other_command (bs : list byte) : Prop :=
  byte_at bs 0 <> 0x42 /\
  forall f, byte_at bs 0 = write_opcode f -> ~ ((rw_len f <= length bs)%nat /\ 1 <= rw_blocks f bs /\ write_prinfo f bs <> None).

(** main memory ends at 2^64; asked for no page the allocator returns null *)
Definition low (s : span) : Prop := forall x, in_span s x -> x < 2 ^ 64.
Definition pages_in_memory (w : world) : Prop :=
  (forall k, u64 (ans w k 4096 1) + 4096 <= 2 ^ 64) /\ (forall k size, ans w k size 0 = 0).

(** through the library *)
Definition api_other (w : world) (q : request) : Prop :=
  (exists bs, span_holds w (rq_cdb q) bs /\ other_command bs) /\ low (rq_data q) /\ low (rq_sense q) /\ pages_in_memory w.
Inductive api_mixed (cap : N -> N) (t0 : Translation) (w0 : world) : list (disk_io * answer) -> Translation -> world -> Prop :=
| am_nil : api_mixed cap t0 w0 [] t0 w0
| am_env l t w w' : api_mixed cap t0 w0 l t w -> same_medium w w' -> api_mixed cap t0 w0 l t w'
| am_io l t w ident cpl q x a status t' w' : api_mixed cap t0 w0 l t w -> api_presents w q x ->
    api_io (nvme_device cap ident cpl) t q w = Ret (t', status) w' -> api_observes w' q status x a ->
    api_mixed cap t0 w0 (l ++ [(x, a)]) t' w'
| am_other l t w ident cpl q status t' w' : api_mixed cap t0 w0 l t w -> api_other w q ->
    api_io (nvme_device cap ident cpl) t q w = Ret (t', status) w' ->
    api_mixed cap t0 w0 l t' w'.

(** through the adapter *)
Definition scsi_other (w : world) (kz : N) (c : scsi_cmnd) : Prop :=
  (exists bs, bytes_at w (sc_cmnd c) bs /\ N.of_nat (length bs) = sc_cmd_len c /\ sc_cmd_len c < 65536 /\ other_command bs) /\
  sc_sense c + 96 <= 2 ^ 64 /\ (forall a, In a (sg_addrs (sc_sgl c)) -> a < 2 ^ 64) /\
  unused w kz (sc_bufflen c) /\ kz + sc_bufflen c <= 2 ^ 64 /\ pages_in_memory w.
Inductive scsi_mixed (cap : N -> N) (w0 : world) : list (disk_io * answer) -> world -> Prop :=
| sm_nil : scsi_mixed cap w0 [] w0
| sm_env l w w' : scsi_mixed cap w0 l w -> same_medium w w' -> scsi_mixed cap w0 l w'
| sm_io l w ident cpl wrs kz wild c x a r w' : scsi_mixed cap w0 l w -> scsi_presents w kz c x ->
    scsi_queuecommand (nvme_device cap ident cpl) wrs kz wild c w = Ret r w' -> scsi_observes w' c r x a ->
    scsi_mixed cap w0 (l ++ [(x, a)]) w'
| sm_other l w ident cpl wrs kz wild c r w' : scsi_mixed cap w0 l w -> scsi_other w kz c ->
    scsi_queuecommand (nvme_device cap ident cpl) wrs kz wild c w = Ret r w' ->
    scsi_mixed cap w0 l w'.
