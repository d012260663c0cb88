(** Specification: what the initiator finds in the sense buffer when a command
    queued to the adapter comes back. *)
From Coq Require Import Arith NArith ZArith List Bool Init.Byte.
From Verif Require Import Bytes World Common EngineE2e MockModule Spec EngineSpec MockSpec UnmapSpec.
Import ListNotations.
Local Open Scope list_scope.
Local Open Scope N_scope.

(** the 96 bytes of sense buffer the mid-layer provides *)
Definition sense_of (c : scsi_cmnd) : span := {| ptr := sc_sense c; len := 96 |}.
(** they are mapped, and overlap neither the adapter's buffer nor the scatterlist nor
    the pages handed out *)
Definition sense_alone (w : world) (kz : N) (c : scsi_cmnd) : Prop :=
  let n := sc_bufflen c mod 65536 in
  span_mapped w (sense_of c) /\ pages_apart w (sense_of c) /\
  (n = 0 \/ kz = 0 \/ kz + n <= sc_sense c \/ sc_sense c + 96 <= kz) /\
  forall x, In x (sg_addrs (sc_sgl c)) -> ~ in_span (sense_of c) x.
(** the device leaves them alone *)
Definition spares (drv : driver) (c : scsi_cmnd) : Prop :=
  forall k s m x, in_span (sense_of c) x -> fst (drv k s m) x = m x.

(** afterwards they are as they were *)
Definition silent (w w' : world) (c : scsi_cmnd) : Prop :=
  forall x, in_span (sense_of c) x -> mem w' x = mem w x.
(** afterwards the first 8 bytes are the sense data, the rest is as it was *)
Definition told (w w' : world) (c : scsi_cmnd) (key asc ascq : N) : Prop :=
  (exists bs, sense_says key asc ascq bs /\ bytes_at w' (sc_sense c) bs) /\
  forall x, sc_sense c + 8 <= x < sc_sense c + 96 -> mem w' x = mem w x.

(** [m] is [w]'s memory, but for the adapter's buffer and the pages handed out *)
Definition memory_of (w : world) (kz : N) (c : scsi_cmnd) (m : N -> option byte) : Prop :=
  forall x, ~ (kz <= x < kz + sc_bufflen c mod 65536) -> pages_apart w {| ptr := x; len := 1 |} -> m x = mem w x.

(** the outcomes; [cpls] are the device's completions of the commands submitted *)
Inductive explained (w w' : world) (c : scsi_cmnd) (r : mock_result) (cpls : list N) : Prop :=
| why_good : mr_result r = GOOD -> Forall cpl_ok cpls -> silent w w' c -> explained w w' c r cpls
| why_failed pre x post st key asc ascq : cpls = pre ++ x :: post -> Forall cpl_ok pre -> ~ cpl_ok x ->
    scsi_status_of (cpl_sct x) (cpl_sc x) = (st, key, asc, ascq) -> mr_result r = st -> st <> GOOD -> told w w' c key asc ascq ->
    explained w w' c r cpls
| why_refused : mr_result r = CHECK_CONDITION -> mr_subs r = [] -> told w w' c 5 0x24 0 -> explained w w' c r cpls
| why_gave_up : mr_result r = TASK_ABORTED -> mr_subs r = [] -> silent w w' c -> explained w w' c r cpls
| why_no_memory : mr_result r = 23 -> mr_subs r = [] -> silent w w' c -> explained w w' c r cpls.
