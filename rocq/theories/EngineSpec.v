(** Specification of the end-to-end engine: a request, the device seen through
    the driver, and what the engine must hand to it. *)
From Coq Require Import Arith NArith List Lia Bool Init.Byte.
From Verif Require Import Bytes World Common ModeSenseCmd TranslationCls EngineE2e Spec.
Import ListNotations.
Local Open Scope list_scope.
Local Open Scope N_scope.

(** the arguments of one call *)
Record request := { rq_cdb : span; rq_lun : N; rq_sense : span; rq_data : span; rq_data_in : bool }.
Definition engine (drv : driver) (wrs : arr3 NvmeCmdWrapper) (q : request) : M (EngineResponse * Translation * list submission) :=
  ScsiToNvme drv wrs (ptr (rq_cdb q)) (len (rq_cdb q)) (rq_lun q) (ptr (rq_sense q)) (len (rq_sense q))
    (ptr (rq_data q)) (len (rq_data q)) (rq_data_in q).

(** the first step of every request *)
Definition begins (wrs : arr3 NvmeCmdWrapper) (q : request) : M (Translation * BeginResponse) :=
  Begin (Translation_init wrs) (rq_cdb q) (rq_data q) (rq_lun q).

(** a submission as the driver sees it: queue, the 64 command bytes, the buffer
    address and the buffer length *)
Definition sub_view (s : submission) : bool * list byte * N * N :=
  (sub_admin s, le_encode 64 (sub_cmd s), sub_buffer s, sub_bufflen s).
(** ... and what it should be for an exposed command: the buffer address is PRP
    entry 1, bytes 24 to 31 of the command *)
Definition sub_expected (x : exposed) : bool * list byte * N * N :=
  (x_admin x, x_bytes x, le (slice 24 8 (x_bytes x)), x_buffer_len x).

(** running submissions number [k], [k+1], ... through the driver: memory after
    them, and their completions *)
Fixpoint device_run (drv : driver) (k : nat) (ss : list submission) (m : N -> option byte) : (N -> option byte) * list N :=
  match ss with
  | [] => (m, [])
  | s :: ss' =>
      let (m1, c) := drv k s m in
      let (m2, cs) := device_run drv (S k) ss' m1 in
      (m2, c mod 2 ^ 128 :: cs)
  end.

(** where Complete may put response data *)
Definition response_span (q : request) (n : N) : span :=
  if rq_data_in q then {| ptr := ptr (rq_data q); len := n |} else null_span.
