(** Model of third_party/e2e/engine.cc and of the part of scsi_mock_module.c
    that calls it. *)

From Coq Require Import NArith String List Lia Bool Init.Byte.
From Verif Require Import Bytes Layout World ScsiDefs NvmeDefs Common ModeSenseCmd TranslationCls.
Import ListNotations.
Local Open Scope string_scope.
Local Open Scope list_scope.
Local Open Scope N_scope.

(** engine.cc 56-67: one call of submit_admin_command / submit_io_command *)
Record submission := { sub_admin : bool; sub_cmd : N; sub_buffer : N; sub_bufflen : N }.

(** The driver and the device behind it: an arbitrary function of the position
    of the submission, the submission and memory, giving the memory after the
    command (DMA) and the final contents of [tmp_cpl].  The return code of the
    submit functions is ignored by the engine and is not modelled. *)
Definition driver := nat -> submission -> (N -> option byte) -> (N -> option byte) * N.

(** nvme_driver.c 66-126: whatever the device does to memory, the function
    itself never writes [*cpl] (it only stores the pointer in the request), so
    [tmp_cpl] keeps its initial zero value.  [dma k s m] is the device's effect
    on memory. *)
Definition nvme_driver_c (dma : nat -> submission -> (N -> option byte) -> (N -> option byte))
  : driver := fun k s m => (dma k s m, 0).

(** engine.cc 55-70, the submission loop *)
Fixpoint submit_loop (drv : driver) (k : nat) (ws : list NvmeCmdWrapper)
  : M (list N * list submission) :=
  match ws with
  | [] => ret ([], [])
  | x :: ws' =>
      let s := {| sub_admin := is_admin x; sub_cmd := cmd x;
                  sub_buffer := get GenericCmd "prp1" (cmd x); sub_bufflen := buffer_len x |} in
      c <- (fun w => let '(m', cpl) := drv k s (mem w) in Ret (cpl mod 2 ^ 128) (set_mem w m')) ;;
      ' (cs, ss) <- submit_loop drv (S k) ws' ;;
      ret (c :: cs, s :: ss)
  end.

(** engine.h 34-37 struct ScsiToNvmeResponse *)
Record EngineResponse := { er_return_code : N; er_alloc_len : N }.

(** engine.cc 20-92 ScsiToNvme.  [w0] is the uninitialised nvme_wrappers_ of the
    local Translation object.  Returns the response, the object's final state
    (destroyed without a destructor) and the submissions made. *)
Definition ScsiToNvme (drv : driver) (w0 : arr3 NvmeCmdWrapper) (cmd_buf cmd_len lun sense_buf
  sense_len data_buf data_len : N) (is_data_in : bool)
  : M (EngineResponse * Translation * list submission) :=
  let translation := Translation_init w0 in
  let scsi_cmd := {| ptr := cmd_buf; len := cmd_len |} in
  let buffer := {| ptr := data_buf; len := data_len |} in
  ' (t, begin_resp) <- Begin translation scsi_cmd buffer lun ;;
  match br_status begin_resp with
  | ApiFailure => ret ({| er_return_code := kTaskAborted; er_alloc_len := 0 |}, t, [])
  | ApiSuccess =>
      if data_len <? br_alloc_len begin_resp
      then ret ({| er_return_code := kTaskAborted; er_alloc_len := 0 |}, t, [])
      else
        ' (cpls, subs) <- submit_loop drv 0 (GetNvmeWrappers t) ;;
        let buffer_in := if is_data_in
                         then {| ptr := data_buf; len := br_alloc_len begin_resp |}
                         else null_span in
        let sense_buffer := {| ptr := sense_buf; len := sense_len |} in
        ' (t, cpl_resp) <- Complete t cpls buffer_in sense_buffer ;;
        match cr_status cpl_resp with
        | ApiFailure => ret ({| er_return_code := 0x40; er_alloc_len := 0 |}, t, subs)
        | ApiSuccess =>
            ret ({| er_return_code := cr_scsi_status cpl_resp;
                    er_alloc_len := br_alloc_len begin_resp |}, t, subs)
        end
  end.

(** scsi_mock_module.c 47: u16 data_len = scsi_bufflen(cmd) *)
Definition mock_data_len (bufflen : N) : N := u16 bufflen.
