(** Model of third_party/e2e/scsi_mock_module.c: the error handler of the host
    template. *)
From Coq Require Import NArith.
From Verif Require Import World MockModule.
Local Open Scope N_scope.

(** linux/include/scsi/scsi.h: the error handler's success code *)
Definition SUCCESS : N := 0x2002.

(** scsi_mock_module.c 78 scsi_abort, installed as eh_abort_handler (line 90) *)
Definition scsi_abort (c : scsi_cmnd) : M N := ret SUCCESS.
