(** Specification: logical unit numbers as initiators read them. *)
From Coq Require Import NArith List Init.Byte.
From Verif Require Import Bytes.
Local Open Scope N_scope.

(** SAM-5 4.7: a LUN is four two-byte levels, the first level first.  As a number
    (Linux scsilun_to_int, drivers/scsi/scsi_common.c), level [k] is shifted by
    16 k bits; so unit 5 is 0005 0000 0000 0000h. *)
Definition initiator_lun (entry : list byte) : N :=
  be (slice 0 2 entry) + be (slice 2 2 entry) * 2 ^ 16 + be (slice 4 2 entry) * 2 ^ 32 + be (slice 6 2 entry) * 2 ^ 48.
