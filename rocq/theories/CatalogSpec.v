(** Which NVMe commands a SCSI command may be carried out with. *)
From Coq Require Import NArith List Init.Byte.
From Verif Require Import Bytes World Common TranslationCls Spec RwSpec.
Import ListNotations.
Local Open Scope list_scope.
Local Open Scope N_scope.

Inductive nvme_kind := Flush | NvmWrite | NvmRead | NvmCompare | Identify | GetFeatures.
(** NVMe base specification: admin opcodes 06h, 0Ah; I/O opcodes 00h, 01h, 02h, 05h *)
Definition on_admin_queue (k : nvme_kind) : bool := match k with Identify | GetFeatures => true | _ => false end.
Definition nvme_opcode (k : nvme_kind) : N :=
  match k with Flush => 0x00 | NvmWrite => 0x01 | NvmRead => 0x02 | NvmCompare => 0x05 | Identify => 0x06 | GetFeatures => 0x0a end.

(** by SCSI operation code *)
Definition may_use (opcode : N) : list nvme_kind :=
  if existsb (N.eqb opcode) [0x08; 0x28; 0xa8; 0x88] then [NvmRead]          (* READ(6/10/12/16) *)
  else if existsb (N.eqb opcode) [0x0a; 0x2a; 0xaa; 0x8a] then [NvmWrite]    (* WRITE(6/10/12/16) *)
  else if opcode =? 0x2f then [NvmCompare]                                    (* VERIFY(10) *)
  else if opcode =? 0x35 then [Flush]                                        (* SYNCHRONIZE CACHE(10) *)
  else if existsb (N.eqb opcode) [0x12; 0x25; 0xa0; 0xa3] then [Identify]    (* INQUIRY, READ CAPACITY(10), REPORT LUNS, MAINTENANCE IN *)
  else if existsb (N.eqb opcode) [0x1a; 0x5a] then [Identify; GetFeatures]   (* MODE SENSE(6/10) *)
  else [].                                                                   (* all others: none *)

(** the memory the command names (PRP1): the caller's buffer, a page the object
    holds, or none *)
Definition names_memory (k : nvme_kind) (buffer : span) (pages : list (N * N)) (p : N) : Prop :=
  match k with
  | NvmRead | NvmWrite => p = ptr buffer
  | Identify => In (p, 1) pages
  | Flush | NvmCompare | GetFeatures => p = 0
  end.
(** the namespace it names: the LUN's; Identify may name none (controller data,
    namespace list); VERIFY names none *)
Definition names_namespace (k : nvme_kind) (lun nsid : N) : Prop :=
  match k with
  | NvmCompare => nsid = 0
  | Identify => nsid = nsid_of lun \/ nsid = 0
  | _ => nsid = nsid_of lun
  end.

Definition expected_command (opcode lun : N) (buffer : span) (pages : list (N * N)) (x : exposed) : Prop :=
  exists k q, In k (may_use opcode) /\ x_admin x = on_admin_queue k /\ x_bytes x = sqe_bytes q /\
    q_opc q = nvme_opcode k /\ names_memory k buffer pages (q_prp1 q) /\ names_namespace k lun (q_nsid q).
