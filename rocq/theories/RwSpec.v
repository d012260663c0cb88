(** Specification of the data-path commands: how READ/WRITE CDBs are laid out
    (SBC-3) and what NVMe command they stand for. *)
From Coq Require Import Arith NArith List Lia Bool Init.Byte.
From Verif Require Import Bytes World Common TranslationCls Spec.
Import ListNotations.
Local Open Scope list_scope.
Local Open Scope N_scope.

(** the 32-bit namespace id a LUN is sent to *)
Definition nsid_of (lun : N) : N := (lun + 1) mod 2 ^ 32.

(** the four sizes of READ and WRITE CDBs *)
Inductive rw_form := RW6 | RW10 | RW12 | RW16.

Definition read_opcode (f : rw_form) : N :=
  match f with RW6 => 0x08 | RW10 => 0x28 | RW12 => 0xa8 | RW16 => 0x88 end.
Definition write_opcode (f : rw_form) : N :=
  match f with RW6 => 0x0a | RW10 => 0x2a | RW12 => 0xaa | RW16 => 0x8a end.
Definition rw_len (f : rw_form) : nat :=
  match f with RW6 => 6 | RW10 => 10 | RW12 => 12 | RW16 => 16 end.

(** big-endian fields of the CDB [bs]; byte numbers as in SBC-3 *)
Definition rw_lba (f : rw_form) (bs : list byte) : N :=
  match f with
  | RW6 => be (slice 1 3 bs) mod 2 ^ 21
  | RW10 | RW12 => be (slice 2 4 bs)
  | RW16 => be (slice 2 8 bs)
  end.
Definition rw_blocks (f : rw_form) (bs : list byte) : N :=
  match f with
  | RW6 => if byte_at bs 4 =? 0 then 256 else byte_at bs 4
  | RW10 => be (slice 7 2 bs)
  | RW12 => be (slice 6 4 bs)
  | RW16 => be (slice 10 4 bs)
  end.
Definition rw_protect (bs : list byte) : N := bits (byte_at bs 1) 5 3.
Definition rw_fua (f : rw_form) (bs : list byte) : N :=
  match f with RW6 => 0 | _ => bits (byte_at bs 1) 3 1 end.

(** PRINFO (PRACT * 8 + PRCHK) for RDPROTECT / WRPROTECT; [None] = not allowed *)
Definition prinfo (on_zero : N) (protect : N) : option N :=
  match protect with
  | 0 => Some on_zero
  | 1 | 5 => Some 7
  | 2 => Some 3
  | 3 => Some 0
  | 4 => Some 4
  | _ => None
  end.
Definition read_prinfo (f : rw_form) (bs : list byte) : option N :=
  match f with RW6 => Some 0 | _ => prinfo 15 (rw_protect bs) end.
Definition write_prinfo (f : rw_form) (bs : list byte) : option N :=
  match f with RW6 => Some 0 | _ => prinfo 8 (rw_protect bs) end.

(** NVMe Read/Write: dwords 10-11 starting LBA, dword 12 NLB (0's based),
    PRINFO, FUA *)
Definition rw_sqe (opc : N) (lun prp1 lba blocks fua pr : N) : sqe :=
  {| q_opc := opc; q_nsid := nsid_of lun; q_prp1 := prp1;
     q_cdw10 := lba mod 2 ^ 32; q_cdw11 := lba / 2 ^ 32;
     q_cdw12 := (blocks - 1) + pr * 2 ^ 26 + fua * 2 ^ 30 |}.

(** when a READ can be translated *)
Definition read_ok (f : rw_form) (bs : list byte) (buffer : span) : Prop :=
  (rw_len f <= length bs)%nat /\ 1 <= rw_blocks f bs <= 65535 /\
  read_prinfo f bs <> None /\ rw_blocks f bs * 4096 <= len buffer.

(** the refusal of a CDB by Begin: no command exposed, no page kept *)
Definition refuses (t : Translation) (cdb buffer : span) (lun : N) (w : world) : Prop :=
  exists t' r w', Begin t cdb buffer lun w = Ret (t', r) w' /\ br_status r = ApiSuccess /\
    rejected t' /\ exposes t' = [] /\ held t' = [].

(** VERIFY(10): PRCHK from BYTCHK and VRPROTECT; PRACT is always 1 *)
Definition verify_prchk (bytchk vrprotect : N) : N :=
  match bytchk, vrprotect with
  | 0, 0 | 0, 1 | 0, 5 => 7
  | 0, 2 => 3
  | 0, 4 => 4
  | 1, 0 => 7
  | _, _ => 0
  end.
Definition verify_blocks (bs : list byte) : N := be (slice 7 2 bs).
Definition verify_ok (bs : list byte) : Prop :=
  (10 <= length bs)%nat /\ verify_blocks bs <> 0 /\ bits (byte_at bs 9) 2 1 = 0.  (* NACA *)
Definition verify_sqe (nsid prp1 : N) (bs : list byte) : sqe :=
  {| q_opc := 5; q_nsid := nsid; q_prp1 := prp1; q_cdw10 := be (slice 2 4 bs); q_cdw11 := 0;
     q_cdw12 := (verify_blocks bs - 1) +
                (8 + verify_prchk (bits (byte_at bs 1) 1 2) (bits (byte_at bs 1) 5 3)) * 2 ^ 26 |}.

Definition flush_sqe (lun : N) : sqe :=
  {| q_opc := 0; q_nsid := nsid_of lun; q_prp1 := 0; q_cdw10 := 0; q_cdw11 := 0; q_cdw12 := 0 |}.
