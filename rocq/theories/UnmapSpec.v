(** Specification of UNMAP.  Byte numbers are those of SBC-3 (UNMAP CDB, UNMAP
    parameter list) and of the NVMe base specification (Dataset Management). *)
From Coq Require Import Arith NArith List Lia Bool Init.Byte.
From Verif Require Import Bytes World Common TranslationCls Spec RwSpec InquirySpec SmallSpec.
Import ListNotations.
Local Open Scope list_scope.
Local Open Scope N_scope.

Definition unmap_cdb (bs : list byte) : Prop := (10 <= length bs)%nat /\ byte_at bs 0 = 0x42.
Definition unmap_anchor (bs : list byte) : bool := N.testbit (byte_at bs 1) 0.
Definition unmap_list_length (bs : list byte) : N := be (slice 7 2 bs).
(** SBC-3 table "UNMAP command": byte 1 bits 7:1 and bytes 2 to 5 are reserved *)
Definition unmap_reserved_zero (bs : list byte) : Prop :=
  N.shiftr (byte_at bs 1) 1 = 0 /\ byte_at bs 2 = 0 /\ byte_at bs 3 = 0 /\ byte_at bs 4 = 0 /\ byte_at bs 5 = 0.

(** UNMAP BLOCK DESCRIPTOR DATA LENGTH, and the [i]-th block descriptor *)
Definition descriptor_bytes (pl : list byte) : N := be (slice 2 2 pl).
Definition descriptor_lba (pl : list byte) (i : nat) : N := be (slice (8 + 16 * i) 8 pl).
Definition descriptor_blocks (pl : list byte) (i : nat) : N := be (slice (16 + 16 * i) 4 pl).

(** a request the translator supports: 1 to 256 whole descriptors, present in
    the buffer, no anchoring *)
Definition unmap_request (bs pl : list byte) (n : nat) : Prop :=
  unmap_cdb bs /\ unmap_anchor bs = false /\ 8 <= unmap_list_length bs /\
  (1 <= n <= 256)%nat /\ descriptor_bytes pl = 16 * N.of_nat n /\ (8 + 16 * n <= length pl)%nat.

(** NVMe Dataset Management (09h): NR in CDW10 (zero based), AD = bit 2 of CDW11 *)
Definition deallocate_sqe (nsid : N) (n : nat) (prp1 : N) : sqe :=
  {| q_opc := 0x09; q_nsid := nsid; q_prp1 := prp1; q_cdw10 := N.of_nat n - 1; q_cdw11 := 4; q_cdw12 := 0 |}.

(** the range list at [p]: 16 bytes per range, length in logical blocks at byte
    4, starting LBA at byte 8 *)
Definition ranges_at (w : world) (p : N) (pl : list byte) (n : nat) : Prop :=
  forall i, (i < n)%nat ->
    bytes_at w (p + 16 * N.of_nat i + 4) (le_encode 4 (descriptor_blocks pl i)) /\
    bytes_at w (p + 16 * N.of_nat i + 8) (le_encode 8 (descriptor_lba pl i)).

(** the pages the allocator hands out lie outside [s] *)
Definition pages_apart (w : world) (s : span) : Prop :=
  forall k page_size n, let a := u64 (ans w k page_size n) in
    a = 0 \/ a + page_size * n <= ptr s \/ ptr s + len s <= a.
