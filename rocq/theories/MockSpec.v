(** Specification of the SCSI adapter: scatterlists as sequences of addresses. *)
From Coq Require Import Arith NArith List Lia Bool Init.Byte.
From Verif Require Import Bytes World Common ModeSenseCmd TranslationCls EngineE2e MockModule Spec RwSpec InquirySpec EngineSpec.
Import ListNotations.
Local Open Scope list_scope.
Local Open Scope N_scope.

(** the addresses of a scatterlist's bytes, in order *)
Definition sg_addrs (sgl : list (N * N)) : list N :=
  flat_map (fun s => map (fun i => fst s + N.of_nat i) (seq 0 (N.to_nat (snd s)))) sgl.
(** its first [length bs] bytes are [bs] *)
Definition sg_holds (w : world) (sgl : list (N * N)) (bs : list byte) : Prop :=
  (length bs <= length (sg_addrs sgl))%nat /\
  forall i a b, nth_error (sg_addrs sgl) i = Some a -> nth_error bs i = Some b -> mem w a = Some b.
(** mapped, and no byte listed twice *)
Definition sg_valid (w : world) (sgl : list (N * N)) : Prop :=
  NoDup (sg_addrs sgl) /\ forall a, In a (sg_addrs sgl) -> mem w a <> None.

(** an address range nobody uses *)
Definition unused (w : world) (a n : N) : Prop := forall x, a <= x < a + n -> mem w x = None.

(** the request the adapter passes to the engine *)
Definition mock_request (kz wild : N) (c : scsi_cmnd) : request :=
  let n := sc_bufflen c mod 65536 in
  {| rq_cdb := {| ptr := sc_cmnd c; len := sc_cmd_len c mod 65536 |}; rq_lun := sc_lun c;
     rq_sense := {| ptr := sc_sense c; len := 96 |};
     rq_data := {| ptr := if 0 <? n then kz else wild; len := n |}; rq_data_in := sc_from_device c |}.

(** a device that answers every command with the data [d], placed in the
    command's buffer, and success *)
Definition answers_with (drv : driver) (d : list byte) : Prop :=
  forall k s m, cpl_ok (snd (drv k s m) mod 2 ^ 128) /\
    (forall i b, nth_error d i = Some b -> fst (drv k s m) (sub_buffer s + N.of_nat i) = Some b) /\
    (forall x, ~ (sub_buffer s <= x < sub_buffer s + N.of_nat (length d)) -> fst (drv k s m) x = m x).

(** the world once the adapter has its zeroed data buffer *)
Definition with_buffer (w : world) (kz n : N) : world :=
  set_mem (log w (EvAlloc 1 n kz)) (map_pages (mem w) kz n (fun _ => x00)).

(** an allocator that never runs out of (4096-byte) pages, never hands out memory
    already in use, and whose next four answers (no command needs more) do not
    overlap *)
Definition good_pages (w : world) : Prop :=
  alloc_cb w = true /\
  (forall k, let a := u64 (ans w k 4096 1) in a <> 0 /\ unused w a 4096) /\
  (forall j k, (tick w <= j < k)%nat -> (k < tick w + 4)%nat ->
    let a := u64 (ans w j 4096 1) in let b := u64 (ans w k 4096 1) in a + 4096 <= b \/ b + 4096 <= a).

(** the device answers [s] with success and the data [d], written to the
    command's buffer and nowhere else *)
Definition fills (drv : driver) (s : submission) (d : list byte) : Prop :=
  forall k m, cpl_ok (snd (drv k s m) mod 2 ^ 128) /\
    (forall i b, nth_error d i = Some b -> fst (drv k s m) (sub_buffer s + N.of_nat i) = Some b) /\
    (forall x, ~ (sub_buffer s <= x < sub_buffer s + N.of_nat (length d)) -> fst (drv k s m) x = m x).

(** a device that answers Identify: the 4096 bytes [data cns nsid] for each CNS
    and namespace it is asked for *)
Definition identifies (drv : driver) (data : N -> N -> list byte) : Prop :=
  (forall cns nsid, N.of_nat (length (data cns nsid)) = 4096) /\
  forall s cns nsid p, sub_view s = (true, sqe_bytes (identify_sqe cns nsid p), p, 4096) -> fills drv s (data cns nsid).

(** a kernel heap: [heap k n] is where kzalloc puts request number [k], for [n]
    bytes; never out of single pages, unused memory, the next four pages
    apart *)
Definition good_heap (heap : nat -> N -> N) (w : world) : Prop :=
  (forall k, 0 < heap k 4096 < 2 ^ 64 /\ unused w (heap k 4096) 4096) /\
  (forall j k, (tick w <= j < k)%nat -> (k < tick w + 4)%nat ->
    heap j 4096 + 4096 <= heap k 4096 \/ heap k 4096 + 4096 <= heap j 4096).

(** the data buffer the engine gets: the [d] the initiator sends, if it sends,
    and zeros *)
Definition handed (c : scsi_cmnd) (n : N) (d : list byte) : list byte :=
  let d' := if sc_from_device c then [] else d in d' ++ repeat x00 (N.to_nat n - length d').
