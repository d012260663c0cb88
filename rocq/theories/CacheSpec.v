(** Specification: MODE SENSE(6) through the adapter, and what an initiator
    concludes from the WCE bit. *)
From Coq Require Import Arith NArith ZArith List Bool Init.Byte.
From Verif Require Import Bytes World Common ModeSenseCmd TranslationCls EngineE2e MockModule KernelDriver Spec RwSpec InquirySpec ModeSpec EngineSpec MockSpec DiskSpec AdvertSpec.
Import ListNotations.
Local Open Scope list_scope.
Local Open Scope N_scope.

(** a device with the Identify data [data] that, asked for the Volatile Write
    Cache feature of a namespace (SEL 0: current, 1: default, 2: saved), answers
    [wce] in bit 0 of the completion's dword 0, and that has [id0] in that bit of
    the completions of Identify, where it means nothing *)
Definition cached_device (drv : driver) (data : N -> N -> list byte) (wce : N -> N -> bool) (id0 : bool) : Prop :=
  (forall cns nsid, N.of_nat (length (data cns nsid)) = 4096) /\
  (forall s cns nsid p, p < 2 ^ 64 -> sub_view s = (true, sqe_bytes (identify_sqe cns nsid p), p, 4096) -> fills drv s (data cns nsid)) /\
  (forall s cns nsid p k m, p < 2 ^ 64 -> sub_view s = (true, sqe_bytes (identify_sqe cns nsid p), p, 4096) ->
     N.testbit (cpl_dw0 (snd (drv k s m) mod 2 ^ 128)) 0 = id0) /\
  (forall s nsid sel k m, sub_admin s = true -> le_encode 64 (sub_cmd s) = sqe_bytes (get_features_sqe nsid sel) ->
     nsid < 2 ^ 32 -> sel < 8 ->
     fst (drv k s m) = m /\ cpl_ok (snd (drv k s m) mod 2 ^ 128) /\ N.testbit (cpl_dw0 (snd (drv k s m) mod 2 ^ 128)) 0 = wce nsid sel).

(** MODE SENSE(6) with CDB [bs] through the adapter, with room for the answer *)
Definition asks_mode (w : world) (kz : N) (c : scsi_cmnd) (bs : list byte) : Prop :=
  bytes_at w (sc_cmnd c) bs /\ N.of_nat (length bs) = sc_cmd_len c /\ sc_cmd_len c < 65536 /\ mode6_cdb bs /\
  sc_from_device c = true /\ 0 < sc_bufflen c < 65536 /\ byte_at bs 4 <= sc_bufflen c /\
  sg_valid w (sc_sgl c) /\ sc_bufflen c <= sg_total (sc_sgl c) /\
  kz <> 0 /\ unused w kz (sc_bufflen c) /\ good_pages (with_buffer w kz (sc_bufflen c)).

(** the queue and the 64 bytes of a submission *)
Definition sub_wire (s : submission) : bool * list byte := (sub_admin s, le_encode 64 (sub_cmd s)).

(** WCE in the Caching page (08h; bit 2 of byte 2): a volatile write cache is
    enabled, so that data may be lost unless SYNCHRONIZE CACHE or FUA is used *)
Definition wce_is (b : bool) (img : list byte) : Prop :=
  exists pg, mode_page 0x08 img = Some pg /\ N.testbit (byte_at pg 2) 2 = b.
(** the initiator's buffer shows that bit *)
Definition shows_wce (w : world) (c : scsi_cmnd) (b : bool) : Prop :=
  exists img, sg_holds w (sc_sgl c) img /\ wce_is b img.

(** the block layer takes every admin command *)
Definition takes_admin (kn : kernel) : Prop :=
  kn_ns kn = true /\ kn_admin_q kn <> 0 /\ kn_disk kn <> 0 /\ forall k, (exists rq, kn_alloc kn k = inl rq) /\ kn_map kn k = 0%Z.
