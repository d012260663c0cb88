(** Specification: what a logical unit announces about itself, and commands
    that rely on the announcement.

    Initiators first ask (READ CAPACITY, INQUIRY, MODE SENSE) and then act on the
    answer.  These definitions name the announcement and the later commands. *)
From Coq Require Import Arith NArith List Bool Init.Byte.
From Verif Require Import Bytes World Common ModeSenseCmd TranslationCls EngineE2e MockModule Spec RwSpec InquirySpec SmallSpec ModeSpec EngineSpec MockSpec DiskSpec.
Import ListNotations.
Local Open Scope list_scope.
Local Open Scope N_scope.

(** ** Capacity *)

(** a device of [cap nsid] blocks per namespace, that answers Identify with the
    4096 bytes [data cns nsid] and whose Identify Namespace data (CNS 0) state
    the size it has *)
Definition unit_device (cap : N -> N) (data : N -> N -> list byte) (drv : driver) : Prop :=
  cap_ok cap /\ identifies drv data /\
  (forall k s m, sub_admin s = false -> drv k s m = nvme_disk cap k s m) /\
  (forall nsid, nsid < 2 ^ 32 -> ns_nsze (data 0 nsid) = cap nsid).

(** a READ CAPACITY(10) through the adapter, with room for the answer *)
Definition asks_capacity (w : world) (kz : N) (c : scsi_cmnd) : Prop :=
  (exists bs, bytes_at w (sc_cmnd c) bs /\ N.of_nat (length bs) = sc_cmd_len c /\ sc_cmd_len c < 65536 /\
     (10 <= length bs)%nat /\ byte_at bs 0 = 0x25 /\ bits (byte_at bs 9) 2 1 = 0) /\
  sc_from_device c = true /\ 8 <= sc_bufflen c < 65536 /\ sg_valid w (sc_sgl c) /\ sc_bufflen c <= sg_total (sc_sgl c) /\
  kz <> 0 /\ unused w kz (sc_bufflen c) /\ good_pages (with_buffer w kz (sc_bufflen c)).
(** the answer in the initiator's buffer: RETURNED LOGICAL BLOCK ADDRESS (the
    address of the last block) and the block length *)
Definition announced_capacity (w : world) (c : scsi_cmnd) (last block : N) : Prop :=
  last < 2 ^ 32 /\ block < 2 ^ 32 /\ sg_holds w (sc_sgl c) (be_encode 4 last ++ be_encode 4 block).

(** unit, first block and number of blocks of a READ or WRITE *)
Definition of_unit (x : disk_io) : N := match x with IoRead u _ _ | IoWrite u _ _ => u end.
Definition from_block (x : disk_io) : N := match x with IoRead _ lba _ | IoWrite _ lba _ => lba end.
Definition block_count (x : disk_io) : N := match x with IoRead _ _ n => n | IoWrite _ _ data => blocks_of data end.
(** the answer of a unit that has the blocks *)
Definition served (d : disk) (x : disk_io) : answer :=
  match x with IoRead u lba n => AnsData (disk_read d u lba n) | IoWrite _ _ _ => AnsDone end.

(** ** Block length *)

(** a READ or WRITE of the initiator that believes in blocks of [block] bytes *)
Definition sized_request (opcode : rw_form -> N) (info : rw_form -> list byte -> option N) (block : N)
  (w : world) (kz : N) (c : scsi_cmnd) (f : rw_form) (bs : list byte) : Prop :=
  bytes_at w (sc_cmnd c) bs /\ N.of_nat (length bs) = sc_cmd_len c /\ sc_cmd_len c < 65536 /\
  byte_at bs 0 = opcode f /\ (rw_len f <= length bs)%nat /\ 1 <= rw_blocks f bs <= 65535 /\ info f bs <> None /\
  sc_bufflen c = rw_blocks f bs * block /\ sc_bufflen c < 65536 /\
  kz <> 0 /\ unused w kz (sc_bufflen c).

(** ** Block Limits and Logical Block Provisioning *)

(** INQUIRY for vital product data page [page] with ALLOCATION LENGTH enough for
    all of it, into a buffer with room, yields an answer with [post] *)
Definition announces_in_page (page : N) (ns ct : list byte) (post : list byte -> Prop) : Prop :=
  forall lun bs buffer, inquiry_cdb bs -> inq_evpd bs = 1 -> inq_page bs = page -> 64 <= len buffer ->
    inquiry_round_trip lun bs ns ct buffer (fun _ w3 => exists img, bytes_at w3 (ptr buffer) img /\ length img = 64%nat /\ post img).
(** MAXIMUM TRANSFER LENGTH, in blocks (bytes 8-11; zero: no limit) *)
Definition max_transfer_is (n : N) (img : list byte) : Prop := be (slice 8 4 img) = n.
Definition within_limit (limit n : N) : Prop := limit = 0 \/ n <= limit.
(** MAXIMUM UNMAP LBA COUNT (20-23) and BLOCK DESCRIPTOR COUNT (24-27) *)
Definition unmap_limits_are (lbas descriptors : N) (img : list byte) : Prop :=
  be (slice 20 4 img) = lbas /\ be (slice 24 4 img) = descriptors.
(** LBPU: the UNMAP command is supported (bit 7 of byte 5) *)
Definition lbpu_is (b : bool) (img : list byte) : Prop := N.testbit (byte_at img 5) 7 = b.

(** ** Mode parameters *)

(** MODE SENSE(6): whenever it is accepted, the device succeeds (and the memory
    named in its Identify command, if there is one, holds [ns]), and at least one
    command was needed, GOOD is returned and the data have [post] *)
Definition mode_announces (lun : N) (bs ns : list byte) (post : list byte -> Prop) : Prop :=
  forall t w cdb b0 t1 r w1, idle t -> span_holds w cdb bs -> Begin t cdb b0 lun w = Ret (t1, r) w1 -> accepted t1 ->
  exists p, (ms_dbd bs = false -> exists rest, map wire_of (exposes t1) = admin_wire (identify_sqe 0 (nsid_of lun) p) :: rest) /\
  forall w2 cpls buffer sense, cpls <> [] -> length cpls = length (exposes t1) -> Forall cpl_ok cpls ->
    span_holds w2 cdb bs -> span_mapped w2 buffer -> 255 <= len buffer ->
    (ms_dbd bs = false -> bytes_at w2 p ns /\ SmallSpec.apart p buffer) ->
    exists t2 w3 img, Complete t1 cpls buffer sense w2 = Ret (t2, api_ok GOOD) w3 /\ bytes_at w3 (ptr buffer) img /\ post img.
Definition mode_request (bs : list byte) : Prop := mode6_cdb bs /\ known_page (ms_page bs) = true.

(** DPOFUA (bit 4 of byte 2): READ and WRITE commands honour FUA *)
Definition dpofua_is (b : bool) (img : list byte) : Prop := N.testbit (byte_at img 2) 4 = b.
(** the mode pages follow the 4-byte header and the block descriptors, whose
    length is byte 3; each page has its code in bits 5:0 of byte 0 and its
    length, less 2, in byte 1 *)
Fixpoint find_page (fuel : nat) (code : N) (l : list byte) : option (list byte) :=
  match fuel, l with
  | S k, c :: n :: _ =>
      if bits (b2n c) 0 6 =? code then Some (firstn (2 + N.to_nat (b2n n)) l) else find_page k code (skipn (2 + N.to_nat (b2n n)) l)
  | _, _ => None
  end.
Definition mode_page (code : N) (img : list byte) : option (list byte) :=
  find_page (length img) code (skipn (4 + N.to_nat (byte_at img 3)) img).
(** D_SENSE in the Control page (0Ah; bit 2 of byte 2): sense data are returned
    in descriptor format (response code 72h) *)
Definition d_sense_is (b : bool) (img : list byte) : Prop :=
  exists pg, mode_page 0x0a img = Some pg /\ N.testbit (byte_at pg 2) 2 = b.
(** block descriptor, after the header: NUMBER OF LOGICAL BLOCKS (bytes 4-7) and
    LOGICAL BLOCK LENGTH (bytes 9-11) *)
Definition descriptor_is (blocks block : N) (img : list byte) : Prop :=
  byte_at img 3 = 8 /\ be (slice 4 4 img) = blocks /\ be (slice 9 3 img) = block.
(** READ CAPACITY(10) through the library *)
Definition capacity_announces (lun : N) (ns : list byte) (last block : N) : Prop :=
  forall bs buffer, (10 <= length bs)%nat -> byte_at bs 0 = 0x25 -> bits (byte_at bs 9) 2 1 = 0 -> 8 <= len buffer ->
    page_round_trip lun bs (identify_sqe 0 (nsid_of lun)) ns buffer
      (fun _ w3 => bytes_at w3 (ptr buffer) (be_encode 4 last ++ be_encode 4 block)).

(** ** Protection *)

(** PROTECT in the standard INQUIRY data (bit 0 of byte 5) *)
Definition inquiry_announces (ns ct : list byte) (post : list byte -> Prop) : Prop :=
  forall lun bs buffer, inquiry_cdb bs -> inq_evpd bs = 0 -> 36 <= len buffer ->
    inquiry_round_trip lun bs ns ct buffer (fun _ w3 => exists img, bytes_at w3 (ptr buffer) img /\ length img = 36%nat /\ post img).
Definition protect_is (b : bool) (img : list byte) : Prop := N.testbit (byte_at img 5) 0 = b.
