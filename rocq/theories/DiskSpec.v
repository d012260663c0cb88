(** Specification: a SCSI disk, and an NVMe disk.

    The first part says what an initiator expects of logical units it can read
    and write.  The second part is an NVMe device that keeps the data; it is
    written from the NVMe specification and looks only at the 64 bytes of a
    command.  Its medium lives in the same byte map as main memory, at
    addresses from 2^64 on, which no pointer of the host can name. *)
From Coq Require Import Arith NArith List Lia Bool Init.Byte.
From Verif Require Import Bytes World Common ModeSenseCmd TranslationCls EngineE2e MockModule Spec RwSpec EngineSpec MockSpec.
Import ListNotations.
Local Open Scope list_scope.
Local Open Scope N_scope.

(** ** What the initiator expects *)

(** the bytes of every logical unit: unit, block address, offset in the block *)
Definition disk := N -> N -> N -> byte.

(** [n] blocks of 4096 bytes from block [lba] on *)
Definition disk_read (d : disk) (lun lba n : N) : list byte :=
  map (fun i => let i := N.of_nat i in d lun (lba + i / 4096) (i mod 4096)) (seq 0 (N.to_nat (n * 4096))).
Definition blocks_of (data : list byte) : N := N.of_nat (length data) / 4096.
Definition disk_write (d : disk) (lun lba : N) (data : list byte) : disk :=
  fun u b o =>
    if (u =? lun) && (lba <=? b) && (b <? lba + blocks_of data)
    then nth (N.to_nat ((b - lba) * 4096 + o)) data x00 else d u b o.

Inductive disk_io := IoRead (lun lba n : N) | IoWrite (lun lba : N) (data : list byte).
Inductive answer := AnsData (bs : list byte) | AnsDone | AnsOutOfRange.

(** one command to logical units of [cap lun] blocks each *)
Definition disk_step (cap : N -> N) (d : disk) (x : disk_io) : disk * answer :=
  match x with
  | IoRead lun lba n =>
      if lba + n <=? cap lun then (d, AnsData (disk_read d lun lba n)) else (d, AnsOutOfRange)
  | IoWrite lun lba data =>
      if lba + blocks_of data <=? cap lun then (disk_write d lun lba data, AnsDone) else (d, AnsOutOfRange)
  end.

(** a sequence of commands with the answers that were observed: the disk
    afterwards if every answer is the right one *)
Inductive explains (cap : N -> N) (d : disk) : list (disk_io * answer) -> disk -> Prop :=
| explains_nil : explains cap d [] d
| explains_snoc l d1 x : explains cap d l d1 ->
    explains cap d (l ++ [(x, snd (disk_step cap d1 x))]) (fst (disk_step cap d1 x)).

(** ** The device *)

(** where block [b] of namespace [nsid] is kept *)
Definition medium (nsid b o : N) : N := 2 ^ 64 + (nsid * 2 ^ 64 + b) * 4096 + o.

Definition copy (m : N -> option byte) (from to n : N) : N -> option byte :=
  fun x => if (to <=? x) && (x <? to + n) then m (from + (x - to)) else m x.

(** completion entry with status code type 0, status code 80h (LBA Out of Range) *)
Definition lba_out_of_range : N := 0x80 * 2 ^ (96 + 17).

(** I/O commands: opcode in byte 0 (01h Write, 02h Read), namespace in bytes
    4-7, host address in bytes 24-31, first block in bytes 40-47, number of
    blocks less one in bytes 48-49.  [cap nsid] is the namespace's size. *)
Definition nvme_disk (cap : N -> N) : driver := fun _ s m =>
  let c := le_encode 64 (sub_cmd s) in
  let opc := le (slice 0 1 c) in
  let nsid := le (slice 4 4 c) in
  let host := le (slice 24 8 c) in
  let slba := le (slice 40 8 c) in
  let nlb := le (slice 48 2 c) + 1 in
  if sub_admin s then (m, 0)
  else if (opc =? 0x01) || (opc =? 0x02) then
    if cap nsid <? slba + nlb then (m, lba_out_of_range)
    else if opc =? 0x02 then (copy m (medium nsid slba 0) host (nlb * 4096), 0)
    else (copy m host (medium nsid slba 0) (nlb * 4096), 0)
  else (m, 0).

(** the device keeps logical unit [lun] in namespace [lun + 1]; sizes are 64-bit *)
Definition stores (w : world) (d : disk) : Prop :=
  forall lun b o, lun < 2 ^ 32 - 1 -> b < 2 ^ 64 -> o < 4096 -> mem w (medium (lun + 1) b o) = Some (d lun b o).
Definition same_medium (w w' : world) : Prop := forall x, 2 ^ 64 <= x -> mem w' x = mem w x.
Definition cap_ok (cap : N -> N) : Prop := forall nsid, cap nsid <= 2 ^ 64.

(** ** Presenting a command *)

(** the CDB [bs] asks for [x] (any of the four forms, any allowed protection
    field); between 1 and [most] blocks *)
Definition asks (bs : list byte) (lun most : N) (x : disk_io) : Prop :=
  exists f, (rw_len f <= length bs)%nat /\ 1 <= rw_blocks f bs <= most /\ lun < 2 ^ 32 - 1 /\
    match x with
    | IoRead u lba n => u = lun /\ byte_at bs 0 = read_opcode f /\ read_prinfo f bs <> None /\ lba = rw_lba f bs /\ n = rw_blocks f bs
    | IoWrite u lba data => u = lun /\ byte_at bs 0 = write_opcode f /\ write_prinfo f bs <> None /\ lba = rw_lba f bs /\
        N.of_nat (length data) = rw_blocks f bs * 4096
    end.

(** a region of main memory that is accessible *)
Definition region (w : world) (s : span) : Prop := span_mapped w s /\ ptr s + len s <= 2 ^ 64.
Definition apart (s1 s2 : span) : Prop := forall x, in_span s1 x -> ~ in_span s2 x.

(** main memory is the same outside the spans [l] *)
Definition untouched (w w' : world) (l : list span) : Prop :=
  forall y, y < 2 ^ 64 -> (forall s, In s l -> ~ in_span s y) -> mem w' y = mem w y.

(** *** through the library: Begin, the device executes what is exposed, Complete *)
Definition submit_exposed (x : NvmeCmdWrapper) : submission :=
  {| sub_admin := is_admin x; sub_cmd := cmd x; sub_buffer := le (slice 24 8 (le_encode 64 (cmd x)));
     sub_bufflen := buffer_len x |}.
Definition api_io (drv : driver) (t : Translation) (q : request) : M (Translation * N) :=
  ' (t1, _) <- Begin t (rq_cdb q) (rq_data q) (rq_lun q) ;;
  cpls <- (fun w => let (m, cs) := device_run drv 0 (map submit_exposed (GetNvmeWrappers t1)) (mem w) in Ret cs (set_mem w m)) ;;
  ' (t2, r) <- Complete t1 cpls (rq_data q) (rq_sense q) ;;
  ret (t2, cr_scsi_status r).

(** READ: the data buffer has room; WRITE: it holds the data *)
Definition api_presents (w : world) (q : request) (x : disk_io) : Prop :=
  region w (rq_cdb q) /\ region w (rq_data q) /\ region w (rq_sense q) /\ 8 <= len (rq_sense q) /\
  apart (rq_cdb q) (rq_data q) /\
  (exists bs, span_holds w (rq_cdb q) bs /\ asks bs (rq_lun q) 65535 x) /\
  match x with
  | IoRead _ _ n => n * 4096 <= len (rq_data q)
  | IoWrite _ _ data => span_holds w (rq_data q) data
  end.

Definition out_of_range_sense (w : world) (a : N) : Prop :=
  exists bs, sense_says 5 0x21 0 bs /\ bytes_at w a bs.     (* ILLEGAL REQUEST, LBA OUT OF RANGE *)
(** what the initiator sees of the answer to [x]: the status and the buffers *)
Definition api_observes (w : world) (q : request) (status : N) (x : disk_io) (a : answer) : Prop :=
  match x, a with
  | IoRead _ _ n, AnsData bs => status = GOOD /\ N.of_nat (length bs) = n * 4096 /\ bytes_at w (ptr (rq_data q)) bs
  | IoWrite _ _ _, AnsDone => status = GOOD
  | _, AnsOutOfRange => status = CHECK_CONDITION /\ out_of_range_sense w (ptr (rq_sense q))
  | _, _ => False
  end.

(** histories: one object serves command after command; in between the
    environment may do anything, except to the medium *)
Inductive api_history (cap : N -> N) (t0 : Translation) (w0 : world) : list (disk_io * answer) -> Translation -> world -> Prop :=
| ah_nil : api_history cap t0 w0 [] t0 w0
| ah_env l t w w' : api_history cap t0 w0 l t w -> same_medium w w' -> api_history cap t0 w0 l t w'
| ah_io l t w q x a status t' w' : api_history cap t0 w0 l t w -> api_presents w q x ->
    api_io (nvme_disk cap) t q w = Ret (t', status) w' -> api_observes w' q status x a ->
    api_history cap t0 w0 (l ++ [(x, a)]) t' w'.

(** *** through the adapter: what the initiator puts into a scsi_cmnd *)
Definition scsi_presents (w : world) (kz : N) (c : scsi_cmnd) (x : disk_io) : Prop :=
  let n := sc_bufflen c in
  (exists bs, bytes_at w (sc_cmnd c) bs /\ N.of_nat (length bs) = sc_cmd_len c /\ sc_cmd_len c < 65536 /\
     sc_cmnd c + sc_cmd_len c <= 2 ^ 64 /\ asks bs (sc_lun c) 15 x) /\
  region w {| ptr := sc_sense c; len := 96 |} /\
  (forall a, In a (sg_addrs (sc_sgl c)) -> a < 2 ^ 64 /\ ~ in_span {| ptr := sc_sense c; len := 96 |} a) /\
  kz <> 0 /\ unused w kz n /\ kz + n <= 2 ^ 64 /\
  match x with
  | IoRead _ _ k => sc_from_device c = true /\ n = k * 4096 /\ sg_valid w (sc_sgl c) /\ n <= sg_total (sc_sgl c)
  | IoWrite _ _ data => sc_from_device c = false /\ n = N.of_nat (length data) /\ sg_holds w (sc_sgl c) data
  end.
Definition scsi_observes (w : world) (c : scsi_cmnd) (r : mock_result) (x : disk_io) (a : answer) : Prop :=
  match x, a with
  | IoRead _ _ n, AnsData bs =>
      mr_result r = GOOD /\ mr_resid r = Some 0 /\ N.of_nat (length bs) = n * 4096 /\ sg_holds w (sc_sgl c) bs
  | IoWrite _ _ _, AnsDone => mr_result r = GOOD
  | _, AnsOutOfRange => mr_result r = CHECK_CONDITION /\ out_of_range_sense w (sc_sense c)
  | _, _ => False
  end.
Inductive scsi_history (cap : N -> N) (w0 : world) : list (disk_io * answer) -> world -> Prop :=
| sh_nil : scsi_history cap w0 [] w0
| sh_env l w w' : scsi_history cap w0 l w -> same_medium w w' -> scsi_history cap w0 l w'
| sh_io l w wrs kz wild c x a r w' : scsi_history cap w0 l w -> scsi_presents w kz c x ->
    scsi_queuecommand (nvme_disk cap) wrs kz wild c w = Ret r w' -> scsi_observes w' c r x a ->
    scsi_history cap w0 (l ++ [(x, a)]) w'.

(** an acknowledged write to block [b] of unit [lun] *)
Definition writes_block (lun b : N) (p : disk_io * answer) : Prop :=
  match p with
  | (IoWrite u lba data, AnsDone) => u = lun /\ lba <= b < lba + blocks_of data
  | _ => False
  end.
(** byte [o] of block [b] in what a read from [lba] returned, or a write to
    [lba] supplied *)
Definition block_byte (lba b o : N) (bs : list byte) : option byte := nth_error bs (N.to_nat ((b - lba) * 4096 + o)).
