(** Specification: which data survive a power failure.

    The first part is what an initiator expects of a disk with a volatile cache.
    The second part is the device: that of MixedSpec with, for every block, the
    contents kept in non-volatile storage besides the current ones. *)
From Coq Require Import Arith NArith List Bool Init.Byte.
From Verif Require Import Bytes World Common ModeSenseCmd TranslationCls EngineE2e MockModule Spec RwSpec EngineSpec MockSpec DiskSpec MixedSpec.
Import ListNotations.
Local Open Scope list_scope.
Local Open Scope N_scope.

(** ** What the initiator expects *)

(** what it sees: answered reads and writes (with Force Unit Access or not),
    SYNCHRONIZE CACHE answered GOOD, power failures, a power failure while a
    command was being carried out *)
Inductive happening :=
| Served (x : disk_io) (fua : bool) (a : answer)
| Synced (lun : N)
| PowerFailed
| CutShort (x : disk_io).

(** the contents a block may have after a power failure, as disks that hold it *)
Definition candidates := N -> N -> list disk.
Definition same_block (d d' : disk) (lun b : N) : Prop := forall o, o < 4096 -> d lun b o = d' lun b o.
Definition may_survive (k : candidates) (d : disk) : Prop :=
  forall lun b, lun < 2 ^ 32 - 1 -> b < 2 ^ 64 -> exists s, In s (k lun b) /\ same_block d s lun b.
Definition only (d : disk) : candidates := fun _ _ => [d].

(** the blocks [x] writes *)
Definition written (x : disk_io) (lun b : N) : bool :=
  match x with IoRead _ _ _ => false | IoWrite u lba data => (u =? lun) && (lba <=? b) && (b <? lba + blocks_of data) end.
(** an acknowledged write: with FUA its data survive, otherwise they may *)
Definition after_write (k : candidates) (x : disk_io) (fua : bool) (d' : disk) : candidates :=
  fun lun b => if written x lun b then if fua then [d'] else d' :: k lun b else k lun b.

(** [expected cap d l d' k]: if it held [d], all of it non-volatile, a disk that
    showed [l] now holds [d'], and [k] are the candidates *)
Inductive expected (cap : N -> N) (d : disk) : list happening -> disk -> candidates -> Prop :=
| ex_start : expected cap d [] d (only d)
| ex_served l d1 k x fua d2 a : expected cap d l d1 k -> disk_step cap d1 x = (d2, a) ->
    expected cap d (l ++ [Served x fua a]) d2 (if match a with AnsOutOfRange => true | _ => false end then k else after_write k x fua d2)
| ex_synced l d1 k lun : expected cap d l d1 k ->
    expected cap d (l ++ [Synced lun]) d1 (fun u b => if u =? lun then [d1] else k u b)
| ex_failed l d1 k d2 : expected cap d l d1 k -> may_survive k d2 -> expected cap d (l ++ [PowerFailed]) d2 (only d2)
| ex_cut l d1 k x d2 : expected cap d l d1 k -> may_survive (after_write k x false (fst (disk_step cap d1 x))) d2 ->
    expected cap d (l ++ [CutShort x]) d2 (only d2).

(** ** The device *)

(** non-volatile contents, by the addresses of [medium] *)
Definition storage := N -> option byte.
Definition holds_same (s s' : storage) (nsid b : N) : Prop := forall o, o < 4096 -> s (medium nsid b o) = s' (medium nsid b o).
Definition block_of (nsid b : N) : Prop := nsid < 2 ^ 32 /\ b < 2 ^ 64.

(** the device may save any block at any time *)
Definition saved_some (m st st' : storage) : Prop :=
  forall nsid b, block_of nsid b -> holds_same st' st nsid b \/ holds_same st' m nsid b.

(** the blocks a successful command makes non-volatile: Flush (00h) all of its
    namespace, Write (01h) with bit 30 of dword 12 those it writes *)
Definition makes_safe (cap : N -> N) (s : submission) (nsid b : N) : Prop :=
  let c := le_encode 64 (sub_cmd s) in
  let opc := le (slice 0 1 c) in
  let slba := le (slice 40 8 c) in
  let n := le (slice 48 2 c) + 1 in
  sub_admin s = false /\ nsid = le (slice 4 4 c) /\
  (opc = 0x00 \/ opc = 0x01 /\ N.testbit (le (slice 48 4 c)) 30 = true /\ slba + n <= cap nsid /\ slba <= b < slba + n).

(** storage [st] after the commands [subs], which are completed with [cpl] and
    leave [m] on the device *)
Definition settles (cap : N -> N) (cpl : nat -> submission -> N) (subs : list submission) (m st st' : storage) : Prop :=
  saved_some m st st' /\
  forall i s nsid b, nth_error subs i = Some s -> block_of nsid b -> makes_safe cap s nsid b ->
    (le (slice 0 1 (le_encode 64 (sub_cmd s))) = 0 -> cpl_ok (cpl i s mod 2 ^ 128)) -> holds_same st' m nsid b.

(** after a power failure the device holds what it had in storage *)
Definition restarts (st : storage) (w : world) : Prop := forall nsid b, block_of nsid b -> holds_same (mem w) st nsid b.

(** a device that stops in the middle of a write, when it has written the blocks
    [done] (counted from the first), and then answers anything or nothing *)
Definition interrupted (cap : N -> N) (done : N -> bool) (cpl : nat -> submission -> N) : driver := fun k s m =>
  let m' := fst (nvme_disk cap k s m) in
  let slba := le (slice 40 8 (le_encode 64 (sub_cmd s))) in
  let nsid := le (slice 4 4 (le_encode 64 (sub_cmd s))) in
  (fun x => if done ((x - medium nsid slba 0) / 4096) then m' x else m x, cpl k s).

(** ** Histories through the adapter *)

(** Force Unit Access: byte 1 bit 3, not in the 6-byte commands *)
Definition fua_bit (bs : list byte) : bool :=
  negb ((byte_at bs 0 =? 0x08) || (byte_at bs 0 =? 0x0a)) && N.testbit (byte_at bs 1) 3.
Definition cdb_of (w : world) (c : scsi_cmnd) (bs : list byte) : Prop :=
  bytes_at w (sc_cmnd c) bs /\ N.of_nat (length bs) = sc_cmd_len c /\ sc_cmd_len c < 65536.
Definition scsi_sync (w : world) (c : scsi_cmnd) : Prop :=
  (exists bs, cdb_of w c bs /\ byte_at bs 0 = 0x35) /\ sc_sense c + 96 <= 2 ^ 64 /\ sc_bufflen c = 0 /\ sc_lun c < 2 ^ 32 - 1.

Inductive lived (cap : N -> N) (w0 : world) (st0 : storage) : list happening -> world -> storage -> Prop :=
| lv_start : lived cap w0 st0 [] w0 st0
(* time passes *)
| lv_env l w st w' st' : lived cap w0 st0 l w st -> same_medium w w' -> saved_some (mem w) st st' -> lived cap w0 st0 l w' st'
(* a read or a write *)
| lv_io l w st ident cpl wrs kz wild c bs x a r w' st' : lived cap w0 st0 l w st ->
    scsi_presents w kz c x -> cdb_of w c bs ->
    scsi_queuecommand (nvme_device cap ident cpl) wrs kz wild c w = Ret r w' -> scsi_observes w' c r x a ->
    settles cap cpl (mr_subs r) (mem w') st st' ->
    lived cap w0 st0 (l ++ [Served x (fua_bit bs) a]) w' st'
(* any other command; the answer is not looked at *)
| lv_other l w st ident cpl wrs kz wild c r w' st' : lived cap w0 st0 l w st -> scsi_other w kz c ->
    scsi_queuecommand (nvme_device cap ident cpl) wrs kz wild c w = Ret r w' ->
    settles cap cpl (mr_subs r) (mem w') st st' ->
    lived cap w0 st0 l w' st'
(* SYNCHRONIZE CACHE, answered GOOD *)
| lv_sync l w st ident cpl wrs kz wild c r w' st' : lived cap w0 st0 l w st -> scsi_sync w c ->
    scsi_queuecommand (nvme_device cap ident cpl) wrs kz wild c w = Ret r w' -> mr_result r = GOOD ->
    settles cap cpl (mr_subs r) (mem w') st st' ->
    lived cap w0 st0 (l ++ [Synced (sc_lun c)]) w' st'
(* a power failure between commands *)
| lv_failed l w st w' : lived cap w0 st0 l w st -> restarts st w' -> lived cap w0 st0 (l ++ [PowerFailed]) w' st
(* a power failure during a command: its answer is lost *)
| lv_cut l w st done cpl wrs kz wild c x r w1 st1 w' : lived cap w0 st0 l w st -> scsi_presents w kz c x ->
    scsi_queuecommand (interrupted cap done cpl) wrs kz wild c w = Ret r w1 ->
    saved_some (mem w1) st st1 -> restarts st1 w' ->
    lived cap w0 st0 (l ++ [CutShort x]) w' st1.

(** everything in storage *)
Definition all_saved (w : world) (st : storage) : Prop := forall nsid b, block_of nsid b -> holds_same st (mem w) nsid b.

(** [h] is or may be a write to the block *)
Definition touches_block (lun b : N) (h : happening) : Prop :=
  match h with Served x _ AnsDone | CutShort x => written x lun b = true | _ => False end.
Definition no_failure (h : happening) : Prop := match h with PowerFailed | CutShort _ => False | _ => True end.
