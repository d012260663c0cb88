(** Model of the request path of third_party/e2e/scsi_mock_module.c and of the
    page callbacks of third_party/e2e/util.c.

    Not modelled: bus/driver/device registration, printk, scsi_abort.  The
    kernel services used are modelled by their documented effect: kzalloc maps
    fresh zeroed bytes at an address chosen by the environment ([kz]; 0 is
    NULL), kfree logs the release (the bytes stay mapped), and the scatterlist
    helpers copy between a linear buffer and the segments in order.  The page
    log of World.v records the data buffer as a run of [n] one-byte units. *)
From Coq Require Import NArith String List Lia Bool Init.Byte.
From Verif Require Import Bytes Layout World ScsiDefs NvmeDefs Common ModeSenseCmd TranslationCls EngineE2e.
Import ListNotations.
Local Open Scope string_scope.
Local Open Scope list_scope.
Local Open Scope N_scope.

(** scsi_mock_module.c 44-50: the members of struct scsi_cmnd that are used *)
Record scsi_cmnd := {
  sc_lun : N;                  (* device->lun *)
  sc_cmnd : N;                 (* cmnd *)
  sc_cmd_len : N;              (* cmd_len *)
  sc_sense : N;                (* sense_buffer *)
  sc_from_device : bool;       (* sc_data_direction == DMA_FROM_DEVICE *)
  sc_bufflen : N;              (* scsi_bufflen(cmd) *)
  sc_sgl : list (N * N)        (* scatterlist: address, length of each segment *)
}.

(** scsi/scsi_cmnd.h *)
Definition SCSI_SENSE_BUFFERSIZE : N := 96.

Definition kzalloc (kz n : N) : M N :=
  fun w =>
    let w1 := log w (EvAlloc 1 n kz) in
    Ret kz (if kz =? 0 then w1 else set_mem w1 (map_pages (mem w) kz n (fun _ => x00))).
Definition kfree (a n : N) : M unit := fun w => Ret tt (log w (EvDealloc a n)).

(** sg_copy_to_buffer: the first [n] bytes of the scatterlist (fewer if it is
    shorter) *)
Fixpoint sg_gather (sgl : list (N * N)) (n : nat) : M (list byte) :=
  match sgl with
  | [] => ret []
  | (a, l) :: sgl' =>
      let k := Nat.min n (N.to_nat l) in
      x <- load a k ;;
      y <- sg_gather sgl' (n - k) ;;
      ret (x ++ y)
  end.
Definition sg_copy_to_buffer (sgl : list (N * N)) (buf : N) (n : N) : M N :=
  x <- sg_gather sgl (N.to_nat n) ;;
  _ <- store buf x ;;
  ret (N.of_nat (length x)).

(** sg_copy_from_buffer: the bytes into the scatterlist; the number copied *)
Fixpoint sg_scatter (sgl : list (N * N)) (bs : list byte) : M N :=
  match sgl with
  | [] => ret 0
  | (a, l) :: sgl' =>
      let k := N.to_nat l in
      _ <- store a (firstn k bs) ;;
      m <- sg_scatter sgl' (skipn k bs) ;;
      ret (N.of_nat (length (firstn k bs)) + m)
  end.
Definition sg_total (sgl : list (N * N)) : N := fold_right (fun s n => snd s + n) 0 sgl.
Definition sg_copy_from_buffer (sgl : list (N * N)) (buf : N) (n : N) : M N :=
  x <- load buf (N.to_nat (N.min n (sg_total sgl))) ;;
  sg_scatter sgl x.

(** what the mid-layer sees: cmd->result, the residual count if it was set, and
    (for stating properties) the submissions made *)
Record mock_result := { mr_result : N; mr_resid : option N; mr_subs : list submission }.

(** scsi_mock_module.c 37-76 respond and scsi_queuecommand.  [wild] is the
    uninitialised data_buf used when data_len is 0; [wrs] the uninitialised
    member of the engine's Translation object. *)
Definition scsi_queuecommand (drv : driver) (wrs : arr3 NvmeCmdWrapper) (kz wild : N) (c : scsi_cmnd) : M mock_result :=
  let cmd_len := u16 (sc_cmd_len c) in
  let data_len := mock_data_len (sc_bufflen c) in
  let is_data_in := sc_from_device c in
  data_buf <- (if 0 <? data_len then kzalloc kz data_len else ret wild) ;;
  if (0 <? data_len) && (data_buf =? 0) then
    ret {| mr_result := 23; mr_resid := None; mr_subs := [] |}
  else
    _ <- (if (0 <? data_len) && negb is_data_in then sg_copy_to_buffer (sc_sgl c) data_buf data_len else ret 0) ;;
    ' (resp, _, subs) <- ScsiToNvme drv wrs (sc_cmnd c) cmd_len (sc_lun c) (sc_sense c) SCSI_SENSE_BUFFERSIZE
                           data_buf data_len is_data_in ;;
    resid <- (if is_data_in && (0 <? data_len) then
                sdb_len <- sg_copy_from_buffer (sc_sgl c) data_buf (er_alloc_len resp) ;;
                ret (Some (data_len - sdb_len))
              else ret None) ;;
    _ <- (if 0 <? data_len then kfree data_buf data_len else ret tt) ;;
    ret {| mr_result := er_return_code resp; mr_resid := resid; mr_subs := subs |}.

(** util.c 16-27: the page callbacks installed by SetEngineCallbacks; [heap k
    n] is the address kzalloc gives to request number [k] for [n] bytes (0 if
    none).  The result is the configuration of World.v they amount to: count 0
    answers 0, pages are zeroed, both callbacks are set. *)
Definition module_world (heap : nat -> N -> N) (w : world) : world :=
  {| mem := mem w; alloc_cb := true; dealloc_cb := true;
     ans := fun k page_size count => if count =? 0 then 0 else heap k (u32 (page_size * count));
     fill := fun _ _ => x00; junk := junk w; tick := tick w; trace := trace w |}.
