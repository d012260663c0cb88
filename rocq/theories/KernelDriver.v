(** Model of third_party/e2e/nvme_driver.c: handing one NVMe command to the Linux
    block layer.

    The block layer's answers are an arbitrary environment, indexed by the
    number [k] of the submission.  printk, timeouts, request flags and the
    nvme_request members retries, flags are not modelled.  [bdev] is the block
    device opened by nvme_driver_init (not NULL). *)
From Coq Require Import NArith ZArith List Bool Init.Byte.
From Verif Require Import Bytes World EngineE2e.
Import ListNotations.
Local Open Scope list_scope.
Local Open Scope N_scope.

Definition memory := N -> option byte.

Record kernel := {
  kn_ns : bool;                    (* the global ns points to a namespace *)
  kn_disk : N;                     (* the global bd_disk (0: NULL) *)
  kn_admin_q : N;                  (* ns->ctrl->admin_q (0: NULL) *)
  kn_io_q : N;                     (* ns->queue (0: NULL) *)
  kn_alloc : nat -> N + Z;         (* blk_mq_alloc_request: a request, or PTR_ERR *)
  kn_map : nat -> Z;               (* blk_rq_map_kern *)
  kn_exec : nat -> submission -> memory -> memory * N; (* the device: memory after the command, status *)
  kn_ret : nat -> Z                (* the uninitialised local [ret] *)
}.

(** the calls made *)
Inductive kevent :=
| KAlloc (queue rq : N)            (* blk_mq_alloc_request *)
| KMap (rq buffer bufflen : N)     (* blk_rq_map_kern succeeded *)
| KExec (queue disk rq cmd : N)    (* blk_execute_rq, with the 64 command bytes *)
| KFree (rq : N)                   (* blk_mq_free_request *)
| KPut.                            (* bdput *)

Definition ENODEV : Z := 19.

(** nvme_driver.c 66-126 nvme_submit_user_cmd, with 40-46 submit_req_done and
    48-64 nvme_alloc_request.  The status of the request is read and printed
    only. *)
Definition nvme_submit_user_cmd (kn : kernel) (k : nat) (disk queue : N) (s : submission) (m : memory)
  : Z * list kevent * memory :=
  if queue =? 0 then (kn_ret kn k, [], m)                                       (* 74-79 *)
  else
    match kn_alloc kn k with
    | inr e => (e, [], m)                                                        (* 82-85 *)
    | inl rq =>
        let es := [KAlloc queue rq] in
        let run (r : Z) (es : list kevent) :=                                   (* 107-118, 123-125 *)
          (r, es ++ [KExec queue disk rq (sub_cmd s); KFree rq], fst (kn_exec kn k s m)) in
        if negb (sub_buffer s =? 0) && negb (sub_bufflen s =? 0) then            (* 90 *)
          if negb (Z.eqb (kn_map kn k) 0) then (kn_map kn k, es ++ [KFree rq], m)     (* 91-95 *)
          else
            let es := es ++ [KMap rq (sub_buffer s) (sub_bufflen s)] in
            if disk =? 0 then                                                    (* 98-103 *)
              (Z.opp ENODEV, es ++ (if negb (disk =? 0) then [KPut] else []) ++ [KFree rq], m) (* 119-125 *)
            else run 0%Z es
        else run (kn_ret kn k) es
    end.

(** nvme_driver.c 128-144 submit_admin_command, submit_io_command; [None]: the
    global ns is dereferenced while it does not point to a namespace *)
Definition submit_command (kn : kernel) (k : nat) (s : submission) (m : memory) : option (Z * list kevent * memory) :=
  if kn_ns kn then
    Some (nvme_submit_user_cmd kn k (kn_disk kn) (if sub_admin s then kn_admin_q kn else kn_io_q kn) s m)
  else None.

(** engine.cc 58-69: the return code is dropped; the completion handed to the
    submit functions is not written by them, so it keeps its initial zeros *)
Definition kernel_driver (kn : kernel) : driver := fun k s m =>
  match submit_command kn k s m with
  | Some (_, _, m') => (m', 0)
  | None => (m, 0)
  end.

(** nvme_driver.c 146-178 nvme_driver_init: [opened] is what
    blkdev_get_by_path gave (0: an error pointer), [disk] its bd_disk, [priv] the
    disk's private_data (0: NULL or an error pointer).  The result and the
    globals bd_disk and ns it leaves. *)
Definition nvme_driver_init (opened disk priv : N) : Z * N * N :=
  if opened =? 0 then ((-1)%Z, 0, 0)
  else if disk =? 0 then ((-1)%Z, disk, 0)
  else if priv =? 0 then ((-1)%Z, disk, priv)
  else (0%Z, disk, priv).
