(** The functions of TranslationCls.v that hand pages back, once more, with the
    release callback as a parameter.  [FlushMemory_model] etc. in Properties19.v
    show by conversion that with [DeallocPages] they are the model's functions;
    with [UnmapPages] a page becomes inaccessible the moment it is released. *)
From Coq Require Import NArith String List Bool.
From Verif Require Import Bytes Layout World ScsiDefs NvmeDefs Common StatusCmd ModeSenseCmd TranslationCls.
Import ListNotations.
Local Open Scope string_scope.
Local Open Scope list_scope.
Local Open Scope N_scope.

(** common.cc 53-56 DeallocPages with a callback that takes the memory away:
    [count] pages of 4096 bytes at [addr] *)
Definition UnmapPages (addr count : N) : M unit :=
  fun w => if negb (dealloc_cb w) then Ret tt w
           else Ret tt (set_mem (log w (EvDealloc addr count))
                          (fun x => if (addr <=? x) && (x <? addr + 4096 * count) then None else mem w x)).

Section Release.
Variable release : N -> N -> M unit.

(** translation.cc 301-311 *)
Definition FlushOne_with (a : Allocation) : M Allocation :=
  a1 <- (if negb (data_addr a =? 0) then
           _ <- release (data_addr a) (data_page_count a) ;;
           ret {| data_addr := 0; data_page_count := data_page_count a;
                  mdata_addr := mdata_addr a; mdata_page_count := mdata_page_count a |}
         else ret a) ;;
  if negb (mdata_addr a1 =? 0) then
    _ <- release (mdata_addr a1) (mdata_page_count a1) ;;
    ret {| data_addr := data_addr a1; data_page_count := data_page_count a1;
           mdata_addr := 0; mdata_page_count := mdata_page_count a1 |}
  else ret a1.

(** translation.cc 300-312 FlushMemory *)
Fixpoint FlushLoop_with (fuel : nat) (i : N) (al : arr3 Allocation) : M (arr3 Allocation) :=
  match fuel with
  | O => ret al
  | S fuel' =>
      match aget al i with
      | None => ub "allocations index out of range"
      | Some a => a' <- FlushOne_with a ;; FlushLoop_with fuel' (i + 1) (aset al i a')
      end
  end.
Definition FlushMemory_with (t : Translation) : M Translation :=
  al <- FlushLoop_with (N.to_nat (nvme_cmd_count t)) 0 (allocations t) ;;
  ret (set_allocations t al).

(** translation.cc 294-298 AbortPipeline *)
Definition AbortPipeline_with (t : Translation) : M Translation :=
  let t := set_status t kUninitialized in
  t <- FlushMemory_with t ;;
  ret (set_count t 0).

(** translation.cc 165-168 *)
Definition Begin_finish_with (t : Translation) : M Translation :=
  if negb (is_success (pipeline_status t)) then
    t <- FlushMemory_with t ;;
    ret (set_count t 0)
  else ret t.

(** translation.cc 35-170 Begin *)
Definition Begin_with (t : Translation) (scsi_cmd buffer : span) (lun : N)
  : M (Translation * BeginResponse) :=
  if negb (is_uninitialized (pipeline_status t))
  then ret (t, {| br_status := ApiFailure; br_alloc_len := 0 |})
  else if len scsi_cmd =? 0
  then ret (set_status t kFailure, {| br_status := ApiSuccess; br_alloc_len := 0 |})
  else
    let t := set_status t kSuccess in
    let t := set_scsi_cmd t scsi_cmd in
    let nsid := u32 (u32 lun + 1) in
    let scsi_cmd_no_op := subspan scsi_cmd 1 in
    opc <- span_at scsi_cmd 0 ;;
    ' (t, alloc_len) <- Begin_switch opc scsi_cmd_no_op buffer nsid t 0 ;;
    t <- Begin_finish_with t ;;
    ret (t, {| br_status := ApiSuccess; br_alloc_len := alloc_len |}).

(** translation.cc 172-288 Complete *)
Definition Complete_with (t : Translation) (cpls : list N) (buffer_in sense_buffer : span)
  : M (Translation * CompleteResponse) :=
  if is_uninitialized (pipeline_status t)
  then ret (t, {| cr_status := ApiFailure; cr_scsi_status := 0 |})
  else if negb (N.of_nat (length cpls) =? nvme_cmd_count t) then
    t <- AbortPipeline_with t ;;
    ret (t, {| cr_status := ApiFailure; cr_scsi_status := 0 |})
  else if negb (is_success (pipeline_status t)) then
    let scsi_status := {| st_status := kCheckCondition; st_sense_key := kIllegalRequest;
                          st_asc := 0x24; st_ascq := 0 |} in
    _ <- FillSenseBuffer sense_buffer scsi_status ;;
    t <- AbortPipeline_with t ;;
    ret (t, {| cr_status := ApiSuccess; cr_scsi_status := st_status scsi_status |})
  else
    match first_error cpls with
    | Some scsi_status =>
        _ <- FillSenseBuffer sense_buffer scsi_status ;;
        t <- AbortPipeline_with t ;;
        ret (t, {| cr_status := ApiSuccess; cr_scsi_status := st_status scsi_status |})
    | None =>
        let scsi_cmd_no_op := subspan (scsi_cmd_ t) 1 in
        opc <- span_at (scsi_cmd_ t) 0 ;;
        st <- Complete_switch opc scsi_cmd_no_op buffer_in cpls t ;;
        let t := set_status t st in
        t <- AbortPipeline_with t ;;
        ret (t, {| cr_status := ApiSuccess; cr_scsi_status := 0 |})
    end.
End Release.
