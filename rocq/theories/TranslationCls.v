(** Model of lib/translator/translation.h and translation.cc. *)
From Coq Require Import NArith String List Lia Bool Init.Byte.
From Verif Require Import Bytes Layout World ScsiDefs NvmeDefs Common ReadCmds WriteCmds SmallCmds
  UnmapCmd StatusCmd ModeSenseCmd InquiryCmd.
Import ListNotations.
Local Open Scope string_scope.
Local Open Scope list_scope.
Local Open Scope N_scope.

(** translation.cc 30-31 *)
Definition kPageSize : N := 4096.
Definition kLbaSize : N := 4096.

(** translation.h 24 enum ApiStatus *)
Inductive ApiStatus := ApiSuccess | ApiFailure.

(** translation.h 26-29 struct BeginResponse *)
Record BeginResponse := { br_status : ApiStatus; br_alloc_len : N }.
(** translation.h 31-34 struct CompleteResponse *)
Record CompleteResponse := { cr_status : ApiStatus; cr_scsi_status : N }.

(** translation.h 36-70 class Translation, the data members *)
Record Translation := {
  pipeline_status : StatusCode;
  scsi_cmd_ : span;
  nvme_cmd_count : N;
  nvme_wrappers : arr3 NvmeCmdWrapper;
  allocations : arr3 Allocation
}.

(** translation.h 38-41, the constructor.  nvme_wrappers_ is not initialised:
    an arbitrary value [w0]. *)
Definition Translation_init (w0 : arr3 NvmeCmdWrapper) : Translation :=
  {| pipeline_status := kUninitialized; scsi_cmd_ := null_span; nvme_cmd_count := 0;
     nvme_wrappers := w0; allocations := Build_arr3 zero_alloc zero_alloc zero_alloc |}.

Definition set_status (t : Translation) (s : StatusCode) : Translation :=
  {| pipeline_status := s; scsi_cmd_ := scsi_cmd_ t; nvme_cmd_count := nvme_cmd_count t;
     nvme_wrappers := nvme_wrappers t; allocations := allocations t |}.
Definition set_scsi_cmd (t : Translation) (c : span) : Translation :=
  {| pipeline_status := pipeline_status t; scsi_cmd_ := c; nvme_cmd_count := nvme_cmd_count t;
     nvme_wrappers := nvme_wrappers t; allocations := allocations t |}.
Definition set_count (t : Translation) (n : N) : Translation :=
  {| pipeline_status := pipeline_status t; scsi_cmd_ := scsi_cmd_ t; nvme_cmd_count := n;
     nvme_wrappers := nvme_wrappers t; allocations := allocations t |}.
Definition set_wrappers (t : Translation) (w : arr3 NvmeCmdWrapper) : Translation :=
  {| pipeline_status := pipeline_status t; scsi_cmd_ := scsi_cmd_ t;
     nvme_cmd_count := nvme_cmd_count t; nvme_wrappers := w; allocations := allocations t |}.
Definition set_allocations (t : Translation) (a : arr3 Allocation) : Translation :=
  {| pipeline_status := pipeline_status t; scsi_cmd_ := scsi_cmd_ t;
     nvme_cmd_count := nvme_cmd_count t; nvme_wrappers := nvme_wrappers t; allocations := a |}.

(** nvme_wrappers_[0] = w;  allocations_[0] = a *)
Definition set_wr0 (t : Translation) (w : NvmeCmdWrapper) : Translation :=
  set_wrappers t (aset (nvme_wrappers t) 0 w).
Definition set_al0 (t : Translation) (a : Allocation) : Translation :=
  set_allocations t (aset (allocations t) 0 a).

(** translation.cc 301-311, the body of FlushMemory's loop *)
Definition FlushOne (a : Allocation) : M Allocation :=
  a1 <- (if negb (data_addr a =? 0) then
           _ <- DeallocPages (data_addr a) (data_page_count a) ;;
           ret {| data_addr := 0; data_page_count := data_page_count a;
                  mdata_addr := mdata_addr a; mdata_page_count := mdata_page_count a |}
         else ret a) ;;
  if negb (mdata_addr a1 =? 0) then
    _ <- DeallocPages (mdata_addr a1) (mdata_page_count a1) ;;
    ret {| data_addr := data_addr a1; data_page_count := data_page_count a1;
           mdata_addr := 0; mdata_page_count := mdata_page_count a1 |}
  else ret a1.

(** translation.cc 300-312 FlushMemory; [fuel] = nvme_cmd_count_ - i *)
Fixpoint FlushLoop (fuel : nat) (i : N) (al : arr3 Allocation) : M (arr3 Allocation) :=
  match fuel with
  | O => ret al
  | S fuel' =>
      match aget al i with
      | None => ub "allocations index out of range"
      | Some a => a' <- FlushOne a ;; FlushLoop fuel' (i + 1) (aset al i a')
      end
  end.
Definition FlushMemory (t : Translation) : M Translation :=
  al <- FlushLoop (N.to_nat (nvme_cmd_count t)) 0 (allocations t) ;;
  ret (set_allocations t al).

(** translation.cc 294-298 AbortPipeline *)
Definition AbortPipeline (t : Translation) : M Translation :=
  let t := set_status t kUninitialized in
  t <- FlushMemory t ;;
  ret (set_count t 0).

(** translation.cc 290-292 GetNvmeWrappers *)
Definition GetNvmeWrappers (t : Translation) : list NvmeCmdWrapper :=
  firstn (N.to_nat (nvme_cmd_count t))
    [e0 (nvme_wrappers t); e1 (nvme_wrappers t); e2 (nvme_wrappers t)].

(** The switch of Begin, one definition per case label; each takes and returns
    the object and response.alloc_len. *)

(** translation.cc 61-66 *)
Definition Begin_Inquiry (c : span) (nsid : N) (t : Translation) (rl : N) : M (Translation * N) :=
  let w := nvme_wrappers t in let a := allocations t in
  ' (st, wn, wc, a0, a1, rl) <-
    InquiryToNvme c (e0 w) (e1 w) kPageSize nsid (e0 a) (e1 a) rl ;;
  let t := set_wrappers t (Build_arr3 wn wc (e2 w)) in
  let t := set_allocations t (Build_arr3 a0 a1 (e2 a)) in
  let t := set_status t st in
  ret (set_count t 2, rl).

(** translation.cc 71-75 *)
Definition Begin_ModeSense6 (c : span) (nsid : N) (t : Translation) (rl : N) : M (Translation * N) :=
  ' (st, wrs, a, n, rl) <-
    ModeSense6ToNvme c (nvme_wrappers t) (e0 (allocations t)) kPageSize nsid (nvme_cmd_count t) rl ;;
  let t := set_wrappers t wrs in
  let t := set_al0 t a in
  let t := set_count t n in
  ret (set_status t st, rl).

(** translation.cc 67-70: no break, control falls through into the case
    kModeSense6 *)
Definition Begin_Unmap (c buffer : span) (nsid : N) (t : Translation) (rl : N)
  : M (Translation * N) :=
  ' (st, wr, a) <-
    UnmapToNvme c buffer (e0 (nvme_wrappers t)) kPageSize nsid (e0 (allocations t)) ;;
  let t := set_wr0 t wr in
  let t := set_al0 t a in
  let t := set_status t st in
  let t := set_count t 1 in
  Begin_ModeSense6 c nsid t rl.

(** translation.cc 85-90 *)
Definition Begin_ReportLuns (c : span) (t : Translation) (rl : N) : M (Translation * N) :=
  ' (st, wr, a, rl) <-
    ReportLunsToNvme c (e0 (nvme_wrappers t)) kPageSize (e0 (allocations t)) rl ;;
  let t := set_wr0 t wr in
  let t := set_al0 t a in
  let t := set_status t st in
  ret (set_count t 1, rl).

(** translation.cc 80-84: no break, falls through into kReportLuns *)
Definition Begin_MaintenanceIn (c : span) (t : Translation) (rl : N) : M (Translation * N) :=
  ' (st, rl) <- ValidateReportSupportedOpCodes c rl ;;
  let t := set_status t st in
  let t := set_count t 0 in
  Begin_ReportLuns c t rl.

(** translation.cc 76-79: no break, falls through into kMaintenanceIn *)
Definition Begin_ModeSense10 (c : span) (nsid : N) (t : Translation) (rl : N)
  : M (Translation * N) :=
  ' (st, wrs, a, n, rl) <-
    ModeSense10ToNvme c (nvme_wrappers t) (e0 (allocations t)) kPageSize nsid (nvme_cmd_count t) rl ;;
  let t := set_wrappers t wrs in
  let t := set_al0 t a in
  let t := set_count t n in
  let t := set_status t st in
  Begin_MaintenanceIn c t rl.

(** translation.cc 91-96 *)
Definition Begin_ReadCapacity10 (c : span) (nsid : N) (t : Translation) (rl : N)
  : M (Translation * N) :=
  ' (st, wr, a, rl) <-
    ReadCapacity10ToNvme c (e0 (nvme_wrappers t)) kPageSize nsid (e0 (allocations t)) rl ;;
  let t := set_wr0 t wr in
  let t := set_al0 t a in
  let t := set_status t st in
  ret (set_count t 1, rl).

(** translation.cc 97-99 *)
Definition Begin_RequestSense (c : span) (t : Translation) (rl : N) : M (Translation * N) :=
  ' (st, rl) <- RequestSenseToNvme c rl ;;
  ret (set_status t st, rl).

(** translation.cc 100-123: the four READ cases differ in the function called *)
Definition Begin_Read (f : span -> NvmeCmdWrapper -> N -> N -> span -> N -> M (StatusCode * NvmeCmdWrapper * N))
  (c buffer : span) (nsid : N) (t : Translation) (rl : N) : M (Translation * N) :=
  ' (st, wr, rl) <- f c (e0 (nvme_wrappers t)) nsid kLbaSize buffer rl ;;
  let t := set_wr0 t wr in
  let t := set_status t st in
  ret (set_count t 1, rl).

(** translation.cc 124-128 *)
Definition Begin_Sync10 (nsid : N) (t : Translation) (rl : N) : M (Translation * N) :=
  let t := set_wr0 t (SynchronizeCache10ToNvme (e0 (nvme_wrappers t)) nsid) in
  let t := set_status t kSuccess in
  ret (set_count t 1, rl).

(** translation.cc 129-132 *)
Definition Begin_Verify10 (c : span) (t : Translation) (rl : N) : M (Translation * N) :=
  ' (st, wr) <- VerifyToNvme c (e0 (nvme_wrappers t)) ;;
  let t := set_wr0 t wr in
  let t := set_status t st in
  ret (set_count t 1, rl).

(** translation.cc 139-158: the four WRITE cases *)
Definition Begin_Write (f : span -> NvmeCmdWrapper -> N -> span -> M (StatusCode * NvmeCmdWrapper))
  (c buffer : span) (nsid : N) (t : Translation) (rl : N) : M (Translation * N) :=
  ' (st, wr) <- f c (e0 (nvme_wrappers t)) nsid buffer ;;
  let t := set_wr0 t wr in
  let t := set_status t st in
  ret (set_count t 1, rl).

(** translation.cc 60-163, the switch *)
Definition Begin_switch (opc : N) (c buffer : span) (nsid : N) (t : Translation) (rl : N)
  : M (Translation * N) :=
  if opc =? kInquiry then Begin_Inquiry c nsid t rl
  else if opc =? kUnmap then Begin_Unmap c buffer nsid t rl
  else if opc =? kModeSense6 then Begin_ModeSense6 c nsid t rl
  else if opc =? kModeSense10 then Begin_ModeSense10 c nsid t rl
  else if opc =? kMaintenanceIn then Begin_MaintenanceIn c t rl
  else if opc =? kReportLuns then Begin_ReportLuns c t rl
  else if opc =? kReadCapacity10 then Begin_ReadCapacity10 c nsid t rl
  else if opc =? kRequestSense then Begin_RequestSense c t rl
  else if opc =? kRead6 then Begin_Read Read6ToNvme c buffer nsid t rl
  else if opc =? kRead10 then Begin_Read Read10ToNvme c buffer nsid t rl
  else if opc =? kRead12 then Begin_Read Read12ToNvme c buffer nsid t rl
  else if opc =? kRead16 then Begin_Read Read16ToNvme c buffer nsid t rl
  else if opc =? kSync10 then Begin_Sync10 nsid t rl
  else if opc =? kVerify10 then Begin_Verify10 c t rl
  else if opc =? kTestUnitReady then ret (set_status t kSuccess, rl)
  else if opc =? kWrite6 then Begin_Write Write6ToNvme c buffer nsid t rl
  else if opc =? kWrite10 then Begin_Write Write10ToNvme c buffer nsid t rl
  else if opc =? kWrite12 then Begin_Write Write12ToNvme c buffer nsid t rl
  else if opc =? kWrite16 then Begin_Write Write16ToNvme c buffer nsid t rl
  else ret (set_status t kFailure, rl).

(** translation.cc 165-168 *)
Definition Begin_finish (t : Translation) : M Translation :=
  if negb (is_success (pipeline_status t)) then
    t <- FlushMemory t ;;
    ret (set_count t 0)
  else ret t.

(** translation.cc 35-170 Begin.  [lun] is the uint64_t LunAddress. *)
Definition Begin (t : Translation) (scsi_cmd buffer : span) (lun : N)
  : M (Translation * BeginResponse) :=
  if negb (is_uninitialized (pipeline_status t))
  then ret (t, {| br_status := ApiFailure; br_alloc_len := 0 |})
  else if len scsi_cmd =? 0
  then ret (set_status t kFailure, {| br_status := ApiSuccess; br_alloc_len := 0 |})
  else
    let t := set_status t kSuccess in
    let t := set_scsi_cmd t scsi_cmd in
    let nsid := u32 (u32 lun + 1) in
    let scsi_cmd_no_op := subspan scsi_cmd 1 in
    opc <- span_at scsi_cmd 0 ;;
    ' (t, alloc_len) <- Begin_switch opc scsi_cmd_no_op buffer nsid t 0 ;;
    t <- Begin_finish t ;;
    ret (t, {| br_status := ApiSuccess; br_alloc_len := alloc_len |}).

(** translation.cc 205-217: the status of the first completion that does not
    translate to GOOD *)
Fixpoint first_error (cpls : list N) : option ScsiStatus :=
  match cpls with
  | [] => None
  | c :: cpls' =>
      let s := StatusToScsi (get GenericCpl "sct" c) (get GenericCpl "sc" c) in
      if negb (st_status s =? kGood) then Some s else first_error cpls'
  end.

(** cpl_data[0].cdw0 (translation.cc 234, 239): reading past an empty span is
    undefined *)
Definition cpl0_cdw0 (cpls : list N) : M N :=
  match cpls with
  | [] => ub "cpl_data[0] of an empty span"
  | c :: _ => ret (get GenericCpl "cdw0" c)
  end.

(** translation.cc 223-281, the switch of Complete: the new pipeline_status_ *)
Definition Complete_switch (opc : N) (c buffer_in : span) (cpls : list N) (t : Translation)
  : M StatusCode :=
  let w0 := cmd (e0 (nvme_wrappers t)) in
  let w1 := cmd (e1 (nvme_wrappers t)) in
  if opc =? kVerify10 then ret (pipeline_status t)
  else if opc =? kInquiry then InquiryToScsi c buffer_in w0 w1
  else if opc =? kModeSense6 then
    d <- cpl0_cdw0 cpls ;;
    _ <- ModeSense6ToScsi c w0 d buffer_in ;;
    ret (pipeline_status t)
  else if opc =? kModeSense10 then
    d <- cpl0_cdw0 cpls ;;
    _ <- ModeSense10ToScsi c w0 d buffer_in ;;
    ret (pipeline_status t)
  else if opc =? kMaintenanceIn then
    _ <- WriteReportSupportedOpCodesResult buffer_in ;;
    ret (pipeline_status t)
  else if opc =? kReportLuns then ReportLunsToScsi w0 buffer_in
  else if opc =? kUnmap then ret kSuccess
  else if opc =? kReadCapacity10 then ReadCapacity10ToScsi buffer_in w0
  else if opc =? kRequestSense then RequestSenseToScsi c buffer_in
  else if (opc =? kRead6) || (opc =? kRead10) || (opc =? kRead12) || (opc =? kRead16) then
    ret kSuccess
  else if opc =? kSync10 then ret kSuccess
  else if (opc =? kTestUnitReady) || (opc =? kWrite6) || (opc =? kWrite10) || (opc =? kWrite12)
          || (opc =? kWrite16) then ret kSuccess
  else ret (pipeline_status t).

(** translation.cc 172-288 Complete.  Completion entries are read before any
    buffer is written, except cpl_data[0].cdw0, which is read as the argument
    of the call that writes; they are therefore passed as values. *)
Definition Complete (t : Translation) (cpls : list N) (buffer_in sense_buffer : span)
  : M (Translation * CompleteResponse) :=
  if is_uninitialized (pipeline_status t)
  then ret (t, {| cr_status := ApiFailure; cr_scsi_status := 0 |})
  else if negb (N.of_nat (length cpls) =? nvme_cmd_count t) then
    t <- AbortPipeline t ;;
    ret (t, {| cr_status := ApiFailure; cr_scsi_status := 0 |})
  else if negb (is_success (pipeline_status t)) then
    let scsi_status := {| st_status := kCheckCondition; st_sense_key := kIllegalRequest;
                          st_asc := 0x24; st_ascq := 0 |} in
    _ <- FillSenseBuffer sense_buffer scsi_status ;;
    t <- AbortPipeline t ;;
    ret (t, {| cr_status := ApiSuccess; cr_scsi_status := st_status scsi_status |})
  else
    match first_error cpls with
    | Some scsi_status =>
        _ <- FillSenseBuffer sense_buffer scsi_status ;;
        t <- AbortPipeline t ;;
        ret (t, {| cr_status := ApiSuccess; cr_scsi_status := st_status scsi_status |})
    | None =>
        let scsi_cmd_no_op := subspan (scsi_cmd_ t) 1 in
        opc <- span_at (scsi_cmd_ t) 0 ;;
        st <- Complete_switch opc scsi_cmd_no_op buffer_in cpls t ;;
        let t := set_status t st in
        t <- AbortPipeline t ;;
        ret (t, {| cr_status := ApiSuccess; cr_scsi_status := 0 |})
    end.
