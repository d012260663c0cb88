(** Model of lib/translator/verify.cc, synchronize_cache.cc, request_sense.cc,
    maintenance_in.cc, read_capacity_10.cc and report_luns.cc. *)
From Coq Require Import NArith String List Lia Bool Init.Byte.
From Verif Require Import Bytes Layout World ScsiDefs NvmeDefs Common.
Import ListNotations.
Local Open Scope string_scope.
Local Open Scope list_scope.
Local Open Scope N_scope.

(** ** verify.cc *)

(** verify.cc 23-57 BuildPrInfo *)
Definition BuildPrInfoV (bytchk vr_protect : N) : N :=
  let prchk :=
    if bytchk =? 0 then
      match vr_protect with
      | 0 | 1 | 5 => 7 | 2 => 3 | 3 => 0 | 4 => 4 | _ => 0
      end
    else if bytchk =? 1 then
      match vr_protect with
      | 0 => 7 | 1 | 2 | 3 | 4 | 5 => 0 | _ => 0
      end
    else 0 in
  N.lor 8 prchk.

(** verify.cc 61-124 VerifyToNvme *)
Definition Verify_body (c : N) (wr : NvmeCmdWrapper) : StatusCode * NvmeCmdWrapper :=
  if get Verify10Command "verification_length" c =? 0 then (kNoTranslation, wr)
  else if get Verify10Command "naca" c =? 1 then (kInvalidInput, wr)
  else
    let pr_info := BuildPrInfoV (get Verify10Command "bytchk" c) (get Verify10Command "vr_protect" c) in
    let cdw12 := N.lor (sub32 (ntohs (get Verify10Command "verification_length" c)) 1)
                       (u32 (N.shiftl pr_info 26)) in
    let wr1 := set_cmd wr (mk GenericCmd
                 [("opc", kNvmCompare);
                  ("cdw10", bswap_32 (get Verify10Command "logical_block_address" c));
                  ("cdw11", 0);
                  ("cdw12", htoll cdw12)]) in
    (kSuccess, set_is_admin wr1 false).

Definition VerifyToNvme (scsi_cmd : span) (wr : NvmeCmdWrapper) : M (StatusCode * NvmeCmdWrapper) :=
  o <- ReadValue Verify10Command scsi_cmd ;;
  ret match o with
      | None => (kInvalidInput, wr)
      | Some c => Verify_body c wr
      end.

(** ** synchronize_cache.cc 23-27 SynchronizeCache10ToNvme *)
Definition SynchronizeCache10ToNvme (wr : NvmeCmdWrapper) (nsid : N) : NvmeCmdWrapper :=
  let wr1 := set_cmd wr (mk GenericCmd [("opc", kNvmFlush); ("nsid", nsid)]) in
  set_is_admin wr1 false.

(** ** request_sense.cc *)

(** request_sense.cc 20-36 TranslateDescriptorSenseData *)
Definition TranslateDescriptorSenseData (buffer : span) : M StatusCode :=
  let result := mk DescriptorFormatSenseData
    [("response_code", kCurrentDescriptorError); ("additional_sense_code", 0)] in
  b <- WriteValue (repr DescriptorFormatSenseData result) buffer ;;
  ret (if b then kSuccess else kFailure).

(** request_sense.cc 38-65 TranslateFixedSenseData *)
Definition TranslateFixedSenseData (buffer : span) : M StatusCode :=
  let result := mk FixedFormatSenseData
    [("response_code", kCurrentFixedError); ("additional_sense_length", 0);
     ("command_specific_info", 0); ("additional_sense_code", 0)] in
  b <- WriteValue (repr FixedFormatSenseData result) buffer ;;
  ret (if b then kSuccess else kFailure).

(** request_sense.cc 69-83 RequestSenseToNvme *)
Definition RequestSenseToNvme (scsi_cmd : span) (alloc_len : N) : M (StatusCode * N) :=
  o <- ReadValue RequestSenseCommand scsi_cmd ;;
  ret match o with
      | None => (kInvalidInput, alloc_len)
      | Some c =>
          if get RequestSenseCommand "naca" c =? 1 then (kInvalidInput, alloc_len)
          else (kSuccess, get RequestSenseCommand "allocation_length" c)
      end.

(** request_sense.cc 85-98 RequestSenseToScsi *)
Definition RequestSenseToScsi (scsi_cmd buffer : span) : M StatusCode :=
  o <- ReadValue RequestSenseCommand scsi_cmd ;;
  match o with
  | None => ret kInvalidInput
  | Some c =>
      if get RequestSenseCommand "desc" c =? 1 then TranslateDescriptorSenseData buffer
      else TranslateFixedSenseData buffer
  end.

(** ** maintenance_in.cc *)

(** maintenance_in.cc 21-41 ValidateReportSupportedOpCodes *)
Definition ValidateReportSupportedOpCodes (scsi_cmd : span) (alloc_len : N) : M (StatusCode * N) :=
  o <- ReadValue ReportOpCodesCommand scsi_cmd ;;
  ret match o with
      | None => (kInvalidInput, alloc_len)
      | Some c =>
          if negb (get ReportOpCodesCommand "requested_op_code" c =? kWriteSame16)
             || negb (get ReportOpCodesCommand "reporting_options" c =? 1)
          then (kInvalidInput, alloc_len)
          else (kSuccess, N.of_nat (sizeof OneCommandParamData))
      end.

(** maintenance_in.cc 43-50 WriteReportSupportedOpCodesResult *)
Definition WriteReportSupportedOpCodesResult (buffer : span) : M unit :=
  let data := mk OneCommandParamData [("support", 1)] in
  _ <- WriteValue (repr OneCommandParamData data) buffer ;;
  ret tt.

(** ** read_capacity_10.cc *)

(** read_capacity_10.cc 25-62 ReadCapacity10ToNvme *)
Definition ReadCapacity10ToNvme (raw_scsi : span) (wr : NvmeCmdWrapper) (page_size nsid : N)
  (al : Allocation) (alloc_len : N) : M (StatusCode * NvmeCmdWrapper * Allocation * N) :=
  o <- ReadValue ReadCapacity10Command raw_scsi ;;
  match o with
  | None => ret (kInvalidInput, wr, al, alloc_len)
  | Some c =>
      if get ReadCapacity10Command "naca" c =? 1 then ret (kInvalidInput, wr, al, alloc_len)
      else
        let alloc_len := 8 in
        let num_pages := 1 in
        ' (read_status, al) <- SetPages al page_size num_pages 0 ;;
        if negb (is_success read_status) then ret (read_status, wr, al, alloc_len)
        else
          let wr := set_cmd wr (mk GenericCmd [("opc", kAdmIdentify); ("nsid", nsid)]) in
          let wr := set_cmd wr (set GenericCmd "prp1" (data_addr al) (cmd wr)) in
          let wr := set_cmd wr (set GenericCmd "cdw10" 0 (cmd wr)) in
          let wr := set_buffer_len wr (u32 (page_size * num_pages)) in
          let wr := set_is_admin wr true in
          ret (kSuccess, wr, al, alloc_len)
  end.

(** identify_ns->lbaf[identify_ns->flbas.format].lbads (nvme.h 808-815: lbaf
    starts at byte 128, 4 bytes each, lbads is byte 2 of the element).  Used by
    read_capacity_10.cc 83 and mode_sense.cc 251, 259. *)
Definition rd_lbads (ns : N) : M N :=
  fmt <- rd_field IdentifyNamespace "flbas.format" ns ;;
  bs <- load (ns + 128 + 4 * fmt + 2) 1 ;;
  ret (le bs).

(** read_capacity_10.cc 64-100 ReadCapacity10ToScsi *)
Definition ReadCapacity10ToScsi (buffer : span) (gen_identify_ns : N) : M StatusCode :=
  let ns := get GenericCmd "prp1" gen_identify_ns in
  nsze <- rd_field IdentifyNamespace "nsze" ns ;;
  let result := mk ReadCapacity10Data
    [("returned_logical_block_address",
       htonl (if 0xffffffff <? ltohll nsze then 0xffffffff else u32 (ltohll nsze)))] in
  lbads <- rd_lbads ns ;;
  if lbads <? 9 then ret kFailure
  else if 31 <? lbads then ret kFailure
  else
    let result := set ReadCapacity10Data "block_length" (htonl (u32 (N.shiftl 1 lbads))) result in
    b <- WriteValue (repr ReadCapacity10Data result) buffer ;;
    ret (if b then kSuccess else kFailure).

(** ** report_luns.cc *)

(** ns_list.ids[i] (nvme.h 825-828: 1024 uint32_t) *)
Definition rd_nsid (ns : N) (i : N) : M N :=
  bs <- load (ns + 4 * i) 4 ;; ret (le bs).

(** report_luns.cc 30-37 GetNsListLength; [fuel] = kIdentifyNsListMaxLength - i *)
Fixpoint GetNsListLength_loop (ns : N) (fuel : nat) (i : N) : M N :=
  match fuel with
  | O => ret i
  | S fuel' =>
      v <- rd_nsid ns i ;;
      if v =? 0 then ret i else GetNsListLength_loop ns fuel' (i + 1)
  end.
Definition GetNsListLength (ns : N) : M N :=
  GetNsListLength_loop ns kIdentifyNsListMaxLength 0.

(** report_luns.cc 43-76 ReportLunsToNvme *)
Definition ReportLunsToNvme (scsi_cmd : span) (wr : NvmeCmdWrapper) (page_size : N)
  (al : Allocation) (alloc_len : N) : M (StatusCode * NvmeCmdWrapper * Allocation * N) :=
  o <- ReadValue ReportLunsCommand scsi_cmd ;;
  match o with
  | None => ret (kInvalidInput, wr, al, alloc_len)
  | Some c =>
      let sr := get ReportLunsCommand "select_report" c in
      if negb (sr =? 0) && negb (sr =? 1) && negb (sr =? 2)
      then ret (kInvalidInput, wr, al, alloc_len)
      else
        let alloc_len := ntohl (get ReportLunsCommand "alloc_length" c) in
        let wr := set_cmd wr 0 in
        let wr := set_cmd wr (set GenericCmd "opc" kAdmIdentify (cmd wr)) in
        let wr := set_cmd wr (set GenericCmd "cdw10" 2 (cmd wr)) in
        let num_pages := 1 in
        ' (st, al) <- SetPages al page_size num_pages 0 ;;
        if is_failure st then ret (kFailure, wr, al, alloc_len)
        else
          let wr := set_cmd wr (set GenericCmd "prp1" (data_addr al) (cmd wr)) in
          let wr := set_buffer_len wr (u32 (page_size * num_pages)) in
          let wr := set_is_admin wr true in
          ret (kSuccess, wr, al, alloc_len)
  end.

(** report_luns.cc 116-124, the writing loop; [fuel] = lun_count - i *)
Fixpoint ReportLuns_loop (ns : N) (buffer : span) (fuel : nat) (i : N) : M unit :=
  match fuel with
  | O => ret tt
  | S fuel' =>
      id <- rd_nsid ns i ;;
      let lun := htonll (sub32 (ltohl id) 1) in
      b <- WriteValue (le_encode 8 lun) (subspan buffer (u32 (8 + i * 8))) ;;
      if b then ReportLuns_loop ns buffer fuel' (i + 1) else ret tt
  end.

(** report_luns.cc 80-127 ReportLunsToScsi *)
Definition ReportLunsToScsi (identify_cmd : N) (buffer : span) : M StatusCode :=
  if len buffer <? N.of_nat (sizeof ReportLunsParamData) then ret kFailure
  else
    let ns := get GenericCmd "prp1" identify_cmd in
    lun_count <- GetNsListLength ns ;;
    let allocated_list_bytes := u32 (len buffer - N.of_nat (sizeof ReportLunsParamData)) in
    let rlpd := mk ReportLunsParamData [("list_byte_length", htonl (u32 (lun_count * 8)))] in
    let '(rlpd, lun_count) :=
      if allocated_list_bytes <? ntohl (get ReportLunsParamData "list_byte_length" rlpd) then
        let lbl := allocated_list_bytes - allocated_list_bytes mod 8 in
        (set ReportLunsParamData "list_byte_length" (htonl lbl) rlpd, lbl / 8)
      else (rlpd, lun_count) in
    b <- WriteValue (repr ReportLunsParamData rlpd) buffer ;;
    if negb b then ret kSuccess
    else
      _ <- ReportLuns_loop ns buffer (N.to_nat lun_count) 0 ;;
      ret kSuccess.
