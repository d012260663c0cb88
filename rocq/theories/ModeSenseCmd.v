(** Model of lib/translator/mode_sense.cc. *)
From Coq Require Import NArith String List Lia Bool Init.Byte.
From Verif Require Import Bytes Layout World ScsiDefs NvmeDefs Common SmallCmds.
Import ListNotations.
Local Open Scope string_scope.
Local Open Scope list_scope.
Local Open Scope N_scope.

(** mode_sense.cc 31-37 kCachingModePage *)
Definition kCachingModePage : N := mk CachingModePage
  [("page_code", kCacheMode); ("spf", 0); ("ps", 0); ("page_length", 0x12); ("ic", 1)].

(** mode_sense.cc 41-62 kControlModePage *)
Definition kControlModePage : N := mk ControlModePage
  [("page_code", kControlMode); ("spf", 0); ("ps", 0); ("page_length", 0x0a); ("rlec", 0);
   ("gltsd", 1); ("d_sense", 1); ("dpicz", 0); ("tmf_only", 0); ("tst", 0); ("qerr", 1);
   ("nuar", 0); ("qam", 0); ("swp", 0); ("ua_intlck_ctrl", 0); ("rac", 0); ("autoload_mode", 0);
   ("tas", 1); ("ato", 0); ("busy_timeout_period", 0xFFFF); ("estct", 0)].

(** mode_sense.cc 66-71 kPowerConditionModePage *)
Definition kPowerConditionModePage : N := mk PowerConditionModePage
  [("page_code", kPowerConditionMode); ("spf", 0); ("ps", 0); ("page_length", 0x26);
   ("pm_bg_precedence", 0)].

(** mode_sense.cc 73-78 struct CommonCmdAttributes *)
Record CommonCmdAttributes := { ca_page_code : N; ca_pc : N; ca_dbd : bool; ca_llbaa : bool }.

(** the three-element arrays nvme_wrappers_ / allocations_ (translation.h 68-69,
    kMaxCommandRatio = 3) *)
Record arr3 (A : Type) := { e0 : A; e1 : A; e2 : A }.
Arguments e0 {A}. Arguments e1 {A}. Arguments e2 {A}. Arguments Build_arr3 {A}.
Definition aget {A} (a : arr3 A) (i : N) : option A :=
  match i with 0 => Some (e0 a) | 1 => Some (e1 a) | 2 => Some (e2 a) | _ => None end.
Definition aset {A} (a : arr3 A) (i : N) (x : A) : arr3 A :=
  match i with
  | 0 => Build_arr3 x (e1 a) (e2 a)
  | 1 => Build_arr3 (e0 a) x (e2 a)
  | 2 => Build_arr3 (e0 a) (e1 a) x
  | _ => a
  end.

(** mode_sense.cc 81-97 GenerateBlockDescriptorIdentifyCmd *)
Definition GenerateBlockDescriptorIdentifyCmd (wr : NvmeCmdWrapper) (al : Allocation)
  (page_size nsid : N) : M (StatusCode * NvmeCmdWrapper * Allocation) :=
  let wr := set_cmd wr (mk GenericCmd [("opc", kAdmIdentify); ("nsid", nsid)]) in
  let num_pages := 1 in
  ' (st, al) <- SetPages al page_size num_pages 0 ;;
  if is_failure st then ret (kFailure, wr, al)
  else
    let wr := set_cmd wr (set GenericCmd "prp1" (data_addr al) (cmd wr)) in
    let wr := set_buffer_len wr (u32 (page_size * num_pages)) in
    let wr := set_is_admin wr true in
    ret (kSuccess, wr, al).

(** mode_sense.cc 100-126 GenerateCacheGetFeaturesCmd; PageControl values:
    scsi.h 502-507 kCurrent 0, kChangeable 1, kDefault 2, kSaved 3 *)
Definition GenerateCacheGetFeaturesCmd (wr : NvmeCmdWrapper) (pc nsid : N)
  : StatusCode * NvmeCmdWrapper :=
  let t := mk GetFeaturesCmd [("opc", kAdmGetFeatures); ("nsid", nsid)] in
  let finish (sel : N) :=
    let t := set GetFeaturesCmd "sel" sel t in
    let t := set GetFeaturesCmd "fid" kVolatileWriteCache t in
    (kSuccess, set_is_admin (set_cmd wr t) true) in
  match pc with
  | 0 => finish kSelCurrent
  | 1 => finish kSelSaved
  | 2 => finish kSelDefault
  | _ => (kFailure, wr)
  end.

(** mode_sense.cc 129-160 GetModeDataLength *)
Definition GetModeDataLength (a : CommonCmdAttributes) (is_mode_10 : bool) : N :=
  let sz l := N.of_nat (sizeof l) in
  let total_size := if is_mode_10 then sz ModeParameter10Header - 2 else sz ModeParameter6Header - 1 in
  let total_size :=
    if ca_dbd a then total_size
    else if ca_llbaa a then total_size + sz LongLbaBlockDescriptor
    else total_size + sz ShortLbaBlockDescriptor in
  let total_size :=
    if ca_page_code a =? kCacheMode then total_size + sz CachingModePage
    else if ca_page_code a =? kControlMode then total_size + sz ControlModePage
    else if ca_page_code a =? kPowerConditionMode then total_size + sz PowerConditionModePage
    else if ca_page_code a =? kAllSupportedModes then
      total_size + (sz CachingModePage + sz ControlModePage + sz PowerConditionModePage)
    else total_size in
  u16 total_size.

(** mode_sense.cc 163-191 ModeSenseToNvme; nvme_wrappers[cmd_count++] with
    cmd_count beyond the array is undefined *)
Definition ModeSenseToNvme (a : CommonCmdAttributes) (wrs : arr3 NvmeCmdWrapper) (al : Allocation)
  (page_size nsid cmd_count : N)
  : M (StatusCode * arr3 NvmeCmdWrapper * Allocation * N) :=
  ' (status, wrs, al, cmd_count) <-
    (if ca_dbd a then ret (kSuccess, wrs, al, cmd_count)
     else
       match aget wrs cmd_count with
       | None => ub "nvme_wrappers index out of range"
       | Some wr =>
           ' (st, wr, al) <- GenerateBlockDescriptorIdentifyCmd wr al page_size nsid ;;
           ret (st, aset wrs cmd_count wr, al, cmd_count + 1)
       end) ;;
  if negb (is_success status) then ret (status, wrs, al, cmd_count)
  else
    if negb (ca_page_code a =? kCacheMode) && negb (ca_page_code a =? kAllSupportedModes) then
      if (ca_page_code a =? kControlMode) || (ca_page_code a =? kPowerConditionMode)
      then ret (kSuccess, wrs, al, cmd_count)
      else ret (kFailure, wrs, al, cmd_count)
    else
      match aget wrs cmd_count with
      | None => ub "nvme_wrappers index out of range"
      | Some wr =>
          let '(st, wr) := GenerateCacheGetFeaturesCmd wr (ca_pc a) nsid in
          ret (st, aset wrs cmd_count wr, al, cmd_count + 1)
      end.

(** mode_sense.cc 196-210 WriteMode6Header *)
Definition WriteMode6Header (a : CommonCmdAttributes) (buffer : span) : M bool :=
  let header := mk ModeParameter6Header
    [("mode_data_length", GetModeDataLength a false); ("dpofua", 1);
     ("bdl", if ca_dbd a then 0 else N.of_nat (sizeof ShortLbaBlockDescriptor))] in
  WriteValue (repr ModeParameter6Header header) buffer.

(** mode_sense.cc 213-232 WriteMode10Header *)
Definition WriteMode10Header (a : CommonCmdAttributes) (buffer : span) : M bool :=
  let header := mk ModeParameter10Header
    [("mode_data_length", htons (GetModeDataLength a true)); ("dpofua", 1);
     ("longlba", if ca_llbaa a then 1 else 0);
     ("bdl", if ca_dbd a then 0
             else if ca_llbaa a then htons (N.of_nat (sizeof LongLbaBlockDescriptor))
             else htons (N.of_nat (sizeof ShortLbaBlockDescriptor)))] in
  WriteValue (repr ModeParameter10Header header) buffer.

(** [1 << lbads] in int: undefined for a shift count of 32 or more; 1 << 31 is
    the int minimum, converted to 0x80000000 by htonl's parameter *)
Definition shl1_int (n : N) : M N :=
  if n <? 32 then ret (u32 (N.shiftl 1 n)) else ub "shift count too large".

(** mode_sense.cc 237-264 WriteBlockDescriptor; returns (written?, write_len) *)
Definition WriteBlockDescriptor (identify : N) (buffer : span) (llbaa : bool) : M (bool * N) :=
  let ns := get GenericCmd "prp1" identify in
  ncap <- rd_field IdentifyNamespace "ncap" ns ;;
  lbads <- rd_lbads ns ;;
  lbl <- shl1_int lbads ;;
  if llbaa then
    let lbd := mk LongLbaBlockDescriptor
      [("number_of_blocks", bswap_64 ncap); ("logical_block_length", htonl lbl)] in
    b <- WriteValue (repr LongLbaBlockDescriptor lbd) buffer ;;
    ret (b, N.of_nat (sizeof LongLbaBlockDescriptor))
  else
    let lbl_be := N.shiftr (htonl lbl) 8 in
    let sbd := mk ShortLbaBlockDescriptor
      [("number_of_blocks", htonl (u32 (ltohll ncap))); ("logical_block_length", lbl_be)] in
    b <- WriteValue (repr ShortLbaBlockDescriptor sbd) buffer ;;
    ret (b, N.of_nat (sizeof ShortLbaBlockDescriptor)).

(** mode_sense.cc 267-294 WritePageData; no return statement for other page
    codes: undefined *)
Definition WritePageData (page_code get_features_result : N) (buffer : span) : M bool :=
  let tmp_page := set CachingModePage "wce" (N.land 1 get_features_result) kCachingModePage in
  if page_code =? kCacheMode then WriteValue (repr CachingModePage tmp_page) buffer
  else if page_code =? kControlMode then WriteValue (repr ControlModePage kControlModePage) buffer
  else if page_code =? kPowerConditionMode then
    WriteValue (repr PowerConditionModePage kPowerConditionModePage) buffer
  else if page_code =? kAllSupportedModes then
    b <- WriteValue (repr CachingModePage tmp_page) buffer ;;
    if negb b then ret false
    else
      let buffer := subspan buffer (N.of_nat (sizeof CachingModePage)) in
      b <- WriteValue (repr ControlModePage kControlModePage) buffer ;;
      if negb b then ret false
      else
        let buffer := subspan buffer (N.of_nat (sizeof ControlModePage)) in
        WriteValue (repr PowerConditionModePage kPowerConditionModePage) buffer
  else ub "control reaches end of non-void function".

(** mode_sense.cc 296-325 ModeSenseToScsi *)
Definition ModeSenseToScsi (a : CommonCmdAttributes) (is_mode_10 : bool)
  (get_features_result identify : N) (buffer : span) : M StatusCode :=
  b <- (if is_mode_10 then WriteMode10Header a buffer else WriteMode6Header a buffer) ;;
  if negb b then ret kSuccess
  else
    let buffer := subspan buffer (N.of_nat (sizeof (if is_mode_10 then ModeParameter10Header
                                                    else ModeParameter6Header))) in
    ' (b, write_len) <-
      (if ca_dbd a then ret (true, 0) else WriteBlockDescriptor identify buffer (ca_llbaa a)) ;;
    if negb b then ret kSuccess
    else
      let buffer := if ca_dbd a then buffer else subspan buffer write_len in
      _ <- WritePageData (ca_page_code a) get_features_result buffer ;;
      ret kSuccess.

(** mode_sense.cc 344-347, 389-392: attributes of a MODE SENSE (6) CDB *)
Definition attrs6 (c : N) : CommonCmdAttributes :=
  {| ca_page_code := get ModeSense6Command "page_code" c; ca_pc := get ModeSense6Command "pc" c;
     ca_dbd := get ModeSense6Command "dbd" c =? 1; ca_llbaa := false |}.

(** mode_sense.cc 368-371, 410-413: attributes of a MODE SENSE (10) CDB *)
Definition attrs10 (c : N) : CommonCmdAttributes :=
  {| ca_page_code := get ModeSense10Command "page_code" c; ca_pc := get ModeSense10Command "pc" c;
     ca_dbd := get ModeSense10Command "dbd" c =? 1;
     ca_llbaa := get ModeSense10Command "llbaa" c =? 1 |}.

(** mode_sense.cc 331-350 ModeSense6ToNvme; returns status, wrappers,
    allocation, cmd_count, alloc_len *)
Definition ModeSense6ToNvme (scsi_cmd : span) (wrs : arr3 NvmeCmdWrapper) (al : Allocation)
  (page_size nsid cmd_count alloc_len : N)
  : M (StatusCode * arr3 NvmeCmdWrapper * Allocation * N * N) :=
  o <- ReadValue ModeSense6Command scsi_cmd ;;
  match o with
  | None => ret (kFailure, wrs, al, cmd_count, alloc_len)
  | Some c =>
      let alloc_len := get ModeSense6Command "alloc_length" c in
      ' (st, wrs, al, n) <- ModeSenseToNvme (attrs6 c) wrs al page_size nsid cmd_count ;;
      ret (st, wrs, al, n, alloc_len)
  end.

(** mode_sense.cc 354-374 ModeSense10ToNvme *)
Definition ModeSense10ToNvme (scsi_cmd : span) (wrs : arr3 NvmeCmdWrapper) (al : Allocation)
  (page_size nsid cmd_count alloc_len : N)
  : M (StatusCode * arr3 NvmeCmdWrapper * Allocation * N * N) :=
  o <- ReadValue ModeSense10Command scsi_cmd ;;
  match o with
  | None => ret (kFailure, wrs, al, cmd_count, alloc_len)
  | Some c =>
      let alloc_len := ntohs (get ModeSense10Command "alloc_length" c) in
      ' (st, wrs, al, n) <- ModeSenseToNvme (attrs10 c) wrs al page_size nsid cmd_count ;;
      ret (st, wrs, al, n, alloc_len)
  end.

(** mode_sense.cc 378-395 ModeSense6ToScsi *)
Definition ModeSense6ToScsi (scsi_cmd : span) (identify get_features_result : N) (buffer : span)
  : M StatusCode :=
  o <- ReadValue ModeSense6Command scsi_cmd ;;
  match o with
  | None => ret kFailure
  | Some c => ModeSenseToScsi (attrs6 c) false get_features_result identify buffer
  end.

(** mode_sense.cc 399-416 ModeSense10ToScsi *)
Definition ModeSense10ToScsi (scsi_cmd : span) (identify get_features_result : N) (buffer : span)
  : M StatusCode :=
  o <- ReadValue ModeSense10Command scsi_cmd ;;
  match o with
  | None => ret kFailure
  | Some c => ModeSenseToScsi (attrs10 c) true get_features_result identify buffer
  end.
