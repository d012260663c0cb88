(** Model of lib/translator/inquiry.cc.

    The identify pages are read member by member through their addresses (see
    [rd_field] in Common.v); C++ short-circuit evaluation may skip reading a
    member of a page, the model reads it anyway. *)
From Coq Require Import NArith String List Lia Bool Init.Byte.
From Verif Require Import Bytes Layout World ScsiDefs NvmeDefs Common SmallCmds ModeSenseCmd.
Import ListNotations.
Local Open Scope string_scope.
Local Open Scope list_scope.
Local Open Scope N_scope.

(** inquiry.cc 34-73 GetSptValueFromDPC: None models [kFailure] *)
Definition GetSptValueFromDPC (pit1 pit2 pit3 : N) : option N :=
  let dpc := N.lor (N.lor (N.shiftl pit1 2) (N.shiftl pit2 1)) pit3 in
  match dpc with
  | 1 => Some 0 | 2 => Some 2 | 3 => Some 1 | 4 => Some 4 | 5 => Some 3 | 6 => Some 5 | 7 => Some 7
  | _ => None
  end.

(** inquiry.cc 80-144 BuildIdentificationDescriptor; returns the status and
    identifier_length *)
Definition BuildIdentificationDescriptor (ns : N) (buffer : span) : M (StatusCode * N) :=
  nguid0 <- rd_field IdentifyNamespace "nguid[0]" ns ;;
  nguid1 <- rd_field IdentifyNamespace "nguid[1]" ns ;;
  eui64 <- rd_field IdentifyNamespace "eui64" ns ;;
  let nguid_nz := negb (nguid0 =? 0) || negb (nguid1 =? 0) in
  let eui64_nz := negb (eui64 =? 0) in
  let after := subspan buffer (N.of_nat (sizeof IdentificationDescriptor)) in
  let finish (identifier_length : N) : M (StatusCode * N) :=
    let d := mk IdentificationDescriptor
      [("code_set", 1); ("protocol_identifier", 0); ("identifier_type", 2); ("association", 0);
       ("protocol_identifier_valid", 0); ("identifier_length", identifier_length)] in
    b <- WriteValue (repr IdentificationDescriptor d) buffer ;;
    ret (if b then kSuccess else kFailure, identifier_length) in
  if nguid_nz then
    b <- WriteValue (le_encode 8 nguid0 ++ le_encode 8 nguid1) after ;;
    if negb b then ret (kFailure, 0x10) else finish 0x10
  else if eui64_nz then
    b <- WriteValue (le_encode 8 eui64) after ;;
    if negb b then ret (kFailure, 0x8) else finish 0x8
  else ret (kFailure, 0).

(** list assignment a[i] = b *)
Fixpoint upd {A} (l : list A) (i : nat) (b : A) : list A :=
  match l, i with
  | [], _ => []
  | _ :: l', O => b :: l'
  | x :: l', S i' => x :: upd l' i' b
  end.

(** inquiry.cc 172-179: the last four printable characters of FR, right
    aligned.  [i] counts down from 7; the loop stops once idx < 0, that is when
    [room] characters have been placed. *)
Fixpoint revision_loop (fr : list byte) (i room : nat) (prl : list byte) : list byte :=
  match i, room with
  | S i', S room' =>
      let ch := nth i' fr x00 in
      if negb (b2n ch =? 0x20) && (0x21 <=? b2n ch) && (b2n ch <=? 0x7e)
      then revision_loop fr i' room' (upd prl room' ch)
      else revision_loop fr i' room prl
  | _, _ => prl
  end.

(** common.h 30 kNvmeVendorIdentification "NVMe    " *)
Definition kNvmeVendorIdentification : list byte :=
  map n2b [0x4e; 0x56; 0x4d; 0x65; 0x20; 0x20; 0x20; 0x20].

(** inquiry.cc 146-186 TranslateStandardInquiry *)
Definition TranslateStandardInquiry (ctrl ns : N) (buffer : span) : M StatusCode :=
  pit <- rd_field IdentifyNamespace "dps.pit" ns ;;
  md_start <- rd_field IdentifyNamespace "dps.md_start" ns ;;
  mn <- load (ctrl + 24) 16 ;;
  fr <- load (ctrl + 64) 8 ;;
  let result := mk InquiryData
    [("version", 6); ("response_data_format", 2); ("additional_length", 0x1f);
     ("protect", if (pit =? 0) && (md_start =? 0) then 0 else 1); ("tpgs", 0); ("cmdque", 1)] in
  let result := set InquiryData "vendor_identification" (le kNvmeVendorIdentification) result in
  let result := set InquiryData "product_identification" (le mn) result in
  let result := set InquiryData "product_revision_level"
                  (le (revision_loop fr 8 4 (repeat x00 4))) result in
  b <- WriteValue_n (repr InquiryData result) buffer 36 ;;
  ret (if b then kSuccess else kFailure).

(** inquiry.cc 188-208 TranslateSupportedVpdPages *)
Definition TranslateSupportedVpdPages (buffer : span) : M StatusCode :=
  let pages := map n2b [kSupportedVpd; kUnitSerialNumber; kDeviceIdentification; kExtended;
                        kBlockLimitsVpd; kBlockDeviceCharacteristicsVpd;
                        kLogicalBlockProvisioningVpd] in
  let result := mk SupportedVitalProductData [("page_length", N.of_nat (length pages))] in
  b <- WriteValue (repr SupportedVitalProductData result) buffer ;;
  if negb b then ret kFailure
  else
    b <- WriteValue pages (subspan buffer (N.of_nat (sizeof SupportedVitalProductData))) ;;
    ret (if b then kSuccess else kFailure).

(** printf's %0<w>x conversions: lower-case hexadecimal, zero padded to at
    least 8 digits *)
Definition hexdig (d : N) : byte := n2b (if d <? 10 then 48 + d else 87 + d).
Definition hex_fixed (w : nat) (x : N) : list byte :=
  map (fun i => hexdig (N.land (N.shiftr x (4 * N.of_nat i)) 15)) (rev (seq 0 w)).
Fixpoint strip0 (k : nat) (l : list byte) : list byte :=
  match k, l with
  | S k', b :: l' => if b2n b =? 48 then strip0 k' l' else l
  | _, _ => l
  end.
(** "%08lx" of a 64-bit value: between 8 and 16 digits *)
Definition fmt_08lx (x : N) : list byte := strip0 8 (hex_fixed 16 x).
(** "%08x" of a 32-bit value: exactly 8 digits *)
Definition fmt_08x (x : N) : list byte := hex_fixed 8 x.
(** sprintf into a char array at offset [o], with the terminating NUL *)
Definition sprintf_at (a : list byte) (o : nat) (s : list byte) : list byte :=
  let s := s ++ [x00] in
  firstn o a ++ s ++ skipn (o + length s) a.

(** inquiry.cc 247-249: underscores at 4, 9, 14, ... below page_length - 1;
    seven iterations are enough for page_length <= 40 *)
Fixpoint underscore_loop (k : nat) (i page_length : nat) (psn : list byte) : list byte :=
  match k with
  | O => psn
  | S k' =>
      if Nat.ltb i (page_length - 1)
      then underscore_loop k' (i + 5) page_length (upd psn i x5f)
      else psn
  end.

(** inquiry.cc 253-258: [k] = page_length - 1 - i iterations left *)
Fixpoint digits_loop (k : nat) (i pos : nat) (hex psn : list byte) : list byte :=
  match k with
  | O => psn
  | S k' =>
      if negb (b2n (nth i psn x00) =? 0x5f)
      then digits_loop k' (S i) (S pos) hex (upd psn i (nth pos hex x00))
      else digits_loop k' (S i) pos hex psn
  end.

(** inquiry.cc 246-258 *)
Definition format_serial (page_length : nat) (hex : list byte) : list byte :=
  let psn := repeat x00 40 in
  let psn := underscore_loop 8 4 page_length psn in
  let psn := upd psn (page_length - 1) x2e in
  digits_loop (page_length - 1) 0 0 hex psn.

(** inquiry.cc 210-289 TranslateUnitSerialNumberVpd *)
Definition TranslateUnitSerialNumberVpd (ctrl ns nsid : N) (buffer : span) : M StatusCode :=
  hex_string <- stack_junk 33 ;;
  nguid0 <- rd_field IdentifyNamespace "nguid[0]" ns ;;
  nguid1 <- rd_field IdentifyNamespace "nguid[1]" ns ;;
  eui64 <- rd_field IdentifyNamespace "eui64" ns ;;
  sn <- load (ctrl + 4) 20 ;;
  let nguid_nz := negb (nguid0 =? 0) || negb (nguid1 =? 0) in
  let eui64_nz := negb (eui64 =? 0) in
  let '(page_length, product_serial_number) :=
    if nguid_nz || eui64_nz then
      if nguid_nz then
        let h := sprintf_at hex_string 0 (fmt_08lx nguid0) in
        let h := sprintf_at h 16 (fmt_08lx nguid1) in
        (40, format_serial 40 h)
      else
        let h := sprintf_at hex_string 0 (fmt_08lx (ltohll eui64)) in
        (20, format_serial 20 h)
    else
      let p := sn ++ repeat x00 20 in
      let p := upd p 20 x5f in
      let p := sprintf_at p 21 (fmt_08x nsid) in
      let p := upd p 29 x2e in
      (30, p) in
  let result := mk UnitSerialNumber
    [("page_code", kUnitSerialNumber); ("page_length", page_length)] in
  b <- WriteValue (repr UnitSerialNumber result) buffer ;;
  if negb b then ret kFailure
  else
    b <- WriteValue product_serial_number
           (subspan buffer (N.of_nat (sizeof UnitSerialNumber))) ;;
    ret (if b then kSuccess else kFailure).

(** inquiry.cc 293-331 TranslateDeviceIdentificationVpd *)
Definition TranslateDeviceIdentificationVpd (ns : N) (buffer : span) : M StatusCode :=
  ' (status, idl) <- BuildIdentificationDescriptor ns
      (subspan buffer (N.of_nat (sizeof DeviceIdentificationVpd))) ;;
  if negb (is_success status) then ret status
  else
    let page_length := u8 (N.of_nat (sizeof DeviceIdentificationVpd) + idl) in
    let result := mk DeviceIdentificationVpd
      [("peripheral_device_type", 0); ("peripheral_qualifier", 0);
       ("page_code", kDeviceIdentification); ("page_length", page_length)] in
    b <- WriteValue (repr DeviceIdentificationVpd result) buffer ;;
    ret (if b then status else kFailure).

(** inquiry.cc 335-401 TranslateExtendedInquiryDataVpd *)
Definition TranslateExtendedInquiryDataVpd (ns ctrl : N) (buffer : span) : M StatusCode :=
  md_start <- rd_field IdentifyNamespace "dps.md_start" ns ;;
  pit <- rd_field IdentifyNamespace "dps.pit" ns ;;
  pit1 <- rd_field IdentifyNamespace "dpc.pit1" ns ;;
  pit2 <- rd_field IdentifyNamespace "dpc.pit2" ns ;;
  pit3 <- rd_field IdentifyNamespace "dpc.pit3" ns ;;
  let dps_result := if negb (md_start =? 0) || negb (pit =? 0) then 1 else 0 in
  match GetSptValueFromDPC pit1 pit2 pit3 with
  | None => ret kFailure
  | Some spt =>
      vwc_present <- rd_field IdentifyControllerData "vwc.present" ctrl ;;
      let d := mk ExtendedInquiryDataVpd
        [("peripheral_device_type", 0); ("peripheral_qualifer", 0); ("page_code", kExtended);
         ("page_length", 0x3c); ("ref_chk", dps_result); ("app_chk", dps_result);
         ("grd_chk", dps_result); ("spt", spt); ("activate_microcode", 2); ("uask_sup", 1);
         ("v_sup", vwc_present); ("luiclr", 1)] in
      b <- WriteValue (repr ExtendedInquiryDataVpd d) buffer ;;
      ret (if b then kSuccess else kFailure)
  end.

(** inquiry.cc 403-422 TranslateBlockDeviceCharacteristicsVpd *)
Definition TranslateBlockDeviceCharacteristicsVpd (buffer : span) : M StatusCode :=
  let d := mk BlockDeviceCharacteristicsVpd
    [("page_code", kDeviceIdentification); ("page_length", 0x3c); ("medium_rotation_rate", 1);
     ("nominal_form_factor", 0)] in
  b <- WriteValue (repr BlockDeviceCharacteristicsVpd d) buffer ;;
  ret (if b then kSuccess else kFailure).

(** inquiry.cc 424-487 TranslateBlockLimitsVpd *)
Definition TranslateBlockLimitsVpd (ctrl : N) (buffer : span) : M StatusCode :=
  mdts <- rd_field IdentifyControllerData "mdts" ctrl ;;
  let max_transfer_length :=
    if 16 <? mdts then 2 ^ 16 else if mdts =? 0 then 0 else N.shiftl 1 mdts in
  let compare_and_write_len := if 255 <? max_transfer_length then 255 else max_transfer_length in
  caw <- rd_field IdentifyControllerData "fuses.compare_and_write" ctrl ;;
  dsm <- rd_field IdentifyControllerData "oncs.dsm" ctrl ;;
  let result := mk BlockLimitsVpd
    [("page_code", kBlockLimitsVpd); ("page_length", 0x003c);
     ("max_compare_write_length", if caw =? 0 then 0 else compare_and_write_len);
     ("max_transfer_length", htonl max_transfer_length);
     ("max_unmap_lba_count", htonl dsm);
     ("max_unmap_block_descriptor_count", htonl (if dsm =? 0 then 0 else 0x0100))] in
  b <- WriteValue (repr BlockLimitsVpd result) buffer ;;
  ret (if b then kSuccess else kFailure).

(** inquiry.cc 489-563 TranslateLogicalBlockProvisioningVpd *)
Definition TranslateLogicalBlockProvisioningVpd (ctrl ns : N) (buffer : span) : M StatusCode :=
  dsm <- rd_field IdentifyControllerData "oncs.dsm" ctrl ;;
  thin <- rd_field IdentifyNamespace "nsfeat.thin_prov" ns ;;
  let ad := negb (dsm =? 0) in
  let thin_prov := negb (thin =? 0) in
  let result := mk LogicalBlockProvisioningVpd
    [("page_code", kLogicalBlockProvisioningVpd); ("page_length", htons 4);
     ("lbprz", if ad then 1 else 0)] in
  let result :=
    if negb ad && negb thin_prov then
      set LogicalBlockProvisioningVpd "provisioning_type" 0 result
    else if ad && negb thin_prov then
      set LogicalBlockProvisioningVpd "provisioning_type" 1 result
    else if ad && thin_prov then
      set LogicalBlockProvisioningVpd "provisioning_type" 2 result
    else result in
  let pt := get LogicalBlockProvisioningVpd "provisioning_type" result in
  let result := set LogicalBlockProvisioningVpd "lbpu"
                  (if ad || (pt =? 1) || (pt =? 2) then 1 else 0) result in
  b <- WriteValue (repr LogicalBlockProvisioningVpd result) buffer ;;
  ret (if b then kSuccess else kFailure).

(** inquiry.cc 567-611 InquiryToNvme; returns status, both wrappers, both
    allocations, alloc_len *)
Definition InquiryToNvme (raw_scsi : span) (wn wc : NvmeCmdWrapper) (page_size nsid : N)
  (a0 a1 : Allocation) (alloc_len : N)
  : M (StatusCode * NvmeCmdWrapper * NvmeCmdWrapper * Allocation * Allocation * N) :=
  o <- ReadValue InquiryCommand raw_scsi ;;
  match o with
  | None => ret (kInvalidInput, wn, wc, a0, a1, alloc_len)
  | Some c =>
      let alloc_len := ntohs (get InquiryCommand "allocation_length" c) in
      let num_pages := 1 in
      ' (st1, a0) <- SetPages a0 page_size num_pages 0 ;;
      if negb (is_success st1) then ret (st1, wn, wc, a0, a1, alloc_len)
      else
        let wn := set_cmd wn (mk GenericCmd [("opc", kAdmIdentify); ("nsid", nsid)]) in
        let wn := set_cmd wn (set GenericCmd "prp1" (data_addr a0) (cmd wn)) in
        let wn := set_cmd wn (set GenericCmd "cdw10" 0 (cmd wn)) in
        let wn := set_buffer_len wn (u32 (page_size * num_pages)) in
        ' (st2, a1) <- SetPages a1 page_size num_pages 0 ;;
        if negb (is_success st2) then ret (st2, wn, wc, a0, a1, alloc_len)
        else
          let wc := set_cmd wc (mk GenericCmd [("opc", kAdmIdentify)]) in
          let wc := set_cmd wc (set GenericCmd "prp1" (data_addr a1) (cmd wc)) in
          let wc := set_cmd wc (set GenericCmd "cdw10" (htoll 1) (cmd wc)) in
          let wc := set_buffer_len wc (u32 (page_size * num_pages)) in
          ret (kSuccess, set_is_admin wn true, set_is_admin wc true, a0, a1, alloc_len)
  end.

(** inquiry.cc 614-688 InquiryToScsi *)
Definition InquiryToScsi (raw_scsi buffer : span) (identify_ns identify_ctrl : N) : M StatusCode :=
  o <- ReadValue InquiryCommand raw_scsi ;;
  match o with
  | None => ret kInvalidInput
  | Some c =>
      let ns := get GenericCmd "prp1" identify_ns in
      let ctrl := get GenericCmd "prp1" identify_ctrl in
      let nsid := get GenericCmd "nsid" identify_ns in
      if negb (get InquiryCommand "evpd" c =? 0) then
        let p := get InquiryCommand "page_code" c in
        if p =? kSupportedVpd then TranslateSupportedVpdPages buffer
        else if p =? kUnitSerialNumber then TranslateUnitSerialNumberVpd ctrl ns nsid buffer
        else if p =? kDeviceIdentification then TranslateDeviceIdentificationVpd ns buffer
        else if p =? kExtended then TranslateExtendedInquiryDataVpd ns ctrl buffer
        else if p =? kBlockLimitsVpd then TranslateBlockLimitsVpd ctrl buffer
        else if p =? kBlockDeviceCharacteristicsVpd then
          TranslateBlockDeviceCharacteristicsVpd buffer
        else if p =? kLogicalBlockProvisioningVpd then
          TranslateLogicalBlockProvisioningVpd ctrl ns buffer
        else ret kInvalidInput
      else TranslateStandardInquiry ctrl ns buffer
  end.
