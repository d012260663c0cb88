(** Model of lib/translator/read.cc.  The [Allocation&] parameter is never used
    by these functions and is omitted.  Out-parameters (wrapper, alloc_len) are
    returned together with the status, also on the failure paths. *)
From Coq Require Import NArith String List Lia Bool Init.Byte.
From Verif Require Import Bytes Layout World ScsiDefs NvmeDefs Common.
Import ListNotations.
Local Open Scope string_scope.
Local Open Scope list_scope.
Local Open Scope N_scope.

(** read.cc 16-53 BuildPrinfo: None models the [kInvalidInput] return *)
Definition BuildPrinfo (rd_protect : N) : option N :=
  let pack (prchk pract : N) := Some (N.lor prchk (N.shiftl pract 3)) in
  match rd_protect with
  | 0 => pack 7 1
  | 1 | 5 => pack 7 0
  | 2 => pack 3 0
  | 3 => pack 0 0
  | 4 => pack 4 0
  | _ => None
  end.

(** read.cc 56-60 BuildCdw12.  [transfer_length - 1] is computed in int and
    converted to uint32_t. *)
Definition BuildCdw12 (transfer_length prinfo : N) (fua : N) : N :=
  N.lor (N.lor (u32 (N.shiftl fua 30)) (u32 (N.shiftl prinfo 26))) (sub32 transfer_length 1).

(** read.cc 65-87 LegacyRead.  [transfer_length] is the uint16_t parameter. *)
Definition LegacyRead (wr : NvmeCmdWrapper) (nsid transfer_length lba_size : N) (buffer_in : span)
  : StatusCode * NvmeCmdWrapper * N :=
  let wr1 := set_cmd wr (mk GenericCmd [("opc", kNvmRead); ("psdt", 0); ("nsid", nsid)]) in
  let alloc_len := u32 (transfer_length * lba_size) in
  if len buffer_in <? alloc_len then (kFailure, wr1, alloc_len)
  else
    let wr2 := set_buffer_len wr1 alloc_len in
    let wr3 := set_cmd wr2 (set GenericCmd "prp1" (ptr buffer_in) (cmd wr2)) in
    (kSuccess, set_is_admin wr3 false, alloc_len).

(** read.cc 90-123 Read *)
Definition Read (rd_protect fua transfer_length : N) (wr : NvmeCmdWrapper) (nsid lba_size : N)
  (buffer_in : span) (alloc_len : N) : StatusCode * NvmeCmdWrapper * N :=
  if transfer_length =? 0 then (kNoTranslation, wr, alloc_len)
  else if 0xffff <? transfer_length then (kInvalidInput, wr, alloc_len)
  else
    let transfer_length := N.land transfer_length 0xffff in
    match LegacyRead wr nsid (u16 transfer_length) lba_size buffer_in with
    | (kSuccess, wr1, al) =>
        match BuildPrinfo rd_protect with
        | None => (kInvalidInput, wr1, al)
        | Some prinfo =>
            (kSuccess,
             set_cmd wr1 (set GenericCmd "cdw12"
                            (htoll (BuildCdw12 (u16 transfer_length) prinfo fua)) (cmd wr1)),
             al)
        end
    | r => r
    end.

(** read.cc 127-160 Read6ToNvme, after the CDB has been read *)
Definition Read6_body (c : N) (wr : NvmeCmdWrapper) (nsid lba_size : N) (buffer_in : span)
  : StatusCode * NvmeCmdWrapper * N :=
  let tl := get Read6Command "transfer_length" c in
  let updated_transfer_length := if tl =? 0 then 256 else tl in
  match LegacyRead wr nsid updated_transfer_length lba_size buffer_in with
  | (kSuccess, wr1, al) =>
      let host_endian_lba :=
        u32 (N.shiftl (get Read6Command "logical_block_address_1" c) 16
             + ntohs (get Read6Command "logical_block_address_2" c)) in
      let c1 := set GenericCmd "cdw10" (htoll host_endian_lba) (cmd wr1) in
      let c2 := set GenericCmd "cdw12" (htoll (sub32 updated_transfer_length 1)) c1 in
      (kSuccess, set_cmd wr1 c2, al)
  | r => r
  end.

Definition Read6ToNvme (scsi_cmd : span) (wr : NvmeCmdWrapper) (nsid lba_size : N)
  (buffer_in : span) (alloc_len : N) : M (StatusCode * NvmeCmdWrapper * N) :=
  o <- ReadValue Read6Command scsi_cmd ;;
  ret match o with
      | None => (kInvalidInput, wr, alloc_len)
      | Some c => Read6_body c wr nsid lba_size buffer_in
      end.

(** read.cc 162-183 Read10ToNvme *)
Definition Read10_body (c : N) (wr : NvmeCmdWrapper) (nsid lba_size : N) (buffer_in : span)
  (alloc_len : N) : StatusCode * NvmeCmdWrapper * N :=
  match Read (get Read10Command "rd_protect" c) (get Read10Command "fua" c)
             (ntohs (get Read10Command "transfer_length" c)) wr nsid lba_size buffer_in alloc_len with
  | (kSuccess, wr1, al) =>
      (kSuccess, set_cmd wr1 (set GenericCmd "cdw10"
         (bswap_32 (get Read10Command "logical_block_address" c)) (cmd wr1)), al)
  | r => r
  end.

Definition Read10ToNvme (scsi_cmd : span) (wr : NvmeCmdWrapper) (nsid lba_size : N)
  (buffer_in : span) (alloc_len : N) : M (StatusCode * NvmeCmdWrapper * N) :=
  o <- ReadValue Read10Command scsi_cmd ;;
  ret match o with
      | None => (kInvalidInput, wr, alloc_len)
      | Some c => Read10_body c wr nsid lba_size buffer_in alloc_len
      end.

(** read.cc 185-206 Read12ToNvme *)
Definition Read12_body (c : N) (wr : NvmeCmdWrapper) (nsid lba_size : N) (buffer_in : span)
  (alloc_len : N) : StatusCode * NvmeCmdWrapper * N :=
  match Read (get Read12Command "rd_protect" c) (get Read12Command "fua" c)
             (ntohl (get Read12Command "transfer_length" c)) wr nsid lba_size buffer_in alloc_len with
  | (kSuccess, wr1, al) =>
      (kSuccess, set_cmd wr1 (set GenericCmd "cdw10"
         (bswap_32 (get Read12Command "logical_block_address" c)) (cmd wr1)), al)
  | r => r
  end.

Definition Read12ToNvme (scsi_cmd : span) (wr : NvmeCmdWrapper) (nsid lba_size : N)
  (buffer_in : span) (alloc_len : N) : M (StatusCode * NvmeCmdWrapper * N) :=
  o <- ReadValue Read12Command scsi_cmd ;;
  ret match o with
      | None => (kInvalidInput, wr, alloc_len)
      | Some c => Read12_body c wr nsid lba_size buffer_in alloc_len
      end.

(** read.cc 208-231 Read16ToNvme *)
Definition Read16_body (c : N) (wr : NvmeCmdWrapper) (nsid lba_size : N) (buffer_in : span)
  (alloc_len : N) : StatusCode * NvmeCmdWrapper * N :=
  match Read (get Read16Command "rd_protect" c) (get Read16Command "fua" c)
             (ntohl (get Read16Command "transfer_length" c)) wr nsid lba_size buffer_in alloc_len with
  | (kSuccess, wr1, al) =>
      let host_endian_lba := ntohll (get Read16Command "logical_block_address" c) in
      let c1 := set GenericCmd "cdw10" (htoll (u32 host_endian_lba)) (cmd wr1) in
      let c2 := set GenericCmd "cdw11" (htoll (u32 (N.shiftr host_endian_lba 32))) c1 in
      (kSuccess, set_cmd wr1 c2, al)
  | r => r
  end.

Definition Read16ToNvme (scsi_cmd : span) (wr : NvmeCmdWrapper) (nsid lba_size : N)
  (buffer_in : span) (alloc_len : N) : M (StatusCode * NvmeCmdWrapper * N) :=
  o <- ReadValue Read16Command scsi_cmd ;;
  ret match o with
      | None => (kInvalidInput, wr, alloc_len)
      | Some c => Read16_body c wr nsid lba_size buffer_in alloc_len
      end.
