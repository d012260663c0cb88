(** Model of lib/translator/write.cc.  The unused [Allocation&] and [lba_size]
    parameters are omitted. *)
From Coq Require Import NArith String List Lia Bool Init.Byte.
From Verif Require Import Bytes Layout World ScsiDefs NvmeDefs Common.
Import ListNotations.
Local Open Scope string_scope.
Local Open Scope list_scope.
Local Open Scope N_scope.

(** write.cc 15-53 BuildPRInfo: None models the [kFailure] return *)
Definition BuildPRInfo (wrprotect : N) : option N :=
  let pack (prchk pract : N) := Some (N.lor prchk (N.shiftl pract 3)) in
  match wrprotect with
  | 0 => pack 0 1
  | 1 => pack 7 0
  | 5 => pack 7 0
  | 2 => pack 3 0
  | 3 => pack 0 0
  | 4 => pack 4 0
  | _ => None
  end.

(** write.cc 60-73 LegacyWrite (always succeeds) *)
Definition LegacyWrite (wr : NvmeCmdWrapper) (nsid : N) (buffer_out : span) : NvmeCmdWrapper :=
  let wr1 := set_cmd wr (mk GenericCmd [("opc", kNvmWrite); ("psdt", 0); ("nsid", nsid)]) in
  let wr2 := set_cmd wr1 (set GenericCmd "prp1" (ptr buffer_out) (cmd wr1)) in
  let wr3 := set_buffer_len wr2 (u32 (len buffer_out)) in
  set_is_admin wr3 false.

(** write.cc 76-80 BuildCdw12 *)
Definition BuildCdw12W (transfer_length prinfo : N) (fua : N) : N :=
  N.lor (N.lor (u32 (N.shiftl fua 30)) (u32 (N.shiftl prinfo 26))) (sub32 transfer_length 1).

(** write.cc 82-109 Write *)
Definition Write (fua wrprotect transfer_length : N) (wr : NvmeCmdWrapper) (nsid : N)
  (buffer_out : span) : StatusCode * NvmeCmdWrapper :=
  if transfer_length =? 0 then (kNoTranslation, wr)
  else
    let transfer_length := N.land transfer_length 0xffff in
    let wr1 := LegacyWrite wr nsid buffer_out in
    match BuildPRInfo wrprotect with
    | None => (kFailure, wr1)
    | Some pr_info =>
        (kSuccess,
         set_cmd wr1 (set GenericCmd "cdw12"
                        (htoll (BuildCdw12W (u16 transfer_length) pr_info fua)) (cmd wr1)))
    end.

(** write.cc 113-145 Write6ToNvme *)
Definition Write6_body (c : N) (wr : NvmeCmdWrapper) (nsid : N) (buffer_out : span)
  : StatusCode * NvmeCmdWrapper :=
  let tl := get Write6Command "transfer_length" c in
  let updated_transfer_length := if tl =? 0 then 256 else tl in
  let wr1 := LegacyWrite wr nsid buffer_out in
  let host_endian_lba :=
    u32 (N.shiftl (get Write6Command "logical_block_address_1" c) 16
         + ntohs (get Write6Command "logical_block_address_2" c)) in
  let c1 := set GenericCmd "cdw10" (htoll host_endian_lba) (cmd wr1) in
  let c2 := set GenericCmd "cdw12" (htoll (sub32 updated_transfer_length 1)) c1 in
  (kSuccess, set_cmd wr1 c2).

Definition Write6ToNvme (scsi_cmd : span) (wr : NvmeCmdWrapper) (nsid : N) (buffer_out : span)
  : M (StatusCode * NvmeCmdWrapper) :=
  o <- ReadValue Write6Command scsi_cmd ;;
  ret match o with
      | None => (kInvalidInput, wr)
      | Some c => Write6_body c wr nsid buffer_out
      end.

(** write.cc 147-167 Write10ToNvme *)
Definition Write10_body (c : N) (wr : NvmeCmdWrapper) (nsid : N) (buffer_out : span)
  : StatusCode * NvmeCmdWrapper :=
  match Write (get Write10Command "fua" c) (get Write10Command "wr_protect" c)
              (ntohs (get Write10Command "transfer_length" c)) wr nsid buffer_out with
  | (kSuccess, wr1) =>
      (kSuccess, set_cmd wr1 (set GenericCmd "cdw10"
         (bswap_32 (get Write10Command "logical_block_address" c)) (cmd wr1)))
  | r => r
  end.

Definition Write10ToNvme (scsi_cmd : span) (wr : NvmeCmdWrapper) (nsid : N) (buffer_out : span)
  : M (StatusCode * NvmeCmdWrapper) :=
  o <- ReadValue Write10Command scsi_cmd ;;
  ret match o with
      | None => (kInvalidInput, wr)
      | Some c => Write10_body c wr nsid buffer_out
      end.

(** write.cc 168-188 Write12ToNvme *)
Definition Write12_body (c : N) (wr : NvmeCmdWrapper) (nsid : N) (buffer_out : span)
  : StatusCode * NvmeCmdWrapper :=
  match Write (get Write12Command "fua" c) (get Write12Command "wr_protect" c)
              (ntohl (get Write12Command "transfer_length" c)) wr nsid buffer_out with
  | (kSuccess, wr1) =>
      (kSuccess, set_cmd wr1 (set GenericCmd "cdw10"
         (bswap_32 (get Write12Command "logical_block_address" c)) (cmd wr1)))
  | r => r
  end.

Definition Write12ToNvme (scsi_cmd : span) (wr : NvmeCmdWrapper) (nsid : N) (buffer_out : span)
  : M (StatusCode * NvmeCmdWrapper) :=
  o <- ReadValue Write12Command scsi_cmd ;;
  ret match o with
      | None => (kInvalidInput, wr)
      | Some c => Write12_body c wr nsid buffer_out
      end.

(** write.cc 190-213 Write16ToNvme *)
Definition Write16_body (c : N) (wr : NvmeCmdWrapper) (nsid : N) (buffer_out : span)
  : StatusCode * NvmeCmdWrapper :=
  match Write (get Write16Command "fua" c) (get Write16Command "wr_protect" c)
              (ntohl (get Write16Command "transfer_length" c)) wr nsid buffer_out with
  | (kSuccess, wr1) =>
      let host_endian_lba := ntohll (get Write16Command "logical_block_address" c) in
      let c1 := set GenericCmd "cdw10" (htoll (u32 host_endian_lba)) (cmd wr1) in
      let c2 := set GenericCmd "cdw11" (htoll (u32 (N.shiftr host_endian_lba 32))) c1 in
      (kSuccess, set_cmd wr1 c2)
  | r => r
  end.

Definition Write16ToNvme (scsi_cmd : span) (wr : NvmeCmdWrapper) (nsid : N) (buffer_out : span)
  : M (StatusCode * NvmeCmdWrapper) :=
  o <- ReadValue Write16Command scsi_cmd ;;
  ret match o with
      | None => (kInvalidInput, wr)
      | Some c => Write16_body c wr nsid buffer_out
      end.
