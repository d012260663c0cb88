(** Debug messages: lib/translator/common.cc 29-47 (DebugLog, SetDebugCallback),
    common.cc 131-201 (ScsiOpcodeToString), third_party/e2e/util.c 16 (Print),
    and every place in lib/translator that logs.  The rest of the model leaves
    the messages out; this file describes them on their own. *)
From Coq Require Import Arith NArith ZArith String Ascii List Bool Init.Byte.
From Verif Require Import Bytes World Common TranslationCls.
Import ListNotations.
Local Open Scope list_scope.
Local Open Scope string_scope.
Local Open Scope N_scope.

(** ** printf *)
(** an argument as it arrives through [...]: int, unsigned int, unsigned long,
    a scoped enumeration (not promoted, C++17 [expr.call]/12), const char* *)
Inductive carg := AInt (z : Z) | AUInt (n : N) | ASize (n : N) | AScopedEnum (n : N) | AStr (s : string).

Definition digit_char (d : N) : ascii :=
  nth (N.to_nat d) (list_ascii_of_string "0123456789abcdef") "0"%char.
(** digits in the given base, most significant first; [fuel] digits at most *)
Fixpoint digits (base : N) (fuel : nat) (n : N) (rest : string) : string :=
  match fuel with
  | O => rest
  | S k => if n <? base then String (digit_char n) rest else digits base k (n / base) (String (digit_char (n mod base)) rest)
  end.
(** %u and %x of a 32-bit number; %#x puts 0x before a number that is not 0 *)
Definition decimal (n : N) : string := digits 10 10 n "".
Definition hexadecimal (n : N) : string := (if n =? 0 then "" else "0x") ++ digits 16 8 n "".

(** The directives used in this code: %u, %d, %#x, %s.  C11 7.21.6.1 and
    7.16.1.1: an argument of another type than the directive's is undefined
    behaviour, except that a non-negative int may be read as unsigned.  [None]:
    undefined. *)
Definition directive (c : ascii) (a : carg) : option string :=
  match c, a with
  | "u"%char, AUInt n => Some (decimal n)
  | "u"%char, AInt z => if Z.ltb z 0 then None else Some (decimal (Z.to_N z))
  | "x"%char, AUInt n => Some (hexadecimal n)
  | "x"%char, AInt z => if Z.ltb z 0 then None else Some (hexadecimal (Z.to_N z))
  | "d"%char, AInt z => Some (if Z.ltb z 0 then "-" ++ decimal (Z.to_N (Z.opp z)) else decimal (Z.to_N z))
  | "s"%char, AStr s => Some s
  | _, _ => None
  end.
Fixpoint printf (fmt : string) (args : list carg) : option string :=
  let with_directive (c : ascii) (rest : string) :=
    match args with
    | [] => None
    | a :: args' => match directive c a, printf rest args' with Some s, Some r => Some (s ++ r) | _, _ => None end
    end in
  match fmt with
  | "" => Some ""
  | String "%"%char (String "#"%char (String "x"%char rest)) => with_directive "x"%char rest
  | String "%"%char (String c rest) =>
      if Ascii.eqb c "u" || Ascii.eqb c "d" || Ascii.eqb c "s" then with_directive c rest else None
  | String "%"%char "" => None
  | String c rest => option_map (String c) (printf rest args)
  end.

(** common.cc 33-41 DebugLog: nothing without a callback; otherwise the callback
    gets the first 1023 characters.  [LogUB]: undefined behaviour. *)
Inductive log_outcome := LogNothing | LogCall (s : string) | LogUB.
Definition DebugLog (callback : bool) (fmt : string) (args : list carg) : log_outcome :=
  if callback then
    match printf fmt args with
    | Some s => LogCall (substring 0 1023 s)
    | None => LogUB
    end
  else LogNothing.

(** util.c 16 Print: printk(msg), the message is the format *)
Definition Print (msg : string) : option string := printf msg [].

(** common.cc 131-201 *)
Definition ScsiOpcodeToString (opcode : N) : string :=
  match opcode with
  | 0x00 => "kTestUnitReady"
  | 0x03 => "kRequestSense"
  | 0x08 => "kRead6"
  | 0x0a => "kWrite6"
  | 0x12 => "kInquiry"
  | 0x16 => "kReserve6"
  | 0x17 => "kRelease6"
  | 0x1a => "kModeSense6"
  | 0x1b => "kStartStopUnit"
  | 0x1e => "kDoPreventAllowMediumRemoval"
  | 0x25 => "kReadCapacity10"
  | 0x28 => "kRead10"
  | 0x2a => "kWrite10"
  | 0x2f => "kVerify10"
  | 0x35 => "kSync10"
  | 0x42 => "kUnmap"
  | 0x43 => "kReadToc"
  | 0x5a => "kModeSense10"
  | 0x5e => "kPersistentReserveIn"
  | 0x5f => "kPersistentReserveOut"
  | 0x7f => "kRead32 / kWrite32 /  kVerify32"
  | 0x88 => "kRead16"
  | 0x8a => "kWrite16"
  | 0x8f => "kVerify16"
  | 0x91 => "kSync16"
  | 0x9e => "kServiceActionIn"
  | 0xa0 => "kReportLuns"
  | 0xa3 => "kMaintenanceIn"
  | 0xa8 => "kRead12"
  | 0xaa => "kWrite12"
  | 0xaf => "kVerify12"
  | _ => "INVALID_OPCODE"
  end.

(** ** Where messages come from *)
(** the type of an argument: uint8_t and uint16_t are promoted to int, uint32_t
    is unsigned int, size_t is unsigned long; [TName] is ScsiOpcodeToString's
    result *)
Inductive argty := TByte | TU16 | TU32 | TSize | TScopedEnum8 | TName.
Definition of_type (ty : argty) (a : carg) : Prop :=
  match ty with
  | TByte => exists n, n < 256 /\ a = AInt (Z.of_N n)
  | TU16 => exists n, n < 65536 /\ a = AInt (Z.of_N n)
  | TU32 => exists n, n < 2 ^ 32 /\ a = AUInt n
  | TSize => exists n, n < 2 ^ 64 /\ a = ASize n
  | TScopedEnum8 => exists n, n < 256 /\ a = AScopedEnum n
  | TName => exists opc, a = AStr (ScsiOpcodeToString opc)
  end.
Record site := { site_file : string; site_line : N; site_format : string; site_args : list argty }.

Definition newline : string := String (ascii_of_nat 10) "".

(** every call of DebugLog in lib/translator *)
Definition call_sites : list site :=
  [
   {| site_file := "common.cc"; site_line := 112; site_format := "Trying to override data that has not been flushed"%string; site_args := [] |};
   {| site_file := "common.cc"; site_line := 123; site_format := "Error when requesting memory"%string; site_args := [] |};
   {| site_file := "common.cc"; site_line := 213; site_format := "Failed to write to sense buffer"%string; site_args := [] |};
   {| site_file := "common.h"; site_line := 169; site_format := "Pointer cast called on span of invalid size"%string; site_args := [] |};
   {| site_file := "common.h"; site_line := 174; site_format := "Pointer cast called on unaligned memory"%string; site_args := [] |};
   {| site_file := "common.h"; site_line := 186; site_format := "Pointer cast called on span of invalid size"%string; site_args := [] |};
   {| site_file := "common.h"; site_line := 191; site_format := "Pointer cast called on unaligned memory"%string; site_args := [] |};
   {| site_file := "inquiry.cc"; site_line := 69; site_format := ("DPC value not recoginized while translating ExtendedInquiry" ++ newline)%string; site_args := [] |};
   {| site_file := "inquiry.cc"; site_line := 99; site_format := ("Failed to write IdentificationDescriptor to the buffer" ++ newline)%string; site_args := [] |};
   {| site_file := "inquiry.cc"; site_line := 108; site_format := ("Failed to write IdentificationDescriptor to the buffer" ++ newline)%string; site_args := [] |};
   {| site_file := "inquiry.cc"; site_line := 114; site_format := "Both NGUID and EUI-64 fields are zero in IdentityNamespaceData"%string; site_args := [] |};
   {| site_file := "inquiry.cc"; site_line := 140; site_format := ("Failed to write IdentificationDescriptor to the buffer" ++ newline)%string; site_args := [] |};
   {| site_file := "inquiry.cc"; site_line := 182; site_format := "Error writing 36 bytes of Inquiry Data to buffer"%string; site_args := [] |};
   {| site_file := "inquiry.cc"; site_line := 204; site_format := "Error writing Supported VPD pages or Page List to buffer"%string; site_args := [] |};
   {| site_file := "inquiry.cc"; site_line := 284; site_format := "Error writing Unit Serial Number or Product Serial Number to buffer"%string; site_args := [] |};
   {| site_file := "inquiry.cc"; site_line := 327; site_format := ("Error! Cannot write DeviceIdentificationVPD to buffer" ++ newline)%string; site_args := [] |};
   {| site_file := "inquiry.cc"; site_line := 397; site_format := ("Couldn't write ExtendedInquiry to buffer" ++ newline)%string; site_args := [] |};
   {| site_file := "inquiry.cc"; site_line := 418; site_format := ("Couldn't write BlockDeviceCharacteristicsVpd to buffer" ++ newline)%string; site_args := [] |};
   {| site_file := "inquiry.cc"; site_line := 433; site_format := "max transfer length is > 2^16"%string; site_args := [] |};
   {| site_file := "inquiry.cc"; site_line := 483; site_format := "Error writing Block Limits VPD to the buffer"%string; site_args := [] |};
   {| site_file := "inquiry.cc"; site_line := 559; site_format := "Error writing Logical Block Provisioning VPD to buffer"%string; site_args := [] |};
   {| site_file := "inquiry.cc"; site_line := 574; site_format := "Malformed Inquiry Command"%string; site_args := [] |};
   {| site_file := "inquiry.cc"; site_line := 620; site_format := "Malformed Inquiry Command"%string; site_args := [] |};
   {| site_file := "inquiry.cc"; site_line := 633; site_format := "Identify namespace structure failed to cast"%string; site_args := [] |};
   {| site_file := "inquiry.cc"; site_line := 640; site_format := "Identify controller structure failed to cast"%string; site_args := [] |};
   {| site_file := "inquiry.cc"; site_line := 679; site_format := "Inquiry Command parameters do not map to any action."%string; site_args := [] |};
   {| site_file := "maintenance_in.cc"; site_line := 25; site_format := "Malformed Report Supported OpCodes command"%string; site_args := [] |};
   {| site_file := "maintenance_in.cc"; site_line := 34; site_format := "Only supporting ReportSupportedOpCodes for WriteSame16"%string; site_args := [] |};
   {| site_file := "mode_sense.cc"; site_line := 116; site_format := "Unsupported page control recieved"%string; site_args := [] |};
   {| site_file := "mode_sense.cc"; site_line := 172; site_format := "Error generating Block Descriptor Identify Command"%string; site_args := [] |};
   {| site_file := "mode_sense.cc"; site_line := 184; site_format := "Unsuppported mode sense page code recieved"%string; site_args := [] |};
   {| site_file := "mode_sense.cc"; site_line := 206; site_format := "Insufficient size for mode 6 parameter header"%string; site_args := [] |};
   {| site_file := "mode_sense.cc"; site_line := 228; site_format := "Insufficient size for mode 10 parameter header"%string; site_args := [] |};
   {| site_file := "mode_sense.cc"; site_line := 314; site_format := "Truncating mode sense response at block descriptor"%string; site_args := [] |};
   {| site_file := "mode_sense.cc"; site_line := 322; site_format := "Failed to write variable length mode-page data"%string; site_args := [] |};
   {| site_file := "mode_sense.cc"; site_line := 339; site_format := "Mode Sense 6 Command Malformed"%string; site_args := [] |};
   {| site_file := "mode_sense.cc"; site_line := 363; site_format := "Mode Sense 10 Command Malformed"%string; site_args := [] |};
   {| site_file := "mode_sense.cc"; site_line := 385; site_format := "Mode Sense 6 Command Malformed"%string; site_args := [] |};
   {| site_file := "mode_sense.cc"; site_line := 406; site_format := "Mode Sense 10 Command Malformed"%string; site_args := [] |};
   {| site_file := "read.cc"; site_line := 45; site_format := "RDPROTECT with value %d has no translation to PRINFO"%string; site_args := [TByte] |};
   {| site_file := "read.cc"; site_line := 77; site_format := "Not enough memory allocated for Read buffer"%string; site_args := [] |};
   {| site_file := "read.cc"; site_line := 95; site_format := "NVMe read command does not support transfering zero blocks"%string; site_args := [] |};
   {| site_file := "read.cc"; site_line := 102; site_format := "Transfer length exceeds limit of 16 bits"%string; site_args := [] |};
   {| site_file := "read.cc"; site_line := 133; site_format := "Malformed Read6 command"%string; site_args := [] |};
   {| site_file := "read.cc"; site_line := 168; site_format := "Malformed Read10 command"%string; site_args := [] |};
   {| site_file := "read.cc"; site_line := 191; site_format := "Malformed Read12 command"%string; site_args := [] |};
   {| site_file := "read.cc"; site_line := 214; site_format := "Malformed Read16 command"%string; site_args := [] |};
   {| site_file := "read_capacity_10.cc"; site_line := 31; site_format := "Malformed ReadCapacity10 Command - Error in reading to buffer"%string; site_args := [] |};
   {| site_file := "read_capacity_10.cc"; site_line := 36; site_format := "Malformed ReadCapacity10 Command - Invalid NACA bit"%string; site_args := [] |};
   {| site_file := "read_capacity_10.cc"; site_line := 72; site_format := "Identify namespace structure failed to cast"%string; site_args := [] |};
   {| site_file := "read_capacity_10.cc"; site_line := 85; site_format := "lbads value smaller than 9 is not supported"%string; site_args := [] |};
   {| site_file := "read_capacity_10.cc"; site_line := 88; site_format := "lbads exceeds type limit of scsi::ReadCapacity10Data.block_length"%string; site_args := [] |};
   {| site_file := "read_capacity_10.cc"; site_line := 96; site_format := "Error writing Read Capacity 10 Data to buffer"%string; site_args := [] |};
   {| site_file := "report_luns.cc"; site_line := 49; site_format := "Malformed ReportLuns command"%string; site_args := [] |};
   {| site_file := "report_luns.cc"; site_line := 55; site_format := "Invalid report luns select report %u"%string; site_args := [TScopedEnum8] |};
   {| site_file := "report_luns.cc"; site_line := 83; site_format := "Insufficient buffer size"%string; site_args := [] |};
   {| site_file := "report_luns.cc"; site_line := 93; site_format := "Namespace pointer was null"%string; site_args := [] |};
   {| site_file := "report_luns.cc"; site_line := 112; site_format := "Buffer not large enough for report luns response header"%string; site_args := [] |};
   {| site_file := "report_luns.cc"; site_line := 121; site_format := "Truncating report luns response at position %u"%string; site_args := [TU32] |};
   {| site_file := "request_sense.cc"; site_line := 32; site_format := "Error writing Descriptor Format Sense Data to buffer"%string; site_args := [] |};
   {| site_file := "request_sense.cc"; site_line := 61; site_format := "Error writing Fixed Format Sense Data to buffer"%string; site_args := [] |};
   {| site_file := "request_sense.cc"; site_line := 73; site_format := "Malformed RequestSense Command"%string; site_args := [] |};
   {| site_file := "request_sense.cc"; site_line := 78; site_format := "Malformed RequestSense Command"%string; site_args := [] |};
   {| site_file := "request_sense.cc"; site_line := 89; site_format := "Malformed RequestSense Command"%string; site_args := [] |};
   {| site_file := "status.cc"; site_line := 105; site_format := "No SCSI translation for NVMe status with code %#x"%string; site_args := [TByte] |};
   {| site_file := "status.cc"; site_line := 134; site_format := "No SCSI translation for NVMe status with code %#x"%string; site_args := [TByte] |};
   {| site_file := "status.cc"; site_line := 197; site_format := "No SCSI translation for NVMe status with code %#x"%string; site_args := [TByte] |};
   {| site_file := "status.cc"; site_line := 218; site_format := "No SCSI translation for nvme status code type %#xand status code %#x"%string; site_args := [TByte; TByte] |};
   {| site_file := "translation.cc"; site_line := 41; site_format := "Invalid use of API: Begin called before complete or abort"%string; site_args := [] |};
   {| site_file := "translation.cc"; site_line := 48; site_format := "Empty SCSI Command Buffer"%string; site_args := [] |};
   {| site_file := "translation.cc"; site_line := 55; site_format := "Translating command %s with opcode %#x"%string; site_args := [TName; TByte] |};
   {| site_file := "translation.cc"; site_line := 160; site_format := "Bad OpCode: %#x"%string; site_args := [TByte] |};
   {| site_file := "translation.cc"; site_line := 177; site_format := "Invalid use of API: Complete called before Begin"%string; site_args := [] |};
   {| site_file := "translation.cc"; site_line := 183; site_format := "Invalid use of API, completion count %u does not equal command count %u"%string; site_args := [TSize; TU32] |};
   {| site_file := "translation.cc"; site_line := 277; site_format := "Invalid opcode case reached: %u. Please contact SCSI2NVMe devs."%string; site_args := [TByte] |};
   {| site_file := "translation.cc"; site_line := 284; site_format := "Failed to translate back to SCSI"%string; site_args := [] |};
   {| site_file := "unmap.cc"; site_line := 35; site_format := "Malformed unmap command"%string; site_args := [] |};
   {| site_file := "unmap.cc"; site_line := 39; site_format := "Insufficient unmap parameter list length"%string; site_args := [] |};
   {| site_file := "unmap.cc"; site_line := 43; site_format := "Unsupported unmap anchor request"%string; site_args := [] |};
   {| site_file := "unmap.cc"; site_line := 50; site_format := "Malformed unmap parameter list"%string; site_args := [] |};
   {| site_file := "unmap.cc"; site_line := 58; site_format := "Block descriptor list length reported longer than buffer"%string; site_args := [] |};
   {| site_file := "unmap.cc"; site_line := 64; site_format := "Non-divisible unmap block descriptor data length %u"%string; site_args := [TU16] |};
   {| site_file := "unmap.cc"; site_line := 71; site_format := "Unsupported unmap block descriptor count %u"%string; site_args := [TU32] |};
   {| site_file := "unmap.cc"; site_line := 80; site_format := "Failed to read unmap block descriptor"%string; site_args := [] |};
   {| site_file := "unmap.cc"; site_line := 97; site_format := "Failed to cast dataset managment pointer"%string; site_args := [] |};
   {| site_file := "verify.cc"; site_line := 65; site_format := "Malformed Verify Command - ReadValue Failure"%string; site_args := [] |};
   {| site_file := "verify.cc"; site_line := 71; site_format := "Verify Command is a No-Op"%string; site_args := [] |};
   {| site_file := "verify.cc"; site_line := 76; site_format := "Malformed Verify Command - Control Byte NACA is 0b1"%string; site_args := [] |};
   {| site_file := "write.cc"; site_line := 47; site_format := "Invalid WriteProtect Code for PRInfo"%string; site_args := [] |};
   {| site_file := "write.cc"; site_line := 87; site_format := "NVMe write command does not support transfering zero blocks"%string; site_args := [] |};
   {| site_file := "write.cc"; site_line := 119; site_format := "Malformed Write6 Command"%string; site_args := [] |};
   {| site_file := "write.cc"; site_line := 153; site_format := "Malformed Write10 Command"%string; site_args := [] |};
   {| site_file := "write.cc"; site_line := 174; site_format := "Malformed Write12 Command"%string; site_args := [] |};
   {| site_file := "write.cc"; site_line := 196; site_format := "Malformed Write16 Command"%string; site_args := [] |}
  ].

(** ** The messages of the API functions themselves *)
(** translation.cc 39-57: what Begin logs before it translates.  [b0] is the
    first byte of the CDB. *)
Definition Begin_logs (t : Translation) (cdb : span) (b0 : N) : string * list carg :=
  match pipeline_status t with
  | kUninitialized =>
      if len cdb =? 0 then ("Empty SCSI Command Buffer", [])
      else ("Translating command %s with opcode %#x", [AStr (ScsiOpcodeToString b0); AInt (Z.of_N b0)])
  | _ => ("Invalid use of API: Begin called before complete or abort", [])
  end.
(** translation.cc 176-190: what Complete logs when it is misused *)
Definition Complete_logs (t : Translation) (cpls : list N) : option (string * list carg) :=
  match pipeline_status t with
  | kUninitialized => Some ("Invalid use of API: Complete called before Begin", [])
  | _ =>
      if N.of_nat (length cpls) =? nvme_cmd_count t then None
      else Some ("Invalid use of API, completion count %u does not equal command count %u",
                 [ASize (N.of_nat (length cpls)); AUInt (nvme_cmd_count t)])
  end.
(** report_luns.cc 46-56: what ReportLunsToNvme logs for the twelve-byte CDB
    [bs] when it refuses it *)
Definition ReportLuns_logs (bs : list byte) : option (string * list carg) :=
  if Nat.leb 12 (length bs) then
    if byte_at bs 2 <=? 2 then None
    else Some ("Invalid report luns select report %u", [AScopedEnum (byte_at bs 2)])
  else Some ("Malformed ReportLuns command", []).
