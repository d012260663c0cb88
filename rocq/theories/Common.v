(** Model of lib/translator/common.h and common.cc. *)

From Coq Require Import NArith String List Lia Bool Init.Byte.
From Verif Require Import Bytes Layout World ScsiDefs NvmeDefs.
Import ListNotations.
Local Open Scope N_scope.
Local Open Scope string_scope.
Local Open Scope list_scope.
Local Open Scope N_scope.

(** common.h 36-42 enum StatusCode *)
Inductive StatusCode := kSuccess | kUninitialized | kInvalidInput | kNoTranslation | kFailure.

Definition is_success (s : StatusCode) : bool := match s with kSuccess => true | _ => false end.
Definition is_failure (s : StatusCode) : bool := match s with kFailure => true | _ => false end.
Definition is_uninitialized (s : StatusCode) : bool := match s with kUninitialized => true | _ => false end.

(** common.h 44-54 struct Allocation *)
Record Allocation := {
  data_addr : N; data_page_count : N; mdata_addr : N; mdata_page_count : N
}.
Definition zero_alloc : Allocation :=
  {| data_addr := 0; data_page_count := 0; mdata_addr := 0; mdata_page_count := 0 |}.

(** common.h 56-60 struct NvmeCmdWrapper; [cmd] is the 64-byte queue entry as a
    number *)
Record NvmeCmdWrapper := { cmd : N; buffer_len : N; is_admin : bool }.

Definition set_cmd (x : NvmeCmdWrapper) (c : N) : NvmeCmdWrapper :=
  {| cmd := c; buffer_len := buffer_len x; is_admin := is_admin x |}.
Definition set_buffer_len (x : NvmeCmdWrapper) (n : N) : NvmeCmdWrapper :=
  {| cmd := cmd x; buffer_len := n; is_admin := is_admin x |}.
Definition set_is_admin (x : NvmeCmdWrapper) (b : bool) : NvmeCmdWrapper :=
  {| cmd := cmd x; buffer_len := buffer_len x; is_admin := b |}.

(** common.h 105-131 class Span: pointer and length.  [npos] is omitted: the
    default argument means "to the end". *)
Record span := { ptr : N; len : N }.
Definition null_span : span := {| ptr := 0; len := 0 |}.

(** common.h 121-125 Span::subspan(pos) with len = npos *)
Definition subspan (s : span) (pos : N) : span :=
  if len s <=? pos then null_span else {| ptr := ptr s + pos; len := len s - pos |}.

(** common.h 121-125 Span::subspan(pos, len) *)
Definition subspan_n (s : span) (pos n : N) : span :=
  if len s <=? pos then null_span
  else {| ptr := ptr s + pos; len := if len s - pos <? n then len s - pos else n |}.

(** common.h 120 Span::operator[]: no bounds check; reading past the span is
    undefined *)
Definition span_at (s : span) (i : N) : M N :=
  if i <? len s then l <- load (ptr s + i) 1 ;; ret (le l) else ub "span index out of range".

(** common.h 133-139 ReadValue<T>: None models [return false] *)
Definition ReadValue (l : layout) (s : span) : M (option N) :=
  if len s <? N.of_nat (sizeof l) then ret None
  else bs <- load (ptr s) (sizeof l) ;; ret (Some (le bs)).

(** common.h 141-148 WriteValue(data, out, num_bytes): [data] is the object
    representation *)
Definition WriteValue_n (data : list byte) (s : span) (num_bytes : nat) : M bool :=
  if (len s <? N.of_nat num_bytes) || (Nat.ltb (length data) num_bytes) then ret false
  else _ <- store (ptr s) (firstn num_bytes data) ;; ret true.

Definition WriteValue (data : list byte) (s : span) : M bool :=
  WriteValue_n data s (length data).

(** common.cc 107-128 Allocation::SetPages *)
Definition SetPages (al : Allocation) (page_size dcount mcount : N) : M (StatusCode * Allocation) :=
  if (negb (dcount =? 0) && negb (data_addr al =? 0)) ||
     (negb (mcount =? 0) && negb (mdata_addr al =? 0))
  then ret (kFailure, al)
  else
    da <- AllocPages page_size dcount ;;
    ma <- AllocPages page_size mcount ;;
    let al' := {| data_addr := da; data_page_count := dcount;
                  mdata_addr := ma; mdata_page_count := mcount |} in
    if (negb (dcount =? 0) && (da =? 0)) || (negb (mcount =? 0) && (ma =? 0))
    then ret (kFailure, al')
    else ret (kSuccess, al').

(** the object representation of an [n]-byte unsigned integer on a little- or
    big-endian host *)
Definition host_bytes (little : bool) (n : nat) (x : N) : list byte :=
  if little then le_encode n x else be_encode n x.

(** common.cc 64-70 IsLittleEndian: the first byte of the representation of a
    uint32_t 42, as run on a host of the given endianness *)
Definition IsLittleEndian (host_little : bool) : bool :=
  le (firstn 1 (host_bytes host_little 4 42)) =? 42.

(** common.cc 72-107: byte order helpers; [little] is the answer of
    IsLittleEndian().  The rest of the model fixes a little-endian host. *)
Definition htonl_h (little : bool) (x : N) : N := if little then bswap 4 x else u32 x.
Definition htonll_h (little : bool) (value : N) : N :=
  if little then
    let high_bits := htonl_h little (u32 (N.shiftr value 32)) in
    let low_bits := htonl_h little (u32 (N.land value 0xffffffff)) in
    N.lor (u64 (N.shiftl low_bits 32)) high_bits
  else value.
Definition htols_h (little : bool) (x : N) : N := if little then x else bswap 2 x.
Definition htoll_h (little : bool) (x : N) : N := if little then x else bswap 4 x.
Definition htolll_h (little : bool) (x : N) : N := if little then x else bswap 8 x.

(** little-endian host *)
Definition ntohs (x : N) : N := bswap 2 x.
Definition htons (x : N) : N := bswap 2 x.
Definition ntohl (x : N) : N := bswap 4 x.
Definition htonl (x : N) : N := bswap 4 x.
Definition htonll (x : N) : N := htonll_h true x.
Definition ntohll (x : N) : N := htonll x.
Definition htoll (x : N) : N := htoll_h true x.
Definition ltohl (x : N) : N := htoll_h true x.
Definition ltohll (x : N) : N := htolll_h true x.
Definition bswap_32 (x : N) : N := bswap 4 x.
Definition bswap_64 (x : N) : N := bswap 8 x.

(** common.h 150-156 struct ScsiStatus *)
Record ScsiStatus := { st_status : N; st_sense_key : N; st_asc : N; st_ascq : N }.

(** common.cc 202-217 FillSenseBuffer: [dfsd] is not initialised *)
Definition FillSenseBuffer (sense : span) (s : ScsiStatus) : M bool :=
  j <- stack_junk (sizeof DescriptorFormatSenseData) ;;
  let d0 := le j in
  let d1 := set DescriptorFormatSenseData "response_code" kCurrentDescriptorError d0 in
  let d2 := set DescriptorFormatSenseData "sense_key" (st_sense_key s) d1 in
  let d3 := set DescriptorFormatSenseData "additional_sense_code" (st_asc s) d2 in
  let d4 := set DescriptorFormatSenseData "additional_sense_code_qualifier" (st_ascq s) d3 in
  let d5 := set DescriptorFormatSenseData "additional_sense_length" 0 d4 in
  WriteValue (repr DescriptorFormatSenseData d5) sense.

(** common.h 183-195 SafePointerCastRead<T> on a span made from a PRP pointer
    and sizeof(T): the size check always passes, the structs are packed so the
    alignment check always passes; the result is the address itself.  There is
    no null check.  Members are then read through the pointer: *)
Definition rd_field (l : layout) (s : string) (base : N) : M N :=
  match lay_find l s with
  | Some (o, w) =>
      let first := o / 8 in
      let last := (o + w - 1) / 8 in
      bs <- load (base + first) (N.to_nat (last - first + 1)) ;;
      ret (bits (le bs) (o - 8 * first) w)
  | None => ub "no such field"
  end.
