(** Vocabulary of the property statements.  Nothing here depends on how the
    translators are written: only on the API types (spans, the object, queue
    entries, the allocator trace) and on bytes. *)
From Coq Require Import Arith NArith String List Lia Bool Init.Byte Permutation.
From Verif Require Import Bytes Layout World Common ModeSenseCmd TranslationCls.
Import ListNotations.
Local Open Scope string_scope.
Local Open Scope list_scope.
Local Open Scope N_scope.

(** ** Memory *)

(** memory holds the bytes [bs] at address [a] *)
Definition bytes_at (w : world) (a : N) (bs : list byte) : Prop :=
  forall i b, nth_error bs i = Some b -> mem w (a + N.of_nat i) = Some b.

(** [n] bytes at [a] are accessible *)
Definition mapped (w : world) (a n : N) : Prop :=
  forall x, a <= x < a + n -> mem w x <> None.

(** a span (pointer and length) whose contents are exactly [bs] *)
Definition span_holds (w : world) (s : span) (bs : list byte) : Prop :=
  len s = N.of_nat (length bs) /\ bytes_at w (ptr s) bs.

Definition span_mapped (w : world) (s : span) : Prop := mapped w (ptr s) (len s).

Definition in_span (s : span) (x : N) : Prop := ptr s <= x < ptr s + len s.

(** [w'] is [w] with [bs] written at [a]: nothing else in memory differs *)
Definition wrote (w w' : world) (a : N) (bs : list byte) : Prop :=
  bytes_at w' a bs /\
  forall x, ~ (a <= x < a + N.of_nat (length bs)) -> mem w' x = mem w x.

Definition same_memory (w w' : world) : Prop := forall x, mem w' x = mem w x.

(** ** What a Begin exposes *)

(** An NVMe submission queue entry: opcode, namespace, first PRP and command
    dwords 10, 11, 12; all other bits zero *)
Record sqe := { q_opc : N; q_nsid : N; q_prp1 : N; q_cdw10 : N; q_cdw11 : N; q_cdw12 : N }.

(** its 64 bytes (NVMe base specification, figure "common command format") *)
Definition sqe_bytes (q : sqe) : list byte :=
  le_encode 1 (q_opc q) ++ repeat x00 3     (* CDW0 *)
  ++ le_encode 4 (q_nsid q)                 (* CDW1 *)
  ++ repeat x00 16                          (* CDW2-5 *)
  ++ le_encode 8 (q_prp1 q)                 (* CDW6-7 *)
  ++ repeat x00 8                           (* CDW8-9 *)
  ++ le_encode 4 (q_cdw10 q)
  ++ le_encode 4 (q_cdw11 q)
  ++ le_encode 4 (q_cdw12 q)
  ++ repeat x00 12.                         (* CDW13-15 *)

(** an exposed command as the caller sees it *)
Record exposed := { x_admin : bool; x_buffer_len : N; x_bytes : list byte }.
Definition view (x : NvmeCmdWrapper) : exposed :=
  {| x_admin := is_admin x; x_buffer_len := buffer_len x; x_bytes := le_encode 64 (cmd x) |}.
Definition exposes (t : Translation) : list exposed := map view (GetNvmeWrappers t).

Definition io (n : N) (q : sqe) : exposed :=
  {| x_admin := false; x_buffer_len := n; x_bytes := sqe_bytes q |}.
Definition admin (n : N) (q : sqe) : exposed :=
  {| x_admin := true; x_buffer_len := n; x_bytes := sqe_bytes q |}.

(** ** Pages *)

(** page runs (address, page count) an object still has to give back *)
Definition held_by (a : Allocation) : list (N * N) :=
  (if data_addr a =? 0 then [] else [(data_addr a, data_page_count a)]) ++
  (if mdata_addr a =? 0 then [] else [(mdata_addr a, mdata_page_count a)]).
Definition held (t : Translation) : list (N * N) :=
  held_by (e0 (allocations t)) ++ held_by (e1 (allocations t)) ++ held_by (e2 (allocations t)).

(** the allocator's ledger: page runs handed out and not returned.  [None] if
    some run was returned that was not outstanding with that very page count *)
Fixpoint remove_run (p : N * N) (l : list (N * N)) : option (list (N * N)) :=
  match l with
  | [] => None
  | q :: l' =>
      if (fst p =? fst q) && (snd p =? snd q) then Some l'
      else option_map (cons q) (remove_run p l')
  end.
Definition ledger_step (o : option (list (N * N))) (e : event) : option (list (N * N)) :=
  match o, e with
  | Some l, EvAlloc _ n a => Some (if a =? 0 then l else (a, n) :: l)
  | Some l, EvDealloc a n => remove_run (a, n) l
  | None, _ => None
  end.
Definition ledger (tr : list event) : option (list (N * N)) := fold_left ledger_step tr (Some []).

(** ** The API object *)

(** no translation in progress, nothing exposed, nothing held *)
Definition idle (t : Translation) : Prop :=
  pipeline_status t = kUninitialized /\ nvme_cmd_count t = 0 /\ held t = [].

(** the last Begin translated / could not translate its CDB *)
Definition accepted (t : Translation) : Prop := pipeline_status t = kSuccess.
Definition rejected (t : Translation) : Prop :=
  pipeline_status t <> kSuccess /\ pipeline_status t <> kUninitialized.

Definition begin_ok (alloc_len : N) : BeginResponse :=
  {| br_status := ApiSuccess; br_alloc_len := alloc_len |}.
Definition api_ok (scsi_status : N) : CompleteResponse :=
  {| cr_status := ApiSuccess; cr_scsi_status := scsi_status |}.
Definition is_api_success (s : ApiStatus) : bool :=
  match s with ApiSuccess => true | ApiFailure => false end.

(** Every (object, world) that some history of API calls can lead to.  The flag
    is "a translation is in progress", computed from the responses only.
    Between calls the environment may change arbitrarily (device DMA, the
    caller's buffers, the allocator), except that it cannot forge entries of
    the trace of this object's allocator calls; [env] is what is assumed of the
    environments the object runs in. *)
Inductive reach (env : world -> Prop) : bool -> Translation -> world -> Prop :=
| reach_new wr w :
    env w -> trace w = [] -> reach env false (Translation_init wr) w
| reach_env b t w w' :
    reach env b t w -> env w' -> trace w' = trace w -> reach env b t w'
| reach_begin b t w cdb buffer lun t' r w' :
    reach env b t w -> Begin t cdb buffer lun w = Ret (t', r) w' ->
    reach env (b || is_api_success (br_status r)) t' w'
| reach_complete b t w cpls buffer sense t' r w' :
    reach env b t w -> Complete t cpls buffer sense w = Ret (t', r) w' ->
    reach env false t' w'
| reach_abort b t w t' w' :
    reach env b t w -> AbortPipeline t w = Ret t' w' -> reach env false t' w'.

Definition any_env : world -> Prop := fun _ => True.

(** page callbacks registered, and a request for zero pages is answered with
    the null address *)
Definition sane_allocator (w : world) : Prop :=
  alloc_cb w = true /\ dealloc_cb w = true /\ forall k page_size, ans w k page_size 0 = 0.

(** ** NVMe completions *)

(** status code type and status code of a 16-byte completion entry (NVMe base
    specification: dword 3, bits 27:25 and 24:17) *)
Definition cpl_sct (c : N) : N := bits c (96 + 25) 3.
Definition cpl_sc (c : N) : N := bits c (96 + 17) 8.
Definition cpl_dw0 (c : N) : N := bits c 0 32.
Definition cpl_ok (c : N) : Prop := cpl_sct c = 0 /\ cpl_sc c = 0.

(** ** Sense data and SCSI status *)

Definition GOOD : N := 0x00.
Definition CHECK_CONDITION : N := 0x02.
Definition TASK_ABORTED : N := 0x40.

(** 8 bytes of descriptor-format sense data (SPC-4 table 28) for current
    errors: response code, sense key, ASC, ASCQ, additional sense length 0 *)
Definition sense_says (key asc ascq : N) (bs : list byte) : Prop :=
  length bs = 8%nat /\ bits (byte_at bs 0) 0 7 = 0x72 /\ bits (byte_at bs 1) 0 4 = key /\
  byte_at bs 2 = asc /\ byte_at bs 3 = ascq /\ byte_at bs 7 = 0.
Definition sense_reserved_zero (bs : list byte) : Prop :=
  bits (byte_at bs 0) 7 1 = 0 /\ bits (byte_at bs 1) 4 4 = 0 /\
  byte_at bs 4 = 0 /\ byte_at bs 5 = 0 /\ byte_at bs 6 = 0.

(** the NVMe to SCSI status translation: (SCT, SC) -> (status, sense key, ASC,
    ASCQ); pairs not listed are CHECK CONDITION / NO SENSE / 00h / 00h *)
Definition status_table : list ((N * N) * (N * N * N * N)) :=
  [ (* generic command status *)
    ((0, 0x00), (GOOD, 0, 0, 0));
    ((0, 0x01), (CHECK_CONDITION, 5, 0x20, 0));   (* invalid opcode: ILLEGAL REQUEST *)
    ((0, 0x02), (CHECK_CONDITION, 5, 0x24, 0));   (* invalid field *)
    ((0, 0x04), (CHECK_CONDITION, 3, 0, 0));      (* data transfer error: MEDIUM ERROR *)
    ((0, 0x05), (TASK_ABORTED, 0xb, 0x0b, 0x08)); (* aborted, power loss *)
    ((0, 0x06), (CHECK_CONDITION, 4, 0x44, 0));   (* internal device error *)
    ((0, 0x07), (TASK_ABORTED, 0xb, 0, 0));       (* abort requested *)
    ((0, 0x08), (TASK_ABORTED, 0xb, 0, 0));       (* SQ deletion *)
    ((0, 0x09), (TASK_ABORTED, 0xb, 0, 0));       (* failed fused *)
    ((0, 0x0a), (TASK_ABORTED, 0xb, 0, 0));       (* missing fused *)
    ((0, 0x0b), (CHECK_CONDITION, 5, 0x20, 9));   (* invalid namespace or format *)
    ((0, 0x80), (CHECK_CONDITION, 5, 0x21, 0));   (* LBA out of range *)
    ((0, 0x82), (CHECK_CONDITION, 2, 0x04, 0));   (* namespace not ready *)
    (* command specific status *)
    ((1, 0x00), (CHECK_CONDITION, 5, 0, 0));      (* completion queue invalid *)
    ((1, 0x0a), (CHECK_CONDITION, 5, 0x31, 1));   (* invalid format *)
    ((1, 0x80), (CHECK_CONDITION, 5, 0x24, 0));   (* conflicting attributes *)
    (* media and data integrity errors *)
    ((2, 0x80), (CHECK_CONDITION, 3, 0x03, 0));   (* write fault *)
    ((2, 0x81), (CHECK_CONDITION, 3, 0x11, 0));   (* unrecovered read error *)
    ((2, 0x82), (CHECK_CONDITION, 3, 0x10, 1));   (* guard check *)
    ((2, 0x83), (CHECK_CONDITION, 3, 0x10, 2));   (* application tag check *)
    ((2, 0x84), (CHECK_CONDITION, 3, 0x10, 3));   (* reference tag check *)
    ((2, 0x85), (CHECK_CONDITION, 0xe, 0x1d, 0)); (* compare failure: MISCOMPARE *)
    ((2, 0x86), (CHECK_CONDITION, 5, 0x20, 9)) ]. (* access denied *)

Fixpoint assoc2 (k : N * N) (l : list ((N * N) * (N * N * N * N))) : option (N * N * N * N) :=
  match l with
  | [] => None
  | (k', v) :: l' => if (fst k =? fst k') && (snd k =? snd k') then Some v else assoc2 k l'
  end.
Definition scsi_status_of (sct sc : N) : N * N * N * N :=
  match assoc2 (sct, sc) status_table with Some v => v | None => (CHECK_CONDITION, 0, 0, 0) end.
