(** Specification: which requests Begin accepts, and how many bytes of response
    it announces. *)
From Coq Require Import Arith NArith List Bool Init.Byte.
From Verif Require Import Bytes World Spec RwSpec InquirySpec SmallSpec ModeSpec UnmapSpec.
Import ListNotations.
Local Open Scope list_scope.
Local Open Scope N_scope.

(** the answers to the requests for one 4096-byte page, in order (0 = refused) *)
Definition page_answers (evs : list event) : list N :=
  flat_map (fun e => match e with EvAlloc s n p => if (s =? 4096) && (n =? 1) then [p] else [] | _ => [] end) evs.
Definition answered (w w' : world) (ps : list N) : Prop :=
  exists evs, trace w' = trace w ++ evs /\ page_answers evs = ps.
(** exactly [k] pages were asked for and all were given *)
Definition given (k : nat) (ps : list N) : bool := Nat.eqb (length ps) k && forallb (fun p => negb (p =? 0)) ps.
(** a page was refused, and asked for again and given *)
Definition given_at_second (ps : list N) : bool :=
  match ps with [0; p] => negb (p =? 0) | _ => false end.

(** the pages given, as entries of the page ledger *)
Definition given_pages (ps : list N) : list (N * N) := map (fun p => (p, 1)) (filter (fun p => negb (p =? 0)) ps).

Definition at_least (k : nat) (bs : list byte) : bool := Nat.leb k (length bs).
Definition defined {A} (o : option A) : bool := match o with Some _ => true | None => false end.
Definition read_acceptable (f : rw_form) (bs : list byte) (n : N) : bool :=
  at_least (rw_len f) bs && (1 <=? rw_blocks f bs) && (rw_blocks f bs <=? 65535) && defined (read_prinfo f bs) && (rw_blocks f bs * 4096 <=? n).
Definition write_acceptable (f : rw_form) (bs : list byte) : bool :=
  at_least (rw_len f) bs && (1 <=? rw_blocks f bs) && defined (write_prinfo f bs).
Definition no_naca (i : nat) (bs : list byte) : bool := negb (N.testbit (byte_at bs i) 2).
Definition unmap_acceptable (bs pl : list byte) : bool :=
  at_least 10 bs && negb (unmap_anchor bs) && (8 <=? unmap_list_length bs) &&
  (descriptor_bytes pl mod 16 =? 0) && (1 <=? descriptor_bytes pl / 16) && (descriptor_bytes pl / 16 <=? 256) &&
  (8 + descriptor_bytes pl <=? N.of_nat (length pl)).

(** the CDB [bs], with parameter data [pl] and a buffer of [n] bytes, when the
    requests for pages were answered with [ps].  The entries for UNMAP (42h) and
    MODE SENSE(10) (5Ah) describe what falling through the missing breaks does. *)
Definition acceptable (bs pl : list byte) (n : N) (ps : list N) : bool :=
  at_least 1 bs &&
  match byte_at bs 0 with
  | 0x00 | 0x35 => given 0 ps                                              (* TEST UNIT READY, SYNCHRONIZE CACHE *)
  | 0x03 => at_least 6 bs && no_naca 5 bs                                  (* REQUEST SENSE *)
  | 0x08 => read_acceptable RW6 bs n | 0x28 => read_acceptable RW10 bs n
  | 0xa8 => read_acceptable RW12 bs n | 0x88 => read_acceptable RW16 bs n
  | 0x0a => write_acceptable RW6 bs | 0x2a => write_acceptable RW10 bs
  | 0xaa => write_acceptable RW12 bs | 0x8a => write_acceptable RW16 bs
  | 0x2f => at_least 10 bs && negb (be (slice 7 2 bs) =? 0) && no_naca 9 bs  (* VERIFY(10) *)
  | 0x12 => at_least 6 bs && given 2 ps                                    (* INQUIRY *)
  | 0x1a => at_least 6 bs && mode_ok (ms_page bs) (ms_pc bs) && (ms_dbd bs || given 1 ps)
  | 0x25 => at_least 10 bs && no_naca 9 bs && given 1 ps                   (* READ CAPACITY(10) *)
  | 0xa0 | 0xa3 => at_least 12 bs && (byte_at bs 2 <=? 2) && given 1 ps    (* REPORT LUNS, MAINTENANCE IN *)
  | 0x5a => at_least 12 bs && (byte_at bs 2 <=? 2) && (if ms_dbd bs then given 1 ps else given_at_second ps)
  | 0x42 => at_least 6 bs && mode_ok (ms_page bs) (ms_pc bs) &&
            (ms_dbd bs || if unmap_acceptable bs pl then given_at_second ps else given 1 ps)
  | _ => false
  end.

(** the announced number of response bytes *)
Definition promised (bs : list byte) : N :=
  match byte_at bs 0 with
  | 0x08 => rw_blocks RW6 bs * 4096 | 0x28 => rw_blocks RW10 bs * 4096
  | 0xa8 => rw_blocks RW12 bs * 4096 | 0x88 => rw_blocks RW16 bs * 4096
  | 0x03 | 0x1a | 0x42 => byte_at bs 4
  | 0x12 => be (slice 3 2 bs)
  | 0x25 => 8
  | 0xa0 | 0xa3 | 0x5a => be (slice 6 4 bs)
  | _ => 0
  end.

(** the number of response bytes announced whether or not the request is
    accepted: it is read off the CDB before most of the checks *)
Definition announced (bs : list byte) : N :=
  let read f := if at_least (rw_len f) bs && (1 <=? rw_blocks f bs) && (rw_blocks f bs <=? 65535) then rw_blocks f bs * 4096 else 0 in
  let report k :=
    if at_least 12 bs then
      if byte_at bs 2 <=? 2 then be (slice 6 4 bs)
      else if (byte_at bs 3 =? 0x93) && (byte_at bs 2 mod 8 =? 1) then 4 else k
    else k in
  match byte_at bs 0 with
  | 0x08 => read RW6 | 0x28 => read RW10 | 0xa8 => read RW12 | 0x88 => read RW16
  | 0x03 => if at_least 6 bs && no_naca 5 bs then byte_at bs 4 else 0
  | 0x1a | 0x42 => if at_least 6 bs then byte_at bs 4 else 0
  | 0x12 => if at_least 6 bs then be (slice 3 2 bs) else 0
  | 0x25 => if at_least 10 bs && no_naca 9 bs then 8 else 0
  | 0xa0 => if at_least 12 bs && (byte_at bs 2 <=? 2) then be (slice 6 4 bs) else 0
  | 0xa3 => report 0
  | 0x5a => report (if at_least 10 bs then be (slice 7 2 bs) else 0)
  | _ => 0
  end.

(** ** what the initiator is told *)
(** SCSI status, sense key and codes for the completions of all the commands:
    those of the first command that failed *)
Fixpoint completed_with (cpls : list N) : N * N * N * N :=
  match cpls with
  | [] => (GOOD, 0, 0, 0)
  | c :: cs => if (cpl_sct c =? 0) && (cpl_sc c =? 0) then completed_with cs else scsi_status_of (cpl_sct c) (cpl_sc c)
  end.
(** [None]: aborted because the announced length exceeds the [n] bytes of the
    data buffer *)
Definition verdict (bs pl : list byte) (n : N) (ps cpls : list N) : option (N * N * N * N) :=
  if n <? announced bs then None
  else if acceptable bs pl n ps then Some (completed_with cpls)
  else Some (CHECK_CONDITION, 5, 0x24, 0).
