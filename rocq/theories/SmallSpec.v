(** Specification of READ CAPACITY(10), REPORT LUNS, REQUEST SENSE and
    MAINTENANCE IN.  Byte numbers are those of SBC-3, SPC-4 and the NVMe base
    specification. *)
From Coq Require Import Arith NArith List Lia Bool Init.Byte.
From Verif Require Import Bytes World Common TranslationCls Spec RwSpec InquirySpec.
Import ListNotations.
Local Open Scope list_scope.
Local Open Scope N_scope.

(** ** Commands that fetch one page *)

(** Begin on CDB [cdb] answers alloc_len [al] and either exposes the single
    admin command [q p] where [p] is the page the allocator gave, or refuses
    because no page was to be had. *)
Definition one_page_begin (t : Translation) (cdb buffer : span) (lun : N) (w : world)
  (al : N) (q : N -> sqe) : Prop :=
  exists t' w', Begin t cdb buffer lun w = Ret (t', begin_ok al) w' /\
    ((accepted t' /\ exists p evs, p <> 0 /\ page_request p evs /\ trace w' = trace w ++ evs /\
        exposes t' = [admin 4096 (q p)] /\ In (p, 1) (held t')) \/
     (out_of_pages w w' /\ rejected t' /\ exposes t' = [] /\ held t' = [])).

(** the page at [p] and the caller's buffer do not overlap *)
Definition apart (p : N) (buffer : span) : Prop :=
  p + 4096 <= ptr buffer \/ ptr buffer + len buffer <= p.

(** The whole command: if Begin accepts, then once the page holds [page] and the
    command succeeded, Complete is GOOD, leaves the object idle and changes
    memory as [post] says. *)
Definition page_round_trip (lun : N) (bs : list byte) (q : N -> sqe) (page : list byte) (buffer : span)
  (post : world -> world -> Prop) : Prop :=
  forall t w cdb b0 t1 r w1,
    idle t -> span_holds w cdb bs -> Begin t cdb b0 lun w = Ret (t1, r) w1 -> accepted t1 ->
    exists p,
      (p < 2 ^ 64 /\ exposes t1 = [admin 4096 (q p)]) /\
      forall w2 cpl sense,
        span_holds w2 cdb bs -> bytes_at w2 p page -> span_mapped w2 buffer -> apart p buffer -> cpl_ok cpl ->
        exists t2 w3, Complete t1 [cpl] buffer sense w2 = Ret (t2, api_ok GOOD) w3 /\ idle t2 /\ post w2 w3.

(** ** READ CAPACITY(10) *)
Definition read_capacity_cdb (bs : list byte) : Prop := (10 <= length bs)%nat /\ byte_at bs 0 = 0x25.
Definition naca (i : nat) (bs : list byte) : N := bits (byte_at bs i) 2 1.   (* CONTROL byte, bit 2 *)
Definition capacity_data (lba block : N) : list byte := be_encode 4 lba ++ be_encode 4 block.
(** SBC-3 5.13: RETURNED LOGICAL BLOCK ADDRESS is the address of the last block *)
Definition last_lba (ns : list byte) : N := N.min (ns_nsze ns - 1) 0xffffffff.
Definition block_size_ok (ns : list byte) : Prop := 9 <= ns_lbads ns <= 31.

(** ** REPORT LUNS *)
Definition report_luns_cdb (bs : list byte) : Prop := (12 <= length bs)%nat /\ byte_at bs 0 = 0xa0.
Definition select_report (bs : list byte) : N := byte_at bs 2.
Definition report_alloc_len (bs : list byte) : N := be (slice 6 4 bs).
(** Active Namespace ID list: 1024 little-endian ids, ended by the first zero *)
Definition id_list (page : list byte) : list N := map (fun i => le (slice (4 * i) 4 page)) (seq 0 1024).
Fixpoint until_zero (l : list N) : list N :=
  match l with
  | [] => []
  | x :: l' => if x =? 0 then [] else x :: until_zero l'
  end.
Definition active_namespaces (page : list byte) : list N := until_zero (id_list page).
(** LUN LIST LENGTH, reserved, then one 8-byte LUN per namespace *)
Definition lun_list (list_length : N) (ids : list N) : list byte :=
  be_encode 4 list_length ++ repeat x00 4 ++ concat (map (fun id => be_encode 8 (id - 1)) ids).
(** how many LUNs the translator puts in a buffer of [n] bytes (the room after
    the header is kept in 32 bits) *)
Definition luns_that_fit (n : N) : N := ((n - 8) mod 2 ^ 32) / 8.
Definition reported (n : N) (ids : list N) : list N := firstn (N.to_nat (luns_that_fit n)) ids.

(** ** REQUEST SENSE *)
Definition request_sense_cdb (bs : list byte) : Prop := (6 <= length bs)%nat /\ byte_at bs 0 = 0x03.
(** descriptor format, NO SENSE / fixed format, NO SENSE *)
Definition no_sense (desc : N) : list byte :=
  if desc =? 1 then bytes [0x72] ++ repeat x00 7 else bytes [0x70] ++ repeat x00 17.

(** ** MAINTENANCE IN / REPORT SUPPORTED OPERATION CODES *)
Definition maintenance_in_cdb (bs : list byte) : Prop := (12 <= length bs)%nat /\ byte_at bs 0 = 0xa3.
(** one-command parameter data with SUPPORT = 001b, not supported *)
Definition not_supported : list byte := bytes [0; 1; 0; 0].
(** the request the translator documents as supported: REPORT SUPPORTED
    OPERATION CODES (service action 0Ch), REPORTING OPTIONS 1, REQUESTED
    OPERATION CODE 93h (WRITE SAME(16)) *)
Definition asks_write_same16 (bs : list byte) : Prop :=
  bits (byte_at bs 1) 0 5 = 0x0c /\ bits (byte_at bs 2) 0 3 = 1 /\ byte_at bs 3 = 0x93.
