(** Specification of the INQUIRY family: the NVMe commands, the standard data
    and the vital product data pages, as byte strings over the bytes of the two
    Identify data structures.  Byte numbers are those of the NVMe base
    specification (Identify Namespace / Identify Controller) and of SPC-4. *)
From Coq Require Import Arith NArith List Lia Bool Init.Byte.
From Verif Require Import Bytes World Common TranslationCls Spec RwSpec.
Import ListNotations.
Local Open Scope list_scope.
Local Open Scope N_scope.

Definition bytes (l : list N) : list byte := map n2b l.

(** NVMe Identify (opcode 06h): CNS in dword 10 *)
Definition identify_sqe (cns nsid prp1 : N) : sqe :=
  {| q_opc := 0x06; q_nsid := nsid; q_prp1 := prp1; q_cdw10 := cns; q_cdw11 := 0; q_cdw12 := 0 |}.

(** the allocator calls of one one-page request that was answered with [p]; a
    zero-page request for metadata follows each *)
Definition page_request (p : N) (evs : list event) : Prop :=
  exists m, evs = [EvAlloc 4096 1 p; EvAlloc 4096 0 m].

(** some one-page request could not be served between [w] and [w'] *)
Definition out_of_pages (w w' : world) : Prop :=
  alloc_cb w = false \/
  exists evs, trace w' = trace w ++ evs /\ In (EvAlloc 4096 1 0) evs.

(** ** CDB *)
Definition inq_evpd (bs : list byte) : N := bits (byte_at bs 1) 0 1.
Definition inq_page (bs : list byte) : N := byte_at bs 2.
Definition inq_alloc_len (bs : list byte) : N := be (slice 3 2 bs).

(** ** Identify Namespace (4096 bytes) *)
Definition ns_nsze (d : list byte) : N := le (slice 0 8 d).
Definition ns_ncap (d : list byte) : N := le (slice 8 8 d).
Definition ns_thin (d : list byte) : N := bits (byte_at d 24) 0 1.
Definition ns_format (d : list byte) : nat := N.to_nat (bits (byte_at d 26) 0 4).
(** DPC: bit 0/1/2 = protection type 1/2/3 supported *)
Definition ns_type (k : N) (d : list byte) : bool := N.testbit (byte_at d 28) (k - 1).
(** DPS bits 3:0: enabled protection type and metadata position *)
Definition ns_dps (d : list byte) : N := bits (byte_at d 29) 0 4.
Definition ns_nguid (d : list byte) : list byte := slice 104 16 d.
Definition ns_eui64 (d : list byte) : list byte := slice 120 8 d.
Definition ns_lbads (d : list byte) : N := byte_at d (128 + 4 * ns_format d + 2).

(** ** Identify Controller (4096 bytes) *)
Definition ct_sn (d : list byte) : list byte := slice 4 20 d.
Definition ct_mn (d : list byte) : list byte := slice 24 40 d.
Definition ct_fr (d : list byte) : list byte := slice 64 8 d.
Definition ct_mdts (d : list byte) : N := byte_at d 77.
Definition ct_dsm (d : list byte) : N := bits (byte_at d 520) 2 1.           (* ONCS bit 2 *)
Definition ct_compare_write (d : list byte) : N := bits (byte_at d 522) 0 1. (* FUSES bit 0 *)
Definition ct_vwc (d : list byte) : N := bits (byte_at d 525) 0 1.

(** ** Standard INQUIRY data (SPC-4 table 150), 36 bytes *)
Definition graphic (b : byte) : bool := (0x21 <=? b2n b) && (b2n b <=? 0x7e).
(** the last four graphic characters, right aligned *)
Definition last4 (fr : list byte) : list byte :=
  let g := filter graphic fr in
  let l := skipn (length g - 4) g in
  repeat x00 (4 - length l) ++ l.
Definition nvme_vendor : list byte := bytes [0x4e; 0x56; 0x4d; 0x65; 0x20; 0x20; 0x20; 0x20]. (* "NVMe    " *)
Definition standard_inquiry (ns ct : list byte) : list byte :=
  bytes [0; 0; 0x06; 0x02; 0x1f; (if ns_dps ns =? 0 then 0 else 1); 0; 0x02]
  ++ nvme_vendor ++ slice 0 16 (ct_mn ct) ++ last4 (ct_fr ct).

(** ** Vital product data *)
Definition vpd_codes : list N := [0x00; 0x80; 0x83; 0x86; 0xb0; 0xb1; 0xb2].

Definition supported_pages : list byte := bytes [0; 0x00; 0; 7] ++ bytes vpd_codes.

(** designator: NGUID if nonzero, else EUI-64 if nonzero *)
Definition nonzero (l : list byte) : bool := existsb (fun b => negb (b2n b =? 0)) l.
Definition designator (ns : list byte) : option (list byte) :=
  if nonzero (ns_nguid ns) then Some (ns_nguid ns)
  else if nonzero (ns_eui64 ns) then Some (ns_eui64 ns) else None.
(** code set binary, association logical unit, designator type EUI-64 *)
Definition designation_descriptor (id : list byte) : list byte :=
  bytes [0x01; 0x02; 0; N.of_nat (length id)] ++ id.

(** hexadecimal digits, most significant first; lower case *)
Definition hexchar (d : N) : byte := n2b (if d <? 10 then 48 + d else 87 + d).
Definition hexdigits (n : nat) (x : N) : list byte :=
  map (fun i => hexchar (x / 16 ^ N.of_nat i mod 16)) (rev (seq 0 n)).
(** groups of four digits separated by "_" and closed by "." *)
Fixpoint grouped (k : nat) (l : list byte) : list byte :=
  match k with
  | O => []
  | S O => firstn 4 l ++ [x2e]
  | S k' => firstn 4 l ++ [x5f] ++ grouped k' (skipn 4 l)
  end.

(** ** Which page answers which request *)
Definition inquiry_cdb (bs : list byte) : Prop := (6 <= length bs)%nat /\ byte_at bs 0 = 0x12.

(** ** Block Limits: 2^MDTS capped at 65536, 0 = no limit reported *)
Definition ct_max_transfer (ct : list byte) : N :=
  if ct_mdts ct =? 0 then 0 else 2 ^ N.min (ct_mdts ct) 16.
Definition block_limits_page (ct : list byte) : list byte :=
  bytes [0; 0xb0; 0x3c; 0;       (* page code; page length, little-endian *)
         0; (if ct_compare_write ct =? 0 then 0 else N.min 255 (ct_max_transfer ct)); 0; 0]
  ++ be_encode 4 (ct_max_transfer ct) ++ repeat x00 8
  ++ be_encode 4 (ct_dsm ct) ++ be_encode 4 (if ct_dsm ct =? 0 then 0 else 256) ++ repeat x00 36.

(** ** Logical Block Provisioning: LBPU (bit 7) and LBPRZ (bits 4:2) of byte 5,
    provisioning type (bits 2:0) of byte 6 *)
Definition provisioning_page (ns ct : list byte) : list byte :=
  bytes (if ct_dsm ct =? 0 then [0; 0xb2; 0; 4; 0; 0; 0; 0]
         else [0; 0xb2; 0; 4; 0; 0x80 + 0x04; (if ns_thin ns =? 0 then 1 else 2); 0])
  ++ repeat x00 56.

(** ** Extended INQUIRY data: byte 4 = ACTIVATE_MICROCODE 10b, SPT, GRD_CHK,
    APP_CHK, REF_CHK; byte 5 UASK_SUP; byte 6 V_SUP; byte 7 LUICLR *)
Definition extended_page (spt : N) (ns ct : list byte) : list byte :=
  bytes [0; 0x86; 0x3c; 0; 0x80 + 8 * spt + (if ns_dps ns =? 0 then 0 else 7); 0x20; ct_vwc ct; 1; 0; 0; 0; 0; 0; 0].
(** SPC-4 table 521: SPT for the supported protection types *)
Definition spc_spt (t1 t2 t3 : bool) : option N :=
  match t1, t2, t3 with
  | true, false, false => Some 0
  | true, true, false => Some 1
  | false, true, false => Some 2
  | true, false, true => Some 3
  | false, false, true => Some 4
  | false, true, true => Some 5
  | true, true, true => Some 7
  | false, false, false => None
  end.
(** what the translator reports: the roles of types 1 and 3 are exchanged *)
Definition code_spt (ns : list byte) : option N := spc_spt (ns_type 3 ns) (ns_type 2 ns) (ns_type 1 ns).

(** ** Block Device Characteristics, as the translator lays it out (its page code
    reads 83h) *)
Definition characteristics_page : list byte := bytes [0; 0x83; 0x3c; 0; 1; 0; 0; 0; 0].

(** ** Unit Serial Number *)
(** number of digits printed for a 64-bit number with "%08lx" *)
Definition significant (d : nat) (x : N) : Prop :=
  (d = 8%nat /\ x < 16 ^ 8) \/ ((8 < d <= 16)%nat /\ 16 ^ N.of_nat (d - 1) <= x < 16 ^ N.of_nat d).
(** the 16 characters that render one 64-bit half: its digits, then, if there
    are fewer than 16, a NUL and whatever bytes [j] were in that memory *)
Definition half (d : nat) (x : N) (j : list byte) : list byte := firstn 16 (hexdigits d x ++ x00 :: j).
Definition nguid_lo (ns : list byte) : N := le (slice 0 8 (ns_nguid ns)).
Definition nguid_hi (ns : list byte) : N := le (slice 8 8 (ns_nguid ns)).

(** ** Device Identification, as the translator lays it out: a 3-byte header *)
Definition device_id_page (id : list byte) : list byte :=
  bytes [0; 0x83; 3 + N.of_nat (length id)] ++ designation_descriptor id.

(** ** A whole INQUIRY.  [lun] and the CDB bytes [bs] go to Begin on any idle
    object; if it is accepted, then whenever the pages named by the two exposed
    Identify commands hold [ns] and [ct] and both commands succeeded, Complete
    returns GOOD, leaves the object idle, and changes memory as [post] says. *)
Definition inquiry_round_trip (lun : N) (bs ns ct : list byte) (buffer : span)
  (post : world -> world -> Prop) : Prop :=
  forall t w cdb b0 t1 r w1,
    idle t -> span_holds w cdb bs -> Begin t cdb b0 lun w = Ret (t1, r) w1 -> accepted t1 ->
    exists p q,
      (p < 2 ^ 64 /\ q < 2 ^ 64 /\
       exposes t1 = [admin 4096 (identify_sqe 0 (nsid_of lun) p); admin 4096 (identify_sqe 1 0 q)]) /\
      forall w2 cpls sense,
        span_holds w2 cdb bs -> bytes_at w2 p ns -> bytes_at w2 q ct -> span_mapped w2 buffer ->
        length cpls = 2%nat -> Forall cpl_ok cpls ->
        exists t2 w3, Complete t1 cpls buffer sense w2 = Ret (t2, api_ok GOOD) w3 /\ idle t2 /\ post w2 w3.

(** the Unit Serial Number page for each kind of namespace; a page of 40
    identifier bytes is always returned, the rest NUL *)
Definition serial_page (lun : N) (ns ct img : list byte) : Prop :=
  if nonzero (ns_nguid ns) then
    exists d0 d1 j0 j1, significant d0 (nguid_lo ns) /\ significant d1 (nguid_hi ns) /\
      length j0 = (32 - d0)%nat /\ length j1 = (16 - d1)%nat /\
      img = bytes [0; 0x80; 0; 40] ++ grouped 8 (half d0 (nguid_lo ns) j0 ++ half d1 (nguid_hi ns) j1)
  else if nonzero (ns_eui64 ns) then
    exists d j, significant d (le (ns_eui64 ns)) /\ length j = (32 - d)%nat /\
      img = bytes [0; 0x80; 0; 20] ++ grouped 4 (half d (le (ns_eui64 ns)) j) ++ repeat x00 20
  else img = bytes [0; 0x80; 0; 30] ++ ct_sn ct ++ [x5f] ++ hexdigits 8 (nsid_of lun) ++ [x2e] ++ repeat x00 10.

(** what identifies a namespace: NGUID, else EUI-64, else serial number and NSID *)
Inductive identity := ByNguid (l : list byte) | ByEui (l : list byte) | BySerial (sn : list byte) (nsid : N).
Definition identity_of (lun : N) (ns ct : list byte) : identity :=
  if nonzero (ns_nguid ns) then ByNguid (ns_nguid ns)
  else if nonzero (ns_eui64 ns) then ByEui (ns_eui64 ns)
  else BySerial (ct_sn ct) (nsid_of lun).

(** PAGE LENGTH of each page *)
Definition vpd_length (page : N) (ns : list byte) : N :=
  match page with
  | 0x00 => 7
  | 0x80 => if nonzero (ns_nguid ns) then 40 else if nonzero (ns_eui64 ns) then 20 else 30
  | 0x83 => match designator ns with Some id => 4 + N.of_nat (length id) | None => 0 end
  | 0xb2 => 4
  | _ => 0x3c
  end.

(** the answer to an INQUIRY: standard data or the requested page; none for a
    page not listed, or one the namespace has no data for *)
Definition inquiry_answer (lun : N) (bs ns ct img : list byte) : Prop :=
  if inq_evpd bs =? 0 then img = standard_inquiry ns ct
  else match inq_page bs with
       | 0x00 => img = supported_pages
       | 0x80 => serial_page lun ns ct img
       | 0x83 => exists id, designator ns = Some id /\ img = device_id_page id
       | 0x86 => exists spt, code_spt ns = Some spt /\ img = extended_page spt ns ct
       | 0xb0 => img = block_limits_page ct
       | 0xb1 => img = characteristics_page
       | 0xb2 => img = provisioning_page ns ct
       | _ => False
       end.
