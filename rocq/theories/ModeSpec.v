(** Specification of MODE SENSE: the NVMe commands and the mode parameter data.
    Byte numbers are those of SPC-4 / SBC-3 and the NVMe base specification. *)
From Coq Require Import Arith NArith List Lia Bool Init.Byte.
From Verif Require Import Bytes World Common TranslationCls Spec RwSpec InquirySpec SmallSpec.
Import ListNotations.
Local Open Scope list_scope.
Local Open Scope N_scope.

(** ** MODE SENSE(6) CDB *)
Definition mode6_cdb (bs : list byte) : Prop := (6 <= length bs)%nat /\ byte_at bs 0 = 0x1a.
Definition ms_dbd (bs : list byte) : bool := N.testbit (byte_at bs 1) 3.
Definition ms_page (bs : list byte) : N := bits (byte_at bs 2) 0 6.
Definition ms_pc (bs : list byte) : N := bits (byte_at bs 2) 6 2.

(** Caching 08h, Control 0Ah, Power Condition 1Ah, all pages 3Fh *)
Definition known_page (p : N) : bool := (p =? 0x08) || (p =? 0x0a) || (p =? 0x1a) || (p =? 0x3f).
Definition needs_cache (p : N) : bool := (p =? 0x08) || (p =? 0x3f).
(** page control -> Get Features SEL: current, saved (for "changeable"),
    default; "saved" values are not offered *)
Definition sel_of (pc : N) : option N :=
  match pc with 0 => Some 0 | 1 => Some 2 | 2 => Some 1 | _ => None end.
Definition mode_ok (page pc : N) : bool :=
  known_page page && (negb (needs_cache page) || match sel_of pc with Some _ => true | None => false end).

(** NVMe Get Features (0Ah), FID 06h Volatile Write Cache, SEL in bits 10:8 *)
Definition get_features_sqe (nsid sel : N) : sqe :=
  {| q_opc := 0x0a; q_nsid := nsid; q_prp1 := 0; q_cdw10 := 0x06 + sel * 256; q_cdw11 := 0; q_cdw12 := 0 |}.
(** the part of an exposed command the caller has to submit *)
Definition wire_of (x : exposed) : bool * list byte := (x_admin x, x_bytes x).
Definition admin_wire (q : sqe) : bool * list byte := (true, sqe_bytes q).
Definition cache_cmds (lun page pc : N) : list sqe :=
  if needs_cache page then
    match sel_of pc with Some sel => [get_features_sqe (nsid_of lun) sel] | None => [] end
  else [].

(** ** Mode parameter data *)
Definition caching_page (wce : bool) : list byte :=
  bytes [0x08; 0x12; (if wce then 0x84 else 0x80)] ++ repeat x00 17.   (* IC bit 7, WCE bit 2 *)
Definition control_page : list byte := bytes [0x0a; 0x0a; 0x06; 0x02; 0; 0x40; 0; 0; 0xff; 0xff; 0; 0].
Definition power_page : list byte := bytes [0x1a; 0x26] ++ repeat x00 38.
Definition mode_pages (page : N) (wce : bool) : list (list byte) :=
  if page =? 0x08 then [caching_page wce]
  else if page =? 0x0a then [control_page]
  else if page =? 0x1a then [power_page]
  else [caching_page wce; control_page; power_page].
(** short LBA block descriptor: number of blocks, reserved, block length *)
Definition short_descriptor (ns : list byte) : list byte :=
  be_encode 4 (ns_ncap ns) ++ [x00] ++ be_encode 3 (2 ^ ns_lbads ns).
Definition long_descriptor (ns : list byte) : list byte :=
  be_encode 8 (ns_ncap ns) ++ repeat x00 4 ++ be_encode 4 (2 ^ ns_lbads ns).
(** mode parameter header(6): MODE DATA LENGTH counts everything after itself;
    DPOFUA = bit 4 of byte 2 *)
Definition total (l : list (list byte)) : N := N.of_nat (length (concat l)).
Definition header6 (rest : list (list byte)) (bdl : N) : list byte := bytes [3 + total rest; 0; 0x10; bdl].
Definition header10 (rest : list (list byte)) (longlba bdl : N) : list byte :=
  be_encode 2 (6 + total rest) ++ bytes [0; 0x10; longlba; 0] ++ be_encode 2 bdl.

(** the pieces of the response, in order *)
Definition mode6_data (descr : option (list byte)) (page : N) (wce : bool) : list (list byte) :=
  match descr with
  | None => header6 (mode_pages page wce) 0 :: mode_pages page wce
  | Some d => header6 (d :: mode_pages page wce) (N.of_nat (length d)) :: d :: mode_pages page wce
  end.
(** what a buffer of [n] bytes receives: the pieces up to the first that does
    not fit *)
Fixpoint fitting (n : N) (l : list (list byte)) : list byte :=
  match l with
  | [] => []
  | p :: l' => if N.of_nat (length p) <=? n then p ++ fitting (n - N.of_nat (length p)) l' else []
  end.

(** ** MODE SENSE(10) *)
Definition ms10_llbaa (bs : list byte) : bool := N.testbit (byte_at bs 1) 4.
Definition mode10_data (long : bool) (descr : option (list byte)) (page : N) (wce : bool) : list (list byte) :=
  let l := if long then 1 else 0 in
  match descr with
  | None => header10 (mode_pages page wce) l 0 :: mode_pages page wce
  | Some d => header10 (d :: mode_pages page wce) l (N.of_nat (length d)) :: d :: mode_pages page wce
  end.
