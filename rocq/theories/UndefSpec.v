(** Specification: when Complete has undefined behaviour. *)
From Coq Require Import Arith NArith List Bool Init.Byte.
From Verif Require Import Bytes World Common TranslationCls Spec RwSpec InquirySpec SmallSpec ModeSpec.
Import ListNotations.
Local Open Scope list_scope.
Local Open Scope N_scope.

(** Answering the accepted CDB [bs] into a buffer of [n] bytes, when the device
    has put [page] into the page the object holds (if it holds one):
    - MODE SENSE(6) without block descriptor for a page that needs no Get Features:
      no command, no completion, but the first completion is read;
    - MODE SENSE(6) with block descriptor, when the header fits: the block size
      exponent of the namespace is 32 or more (an int is shifted by it);
    - MODE SENSE(10) (accepted only for page codes 0, 1 and 2, which it does not
      know), when the header fits: the same shift, or the value of a function
      that ends without return is used.  The latter is not reached when the
      block descriptor does not fit. *)
Definition complete_undefined (bs page : list byte) (n : N) : bool :=
  if byte_at bs 0 =? 0x1a then
    if ms_dbd bs then (ms_page bs =? 0x0a) || (ms_page bs =? 0x1a)
    else (4 <=? n) && (32 <=? ns_lbads page)
  else if byte_at bs 0 =? 0x5a then
    (8 <=? n) && (ms_dbd bs || (32 <=? ns_lbads page) || (8 + (if N.testbit (byte_at bs 1) 4 then 16 else 8) <=? n))
  else false.
