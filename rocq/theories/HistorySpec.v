(** Specification of "depends only on": CDB lengths and paired runs. *)
From Coq Require Import Arith NArith List Lia Bool Init.Byte.
From Verif Require Import Bytes World Common TranslationCls Spec RwSpec InquirySpec SmallSpec ModeSpec.
Import ListNotations.
Local Open Scope list_scope.
Local Open Scope N_scope.

(** length of the CDB of an opcode, from its group code, the top three bits
    (SPC-4 4.2.5.1); 0 for groups without a fixed length *)
Definition std_cdb_len (opc : N) : nat :=
  match (opc / 32)%N with
  | 0%N => 6 | 1%N => 10 | 2%N => 10 | 4%N => 16 | 5%N => 12 | _ => 0
  end.

(** Two computations have the same observable outcome: both are undefined, or
    both return, leave the same world and the same value of [obs]. *)
Definition same_outcome {A B} (obs : A -> B) (x y : outcome A) : Prop :=
  match x, y with
  | Ret a w, Ret b w' => w = w' /\ obs a = obs b
  | UB _, UB _ => True
  | _, _ => False
  end.

(** what the caller sees of a Begin: its response, and the commands to submit *)
Definition begin_seen (r : Translation * BeginResponse) : BeginResponse * list (bool * list byte) :=
  (snd r, map wire_of (exposes (fst r))).
(** ... and of a Complete *)
Definition complete_seen (r : Translation * CompleteResponse) : CompleteResponse := snd r.

(** the same environment with other contents of uninitialised automatic storage *)
Definition with_junk (w : world) (j : nat -> N -> byte) : world :=
  {| mem := mem w; alloc_cb := alloc_cb w; dealloc_cb := dealloc_cb w; ans := ans w; fill := fill w;
     junk := j; tick := tick w; trace := trace w |}.
