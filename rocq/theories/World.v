(** The environment the library runs in: byte memory, the page allocator
    callbacks, uninitialised storage - and computations over it with undefined
    behaviour as a distinct outcome. *)

From Coq Require Import NArith String List Lia Bool Init.Byte.
From Verif Require Import Bytes Layout.
Import ListNotations.
Local Open Scope N_scope.

(** calls made to the registered page callbacks, oldest first *)
Inductive event :=
| EvAlloc (page_size count addr : N)   (* alloc callback called, returned addr *)
| EvDealloc (addr count : N).          (* dealloc callback called *)

Record world := {
  mem : N -> option byte;          (* mapped bytes; None = not mapped *)
  alloc_cb : bool;                 (* alloc_pages_callback != nullptr *)
  dealloc_cb : bool;               (* dealloc_pages_callback != nullptr *)
  ans : nat -> N -> N -> N;        (* answer of the k-th allocation request *)
  fill : nat -> N -> byte;         (* contents of the pages it returns *)
  junk : nat -> N -> byte;         (* contents of uninitialised stack storage *)
  tick : nat;                      (* allocation requests + stack frames so far *)
  trace : list event
}.

Inductive outcome (A : Type) :=
| Ret (a : A) (w : world)
| UB (reason : string).
Arguments Ret {A}. Arguments UB {A}.

Definition M (A : Type) := world -> outcome A.
Definition ret {A} (a : A) : M A := fun w => Ret a w.
Definition bind {A B} (m : M A) (k : A -> M B) : M B :=
  fun w => match m w with Ret a w' => k a w' | UB s => UB s end.
Definition ub {A} (s : string) : M A := fun _ => UB s.

Notation "x <- m ;; k" := (bind m (fun x => k)) (at level 61, m at next level, right associativity).
Notation "' p <- m ;; k" := (bind m (fun p => k)) (at level 61, p pattern, m at next level, right associativity).

(** ** Memory *)

Fixpoint load_bytes (m : N -> option byte) (a : N) (n : nat) : option (list byte) :=
  match n with
  | O => Some []
  | S n' =>
      match m a, load_bytes m (a + 1) n' with
      | Some b, Some l => Some (b :: l)
      | _, _ => None
      end
  end.

Definition store_bytes (m : N -> option byte) (a : N) (bs : list byte) : N -> option byte :=
  fun x => if (a <=? x) && (x <? a + N.of_nat (length bs))
           then Some (nth (N.to_nat (x - a)) bs x00) else m x.

Definition set_mem (w : world) (m : N -> option byte) : world :=
  {| mem := m; alloc_cb := alloc_cb w; dealloc_cb := dealloc_cb w; ans := ans w; fill := fill w;
     junk := junk w; tick := tick w; trace := trace w |}.

(** read [n] bytes at address [a]; touching an unmapped byte is undefined *)
Definition load (a : N) (n : nat) : M (list byte) :=
  fun w => match load_bytes (mem w) a n with
           | Some l => Ret l w
           | None => UB "read of unmapped memory"
           end.

(** write bytes at address [a]; touching an unmapped byte is undefined *)
Definition store (a : N) (bs : list byte) : M unit :=
  fun w => match load_bytes (mem w) a (length bs) with
           | Some _ => Ret tt (set_mem w (store_bytes (mem w) a bs))
           | None => UB "write to unmapped memory"
           end.

(** ** Page allocator callbacks *)

Definition set_tick (w : world) (k : nat) : world :=
  {| mem := mem w; alloc_cb := alloc_cb w; dealloc_cb := dealloc_cb w; ans := ans w; fill := fill w;
     junk := junk w; tick := k; trace := trace w |}.

Definition log (w : world) (e : event) : world :=
  {| mem := mem w; alloc_cb := alloc_cb w; dealloc_cb := dealloc_cb w; ans := ans w; fill := fill w;
     junk := junk w; tick := tick w; trace := trace w ++ [e] |}.

(** mapping fresh pages at [a] *)
Definition map_pages (m : N -> option byte) (a len : N) (c : N -> byte) : N -> option byte :=
  fun x => if (a <=? x) && (x <? a + len) then Some (c (x - a)) else m x.

(** common.cc 48-51 AllocPages.  The callback is an arbitrary function of the
    request number and its arguments; a non-zero answer makes [page_size*count]
    bytes at that address accessible, with arbitrary contents. *)
Definition AllocPages (page_size count : N) : M N :=
  fun w =>
    if negb (alloc_cb w) then Ret 0 w
    else
      let a := u64 (ans w (tick w) page_size count) in
      let w1 := log (set_tick w (S (tick w))) (EvAlloc page_size count a) in
      let w2 := if a =? 0 then w1
                else set_mem w1 (map_pages (mem w) a (page_size * count) (fill w (tick w))) in
      Ret a w2.

(** common.cc 53-56 DeallocPages.  The model keeps freed pages mapped: use after
    free is not exhibited as UB; page lifetimes are stated over [trace]. *)
Definition DeallocPages (addr count : N) : M unit :=
  fun w => if negb (dealloc_cb w) then Ret tt w else Ret tt (log w (EvDealloc addr count)).

(** [n] bytes of fresh uninitialised automatic storage *)
Definition stack_junk (n : nat) : M (list byte) :=
  fun w => Ret (map (fun i => junk w (tick w) (N.of_nat i)) (seq 0 n)) (set_tick w (S (tick w))).
