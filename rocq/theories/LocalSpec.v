(** What it means for a call to stay within the memory it was given. *)
From Coq Require Import NArith List Init.Byte.
From Verif Require Import World Common Spec.
Import ListNotations.
Local Open Scope N_scope.

(** the two worlds differ at most in the contents of memory *)
Definition same_env (w w2 : world) : Prop :=
  alloc_cb w2 = alloc_cb w /\ dealloc_cb w2 = dealloc_cb w /\ ans w2 = ans w /\ fill w2 = fill w /\
  junk w2 = junk w /\ tick w2 = tick w /\ trace w2 = trace w.

(** [w2] is [w] with the memory [e] added wherever [w] has none *)
Definition with_more (e : N -> option byte) (w w2 : world) : Prop :=
  same_env w w2 /\ forall x, mem w2 x = match mem w x with Some b => Some b | None => e x end.

(** A call that works goes on working in the same way when more memory is
    there, and leaves that memory alone. *)
Definition frame_safe {A} (m : M A) : Prop := forall e w w2 a w',
  with_more e w w2 -> m w = Ret a w' -> exists w2', m w2 = Ret a w2' /\ with_more e w' w2'.

(** the part of a world's memory within a set *)
Definition only (S : N -> bool) (w : world) : world := set_mem w (fun x => if S x then mem w x else None).

(** [w2] agrees with [w1] on the bytes of a set *)
Definition agree_on (S : N -> Prop) (w1 w2 : world) : Prop := forall x, S x -> mem w2 x = mem w1 x.

(** Two runs of a call have done the same: every byte is the same afterwards or
    was left alone by both. *)
Definition same_effect (w1 w1' w2 w2' : world) : Prop :=
  same_env w1' w2' /\
  forall x, mem w2' x = mem w1' x \/ (mem w1' x = mem w1 x /\ mem w2' x = mem w2 x).

(** the bytes of a group of pages *)
Definition in_runs (l : list (N * N)) (x : N) : Prop := exists p n, In (p, n) l /\ p <= x < p + 4096 * n.

(** the bytes of the pages released by some allocator calls *)
Definition released_by (evs : list event) (x : N) : Prop :=
  exists a n, In (EvDealloc a n) evs /\ a <= x < a + 4096 * n.

(** [m2] does what [m1] does, except that the pages [m1] releases are gone
    afterwards. *)
Definition same_but_released {A} (m1 m2 : M A) : Prop := forall w,
  match m1 w with
  | Ret a w' => exists w2 evs, m2 w = Ret a w2 /\ same_env w' w2 /\ trace w' = trace w ++ evs /\
      forall x, (released_by evs x -> mem w2 x = None) /\ (~ released_by evs x -> mem w2 x = mem w' x)
  | UB s => m2 w = UB s
  end.
