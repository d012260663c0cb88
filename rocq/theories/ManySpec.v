(** Several translation objects that share the page callbacks. *)
From Coq Require Import NArith List.
From Verif Require Import World Common TranslationCls Spec.
Import ListNotations.
Local Open Scope list_scope.
Local Open Scope N_scope.

(** Every (objects, world) some interleaving of API calls leads to: objects can
    be created at any time, each call goes to one of them, and between calls the
    environment may do what it likes except touch the record of allocator calls.
    A call is atomic: the objects share nothing but the callbacks. *)
Inductive many (env : world -> Prop) : list Translation -> world -> Prop :=
| many_none w : env w -> trace w = [] -> many env [] w
| many_new ts wr w : many env ts w -> many env (Translation_init wr :: ts) w
| many_env ts w w' : many env ts w -> env w' -> trace w' = trace w -> many env ts w'
| many_begin a t b w cdb buffer lun t' r w' : many env (a ++ t :: b) w ->
    Begin t cdb buffer lun w = Ret (t', r) w' -> many env (a ++ t' :: b) w'
| many_complete a t b w cpls buffer sense t' r w' : many env (a ++ t :: b) w ->
    Complete t cpls buffer sense w = Ret (t', r) w' -> many env (a ++ t' :: b) w'
| many_abort a t b w t' w' : many env (a ++ t :: b) w ->
    AbortPipeline t w = Ret t' w' -> many env (a ++ t' :: b) w'.

(** all pages held by a group of objects *)
Definition all_held (ts : list Translation) : list (N * N) := concat (map held ts).

(** two page runs do not overlap, for pages of [pg] bytes *)
Definition disjoint_runs (pg : N) (r1 r2 : N * N) : Prop :=
  fst r1 + pg * snd r1 <= fst r2 \/ fst r2 + pg * snd r2 <= fst r1.

(** The allocator never hands out a run overlapping one that is still out: [l]
    are the runs out before the events [tr]. *)
Fixpoint honest (pg : N) (l : list (N * N)) (tr : list event) : Prop :=
  match tr with
  | [] => True
  | e :: tr' =>
      match e with
      | EvAlloc _ n a => a <> 0 -> Forall (disjoint_runs pg (a, n)) l
      | EvDealloc _ _ => True
      end /\
      match ledger_step (Some l) e with Some l' => honest pg l' tr' | None => True end
  end.

Fixpoint pairwise {A} (R : A -> A -> Prop) (l : list A) : Prop :=
  match l with [] => True | x :: l' => Forall (R x) l' /\ pairwise R l' end.
