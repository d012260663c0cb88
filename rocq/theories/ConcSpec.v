(** Library calls running at the same time. *)
From Coq Require Import NArith List Init.Byte.
From Verif Require Import Bytes World Common StatusCmd TranslationCls Spec SmallSpec UndefSpec MockSpec.
Import ListNotations.
Local Open Scope list_scope.
Local Open Scope N_scope.

(** ** Schedules *)

(** what happens without interruption: an access to memory (of one byte or
    more), a call of a page callback, the set-up of a stack frame *)
Inductive atomic : forall B : Type, M B -> Prop :=
| at_load a n : atomic _ (load a n)
| at_store a bs : atomic _ (store a bs)
| at_alloc size n : atomic _ (AllocPages size n)
| at_release a n : atomic _ (DeallocPages a n)
| at_frame n : atomic _ (stack_junk n).
Arguments atomic {B}.

Definition finished {A} (m : M A) (r : A) : Prop := forall w, m w = Ret r w.
Definition is_undefined {A} (m : M A) : Prop := exists s, forall w, m w = UB s.

(** a program: finished, undefined, or an atomic action and then, depending on
    what it returns, a program *)
Inductive program {A} : M A -> Prop :=
| pg_done m r : finished m r -> program m
| pg_undefined m : is_undefined m -> program m
| pg_act m B (a : M B) k : atomic a -> (forall w, m w = bind a k w) -> (forall b, program (k b)) -> program m.

(** [m] starts with the atomic action [a], and goes on with the program [k] *)
Definition starts_with {A B} (m : M A) (a : M B) (k : B -> M A) : Prop :=
  atomic a /\ (forall w, m w = bind a k w) /\ forall b, program (k b).

(** the allocator hands out memory that is not in use; a released page counts as
    in use as long as the calls run (C84: no call uses it any more) *)
Definition honest_step (w w' : world) : Prop := forall size n p,
  trace w' = trace w ++ [EvAlloc size n p] -> p <> 0 -> unused w p (size * n).

(** [schedule w ms l w' ms']: started in [w], the threads [ms] have come to [w']
    and have [ms'] left to do; [l] are the calls of page callbacks, with the
    number of the thread that made them.  Any thread may take the next step. *)
Inductive schedule {A} (w : world) (ms : list (M A)) : list (nat * event) -> world -> list (M A) -> Prop :=
| sch_start : schedule w ms [] w ms
| sch_step l w1 l1 m l2 B (a : M B) k b w2 evs :
    schedule w ms l w1 (l1 ++ m :: l2) -> starts_with m a k -> a w1 = Ret b w2 ->
    trace w2 = trace w1 ++ evs -> honest_step w1 w2 ->
    schedule w ms (l ++ map (pair (length l1)) evs) w2 (l1 ++ k b :: l2).

Definition events_of (i : nat) (l : list (nat * event)) : list event :=
  map snd (filter (fun e => Nat.eqb (fst e) i) l).

(** ** Memory *)
Definition memory := N -> option byte.
(** the part [mm] of memory is there as it should be *)
Definition present (mm : memory) (w : world) : Prop := forall x b, mm x = Some b -> mem w x = Some b.
Definition separate (m1 m2 : memory) : Prop := forall x, m1 x = None \/ m2 x = None.

(** every thread has its own part of memory *)
Definition each_own (mems : list memory) (w : world) : Prop :=
  (forall i mm, nth_error mems i = Some mm -> present mm w) /\
  (forall i j m1 m2, nth_error mems i = Some m1 -> nth_error mems j = Some m2 -> i <> j -> separate m1 m2).

(** a world that contains the memory [mm] and nothing else, with the callbacks
    of [w] registered; the allocator may give any answers *)
Definition alone (mm : memory) (w v : world) : Prop :=
  mem v = mm /\ alloc_cb v = alloc_cb w /\ dealloc_cb v = dealloc_cb w.
(** alone, the thread does not run into undefined behaviour *)
Definition works_alone {A} (m : M A) (mm : memory) (w : world) : Prop :=
  forall v, alone mm w v -> exists r v', m v = Ret r v'.

(** ** Calls *)
Inductive call :=
| CallBegin (t : Translation) (cdb buffer : span) (lun : N)
| CallComplete (t : Translation) (cpls : list N) (buffer sense : span)
| CallAbort (t : Translation).
Inductive reply := Begun (t : Translation) (r : BeginResponse) | Completed (t : Translation) (r : CompleteResponse) | Aborted (t : Translation).
Definition run_call (c : call) : M reply :=
  match c with
  | CallBegin t cdb buffer lun => ' (t', r) <- Begin t cdb buffer lun ;; ret (Begun t' r)
  | CallComplete t cpls buffer sense => ' (t', r) <- Complete t cpls buffer sense ;; ret (Completed t' r)
  | CallAbort t => t' <- AbortPipeline t ;; ret (Aborted t')
  end.

(** ** Memory a call needs *)
Definition mapped_in (mm : memory) (s : span) : Prop := forall x, in_span s x -> mm x <> None.
Definition used_object (t : Translation) : Prop := exists env b w, reach env b t w.
(** Begin: the CDB and the buffer.  Complete: the CDB, unchanged since Begin, the
    two buffers and the pages of the object; MODE SENSE: unless C88 says that it is
    undefined.  Abort: none *)
Definition ready (c : call) (mm : memory) : Prop :=
  match c with
  | CallBegin t cdb buffer _ => used_object t /\ mapped_in mm cdb /\ mapped_in mm buffer
  | CallComplete t _ buffer sense =>
      exists t0 w0 cdb bs b0 lun r w1, idle t0 /\ span_holds w0 cdb bs /\ Begin t0 cdb b0 lun w0 = Ret (t, r) w1 /\
        (~ In (byte_at bs 0) [0x1a; 0x5a] \/
         exists page, N.of_nat (length page) = 4096 /\ complete_undefined bs page (len buffer) = false /\
           forall p, In (p, 1) (held t) -> SmallSpec.apart p buffer /\ forall i b, nth_error page i = Some b -> mm (p + N.of_nat i) = Some b) /\
        (len cdb = N.of_nat (length bs) /\ forall i b, nth_error bs i = Some b -> mm (ptr cdb + N.of_nat i) = Some b) /\
        mapped_in mm buffer /\ mapped_in mm sense /\
        (forall p n x, In (p, n) (held t) -> p <= x < p + 4096 * n -> mm x <> None)
  | CallAbort t => used_object t
  end.
