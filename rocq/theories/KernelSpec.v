(** Specification of the driver glue and of the module's life cycle. *)
From Coq Require Import NArith ZArith List Bool.
From Verif Require Import World EngineE2e KernelDriver ModuleLife.
Import ListNotations.
Local Open Scope list_scope.
Local Open Scope N_scope.

(** the command is carried out: some request executes it on [queue] *)
Definition executed (queue : N) (s : submission) (es : list kevent) : Prop :=
  exists disk rq, In (KExec queue disk rq (sub_cmd s)) es.
Definition is_exec (e : kevent) : bool := match e with KExec _ _ _ _ => true | _ => false end.
(** [s] moves data *)
Definition has_buffer (s : submission) : Prop := sub_buffer s <> 0 /\ sub_bufflen s <> 0.

(** replaying registrations: what is held at the end; [None] if something is
    released that is not held *)
Definition kobj_eq (a b : kobj) : bool :=
  match a, b with
  | BlockDev, BlockDev | RootDev, RootDev | BusType, BusType | MockDriver, MockDriver
  | MockDevice, MockDevice | HostMem, HostMem | HostAdded, HostAdded => true
  | _, _ => false
  end.
Fixpoint drop (o : kobj) (l : list kobj) : option (list kobj) :=
  match l with
  | [] => None
  | a :: l' => if kobj_eq a o then Some l' else option_map (cons a) (drop o l')
  end.
Fixpoint replay (l : list kobj) (es : list kreg) : option (list kobj) :=
  match es with
  | [] => Some l
  | Got o :: es' => replay (o :: l) es'
  | Gave o :: es' => match drop o l with Some l' => replay l' es' | None => None end
  end.

(** what each object is attached to *)
Definition needs (a b : kobj) : Prop :=
  match a, b with
  | MockDriver, BusType | MockDevice, BusType | MockDevice, RootDev | HostAdded, HostMem => True
  | _, _ => False
  end.
(** nothing is released while something attached to it is still held *)
Definition orderly (es : list kreg) : Prop :=
  forall pre o post a l, es = pre ++ Gave o :: post -> replay [] pre = Some l -> In a l -> ~ needs a o.
