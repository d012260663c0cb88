(** Packed C++ structs as named bit-field layouts.

    Every struct of /repo that the model touches is declared
    [ABSL_ATTRIBUTE_PACKED]; on the targets the project supports (GCC/Clang,
    little-endian) its fields are allocated consecutively from bit 0 of byte 0
    upwards.  A layout lists the fields in declaration order with their width
    in bits; offsets are sums of the widths of the preceding fields.  A struct
    value is the little-endian number of its bytes. *)

From Coq Require Import NArith List String Lia Bool.
From Verif Require Import Bytes.
Import ListNotations.
Local Open Scope N_scope.

Definition layout := list (string * N).

Fixpoint lay_bits (l : layout) : N :=
  match l with [] => 0 | (_, w) :: l' => w + lay_bits l' end.

(** sizeof(T) *)
Definition sizeof (l : layout) : nat := N.to_nat (lay_bits l / 8).

Fixpoint lay_find_at (o : N) (l : layout) (s : string) : option (N * N) :=
  match l with
  | [] => None
  | (n, w) :: l' => if String.eqb n s then Some (o, w) else lay_find_at (o + w) l' s
  end.

(** (bit offset, width) of a field *)
Definition lay_find (l : layout) (s : string) : option (N * N) := lay_find_at 0 l s.

(** offsetof(T, s), for fields on a byte boundary *)
Definition offset_of (l : layout) (s : string) : N :=
  match lay_find l s with Some (o, _) => o / 8 | None => 0 end.

(** x.s *)
Definition get (l : layout) (s : string) (x : N) : N :=
  match lay_find l s with Some (o, w) => bits x o w | None => 0 end.

(** x.s = v  (conversion to a narrower field keeps the low bits) *)
Definition set (l : layout) (s : string) (v x : N) : N :=
  match lay_find l s with Some (o, w) => set_bits x o w v | None => x end.

(** aggregate initialisation T{.f = v, ...}: unnamed fields are zero *)
Definition mk (l : layout) (fs : list (string * N)) : N :=
  fold_left (fun x f => set l (fst f) (snd f) x) fs 0.

(** the object representation *)
Definition repr (l : layout) (x : N) : list byte := le_encode (sizeof l) x.

Definition has_fields (l : layout) (fs : list string) : bool :=
  forallb (fun s => match lay_find l s with Some _ => true | None => false end) fs.

Lemma get_eq l s x o w : lay_find l s = Some (o, w) -> get l s x = bits x o w.
Proof. intros H. unfold get. rewrite H. reflexivity. Qed.

Lemma set_eq l s v x o w : lay_find l s = Some (o, w) -> set l s v x = set_bits x o w v.
Proof. intros H. unfold set. rewrite H. reflexivity. Qed.

Ltac field_step :=
  match goal with
  | |- context [get ?l ?s ?x] =>
      let r := eval vm_compute in (lay_find l s) in
      match r with Some (?o, ?w) => rewrite (get_eq l s x o w eq_refl) end
  | |- context [set ?l ?s ?v ?x] =>
      let r := eval vm_compute in (lay_find l s) in
      match r with Some (?o, ?w) => rewrite (set_eq l s v x o w eq_refl) end
  end.
Ltac field_step_in H :=
  match type of H with
  | context [get ?l ?s ?x] =>
      let r := eval vm_compute in (lay_find l s) in
      match r with Some (?o, ?w) => rewrite (get_eq l s x o w eq_refl) in H end
  | context [set ?l ?s ?v ?x] =>
      let r := eval vm_compute in (lay_find l s) in
      match r with Some (?o, ?w) => rewrite (set_eq l s v x o w eq_refl) in H end
  end.
(** turn named fields into bit ranges *)
Ltac fields := cbv beta delta [mk] iota; cbn [fold_left fst snd]; repeat field_step.
Ltac fields_in H := cbv beta delta [mk] iota in H; cbn [fold_left fst snd] in H; repeat field_step_in H.

(** evaluate bit ranges of updated values; offsets must be closed numbers *)
Ltac closed_le := vm_compute; let H := fresh in intro H; discriminate H.
Ltac bits_step :=
  match goal with
  | |- context [bits (set_bits ?x ?o ?w ?v) ?o' ?w'] =>
      first
        [ rewrite (bits_set_inside x o w v o' w') by closed_le;
          let d := eval vm_compute in (o' - o) in change (o' - o) with d
        | rewrite (bits_set_disjoint x o w v o' w') by (first [left; closed_le | right; closed_le]) ]
  | |- context [bits 0 ?o ?w] => rewrite (bits_zero o w)
  | |- context [bits (bits ?x ?o ?w) ?o' ?w'] =>
      rewrite (bits_bits x o w o' w') by closed_le;
      let d := eval vm_compute in (o + o') in change (o + o') with d
  end.
Ltac bits_simpl := repeat bits_step.
