(** Queue entries and response structs as byte strings. *)
From Coq Require Import Arith NArith String List Lia Bool Init.Byte.
From Coq Require Import ZifyBool ZifyNat ZifyN.
From Verif Require Import Bytes Layout World ScsiDefs NvmeDefs Common ModeSenseCmd TranslationCls Spec
  Facts.
Import ListNotations.
Local Open Scope string_scope.
Local Open Scope list_scope.
Local Open Scope N_scope.

Lemma le_encode_0 n : le_encode n 0 = repeat x00 n.
Proof. induction n as [|n IH]; cbn [le_encode repeat]; [reflexivity|]. rewrite N.div_0_l by lia. f_equal. exact IH. Qed.

Lemma le_encode_chunk a b c o :
  le_encode (a + b) (c / 2 ^ o) =
  le_encode a (bits c o (8 * N.of_nat a)) ++ le_encode b (c / 2 ^ (o + 8 * N.of_nat a)).
Proof.
  rewrite le_encode_app, N.div_div by (apply N.pow_nonzero; lia). rewrite <- N.pow_add_r. f_equal.
  rewrite bits_div_mod. rewrite le_encode_mod. reflexivity.
Qed.

Lemma le_encode_last n c o : le_encode n (c / 2 ^ o) = le_encode n (bits c o (8 * N.of_nat n)).
Proof. rewrite bits_div_mod, le_encode_mod. reflexivity. Qed.

Lemma wire c opc nsid prp1 d10 d11 d12 :
  bits c 0 8 = opc -> bits c 8 24 = 0 -> bits c 32 32 = nsid -> bits c 64 128 = 0 ->
  bits c 192 64 = prp1 -> bits c 256 64 = 0 -> bits c 320 32 = d10 -> bits c 352 32 = d11 ->
  bits c 384 32 = d12 -> bits c 416 96 = 0 ->
  le_encode 64 c = sqe_bytes {| q_opc := opc; q_nsid := nsid; q_prp1 := prp1;
                                q_cdw10 := d10; q_cdw11 := d11; q_cdw12 := d12 |}.
Proof.
  intros H0 H1 H2 H3 H4 H5 H6 H7 H8 H9.
  change 64%nat with (1 + (3 + (4 + (16 + (8 + (8 + (4 + (4 + (4 + 12)))))))))%nat.
  rewrite <- (N.div_1_r c) at 1. change (c / 1) with (c / 2 ^ 0).
  repeat rewrite le_encode_chunk. rewrite le_encode_last.
  unfold sqe_bytes. cbn [q_opc q_nsid q_prp1 q_cdw10 q_cdw11 q_cdw12].
  repeat match goal with |- context [bits c ?o ?w] =>
    progress (let o' := eval vm_compute in o in let w' := eval vm_compute in w in
    change (bits c o w) with (bits c o' w')) end.
  rewrite H0, H1, H2, H3, H4, H5, H6, H7, H8, H9.
  rewrite !le_encode_0. reflexivity.
Qed.

(** *** evaluating bit ranges of a nest of [set_bits] over 0 *)
Ltac norm_sub := repeat match goal with |- context [set_bits ?x (?a - ?b) ?w ?v] =>
   let d := eval vm_compute in (a - b) in change (a - b) with d end.
Ltac cbits_step :=
  match goal with
  | |- context [bits (set_bits ?x ?o ?w ?v) ?o' ?w'] =>
      first
        [ rewrite (bits_set_disjoint x o w v o' w') by (first [left; closed_le | right; closed_le])
        | rewrite (bits_set_inside x o w v o' w') by closed_le;
          let d := eval vm_compute in (o' - o) in change (o' - o) with d
        | rewrite (bits_set_contain x o w v o' w') by closed_le;
          let d := eval vm_compute in (o - o') in change (o - o') with d ]
  | |- context [bits 0 ?o ?w] => rewrite (bits_zero o w)
  | |- context [set_bits 0 ?o ?w 0] => rewrite (set_bits_0_0 o w)
  end.
Ltac cbits := repeat cbits_step.

(** low [w] bits of a value that fits *)
Lemma bits_low_u32 x : bits x 0 32 = u32 x.
Proof. rewrite bits_low. reflexivity. Qed.

(** a structure, byte by byte *)
Lemma le_encode_bytes n c : le_encode n c = map (fun i => n2b (bits c (8 * N.of_nat i) 8)) (seq 0 n).
Proof.
  apply nth_ext with (d := x00) (d' := x00).
  - rewrite le_encode_length, map_length, seq_length. reflexivity.
  - intros i Hi. rewrite le_encode_length in Hi. rewrite nth_le_encode by exact Hi.
    rewrite nth_indep with (d' := (fun i => n2b (bits c (8 * N.of_nat i) 8)) 0%nat)
      by (rewrite map_length, seq_length; exact Hi).
    rewrite (map_nth (fun i => n2b (bits c (8 * N.of_nat i) 8))), seq_nth by exact Hi. reflexivity.
Qed.
