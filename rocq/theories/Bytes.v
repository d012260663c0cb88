(** Bytes, little/big-endian integers and bit-fields.

    This file is the arithmetic vocabulary shared by the model and by the
    specification.  Nothing in it refers to the code in /repo except that it
    fixes how a C++ object representation is read as a number: an object of
    [n] bytes [b0 b1 ... b(n-1)] (in address order) on a little-endian host is
    the number [b0 + 256*b1 + ...]. *)

From Coq Require Import NArith Arith List Lia Bool.
From Coq Require Import Init.Byte.
From Coq Require Import Strings.Byte.
Import ListNotations.
Local Open Scope N_scope.

Notation byte := Byte.byte.

(** value of a byte, 0..255 *)
Definition b2n (b : byte) : N := Byte.to_N b.

(** the byte holding the low 8 bits of a number *)
Definition n2b (x : N) : byte :=
  match Byte.of_N (x mod 256) with Some b => b | None => x00 end.

(** little-endian / big-endian value of a byte string *)
Fixpoint le (l : list byte) : N :=
  match l with
  | [] => 0
  | b :: l' => b2n b + 256 * le l'
  end.

Definition be (l : list byte) : N := le (rev l).

(** the [n] low bytes of a number, least significant first / last *)
Fixpoint le_encode (n : nat) (x : N) : list byte :=
  match n with
  | O => []
  | S n' => n2b x :: le_encode n' (x / 256)
  end.

Definition be_encode (n : nat) (x : N) : list byte := rev (le_encode n x).

(** byte swap of an [n]-byte integer (bswap_16/32/64 with n = 2/4/8) *)
Definition bswap (n : nat) (x : N) : N := be (le_encode n x).

(** [n] bytes of [l] starting at offset [o] *)
Definition slice {A} (o n : nat) (l : list A) : list A := firstn n (skipn o l).

(** the [w]-bit field of [x] at bit offset [o] *)
Definition bits (x o w : N) : N := N.land (N.shiftr x o) (N.ones w).

(** [x] with its [w]-bit field at bit offset [o] replaced by (the low [w] bits
    of) [v] *)
Definition set_bits (x o w v : N) : N :=
  N.lor (N.ldiff x (N.shiftl (N.ones w) o)) (N.shiftl (N.land v (N.ones w)) o).

(** fixed-width wrap-around *)
Definition u8 (x : N) : N := x mod 2 ^ 8.
Definition u16 (x : N) : N := x mod 2 ^ 16.
Definition u32 (x : N) : N := x mod 2 ^ 32.
Definition u64 (x : N) : N := x mod 2 ^ 64.
(** 32-bit subtraction with wrap-around *)
Definition sub32 (x y : N) : N := (x + 2 ^ 32 - y) mod 2 ^ 32.

(* ------------------------------------------------------------------ *)
(** * Lemmas *)

Lemma b2n_lt b : b2n b < 256.
Proof. unfold b2n. pose proof (Byte.to_N_bounded b). lia. Qed.

Lemma n2b_b2n b : n2b (b2n b) = b.
Proof.
  unfold n2b, b2n. rewrite N.mod_small by (pose proof (Byte.to_N_bounded b); lia).
  rewrite Byte.of_to_N. reflexivity.
Qed.

Lemma b2n_n2b x : b2n (n2b x) = x mod 256.
Proof.
  unfold b2n, n2b.
  assert (H : x mod 256 < 256) by (apply N.mod_lt; lia).
  destruct (Byte.of_N (x mod 256)) as [b|] eqn:E.
  - apply Byte.to_of_N in E. exact E.
  - apply Byte.of_N_None_iff in E. lia.
Qed.

Lemma b2n_inj a b : b2n a = b2n b -> a = b.
Proof. intros H. rewrite <- (n2b_b2n a), <- (n2b_b2n b), H. reflexivity. Qed.

Lemma n2b_mod x : n2b (x mod 256) = n2b x.
Proof. unfold n2b. rewrite N.mod_mod by lia. reflexivity. Qed.

Lemma b2n_n2b_small x : x < 256 -> b2n (n2b x) = x.
Proof. intros H. rewrite b2n_n2b. apply N.mod_small. exact H. Qed.

Lemma le_app a b : le (a ++ b) = le a + 2 ^ (8 * N.of_nat (length a)) * le b.
Proof.
  induction a as [|x a IH]; cbn [app le length].
  - change (8 * N.of_nat 0) with 0. rewrite N.pow_0_r. lia.
  - rewrite IH. rewrite Nat2N.inj_succ.
    replace (8 * N.succ (N.of_nat (length a))) with (8 + 8 * N.of_nat (length a)) by lia.
    rewrite N.pow_add_r. change (2 ^ 8) with 256. lia.
Qed.

Lemma le_lt l : le l < 2 ^ (8 * N.of_nat (length l)).
Proof.
  induction l as [|x l IH]; cbn [le length].
  - change (8 * N.of_nat 0) with 0. rewrite N.pow_0_r. lia.
  - rewrite Nat2N.inj_succ.
    replace (8 * N.succ (N.of_nat (length l))) with (8 + 8 * N.of_nat (length l)) by lia.
    rewrite N.pow_add_r. change (2 ^ 8) with 256. pose proof (b2n_lt x). lia.
Qed.

Lemma be_lt l : be l < 2 ^ (8 * N.of_nat (length l)).
Proof. unfold be. pose proof (le_lt (rev l)) as H. rewrite rev_length in H. exact H. Qed.

Lemma le_encode_length n x : length (le_encode n x) = n.
Proof. revert x; induction n as [|n IH]; intros x; cbn [le_encode length]; [|rewrite IH]; reflexivity. Qed.

Lemma be_encode_length n x : length (be_encode n x) = n.
Proof. unfold be_encode. rewrite rev_length. apply le_encode_length. Qed.

Lemma le_le_encode n x : le (le_encode n x) = x mod 2 ^ (8 * N.of_nat n).
Proof.
  revert x; induction n as [|n IH]; intros x; cbn [le_encode le].
  - change (8 * N.of_nat 0) with 0. rewrite N.pow_0_r, N.mod_1_r. reflexivity.
  - rewrite IH, b2n_n2b. rewrite Nat2N.inj_succ.
    replace (8 * N.succ (N.of_nat n)) with (8 + 8 * N.of_nat n) by lia.
    rewrite N.pow_add_r. change (2 ^ 8) with 256.
    rewrite N.mod_mul_r by (try lia; apply N.pow_nonzero; lia). reflexivity.
Qed.

Lemma le_encode_le l : le_encode (length l) (le l) = l.
Proof.
  induction l as [|b l IH]; cbn [length le_encode le]; [reflexivity|].
  pose proof (b2n_lt b) as Hb. f_equal.
  - rewrite <- n2b_mod. replace (b2n b + 256 * le l) with (b2n b + le l * 256) by lia.
    rewrite N.mod_add by lia. rewrite N.mod_small by lia. apply n2b_b2n.
  - replace (b2n b + 256 * le l) with (b2n b + le l * 256) by lia. rewrite N.div_add by lia.
    rewrite N.div_small by lia. rewrite N.add_0_l. exact IH.
Qed.

Lemma le_encode_le' n l : length l = n -> le_encode n (le l) = l.
Proof. intros <-. apply le_encode_le. Qed.

Lemma le_encode_mod n x : le_encode n (x mod 2 ^ (8 * N.of_nat n)) = le_encode n x.
Proof.
  rewrite <- le_le_encode. rewrite le_encode_le'; [reflexivity|apply le_encode_length].
Qed.

Lemma le_inj a b : length a = length b -> le a = le b -> a = b.
Proof. intros Hl He. rewrite <- (le_encode_le a), <- (le_encode_le b), Hl, He. reflexivity. Qed.

Lemma le_encode_inj n x y :
  x < 2 ^ (8 * N.of_nat n) -> y < 2 ^ (8 * N.of_nat n) ->
  le_encode n x = le_encode n y -> x = y.
Proof.
  intros Hx Hy H. apply (f_equal le) in H. rewrite !le_le_encode in H.
  rewrite !N.mod_small in H by assumption. exact H.
Qed.

Lemma be_be_encode n x : be (be_encode n x) = x mod 2 ^ (8 * N.of_nat n).
Proof. unfold be, be_encode. rewrite rev_involutive. apply le_le_encode. Qed.

Lemma be_encode_be l : be_encode (length l) (be l) = l.
Proof.
  unfold be, be_encode. rewrite <- rev_length. rewrite le_encode_le. apply rev_involutive.
Qed.

Lemma bswap_le n l : length l = n -> bswap n (le l) = be l.
Proof. intros H. unfold bswap. rewrite le_encode_le' by exact H. reflexivity. Qed.

Lemma bswap_lt n x : bswap n x < 2 ^ (8 * N.of_nat n).
Proof. unfold bswap. pose proof (be_lt (le_encode n x)). rewrite le_encode_length in H. exact H. Qed.

Lemma le_encode_bswap n x : le_encode n (bswap n x) = be_encode n x.
Proof.
  unfold bswap, be, be_encode.
  apply le_encode_le'. rewrite rev_length. apply le_encode_length.
Qed.

Lemma bswap_involutive n x : x < 2 ^ (8 * N.of_nat n) -> bswap n (bswap n x) = x.
Proof.
  intros H. unfold bswap at 1. rewrite le_encode_bswap.
  rewrite be_be_encode. apply N.mod_small. exact H.
Qed.

Lemma bswap_bswap n x : bswap n (bswap n x) = x mod 2 ^ (8 * N.of_nat n).
Proof. unfold bswap at 1. rewrite le_encode_bswap. apply be_be_encode. Qed.

(** ** Bit fields *)

Lemma bits_testbit x o w i : N.testbit (bits x o w) i = N.testbit x (i + o) && (i <? w).
Proof.
  unfold bits. rewrite N.land_spec, N.shiftr_spec'.
  f_equal. destruct (N.ltb_spec i w) as [H|H].
  - apply N.ones_spec_low; lia.
  - apply N.ones_spec_high; lia.
Qed.

Lemma set_bits_testbit x o w v i :
  N.testbit (set_bits x o w v) i =
  if (o <=? i) && (i <? o + w) then N.testbit v (i - o) else N.testbit x i.
Proof.
  unfold set_bits. rewrite N.lor_spec, N.ldiff_spec.
  destruct (N.leb_spec o i) as [Ho|Ho].
  - rewrite !N.shiftl_spec_high' by lia. rewrite N.land_spec.
    destruct (N.ltb_spec i (o + w)) as [Hw|Hw]; cbn [andb].
    + rewrite !N.ones_spec_low by lia. cbn [negb]. rewrite andb_false_r, andb_true_r. reflexivity.
    + rewrite !N.ones_spec_high by lia. cbn [negb]. rewrite andb_true_r, andb_false_r, orb_false_r. reflexivity.
  - cbn [andb]. rewrite !N.shiftl_spec_low by lia. cbn [negb]. rewrite andb_true_r, orb_false_r. reflexivity.
Qed.

Lemma bits_div_mod x o w : bits x o w = (x / 2 ^ o) mod 2 ^ w.
Proof. unfold bits. rewrite N.land_ones, N.shiftr_div_pow2. reflexivity. Qed.

Lemma bits_lt x o w : bits x o w < 2 ^ w.
Proof. rewrite bits_div_mod. apply N.mod_lt. apply N.pow_nonzero. lia. Qed.

Lemma bits_0_r x o : bits x o 0 = 0.
Proof. unfold bits. change (N.ones 0) with 0. apply N.land_0_r. Qed.

Lemma bits_zero o w : bits 0 o w = 0.
Proof. unfold bits. rewrite N.shiftr_0_l. apply N.land_0_l. Qed.

Lemma bits_low x w : bits x 0 w = x mod 2 ^ w.
Proof. rewrite bits_div_mod. rewrite N.pow_0_r, N.div_1_r. reflexivity. Qed.

Lemma bits_small x w : x < 2 ^ w -> bits x 0 w = x.
Proof. intros H. rewrite bits_low. apply N.mod_small. exact H. Qed.

Lemma bits_set_inside x o w v o' w' :
  o <= o' -> o' + w' <= o + w ->
  bits (set_bits x o w v) o' w' = bits v (o' - o) w'.
Proof.
  intros H1 H2. apply N.bits_inj. intros i. rewrite !bits_testbit, set_bits_testbit.
  destruct (N.ltb_spec i w') as [Hi|Hi]; [|rewrite !andb_false_r; reflexivity].
  rewrite !andb_true_r.
  destruct (N.leb_spec o (i + o')) as [Ha|Ha]; [|lia].
  destruct (N.ltb_spec (i + o') (o + w)) as [Hb|Hb]; [|lia].
  cbn [andb]. f_equal. lia.
Qed.

Lemma bits_set_disjoint x o w v o' w' :
  o' + w' <= o \/ o + w <= o' ->
  bits (set_bits x o w v) o' w' = bits x o' w'.
Proof.
  intros H. apply N.bits_inj. intros i. rewrite !bits_testbit, set_bits_testbit.
  destruct (N.ltb_spec i w') as [Hi|Hi]; [|rewrite !andb_false_r; reflexivity].
  rewrite !andb_true_r.
  destruct (N.leb_spec o (i + o')) as [Ha|Ha]; [|reflexivity].
  destruct (N.ltb_spec (i + o') (o + w)) as [Hb|Hb]; [lia|reflexivity].
Qed.

Lemma bits_bits x o w o' w' :
  o' + w' <= w -> bits (bits x o w) o' w' = bits x (o + o') w'.
Proof.
  intros H. apply N.bits_inj. intros i. rewrite !bits_testbit.
  destruct (N.ltb_spec i w') as [Hi|Hi]; [|rewrite !andb_false_r; reflexivity].
  rewrite !andb_true_r.
  destruct (N.ltb_spec (i + o') w) as [Hb|Hb]; [|lia].
  rewrite andb_true_r. f_equal. lia.
Qed.

Lemma set_bits_lt x o w v k : x < 2 ^ k -> o + w <= k -> set_bits x o w v < 2 ^ k.
Proof.
  intros Hx Hk.
  destruct (N.eq_dec (set_bits x o w v) 0) as [->|Hn].
  { apply N.neq_0_lt_0, N.pow_nonzero; lia. }
  apply N.log2_lt_pow2; [lia|].
  apply N.lt_nge. intros Hl.
  pose proof (N.bit_log2 _ Hn) as Hb.
  rewrite set_bits_testbit in Hb.
  destruct (N.leb_spec o (N.log2 (set_bits x o w v))) as [Ha|Ha];
  destruct (N.ltb_spec (N.log2 (set_bits x o w v)) (o + w)) as [Hc|Hc]; cbn [andb] in Hb; try lia.
  all: destruct (N.eq_dec x 0) as [->|Hx0]; [rewrite N.bits_0 in Hb; discriminate|].
  all: assert (N.log2 x < k) by (apply N.log2_lt_pow2; lia).
  all: rewrite N.bits_above_log2 in Hb by lia; discriminate.
Qed.

(** two numbers below 2^(a+b) agree iff they agree on the low [a] and the next
    [b] bits *)
Lemma bits_split x a b : bits x 0 (a + b) = bits x 0 a + 2 ^ a * bits x a b.
Proof.
  rewrite !bits_div_mod, N.pow_0_r, !N.div_1_r, N.pow_add_r.
  rewrite N.mod_mul_r by (apply N.pow_nonzero; lia). reflexivity.
Qed.

(** ** Bit fields of byte strings *)

Lemma slice_length {A} o n (l : list A) : (o + n <= length l)%nat -> length (slice o n l) = n.
Proof. intros H. unfold slice. rewrite firstn_length, skipn_length. lia. Qed.

Lemma le_slice_div_mod o n l : (o + n <= length l)%nat ->
  le (slice o n l) = (le l / 2 ^ (8 * N.of_nat o)) mod 2 ^ (8 * N.of_nat n).
Proof.
  intros H. unfold slice.
  rewrite <- (firstn_skipn o l) at 2. rewrite le_app.
  rewrite firstn_length_le by lia.
  rewrite (N.mul_comm (2 ^ _) (le _)), N.add_comm, N.div_add_l by (apply N.pow_nonzero; lia).
  rewrite (N.div_small (le (firstn o l))).
  2:{ pose proof (le_lt (firstn o l)) as Hl. rewrite firstn_length_le in Hl by lia. exact Hl. }
  rewrite N.add_0_r.
  rewrite <- (firstn_skipn n (skipn o l)) at 2. rewrite le_app.
  rewrite firstn_length_le by (rewrite skipn_length; lia).
  rewrite N.mul_comm, N.mod_add by (apply N.pow_nonzero; lia).
  rewrite N.mod_small; [reflexivity|].
  pose proof (le_lt (firstn n (skipn o l))) as Hl.
  rewrite firstn_length_le in Hl by (rewrite skipn_length; lia). exact Hl.
Qed.

Lemma bits_le_slice o n l : (o + n <= length l)%nat ->
  bits (le l) (8 * N.of_nat o) (8 * N.of_nat n) = le (slice o n l).
Proof. intros H. rewrite bits_div_mod. symmetry. apply le_slice_div_mod. exact H. Qed.

(** byte number [i] of a byte string; 0 beyond the end *)
Definition byte_at (l : list byte) (i : nat) : N := b2n (nth i l x00).

Lemma slice_1 o l : (o < length l)%nat -> slice o 1 l = [nth o l x00].
Proof.
  revert o; induction l as [|b l IH]; intros o H; cbn [length] in H; [lia|].
  destruct o as [|o]; [reflexivity|]. cbn. apply IH. lia.
Qed.

Lemma bits_le_byte o l k w : (o < length l)%nat -> k + w <= 8 ->
  bits (le l) (8 * N.of_nat o + k) w = bits (byte_at l o) k w.
Proof.
  intros Ho Hk.
  pose proof (bits_le_slice o 1 l ltac:(lia)) as H. rewrite slice_1 in H by lia.
  change (8 * N.of_nat 1) with 8 in H.
  unfold byte_at. cbn [le] in H. rewrite N.mul_0_r, N.add_0_r in H. rewrite <- H.
  rewrite bits_bits by lia. reflexivity.
Qed.

(** byte [i] of the encoding of a number *)
Lemma nth_le_encode n x i : (i < n)%nat ->
  nth i (le_encode n x) x00 = n2b (bits x (8 * N.of_nat i) 8).
Proof.
  revert x i; induction n as [|n IH]; intros x i H; [lia|].
  destruct i as [|i]; cbn [le_encode nth].
  - change (8 * N.of_nat 0) with 0. rewrite bits_low. change (2^8) with 256. symmetry; apply n2b_mod.
  - rewrite IH by lia. f_equal. rewrite !bits_div_mod. f_equal.
    rewrite N.div_div by (try lia; apply N.pow_nonzero; lia). f_equal.
    rewrite Nat2N.inj_succ. replace (8 * N.succ (N.of_nat i)) with (8 + 8 * N.of_nat i) by lia.
    rewrite N.pow_add_r. reflexivity.
Qed.

Lemma le_encode_app a b x :
  le_encode (a + b) x = le_encode a x ++ le_encode b (x / 2 ^ (8 * N.of_nat a)).
Proof.
  revert x; induction a as [|a IH]; intros x; cbn [le_encode Nat.add app].
  - change (8 * N.of_nat 0) with 0. rewrite N.pow_0_r, N.div_1_r. reflexivity.
  - rewrite IH. do 3 f_equal. rewrite N.div_div by (try lia; apply N.pow_nonzero; lia). f_equal.
    rewrite Nat2N.inj_succ. replace (8 * N.succ (N.of_nat a)) with (8 + 8 * N.of_nat a) by lia.
    rewrite N.pow_add_r. reflexivity.
Qed.

(** an encoding splits along byte-aligned fields *)
Lemma le_encode_bits o n x :
  le_encode n (x / 2 ^ (8 * N.of_nat o)) = le_encode n (bits x (8 * N.of_nat o) (8 * N.of_nat n)).
Proof. rewrite bits_div_mod. symmetry. apply le_encode_mod. Qed.

Lemma slice_le_encode o n m x : (o + n <= m)%nat ->
  slice o n (le_encode m x) = le_encode n (bits x (8 * N.of_nat o) (8 * N.of_nat n)).
Proof.
  intros H. replace m with (o + (n + (m - o - n)))%nat by lia.
  rewrite le_encode_app. unfold slice.
  rewrite skipn_app, skipn_all2 by (rewrite le_encode_length; lia).
  rewrite le_encode_length, Nat.sub_diag. cbn [app skipn].
  rewrite le_encode_app, firstn_app, le_encode_length, Nat.sub_diag.
  cbn [firstn]. rewrite app_nil_r, firstn_all2 by (rewrite le_encode_length; lia).
  apply le_encode_bits.
Qed.

Lemma u32_lt x : u32 x < 2 ^ 32.
Proof. unfold u32. apply N.mod_lt. discriminate. Qed.
Lemma u16_lt x : u16 x < 2 ^ 16.
Proof. unfold u16. apply N.mod_lt. discriminate. Qed.
Lemma u64_lt x : u64 x < 2 ^ 64.
Proof. unfold u64. apply N.mod_lt. discriminate. Qed.
Lemma u32_small x : x < 2 ^ 32 -> u32 x = x.
Proof. apply N.mod_small. Qed.
Lemma u16_small x : x < 2 ^ 16 -> u16 x = x.
Proof. apply N.mod_small. Qed.
Lemma u64_small x : x < 2 ^ 64 -> u64 x = x.
Proof. apply N.mod_small. Qed.
