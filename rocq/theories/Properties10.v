(** C45, C46: byte order and memory access helpers. *)
From Coq Require Import Arith NArith String List Lia Bool Init.Byte Permutation.
From Coq Require Import ZifyBool ZifyNat ZifyN.
From Verif Require Import Bytes Layout World ScsiDefs NvmeDefs Common Spec Facts Logic RwFacts SmallFacts Witness.
Import ListNotations.
Local Open Scope string_scope.
Local Open Scope list_scope.
Local Open Scope N_scope.

(** ** C45 *)
Lemma IsLittleEndian_ok host : IsLittleEndian host = host.
Proof. destruct host; reflexivity. Qed.
Lemma host_be_bswap n x : be_encode n (bswap n x) = le_encode n x.
Proof. unfold be_encode. rewrite le_encode_bswap. unfold be_encode. apply rev_involutive. Qed.

(** On a host of either endianness the helpers produce values whose bytes in
    memory are the big-endian (htonll) or little-endian encoding of the
    argument ... *)
Theorem C45_byte_order : forall (host_is_little : bool),
  let little := IsLittleEndian host_is_little in
  (forall v, v < 2 ^ 64 -> host_bytes host_is_little 8 (htonll_h little v) = be_encode 8 v) /\
  (forall v, v < 2 ^ 16 -> host_bytes host_is_little 2 (htols_h little v) = le_encode 2 v) /\
  (forall v, v < 2 ^ 32 -> host_bytes host_is_little 4 (htoll_h little v) = le_encode 4 v) /\
  (forall v, v < 2 ^ 64 -> host_bytes host_is_little 8 (htolll_h little v) = le_encode 8 v).
Proof.
  intros host. rewrite IsLittleEndian_ok. cbv zeta. destruct host; cbn [host_bytes].
  - split; [intros v H; apply htonll_encode; exact H|]. split; [|split]; intros v _; reflexivity.
  - split; [reflexivity|]. split; [|split]; intros v _; apply host_be_bswap.
Qed.
Print Assumptions C45_byte_order.

(** ... the converse reading (ntohll, ltohs, ltohl, ltohll are the same
    functions): loading an integer from its encoding and converting it gives
    back the integer ... *)
Definition host_load (little : bool) (bs : list byte) : N := if little then le bs else be bs.
Theorem C45_reading : forall (host_is_little : bool) (bs : list byte),
  let little := IsLittleEndian host_is_little in
  (length bs = 8%nat -> htonll_h little (host_load host_is_little bs) = be bs) /\
  (length bs = 2%nat -> htols_h little (host_load host_is_little bs) = le bs) /\
  (length bs = 4%nat -> htoll_h little (host_load host_is_little bs) = le bs) /\
  (length bs = 8%nat -> htolll_h little (host_load host_is_little bs) = le bs).
Proof.
  intros host bs. rewrite IsLittleEndian_ok. cbv zeta. destruct host; cbn [host_load].
  - split; [intros H; apply htonll_be; exact H|]. split; [|split]; intros _; reflexivity.
  - assert (E : forall n, length bs = n -> bswap n (be bs) = le bs).
    { intros n H. unfold be. rewrite bswap_le by (rewrite rev_length; exact H). unfold be. rewrite rev_involutive. reflexivity. }
    split; [reflexivity|]. split; [|split]; apply E.
Qed.
Print Assumptions C45_reading.

(** ... and each is its own inverse, within its range. *)
Theorem C45_involutive : forall (host_is_little : bool) v,
  let little := IsLittleEndian host_is_little in
  (v < 2 ^ 64 -> htonll_h little v < 2 ^ 64 /\ htonll_h little (htonll_h little v) = v) /\
  (v < 2 ^ 16 -> htols_h little v < 2 ^ 16 /\ htols_h little (htols_h little v) = v) /\
  (v < 2 ^ 32 -> htoll_h little v < 2 ^ 32 /\ htoll_h little (htoll_h little v) = v) /\
  (v < 2 ^ 64 -> htolll_h little v < 2 ^ 64 /\ htolll_h little (htolll_h little v) = v).
Proof.
  intros host v. rewrite IsLittleEndian_ok. cbv zeta. destruct host.
  - split; [|split; [|split]]; intros H; try (split; [exact H|reflexivity]).
    assert (E : forall x, x < 2 ^ 64 -> htonll_h true x = be (le_encode 8 x)).
    { intros x Hx. rewrite <- (htonll_be (le_encode 8 x) (le_encode_length 8 x)). rewrite le_le_encode. rewrite N.mod_small by exact Hx. reflexivity. }
    assert (L : htonll_h true v < 2 ^ 64).
    { rewrite (E v H). pose proof (be_lt (le_encode 8 v)) as X. rewrite le_encode_length in X. exact X. }
    split; [exact L|]. rewrite (E _ L), (E v H). change (bswap 8 (bswap 8 v) = v). apply bswap_involutive. exact H.
  - split; [intros H; split; [exact H|reflexivity]|].
    split; [|split]; intros H; (split; [apply bswap_lt|apply bswap_involutive; exact H]).
Qed.
Print Assumptions C45_involutive.
Example C45_runs :
  (IsLittleEndian true, IsLittleEndian false) = (true, false) /\
  (htonll_h true 0x0102030405060708, htonll_h false 0x0102030405060708) = (0x0807060504030201, 0x0102030405060708) /\
  (htols_h false 0x0102, htoll_h false 0x01020304, htolll_h false 0x0102030405060708) = (0x0201, 0x04030201, 0x0807060504030201).
Proof. vm_compute. auto. Qed.

(** ** C46 *)

(** [subspan(pos)] and [subspan(pos, n)]: exactly the bytes at offsets [pos],
    [pos+1], ... of the original (for [n], at most [n] of them) *)
Theorem C46_subspan : forall s pos n x,
  (in_span (subspan s pos) x <-> exists k, x = ptr s + pos + k /\ pos + k < len s) /\
  (in_span (subspan_n s pos n) x <-> exists k, x = ptr s + pos + k /\ pos + k < len s /\ k < n) /\
  len (subspan s pos) = len s - pos /\ len (subspan_n s pos n) = N.min n (len s - pos).
Proof.
  intros s pos n x. unfold subspan, subspan_n, in_span.
  destruct (N.leb_spec (len s) pos) as [L|L]; cbn [null_span ptr len].
  - split; [|split; [|split]]; try lia; split; try lia; intros (k & Hk); lia.
  - destruct (N.ltb_spec (len s - pos) n); (split; [|split; [|split]]); try lia.
    all: split; [intros Hx; exists (x - ptr s - pos); lia|intros (k & Hk); lia].
Qed.
Print Assumptions C46_subspan.

(** [ReadValue] of an object of [sizeof l] bytes: false iff the span is
    shorter; otherwise its first [sizeof l] bytes, nothing modified. *)
Theorem C46_read_value : forall l s w,
  (len s < N.of_nat (sizeof l) <-> ReadValue l s w = Ret None w) /\
  (forall bs, span_holds w s bs -> (sizeof l <= length bs)%nat -> ReadValue l s w = Ret (Some (le (firstn (sizeof l) bs))) w).
Proof.
  intros l s w. unfold ReadValue. split.
  - destruct (N.ltb_spec (len s) (N.of_nat (sizeof l))) as [H|H]; [split; [reflexivity|auto]|].
    split; [lia|]. unfold bind. destruct (load (ptr s) (sizeof l) w) as [bs w'|]; unfold ret; intros X; discriminate X.
  - intros bs [Hl Hb] Hs. replace (len s <? N.of_nat (sizeof l)) with false by lia. unfold bind.
    rewrite (load_ok w (ptr s) (sizeof l) (firstn (sizeof l) bs)); [reflexivity| |rewrite firstn_length; lia].
    intros i b Hi. apply Hb. rewrite <- (firstn_skipn (sizeof l) bs). rewrite nth_error_app1; [exact Hi|]. apply nth_error_Some. congruence.
Qed.
Print Assumptions C46_read_value.

(** [WriteValue] of [n] bytes of an object: false, with nothing changed, iff the
    span or the object is shorter; otherwise exactly the first [n] bytes of the
    span become the first [n] bytes of the object. *)
Theorem C46_write_value : forall data s n w,
  ((len s < N.of_nat n \/ (length data < n)%nat) <-> WriteValue_n data s n w = Ret false w) /\
  (N.of_nat n <= len s -> (n <= length data)%nat -> span_mapped w s ->
     exists w', WriteValue_n data s n w = Ret true w' /\ wrote w w' (ptr s) (firstn n data)).
Proof.
  intros data s n w. unfold WriteValue_n. split.
  - destruct ((len s <? N.of_nat n) || (Nat.ltb (length data) n)) eqn:H.
    + split; [reflexivity|]. intros _. apply orb_true_iff in H as [H|H]; [left; lia|right; apply Nat.ltb_lt; exact H].
    + apply orb_false_iff in H as [H1 H2]. apply Nat.ltb_ge in H2. split; [lia|].
      unfold bind. destruct (store _ _ w) as [u w'|]; unfold ret; intros X; discriminate X.
  - intros H1 H2 Hm. replace (len s <? N.of_nat n) with false by lia. replace (Nat.ltb (length data) n) with false by (symmetry; apply Nat.ltb_ge; lia).
    cbn [orb]. unfold bind. rewrite store_ok.
    + eexists. split; [reflexivity|]. split.
      * intros i b Hi. cbn [mem set_mem]. apply store_bytes_in. exact Hi.
      * intros x Hx. cbn [mem set_mem]. apply store_bytes_out. intros X. apply Hx. exact X.
    + intros x Hx. apply Hm. rewrite firstn_length in Hx. lia.
Qed.
Print Assumptions C46_write_value.

Definition ex_span_world : world := ex_world (B [1;2;3;4;5;6;7;8;9;10]).
Example C46_runs :
  subspan_n (ex_cdb (B [1;2;3;4])) 1 2 = {| ptr := 0x1001; len := 2 |} /\
  subspan_n (ex_cdb (B [1;2;3;4])) 3 0xffffffffffffffff = {| ptr := 0x1003; len := 1 |} /\ subspan (ex_cdb (B [1;2;3;4])) 4 = null_span.
Proof. vm_compute. auto. Qed.
Example C46_reads : forall bs, span_holds (ex_world bs) (ex_cdb bs) bs.
Proof. intros bs. apply ex_cdb_holds. Qed.
