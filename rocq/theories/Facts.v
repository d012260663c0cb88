(** Generic lemmas: memory, spans, the monad, queue entries. *)
From Coq Require Import Arith NArith String List Lia Bool Init.Byte Permutation.
From Coq Require Import ZifyBool ZifyNat ZifyN.
From Verif Require Import Bytes Layout World ScsiDefs NvmeDefs Common ModeSenseCmd TranslationCls Spec.
Import ListNotations.
Local Open Scope string_scope.
Local Open Scope list_scope.
Local Open Scope N_scope.

(** ** Memory *)

Lemma load_bytes_length m n : forall a l, load_bytes m a n = Some l -> length l = n.
Proof.
  induction n as [|n IH]; intros a l H; cbn in H.
  - injection H as <-. reflexivity.
  - destruct (m a) as [b|]; [|discriminate].
    destruct (load_bytes m (a + 1) n) as [l'|] eqn:E; [|discriminate].
    injection H as <-. cbn. f_equal. eapply IH. exact E.
Qed.

Lemma load_bytes_nth m n : forall a l, load_bytes m a n = Some l ->
  forall i b, nth_error l i = Some b -> m (a + N.of_nat i) = Some b.
Proof.
  induction n as [|n IH]; intros a l H i b Hi; cbn in H.
  - injection H as <-. destruct i; discriminate.
  - destruct (m a) as [b0|] eqn:Ea; [|discriminate].
    destruct (load_bytes m (a + 1) n) as [l'|] eqn:E; [|discriminate].
    injection H as <-. destruct i as [|i]; cbn in Hi.
    + injection Hi as <-. rewrite N.add_0_r. exact Ea.
    + specialize (IH _ _ E _ _ Hi).
      replace (a + N.of_nat (S i)) with (a + 1 + N.of_nat i) by lia. exact IH.
Qed.

Lemma load_bytes_intro m : forall bs a,
  (forall i b, nth_error bs i = Some b -> m (a + N.of_nat i) = Some b) ->
  load_bytes m a (length bs) = Some bs.
Proof.
  induction bs as [|b bs IH]; intros a H; cbn; [reflexivity|].
  rewrite <- (N.add_0_r a) at 1.
  change (a + 0) with (a + N.of_nat 0). rewrite (H 0%nat b eq_refl).
  rewrite (IH (a + 1)); [reflexivity|].
  intros i c Hi. specialize (H (S i) c Hi).
  replace (a + 1 + N.of_nat i) with (a + N.of_nat (S i)) by lia. exact H.
Qed.

Lemma bytes_at_load w a bs : bytes_at w a bs <-> load_bytes (mem w) a (length bs) = Some bs.
Proof.
  split.
  - intros H. apply load_bytes_intro. exact H.
  - intros H i b Hi. eapply load_bytes_nth; eassumption.
Qed.

Lemma load_ok w a n bs : bytes_at w a bs -> length bs = n -> load a n w = Ret bs w.
Proof. intros H <-. unfold load. apply bytes_at_load in H. rewrite H. reflexivity. Qed.

Lemma nth_error_skipn {A} o (l : list A) i : nth_error (skipn o l) i = nth_error l (o + i).
Proof.
  revert l. induction o as [|o IH]; intros l; [reflexivity|].
  destruct l as [|x l]; cbn; [destruct i; reflexivity|apply IH].
Qed.
Lemma nth_error_firstn {A} n (l : list A) i : (i < n)%nat -> nth_error (firstn n l) i = nth_error l i.
Proof.
  revert l i. induction n as [|n IH]; intros l i H; [lia|].
  destruct l as [|x l]; [reflexivity|]. destruct i as [|i]; [reflexivity|]. cbn. apply IH. lia.
Qed.

Lemma bytes_at_slice w a bs o n a' :
  bytes_at w a bs -> a' = a + N.of_nat o -> bytes_at w a' (slice o n bs).
Proof.
  intros H -> i b Hi. unfold slice in Hi.
  assert (Hl : (i < n)%nat).
  { assert (H' : nth_error (firstn n (skipn o bs)) i <> None) by congruence.
    apply nth_error_Some in H'. rewrite firstn_length in H'. lia. }
  rewrite nth_error_firstn in Hi by exact Hl. rewrite nth_error_skipn in Hi.
  specialize (H _ _ Hi). rewrite <- H. f_equal. lia.
Qed.

Lemma bytes_at_app w a xs ys :
  bytes_at w a (xs ++ ys) <-> bytes_at w a xs /\ bytes_at w (a + N.of_nat (length xs)) ys.
Proof.
  split.
  - intros H. split.
    + intros i b Hi. apply H. rewrite nth_error_app1; [exact Hi|].
      apply nth_error_Some. congruence.
    + intros i b Hi. rewrite <- N.add_assoc, <- Nat2N.inj_add. apply H.
      rewrite nth_error_app2 by lia. rewrite <- Hi. f_equal. lia.
  - intros [H1 H2] i b Hi. destruct (Nat.ltb_spec i (length xs)) as [Hl|Hl].
    + apply H1. rewrite nth_error_app1 in Hi by exact Hl. exact Hi.
    + rewrite nth_error_app2 in Hi by exact Hl. specialize (H2 _ _ Hi).
      rewrite <- H2. f_equal. lia.
Qed.

(** some contents *)
Lemma mapped_bytes w a n : mapped w a (N.of_nat n) -> exists bs, length bs = n /\ bytes_at w a bs.
Proof.
  revert a. induction n as [|n IH]; intros a H.
  - exists []. split; [reflexivity|]. intros i b Hi. destruct i; discriminate.
  - destruct (mem w a) as [b|] eqn:Eb.
    2:{ exfalso. apply (H a); [lia|exact Eb]. }
    destruct (IH (a + 1)) as [bs [Hl Hb]].
    { intros x Hx. apply H. lia. }
    exists (b :: bs). split; [cbn; lia|].
    intros i c Hi. destruct i as [|i]; cbn in Hi.
    + injection Hi as <-. rewrite N.add_0_r. exact Eb.
    + specialize (Hb _ _ Hi). rewrite <- Hb. f_equal. lia.
Qed.

Lemma bytes_mapped w a bs : bytes_at w a bs -> mapped w a (N.of_nat (length bs)).
Proof.
  intros H x Hx. assert (Hn : (N.to_nat (x - a) < length bs)%nat) by lia.
  apply nth_error_Some in Hn. destruct (nth_error bs (N.to_nat (x - a))) as [b|] eqn:E; [|congruence].
  specialize (H _ _ E). replace (a + N.of_nat (N.to_nat (x - a))) with x in H by lia. congruence.
Qed.

Lemma mapped_sub w a n a' n' : mapped w a n -> a <= a' -> a' + n' <= a + n -> mapped w a' n'.
Proof. intros H H1 H2 x Hx. apply H. lia. Qed.

Lemma load_mapped w a n : mapped w a (N.of_nat n) ->
  exists bs, load a n w = Ret bs w /\ length bs = n /\ bytes_at w a bs.
Proof.
  intros H. destruct (mapped_bytes _ _ _ H) as [bs [Hl Hb]].
  exists bs. split; [|split; assumption]. apply load_ok; assumption.
Qed.

(** stores *)
Lemma store_bytes_in m a bs i b : nth_error bs i = Some b ->
  store_bytes m a bs (a + N.of_nat i) = Some b.
Proof.
  intros H. assert (Hl : (i < length bs)%nat) by (apply nth_error_Some; congruence).
  unfold store_bytes.
  replace ((a <=? a + N.of_nat i) && (a + N.of_nat i <? a + N.of_nat (length bs))) with true by lia.
  f_equal. replace (N.to_nat (a + N.of_nat i - a)) with i by lia.
  apply nth_error_nth with (d := x00) in H. exact H.
Qed.

Lemma store_bytes_out m a bs x : ~ (a <= x < a + N.of_nat (length bs)) -> store_bytes m a bs x = m x.
Proof.
  intros H. unfold store_bytes.
  replace ((a <=? x) && (x <? a + N.of_nat (length bs))) with false by lia. reflexivity.
Qed.

Lemma store_ok w a bs : mapped w a (N.of_nat (length bs)) ->
  store a bs w = Ret tt (set_mem w (store_bytes (mem w) a bs)).
Proof.
  intros H. destruct (mapped_bytes _ _ _ H) as [cs [Hl Hb]].
  unfold store. apply bytes_at_load in Hb. rewrite Hl in Hb. rewrite Hb. reflexivity.
Qed.

Lemma store_inv w a bs u w' : store a bs w = Ret u w' ->
  mapped w a (N.of_nat (length bs)) /\ w' = set_mem w (store_bytes (mem w) a bs).
Proof.
  unfold store. intros H. destruct (load_bytes (mem w) a (length bs)) as [cs|] eqn:E; [|discriminate].
  injection H as _ <-. split; [|reflexivity].
  assert (Hl : length cs = length bs) by (eapply load_bytes_length; exact E).
  rewrite <- Hl in E. apply bytes_at_load in E. apply bytes_mapped in E. rewrite Hl in E. exact E.
Qed.

Lemma wrote_store w a bs : wrote w (set_mem w (store_bytes (mem w) a bs)) a bs.
Proof.
  split.
  - intros i b Hi. cbn. apply store_bytes_in. exact Hi.
  - intros x Hx. cbn. apply store_bytes_out. exact Hx.
Qed.

Lemma store_mapped w a bs a' n : mapped w a' n -> mapped (set_mem w (store_bytes (mem w) a bs)) a' n.
Proof.
  intros H x Hx. cbn. unfold store_bytes.
  destruct ((a <=? x) && (x <? a + N.of_nat (length bs))); [discriminate|]. apply H. exact Hx.
Qed.

Lemma bytes_at_store_disjoint w a bs a' cs :
  bytes_at w a' cs ->
  a' + N.of_nat (length cs) <= a \/ a + N.of_nat (length bs) <= a' ->
  bytes_at (set_mem w (store_bytes (mem w) a bs)) a' cs.
Proof.
  intros H Hd i b Hi. cbn. rewrite store_bytes_out; [apply H; exact Hi|].
  assert (Hl : (i < length cs)%nat) by (apply nth_error_Some; congruence). lia.
Qed.

Lemma wrote_app w w1 w2 a xs ys :
  wrote w w1 a xs -> wrote w1 w2 (a + N.of_nat (length xs)) ys -> wrote w w2 a (xs ++ ys).
Proof.
  intros [H1 F1] [H2 F2]. split.
  - apply bytes_at_app. split; [|exact H2].
    intros i b Hi. rewrite F2; [apply H1; exact Hi|].
    assert ((i < length xs)%nat) by (apply nth_error_Some; congruence). lia.
  - intros x Hx. rewrite app_length in Hx. rewrite F2 by lia. apply F1. lia.
Qed.

Lemma wrote_nil w a : wrote w w a [].
Proof. split; [|reflexivity]. intros i b Hi. destruct i; discriminate. Qed.

(** ** Spans *)

Lemma span_holds_mapped w s bs : span_holds w s bs -> span_mapped w s.
Proof. intros [Hl Hb]. unfold span_mapped. rewrite Hl. apply bytes_mapped. exact Hb. Qed.

Lemma span_mapped_holds w s : span_mapped w s -> exists bs, span_holds w s bs.
Proof.
  intros H. unfold span_mapped in H.
  rewrite <- (N2Nat.id (len s)) in H. destruct (mapped_bytes _ _ _ H) as [bs [Hl Hb]].
  exists bs. split; [lia|exact Hb].
Qed.

Lemma subspan_holds w s bs n : span_holds w s bs -> (n < length bs)%nat ->
  span_holds w (subspan s (N.of_nat n)) (skipn n bs).
Proof.
  intros [Hl Hb] Hn. unfold subspan.
  replace (len s <=? N.of_nat n) with false by lia. split; cbn.
  - rewrite skipn_length. lia.
  - intros i b Hi. rewrite nth_error_skipn in Hi. specialize (Hb _ _ Hi). rewrite <- Hb. f_equal. lia.
Qed.

Lemma subspan_mapped w s n : span_mapped w s -> span_mapped w (subspan s n).
Proof.
  intros H. unfold subspan. destruct (N.leb_spec (len s) n) as [Hl|Hl].
  - intros x Hx. cbn in Hx. lia.
  - intros x Hx. cbn in Hx. apply H. lia.
Qed.

Lemma subspan_in s n x : in_span (subspan s n) x -> in_span s x.
Proof.
  unfold subspan, in_span. destruct (N.leb_spec (len s) n); cbn; lia.
Qed.

Lemma ReadValue_short l s w : len s < N.of_nat (sizeof l) -> ReadValue l s w = Ret None w.
Proof. intros H. unfold ReadValue. replace (len s <? N.of_nat (sizeof l)) with true by lia. reflexivity. Qed.

Lemma ReadValue_ok l s w bs : span_holds w s bs -> (sizeof l <= length bs)%nat ->
  ReadValue l s w = Ret (Some (le (firstn (sizeof l) bs))) w.
Proof.
  intros [Hl Hb] Hn. unfold ReadValue.
  replace (len s <? N.of_nat (sizeof l)) with false by lia. unfold bind.
  rewrite (load_ok w (ptr s) (sizeof l) (firstn (sizeof l) bs)); [reflexivity| |].
  - change (firstn (sizeof l) bs) with (slice 0 (sizeof l) bs).
    eapply bytes_at_slice; [exact Hb|lia].
  - rewrite firstn_length. lia.
Qed.

Lemma ReadValue_mapped l s w : span_mapped w s -> exists o, ReadValue l s w = Ret o w.
Proof.
  intros H. destruct (span_mapped_holds _ _ H) as [bs Hb].
  destruct (Nat.leb_spec (sizeof l) (length bs)) as [Hn|Hn].
  - eexists. eapply ReadValue_ok; eassumption.
  - exists None. apply ReadValue_short. destruct Hb as [-> _]. lia.
Qed.

(** reading a struct that follows the opcode of a CDB *)
Lemma cdb_ReadValue l s w bs : span_holds w s bs -> (1 + sizeof l <= length bs)%nat -> (0 < sizeof l)%nat ->
  ReadValue l (subspan s 1) w = Ret (Some (le (slice 1 (sizeof l) bs))) w.
Proof.
  intros H Hn Hp. unfold slice. apply ReadValue_ok.
  - apply (subspan_holds w s bs 1); [exact H|lia].
  - rewrite skipn_length. lia.
Qed.

Lemma cdb_ReadValue_short l s w bs : span_holds w s bs -> (length bs < 1 + sizeof l)%nat ->
  (0 < sizeof l)%nat -> ReadValue l (subspan s 1) w = Ret None w.
Proof.
  intros [Hl _] Hn Hp. apply ReadValue_short. unfold subspan.
  destruct (N.leb_spec (len s) 1); cbn; lia.
Qed.

Lemma span_at_ok w s bs i : span_holds w s bs -> (i < length bs)%nat ->
  span_at s (N.of_nat i) w = Ret (byte_at bs i) w.
Proof.
  intros [Hl Hb] Hi. unfold span_at. replace (N.of_nat i <? len s) with true by lia.
  unfold bind. rewrite (load_ok w _ 1 (slice i 1 bs)).
  - rewrite slice_1 by exact Hi. cbn [le]. unfold ret, byte_at. f_equal. lia.
  - eapply bytes_at_slice; [exact Hb|reflexivity].
  - apply slice_length. lia.
Qed.

(** ** WriteValue *)
Lemma WriteValue_short bs s w : len s < N.of_nat (length bs) -> WriteValue bs s w = Ret false w.
Proof.
  intros H. unfold WriteValue, WriteValue_n. replace (len s <? N.of_nat (length bs)) with true by lia.
  reflexivity.
Qed.

Lemma WriteValue_ok bs s w : N.of_nat (length bs) <= len s -> mapped w (ptr s) (N.of_nat (length bs)) ->
  WriteValue bs s w = Ret true (set_mem w (store_bytes (mem w) (ptr s) bs)).
Proof.
  intros H Hm. unfold WriteValue, WriteValue_n.
  replace (len s <? N.of_nat (length bs)) with false by lia.
  rewrite Nat.ltb_irrefl. cbn [orb]. unfold bind. rewrite firstn_all.
  rewrite store_ok by exact Hm. reflexivity.
Qed.

(** ** Slices of slices, CDB fields *)
Lemma slice_slice {A} o n o' n' (l : list A) : (o' + n' <= n)%nat ->
  slice o' n' (slice o n l) = slice (o + o') n' l.
Proof.
  intros H. unfold slice. rewrite skipn_firstn_comm, firstn_firstn.
  replace (Nat.min n' (n - o')) with n' by lia. f_equal.
  revert o l. clear. intros o. induction o as [|o IH]; intros l; [reflexivity|].
  destruct l as [|x l]; [cbn; rewrite ?skipn_nil; reflexivity|]. cbn. apply IH.
Qed.

Lemma nth_skipn' {A} o (l : list A) i d : nth i (skipn o l) d = nth (o + i) l d.
Proof.
  revert l. induction o as [|o IH]; intros l; [reflexivity|].
  destruct l as [|x l]; [cbn; destruct i; reflexivity|]. cbn. apply IH.
Qed.
Lemma nth_firstn' {A} n (l : list A) i d : (i < n)%nat -> nth i (firstn n l) d = nth i l d.
Proof.
  revert l i. induction n as [|n IH]; intros l i H; [lia|].
  destruct l as [|x l]; [reflexivity|]. destruct i as [|i]; [reflexivity|]. cbn. apply IH. lia.
Qed.

Lemma byte_at_slice o n l i : (i < n)%nat -> byte_at (slice o n l) i = byte_at l (o + i).
Proof.
  intros H. unfold byte_at, slice. rewrite nth_firstn' by exact H. rewrite nth_skipn'. reflexivity.
Qed.

(** a multi-byte field of a struct read at offset [o] of a byte string *)
Lemma bits_le_slice_at (bs : list byte) o n (k m : nat) (ko mo : N) :
  (o + n <= length bs)%nat -> (k + m <= n)%nat -> ko = 8 * N.of_nat k -> mo = 8 * N.of_nat m ->
  bits (le (slice o n bs)) ko mo = le (slice (o + k) m bs).
Proof.
  intros H1 H2 -> ->. rewrite bits_le_slice by (rewrite slice_length by exact H1; exact H2).
  rewrite slice_slice by exact H2. reflexivity.
Qed.

(** a sub-byte field *)
Lemma bits_le_byte_at (bs : list byte) o n (k : nat) (ko b wd : N) :
  (o + n <= length bs)%nat -> (k < n)%nat -> ko = 8 * N.of_nat k + b -> b + wd <= 8 ->
  bits (le (slice o n bs)) ko wd = bits (byte_at bs (o + k)) b wd.
Proof.
  intros H1 H2 -> H3. rewrite bits_le_byte by (try rewrite slice_length by exact H1; assumption).
  rewrite byte_at_slice by exact H2. reflexivity.
Qed.

(** ** Containing bit range *)
Lemma bits_set_contain x o w v o' w' :
  o' <= o -> o + w <= o' + w' ->
  bits (set_bits x o w v) o' w' = set_bits (bits x o' w') (o - o') w v.
Proof.
  intros H1 H2. apply N.bits_inj. intros i.
  rewrite bits_testbit, !set_bits_testbit, bits_testbit.
  destruct (N.leb_spec o (i + o')); destruct (N.ltb_spec (i + o') (o + w));
    destruct (N.leb_spec (o - o') i); destruct (N.ltb_spec i (o - o' + w));
    destruct (N.ltb_spec i w'); cbn; rewrite ?andb_true_r, ?andb_false_r; try lia; try reflexivity.
  f_equal. lia.
Qed.

Lemma set_bits_0_0 o w : set_bits 0 o w 0 = 0.
Proof.
  apply N.bits_inj. intros i. rewrite set_bits_testbit, N.bits_0.
  destruct ((o <=? i) && (i <? o + w)); rewrite ?N.bits_0; reflexivity.
Qed.

Lemma set_bits_full x w v : x < 2 ^ w -> set_bits x 0 w v = v mod 2 ^ w.
Proof.
  intros H. apply N.bits_inj. intros i. rewrite set_bits_testbit.
  destruct (N.ltb_spec i (0 + w)) as [Hi|Hi].
  - replace (0 <=? i) with true by lia. cbn [andb]. rewrite N.sub_0_r, N.mod_pow2_bits_low by lia. reflexivity.
  - rewrite andb_false_r. rewrite N.mod_pow2_bits_high by lia.
    destruct (N.eq_dec x 0) as [->|Hx]; [apply N.bits_0|].
    apply N.bits_above_log2. apply N.log2_lt_pow2 in H; lia.
Qed.
