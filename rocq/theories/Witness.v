(** A concrete environment for the non-vacuity examples and the refutations:
    the CDB at 0x1000, a 64 KiB data buffer at 0x20000, a 32-byte sense buffer
    at 0x40000, data-out bytes at 0x10000, a page allocator handing out
    0x100000, 0x200000, ..., freshly allocated pages filled by [fl], and
    uninitialised stack bytes equal to [jk]. *)
From Coq Require Import Arith NArith String List Lia Bool Init.Byte Permutation.
From Coq Require Import ZifyBool ZifyNat ZifyN.
From Verif Require Import Bytes Layout World Common ModeSenseCmd TranslationCls Spec Facts.
Import ListNotations.
Local Open Scope list_scope.
Local Open Scope N_scope.

Definition B (l : list N) : list byte := map n2b l.

Definition region (a : N) (bs : list byte) (m : N -> option byte) : N -> option byte :=
  fun x => if (a <=? x) && (x <? a + N.of_nat (length bs)) then nth_error bs (N.to_nat (x - a)) else m x.
Definition zeros (a n : N) (m : N -> option byte) : N -> option byte :=
  fun x => if (a <=? x) && (x <? a + n) then Some x00 else m x.

Definition ex_mem (cdb out : list byte) : N -> option byte :=
  region 0x1000 cdb (region 0x10000 out (zeros 0x20000 0x10000 (zeros 0x40000 32 (fun _ => None)))).

Definition ex_world_with (fl : nat -> N -> byte) (jk : byte) (cdb out : list byte) : world :=
  {| mem := ex_mem cdb out; alloc_cb := true; dealloc_cb := true;
     ans := fun k _ n => if n =? 0 then 0 else 0x100000 * (N.of_nat k + 1);
     fill := fl; junk := fun _ _ => jk; tick := 0; trace := [] |}.
Definition ex_world (cdb : list byte) : world := ex_world_with (fun _ _ => x00) xff cdb [].

Definition ex_cdb (cdb : list byte) : span := {| ptr := 0x1000; len := N.of_nat (length cdb) |}.
Definition ex_out (out : list byte) : span := {| ptr := 0x10000; len := N.of_nat (length out) |}.
Definition ex_buf (n : N) : span := {| ptr := 0x20000; len := n |}.
Definition ex_sense : span := {| ptr := 0x40000; len := 32 |}.

Definition ex_wr (c : N) : NvmeCmdWrapper := {| cmd := c; buffer_len := 77; is_admin := true |}.
Definition ex_wrs : arr3 NvmeCmdWrapper := Build_arr3 (ex_wr 1) (ex_wr 2) (ex_wr 3).
Definition ex_obj : Translation := Translation_init ex_wrs.

Lemma ex_idle : idle ex_obj. Proof. split; [reflexivity|split; reflexivity]. Qed.

Lemma ex_reach fl jk cdb out (env : world -> Prop) : env (ex_world_with fl jk cdb out) ->
  reach env false ex_obj (ex_world_with fl jk cdb out).
Proof. intros H. apply reach_new; [exact H|reflexivity]. Qed.

Lemma ex_sane fl jk cdb out : sane_allocator (ex_world_with fl jk cdb out).
Proof. split; [reflexivity|]. split; [reflexivity|]. intros k ps. reflexivity. Qed.

Lemma ex_cdb_holds fl jk cdb out : span_holds (ex_world_with fl jk cdb out) (ex_cdb cdb) cdb.
Proof.
  split; [reflexivity|]. intros i b H. assert (i < length cdb)%nat by (apply nth_error_Some; congruence).
  cbn [mem ex_world_with ex_mem ex_cdb ptr]. unfold ex_mem, region at 1.
  replace ((0x1000 <=? 0x1000 + N.of_nat i) && (0x1000 + N.of_nat i <? 0x1000 + N.of_nat (length cdb))) with true by lia.
  replace (N.to_nat (0x1000 + N.of_nat i - 0x1000)) with i by lia. exact H.
Qed.

Lemma ex_mem_far fl jk cdb out x : N.of_nat (length cdb) <= 0xf000 -> N.of_nat (length out) <= 0x10000 -> 0x20000 <= x ->
  mem (ex_world_with fl jk cdb out) x = zeros 0x20000 0x10000 (zeros 0x40000 32 (fun _ => None)) x.
Proof.
  intros H1 H2 H3. cbn [mem ex_world_with]. unfold ex_mem, region.
  replace ((0x1000 <=? x) && (x <? 0x1000 + N.of_nat (length cdb))) with false by lia.
  replace ((0x10000 <=? x) && (x <? 0x10000 + N.of_nat (length out))) with false by lia. reflexivity.
Qed.

Lemma ex_buf_mapped fl jk cdb out n : N.of_nat (length cdb) <= 0xf000 -> N.of_nat (length out) <= 0x10000 -> n <= 0x10000 ->
  span_mapped (ex_world_with fl jk cdb out) (ex_buf n).
Proof.
  intros H1 H2 H3 x Hx. cbn [ptr len ex_buf] in Hx. rewrite ex_mem_far by lia. unfold zeros.
  replace ((0x20000 <=? x) && (x <? 0x20000 + 0x10000)) with true by lia. discriminate.
Qed.
Lemma ex_sense_mapped fl jk cdb out : N.of_nat (length cdb) <= 0xf000 -> N.of_nat (length out) <= 0x10000 ->
  span_mapped (ex_world_with fl jk cdb out) ex_sense.
Proof.
  intros H1 H2 x Hx. cbn [ptr len ex_sense] in Hx. rewrite ex_mem_far by lia. unfold zeros.
  replace ((0x20000 <=? x) && (x <? 0x20000 + 0x10000)) with false by lia.
  replace ((0x40000 <=? x) && (x <? 0x40000 + 32)) with true by lia. discriminate.
Qed.

(** running a computation and checking a decidable fact of its result *)
Definition check {A} (o : outcome A) (f : A -> world -> bool) : bool :=
  match o with Ret a w => f a w | UB _ => false end.
Lemma check_ret {A} (o : outcome A) f : check o f = true -> exists a w, o = Ret a w /\ f a w = true.
Proof. destruct o as [a w|]; [|discriminate]. intros H. exists a, w. auto. Qed.

Definition begin_check cdb out buf lun (f : Translation -> BeginResponse -> world -> bool) : bool :=
  check (Begin ex_obj (ex_cdb cdb) buf lun (ex_world_with (fun _ _ => x00) xff cdb out))
        (fun r w => f (fst r) (snd r) w).
Lemma begin_check_ok cdb out buf lun f : begin_check cdb out buf lun f = true ->
  exists t r w, Begin ex_obj (ex_cdb cdb) buf lun (ex_world_with (fun _ _ => x00) xff cdb out) = Ret (t, r) w /\
    f t r w = true.
Proof. intros H. apply check_ret in H as ([t r] & w & E & F). exists t, r, w. auto. Qed.
