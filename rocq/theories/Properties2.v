(** C13-C23, C51, C52: the data path. *)
From Coq Require Import Arith NArith String List Lia Bool Init.Byte Permutation.
From Coq Require Import ZifyBool ZifyNat ZifyN.
From Verif Require Import Bytes Layout World Common ModeSenseCmd TranslationCls Spec RwSpec Facts Logic BeginFacts
  CompleteFacts StatusFacts RwFacts Witness.
Import ListNotations.
Local Open Scope list_scope.
Local Open Scope N_scope.

(** the number of blocks an NVMe Read/Write/Compare covers: the 0's based NLB
    in the low 16 bits of dword 12 *)
Definition nvme_blocks (q : sqe) : N := q_cdw12 q mod 2 ^ 16 + 1.

Lemma rw_nvme_blocks opc lun p lba n fua pr : 1 <= n <= 65536 -> nvme_blocks (rw_sqe opc lun p lba n fua pr) = n.
Proof.
  intros H. unfold nvme_blocks, rw_sqe. cbn [q_cdw12].
  replace (n - 1 + pr * 2 ^ 26 + fua * 2 ^ 30) with (n - 1 + (pr * 2 ^ 10 + fua * 2 ^ 14) * 2 ^ 16).
  - rewrite N.mod_add by discriminate. rewrite N.mod_small by (change (2 ^ 16) with 65536; lia). lia.
  - change (2 ^ 26) with (2 ^ 10 * 2 ^ 16). change (2 ^ 30) with (2 ^ 14 * 2 ^ 16). lia.
Qed.

(** ** C13 *)
Theorem C13_read6_exact : forall t cdb buffer lun w bs,
  idle t -> span_holds w cdb bs -> (6 <= length bs)%nat -> byte_at bs 0 = 0x08 ->
  let n := if byte_at bs 4 =? 0 then 256 else byte_at bs 4 in
  n * 4096 <= len buffer ->
  exists t', Begin t cdb buffer lun w = Ret (t', begin_ok (n * 4096)) w /\ accepted t' /\
    exposes t' = [io (n * 4096)
      {| q_opc := 0x02; q_nsid := (lun + 1) mod 2 ^ 32; q_prp1 := ptr buffer;
         q_cdw10 := be (slice 1 3 bs) mod 2 ^ 21; q_cdw11 := 0; q_cdw12 := n - 1 |}].
Proof.
  intros t cdb buffer lun w bs Hi Hc Hl Ho n Hn. pose proof (byte_at_lt bs 4) as B.
  assert (Hb : 1 <= n <= 256) by (unfold n; destruct (N.eqb_spec (byte_at bs 4) 0); lia).
  assert (Hr : read_ok RW6 bs buffer).
  { split; [exact Hl|]. cbn [rw_blocks read_prinfo]. fold n. split; [lia|]. split; [discriminate|exact Hn]. }
  destruct (Begin_read_ok RW6 t cdb buffer lun w bs 0 Hi Hc Ho Hr eq_refl) as (t' & E & Ha & X & _).
  exists t'. split; [exact E|]. split; [exact Ha|]. rewrite X. cbn [rw_blocks rw_lba rw_fua]. fold n.
  assert (Hx : be (slice 1 3 bs) mod 2 ^ 21 < 2 ^ 32).
  { eapply N.lt_trans; [apply N.mod_lt; discriminate|reflexivity]. }
  unfold rw_sqe, nsid_of. rewrite (N.mod_small (be (slice 1 3 bs) mod 2 ^ 21)), N.div_small by exact Hx.
  rewrite !N.mul_0_l, !N.add_0_r. reflexivity.
Qed.
Print Assumptions C13_read6_exact.

(** ** C14 *)
Theorem C14_read_exact : forall f t cdb buffer lun w bs pr,
  f <> RW6 -> idle t -> span_holds w cdb bs -> byte_at bs 0 = read_opcode f ->
  (rw_len f <= length bs)%nat -> 1 <= rw_blocks f bs <= 65535 -> prinfo 15 (rw_protect bs) = Some pr ->
  rw_blocks f bs * 4096 <= len buffer ->
  exists t', Begin t cdb buffer lun w = Ret (t', begin_ok (rw_blocks f bs * 4096)) w /\ accepted t' /\
    exposes t' = [io (rw_blocks f bs * 4096)
      {| q_opc := 0x02; q_nsid := (lun + 1) mod 2 ^ 32; q_prp1 := ptr buffer;
         q_cdw10 := rw_lba f bs mod 2 ^ 32; q_cdw11 := rw_lba f bs / 2 ^ 32;
         q_cdw12 := (rw_blocks f bs - 1) + pr * 2 ^ 26 + bits (byte_at bs 1) 3 1 * 2 ^ 30 |}].
Proof.
  intros f t cdb buffer lun w bs pr Hf Hi Hc Ho Hl Hn Hp Hb.
  assert (Hp' : read_prinfo f bs = Some pr) by (destruct f; [contradiction|exact Hp..]).
  assert (Hr : read_ok f bs buffer) by (repeat split; auto; try lia; rewrite Hp'; discriminate).
  destruct (Begin_read_ok f t cdb buffer lun w bs pr Hi Hc Ho Hr Hp') as (t' & E & Ha & X & _).
  exists t'. split; [exact E|]. split; [exact Ha|]. rewrite X.
  destruct f; [contradiction|reflexivity..].
Qed.
Print Assumptions C14_read_exact.

(** READ(16) of 2 blocks at LBA 0x0102030405060708, FUA, RDPROTECT 1 *)
Definition ex_read16 : list byte := B [0x88;0x28;1;2;3;4;5;6;7;8;0;0;0;2;0;0].
Example C14_premises_met :
  rw_lba RW16 ex_read16 = 0x0102030405060708 /\ rw_blocks RW16 ex_read16 = 2 /\
  prinfo 15 (rw_protect ex_read16) = Some 7 /\ byte_at ex_read16 0 = read_opcode RW16 /\
  exists t', Begin ex_obj (ex_cdb ex_read16) (ex_buf 8192) 3 (ex_world ex_read16) =
      Ret (t', begin_ok 8192) (ex_world ex_read16) /\
    exposes t' = [io 8192 {| q_opc := 2; q_nsid := 4; q_prp1 := 0x20000; q_cdw10 := 0x05060708;
                             q_cdw11 := 0x01020304; q_cdw12 := 0x5c000001 |}].
Proof.
  split; [reflexivity|]. split; [reflexivity|]. split; [reflexivity|]. split; [reflexivity|].
  destruct (C14_read_exact RW16 ex_obj (ex_cdb ex_read16) (ex_buf 8192) 3 (ex_world ex_read16) ex_read16 7)
    as (t' & E & _ & X);
    [first [discriminate | apply ex_idle | apply ex_cdb_holds | reflexivity | cbn; lia | split; vm_compute; discriminate
           | vm_compute; discriminate] ..|].
  exists t'. split; [exact E|exact X].
Qed.

(** ** C15 *)
Theorem C15_read_accepted_iff : forall f t cdb buffer lun w bs,
  idle t -> span_holds w cdb bs -> byte_at bs 0 = read_opcode f ->
  exists t' r w', Begin t cdb buffer lun w = Ret (t', r) w' /\ br_status r = ApiSuccess /\
    (accepted t' <-> read_ok f bs buffer) /\ (rejected t' <-> ~ read_ok f bs buffer).
Proof.
  intros f t cdb buffer lun w bs Hi Hc Ho.
  assert (D : read_ok f bs buffer \/ ~ read_ok f bs buffer).
  { unfold read_ok. destruct (Nat.le_gt_cases (rw_len f) (length bs)); [|right; lia].
    destruct (N.leb_spec 1 (rw_blocks f bs)); [|right; lia].
    destruct (N.leb_spec (rw_blocks f bs) 65535); [|right; lia].
    destruct (N.leb_spec (rw_blocks f bs * 4096) (len buffer)); [|right; lia].
    destruct (read_prinfo f bs); [left; repeat split; auto; discriminate|right; tauto]. }
  destruct D as [D|D].
  - assert (exists pr, read_prinfo f bs = Some pr) as [pr Hp].
    { destruct D as (_ & _ & Hp & _). destruct (read_prinfo f bs); [eauto|contradiction]. }
    destruct (Begin_read_ok f t cdb buffer lun w bs pr Hi Hc Ho D Hp) as (t' & E & Ha & _).
    do 3 eexists. split; [exact E|]. split; [reflexivity|]. split; [tauto|].
    split; [intros [Hs _]; contradiction|contradiction].
  - destruct (Begin_read_fail f t cdb buffer lun w bs Hi Hc Ho D) as (t' & r & w' & E & Hs & Hr & _).
    exists t', r, w'. split; [exact E|]. split; [exact Hs|]. split; [|tauto].
    split; [intros Ha; destruct Hr; contradiction|contradiction].
Qed.
Print Assumptions C15_read_accepted_iff.

(** both sides occur: the same READ(10) with a large enough and a too small buffer *)
Definition ex_read10 : list byte := B [0x28;0;0;0;0;9;0;0;1;0].
Example C15_both_sides : read_ok RW10 ex_read10 (ex_buf 4096) /\ ~ read_ok RW10 ex_read10 (ex_buf 4095).
Proof.
  split.
  - split; [cbn; lia|]. split; [split; vm_compute; discriminate|]. split; [discriminate|vm_compute; discriminate].
  - intros (_ & _ & _ & H). vm_compute in H. apply H. reflexivity.
Qed.

(** ** C16 *)
Theorem C16_read_fits_buffer : forall f t cdb buffer lun w bs t' r w',
  idle t -> span_holds w cdb bs -> byte_at bs 0 = read_opcode f ->
  Begin t cdb buffer lun w = Ret (t', r) w' -> accepted t' ->
  exists q n, exposes t' = [io n q] /\ q_opc q = 0x02 /\ q_prp1 q = ptr buffer /\
    nvme_blocks q * 4096 = n /\ n = br_alloc_len r /\ n <= len buffer /\ n < 2 ^ 32.
Proof.
  intros f t cdb buffer lun w bs t' r w' Hi Hc Ho E Ha.
  destruct (C15_read_accepted_iff f t cdb buffer lun w bs Hi Hc Ho) as (t2 & r2 & w2 & E2 & _ & I & _).
  rewrite E in E2. injection E2 as <- <- <-. apply I in Ha. clear I.
  assert (exists pr, read_prinfo f bs = Some pr) as [pr Hp].
  { destruct Ha as (_ & _ & Hp & _). destruct (read_prinfo f bs); [eauto|contradiction]. }
  destruct (Begin_read_ok f t cdb buffer lun w bs pr Hi Hc Ho Ha Hp) as (t2 & E2 & _ & X & _).
  rewrite E in E2. injection E2 as <- -> _. destruct Ha as (_ & Hn & _ & Hb).
  do 2 eexists. split; [exact X|]. split; [reflexivity|]. split; [reflexivity|].
  split; [rewrite rw_nvme_blocks by lia; reflexivity|]. split; [reflexivity|]. split; [exact Hb|].
  change (2 ^ 32) with 4294967296. lia.
Qed.
Print Assumptions C16_read_fits_buffer.

(** ** C17 *)
Theorem C17_write_exact : forall f t cdb buffer lun w bs pr,
  idle t -> span_holds w cdb bs -> byte_at bs 0 = write_opcode f ->
  (rw_len f <= length bs)%nat -> 1 <= rw_blocks f bs <= 65535 -> write_prinfo f bs = Some pr ->
  len buffer < 2 ^ 32 ->
  exists t', Begin t cdb buffer lun w = Ret (t', begin_ok 0) w /\ accepted t' /\
    exposes t' = [io (len buffer)
      {| q_opc := 0x01; q_nsid := (lun + 1) mod 2 ^ 32; q_prp1 := ptr buffer;
         q_cdw10 := rw_lba f bs mod 2 ^ 32; q_cdw11 := rw_lba f bs / 2 ^ 32;
         q_cdw12 := (rw_blocks f bs - 1) + pr * 2 ^ 26 + rw_fua f bs * 2 ^ 30 |}].
Proof.
  intros f t cdb buffer lun w bs pr Hi Hc Ho Hl Hn Hp Hb.
  assert (Hr : write_ok f bs) by (repeat split; auto; try lia; rewrite Hp; discriminate).
  destruct (Begin_write_ok f t cdb buffer lun w bs pr Hi Hc Ho Hr Hp) as (t' & E & Ha & X & _).
  exists t'. split; [exact E|]. split; [exact Ha|]. rewrite X. rewrite u32_small by exact Hb.
  unfold nsid_of. f_equal. f_equal. f_equal. destruct f; cbn [write_d12 rw_fua write_prinfo] in *.
  - injection Hp as <-. lia.
  - rewrite write_dw12_small; rewrite ?N.mod_small; try (change (2 ^ 16) with 65536; lia).
    + eapply prinfo_lt; [|exact Hp]; lia.
    + apply (bits_lt _ _ 1).
  - rewrite write_dw12_small; rewrite ?N.mod_small; try (change (2 ^ 16) with 65536; lia).
    + eapply prinfo_lt; [|exact Hp]; lia.
    + apply (bits_lt _ _ 1).
  - rewrite write_dw12_small; rewrite ?N.mod_small; try (change (2 ^ 16) with 65536; lia).
    + eapply prinfo_lt; [|exact Hp]; lia.
    + apply (bits_lt _ _ 1).
Qed.
Print Assumptions C17_write_exact.

Theorem C17_write_accepted_iff : forall f t cdb buffer lun w bs,
  idle t -> span_holds w cdb bs -> byte_at bs 0 = write_opcode f ->
  exists t' r w', Begin t cdb buffer lun w = Ret (t', r) w' /\ br_status r = ApiSuccess /\
    let ok := (rw_len f <= length bs)%nat /\ 1 <= rw_blocks f bs /\ write_prinfo f bs <> None in
    (accepted t' <-> ok) /\ (rejected t' <-> ~ ok).
Proof.
  intros f t cdb buffer lun w bs Hi Hc Ho.
  assert (D : write_ok f bs \/ ~ write_ok f bs).
  { unfold write_ok. destruct (Nat.le_gt_cases (rw_len f) (length bs)); [|right; lia].
    destruct (N.leb_spec 1 (rw_blocks f bs)); [|right; lia].
    destruct (write_prinfo f bs); [left; repeat split; auto; discriminate|right; tauto]. }
  destruct D as [D|D].
  - assert (exists pr, write_prinfo f bs = Some pr) as [pr Hp].
    { destruct D as (_ & _ & Hp). destruct (write_prinfo f bs); [eauto|contradiction]. }
    destruct (Begin_write_ok f t cdb buffer lun w bs pr Hi Hc Ho D Hp) as (t' & E & Ha & _).
    do 3 eexists. split; [exact E|]. split; [reflexivity|]. cbv zeta. fold (write_ok f bs). split; [tauto|].
    split; [intros [Hs _]; contradiction|contradiction].
  - destruct (Begin_write_fail f t cdb buffer lun w bs Hi Hc Ho D) as (t' & r & w' & E & Hs & Hr & _).
    exists t', r, w'. split; [exact E|]. split; [exact Hs|]. cbv zeta. fold (write_ok f bs). split; [|tauto].
    split; [intros Ha; destruct Hr; contradiction|contradiction].
Qed.
Print Assumptions C17_write_accepted_iff.

(** WRITE(10), 3 blocks at LBA 0x01020304, FUA, WRPROTECT 0 (PRINFO 8) *)
Definition ex_write10 : list byte := B [0x2a;0x08;1;2;3;4;0;0;3;0].
Example C17_premises_met :
  exists t', Begin ex_obj (ex_cdb ex_write10) (ex_buf 12288) 0 (ex_world ex_write10) =
      Ret (t', begin_ok 0) (ex_world ex_write10) /\
    exposes t' = [io 12288 {| q_opc := 1; q_nsid := 1; q_prp1 := 0x20000; q_cdw10 := 0x01020304;
                              q_cdw11 := 0; q_cdw12 := 0x60000002 |}].
Proof.
  destruct (C17_write_exact RW10 ex_obj (ex_cdb ex_write10) (ex_buf 12288) 0 (ex_world ex_write10) ex_write10 8)
    as (t' & E & _ & X);
    [first [discriminate | apply ex_idle | apply ex_cdb_holds | reflexivity | cbn; lia | split; vm_compute; discriminate
           | vm_compute; discriminate] ..|].
  exists t'. split; [exact E|exact X].
Qed.

(** ** C18 *)
(** full statement: a WRITE(12/16) of more than 65535 blocks is rejected.  It is
    accepted, with only the low 16 bits of the length: WRITE(12) of 65537
    blocks becomes a one-block write *)
Definition ex_write12 : list byte := B [0xaa;0;0;0;0;0;0;1;0;1;0;0].
Theorem C18_write_truncation_refuted :
  rw_blocks RW12 ex_write12 = 65537 /\
  exists t' q, Begin ex_obj (ex_cdb ex_write12) (ex_buf 4096) 0 (ex_world ex_write12) =
      Ret (t', begin_ok 0) (ex_world ex_write12) /\ accepted t' /\
    exposes t' = [io 4096 q] /\ q_opc q = 1 /\ nvme_blocks q = 1.
Proof.
  split; [reflexivity|].
  assert (Hr : write_ok RW12 ex_write12).
  { split; [cbn; lia|]. split; [vm_compute; discriminate|discriminate]. }
  destruct (Begin_write_ok RW12 ex_obj (ex_cdb ex_write12) (ex_buf 4096) 0 (ex_world ex_write12) ex_write12 8
    ex_idle (ex_cdb_holds _ _ _ _) eq_refl Hr eq_refl) as (t' & E & Ha & X & _).
  exists t'. eexists. split; [exact E|]. split; [exact Ha|]. split; [exact X|]. split; reflexivity.
Qed.
Print Assumptions C18_write_truncation_refuted.

Lemma land_lor_low a b : (N.lor a b) mod 2 ^ 16 = N.lor (a mod 2 ^ 16) (b mod 2 ^ 16).
Proof. rewrite <- !N.land_ones. apply N.land_lor_distr_l. Qed.
Lemma write_dw12_nlb n pr fua : 1 <= n -> write_dw12 n pr fua mod 2 ^ 16 = (n - 1) mod 2 ^ 16.
Proof.
  intros Hn. unfold write_dw12, u32. rewrite !land_lor_low, !N.shiftl_mul_pow2.
  assert (Z : forall x k, 16 <= k -> k <= 32 -> (x * 2 ^ k) mod 2 ^ 32 mod 2 ^ 16 = 0).
  { intros x k H1 H2. rewrite <- N.land_ones. rewrite <- N.land_ones. rewrite <- N.land_assoc.
    change (N.land (N.ones 32) (N.ones 16)) with (N.ones 16). rewrite N.land_ones.
    replace k with (k - 16 + 16) by lia. rewrite N.pow_add_r, N.mul_assoc. apply N.mod_mul. discriminate. }
  rewrite !Z by lia. rewrite !N.lor_0_l. unfold sub32.
  rewrite <- (N.land_ones _ 32), <- (N.land_ones _ 16), <- N.land_assoc.
  change (N.land (N.ones 32) (N.ones 16)) with (N.ones 16). rewrite N.land_ones.
  pose proof (N.div_mod n (2 ^ 16) ltac:(discriminate)) as D. pose proof (N.mod_lt n (2 ^ 16) ltac:(discriminate)) as L.
  set (m := n mod 2 ^ 16) in *. set (d := n / 2 ^ 16) in *.
  destruct (N.eq_dec m 0) as [E|E].
  - rewrite E. replace (n - 1) with (65535 + (d - 1) * 2 ^ 16) by (change (2 ^ 16) with 65536 in *; lia).
    rewrite N.mod_add by discriminate. reflexivity.
  - replace (m + 2 ^ 32 - 1) with (m - 1 + 65536 * 2 ^ 16) by (change (2 ^ 32) with (65536 * 2 ^ 16); change (2 ^ 16) with 65536 in *; lia).
    rewrite N.mod_add by discriminate.
    replace (n - 1) with (m - 1 + d * 2 ^ 16) by (change (2 ^ 16) with 65536 in *; lia).
    rewrite N.mod_add by discriminate. reflexivity.
Qed.

(** what holds: the number of blocks is the transfer length reduced to
    1..65536, so it is right exactly up to 65536 blocks.  Missing: rejection
    beyond. *)
Theorem C18_write_block_count_partial : forall f t cdb buffer lun w bs t' r w',
  idle t -> span_holds w cdb bs -> byte_at bs 0 = write_opcode f ->
  Begin t cdb buffer lun w = Ret (t', r) w' -> accepted t' ->
  exists q n, exposes t' = [io n q] /\ q_opc q = 0x01 /\
    nvme_blocks q = (rw_blocks f bs - 1) mod 65536 + 1 /\
    (nvme_blocks q = rw_blocks f bs <-> rw_blocks f bs <= 65536).
Proof.
  intros f t cdb buffer lun w bs t' r w' Hi Hc Ho E Ha.
  destruct (C17_write_accepted_iff f t cdb buffer lun w bs Hi Hc Ho) as (t2 & r2 & w2 & E2 & _ & I & _).
  rewrite E in E2. injection E2 as <- <- <-. apply I in Ha. clear I.
  assert (exists pr, write_prinfo f bs = Some pr) as [pr Hp].
  { destruct Ha as (_ & _ & Hp). destruct (write_prinfo f bs); [eauto|contradiction]. }
  destruct (Begin_write_ok f t cdb buffer lun w bs pr Hi Hc Ho Ha Hp) as (t2 & E2 & _ & X & _).
  rewrite E in E2. injection E2 as <- _ _. destruct Ha as (Hl & Hn & _).
  assert (K : forall d, d mod 2 ^ 16 = (rw_blocks f bs - 1) mod 2 ^ 16 ->
    d mod 2 ^ 16 + 1 = (rw_blocks f bs - 1) mod 65536 + 1 /\ (d mod 2 ^ 16 + 1 = rw_blocks f bs <-> rw_blocks f bs <= 65536)).
  { intros d Hd. rewrite Hd. change (2 ^ 16) with 65536. split; [reflexivity|]. split.
    - intros H. pose proof (N.mod_lt (rw_blocks f bs - 1) 65536 ltac:(discriminate)). lia.
    - intros H. rewrite N.mod_small by lia. lia. }
  do 2 eexists. split; [exact X|]. split; [reflexivity|]. unfold nvme_blocks. cbn [q_cdw12].
  apply K. destruct f; cbn [write_d12]; [reflexivity|apply write_dw12_nlb; exact Hn..].
Qed.
Print Assumptions C18_write_block_count_partial.

(** ** C19 *)
(** full statement: for every accepted WRITE the blocks it covers lie within
    the data-out buffer.  The buffer size is never looked at: *)
Theorem C19_write_overrun_refuted :
  exists t' q, Begin ex_obj (ex_cdb ex_write10) (ex_buf 0) 0 (ex_world ex_write10) =
      Ret (t', begin_ok 0) (ex_world ex_write10) /\ accepted t' /\
    exposes t' = [io 0 q] /\ q_opc q = 1 /\ nvme_blocks q * 4096 = 12288.
Proof.
  destruct (C17_write_exact RW10 ex_obj (ex_cdb ex_write10) (ex_buf 0) 0 (ex_world ex_write10) ex_write10 8)
    as (t' & E & Ha & X);
    [first [discriminate | apply ex_idle | apply ex_cdb_holds | reflexivity | cbn; lia | split; vm_compute; discriminate
           | vm_compute; discriminate] ..|].
  exists t'. eexists. split; [exact E|]. split; [exact Ha|]. split; [exact X|]. split; reflexivity.
Qed.
Print Assumptions C19_write_overrun_refuted.

(** what holds: whether a WRITE is accepted and which command it becomes does
    not depend on the size of the buffer; so it stays in bounds exactly when
    the caller's buffer is large enough for the blocks covered. *)
Theorem C19_write_in_bounds_partial : forall f t cdb buffer lun w bs t' r w',
  idle t -> span_holds w cdb bs -> byte_at bs 0 = write_opcode f -> rw_blocks f bs <= 65536 ->
  rw_blocks f bs * 4096 <= len buffer -> len buffer < 2 ^ 32 ->
  Begin t cdb buffer lun w = Ret (t', r) w' -> accepted t' ->
  exists q, exposes t' = [io (len buffer) q] /\ q_prp1 q = ptr buffer /\ nvme_blocks q * 4096 <= len buffer.
Proof.
  intros f t cdb buffer lun w bs t' r w' Hi Hc Ho Hn Hb H32 E Ha.
  destruct (C17_write_accepted_iff f t cdb buffer lun w bs Hi Hc Ho) as (t2 & r2 & w2 & E2 & _ & I & _).
  rewrite E in E2. injection E2 as <- <- <-.
  destruct (C18_write_block_count_partial f t cdb buffer lun w bs t' r w' Hi Hc Ho E Ha) as (q & n & X & _ & _ & Q).
  apply I in Ha. clear I.
  assert (exists pr, write_prinfo f bs = Some pr) as [pr Hp].
  { destruct Ha as (_ & _ & Hp). destruct (write_prinfo f bs); [eauto|contradiction]. }
  destruct (Begin_write_ok f t cdb buffer lun w bs pr Hi Hc Ho Ha Hp) as (t2 & E2 & _ & X2 & _).
  rewrite E in E2. injection E2 as <- _ _.
  eexists. split; [rewrite X2; rewrite u32_small by exact H32; reflexivity|]. split; [reflexivity|].
  cut (nvme_blocks {| q_opc := 1; q_nsid := nsid_of lun; q_prp1 := ptr buffer; q_cdw10 := rw_lba f bs mod 2 ^ 32;
         q_cdw11 := rw_lba f bs / 2 ^ 32; q_cdw12 := write_d12 f bs pr |} = rw_blocks f bs); [intros ->; exact Hb|].
  destruct Ha as (_ & H1 & _). unfold nvme_blocks. cbn [q_cdw12].
  assert (K : write_d12 f bs pr mod 2 ^ 16 = (rw_blocks f bs - 1) mod 2 ^ 16)
    by (destruct f; cbn [write_d12]; [reflexivity|apply write_dw12_nlb; exact H1..]).
  rewrite K, N.mod_small by (change (2 ^ 16) with 65536; lia). lia.
Qed.
Print Assumptions C19_write_in_bounds_partial.

(** ** C20 *)
(** full statement: an accepted VERIFY(10) becomes a Compare of NSID = LUN+1.
    It carries NSID 0, and no data pointer, whatever the LUN: *)
Theorem C20_verify_namespace_refuted : forall t cdb buffer lun w bs,
  idle t -> span_holds w cdb bs -> byte_at bs 0 = 0x2f -> verify_ok bs ->
  exists t' n, Begin t cdb buffer lun w = Ret (t', begin_ok 0) w /\ accepted t' /\
    exposes t' = [io n (verify_sqe 0 0 bs)].
Proof.
  intros t cdb buffer lun w bs Hi Hc Ho Hv.
  destruct (Begin_verify_ok t cdb buffer lun w bs Hi Hc Ho Hv) as (t' & E & Ha & X & _). eauto.
Qed.
Print Assumptions C20_verify_namespace_refuted.

(** what holds: acceptance, and LBA, length and protection of the command *)
Theorem C20_verify_partial : forall t cdb buffer lun w bs,
  idle t -> span_holds w cdb bs -> byte_at bs 0 = 0x2f ->
  exists t' r w', Begin t cdb buffer lun w = Ret (t', r) w' /\ br_status r = ApiSuccess /\
    (accepted t' <-> verify_ok bs) /\ (rejected t' <-> ~ verify_ok bs) /\
    (accepted t' -> exists q n, exposes t' = [io n q] /\ q_opc q = 0x05 /\
       q_cdw10 q = be (slice 2 4 bs) /\ q_cdw11 q = 0 /\ nvme_blocks q = be (slice 7 2 bs) /\
       bits (q_cdw12 q) 26 4 = 8 + verify_prchk (bits (byte_at bs 1) 1 2) (bits (byte_at bs 1) 5 3) /\
       bits (q_cdw12 q) 30 2 = 0).
Proof.
  intros t cdb buffer lun w bs Hi Hc Ho.
  assert (D : verify_ok bs \/ ~ verify_ok bs).
  { unfold verify_ok. destruct (Nat.le_gt_cases 10 (length bs)); [|right; lia].
    destruct (N.eq_dec (verify_blocks bs) 0); [right; tauto|].
    destruct (N.eq_dec (bits (byte_at bs 9) 2 1) 0); [left; auto|right; tauto]. }
  destruct D as [D|D].
  - destruct (Begin_verify_ok t cdb buffer lun w bs Hi Hc Ho D) as (t' & E & Ha & X & _).
    do 3 eexists. split; [exact E|]. split; [reflexivity|]. split; [tauto|].
    split; [split; [intros [Hs _]; contradiction|contradiction]|].
    intros _. do 2 eexists. split; [exact X|]. destruct D as (Hl & Hn & _).
    pose proof (be_slice_lt 7 2 bs ltac:(lia)) as Bn. change (2 ^ (8 * N.of_nat 2)) with 65536 in Bn.
    unfold verify_blocks in Hn. pose proof (verify_prchk_lt (bits (byte_at bs 1) 1 2) (bits (byte_at bs 1) 5 3)) as Bp.
    unfold verify_sqe, nvme_blocks, verify_blocks. cbn [q_opc q_cdw10 q_cdw11 q_cdw12].
    set (n := be (slice 7 2 bs)) in *. set (p := verify_prchk _ _) in *.
    do 3 (split; [reflexivity|]). rewrite !bits_div_mod.
    assert (P26 : 2 ^ 26 = 67108864) by reflexivity. assert (P16 : 2 ^ 16 = 65536) by reflexivity.
    split; [|split].
    + replace (n - 1 + (8 + p) * 2 ^ 26) with (n - 1 + ((8 + p) * 1024) * 2 ^ 16) by lia.
      rewrite N.mod_add by discriminate. rewrite N.mod_small by lia. lia.
    + rewrite N.div_add by discriminate. rewrite N.div_small by lia. apply N.mod_small. change (2 ^ 4) with 16. lia.
    + rewrite N.div_small; [reflexivity|]. change (2 ^ 30) with (16 * 2 ^ 26). lia.
  - destruct (Begin_verify_fail t cdb buffer lun w bs Hi Hc Ho D) as (t' & r & w' & E & Hs & Hr & _).
    assert (Na : ~ accepted t') by (intros Ha; destruct Hr; contradiction).
    exists t', r, w'. split; [exact E|]. split; [exact Hs|]. tauto.
Qed.
Print Assumptions C20_verify_partial.

Definition ex_verify10 : list byte := B [0x2f;0x20;0;0;0;9;0;0;5;0].
Example C20_premises_met : verify_ok ex_verify10 /\ byte_at ex_verify10 0 = 0x2f.
Proof. split; [|reflexivity]. split; [cbn; lia|]. split; [vm_compute; discriminate|reflexivity]. Qed.

(** ** C21 *)
Theorem C21_sync_is_flush : forall t cdb buffer lun w bs,
  idle t -> span_holds w cdb bs -> byte_at bs 0 = 0x35 ->
  exists t' n, Begin t cdb buffer lun w = Ret (t', begin_ok 0) w /\ accepted t' /\
    exposes t' = [io n {| q_opc := 0x00; q_nsid := (lun + 1) mod 2 ^ 32; q_prp1 := 0;
                          q_cdw10 := 0; q_cdw11 := 0; q_cdw12 := 0 |}].
Proof.
  intros t cdb buffer lun w bs Hi Hc Ho.
  destruct (Begin_sync_ok t cdb buffer lun w bs Hi Hc Ho) as (t' & E & Ha & X & _).
  exists t'. eexists. split; [exact E|]. split; [exact Ha|]. exact X.
Qed.
Print Assumptions C21_sync_is_flush.
Example C21_premises_met : byte_at (B [0x35;0;0;0;0;0;0;0;0;0]) 0 = 0x35 /\ idle ex_obj.
Proof. split; [reflexivity|exact ex_idle]. Qed.

(** ** C22 *)
Theorem C22_test_unit_ready : forall t cdb buffer lun w bs,
  idle t -> span_holds w cdb bs -> bs <> [] -> byte_at bs 0 = 0x00 ->
  exists t1, Begin t cdb buffer lun w = Ret (t1, begin_ok 0) w /\ exposes t1 = [] /\ held t1 = [] /\
    forall w2 data sense, span_holds w2 cdb bs ->
    exists t2 w3, Complete t1 [] data sense w2 = Ret (t2, api_ok GOOD) w3 /\ idle t2 /\
      same_memory w2 w3 /\ trace w3 = trace w2.
Proof.
  intros t cdb buffer lun w bs Hi Hc Hb Ho.
  destruct (Begin_tur_ok t cdb buffer lun w bs Hi Hc Hb Ho) as (t1 & E & Ha & X & Hh & Hs).
  exists t1. split; [exact E|]. split; [exact X|]. split; [exact Hh|]. intros w2 data sense Hc2.
  pose proof (Begin_idle_spec false t cdb buffer lun w Hi (no_ok_span _ _) (no_ok_span _ _)) as S.
  unfold cst in S. rewrite E in S. destruct S as (_ & W & _).
  assert (Hn : nvme_cmd_count t1 = 0).
  { pose proof W as (W0 & _). unfold exposes, GetNvmeWrappers in X.
    destruct (N.to_nat (nvme_cmd_count t1)) as [|k] eqn:Ek; [lia|discriminate]. }
  destruct (Complete_good t1 [] data sense w2 bs 0 kSuccess w2) as (t2 & w3 & E2 & Hi2 & R); auto.
  - rewrite Hs. exact Hc2.
  - exists t2, w3. split; [exact E2|]. split; [exact Hi2|]. rewrite Hh in R. apply released_nil_inv in R as [M T].
    split; [intros x; rewrite M; reflexivity|exact T].
Qed.
Print Assumptions C22_test_unit_ready.
Example C22_premises_met : let cdb := B [0;0;0;0;0;0] in
  idle ex_obj /\ span_holds (ex_world cdb) (ex_cdb cdb) cdb /\ cdb <> [] /\ byte_at cdb 0 = 0.
Proof. split; [exact ex_idle|]. split; [apply ex_cdb_holds|]. split; [discriminate|reflexivity]. Qed.

(** ** C23 *)
Definition data_opcode (o : N) : Prop :=
  (exists f, o = read_opcode f \/ o = write_opcode f) \/ o = 0x35.

(** full statement: for every LUN the commands carry NSID = LUN+1, which is
    neither 0 nor FFFFFFFFh.  LUNs are reduced to 32 bits and the sum wraps:
    LUN FFFFFFFFh goes to NSID 0, LUN FFFFFFFEh is broadcast, and LUN 2^32
    addresses the namespace of LUN 0.  E.g. SYNCHRONIZE CACHE(10): *)
Theorem C23_lun_aliasing_refuted :
  let cdb := B [0x35;0;0;0;0;0;0;0;0;0] in
  let nsid lun id := exists t' n, Begin ex_obj (ex_cdb cdb) (ex_buf 0) lun (ex_world cdb) = Ret (t', begin_ok 0) (ex_world cdb) /\
    exposes t' = [io n {| q_opc := 0; q_nsid := id; q_prp1 := 0; q_cdw10 := 0; q_cdw11 := 0; q_cdw12 := 0 |}] in
  nsid 0 1 /\ nsid 0x100000000 1 /\ nsid 0xffffffff 0 /\ nsid 0xfffffffe 0xffffffff.
Proof.
  cbv zeta.
  assert (K : forall lun, exists t' n, Begin ex_obj (ex_cdb (B [0x35;0;0;0;0;0;0;0;0;0])) (ex_buf 0) lun
      (ex_world (B [0x35;0;0;0;0;0;0;0;0;0])) = Ret (t', begin_ok 0) (ex_world (B [0x35;0;0;0;0;0;0;0;0;0])) /\
    exposes t' = [io n {| q_opc := 0; q_nsid := (lun + 1) mod 2 ^ 32; q_prp1 := 0; q_cdw10 := 0; q_cdw11 := 0; q_cdw12 := 0 |}]).
  { intros lun. destruct (C21_sync_is_flush ex_obj (ex_cdb (B [0x35;0;0;0;0;0;0;0;0;0])) (ex_buf 0) lun
      (ex_world (B [0x35;0;0;0;0;0;0;0;0;0])) _ ex_idle (ex_cdb_holds _ _ _ _) eq_refl) as (t' & n & E & _ & X). eauto. }
  split; [apply (K 0)|]. split; [apply (K 0x100000000)|]. split; [apply (K 0xffffffff)|apply (K 0xfffffffe)].
Qed.
Print Assumptions C23_lun_aliasing_refuted.

(** what holds for READ, WRITE and SYNCHRONIZE CACHE: below LUN FFFFFFFEh the
    NSID is LUN+1, so distinct LUNs address distinct, valid namespaces *)
Theorem C23_lun_mapping_partial : forall t cdb buffer lun w bs t' r w',
  idle t -> span_holds w cdb bs -> data_opcode (byte_at bs 0) -> bs <> [] -> lun < 0xfffffffe ->
  Begin t cdb buffer lun w = Ret (t', r) w' -> accepted t' ->
  exists q n, exposes t' = [io n q] /\ q_nsid q = lun + 1 /\ 0 < q_nsid q < 0xffffffff.
Proof.
  intros t cdb buffer lun w bs t' r w' Hi Hc Ho Hb Hl E Ha.
  assert (K : nsid_of lun = lun + 1) by (unfold nsid_of; apply N.mod_small; change (2 ^ 32) with 4294967296; lia).
  destruct Ho as [[f [Ho|Ho]]|Ho].
  - destruct (C15_read_accepted_iff f t cdb buffer lun w bs Hi Hc Ho) as (t2 & r2 & w2 & E2 & _ & I & _).
    rewrite E in E2. injection E2 as <- <- <-. apply I in Ha.
    assert (exists pr, read_prinfo f bs = Some pr) as [pr Hp].
    { destruct Ha as (_ & _ & Hp & _). destruct (read_prinfo f bs); [eauto|contradiction]. }
    destruct (Begin_read_ok f t cdb buffer lun w bs pr Hi Hc Ho Ha Hp) as (t2 & E2 & _ & X & _).
    rewrite E in E2. injection E2 as <- _ _. do 2 eexists. split; [exact X|]. cbn [rw_sqe q_nsid]. rewrite K. lia.
  - destruct (C17_write_accepted_iff f t cdb buffer lun w bs Hi Hc Ho) as (t2 & r2 & w2 & E2 & _ & I & _).
    rewrite E in E2. injection E2 as <- <- <-. apply I in Ha.
    assert (exists pr, write_prinfo f bs = Some pr) as [pr Hp].
    { destruct Ha as (_ & _ & Hp). destruct (write_prinfo f bs); [eauto|contradiction]. }
    destruct (Begin_write_ok f t cdb buffer lun w bs pr Hi Hc Ho Ha Hp) as (t2 & E2 & _ & X & _).
    rewrite E in E2. injection E2 as <- _ _. do 2 eexists. split; [exact X|]. cbn [q_nsid]. rewrite K. lia.
  - destruct (Begin_sync_ok t cdb buffer lun w bs Hi Hc Ho) as (t2 & E2 & _ & X & _).
    rewrite E in E2. injection E2 as <- _ _. do 2 eexists. split; [exact X|]. cbn [flush_sqe q_nsid]. rewrite K. lia.
Qed.
Print Assumptions C23_lun_mapping_partial.

(** ** C52 *)
(** full statement: a zero-length transfer completes GOOD.  It is refused, and
    so reported as CHECK CONDITION: *)
Theorem C52_zero_length_refuted : forall f t cdb buffer lun w bs, f <> RW6 ->
  idle t -> span_holds w cdb bs -> byte_at bs 0 = read_opcode f \/ byte_at bs 0 = write_opcode f ->
  rw_blocks f bs = 0 ->
  exists t1 r w1, Begin t cdb buffer lun w = Ret (t1, r) w1 /\ rejected t1 /\
  forall data sense w2, span_mapped w2 sense ->
  exists t2 w3, Complete t1 [] data sense w2 = Ret (t2, api_ok CHECK_CONDITION) w3.
Proof.
  intros f t cdb buffer lun w bs Hf Hi Hc Ho Hz.
  assert (R : refuses t cdb buffer lun w).
  { destruct Ho as [Ho|Ho].
    - apply (Begin_read_fail f t cdb buffer lun w bs Hi Hc Ho). intros (_ & H & _). lia.
    - apply (Begin_write_fail f t cdb buffer lun w bs Hi Hc Ho). intros (_ & H & _). lia. }
  destruct R as (t1 & r & w1 & E & Hs & Hr & X & Hh). exists t1, r, w1. split; [exact E|]. split; [exact Hr|].
  intros data sense w2 Hm.
  pose proof (Begin_idle_spec false t cdb buffer lun w Hi (no_ok_span _ _) (no_ok_span _ _)) as S.
  unfold cst in S. rewrite E in S. destruct S as (_ & W & _ & F & _).
  destruct (F (proj1 Hr)) as [Hn Hh'].
  destruct (Complete_rejected t1 [] data sense w2 W Hr Hn Hh' Hm eq_refl) as (t2 & w3 & E2 & _).
  eauto.
Qed.
Print Assumptions C52_zero_length_refuted.
Example C52_premises_met : rw_blocks RW10 (B [0x28;0;0;0;0;9;0;0;0;0]) = 0.
Proof. reflexivity. Qed.

(** what holds: nothing is transferred - no NVMe command is exposed and no page
    kept (and READ(6)/WRITE(6) follow the standard: 0 means 256 blocks, C13) *)
Theorem C52_zero_length_transfers_nothing_partial : forall f t cdb buffer lun w bs, f <> RW6 ->
  idle t -> span_holds w cdb bs -> byte_at bs 0 = read_opcode f \/ byte_at bs 0 = write_opcode f \/ byte_at bs 0 = 0x2f /\ f = RW10 ->
  rw_blocks f bs = 0 -> refuses t cdb buffer lun w.
Proof.
  intros f t cdb buffer lun w bs Hf Hi Hc Ho Hz. destruct Ho as [Ho|[Ho|[Ho ->]]].
  - apply (Begin_read_fail f t cdb buffer lun w bs Hi Hc Ho). intros (_ & H & _). lia.
  - apply (Begin_write_fail f t cdb buffer lun w bs Hi Hc Ho). intros (_ & H & _). lia.
  - apply (Begin_verify_fail t cdb buffer lun w bs Hi Hc Ho). intros (_ & H & _). contradiction.
Qed.
Print Assumptions C52_zero_length_transfers_nothing_partial.
