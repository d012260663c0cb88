(** C109: the size of the CDB does not matter. *)
From Coq Require Import Arith NArith ZArith String List Lia Bool Init.Byte Permutation.
From Coq Require Import ZifyBool ZifyNat ZifyN.
From Verif Require Import Bytes Layout World ScsiDefs NvmeDefs Common ReadCmds WriteCmds SmallCmds
  UnmapCmd StatusCmd TranslationCls Spec Facts Logic BeginFacts CompleteFacts
  WireFacts StatusFacts RwSpec RwFacts Witness Properties2.
Import ListNotations.
Local Open Scope string_scope.
Local Open Scope list_scope.
Local Open Scope N_scope.

(** Specification: [bs1] and [bs2], complete CDBs of the sizes [f] and [g], ask
    for the same blocks in the same way (range, PROTECT field, FUA). *)
Definition same_transfer (f : rw_form) (bs1 : list byte) (g : rw_form) (bs2 : list byte) : Prop :=
  (rw_len f <= length bs1)%nat /\ (rw_len g <= length bs2)%nat /\
  rw_lba f bs1 = rw_lba g bs2 /\ rw_blocks f bs1 = rw_blocks g bs2 /\
  rw_protect bs1 = rw_protect bs2 /\ rw_fua f bs1 = rw_fua g bs2.
(** both are refused, or both are accepted, with the same response and the same
    NVMe commands *)
Definition treated_alike (b1 b2 : outcome (Translation * BeginResponse)) : Prop :=
  exists t1 r1 w1 t2 r2 w2, b1 = Ret (t1, r1) w1 /\ b2 = Ret (t2, r2) w2 /\
    br_status r1 = ApiSuccess /\ br_status r2 = ApiSuccess /\ exposes t1 = exposes t2 /\ held t1 = [] /\ held t2 = [] /\
    ((accepted t1 /\ accepted t2 /\ r1 = r2) \/ (rejected t1 /\ rejected t2)).

(** ** C109 *)

(** READ(10), READ(12) and READ(16) for the same transfer are treated alike.
    Missing: READ(6), below. *)
Theorem C109_read_partial : forall f g t1 t2 cdb1 cdb2 buffer lun w1 w2 bs1 bs2, f <> RW6 -> g <> RW6 ->
  idle t1 -> idle t2 -> span_holds w1 cdb1 bs1 -> span_holds w2 cdb2 bs2 ->
  byte_at bs1 0 = read_opcode f -> byte_at bs2 0 = read_opcode g -> same_transfer f bs1 g bs2 ->
  treated_alike (Begin t1 cdb1 buffer lun w1) (Begin t2 cdb2 buffer lun w2).
Proof.
  intros f g t1 t2 cdb1 cdb2 buffer lun w1 w2 bs1 bs2 Hf Hg I1 I2 C1 C2 O1 O2 (L1 & L2 & Ea & Eb & Ep & Eu).
  assert (P1 : read_prinfo f bs1 = prinfo 15 (rw_protect bs1)) by (destruct f; [contradiction|reflexivity..]).
  assert (P2 : read_prinfo g bs2 = prinfo 15 (rw_protect bs1)) by (rewrite Ep; destruct g; [contradiction|reflexivity..]).
  assert (I : read_ok f bs1 buffer <-> read_ok g bs2 buffer) by (unfold read_ok; rewrite P1, P2, Eb; tauto).
  destruct (C15_read_accepted_iff f t1 cdb1 buffer lun w1 bs1 I1 C1 O1) as (t1' & r1 & w1' & E1 & S1 & A1 & R1).
  destruct (C15_read_accepted_iff g t2 cdb2 buffer lun w2 bs2 I2 C2 O2) as (t2' & r2 & w2' & E2 & S2 & A2 & R2).
  assert (D : read_ok f bs1 buffer \/ ~ read_ok f bs1 buffer).
  { destruct (pipeline_status t1') eqn:Q; [left; apply A1; exact Q|right; intros Z; apply A1 in Z; rewrite Z in Q; discriminate Q..]. }
  destruct D as [D|D].
  - pose proof (proj1 I D) as D'. destruct (prinfo 15 (rw_protect bs1)) as [pr|] eqn:Q; [|destruct D as (_ & _ & Z & _); contradiction].
    destruct (Begin_read_ok f t1 cdb1 buffer lun w1 bs1 pr I1 C1 O1 D P1) as (u1 & F1 & B1 & X1 & H1).
    destruct (Begin_read_ok g t2 cdb2 buffer lun w2 bs2 pr I2 C2 O2 D' P2) as (u2 & F2 & B2 & X2 & H2).
    exists u1, (begin_ok (rw_blocks f bs1 * 4096)), w1, u2, (begin_ok (rw_blocks g bs2 * 4096)), w2.
    split; [exact F1|]. split; [exact F2|]. split; [reflexivity|]. split; [reflexivity|].
    split; [rewrite X1, X2, Ea, Eb, Eu; reflexivity|]. split; [exact H1|]. split; [exact H2|]. left. rewrite Eb. auto.
  - assert (D' : ~ read_ok g bs2 buffer) by tauto.
    destruct (Begin_read_fail f t1 cdb1 buffer lun w1 bs1 I1 C1 O1 D) as (u1 & s1 & v1 & F1 & T1 & J1 & X1 & H1).
    destruct (Begin_read_fail g t2 cdb2 buffer lun w2 bs2 I2 C2 O2 D') as (u2 & s2 & v2 & F2 & T2 & J2 & X2 & H2).
    exists u1, s1, v1, u2, s2, v2. rewrite X1, X2. auto 10.
Qed.
Print Assumptions C109_read_partial.

(** the same for WRITE, for every transfer length *)
Theorem C109_write_partial : forall f g t1 t2 cdb1 cdb2 buffer lun w1 w2 bs1 bs2, f <> RW6 -> g <> RW6 ->
  idle t1 -> idle t2 -> span_holds w1 cdb1 bs1 -> span_holds w2 cdb2 bs2 ->
  byte_at bs1 0 = write_opcode f -> byte_at bs2 0 = write_opcode g -> same_transfer f bs1 g bs2 ->
  treated_alike (Begin t1 cdb1 buffer lun w1) (Begin t2 cdb2 buffer lun w2).
Proof.
  intros f g t1 t2 cdb1 cdb2 buffer lun w1 w2 bs1 bs2 Hf Hg I1 I2 C1 C2 O1 O2 (L1 & L2 & Ea & Eb & Ep & Eu).
  assert (P1 : write_prinfo f bs1 = prinfo 8 (rw_protect bs1)) by (destruct f; [contradiction|reflexivity..]).
  assert (P2 : write_prinfo g bs2 = prinfo 8 (rw_protect bs1)) by (rewrite Ep; destruct g; [contradiction|reflexivity..]).
  assert (I : write_ok f bs1 <-> write_ok g bs2) by (unfold write_ok; rewrite P1, P2, Eb; tauto).
  assert (Dw : forall pr, write_d12 f bs1 pr = write_d12 g bs2 pr).
  { intros pr. unfold write_d12. rewrite <- Eb, <- Eu. destruct f; [contradiction|..]; (destruct g; [contradiction|..]); reflexivity. }
  destruct (C17_write_accepted_iff f t1 cdb1 buffer lun w1 bs1 I1 C1 O1) as (t1' & r1 & w1' & E1 & S1 & A1 & R1).
  assert (D : write_ok f bs1 \/ ~ write_ok f bs1).
  { unfold write_ok. destruct (pipeline_status t1') eqn:Q; [left; apply A1; exact Q|right; intros Z; apply A1 in Z; rewrite Z in Q; discriminate Q..]. }
  destruct D as [D|D].
  - pose proof (proj1 I D) as D'. destruct (prinfo 8 (rw_protect bs1)) as [pr|] eqn:Q; [|destruct D as (_ & _ & Z); contradiction].
    destruct (Begin_write_ok f t1 cdb1 buffer lun w1 bs1 pr I1 C1 O1 D P1) as (u1 & F1 & B1 & X1 & H1).
    destruct (Begin_write_ok g t2 cdb2 buffer lun w2 bs2 pr I2 C2 O2 D' P2) as (u2 & F2 & B2 & X2 & H2).
    exists u1, (begin_ok 0), w1, u2, (begin_ok 0), w2.
    split; [exact F1|]. split; [exact F2|]. split; [reflexivity|]. split; [reflexivity|].
    split; [rewrite X1, X2, Ea, Dw; reflexivity|]. auto 10.
  - assert (D' : ~ write_ok g bs2) by tauto.
    destruct (Begin_write_fail f t1 cdb1 buffer lun w1 bs1 I1 C1 O1 D) as (u1 & s1 & v1 & F1 & T1 & J1 & X1 & H1).
    destruct (Begin_write_fail g t2 cdb2 buffer lun w2 bs2 I2 C2 O2 D') as (u2 & s2 & v2 & F2 & T2 & J2 & X2 & H2).
    exists u1, s1, v1, u2, s2, v2. rewrite X1, X2. auto 10.
Qed.
Print Assumptions C109_write_partial.

Lemma sqe_cdw12 q : le (slice 48 4 (sqe_bytes q)) = q_cdw12 q mod 2 ^ 32.
Proof.
  unfold sqe_bytes. replace (slice 48 4 _) with (le_encode 4 (q_cdw12 q)) by reflexivity. rewrite le_le_encode. reflexivity.
Qed.
Lemma cdw12_differs n q r : q_cdw12 q < 2 ^ 32 -> q_cdw12 r < 2 ^ 32 -> q_cdw12 q <> q_cdw12 r -> [io n q] <> [io n r].
Proof.
  intros H1 H2 Hne Z. assert (Y : x_bytes (io n q) = x_bytes (io n r)) by (apply (f_equal (fun l => match l with x :: _ => x_bytes x | [] => [] end)) in Z; exact Z). change (sqe_bytes q = sqe_bytes r) in Y.
  apply (f_equal (fun x => le (slice 48 4 x))) in Y. rewrite !sqe_cdw12, !N.mod_small in Y by assumption. contradiction.
Qed.

(** Refuted for the 6-byte CDBs, which have neither field (PROTECT = FUA = 0):
    for the same range READ(10) asks the controller to take part in the
    protection information and to check all of it (PRACT = 1, PRCHK = 7), READ(6)
    to do neither; WRITE(10) asks it to insert it (PRACT = 1), WRITE(6) does not.
    Otherwise the commands are equal. *)
Theorem C109_six_refuted : forall (writing : bool) g t1 t2 cdb1 cdb2 buffer lun w1 w2 bs1 bs2, g <> RW6 ->
  idle t1 -> idle t2 -> span_holds w1 cdb1 bs1 -> span_holds w2 cdb2 bs2 ->
  (6 <= length bs1)%nat -> (rw_len g <= length bs2)%nat ->
  byte_at bs1 0 = (if writing then 0x0a else 0x08) -> byte_at bs2 0 = (if writing then write_opcode g else read_opcode g) ->
  rw_lba RW6 bs1 = rw_lba g bs2 -> rw_blocks RW6 bs1 = rw_blocks g bs2 -> rw_protect bs2 = 0 -> rw_fua g bs2 = 0 ->
  rw_blocks g bs2 * 4096 <= len buffer ->
  exists t1' t2' r w1' w2' n q, Begin t1 cdb1 buffer lun w1 = Ret (t1', r) w1' /\ Begin t2 cdb2 buffer lun w2 = Ret (t2', r) w2' /\
    exposes t1' = [io n q] /\
    exposes t2' = [io n {| q_opc := q_opc q; q_nsid := q_nsid q; q_prp1 := q_prp1 q; q_cdw10 := q_cdw10 q; q_cdw11 := q_cdw11 q;
                           q_cdw12 := q_cdw12 q + (if writing then 8 else 15) * 2 ^ 26 |}] /\
    exposes t1' <> exposes t2'.
Proof.
  intros writing g t1 t2 cdb1 cdb2 buffer lun w1 w2 bs1 bs2 Hg I1 I2 C1 C2 L1 L2 O1 O2 Ea Eb Ep Eu Hb.
  assert (Hn : 1 <= rw_blocks RW6 bs1 <= 256).
  { cbn [rw_blocks]. pose proof (byte_at_lt bs1 4). destruct (N.eqb_spec (byte_at bs1 4) 0); lia. }
  destruct writing.
  - assert (K1 : write_ok RW6 bs1) by (split; [exact L1|split; [lia|discriminate]]).
    assert (P2 : write_prinfo g bs2 = Some 8) by (destruct g; [contradiction|..]; unfold write_prinfo; rewrite Ep; reflexivity).
    assert (K2 : write_ok g bs2) by (split; [exact L2|split; [lia|rewrite P2; discriminate]]).
    destruct (Begin_write_ok RW6 t1 cdb1 buffer lun w1 bs1 0 I1 C1 O1 K1 eq_refl) as (u1 & F1 & B1 & X1 & H1).
    destruct (Begin_write_ok g t2 cdb2 buffer lun w2 bs2 8 I2 C2 O2 K2 P2) as (u2 & F2 & B2 & X2 & H2).
    assert (Dw : write_d12 g bs2 8 = rw_blocks RW6 bs1 - 1 + 8 * 2 ^ 26).
    { rewrite Eb. destruct g; [contradiction|..]; unfold write_d12; rewrite Eu; rewrite write_dw12_small; rewrite ?N.mod_small; try lia. }
    do 7 eexists. split; [exact F1|]. split; [exact F2|]. split; [exact X1|]. split; [rewrite X2, <- Ea, Dw; reflexivity|].
    rewrite X1, X2, <- Ea, Dw. apply cdw12_differs; cbn [q_cdw12 write_d12]; change (2 ^ 32) with 4294967296; change (2 ^ 26) with 67108864; lia.
  - assert (K1 : read_ok RW6 bs1 buffer) by (split; [exact L1|split; [lia|split; [discriminate|rewrite Eb; exact Hb]]]).
    assert (P2 : read_prinfo g bs2 = Some 15) by (destruct g; [contradiction|..]; unfold read_prinfo; rewrite Ep; reflexivity).
    assert (K2 : read_ok g bs2 buffer) by (split; [exact L2|split; [lia|split; [rewrite P2; discriminate|exact Hb]]]).
    destruct (Begin_read_ok RW6 t1 cdb1 buffer lun w1 bs1 0 I1 C1 O1 K1 eq_refl) as (u1 & F1 & B1 & X1 & H1).
    destruct (Begin_read_ok g t2 cdb2 buffer lun w2 bs2 15 I2 C2 O2 K2 P2) as (u2 & F2 & B2 & X2 & H2).
    rewrite <- Eb in F2. do 7 eexists. split; [exact F1|]. split; [exact F2|]. split; [exact X1|].
    assert (X2' : exposes u2 = [io (rw_blocks RW6 bs1 * 4096) {| q_opc := 2; q_nsid := nsid_of lun; q_prp1 := ptr buffer; q_cdw10 := rw_lba RW6 bs1 mod 2 ^ 32;
       q_cdw11 := rw_lba RW6 bs1 / 2 ^ 32; q_cdw12 := q_cdw12 (rw_sqe 2 lun (ptr buffer) (rw_lba RW6 bs1) (rw_blocks RW6 bs1) 0 0) + 15 * 2 ^ 26 |}]).
    { rewrite X2, <- Ea, <- Eb, Eu. unfold rw_sqe. cbn [q_cdw12]. f_equal. f_equal. f_equal. lia. }
    split; [exact X2'|]. rewrite X1, X2'. cbn [rw_fua].
    apply cdw12_differs; cbn [q_cdw12 rw_sqe]; change (2 ^ 32) with 4294967296; change (2 ^ 26) with 67108864; lia.
Qed.
Print Assumptions C109_six_refuted.

(** ** The premises are met *)
Definition ex10 : list byte := B [0x28;0x08;0;1;2;3;0;0;5;0].
Definition ex16 : list byte := B [0x88;0x08;0;0;0;0;0;1;2;3;0;0;0;5;0;0].
Definition ex06 (opc : N) : list byte := B [opc;1;2;3;5;0].
Definition ex10z (opc : N) : list byte := B [opc;0;0;1;2;3;0;0;5;0].
Example C109_premises_met :
  same_transfer RW10 ex10 RW16 ex16 /\ rw_fua RW10 ex10 = 1 /\ rw_lba RW10 ex10 = 0x010203 /\ rw_blocks RW16 ex16 = 5 /\
  idle ex_obj /\ span_holds (ex_world ex10) (ex_cdb ex10) ex10 /\ span_holds (ex_world ex16) (ex_cdb ex16) ex16 /\
  (exists t1 t2 q, Begin ex_obj (ex_cdb ex10) (ex_buf 20480) 0 (ex_world ex10) = Ret (t1, begin_ok 20480) (ex_world ex10) /\
     Begin ex_obj (ex_cdb ex16) (ex_buf 20480) 0 (ex_world ex16) = Ret (t2, begin_ok 20480) (ex_world ex16) /\
     exposes t1 = [io 20480 q] /\ exposes t2 = [io 20480 q]) /\
  (forall opc, rw_lba RW6 (ex06 opc) = rw_lba RW10 (ex10z opc) /\ rw_blocks RW6 (ex06 opc) = 5 /\ rw_blocks RW10 (ex10z opc) = 5 /\
     rw_protect (ex10z opc) = 0 /\ rw_fua RW10 (ex10z opc) = 0 /\ 5 * 4096 <= len (ex_buf 20480)).
Proof.
  assert (S : same_transfer RW10 ex10 RW16 ex16).
  { split; [cbn; lia|]. split; [cbn; lia|]. split; [vm_compute; reflexivity|]. split; [vm_compute; reflexivity|]. split; vm_compute; reflexivity. }
  split; [exact S|]. split; [vm_compute; reflexivity|]. split; [vm_compute; reflexivity|]. split; [vm_compute; reflexivity|].
  split; [exact ex_idle|]. split; [apply ex_cdb_holds|]. split; [apply ex_cdb_holds|].
  split; [|intros opc; split; [reflexivity|]; split; [reflexivity|]; split; [reflexivity|]; split; [reflexivity|]; split; [reflexivity|vm_compute; discriminate]].
  destruct (C14_read_exact RW10 ex_obj (ex_cdb ex10) (ex_buf 20480) 0 (ex_world ex10) ex10 15) as (t1 & E1 & _ & X1);
    [discriminate|exact ex_idle|apply ex_cdb_holds|reflexivity|cbn; lia|split; vm_compute; discriminate|reflexivity|vm_compute; discriminate|].
  destruct (C14_read_exact RW16 ex_obj (ex_cdb ex16) (ex_buf 20480) 0 (ex_world ex16) ex16 15) as (t2 & E2 & _ & X2);
    [discriminate|exact ex_idle|apply ex_cdb_holds|reflexivity|cbn; lia|split; vm_compute; discriminate|reflexivity|vm_compute; discriminate|].
  exists t1, t2. eexists. split; [exact E1|]. split; [exact E2|]. split; [exact X1|]. exact X2.
Qed.
