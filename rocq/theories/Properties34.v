(** C98: the units found with REPORT LUNS. *)
From Coq Require Import Arith NArith String List Lia Bool Init.Byte Permutation.
From Coq Require Import ZifyBool ZifyNat ZifyN.
From Verif Require Import Bytes Layout ScsiDefs World Common SmallCmds ModeSenseCmd TranslationCls Spec RwSpec InquirySpec SmallSpec Facts Logic BeginFacts
  CompleteFacts StatusFacts RwFacts AdminFacts InquiryFacts SmallFacts Witness Properties2 Properties4 Properties9 Properties28 LunSpec.
Import ListNotations.
Local Open Scope string_scope.
Local Open Scope list_scope.
Local Open Scope N_scope.

Lemma be_encode_small x : x < 2 ^ 32 -> be_encode 8 x = repeat x00 4 ++ be_encode 4 x.
Proof.
  intros H. unfold be_encode. change 8%nat with (4 + 4)%nat. rewrite le_encode_app. rewrite rev_app_distr.
  f_equal. rewrite N.div_small by exact H. reflexivity.
Qed.
Lemma active_small page id : In id (active_namespaces page) -> id <> 0 /\ id < 2 ^ 32.
Proof.
  intros Hin. split.
  - pose proof (until_zero_nz (id_list page)) as F. rewrite Forall_forall in F. apply F. exact Hin.
  - destruct (active_prefix page _ (le_n _)) as [Hp _]. rewrite firstn_all in Hp. rewrite Hp in Hin.
    apply in_map_iff in Hin as (j & <- & _). apply id_at_lt.
Qed.
(** the entry of namespace [id], as the initiator reads it *)
Lemma initiator_entry x : x < 2 ^ 32 -> exists k, initiator_lun (be_encode 8 x) = k * 2 ^ 32.
Proof.
  intros H. rewrite be_encode_small by exact H. unfold initiator_lun.
  exists (be (slice 4 2 (repeat x00 4 ++ be_encode 4 x)) + be (slice 6 2 (repeat x00 4 ++ be_encode 4 x)) * 2 ^ 16).
  change (be (slice 0 2 (repeat x00 4 ++ be_encode 4 x))) with 0. change (be (slice 2 2 (repeat x00 4 ++ be_encode 4 x))) with 0.
  change (2 ^ 48) with (2 ^ 16 * 2 ^ 32). lia.
Qed.
Lemma slice_luns n l i : (i < length l)%nat -> slice (8 + 8 * i) 8 (lun_list n l) = be_encode 8 (nth i l 0 - 1).
Proof.
  intros Hi. rewrite <- slice_entries by exact Hi. unfold lun_list, slice. reflexivity.
Qed.

(** A unit found with REPORT LUNS whose entry stands for namespace 1 is unit 0, and
    addresses namespace 1. *)
Theorem C98_first_namespace_partial : forall n page i,
  (i < length (active_namespaces page))%nat -> nth i (active_namespaces page) 0 = 1 ->
  initiator_lun (slice (8 + 8 * i) 8 (lun_list n (active_namespaces page))) = 0.
Proof. intros n page i Hi E. rewrite slice_luns by exact Hi. rewrite E. reflexivity. Qed.
Print Assumptions C98_first_namespace_partial.

(** Refuted for all other namespaces: whatever entry of whatever list an initiator
    takes for the unit of a READ, WRITE or SYNCHRONIZE CACHE, the command goes to
    namespace 1. *)
Theorem C98_reported_units_refuted : forall n page i t cdb buffer w bs t' r w',
  (i < length (active_namespaces page))%nat ->
  idle t -> span_holds w cdb bs -> data_opcode (byte_at bs 0) -> bs <> [] ->
  Begin t cdb buffer (initiator_lun (slice (8 + 8 * i) 8 (lun_list n (active_namespaces page)))) w = Ret (t', r) w' -> accepted t' ->
  exists q k, exposes t' = [io k q] /\ q_nsid q = 1.
Proof.
  intros n page i t cdb buffer w bs t' r w' Hi Ht Hc Ho Hb E Ha.
  destruct (C23_nsid_exact _ _ _ _ _ _ _ _ _ Ht Hc Ho Hb E Ha) as (q & k & X & Q). exists q, k. split; [exact X|]. rewrite Q, slice_luns by exact Hi.
  destruct (active_small page (nth i (active_namespaces page) 0)) as [_ Hs]; [apply nth_In; exact Hi|].
  destruct (initiator_entry (nth i (active_namespaces page) 0 - 1)) as (z & ->); [lia|].
  rewrite N.add_comm, N.mod_add by discriminate. reflexivity.
Qed.
Print Assumptions C98_reported_units_refuted.

(** the list of C39's example (namespaces 1, 7, 256): its second entry is unit 6
    for the translator, 6 * 2^48 for an initiator, and a SYNCHRONIZE CACHE sent
    there is accepted *)
Example C98_met :
  initiator_lun (slice 16 8 (lun_list 24 (active_namespaces ex_list))) = 6 * 2 ^ 48 /\
  exists t', Begin ex_obj (ex_cdb (B [0x35;0;0;0;0;0;0;0;0;0])) (ex_buf 0) (6 * 2 ^ 48) (ex_world (B [0x35;0;0;0;0;0;0;0;0;0])) =
      Ret (t', begin_ok 0) (ex_world (B [0x35;0;0;0;0;0;0;0;0;0])) /\ accepted t'.
Proof.
  split; [rewrite C39_ids; reflexivity|].
  destruct (Begin_sync_ok ex_obj (ex_cdb (B [0x35;0;0;0;0;0;0;0;0;0])) (ex_buf 0) (6 * 2 ^ 48) (ex_world (B [0x35;0;0;0;0;0;0;0;0;0])) (B [0x35;0;0;0;0;0;0;0;0;0]))
    as (t' & E & A & _); [exact ex_idle|apply ex_cdb_holds|reflexivity|]. exists t'. split; [exact E|exact A].
Qed.
