(** Lemmas for C79-C81: the NVMe disk behind the library and behind the adapter. *)
From Coq Require Import Arith NArith String List Lia Bool Init.Byte Permutation.
From Coq Require Import ZifyBool ZifyNat ZifyN.
From Verif Require Import Bytes Layout World ScsiDefs NvmeDefs Common ModeSenseCmd StatusCmd TranslationCls EngineE2e MockModule
  Spec RwSpec EngineSpec MockSpec Facts Logic BeginFacts CompleteFacts StatusFacts RelFacts RwFacts EngineFacts MockFacts Witness
  Properties1 Properties2 Properties6 Properties9 Properties11 DiskSpec.
Import ListNotations.
Local Open Scope string_scope.
Local Open Scope list_scope.
Local Open Scope N_scope.

Lemma rw_lba_lt f bs : rw_lba f bs < 2 ^ 64.
Proof.
  assert (B : forall o n, (n <= 8)%nat -> be (slice o n bs) < 2 ^ 64).
  { intros o n Hn. eapply N.lt_le_trans; [apply be_lt|]. apply N.pow_le_mono_r; [discriminate|].
    unfold slice. pose proof (firstn_le_length n (skipn o bs)). lia. }
  destruct f; unfold rw_lba; try (apply B; lia).
  eapply N.lt_le_trans; [apply N.mod_lt; discriminate|]. apply N.pow_le_mono_r; [discriminate|lia].
Qed.

(** ** the fields of a Read or Write command as the device decodes them *)
Lemma rw_sqe_fields opc lun p lba n fua pr : opc < 256 -> lba < 2 ^ 64 -> 1 <= n <= 65536 ->
  let c := sqe_bytes (rw_sqe opc lun p lba n fua pr) in
  le (slice 0 1 c) = opc /\ le (slice 4 4 c) = nsid_of lun /\ le (slice 24 8 c) = p mod 2 ^ 64 /\
  le (slice 40 8 c) = lba /\ le (slice 48 2 c) + 1 = n.
Proof.
  intros Ho Hl Hn c. unfold c, sqe_bytes, rw_sqe. cbn [q_opc q_nsid q_prp1 q_cdw10 q_cdw11 q_cdw12].
  split; [|split; [|split; [|split]]].
  - replace (slice 0 1 _) with (le_encode 1 opc) by reflexivity. rewrite le_le_encode. apply N.mod_small. exact Ho.
  - replace (slice 4 4 _) with (le_encode 4 (nsid_of lun)) by reflexivity. rewrite le_le_encode.
    change (8 * N.of_nat 4) with 32. unfold nsid_of. apply N.mod_small. apply N.mod_lt. discriminate.
  - replace (slice 24 8 _) with (le_encode 8 p) by reflexivity. rewrite le_le_encode. reflexivity.
  - replace (slice 40 8 _) with (le_encode 4 (lba mod 2 ^ 32) ++ le_encode 4 (lba / 2 ^ 32)) by reflexivity.
    rewrite le_app, !le_le_encode, le_encode_length. change (8 * N.of_nat 4) with 32.
    rewrite N.mod_mod by discriminate. rewrite (N.mod_small (lba / 2 ^ 32)).
    + pose proof (N.div_mod lba (2 ^ 32)). lia.
    + apply N.div_lt_upper_bound; [discriminate|]. change (2 ^ 32 * 2 ^ 32) with (2 ^ 64). exact Hl.
  - replace (slice 48 2 _) with (firstn 2 (le_encode 4 (n - 1 + pr * 2 ^ 26 + fua * 2 ^ 30))) by reflexivity.
    set (v := n - 1 + pr * 2 ^ 26 + fua * 2 ^ 30).
    replace (firstn 2 (le_encode 4 v)) with (le_encode 2 v) by reflexivity. rewrite le_le_encode. change (2 ^ (8 * N.of_nat 2)) with 65536.
    assert (E : v = (n - 1) + (pr * 2 ^ 10 + fua * 2 ^ 14) * 65536) by (unfold v; change (2 ^ 26) with (2 ^ 10 * 65536); change (2 ^ 30) with (2 ^ 14 * 65536); lia).
    rewrite E, N.mod_add by discriminate. rewrite N.mod_small by lia. lia.
Qed.

Lemma nvme_disk_eq cap k s m opc lun p lba n fua pr b l :
  sub_view s = (false, sqe_bytes (rw_sqe opc lun p lba n fua pr), b, l) -> opc = 1 \/ opc = 2 -> lba < 2 ^ 64 -> 1 <= n <= 65536 ->
  nvme_disk cap k s m =
    if cap (nsid_of lun) <? lba + n then (m, lba_out_of_range)
    else if opc =? 2 then (copy m (medium (nsid_of lun) lba 0) (p mod 2 ^ 64) (n * 4096), 0)
    else (copy m (p mod 2 ^ 64) (medium (nsid_of lun) lba 0) (n * 4096), 0).
Proof.
  intros V Ho Hl Hn. unfold sub_view in V. apply pair_eq in V as [V _]. apply pair_eq in V as [V _]. apply pair_eq in V as [Va Vc].
  assert (Hopc : opc < 256) by (destruct Ho; lia).
  destruct (rw_sqe_fields opc lun p lba n fua pr Hopc Hl Hn) as (F1 & F2 & F3 & F4 & F5).
  unfold nvme_disk. cbv zeta. rewrite Va, Vc, F1, F2, F3, F4, F5.
  replace ((opc =? 1) || (opc =? 2)) with true by (destruct Ho; subst; reflexivity). reflexivity.
Qed.

(** a device that treats Read and Write as [nvme_disk] does, and other commands
    in any way *)
Definition disk_like (cap : N -> N) (drv : driver) : Prop := forall k s m, sub_admin s = false ->
  In (le (slice 0 1 (le_encode 64 (sub_cmd s)))) [1; 2] -> drv k s m = nvme_disk cap k s m.
(** [drv] carries out this one command as the disk does; [p] is the host address *)
Definition io_opcode (x : disk_io) : N := match x with IoRead _ _ _ => 2 | IoWrite _ _ _ => 1 end.
Definition io_unit (x : disk_io) : N := match x with IoRead u _ _ | IoWrite u _ _ => u end.
Definition io_first (x : disk_io) : N := match x with IoRead _ lba _ | IoWrite _ lba _ => lba end.
Definition io_blocks (x : disk_io) : N := match x with IoRead _ _ n => n | IoWrite _ _ data => blocks_of data end.
Definition io_submission (x : disk_io) (p : N) (s : submission) : Prop :=
  exists fua pr l, l <> 0 /\
    sub_view s = (false, sqe_bytes (rw_sqe (io_opcode x) (io_unit x) p (io_first x) (io_blocks x) fua pr), p mod 2 ^ 64, l).
Definition serves (cap : N -> N) (drv : driver) (x : disk_io) (p : N) : Prop :=
  forall s m, io_submission x p s -> drv 0%nat s m = nvme_disk cap 0%nat s m.
Lemma disk_like_self cap : disk_like cap (nvme_disk cap).
Proof. intros k s m _ _. reflexivity. Qed.
Lemma disk_like_eq cap drv k s m opc lun p lba n fua pr b l : disk_like cap drv ->
  sub_view s = (false, sqe_bytes (rw_sqe opc lun p lba n fua pr), b, l) -> opc = 1 \/ opc = 2 -> lba < 2 ^ 64 -> 1 <= n <= 65536 ->
  drv k s m =
    if cap (nsid_of lun) <? lba + n then (m, lba_out_of_range)
    else if opc =? 2 then (copy m (medium (nsid_of lun) lba 0) (p mod 2 ^ 64) (n * 4096), 0)
    else (copy m (p mod 2 ^ 64) (medium (nsid_of lun) lba 0) (n * 4096), 0).
Proof.
  intros D V Ho Hl Hn. rewrite <- (nvme_disk_eq cap k s m opc lun p lba n fua pr b l V Ho Hl Hn).
  unfold sub_view in V. apply pair_eq in V as [V _]. apply pair_eq in V as [V _]. apply pair_eq in V as [Va Vc].
  assert (Hopc : opc < 256) by (destruct Ho; lia).
  destruct (rw_sqe_fields opc lun p lba n fua pr Hopc Hl Hn) as (F1 & _).
  apply D; [exact Va|]. rewrite Vc, F1. destruct Ho; subst; cbn; auto.
Qed.

Lemma disk_like_serves cap drv x p : disk_like cap drv -> io_first x < 2 ^ 64 -> 1 <= io_blocks x <= 65536 -> serves cap drv x p.
Proof.
  intros D Hl Hn s m (fua & pr & l & _ & V). apply D.
  - unfold sub_view in V. apply pair_eq in V as [V _]. apply pair_eq in V as [V _]. apply pair_eq in V as [V _]. exact V.
  - unfold sub_view in V. apply pair_eq in V as [V _]. apply pair_eq in V as [V _]. apply pair_eq in V as [_ V]. rewrite V.
    destruct (rw_sqe_fields (io_opcode x) (io_unit x) p (io_first x) (io_blocks x) fua pr) as (F1 & _); [destruct x; reflexivity|exact Hl|exact Hn|].
    rewrite F1. destruct x; cbn; auto.
Qed.

(** ** the medium *)
Lemma medium_high u b o : 2 ^ 64 <= medium u b o.
Proof. unfold medium. lia. Qed.
Lemma medium_step u lba i : medium u lba 0 + i = medium u (lba + i / 4096) (i mod 4096).
Proof. unfold medium. pose proof (N.div_mod i 4096). lia. Qed.
Lemma medium_range u lba n u' b o : lba + n <= 2 ^ 64 -> b < 2 ^ 64 -> o < 4096 ->
  medium u lba 0 <= medium u' b o < medium u lba 0 + n * 4096 <-> (u' = u /\ lba <= b < lba + n).
Proof.
  intros Hl Hb Ho. unfold medium. change (2 ^ 64) with 18446744073709551616 in *. split.
  - intros [H1 H2]. assert (u' = u) by lia. subst. lia.
  - intros [-> H]. lia.
Qed.
Lemma medium_diff u lba b o : lba <= b -> medium u b o - medium u lba 0 = (b - lba) * 4096 + o.
Proof. intros H. unfold medium. change (2 ^ 64) with 18446744073709551616 in *. lia. Qed.

Lemma disk_read_length d lun lba n : N.of_nat (length (disk_read d lun lba n)) = n * 4096.
Proof. unfold disk_read. rewrite map_length, seq_length. lia. Qed.
Lemma disk_read_nth d lun lba n i b : nth_error (disk_read d lun lba n) i = Some b ->
  N.of_nat i < n * 4096 /\ b = d lun (lba + N.of_nat i / 4096) (N.of_nat i mod 4096).
Proof.
  intros H. assert (L : (i < length (disk_read d lun lba n))%nat) by (apply nth_error_Some; congruence).
  pose proof (disk_read_length d lun lba n) as E. split; [lia|].
  unfold disk_read in *. rewrite map_length, seq_length in L. rewrite nth_error_map in H.
  rewrite (nth_error_nth' (seq 0 (N.to_nat (n * 4096))) 0%nat) in H by (rewrite seq_length; exact L).
  rewrite seq_nth in H by exact L. cbn in H. congruence.
Qed.

Lemma medium_read w d lun lba n i b : stores w d -> lun < 2 ^ 32 - 1 -> lba + n <= 2 ^ 64 ->
  nth_error (disk_read d lun lba n) i = Some b -> mem w (medium (lun + 1) lba 0 + N.of_nat i) = Some b.
Proof.
  intros S Hu Hl H. apply disk_read_nth in H as [Hi ->]. rewrite medium_step. apply S; [exact Hu| |apply N.mod_lt; discriminate].
  pose proof (N.div_lt_upper_bound (N.of_nat i) 4096 n). lia.
Qed.

Lemma stores_same w w' d : stores w d -> same_medium w w' -> stores w' d.
Proof. intros S E lun b o Hu Hb Ho. rewrite E by apply medium_high. apply S; assumption. Qed.

Lemma stores_write w w' d lun lba n data host : stores w d -> lun < 2 ^ 32 - 1 -> lba + n <= 2 ^ 64 ->
  N.of_nat (length data) = n * 4096 -> (forall i b, nth_error data i = Some b -> mem w (host + N.of_nat i) = Some b) ->
  (forall x, 2 ^ 64 <= x -> mem w' x = copy (mem w) host (medium (lun + 1) lba 0) (n * 4096) x) ->
  stores w' (disk_write d lun lba data).
Proof.
  intros S Hu Hl Hd Hh E u b o Hu' Hb Ho. rewrite E by apply medium_high. unfold copy, disk_write, blocks_of. rewrite Hd, N.div_mul by discriminate.
  pose proof (medium_range (lun + 1) lba n (u + 1) b o Hl Hb Ho) as R.
  destruct ((u =? lun) && (lba <=? b) && (b <? lba + n)) eqn:C.
  - assert (Hx : medium (lun + 1) lba 0 <= medium (u + 1) b o < medium (lun + 1) lba 0 + n * 4096) by (apply R; lia).
    replace ((medium (lun + 1) lba 0 <=? medium (u + 1) b o) && (medium (u + 1) b o <? medium (lun + 1) lba 0 + n * 4096)) with true by lia.
    assert (u = lun) as -> by lia. rewrite medium_diff by lia.
    set (j := (b - lba) * 4096 + o). assert (Hj : (N.to_nat j < length data)%nat) by (unfold j; lia).
    rewrite <- (N2Nat.id j) at 1. apply Hh. apply nth_error_nth'. exact Hj.
  - replace ((medium (lun + 1) lba 0 <=? medium (u + 1) b o) && (medium (u + 1) b o <? medium (lun + 1) lba 0 + n * 4096)) with false by lia.
    apply S; assumption.
Qed.

Lemma copy_out m from to n x : ~ (to <= x < to + n) -> copy m from to n x = m x.
Proof. intros H. unfold copy. replace ((to <=? x) && (x <? to + n)) with false by lia. reflexivity. Qed.
Lemma copy_in m from to n i : i < n -> copy m from to n (to + i) = m (from + i).
Proof. intros H. unfold copy. replace ((to <=? to + i) && (to + i <? to + n)) with true by lia. f_equal. lia. Qed.

Lemma lun_nsid lun : lun < 2 ^ 32 - 1 -> nsid_of lun = lun + 1.
Proof. intros H. unfold nsid_of. apply N.mod_small. lia. Qed.

Lemma oor_status : ~ cpl_ok lba_out_of_range /\ cpl_sct lba_out_of_range = 0 /\ cpl_sc lba_out_of_range = 0x80 /\ lba_out_of_range mod 2 ^ 128 = lba_out_of_range.
Proof. split; [intros [_ H]; vm_compute in H; discriminate H|]. vm_compute. auto. Qed.
Lemma zero_ok : cpl_ok (0 mod 2 ^ 128).
Proof. split; reflexivity. Qed.

(** ** completing a single data command *)
Definition data_opcodes : list N := [0x00; 0x08; 0x28; 0xa8; 0x88; 0x0a; 0x2a; 0xaa; 0x8a; 0x35; 0x2f].

Lemma begin_inv_one t cdb data lun w t1 al w1 : idle t -> Begin t cdb data lun w = Ret (t1, begin_ok al) w1 -> inv true t1.
Proof. intros Hi E. pose proof (inv_begin false t cdb data lun w t1 _ w1 (idle_inv _ Hi) E) as I. exact I. Qed.

Lemma complete_good t cdb data lun w bs t1 al x : idle t -> span_holds w cdb bs -> bs <> [] -> In (byte_at bs 0) data_opcodes ->
  Begin t cdb data lun w = Ret (t1, begin_ok al) w -> accepted t1 -> exposes t1 = [x] -> held t1 = [] ->
  forall m c buffer sense, span_holds (set_mem w m) cdb bs -> cpl_ok c ->
  exists t2 w2, Complete t1 [c] buffer sense (set_mem w m) = Ret (t2, api_ok GOOD) w2 /\ idle t2 /\ (forall y, mem w2 y = m y) /\ trace w2 = trace w.
Proof.
  intros Hi Hc Hne Hin E Ha X Hh m c buffer sense Hc2 Hok.
  destruct (C50_data_commands_partial t w cdb bs data lun t1 _ w Hi Hc Hne Hin E Ha (set_mem w m) bs [c] buffer sense Hc2 Hne eq_refl) as (t2 & w2 & E2 & M).
  { rewrite X. reflexivity. }
  { constructor; [exact Hok|constructor]. }
  pose proof (begin_inv_one _ _ _ _ _ _ _ _ Hi E) as I.
  exists t2, w2. split; [exact E2|]. split; [apply inv_idle, (inv_complete _ _ _ _ _ _ _ _ _ I E2)|]. split; [exact M|].
  pose proof (Complete_spec t1 [c] buffer sense (set_mem w m) (i_wf _ _ I) (inv_busy _ I)) as S.
  apply (pst_use _ _ _ _ _ S) in E2. destruct E2 as (_ & w3 & F & R & _). rewrite (r_trace _ _ _ R), (f_trace _ _ _ F), Hh.
  cbn [trace set_mem releases]. destruct (dealloc_cb w3); apply app_nil_r.
Qed.

Lemma complete_oor t cdb data lun w t1 al x : idle t ->
  Begin t cdb data lun w = Ret (t1, begin_ok al) w -> accepted t1 -> exposes t1 = [x] -> held t1 = [] ->
  forall buffer sense, span_mapped w sense -> 8 <= len sense ->
  exists t2 w2 bs, Complete t1 [lba_out_of_range] buffer sense w = Ret (t2, api_ok CHECK_CONDITION) w2 /\ idle t2 /\
    sense_says 5 0x21 0 bs /\ wrote w w2 (ptr sense) bs /\ trace w2 = trace w.
Proof.
  intros Hi E Ha X Hh buffer sense Hm Hl. pose proof (begin_inv_one _ _ _ _ _ _ _ _ Hi E) as I.
  destruct oor_status as (Hno & Hsct & Hsc & _).
  pose proof (Complete_error t1 [lba_out_of_range] [] lba_out_of_range [] buffer sense w (i_wf _ _ I) Ha) as H.
  rewrite Hsct, Hsc in H. change (scsi_status_of 0 0x80) with (CHECK_CONDITION, 5, 0x21, 0) in H. cbv beta iota in H.
  destruct H as (t2 & w1 & w2 & E2 & _ & Hi2 & Hs & R & Tr & _).
  { destruct (one_wrapper _ _ X) as (r & G & _). destruct (i_wf _ _ I) as (Hn & _).
    apply (f_equal (@length _)) in G. unfold GetNvmeWrappers in G. rewrite firstn_length in G. cbn [length] in *. lia. }
  { reflexivity. }
  { constructor. }
  { exact Hno. }
  { exact Hm. }
  destruct Hs as (_ & Hs). destruct (Hs Hl) as (bs & S & Wr). exists t2, w2, bs.
  split; [exact E2|]. split; [exact Hi2|]. split; [exact S|]. split; [exact Wr|].
  rewrite (r_trace _ _ _ R), Tr, Hh. cbn [releases]. destruct (dealloc_cb w1); apply app_nil_r.
Qed.
