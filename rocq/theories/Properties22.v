(** C87: which data survive a power failure. *)
From Coq Require Import Arith NArith String List Lia Bool Init.Byte Permutation.
From Coq Require Import ZifyBool ZifyNat ZifyN.
From Verif Require Import Bytes Layout World ScsiDefs NvmeDefs Common ModeSenseCmd StatusCmd TranslationCls EngineE2e MockModule
  Spec RwSpec EngineSpec MockSpec Facts Logic BeginFacts CompleteFacts StatusFacts RelFacts RwFacts EngineFacts MockFacts Witness
  Properties1 Properties2 Properties6 Properties9 Properties11 Properties14 DiskSpec DiskFacts Properties16 MixedSpec Properties20 DurableSpec DurableFacts.
Import ListNotations.
Local Open Scope string_scope.
Local Open Scope list_scope.
Local Open Scope N_scope.

Lemma rw_sqe_fua opc lun p lba n fua pr : 1 <= n <= 65536 -> pr < 16 ->
  N.testbit (le (slice 48 4 (sqe_bytes (rw_sqe opc lun p lba n (N.b2n fua) pr)))) 30 = fua.
Proof.
  intros Hn Hp. unfold sqe_bytes, rw_sqe. cbn [q_opc q_nsid q_prp1 q_cdw10 q_cdw11 q_cdw12].
  set (v := n - 1 + pr * 2 ^ 26 + N.b2n fua * 2 ^ 30).
  replace (slice 48 4 _) with (le_encode 4 v) by reflexivity. rewrite le_le_encode. change (8 * N.of_nat 4) with 32.
  assert (v < 2 ^ 32) by (unfold v; change (2 ^ 26) with 67108864; change (2 ^ 30) with 1073741824; change (2 ^ 32) with 4294967296; destruct fua; cbn [N.b2n]; lia).
  rewrite N.mod_small by assumption. apply N.b2n_inj. rewrite N.testbit_spec'.
  assert (E : v / 2 ^ 30 = N.b2n fua).
  { symmetry. apply (N.div_unique v (2 ^ 30) _ (n - 1 + pr * 2 ^ 26)); unfold v; change (2 ^ 26) with 67108864; change (2 ^ 30) with 1073741824; lia. }
  rewrite E. apply N.mod_small. destruct fua; cbn; lia.
Qed.

Lemma flush_fields nsid : nsid < 2 ^ 32 ->
  let c := sqe_bytes {| q_opc := 0x00; q_nsid := nsid; q_prp1 := 0; q_cdw10 := 0; q_cdw11 := 0; q_cdw12 := 0 |} in
  le (slice 0 1 c) = 0 /\ le (slice 4 4 c) = nsid.
Proof.
  intros H c. unfold c, sqe_bytes. cbn [q_opc q_nsid q_prp1 q_cdw10 q_cdw11 q_cdw12]. split; [reflexivity|].
  replace (slice 4 4 _) with (le_encode 4 nsid) by reflexivity. rewrite le_le_encode. apply N.mod_small. exact H.
Qed.

(** ** what the device holds, in terms of disks *)
Definition backed (st : storage) (k : candidates) : Prop :=
  forall lun b, lun < 2 ^ 32 - 1 -> b < 2 ^ 64 -> exists s, In s (k lun b) /\ forall o, o < 4096 -> st (medium (lun + 1) b o) = Some (s lun b o).
Definition current (d : disk) (k : candidates) : Prop :=
  forall lun b, lun < 2 ^ 32 - 1 -> b < 2 ^ 64 -> exists s, In s (k lun b) /\ same_block d s lun b.

Lemma lun_block lun b : lun < 2 ^ 32 - 1 -> b < 2 ^ 64 -> block_of (lun + 1) b.
Proof. intros H1 H2. split; [lia|exact H2]. Qed.

Lemma backed_saved m st st' d k : (forall lun b o, lun < 2 ^ 32 - 1 -> b < 2 ^ 64 -> o < 4096 -> m (medium (lun + 1) b o) = Some (d lun b o)) ->
  backed st k -> current d k -> saved_some m st st' -> backed st' k.
Proof.
  intros Hm Hb Hc Hs lun b Hl Hbk. destruct (Hs (lun + 1) b (lun_block _ _ Hl Hbk)) as [Q|Q].
  - destruct (Hb lun b Hl Hbk) as (s & Hi & E). exists s. split; [exact Hi|]. intros o Ho. rewrite Q by exact Ho. apply E. exact Ho.
  - destruct (Hc lun b Hl Hbk) as (s & Hi & E). exists s. split; [exact Hi|]. intros o Ho. rewrite Q, Hm by assumption. rewrite E by exact Ho. reflexivity.
Qed.
Lemma written_write x lun b : written x lun b = true -> exists lba data, x = IoWrite lun lba data /\ lba <= b < lba + blocks_of data.
Proof. destruct x as [u lba n|u lba data]; cbn [written]; [discriminate|]. intros H. exists lba, data. assert (u = lun) as -> by lia. split; [reflexivity|lia]. Qed.
Lemma step_elsewhere cap d x lun b o : written x lun b = false -> fst (disk_step cap d x) lun b o = d lun b o.
Proof.
  destruct x as [u lba n|u lba data]; cbn [disk_step written]; intros H.
  - destruct (lba + n <=? cap u); reflexivity.
  - destruct (lba + blocks_of data <=? cap u); [|reflexivity]. cbn [fst]. unfold disk_write. rewrite (N.eqb_sym lun u), H. reflexivity.
Qed.
Lemma current_step cap d k x fua : current d k -> current (fst (disk_step cap d x)) (after_write k x fua (fst (disk_step cap d x))).
Proof.
  intros Hc lun b Hl Hb. unfold after_write. destruct (written x lun b) eqn:W.
  - exists (fst (disk_step cap d x)). split; [destruct fua; left; reflexivity|]. intros o _. reflexivity.
  - destruct (Hc lun b Hl Hb) as (s & Hi & E). exists s. split; [exact Hi|]. intros o Ho. rewrite step_elsewhere by exact W. apply E. exact Ho.
Qed.
Lemma backed_more st k x d' : backed st k -> backed st (after_write k x false d').
Proof.
  intros H lun b Hl Hb. destruct (H lun b Hl Hb) as (s & Hi & E). exists s. split; [|exact E]. unfold after_write. destruct (written x lun b); [right|]; exact Hi.
Qed.
Lemma current_only d : current d (only d).
Proof. intros lun b _ _. exists d. split; [left; reflexivity|]. intros o _. reflexivity. Qed.

(** power failure: the device restarts with what was in storage *)
Lemma restart_disk st w k : backed st k -> restarts st w -> exists d, may_survive k d /\ stores w d /\ backed st (only d).
Proof.
  intros Hb Hr. exists (fun lun b o => match st (medium (lun + 1) b o) with Some v => v | None => x00 end). split; [|split].
  - intros lun b Hl Hbk. destruct (Hb lun b Hl Hbk) as (s & Hi & E). exists s. split; [exact Hi|]. intros o Ho. cbv beta. rewrite E by exact Ho. reflexivity.
  - intros lun b o Hl Hbk Ho. destruct (Hb lun b Hl Hbk) as (s & _ & E). rewrite (Hr (lun + 1) b (lun_block _ _ Hl Hbk) o Ho), E by exact Ho. reflexivity.
  - intros lun b Hl Hbk. eexists. split; [left; reflexivity|]. intros o Ho. cbv beta. destruct (Hb lun b Hl Hbk) as (s & _ & E). rewrite E by exact Ho. reflexivity.
Qed.

(** an interrupted write leaves every block old or new *)
Lemma interrupted_blocks cap done cpl x kz fua s m w1 (w : world) d : cap_ok cap -> stores w d -> io_sub x kz fua s -> kz < 2 ^ 64 ->
  match x with IoRead _ _ n => kz + n * 4096 <= 2 ^ 64 | IoWrite u lba data => N.of_nat (length data) = blocks_of data * 4096 /\ (forall i b, nth_error data i = Some b -> m (kz + N.of_nat i) = Some b) end ->
  (forall y, 2 ^ 64 <= y -> m y = mem w y) -> (forall y, 2 ^ 64 <= y -> mem w1 y = fst (interrupted cap done cpl 0%nat s m) y) ->
  forall lun b, lun < 2 ^ 32 - 1 -> b < 2 ^ 64 ->
    (forall o, o < 4096 -> mem w1 (medium (lun + 1) b o) = Some (d lun b o)) \/
    (written x lun b = true /\ forall o, o < 4096 -> mem w1 (medium (lun + 1) b o) = Some (fst (disk_step (fun l => cap (l + 1)) d x) lun b o)).
Proof.
  intros Hcap Hs Hio Hkz Hx Hmw Hm lun b Hl Hb.
  assert (Old : forall o, o < 4096 -> m (medium (lun + 1) b o) = Some (d lun b o)).
  { intros o Ho. rewrite Hmw by apply medium_high. apply Hs; assumption. }
  assert (I1 : forall y, 2 ^ 64 <= y -> fst (nvme_disk cap 0%nat s m) y = m y -> mem w1 y = m y).
  { intros y Hy E. rewrite Hm by exact Hy. unfold interrupted. cbn [fst]. destruct (done _); [exact E|reflexivity]. }
  unfold io_sub in Hio. destruct x as [u lba n|u lba data]; cbn [io_parts] in Hio; destruct Hio as (Hu & Hlba & Hn & pr & p2 & l2 & Hpr & V).
  - left. intros o Ho. rewrite I1; [apply Old; exact Ho|apply medium_high|].
    rewrite (nvme_disk_eq cap 0%nat s m 2 u kz lba n _ pr _ _ V) by lia. destruct (_ <? _); [reflexivity|].
    change (2 =? 2) with true. cbv iota. cbn [fst]. apply copy_out. rewrite N.mod_small by lia. pose proof (medium_high (lun + 1) b o). lia.
  - destruct Hx as [Hlen Hdat]. set (n := blocks_of data) in *.
    pose proof (nvme_disk_eq cap 0%nat s m 1 u kz lba n _ pr _ _ V) as Dev. rewrite lun_nsid in Dev by exact Hu. rewrite (N.mod_small kz) in Dev by exact Hkz.
    specialize (Dev (or_introl eq_refl) Hlba). change (1 =? 2) with false in Dev. cbv iota in Dev.
    specialize (Dev (conj (proj1 Hn) (N.le_trans _ _ 65536 (proj2 Hn) ltac:(discriminate)))).
    destruct (N.ltb_spec (cap (u + 1)) (lba + n)) as [Hr|Hr].
    { left. intros o Ho. rewrite I1; [apply Old; exact Ho|apply medium_high|]. rewrite Dev. reflexivity. }
    assert (Hr64 : lba + n <= 2 ^ 64) by (specialize (Hcap (u + 1)); lia).
    destruct (written (IoWrite u lba data) lun b) eqn:W.
    2:{ left. intros o Ho. rewrite I1; [apply Old; exact Ho|apply medium_high|]. rewrite Dev. cbn [fst]. apply copy_out.
        intros Y. apply (medium_range (u + 1) lba n (lun + 1) b o Hr64 Hb Ho) in Y. cbn [written] in W. fold n in W. lia. }
    assert (Hw : lun = u /\ lba <= b < lba + n) by (cbn [written] in W; fold n in W; lia). destruct Hw as [-> Hw].
    assert (Blk : forall o, o < 4096 -> (medium (u + 1) b o - medium (u + 1) lba 0) / 4096 = b - lba).
    { intros o Ho. rewrite medium_diff by lia. rewrite N.mul_comm. symmetry. apply (N.div_unique _ _ _ o); [exact Ho|lia]. }
    destruct (rw_sqe_fields 1 u kz lba n (N.b2n fua) pr) as (_ & F2 & _ & F4 & _); [lia|exact Hlba|lia|].
    assert (Vc : le_encode 64 (sub_cmd s) = sqe_bytes (rw_sqe 1 u kz lba n (N.b2n fua) pr)).
    { unfold sub_view in V. apply pair_eq in V as [V _]. apply pair_eq in V as [V _]. apply pair_eq in V as [_ V]. exact V. }
    destruct (done (b - lba)) eqn:Dn.
    + right. split; [reflexivity|]. intros o Ho. rewrite Hm by apply medium_high. unfold interrupted. cbn [fst]. rewrite Vc, F2, F4, lun_nsid by exact Hu.
      rewrite Blk, Dn, Dev by exact Ho. cbn [fst].
      assert (Hy : medium (u + 1) lba 0 <= medium (u + 1) b o < medium (u + 1) lba 0 + n * 4096) by (apply (medium_range (u + 1) lba n (u + 1) b o Hr64 Hb Ho); lia).
      unfold copy. replace ((medium (u + 1) lba 0 <=? medium (u + 1) b o) && (medium (u + 1) b o <? medium (u + 1) lba 0 + n * 4096)) with true by lia.
      cbn [disk_step]. fold n. replace (lba + n <=? cap (u + 1)) with true by lia. cbn [fst]. unfold disk_write. fold n.
      replace ((u =? u) && (lba <=? b) && (b <? lba + n)) with true by lia. rewrite medium_diff by lia.
      set (j := (b - lba) * 4096 + o). rewrite <- (N2Nat.id j) at 1. apply Hdat. apply nth_error_nth'. unfold j. lia.
    + left. intros o Ho. rewrite Hm by apply medium_high. unfold interrupted. cbn [fst]. rewrite Vc, F2, F4, lun_nsid by exact Hu.
      rewrite Blk, Dn by exact Ho. apply Old. exact Ho.
Qed.

Lemma lived_ok : forall cap w0 st0 d l w st, cap_ok cap -> stores w0 d -> all_saved w0 st0 -> lived cap w0 st0 l w st ->
  exists d' k, expected (fun lun => cap (lun + 1)) d l d' k /\ stores w d' /\ backed st k /\ current d' k.
Proof.
  intros cap w0 st0 d l w st Hcap Hs Ha H.
  induction H as [|l w st w' st' H IH Hm Hsv|l w st ident cpl wrs kz wild c bs x a r w' st' H IH P Hcdb E O S|l w st ident cpl wrs kz wild c r w' st' H IH P E S
                 |l w st ident cpl wrs kz wild c r w' st' H IH P E Hg S|l w st w' H IH Hr|l w st done cpl wrs kz wild c x r w1 st1 w' H IH P E Hsv Hr].
  - exists d, (only d). split; [constructor|]. split; [exact Hs|]. split; [|apply current_only].
    intros lun b Hl Hb. exists d. split; [left; reflexivity|]. intros o Ho. rewrite (Ha _ _ (lun_block _ _ Hl Hb)) by exact Ho. apply Hs; assumption.
  - destruct IH as (d1 & k & X & S1 & B & C). exists d1, k. split; [exact X|]. split; [exact (stores_same _ _ _ S1 Hm)|]. split; [|exact C].
    exact (backed_saved (mem w) st st' d1 k S1 B C Hsv).
  - destruct IH as (d1 & k & X & S1 & B & C).
    pose proof (adapter_step_dev cap _ wrs kz wild c w x d1 (device_disk_like cap ident cpl) Hcap S1 P) as Z.
    destruct (disk_step (fun lun => cap (lun + 1)) d1 x) as [d2 a2] eqn:D. destruct Z as (r2 & w2 & E2 & O2 & S2 & _).
    rewrite E in E2. apply ret_eq in E2 as [<- <-]. pose proof (scsi_observes_unique _ _ _ _ _ _ O O2) as ->.
    destruct (adapter_rw _ _ _ _ _ _ _ bs _ _ P Hcdb E) as (s & m & Es & Hio & Hkz & _).
    eexists d2, _. split; [exact (ex_served _ _ _ _ _ _ _ _ _ X D)|]. split; [exact S2|].
    destruct S as [Sv Sf].
    assert (Cur : current d2 (after_write k x (fua_bit bs) d2)) by (pose proof (current_step (fun lun => cap (lun + 1)) d1 k x (fua_bit bs) C) as Q; rewrite D in Q; exact Q).
    destruct (match a2 with AnsOutOfRange => true | _ => false end) eqn:Oor.
    + assert (d2 = d1) as ->.
      { destruct x; cbn [disk_step] in D; destruct (_ <=? _); apply pair_eq in D as [<- <-]; try reflexivity; discriminate Oor. }
      split; [|exact C]. exact (backed_saved (mem w') st st' d1 k S2 B C Sv).
    + split; [|exact Cur]. destruct (fua_bit bs) eqn:Fua.
      * intros lun b Hl Hb. unfold after_write. destruct (written x lun b) eqn:W.
        -- exists d2. split; [left; reflexivity|]. intros o Ho. apply written_write in W as (lba & data & -> & Hr).
           unfold io_sub, io_parts in Hio. destruct Hio as (Hu & Hlba & Hn & pr & p2 & l2 & Hpr & V).
           assert (Q : holds_same st' (mem w') (lun + 1) b).
           { apply (Sf 0%nat s); [rewrite Es; reflexivity|exact (lun_block _ _ Hl Hb)| |].
             - unfold makes_safe. cbv zeta. unfold sub_view in V. apply pair_eq in V as [V _]. apply pair_eq in V as [V _]. apply pair_eq in V as [Va Vc]. rewrite Vc.
               destruct (rw_sqe_fields 1 lun kz lba (blocks_of data) (N.b2n true) pr) as (F1 & F2 & _ & F4 & F5); [lia|exact Hlba|lia|].
               rewrite F1, F2, F4, F5, rw_sqe_fua, lun_nsid by (try exact Hpr; try exact Hl; lia).
               split; [exact Va|]. split; [reflexivity|]. right. split; [reflexivity|]. split; [reflexivity|]. split; [|exact Hr].
               cbn [disk_step] in D. destruct (N.leb_spec (lba + blocks_of data) (cap (lun + 1))); [assumption|]. apply pair_eq in D as [_ <-]. discriminate Oor.
             - unfold sub_view in V. apply pair_eq in V as [V _]. apply pair_eq in V as [V _]. apply pair_eq in V as [Va Vc]. rewrite Vc.
               destruct (rw_sqe_fields 1 lun kz lba (blocks_of data) (N.b2n true) pr) as (F1 & _); [lia|exact Hlba|lia|]. rewrite F1. discriminate. }
           rewrite Q by exact Ho. apply S2; assumption.
        -- assert (B' : backed st' k \/ True) by auto. destruct (Sv (lun + 1) b (lun_block _ _ Hl Hb)) as [Q|Q].
           ++ destruct (B lun b Hl Hb) as (s' & Hi & Eo). exists s'. split; [exact Hi|]. intros o Ho. rewrite Q by exact Ho. apply Eo. exact Ho.
           ++ destruct (Cur lun b Hl Hb) as (s' & Hi & Eo). unfold after_write in Hi. rewrite W in Hi. exists s'. split; [exact Hi|].
              intros o Ho. rewrite Q, S2 by assumption. rewrite Eo by exact Ho. reflexivity.
      * exact (backed_saved (mem w') st st' d2 _ S2 (backed_more st k x d2 B) Cur Sv).
  - destruct IH as (d1 & k & X & S1 & B & C). exists d1, k. split; [exact X|].
    assert (S2 : stores w' d1) by (apply (stores_same _ _ _ S1); exact (C85_adapter_keeps_data _ _ _ _ _ _ _ _ _ _ P E)).
    split; [exact S2|]. split; [|exact C]. exact (backed_saved (mem w') st st' d1 k S2 B C (proj1 S)).
  - destruct IH as (d1 & k & X & S1 & B & C).
    destruct (adapter_sync _ _ _ _ _ _ _ _ P E Hg) as (s & n & Es & V & Hok & Hm).
    assert (Hlun : sc_lun c < 2 ^ 32 - 1) by apply P.
    assert (Hns : (sc_lun c + 1) mod 2 ^ 32 = sc_lun c + 1) by (apply N.mod_small; lia). rewrite Hns in V.
    unfold sub_view in V. apply pair_eq in V as [V _]. apply pair_eq in V as [V _]. apply pair_eq in V as [Va Vc].
    destruct (flush_fields (sc_lun c + 1)) as [F1 F2]; [lia|].
    assert (Dev : nvme_device cap ident cpl 0%nat s (mem w) = (mem w, cpl 0%nat s)) by (unfold nvme_device; rewrite Va, Vc, F1; reflexivity).
    rewrite Dev in Hok, Hm. cbn [fst snd] in Hok, Hm.
    assert (S2 : stores w' d1) by (apply (stores_same _ _ _ S1); exact Hm).
    eexists d1, _. split; [exact (ex_synced _ _ _ _ _ _ X)|]. split; [exact S2|].
    destruct S as [Sv Sf]. split.
    + intros lun b Hl Hb. cbv beta. destruct (N.eqb_spec lun (sc_lun c)) as [->|Hn].
      * exists d1. split; [left; reflexivity|]. intros o Ho. rewrite (Sf 0%nat s (sc_lun c + 1) b); [apply S2; assumption|rewrite Es; reflexivity|exact (lun_block _ _ Hl Hb)| |intros _; exact Hok|exact Ho].
        unfold makes_safe. cbv zeta. rewrite Vc, F1, F2. split; [exact Va|]. split; [reflexivity|]. left. reflexivity.
      * exact (backed_saved (mem w') st st' d1 k S2 B C Sv lun b Hl Hb).
    + intros lun b Hl Hb. cbv beta. destruct (lun =? sc_lun c); [exists d1; split; [left; reflexivity|intros o _; reflexivity]|apply C; assumption].
  - destruct IH as (d1 & k & X & S1 & B & C). destruct (restart_disk st w' k B Hr) as (d2 & M & S2 & B2).
    exists d2, (only d2). split; [exact (ex_failed _ _ _ _ _ _ X M)|]. split; [exact S2|]. split; [exact B2|apply current_only].
  - destruct IH as (d1 & k & X & S1 & B & C).
    assert (Hb0 : exists bs, cdb_of w c bs) by (destruct P as ((bs & Q1 & Q2 & Q3 & _) & _); exists bs; split; [exact Q1|split; [exact Q2|exact Q3]]).
    destruct Hb0 as (bs & Hcdb).
    destruct (adapter_rw _ _ _ _ _ _ _ bs _ _ P Hcdb E) as (s & m & Es & Hio & Hkz & Hmw & Hdat & Hm).
    assert (Hlen : match x with IoRead _ _ n => kz + n * 4096 <= 2 ^ 64 | IoWrite u lba data => N.of_nat (length data) = blocks_of data * 4096 /\ (forall i b, nth_error data i = Some b -> m (kz + N.of_nat i) = Some b) end).
    { destruct P as ((bs' & _ & _ & _ & _ & (f & _ & _ & _ & Hf)) & _ & _ & _ & _ & Hkl & Hx). destruct x as [u lba n|u lba data].
      - destruct Hx as (_ & Hx & _). lia.
      - split; [|exact Hdat]. destruct Hf as (_ & _ & _ & _ & Hf). unfold blocks_of. rewrite Hf, N.div_mul by discriminate. reflexivity. }
    pose proof (interrupted_blocks cap done cpl x kz _ s m w1 w d1 Hcap S1 Hio Hkz Hlen Hmw Hm) as Blk.
    set (d2 := fst (disk_step (fun lun => cap (lun + 1)) d1 x)) in *.
    assert (B1 : backed st1 (after_write k x false d2)).
    { intros lun b Hl Hb. destruct (Hsv (lun + 1) b (lun_block _ _ Hl Hb)) as [Q|Q].
      - destruct (backed_more st k x d2 B lun b Hl Hb) as (s' & Hi & Eo). exists s'. split; [exact Hi|]. intros o Ho. rewrite Q by exact Ho. apply Eo. exact Ho.
      - destruct (Blk lun b Hl Hb) as [Q2|[W Q2]].
        + destruct (C lun b Hl Hb) as (s' & Hi & Eo). exists s'. split; [unfold after_write; destruct (written x lun b); [right|]; exact Hi|].
          intros o Ho. rewrite Q, Q2 by exact Ho. rewrite Eo by exact Ho. reflexivity.
        + exists d2. split; [unfold after_write; rewrite W; left; reflexivity|]. intros o Ho. rewrite Q, Q2 by exact Ho. reflexivity. }
    destruct (restart_disk st1 w' _ B1 Hr) as (d3 & M & S3 & B3).
    exists d3, (only d3). split; [exact (ex_cut _ _ _ _ _ _ _ X M)|]. split; [exact S3|]. split; [exact B3|apply current_only].
Qed.

(** ** C87 *)

(** whatever is done through the adapter, and whenever the power fails, the
    initiator sees a disk with a volatile cache that keeps its promises *)
Theorem C87_power_failures : forall cap w0 st0 d l w st, cap_ok cap -> stores w0 d -> all_saved w0 st0 -> lived cap w0 st0 l w st ->
  exists d' k, expected (fun lun => cap (lun + 1)) d l d' k /\ stores w d'.
Proof.
  intros cap w0 st0 d l w st Hcap Hs Ha H. destruct (lived_ok cap w0 st0 d l w st Hcap Hs Ha H) as (d' & k & X & S & _). exists d', k. split; assumption.
Qed.
Print Assumptions C87_power_failures.

(** *** what the reference promises *)
Section Promise.
Variables (cap : N -> N) (d : disk) (lun b : N) (v : N -> byte).
Hypothesis Hlun : lun < 2 ^ 32 - 1.
Hypothesis Hb : b < 2 ^ 64.
Definition shown (d1 : disk) : Prop := forall o, o < 4096 -> d1 lun b o = v o.
Definition safe (d1 : disk) (k : candidates) : Prop := shown d1 /\ forall s, In s (k lun b) -> shown s.

Lemma list_eq_nil_dec {A} (l : list A) : {l = []} + {l <> []}.
Proof. destruct l; [left; reflexivity|right; discriminate]. Qed.
Lemma snoc_cases {A} (l l1 l2 : list A) h : l ++ [h] = l1 ++ l2 -> (l2 = [] /\ l1 = l ++ [h]) \/ exists l2', l2 = l2' ++ [h] /\ l = l1 ++ l2'.
Proof.
  intros H. destruct (list_eq_nil_dec l2) as [->|N].
  - left. rewrite app_nil_r in H. auto.
  - destruct (exists_last N) as (l2' & y & ->). rewrite app_assoc in H. apply app_inj_tail in H as [-> ->]. right. exists l2'. auto.
Qed.
Lemma may_survive_shown k d2 : may_survive k d2 -> (forall s, In s (k lun b) -> shown s) -> shown d2.
Proof. intros M H o Ho. destruct (M lun b Hlun Hb) as (s & Hi & E). rewrite E by exact Ho. apply (H s Hi o Ho). Qed.
Lemma shown_step d1 x d2 a : disk_step cap d1 x = (d2, a) -> ~ touches_block lun b (Served x true a) -> shown d1 -> shown d2.
Proof.
  intros D T S o Ho. destruct (written x lun b) eqn:W.
  - apply written_write in W as (lba & data & -> & Hr). cbn [disk_step] in D. destruct (lba + blocks_of data <=? cap lun); apply pair_eq in D as [<- <-]; [|apply S; exact Ho].
    exfalso. apply T. cbn [touches_block written]. lia.
  - pose proof (step_elsewhere cap d1 x lun b o W) as E. rewrite D in E. cbn [fst] in E. rewrite E. apply S. exact Ho.
Qed.
Lemma oor_same d1 x d2 a : disk_step cap d1 x = (d2, a) -> match a with AnsOutOfRange => d2 = d1 | _ => True end.
Proof. intros D. destruct x; cbn [disk_step] in D; destruct (_ <=? _); apply pair_eq in D as [<- <-]; try exact I; reflexivity. Qed.

Lemma stays_shown l d' k : expected cap d l d' k -> forall l1 l2, l = l1 ++ l2 ->
  (forall d1 k1, expected cap d l1 d1 k1 -> shown d1) -> Forall (fun h => ~ touches_block lun b h /\ no_failure h) l2 -> shown d'.
Proof.
  induction 1 as [|l d1 k x fua d2 a X IH D|l d1 k u X IH|l d1 k d2 X IH M|l d1 k x d2 X IH M]; intros l1 l2 E G F.
  - symmetry in E. apply app_eq_nil in E as [-> ->]. apply (G d (only d)). constructor.
  - apply snoc_cases in E as [[-> ->]|(l2' & -> & ->)]; [exact (G _ _ (ex_served _ _ _ _ _ _ fua _ _ X D))|].
    apply Forall_app in F as [F1 F2]. inversion F2 as [|? ? [T _] _]; subst. apply (shown_step d1 x d2 a D); [|exact (IH l1 l2' eq_refl G F1)].
    destruct a; exact T.
  - apply snoc_cases in E as [[-> ->]|(l2' & -> & ->)]; [exact (G _ _ (ex_synced _ _ _ _ _ u X))|]. apply Forall_app in F as [F1 _]. exact (IH l1 l2' eq_refl G F1).
  - apply snoc_cases in E as [[-> ->]|(l2' & -> & ->)]; [exact (G _ _ (ex_failed _ _ _ _ _ _ X M))|]. apply Forall_app in F as [_ F2]. exfalso; inversion F2 as [|? ? Q _]; subst; exact (proj2 Q).
  - apply snoc_cases in E as [[-> ->]|(l2' & -> & ->)]; [exact (G _ _ (ex_cut _ _ _ _ _ _ _ X M))|]. apply Forall_app in F as [_ F2]. exfalso; inversion F2 as [|? ? Q _]; subst; exact (proj2 Q).
Qed.

Lemma stays_safe l d' k : expected cap d l d' k -> forall l1 l2, l = l1 ++ l2 ->
  (forall d1 k1, expected cap d l1 d1 k1 -> safe d1 k1) -> Forall (fun h => ~ touches_block lun b h) l2 -> safe d' k.
Proof.
  assert (Only : forall d2, shown d2 -> safe d2 (only d2)) by (intros d2 H; split; [exact H|intros s [<-|[]]; exact H]).
  induction 1 as [|l d1 k x fua d2 a X IH D|l d1 k u X IH|l d1 k d2 X IH M|l d1 k x d2 X IH M]; intros l1 l2 E G F.
  - symmetry in E. apply app_eq_nil in E as [-> ->]. apply G. constructor.
  - apply snoc_cases in E as [[-> ->]|(l2' & -> & ->)]; [exact (G _ _ (ex_served _ _ _ _ _ _ fua _ _ X D))|].
    apply Forall_app in F as [F1 F2]. inversion F2 as [|? ? T _]; subst. destruct (IH l1 l2' eq_refl G F1) as [S1 S2].
    assert (Sh : shown d2) by (apply (shown_step d1 x d2 a D); [destruct a; exact T|exact S1]).
    split; [exact Sh|]. pose proof (oor_same _ _ _ _ D) as Q.
    destruct a; cbv iota; try exact S2; intros s Hs; unfold after_write in Hs; (destruct (written x lun b); [destruct fua; [destruct Hs as [<-|[]]; exact Sh|destruct Hs as [<-|Hs]; [exact Sh|exact (S2 s Hs)]]|exact (S2 s Hs)]).
  - apply snoc_cases in E as [[-> ->]|(l2' & -> & ->)]; [exact (G _ _ (ex_synced _ _ _ _ _ u X))|]. apply Forall_app in F as [F1 _].
    destruct (IH l1 l2' eq_refl G F1) as [S1 S2]. split; [exact S1|]. cbv beta. destruct (lun =? u); [intros s [<-|[]]; exact S1|exact S2].
  - apply snoc_cases in E as [[-> ->]|(l2' & -> & ->)]; [exact (G _ _ (ex_failed _ _ _ _ _ _ X M))|]. apply Forall_app in F as [F1 _].
    destruct (IH l1 l2' eq_refl G F1) as [S1 S2]. apply Only. exact (may_survive_shown _ _ M S2).
  - apply snoc_cases in E as [[-> ->]|(l2' & -> & ->)]; [exact (G _ _ (ex_cut _ _ _ _ _ _ _ X M))|]. apply Forall_app in F as [F1 F2]. inversion F2 as [|? ? T _]; subst.
    destruct (IH l1 l2' eq_refl G F1) as [S1 S2]. apply Only. apply (may_survive_shown _ _ M). intros s Hs. unfold after_write in Hs.
    cbn [touches_block] in T. destruct (written x lun b); [exfalso; apply T; reflexivity|exact (S2 s Hs)].
Qed.
End Promise.

Lemma app_snoc_inv {A} (l l' : list A) h h' : l ++ [h] = l' ++ [h'] -> l = l' /\ h = h'.
Proof. apply app_inj_tail. Qed.
Definition block_value (lba b : N) (data : list byte) (o : N) : byte := nth (N.to_nat ((b - lba) * 4096 + o)) data x00.
(** what the last write shows *)
Lemma write_shown cap d l lun lba data fua d1 k1 b : lba <= b < lba + blocks_of data ->
  expected cap d (l ++ [Served (IoWrite lun lba data) fua AnsDone]) d1 k1 ->
  lba + blocks_of data <= cap lun /\ shown lun b (block_value lba b data) d1 /\ (fua = true -> safe lun b (block_value lba b data) d1 k1).
Proof.
  intros Hb H. inversion H as [Q|l0 d0 k0 x0 f0 d2 a0 X D Q|l0 d0 k0 u X Q|l0 d0 k0 d2 X M Q|l0 d0 k0 x0 d2 X M Q].
  - symmetry in Q. apply app_eq_nil in Q as [_ Q]. discriminate Q.
  - apply app_snoc_inv in Q as [-> Q]. injection Q as -> -> ->. subst d2. cbn [disk_step] in D. destruct (N.leb_spec (lba + blocks_of data) (cap lun)) as [L|L].
    2:{ apply pair_eq in D as [_ D]. discriminate D. }
    apply pair_eq in D as [<- _]. split; [exact L|].
    assert (S : shown lun b (block_value lba b data) (disk_write d0 lun lba data)).
    { intros o Ho. unfold disk_write. replace ((lun =? lun) && (lba <=? b) && (b <? lba + blocks_of data)) with true by lia. reflexivity. }
    split; [exact S|]. intros ->. split; [exact S|]. intros s. unfold after_write. cbn [written].
    replace ((lun =? lun) && (lba <=? b) && (b <? lba + blocks_of data)) with true by lia. intros [<-|[]]. exact S.
  - apply app_snoc_inv in Q as [_ Q]. discriminate Q.
  - apply app_snoc_inv in Q as [_ Q]. discriminate Q.
  - apply app_snoc_inv in Q as [_ Q]. discriminate Q.
Qed.
Lemma read_shown cap d l lun lba n fua bs d1 k1 b v o : lba <= b < lba + n -> o < 4096 ->
  (forall d0 k0, expected cap d l d0 k0 -> shown lun b v d0) ->
  expected cap d (l ++ [Served (IoRead lun lba n) fua (AnsData bs)]) d1 k1 -> block_byte lba b o bs = Some (v o).
Proof.
  intros Hb Ho G H. inversion H as [Q|l0 d0 k0 x0 f0 d2 a0 X D Q|l0 d0 k0 u X Q|l0 d0 k0 d2 X M Q|l0 d0 k0 x0 d2 X M Q].
  - symmetry in Q. apply app_eq_nil in Q as [_ Q]. discriminate Q.
  - apply app_snoc_inv in Q as [-> Q]. injection Q as -> -> ->. cbn [disk_step] in D. destruct (lba + n <=? cap lun); apply pair_eq in D as [_ D]; [|discriminate D].
    injection D as <-. unfold block_byte. set (j := (b - lba) * 4096 + o).
    assert (L : (N.to_nat j < length (disk_read d0 lun lba n))%nat) by (pose proof (disk_read_length d0 lun lba n); unfold j; lia).
    destruct (nth_error (disk_read d0 lun lba n) (N.to_nat j)) as [y|] eqn:E; [|apply nth_error_None in E; lia].
    apply disk_read_nth in E as [_ ->]. rewrite N2Nat.id. f_equal.
    assert (j / 4096 = b - lba) as -> by (unfold j; rewrite N.mul_comm; symmetry; apply (N.div_unique _ _ _ o); [exact Ho|lia]).
    assert (j mod 4096 = o) as -> by (unfold j; rewrite N.mul_comm; symmetry; apply (N.mod_unique _ _ (b - lba)); [exact Ho|lia]).
    replace (lba + (b - lba)) with b by lia. exact (G d0 k0 X o Ho).
  - apply app_snoc_inv in Q as [_ Q]. discriminate Q.
  - apply app_snoc_inv in Q as [_ Q]. discriminate Q.
  - apply app_snoc_inv in Q as [_ Q]. discriminate Q.
Qed.
Lemma block_value_ok lba b data o : lba <= b < lba + blocks_of data -> o < 4096 -> block_byte lba b o data = Some (block_value lba b data o).
Proof.
  intros Hb Ho. unfold block_byte, block_value. apply nth_error_nth'. unfold blocks_of in *. pose proof (N.mul_div_le (N.of_nat (length data)) 4096). lia.
Qed.
Lemma touched_out cap d l1 h l2 lun lba data fua b :
  h = Served (IoWrite lun lba data) fua AnsDone -> lba <= b < lba + blocks_of data -> (forall u, cap u <= 2 ^ 64) ->
  forall d' k, expected cap d (l1 ++ h :: l2) d' k -> b < 2 ^ 64.
Proof.
  intros -> Hb Hc. induction l2 as [|y l2 IH] using rev_ind; intros d' k H.
  - destruct (write_shown _ _ _ _ _ _ _ _ _ _ Hb H) as (L & _). specialize (Hc lun). lia.
  - rewrite app_comm_cons, app_assoc in H. inversion H as [Q|l0 d0 k0 x0 f0 d2 a0 X D Q|l0 d0 k0 u X Q|l0 d0 k0 d2 X M Q|l0 d0 k0 x0 d2 X M Q];
      [symmetry in Q; apply app_eq_nil in Q as [_ Q]; discriminate Q|..]; apply app_snoc_inv in Q as [-> _]; exact (IH _ _ X).
Qed.

(** a write with FUA, once answered, is not lost, whatever happens later except
    another write to the block (answered, or cut short) *)
Theorem C87_forced_writes_survive : forall cap w0 st0 w st l1 l2 lun lba data lba' n fua bs b o,
  cap_ok cap -> (exists d, stores w0 d) -> all_saved w0 st0 ->
  lived cap w0 st0 (l1 ++ Served (IoWrite lun lba data) true AnsDone :: l2 ++ [Served (IoRead lun lba' n) fua (AnsData bs)]) w st ->
  lun < 2 ^ 32 - 1 -> lba <= b < lba + blocks_of data -> lba' <= b < lba' + n -> (forall h, In h l2 -> ~ touches_block lun b h) -> o < 4096 ->
  block_byte lba' b o bs = block_byte lba b o data /\ block_byte lba b o data <> None.
Proof.
  intros cap w0 st0 w st l1 l2 lun lba data lba' n fua bs b o Hcap (d & Hs) Ha H Hl Hb Hb' Hw Ho.
  destruct (C87_power_failures cap w0 st0 d _ w st Hcap Hs Ha H) as (d' & k & X & _). rewrite (block_value_ok _ _ _ _ Hb Ho). split; [|discriminate].
  assert (Hb64 : b < 2 ^ 64) by exact (touched_out _ _ _ _ _ _ _ _ _ _ eq_refl Hb (fun u => Hcap (u + 1)) _ _ X).
  rewrite app_comm_cons, app_assoc in X. apply (read_shown _ _ _ _ _ _ _ _ _ _ b (block_value lba b data) o Hb' Ho) in X; [exact X|].
  intros d0 k0 X0. refine (proj1 (_ : safe lun b (block_value lba b data) d0 k0)). apply (stays_safe _ d lun b (block_value lba b data) Hl Hb64 _ _ _ X0 (l1 ++ [Served (IoWrite lun lba data) true AnsDone]) l2).
  - rewrite <- app_assoc. reflexivity.
  - intros d1 k1 X1. apply (write_shown _ _ _ _ _ _ _ _ _ b Hb) in X1 as (_ & _ & X1). exact (X1 eq_refl).
  - apply Forall_forall. exact Hw.
Qed.
Print Assumptions C87_forced_writes_survive.

(** nor is any answered write, once SYNCHRONIZE CACHE for its unit has been
    answered GOOD *)
Theorem C87_synchronized_writes_survive : forall cap w0 st0 w st l1 l2 l3 lun lba data f lba' n fua bs b o,
  cap_ok cap -> (exists d, stores w0 d) -> all_saved w0 st0 ->
  lived cap w0 st0 (l1 ++ Served (IoWrite lun lba data) f AnsDone :: l2 ++ Synced lun :: l3 ++ [Served (IoRead lun lba' n) fua (AnsData bs)]) w st ->
  lun < 2 ^ 32 - 1 -> lba <= b < lba + blocks_of data -> lba' <= b < lba' + n ->
  (forall h, In h (l2 ++ l3) -> ~ touches_block lun b h) -> (forall h, In h l2 -> no_failure h) -> o < 4096 ->
  block_byte lba' b o bs = block_byte lba b o data /\ block_byte lba b o data <> None.
Proof.
  intros cap w0 st0 w st l1 l2 l3 lun lba data f lba' n fua bs b o Hcap (d & Hs) Ha H Hl Hb Hb' Hw Hf Ho.
  destruct (C87_power_failures cap w0 st0 d _ w st Hcap Hs Ha H) as (d' & k & X & _). rewrite (block_value_ok _ _ _ _ Hb Ho). split; [|discriminate].
  assert (Hb64 : b < 2 ^ 64) by exact (touched_out _ _ _ _ _ _ _ _ _ _ eq_refl Hb (fun u => Hcap (u + 1)) _ _ X).
  set (h := Served (IoWrite lun lba data) f AnsDone) in *.
  replace (l1 ++ h :: l2 ++ Synced lun :: l3 ++ [Served (IoRead lun lba' n) fua (AnsData bs)])
    with (((l1 ++ h :: l2) ++ Synced lun :: l3) ++ [Served (IoRead lun lba' n) fua (AnsData bs)]) in X by (rewrite <- !app_assoc; reflexivity).
  apply (read_shown _ _ _ _ _ _ _ _ _ _ b (block_value lba b data) o Hb' Ho) in X; [exact X|]. clear X.
  intros d0 k0 X0. refine (proj1 (_ : safe lun b (block_value lba b data) d0 k0)). apply (stays_safe _ d lun b (block_value lba b data) Hl Hb64 _ _ _ X0 ((l1 ++ h :: l2) ++ [Synced lun]) l3).
  - rewrite <- !app_assoc. reflexivity.
  - intros d1 k1 X1. inversion X1 as [Q|l0 d2 k2 x0 f0 d3 a0 X2 D Q|l0 d2 k2 u X2 Q|l0 d2 k2 d3 X2 M Q|l0 d2 k2 x0 d3 X2 M Q];
      [symmetry in Q; apply app_eq_nil in Q as [_ Q]; discriminate Q|..]; apply app_snoc_inv in Q as [-> Q]; try discriminate Q. injection Q as ->. subst d2 k1.
    assert (Sh : shown lun b (block_value lba b data) d1).
    { apply (stays_shown _ d lun b (block_value lba b data) Hl Hb64 _ _ _ X2 (l1 ++ [h]) l2).
      - rewrite <- app_assoc. reflexivity.
      - intros d4 k4 X4. apply (write_shown _ _ _ _ _ _ _ _ _ b Hb) in X4 as (_ & X4 & _). exact X4.
      - apply Forall_forall. intros y Hy. split; [apply Hw; apply in_or_app; auto|apply Hf; exact Hy]. }
    split; [exact Sh|]. intros s. cbv beta. rewrite N.eqb_refl. intros [<-|[]]. exact Sh.
  - apply Forall_forall. intros y Hy. apply Hw. apply in_or_app. auto.
Qed.
Print Assumptions C87_synchronized_writes_survive.

(** *** the premises are met *)

(** block 7 of unit 2 is written; with [f] the write has Force Unit Access *)
Definition ex_put (f : bool) : list byte := B [0x2a; if f then 8 else 0; 0; 0; 0; 7; 0; 0; 1; 0].
Notation ex_io := (IoWrite 2 7 (ex_data (N.to_nat 4096) xcd)).
Lemma ex_io_len : N.of_nat (length (ex_data (N.to_nat 4096) xcd)) = 4096.
Proof. unfold ex_data. rewrite repeat_length. apply N2Nat.id. Qed.
Lemma ex_put_len f : length (ex_put f) = 10%nat.
Proof. destruct f; reflexivity. Qed.
Lemma ex_put_cdb f : cdb_of (ex_disk_world (ex_put f)) (ex_scsi (ex_put f) false 4096) (ex_put f).
Proof.
  split; [|split; destruct f; reflexivity]. intros i b Hi. replace (sc_cmnd (ex_scsi (ex_put f) false 4096)) with 4096 by (destruct f; reflexivity).
  assert (i < 10)%nat by (rewrite <- (ex_put_len f); apply nth_error_Some; congruence).
  unfold ex_disk_world. cbn [mem set_mem]. unfold ex_disk_mem. rewrite ex_put_len. change (N.of_nat 10) with 10.
  replace (2 ^ 64 <=? 4096 + N.of_nat i) with false by lia.
  replace ((0x1000 <=? 4096 + N.of_nat i) && (4096 + N.of_nat i <? 0x1000 + 10)) with true by lia.
  replace (N.to_nat (4096 + N.of_nat i - 0x1000)) with i by lia. exact Hi.
Qed.
Lemma ex_put_presented f : scsi_presents (ex_disk_world (ex_put f)) 0x90000 (ex_scsi (ex_put f) false 4096) ex_io.
Proof.
  destruct (ex_put_cdb f) as (C1 & C2 & C3). pose proof ex_io_len as L.
  assert (M : forall y, mem (ex_disk_world (ex_put f)) y = ex_disk_mem (ex_put f) y) by reflexivity.
  assert (A : forall y, In y (sg_addrs (sc_sgl (ex_scsi (ex_put f) false 4096))) -> 0x20000 <= y < 0x21000).
  { unfold ex_scsi, sg_addrs. cbn [sc_sgl flat_map fst snd]. rewrite app_nil_r. change (4096 / 2) with 2048. intros y H.
    apply in_app_or in H as [H|H]; apply in_map_iff in H as (i & <- & H); apply in_seq in H; lia. }
  unfold scsi_presents. cbv zeta. split; [|split; [|split; [|split; [|split; [|split]]]]].
  - exists (ex_put f). split; [exact C1|]. split; [exact C2|]. split; [exact C3|]. split; [discriminate|].
    exists RW10. split; [cbn; lia|]. destruct f; (split; [split; discriminate|]; split; [reflexivity|]; split; [reflexivity|]; split; [reflexivity|];
      split; [discriminate|]; split; [reflexivity|]; rewrite L; reflexivity).
  - split; [|discriminate]. intros y Hy. change (ptr {| ptr := sc_sense (ex_scsi (ex_put f) false 4096); len := 96 |}) with 0x40000 in Hy. cbn [len] in Hy.
    rewrite M. unfold ex_disk_mem. rewrite ex_put_len. change (N.of_nat 10) with 10.
    replace (2 ^ 64 <=? y) with false by lia. replace ((0x1000 <=? y) && (y <? 0x1000 + 10)) with false by lia.
    replace ((0x20000 <=? y) && (y <? 0x24000)) with false by lia. replace ((0x40000 <=? y) && (y <? 0x40060)) with true by lia. discriminate.
  - intros y Hy. apply A in Hy. unfold in_span. change (ptr {| ptr := sc_sense (ex_scsi (ex_put f) false 4096); len := 96 |}) with 0x40000. cbn [len]. split; lia.
  - discriminate.
  - intros y Hy. change (sc_bufflen (ex_scsi (ex_put f) false 4096)) with 4096 in Hy. rewrite M. unfold ex_disk_mem. rewrite ex_put_len. change (N.of_nat 10) with 10.
    replace (2 ^ 64 <=? y) with false by lia. replace ((0x1000 <=? y) && (y <? 0x1000 + 10)) with false by lia.
    replace ((0x20000 <=? y) && (y <? 0x24000)) with false by lia. replace ((0x40000 <=? y) && (y <? 0x40060)) with false by lia. reflexivity.
  - discriminate.
  - split; [reflexivity|]. split; [symmetry; exact L|]. split.
    + pose proof (sg_total_length (sc_sgl (ex_scsi (ex_put f) false 4096))) as T. change (sg_total _) with 4096 in T. lia.
    + intros i y b Hi Hb. apply ex_data_nth in Hb as ->. apply nth_error_In in Hi. apply A in Hi. rewrite M. unfold ex_disk_mem. rewrite ex_put_len. change (N.of_nat 10) with 10.
      replace (2 ^ 64 <=? y) with false by lia. replace ((0x1000 <=? y) && (y <? 0x1000 + 10)) with false by lia.
      replace ((0x20000 <=? y) && (y <? 0x24000)) with true by lia. reflexivity.
Qed.

(** it is answered, and written to the device *)
Lemma ex_put_done f : exists r w1 d1, scsi_queuecommand (nvme_device ex_cap ex_ident ex_cpl) ex_wrs 0x90000 0 (ex_scsi (ex_put f) false 4096) (ex_disk_world (ex_put f)) = Ret r w1 /\
  scsi_observes w1 (ex_scsi (ex_put f) false 4096) r ex_io AnsDone /\ stores w1 d1 /\ disk_step ex_cap ex_disk ex_io = (d1, AnsDone) /\
  exists s, mr_subs r = [s] /\ io_sub ex_io 0x90000 (fua_bit (ex_put f)) s.
Proof.
  assert (Hc : cap_ok ex_cap) by (intros n; discriminate).
  pose proof (adapter_step_dev ex_cap _ ex_wrs 0x90000 0 _ _ _ ex_disk (device_disk_like ex_cap ex_ident ex_cpl) Hc (ex_stores _) (ex_put_presented f)) as Z.
  change (fun lun => ex_cap (lun + 1)) with ex_cap in Z.
  assert (A : snd (disk_step ex_cap ex_disk ex_io) = AnsDone) by (unfold disk_step, blocks_of; rewrite ex_io_len; reflexivity).
  destruct (disk_step ex_cap ex_disk ex_io) as [d1 a1]. cbn [snd] in A. subst a1. destruct Z as (r1 & w1 & E1 & O1 & S1 & _).
  destruct (adapter_rw _ _ _ _ _ _ _ _ _ _ (ex_put_presented f) (ex_put_cdb f) E1) as (s & m & Es & Hio & _).
  exists r1, w1, d1. split; [exact E1|]. split; [exact O1|]. split; [exact S1|]. split; [reflexivity|]. exists s. split; assumption.
Qed.
Lemma ex_later_medium w : same_medium w (ex_later w).
Proof. intros y Hy. unfold ex_later. cbn [mem set_mem]. replace (2 ^ 64 <=? y) with true by lia. reflexivity. Qed.
Lemma ex_read_cdb w : cdb_of (ex_later w) (ex_scsi ex_read6 true 8192) ex_read6.
Proof.
  split; [|split; reflexivity]. intros i b Hi. change (sc_cmnd (ex_scsi ex_read6 true 8192)) with 4096.
  assert (i < 10)%nat by (change 10%nat with (length ex_read6); apply nth_error_Some; congruence).
  rewrite ex_later_low by lia. unfold ex_disk_mem. change (N.of_nat (length ex_read6)) with 10.
  replace (2 ^ 64 <=? 4096 + N.of_nat i) with false by lia.
  replace ((0x1000 <=? 4096 + N.of_nat i) && (4096 + N.of_nat i <? 0x1000 + 10)) with true by lia.
  replace (N.to_nat (4096 + N.of_nat i - 0x1000)) with i by lia. exact Hi.
Qed.
(** then blocks 6 and 7 are read *)
Lemma ex_get w0 st0 l w st d : lived ex_cap w0 st0 l w st -> stores w d ->
  exists w' st', lived ex_cap w0 st0 (l ++ [Served (IoRead 2 6 2) false (AnsData (disk_read d 2 6 2))]) w' st'.
Proof.
  intros H S. assert (Hc : cap_ok ex_cap) by (intros n; discriminate).
  assert (S2 : stores (ex_later w) d) by (apply (stores_same w); [exact S|apply ex_later_medium]).
  pose proof (adapter_step_dev ex_cap _ ex_wrs 0x90000 0 _ _ _ d (device_disk_like ex_cap ex_ident ex_cpl) Hc S2 (ex_read_presented w)) as Z.
  change (fun lun => ex_cap (lun + 1)) with ex_cap in Z. change (disk_step ex_cap d (IoRead 2 6 2)) with (d, AnsData (disk_read d 2 6 2)) in Z.
  destruct Z as (r2 & w2 & E2 & O2 & S3 & _). exists w2, (mem w2).
  change false with (fua_bit ex_read6).
  eapply lv_io; [|apply ex_read_presented|apply ex_read_cdb|exact E2|exact O2|].
  - eapply lv_env; [exact H|apply ex_later_medium|]. intros nsid b _. left. intros o _. reflexivity.
  - split; [intros nsid b _; right; intros o _; reflexivity|]. intros i s nsid b _ _ _ _ o _. reflexivity.
Qed.
Lemma ex_started f : all_saved (ex_disk_world (ex_put f)) (mem (ex_disk_world (ex_put f))).
Proof. intros nsid b _ o _. reflexivity. Qed.
Lemma ex_block7 : 7 <= 7 < 7 + blocks_of (ex_data (N.to_nat 4096) xcd).
Proof. unfold blocks_of. rewrite ex_io_len. change (4096 / 4096) with 1. lia. Qed.

(** forced, power failure, read *)
Example C87_forced_met : exists w st bs,
  lived ex_cap (ex_disk_world (ex_put true)) (mem (ex_disk_world (ex_put true)))
    ([] ++ Served ex_io true AnsDone :: [PowerFailed] ++ [Served (IoRead 2 6 2) false (AnsData bs)]) w st /\
  7 <= 7 < 7 + blocks_of (ex_data (N.to_nat 4096) xcd) /\ ~ touches_block 2 7 PowerFailed.
Proof.
  destruct (ex_put_done true) as (r & w1 & d1 & E & O & S & D & _).
  assert (H1 : lived ex_cap (ex_disk_world (ex_put true)) (mem (ex_disk_world (ex_put true))) ([] ++ [Served ex_io true AnsDone]) w1 (mem w1)).
  { change true with (fua_bit (ex_put true)) at 3. eapply lv_io; [apply lv_start|apply ex_put_presented|apply ex_put_cdb|exact E|exact O|].
    split; [intros nsid b _; right; intros o _; reflexivity|]. intros i s nsid b _ _ _ _ o _. reflexivity. }
  assert (H2 : lived ex_cap (ex_disk_world (ex_put true)) (mem (ex_disk_world (ex_put true))) (([] ++ [Served ex_io true AnsDone]) ++ [PowerFailed]) w1 (mem w1)).
  { eapply lv_failed; [exact H1|]. intros nsid b _ o _. reflexivity. }
  destruct (ex_get _ _ _ _ _ d1 H2 S) as (w' & st' & H3). exists w', st', (disk_read d1 2 6 2).
  split; [exact H3|]. split; [exact ex_block7|]. intros [].
Qed.

(** not forced, power failure: the write may be lost *)
Example C87_may_be_lost : exists w st,
  lived ex_cap (ex_disk_world (ex_put false)) (mem (ex_disk_world (ex_put false))) [Served ex_io false AnsDone; PowerFailed] w st /\ stores w ex_disk /\
  ex_disk 2 7 0 <> xcd.
Proof.
  destruct (ex_put_done false) as (r & w1 & d1 & E & O & S & D & s & Es & Hio).
  exists (ex_disk_world (ex_put false)), (mem (ex_disk_world (ex_put false))). split; [|split; [apply ex_stores|discriminate]].
  change [?a; ?b] with (([] ++ [a]) ++ [b]). eapply lv_failed; [|intros nsid b _ o _; reflexivity].
  change (Served ex_io false AnsDone) with (Served ex_io (fua_bit (ex_put false)) AnsDone).
  eapply lv_io; [apply lv_start|apply ex_put_presented|apply ex_put_cdb|exact E|exact O|].
  split; [intros nsid b _; left; intros o _; reflexivity|]. intros i s' nsid b Hs _ M _. exfalso.
  rewrite Es in Hs. destruct i as [|[|i]]; try discriminate Hs. injection Hs as <-.
  unfold io_sub, io_parts in Hio. destruct Hio as (_ & _ & _ & pr & p2 & l2 & Hpr & V).
  unfold sub_view in V. apply pair_eq in V as [V _]. apply pair_eq in V as [V _]. apply pair_eq in V as [Va Vc].
  unfold makes_safe in M. cbv zeta in M. rewrite Vc in M. destruct M as (_ & _ & M).
  pose proof ex_io_len as L.
  assert (Bl : blocks_of (ex_data (N.to_nat 4096) xcd) = 1) by (unfold blocks_of; rewrite L; reflexivity).
  destruct (rw_sqe_fields 1 2 0x90000 7 (blocks_of (ex_data (N.to_nat 4096) xcd)) (N.b2n (fua_bit (ex_put false))) pr) as (F1 & _); [try rewrite Bl; lia|try rewrite Bl; lia|try rewrite Bl; lia|].
  rewrite F1 in M. destruct M as [M|(_ & M & _)]; [discriminate M|]. rewrite rw_sqe_fua in M by (try exact Hpr; rewrite Bl; lia). discriminate M.
Qed.

(** not forced, SYNCHRONIZE CACHE, power failure, read *)
Definition ex_flush : list byte := B [0x35; 0; 0; 0; 0; 0; 0; 0; 0; 0].
Lemma ex_flush_asked w : scsi_sync (ex_later_with ex_flush w) (ex_scsi ex_flush true 0).
Proof.
  split; [|split; [discriminate|split; reflexivity]]. exists ex_flush. split; [|reflexivity]. split; [|split; reflexivity].
  intros i b Hi. change (sc_cmnd _) with 0x1000.
  assert (i < 10)%nat by (change 10%nat with (length ex_flush); apply nth_error_Some; congruence).
  unfold ex_later_with. cbn [mem set_mem]. unfold ex_disk_mem. change (N.of_nat (length ex_flush)) with 10.
  replace (2 ^ 64 <=? 0x1000 + N.of_nat i) with false by lia.
  replace ((0x1000 <=? 0x1000 + N.of_nat i) && (0x1000 + N.of_nat i <? 0x1000 + 10)) with true by lia.
  replace (N.to_nat (0x1000 + N.of_nat i - 0x1000)) with i by lia. exact Hi.
Qed.
Example C87_synchronized_met : exists w st bs,
  lived ex_cap (ex_disk_world (ex_put false)) (mem (ex_disk_world (ex_put false)))
    ([] ++ Served ex_io false AnsDone :: [] ++ Synced 2 :: [PowerFailed] ++ [Served (IoRead 2 6 2) false (AnsData bs)]) w st.
Proof.
  destruct (ex_put_done false) as (r & w1 & d1 & E & O & S & D & _).
  set (w0 := ex_disk_world (ex_put false)) in *.
  assert (H1 : lived ex_cap w0 (mem w0) ([] ++ [Served ex_io false AnsDone]) w1 (mem w1)).
  { change (Served ex_io false AnsDone) with (Served ex_io (fua_bit (ex_put false)) AnsDone).
    eapply lv_io; [apply lv_start|apply ex_put_presented|apply ex_put_cdb|exact E|exact O|].
    split; [intros nsid b _; right; intros o _; reflexivity|]. intros i s nsid b _ _ _ _ o _. reflexivity. }
  assert (M : same_medium w1 (ex_later_with ex_flush w1)).
  { intros y Hy. unfold ex_later_with. cbn [mem set_mem]. replace (2 ^ 64 <=? y) with true by lia. reflexivity. }
  assert (X : match scsi_queuecommand (nvme_device ex_cap ex_ident ex_cpl) ex_wrs 0x90000 0 (ex_scsi ex_flush true 0) (ex_later_with ex_flush w1) with
              | Ret r _ => mr_result r =? GOOD | UB _ => false end = true) by (vm_compute; reflexivity).
  destruct (scsi_queuecommand _ ex_wrs 0x90000 0 (ex_scsi ex_flush true 0) (ex_later_with ex_flush w1)) as [rs ws|] eqn:Es; [|discriminate X].
  apply N.eqb_eq in X.
  assert (H2 : lived ex_cap w0 (mem w0) (([] ++ [Served ex_io false AnsDone]) ++ [Synced 2]) ws (mem ws)).
  { change 2 with (sc_lun (ex_scsi ex_flush true 0)) at 2. eapply lv_sync; [|apply ex_flush_asked|exact Es|exact X|].
    - eapply lv_env; [exact H1|exact M|]. intros nsid b _. left. intros o _. reflexivity.
    - split; [intros nsid b _; right; intros o _; reflexivity|]. intros i s nsid b _ _ _ _ o _. reflexivity. }
  assert (S2 : stores ws d1).
  { destruct (adapter_sync _ _ _ _ _ _ _ _ (ex_flush_asked w1) Es X) as (s & n & E1 & V & _ & Hm).
    assert (Dev : fst (nvme_device ex_cap ex_ident ex_cpl 0%nat s (mem (ex_later_with ex_flush w1))) = mem (ex_later_with ex_flush w1)).
    { change ((sc_lun (ex_scsi ex_flush true 0) + 1) mod 2 ^ 32) with 3 in V.
      unfold sub_view in V. apply pair_eq in V as [V _]. apply pair_eq in V as [V _]. apply pair_eq in V as [Va Vc].
      destruct (flush_fields 3) as [F1 _]; [lia|]. unfold nvme_device. rewrite Va, Vc, F1. reflexivity. }
    rewrite Dev in Hm. apply (stores_same (ex_later_with ex_flush w1)); [|exact Hm]. apply (stores_same w1); [exact S|exact M]. }
  assert (H3 : lived ex_cap w0 (mem w0) ((([] ++ [Served ex_io false AnsDone]) ++ [Synced 2]) ++ [PowerFailed]) ws (mem ws)).
  { eapply lv_failed; [exact H2|]. intros nsid b _ o _. reflexivity. }
  destruct (ex_get _ _ _ _ _ d1 H3 S2) as (w' & st' & H4). exists w', st', (disk_read d1 2 6 2). exact H4.
Qed.
