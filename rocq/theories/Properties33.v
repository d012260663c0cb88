(** C97: the abort handler. *)
From Coq Require Import Arith NArith ZArith String List Lia Bool Init.Byte Permutation.
From Coq Require Import ZifyBool ZifyNat ZifyN.
From Verif Require Import Bytes Layout World Common EngineE2e MockModule KernelDriver HostTemplate Spec RwSpec EngineSpec MockSpec
  Properties9 Properties11 Properties13 DiskSpec DiskFacts Properties16 MixedSpec Properties20 ModuleSpec Properties27 ConcSpec ConcFacts ConcDiskSpec ConcDiskFacts Properties32.
Import ListNotations.
Local Open Scope string_scope.
Local Open Scope list_scope.
Local Open Scope N_scope.

(** The handler answers at once and changes nothing. *)
Theorem C97_abort_answers : forall c w, scsi_abort c w = Ret SUCCESS w.
Proof. reflexivity. Qed.
Print Assumptions C97_abort_answers.

(** A command the device has already carried out when the abort is answered changes
    the medium no more, whatever happens next. *)
Theorem C97_abort_partial : forall cap qs mems w0 d0 l w st i q w1 l' w' st',
  cap_ok cap -> each_own mems w0 -> Forall2 prepared_in qs mems -> stores w0 d0 -> together (reliable cap) w0 (queue_of qs) l w st ->
  nth_error qs i = Some q -> In i (order_of l) -> scsi_abort (q_cmnd q) w = Ret SUCCESS w1 ->
  together (reliable cap) w1 st l' w' st' -> ~ In (i, true) l'.
Proof.
  intros cap qs mems w0 d0 l w st i q w1 l' w' st' Hc Ho Hp Hs H Hq Hin E H' X. apply ret_eq in E as [_ <-].
  destruct (C96_linearizable cap qs mems w0 d0 _ w' st' Hc Ho Hp Hs (together_trans _ _ _ _ _ _ _ _ _ H H')) as (_ & _ & _ & _ & Nd & _).
  unfold order_of in Nd, Hin. rewrite filter_app, map_app in Nd. apply in_split in Hin as (a & b & Hab). rewrite Hab, <- app_assoc in Nd. cbn [app] in Nd.
  apply NoDup_remove_2 in Nd. apply Nd. apply in_or_app. right. apply in_or_app. right. change i with (fst (i, true)). apply in_map. apply filter_In. auto.
Qed.
Print Assumptions C97_abort_partial.

Lemma order_only l i : (forall p, In p l -> fst p = i) -> NoDup (order_of l) -> In i (order_of l) -> order_of l = [i].
Proof.
  intros A Nd Hi. assert (B : forall j, In j (order_of l) -> j = i).
  { intros j Hj. unfold order_of in Hj. apply in_map_iff in Hj as (p & <- & Hp). apply filter_In in Hp as [Hp _]. exact (A p Hp). }
  destruct (order_of l) as [|x [|y r]]; [destruct Hi|rewrite (B x); [reflexivity|left; reflexivity]|].
  exfalso. inversion Nd as [|? ? Z _]. apply Z. rewrite (B x) by (left; reflexivity). left. apply B. right. left. reflexivity.
Qed.
Lemma NoDup_app_r {A} (l1 l2 : list A) : NoDup (l1 ++ l2) -> NoDup l2.
Proof. induction l1 as [|x l1 IH]; [auto|]. intros H. inversion H. auto. Qed.

(** Refuted for every command the device has not carried out yet, in every state:
    the abort is reported successful, and after that the command can still take its
    full effect on the medium and on the initiator's memory. *)
Theorem C97_abort_refuted : forall cap qs mems w0 d0 l w st i q s,
  cap_ok cap -> each_own mems w0 -> Forall2 prepared_in qs mems -> stores w0 d0 -> room_for qs w0 -> together (reliable cap) w0 (queue_of qs) l w st ->
  nth_error qs i = Some q -> nth_error st i = Some s -> ~ In i (order_of l) ->
  exists w1 d, scsi_abort (q_cmnd q) w = Ret SUCCESS w1 /\ stores w1 d /\
    exists l' w' st' s' r d' a, together (reliable cap) w1 st l' w' st' /\ (forall p, In p l' -> fst p = i) /\
      disk_step (fun lun => cap (lun + 1)) d (q_io q) = (d', a) /\ stores w' d' /\
      nth_error st' i = Some s' /\ returned s' r /\ scsi_observes w' (q_cmnd q) r (q_io q) a.
Proof.
  intros cap qs mems w0 d0 l w st i q s Hc Ho Hp Hs Room H Hq Hi Hn.
  destruct (C96_linearizable cap qs mems w0 d0 l w st Hc Ho Hp Hs H) as (ord & d & O & M & _ & Sd & _).
  exists w, d. split; [reflexivity|]. split; [exact Sd|].
  assert (Hdrv : reliable cap (nvme_device cap ex_ident ex_cpl)) by (unfold reliable; eauto).
  destruct (C96_no_waiting cap (reliable cap) _ qs mems w0 d0 l w st i s Hc (or_introl eq_refl) Hdrv Ho Hp Hs Room H Hi) as (l' & w' & st' & s' & r & H' & A & Hs' & R).
  pose proof (together_trans _ _ _ _ _ _ _ _ _ H H') as HH.
  destruct (C96_linearizable cap qs mems w0 d0 _ w' st' Hc Ho Hp Hs HH) as (ord' & d' & O' & M' & Nd & Sd' & Ret & _).
  destruct (Ret i q s' r Hq Hs' R) as (a & Ia & Ob).
  assert (Mo : order_of (l ++ l') = order_of l ++ order_of l') by (unfold order_of; rewrite filter_app, map_app; reflexivity).
  rewrite Mo in Nd, M'.
  assert (L' : order_of l' = [i]).
  { apply order_only; [exact A|exact (NoDup_app_r _ _ Nd)|]. apply (in_map fst) in Ia. rewrite M' in Ia. cbn [fst] in Ia.
    apply in_app_or in Ia as [Ia|Ia]; [contradiction|exact Ia]. }
  rewrite L' in M'.
  destruct O' as [|ordp dm j qj d' aj O' Hj Hst]; [destruct (order_of l); discriminate M'|].
  rewrite map_app in M'. cbn [map fst] in M'. apply app_inj_tail in M' as [M' ->].
  destruct (obo_functional cap qs d0 _ _ O _ _ O') as [<- <-]; [rewrite M; symmetry; exact M'|].
  rewrite Hq in Hj. apply Some_eq in Hj as <-.
  assert (a = aj) as ->.
  { apply in_app_or in Ia as [Ia|[Ia|[]]]; [|apply pair_eq in Ia as [_ Ia]; auto]. exfalso. apply Hn. rewrite <- M. change i with (fst (i, a)). apply in_map. exact Ia. }
  exists l', w', st', s', r, d', aj. repeat (split; [assumption|]). exact Ob.
Qed.
Print Assumptions C97_abort_refuted.

(** In particular: with nothing done yet, an aborted WRITE changes the medium. *)
Example C97_aborted_write : exists w' d', scsi_abort (q_cmnd ex_q0) ex_world2 = Ret SUCCESS ex_world2 /\
  (exists l' st', together (reliable ex_cap) ex_world2 (queue_of [ex_q0; ex_q1]) l' w' st') /\ stores w' d' /\ d' 2 7 0 = xcd /\ ex_disk 2 7 0 <> xcd.
Proof.
  destruct C96_premises_met as (Hc & Ho & Hp & Hs & Hr).
  destruct (C97_abort_refuted ex_cap [ex_q0; ex_q1] ex_mems ex_world2 ex_disk [] ex_world2 _ 0%nat ex_q0 _ Hc Ho Hp Hs Hr (tg_start _ _ _) eq_refl eq_refl)
    as (w1 & d & E & Sd & l' & w' & st' & s' & r & d' & a & T & _ & St & Sd' & _); [intros []|].
  apply ret_eq in E as [_ <-]. exists w', d'. split; [reflexivity|]. split; [eauto|]. split; [exact Sd'|].
  assert (L : N.of_nat (length (ex_data (N.to_nat 4096) xcd)) = 4096) by (unfold ex_data; rewrite repeat_length; apply N2Nat.id).
  split; [|vm_compute; discriminate].
  change (q_io ex_q0) with (IoWrite 2 7 (ex_data (N.to_nat 4096) xcd)) in St. unfold disk_step, blocks_of in St. rewrite L in St.
  change (ex_cap (2 + 1)) with 100 in St. change (7 + 4096 / 4096 <=? 100) with true in St. cbv iota in St. apply pair_eq in St as [<- _].
  unfold disk_write, blocks_of. rewrite L. change ((2 =? 2) && (7 <=? 7) && (7 <? 7 + 4096 / 4096)) with true. cbv iota.
  apply (ex_data_nth (N.to_nat 4096) xcd 0%nat). change (N.to_nat ((7 - 7) * 4096 + 0)) with 0%nat. apply nth_error_nth'. lia.
Qed.
