(** Scatterlist copies and the adapter as allocation, engine, delivery. *)
From Coq Require Import Arith NArith String List Lia Bool Init.Byte Permutation.
From Coq Require Import ZifyBool ZifyNat ZifyN.
From Verif Require Import Bytes Layout World ScsiDefs NvmeDefs Common ModeSenseCmd TranslationCls EngineE2e MockModule
  Spec EngineSpec MockSpec Facts Logic BeginFacts CompleteFacts StatusFacts RelFacts EngineFacts.
Import ListNotations.
Local Open Scope string_scope.
Local Open Scope list_scope.
Local Open Scope N_scope.

Lemma sg_addrs_cons a l sgl : sg_addrs ((a, l) :: sgl) = map (fun i => a + N.of_nat i) (seq 0 (N.to_nat l)) ++ sg_addrs sgl.
Proof. reflexivity. Qed.
Lemma sg_total_length sgl : N.of_nat (length (sg_addrs sgl)) = sg_total sgl.
Proof.
  induction sgl as [|[a l] sgl IH]; [reflexivity|]. rewrite sg_addrs_cons, app_length, map_length, seq_length. cbn [sg_total fold_right snd].
  fold (sg_total sgl). rewrite <- IH. lia.
Qed.
Lemma seg_nth a n i x : nth_error (map (fun i => a + N.of_nat i) (seq 0 n)) i = Some x -> (i < n)%nat /\ x = a + N.of_nat i.
Proof.
  intros H. assert (L : (i < n)%nat).
  { assert (X : Nat.lt i (length (map (fun i => a + N.of_nat i) (seq 0 n)))) by (apply nth_error_Some; congruence). rewrite map_length, seq_length in X. exact X. }
  split; [exact L|]. erewrite map_nth_error in H.
  - injection H as <-. reflexivity.
  - rewrite (nth_error_nth' _ 0%nat) by (rewrite seq_length; exact L). rewrite seq_nth by exact L. reflexivity.
Qed.
Lemma seg_nth_ok a n i : (i < n)%nat -> nth_error (map (fun i => a + N.of_nat i) (seq 0 n)) i = Some (a + N.of_nat i).
Proof.
  intros L. erewrite map_nth_error; [reflexivity|]. rewrite (nth_error_nth' _ 0%nat) by (rewrite seq_length; exact L). rewrite seq_nth by exact L. reflexivity.
Qed.
Lemma seg_in a n x : In x (map (fun i => a + N.of_nat i) (seq 0 n)) <-> a <= x < a + N.of_nat n.
Proof.
  rewrite in_map_iff. split.
  - intros (i & <- & H). apply in_seq in H. lia.
  - intros H. exists (N.to_nat (x - a)). split; [lia|]. apply in_seq. lia.
Qed.

Lemma nth_error_firstn_lt {A} (l : list A) k i : (i < k)%nat -> nth_error (firstn k l) i = nth_error l i.
Proof.
  revert l i. induction k as [|k IH]; intros l i H; [lia|]. destruct l as [|x l]; [destruct i; reflexivity|]. destruct i; [reflexivity|]. cbn. apply IH. lia.
Qed.

(** gathering *)
Lemma sg_gather_ok sgl : forall n bs w, sg_holds w sgl bs -> length bs = Nat.min n (length (sg_addrs sgl)) -> sg_gather sgl n w = Ret bs w.
Proof.
  induction sgl as [|[a l] sgl IH]; intros n bs w [Hl Hb] Hn.
  - cbn [sg_addrs flat_map length] in *. destruct bs; [reflexivity|cbn in *; lia].
  - cbn [sg_gather]. rewrite sg_addrs_cons, app_length, map_length, seq_length in Hn, Hl. set (k := Nat.min n (N.to_nat l)).
    unfold bind. rewrite (load_ok w a k (firstn k bs)).
    + rewrite (IH (n - k)%nat (skipn k bs)).
      * unfold ret. rewrite firstn_skipn. reflexivity.
      * split; [rewrite skipn_length; lia|]. intros i x b Hi Hx. rewrite nth_error_skipn in Hx.
        destruct (Nat.eq_dec k (N.to_nat l)) as [E|E].
        -- apply (Hb (k + i)%nat x b); [|exact Hx]. rewrite sg_addrs_cons, nth_error_app2 by (rewrite map_length, seq_length; lia).
           rewrite map_length, seq_length. replace (k + i - N.to_nat l)%nat with i by lia. exact Hi.
        -- exfalso. assert (k + i < length bs)%nat by (apply nth_error_Some; congruence). lia.
      * rewrite skipn_length. lia.
    + intros i b Hi. assert (L : (i < length (firstn k bs))%nat) by (apply nth_error_Some; congruence). rewrite firstn_length in L.
      apply (Hb i); [|rewrite nth_error_firstn_lt in Hi by lia; exact Hi].
      rewrite sg_addrs_cons, nth_error_app1 by (rewrite map_length, seq_length; lia). apply seg_nth_ok. lia.
    + rewrite firstn_length. lia.
Qed.

Lemma NoDup_tail {A} (p l : list A) : NoDup (p ++ l) -> NoDup l.
Proof. induction p as [|x p IH]; [auto|]. cbn [app]. intros H. inversion H; subst. apply IH. assumption. Qed.

(** scattering *)
Lemma sg_scatter_ok sgl : forall bs w, sg_valid w sgl -> (length bs <= length (sg_addrs sgl))%nat ->
  exists m', sg_scatter sgl bs w = Ret (N.of_nat (length bs)) (set_mem w m') /\
    sg_holds (set_mem w m') sgl bs /\ (forall x, ~ In x (firstn (length bs) (sg_addrs sgl)) -> m' x = mem w x).
Proof.
  induction sgl as [|[a l] sgl IH]; intros bs w [Hd Hm] Hl.
  - cbn [sg_addrs flat_map length] in *. destruct bs; [|cbn in *; lia]. exists (mem w). cbn [sg_scatter length]. rewrite set_mem_same.
    split; [reflexivity|]. split; [split; [reflexivity|intros i x b H; destruct i; discriminate]|reflexivity].
  - rewrite sg_addrs_cons, app_length, map_length, seq_length in Hl. cbn [sg_scatter]. set (k := N.to_nat l) in *. unfold bind.
    assert (Hin : forall x, a <= x < a + N.of_nat k -> mem w x <> None).
    { intros x Hx. apply Hm. rewrite sg_addrs_cons. apply in_or_app. left. apply seg_in. exact Hx. }
    assert (Hfl : (length (firstn k bs) <= k)%nat) by (rewrite firstn_length; lia).
    rewrite store_ok by (intros x Hx; apply Hin; lia).
    set (m1 := store_bytes (mem w) a (firstn k bs)).
    rewrite sg_addrs_cons in Hd. pose proof Hd as Hd'. apply NoDup_tail in Hd'.
    assert (Hdj : forall x, a <= x < a + N.of_nat k -> ~ In x (sg_addrs sgl)).
    { intros x Hx Hi. apply seg_in in Hx. fold k in Hd. clear - Hd Hx Hi.
      revert Hd Hx. generalize (map (fun i => a + N.of_nat i) (seq 0 k)) as p. induction p as [|y p IHp]; intros Hd Hx; [contradiction|].
      cbn [app] in Hd. inversion Hd; subst. destruct Hx as [->|Hx]; [apply H1; apply in_or_app; right; exact Hi|]. apply IHp; assumption. }
    destruct (IH (skipn k bs) (set_mem w m1)) as (m' & E & [Hl2 Hh] & Hf).
    + split; [exact Hd'|]. intros x Hx. cbn [mem set_mem]. unfold m1. rewrite store_bytes_out.
      * apply Hm. rewrite sg_addrs_cons. apply in_or_app. right. exact Hx.
      * intros Y. apply (Hdj x); [lia|exact Hx].
    + rewrite skipn_length. lia.
    + rewrite E. exists m'. rewrite set_mem_set in *. unfold ret. split; [|split].
      * f_equal. rewrite firstn_length, skipn_length. lia.
      * split; [rewrite sg_addrs_cons, app_length, map_length, seq_length; fold k; lia|].
        intros i x b Hi Hb. rewrite sg_addrs_cons in Hi. fold k in Hi. destruct (Nat.lt_ge_cases i k) as [L|L].
        -- rewrite nth_error_app1 in Hi by (rewrite map_length, seq_length; exact L). apply seg_nth in Hi as [_ ->].
           cbn [mem set_mem]. rewrite Hf.
           ++ cbn [mem set_mem]. unfold m1. apply store_bytes_in. rewrite nth_error_firstn_lt by exact L. exact Hb.
           ++ intros Y. apply (Hdj (a + N.of_nat i)); [lia|]. rewrite <- (firstn_skipn (length (skipn k bs)) (sg_addrs sgl)). apply in_or_app. left. exact Y.
        -- rewrite nth_error_app2 in Hi by (rewrite map_length, seq_length; exact L). rewrite map_length, seq_length in Hi.
           apply (Hh (i - k)%nat); [exact Hi|]. rewrite nth_error_skipn. replace (k + (i - k))%nat with i by lia. exact Hb.
      * intros x Hx. rewrite Hf.
        -- cbn [mem set_mem]. unfold m1. apply store_bytes_out. intros Y. apply Hx. rewrite sg_addrs_cons. fold k.
           rewrite firstn_app. apply in_or_app. left. rewrite firstn_length in Y.
           assert (Z : nth_error (firstn (length bs) (map (fun i => a + N.of_nat i) (seq 0 k))) (N.to_nat (x - a)) = Some x).
           { rewrite nth_error_firstn_lt by lia. rewrite seg_nth_ok by lia. f_equal. lia. }
           eapply nth_error_In. exact Z.
        -- intros Y. apply Hx. rewrite sg_addrs_cons. fold k. rewrite firstn_app, map_length, seq_length. apply in_or_app. right.
           rewrite skipn_length in Y. exact Y.
Qed.

(** the engine, once Begin and Complete are known *)
Lemma engine_ok drv wrs q w t1 al w1 t2 st w2 :
  begins wrs q w = Ret (t1, begin_ok al) w1 -> al <= len (rq_data q) ->
  let subs := map sub_of (GetNvmeWrappers t1) in
  let d := device_run drv 0 subs (mem w1) in
  Complete t1 (snd d) (response_span q al) (rq_sense q) (set_mem w1 (fst d)) = Ret (t2, api_ok st) w2 ->
  engine drv wrs q w = Ret ({| er_return_code := st; er_alloc_len := al |}, t2, subs) w2.
Proof.
  intros E1 L subs d E2. unfold engine, ScsiToNvme, begins in *. destruct q as [[cp cl] lun [sp sl] [dp dl] di].
  cbn [rq_cdb rq_lun rq_sense rq_data rq_data_in ptr len] in *. unfold bind at 1. rewrite E1. cbn [br_status br_alloc_len begin_ok].
  replace (dl <? al) with false by lia. unfold bind at 1. rewrite submit_loop_eq. fold subs. fold d. unfold bind. unfold response_span in E2. cbn [rq_data_in rq_data ptr] in E2.
  rewrite E2. reflexivity.
Qed.

(** the adapter around the engine *)
Lemma mock_eq drv wrs kz wild c w :
  scsi_queuecommand drv wrs kz wild c w =
  let q := mock_request kz wild c in
  let n := len (rq_data q) in
  let w1 := if 0 <? n then (let w1 := log w (EvAlloc 1 n kz) in if kz =? 0 then w1 else set_mem w1 (map_pages (mem w) kz n (fun _ => x00))) else w in
  if (0 <? n) && (kz =? 0) then Ret {| mr_result := 23; mr_resid := None; mr_subs := [] |} w1
  else
    (_ <- (if (0 <? n) && negb (rq_data_in q) then sg_copy_to_buffer (sc_sgl c) kz n else ret 0) ;;
     ' (resp, _, subs) <- engine drv wrs q ;;
     resid <- (if rq_data_in q && (0 <? n) then
                 k <- sg_copy_from_buffer (sc_sgl c) kz (er_alloc_len resp) ;; ret (Some (n - k))
               else ret None) ;;
     _ <- (if 0 <? n then kfree kz n else ret tt) ;;
     ret {| mr_result := er_return_code resp; mr_resid := resid; mr_subs := subs |}) w1.
Proof.
  unfold scsi_queuecommand, engine, mock_request. cbn [rq_cdb rq_lun rq_sense rq_data rq_data_in ptr len]. cbv zeta.
  change (mock_data_len (sc_bufflen c)) with (sc_bufflen c mod 65536). change (u16 (sc_cmd_len c)) with (sc_cmd_len c mod 65536).
  unfold SCSI_SENSE_BUFFERSIZE, bind at 1. destruct (0 <? sc_bufflen c mod 65536) eqn:E.
  - unfold kzalloc. destruct (kz =? 0) eqn:Ek; reflexivity.
  - rewrite !andb_false_r. reflexivity.
Qed.
