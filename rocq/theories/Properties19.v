(** C84: no page is used after its release. *)
From Coq Require Import Arith NArith String List Lia Bool Init.Byte Permutation.
From Coq Require Import ZifyBool ZifyNat ZifyN.
From Verif Require Import Bytes Layout World ScsiDefs NvmeDefs Common ReadCmds WriteCmds SmallCmds
  UnmapCmd StatusCmd ModeSenseCmd InquiryCmd TranslationCls StrictCls Spec RwSpec LocalSpec Facts Logic BeginFacts CompleteFacts ProgFacts Witness.
Import ListNotations.
Local Open Scope string_scope.
Local Open Scope list_scope.
Local Open Scope N_scope.

(** with the model's release, the parametrised functions are the model's *)
Lemma AbortPipeline_model : AbortPipeline_with DeallocPages = AbortPipeline. Proof. reflexivity. Qed.
Lemma Begin_model : Begin_with DeallocPages = Begin. Proof. reflexivity. Qed.
Lemma Complete_model : Complete_with DeallocPages = Complete. Proof. reflexivity. Qed.

Lemma no_release A (m : M A) : prog false m -> forall w b w', m w = Ret b w' ->
  exists evs, trace w' = trace w ++ evs /\ forall a n, ~ In (EvDealloc a n) evs.
Proof.
  induction 1 as [A a|A s|A B m k _ IHm _ IHk|a n|a bs|ps n|a n Hd|n]; intros w r w' E.
  - injection E as <- <-. exists []. rewrite app_nil_r. auto.
  - discriminate.
  - unfold bind in E. destruct (m w) as [a w1|] eqn:E1; [|discriminate].
    destruct (IHm _ _ _ E1) as (e1 & T1 & N1). destruct (IHk _ _ _ _ E) as (e2 & T2 & N2).
    exists (e1 ++ e2). rewrite T2, T1, app_assoc. split; [reflexivity|]. intros x n H. apply in_app_or in H as [H|H]; [eapply N1|eapply N2]; exact H.
  - unfold load in E. destruct (load_bytes (mem w) a n); [|discriminate]. injection E as <- <-. exists []. rewrite app_nil_r. auto.
  - unfold store in E. destruct (load_bytes (mem w) a (length bs)); [|discriminate]. injection E as <- <-. exists []. cbn. rewrite app_nil_r. auto.
  - unfold AllocPages in E. destruct (negb (alloc_cb w)); [injection E as <- <-; exists []; rewrite app_nil_r; auto|].
    exists [EvAlloc ps n (u64 (ans w (tick w) ps n))]. destruct (u64 (ans w (tick w) ps n) =? 0); injection E as <- <-; (split; [reflexivity|]); intros x k [H|[]]; discriminate H.
  - discriminate Hd.
  - unfold stack_junk in E. injection E as <- <-. exists []. cbn. rewrite app_nil_r. auto.
Qed.

(** two runs of the releasing part, started from worlds that differ in that some
    pages are gone already *)
Definition gone (P : N -> Prop) (w w2 : world) : Prop :=
  same_env w w2 /\ forall x, (P x -> mem w2 x = None) /\ (~ P x -> mem w2 x = mem w x).
Definition rear {A} (m1 m2 : M A) : Prop := forall P w w2, gone P w w2 ->
  match m1 w with
  | Ret a w' => exists w2' evs, m2 w2 = Ret a w2' /\ trace w' = trace w ++ evs /\ gone (fun x => P x \/ released_by evs x) w' w2'
  | UB s => m2 w2 = UB s
  end.
Lemma gone_ext P Q w w2 : (forall x, P x <-> Q x) -> gone P w w2 -> gone Q w w2.
Proof. intros H [E G]. split; [exact E|]. intros x. split; intros Hx; apply G; [apply H; exact Hx|intros Hp; apply Hx, H; exact Hp]. Qed.
Lemma released_nil x : ~ released_by [] x. Proof. intros (a & n & [] & _). Qed.
Lemma released_app e1 e2 x : released_by (e1 ++ e2) x <-> released_by e1 x \/ released_by e2 x.
Proof.
  unfold released_by. split.
  - intros (a & n & H & R). apply in_app_or in H as [H|H]; [left|right]; eauto.
  - intros [(a & n & H & R)|(a & n & H & R)]; exists a, n; (split; [apply in_or_app; auto|exact R]).
Qed.
Lemma rear_ret {A} (a : A) : rear (ret a) (ret a).
Proof. intros P w w2 G. exists w2, []. split; [reflexivity|]. rewrite app_nil_r. split; [reflexivity|]. eapply gone_ext; [|exact G]. intros x. pose proof (released_nil x). tauto. Qed.
Lemma rear_ub {A} s : rear (@ub A s) (ub s). Proof. intros P w w2 G. reflexivity. Qed.
Lemma rear_bind {A B} (m1 m2 : M A) (k1 k2 : A -> M B) : rear m1 m2 -> (forall a, rear (k1 a) (k2 a)) -> rear (bind m1 k1) (bind m2 k2).
Proof.
  intros Hm Hk P w w2 G. unfold bind. pose proof (Hm P w w2 G) as H. destruct (m1 w) as [a w'|s]; [|rewrite H; reflexivity].
  destruct H as (w2' & e1 & E & T & G'). rewrite E. pose proof (Hk a _ _ _ G') as H. destruct (k1 a w') as [b w''|s]; [|exact H].
  destruct H as (w3 & e2 & E2 & T2 & G2). exists w3, (e1 ++ e2). split; [exact E2|]. split; [rewrite T2, T, app_assoc; reflexivity|].
  eapply gone_ext; [|exact G2]. intros x. rewrite released_app. tauto.
Qed.
Lemma rear_release a n : rear (DeallocPages a n) (UnmapPages a n).
Proof.
  intros P w w2 [(E1 & E2 & E3 & E4 & E5 & E6 & E7) G]. unfold DeallocPages, UnmapPages. rewrite E2. destruct (dealloc_cb w) eqn:Ed; cbn [negb].
  - eexists. exists [EvDealloc a n]. split; [reflexivity|]. split; [reflexivity|]. split.
    + unfold same_env. cbn. rewrite E7. repeat split; congruence.
    + intros x. cbn [set_mem log mem]. assert (R : released_by [EvDealloc a n] x <-> a <= x < a + 4096 * n).
      { split; [intros (b & k & [H|[]] & R); injection H as <- <-; exact R|intros H; exists a, n; split; [left; reflexivity|exact H]]. }
      rewrite R. destruct ((a <=? x) && (x <? a + 4096 * n)) eqn:Ex; (split; [intros H|intros H]).
      * reflexivity.
      * exfalso. lia.
      * apply G. destruct H as [H|H]; [exact H|lia].
      * apply G. tauto.
  - exists w2, []. split; [reflexivity|]. rewrite app_nil_r. split; [reflexivity|].
    apply (gone_ext P); [intros x; pose proof (released_nil x); tauto|]. split; [repeat split; congruence|exact G].
Qed.
Lemma rear_FlushLoop n : forall i al, rear (FlushLoop n i al) (FlushLoop_with UnmapPages n i al).
Proof.
  induction n as [|n IH]; intros i al; cbn [FlushLoop FlushLoop_with]; [apply rear_ret|]. destruct (aget al i); [|apply rear_ub]. apply rear_bind; [|intros; apply IH].
  unfold FlushOne, FlushOne_with. apply rear_bind; [destruct (negb _)|intros x; destruct (negb _)]; try apply rear_ret; (apply rear_bind; [apply rear_release|intros; apply rear_ret]).
Qed.
Lemma rear_Flush t : rear (FlushMemory t) (FlushMemory_with UnmapPages t).
Proof. unfold FlushMemory, FlushMemory_with. apply rear_bind; [apply rear_FlushLoop|intros; apply rear_ret]. Qed.
Lemma rear_Abort t : rear (AbortPipeline t) (AbortPipeline_with UnmapPages t).
Proof. unfold AbortPipeline, AbortPipeline_with. cbv zeta. apply rear_bind; [apply rear_Flush|intros; apply rear_ret]. Qed.
Lemma rear_finish t : rear (Begin_finish t) (Begin_finish_with UnmapPages t).
Proof. unfold Begin_finish, Begin_finish_with. destruct (negb _); [|apply rear_ret]. apply rear_bind; [apply rear_Flush|intros; apply rear_ret]. Qed.

Lemma gone_none w : gone (fun _ => False) w w.
Proof. split; [unfold same_env; auto 8|]. intros x. split; [intros []|reflexivity]. Qed.
Lemma sbr_rear {A} (m1 m2 : M A) : rear m1 m2 -> same_but_released m1 m2.
Proof.
  intros H w. pose proof (H _ _ _ (gone_none w)) as G. destruct (m1 w) as [a w'|s]; [|exact G]. destruct G as (w2 & evs & E & T & (S & G)).
  exists w2, evs. split; [exact E|]. split; [exact S|]. split; [exact T|]. intros x. split; intros Hx; apply G; tauto.
Qed.
Lemma sbr_bind {A B} (m : M A) (k1 k2 : A -> M B) : prog false m -> (forall a, same_but_released (k1 a) (k2 a)) -> same_but_released (bind m k1) (bind m k2).
Proof.
  intros Hm Hk w. unfold bind. destruct (m w) as [a w'|s] eqn:E; [|reflexivity]. destruct (no_release _ _ Hm _ _ _ E) as (e1 & T1 & N1).
  pose proof (Hk a w') as H. destruct (k1 a w') as [b w''|s]; [|exact H]. destruct H as (w2 & e2 & E2 & S & T2 & G).
  exists w2, (e1 ++ e2). split; [exact E2|]. split; [exact S|]. split; [rewrite T2, T1, app_assoc; reflexivity|].
  intros x. assert (R : released_by (e1 ++ e2) x <-> released_by e2 x).
  { rewrite released_app. split; [intros [(y & n & H & _)|H]; [destruct (N1 _ _ H)|exact H]|auto]. }
  rewrite R. apply G.
Qed.

(** ** C84 *)

Theorem C84_begin : forall t cdb buffer lun, same_but_released (Begin t cdb buffer lun) (Begin_with UnmapPages t cdb buffer lun).
Proof.
  intros t cdb buffer lun. unfold Begin, Begin_with.
  destruct (negb _); [apply sbr_rear, rear_ret|]. destruct (len cdb =? 0); [apply sbr_rear, rear_ret|]. cbv zeta.
  apply sbr_bind; [apply p_at|intros o]. apply sbr_bind; [apply p_switch|intros [t1 l]].
  apply sbr_rear, rear_bind; [apply rear_finish|intros; apply rear_ret].
Qed.
Print Assumptions C84_begin.

Theorem C84_complete : forall t cpls buffer sense, same_but_released (Complete t cpls buffer sense) (Complete_with UnmapPages t cpls buffer sense).
Proof.
  intros t cpls buffer sense. unfold Complete, Complete_with.
  assert (T : forall t' (x : CompleteResponse), same_but_released (t0 <- AbortPipeline t' ;; ret (t0, x)) (t0 <- AbortPipeline_with UnmapPages t' ;; ret (t0, x)))
    by (intros; apply sbr_rear, rear_bind; [apply rear_Abort|intros; apply rear_ret]).
  destruct (is_uninitialized _); [apply sbr_rear, rear_ret|].
  destruct (negb _); [apply T|]. destruct (negb _); [apply sbr_bind; [apply p_fill|intros; apply T]|].
  destruct (first_error cpls); [apply sbr_bind; [apply p_fill|intros; apply T]|].
  cbv zeta. apply sbr_bind; [apply p_at|intros]. apply sbr_bind; [apply p_cswitch|intros]. apply T.
Qed.
Print Assumptions C84_complete.

Theorem C84_abort : forall t, same_but_released (AbortPipeline t) (AbortPipeline_with UnmapPages t).
Proof. intros t. apply sbr_rear, rear_Abort. Qed.
Print Assumptions C84_abort.

(** what the property excludes: reading a page that was just released *)
Example C84_excludes : let touch (release : N -> N -> M unit) := (_ <- release 0x20000 1 ;; load 0x20000 1) in
  ~ same_but_released (touch DeallocPages) (touch UnmapPages).
Proof. intros touch H. pose proof (H (ex_world [])) as G. cbn in G. destruct G as (w2 & evs & E & _). discriminate E. Qed.

(** an object that holds a page: after Abort the page is gone, and only it *)
Definition ex_holding : Translation :=
  set_al0 (set_count (set_status (set_scsi_cmd ex_obj (ex_cdb [x00])) kSuccess) 1)
    {| data_addr := 0x20000; data_page_count := 1; mdata_addr := 0; mdata_page_count := 0 |}.
Example C84_met : held ex_holding = [(0x20000, 1)] /\ exists t w2,
  AbortPipeline_with UnmapPages ex_holding (ex_world [x00]) = Ret t w2 /\ held t = [] /\ trace w2 = [EvDealloc 0x20000 1] /\
  mem (ex_world [x00]) 0x20fff = Some x00 /\ mem w2 0x20fff = None /\ mem w2 0x21000 = Some x00.
Proof. split; [reflexivity|]. do 2 eexists. split; [reflexivity|]. repeat split; reflexivity. Qed.
