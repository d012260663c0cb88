(** The engine as Begin, submissions, Complete. *)
From Coq Require Import Arith NArith String List Lia Bool Init.Byte Permutation.
From Coq Require Import ZifyBool ZifyNat ZifyN.
From Verif Require Import Bytes Layout World ScsiDefs NvmeDefs Common ModeSenseCmd TranslationCls EngineE2e
  Spec EngineSpec Facts Logic BeginFacts CompleteFacts StatusFacts RelFacts.
Import ListNotations.
Local Open Scope string_scope.
Local Open Scope list_scope.
Local Open Scope N_scope.

Definition sub_of (x : NvmeCmdWrapper) : submission :=
  {| sub_admin := is_admin x; sub_cmd := cmd x; sub_buffer := get GenericCmd "prp1" (cmd x); sub_bufflen := buffer_len x |}.

Lemma set_mem_set w m m' : set_mem (set_mem w m) m' = set_mem w m'. Proof. reflexivity. Qed.
Lemma set_mem_same w : set_mem w (mem w) = w. Proof. destruct w; reflexivity. Qed.

Lemma submit_loop_eq drv ws : forall k w,
  submit_loop drv k ws w =
    Ret (snd (device_run drv k (map sub_of ws) (mem w)), map sub_of ws) (set_mem w (fst (device_run drv k (map sub_of ws) (mem w)))).
Proof.
  induction ws as [|x ws IH]; intros k w; cbn [submit_loop map device_run].
  - cbn [fst snd]. rewrite set_mem_same. reflexivity.
  - cbv zeta. unfold bind. fold (sub_of x). destruct (drv k (sub_of x) (mem w)) as [m1 c].
    rewrite IH. cbn [mem set_mem]. destruct (device_run drv (S k) (map sub_of ws) m1) as [m2 cs]. reflexivity.
Qed.

Lemma sub_of_view x : sub_view (sub_of x) = sub_expected (view x).
Proof.
  unfold sub_view, sub_expected, sub_of, view. cbn [sub_admin sub_cmd sub_buffer sub_bufflen x_admin x_bytes x_buffer_len]. f_equal. f_equal.
  rewrite slice_le_encode by lia. rewrite le_le_encode. change (8 * N.of_nat 24) with 192. change (8 * N.of_nat 8) with 64.
  rewrite N.mod_small by apply bits_lt. reflexivity.
Qed.

Lemma device_run_length drv ss : forall k m, length (snd (device_run drv k ss m)) = length ss.
Proof.
  induction ss as [|s ss IH]; intros k m; cbn [device_run]; [reflexivity|]. destruct (drv k s m) as [m1 c].
  specialize (IH (S k) m1). destruct (device_run drv (S k) ss m1) as [m2 cs]. cbn in *. f_equal. exact IH.
Qed.

Lemma engine_cases drv wrs q w resp t subs w' : engine drv wrs q w = Ret (resp, t, subs) w' ->
  exists t1 r w1, begins wrs q w = Ret (t1, r) w1 /\ br_status r = ApiSuccess /\
   ((len (rq_data q) < br_alloc_len r /\ resp = {| er_return_code := TASK_ABORTED; er_alloc_len := 0 |} /\ t = t1 /\ subs = [] /\ w' = w1) \/
    (br_alloc_len r <= len (rq_data q) /\ subs = map sub_of (GetNvmeWrappers t1) /\
     let d := device_run drv 0 subs (mem w1) in
     exists cr, Complete t1 (snd d) (response_span q (br_alloc_len r)) (rq_sense q) (set_mem w1 (fst d)) = Ret (t, cr) w' /\
       resp = (if is_api_success (cr_status cr) then {| er_return_code := cr_scsi_status cr; er_alloc_len := br_alloc_len r |}
               else {| er_return_code := TASK_ABORTED; er_alloc_len := 0 |}))).
Proof.
  unfold engine, ScsiToNvme, begins. destruct q as [[cp cl] lun [sp sl] [dp dl] di]. cbn [rq_cdb rq_lun rq_sense rq_data rq_data_in ptr len].
  intros E. apply bind_ret_inv in E as ([t1 r] & w1 & E1 & E). exists t1, r, w1. split; [exact E1|].
  pose proof (Begin_idle_spec false (Translation_init wrs) {| ptr := cp; len := cl |} {| ptr := dp; len := dl |} lun w (idle_init wrs) (no_ok_span _ _) (no_ok_span _ _)) as S.
  unfold cst in S. rewrite E1 in S. destruct S as (Hs & _). split; [exact Hs|]. rewrite Hs in E.
  destruct (N.ltb_spec dl (br_alloc_len r)) as [L|L].
  - left. unfold ret in E. injection E as <- <- <- <-. auto.
  - right. split; [exact L|]. apply bind_ret_inv in E as ([cpls ss] & w2 & E2 & E). rewrite submit_loop_eq in E2. injection E2 as <- <- <-.
    apply bind_ret_inv in E as ([t2 cr] & w3 & E3 & E).
    destruct (cr_status cr) eqn:Ec; unfold ret in E; injection E as <- <- <- <-; (split; [reflexivity|]); exists cr; rewrite Ec; (split; [exact E3|reflexivity]).
Qed.

(** the engine's run is a history of the object *)
Lemma engine_reach_begin wrs q w t1 r w1 : trace w = [] -> begins wrs q w = Ret (t1, r) w1 -> br_status r = ApiSuccess -> reach any_env true t1 w1.
Proof.
  intros Ht E Hs. pose proof (reach_begin any_env false (Translation_init wrs) w _ _ _ _ _ _ (reach_new any_env wrs w I Ht) E) as R.
  rewrite Hs in R. exact R.
Qed.
