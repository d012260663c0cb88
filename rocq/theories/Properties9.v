(** C47-C49, C54, C55: the end-to-end engine and the mock adapter. *)
From Coq Require Import Arith NArith String List Lia Bool Init.Byte Permutation.
From Coq Require Import ZifyBool ZifyNat ZifyN.
From Verif Require Import Bytes Layout World ScsiDefs NvmeDefs Common ModeSenseCmd StatusCmd TranslationCls EngineE2e
  Spec RwSpec InquirySpec EngineSpec Facts Logic BeginFacts CompleteFacts StatusFacts RelFacts InquiryFacts RwFacts EngineFacts Witness Properties6 Properties3.
Import ListNotations.
Local Open Scope string_scope.
Local Open Scope list_scope.
Local Open Scope N_scope.

Lemma begins_inv wrs q w t1 r w1 : begins wrs q w = Ret (t1, r) w1 -> br_status r = ApiSuccess -> inv true t1.
Proof. intros E Hs. pose proof (inv_begin _ _ _ _ _ _ _ _ _ (idle_inv _ (idle_init wrs)) E) as I. rewrite Hs in I. exact I. Qed.
Lemma inv_rejected b t : inv b t -> rejected t -> exposes t = [] /\ held t = [].
Proof. intros I [R _]. destruct (i_idle _ _ I R) as [Hn Hh]. split; [unfold exposes, GetNvmeWrappers; rewrite Hn; reflexivity|exact Hh]. Qed.
Lemma inv_busy t : inv true t -> pipeline_status t <> kUninitialized.
Proof. intros I Hu. pose proof (i_busy _ _ I) as B. rewrite Hu in B. discriminate. Qed.
Lemma subs_views t : map sub_view (map sub_of (GetNvmeWrappers t)) = map sub_expected (exposes t).
Proof. unfold exposes. rewrite !map_map. apply map_ext. apply sub_of_view. Qed.

(** ** C47 *)

(** What is handed to the driver is exactly what Begin exposed, in order, each
    to its queue, with its buffer; nothing if the response would not fit or the
    CDB was rejected.  The completions Complete sees are the driver's, in the
    memory the device left. *)
Theorem C47_submissions : forall drv wrs q w resp t subs w',
  engine drv wrs q w = Ret (resp, t, subs) w' ->
  exists t1 r w1, begins wrs q w = Ret (t1, r) w1 /\
    (br_alloc_len r <= len (rq_data q) -> map sub_view subs = map sub_expected (exposes t1)) /\
    (len (rq_data q) < br_alloc_len r -> subs = [] /\ w' = w1) /\
    (rejected t1 -> subs = []) /\
    (br_alloc_len r <= len (rq_data q) ->
       let d := device_run drv 0 subs (mem w1) in
       exists cr, Complete t1 (snd d) (response_span q (br_alloc_len r)) (rq_sense q) (set_mem w1 (fst d)) = Ret (t, cr) w').
Proof.
  intros drv wrs q w resp t subs w' E. destruct (engine_cases _ _ _ _ _ _ _ _ E) as (t1 & r & w1 & E1 & Hs & C).
  exists t1, r, w1. split; [exact E1|]. pose proof (begins_inv _ _ _ _ _ _ E1 Hs) as I.
  destruct C as [(L & _ & _ & -> & ->)|(L & -> & cr & E2 & _)].
  - split; [lia|]. split; [auto|]. split; [auto|lia].
  - split; [intros _; apply subs_views|]. split; [lia|]. split.
    + intros R. destruct (inv_rejected _ _ I R) as [X _]. unfold exposes in X. apply map_eq_nil in X. rewrite X. reflexivity.
    + intros _. exists cr. exact E2.
Qed.
Print Assumptions C47_submissions.

(** ** C49 *)
Theorem C49_response_fits : forall drv wrs q w resp t subs w',
  engine drv wrs q w = Ret (resp, t, subs) w' ->
  exists t1 r w1, begins wrs q w = Ret (t1, r) w1 /\
    er_alloc_len resp <= len (rq_data q) /\
    (* after the device ran, only the caller's data buffer (of a data-in
       request) and sense buffer are written *)
    (forall x, ~ (rq_data_in q = true /\ in_span (rq_data q) x) -> ~ in_span (rq_sense q) x ->
       mem w' x = fst (device_run drv 0 subs (mem w1)) x) /\
    (* a response that would not fit is refused before anything is submitted *)
    (len (rq_data q) < br_alloc_len r -> subs = [] /\ er_return_code resp = TASK_ABORTED /\ er_alloc_len resp = 0).
Proof.
  intros drv wrs q w resp t subs w' E. destruct (engine_cases _ _ _ _ _ _ _ _ E) as (t1 & r & w1 & E1 & Hs & C).
  exists t1, r, w1. split; [exact E1|]. pose proof (begins_inv _ _ _ _ _ _ E1 Hs) as I.
  destruct C as [(L & -> & -> & -> & ->)|(L & -> & cr & E2 & ->)].
  - cbn. split; [lia|]. auto.
  - split; [destruct (is_api_success _); cbn; lia|]. split; [|lia].
    intros x H1 H2.
    pose proof (Complete_spec t1 (snd (device_run drv 0 (map sub_of (GetNvmeWrappers t1)) (mem w1))) (response_span q (br_alloc_len r)) (rq_sense q)
      (set_mem w1 (fst (device_run drv 0 (map sub_of (GetNvmeWrappers t1)) (mem w1)))) (i_wf _ _ I) (inv_busy _ I)) as S.
    apply (pst_use _ _ _ _ _ S) in E2. destruct E2 as (_ & w2 & F & R & _).
    rewrite (r_mem _ _ _ R), (f_mem _ _ _ F); [reflexivity|].
    intros [X|X]; [|contradiction]. apply H1. unfold response_span, in_span in X. destruct (rq_data_in q); cbn in X; [|lia]. unfold in_span. split; [reflexivity|lia].
Qed.
Print Assumptions C49_response_fits.

(** ** C48 *)
Lemma begins_ledger wrs q w t1 r w1 o : sane_allocator w -> ledger (trace w) = Some o -> begins wrs q w = Ret (t1, r) w1 ->
  sane_allocator w1 /\ exists o1, ledger (trace w1) = Some o1 /\ Permutation o1 (held t1 ++ o).
Proof.
  intros (Ha & Hd & Hz) Ho E.
  pose proof (Begin_idle_spec false (Translation_init wrs) (rq_cdb q) (rq_data q) (rq_lun q) w (idle_init wrs) (no_ok_span _ _) (no_ok_span _ _)) as S.
  unfold cst in S. unfold begins in E. rewrite E in S. destruct S as (_ & _ & _ & _ & _ & w2 & evs & rel & G & Rl & _ & P).
  specialize (P Hz).
  assert (S2 : sane_allocator w2) by (eapply sane_cfg; [apply G|]; split; [exact Ha|split; assumption]).
  split; [eapply sane_cfg; [apply Rl|exact S2]|].
  destruct (ledger_alloc evs o (g_alloc _ _ _ G)) as [l' [E' P']].
  assert (X : ledger (trace w2) = Some l') by (rewrite (g_trace _ _ _ G), ledger_app, Ho; exact E').
  destruct S2 as (_ & Hd2 & _). pose proof (r_trace _ _ _ Rl) as D. rewrite Hd2 in D. rewrite D, ledger_app, X.
  apply ledger_release. rewrite P', app_assoc. apply Permutation_app_tail. apply Permutation_sym. exact P.
Qed.

(** When the response fits, or the CDB is rejected, the pages outstanding after
    the request are those outstanding before it, whatever the device did.
    Missing: the remaining case is refuted below. *)
Theorem C48_pages_released_partial : forall drv wrs q w o resp t subs w',
  sane_allocator w -> ledger (trace w) = Some o -> engine drv wrs q w = Ret (resp, t, subs) w' ->
  (forall t1 r w1, begins wrs q w = Ret (t1, r) w1 -> rejected t1 \/ br_alloc_len r <= len (rq_data q)) ->
  exists o', ledger (trace w') = Some o' /\ Permutation o' o.
Proof.
  intros drv wrs q w o resp t subs w' Hs Ho E H. destruct (engine_cases _ _ _ _ _ _ _ _ E) as (t1 & r & w1 & E1 & Hr & C).
  specialize (H _ _ _ E1). pose proof (begins_inv _ _ _ _ _ _ E1 Hr) as I.
  destruct (begins_ledger _ _ _ _ _ _ _ Hs Ho E1) as (S1 & o1 & L1 & P1).
  destruct C as [(L & _ & _ & _ & ->)|(L & _ & cr & E2 & _)].
  - destruct H as [H|H]; [|lia]. destruct (inv_rejected _ _ I H) as [_ X]. rewrite X in P1. exists o1. split; [exact L1|exact P1].
  - pose proof (Complete_spec t1 (snd (device_run drv 0 subs (mem w1))) (response_span q (br_alloc_len r)) (rq_sense q)
      (set_mem w1 (fst (device_run drv 0 subs (mem w1)))) (i_wf _ _ I) (inv_busy _ I)) as S.
    apply (pst_use _ _ _ _ _ S) in E2. destruct E2 as (_ & w2 & F & R & _).
    assert (S2 : sane_allocator w2) by (eapply sane_cfg; [apply F|]; exact S1).
    destruct S2 as (_ & Hd2 & _). pose proof (r_trace _ _ _ R) as D. rewrite Hd2 in D. rewrite D, ledger_app, (f_trace _ _ _ F). cbn [trace set_mem].
    rewrite L1. apply ledger_release. exact P1.
Qed.
Print Assumptions C48_pages_released_partial.

(** An INQUIRY whose ALLOCATION LENGTH exceeds the data buffer: the engine
    returns TASK ABORTED and both Identify pages stay outstanding (unless the
    allocator refused them). *)
Theorem C48_leak_refuted : forall drv wrs q w bs o,
  sane_allocator w -> ledger (trace w) = Some o -> span_holds w (rq_cdb q) bs -> inquiry_cdb bs -> len (rq_data q) < inq_alloc_len bs ->
  exists t w', engine drv wrs q w = Ret ({| er_return_code := TASK_ABORTED; er_alloc_len := 0 |}, t, []) w' /\
    (out_of_pages w w' \/
     exists p p' more o', p <> 0 /\ p' <> 0 /\ ledger (trace w') = Some o' /\ Permutation o' ((p, 1) :: (p', 1) :: more ++ o)).
Proof.
  intros drv wrs q w bs o (Ha & Hd & Hz) Ho Hc Hq Hl.
  destruct (Begin_inquiry_case (Translation_init wrs) (rq_cdb q) (rq_data q) (rq_lun q) w bs (idle_init wrs) Hc Hq) as (t1 & w1 & E & C).
  exists t1, w1. split.
  - unfold engine, ScsiToNvme. destruct q as [[cp cl] lun [sp sl] [dp dl] di]. cbn [rq_cdb rq_lun rq_sense rq_data rq_data_in ptr len] in *.
    unfold bind at 1. rewrite E. cbn [br_status br_alloc_len begin_ok]. replace (dl <? inq_alloc_len bs) with true by lia. reflexivity.
  - destruct C as [(p & p' & ev1 & ev2 & _ & Hp & Hp' & (m1 & ->) & (m2 & ->) & T & _)|(X & _)]; [right|left; exact X].
    destruct (ledger_alloc ([EvAlloc 4096 1 p; EvAlloc 4096 0 m1] ++ [EvAlloc 4096 1 p'; EvAlloc 4096 0 m2]) o) as (o' & L & P).
    { repeat (constructor; [exact I|]). constructor. }
    exists p, p', ((if m1 =? 0 then [] else [(m1, 0)]) ++ (if m2 =? 0 then [] else [(m2, 0)])), o'.
    split; [exact Hp|]. split; [exact Hp'|]. split; [rewrite T; unfold ledger in *; rewrite fold_left_app, Ho; exact L|].
    rewrite P. cbn [acquired app]. destruct (N.eqb_spec p 0); [contradiction|]. destruct (N.eqb_spec p' 0); [contradiction|].
    cbn [app]. apply perm_skip. rewrite ?app_nil_r, <- ?app_assoc, ?app_nil_r. cbn [app]. destruct (m1 =? 0); cbn [app]; [|apply perm_swap].
    destruct (m2 =? 0); apply Permutation_refl.
Qed.
Print Assumptions C48_leak_refuted.

(** ** C54 *)
Lemma Some_eq {A} (a b : A) : Some a = Some b -> a = b. Proof. intros H. injection H. auto. Qed.
Lemma pair_eq {A B} (a a' : A) (b b' : B) : (a, b) = (a', b') -> a = a' /\ b = b'. Proof. intros H. injection H. auto. Qed.
Lemma first_error_not_good cpls st : first_error cpls = Some st -> st_status st <> GOOD.
Proof.
  intros H. assert (D : Forall cpl_ok cpls \/ exists pre c post, cpls = pre ++ c :: post /\ Forall cpl_ok pre /\ ~ cpl_ok c).
  { clear H. induction cpls as [|c l IH]; [left; constructor|].
    assert (Dc : cpl_ok c \/ ~ cpl_ok c) by (unfold cpl_ok; lia).
    destruct Dc as [Dc|Dc].
    - destruct IH as [IH|(pre & c' & post & -> & Hp & Hc)]; [left; constructor; assumption|].
      right. exists (c :: pre), c', post. split; [reflexivity|]. split; [constructor; assumption|exact Hc].
    - right. exists [], c, l. split; [reflexivity|]. split; [constructor|exact Dc]. }
  destruct D as [D|(pre & c & post & -> & Hp & Hc)].
  - rewrite (first_error_ok _ D) in H. discriminate.
  - destruct (first_error_at pre c post Hp Hc) as (s & Es & _ & Hs). rewrite H in Es. apply Some_eq in Es. subst. exact Hs.
Qed.
Lemma ret_eq {A} (a b : A) w w' : ret a w = Ret b w' -> a = b /\ w = w'.
Proof. unfold ret. intros H. injection H. auto. Qed.
Lemma Complete_good t cpls b s w t' cr w' : pipeline_status t <> kUninitialized -> Complete t cpls b s w = Ret (t', cr) w' ->
  cr_status cr = ApiSuccess -> cr_scsi_status cr = GOOD -> accepted t /\ Forall cpl_ok cpls.
Proof.
  intros Hu E Hs Hg. unfold Complete in E. destruct (is_uninitialized (pipeline_status t)) eqn:Eu.
  { exfalso. apply Hu. destruct (pipeline_status t); try reflexivity; discriminate Eu. }
  destruct (negb (N.of_nat (length cpls) =? nvme_cmd_count t)).
  { exfalso. apply bind_ret_inv in E as (? & ? & _ & E). apply ret_eq in E as [E _]. apply pair_eq in E as [_ <-]. discriminate Hs. }
  destruct (is_success (pipeline_status t)) eqn:Es; cbn [negb] in E.
  2: { exfalso. apply bind_ret_inv in E as (? & ? & _ & E). apply bind_ret_inv in E as (? & ? & _ & E). apply ret_eq in E as [E _]. apply pair_eq in E as [_ <-]. discriminate Hg. }
  split; [unfold accepted; destruct (pipeline_status t); try reflexivity; discriminate Es|].
  destruct (first_error cpls) as [st|] eqn:Ef; [|apply first_error_none; exact Ef].
  exfalso. apply (first_error_not_good _ _ Ef).
  apply bind_ret_inv in E as (? & ? & _ & E). apply bind_ret_inv in E as (? & ? & _ & E). apply ret_eq in E as [E _]. apply pair_eq in E as [_ <-]. exact Hg.
Qed.
Lemma Complete_all_ok t cpls b s w t' cr w' : accepted t -> N.of_nat (length cpls) = nvme_cmd_count t -> Forall cpl_ok cpls ->
  Complete t cpls b s w = Ret (t', cr) w' -> cr_status cr = ApiSuccess /\ cr_scsi_status cr = GOOD.
Proof.
  intros Ha Hl Hk E. unfold Complete in E. rewrite Ha, Hl, N.eqb_refl, (first_error_ok _ Hk) in E. cbn [is_uninitialized negb is_success] in E. cbv zeta in E.
  apply bind_ret_inv in E as (? & ? & _ & E). apply bind_ret_inv in E as (? & ? & _ & E). apply bind_ret_inv in E as (? & ? & _ & E).
  apply ret_eq in E as [E _]. apply pair_eq in E as [_ <-]. split; reflexivity.
Qed.

(** Whatever completions the driver hands back, GOOD is returned only if all of
    them are successful.  Missing: that the driver hands back the device's
    completions, which nvme_driver.c does not (next theorem). *)
Theorem C54_driver_errors_seen_partial : forall drv wrs q w resp t subs w',
  engine drv wrs q w = Ret (resp, t, subs) w' -> er_return_code resp = GOOD ->
  exists t1 r w1, begins wrs q w = Ret (t1, r) w1 /\ accepted t1 /\
    Forall cpl_ok (snd (device_run drv 0 subs (mem w1))).
Proof.
  intros drv wrs q w resp t subs w' E Hg. destruct (engine_cases _ _ _ _ _ _ _ _ E) as (t1 & r & w1 & E1 & Hs & C).
  exists t1, r, w1. split; [exact E1|]. pose proof (begins_inv _ _ _ _ _ _ E1 Hs) as I.
  destruct C as [(L & -> & _)|(L & -> & cr & E2 & ->)]; [discriminate|].
  destruct (cr_status cr) eqn:Ec; [|discriminate]. cbn in Hg.
  exact (Complete_good _ _ _ _ _ _ _ _ (inv_busy _ I) E2 Ec Hg).
Qed.
Print Assumptions C54_driver_errors_seen_partial.

Lemma driver_c_ok dma ss : forall k m, Forall cpl_ok (snd (device_run (nvme_driver_c dma) k ss m)).
Proof.
  induction ss as [|s ss IH]; intros k m; [constructor|]. cbn [device_run]. unfold nvme_driver_c at 1.
  specialize (IH (S k) (dma k s m)). destruct (device_run (nvme_driver_c dma) (S k) ss (dma k s m)) as [m2 cs]. cbn [snd] in *.
  constructor; [|exact IH]. split; reflexivity.
Qed.

(** With nvme_driver.c between the engine and the device, every translated
    request whose response fits is answered GOOD, whatever the device [dev]
    answered: its completions are discarded. *)
Theorem C54_device_errors_refuted : forall (dev : driver) wrs q w t1 r w1 resp t subs w',
  begins wrs q w = Ret (t1, r) w1 -> accepted t1 -> br_alloc_len r <= len (rq_data q) ->
  engine (nvme_driver_c (fun k s m => fst (dev k s m))) wrs q w = Ret (resp, t, subs) w' ->
  er_return_code resp = GOOD.
Proof.
  intros dev wrs q w t1 r w1 resp t subs w' E1 Ha L E.
  destruct (engine_cases _ _ _ _ _ _ _ _ E) as (t2 & r2 & w2 & E2 & Hs & C). rewrite E1 in E2. injection E2 as <- <- <-.
  destruct C as [(L' & _)|(_ & -> & cr & E3 & ->)]; [lia|].
  pose proof (begins_inv _ _ _ _ _ _ E1 Hs) as I.
  apply Complete_all_ok in E3 as [Es Eg]; [rewrite Es; exact Eg|exact Ha| |].
  - rewrite device_run_length, map_length. pose proof (i_wf _ _ I) as (W & _). unfold GetNvmeWrappers. rewrite firstn_length. cbn [length]. lia.
  - apply driver_c_ok.
Qed.
Print Assumptions C54_device_errors_refuted.

(** ** C55 *)

(** Missing: lengths of 65536 bytes and more, refuted below. *)
Theorem C55_data_length_partial : forall n, n < 65536 -> mock_data_len n = n.
Proof. intros n H. apply u16_small. exact H. Qed.
Print Assumptions C55_data_length_partial.
Theorem C55_data_length_refuted : forall n, 65536 <= n -> mock_data_len n < n.
Proof. intros n H. pose proof (u16_lt n). unfold mock_data_len. lia. Qed.
Print Assumptions C55_data_length_refuted.

(** ** Executed requests *)

(** a device that writes [d] into the command's buffer and completes with [c] *)
Definition ex_dev (d : list byte) (c : N) : driver := fun _ s m => (region (sub_buffer s) d m, c).
(** status, response length, (admin, opcode, buffer address, buffer length) of
    each submission, page runs outstanding at the end, first [n] data bytes *)
Definition engine_run (drv : driver) (cdb : list byte) (dlen : N) (data_in : bool) (n : nat) :=
  let q := {| rq_cdb := ex_cdb cdb; rq_lun := 0; rq_sense := ex_sense; rq_data := ex_buf dlen; rq_data_in := data_in |} in
  match engine drv ex_wrs q (ex_world cdb) with
  | Ret (r, _, ss) w =>
      match load 0x20000 n w with
      | Ret l _ => Some (er_return_code r, er_alloc_len r,
                         map (fun s => (sub_admin s, b2n (hd x00 (le_encode 64 (sub_cmd s))), sub_buffer s, sub_bufflen s)) ss,
                         ledger (trace w), l)
      | UB _ => None
      end
  | UB _ => None
  end.
Definition ex_e_read : list byte := B [0x28;0;0;0;0;9;0;0;1;0].
Definition ex_e_inquiry : list byte := B [0x12;0;0;0;36;0].
Definition ex_internal_error : N := N.shiftl 0x6 (96 + 17).

(** a READ(10) of one block: one I/O command on the caller's buffer *)
Example C47_runs : engine_run (ex_dev (B [1;2;3]) 0) ex_e_read 4096 true 4 =
  Some (GOOD, 4096, [(false, 0x02, 0x20000, 4096)], Some [], B [1;2;3;0]).
Proof. vm_compute. reflexivity. Qed.
(** an INQUIRY: two admin commands on allocated pages, all released; with a
    buffer that is too small both pages leak and nothing is submitted *)
Example C48_runs :
  engine_run (ex_dev [] 0) ex_e_inquiry 64 true 0 =
    Some (GOOD, 36, [(true, 0x06, 0x100000, 4096); (true, 0x06, 0x300000, 4096)], Some [], []) /\
  engine_run (ex_dev [] 0) ex_e_inquiry 35 true 0 = Some (TASK_ABORTED, 0, [], Some [(0x300000, 1); (0x100000, 1)], []).
Proof. split; vm_compute; reflexivity. Qed.
(** a rejected CDB: CHECK CONDITION, nothing submitted *)
Example C49_runs : engine_run (ex_dev [] 0) (B [0xff;0;0;0;0;0]) 64 true 0 = Some (CHECK_CONDITION, 0, [], Some [], []).
Proof. vm_compute. reflexivity. Qed.
(** an internal device error: seen if the driver reported it, GOOD through
    nvme_driver.c *)
Example C54_runs : ~ cpl_ok ex_internal_error /\
  engine_run (ex_dev [] ex_internal_error) ex_e_read 4096 true 0 =
    Some (CHECK_CONDITION, 4096, [(false, 0x02, 0x20000, 4096)], Some [], []) /\
  engine_run (nvme_driver_c (fun k s m => fst (ex_dev [] ex_internal_error k s m))) ex_e_read 4096 true 0 =
    Some (GOOD, 4096, [(false, 0x02, 0x20000, 4096)], Some [], []).
Proof. split; [|split]; [intros [_ H]; vm_compute in H; discriminate| |]; vm_compute; reflexivity. Qed.
