(** C95: power failures, through the complete kernel module. *)
From Coq Require Import Arith NArith ZArith String List Lia Bool Init.Byte Permutation.
From Coq Require Import ZifyBool ZifyNat ZifyN.
From Verif Require Import Bytes Layout World ScsiDefs NvmeDefs Common ModeSenseCmd StatusCmd TranslationCls EngineE2e MockModule KernelDriver
  Spec RwSpec EngineSpec MockSpec KernelSpec Facts Logic BeginFacts CompleteFacts StatusFacts RelFacts RwFacts EngineFacts MockFacts Witness
  Properties1 Properties2 Properties6 Properties9 Properties11 Properties12 Properties13 Properties14 DiskSpec DiskFacts Properties16 MixedSpec Properties20 DurableSpec DurableFacts Properties22
  ModuleSpec Properties27 ModuleDurableSpec Properties30.
Import ListNotations.
Local Open Scope string_scope.
Local Open Scope list_scope.
Local Open Scope N_scope.

(** ** drivers that agree on the commands sent *)
Lemma device_run_same drv drv' ss : forall k m, (forall i s m', nth_error ss i = Some s -> drv (k + i)%nat s m' = drv' (k + i)%nat s m') ->
  device_run drv k ss m = device_run drv' k ss m.
Proof.
  induction ss as [|s ss IH]; intros k m H; cbn [device_run]; [reflexivity|].
  pose proof (H 0%nat s m eq_refl) as E. rewrite Nat.add_0_r in E. rewrite E. destruct (drv' k s m) as [m1 c].
  rewrite (IH (S k) m1); [reflexivity|]. intros i s' m' Hi. specialize (H (S i) s' m' Hi). rewrite Nat.add_succ_r in H. exact H.
Qed.
Lemma engine_same drv drv' wrs q w resp t subs w' : (forall i s m, nth_error subs i = Some s -> drv i s m = drv' i s m) ->
  engine drv wrs q w = Ret (resp, t, subs) w' -> engine drv' wrs q w = Ret (resp, t, subs) w'.
Proof.
  intros A E. unfold engine, ScsiToNvme in *. apply bind_ret_inv in E as ([t1 r] & w1 & E1 & E). unfold bind at 1. rewrite E1. clear E1.
  destruct (br_status r); [|exact E]. destruct (_ <? _); [exact E|].
  apply bind_ret_inv in E as ([cpls ss] & w2 & E2 & E). rewrite submit_loop_eq in E2.
  assert (X : ss = subs).
  { clear E2. apply bind_ret_inv in E as ([t2 cr] & w3 & _ & E). destruct (cr_status cr); unfold ret in E; apply ret_eq in E as [E _]; apply pair_eq in E as [_ E]; exact E. }
  apply ret_eq in E2 as [E2 <-]. apply pair_eq in E2 as [<- E2]. rewrite E2 in *. subst ss.
  unfold bind at 1. rewrite submit_loop_eq, X. rewrite X in E.
  rewrite <- (device_run_same drv drv' subs 0 (mem w1)); [exact E|]. intros i s m. apply A.
Qed.
Lemma adapter_same drv drv' wrs kz wild c w r w' : (forall i s m, nth_error (mr_subs r) i = Some s -> drv i s m = drv' i s m) ->
  scsi_queuecommand drv wrs kz wild c w = Ret r w' -> scsi_queuecommand drv' wrs kz wild c w = Ret r w'.
Proof.
  intros A E. rewrite mock_eq in *. cbv zeta in *. destruct ((0 <? _) && (kz =? 0)); [exact E|].
  apply bind_ret_inv in E as (z & v & F0 & E). unfold bind at 1. rewrite F0.
  apply bind_ret_inv in E as ([[e t0] ss] & v1 & F1 & E). unfold bind at 1.
  assert (X : ss = mr_subs r).
  { clear F1 F0. apply bind_ret_inv in E as (rs & v2 & _ & E). apply bind_ret_inv in E as (u & v3 & _ & E). unfold ret in E. apply ret_eq in E as [<- _]. reflexivity. }
  apply (engine_same drv drv') in F1; [|rewrite X; exact A]. rewrite F1. exact E.
Qed.

(** ** the driver *)
Lemma reached_runs kn i s m : kn_ns kn = true -> reached kn i s -> kernel_driver kn i s m = (fst (kn_exec kn i s m), 0).
Proof.
  intros Hns R. destruct (R m) as (rt & es & m' & E & q & d & rq & Hin). unfold kernel_driver, submit_command in *. rewrite Hns in *.
  destruct (submit_cases kn i (kn_disk kn) (if sub_admin s then kn_admin_q kn else kn_io_q kn) s m) as
    [(Q & H)|[(Q & e & A & H)|(Q & rq' & A & [(B & M & H)|[(B & M & D & H)|[(B & M & D & H)|(B & H)]]])]];
    rewrite H in *; apply Some_eq in E; apply pair_eq in E as [E1 <-]; apply pair_eq in E1 as [_ <-]; try reflexivity; exfalso; cbn [In app] in Hin; intuition discriminate.
Qed.
Lemma not_reached kn i s m : kn_ns kn = true ->
  kernel_driver kn i s m = (m, 0) /\ ~ reached kn i s \/ kernel_driver kn i s m = (fst (kn_exec kn i s m), 0) /\ reached kn i s.
Proof.
  intros Hns. set (qu := if sub_admin s then kn_admin_q kn else kn_io_q kn).
  assert (No : forall e es, submit_command kn i s m = Some (e, es, m) -> (forall e, In e es -> match e with KExec _ _ _ _ => False | _ => True end) ->
    kernel_driver kn i s m = (m, 0) /\ ~ reached kn i s).
  { intros e es E H. split; [unfold kernel_driver; rewrite E; reflexivity|]. intros R. destruct (R m) as (rt & es' & m' & E' & q & d & rq & Hin).
    rewrite E in E'. apply Some_eq in E'. apply pair_eq in E' as [E' _]. apply pair_eq in E' as [_ <-]. exact (H _ Hin). }
  destruct (submit_cases kn i (kn_disk kn) qu s m) as
    [(Q & H)|[(Q & e & A & H)|(Q & rq & A & [(B & M & H)|[(B & M & D & H)|[(B & M & D & H)|(B & H)]]])]];
    (assert (E : submit_command kn i s m = Some (nvme_submit_user_cmd kn i (kn_disk kn) qu s m)) by (unfold submit_command; rewrite Hns; reflexivity); rewrite H in E).
  1,2,3,4: left; eapply No; [exact E|]; cbn [In]; intuition (subst; exact I).
  all: right; split; [unfold kernel_driver; rewrite E; reflexivity|]; intros m0; unfold submit_command; rewrite Hns; fold qu;
    destruct (submit_cases kn i (kn_disk kn) qu s m0) as
      [(Q' & H')|[(Q' & e' & A' & H')|(Q' & rq' & A' & [(B' & M' & H')|[(B' & M' & D' & H')|[(B' & M' & D' & H')|(B' & H')]]])]]; try contradiction; try congruence;
    rewrite H'; do 3 eexists; (split; [reflexivity|]); do 3 eexists; cbn [In]; eauto.
Qed.
(** the command of a read or a write *)
Lemma carried_one kn s : carried kn [s] -> forall m, reached kn 0 s /\ cpl_ok (snd (kn_exec kn 0 s m) mod 2 ^ 128).
Proof. intros H m. exact (H 0%nat s m eq_refl). Qed.
Definition nil_cpl : nat -> submission -> N := fun _ _ => 0.

Lemma io_sub_io x kz fua s : io_sub x kz fua s -> sub_admin s = false /\ In (le (slice 0 1 (le_encode 64 (sub_cmd s)))) [1; 2].
Proof.
  unfold io_sub, io_parts. intros H. split.
  - destruct x; destruct H as (_ & _ & _ & pr & p2 & l2 & _ & V); unfold sub_view in V; apply pair_eq in V as [V _]; apply pair_eq in V as [V _]; apply pair_eq in V as [V _]; exact V.
  - destruct x as [u lba n|u lba data]; destruct H as (Hu & Hlba & Hn & pr & p2 & l2 & _ & V); unfold sub_view in V; apply pair_eq in V as [V _]; apply pair_eq in V as [V _]; apply pair_eq in V as [_ V]; rewrite V.
    + destruct (rw_sqe_fields 2 u kz lba n (N.b2n fua) pr) as (F1 & _); [lia|exact Hlba|lia|]. rewrite F1. cbn. auto.
    + destruct (rw_sqe_fields 1 u kz lba (blocks_of data) (N.b2n fua) pr) as (F1 & _); [lia|exact Hlba|lia|]. rewrite F1. cbn. auto.
Qed.
Lemma disk_status cap k s : (forall m, nvme_disk cap k s m = (m, lba_out_of_range)) \/ (forall m, snd (nvme_disk cap k s m) = 0).
Proof.
  unfold nvme_disk. cbv zeta. destruct (sub_admin s); [right; reflexivity|]. destruct (_ || _); [|right; reflexivity].
  destruct (_ <? _); [left; reflexivity|right]. intros m. destruct (_ =? 2); reflexivity.
Qed.
Lemma out_of_range_bad : ~ cpl_ok (lba_out_of_range mod 2 ^ 128).
Proof. intros [_ H]. vm_compute in H. discriminate H. Qed.
Lemma saved_same w w' st st' : same_medium w w' -> saved_some (mem w') st st' -> saved_some (mem w) st st'.
Proof.
  intros Hm H nsid b Hb. destruct (H nsid b Hb) as [Q|Q]; [left; exact Q|right]. intros o Ho. rewrite Q by exact Ho. apply Hm. apply medium_high.
Qed.

Lemma module_lived_lived cap w0 st0 l w st : module_lived cap w0 st0 l w st -> lived cap w0 st0 (flat_map really l) w st.
Proof.
  intros H.
  induction H as [|l w st w' st' H IH Hm Hsv|l w st ident cpl kn wrs kz wild c bs x a r w' st' ok H IH Hb P Hcdb E O S Hok
    |l w st ident cpl kn wrs kz wild c r w' st' H IH Hb P E S|l w st ident cpl kn wrs kz wild c r w' st' ok H IH Hb P E Hg S Hok|l w st w' H IH Hr
    |l w st done cpl kn wrs kz wild c x r w1 st1 w' ok H IH Hns Hex P E Hsv Hr Hok]; rewrite ?flat_map_app; cbn [flat_map]; rewrite ?app_nil_r.
  - apply lv_start.
  - eapply lv_env; eassumption.
  - destruct Hb as [Hns Hex]. destruct (adapter_rw _ _ _ _ _ _ _ bs _ _ P Hcdb E) as (s & m1 & Es & Hio & _ & Hmw & _ & Hm).
    destruct (io_sub_io _ _ _ _ Hio) as [Sa So].
    assert (Dev : forall cp m, nvme_device cap ident cp 0%nat s m = nvme_disk cap 0%nat s m) by (intros cp m; apply device_disk_like; assumption).
    destruct S as [Sv Sf]. destruct ok; cbn [really].
    + rewrite Es in Hok. destruct (proj1 Hok eq_refl 0%nat s (mem w) eq_refl) as [R C].
      destruct (disk_status cap 0%nat s) as [Z|Z].
      { exfalso. rewrite Hex, Dev, Z in C. exact (out_of_range_bad C). }
      assert (E' : scsi_queuecommand (nvme_device cap ident nil_cpl) wrs kz wild c w = Ret r w').
      { apply (adapter_same (kernel_driver kn)); [|exact E]. rewrite Es. intros i s' m Hi. destruct i as [|[|i]]; try discriminate Hi. apply Some_eq in Hi. subst s'.
        rewrite reached_runs, Hex, !Dev by assumption. rewrite <- (Z m). symmetry. apply surjective_pairing. }
      eapply lv_io; [exact IH|exact P|exact Hcdb|exact E'|exact O|]. split; [exact Sv|]. rewrite Es in *. intros i s' nsid b Hi Hbk Hms _.
      destruct i as [|[|i]]; try discriminate Hi. apply Some_eq in Hi. subst s'. apply (Sf 0%nat s); auto. intros X. exfalso. rewrite X in So. cbn in So. intuition discriminate.
    + rewrite app_nil_r.
      assert (M : same_medium w w').
      { intros y Hy. rewrite Hm by exact Hy. rewrite <- Hmw by exact Hy.
        destruct (not_reached kn 0%nat s m1 Hns) as [[-> _]|[-> R]]; [reflexivity|]. cbn [fst]. rewrite Hex, Dev.
        destruct (disk_status cap 0%nat s) as [Z|Z]; [rewrite Z; reflexivity|]. exfalso. assert (X : false = true); [|discriminate X]. apply Hok.
        rewrite Es. intros i s' m Hi. destruct i as [|[|i]]; try discriminate Hi. apply Some_eq in Hi. subst s'. split; [exact R|]. rewrite Hex, Dev, Z. split; reflexivity. }
      eapply lv_env; [exact IH|exact M|]. eapply saved_same; eassumption.
  - assert (M : same_medium w w').
    { apply (adapter_other cap (kernel_driver kn) wrs kz wild c w r w'); [|exact P|exact E]. apply kernel_tame. destruct Hb as [Hns Hex]. split; [exact Hns|]. eauto. }
    eapply lv_env; [exact IH|exact M|]. eapply saved_same; [exact M|apply S].
  - destruct Hb as [Hns Hex]. destruct (adapter_sync _ _ _ _ _ _ _ _ P E Hg) as (s & n & Es & V & _ & Hm).
    assert (Hlun : sc_lun c < 2 ^ 32 - 1) by apply P.
    assert (Hn1 : (sc_lun c + 1) mod 2 ^ 32 = sc_lun c + 1) by (apply N.mod_small; lia). rewrite Hn1 in V.
    unfold sub_view in V. apply pair_eq in V as [V _]. apply pair_eq in V as [V _]. apply pair_eq in V as [Va Vc].
    destruct (flush_fields (sc_lun c + 1)) as [F1 _]; [lia|].
    assert (Dev : forall cp m, nvme_device cap ident cp 0%nat s m = (m, cp 0%nat s)) by (intros cp m; unfold nvme_device; rewrite Va, Vc, F1; reflexivity).
    destruct S as [Sv Sf]. destruct ok; cbn [really].
    + rewrite Es in Hok. destruct (proj1 Hok eq_refl 0%nat s (mem w) eq_refl) as [R C]. rewrite Hex, Dev in C. cbn [snd] in C.
      assert (E' : scsi_queuecommand (nvme_device cap ident nil_cpl) wrs kz wild c w = Ret r w').
      { apply (adapter_same (kernel_driver kn)); [|exact E]. rewrite Es. intros i s' m Hi. destruct i as [|[|i]]; try discriminate Hi. apply Some_eq in Hi. subst s'.
        rewrite reached_runs, Hex, !Dev by assumption. reflexivity. }
      eapply lv_sync; [exact IH|exact P|exact E'|exact Hg|]. split; [exact Sv|]. rewrite Es in *. intros i s' nsid b Hi Hbk Hms _.
      destruct i as [|[|i]]; try discriminate Hi. apply Some_eq in Hi. subst s'. apply (Sf 0%nat s); auto.
    + rewrite app_nil_r.
      assert (M : same_medium w w').
      { intros y Hy. rewrite Hm by exact Hy. destruct (not_reached kn 0%nat s (mem w) Hns) as [[-> _]|[-> R]]; [reflexivity|]. rewrite Hex, Dev. reflexivity. }
      eapply lv_env; [exact IH|exact M|]. eapply saved_same; eassumption.
  - cbn [really]. eapply lv_failed; eassumption.
  - assert (Hb0 : exists bs, cdb_of w c bs) by (destruct P as ((bs & Q1 & Q2 & Q3 & _) & _); exists bs; split; [exact Q1|split; [exact Q2|exact Q3]]).
    destruct Hb0 as (bs & Hcdb).
    destruct (adapter_rw _ _ _ _ _ _ _ bs _ _ P Hcdb E) as (s & m1 & Es & Hio & _ & Hmw & _ & Hm). rewrite Es in Hok.
    destruct ok; cbn [really].
    + pose proof (proj1 Hok eq_refl 0%nat s eq_refl) as R.
      eapply (lv_cut _ _ _ _ _ _ done nil_cpl); [exact IH|exact P| |exact Hsv|exact Hr].
      apply (adapter_same (kernel_driver kn)); [|exact E]. rewrite Es. intros i s' m Hi. destruct i as [|[|i]]; try discriminate Hi. apply Some_eq in Hi. subst s'.
      rewrite reached_runs, Hex by assumption. reflexivity.
    + assert (M : same_medium w w1).
      { intros y Hy. rewrite Hm by exact Hy. rewrite <- Hmw by exact Hy. destruct (not_reached kn 0%nat s m1 Hns) as [[-> _]|[_ R]]; [reflexivity|].
        exfalso. assert (X : false = true); [|discriminate X]. apply Hok. intros i s' Hi. destruct i as [|[|i]]; try discriminate Hi. apply Some_eq in Hi. subst s'. exact R. }
      eapply lv_failed; [|exact Hr]. eapply lv_env; [exact IH|exact M|]. eapply saved_same; eassumption.
Qed.

(** ** C95 *)

(** the commands that are carried out, and only they, make up the history of a
    disk with a volatile cache that keeps its promises *)
Theorem C95_module_exact : forall cap w0 st0 d l w st, cap_ok cap -> stores w0 d -> all_saved w0 st0 -> module_lived cap w0 st0 l w st ->
  exists d' k, expected (fun lun => cap (lun + 1)) d (flat_map really l) d' k /\ stores w d'.
Proof. intros cap w0 st0 d l w st Hc Hs Ha H. exact (C87_power_failures cap w0 st0 d _ w st Hc Hs Ha (module_lived_lived _ _ _ _ _ _ H)). Qed.
Print Assumptions C95_module_exact.

Lemma really_touches lun b l : (forall e, In e l -> fst e = true -> ~ touches_block lun b (snd e)) -> forall h, In h (flat_map really l) -> ~ touches_block lun b h.
Proof.
  intros H h Hh. apply in_flat_map in Hh as ([ok h'] & Hin & Hh). pose proof (H _ Hin) as X. cbn [fst snd] in X. destruct ok; cbn [really] in Hh.
  - destruct Hh as [<-|[]]. apply X. reflexivity.
  - destruct h'; cbn [In] in Hh; intuition; subst; auto.
Qed.
Lemma really_quiet l : (forall e, In e l -> no_failure (snd e)) -> forall h, In h (flat_map really l) -> no_failure h.
Proof.
  intros H h Hh. apply in_flat_map in Hh as ([ok h'] & Hin & Hh). pose proof (H _ Hin) as X. cbn [snd] in X. destruct ok; cbn [really] in Hh.
  - destruct Hh as [<-|[]]. exact X.
  - destruct h'; cbn [In no_failure] in *; intuition.
Qed.

(** Forced writes, and writes followed by SYNCHRONIZE CACHE, survive power
    failures if these commands were carried out.  Missing: that they were if they
    were answered GOOD. *)
Theorem C95_forced_writes_survive_partial : forall cap w0 st0 w st l1 l2 lun lba data lba' n fua bs b o,
  cap_ok cap -> (exists d, stores w0 d) -> all_saved w0 st0 ->
  module_lived cap w0 st0 (l1 ++ (true, Served (IoWrite lun lba data) true AnsDone) :: l2 ++ [(true, Served (IoRead lun lba' n) fua (AnsData bs))]) w st ->
  lun < 2 ^ 32 - 1 -> lba <= b < lba + blocks_of data -> lba' <= b < lba' + n ->
  (forall e, In e l2 -> fst e = true -> ~ touches_block lun b (snd e)) -> o < 4096 ->
  block_byte lba' b o bs = block_byte lba b o data /\ block_byte lba b o data <> None.
Proof.
  intros cap w0 st0 w st l1 l2 lun lba data lba' n fua bs b o Hcap Hs Ha H Hl Hb Hb' Hw Ho. apply module_lived_lived in H.
  rewrite flat_map_app in H. cbn [flat_map really app] in H. rewrite flat_map_app in H. cbn [flat_map really app] in H.
  eapply (C87_forced_writes_survive cap w0 st0 w st); try eassumption. apply really_touches. exact Hw.
Qed.
Print Assumptions C95_forced_writes_survive_partial.
Theorem C95_synchronized_writes_survive_partial : forall cap w0 st0 w st l1 l2 l3 lun lba data f lba' n fua bs b o,
  cap_ok cap -> (exists d, stores w0 d) -> all_saved w0 st0 ->
  module_lived cap w0 st0 (l1 ++ (true, Served (IoWrite lun lba data) f AnsDone) :: l2 ++ (true, Synced lun) :: l3 ++ [(true, Served (IoRead lun lba' n) fua (AnsData bs))]) w st ->
  lun < 2 ^ 32 - 1 -> lba <= b < lba + blocks_of data -> lba' <= b < lba' + n ->
  (forall e, In e (l2 ++ l3) -> fst e = true -> ~ touches_block lun b (snd e)) -> (forall e, In e l2 -> no_failure (snd e)) -> o < 4096 ->
  block_byte lba' b o bs = block_byte lba b o data /\ block_byte lba b o data <> None.
Proof.
  intros cap w0 st0 w st l1 l2 l3 lun lba data f lba' n fua bs b o Hcap Hs Ha H Hl Hb Hb' Hw Hf Ho. apply module_lived_lived in H.
  rewrite flat_map_app in H. cbn [flat_map really app] in H. rewrite flat_map_app in H. cbn [flat_map really app] in H. rewrite flat_map_app in H. cbn [flat_map really app] in H.
  eapply (C87_synchronized_writes_survive cap w0 st0 w st); try eassumption.
  - rewrite <- flat_map_app. apply really_touches. exact Hw.
  - apply really_quiet. exact Hf.
Qed.
Print Assumptions C95_synchronized_writes_survive_partial.

(** *** the claim fails otherwise, and the premises are met *)
Lemma ex_healthy_by cap : backed_by cap (fun _ _ => xab) (fun _ _ => 0) (ex_healthy cap).
Proof. split; reflexivity. Qed.
Lemma ex_healthy_reached cap i s : reached (ex_healthy cap) i s.
Proof.
  destruct (not_reached (ex_healthy cap) i s (fun _ => None) eq_refl) as [[_ H]|[_ H]]; [|exact H]. exfalso. apply H. clear H.
  intros m. unfold submit_command, nvme_submit_user_cmd. cbn [ex_healthy kn_ns kn_alloc kn_map kn_disk kn_admin_q kn_io_q Z.eqb negb].
  replace ((if sub_admin s then 1 else 2) =? 0) with false by (destruct (sub_admin s); reflexivity). change (7 =? 0) with false.
  destruct (negb (sub_buffer s =? 0) && negb (sub_bufflen s =? 0)); do 3 eexists; (split; [reflexivity|]); do 3 eexists; cbn [In app]; eauto.
Qed.
Definition ex_lifeless : kernel :=
  {| kn_ns := true; kn_disk := 7; kn_admin_q := 1; kn_io_q := 2; kn_alloc := fun _ => inr (-12)%Z; kn_map := fun _ => 0%Z;
     kn_exec := nvme_device ex_cap (fun _ _ => xab) (fun _ _ => 0); kn_ret := fun _ => 12345%Z |}.
Lemma ex_lifeless_by : backed_by ex_cap (fun _ _ => xab) (fun _ _ => 0) ex_lifeless.
Proof. split; reflexivity. Qed.
Lemma ex_lifeless_reached i s : ~ reached ex_lifeless i s.
Proof.
  intros R. destruct (R (fun _ => None)) as (rt & es & m' & E & q & d & rq & Hin).
  destruct (exhausted_nothing ex_lifeless i s (fun _ => None)) as (r' & E'); [split; [reflexivity|intros k; eexists; reflexivity]|].
  rewrite E in E'. apply Some_eq in E'. apply pair_eq in E' as [E' _]. apply pair_eq in E' as [_ ->]. destruct Hin.
Qed.

(** block 7 of unit 2 written and carried out *)
Lemma ex_put_module f : let w0 := ex_disk_world (ex_put f) in
  exists w1 d1, stores w1 d1 /\ disk_step ex_cap ex_disk ex_io = (d1, AnsDone) /\
    (f = false -> module_lived ex_cap w0 (mem w0) ([] ++ [(true, Served ex_io false AnsDone)]) w1 (mem w0)) /\
    module_lived ex_cap w0 (mem w0) ([] ++ [(true, Served ex_io f AnsDone)]) w1 (mem w1).
Proof.
  intros w0. assert (Hc : cap_ok ex_cap) by (intros n; discriminate). destruct (ex_healthy_ok ex_cap) as [Hb Ha].
  destruct (C92_module_step ex_cap (ex_healthy ex_cap) ex_wrs 0x90000 0 _ _ _ ex_disk Hc Hb (ex_stores _) (ex_put_presented f)) as (r & w1 & a & d1 & E & O & S & D & _).
  assert (Bl : blocks_of (ex_data (N.to_nat 4096) xcd) = 1) by (unfold blocks_of; rewrite ex_io_len; reflexivity).
  assert (W : within (fun lun => ex_cap (lun + 1)) ex_io) by (unfold within; rewrite Bl; discriminate).
  assert (D' : disk_step ex_cap ex_disk ex_io = (d1, a)).
  { destruct D as [_ _|N]; [|exfalso; apply N; split; assumption]. change (fun lun => ex_cap (lun + 1)) with ex_cap. apply surjective_pairing. }
  assert (a = AnsDone) as ->.
  { unfold disk_step in D'. rewrite Bl in D'. change (7 + 1 <=? ex_cap 2) with true in D'. cbv iota in D'. apply pair_eq in D' as [_ <-]. reflexivity. }
  destruct (adapter_rw _ _ _ _ _ _ _ _ _ _ (ex_put_presented f) (ex_put_cdb f) E) as (s & m & Es & Hio & _).
  assert (Cr : carried (ex_healthy ex_cap) (mr_subs r)).
  { rewrite Es. intros i s' m' Hi. destruct i as [|[|i]]; try discriminate Hi. apply Some_eq in Hi. subst s'. split; [apply ex_healthy_reached|].
    change (kn_exec (ex_healthy ex_cap) 0%nat s m') with (nvme_device ex_cap (fun _ _ => xab) (fun _ _ => 0) 0%nat s m').
    destruct (io_sub_io _ _ _ _ Hio) as [Sa So]. rewrite (device_disk_like ex_cap _ _ 0%nat s m' Sa So).
    unfold io_sub, io_parts in Hio. destruct Hio as (_ & _ & _ & pr & p2 & l2 & Hpr & V).
    rewrite (nvme_disk_eq ex_cap 0%nat s m' 1 2 0x90000 7 _ _ _ _ _ V); [|auto|lia|rewrite Bl; lia]. rewrite Bl. change (ex_cap (nsid_of 2) <? 7 + 1) with false. split; reflexivity. }
  assert (Fb : fua_bit (ex_put f) = f) by (destruct f; reflexivity).
  exists w1, d1. split; [exact S|]. split; [exact D'|]. split.
  - intros ->. change (Served ex_io false AnsDone) with (Served ex_io (fua_bit (ex_put false)) AnsDone).
    eapply ml_io; [apply ml_start|apply ex_healthy_by|apply ex_put_presented|apply ex_put_cdb|exact E|exact O| |tauto].
    split; [intros nsid b _; left; intros o _; reflexivity|]. intros i s' nsid b Hs _ _ M _. exfalso.
    rewrite Es in Hs. destruct i as [|[|i]]; try discriminate Hs. apply Some_eq in Hs. subst s'.
    unfold io_sub, io_parts in Hio. destruct Hio as (_ & _ & _ & pr & p2 & l2 & Hpr & V).
    unfold sub_view in V. apply pair_eq in V as [V _]. apply pair_eq in V as [V _]. apply pair_eq in V as [Va Vc].
    unfold makes_safe in M. cbv zeta in M. rewrite Vc in M. destruct M as (_ & _ & M).
    destruct (rw_sqe_fields 1 2 0x90000 7 (blocks_of (ex_data (N.to_nat 4096) xcd)) (N.b2n (fua_bit (ex_put false))) pr) as (F1 & _); [try rewrite Bl; lia|try rewrite Bl; lia|try rewrite Bl; lia|].
    rewrite F1 in M. destruct M as [M|(_ & M & _)]; [discriminate M|]. rewrite rw_sqe_fua in M by (try exact Hpr; rewrite Bl; lia). discriminate M.
  - replace (Served ex_io f AnsDone) with (Served ex_io (fua_bit (ex_put f)) AnsDone) by (rewrite Fb; reflexivity). eapply ml_io; [apply ml_start|apply ex_healthy_by|apply ex_put_presented|apply ex_put_cdb|exact E|exact O| |tauto].
    split; [intros nsid b _; right; intros o _; reflexivity|]. intros i s' nsid b _ _ _ _ _ o _. reflexivity.
Qed.
(** blocks 6 and 7 of unit 2 read and carried out *)
Lemma ex_get_module w0 st0 l w st d : module_lived ex_cap w0 st0 l w st -> stores w d ->
  exists w' st', module_lived ex_cap w0 st0 (l ++ [(true, Served (IoRead 2 6 2) false (AnsData (disk_read d 2 6 2)))]) w' st'.
Proof.
  intros H S. assert (Hc : cap_ok ex_cap) by (intros n; discriminate). destruct (ex_healthy_ok ex_cap) as [Hb Ha].
  assert (S2 : stores (ex_later w) d) by (apply (stores_same w); [exact S|apply ex_later_medium]).
  destruct (C92_module_step ex_cap (ex_healthy ex_cap) ex_wrs 0x90000 0 _ _ _ d Hc Hb S2 (ex_read_presented w)) as (r & w1 & a & d1 & E & O & S1 & D & _).
  assert (W : within (fun lun => ex_cap (lun + 1)) (IoRead 2 6 2)) by (unfold within; discriminate).
  assert (D' : disk_step ex_cap d (IoRead 2 6 2) = (d1, a)).
  { destruct D as [_ _|N]; [|exfalso; apply N; split; assumption]. change (fun lun => ex_cap (lun + 1)) with ex_cap. apply surjective_pairing. }
  change (disk_step ex_cap d (IoRead 2 6 2)) with (d, AnsData (disk_read d 2 6 2)) in D'. apply pair_eq in D' as [<- <-].
  destruct (adapter_rw _ _ _ _ _ _ _ _ _ _ (ex_read_presented w) (ex_read_cdb w) E) as (s & m & Es & Hio & _).
  exists w1, (mem w1). change (Served (IoRead 2 6 2) false) with (Served (IoRead 2 6 2) (fua_bit ex_read6)).
  eapply ml_io; [|apply ex_healthy_by|apply ex_read_presented|apply ex_read_cdb|exact E|exact O| |].
  - eapply ml_env; [exact H|apply ex_later_medium|]. intros nsid b _. left. intros o _. reflexivity.
  - split; [intros nsid b _; right; intros o _; reflexivity|]. intros i s' nsid b _ _ _ _ _ o _. reflexivity.
  - split; [intros _|reflexivity]. rewrite Es. intros i s' m' Hi. destruct i as [|[|i]]; try discriminate Hi. apply Some_eq in Hi. subst s'. split; [apply ex_healthy_reached|].
    change (kn_exec (ex_healthy ex_cap) 0%nat s m') with (nvme_device ex_cap (fun _ _ => xab) (fun _ _ => 0) 0%nat s m').
    destruct (io_sub_io _ _ _ _ Hio) as [Sa So]. rewrite (device_disk_like ex_cap _ _ 0%nat s m' Sa So).
    unfold io_sub, io_parts in Hio. destruct Hio as (_ & _ & _ & pr & p2 & l2 & Hpr & V).
    rewrite (nvme_disk_eq ex_cap 0%nat s m' 2 2 0x90000 6 _ _ _ _ _ V); [|auto|lia|lia]. change (ex_cap (nsid_of 2) <? 6 + 2) with false. split; reflexivity.
Qed.
(** a forced WRITE, power failure, READ: the data are there *)
Example C95_forced_met : let w0 := ex_disk_world (ex_put true) in exists w st bs,
  module_lived ex_cap w0 (mem w0)
    ([] ++ (true, Served ex_io true AnsDone) :: [(true, PowerFailed)] ++ [(true, Served (IoRead 2 6 2) false (AnsData bs))]) w st /\
  nth_error bs 4096 = Some xcd.
Proof.
  intros w0. destruct (ex_put_module true) as (w1 & d1 & S & D & _ & H1). fold w0 in H1.
  assert (H2 : module_lived ex_cap w0 (mem w0) (([] ++ [(true, Served ex_io true AnsDone)]) ++ [(true, PowerFailed)]) w1 (mem w1)).
  { eapply ml_failed; [exact H1|]. intros nsid b _ o _. reflexivity. }
  destruct (ex_get_module _ _ _ _ _ d1 H2 S) as (w' & st' & H3). exists w', st', (disk_read d1 2 6 2). split; [exact H3|].
  assert (Q : block_byte 6 7 0 (disk_read d1 2 6 2) = block_byte 7 7 0 (ex_data (N.to_nat 4096) xcd) /\ block_byte 7 7 0 (ex_data (N.to_nat 4096) xcd) <> None).
  { assert (Hc : cap_ok ex_cap) by (intros n; discriminate).
    apply (C95_forced_writes_survive_partial ex_cap w0 (mem w0) w' st' [] [(true, PowerFailed)] 2 7 (ex_data (N.to_nat 4096) xcd) 6 2 false (disk_read d1 2 6 2) 7 0 Hc).
    - exists ex_disk. apply ex_stores.
    - apply ex_started.
    - exact H3.
    - lia.
    - exact ex_block7.
    - lia.
    - intros e [<-|[]] _ [].
    - lia. }
  destruct Q as [Q _]. exact Q.
Qed.
Lemma ex_flush_medium w : same_medium w (ex_later_with ex_flush w).
Proof. intros y Hy. unfold ex_later_with. cbn [mem set_mem]. replace (2 ^ 64 <=? y) with true by lia. reflexivity. Qed.

(** a WRITE, SYNCHRONIZE CACHE carried out, power failure, READ: the data are there *)
Example C95_synchronized_met : let w0 := ex_disk_world (ex_put false) in exists w st bs,
  module_lived ex_cap w0 (mem w0)
    ([] ++ (true, Served ex_io false AnsDone) :: [] ++ (true, Synced 2) :: [(true, PowerFailed)] ++ [(true, Served (IoRead 2 6 2) false (AnsData bs))]) w st /\
  nth_error bs 4096 = Some xcd.
Proof.
  intros w0. destruct (ex_put_module false) as (w1 & d1 & S & D & H1 & _). fold w0 in H1. specialize (H1 eq_refl).
  assert (X : match scsi_queuecommand (kernel_driver (ex_healthy ex_cap)) ex_wrs 0x90000 0 (ex_scsi ex_flush true 0) (ex_later_with ex_flush w1) with
              | Ret r _ => mr_result r =? GOOD | UB _ => false end = true) by (vm_compute; reflexivity).
  destruct (scsi_queuecommand _ ex_wrs 0x90000 0 (ex_scsi ex_flush true 0) (ex_later_with ex_flush w1)) as [rs ws|] eqn:Es; [|discriminate X].
  apply N.eqb_eq in X. destruct (adapter_sync _ _ _ _ _ _ _ _ (ex_flush_asked w1) Es X) as (s & nn & Ss & V & _ & Hm).
  unfold sub_view in V. apply pair_eq in V as [V _]. apply pair_eq in V as [V _]. apply pair_eq in V as [Va Vc].
  destruct (flush_fields ((sc_lun (ex_scsi ex_flush true 0) + 1) mod 2 ^ 32)) as [F1 _]; [reflexivity|].
  assert (Dev : forall m, kn_exec (ex_healthy ex_cap) 0%nat s m = (m, 0)).
  { intros m. change (kn_exec (ex_healthy ex_cap) 0%nat s m) with (nvme_device ex_cap (fun _ _ => xab) (fun _ _ => 0) 0%nat s m).
    unfold nvme_device. rewrite Va, Vc, F1. reflexivity. }
  assert (Sw : stores ws d1).
  { apply (stores_same (ex_later_with ex_flush w1)); [apply (stores_same w1); [exact S|apply ex_flush_medium]|].
    intros y Hy. rewrite Hm by exact Hy. rewrite reached_runs by (reflexivity || apply ex_healthy_reached). rewrite Dev. reflexivity. }
  assert (H2 : module_lived ex_cap w0 (mem w0) (([] ++ [(true, Served ex_io false AnsDone)]) ++ [(true, Synced 2)]) ws (mem ws)).
  { change (Synced 2) with (Synced (sc_lun (ex_scsi ex_flush true 0))).
    eapply ml_sync; [|apply ex_healthy_by|apply ex_flush_asked|exact Es|exact X| |].
    - eapply ml_env; [exact H1|apply ex_flush_medium|]. intros nsid b _. left. intros o _. reflexivity.
    - split; [intros nsid b _; right; intros o _; reflexivity|]. intros i s' nsid b _ _ _ _ _ o _. reflexivity.
    - split; [intros _|reflexivity]. rewrite Ss. intros i s' m' Hi. destruct i as [|[|i]]; try discriminate Hi. apply Some_eq in Hi. subst s'.
      split; [apply ex_healthy_reached|]. rewrite Dev. split; reflexivity. }
  assert (H3 : module_lived ex_cap w0 (mem w0) ((([] ++ [(true, Served ex_io false AnsDone)]) ++ [(true, Synced 2)]) ++ [(true, PowerFailed)]) ws (mem ws)).
  { eapply ml_failed; [exact H2|]. intros nsid b _ o _. reflexivity. }
  destruct (ex_get_module _ _ _ _ _ d1 H3 Sw) as (w' & st' & H4). exists w', st', (disk_read d1 2 6 2). split; [exact H4|].
  assert (Q : block_byte 6 7 0 (disk_read d1 2 6 2) = block_byte 7 7 0 (ex_data (N.to_nat 4096) xcd) /\ block_byte 7 7 0 (ex_data (N.to_nat 4096) xcd) <> None).
  { assert (Hc : cap_ok ex_cap) by (intros k; discriminate).
    apply (C95_synchronized_writes_survive_partial ex_cap w0 (mem w0) w' st' [] [] [(true, PowerFailed)] 2 7 (ex_data (N.to_nat 4096) xcd) false 6 2 false (disk_read d1 2 6 2) 7 0 Hc).
    - exists ex_disk. apply ex_stores.
    - apply ex_started.
    - exact H4.
    - lia.
    - exact ex_block7.
    - lia.
    - intros e [<-|[]] _ [].
    - intros e [].
    - lia. }
  destruct Q as [Q _]. exact Q.
Qed.

(** a WRITE, SYNCHRONIZE CACHE answered GOOD, power failure: the data are gone *)
Theorem C95_synchronized_writes_refuted : let w0 := ex_disk_world (ex_put false) in
  all_saved w0 (mem w0) /\ exists w st,
  module_lived ex_cap w0 (mem w0) [(true, Served ex_io false AnsDone); (false, Synced 2); (true, PowerFailed)] w st /\
  stores w ex_disk /\ block_byte 7 7 0 (ex_data (N.to_nat 4096) xcd) = Some xcd /\ ex_disk 2 7 0 <> xcd.
Proof.
  intros w0. split; [apply ex_started|]. destruct (ex_put_module false) as (w1 & d1 & _ & _ & H1 & _). fold w0 in H1. specialize (H1 eq_refl).
  exists w0, (mem w0). split; [|split; [apply ex_stores|split; [reflexivity|discriminate]]].
  assert (X : match scsi_queuecommand (kernel_driver ex_lifeless) ex_wrs 0x90000 0 (ex_scsi ex_flush true 0) (ex_later_with ex_flush w1) with
              | Ret r _ => mr_result r =? GOOD | UB _ => false end = true) by (vm_compute; reflexivity).
  destruct (scsi_queuecommand _ ex_wrs 0x90000 0 (ex_scsi ex_flush true 0) (ex_later_with ex_flush w1)) as [rs ws|] eqn:Es; [|discriminate X].
  apply N.eqb_eq in X. destruct (adapter_sync _ _ _ _ _ _ _ _ (ex_flush_asked w1) Es X) as (s & n & Ss & _).
  change [?a; ?b; ?c] with (((([] ++ [a]) ++ [b])) ++ [c]). eapply ml_failed; [|intros nsid b _ o _; reflexivity].
  change (Synced 2) with (Synced (sc_lun (ex_scsi ex_flush true 0))).
  eapply ml_sync; [|apply ex_lifeless_by|apply ex_flush_asked|exact Es|exact X| |].
  - eapply ml_env; [exact H1|apply ex_flush_medium|]. intros nsid b _. left. intros o _. reflexivity.
  - split; [intros nsid b _; left; intros o _; reflexivity|]. intros i s' nsid b _ R. destruct (ex_lifeless_reached _ _ R).
  - split; [discriminate|]. intros C. rewrite Ss in C. destruct (C 0%nat s (mem w0) eq_refl) as [R _]. destruct (ex_lifeless_reached _ _ R).
Qed.
Print Assumptions C95_synchronized_writes_refuted.

(** a WRITE with Force Unit Access answered GOOD: nothing is written *)
Theorem C95_forced_writes_refuted : let w0 := ex_disk_world (ex_put true) in
  exists w st, module_lived ex_cap w0 (mem w0) [(false, Served ex_io true AnsDone)] w st /\ stores w ex_disk /\ ex_disk 2 7 0 <> xcd.
Proof.
  intros w0. assert (Hc : cap_ok ex_cap) by (intros n; discriminate).
  assert (Hb : backed ex_cap ex_lifeless) by (split; [reflexivity|intros k s m; do 2 eexists; reflexivity]).
  assert (Na : ~ accepting ex_lifeless) by (intros (_ & _ & (rq & Q) & _); discriminate Q).
  destruct (C92_module_step ex_cap ex_lifeless ex_wrs 0x90000 0 _ _ _ ex_disk Hc Hb (ex_stores _) (ex_put_presented true)) as (r & w1 & a & d1 & E & O & S & D & _).
  assert (Q : d1 = ex_disk /\ a = AnsDone) by (destruct D as [A _|_]; [contradiction|split; reflexivity]). destruct Q as [-> ->].
  destruct (adapter_rw _ _ _ _ _ _ _ _ _ _ (ex_put_presented true) (ex_put_cdb true) E) as (s & m & Es & _).
  exists w1, (mem w0). split; [|split; [exact S|discriminate]].
  change [?a] with ([] ++ [a]). change (Served ex_io true AnsDone) with (Served ex_io (fua_bit (ex_put true)) AnsDone).
  eapply ml_io; [apply ml_start|apply ex_lifeless_by|apply ex_put_presented|apply ex_put_cdb|exact E|exact O| |].
  - split; [intros nsid b _; left; intros o _; reflexivity|]. intros i s' nsid b _ R. destruct (ex_lifeless_reached _ _ R).
  - split; [discriminate|]. intros C. rewrite Es in C. destruct (C 0%nat s (mem w0) eq_refl) as [R _]. destruct (ex_lifeless_reached _ _ R).
Qed.
Print Assumptions C95_forced_writes_refuted.
