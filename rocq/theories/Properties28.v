(** C72 and C75 for UNMAP: exactly which commands an UNMAP leads to. *)
From Coq Require Import Arith NArith String List Lia Bool Init.Byte Permutation.
From Coq Require Import ZifyBool ZifyNat ZifyN.
From Verif Require Import Bytes Layout ScsiDefs NvmeDefs World Common ReadCmds WriteCmds SmallCmds UnmapCmd StatusCmd ModeSenseCmd InquiryCmd TranslationCls.
From Verif Require Import Spec RwSpec InquirySpec SmallSpec ModeSpec UnmapSpec AcceptSpec Facts Logic BeginFacts CompleteFacts WireFacts Witness RwFacts AdminFacts InquiryFacts SmallFacts ModeFacts UnmapFacts ProgFacts CatalogFacts AcceptFacts RelFacts EngineSpec MockSpec EngineE2e MockModule EngineFacts MockFacts Properties2 HistorySpec Properties6 Properties9 Properties14 Properties11.
Import ListNotations.
Local Open Scope string_scope.
Local Open Scope list_scope.
Local Open Scope N_scope.

Lemma cache_commands a wrs (al : Allocation) lun (k : N) w st wrs' al' n w' : ca_pc a < 4 -> k <= 2 ->
   (if negb (ca_page_code a =? kCacheMode) && negb (ca_page_code a =? kAllSupportedModes) then
      if (ca_page_code a =? kControlMode) || (ca_page_code a =? kPowerConditionMode)
      then ret (kSuccess, wrs, al, k)
      else ret (kFailure, wrs, al, k)
    else
      match aget wrs k with
      | None => ub "nvme_wrappers index out of range"
      | Some wr =>
          let '(st, wr) := GenerateCacheGetFeaturesCmd wr (ca_pc a) (nsid_of lun) in
          ret (st, aset wrs k wr, al, k + 1)
      end) w = Ret (st, wrs', al', n) w' -> st = kSuccess ->
   wires wrs' n = wires wrs k ++ map admin_wire (cache_cmds lun (ca_page_code a) (ca_pc a)).
Proof.
  intros Hpc Hk E Hs. destruct (known_cases (ca_page_code a)) as (K1 & K2 & K3). rewrite K1 in E. unfold cache_cmds.
  destruct (needs_cache (ca_page_code a)) eqn:Nc; cbn [negb] in E.
  - assert (Hw : exists wr, aget wrs k = Some wr).
    { assert (k = 0 \/ k = 1 \/ k = 2) as [-> | [-> | ->]] by lia; cbn; eauto. }
    destruct Hw as (wr & Hw). rewrite Hw in E. pose proof (features_case wr (ca_pc a) lun Hpc) as F.
    destruct (sel_of (ca_pc a)) as [sel|].
    + destruct F as (wr' & F & V). rewrite F in E. apply ret_eq in E as [E _]. injection E as _ <- _ <-.
      cbn [map]. rewrite <- V. assert (k = 0 \/ k = 1 \/ k = 2) as [-> | [-> | ->]] by lia; reflexivity.
    + rewrite F in E. apply ret_eq in E as [E _]. injection E as E _ _ _. congruence.
  - rewrite (K2 eq_refl) in E. destruct (known_page (ca_page_code a)); apply ret_eq in E as [E _].
    + injection E as _ <- _ <-. cbn [map]. rewrite app_nil_r. reflexivity.
    + injection E as E _ _ _. congruence.
Qed.

(** after a first command in slot 0 *)
Lemma mode_after a wrs al lun w st wrs' al' n w' : ca_pc a < 4 ->
  ModeSenseToNvme a wrs al kPageSize (nsid_of lun) 1 w = Ret (st, wrs', al', n) w' -> st = kSuccess ->
  exists p ps, answered w w' ps /\ (ca_dbd a = true -> p = None /\ ps = []) /\ (ca_dbd a = false -> data_addr al = 0 /\ exists q, q <> 0 /\ p = Some q /\ ps = [q]) /\
    wires wrs' n = wire_of (view (e0 wrs)) :: map admin_wire (ms_cmds lun p (ca_page_code a) (ca_pc a)).
Proof.
  intros Hpc E Hs. unfold ModeSenseToNvme in E. destruct (ca_dbd a).
  - apply bind_ret_inv in E as ([[[st1 wrs1] al1] n1] & w1 & E1 & E). apply ret_eq in E1 as [E1 <-]. injection E1 as <- <- <- <-. cbn [is_success negb] in E.
    pose proof (cache_commands a wrs al lun 1 w _ _ _ _ _ Hpc ltac:(lia) E Hs) as W.
    exists None, []. assert (X : w' = w).
    { destruct (cache_status a wrs al lun 1 w Hpc ltac:(lia)) as (s2 & wr2 & n2 & E2 & _). rewrite E2 in E. apply ret_eq in E as [_ E]. symmetry. exact E. }
    rewrite X. split; [apply answered_same|]. split; [auto|]. split; [discriminate|]. exact W.
  - cbn [aget] in E. apply bind_ret_inv in E as ([[[st1 wrs1] al1] n1] & w1 & E1 & E).
    apply bind_ret_inv in E1 as ([[st2 wr2] al2] & w2 & E2 & E1). apply ret_eq in E1 as [E1 <-]. injection E1 as <- <- <- <-.
    destruct (N.eq_dec (data_addr al) 0) as [Hz|Hz].
    + destruct (identify_case (e1 wrs) al lun w Hz) as (s3 & wr3 & al3 & w3 & E3 & _ & C). rewrite E2 in E3. apply ret_eq in E3 as [E3 <-]. injection E3 as <- <- <-.
      destruct C as [(-> & p & m & Hp & T & -> & V & _)|(-> & _)].
      2:{ cbn [is_success negb] in E. apply ret_eq in E as [E _]. injection E as E _ _ _. congruence. }
      cbn [is_success negb] in E. change (1 + 1) with 2 in E.
      pose proof (cache_commands a (aset wrs 1 wr2) (mk_alloc p m) lun 2 w2 _ _ _ _ _ Hpc ltac:(lia) E Hs) as W.
      assert (X : w' = w2).
      { destruct (cache_status a (aset wrs 1 wr2) (mk_alloc p m) lun 2 w2 Hpc ltac:(lia)) as (s4 & wr4 & n4 & E4 & _).
        pose proof (eq_trans (eq_sym E4) E) as E5. apply ret_eq in E5 as [_ E5]. symmetry. exact E5. }
      exists (Some p), [p]. rewrite X. split; [eapply answered_page; exact T|]. split; [discriminate|]. split; [intros _; split; [exact Hz|]; exists p; auto|].
      rewrite W. cbn [ms_cmds app map]. change (wires (aset wrs 1 wr2) 2) with [wire_of (view (e0 wrs)); wire_of (view wr2)]. rewrite V. reflexivity.
    + exfalso. unfold GenerateBlockDescriptorIdentifyCmd in E2. cbv zeta in E2. apply bind_ret_inv in E2 as ([st4 al4] & w4 & E4 & E2).
      unfold SetPages in E4. replace (data_addr al =? 0) with false in E4 by lia. cbn [negb] in E4. apply ret_eq in E4 as [E4 <-]. injection E4 as <- <-.
      cbn [is_success negb] in E2. apply ret_eq in E2 as [E2 _]. injection E2 as <- _ _.
      cbn [is_success negb] in E. apply ret_eq in E as [E _]. injection E as E _ _ _. congruence.
Qed.

(** The first command: the Deallocate the UNMAP asks for, if its parameters are
    in order and the page for the ranges was given; otherwise whatever the
    object still had in its first slot. *)
Definition unmap_first (t : Translation) (bs pl : list byte) (lun : N) (ps : list N) : bool * list byte :=
  match ps with
  | q :: _ => if unmap_acceptable bs pl && negb (q =? 0)
              then admin_wire (deallocate_sqe (nsid_of lun) (N.to_nat (descriptor_bytes pl / 16)) q)
              else wire_of (view (e0 (nvme_wrappers t)))
  | [] => wire_of (view (e0 (nvme_wrappers t)))
  end.
(** The others: those of the MODE SENSE(6) with the same bytes. *)
Definition unmap_others (bs : list byte) (lun : N) (ps : list N) : list sqe :=
  (if ms_dbd bs then [] else [identify_sqe 0 (nsid_of lun) (last ps 0)]) ++ cache_cmds lun (ms_page bs) (ms_pc bs).

Theorem C72_unmap_commands : forall t cdb bs buffer pl lun w t' r w',
  idle t -> span_holds w cdb bs -> span_holds w buffer pl -> pages_apart w cdb -> byte_at bs 0 = 0x42 ->
  Begin t cdb buffer lun w = Ret (t', r) w' -> accepted t' ->
  exists ps, answered w w' ps /\
    map wire_of (exposes t') = unmap_first t bs pl lun ps :: map admin_wire (unmap_others bs lun ps).
Proof.
  intros t cdb bs buffer pl lun w t' r w' Hi Hc Hb Hap Ho E Hacc. assert (Hne : bs <> []) by (eapply cdb_nonempty; [exact Ho|discriminate]).
  pose proof Hi as (_ & Hcount & Hh). apply held_nil in Hh as (Z0 & Z1 & Z2). pose proof (empty_data _ Z0) as Zd.
  assert (U : exists st wr al w1 ps, UnmapToNvme (subspan cdb 1) buffer (e0 (nvme_wrappers t)) kPageSize (nsid_of lun) (e0 (allocations t)) w = Ret (st, wr, al) w1 /\
    span_holds w1 cdb bs /\ answered w w1 ps /\ alloc_cb w1 = alloc_cb w /\
    ((unmap_acceptable bs pl = true /\ exists p, ps = [p] /\ p <> 0 /\ data_addr al <> 0 /\
        wire_of (view wr) = admin_wire (deallocate_sqe (nsid_of lun) (N.to_nat (descriptor_bytes pl / 16)) p)) \/
     ((unmap_acceptable bs pl = false /\ ps = [] \/ ps = [] /\ alloc_cb w = false \/ ps = [0]) /\ wr = e0 (nvme_wrappers t)))).
  { destruct (unmap_dec bs pl Ho) as [(U & n & D)|(U & D)].
    - assert (Q : N.to_nat (descriptor_bytes pl / 16) = n).
      { destruct D as (_ & _ & _ & _ & D & _). rewrite D, N.mul_comm, N.div_mul by discriminate. lia. }
      destruct (unmap_ok cdb bs buffer pl n (e0 (nvme_wrappers t)) (nsid_of lun) (e0 (allocations t)) w) as
        [(p & m & wr' & w1 & E1 & Hp & T & K & V & _ & H)|(al' & w1 & E1 & K & H & Hz & C)]; try assumption.
      + unfold nsid_of. apply N.mod_lt. discriminate.
      + do 4 eexists. exists [p]. split; [exact E1|]. split; [exact H|]. split; [eapply answered_page; exact T|]. split; [apply K|].
        left. split; [exact U|]. exists p. split; [reflexivity|]. split; [exact Hp|]. split; [exact Hp|]. rewrite V, Q. reflexivity.
      + destruct (prog_answers true _ (p_Unmap true _ _ _ _ _ _) _ _ _ E1) as (_ & ps & A & N).
        do 4 eexists. exists ps. split; [exact E1|]. split; [exact H|]. split; [exact A|]. split; [apply K|].
        right. split; [|reflexivity]. right. destruct C as [C|(m & T)]; [left; auto|right].
        exact (answered_unique _ _ _ _ A (answered_page _ _ _ _ T)).
    - destruct (unmap_bad cdb bs buffer pl (e0 (nvme_wrappers t)) (nsid_of lun) (e0 (allocations t)) w Hc Hb Ho D) as (st & E1 & _).
      do 4 eexists. exists []. split; [exact E1|]. split; [exact Hc|]. split; [apply answered_same|]. split; [reflexivity|]. right. auto. }
  destruct U as (st & wr & al & w1 & ps & E1 & Hc1 & A & Cb & U).
  destruct (le_lt_dec 6 (length bs)) as [Hl|Hl].
  - set (a := {| ca_page_code := ms_page bs; ca_pc := ms_pc bs; ca_dbd := ms_dbd bs; ca_llbaa := false |}).
    set (t1 := set_count (set_status (set_al0 (set_wr0 (started t cdb) wr) al) st) 1).
    destruct (mode_status a (nvme_wrappers t1) al lun 1 w1 (ms_pc_lt bs) ltac:(lia))
      as (st2 & wrs & al2 & n & w2 & ps2 & E2 & A2 & N2 & Z2' & S).
    pose proof (unmap_switch t cdb bs buffer lun w st wr al w1 Hi Hc1 Hl E1 _ _ _ _ _ E2) as Sw. fold t1 in Sw.
    set (t2 := set_status (set_count (set_al0 (set_wrappers t1 wrs) al2) n) st2) in Sw.
    assert (Ok : accepted t2).
    { destruct (switch_answers t cdb buffer lun w bs 0x42 _ _ _ _ Hi Hc Hne Ho Sw (answered_trans _ _ _ _ _ A A2)) as (t3 & w3 & Eb & A3 & Acc).
      rewrite E in Eb. apply (f_equal (fun o => match o with Ret x _ => fst x | UB _ => t3 end)) in Eb. cbn [fst] in Eb. subst t3. tauto. }
    pose proof (Begin_accepts t cdb buffer lun w bs 0x42 t2 (byte_at bs 4) w2 Hi Hc Hne Ho Sw Ok) as Eb.
    rewrite E in Eb. apply ret_eq in Eb as [Eb ->]. apply pair_eq in Eb as [-> _].
    destruct (mode_after a (nvme_wrappers t1) al lun w1 _ _ _ _ _ (ms_pc_lt bs) E2 Ok) as (p & ps3 & A3 & D1 & D0 & W).
    rewrite (answered_unique _ _ _ _ A2 A3) in *. clear A2 ps2. exists (ps ++ ps3). split; [eapply answered_trans; eassumption|].
    rewrite <- wires_exposes. change (nvme_wrappers t2) with wrs. change (nvme_cmd_count t2) with n. rewrite W.
    cbn [ca_page_code ca_pc ca_dbd a] in *. change (e0 (nvme_wrappers t1)) with wr.
    f_equal.
    + destruct (ms_dbd bs).
      * destruct (D1 eq_refl) as (_ & ->). rewrite app_nil_r.
        destruct U as [(U & q & -> & Hq & _ & V)|([[U ->]|[[-> _]| ->]] & ->)]; cbn [unmap_first]; try reflexivity.
        -- rewrite U. replace (q =? 0) with false by lia. exact V.
        -- rewrite andb_false_r. reflexivity.
      * destruct (D0 eq_refl) as (Zal & q' & Hq' & _ & ->).
        destruct U as [(U & q & -> & Hq & X & V)|([[U ->]|[[-> Hn]| ->]] & ->)]; cbn [unmap_first app]; [contradiction| | |].
        -- rewrite U. reflexivity.
        -- rewrite Cb in N2. specialize (N2 Hn). discriminate N2.
        -- rewrite andb_false_r. reflexivity.
    + unfold unmap_others, ms_cmds. destruct (ms_dbd bs).
      * destruct (D1 eq_refl) as (-> & _). reflexivity.
      * destruct (D0 eq_refl) as (Zal & q' & Hq' & -> & ->). rewrite last_last. reflexivity.
  - exfalso.
    assert (Sw : exists t2 al2, Begin_switch 0x42 (subspan cdb 1) buffer (nsid_of lun) (started t cdb) 0 w = Ret (t2, al2) w1 /\ ~ accepted t2).
    { change (Begin_switch 0x42) with Begin_Unmap. unfold Begin_Unmap. unfold bind at 1.
      change (nvme_wrappers (started t cdb)) with (nvme_wrappers t). change (allocations (started t cdb)) with (allocations t). rewrite E1.
      cbv zeta. unfold Begin_ModeSense6, ModeSense6ToNvme. unfold bind.
      rewrite (cdb_ReadValue_short ModeSense6Command cdb w1 bs Hc1) by (cbn; lia). do 2 eexists. split; [reflexivity|discriminate]. }
    destruct Sw as (t2 & al2 & Sw & Na).
    destruct (switch_answers t cdb buffer lun w bs 0x42 _ _ _ _ Hi Hc Hne Ho Sw A) as (t3 & w3 & Eb & A3 & Acc).
    rewrite E in Eb. apply (f_equal (fun o => match o with Ret x _ => fst x | UB _ => t3 end)) in Eb. cbn [fst] in Eb. subst t3. tauto.
Qed.
Print Assumptions C72_unmap_commands.

(** ** a concrete UNMAP *)
Definition ex_um (b2 : N) : list byte := B [0x42; 8; b2; 0; 0; 0; 0; 0; 24; 0].
Definition ex_pl : list byte := B [0; 22; 0; 16; 0; 0; 0; 0;  0; 0; 0; 0; 0; 0; 0; 5;  0; 0; 0; 8;  0; 0; 0; 0].
Definition ex_um_world (b2 : N) (pages : bool) : world :=
  let w := ex_world_with (fun _ _ => x00) xff (ex_um b2) ex_pl in
  {| mem := mem w; alloc_cb := true; dealloc_cb := true; ans := fun k ps n => if pages then ans w k ps n else 0; fill := fill w; junk := junk w; tick := 0; trace := [] |}.
Definition ex_um_run (b2 : N) (pages : bool) : option (bool * list (bool * N) * list event) :=
  match Begin ex_obj (ex_cdb (ex_um b2)) (ex_out ex_pl) 6 (ex_um_world b2 pages) with
  | Ret (t, _) w => Some (is_success (pipeline_status t), map (fun x => (x_admin x, byte_at (x_bytes x) 0)) (exposes t), trace w)
  | UB _ => None
  end.
Lemma ex_um_holds b2 pages : span_holds (ex_um_world b2 pages) (ex_cdb (ex_um b2)) (ex_um b2).
Proof. exact (ex_cdb_holds (fun _ _ => x00) xff (ex_um b2) ex_pl). Qed.
Lemma ex_um_list b2 pages : span_holds (ex_um_world b2 pages) (ex_out ex_pl) ex_pl.
Proof.
  split; [reflexivity|]. intros i b H. assert (Hi : (i < length ex_pl)%nat) by (apply nth_error_Some; congruence). change (length ex_pl) with 24%nat in Hi.
  cbn [mem ex_um_world ex_world_with ex_out ptr]. unfold ex_mem, region at 1. change (N.of_nat (length (ex_um b2))) with 10.
  replace ((0x1000 <=? 0x10000 + N.of_nat i) && (0x10000 + N.of_nat i <? 0x1000 + 10)) with false by lia.
  unfold region. change (N.of_nat (length ex_pl)) with 24.
  replace ((0x10000 <=? 0x10000 + N.of_nat i) && (0x10000 + N.of_nat i <? 0x10000 + 24)) with true by lia.
  replace (N.to_nat (0x10000 + N.of_nat i - 0x10000)) with i by lia. exact H.
Qed.

(** Deallocate and Get Features with page 08h; a stale command (opcode 1) and
    Get Features when no page was given *)
Lemma ex_um_runs :
  ex_um_run 8 true = Some (true, [(true, 0x09); (true, 0x0a)], [EvAlloc 4096 1 0x100000; EvAlloc 4096 0 0]) /\
  ex_um_run 8 false = Some (true, [(true, 0x01); (true, 0x0a)], [EvAlloc 4096 1 0; EvAlloc 4096 0 0]).
Proof. split; vm_compute; reflexivity. Qed.
Example C72_unmap_met : idle ex_obj /\ (forall p, span_holds (ex_um_world 8 p) (ex_cdb (ex_um 8)) (ex_um 8) /\ span_holds (ex_um_world 8 p) (ex_out ex_pl) ex_pl /\
  pages_apart (ex_um_world 8 p) (ex_cdb (ex_um 8))) /\ byte_at (ex_um 8) 0 = 0x42.
Proof.
  split; [apply idle_init|]. split; [|reflexivity]. intros p. split; [apply ex_um_holds|]. split; [apply ex_um_list|].
  intros k ps n a. unfold a. cbn [ans ex_um_world ex_world_with ex_cdb ptr len]. destruct p; [|left; reflexivity].
  destruct (n =? 0); [left; reflexivity|].
  unfold u64. set (x := 0x100000 * (N.of_nat k + 1)). change (N.of_nat (length (ex_um 8))) with 10.
  pose proof (N.div_mod x (2 ^ 64) ltac:(discriminate)) as D. change (2 ^ 64) with (0x100000 * 0x100000000000) in *.
  unfold x in *. rewrite N.mul_mod_distr_l by discriminate. set (y := (N.of_nat k + 1) mod 0x100000000000).
  destruct (N.eq_dec y 0) as [->|Hy]; [left; reflexivity|right; right; lia].
Qed.

(** C75 for UNMAP: the page for the range list was refused, the command is
    accepted all the same *)
Theorem C75_unmap_refuted : exists t cdb buffer lun w bs t' r w',
  idle t /\ span_holds w cdb bs /\ byte_at bs 0 = 0x42 /\ Begin t cdb buffer lun w = Ret (t', r) w' /\ no_page w w' /\ accepted t'.
Proof.
  pose proof (proj2 ex_um_runs) as H. unfold ex_um_run in H.
  destruct (Begin ex_obj (ex_cdb (ex_um 8)) (ex_out ex_pl) 6 (ex_um_world 8 false)) as [[t1 r1] w1|] eqn:E; [|discriminate].
  apply Some_eq, pair_eq in H as [H Ht]. apply pair_eq in H as [Hs _].
  exists ex_obj, (ex_cdb (ex_um 8)), (ex_out ex_pl), 6, (ex_um_world 8 false), (ex_um 8), t1, r1, w1.
  split; [apply idle_init|]. split; [apply ex_um_holds|]. split; [reflexivity|]. split; [exact E|]. split.
  - exists (trace w1), 4096, 1. split; [reflexivity|]. split; [rewrite Ht; left; reflexivity|discriminate].
  - unfold accepted. destruct (pipeline_status t1); try discriminate Hs. reflexivity.
Qed.
Print Assumptions C75_unmap_refuted.

(** ** C51 for MODE SENSE(10): it depends on the first twelve bytes *)
Lemma rel_Begin_MS10_at ca cb n ta tb rl w : idle2 ta tb ->
  (forall w', ReadValue ModeSense10Command (subspan ca 1) w' = ReadValue ModeSense10Command (subspan cb 1) w') ->
  (forall w', ReadValue ReportOpCodesCommand (subspan ca 1) w' = ReadValue ReportOpCodesCommand (subspan cb 1) w') ->
  (forall w', ReadValue ReportLunsCommand (subspan ca 1) w' = ReadValue ReportLunsCommand (subspan cb 1) w') ->
  rel (Begin_ModeSense10 (subspan ca 1) n ta rl) (Begin_ModeSense10 (subspan cb 1) n tb rl) w (fun r s _ => simr r s).
Proof.
  intros (_ & _ & C1 & C2 & A0 & A1 & A2) H1 H2 H3. unfold Begin_ModeSense10, ModeSense10ToNvme. cbv zeta. rewrite C1, C2.
  apply rel_bind, rel_bind. eapply rel_mono; [apply rel_same; apply H1|]. intros o o' w' ->. destruct o' as [d|].
  - apply rel_bind. eapply rel_mono; [apply rel_MS, A0|]. intros [[[s1 wa1] al1] n1] [[[s2 wb1] bl1] n2] w1 (-> & -> & P3 & P4).
    apply rel_ret. apply rel_Begin_MI; [apply H2|apply H3|]. split; [exact P4|split; [exact A1|exact A2]].
  - apply rel_ret. apply rel_Begin_MI; [apply H2|apply H3|]. split; [exact A0|split; [exact A1|exact A2]].
Qed.

Theorem C51_mode10_partial : forall t w a la lb bsa bsb buffer lun,
  let ca := {| ptr := a; len := la |} in let cb := {| ptr := a; len := lb |} in
  idle t -> span_holds w ca bsa -> span_holds w cb bsb -> byte_at bsa 0 = 0x5a -> 12 <= la -> 12 <= lb ->
  same_outcome begin_seen (Begin t ca buffer lun w) (Begin t cb buffer lun w) /\
  forall ta ra wa tb rb wb, Begin t ca buffer lun w = Ret (ta, ra) wa -> Begin t cb buffer lun w = Ret (tb, rb) wb ->
    forall w2 cpls buffer2 sense, span_holds w2 ca bsa -> span_holds w2 cb bsb ->
      same_outcome complete_seen (Complete ta cpls buffer2 sense w2) (Complete tb cpls buffer2 sense w2).
Proof.
  intros t w a la lb bsa bsb buffer lun ca cb Hi Ha Hb H10 La Lb.
  assert (Na : bsa <> []) by (eapply cdb_nonempty; [exact H10|discriminate]).
  assert (Nb : bsb <> []) by (intros ->; destruct Hb as [X _]; cbn in X; lia).
  assert (Ho : byte_at bsa 0 = byte_at bsb 0).
  { destruct bsa as [|x bsa]; [contradiction|]. destruct bsb as [|y bsb]; [contradiction|].
    destruct Ha as [_ Ha], Hb as [_ Hb]. specialize (Ha 0%nat x eq_refl). specialize (Hb 0%nat y eq_refl). cbn [ca cb ptr] in Ha, Hb.
    rewrite Ha in Hb. injection Hb as <-. reflexivity. }
  assert (Ag : forall n w', N.of_nat n <= 12 -> agree ca cb w' n) by (intros n w' H; apply agree_ptr; [reflexivity|cbn [ca len]; lia|cbn [cb len]; lia]).
  apply (from_rel t t ca cb bsa bsb); try assumption; [auto| |].
  { intros w2 H1 H2. rewrite H10. apply Ag. cbn. lia. }
  destruct (opcode_same w ca cb bsa bsb Ha Hb Na Nb Ho) as [O1 O2].
  apply rel_Begin_gen; try assumption; [cbn [ca cb len]; lia|congruence|].
  intros opc Eo I2. rewrite O1 in Eo. injection Eo as <-. rewrite H10.
  change (Begin_switch 0x5a) with (fun c (_ : span) => Begin_ModeSense10 c). cbv beta.
  apply rel_Begin_MS10_at; [exact I2|intros w'; apply (Ag 12%nat w'); cbn; lia ..].
Qed.
Print Assumptions C51_mode10_partial.

(** ** C23: the namespace of every LUN, exactly *)
Theorem C23_nsid_exact : forall t cdb buffer lun w bs t' r w',
  idle t -> span_holds w cdb bs -> data_opcode (byte_at bs 0) -> bs <> [] ->
  Begin t cdb buffer lun w = Ret (t', r) w' -> accepted t' ->
  exists q n, exposes t' = [io n q] /\ q_nsid q = (lun + 1) mod 2 ^ 32.
Proof.
  intros t cdb buffer lun w bs t' r w' Hi Hc Ho Hb E Ha.
  destruct Ho as [[f [Ho|Ho]]|Ho].
  - destruct (C15_read_accepted_iff f t cdb buffer lun w bs Hi Hc Ho) as (t2 & r2 & w2 & E2 & _ & I & _).
    rewrite E in E2. apply ret_eq in E2 as [E2 _]. apply pair_eq in E2 as [<- _]. apply I in Ha.
    assert (exists pr, read_prinfo f bs = Some pr) as [pr Hp].
    { destruct Ha as (_ & _ & Hp & _). destruct (read_prinfo f bs); [eauto|contradiction]. }
    destruct (Begin_read_ok f t cdb buffer lun w bs pr Hi Hc Ho Ha Hp) as (t2 & E2 & _ & X & _).
    rewrite E in E2. apply ret_eq in E2 as [E2 _]. apply pair_eq in E2 as [<- _]. do 2 eexists. split; [exact X|reflexivity].
  - destruct (C17_write_accepted_iff f t cdb buffer lun w bs Hi Hc Ho) as (t2 & r2 & w2 & E2 & _ & I & _).
    rewrite E in E2. apply ret_eq in E2 as [E2 _]. apply pair_eq in E2 as [<- _]. apply I in Ha.
    assert (exists pr, write_prinfo f bs = Some pr) as [pr Hp].
    { destruct Ha as (_ & _ & Hp). destruct (write_prinfo f bs); [eauto|contradiction]. }
    destruct (Begin_write_ok f t cdb buffer lun w bs pr Hi Hc Ho Ha Hp) as (t2 & E2 & _ & X & _).
    rewrite E in E2. apply ret_eq in E2 as [E2 _]. apply pair_eq in E2 as [<- _]. do 2 eexists. split; [exact X|reflexivity].
  - destruct (Begin_sync_ok t cdb buffer lun w bs Hi Hc Ho) as (t2 & E2 & _ & X & _).
    rewrite E in E2. apply ret_eq in E2 as [E2 _]. apply pair_eq in E2 as [<- _]. do 2 eexists. split; [exact X|reflexivity].
Qed.
Print Assumptions C23_nsid_exact.

(** two LUNs address the same namespace exactly when they agree in their low 32 bits *)
Theorem C23_same_namespace_iff : forall t cdb buffer lun lun' w bs t1 r1 w1 t2 r2 w2 x y,
  idle t -> span_holds w cdb bs -> data_opcode (byte_at bs 0) -> bs <> [] ->
  Begin t cdb buffer lun w = Ret (t1, r1) w1 -> Begin t cdb buffer lun' w = Ret (t2, r2) w2 -> accepted t1 -> accepted t2 ->
  exposes t1 = [x] -> exposes t2 = [y] ->
  (le (slice 4 4 (x_bytes x)) = le (slice 4 4 (x_bytes y)) <-> lun mod 2 ^ 32 = lun' mod 2 ^ 32).
Proof.
  intros t cdb buffer lun lun' w bs t1 r1 w1 t2 r2 w2 x y Hi Hc Ho Hb E1 E2 A1 A2 X Y.
  destruct (C23_nsid_exact _ _ _ _ _ _ _ _ _ Hi Hc Ho Hb E1 A1) as (q & n & X' & Q).
  destruct (C23_nsid_exact _ _ _ _ _ _ _ _ _ Hi Hc Ho Hb E2 A2) as (q' & n' & Y' & Q').
  rewrite X in X'. rewrite Y in Y'. assert (x = io n q) as -> by congruence. assert (y = io n' q') as -> by congruence.
  assert (S : forall z, le (slice 4 4 (sqe_bytes z)) = q_nsid z mod 2 ^ 32).
  { intros z. replace (slice 4 4 (sqe_bytes z)) with (le_encode 4 (q_nsid z)) by reflexivity. apply le_le_encode. }
  cbn [io x_bytes]. rewrite !S, Q, Q', !N.mod_mod by discriminate.
  assert (M : forall a, (a + 1) mod 2 ^ 32 = (a mod 2 ^ 32 + 1) mod 2 ^ 32) by (intros a; rewrite N.add_mod_idemp_l by discriminate; reflexivity).
  rewrite (M lun), (M lun'). pose proof (N.mod_lt lun (2 ^ 32) ltac:(discriminate)) as L. pose proof (N.mod_lt lun' (2 ^ 32) ltac:(discriminate)) as L'.
  set (a := lun mod 2 ^ 32) in *. set (b := lun' mod 2 ^ 32) in *. clearbody a b.
  assert (W : forall z, z < 2 ^ 32 -> (z + 1) mod 2 ^ 32 = if z =? 2 ^ 32 - 1 then 0 else z + 1).
  { intros z Hz. destruct (N.eqb_spec z (2 ^ 32 - 1)) as [-> |Hn]; [reflexivity|]. apply N.mod_small. change (2 ^ 32) with 4294967296 in *. lia. }
  rewrite (W a L), (W b L'). change (2 ^ 32) with 4294967296 in *. destruct (N.eqb_spec a (4294967296 - 1)), (N.eqb_spec b (4294967296 - 1)); lia.
Qed.
Print Assumptions C23_same_namespace_iff.

(** ** C60: exactly which WRITEs overrun their buffer, for any length and any
    number of blocks *)
Theorem C60_write_exact : forall f drv wrs kz wild c w bs r w',
  bytes_at w (sc_cmnd c) bs -> N.of_nat (length bs) = sc_cmd_len c -> sc_cmd_len c < 65536 -> byte_at bs 0 = write_opcode f ->
  kz <> 0 -> unused w kz (sc_bufflen c mod 65536) ->
  scsi_queuecommand drv wrs kz wild c w = Ret r w' ->
  mr_subs r = [] /\ ~ ((rw_len f <= length bs)%nat /\ 1 <= rw_blocks f bs /\ write_prinfo f bs <> None) \/
  exists s sq, mr_subs r = [s] /\ sub_view s = (false, sqe_bytes sq, sub_buffer s, sub_bufflen s) /\ q_opc sq = 0x01 /\
    nvme_blocks sq = (rw_blocks f bs - 1) mod 65536 + 1 /\
    sub_bufflen s = sc_bufflen c mod 65536 /\
    sub_buffer s = (if sc_bufflen c mod 65536 =? 0 then wild else kz) mod 2 ^ 64.
Proof.
  intros f drv wrs kz wild c w bs r w' Hc Hl Hs Ho Hk Hun E.
  destruct (mock_inv drv wrs kz wild c w r w' E (or_intror Hk)) as (w2 & resp & t & subs & w3 & w4 & P & _ & E1 & _ & -> & _).
  set (q := mock_request kz wild c) in *.
  pose proof (mock_cdb kz wild c w w2 bs P Hun Hc Hl Hs) as Hc2. fold q in Hc2.
  pose proof (N.mod_lt (sc_bufflen c) 65536 ltac:(discriminate)) as Hlt.
  destruct (write_ok_dec f bs) as [Hr|Hr].
  2:{ left. split; [|exact Hr].
      destruct (engine_refused _ _ _ _ _ _ _ _ E1) as [X _]; [|exact X]. intros t1 r1 w1 B.
      destruct (C17_write_accepted_iff f (Translation_init wrs) (rq_cdb q) (rq_data q) (rq_lun q) w2 bs (idle_init wrs) Hc2 Ho) as (t1' & r1' & w1' & B' & _ & A & R).
      unfold begins in B. rewrite B in B'. apply ret_eq in B' as [B' _]. apply pair_eq in B' as [<- _]. apply R. exact Hr. }
  right. assert (exists pr, write_prinfo f bs = Some pr) as [pr Hp].
  { destruct Hr as (_ & _ & Hp). destruct (write_prinfo f bs); [eauto|contradiction]. }
  destruct (Begin_write_ok f (Translation_init wrs) (rq_cdb q) (rq_data q) (rq_lun q) w2 bs pr (idle_init wrs) Hc2 Ho Hr Hp) as (t1 & B & _ & X & _).
  destruct (engine_cases _ _ _ _ _ _ _ _ E1) as (t1' & r1' & w1' & B' & _ & C). unfold begins in B'. rewrite B in B'.
  apply ret_eq in B' as [B' _]. apply pair_eq in B' as [<- <-].
  destruct C as [(L & _)|(_ & -> & _)]; [cbn [br_alloc_len begin_ok] in L; lia|].
  destruct (one_wrapper _ _ X) as (x & -> & Vx). exists (sub_of x).
  match type of Vx with view x = io _ ?s => set (sq := s) in Vx end. exists sq.
  assert (Sv : sub_view (sub_of x) = (false, sqe_bytes sq, q_prp1 sq mod 2 ^ 64, sc_bufflen c mod 65536)).
  { rewrite sub_of_view, Vx. unfold sub_expected, io. cbn [x_admin x_bytes x_buffer_len]. rewrite sqe_prp1.
    change (len (rq_data q)) with (sc_bufflen c mod 65536). rewrite u32_small; [reflexivity|]. change (2 ^ 32) with 4294967296. lia. }
  assert (S1 : sub_buffer (sub_of x) = q_prp1 sq mod 2 ^ 64) by (change (snd (fst (sub_view (sub_of x))) = q_prp1 sq mod 2 ^ 64); rewrite Sv; reflexivity).
  assert (S2 : sub_bufflen (sub_of x) = sc_bufflen c mod 65536) by (change (snd (sub_view (sub_of x)) = sc_bufflen c mod 65536); rewrite Sv; reflexivity).
  split; [reflexivity|]. split; [rewrite Sv, S1, S2; reflexivity|]. split; [reflexivity|]. split.
  - unfold nvme_blocks, sq. cbn [q_cdw12]. change 65536 with (2 ^ 16). f_equal. destruct Hr as (_ & Hn & _).
    destruct f; cbn [write_d12]; [reflexivity|apply write_dw12_nlb; exact Hn..].
  - split; [exact S2|]. rewrite S1. f_equal. unfold sq. cbn [q_prp1]. unfold q, mock_request. cbn [rq_data ptr]. cbv zeta.
    destruct (N.eqb_spec (sc_bufflen c mod 65536) 0) as [Z|Z]; [rewrite Z; reflexivity|]. replace (0 <? sc_bufflen c mod 65536) with true by lia. reflexivity.
Qed.
Print Assumptions C60_write_exact.
(** so the device reads past the buffer exactly when the blocks do not fit in
    the buffer's length modulo 65536 *)
Corollary C60_overrun_iff : forall f drv wrs kz wild c w bs r w' s,
  bytes_at w (sc_cmnd c) bs -> N.of_nat (length bs) = sc_cmd_len c -> sc_cmd_len c < 65536 -> byte_at bs 0 = write_opcode f ->
  kz <> 0 -> unused w kz (sc_bufflen c mod 65536) ->
  scsi_queuecommand drv wrs kz wild c w = Ret r w' -> In s (mr_subs r) ->
  exists sq, sub_view s = (false, sqe_bytes sq, sub_buffer s, sub_bufflen s) /\ q_opc sq = 0x01 /\ (sub_bufflen s < nvme_blocks sq * 4096 <-> sc_bufflen c mod 65536 < ((rw_blocks f bs - 1) mod 65536 + 1) * 4096).
Proof.
  intros f drv wrs kz wild c w bs r w' s H1 H2 H3 H4 H5 H6 E Hin.
  destruct (C60_write_exact f drv wrs kz wild c w bs r w' H1 H2 H3 H4 H5 H6 E) as [[X _]|(s' & sq & X & V & O & Nb & Bl & _)]; rewrite X in Hin; [destruct Hin|].
  destruct Hin as [<-|[]]. exists sq. split; [exact V|]. split; [exact O|]. rewrite Nb, Bl. reflexivity.
Qed.
Print Assumptions C60_overrun_iff.

