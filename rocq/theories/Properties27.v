(** C92: the complete kernel module as a disk. *)
From Coq Require Import Arith NArith ZArith String List Lia Bool Init.Byte Permutation.
From Coq Require Import ZifyBool ZifyNat ZifyN.
From Verif Require Import Bytes Layout World ScsiDefs NvmeDefs Common ModeSenseCmd StatusCmd TranslationCls EngineE2e MockModule KernelDriver
  Spec RwSpec EngineSpec MockSpec KernelSpec Facts Logic BeginFacts CompleteFacts StatusFacts RelFacts RwFacts EngineFacts MockFacts Witness
  Properties1 Properties2 Properties6 Properties9 Properties11 Properties12 Properties13 DiskSpec DiskFacts Properties16 MixedSpec Properties20 ModuleSpec.
Import ListNotations.
Local Open Scope string_scope.
Local Open Scope list_scope.
Local Open Scope N_scope.

(** ** the driver *)
Lemma kernel_runs kn k s m : kn_ns kn = true -> sub_admin s = false -> has_buffer s ->
  kernel_driver kn k s m =
    (if negb (kn_io_q kn =? 0) && negb (kn_disk kn =? 0) && (match kn_alloc kn k with inl _ => true | inr _ => false end) && Z.eqb (kn_map kn k) 0
     then fst (kn_exec kn k s m) else m, 0).
Proof.
  intros Hns Ha Hb. unfold kernel_driver, submit_command. rewrite Hns, Ha.
  destruct (submit_cases kn k (kn_disk kn) (kn_io_q kn) s m) as
    [(Q & ->)|[(Q & e & A & ->)|(Q & rq & A & [(B & M & ->)|[(B & M & D & ->)|[(B & M & D & ->)|(B & ->)]]])]]; try rewrite A.
  - rewrite Q. reflexivity.
  - rewrite !andb_false_r. reflexivity.
  - replace (kn_map kn k =? 0)%Z with false by lia. rewrite andb_false_r. reflexivity.
  - rewrite D. rewrite andb_false_r. reflexivity.
  - rewrite M. replace (kn_io_q kn =? 0) with false by lia. replace (kn_disk kn =? 0) with false by lia. reflexivity.
  - contradiction.
Qed.
Definition accepts_b (kn : kernel) : bool :=
  negb (kn_io_q kn =? 0) && negb (kn_disk kn =? 0) && (match kn_alloc kn 0%nat with inl _ => true | inr _ => false end) && Z.eqb (kn_map kn 0%nat) 0.
Lemma accepts_spec kn : accepts_b kn = true <-> accepting kn.
Proof.
  unfold accepts_b, accepting. destruct (kn_alloc kn 0%nat) as [rq|e]; split.
  - intros H. split; [lia|]. split; [lia|]. split; [eauto|lia].
  - intros (H1 & H2 & _ & H3). lia.
  - rewrite andb_false_r. discriminate.
  - intros (_ & _ & (rq & H) & _). discriminate H.
Qed.
Definition within_b (cap : N -> N) (x : disk_io) : bool := io_first x + io_blocks x <=? cap (io_unit x).
Lemma within_spec cap x : within_b cap x = true <-> within cap x.
Proof. unfold within_b, within. destruct x; cbn [io_first io_blocks io_unit]; lia. Qed.

Lemma io_submission_runs kn x p s m : kn_ns kn = true -> 0 < p < 2 ^ 64 -> io_submission x p s ->
  kernel_driver kn 0%nat s m = (if accepts_b kn then fst (kn_exec kn 0%nat s m) else m, 0).
Proof.
  intros Hns Hp (fua & pr & l & Hl & V). unfold sub_view in V.
  apply pair_eq in V as [V Vl]. apply pair_eq in V as [V Vb]. apply pair_eq in V as [Va _].
  apply kernel_runs; [exact Hns|exact Va|]. split; [|congruence]. rewrite Vb, N.mod_small by lia. lia.
Qed.
Lemma backed_like cap kn : backed cap kn -> disk_like cap (kn_exec kn).
Proof. intros (_ & H) k s m Ha Ho. destruct (H k s m) as (ident & cpl & ->). apply device_disk_like; assumption. Qed.
Lemma kernel_tame cap kn : backed cap kn -> tame cap (kernel_driver kn).
Proof.
  intros (_ & H) s Hs k m x Hx. unfold kernel_driver, submit_command. destruct (kn_ns kn); [|reflexivity].
  assert (X : fst (kn_exec kn k s m) x = m x) by (destruct (H k s m) as (ident & cpl & ->); apply Hs; exact Hx).
  destruct (submit_cases kn k (kn_disk kn) (if sub_admin s then kn_admin_q kn else kn_io_q kn) s m) as
    [(Q & ->)|[(Q & e & A & ->)|(Q & rq & A & [(B & M & ->)|[(B & M & D & ->)|[(B & M & D & ->)|(B & ->)]]])]]; try reflexivity; exact X.
Qed.
Lemma kernel_serves cap kn x p : backed cap kn -> 0 < p < 2 ^ 64 -> io_first x < 2 ^ 64 -> 1 <= io_blocks x <= 65536 -> io_unit x < 2 ^ 32 - 1 ->
  accepts_b kn = true -> within (fun lun => cap (lun + 1)) x -> serves cap (kernel_driver kn) x p.
Proof.
  intros Hbk Hp Hf Hn Hu Ha Hw s m S. pose proof (backed_like _ _ Hbk) as Hex. destruct Hbk as [Hns _]. rewrite (io_submission_runs kn x p s m Hns Hp S), Ha.
  destruct S as (fua & pr & l & _ & V).
  rewrite (nvme_disk_eq cap 0%nat s m (io_opcode x) (io_unit x) p (io_first x) (io_blocks x) fua pr _ _ V); [|destruct x; auto|exact Hf|exact Hn].
  rewrite (disk_like_eq cap _ 0%nat s m (io_opcode x) (io_unit x) p (io_first x) (io_blocks x) fua pr _ _ Hex V); [|destruct x; auto|exact Hf|exact Hn].
  rewrite lun_nsid by exact Hu. apply within_spec in Hw. unfold within_b in Hw.
  replace (cap (io_unit x + 1) <? io_first x + io_blocks x) with false by lia. destruct (_ =? 2); reflexivity.
Qed.
Lemma kernel_loses cap kn x p s m : backed cap kn -> 0 < p < 2 ^ 64 -> io_first x < 2 ^ 64 -> 1 <= io_blocks x <= 65536 -> io_unit x < 2 ^ 32 - 1 ->
  ~ (accepting kn /\ within (fun lun => cap (lun + 1)) x) -> io_submission x p s -> kernel_driver kn 0%nat s m = (m, 0).
Proof.
  intros Hbk Hp Hf Hn Hu Hno S. pose proof (backed_like _ _ Hbk) as Hex. destruct Hbk as [Hns _]. rewrite (io_submission_runs kn x p s m Hns Hp S).
  destruct (accepts_b kn) eqn:Ha; [|reflexivity].
  destruct S as (fua & pr & l & _ & V).
  rewrite (disk_like_eq cap _ 0%nat s m (io_opcode x) (io_unit x) p (io_first x) (io_blocks x) fua pr _ _ Hex V); [|destruct x; auto|exact Hf|exact Hn].
  rewrite lun_nsid by exact Hu.
  destruct (within_b (fun lun => cap (lun + 1)) x) eqn:Hw.
  - exfalso. apply Hno. split; [apply accepts_spec; exact Ha|apply within_spec; exact Hw].
  - unfold within_b in Hw. replace (cap (io_unit x + 1) <? io_first x + io_blocks x) with true by lia. reflexivity.
Qed.

(** ** a command the driver does nothing about *)
Lemma adapter_lost drv wrs kz wild c w x d : (forall s m, io_submission x kz s -> drv 0%nat s m = (m, 0)) -> stores w d -> scsi_presents w kz c x ->
  exists r w', scsi_queuecommand drv wrs kz wild c w = Ret r w' /\
    scsi_observes w' c r x (pretence x) /\ stores w' d /\
    trace w' = trace w ++ [EvAlloc 1 (sc_bufflen c) kz; EvDealloc kz (sc_bufflen c)].
Proof.
  intros Hno Hs ((bs & Hc & Hcl & Hcs & Hcb & (f & Hf & Hn & Hu & Ha)) & (Hsm & Hsb) & Hsg & Hkz & Hun & Hkl & Hx).
  destruct x as [u b k|u b data].
  - destruct Ha as (-> & Ho & Hp & -> & ->). destruct Hx as (Hdi & Hbl & Hsv & Htot).
    destruct (read_prinfo f bs) as [pr|] eqn:P; [|contradiction].
    set (q := mock_request kz wild c). set (w1 := with_buffer w kz (sc_bufflen c)).
    destruct (adapter_request kz wild c w bs Hc Hcl Hcs) as (Hc1 & Hqd & Hm); [lia|exact Hun|]. fold q in Hc1, Hqd, Hm. fold w1 in Hc1, Hm.
    assert (Hne : bs <> []) by (intros ->; destruct f; discriminate Ho).
    assert (Hr : read_ok f bs (rq_data q)).
    { split; [exact Hf|]. split; [lia|]. split; [rewrite P; discriminate|]. rewrite Hqd. cbn [len]. lia. }
    destruct (Begin_read_ok f (Translation_init wrs) (rq_cdb q) (rq_data q) (sc_lun c) w1 bs pr (idle_init wrs) Hc1 Ho Hr P) as (t1 & E1 & Ha & X & Hh).
    destruct (engine_one drv wrs q w1 t1 (rw_blocks f bs * 4096) _ _ bs E1 Ha X Hh) as (s & Vs & Es).
    { rewrite Hqd. cbn [len]. lia. }
    { exact Hc1. }
    { exact Hne. }
    { rewrite Ho. destruct f; cbn; tauto. }
    cbv zeta in Es. rewrite (Hno s) in Es.
    2:{ exists (rw_fua f bs), pr, (rw_blocks f bs * 4096). split; [lia|]. rewrite Hqd in Vs. cbn [ptr] in Vs. exact Vs. }
    cbn [fst snd] in Es. destruct Es as (t2 & w2 & E2 & M2 & T2).
    { split; reflexivity. }
    { rewrite set_mem_same. exact Hc1. }
    set (z := repeat x00 (N.to_nat (rw_blocks f bs * 4096))).
    assert (Lz : N.of_nat (length z) = sc_bufflen c) by (unfold z; rewrite repeat_length; lia).
    assert (Hv2 : sg_valid w2 (sc_sgl c)).
    { destruct Hsv as [Hd Hmm]. split; [exact Hd|]. intros y Hy. rewrite M2. unfold w1. rewrite with_buffer_old; [apply Hmm; exact Hy|exact Hun|apply Hmm; exact Hy]. }
    assert (Hb : bytes_at w2 kz z).
    { intros i y Hi. rewrite M2. unfold w1. assert (i < length z)%nat by (apply nth_error_Some; congruence).
      apply nth_error_In, repeat_spec in Hi. subst y. apply with_buffer_in. lia. }
    assert (Hld : (length z <= length (sg_addrs (sc_sgl c)))%nat).
    { pose proof (sg_total_length (sc_sgl c)). lia. }
    destruct (sg_scatter_ok (sc_sgl c) z w2 Hv2 Hld) as (m' & Es' & Hh' & Hm').
    exists {| mr_result := GOOD; mr_resid := Some 0; mr_subs := [s] |}, (log (set_mem w2 m') (EvDealloc kz (sc_bufflen c))).
    split; [|split; [|split]].
    + rewrite mock_eq. cbv zeta. fold q. rewrite Hqd. cbn [len]. replace (0 <? sc_bufflen c) with true by lia. replace (kz =? 0) with false by lia.
      change (rq_data_in q) with (sc_from_device c). rewrite Hdi. cbn [andb negb]. unfold bind at 1. unfold ret at 1.
      change (set_mem (log w (EvAlloc 1 (sc_bufflen c) kz)) (map_pages (mem w) kz (sc_bufflen c) (fun _ : N => x00))) with w1.
      unfold bind at 1. rewrite E2. unfold bind at 1. unfold sg_copy_from_buffer. unfold bind at 1. unfold bind at 1. cbn [er_alloc_len].
      rewrite (load_ok w2 kz _ z).
      * rewrite Es'. unfold ret at 1. unfold bind, kfree, ret. cbn [er_return_code].
        replace (sc_bufflen c - N.of_nat (length z)) with 0 by lia. reflexivity.
      * exact Hb.
      * lia.
    + cbn [scsi_observes pretence mr_result mr_resid]. split; [reflexivity|]. split; [reflexivity|]. split; [rewrite repeat_length; lia|].
      fold z. destruct Hh' as [H1 H2]. split; [exact H1|exact H2].
    + apply (stores_same w); [exact Hs|]. intros y Hy. cbn [mem log set_mem]. rewrite Hm'.
      * rewrite M2. apply with_buffer_out. lia.
      * intros Hz. apply In_firstn_In in Hz. apply Hsg in Hz as [Hz _]. lia.
    + cbn [trace log set_mem]. rewrite T2. unfold w1, with_buffer. cbn [trace log set_mem]. rewrite <- app_assoc. reflexivity.
  - destruct Ha as (-> & Ho & Hp & -> & Hl). destruct Hx as (Hdi & Hbl & Hh).
    destruct (write_prinfo f bs) as [pr|] eqn:P; [|contradiction].
    destruct (C57_write_end_to_end f drv wrs kz wild c w bs pr data Hc Hcl Hcs Ho Hf Hn P Hdi) as (s & m & Vs & _ & Hm & R);
      [lia|exact Hh|lia|exact Hkz|exact Hun|exact Hkl|].
    cbv zeta in R. rewrite (Hno s) in R.
    2:{ exists (rw_fua f bs), pr, (sc_bufflen c). split; [lia|]. rewrite (N.mod_small kz) by lia. cbn [io_opcode io_unit io_first io_blocks].
        unfold blocks_of. rewrite Hl, N.div_mul by discriminate. exact Vs. }
    cbn [fst snd] in R. destruct R as (w' & E & M & T); [split; reflexivity|reflexivity|].
    exists {| mr_result := GOOD; mr_resid := None; mr_subs := [s] |}, w'. split; [exact E|]. split; [reflexivity|]. split; [|exact T].
    apply (stores_same w); [exact Hs|]. intros y Hy. rewrite M. apply Hm. lia.
Qed.

(** ** C92 *)

Lemma presents_bounds w kz c x : scsi_presents w kz c x ->
  0 < kz < 2 ^ 64 /\ io_first x < 2 ^ 64 /\ 1 <= io_blocks x <= 65536 /\ io_unit x < 2 ^ 32 - 1.
Proof.
  intros ((bs & _ & _ & _ & _ & (f & Hf & Hn & Hu & Hx)) & _ & _ & Hkz & _ & Hkl & Hy).
  destruct x as [u b n|u b data]; cbn [io_blocks io_first io_unit]; destruct Hx as (-> & _ & _ & -> & Hl).
  - split; [lia|]. split; [apply rw_lba_lt|]. split; lia.
  - unfold blocks_of. rewrite Hl, N.div_mul by discriminate. split; [lia|]. split; [apply rw_lba_lt|]. split; lia.
Qed.

(** Whatever state the block layer is in, the module carries the command out as
    a disk would, or it does nothing and answers GOOD: then a READ delivers
    zeros and a WRITE is gone.  It does so exactly when the block layer does not
    take the command or the command reaches beyond the unit. *)
Theorem C92_module_step : forall cap kn wrs kz wild c w x d,
  cap_ok cap -> backed cap kn -> stores w d -> scsi_presents w kz c x ->
  exists r w' a d', scsi_queuecommand (kernel_driver kn) wrs kz wild c w = Ret r w' /\
    scsi_observes w' c r x a /\ stores w' d' /\ module_does (fun lun => cap (lun + 1)) kn d x d' a /\
    trace w' = trace w ++ [EvAlloc 1 (sc_bufflen c) kz; EvDealloc kz (sc_bufflen c)].
Proof.
  intros cap kn wrs kz wild c w x d Hcap Hb Hs P. destruct (presents_bounds _ _ _ _ P) as (B1 & B2 & B3 & B4).
  destruct (accepts_b kn && within_b (fun lun => cap (lun + 1)) x) eqn:A.
  - apply andb_true_iff in A as [A W]. apply within_spec in W.
    pose proof (adapter_step_for cap (kernel_driver kn) wrs kz wild c w x d (kernel_serves cap kn x kz Hb B1 B2 B3 B4 A W) Hcap Hs P) as Z.
    assert (D : module_does (fun lun => cap (lun + 1)) kn d x (fst (disk_step (fun lun => cap (lun + 1)) d x)) (snd (disk_step (fun lun => cap (lun + 1)) d x))).
    { apply carried_out; [apply accepts_spec; exact A|exact W]. }
    destruct (disk_step (fun lun => cap (lun + 1)) d x) as [d' a]. destruct Z as (r & w' & E & O & S & T).
    exists r, w', a, d'. auto.
  - assert (L : ~ (accepting kn /\ within (fun lun => cap (lun + 1)) x)).
    { intros [X Y]. apply accepts_spec in X. apply within_spec in Y. rewrite X, Y in A. discriminate A. }
    destruct (adapter_lost (kernel_driver kn) wrs kz wild c w x d) as (r & w' & E & O & S & T); [|exact Hs|exact P|].
    { intros s m. exact (kernel_loses cap kn x kz s m Hb B1 B2 B3 B4 L). }
    exists r, w', (pretence x), d. split; [exact E|]. split; [exact O|]. split; [exact S|]. split; [apply lost; exact L|exact T].
Qed.
Print Assumptions C92_module_step.

Theorem C92_module_exact : forall cap w0 l w d, cap_ok cap -> stores w0 d -> module_history cap w0 l w ->
  exists d', module_explains (fun lun => cap (lun + 1)) d l d' /\ stores w d'.
Proof.
  intros cap w0 l w d Hcap Hs H. induction H as [|l w w' H IH Hm|l w kn wrs kz wild c x a r w' H IH Hb P E O|l w kn wrs kz wild c r w' H IH Hb P E].
  - exists d. split; [apply me_nil|exact Hs].
  - destruct IH as (d' & X & S). exists d'. split; [exact X|]. exact (stores_same _ _ _ S Hm).
  - destruct IH as (d1 & X & S).
    destruct (C92_module_step cap kn wrs kz wild c w x d1 Hcap Hb S P) as (r' & w2 & a' & d' & E' & O' & S' & D & _).
    rewrite E in E'. apply ret_eq in E' as [<- <-]. rewrite (scsi_observes_unique _ _ _ _ _ _ O O').
    exists d'. split; [|exact S']. eapply me_snoc; eassumption.
  - destruct IH as (d' & X & S). exists d'. split; [exact X|]. apply (stores_same _ _ _ S).
    exact (adapter_other cap _ _ _ _ _ _ _ _ (kernel_tame cap kn Hb) P E).
Qed.
Print Assumptions C92_module_exact.

(** As long as the block layer takes every command and none reaches beyond its
    unit, the logical units are a disk.  Missing for the full claim: that the
    initiator is told when this is not so. *)
Lemma module_explains_well cap d l d' : module_explains (fun lun => cap (lun + 1)) d l d' -> all_well cap l ->
  explains (fun lun => cap (lun + 1)) d (exchanged l) d'.
Proof.
  intros H. induction H as [|l d1 kn x a d2 H IH D]; intros A; [apply explains_nil|].
  unfold exchanged. rewrite map_app. cbn [map fst snd].
  assert (IH' : explains (fun lun => cap (lun + 1)) d (exchanged l) d1).
  { apply IH. intros kn' x' a' Hin. apply (A kn' x' a'). apply in_or_app. left. exact Hin. }
  destruct (A kn x a) as [A1 A2]; [apply in_or_app; right; left; reflexivity|].
  destruct D as [_ _|N]; [|exfalso; apply N; split; assumption].
  apply explains_snoc. exact IH'.
Qed.
Theorem C92_module_refines_partial : forall cap w0 l w d, cap_ok cap -> stores w0 d -> module_history cap w0 l w -> all_well cap l ->
  exists d', explains (fun lun => cap (lun + 1)) d (exchanged l) d' /\ stores w d'.
Proof.
  intros cap w0 l w d Hcap Hs H A. destruct (C92_module_exact cap w0 l w d Hcap Hs H) as (d' & X & S).
  exists d'. split; [apply module_explains_well; assumption|exact S].
Qed.
Print Assumptions C92_module_refines_partial.

(** the commands that are carried out, and only they, make up the history of a
    disk *)
Definition carried_b (cap : N -> N) (e : kernel * disk_io * answer) : bool :=
  accepts_b (fst (fst e)) && within_b cap (snd (fst e)).
Lemma module_explains_carried cap d l d' : module_explains cap d l d' -> explains cap d (exchanged (filter (carried_b cap) l)) d'.
Proof.
  intros H. induction H as [|l d1 kn x a d2 H IH D]; [apply explains_nil|].
  rewrite filter_app. cbn [filter]. unfold carried_b at 2. cbn [fst snd]. destruct D as [A W|N].
  - apply accepts_spec in A. apply within_spec in W. rewrite A, W. cbn [andb]. unfold exchanged. rewrite map_app. apply explains_snoc. exact IH.
  - destruct (accepts_b kn) eqn:A; destruct (within_b cap x) eqn:W; cbn [andb]; rewrite ?app_nil_r; try exact IH.
    exfalso. apply N. split; [apply accepts_spec; exact A|apply within_spec; exact W].
Qed.
Theorem C92_read_your_writes_partial : forall cap w0 w l1 l2 knw knr lun lba data a lba' n bs b o,
  let cap' := fun lun => cap (lun + 1) in
  cap_ok cap -> (exists d, stores w0 d) ->
  module_history cap w0 (l1 ++ (knw, IoWrite lun lba data, a) :: l2 ++ [(knr, IoRead lun lba' n, AnsData bs)]) w ->
  (* the WRITE and the READ were taken by the block layer and fit into the unit *)
  accepting knw -> within cap' (IoWrite lun lba data) -> accepting knr -> within cap' (IoRead lun lba' n) ->
  lba <= b < lba + blocks_of data -> lba' <= b < lba' + n -> o < 4096 ->
  (* no other WRITE of the block was carried out in between *)
  (forall kn x a, In (kn, x, a) l2 -> accepting kn -> within cap' x -> ~ writes_block lun b (x, a)) ->
  a = AnsDone /\ block_byte lba' b o bs = block_byte lba b o data /\ block_byte lba b o data <> None.
Proof.
  intros cap w0 w l1 l2 knw knr lun lba data a lba' n bs b o cap' Hcap [d Hs] H Aw Ww Ar Wr Hb Hb' Ho Hno.
  destruct (C92_module_exact cap w0 _ w d Hcap Hs H) as (d' & X & _). fold cap' in X.
  apply module_explains_carried in X. rewrite filter_app in X. cbn [filter] in X. rewrite filter_app in X. cbn [filter] in X.
  unfold carried_b at 2 in X. cbn [fst snd] in X. unfold carried_b at 3 in X. cbn [fst snd] in X.
  apply accepts_spec in Aw, Ar. apply within_spec in Ww, Wr. rewrite Aw, Ar, Ww, Wr in X. cbn [andb] in X.
  unfold exchanged in X. rewrite map_app in X. cbn [map fst snd] in X. rewrite map_app in X. cbn [map fst snd] in X.
  assert (Ha : a = AnsDone).
  { set (pre := map _ (filter _ l1)) in X. set (post := _ ++ [_]) in X. change ((IoWrite lun lba data, a) :: post) with ([(IoWrite lun lba data, a)] ++ post) in X.
    rewrite app_assoc in X. destruct (explains_app _ _ _ _ _ X) as (d1 & X1 & _).
    destruct (explains_app _ _ _ _ _ X1) as (d0 & _ & X2). destruct (explains_one _ _ _ _ X2) as [E _]. cbn [fst] in E. apply pair_eq in E as [_ ->].
    unfold disk_step. unfold within_b in Ww. cbn [io_first io_blocks io_unit] in Ww. rewrite Ww. reflexivity. }
  split; [exact Ha|]. subst a. split.
  - refine (explains_read_back _ _ _ _ _ _ _ _ _ _ _ _ _ _ X eq_refl _ Hb Hb' Ho).
    intros p Hp. apply in_map_iff in Hp as ([[kn x] a] & <- & Hp). apply filter_In in Hp as [Hp C]. unfold carried_b in C. cbn [fst snd] in C |- *.
    apply andb_true_iff in C as [C1 C2]. apply (Hno kn x a Hp); [apply accepts_spec; exact C1|apply within_spec; exact C2].
  - unfold block_byte. apply nth_error_Some. unfold blocks_of in *. pose proof (N.mul_div_le (N.of_nat (length data)) 4096). lia.
Qed.
Print Assumptions C92_read_your_writes_partial.

(** a READ beyond the end of the unit is answered GOOD with zeros and a WRITE
    there is acknowledged, where a disk reports LBA OUT OF RANGE *)
Theorem C92_beyond_capacity_refuted : forall cap kn wrs kz wild c w x d,
  cap_ok cap -> backed cap kn -> stores w d -> scsi_presents w kz c x ->
  ~ within (fun lun => cap (lun + 1)) x ->
  snd (disk_step (fun lun => cap (lun + 1)) d x) = AnsOutOfRange /\
  exists r w', scsi_queuecommand (kernel_driver kn) wrs kz wild c w = Ret r w' /\
    mr_result r = GOOD /\ scsi_observes w' c r x (pretence x) /\ stores w' d.
Proof.
  intros cap kn wrs kz wild c w x d Hcap Hb Hs P Hno. split.
  - unfold disk_step. unfold within in Hno. destruct x as [u b n|u b data].
    + replace (b + n <=? cap (u + 1)) with false by lia. reflexivity.
    + replace (b + blocks_of data <=? cap (u + 1)) with false by lia. reflexivity.
  - destruct (C92_module_step cap kn wrs kz wild c w x d Hcap Hb Hs P) as (r & w' & a & d' & E & O & S & D & _).
    destruct D as [_ W|_]; [contradiction|]. exists r, w'. split; [exact E|]. split; [|split; [exact O|exact S]].
    destruct x; apply O.
Qed.
Print Assumptions C92_beyond_capacity_refuted.

(** *** premises met: a healthy block layer over 100-block namespaces; a WRITE of
    block 7 of unit 2, an INQUIRY, then a READ of blocks 6 and 7; over 5-block namespaces the
    same WRITE is lost *)
Definition ex_healthy (cap : N -> N) : kernel :=
  {| kn_ns := true; kn_disk := 7; kn_admin_q := 1; kn_io_q := 2; kn_alloc := fun _ => inl 5; kn_map := fun _ => 0%Z;
     kn_exec := nvme_device cap (fun _ _ => xab) (fun _ _ => 0); kn_ret := fun _ => 12345%Z |}.
Lemma ex_healthy_ok cap : backed cap (ex_healthy cap) /\ accepting (ex_healthy cap).
Proof. split; [split; [reflexivity|intros k s m; do 2 eexists; reflexivity]|]. split; [discriminate|]. split; [discriminate|]. split; [exists 5|]; reflexivity. Qed.
Example C92_premises_met : exists l w bs,
  module_history ex_cap (ex_disk_world ex_write7) l w /\ all_well ex_cap l /\
  exchanged l = [(IoWrite 2 7 (ex_data (N.to_nat 4096) xcd), AnsDone); (IoRead 2 6 2, AnsData bs)].
Proof.
  assert (L : N.of_nat (length (ex_data (N.to_nat 4096) xcd)) = 4096) by (unfold ex_data; rewrite repeat_length; apply N2Nat.id).
  destruct (ex_healthy_ok ex_cap) as [Hb Ha]. destruct C80_premises_met as (P & Hc & S & _ & _).
  destruct (C92_module_step ex_cap (ex_healthy ex_cap) ex_wrs 0x90000 0 _ _ _ ex_disk Hc Hb S P) as (r1 & w1 & a1 & d1 & E1 & O1 & S1 & D1 & _).
  assert (W1 : within (fun lun => ex_cap (lun + 1)) (IoWrite 2 7 (ex_data (N.to_nat 4096) xcd))).
  { unfold within, blocks_of. rewrite L. discriminate. }
  assert (A1 : a1 = AnsDone).
  { destruct D1 as [_ _|N]; [|exfalso; apply N; split; assumption]. unfold disk_step, blocks_of. rewrite L. reflexivity. }
  subst a1.
  (* INQUIRY *)
  assert (X : match scsi_queuecommand (kernel_driver (ex_healthy ex_cap)) ex_wrs 0x90000 0 (ex_scsi ex_inquiry85 true 64) (ex_later_with ex_inquiry85 w1) with
              | Ret r _ => mr_result r =? GOOD | UB _ => false end = true) by (vm_compute; reflexivity).
  destruct (scsi_queuecommand _ ex_wrs 0x90000 0 (ex_scsi ex_inquiry85 true 64) (ex_later_with ex_inquiry85 w1)) as [ri wi|] eqn:Ei; [|discriminate X]. clear X.
  assert (Mi : same_medium w1 wi).
  { eapply same_medium_trans; [|exact (adapter_other ex_cap _ _ _ _ _ _ _ _ (kernel_tame ex_cap _ Hb) (ex_inquiry_presented w1) Ei)].
    intros y Hy. unfold ex_later_with. cbn [mem set_mem]. replace (2 ^ 64 <=? y) with true by lia. reflexivity. }
  assert (S2 : stores (ex_later wi) d1).
  { apply (stores_same w1); [exact S1|]. intros y Hy. rewrite <- (Mi y Hy). unfold ex_later. cbn [mem set_mem]. replace (2 ^ 64 <=? y) with true by lia. reflexivity. }
  destruct (C92_module_step ex_cap (ex_healthy ex_cap) ex_wrs 0x90000 0 _ _ _ d1 Hc Hb S2 (ex_read_presented wi)) as (r2 & w2 & a2 & d2 & E2 & O2 & _ & D2 & _).
  assert (W2 : within (fun lun => ex_cap (lun + 1)) (IoRead 2 6 2)) by discriminate.
  assert (A2 : a2 = AnsData (disk_read d1 2 6 2)).
  { destruct D2 as [_ _|N]; [reflexivity|exfalso; apply N; split; assumption]. }
  subst a2.
  exists ([] ++ [(ex_healthy ex_cap, IoWrite 2 7 (ex_data (N.to_nat 4096) xcd), AnsDone)] ++ [(ex_healthy ex_cap, IoRead 2 6 2, AnsData (disk_read d1 2 6 2))]).
  exists w2, (disk_read d1 2 6 2). split; [|split].
  - rewrite app_assoc. eapply mh_io; [|exact Hb|apply ex_read_presented|exact E2|exact O2].
    eapply mh_env; [|intros y Hy; unfold ex_later; cbn [mem set_mem]; replace (2 ^ 64 <=? y) with true by lia; reflexivity].
    eapply mh_other; [|exact Hb|exact (ex_inquiry_presented w1)|exact Ei].
    eapply mh_env; [|intros y Hy; unfold ex_later_with; cbn [mem set_mem]; replace (2 ^ 64 <=? y) with true by lia; reflexivity].
    eapply mh_io; [apply mh_nil|exact Hb|exact P|exact E1|exact O1].
  - intros kn x a H. apply in_app_or in H as [[]|H]. apply in_app_or in H as [[H|[]]|[H|[]]]; apply pair_eq in H as [H _]; apply pair_eq in H as [<- <-]; split; assumption.
  - reflexivity.
Qed.
Example C92_beyond_met : exists r w',
  scsi_queuecommand (kernel_driver (ex_healthy (fun _ => 5))) ex_wrs 0x90000 0 (ex_scsi ex_write7 false 4096) (ex_disk_world ex_write7) = Ret r w' /\
  mr_result r = GOOD /\ stores w' ex_disk.
Proof.
  assert (L : N.of_nat (length (ex_data (N.to_nat 4096) xcd)) = 4096) by (unfold ex_data; rewrite repeat_length; apply N2Nat.id).
  destruct (ex_healthy_ok (fun _ => 5)) as [Hb Ha]. destruct C80_premises_met as (P & _ & S & _ & _).
  assert (Hc : cap_ok (fun _ => 5)) by (intros n; discriminate).
  destruct (C92_beyond_capacity_refuted (fun _ => 5) (ex_healthy (fun _ => 5)) ex_wrs 0x90000 0 _ _ _ ex_disk Hc Hb S P) as (_ & r & w' & E & G & _ & S').
  - unfold within, blocks_of. rewrite L. intros H. apply H. reflexivity.
  - exists r, w'. auto.
Qed.
