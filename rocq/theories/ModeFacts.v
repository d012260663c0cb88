(** MODE SENSE: from the CDB to the commands and back. *)
From Coq Require Import Arith NArith String List Lia Bool Init.Byte Permutation.
From Coq Require Import ZifyBool ZifyNat ZifyN.
From Verif Require Import Bytes Layout World ScsiDefs NvmeDefs Common ReadCmds WriteCmds SmallCmds
  UnmapCmd StatusCmd ModeSenseCmd InquiryCmd TranslationCls Spec Facts Logic BeginFacts CompleteFacts
  WireFacts StatusFacts RwSpec RwFacts InquirySpec AdminFacts InquiryFacts SmallSpec SmallFacts ModeSpec.
Import ListNotations.
Local Open Scope string_scope.
Local Open Scope list_scope.
Local Open Scope N_scope.

(** ** Forward *)
Definition wires (wrs : arr3 NvmeCmdWrapper) (n : N) : list (bool * list byte) :=
  map (fun wr => wire_of (view wr)) (firstn (N.to_nat n) [e0 wrs; e1 wrs; e2 wrs]).
Lemma wires_exposes t : wires (nvme_wrappers t) (nvme_cmd_count t) = map wire_of (exposes t).
Proof. unfold wires, exposes, GetNvmeWrappers. rewrite map_map. reflexivity. Qed.

Lemma identify_case wr al lun w : data_addr al = 0 ->
  exists st wr' al' w', GenerateBlockDescriptorIdentifyCmd wr al kPageSize (nsid_of lun) w = Ret (st, wr', al') w' /\
    same_cfg w w' /\
    ((st = kSuccess /\ exists p m, p <> 0 /\ trace w' = trace w ++ [EvAlloc 4096 1 p; EvAlloc 4096 0 m] /\
        al' = mk_alloc p m /\ view wr' = admin 4096 (identify_sqe 0 (nsid_of lun) p) /\
        get GenericCmd "prp1" (cmd wr') = p) \/
     (st = kFailure /\ data_addr al' = 0 /\
       (alloc_cb w = false \/ exists m, trace w' = trace w ++ [EvAlloc 4096 1 0; EvAlloc 4096 0 m]))).
Proof.
  intros Hd. unfold GenerateBlockDescriptorIdentifyCmd. cbv zeta. unfold bind.
  destruct (SetPages_case al w Hd) as (st & al' & w' & E & K & C). rewrite E.
  destruct C as [(-> & p & m & Hp & Hp' & Ht & ->)|(-> & Hz & C)].
  - do 4 eexists. split; [reflexivity|]. split; [exact K|]. left. split; [reflexivity|].
    exists p, m. split; [exact Hp|]. split; [exact Ht|]. split; [reflexivity|]. cbn [data_addr]. split.
    + unfold view, admin. cbn [cmd set_cmd set_is_admin set_buffer_len is_admin buffer_len]. f_equal. wire_tac.
    + cbn [cmd set_cmd set_is_admin set_buffer_len]. fields. bits_simpl. rewrite bits_low. apply N.mod_small. exact Hp'.
  - do 4 eexists. split; [reflexivity|]. split; [exact K|]. right. auto.
Qed.

Lemma features_case wr pc lun : pc < 4 ->
  match sel_of pc with
  | Some sel => exists wr', GenerateCacheGetFeaturesCmd wr pc (nsid_of lun) = (kSuccess, wr') /\
       wire_of (view wr') = admin_wire (get_features_sqe (nsid_of lun) sel)
  | None => GenerateCacheGetFeaturesCmd wr pc (nsid_of lun) = (kFailure, wr)
  end.
Proof.
  intros H. unfold sel_of.
  assert (pc = 0 \/ pc = 1 \/ pc = 2 \/ pc = 3) as [-> |[-> |[-> | ->]]] by lia; try reflexivity;
    cbn [GenerateCacheGetFeaturesCmd]; eexists; (split; [reflexivity|]);
    unfold wire_of, view, admin_wire; cbn [cmd set_cmd set_is_admin is_admin x_admin x_bytes]; f_equal; wire_tac.
Qed.

Definition page_events (p m : N) : list event := [EvAlloc 4096 1 p; EvAlloc 4096 0 m].

Lemma known_cases p : (negb (p =? kCacheMode) && negb (p =? kAllSupportedModes) = negb (needs_cache p)) /\
  (needs_cache p = false -> (p =? kControlMode) || (p =? kPowerConditionMode) = known_page p) /\
  (needs_cache p = true -> known_page p = true).
Proof.
  unfold needs_cache, known_page. change kCacheMode with 0x08. change kAllSupportedModes with 0x3f.
  change kControlMode with 0x0a. change kPowerConditionMode with 0x1a.
  destruct (p =? 0x08), (p =? 0x3f), (p =? 0x0a), (p =? 0x1a); cbn; auto.
Qed.

(** the part after the Identify command, with [k] commands already built *)
Lemma cache_case a wrs (al : Allocation) lun (k : N) w : ca_pc a < 4 -> k <= 1 ->
  exists st wrs' n,
   (if negb (ca_page_code a =? kCacheMode) && negb (ca_page_code a =? kAllSupportedModes) then
      if (ca_page_code a =? kControlMode) || (ca_page_code a =? kPowerConditionMode)
      then ret (kSuccess, wrs, al, k)
      else ret (kFailure, wrs, al, k)
    else
      match aget wrs k with
      | None => ub "nvme_wrappers index out of range"
      | Some wr =>
          let '(st, wr) := GenerateCacheGetFeaturesCmd wr (ca_pc a) (nsid_of lun) in
          ret (st, aset wrs k wr, al, k + 1)
      end) w = Ret (st, wrs', al, n) w /\ k <= n <= k + 1 /\ (k = 1 -> e0 wrs' = e0 wrs) /\
   (st = kSuccess \/ st = kFailure) /\
   (if mode_ok (ca_page_code a) (ca_pc a) then
      st = kSuccess /\ n = k + N.of_nat (length (cache_cmds lun (ca_page_code a) (ca_pc a))) /\
      wires wrs' n = wires wrs k ++ map admin_wire (cache_cmds lun (ca_page_code a) (ca_pc a))
    else st = kFailure).
Proof.
  intros Hpc Hk. destruct (known_cases (ca_page_code a)) as (K1 & K2 & K3). rewrite K1. unfold mode_ok, cache_cmds.
  destruct (needs_cache (ca_page_code a)) eqn:Nc; cbn [negb].
  - rewrite (K3 eq_refl). cbn [andb orb].
    assert (Hw : exists wr, aget wrs k = Some wr).
    { assert (k = 0 \/ k = 1) as [-> | ->] by lia; cbn; eauto. }
    destruct Hw as (wr & Hw). rewrite Hw. pose proof (features_case wr (ca_pc a) lun Hpc) as F.
    destruct (sel_of (ca_pc a)) as [sel|].
    + destruct F as (wr' & -> & V). do 3 eexists. split; [reflexivity|]. split; [lia|].
      split; [intros ->; reflexivity|]. split; [auto|]. split; [reflexivity|]. split; [cbn; lia|].
      cbn [map]. rewrite <- V. assert (k = 0 \/ k = 1) as [-> | ->] by lia; reflexivity.
    + rewrite F. do 3 eexists. split; [reflexivity|]. split; [lia|].
      split; [intros ->; reflexivity|]. split; [auto|]. reflexivity.
  - rewrite (K2 eq_refl). cbn [orb]. rewrite andb_true_r. destruct (known_page (ca_page_code a)).
    + do 3 eexists. split; [reflexivity|]. split; [lia|]. split; [reflexivity|]. split; [auto|]. split; [reflexivity|].
      split; [cbn; lia|]. cbn [map]. rewrite app_nil_r. reflexivity.
    + do 3 eexists. split; [reflexivity|]. split; [lia|]. split; [reflexivity|]. split; [auto|]. reflexivity.
Qed.

Definition ms_cmds (lun : N) (p : option N) (page pc : N) : list sqe :=
  match p with Some p => [identify_sqe 0 (nsid_of lun) p] | None => [] end ++ cache_cmds lun page pc.

Lemma mode_forward a wrs al lun w : data_addr al = 0 -> ca_pc a < 4 ->
  exists st wrs' al' n w', ModeSenseToNvme a wrs al kPageSize (nsid_of lun) 0 w = Ret (st, wrs', al', n) w' /\
    same_cfg w w' /\ n <= 2 /\
    if ca_dbd a then
      w' = w /\ al' = al /\ (st = kSuccess \/ st = kFailure) /\
      (if mode_ok (ca_page_code a) (ca_pc a)
       then st = kSuccess /\ let cs := ms_cmds lun None (ca_page_code a) (ca_pc a) in
            n = N.of_nat (length cs) /\ wires wrs' n = map admin_wire cs
       else st = kFailure)
    else
      (exists p m, p <> 0 /\ trace w' = trace w ++ page_events p m /\ al' = mk_alloc p m /\
         (st = kSuccess \/ st = kFailure) /\
         if mode_ok (ca_page_code a) (ca_pc a)
         then st = kSuccess /\ let cs := ms_cmds lun (Some p) (ca_page_code a) (ca_pc a) in
              n = N.of_nat (length cs) /\ wires wrs' n = map admin_wire cs /\
              view (e0 wrs') = admin 4096 (identify_sqe 0 (nsid_of lun) p) /\
              get GenericCmd "prp1" (cmd (e0 wrs')) = p
         else st = kFailure) \/
      (st = kFailure /\ data_addr al' = 0 /\
         (alloc_cb w = false \/ exists m, trace w' = trace w ++ page_events 0 m)).
Proof.
  intros Hd Hpc. unfold ModeSenseToNvme. destruct (ca_dbd a).
  - unfold bind at 1.
    destruct (cache_case a wrs al lun 0 w Hpc ltac:(lia)) as (st & wrs' & n & E & Hn & _ & Hst & C).
    unfold ret at 1. cbn [is_success negb]. rewrite E. do 5 eexists. split; [reflexivity|]. split; [apply same_cfg_refl|]. split; [lia|].
    split; [reflexivity|]. split; [reflexivity|]. split; [exact Hst|].
    destruct (mode_ok (ca_page_code a) (ca_pc a)); [|exact C]. destruct C as (C1 & C2 & C3). split; [exact C1|].
    cbv zeta. cbn [ms_cmds app]. split; [exact C2|exact C3].
  - cbn [aget]. destruct (identify_case (e0 wrs) al lun w Hd) as (st & wr' & al' & w' & E & K & C).
    unfold bind at 1. unfold bind at 1. rewrite E. unfold ret at 1.
    destruct C as [(-> & p & m & Hp & Ht & -> & V & G)|(-> & Hz & C)].
    + cbn [is_success negb]. change (0 + 1) with 1.
      destruct (cache_case a (aset wrs 0 wr') (mk_alloc p m) lun 1 w' Hpc ltac:(lia)) as (st & wrs' & n & E2 & Hn & He & Hst & C).
      rewrite E2. do 5 eexists. split; [reflexivity|]. split; [exact K|]. split; [lia|]. left. exists p, m.
      split; [exact Hp|]. split; [exact Ht|]. split; [reflexivity|]. split; [exact Hst|].
      specialize (He eq_refl). change (e0 (aset wrs 0 wr')) with wr' in He.
      destruct (mode_ok (ca_page_code a) (ca_pc a)); [|exact C]. destruct C as (C1 & C2 & C3). split; [exact C1|].
      cbv zeta. cbn [ms_cmds app length map]. split; [lia|]. split; [|rewrite He; auto].
      rewrite C3. change (wires (aset wrs 0 wr') 1) with [wire_of (view wr')]. rewrite V. reflexivity.
    + cbn [is_success negb]. do 5 eexists. split; [reflexivity|]. split; [exact K|]. split; [lia|]. right. auto.
Qed.

(** ** MODE SENSE(6), Begin *)
Lemma bit_testbit x o : (bits x o 1 =? 1) = N.testbit x o.
Proof.
  pose proof (bits_testbit x o 1 0) as T. rewrite N.add_0_l in T. change (0 <? 1) with true in T. rewrite andb_true_r in T.
  rewrite <- T. destruct (bits1 x o) as [-> | ->]; reflexivity.
Qed.
Lemma ms_dbd_eq bs : (6 <= length bs)%nat -> (get ModeSense6Command "dbd" (le (slice 1 5 bs)) =? 1) = ms_dbd bs.
Proof. intros H. cdb_fields. apply bit_testbit. Qed.
Lemma ms_page_eq bs : (6 <= length bs)%nat -> get ModeSense6Command "page_code" (le (slice 1 5 bs)) = ms_page bs.
Proof. intros H. cdb_fields. reflexivity. Qed.
Lemma ms_pc_eq bs : (6 <= length bs)%nat -> get ModeSense6Command "pc" (le (slice 1 5 bs)) = ms_pc bs.
Proof. intros H. cdb_fields. reflexivity. Qed.
Lemma ms_alloc_eq bs : (6 <= length bs)%nat -> get ModeSense6Command "alloc_length" (le (slice 1 5 bs)) = byte_at bs 4.
Proof. intros H. cdb_fields. rewrite le_slice_1 by lia. reflexivity. Qed.
Lemma attrs6_eq bs : (6 <= length bs)%nat -> attrs6 (le (slice 1 5 bs)) =
  {| ca_page_code := ms_page bs; ca_pc := ms_pc bs; ca_dbd := ms_dbd bs; ca_llbaa := false |}.
Proof. intros H. unfold attrs6. rewrite ms_page_eq, ms_pc_eq, ms_dbd_eq by exact H. reflexivity. Qed.
Lemma ms_pc_lt bs : ms_pc bs < 4.
Proof. apply (bits_lt _ 6 2). Qed.

Definition mode_pending (t : Translation) (cdb : span) (p : option N) (n : N) : Prop :=
  wf t /\ accepted t /\ scsi_cmd_ t = cdb /\ nvme_cmd_count t = n /\
  match p with Some p => get GenericCmd "prp1" (cmd (e0 (nvme_wrappers t))) = p | None => True end.

Lemma set_al0_same t : set_al0 t (e0 (allocations t)) = t.
Proof. destruct t as [ps sc n wrs [a b c]]. reflexivity. Qed.

Lemma Begin_mode6 t cdb buffer lun w bs : idle t -> span_holds w cdb bs -> mode6_cdb bs ->
  exists t' w', Begin t cdb buffer lun w = Ret (t', begin_ok (byte_at bs 4)) w' /\
    if mode_ok (ms_page bs) (ms_pc bs) then
      if ms_dbd bs then
        w' = w /\ held t' = [] /\
        let cs := ms_cmds lun None (ms_page bs) (ms_pc bs) in
        mode_pending t' cdb None (N.of_nat (length cs)) /\ map wire_of (exposes t') = map admin_wire cs
      else
        (exists p evs, p <> 0 /\ page_request p evs /\ trace w' = trace w ++ evs /\
          let cs := ms_cmds lun (Some p) (ms_page bs) (ms_pc bs) in
          mode_pending t' cdb (Some p) (N.of_nat (length cs)) /\ map wire_of (exposes t') = map admin_wire cs /\
          In (p, 1) (held t')) \/
        (out_of_pages w w' /\ rejected t' /\ exposes t' = [] /\ held t' = [])
    else rejected t' /\ exposes t' = [] /\ held t' = [].
Proof.
  intros Hi Hc (Hl & Ho).
  assert (Hne : bs <> []) by (intros ->; cbn in Hl; lia).
  pose proof Hi as (_ & Hcount & Hh). apply held_nil in Hh as (Z0 & Z1 & Z2).
  set (a := {| ca_page_code := ms_page bs; ca_pc := ms_pc bs; ca_dbd := ms_dbd bs; ca_llbaa := false |}).
  destruct (mode_forward a (nvme_wrappers t) (e0 (allocations t)) lun w (empty_data _ Z0) (ms_pc_lt bs))
    as (st & wrs & al & n & w' & E & K & Hn & C).
  assert (Es : Begin_switch 0x1a (subspan cdb 1) buffer (nsid_of lun) (started t cdb) 0 w =
    Ret (set_status (set_count (set_al0 (set_wrappers (started t cdb) wrs) al) n) st, byte_at bs 4) w').
  { change (Begin_switch 0x1a) with (fun c (_ : span) => Begin_ModeSense6 c). cbv beta.
    unfold Begin_ModeSense6, ModeSense6ToNvme. unfold bind at 2. unfold bind at 1.
    rewrite (cdb_ReadValue ModeSense6Command cdb w bs Hc) by (cbn; lia).
    change (sizeof ModeSense6Command) with 5%nat. cbv zeta. rewrite (attrs6_eq bs Hl), (ms_alloc_eq bs Hl). fold a.
    unfold bind. change (nvme_cmd_count (started t cdb)) with (nvme_cmd_count t). rewrite Hcount.
    change (nvme_wrappers (started t cdb)) with (nvme_wrappers t).
    change (allocations (started t cdb)) with (allocations t). rewrite E. reflexivity. }
  cbn [ca_dbd ca_page_code ca_pc a] in C.
  set (t2 := set_status (set_count (set_al0 (set_wrappers (started t cdb) wrs) al) n) st) in *.
  assert (Rej : st = kFailure -> exists t' w2, Begin t cdb buffer lun w = Ret (t', begin_ok (byte_at bs 4)) w2 /\
     rejected t' /\ exposes t' = [] /\ held t' = [] /\ released w' w2 (held t2)).
  { intros ->. assert (Ha : ~ accepted t2) by discriminate.
    apply (Begin_refuses_trace t cdb buffer lun w bs 0x1a _ _ _ Hi Hc Hne Ho Es Ha). }
  destruct (ms_dbd bs) eqn:Hdbd.
  - destruct C as (-> & -> & _ & C). destruct (mode_ok (ms_page bs) (ms_pc bs)).
    + destruct C as (-> & C1 & C2). exists t2, w. split; [eapply Begin_accepts; try eassumption; reflexivity|].
      split; [reflexivity|].
      assert (Hal : allocations t2 = allocations t) by (cbn; destruct (allocations t); reflexivity).
      split; [unfold held; rewrite Hal; exact (proj2 (proj2 Hi))|]. cbv zeta.
      rewrite <- wires_exposes. split; [|exact C2].
      split; [|split; [reflexivity|split; [reflexivity|split; [exact C1|exact I]]]].
      unfold wf. rewrite Hal. change (nvme_cmd_count t2) with n. split; [lia|].
      repeat split; intros _; assumption.
    + destruct (Rej C) as (t' & w2 & Eb & H1 & H2 & H3 & _). exists t', w2. auto.
  - destruct C as [(p & m & Hp & Ht & -> & Hst & C)|(-> & Hz & C)].
    + destruct (mode_ok (ms_page bs) (ms_pc bs)).
      * destruct C as (-> & C1 & C2 & V & G). exists t2, w'. split; [eapply Begin_accepts; try eassumption; reflexivity|].
        left. exists p, (page_events p m). split; [exact Hp|]. split; [eexists; reflexivity|]. split; [exact Ht|].
        cbv zeta. rewrite <- wires_exposes. split; [|split; [exact C2|]].
        -- split; [|split; [reflexivity|split; [reflexivity|split; [exact C1|exact G]]]].
           unfold wf. change (nvme_cmd_count t2) with n. split; [lia|].
           assert (1 <= n) by (rewrite C1; cbn; lia).
           repeat split; intros; try assumption; lia.
        -- apply in_app_iff. left. unfold held_by. change (e0 (allocations t2)) with (mk_alloc p m).
           cbn [mk_alloc data_addr data_page_count]. destruct (N.eqb_spec p 0); [contradiction|]. left. reflexivity.
      * destruct (Rej C) as (t' & w2 & Eb & H1 & H2 & H3 & _). exists t', w2. auto.
    + destruct (Rej eq_refl) as (t' & w2 & Eb & H1 & H2 & H3 & R). exists t', w2. split; [exact Eb|].
      destruct (mode_ok (ms_page bs) (ms_pc bs)); [|auto]. right. split; [|auto].
      destruct C as [X|(m & X)]; [left; exact X|right]. rewrite (r_trace _ _ _ R), X. unfold page_events.
      eexists. rewrite <- app_assoc. split; [reflexivity|]. left. reflexivity.
Qed.

Lemma Begin_mode6_short t cdb buffer lun w bs : idle t -> span_holds w cdb bs -> byte_at bs 0 = 0x1a ->
  (length bs < 6)%nat -> refuses t cdb buffer lun w.
Proof.
  intros Hi Hc Ho Hl.
  assert (Hne : bs <> []) by (eapply cdb_nonempty; [exact Ho|discriminate]).
  eapply Begin_refuses; try eassumption.
  - change (Begin_switch 0x1a) with (fun c (_ : span) => Begin_ModeSense6 c). cbv beta.
    unfold Begin_ModeSense6, ModeSense6ToNvme. cbv zeta. unfold bind.
    rewrite (cdb_ReadValue_short ModeSense6Command cdb w bs Hc) by (cbn; lia). reflexivity.
  - discriminate.
Qed.

(** ** Back *)
Lemma write_piece p buffer w : span_mapped w buffer ->
  exists w1, WriteValue p buffer w = Ret (N.of_nat (length p) <=? len buffer) w1 /\
    (N.of_nat (length p) <= len buffer -> wrote w w1 (ptr buffer) p /\ span_mapped w1 buffer) /\
    (len buffer < N.of_nat (length p) -> w1 = w).
Proof.
  intros Hm. destruct (N.leb_spec (N.of_nat (length p)) (len buffer)) as [H|H].
  - destruct (WriteValue_wrote p buffer w Hm H) as (w1 & E & W & _). exists w1. split; [exact E|].
    split; [intros _; split; [exact W|eapply wrote_mapped_span; eassumption]|lia].
  - exists w. split; [apply WriteValue_short; exact H|]. split; [lia|reflexivity].
Qed.

Lemma wrote_nil_same w w' a : wrote w w' a [] -> same_memory w w'.
Proof. intros [_ H] x. apply H. cbn. lia. Qed.
Lemma same_wrote_nil w w' a : same_memory w w' -> wrote w w' a [].
Proof. intros H. split; [intros i b E; destruct i; discriminate|intros x _; apply H]. Qed.

Lemma fitting_sub w w' s k l : k <= len s -> Forall (fun p => p <> []) l ->
  wrote w w' (ptr (subspan s k)) (fitting (len (subspan s k)) l) ->
  wrote w w' (ptr s + k) (fitting (len s - k) l).
Proof.
  intros Hk Hl. unfold subspan. destruct (N.leb_spec (len s) k) as [H|H]; [|auto].
  replace (len s - k) with 0 by lia. cbn [null_span len ptr].
  assert (Hf : fitting 0 l = []).
  { destruct l as [|p l]; [reflexivity|]. cbn. apply Forall_cons_iff in Hl as [Hp _].
    destruct p as [|b p]; [contradiction|]. reflexivity. }
  rewrite Hf. intros X. apply same_wrote_nil. eapply wrote_nil_same. exact X.
Qed.

(** one piece and what follows it *)
Lemma piece_then {A} p l buffer w (k : bool -> M A) : p <> [] -> Forall (fun p => p <> []) l -> span_mapped w buffer ->
  (len buffer < N.of_nat (length p) -> exists a, k false w = Ret a w) ->
  (forall w1, N.of_nat (length p) <= len buffer -> wrote w w1 (ptr buffer) p -> span_mapped w1 buffer ->
     exists a w2, k true w1 = Ret a w2 /\
       wrote w1 w2 (ptr (subspan buffer (N.of_nat (length p)))) (fitting (len (subspan buffer (N.of_nat (length p)))) l)) ->
  exists a w2, (b <- WriteValue p buffer ;; k b) w = Ret a w2 /\ wrote w w2 (ptr buffer) (fitting (len buffer) (p :: l)).
Proof.
  intros Hp Hl Hm Hf Ht. destruct (write_piece p buffer w Hm) as (w1 & E & H1 & H2).
  unfold bind. rewrite E. cbn [fitting]. destruct (N.leb_spec (N.of_nat (length p)) (len buffer)) as [H|H].
  - destruct (H1 H) as [W M1]. destruct (Ht w1 H W M1) as (a & w2 & E2 & W2). exists a, w2. split; [exact E2|].
    eapply wrote_app; [exact W|]. apply fitting_sub; assumption.
  - rewrite (H2 H). destruct (Hf H) as (a & E2). exists a, w. split; [exact E2|]. apply same_wrote_nil. apply same_refl.
Qed.

Lemma piece_last p buffer w : span_mapped w buffer ->
  exists b w2, WriteValue p buffer w = Ret b w2 /\ wrote w w2 (ptr buffer) (fitting (len buffer) [p]).
Proof.
  intros Hm. destruct (write_piece p buffer w Hm) as (w1 & E & H1 & H2). do 2 eexists. split; [exact E|].
  cbn [fitting]. destruct (N.leb_spec (N.of_nat (length p)) (len buffer)) as [H|H].
  - rewrite app_nil_r. apply (H1 H).
  - rewrite (H2 H). apply same_wrote_nil. apply same_refl.
Qed.

Lemma caching_repr r : repr CachingModePage (set CachingModePage "wce" (N.land 1 r) kCachingModePage) =
  caching_page (N.testbit r 0).
Proof.
  replace (N.land 1 r) with (if N.testbit r 0 then 1 else 0); [destruct (N.testbit r 0); reflexivity|].
  pose proof (N.land_ones r 1) as H. change (N.ones 1) with 1 in H. change (2 ^ 1) with 2 in H.
  rewrite N.land_comm, H, <- N.bit0_mod. destruct (N.testbit r 0); reflexivity.
Qed.

Lemma page_nonempty page wce : Forall (fun p : list byte => p <> []) (mode_pages page wce).
Proof.
  unfold mode_pages. destruct (page =? 8); [repeat constructor; discriminate|].
  destruct (page =? 0x0a); [repeat constructor; discriminate|].
  destruct (page =? 0x1a); repeat constructor; discriminate.
Qed.

Lemma pages_ok page r buffer w : known_page page = true -> span_mapped w buffer ->
  exists b w1, WritePageData page r buffer w = Ret b w1 /\
    wrote w w1 (ptr buffer) (fitting (len buffer) (mode_pages page (N.testbit r 0))).
Proof.
  intros Hk Hm. unfold WritePageData. cbv zeta. rewrite !caching_repr.
  change (repr ControlModePage kControlModePage) with control_page.
  change (repr PowerConditionModePage kPowerConditionModePage) with power_page.
  change kCacheMode with 0x08. change kAllSupportedModes with 0x3f.
  change kControlMode with 0x0a. change kPowerConditionMode with 0x1a.
  unfold mode_pages. destruct (page =? 0x08) eqn:E1; [apply piece_last; exact Hm|].
  destruct (page =? 0x0a) eqn:E2; [apply piece_last; exact Hm|].
  destruct (page =? 0x1a) eqn:E3; [apply piece_last; exact Hm|].
  destruct (page =? 0x3f) eqn:E4; [|unfold known_page in Hk; rewrite E1, E2, E3, E4 in Hk; discriminate].
  apply piece_then; try assumption; try discriminate; [repeat constructor; discriminate|eexists; reflexivity|].
  intros w1 _ _ M1. cbn [negb]. change (N.of_nat (sizeof CachingModePage)) with 20.
  change (N.of_nat (length (caching_page (N.testbit r 0)))) with 20.
  assert (M1' : span_mapped w1 (subspan buffer 20)) by (apply subspan_mapped; exact M1).
  apply piece_then; try assumption; try discriminate; [repeat constructor; discriminate|eexists; reflexivity|].
  intros w2 _ _ M2. cbn [negb]. change (N.of_nat (sizeof ControlModePage)) with 12.
  change (N.of_nat (length control_page)) with 12. apply piece_last. apply subspan_mapped. exact M2.
Qed.

(** the block descriptor *)
Lemma be_encode_mod n x : be_encode n (x mod 2 ^ (8 * N.of_nat n)) = be_encode n x.
Proof. unfold be_encode. rewrite le_encode_mod. reflexivity. Qed.

Lemma le_encode_3 y : le_encode 4 y = n2b y :: le_encode 3 (N.shiftr y 8).
Proof. rewrite N.shiftr_div_pow2. reflexivity. Qed.
Lemma be_encode_3 x : exists b, be_encode 4 x = b :: be_encode 3 x.
Proof.
  unfold be_encode. change 4%nat with (3 + 1)%nat. rewrite le_encode_app, rev_app_distr.
  cbn [le_encode rev app]. eauto.
Qed.
Lemma lbl_24 x : le_encode 3 (N.shiftr (htonl x) 8) = be_encode 3 x.
Proof.
  destruct (be_encode_3 x) as (b & E). rewrite <- le_encode_bswap, le_encode_3 in E. apply (f_equal (@tl byte)) in E. exact E.
Qed.

Lemma short_repr ncap l : repr ShortLbaBlockDescriptor (mk ShortLbaBlockDescriptor
   [("number_of_blocks", htonl (u32 ncap)); ("logical_block_length", N.shiftr (htonl l) 8)]) =
   be_encode 4 ncap ++ [x00] ++ be_encode 3 l.
Proof.
  unfold repr. change (sizeof ShortLbaBlockDescriptor) with 8%nat. fields. struct_bytes [4; 1; 3]%nat.
  rewrite !le_encode_bits_full, lbl_24. unfold htonl, htonl_h. rewrite le_encode_bswap.
  unfold u32. rewrite (be_encode_mod 4), app_nil_r. reflexivity.
Qed.
Lemma long_repr ncap l : repr LongLbaBlockDescriptor (mk LongLbaBlockDescriptor
   [("number_of_blocks", bswap_64 ncap); ("logical_block_length", htonl l)]) =
   be_encode 8 ncap ++ repeat x00 4 ++ be_encode 4 l.
Proof.
  unfold repr. change (sizeof LongLbaBlockDescriptor) with 16%nat. fields. struct_bytes [8; 4; 4]%nat.
  rewrite !le_encode_bits_full. unfold bswap_64, htonl, htonl_h. rewrite !le_encode_bswap, app_nil_r. reflexivity.
Qed.

Definition descriptor (long : bool) (ns : list byte) : list byte :=
  if long then long_descriptor ns else short_descriptor ns.
Lemma descriptor_length long ns : length (descriptor long ns) = if long then 16%nat else 8%nat.
Proof. unfold descriptor, long_descriptor, short_descriptor. destruct long; rewrite !app_length, !be_encode_length; reflexivity. Qed.

Lemma descr_ok c p ns long buffer w : get GenericCmd "prp1" c = p -> bytes_at w p ns -> N.of_nat (length ns) = 4096 ->
  ns_lbads ns < 32 ->
  WriteBlockDescriptor c buffer long w =
    (b <- WriteValue (descriptor long ns) buffer ;; ret (b, N.of_nat (length (descriptor long ns)))) w.
Proof.
  intros Hp Hb Hl H32. unfold WriteBlockDescriptor. cbv zeta. rewrite Hp. unfold bind at 1. rd_step Hb.
  unfold bind at 1. rewrite (rd_lbads_ok w p ns Hb Hl). fold (ns_ncap ns). unfold bind at 1. unfold shl1_int.
  replace (ns_lbads ns <? 32) with true by lia. unfold ret at 1.
  replace (u32 (N.shiftl 1 (ns_lbads ns))) with (2 ^ ns_lbads ns).
  2:{ rewrite N.shiftl_1_l. unfold u32. symmetry. apply N.mod_small. apply N.pow_lt_mono_r; lia. }
  rewrite descriptor_length. destruct long; cbn [descriptor].
  - rewrite long_repr. reflexivity.
  - change (ltohll (ns_ncap ns)) with (ns_ncap ns). rewrite short_repr. reflexivity.
Qed.

Lemma descr_ub c p ns long buffer w : get GenericCmd "prp1" c = p -> bytes_at w p ns -> N.of_nat (length ns) = 4096 ->
  32 <= ns_lbads ns -> exists s, WriteBlockDescriptor c buffer long w = UB s.
Proof.
  intros Hp Hb Hl H32. unfold WriteBlockDescriptor. cbv zeta. rewrite Hp. unfold bind at 1. rd_step Hb.
  unfold bind at 1. rewrite (rd_lbads_ok w p ns Hb Hl). unfold bind at 1. unfold shl1_int.
  replace (ns_lbads ns <? 32) with false by lia. eexists. reflexivity.
Qed.

(** the response as a list of pieces *)
Definition mode_data (is10 : bool) (dbd long : bool) (ns : list byte) (page : N) (wce : bool) : list (list byte) :=
  let d := if dbd then None else Some (descriptor (is10 && long) ns) in
  if is10 then mode10_data long d page wce else mode6_data d page wce.

Lemma known_in page : known_page page = true -> page = 0x08 \/ page = 0x0a \/ page = 0x1a \/ page = 0x3f.
Proof. unfold known_page. lia. Qed.

Lemma pages_length page wce : length (concat (mode_pages page wce)) = length (concat (mode_pages page true)).
Proof.
  unfold mode_pages. destruct (page =? 8); [destruct wce; reflexivity|].
  destruct (page =? 0x0a); [reflexivity|]. destruct (page =? 0x1a); [reflexivity|]. destruct wce; reflexivity.
Qed.

Lemma header6_ok a buffer ns wce : known_page (ca_page_code a) = true -> ca_llbaa a = false ->
  WriteMode6Header a buffer = WriteValue (hd [] (mode6_data (if ca_dbd a then None else Some (descriptor false ns)) (ca_page_code a) wce)) buffer.
Proof.
  intros Hk Hll. unfold WriteMode6Header. cbv zeta. f_equal. destruct a as [page pc dbd ll]. cbn [ca_page_code ca_dbd ca_llbaa] in *. subst ll.
  assert (Hd : length (descriptor false ns) = 8%nat) by (rewrite descriptor_length; reflexivity).
  apply known_in in Hk. destruct dbd; cbn [mode6_data hd]; unfold header6, total; cbn [concat]; rewrite ?app_length, ?Hd, pages_length;
    destruct Hk as [-> |[-> |[-> | ->]]]; reflexivity.
Qed.
Lemma header10_ok a buffer ns wce : known_page (ca_page_code a) = true ->
  WriteMode10Header a buffer = WriteValue (hd [] (mode10_data (ca_llbaa a) (if ca_dbd a then None else Some (descriptor (ca_llbaa a) ns)) (ca_page_code a) wce)) buffer.
Proof.
  intros Hk. unfold WriteMode10Header. cbv zeta. f_equal. destruct a as [page pc dbd ll]. cbn [ca_page_code ca_dbd ca_llbaa] in *.
  assert (Hd : length (descriptor ll ns) = if ll then 16%nat else 8%nat) by (rewrite descriptor_length; reflexivity).
  apply known_in in Hk. destruct dbd; cbn [mode10_data hd]; unfold header10, total; cbn [concat]; rewrite ?app_length, ?Hd, pages_length;
    destruct ll; destruct Hk as [-> |[-> |[-> | ->]]]; reflexivity.
Qed.

Lemma mode_back a is10 r c p ns buffer w : known_page (ca_page_code a) = true ->
  (is10 = false -> ca_llbaa a = false) -> span_mapped w buffer ->
  (ca_dbd a = false -> get GenericCmd "prp1" c = p /\ bytes_at w p ns /\ N.of_nat (length ns) = 4096 /\
     ns_lbads ns < 32 /\ apart p buffer) ->
  exists st w1, ModeSenseToScsi a is10 r c buffer w = Ret st w1 /\
    wrote w w1 (ptr buffer) (fitting (len buffer)
      (mode_data is10 (ca_dbd a) (ca_llbaa a) ns (ca_page_code a) (N.testbit r 0))).
Proof.
  intros Hk Hll Hm Hd. unfold ModeSenseToScsi.
  set (wce := N.testbit r 0). set (page := ca_page_code a) in *.
  set (md := mode_data is10 (ca_dbd a) (ca_llbaa a) ns page wce).
  assert (Hh : (if is10 then WriteMode10Header a buffer else WriteMode6Header a buffer) = WriteValue (hd [] md) buffer).
  { unfold md, mode_data. destruct is10; cbn [andb].
    - apply header10_ok. exact Hk.
    - apply header6_ok; [exact Hk|apply Hll; reflexivity]. }
  assert (Hhl : N.of_nat (length (hd [] md)) = N.of_nat (sizeof (if is10 then ModeParameter10Header else ModeParameter6Header))).
  { unfold md, mode_data. destruct is10, (ca_dbd a); reflexivity. }
  assert (Htl : md = hd [] md :: (if ca_dbd a then [] else [descriptor (is10 && ca_llbaa a) ns]) ++ mode_pages page wce).
  { unfold md, mode_data. destruct is10, (ca_dbd a); reflexivity. }
  assert (Hne : hd [] md <> []).
  { intros E. rewrite E in Hhl. destruct is10; discriminate. }
  rewrite Hh. pose proof (f_equal (fitting (len buffer)) Htl) as Hg. rewrite Hg. clear Hg.
  assert (Hdn : descriptor (is10 && ca_llbaa a) ns <> []).
  { intros E. apply (f_equal (@length byte)) in E. rewrite descriptor_length in E. destruct (is10 && ca_llbaa a); discriminate. }
  pose proof (page_nonempty page wce) as Hpn.
  apply piece_then; try assumption.
  { destruct (ca_dbd a); cbn [app]; [exact Hpn|constructor; assumption]. }
  { intros _. eexists. reflexivity. }
  intros w1 Hfit W1 M1. cbn [negb]. cbv zeta. rewrite <- Hhl. set (k := N.of_nat (length (hd [] md))) in *.
  assert (M1' : span_mapped w1 (subspan buffer k)) by (apply subspan_mapped; exact M1).
  destruct (ca_dbd a) eqn:Edbd; cbn [app].
  - unfold bind at 1. cbn [ret]. unfold ret at 1. cbn [negb].
    destruct (pages_ok page r (subspan buffer k) w1 Hk M1') as (b & w2 & E & W). unfold bind. rewrite E.
    do 2 eexists. split; [reflexivity|exact W].
  - destruct (Hd eq_refl) as (Hp & Hb & Hl & H32 & Hap).
    assert (Hb1 : bytes_at w1 p ns).
    { eapply wrote_bytes_at; [exact W1|exact Hb|]. fold k. unfold apart in Hap. lia. }
    assert (Hlong : ca_llbaa a = is10 && ca_llbaa a) by (destruct is10; [reflexivity|apply Hll; reflexivity]).
    unfold bind at 1. rewrite (descr_ok c p ns (ca_llbaa a) (subspan buffer k) w1 Hp Hb1 Hl H32).
    rewrite <- Hlong in *. set (d := descriptor (ca_llbaa a) ns) in *.
    destruct (piece_then d (mode_pages page wce) (subspan buffer k) w1
      (fun b => if negb b then ret kSuccess else
         _ <- WritePageData page r (subspan (subspan buffer k) (N.of_nat (length d))) ;; ret kSuccess)) as (st & w2 & E & W);
      try assumption.
    { intros _. eexists. reflexivity. }
    { intros w2 _ _ M2. cbn [negb].
      destruct (pages_ok page r (subspan (subspan buffer k) (N.of_nat (length d))) w2 Hk) as (b & w3 & E & W).
      { apply subspan_mapped. exact M2. }
      unfold bind. rewrite E. do 2 eexists. split; [reflexivity|exact W]. }
    exists st, w2. split; [|exact W]. rewrite <- E. unfold bind. destruct (WriteValue d (subspan buffer k) w1) as [b w3|s]; reflexivity.
Qed.

Lemma mode_back_ub a is10 r c p ns buffer w : known_page (ca_page_code a) = true -> ca_dbd a = false ->
  (is10 = false -> ca_llbaa a = false) -> span_mapped w buffer -> 
  get GenericCmd "prp1" c = p -> bytes_at w p ns -> N.of_nat (length ns) = 4096 -> 32 <= ns_lbads ns -> apart p buffer ->
  8 <= len buffer ->
  exists s, ModeSenseToScsi a is10 r c buffer w = UB s.
Proof.
  intros Hk Edbd Hll Hm Hp Hb Hl H32 Hap Hlen. unfold ModeSenseToScsi.
  set (page := ca_page_code a) in *.
  set (md := mode_data is10 (ca_dbd a) (ca_llbaa a) ns page true).
  assert (Hh : (if is10 then WriteMode10Header a buffer else WriteMode6Header a buffer) = WriteValue (hd [] md) buffer).
  { unfold md, mode_data. destruct is10; cbn [andb].
    - apply header10_ok. exact Hk.
    - apply header6_ok; [exact Hk|apply Hll; reflexivity]. }
  assert (Hhl : N.of_nat (length (hd [] md)) <= 8).
  { unfold md, mode_data. destruct is10, (ca_dbd a); cbn; lia. }
  rewrite Hh. destruct (WriteValue_wrote (hd [] md) buffer w Hm) as (w1 & E & W1 & _); [lia|].
  unfold bind at 1. rewrite E. cbn [negb]. cbv zeta. rewrite Edbd.
  assert (Hb1 : bytes_at w1 p ns).
  { eapply wrote_bytes_at; [exact W1|exact Hb|]. unfold apart in Hap. lia. }
  match goal with |- context [WriteBlockDescriptor c ?b ?l] => destruct (descr_ub c p ns l b w1 Hp Hb1 Hl H32) as (s & Eu) end.
  unfold bind. rewrite Eu. eexists. reflexivity.
Qed.

(** ** MODE SENSE(6), Complete *)
Lemma mode_complete6 t cdb p n bs ns cpl cpls buffer sense w : mode_pending t cdb p n -> span_holds w cdb bs -> mode6_cdb bs ->
  known_page (ms_page bs) = true -> N.of_nat (length (cpl :: cpls)) = n -> Forall cpl_ok (cpl :: cpls) -> span_mapped w buffer ->
  (ms_dbd bs = false -> exists a, p = Some a /\ bytes_at w a ns /\ N.of_nat (length ns) = 4096 /\ ns_lbads ns < 32 /\ apart a buffer) ->
  exists t2 w3, Complete t (cpl :: cpls) buffer sense w = Ret (t2, api_ok GOOD) w3 /\ idle t2 /\
    wrote w w3 (ptr buffer) (fitting (len buffer)
      (mode6_data (if ms_dbd bs then None else Some (short_descriptor ns)) (ms_page bs) (N.testbit (cpl_dw0 cpl) 0))).
Proof.
  intros (W & Ha & Hs & Hn & Hp) Hc (Hl & Ho) Hk Hlen Hok Hm Hd.
  assert (Hne : bs <> []) by (intros ->; cbn in Hl; lia).
  set (a := {| ca_page_code := ms_page bs; ca_pc := ms_pc bs; ca_dbd := ms_dbd bs; ca_llbaa := false |}).
  destruct (mode_back a false (get GenericCpl "cdw0" cpl) (cmd (e0 (nvme_wrappers t)))
    (match p with Some a => a | None => 0 end) ns buffer w Hk (fun _ => eq_refl) Hm) as (st & w1 & E & Wr).
  { cbn [a ca_dbd]. intros Hdbd. destruct (Hd Hdbd) as (x & -> & H1 & H2 & H3 & H4). auto. }
  destruct (Complete_good t (cpl :: cpls) buffer sense w bs 0x1a (pipeline_status t) w1) as (t2 & w4 & E4 & Hi4 & R); try assumption.
  - rewrite Hlen, Hn. reflexivity.
  - rewrite Hs. exact Hc.
  - rewrite Hs. change (Complete_switch 0x1a) with (fun c buffer_in cpls t =>
      d <- cpl0_cdw0 cpls ;; _ <- ModeSense6ToScsi c (cmd (e0 (nvme_wrappers t))) d buffer_in ;; ret (pipeline_status t)).
    cbv beta. unfold bind at 1. cbn [cpl0_cdw0]. unfold ret at 1. unfold bind at 1. unfold ModeSense6ToScsi, bind at 1.
    rewrite (cdb_ReadValue ModeSense6Command cdb w bs Hc) by (cbn; lia).
    change (sizeof ModeSense6Command) with 5%nat. rewrite (attrs6_eq bs Hl). fold a. rewrite E. reflexivity.
  - exists t2, w4. split; [exact E4|]. split; [exact Hi4|]. eapply wrote_stable; [|apply (r_mem _ _ _ R)].
    cbn [a ca_dbd ca_llbaa ca_page_code mode_data andb descriptor] in Wr. exact Wr.
Qed.

(** no command exposed: Complete reads an element of the empty completion list *)
Lemma mode_complete6_ub t cdb bs buffer sense w : mode_pending t cdb None 0 -> span_holds w cdb bs -> mode6_cdb bs ->
  exists s, Complete t [] buffer sense w = UB s.
Proof.
  intros (W & Ha & Hs & Hn & _) Hc (Hl & Ho). unfold Complete. rewrite Ha. cbn [is_uninitialized].
  rewrite Hn. cbn [length N.of_nat N.eqb negb is_success first_error]. cbv zeta.
  unfold bind at 1. rewrite Hs. change 0 with (N.of_nat 0). rewrite (span_at_ok w cdb bs 0 Hc) by lia.
  rewrite Ho. change (Complete_switch 0x1a) with (fun c buffer_in cpls t =>
      d <- cpl0_cdw0 cpls ;; _ <- ModeSense6ToScsi c (cmd (e0 (nvme_wrappers t))) d buffer_in ;; ret (pipeline_status t)).
  cbv beta. unfold bind, cpl0_cdw0, ub. eexists. reflexivity.
Qed.

Lemma mode_complete6_shift_ub t cdb a n bs ns cpl cpls buffer sense w : mode_pending t cdb (Some a) n ->
  span_holds w cdb bs -> mode6_cdb bs ->
  known_page (ms_page bs) = true -> ms_dbd bs = false -> N.of_nat (length (cpl :: cpls)) = n ->
  Forall cpl_ok (cpl :: cpls) -> span_mapped w buffer ->
  bytes_at w a ns -> N.of_nat (length ns) = 4096 -> 32 <= ns_lbads ns -> apart a buffer -> 8 <= len buffer ->
  exists s, Complete t (cpl :: cpls) buffer sense w = UB s.
Proof.
  intros (W & Ha & Hs & Hn & Hp) Hc (Hl & Ho) Hk Hdbd Hlen Hok Hm H1 H2 H3 H4 H5.
  set (at' := {| ca_page_code := ms_page bs; ca_pc := ms_pc bs; ca_dbd := ms_dbd bs; ca_llbaa := false |}).
  destruct (mode_back_ub at' false (get GenericCpl "cdw0" cpl) (cmd (e0 (nvme_wrappers t))) a ns buffer w Hk Hdbd (fun _ => eq_refl) Hm Hp H1 H2 H3 H4 H5) as (s & E).
  unfold Complete. rewrite Ha. cbn [is_uninitialized].
  rewrite Hlen, Hn, N.eqb_refl. cbn [negb is_success]. rewrite (first_error_ok _ Hok).
  unfold bind at 1. rewrite Hs. change 0 with (N.of_nat 0). rewrite (span_at_ok w cdb bs 0 Hc) by lia.
  rewrite Ho. change (Complete_switch 0x1a) with (fun c buffer_in cpls t =>
      d <- cpl0_cdw0 cpls ;; _ <- ModeSense6ToScsi c (cmd (e0 (nvme_wrappers t))) d buffer_in ;; ret (pipeline_status t)).
  cbv beta. unfold bind at 1. unfold bind at 1. cbn [cpl0_cdw0]. unfold ret at 1. unfold bind at 1. unfold ModeSense6ToScsi, bind at 1.
  rewrite (cdb_ReadValue ModeSense6Command cdb w bs Hc) by (cbn; lia).
  change (sizeof ModeSense6Command) with 5%nat. rewrite (attrs6_eq bs Hl). fold at'. rewrite E. eexists. reflexivity.
Qed.

(** ** Prefixes *)
Lemma fitting_prefix l : forall n n', n <= n' -> exists r, fitting n' l = fitting n l ++ r.
Proof.
  induction l as [|p l IH]; intros n n' H; [exists []; reflexivity|]. cbn [fitting].
  destruct (N.leb_spec (N.of_nat (length p)) n) as [H1|H1].
  - replace (N.of_nat (length p) <=? n') with true by lia.
    destruct (IH (n - N.of_nat (length p)) (n' - N.of_nat (length p))) as (r & E); [lia|].
    exists r. rewrite E, app_assoc. reflexivity.
  - exists (fitting n' (p :: l)). reflexivity.
Qed.
Lemma fitting_le l : forall n, N.of_nat (length (fitting n l)) <= n.
Proof.
  induction l as [|p l IH]; intros n; cbn [fitting length]; [cbn; lia|].
  destruct (N.leb_spec (N.of_nat (length p)) n) as [H|H]; [|cbn; lia].
  rewrite app_length. specialize (IH (n - N.of_nat (length p))). lia.
Qed.
Lemma fitting_all l : forall n, N.of_nat (length (concat l)) <= n -> fitting n l = concat l.
Proof.
  induction l as [|p l IH]; intros n H; cbn [fitting concat] in *; [reflexivity|].
  rewrite app_length in H. replace (N.of_nat (length p) <=? n) with true by lia. rewrite IH by lia. reflexivity.
Qed.
