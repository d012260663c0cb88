(** MODE SENSE(10): the functions of mode_sense.cc and what the switch of Begin
    makes of them. *)
From Coq Require Import Arith NArith String List Lia Bool Init.Byte Permutation.
From Coq Require Import ZifyBool ZifyNat ZifyN.
From Verif Require Import Bytes Layout World ScsiDefs NvmeDefs Common SmallCmds ModeSenseCmd TranslationCls Spec RwSpec InquirySpec SmallSpec ModeSpec
  Facts Logic BeginFacts CompleteFacts StatusFacts RwFacts AdminFacts InquiryFacts SmallFacts ModeFacts.
Import ListNotations.
Local Open Scope string_scope.
Local Open Scope list_scope.
Local Open Scope N_scope.

Lemma ms10_dbd_eq bs : (10 <= length bs)%nat -> (get ModeSense10Command "dbd" (le (slice 1 9 bs)) =? 1) = ms_dbd bs.
Proof. intros H. cdb_fields. apply bit_testbit. Qed.
Lemma ms10_ll_eq bs : (10 <= length bs)%nat -> (get ModeSense10Command "llbaa" (le (slice 1 9 bs)) =? 1) = ms10_llbaa bs.
Proof. intros H. cdb_fields. apply bit_testbit. Qed.
Lemma ms10_page_eq bs : (10 <= length bs)%nat -> get ModeSense10Command "page_code" (le (slice 1 9 bs)) = ms_page bs.
Proof. intros H. cdb_fields. reflexivity. Qed.
Lemma ms10_pc_eq bs : (10 <= length bs)%nat -> get ModeSense10Command "pc" (le (slice 1 9 bs)) = ms_pc bs.
Proof. intros H. cdb_fields. reflexivity. Qed.
Lemma ms10_alloc_eq bs : (10 <= length bs)%nat -> ntohs (get ModeSense10Command "alloc_length" (le (slice 1 9 bs))) = be (slice 7 2 bs).
Proof. intros H. cdb_fields. unfold ntohs. rewrite bswap_le; [reflexivity|]. apply slice_length. lia. Qed.
Lemma attrs10_eq bs : (10 <= length bs)%nat -> attrs10 (le (slice 1 9 bs)) =
  {| ca_page_code := ms_page bs; ca_pc := ms_pc bs; ca_dbd := ms_dbd bs; ca_llbaa := ms10_llbaa bs |}.
Proof. intros H. unfold attrs10. rewrite ms10_page_eq, ms10_pc_eq, ms10_dbd_eq, ms10_ll_eq by exact H. reflexivity. Qed.

(** the two functions, called directly *)
Lemma mode10_forward cdb bs wrs al lun w : span_holds w cdb bs -> (10 <= length bs)%nat -> data_addr al = 0 ->
  exists st wrs' al' n w', ModeSense10ToNvme (subspan cdb 1) wrs al kPageSize (nsid_of lun) 0 0 w =
      Ret (st, wrs', al', n, be (slice 7 2 bs)) w' /\
    ModeSenseToNvme {| ca_page_code := ms_page bs; ca_pc := ms_pc bs; ca_dbd := ms_dbd bs; ca_llbaa := ms10_llbaa bs |}
      wrs al kPageSize (nsid_of lun) 0 w = Ret (st, wrs', al', n) w'.
Proof.
  intros Hc Hl Hd. set (a := {| ca_page_code := ms_page bs; ca_pc := ms_pc bs; ca_dbd := ms_dbd bs; ca_llbaa := ms10_llbaa bs |}).
  destruct (mode_forward a wrs al lun w Hd (ms_pc_lt bs)) as (st & wrs' & al' & n & w' & E & _).
  exists st, wrs', al', n, w'. split; [|exact E].
  unfold ModeSense10ToNvme. unfold bind at 1.
  rewrite (cdb_ReadValue ModeSense10Command cdb w bs Hc) by (cbn; lia).
  change (sizeof ModeSense10Command) with 9%nat. cbv zeta. rewrite (attrs10_eq bs Hl), (ms10_alloc_eq bs Hl). fold a.
  unfold bind. rewrite E. reflexivity.
Qed.

(** after the MODE SENSE(10) part either a page is held, or memory is as before *)
Lemma mode10_state cdb bs wrs al lun w : span_holds w cdb bs -> (10 <= length bs)%nat -> data_addr al = 0 ->
  exists st wrs' al' n w', ModeSense10ToNvme (subspan cdb 1) wrs al kPageSize (nsid_of lun) 0 0 w =
      Ret (st, wrs', al', n, be (slice 7 2 bs)) w' /\
    exists bs', span_holds w' cdb bs' /\ length bs' = length bs /\ (data_addr al' <> 0 \/ bs' = bs).
Proof.
  intros Hc Hl Hd. destruct (mode10_forward cdb bs wrs al lun w Hc Hl Hd) as (st & wrs' & al' & n & w' & E & F).
  exists st, wrs', al', n, w'. split; [exact E|].
  pose proof (ModeSenseToNvme_page true {| ca_page_code := ms_page bs; ca_pc := ms_pc bs; ca_dbd := ms_dbd bs; ca_llbaa := ms10_llbaa bs |}
    wrs al (nsid_of lun) 0 w ltac:(lia)) as P. change 4096 with kPageSize in P.
  unfold cst in P. rewrite F in P. destruct P as ((evs & G & _) & _).
  destruct (mode_forward {| ca_page_code := ms_page bs; ca_pc := ms_pc bs; ca_dbd := ms_dbd bs; ca_llbaa := ms10_llbaa bs |}
    wrs al lun w Hd (ms_pc_lt bs)) as (st2 & wrs2 & al2 & n2 & w2 & F2 & _ & _ & C).
  rewrite F in F2. injection F2 as <- <- <- <- <-. cbn [ca_dbd ca_page_code ca_pc] in C.
  assert (Hm : span_mapped w' cdb).
  { intros x Hx. apply (g_dom _ _ _ G). apply (span_holds_mapped _ _ _ Hc). exact Hx. }
  destruct (ms_dbd bs).
  - destruct C as (-> & _). exists bs. auto.
  - destruct C as [(p & m & Hp & _ & -> & _)|(_ & Hz & C)].
    + destruct (span_mapped_holds w' cdb Hm) as (bs' & Hb). exists bs'. split; [exact Hb|].
      split; [destruct Hb as [Hb _]; destruct Hc as [Hc _]; lia|]. left. exact Hp.
    + exists bs. split; [|auto]. destruct Hc as [Hc1 Hc2]. split; [exact Hc1|]. intros i b Hi.
      assert (Hs : forall x, mem w' x = mem w x).
      { intros x. destruct (g_mem _ _ _ G x) as [E1|(ps & k & a & Hin & Ha & Hr)]; [exact E1|exfalso].
        destruct C as [Hcb|(m & Ht)].
        - (* no callback: nothing was requested *)
          assert (Hevs : evs = []).
          { revert F G. unfold ModeSenseToNvme. cbn [ca_dbd aget]. unfold GenerateBlockDescriptorIdentifyCmd, bind at 1 2 3.
            unfold SetPages. rewrite Hd. change (negb (1 =? 0) && negb (0 =? 0) || negb (0 =? 0) && negb (mdata_addr al =? 0)) with false.
            unfold bind, AllocPages, kPageSize. cbv iota. rewrite Hcb. cbn [negb]. rewrite Hcb. cbn [negb].
            change (negb (1 =? 0) && (0 =? 0) || negb (0 =? 0) && (0 =? 0)) with true. cbn. intros F G. injection F as _ _ _ _ <-.
            pose proof (g_trace _ _ _ G) as T. rewrite <- app_nil_r in T at 1. apply app_inv_head in T. auto. }
          subst evs. destruct Hin.
        - rewrite (g_trace _ _ _ G) in Ht. apply app_inv_head in Ht. subst evs.
          destruct Hin as [Hin|[Hin|[]]]; injection Hin as <- <- <-; [contradiction|lia]. }
      rewrite Hs. apply Hc2. exact Hi.
Qed.

Lemma Begin_mode10_refuses t cdb buffer lun w bs : idle t -> span_holds w cdb bs -> byte_at bs 0 = 0x5a ->
  (length bs < 12)%nat \/ 2 < byte_at bs 2 -> refuses t cdb buffer lun w.
Proof.
  intros Hi Hc Ho H.
  assert (Hne : bs <> []) by (eapply cdb_nonempty; [exact Ho|discriminate]).
  assert (H0 : (0 < length bs)%nat) by (destruct bs; [contradiction|cbn; lia]).
  pose proof Hi as (_ & Hcnt & Hh). apply held_nil in Hh as (Ha0 & _ & _).
  assert (Hd : data_addr (e0 (allocations (started t cdb))) = 0).
  { change (allocations (started t cdb)) with (allocations t). apply empty_data, Ha0. }
  destruct (le_lt_dec 10 (length bs)) as [Hl|Hl].
  - destruct (mode10_state cdb bs (nvme_wrappers (started t cdb)) _ lun w Hc Hl Hd)
      as (st & wrs' & al' & n & w' & E & bs' & Hc' & Hl' & C).
    destruct (Validate_any cdb (be (slice 7 2 bs)) w' bs' Hc' ltac:(lia)) as (sv & rl' & Ev).
    set (t0 := set_count (set_status (set_status (set_count (set_al0 (set_wrappers (started t cdb) wrs') al') n) st) sv) 0).
    assert (K : exists t2 al, Begin_ReportLuns (subspan cdb 1) t0 rl' w' = Ret (t2, al) w' /\ ~ accepted t2).
    { destruct (le_lt_dec 12 (length bs')) as [Hl12|Hl12].
      2:{ apply (ReportLuns_bad cdb bs'); [exact Hc'|left; exact Hl12|lia]. }
      destruct (N.leb_spec (select_report bs') 2) as [Hs|Hs].
      2:{ apply (ReportLuns_bad cdb bs'); [exact Hc'|right; exact Hs|lia]. }
      destruct C as [Hnz| ->].
      2:{ exfalso. unfold select_report in Hs. destruct H as [H|H]; lia. }
      assert (SP : SetPages (e0 (allocations t0)) kPageSize 1 0 w' = Ret (kFailure, al') w').
      { change (e0 (allocations t0)) with al'. unfold SetPages. replace (data_addr al' =? 0) with false by lia. reflexivity. }
      destruct (Begin_ReportLuns_case t0 t0 cdb bs' w' rl' Hc' Hl12 Hs eq_refl eq_refl eq_refl _ _ _ SP) as (wr & K & _).
      do 2 eexists. split; [exact K|]. discriminate. }
    destruct K as (t2 & al2 & K & Hna).
    eapply Begin_refuses; try eassumption.
    change (Begin_switch 0x5a) with (fun c (_ : span) => Begin_ModeSense10 c). cbv beta.
    unfold Begin_ModeSense10, bind at 1. change (nvme_cmd_count (started t cdb)) with (nvme_cmd_count t). rewrite Hcnt, E.
    unfold Begin_MaintenanceIn, bind at 1. rewrite Ev. exact K.
  - destruct (Validate_any cdb 0 w bs Hc H0) as (sv & rl' & Ev).
    set (t0 := set_count (set_status (set_status (set_count (set_al0 (set_wrappers (started t cdb) (nvme_wrappers t)) (e0 (allocations t))) (nvme_cmd_count t)) kFailure) sv) 0).
    destruct (ReportLuns_bad cdb bs t0 rl' w Hc ltac:(left; lia) H0) as (t2 & al & E & Hna).
    eapply Begin_refuses; try eassumption.
    change (Begin_switch 0x5a) with (fun c (_ : span) => Begin_ModeSense10 c). cbv beta.
    unfold Begin_ModeSense10, ModeSense10ToNvme, bind at 1. unfold bind at 1.
    rewrite (cdb_ReadValue_short ModeSense10Command cdb w bs Hc) by (cbn; lia). unfold ret at 1.
    unfold Begin_MaintenanceIn, bind at 1. rewrite Ev. exact E.
Qed.

(** the response function, called directly *)
Lemma mode10_response cdb bs r c p ns buffer w : span_holds w cdb bs -> (10 <= length bs)%nat ->
  known_page (ms_page bs) = true -> span_mapped w buffer ->
  (ms_dbd bs = false -> get GenericCmd "prp1" c = p /\ bytes_at w p ns /\ N.of_nat (length ns) = 4096 /\
     ns_lbads ns < 32 /\ apart p buffer) ->
  exists st w1, ModeSense10ToScsi (subspan cdb 1) c r buffer w = Ret st w1 /\
    wrote w w1 (ptr buffer) (fitting (len buffer) (mode10_data (ms10_llbaa bs)
      (if ms_dbd bs then None else Some (if ms10_llbaa bs then long_descriptor ns else short_descriptor ns))
      (ms_page bs) (N.testbit r 0))).
Proof.
  intros Hc Hl Hk Hm Hd. unfold ModeSense10ToScsi, bind at 1.
  rewrite (cdb_ReadValue ModeSense10Command cdb w bs Hc) by (cbn; lia).
  change (sizeof ModeSense10Command) with 9%nat. rewrite (attrs10_eq bs Hl).
  destruct (mode_back {| ca_page_code := ms_page bs; ca_pc := ms_pc bs; ca_dbd := ms_dbd bs; ca_llbaa := ms10_llbaa bs |} true r c p ns buffer w Hk
     ltac:(discriminate) Hm Hd) as (st & w1 & E & W).
  exists st, w1. split; [exact E|]. exact W.
Qed.
