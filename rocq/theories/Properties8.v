(** C12: Complete has no undefined behaviour. *)
From Coq Require Import Arith NArith String List Lia Bool Init.Byte Permutation.
From Coq Require Import ZifyBool ZifyNat ZifyN.
From Verif Require Import Bytes Layout World ScsiDefs NvmeDefs Common ModeSenseCmd StatusCmd SmallCmds InquiryCmd TranslationCls
  Spec RwSpec InquirySpec SmallSpec ModeSpec HistorySpec
  Facts Logic BeginFacts CompleteFacts StatusFacts RwFacts AdminFacts InquiryFacts SmallFacts ModeFacts RelFacts DefinedFacts Witness
  Properties4 Properties5 Properties6.
Import ListNotations.
Local Open Scope string_scope.
Local Open Scope list_scope.
Local Open Scope N_scope.

(** what Begin leaves behind, whatever it answered *)
Lemma Begin_leaves t cdb bs b0 lun w t1 r w1 : idle t -> span_holds w cdb bs -> Begin t cdb b0 lun w = Ret (t1, r) w1 ->
  wf t1 /\ (accepted t1 -> scsi_cmd_ t1 = cdb /\ bs <> []).
Proof.
  intros Hi Hc E. pose proof (inv_begin _ _ _ _ _ _ _ _ _ (idle_inv t Hi) E) as I. split; [apply (i_wf _ _ I)|].
  pose proof Hi as (Hs & Hn & Hh). unfold Begin in E. rewrite Hs in E. cbn [is_uninitialized negb] in E.
  destruct (len cdb =? 0) eqn:Hl.
  { unfold ret in E. injection E as <- _ _. discriminate. }
  cbv zeta in E. fold (started t cdb) in E.
  apply bind_ret_inv in E as (o & w3 & E1 & E). apply span_at_pure in E1 as ->.
  apply bind_ret_inv in E as ([t3 l] & w4 & E2 & E). apply bind_ret_inv in E as (t4 & w5 & E3 & E).
  unfold ret in E. injection E as <- _ _.
  pose proof (Begin_switch_post false o (subspan cdb 1) b0 (u32 (u32 lun + 1)) (started t cdb) 0 w (started_fresh t cdb Hi)) as P.
  specialize (P ltac:(discriminate) (no_ok_span _ _) (no_ok_span _ _)). unfold cst in P. rewrite E2 in P.
  destruct P as (evs & G & W & Hsc & Hu & _). cbn [fst] in *.
  assert (Hne : bs <> []) by (intros ->; destruct Hc as [Hc _]; cbn in Hc; rewrite Hc in Hl; discriminate).
  unfold Begin_finish in E3. destruct (is_success (pipeline_status t3)) eqn:Es; cbn [negb] in E3.
  - unfold ret in E3. injection E3 as <- _. intros _. split; assumption.
  - apply bind_ret_inv in E3 as (t5 & w6 & E3 & E5). unfold ret in E5. injection E5 as <- _.
    unfold FlushMemory in E3. apply bind_ret_inv in E3 as (al & w7 & _ & E3). unfold ret in E3. injection E3 as <- _.
    unfold accepted. cbn. intros Ha. rewrite Ha in Es. discriminate.
Qed.

Lemma abort_defined t w : wf t -> exists t' w', AbortPipeline t w = Ret t' w'.
Proof. intros W. destruct (tst_inv _ _ _ (AbortPipeline_spec t w W)) as (t' & w' & E & _). eauto. Qed.

Lemma Complete_defined t cpls buffer sense w : wf t -> span_mapped w sense ->
  (accepted t -> N.of_nat (length cpls) = nvme_cmd_count t -> Forall cpl_ok cpls ->
   exists opc w1 st w2, span_at (scsi_cmd_ t) 0 w = Ret opc w1 /\
     Complete_switch opc (subspan (scsi_cmd_ t) 1) buffer cpls t w1 = Ret st w2) ->
  exists t' r w', Complete t cpls buffer sense w = Ret (t', r) w'.
Proof.
  intros W Hm H. unfold Complete. destruct (is_uninitialized (pipeline_status t)); [do 3 eexists; reflexivity|].
  assert (A : forall (w0 : world) (x : CompleteResponse), exists t' r w', (bind (AbortPipeline t) (fun t' => ret (t', x))) w0 = Ret (t', r) w').
  { intros w0 x. unfold bind. destruct (abort_defined t w0 W) as (t' & w' & ->). do 3 eexists. reflexivity. }
  destruct (N.eqb_spec (N.of_nat (length cpls)) (nvme_cmd_count t)) as [En|En]; cbn [negb]; [|apply A].
  assert (F : forall s (x : CompleteResponse), exists t' r w', (bind (FillSenseBuffer sense s) (fun _ => bind (AbortPipeline t) (fun t' => ret (t', x)))) w = Ret (t', r) w').
  { intros s x. destruct (tst_inv _ _ _ (FillSenseBuffer_total sense s w Hm)) as (b & w1 & E & _). unfold bind at 1. rewrite E. apply A. }
  destruct (is_success (pipeline_status t)) eqn:Es; cbn [negb]; [|cbv zeta; apply F].
  destruct (first_error cpls) as [s|] eqn:Ef; [apply F|].
  destruct (pipeline_status t) eqn:Ep; try discriminate.
  destruct (H Ep En (first_error_none _ Ef)) as (opc & w1 & st & w2 & E1 & E2).
  unfold bind at 1. rewrite E1. unfold bind at 1. rewrite E2. cbv zeta. unfold bind.
  destruct (abort_defined (set_status t st) w2) as (t' & w' & ->); [exact W|]. do 3 eexists. reflexivity.
Qed.

Section Switch.
  Variable S : N -> Prop.
  Variables c buffer : span.
  Variable t : Translation.
  Hypothesis HC : forall x, in_span c x -> S x.
  Hypothesis HB : forall x, in_span buffer x -> S x.

  Lemma switch_safe opc cpls : opc <> 0x1a -> opc <> 0x5a ->
    (opc = 0x12 \/ opc = 0x25 \/ opc = 0xa0 -> page_in S (get GenericCmd "prp1" (cmd (e0 (nvme_wrappers t))))) ->
    (opc = 0x12 -> page_in S (get GenericCmd "prp1" (cmd (e1 (nvme_wrappers t))))) ->
    safe S (Complete_switch opc c buffer cpls t) any.
  Proof.
    intros N1 N2 H0 H1. unfold Complete_switch. cbv zeta.
    destruct (N.eqb_spec opc kVerify10); [apply safe_ret; exact I|].
    destruct (N.eqb_spec opc kInquiry) as [E|_]; [apply inquiry_safe; try assumption; [apply H0; left|apply H1]; exact E|].
    destruct (N.eqb_spec opc kModeSense6) as [E|_]; [contradiction|].
    destruct (N.eqb_spec opc kModeSense10) as [E|_]; [contradiction|].
    destruct (N.eqb_spec opc kMaintenanceIn) as [E|_]; [eapply safe_bind; [apply report_safe; assumption|intros; apply safe_ret; exact I]|].
    destruct (N.eqb_spec opc kReportLuns) as [E|_]; [apply luns_safe; try assumption; apply H0; right; right; exact E|].
    destruct (N.eqb_spec opc kUnmap); [apply safe_ret; exact I|].
    destruct (N.eqb_spec opc kReadCapacity10) as [E|_]; [apply capacity_safe; try assumption; apply H0; right; left; exact E|].
    destruct (N.eqb_spec opc kRequestSense); [apply sense_safe; assumption|].
    repeat match goal with |- safe _ (if ?b then _ else _) _ => destruct b end; apply safe_ret; exact I.
  Qed.
End Switch.

(** the pages named by the commands Complete looks at are pages the object holds *)
Lemma accepted_page t cdb bs b0 lun w t1 r w1 : idle t -> span_holds w cdb bs -> Begin t cdb b0 lun w = Ret (t1, r) w1 -> accepted t1 ->
  (byte_at bs 0 = 0x12 \/ byte_at bs 0 = 0x25 \/ byte_at bs 0 = 0xa0 ->
     In (get GenericCmd "prp1" (cmd (e0 (nvme_wrappers t1))), 1) (held t1)) /\
  (byte_at bs 0 = 0x12 -> In (get GenericCmd "prp1" (cmd (e1 (nvme_wrappers t1))), 1) (held t1)).
Proof.
  intros Hi Hc E Ha.
  assert (NR : ~ refuses t cdb b0 lun w).
  { intros (t2 & r2 & w2 & E2 & _ & (R & _) & _). rewrite E in E2. injection E2 as <- _ _. exact (R Ha). }
  assert (P : forall al q, one_page_pending t cdb b0 lun w al q -> In (get GenericCmd "prp1" (cmd (e0 (nvme_wrappers t1))), 1) (held t1)).
  { intros al q (t2 & w2 & E2 & [(p & evs & (_ & _ & _ & _ & Hp) & _ & _ & _ & _ & Hin)|(_ & (R & _) & _)]);
      rewrite E in E2; injection E2 as <- _ _; [rewrite Hp; exact Hin|destruct (R Ha)]. }
  assert (Q : byte_at bs 0 = 0x12 -> In (get GenericCmd "prp1" (cmd (e0 (nvme_wrappers t1))), 1) (held t1) /\
     In (get GenericCmd "prp1" (cmd (e1 (nvme_wrappers t1))), 1) (held t1)).
  { intros Ho. destruct (le_lt_dec 6 (length bs)) as [Hl|Hl]; [|destruct NR; eapply Begin_inquiry_short; eassumption].
    destruct (Begin_inquiry_case t cdb b0 lun w bs Hi Hc (conj Hl Ho)) as (t2 & w2 & E2 & [(p & q & ev1 & ev2 & (_ & _ & _ & _ & Hp & _ & Hq) & _ & _ & _ & _ & _ & _ & In1 & In2)|(_ & (R & _) & _)]);
      rewrite E in E2; injection E2 as <- _ _; [rewrite Hp, Hq; split; assumption|destruct (R Ha)]. }
  split; [|intros Ho; apply Q; exact Ho]. intros [Ho|[Ho|Ho]].
  - apply Q; exact Ho.
  - destruct (le_lt_dec 10 (length bs)) as [Hl|Hl]; [|destruct NR; eapply Begin_capacity_refuses; eauto].
    destruct (N.eq_dec (naca 9 bs) 0) as [Hn|Hn]; [eapply P, Begin_capacity; try eassumption; split; assumption|].
    destruct NR. eapply Begin_capacity_refuses; try eassumption. right. pose proof (bits_lt (byte_at bs 9) 2 1) as L. unfold naca in *. change (2 ^ 1) with 2 in L. lia.
  - destruct (le_lt_dec 12 (length bs)) as [Hl|Hl]; [|destruct NR; eapply Begin_luns_refuses; eauto].
    destruct (N.le_gt_cases (select_report bs) 2) as [Hn|Hn]; [eapply P, Begin_luns; try eassumption; split; assumption|].
    destruct NR. eapply Begin_luns_refuses; try eassumption. right. exact Hn.
Qed.

(** ** C12 *)

(** Every opcode but MODE SENSE: with the CDB still in place, the caller's
    buffers valid and the pages the object holds mapped, Complete returns - for
    every completion list (of any length and status) and page content. *)
Theorem C12_complete_defined_partial : forall t w cdb bs b0 lun t1 r w1,
  idle t -> span_holds w cdb bs -> Begin t cdb b0 lun w = Ret (t1, r) w1 -> ~ In (byte_at bs 0) [0x1a; 0x5a] ->
  forall w2 cpls buffer sense, span_holds w2 cdb bs -> span_mapped w2 buffer -> span_mapped w2 sense ->
    (forall p n, In (p, n) (held t1) -> mapped w2 p (4096 * n)) ->
    exists t2 r2 w3, Complete t1 cpls buffer sense w2 = Ret (t2, r2) w3.
Proof.
  intros t w cdb bs b0 lun t1 r w1 Hi Hc E Hex w2 cpls buffer sense Hc2 Hb Hs Hp.
  destruct (Begin_leaves t cdb bs b0 lun w t1 r w1 Hi Hc E) as [W L].
  apply Complete_defined; [exact W|exact Hs|]. intros Ha Hn Hok. destruct (L Ha) as [Hsc Hne]. rewrite Hsc.
  destruct (accepted_page t cdb bs b0 lun w t1 r w1 Hi Hc E Ha) as [P0 P1].
  exists (byte_at bs 0), w2.
  set (S := fun x => mem w2 x <> None).
  assert (Hpage : forall p, In (p, 1) (held t1) -> page_in S p).
  { intros p H x Hx. apply (Hp p 1 H). lia. }
  assert (Hcd : forall x, in_span cdb x -> S x).
  { intros x Hx. unfold S. destruct Hc2 as [Hlen Hc2]. unfold in_span in Hx. rewrite Hlen in Hx.
    destruct (nth_error bs (N.to_nat (x - ptr cdb))) as [v|] eqn:En'.
    - specialize (Hc2 _ _ En'). rewrite N2Nat.id in Hc2. replace (ptr cdb + (x - ptr cdb)) with x in Hc2 by lia. rewrite Hc2. discriminate.
    - apply nth_error_None in En'. lia. }
  assert (Sw : safe S (Complete_switch (byte_at bs 0) (subspan cdb 1) buffer cpls t1) any).
  { cbn [In] in Hex. apply switch_safe.
    - intros x Hx. apply subspan_in in Hx. auto.
    - intros x Hx. apply Hb, Hx.
    - intros Ho. apply Hex. auto.
    - intros Ho. apply Hex. auto.
    - intros Ho. apply Hpage, P0, Ho.
    - intros Ho. apply Hpage, P1, Ho. }
  destruct (tst_inv _ _ _ (Sw w2 ltac:(intros x Hx; exact Hx))) as (st & w3 & E3 & _).
  exists st, w3. split; [|exact E3]. change 0 with (N.of_nat 0) at 1. rewrite (span_at_ok w2 cdb bs 0 Hc2) by (destruct bs; [contradiction|cbn; lia]).
  reflexivity.
Qed.
Print Assumptions C12_complete_defined_partial.

(** MODE SENSE(6), when at least one command is involved and the device reports
    a block size exponent below 32 *)
Theorem C12_mode_sense6_partial : forall t w cdb bs b0 lun t1 r w1,
  idle t -> span_holds w cdb bs -> Begin t cdb b0 lun w = Ret (t1, r) w1 -> byte_at bs 0 = 0x1a ->
  ms_dbd bs = false \/ In (ms_page bs) [0x08; 0x3f] ->
  forall w2 cpls buffer sense, span_holds w2 cdb bs -> span_mapped w2 buffer -> span_mapped w2 sense ->
    (forall p, In (p, 1) (held t1) -> apart p buffer /\ exists ns, N.of_nat (length ns) = 4096 /\ bytes_at w2 p ns /\ ns_lbads ns < 32) ->
    exists t2 r2 w3, Complete t1 cpls buffer sense w2 = Ret (t2, r2) w3.
Proof.
  intros t w cdb bs b0 lun t1 r w1 Hi Hc E Ho Hcmd w2 cpls buffer sense Hc2 Hb Hs Hp.
  destruct (Begin_leaves t cdb bs b0 lun w t1 r w1 Hi Hc E) as [W _].
  assert (D : (accepted t1 /\ N.of_nat (length cpls) = nvme_cmd_count t1 /\ Forall cpl_ok cpls) \/
              ~ (accepted t1 /\ N.of_nat (length cpls) = nvme_cmd_count t1 /\ Forall cpl_ok cpls)).
  { assert (D1 : accepted t1 \/ ~ accepted t1) by (unfold accepted; destruct (pipeline_status t1); auto; right; discriminate).
    assert (D2 : Forall cpl_ok cpls \/ ~ Forall cpl_ok cpls).
    { destruct (first_error cpls) eqn:Ef; [right; intros X; rewrite (first_error_ok cpls X) in Ef; discriminate|left; apply first_error_none; exact Ef]. }
    destruct D1, D2, (N.eq_dec (N.of_nat (length cpls)) (nvme_cmd_count t1)); tauto. }
  destruct D as [(Ha & Hn & Hok)|D].
  2:{ apply Complete_defined; [exact W|exact Hs|]. intros A1 A2 A3. destruct D. auto. }
  assert (Hl : (6 <= length bs)%nat).
  { destruct (le_lt_dec 6 (length bs)) as [Hl|Hl]; [exact Hl|exfalso].
    destruct (Begin_mode6_short t cdb b0 lun w bs Hi Hc Ho Hl) as (t2 & r2 & w3 & E2 & _ & (R & _) & _). rewrite E in E2. injection E2 as <- _ _. exact (R Ha). }
  destruct (Begin_mode6 t cdb b0 lun w bs Hi Hc (conj Hl Ho)) as (t' & w' & E' & C).
  rewrite E in E'. injection E' as -> -> ->.
  destruct (mode_ok (ms_page bs) (ms_pc bs)) eqn:Hmo.
  2:{ destruct C as ([C _] & _). destruct (C Ha). }
  assert (Hk : known_page (ms_page bs) = true) by (unfold mode_ok in Hmo; apply andb_true_iff in Hmo; tauto).
  assert (P : exists p, mode_pending t' cdb p (nvme_cmd_count t') /\ nvme_cmd_count t' <> 0 /\
     (ms_dbd bs = false -> exists a, p = Some a /\ In (a, 1) (held t'))).
  { destruct (ms_dbd bs) eqn:Hd.
    - destruct C as (_ & _ & P & _). exists None. pose proof P as (_ & _ & _ & Pn & _). split; [rewrite Pn at 1; exact P|]. split; [|discriminate].
      rewrite Pn. destruct Hcmd as [Hcmd|Hcmd]; [discriminate|].
      assert (Hnc : needs_cache (ms_page bs) = true) by (unfold needs_cache; cbn [In] in Hcmd; lia).
      unfold mode_ok in Hmo. rewrite Hnc in Hmo. cbn [negb orb] in Hmo. unfold ms_cmds, cache_cmds. rewrite Hnc.
      destruct (sel_of (ms_pc bs)); [discriminate|rewrite andb_false_r in Hmo; discriminate].
    - destruct C as [(p & evs & _ & _ & _ & P & _ & Hin)|(_ & [C _] & _)]; [|destruct (C Ha)].
      exists (Some p). pose proof P as (_ & _ & _ & Pn & _). split; [rewrite Pn at 1; exact P|]. split; [|eauto]. rewrite Pn. discriminate. }
  destruct P as (p & P & Hz & Hpd). destruct cpls as [|cpl cpls]; [cbn in Hn; lia|].
  assert (Q : exists ns, ms_dbd bs = false -> exists a, p = Some a /\ bytes_at w2 a ns /\ N.of_nat (length ns) = 4096 /\ ns_lbads ns < 32 /\ apart a buffer).
  { destruct (ms_dbd bs); [exists []; discriminate|]. destruct (Hpd eq_refl) as (a & -> & Hin).
    destruct (Hp a Hin) as (Hap & ns & N1 & N2 & N3). exists ns. intros _. exists a. auto. }
  destruct Q as (ns & Q).
  destruct (mode_complete6 t' cdb p _ bs ns cpl cpls buffer sense w2 P Hc2 (conj Hl Ho) Hk Hn Hok Hb Q) as (t2 & w3 & E3 & _). eauto.
Qed.
Print Assumptions C12_mode_sense6_partial.

(** MODE SENSE(10) with a CDB of its standard length *)
Theorem C12_mode_sense10_partial : forall t w cdb bs b0 lun t1 r w1,
  idle t -> span_holds w cdb bs -> Begin t cdb b0 lun w = Ret (t1, r) w1 -> byte_at bs 0 = 0x5a -> (length bs < 12)%nat ->
  forall w2 cpls buffer sense, span_mapped w2 sense ->
    exists t2 r2 w3, Complete t1 cpls buffer sense w2 = Ret (t2, r2) w3.
Proof.
  intros t w cdb bs b0 lun t1 r w1 Hi Hc E Ho Hl w2 cpls buffer sense Hs.
  destruct (Begin_leaves t cdb bs b0 lun w t1 r w1 Hi Hc E) as [W _].
  apply Complete_defined; [exact W|exact Hs|]. intros Ha _ _. exfalso.
  destruct (C36_mode_sense10_refuted t cdb b0 lun w bs Hi Hc Ho (or_introl Hl)) as (t2 & r2 & w3 & E2 & _ & (R & _) & _).
  rewrite E in E2. injection E2 as <- _ _. exact (R Ha).
Qed.
Print Assumptions C12_mode_sense10_partial.

(** MODE SENSE(6) with DBD set for the control or power condition page: Begin
    accepts, exposes no command, and Complete indexes the empty completion list *)
Theorem C12_no_completion_refuted : forall t w cdb bs b0 lun t1 r w1,
  idle t -> span_holds w cdb bs -> (6 <= length bs)%nat -> byte_at bs 0 = 0x1a -> ms_dbd bs = true -> In (ms_page bs) [0x0a; 0x1a] ->
  Begin t cdb b0 lun w = Ret (t1, r) w1 ->
  accepted t1 /\ exposes t1 = [] /\
  forall w2 buffer sense, span_holds w2 cdb bs -> exists s, Complete t1 [] buffer sense w2 = UB s.
Proof. exact C35_no_command_refuted. Qed.
Print Assumptions C12_no_completion_refuted.

(** MODE SENSE(6) with a block descriptor, on a namespace whose block size
    exponent is 32 or more: an over-wide shift *)
Theorem C12_shift_refuted : forall t w cdb bs b0 lun t1 r w1,
  idle t -> span_holds w cdb bs -> (6 <= length bs)%nat -> byte_at bs 0 = 0x1a -> ms_dbd bs = false ->
  Begin t cdb b0 lun w = Ret (t1, r) w1 -> accepted t1 ->
  exists p, map wire_of (exposes t1) =
     map admin_wire (identify_sqe 0 (nsid_of lun) p :: cache_cmds lun (ms_page bs) (ms_pc bs)) /\
  forall w2 cpls ns buffer sense, length cpls = length (exposes t1) -> Forall cpl_ok cpls -> span_holds w2 cdb bs -> span_mapped w2 buffer ->
    bytes_at w2 p ns -> N.of_nat (length ns) = 4096 -> 32 <= ns_lbads ns -> apart p buffer -> 8 <= len buffer ->
    exists s, Complete t1 cpls buffer sense w2 = UB s.
Proof. exact C35_block_size_refuted. Qed.
Print Assumptions C12_shift_refuted.

(** executed: an INQUIRY that meets the premises returns; the undefined cases,
    last a 12-byte MODE SENSE(10) that runs off the end of a function *)
Definition mode_ns (lbads : N) : list byte := repeat x00 130 ++ B [lbads] ++ repeat x00 3965.
Example C12_run :
  api_run xff (B [0x12; 0; 0; 0; 36; 0]) [repeat x00 4096; repeat x00 4096] [0; 0] 0 36 1 = Some (36, 2%nat, GOOD, B [0]) /\
  api_run xff (B [0x12; 1; 0x80; 0; 36; 0]) [repeat xff 4096; repeat xff 4096] [0; 0] 0 3 1 = Some (36, 2%nat, GOOD, B [0]) /\
  ns_lbads (mode_ns 31) = 31 /\ ns_lbads (mode_ns 32) = 32 /\
  api_run xff (B [0x1a; 0; 0x0a; 0; 36; 0]) [mode_ns 31] [0] 0 64 1 = Some (36, 1%nat, GOOD, B [23]) /\
  api_run xff (B [0x1a; 0; 0x0a; 0; 36; 0]) [mode_ns 32] [0] 0 64 1 = None /\
  api_run xff (B [0x1a; 8; 0x0a; 0; 36; 0]) [] [] 0 64 1 = None /\
  api_run xff (B [0x5a; 8; 0; 0; 0; 0; 0; 0; 36; 0; 0; 0]) [] [0] 0 64 1 = None.
Proof. repeat split; vm_compute; reflexivity. Qed.
