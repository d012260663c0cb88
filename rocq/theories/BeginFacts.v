(** Begin: definedness, frame, bookkeeping of commands and pages; flushing. *)
From Coq Require Import Arith NArith String List Lia Bool Init.Byte Permutation.
From Coq Require Import ZifyBool ZifyNat ZifyN.
From Verif Require Import Bytes Layout World ScsiDefs NvmeDefs Common ReadCmds WriteCmds SmallCmds
  UnmapCmd StatusCmd ModeSenseCmd InquiryCmd TranslationCls Spec Facts Logic.
Import ListNotations.
Local Open Scope string_scope.
Local Open Scope list_scope.
Local Open Scope N_scope.

(** ** Flushing *)
Definition releases (l : list (N * N)) : list event := map (fun p => EvDealloc (fst p) (snd p)) l.

Record released (w w' : world) (l : list (N * N)) : Prop := {
  r_mem : mem w' = mem w;
  r_tick : tick w' = tick w;
  r_cfg : same_cfg w w';
  r_trace : trace w' = trace w ++ (if dealloc_cb w then releases l else [])
}.
Lemma released_nil w : released w w [].
Proof. constructor; auto using same_cfg_refl. destruct (dealloc_cb w); cbn; rewrite app_nil_r; reflexivity. Qed.
Lemma released_trans w1 w2 w3 l1 l2 :
  released w1 w2 l1 -> released w2 w3 l2 -> released w1 w3 (l1 ++ l2).
Proof.
  intros [A1 B1 C1 D1] [A2 B2 C2 D2]. constructor; try congruence.
  - eapply same_cfg_trans; eassumption.
  - rewrite D2, D1, (sc_dealloc _ _ C1), <- app_assoc. f_equal. destruct (dealloc_cb w1); [|reflexivity].
    unfold releases. rewrite map_app. reflexivity.
Qed.
Lemma released_framed P w w' : released w w' [] -> framed P w w'.
Proof.
  intros [A _ B C]. constructor; rewrite ?A; auto. rewrite C.
  destruct (dealloc_cb w); cbn; apply app_nil_r.
Qed.

Lemma DeallocPages_spec a n w : tst (DeallocPages a n) w (fun _ w' => released w w' [(a, n)]).
Proof.
  unfold tst, DeallocPages. destruct (dealloc_cb w) eqn:E; cbn [negb].
  - constructor; cbn; try reflexivity. + constructor; reflexivity. + rewrite E. reflexivity.
  - constructor; auto using same_cfg_refl. rewrite E, app_nil_r. reflexivity.
Qed.

Lemma FlushOne_spec a w :
  tst (FlushOne a) w (fun a' w' => empty_alloc a' /\ released w w' (held_by a)).
Proof.
  unfold FlushOne, held_by. apply tst_bind.
  destruct (N.eqb_spec (data_addr a) 0) as [Ed|Ed]; cbn [negb].
  - apply tst_ret. destruct (N.eqb_spec (mdata_addr a) 0) as [Em|Em]; cbn [negb app].
    + apply tst_ret. split; [split; assumption|apply released_nil].
    + apply tst_bind. eapply tst_mono; [apply DeallocPages_spec|]. intros u w1 R. apply tst_ret.
      split; [split; [exact Ed|reflexivity]|exact R].
  - apply tst_bind. eapply tst_mono; [apply DeallocPages_spec|]. intros u w1 R. apply tst_ret.
    cbn [data_addr mdata_addr data_page_count mdata_page_count].
    destruct (N.eqb_spec (mdata_addr a) 0) as [Em|Em]; cbn [negb app].
    + apply tst_ret. split; [split; [reflexivity|exact Em]|exact R].
    + apply tst_bind. eapply tst_mono; [apply DeallocPages_spec|]. intros u2 w2 R2. apply tst_ret.
      split; [split; reflexivity|]. exact (released_trans _ _ _ _ _ R R2).
Qed.

(** at most three commands, and no pages in the slots beyond them *)
Definition wf (t : Translation) : Prop :=
  nvme_cmd_count t <= 3 /\
  (nvme_cmd_count t <= 0 -> held_by (e0 (allocations t)) = []) /\
  (nvme_cmd_count t <= 1 -> held_by (e1 (allocations t)) = []) /\
  (nvme_cmd_count t <= 2 -> held_by (e2 (allocations t)) = []).

Definition all_empty (al : arr3 Allocation) : Prop :=
  held_by (e0 al) = [] /\ held_by (e1 al) = [] /\ held_by (e2 al) = [].

Lemma held_nil t : held t = [] <-> all_empty (allocations t).
Proof.
  unfold held, all_empty. split.
  - intros H. apply app_eq_nil in H as [H1 H]. apply app_eq_nil in H as [H2 H3]. auto.
  - intros (-> & -> & ->). reflexivity.
Qed.

Lemma n_le_3 n : n <= 3 -> n = 0 \/ n = 1 \/ n = 2 \/ n = 3. Proof. lia. Qed.

Lemma FlushMemory_spec t w : wf t ->
  tst (FlushMemory t) w (fun t' w' =>
    released w w' (held t) /\ all_empty (allocations t') /\
    t' = set_allocations t (allocations t')).
Proof.
  intros (Hn & H0 & H1 & H2). unfold FlushMemory, held. apply tst_bind.
  destruct (n_le_3 _ Hn) as [E|[E|[E|E]]]; rewrite E in *.
  - change (N.to_nat 0) with 0%nat. cbn [FlushLoop]. apply tst_ret. apply tst_ret.
    rewrite H0, H1, H2 by lia. split; [apply released_nil|]. cbn. split; [|reflexivity].
    unfold all_empty. rewrite H0, H1, H2 by lia. auto.
  - change (N.to_nat 1) with 1%nat. cbn [FlushLoop aget].
    apply tst_bind. eapply tst_mono; [apply FlushOne_spec|]. intros a w1 [Ea R1].
    apply tst_ret. apply tst_ret. rewrite H1, H2 by lia. cbn [aset e0 e1 e2 app].
    rewrite app_nil_r. split; [exact R1|]. split; [|reflexivity].
    unfold all_empty. cbn. rewrite H1, H2 by lia. apply empty_held in Ea. auto.
  - change (N.to_nat 2) with 2%nat. cbn [FlushLoop aget].
    apply tst_bind. eapply tst_mono; [apply FlushOne_spec|]. intros a w1 [Ea R1].
    cbv beta. change (0 + 1) with 1. cbn [aget aset e0 e1 e2].
    apply tst_bind. eapply tst_mono; [apply FlushOne_spec|]. intros a' w2 [Ea' R2].
    apply tst_ret. apply tst_ret. rewrite H2 by lia. cbn [aset e0 e1 e2].
    rewrite app_nil_r. split; [exact (released_trans _ _ _ _ _ R1 R2)|]. split; [|reflexivity].
    unfold all_empty. cbn. rewrite H2 by lia. apply empty_held in Ea. apply empty_held in Ea'. auto.
  - change (N.to_nat 3) with 3%nat. cbn [FlushLoop aget].
    apply tst_bind. eapply tst_mono; [apply FlushOne_spec|]. intros a w1 [Ea R1].
    cbv beta. change (0 + 1) with 1. cbn [aget aset e0 e1 e2].
    apply tst_bind. eapply tst_mono; [apply FlushOne_spec|]. intros a' w2 [Ea' R2].
    cbv beta. change (1 + 1) with 2. cbn [aget aset e0 e1 e2].
    apply tst_bind. eapply tst_mono; [apply FlushOne_spec|]. intros a'' w3 [Ea'' R3].
    apply tst_ret. apply tst_ret. cbn [aset e0 e1 e2].
    split; [exact (released_trans _ _ _ _ _ R1 (released_trans _ _ _ _ _ R2 R3))|]. split; [|reflexivity].
    unfold all_empty. cbn. apply empty_held in Ea. apply empty_held in Ea'. apply empty_held in Ea''. auto.
Qed.

Lemma AbortPipeline_spec t w : wf t ->
  tst (AbortPipeline t) w (fun t' w' => idle t' /\ released w w' (held t)).
Proof.
  intros H. unfold AbortPipeline. cbv zeta. apply tst_bind.
  eapply tst_mono; [apply FlushMemory_spec; exact H|].
  intros t' w' (R & E & S). apply tst_ret. split; [|exact R].
  rewrite S. split; [reflexivity|]. split; [reflexivity|]. apply held_nil. exact E.
Qed.

(** ** The switch of Begin *)

(** what every case guarantees, starting from an object without commands and
    pages *)
Definition switch_post (w : world) (t : Translation) (r : Translation * N) (w' : world) : Prop :=
  exists evs, grows w w' evs /\ wf (fst r) /\ scsi_cmd_ (fst r) = scsi_cmd_ t /\
    (pipeline_status (fst r) <> kUninitialized) /\
    (zero_ok w -> Permutation (held (fst r)) (acquired evs)).

Definition fresh (t : Translation) : Prop := nvme_cmd_count t = 0 /\ held t = [].

Ltac destr_triple := repeat match goal with x : (_ * _)%type |- _ => destruct x end.

Lemma wf_fresh t : fresh t -> wf t.
Proof.
  intros [Hc Hh]. apply held_nil in Hh as (H0 & H1 & H2). unfold wf. rewrite Hc.
  split; [lia|]. auto.
Qed.

(** cases that touch neither pages nor memory *)
Lemma switch_post_plain w t t' rl : fresh t -> allocations t' = allocations t ->
  nvme_cmd_count t' <= 3 -> scsi_cmd_ t' = scsi_cmd_ t -> pipeline_status t' <> kUninitialized ->
  switch_post w t (t', rl) w.
Proof.
  intros [Hc Hh] Ea Hn Es Hp. exists []. split; [apply grows_refl|]. cbn [fst].
  apply held_nil in Hh as (H0 & H1 & H2). rewrite <- Ea in *.
  split; [unfold wf; auto|]. split; [exact Es|]. split; [exact Hp|].
  intros _. unfold held. rewrite H0, H1, H2. constructor.
Qed.

Lemma empty_data a : held_by a = [] -> data_addr a = 0.
Proof. intros H. apply empty_held in H as [H _]. exact H. Qed.
Lemma empty_mdata a : held_by a = [] -> mdata_addr a = 0.
Proof. intros H. apply empty_held in H as [_ H]. exact H. Qed.

(** a command that may put one page in slot 0 *)
Definition one_page (w : world) (al al' : Allocation) (w' : world) : Prop :=
  exists evs, grows w w' evs /\
    (zero_ok w -> mdata_addr al = 0 ->
     mdata_addr al' = 0 /\ Permutation (held_by al') (acquired evs ++ held_by al)).

Lemma one_page_refl w al : one_page w al al w.
Proof. exists []. split; [apply grows_refl|]. intros _ H. split; [exact H|apply Permutation_refl]. Qed.

Lemma one_page_trans w1 w2 w3 a1 a2 a3 : one_page w1 a1 a2 w2 -> one_page w2 a2 a3 w3 -> one_page w1 a1 a3 w3.
Proof.
  intros (e1 & G1 & P1) (e2 & G2 & P2). exists (e1 ++ e2). split; [eapply grows_trans; eassumption|].
  intros Hz Hm. destruct (P1 Hz Hm) as [Hm2 Q1].
  destruct (P2 (zero_ok_cfg _ _ (g_cfg _ _ _ G1) Hz) Hm2) as [Hm3 Q2]. split; [exact Hm3|].
  rewrite Q2, Q1, acquired_app, app_assoc. apply Permutation_app_tail. apply Permutation_app_comm.
Qed.

Lemma SetPages1_page al ps w : ps = 4096 ->
  tst (SetPages al ps 1 0) w (fun r w' =>
    one_page w al (snd r) w' /\
    ((fst r = kSuccess /\ data_addr al = 0 /\ data_addr (snd r) <> 0 /\ data_page_count (snd r) = 1 /\
      data_addr (snd r) < 2 ^ 64 /\ mapped w' (data_addr (snd r)) ps) \/
     (fst r = kFailure /\ data_addr al = 0 /\ data_addr (snd r) = 0) \/
     (fst r = kFailure /\ data_addr al <> 0 /\ snd r = al /\ w' = w))).
Proof.
  intros Hps. eapply tst_mono; [apply SetPages1_spec; exact Hps|]. intros [st al'] w' (evs & G & C & L). cbn [fst snd].
  split; [exists evs; auto|]. destruct C as [C|[C|C]]; tauto.
Qed.

Lemma one_page_spans w al al' w' s : one_page w al al' w' -> span_mapped w s -> span_mapped w' s.
Proof. intros (evs & G & _). apply (grows_span _ _ _ _ G). Qed.

(** lifting to the object *)
Lemma one_page_switch w t t' rl w' : fresh t ->
  one_page w (e0 (allocations t)) (e0 (allocations t')) w' ->
  e1 (allocations t') = e1 (allocations t) -> e2 (allocations t') = e2 (allocations t) ->
  1 <= nvme_cmd_count t' <= 3 -> scsi_cmd_ t' = scsi_cmd_ t -> pipeline_status t' <> kUninitialized ->
  switch_post w t (t', rl) w'.
Proof.
  intros [Hc Hh] (evs & G & L) E1 E2 Hn Es Hp. exists evs. split; [exact G|]. cbn [fst].
  apply held_nil in Hh as (H0 & H1 & H2).
  split.
  { unfold wf. rewrite E1, E2. repeat split; try lia; intros; auto. }
  split; [exact Es|]. split; [exact Hp|]. intros Hz.
  unfold held. rewrite E1, E2, H1, H2, app_nil_r.
  destruct (L Hz (empty_mdata _ H0)) as [_ Q]. rewrite Q, H0, app_nil_r. apply Permutation_refl.
Qed.

Section Cases.
Variable T : bool.

Lemma subspan_ok w s n : ok_span T w s -> ok_span T w (subspan s n).
Proof. intros H HT. apply subspan_mapped, H, HT. Qed.
Lemma one_page_ok w al al' w' s : one_page w al al' w' -> ok_span T w s -> ok_span T w' s.
Proof. intros O H HT. eapply one_page_spans; [exact O|]. apply H, HT. Qed.

(** *** individual commands *)
Lemma LegacyRead_status wr nsid tl ls b : fst (fst (LegacyRead wr nsid tl ls b)) <> kUninitialized.
Proof. unfold LegacyRead. cbv zeta. destruct (len b <? _); discriminate. Qed.

Lemma Read_status a b c d e f g h : fst (fst (Read a b c d e f g h)) <> kUninitialized.
Proof.
  unfold Read. destruct (c =? 0); [discriminate|]. destruct (0xffff <? c); [discriminate|].
  cbv zeta. pose proof (LegacyRead_status d e (u16 (N.land c 0xffff)) f g) as H.
  destruct (LegacyRead _ _ _ _ _) as [[st w1] al]. cbn in H.
  destruct st; try discriminate; try contradiction. destruct (BuildPrinfo a); discriminate.
Qed.

Definition pure_read (f : span -> NvmeCmdWrapper -> N -> N -> span -> N -> M (StatusCode * NvmeCmdWrapper * N)) : Prop :=
  forall c wr nsid ls b al w, ok_span T w c ->
  cst T (f c wr nsid ls b al) w (fun r w' => w' = w /\ fst (fst r) <> kUninitialized).

Lemma pure_read_intro L (body : N -> NvmeCmdWrapper -> N -> N -> span -> N -> StatusCode * NvmeCmdWrapper * N) :
  (forall c wr nsid ls b al, fst (fst (body c wr nsid ls b al)) <> kUninitialized) ->
  pure_read (fun c wr nsid ls b al => o <- ReadValue L c ;;
    ret match o with None => (kInvalidInput, wr, al) | Some v => body v wr nsid ls b al end).
Proof.
  intros H c wr nsid ls b al w Hc. apply cst_bind. eapply cst_mono; [apply (ReadValue_cst T L c w Hc)|]. intros o w_ ->. cbv beta. apply cst_ret. split; [reflexivity|]. destruct o; [apply H|discriminate].
Qed.

Lemma Read6_pure : pure_read Read6ToNvme.
Proof.
  apply (pure_read_intro Read6Command (fun c wr nsid ls b _ => Read6_body c wr nsid ls b)).
  intros. unfold Read6_body. cbv zeta.
  match goal with |- context [LegacyRead ?a ?b ?c ?d ?e] => pose proof (LegacyRead_status a b c d e) as H;
    destruct (LegacyRead a b c d e) as [[st w1] al'] end.
  cbn in H. destruct st; try discriminate; try contradiction.
Qed.
Ltac read_pure L body :=
  apply (pure_read_intro L body); intros; unfold body;
  match goal with |- context [Read ?a ?b ?c ?d ?e ?f ?g ?h] => let H := fresh in pose proof (Read_status a b c d e f g h) as H;
    destruct (Read a b c d e f g h) as [[[] w1] al']; cbn in H; try discriminate; try contradiction end.
Lemma Read10_pure : pure_read Read10ToNvme. Proof. read_pure Read10Command Read10_body. Qed.
Lemma Read12_pure : pure_read Read12ToNvme. Proof. read_pure Read12Command Read12_body. Qed.
Lemma Read16_pure : pure_read Read16ToNvme. Proof. read_pure Read16Command Read16_body. Qed.

Lemma Begin_Read_post f c buffer nsid t rl w : pure_read f -> fresh t -> ok_span T w c ->
  cst T (Begin_Read f c buffer nsid t rl) w (switch_post w t).
Proof.
  intros Hf Ht Hc. unfold Begin_Read. apply cst_bind. eapply cst_mono; [apply Hf; exact Hc|].
  intros [[st wr] rl'] w' [-> Hs]. cbv zeta. apply cst_ret.
  apply switch_post_plain; auto. cbn. lia.
Qed.

Definition pure_write (f : span -> NvmeCmdWrapper -> N -> span -> M (StatusCode * NvmeCmdWrapper)) : Prop :=
  forall c wr nsid b w, ok_span T w c ->
  cst T (f c wr nsid b) w (fun r w' => w' = w /\ fst r <> kUninitialized).

Lemma pure_write_intro L (body : N -> NvmeCmdWrapper -> N -> span -> StatusCode * NvmeCmdWrapper) :
  (forall c wr nsid b, fst (body c wr nsid b) <> kUninitialized) ->
  pure_write (fun c wr nsid b => o <- ReadValue L c ;;
    ret match o with None => (kInvalidInput, wr) | Some v => body v wr nsid b end).
Proof.
  intros H c wr nsid b w Hc. apply cst_bind. eapply cst_mono; [apply (ReadValue_cst T L c w Hc)|]. intros o w_ ->. cbv beta. apply cst_ret. split; [reflexivity|]. destruct o; [apply H|discriminate].
Qed.
Lemma Write_status a b c d e f : fst (Write a b c d e f) <> kUninitialized.
Proof. unfold Write. destruct (c =? 0); [discriminate|]. cbv zeta. destruct (BuildPRInfo b); discriminate. Qed.
Lemma Write6_pure : pure_write Write6ToNvme.
Proof. apply (pure_write_intro Write6Command Write6_body). intros. discriminate. Qed.
Ltac write_pure L body :=
  apply (pure_write_intro L body); intros; unfold body;
  match goal with |- context [Write ?a ?b ?c ?d ?e ?f] => let H := fresh in pose proof (Write_status a b c d e f) as H;
    destruct (Write a b c d e f) as [[] w1]; cbn in H; try discriminate; try contradiction end.
Lemma Write10_pure : pure_write Write10ToNvme. Proof. write_pure Write10Command Write10_body. Qed.
Lemma Write12_pure : pure_write Write12ToNvme. Proof. write_pure Write12Command Write12_body. Qed.
Lemma Write16_pure : pure_write Write16ToNvme. Proof. write_pure Write16Command Write16_body. Qed.

Lemma Begin_Write_post f c buffer nsid t rl w : pure_write f -> fresh t -> ok_span T w c ->
  cst T (Begin_Write f c buffer nsid t rl) w (switch_post w t).
Proof.
  intros Hf Ht Hc. unfold Begin_Write. apply cst_bind. eapply cst_mono; [apply Hf; exact Hc|].
  intros [st wr] w' [-> Hs]. cbv zeta. apply cst_ret.
  apply switch_post_plain; auto. cbn. lia.
Qed.

Lemma Begin_Verify10_post c t rl w : fresh t -> ok_span T w c ->
  cst T (Begin_Verify10 c t rl) w (switch_post w t).
Proof.
  intros Ht Hc. unfold Begin_Verify10, VerifyToNvme. apply cst_bind, cst_bind.
  eapply cst_mono; [apply (ReadValue_cst T Verify10Command c w Hc)|]. intros o w_ ->. cbv beta.
  apply cst_ret.
  assert (H : fst (match o with None => (kInvalidInput, e0 (nvme_wrappers t))
                  | Some v => Verify_body v (e0 (nvme_wrappers t)) end) <> kUninitialized).
  { destruct o as [v|]; [|discriminate]. unfold Verify_body.
    destruct (_ =? 0); [discriminate|]. destruct (_ =? 1); discriminate. }
  destruct (match o with None => _ | Some v => _ end) as [st wr]. cbn in H. cbv zeta. apply cst_ret.
  apply switch_post_plain; auto. cbn. lia.
Qed.

Lemma Begin_RequestSense_post c t rl w : fresh t -> ok_span T w c ->
  cst T (Begin_RequestSense c t rl) w (switch_post w t).
Proof.
  intros Ht Hc. unfold Begin_RequestSense, RequestSenseToNvme. apply cst_bind, cst_bind.
  eapply cst_mono; [apply (ReadValue_cst T RequestSenseCommand c w Hc)|]. intros o w_ ->. cbv beta.
  apply cst_ret. destruct Ht as [Ht1 Ht2].
  destruct o as [v|]; [destruct (_ =? 1)|]; apply cst_ret; apply switch_post_plain; auto;
    try (split; assumption); try discriminate; cbn; rewrite Ht1; lia.
Qed.

(** commands that set up one identify page *)
Lemma ReportLunsToNvme_page c wr al rl w : ok_span T w c ->
  cst T (ReportLunsToNvme c wr 4096 al rl) w (fun r w' =>
    one_page w al (snd (fst r)) w' /\ fst (fst (fst r)) <> kUninitialized).
Proof.
  intros Hc. unfold ReportLunsToNvme. apply cst_bind.
  eapply cst_mono; [apply (ReadValue_cst T ReportLunsCommand c w Hc)|]. intros o w_ ->. cbv beta.
  destruct o as [v|]; [|apply cst_ret; split; [apply one_page_refl|discriminate]].
  cbv zeta. destruct (_ && _ && _); [apply cst_ret; split; [apply one_page_refl|discriminate]|].
  apply cst_bind. eapply cst_mono; [apply tst_cst, SetPages1_page; reflexivity|]. intros [st al'] w' [O _]. cbn in O.
  destruct (is_failure st); apply cst_ret; cbn; split; try exact O; discriminate.
Qed.

Lemma Begin_ReportLuns_post_gen c t0 t rl w0 w : fresh t0 -> ok_span T w c ->
  one_page w0 (e0 (allocations t0)) (e0 (allocations t)) w ->
  e1 (allocations t) = e1 (allocations t0) -> e2 (allocations t) = e2 (allocations t0) ->
  scsi_cmd_ t = scsi_cmd_ t0 ->
  cst T (Begin_ReportLuns c t rl) w (switch_post w0 t0).
Proof.
  intros Ht Hc O0 E1 E2 Es. unfold Begin_ReportLuns. apply cst_bind.
  eapply cst_mono; [apply ReportLunsToNvme_page; exact Hc|].
  intros [[[st wr] al] rl'] w' [O Hs]. cbn in O, Hs. cbv zeta. apply cst_ret.
  apply one_page_switch; cbn; auto; [|lia].
  eapply one_page_trans; eassumption.
Qed.
Lemma Begin_ReportLuns_post c t rl w : fresh t -> ok_span T w c ->
  cst T (Begin_ReportLuns c t rl) w (switch_post w t).
Proof. intros. apply Begin_ReportLuns_post_gen; auto. apply one_page_refl. Qed.

Lemma Begin_MaintenanceIn_post_gen c t0 t rl w0 w : fresh t0 -> ok_span T w c ->
  one_page w0 (e0 (allocations t0)) (e0 (allocations t)) w ->
  e1 (allocations t) = e1 (allocations t0) -> e2 (allocations t) = e2 (allocations t0) ->
  scsi_cmd_ t = scsi_cmd_ t0 ->
  cst T (Begin_MaintenanceIn c t rl) w (switch_post w0 t0).
Proof.
  intros Ht Hc O0 E1 E2 Es. unfold Begin_MaintenanceIn, ValidateReportSupportedOpCodes. apply cst_bind, cst_bind.
  eapply cst_mono; [apply (ReadValue_cst T ReportOpCodesCommand c w Hc)|]. intros o w_ ->. cbv beta.
  apply cst_ret.
  destruct (match o with None => _ | Some v => _ end) as [st rl']. cbv zeta.
  apply Begin_ReportLuns_post_gen; auto.
Qed.
Lemma Begin_MaintenanceIn_post c t rl w : fresh t -> ok_span T w c ->
  cst T (Begin_MaintenanceIn c t rl) w (switch_post w t).
Proof. intros. apply Begin_MaintenanceIn_post_gen; auto. apply one_page_refl. Qed.

Lemma Begin_ReadCapacity10_post c nsid t rl w : fresh t -> ok_span T w c ->
  cst T (Begin_ReadCapacity10 c nsid t rl) w (switch_post w t).
Proof.
  intros Ht Hc. unfold Begin_ReadCapacity10. apply cst_bind.
  eapply (cst_mono T _ _ (fun r w' => one_page w (e0 (allocations t)) (snd (fst r)) w' /\ fst (fst (fst r)) <> kUninitialized)).
  - unfold ReadCapacity10ToNvme. apply cst_bind.
    eapply cst_mono; [apply (ReadValue_cst T ReadCapacity10Command c w Hc)|]. intros o w_ ->. cbv beta.
    destruct o as [v|]; [|apply cst_ret; split; [apply one_page_refl|discriminate]].
    destruct (_ =? 1); [apply cst_ret; split; [apply one_page_refl|discriminate]|].
    cbv zeta. apply cst_bind. eapply cst_mono; [apply tst_cst, SetPages1_page; reflexivity|]. intros [st al'] w' [O C]. cbn in O, C.
    destruct (is_success st) eqn:Es; cbn [negb]; apply cst_ret; cbn; split; try exact O; try discriminate.
    destruct C as [C|[C|C]]; destruct C as [-> _]; discriminate.
  - intros [[[st wr] al] rl'] w' [O Hs]. cbn in O, Hs. cbv zeta. apply cst_ret.
    apply one_page_switch; cbn; auto; lia.
Qed.

(** MODE SENSE *)
Lemma aget_some {A} (a : arr3 A) i : i <= 2 -> exists x, aget a i = Some x.
Proof.
  intros H. assert (i = 0 \/ i = 1 \/ i = 2) as [->|[->| ->]] by lia; eexists; reflexivity.
Qed.

Lemma ModeSenseToNvme_page a wrs al nsid n w : n <= 1 ->
  cst T (ModeSenseToNvme a wrs al 4096 nsid n) w (fun r w' =>
    let '(st, _, al', n') := r in
    one_page w al al' w' /\ st <> kUninitialized /\ n <= n' <= n + 2 /\ (n' = n -> al' = al)).
Proof.
  intros Hn. unfold ModeSenseToNvme. apply cst_bind.
  eapply (cst_mono T _ _ (fun r w' => let '(st, _, al', n') := r in
    one_page w al al' w' /\ st <> kUninitialized /\ n <= n' <= n + 1 /\ (n' = n -> al' = al))).
  - destruct (ca_dbd a).
    + apply cst_ret. split; [apply one_page_refl|]. split; [discriminate|]. split; [lia|auto].
    + destruct (aget_some wrs n) as [wr ->]; [lia|].
      unfold GenerateBlockDescriptorIdentifyCmd. cbv zeta. apply cst_bind, cst_bind.
      eapply cst_mono; [apply tst_cst, SetPages1_page; reflexivity|]. intros [st al'] w' [O C]. cbn in O, C.
      destruct (is_failure st); apply cst_ret; apply cst_ret; (split; [exact O|]);
        (split; [discriminate|]); split; lia.
  - intros [[[st wrs'] al'] n'] w' (O & Hs & Hb & He).
    destruct (is_success st); cbn [negb].
    2:{ apply cst_ret. split; [exact O|]. split; [exact Hs|]. split; [lia|exact He]. }
    destruct (_ && _).
    + destruct (_ || _); apply cst_ret; (split; [exact O|]); (split; [discriminate|]); (split; [lia|exact He]).
    + destruct (aget_some wrs' n') as [wr ->]; [lia|].
      unfold GenerateCacheGetFeaturesCmd. cbv zeta.
      destruct (ca_pc a) as [|[?|[?|?|]|]]; apply cst_ret; (split; [exact O|]);
        (split; [discriminate|]); (split; [lia|lia]).
Qed.

Lemma Begin_ModeSense6_post_gen c nsid t0 t rl w0 w : fresh t0 -> ok_span T w c ->
  one_page w0 (e0 (allocations t0)) (e0 (allocations t)) w ->
  e1 (allocations t) = e1 (allocations t0) -> e2 (allocations t) = e2 (allocations t0) ->
  scsi_cmd_ t = scsi_cmd_ t0 -> nvme_cmd_count t <= 1 ->
  (nvme_cmd_count t = 0 -> allocations t = allocations t0 /\ w = w0) ->
  cst T (Begin_ModeSense6 c nsid t rl) w (switch_post w0 t0).
Proof.
  intros Ht Hc O0 E1 E2 Es Hn Hz. unfold Begin_ModeSense6, ModeSense6ToNvme. apply cst_bind, cst_bind.
  eapply cst_mono; [apply (ReadValue_cst T ModeSense6Command c w Hc)|]. intros o w_ ->. cbv beta.
  destruct o as [v|].
  - cbv zeta. apply cst_bind. eapply cst_mono; [apply ModeSenseToNvme_page; exact Hn|].
    intros [[[st wrs] al] n] w' (O & Hs & Hb & He). apply cst_ret. cbv zeta. apply cst_ret.
    destruct (N.eq_dec n 0) as [->|Hnz].
    + assert (Hc0 : nvme_cmd_count t = 0) by lia. destruct (Hz Hc0) as [Ea ->].
      rewrite He in * by congruence.
      destruct O as (evs & G & L). exists evs. split; [exact G|].
      destruct Ht as [Ht1 Ht2]. apply held_nil in Ht2 as (H0 & H1 & H2).
      cbn [fst]. split; [unfold wf; cbn; rewrite E1, E2, Ea; repeat split; auto; lia|].
      split; [exact Es|]. split; [exact Hs|]. intros Hzo. unfold held. cbn. rewrite E1, E2, H1, H2, app_nil_r.
      rewrite Ea in *. destruct (L Hzo (empty_mdata _ H0)) as [_ Q]. rewrite Q, H0, app_nil_r. apply Permutation_refl.
    + apply one_page_switch; cbn; auto; [|lia]. eapply one_page_trans; eassumption.
  - apply cst_ret. cbv zeta. apply cst_ret.
    destruct (N.eq_dec (nvme_cmd_count t) 0) as [Hc0|Hc0].
    + destruct (Hz Hc0) as [Ea ->].
      apply switch_post_plain; cbn; auto; try discriminate; try lia. rewrite Ea.
      destruct (allocations t0); reflexivity.
    + apply one_page_switch; cbn; auto; try discriminate; lia.
Qed.
Lemma Begin_ModeSense6_post c nsid t rl w : fresh t -> ok_span T w c ->
  cst T (Begin_ModeSense6 c nsid t rl) w (switch_post w t).
Proof.
  intros Ht Hc. apply Begin_ModeSense6_post_gen; auto.
  - apply one_page_refl.
  - destruct Ht as [-> _]. lia.
Qed.

Lemma Begin_ModeSense10_post c nsid t rl w : fresh t -> ok_span T w c ->
  cst T (Begin_ModeSense10 c nsid t rl) w (switch_post w t).
Proof.
  intros Ht Hc. unfold Begin_ModeSense10, ModeSense10ToNvme. apply cst_bind, cst_bind.
  eapply cst_mono; [apply (ReadValue_cst T ModeSense10Command c w Hc)|]. intros o w_ ->. cbv beta.
  destruct o as [v|].
  - cbv zeta. apply cst_bind. eapply cst_mono; [apply ModeSenseToNvme_page; destruct Ht as [-> _]; lia|].
    intros [[[st wrs] al] n] w' (O & Hs & Hb & He). apply cst_ret. cbv zeta.
    apply Begin_MaintenanceIn_post_gen; cbn; auto. eapply one_page_ok; eassumption.
  - apply cst_ret. cbv zeta. apply Begin_MaintenanceIn_post_gen; cbn; auto. apply one_page_refl.
Qed.

(** UNMAP *)
Lemma read_descriptors_cst n : forall s w, ok_span T w s ->
  cst T (read_descriptors n s) w (fun _ w' => w' = w).
Proof.
  induction n as [|n IH]; intros s w H; cbn [read_descriptors]; [reflexivity|].
  apply cst_bind. eapply cst_mono; [apply (ReadValue_cst T _ s w H)|]. intros o w_ ->.
  destruct o as [d|]; [|reflexivity]. apply cst_bind.
  eapply cst_mono; [apply IH, subspan_ok, H|]. intros r w_ ->. reflexivity.
Qed.

Lemma write_ranges_spec ds : forall s w, span_mapped w s ->
  tst (write_ranges ds s) w (fun _ w' => framed (in_span s) w w' /\ tick w' = tick w).
Proof.
  induction ds as [|d ds IH]; intros s w H; cbn [write_ranges].
  - apply tst_ret. split; [apply framed_refl|reflexivity].
  - change (N.of_nat (sizeof DatasetManagmentRange)) with 16. change (offset_of DatasetManagmentRange "lba") with 8; change (offset_of DatasetManagmentRange "lb_count") with 4.
    destruct (N.ltb_spec (len s) 16) as [Hl|Hl]; [apply tst_ret; split; [apply framed_refl|reflexivity]|].
    apply tst_bind. eapply tst_of_eq.
    { apply store_ok. rewrite le_encode_length. apply (mapped_sub w (ptr s) (len s)); [exact H|lia|lia]. }
    apply tst_bind. eapply tst_of_eq.
    { apply store_ok. rewrite le_encode_length. apply store_mapped. apply (mapped_sub w (ptr s) (len s)); [exact H|lia|lia]. }
    eapply tst_mono.
    + apply IH. apply subspan_mapped. unfold span_mapped. apply store_mapped, store_mapped. exact H.
    + intros b w' [F Tk]. split; [|exact Tk].
      refine (framed_trans _ _ _ _ _ (framed_weaken _ (in_span s) _ _ F (subspan_in s _))).
      refine (framed_trans _ _ _ _ _ (store_framed _ _ _ _ _)).
      * apply store_framed. intros x Hx. rewrite le_encode_length in Hx. unfold in_span. lia.
      * intros x Hx. rewrite le_encode_length in Hx. unfold in_span. lia.
Qed.

Lemma UnmapToNvme_page c buffer wr nsid al w : ok_span T w c -> ok_span T w buffer ->
  cst T (UnmapToNvme c buffer wr kPageSize nsid al) w (fun r w' =>
    one_page w al (snd r) w' /\ fst (fst r) <> kUninitialized).
Proof.
  intros Hc Hb. unfold UnmapToNvme. apply cst_bind.
  eapply cst_mono; [apply (ReadValue_cst T UnmapCommand c w Hc)|]. intros o w_ ->. cbv beta.
  assert (R : forall st, st <> kUninitialized -> cst T (ret (st, wr, al)) w (fun r w' =>
    one_page w al (snd r) w' /\ fst (fst r) <> kUninitialized)).
  { intros st Hs. apply cst_ret. split; [apply one_page_refl|exact Hs]. }
  destruct o as [v|]; [|apply R; discriminate].
  destruct (_ <? _); [apply R; discriminate|]. destruct (_ =? 1); [apply R; discriminate|].
  apply cst_bind. eapply cst_mono; [apply (ReadValue_cst T UnmapParamList buffer w Hb)|]. intros o2 w_ ->. cbv beta. destruct o2 as [p|]; [|apply R; discriminate].
  cbv zeta. destruct (_ <? _); [apply R; discriminate|]. destruct (negb _); [apply R; discriminate|].
  set (cnt := _ / _) at 1 2 3 4 5. destruct (_ || _) eqn:Ecnt; [apply R; discriminate|].
  assert (Hcnt : cnt <= 256) by lia.
  apply cst_bind. eapply cst_mono; [apply read_descriptors_cst, subspan_ok, Hb|]. intros r w_ ->. cbv beta.
  destruct r as [ds|]; [|apply R; discriminate].
  apply cst_bind. eapply cst_mono; [apply tst_cst, SetPages1_spec; reflexivity|]. intros [st al'] w' (evs & G & C & L).
  assert (O : one_page w al al' w') by (exists evs; auto).
  destruct (is_failure st) eqn:Ef; [apply cst_ret; split; [exact O|discriminate]|].
  destruct C as [C|[C|C]]; try (destruct C as [-> _]; discriminate).
  destruct C as (-> & Hd0 & Hd & Hpc & Hlt & Hm & Hfr).
  apply cst_bind. eapply cst_mono.
  { apply tst_cst, write_ranges_spec. intros x Hx. cbn [ptr len] in Hx. apply Hm. unfold kPageSize.
    change (N.of_nat (sizeof DatasetManagmentRange)) with 16 in Hx. lia. }
  intros ok w'' [F Tk].
  assert (O' : one_page w al al' w'').
  { exists evs. split; [|exact L].
    constructor.
    - rewrite (f_trace _ _ _ F). apply G.
    - apply G.
    - rewrite Tk. apply G.
    - intros x. destruct (g_mem _ _ _ G x) as [Hx|Hx]; [|auto].
      destruct (N.leb_spec (data_addr al') x) as [H1|H1];
        destruct (N.ltb_spec x (data_addr al' + kPageSize)) as [H2|H2]; try (right; apply Hfr; lia);
        left; rewrite <- Hx; apply (f_mem _ _ _ F); unfold in_span; cbn [ptr len]; unfold kPageSize in *;
        change (N.of_nat (sizeof DatasetManagmentRange)) with 16; lia.
    - intros x Hx. apply (f_dom _ _ _ F). apply (g_dom _ _ _ G). exact Hx.
    - eapply same_cfg_trans; [apply G|apply F]. }
  destruct ok; cbn [negb]; apply cst_ret; split; try exact O'; discriminate.
Qed.

Lemma Begin_Unmap_post c buffer nsid t rl w : fresh t -> ok_span T w c -> ok_span T w buffer ->
  cst T (Begin_Unmap c buffer nsid t rl) w (switch_post w t).
Proof.
  intros Ht Hc Hb. unfold Begin_Unmap. apply cst_bind.
  eapply cst_mono; [apply UnmapToNvme_page; assumption|].
  intros [[st wr] al] w' [O Hs]. cbn in O, Hs. cbv zeta.
  apply Begin_ModeSense6_post_gen; cbn; auto; try lia.
  eapply one_page_ok; eassumption.
Qed.

(** INQUIRY *)
Lemma Begin_Inquiry_post c nsid t rl w : fresh t -> ok_span T w c ->
  cst T (Begin_Inquiry c nsid t rl) w (switch_post w t).
Proof.
  intros Ht Hc. unfold Begin_Inquiry. cbv zeta. apply cst_bind.
  eapply (cst_mono T _ _ (fun r w' => let '(st, _, _, a0, a1, _) := r in
    st <> kUninitialized /\ exists wm,
    one_page w (e0 (allocations t)) a0 wm /\ one_page wm (e1 (allocations t)) a1 w')).
  - unfold InquiryToNvme. apply cst_bind.
    eapply cst_mono; [apply (ReadValue_cst T InquiryCommand c w Hc)|]. intros o w_ ->. cbv beta.
    destruct o as [v|].
    2:{ apply cst_ret. split; [discriminate|]. exists w. split; apply one_page_refl. }
    cbv zeta. apply cst_bind. eapply cst_mono; [apply tst_cst, SetPages1_page; reflexivity|]. intros [st a0] w1 [O C]. cbn in O, C.
    destruct (is_success st) eqn:Es; cbn [negb].
    2:{ apply cst_ret. split.
        - destruct C as [C|[C|C]]; destruct C as [-> _]; discriminate.
        - exists w1. split; [exact O|apply one_page_refl]. }
    apply cst_bind. eapply cst_mono; [apply tst_cst, SetPages1_page; reflexivity|]. intros [st2 a1] w2 [O2 C2]. cbn in O2, C2.
    destruct (is_success st2) eqn:Es2; cbn [negb]; apply cst_ret; (split; [|exists w1; auto]).
    + discriminate.
    + destruct C2 as [C2|[C2|C2]]; destruct C2 as [-> _]; discriminate.
  - intros [[[[[st wn] wc] a0] a1] rl'] w' (Hs & wm & O0 & O1). cbv zeta. apply cst_ret.
    destruct Ht as [Ht1 Ht2]. apply held_nil in Ht2 as (H0 & H1 & H2).
    destruct O0 as (ev0 & G0 & L0). destruct O1 as (ev1 & G1 & L1).
    exists (ev0 ++ ev1). split; [eapply grows_trans; eassumption|]. cbn [fst].
    split; [unfold wf; cbn; repeat split; auto; lia|]. split; [reflexivity|]. split; [exact Hs|].
    intros Hz. unfold held. cbn. rewrite H2, app_nil_r, acquired_app.
    destruct (L0 Hz (empty_mdata _ H0)) as [_ Q0].
    destruct (L1 (zero_ok_cfg _ _ (g_cfg _ _ _ G0) Hz) (empty_mdata _ H1)) as [_ Q1].
    rewrite H0, app_nil_r in Q0. rewrite H1, app_nil_r in Q1. rewrite Q0, Q1. apply Permutation_refl.
Qed.

Lemma Begin_switch_post opc c buffer nsid t rl w : fresh t -> pipeline_status t <> kUninitialized ->
  ok_span T w c -> ok_span T w buffer ->
  cst T (Begin_switch opc c buffer nsid t rl) w (switch_post w t).
Proof.
  intros Ht Hp Hc Hb. unfold Begin_switch.
  repeat match goal with
  | |- cst T (if ?b then _ else _) _ _ => destruct b
  end;
  eauto using Begin_Inquiry_post, Begin_Unmap_post, Begin_ModeSense6_post, Begin_ModeSense10_post,
    Begin_MaintenanceIn_post, Begin_ReportLuns_post, Begin_ReadCapacity10_post, Begin_RequestSense_post,
    Begin_Read_post, Begin_Write_post, Begin_Verify10_post, Read6_pure, Read10_pure, Read12_pure, Read16_pure,
    Write6_pure, Write10_pure, Write12_pure, Write16_pure.
  - unfold Begin_Sync10. cbv zeta. apply cst_ret. apply switch_post_plain; cbn; auto; try discriminate; lia.
  - apply cst_ret. apply switch_post_plain; cbn; auto; try discriminate. destruct Ht as [-> _]. lia.
  - apply cst_ret. apply switch_post_plain; cbn; auto; try discriminate. destruct Ht as [-> _]. lia.
Qed.

(** ** Begin *)
Lemma idle_fresh t : idle t -> fresh t.
Proof. intros (_ & H1 & H2). split; assumption. Qed.

(** Begin on an idle object: always returns, grows the world, and then either
    keeps the pages it obtained or has returned them all *)
Lemma Begin_idle_spec t cdb buffer lun w : idle t -> ok_span T w cdb -> ok_span T w buffer ->
  cst T (Begin t cdb buffer lun) w (fun r w' => let '(t', rsp) := r in
    br_status rsp = ApiSuccess /\ wf t' /\ pipeline_status t' <> kUninitialized /\
    (pipeline_status t' <> kSuccess -> nvme_cmd_count t' = 0 /\ held t' = []) /\
    (pipeline_status t' = kSuccess -> scsi_cmd_ t' = cdb) /\
    exists w1 evs rel, grows w w1 evs /\ released w1 w' rel /\
      (pipeline_status t' = kSuccess -> rel = []) /\
      (zero_ok w -> Permutation (rel ++ held t') (acquired evs))).
Proof.
  intros Hi Hc Hb. pose proof (idle_fresh _ Hi) as Hf. destruct Hi as (Hs & Hn & Hh).
  unfold Begin. rewrite Hs. cbn [is_uninitialized negb].
  destruct (N.eqb_spec (len cdb) 0) as [E|E].
  - apply cst_ret. cbn. split; [reflexivity|]. split; [apply wf_fresh; exact Hf|].
    split; [discriminate|]. split; [intros _; split; assumption|]. split; [discriminate|].
    exists w, [], []. split; [apply grows_refl|]. split; [apply released_nil|]. split; [auto|].
    intros _. change (held (set_status t kFailure)) with (held t). rewrite Hh. constructor.
  - cbv zeta. apply cst_bind.
    eapply (cst_mono T _ _ (fun _ w' => w' = w)).
    { unfold span_at. replace (0 <? len cdb) with true by lia. apply cst_bind. unfold cst at 1.
      destruct (load (ptr cdb + 0) 1 w) as [l w'|] eqn:El.
      - apply load_pure in El. subst. reflexivity.
      - destruct T; [|reflexivity]. exfalso.
        destruct (load_mapped w (ptr cdb + 0) 1) as (bs & E' & _); [|congruence].
        eapply mapped_sub; [apply (Hc eq_refl)|lia|lia]. }
    intros opc w_ ->. cbv beta.
    apply cst_bind. eapply cst_mono.
    { apply Begin_switch_post; cbn; auto; try discriminate. apply subspan_ok. exact Hc. }
    intros [t1 al] w1 (evs & G & W & Es & Hu & P). cbn [fst] in *.
    unfold Begin_finish. apply cst_bind. destruct (is_success (pipeline_status t1)) eqn:Esuc; cbn [negb].
    + apply cst_ret. apply cst_ret. cbn. split; [reflexivity|]. split; [exact W|]. split; [exact Hu|].
      split. { intros Hne. destruct (pipeline_status t1); try discriminate. contradiction. }
      split; [intros _; exact Es|].
      exists w1, evs, []. split; [exact G|]. split; [apply released_nil|]. split; [auto|exact P].
    + apply cst_bind. eapply cst_mono; [apply tst_cst, FlushMemory_spec; exact W|].
      intros t2 w2 (R & Em & St). apply cst_ret. apply cst_ret.
      assert (Eh : held (set_count t2 0) = []) by (apply held_nil; exact Em).
      cbn [br_status]. split; [reflexivity|].
      split; [apply wf_fresh; split; [reflexivity|exact Eh]|].
      rewrite St in *. cbn [pipeline_status set_count set_allocations].
      split; [exact Hu|]. split; [intros _; split; [reflexivity|exact Eh]|].
      split. { intros Hx. rewrite Hx in Esuc. discriminate. }
      exists w1, evs, (held t1). split; [exact G|]. split; [exact R|].
      split. { intros Hx. rewrite Hx in Esuc. discriminate. }
      intros Hz. rewrite Eh, app_nil_r. apply P. exact Hz.
Qed.

End Cases.
