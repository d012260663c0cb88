(** Definedness of Complete: programs that only touch a set [S] of addresses,
    all of them mapped, have no undefined behaviour. *)
From Coq Require Import Arith NArith String List Lia Bool Init.Byte Permutation.
From Coq Require Import ZifyBool ZifyNat ZifyN.
From Verif Require Import Bytes Layout World ScsiDefs NvmeDefs Common SmallCmds UnmapCmd StatusCmd ModeSenseCmd InquiryCmd TranslationCls
  Spec RwSpec InquirySpec SmallSpec ModeSpec Facts Logic BeginFacts CompleteFacts RwFacts AdminFacts InquiryFacts SmallFacts ModeFacts.
Import ListNotations.
Local Open Scope string_scope.
Local Open Scope list_scope.
Local Open Scope N_scope.

Definition dom (S : N -> Prop) (w : world) : Prop := forall x, S x -> mem w x <> None.
Definition safe (S : N -> Prop) {A} (m : M A) (Q : A -> Prop) : Prop :=
  forall w, dom S w -> tst m w (fun a w' => dom S w' /\ Q a).
Definition any {A} (_ : A) : Prop := True.

Section Safe.
  Variable S : N -> Prop.
  Lemma safe_ret {A} (a : A) (Q : A -> Prop) : Q a -> safe S (ret a) Q.
  Proof. intros H w D. apply tst_ret. auto. Qed.
  Lemma safe_bind {A B} (m : M A) (k : A -> M B) P Q : safe S m P -> (forall a, P a -> safe S (k a) Q) -> safe S (bind m k) Q.
  Proof.
    intros H K w D. apply tst_bind. eapply tst_mono; [apply H; exact D|]. intros a w' [D' Pa]. apply K; assumption.
  Qed.
  Lemma safe_load a n : (forall x, a <= x < a + N.of_nat n -> S x) -> safe S (load a n) any.
  Proof.
    intros H w D. destruct (load_mapped w a n) as (bs & E & _).
    { intros x Hx. apply D, H, Hx. }
    eapply tst_of_eq; [exact E|]. split; [exact D|exact I].
  Qed.
  Lemma safe_ReadValue l s : (forall x, in_span s x -> S x) -> safe S (ReadValue l s) any.
  Proof.
    intros H w D. destruct (ReadValue_mapped l s w) as [o E].
    { intros x Hx. apply D, H, Hx. }
    eapply tst_of_eq; [exact E|]. split; [exact D|exact I].
  Qed.
  Lemma safe_WriteValue_n bs s n : (forall x, in_span s x -> S x) -> safe S (WriteValue_n bs s n) any.
  Proof.
    intros H w D. eapply tst_mono; [apply WriteValue_n_total; intros x Hx; apply D, H, Hx|].
    intros b w' F. split; [|exact I]. intros x Hx. apply (f_dom _ _ _ F). apply D, Hx.
  Qed.
  Lemma safe_WriteValue bs s : (forall x, in_span s x -> S x) -> safe S (WriteValue bs s) any.
  Proof. apply safe_WriteValue_n. Qed.
  Lemma safe_junk n : safe S (stack_junk n) any.
  Proof. intros w D. unfold tst, stack_junk. split; [exact D|exact I]. Qed.
  Lemma safe_span_at s i : i < len s -> (forall x, in_span s x -> S x) -> safe S (span_at s i) any.
  Proof.
    intros Hi H. unfold span_at. replace (i <? len s) with true by lia.
    apply (safe_bind _ _ any); [apply safe_load; intros x Hx; apply H; unfold in_span; lia|]. intros. apply safe_ret. exact I.
  Qed.
  Definition page_in (p : N) : Prop := forall x, p <= x < p + 4096 -> S x.
  Lemma safe_page p o n : page_in p -> o + N.of_nat n <= 4096 -> safe S (load (p + o) n) any.
  Proof. intros H Ho. apply safe_load. intros x Hx. apply H. lia. Qed.
  Lemma safe_rd_field l s p o wd : page_in p -> lay_find l s = Some (o, wd) -> 1 <= wd -> o + wd <= 32768 -> safe S (rd_field l s p) (fun v => v < 2 ^ wd).
  Proof.
    intros H E Hw Ho. unfold rd_field. rewrite E. cbv zeta. apply (safe_bind _ _ any).
    - apply safe_page; [exact H|]. rewrite N2Nat.id.
      assert ((o + wd - 1) / 8 < 4096) by (apply N.div_lt_upper_bound; [discriminate|lia]).
      assert (o / 8 <= (o + wd - 1) / 8) by (apply N.div_le_mono; [discriminate|lia]). lia.
    - intros bs _. apply safe_ret. apply bits_lt.
  Qed.
  Lemma safe_lbads p : page_in p -> safe S (rd_lbads p) any.
  Proof.
    intros H. unfold rd_lbads. eapply safe_bind; [eapply safe_rd_field; [exact H|reflexivity|discriminate|discriminate]|].
    intros f Hf. cbv beta in Hf. change (2 ^ 4) with 16 in Hf. apply (safe_bind _ _ any); [|intros; apply safe_ret; exact I].
    replace (p + 128 + 4 * f + 2) with (p + (128 + 4 * f + 2)) by lia. apply safe_page; [exact H|lia].
  Qed.
  Lemma safe_nsid p i : page_in p -> i < 1024 -> safe S (rd_nsid p i) any.
  Proof. intros H Hi. unfold rd_nsid. apply (safe_bind _ _ any); [apply safe_page; [exact H|lia]|]. intros. apply safe_ret. exact I. Qed.
  Lemma safe_weak {A} (m : M A) (P Q : A -> Prop) : safe S m P -> (forall a, P a -> Q a) -> safe S m Q.
  Proof. intros H K w D. eapply tst_mono; [apply H; exact D|]. intros a w' [D' Pa]. auto. Qed.
End Safe.

Ltac in_sub' := solve [ assumption | let x := fresh "x" in let H := fresh in intros x H; repeat (apply subspan_in in H); auto ].
Ltac safe_step :=
  match goal with
  | |- safe _ (bind _ _) _ => eapply safe_bind; [|intros]
  | |- safe _ (ret _) _ => apply safe_ret; try exact I
  | |- safe _ (load _ _) _ => apply safe_page; [assumption|try (cbn; lia)]
  | |- safe _ (ReadValue _ _) _ => apply safe_ReadValue; in_sub'
  | |- safe _ (rd_field _ _ _) _ => eapply safe_rd_field; [assumption|reflexivity|discriminate|discriminate]
  | |- safe _ (rd_lbads _) _ => apply safe_lbads; assumption
  | |- safe _ (WriteValue _ _) _ => apply safe_WriteValue; in_sub'
  | |- safe _ (WriteValue_n _ _ _) _ => apply safe_WriteValue_n; in_sub'
  | |- safe _ (stack_junk _) _ => apply safe_junk
  | |- safe _ (if ?b then _ else _) _ => destruct b
  | |- safe _ (let '(_, _) := ?p in _) _ => destruct p
  | |- safe _ (match ?o with Some _ => _ | None => _ end) _ => destruct o
  | x : (_ * _)%type |- _ => destruct x
  end.
Ltac safely := repeat (cbv beta zeta; safe_step).

Section Back.
  Variable S : N -> Prop.
  Variables buffer : span.
  Hypothesis HB : forall x, in_span buffer x -> S x.

  Lemma capacity_safe c : page_in S (get GenericCmd "prp1" c) -> safe S (ReadCapacity10ToScsi buffer c) any.
  Proof. intros H. unfold ReadCapacity10ToScsi. safely. Qed.
  Lemma sense_safe c : (forall x, in_span c x -> S x) -> safe S (RequestSenseToScsi c buffer) any.
  Proof. intros H. unfold RequestSenseToScsi, TranslateDescriptorSenseData, TranslateFixedSenseData. safely. Qed.
  Lemma report_safe : safe S (WriteReportSupportedOpCodesResult buffer) any.
  Proof. unfold WriteReportSupportedOpCodesResult. safely. Qed.
  Lemma ns_length_safe p : page_in S p -> forall fuel i, i + N.of_nat fuel = 1024 -> safe S (GetNsListLength_loop p fuel i) (fun n => n <= 1024).
  Proof.
    intros H. induction fuel as [|fuel IH]; intros i Hi; cbn [GetNsListLength_loop]; [apply safe_ret; lia|].
    eapply safe_bind; [apply safe_nsid; [exact H|lia]|]. intros v _. destruct (v =? 0); [apply safe_ret; lia|]. apply IH. lia.
  Qed.
  Lemma luns_loop_safe p : page_in S p -> forall fuel i, i + N.of_nat fuel <= 1024 -> safe S (ReportLuns_loop p buffer fuel i) any.
  Proof.
    intros H. induction fuel as [|fuel IH]; intros i Hi; cbn [ReportLuns_loop]; [apply safe_ret; exact I|].
    eapply safe_bind; [apply safe_nsid; [exact H|lia]|]. intros v _. cbv zeta. eapply safe_bind; [apply safe_WriteValue; in_sub'|].
    intros b _. destruct b; [apply IH; lia|apply safe_ret; exact I].
  Qed.
  Lemma luns_safe c : page_in S (get GenericCmd "prp1" c) -> safe S (ReportLunsToScsi c buffer) any.
  Proof.
    intros H. unfold ReportLunsToScsi. destruct (_ <? _); [apply safe_ret; exact I|]. cbv zeta.
    eapply safe_bind; [apply ns_length_safe; [exact H|reflexivity]|]. intros n Hn. cbv beta in Hn.
    set (rl := mk ReportLunsParamData _).
    assert (E : ntohl (get ReportLunsParamData "list_byte_length" rl) = n * 8).
    { unfold rl. rewrite u32_small by (change (2 ^ 32) with 4294967296; lia). apply luns_get. change (2 ^ 32) with 4294967296. lia. }
    rewrite E. set (a := u32 _).
    destruct (N.ltb_spec a (n * 8)) as [L|L].
    - assert ((a - a mod 8) / 8 <= 1024) by (apply N.div_le_upper_bound; [discriminate|]; lia).
      eapply safe_bind; [apply safe_WriteValue; in_sub'|]. intros b _. destruct b; cbn [negb]; [|apply safe_ret; exact I].
      eapply safe_bind; [apply luns_loop_safe; [exact H|lia]|]. intros. apply safe_ret. exact I.
    - eapply safe_bind; [apply safe_WriteValue; in_sub'|]. intros b _. destruct b; cbn [negb]; [|apply safe_ret; exact I].
      eapply safe_bind; [apply luns_loop_safe; [exact H|lia]|]. intros. apply safe_ret. exact I.
  Qed.
  Lemma descriptor_safe ns b : (forall x, in_span b x -> S x) -> page_in S ns -> safe S (BuildIdentificationDescriptor ns b) any.
  Proof. intros Hb H. unfold BuildIdentificationDescriptor. safely. Qed.
  Lemma inquiry_safe c i0 i1 : (forall x, in_span c x -> S x) -> page_in S (get GenericCmd "prp1" i0) -> page_in S (get GenericCmd "prp1" i1) ->
    safe S (InquiryToScsi c buffer i0 i1) any.
  Proof.
    intros Hc H0 H1. unfold InquiryToScsi, TranslateSupportedVpdPages, TranslateUnitSerialNumberVpd,
      TranslateDeviceIdentificationVpd, TranslateExtendedInquiryDataVpd, TranslateBlockLimitsVpd,
      TranslateBlockDeviceCharacteristicsVpd, TranslateLogicalBlockProvisioningVpd, TranslateStandardInquiry.
    safely. apply descriptor_safe; [in_sub'|assumption].
  Qed.
End Back.
