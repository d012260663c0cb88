(** Two runs side by side: Begin on two idle objects, with two CDB spans that
    agree on the bytes the opcode's CDB has, and Complete on the results. *)
From Coq Require Import Arith NArith String List Lia Bool Init.Byte Permutation.
From Coq Require Import ZifyBool ZifyNat ZifyN.
From Verif Require Import Bytes Layout World ScsiDefs NvmeDefs Common ReadCmds WriteCmds SmallCmds UnmapCmd StatusCmd ModeSenseCmd InquiryCmd
  TranslationCls Spec RwSpec InquirySpec SmallSpec ModeSpec HistorySpec Facts Logic BeginFacts CompleteFacts StatusFacts RwFacts.
Import ListNotations.
Local Open Scope string_scope.
Local Open Scope list_scope.
Local Open Scope N_scope.

(** both undefined, or both return in the same world with related results *)
Definition rel {A B} (m1 : M A) (m2 : M B) (w : world) (Q : A -> B -> world -> Prop) : Prop :=
  match m1 w, m2 w with
  | Ret a w1, Ret b w2 => w1 = w2 /\ Q a b w1
  | UB _, UB _ => True
  | _, _ => False
  end.

Lemma rel_ret {A B} (a : A) (b : B) w (Q : A -> B -> world -> Prop) : Q a b w -> rel (ret a) (ret b) w Q.
Proof. intros H. split; [reflexivity|exact H]. Qed.
Lemma rel_bind {A B C D} (m1 : M A) (m2 : M B) (k1 : A -> M C) (k2 : B -> M D) w Q :
  rel m1 m2 w (fun a b w' => rel (k1 a) (k2 b) w' Q) -> rel (bind m1 k1) (bind m2 k2) w Q.
Proof.
  unfold rel, bind. destruct (m1 w), (m2 w); try tauto. intros [-> H]. exact H.
Qed.
Lemma rel_mono {A B} (m1 : M A) (m2 : M B) w (P Q : A -> B -> world -> Prop) :
  rel m1 m2 w P -> (forall a b w', P a b w' -> Q a b w') -> rel m1 m2 w Q.
Proof. unfold rel. destruct (m1 w), (m2 w); try tauto. intros [-> H] K. auto. Qed.
Lemma rel_same {A} (m1 m2 : M A) w : m1 w = m2 w -> rel m1 m2 w (fun a b _ => a = b).
Proof. unfold rel. intros <-. destruct (m1 w); auto. Qed.
Lemma rel_ub {A B} s s' w (Q : A -> B -> world -> Prop) : rel (ub s) (ub s') w Q.
Proof. exact I. Qed.
Definition same_wire (a b : NvmeCmdWrapper) : Prop := cmd a = cmd b /\ is_admin a = is_admin b.
Definition same_wrs (n : N) (a b : arr3 NvmeCmdWrapper) : Prop :=
  (0 < n -> same_wire (e0 a) (e0 b)) /\ (1 < n -> same_wire (e1 a) (e1 b)) /\ (2 < n -> same_wire (e2 a) (e2 b)).
Definition same_al (a b : Allocation) : Prop :=
  data_addr a = data_addr b /\ mdata_addr a = mdata_addr b /\
  (data_addr a <> 0 -> data_page_count a = data_page_count b) /\ (mdata_addr a <> 0 -> mdata_page_count a = mdata_page_count b).
Definition same_als (a b : arr3 Allocation) : Prop := same_al (e0 a) (e0 b) /\ same_al (e1 a) (e1 b) /\ same_al (e2 a) (e2 b).
Definition sim (a b : Translation) : Prop :=
  pipeline_status a = pipeline_status b /\ nvme_cmd_count a = nvme_cmd_count b /\
  same_als (allocations a) (allocations b) /\
  (pipeline_status a = kSuccess -> same_wrs (nvme_cmd_count a) (nvme_wrappers a) (nvme_wrappers b)).

Lemma same_al_refl a : same_al a a. Proof. repeat split. Qed.
Lemma empty_same a b : held_by a = [] -> held_by b = [] -> same_al a b.
Proof. intros Ha Hb. pose proof (empty_data _ Ha). pose proof (empty_mdata _ Ha). pose proof (empty_data _ Hb). pose proof (empty_mdata _ Hb). repeat split; congruence. Qed.

Lemma rel_SetPages a b ps d m w : same_al a b ->
  rel (SetPages a ps d m) (SetPages b ps d m) w (fun r s _ => fst r = fst s /\ same_al (snd r) (snd s) /\ (fst r = kSuccess -> snd r = snd s)).
Proof.
  intros (H1 & H2 & H3). unfold SetPages. rewrite H1, H2.
  destruct (negb (d =? 0) && negb (data_addr b =? 0) || negb (m =? 0) && negb (mdata_addr b =? 0)).
  - apply rel_ret. cbn. split; [reflexivity|]. split; [|discriminate]. repeat split; tauto.
  - apply rel_bind. eapply rel_mono; [apply rel_same; reflexivity|]. intros x y w' ->.
    apply rel_bind. eapply rel_mono; [apply rel_same; reflexivity|]. intros x' y' w'' ->.
    destruct (negb (d =? 0) && (y =? 0) || negb (m =? 0) && (y' =? 0)); apply rel_ret; cbn; split; try reflexivity; split; try apply same_al_refl; auto.
Qed.

(** ** The translation functions *)
Definition Pw (r s : StatusCode * NvmeCmdWrapper) : Prop := fst r = fst s /\ (fst r = kSuccess -> same_wire (snd r) (snd s)).
Definition Pwl (r s : StatusCode * NvmeCmdWrapper * N) : Prop := Pw (fst r) (fst s) /\ snd r = snd s.

Lemma LegacyRead_Pwl a b n tl ls buf : Pwl (LegacyRead a n tl ls buf) (LegacyRead b n tl ls buf).
Proof. unfold LegacyRead. destruct (len buf <? u32 (tl * ls)); cbv [Pwl Pw same_wire fst snd set_is_admin set_cmd set_buffer_len cmd is_admin]; repeat split; auto; discriminate. Qed.
Ltac pwl_step L :=
  match goal with |- Pwl (let (_, _) := ?x in _) (let (_, _) := ?y in _) =>
    let K := fresh "K" in assert (K : Pwl x y) by apply L;
    let s1 := fresh "s" in let w1 := fresh "x" in let l1 := fresh "l" in
    let s2 := fresh "s" in let w2 := fresh "y" in let l2 := fresh "l" in
    destruct x as [[s1 w1] l1], y as [[s2 w2] l2];
    destruct K as [[K1 K2] K3]; cbn [fst snd] in K1, K2, K3; subst s2 l2;
    destruct s1; try (split; [split; [reflexivity|intros; discriminate]|reflexivity]);
    destruct (K2 eq_refl) as [H1 H2]
  end.
Ltac pw_step L :=
  match goal with |- Pw (let (_, _) := ?x in _) (let (_, _) := ?y in _) =>
    let K := fresh "K" in assert (K : Pw x y) by apply L;
    let s1 := fresh "s" in let w1 := fresh "x" in
    let s2 := fresh "s" in let w2 := fresh "y" in
    destruct x as [s1 w1], y as [s2 w2];
    destruct K as [K1 K2]; cbn [fst snd] in K1, K2; subst s2;
    destruct s1; try (split; [reflexivity|intros; discriminate]);
    destruct (K2 eq_refl) as [H1 H2]
  end.
Lemma Read_Pwl p f tl a b n ls buf al : Pwl (Read p f tl a n ls buf al) (Read p f tl b n ls buf al).
Proof.
  unfold Read. destruct (tl =? 0); [repeat split; discriminate|]. destruct (0xffff <? tl); [repeat split; discriminate|]. cbv zeta.
  pwl_step LegacyRead_Pwl. destruct (BuildPrinfo p); [|repeat split; discriminate].
  unfold Pwl, Pw, same_wire; cbn [fst snd set_cmd cmd is_admin]; rewrite H1; repeat split; auto.
Qed.
Lemma LegacyWrite_same a b n buf : same_wire (LegacyWrite a n buf) (LegacyWrite b n buf).
Proof. split; reflexivity. Qed.
Lemma Write_Pw f p tl a b n buf : Pw (Write f p tl a n buf) (Write f p tl b n buf).
Proof.
  unfold Write. destruct (tl =? 0); [split; [reflexivity|discriminate]|]. cbv zeta. destruct (BuildPRInfo p); split; try reflexivity; try discriminate.
  intros _. split; reflexivity.
Qed.

Lemma rel_Read6 ca cb a b n ls buf rl w : ReadValue Read6Command ca w = ReadValue Read6Command cb w ->
  rel (Read6ToNvme ca a n ls buf rl) (Read6ToNvme cb b n ls buf rl) w (fun r s _ => Pwl r s).
Proof.
  intros H. unfold Read6ToNvme. apply rel_bind. eapply rel_mono; [apply rel_same, H|]. intros o o' w' ->. apply rel_ret.
  destruct o' as [c|]; [|repeat split; discriminate]. unfold Read6_body. cbv zeta. pwl_step LegacyRead_Pwl.
  unfold Pwl, Pw, same_wire; cbn [fst snd set_cmd cmd is_admin]; rewrite H1; repeat split; auto.
Qed.
Lemma rel_Read10 ca cb a b n ls buf rl w : ReadValue Read10Command ca w = ReadValue Read10Command cb w ->
  rel (Read10ToNvme ca a n ls buf rl) (Read10ToNvme cb b n ls buf rl) w (fun r s _ => Pwl r s).
Proof.
  intros H. unfold Read10ToNvme. apply rel_bind. eapply rel_mono; [apply rel_same, H|]. intros o o' w' ->. apply rel_ret.
  destruct o' as [c|]; [|repeat split; discriminate]. unfold Read10_body. cbv zeta. pwl_step Read_Pwl.
  unfold Pwl, Pw, same_wire; cbn [fst snd set_cmd cmd is_admin]; rewrite H1; repeat split; auto.
Qed.
Lemma rel_Read12 ca cb a b n ls buf rl w : ReadValue Read12Command ca w = ReadValue Read12Command cb w ->
  rel (Read12ToNvme ca a n ls buf rl) (Read12ToNvme cb b n ls buf rl) w (fun r s _ => Pwl r s).
Proof.
  intros H. unfold Read12ToNvme. apply rel_bind. eapply rel_mono; [apply rel_same, H|]. intros o o' w' ->. apply rel_ret.
  destruct o' as [c|]; [|repeat split; discriminate]. unfold Read12_body. cbv zeta. pwl_step Read_Pwl.
  unfold Pwl, Pw, same_wire; cbn [fst snd set_cmd cmd is_admin]; rewrite H1; repeat split; auto.
Qed.
Lemma rel_Read16 ca cb a b n ls buf rl w : ReadValue Read16Command ca w = ReadValue Read16Command cb w ->
  rel (Read16ToNvme ca a n ls buf rl) (Read16ToNvme cb b n ls buf rl) w (fun r s _ => Pwl r s).
Proof.
  intros H. unfold Read16ToNvme. apply rel_bind. eapply rel_mono; [apply rel_same, H|]. intros o o' w' ->. apply rel_ret.
  destruct o' as [c|]; [|repeat split; discriminate]. unfold Read16_body. cbv zeta. pwl_step Read_Pwl.
  unfold Pwl, Pw, same_wire; cbn [fst snd set_cmd cmd is_admin]; rewrite H1; repeat split; auto.
Qed.
Lemma rel_Write6 ca cb a b n buf w : ReadValue Write6Command ca w = ReadValue Write6Command cb w ->
  rel (Write6ToNvme ca a n buf) (Write6ToNvme cb b n buf) w (fun r s _ => Pw r s).
Proof.
  intros H. unfold Write6ToNvme. apply rel_bind. eapply rel_mono; [apply rel_same, H|]. intros o o' w' ->. apply rel_ret.
  destruct o' as [c|]; [|split; [reflexivity|discriminate]]. unfold Write6_body. split; [reflexivity|]. intros _. split; reflexivity.
Qed.
Lemma rel_Write10 ca cb a b n buf w : ReadValue Write10Command ca w = ReadValue Write10Command cb w ->
  rel (Write10ToNvme ca a n buf) (Write10ToNvme cb b n buf) w (fun r s _ => Pw r s).
Proof.
  intros H. unfold Write10ToNvme. apply rel_bind. eapply rel_mono; [apply rel_same, H|]. intros o o' w' ->. apply rel_ret.
  destruct o' as [c|]; [|split; [reflexivity|discriminate]]. unfold Write10_body. pw_step Write_Pw.
  unfold Pw, same_wire; cbn [fst snd set_cmd cmd is_admin]; rewrite H1; repeat split; auto.
Qed.
Lemma rel_Write12 ca cb a b n buf w : ReadValue Write12Command ca w = ReadValue Write12Command cb w ->
  rel (Write12ToNvme ca a n buf) (Write12ToNvme cb b n buf) w (fun r s _ => Pw r s).
Proof.
  intros H. unfold Write12ToNvme. apply rel_bind. eapply rel_mono; [apply rel_same, H|]. intros o o' w' ->. apply rel_ret.
  destruct o' as [c|]; [|split; [reflexivity|discriminate]]. unfold Write12_body. pw_step Write_Pw.
  unfold Pw, same_wire; cbn [fst snd set_cmd cmd is_admin]; rewrite H1; repeat split; auto.
Qed.
Lemma rel_Write16 ca cb a b n buf w : ReadValue Write16Command ca w = ReadValue Write16Command cb w ->
  rel (Write16ToNvme ca a n buf) (Write16ToNvme cb b n buf) w (fun r s _ => Pw r s).
Proof.
  intros H. unfold Write16ToNvme. apply rel_bind. eapply rel_mono; [apply rel_same, H|]. intros o o' w' ->. apply rel_ret.
  destruct o' as [c|]; [|split; [reflexivity|discriminate]]. unfold Write16_body. pw_step Write_Pw.
  unfold Pw, same_wire; cbn [fst snd set_cmd cmd is_admin]; rewrite H1; repeat split; auto.
Qed.
Lemma rel_Verify ca cb a b w : ReadValue Verify10Command ca w = ReadValue Verify10Command cb w ->
  rel (VerifyToNvme ca a) (VerifyToNvme cb b) w (fun r s _ => Pw r s).
Proof.
  intros H. unfold VerifyToNvme. apply rel_bind. eapply rel_mono; [apply rel_same, H|]. intros o o' w' ->. apply rel_ret.
  destruct o' as [c|]; [|split; [reflexivity|discriminate]]. unfold Verify_body.
  destruct (_ =? 0); [split; [reflexivity|discriminate]|]. destruct (_ =? 1); [split; [reflexivity|discriminate]|].
  split; [reflexivity|]. intros _. split; reflexivity.
Qed.

Definition Pa (r s : StatusCode * NvmeCmdWrapper * Allocation * N) : Prop :=
  let '(st, wr, al, l) := r in let '(st', wr', al', l') := s in
  st = st' /\ (st = kSuccess -> same_wire wr wr') /\ same_al al al' /\ l = l'.
Lemma rel_ReadCap ca cb a b al al' ps n rl w : ReadValue ReadCapacity10Command ca w = ReadValue ReadCapacity10Command cb w -> same_al al al' ->
  rel (ReadCapacity10ToNvme ca a ps n al rl) (ReadCapacity10ToNvme cb b ps n al' rl) w (fun r s _ => Pa r s).
Proof.
  intros H Ha. unfold ReadCapacity10ToNvme. apply rel_bind. eapply rel_mono; [apply rel_same, H|]. intros o o' w' ->.
  destruct o' as [c|]; [|apply rel_ret; cbn; repeat split; try discriminate; apply Ha].
  destruct (_ =? 1); [apply rel_ret; cbn; repeat split; try discriminate; apply Ha|]. cbv zeta.
  apply rel_bind. eapply rel_mono; [apply rel_SetPages, Ha|]. intros [s1 x] [s2 y] w1 (E1 & E2 & E3). cbn in E1, E2, E3. subst s2.
  destruct (is_success s1) eqn:Es; cbn [negb]; apply rel_ret.
  - assert (s1 = kSuccess) by (destruct s1; try discriminate; reflexivity). rewrite (E3 H0). unfold Pa. split; [reflexivity|]. split; [intros _; split; cbn [cmd is_admin set_cmd set_is_admin set_buffer_len]; reflexivity|]. split; [apply same_al_refl|reflexivity].
  - cbn. split; [reflexivity|]. split; [intros ->; discriminate|]. split; [exact E2|reflexivity].
Qed.
Lemma rel_ReportLuns ca cb a b al al' ps rl w : ReadValue ReportLunsCommand ca w = ReadValue ReportLunsCommand cb w -> same_al al al' ->
  rel (ReportLunsToNvme ca a ps al rl) (ReportLunsToNvme cb b ps al' rl) w (fun r s _ => Pa r s).
Proof.
  intros H Ha. unfold ReportLunsToNvme. apply rel_bind. eapply rel_mono; [apply rel_same, H|]. intros o o' w' ->.
  destruct o' as [c|]; [|apply rel_ret; cbn; repeat split; try discriminate; apply Ha]. cbv zeta.
  match goal with |- context [if ?b then _ else _] => destruct b end; [apply rel_ret; cbn; repeat split; try discriminate; apply Ha|].
  apply rel_bind. eapply rel_mono; [apply rel_SetPages, Ha|]. intros [s1 x] [s2 y] w1 (E1 & E2 & E3). cbn in E1, E2, E3. subst s2.
  destruct (is_failure s1) eqn:Es; apply rel_ret.
  - cbn. split; [reflexivity|]. split; [discriminate|]. split; [exact E2|reflexivity].
  - unfold Pa. destruct E2 as (E2a & E2b). rewrite E2a. split; [reflexivity|].
    split; [intros _; split; cbn [cmd is_admin set_cmd set_is_admin set_buffer_len]; reflexivity|]. split; [|reflexivity].
    split; assumption.
Qed.

Ltac wire_refl := split; cbn [cmd is_admin set_cmd set_is_admin set_buffer_len]; reflexivity.

Lemma rel_Inquiry ca cb a b a' b' al0 al1 bl0 bl1 ps n rl w : ReadValue InquiryCommand ca w = ReadValue InquiryCommand cb w ->
  same_al al0 bl0 -> same_al al1 bl1 ->
  rel (InquiryToNvme ca a a' ps n al0 al1 rl) (InquiryToNvme cb b b' ps n bl0 bl1 rl) w (fun r s _ =>
    let '(st, wn, wc, a0, a1, l) := r in let '(st', wn', wc', a0', a1', l') := s in
    st = st' /\ (st = kSuccess -> same_wire wn wn' /\ same_wire wc wc') /\ same_al a0 a0' /\ same_al a1 a1' /\ l = l').
Proof.
  intros H H0 H1. unfold InquiryToNvme. apply rel_bind. eapply rel_mono; [apply rel_same, H|]. intros o o' w' ->.
  destruct o' as [c|]. 2:{ apply rel_ret. split; [reflexivity|]. split; [discriminate|]. auto. }
  cbv zeta. apply rel_bind. eapply rel_mono; [apply rel_SetPages, H0|]. intros [s1 x] [s2 y] w1 (E1 & E2 & E3). cbn [fst snd] in E1, E2, E3. subst s2.
  destruct (is_success s1) eqn:Es; cbn [negb].
  2:{ apply rel_ret. split; [reflexivity|]. split; [intros ->; discriminate|]. auto. }
  assert (s1 = kSuccess) as -> by (destruct s1; try discriminate; reflexivity). rewrite (E3 eq_refl) in *.
  apply rel_bind. eapply rel_mono; [apply rel_SetPages, H1|]. intros [s1 x1] [s2 y1] w2 (F1 & F2 & F3). cbn [fst snd] in F1, F2, F3. subst s2.
  destruct (is_success s1) eqn:Fs; cbn [negb].
  2:{ apply rel_ret. split; [reflexivity|]. split; [intros ->; discriminate|]. auto. }
  assert (s1 = kSuccess) as -> by (destruct s1; try discriminate; reflexivity). rewrite (F3 eq_refl) in *.
  apply rel_ret. split; [reflexivity|]. split; [intros _; split; wire_refl|]. split; [apply same_al_refl|]. split; [apply same_al_refl|reflexivity].
Qed.

Definition Pm (r s : StatusCode * arr3 NvmeCmdWrapper * Allocation * N) : Prop :=
  let '(st, wrs, al, n) := r in let '(st', wrs', al', n') := s in
  st = st' /\ n = n' /\ (st = kSuccess -> same_wrs n wrs wrs') /\ same_al al al'.

Lemma rel_features a b pc n : let r := GenerateCacheGetFeaturesCmd a pc n in let s := GenerateCacheGetFeaturesCmd b pc n in
  fst r = fst s /\ (fst r = kSuccess -> same_wire (snd r) (snd s)).
Proof.
  cbv zeta. unfold GenerateCacheGetFeaturesCmd. cbv zeta.
  destruct pc as [|[[p|p|]|[p|p|]|]]; cbn [fst snd]; (split; [reflexivity|]); try discriminate; intros _; wire_refl.
Qed.

Lemma rel_MS at' wa wb al bl ps n w : same_al al bl ->
  rel (ModeSenseToNvme at' wa al ps n 0) (ModeSenseToNvme at' wb bl ps n 0) w (fun r s _ => Pm r s).
Proof.
  intros Ha. unfold ModeSenseToNvme. apply rel_bind.
  eapply (rel_mono _ _ _ (fun r s _ => Pm r s /\ snd r <= 1 /\ snd s <= 1)).
  - destruct (ca_dbd at').
    + apply rel_ret. split; [|cbn; lia]. cbn. split; [reflexivity|]. split; [reflexivity|]. split; [intros _; split; [lia|split; lia]|exact Ha].
    + cbn [aget]. apply rel_bind. unfold GenerateBlockDescriptorIdentifyCmd. cbv zeta.
      apply (rel_mono _ _ _ (fun r s _ => fst (fst r) = fst (fst s) /\ (fst (fst r) = kSuccess -> same_wire (snd (fst r)) (snd (fst s))) /\ same_al (snd r) (snd s))).
      * apply rel_bind. eapply rel_mono; [apply rel_SetPages, Ha|]. intros [s1 x] [s2 y] w1 (E1 & E2 & E3). cbn [fst snd] in E1, E2, E3. subst s2.
        destruct (is_failure s1); apply rel_ret; cbn [fst snd].
        -- split; [reflexivity|]. split; [discriminate|exact E2].
        -- split; [reflexivity|]. split; [|exact E2]. intros _. destruct E2 as (-> & _). wire_refl.
      * intros [[s1 x] y] [[s2 x'] y'] w1 (E1 & E2 & E3). cbn [fst snd] in *. subst s2. apply rel_ret. split; [|cbn; lia].
        cbn [Pm]. split; [reflexivity|]. split; [reflexivity|]. split; [|exact E3]. intros Hs. split; [intros _; exact (E2 Hs)|]. split; lia.
  - intros [[[s1 wa1] al1] n1] [[[s2 wb1] bl1] n2] w1 (P & L1 & L2). cbn [snd] in L1, L2. destruct P as (-> & -> & P3 & P4).
    destruct (is_success s2) eqn:Es; cbn [negb].
    2:{ apply rel_ret. cbn. split; [reflexivity|]. split; [reflexivity|]. split; [intros ->; discriminate|exact P4]. }
    assert (s2 = kSuccess) as -> by (destruct s2; try discriminate; reflexivity). specialize (P3 eq_refl).
    destruct (_ && _).
    { destruct (_ || _); apply rel_ret; (split; [reflexivity|]; split; [reflexivity|]; split; [|exact P4]); [intros _; exact P3|discriminate]. }
    assert (n2 = 0 \/ n2 = 1) as [-> | ->] by lia; cbn [aget].
    + pose proof (rel_features (e0 wa1) (e0 wb1) (ca_pc at') n) as [F1 F2].
      destruct (GenerateCacheGetFeaturesCmd (e0 wa1) (ca_pc at') n) as [s1 x], (GenerateCacheGetFeaturesCmd (e0 wb1) (ca_pc at') n) as [s2 y].
      cbn [fst snd] in F1, F2. subst s2. apply rel_ret. split; [reflexivity|]. split; [reflexivity|]. split; [|exact P4].
      intros Hs. split; [intros _; exact (F2 Hs)|split; lia].
    + pose proof (rel_features (e1 wa1) (e1 wb1) (ca_pc at') n) as [F1 F2].
      destruct (GenerateCacheGetFeaturesCmd (e1 wa1) (ca_pc at') n) as [s1 x], (GenerateCacheGetFeaturesCmd (e1 wb1) (ca_pc at') n) as [s2 y].
      cbn [fst snd] in F1, F2. subst s2. apply rel_ret. split; [reflexivity|]. split; [reflexivity|]. split; [|exact P4].
      intros Hs. split; [intros _; apply P3; lia|]. split; [intros _; exact (F2 Hs)|lia].
Qed.

(** ** The switch of Begin *)
Definition idle2 (a b : Translation) : Prop :=
  pipeline_status a = kSuccess /\ pipeline_status b = kSuccess /\ nvme_cmd_count a = 0 /\ nvme_cmd_count b = 0 /\
  same_als (allocations a) (allocations b).
Definition simr (r s : Translation * N) : Prop := sim (fst r) (fst s) /\ snd r = snd s.

(** the CDB spans agree, for every structure shorter than [n] *)
Definition agree (ca cb : span) (w : world) (n : nat) : Prop :=
  forall l, (0 < sizeof l < n)%nat -> ReadValue l (subspan ca 1) w = ReadValue l (subspan cb 1) w.

Lemma same_wrs_0 a b : same_wrs 0 a b.
Proof. split; [lia|split; lia]. Qed.
Lemma same_wrs_1 a b : same_wire (e0 a) (e0 b) -> same_wrs 1 a b.
Proof. intros H. split; [intros _; exact H|split; lia]. Qed.

Lemma rel_Begin_Inquiry ca cb n ta tb rl w : ReadValue InquiryCommand ca w = ReadValue InquiryCommand cb w -> idle2 ta tb ->
  rel (Begin_Inquiry ca n ta rl) (Begin_Inquiry cb n tb rl) w (fun r s _ => simr r s).
Proof.
  intros H (_ & _ & _ & _ & A0 & A1 & A2). unfold Begin_Inquiry. cbv zeta. apply rel_bind. eapply rel_mono; [apply rel_Inquiry; eassumption|].
  intros [[[[[st wn] wc] a0] a1] l] [[[[[st' wn'] wc'] a0'] a1'] l'] w' (-> & K & B0 & B1 & ->). apply rel_ret.
  split; [|reflexivity]. split; [reflexivity|]. split; [reflexivity|]. split; [split; [exact B0|split; [exact B1|exact A2]]|].
  cbn. intros Hs. destruct (K Hs) as [K1 K2]. split; [intros _; exact K1|]. split; [intros _; exact K2|lia].
Qed.

Lemma rel_Begin_MS6 ca cb n ta tb rl w : ReadValue ModeSense6Command ca w = ReadValue ModeSense6Command cb w -> idle2 ta tb ->
  rel (Begin_ModeSense6 ca n ta rl) (Begin_ModeSense6 cb n tb rl) w (fun r s _ => simr r s).
Proof.
  intros H (_ & _ & C1 & C2 & A0 & A1 & A2). unfold Begin_ModeSense6, ModeSense6ToNvme. cbv zeta. rewrite C1, C2.
  apply rel_bind, rel_bind. eapply rel_mono; [apply rel_same, H|]. intros o o' w' ->. destruct o' as [c|].
  - apply rel_bind. eapply rel_mono; [apply rel_MS, A0|]. intros [[[s1 wa1] al1] n1] [[[s2 wb1] bl1] n2] w1 (-> & -> & P3 & P4).
    apply rel_ret, rel_ret. split; [|reflexivity]. split; [reflexivity|]. split; [reflexivity|]. split; [split; [exact P4|split; [exact A1|exact A2]]|].
    exact P3.
  - apply rel_ret, rel_ret. split; [|reflexivity]. split; [reflexivity|]. split; [reflexivity|]. split; [split; [exact A0|split; [exact A1|exact A2]]|]. discriminate.
Qed.

Lemma rel_Begin_RL ca cb ta tb rl w : ReadValue ReportLunsCommand ca w = ReadValue ReportLunsCommand cb w ->
  same_als (allocations ta) (allocations tb) ->
  rel (Begin_ReportLuns ca ta rl) (Begin_ReportLuns cb tb rl) w (fun r s _ => simr r s).
Proof.
  intros H (A0 & A1 & A2). unfold Begin_ReportLuns. apply rel_bind. eapply rel_mono; [apply rel_ReportLuns; eassumption|].
  intros [[[st wr] al] l] [[[st' wr'] al'] l'] w' (-> & K & Ka & ->). apply rel_ret.
  split; [|reflexivity]. split; [reflexivity|]. split; [reflexivity|]. split; [split; [exact Ka|split; [exact A1|exact A2]]|].
  intros Hs. apply same_wrs_1. exact (K Hs).
Qed.

Lemma Validate_pure c rl w : match ValidateReportSupportedOpCodes c rl w with Ret _ w' => w' = w | UB _ => True end.
Proof.
  unfold ValidateReportSupportedOpCodes, bind, ReadValue. destruct (_ <? _); [reflexivity|]. unfold bind, load.
  destruct (load_bytes _ _ _); [|exact I]. reflexivity.
Qed.

Lemma rel_Validate ca cb rl w : ReadValue ReportOpCodesCommand ca w = ReadValue ReportOpCodesCommand cb w ->
  rel (ValidateReportSupportedOpCodes ca rl) (ValidateReportSupportedOpCodes cb rl) w (fun a b w' => a = b /\ w' = w).
Proof.
  intros H. pose proof (Validate_pure ca rl w) as Pu.
  assert (E : ValidateReportSupportedOpCodes ca rl w = ValidateReportSupportedOpCodes cb rl w)
    by (unfold ValidateReportSupportedOpCodes, bind; rewrite H; reflexivity).
  unfold rel. rewrite <- E. destruct (ValidateReportSupportedOpCodes ca rl w); auto.
Qed.

Lemma rel_Begin_MI ca cb ta tb rl w : ReadValue ReportOpCodesCommand ca w = ReadValue ReportOpCodesCommand cb w ->
  ReadValue ReportLunsCommand ca w = ReadValue ReportLunsCommand cb w -> same_als (allocations ta) (allocations tb) ->
  rel (Begin_MaintenanceIn ca ta rl) (Begin_MaintenanceIn cb tb rl) w (fun r s _ => simr r s).
Proof.
  intros H1 H2 A. unfold Begin_MaintenanceIn. apply rel_bind. eapply rel_mono; [apply rel_Validate, H1|].
  intros [s l] [s' l'] w' [E ->]. injection E as -> ->. cbv zeta. apply rel_Begin_RL; [exact H2|exact A].
Qed.

Lemma rel_Begin_MS10 c n ta tb rl w : idle2 ta tb ->
  rel (Begin_ModeSense10 c n ta rl) (Begin_ModeSense10 c n tb rl) w (fun r s _ => simr r s).
Proof.
  intros (_ & _ & C1 & C2 & A0 & A1 & A2). unfold Begin_ModeSense10, ModeSense10ToNvme. cbv zeta. rewrite C1, C2.
  apply rel_bind, rel_bind. eapply rel_mono; [apply rel_same; reflexivity|]. intros o o' w' ->. destruct o' as [d|].
  - apply rel_bind. eapply rel_mono; [apply rel_MS, A0|]. intros [[[s1 wa1] al1] n1] [[[s2 wb1] bl1] n2] w1 (-> & -> & P3 & P4).
    apply rel_ret. apply rel_Begin_MI; try reflexivity. split; [exact P4|split; [exact A1|exact A2]].
  - apply rel_ret. apply rel_Begin_MI; try reflexivity. split; [exact A0|split; [exact A1|exact A2]].
Qed.

Lemma sim_wr0 ta tb st (r s : NvmeCmdWrapper) : same_als (allocations ta) (allocations tb) -> (st = kSuccess -> same_wire r s) ->
  sim (set_count (set_status (set_wr0 ta r) st) 1) (set_count (set_status (set_wr0 tb s) st) 1).
Proof. intros A K. split; [reflexivity|]. split; [reflexivity|]. split; [exact A|]. intros Hs. apply same_wrs_1. exact (K Hs). Qed.

Lemma rel_Begin_Read f ca cb buf n ta tb rl w :
  (forall a b, rel (f ca a n kLbaSize buf rl) (f cb b n kLbaSize buf rl) w (fun r s _ => Pwl r s)) -> idle2 ta tb ->
  rel (Begin_Read f ca buf n ta rl) (Begin_Read f cb buf n tb rl) w (fun r s _ => simr r s).
Proof.
  intros H (_ & _ & _ & _ & A). unfold Begin_Read. apply rel_bind. eapply rel_mono; [apply H|].
  intros [[st x] l] [[st' y] l'] w' [[K1 K2] K3]. cbn [fst snd] in *. subst st' l'. apply rel_ret. split; [|reflexivity]. apply sim_wr0; assumption.
Qed.
Lemma rel_Begin_Write f ca cb buf n ta tb rl w :
  (forall a b, rel (f ca a n buf) (f cb b n buf) w (fun r s _ => Pw r s)) -> idle2 ta tb ->
  rel (Begin_Write f ca buf n ta rl) (Begin_Write f cb buf n tb rl) w (fun r s _ => simr r s).
Proof.
  intros H (_ & _ & _ & _ & A). unfold Begin_Write. apply rel_bind. eapply rel_mono; [apply H|].
  intros [st x] [st' y] w' [K1 K2]. cbn [fst snd] in *. subst st'. apply rel_ret. split; [|reflexivity]. apply sim_wr0; assumption.
Qed.

Lemma rel_Begin_switch opc ca cb buf n ta tb rl w : agree ca cb w (std_cdb_len opc) -> opc <> kUnmap -> (opc = kModeSense10 -> ca = cb) -> idle2 ta tb ->
  rel (Begin_switch opc (subspan ca 1) buf n ta rl) (Begin_switch opc (subspan cb 1) buf n tb rl) w (fun r s _ => simr r s).
Proof.
  intros H Hu H10 I2. pose proof I2 as (S1 & S2 & C1 & C2 & A). unfold Begin_switch.
  repeat match goal with
  | |- rel (if ?o =? ?k then _ else _) _ _ _ => 
      let E := fresh "E" in destruct (N.eqb_spec o k) as [E|E]; [subst o|clear E]
  end.
  - apply rel_Begin_Inquiry; [apply H; cbn; lia|exact I2].
  - destruct (Hu eq_refl).
  - apply rel_Begin_MS6; [apply H; cbn; lia|exact I2].
  - rewrite (H10 eq_refl). apply rel_Begin_MS10; exact I2.
  - apply rel_Begin_MI; [apply H; cbn; lia|apply H; cbn; lia|exact A].
  - apply rel_Begin_RL; [apply H; cbn; lia|exact A].
  - unfold Begin_ReadCapacity10. apply rel_bind. eapply rel_mono; [apply rel_ReadCap; [apply H; cbn; lia|apply A]|].
    intros [[[st wr] al] l] [[[st' wr'] al'] l'] w' (-> & K & Ka & ->). apply rel_ret.
    destruct A as (A0 & A1 & A2).
    split; [|reflexivity]. split; [reflexivity|]. split; [reflexivity|]. split; [split; [exact Ka|split; [exact A1|exact A2]]|].
    intros Hs. apply same_wrs_1. exact (K Hs).
  - unfold Begin_RequestSense, RequestSenseToNvme. apply rel_bind, rel_bind. eapply rel_mono; [apply rel_same, H; cbn; lia|].
    intros o o' w' ->. apply rel_ret.
    match goal with |- rel (let (_, _) := ?x in _) _ _ _ => destruct x as [st l] end. apply rel_ret. split; [|reflexivity].
    split; [reflexivity|]. cbn. split; [congruence|]. split; [exact A|]. intros _. rewrite C1. apply same_wrs_0.
  - apply rel_Begin_Read; [|exact I2]. intros a b. apply rel_Read6. apply H. cbn. lia.
  - apply rel_Begin_Read; [|exact I2]. intros a b. apply rel_Read10. apply H. cbn. lia.
  - apply rel_Begin_Read; [|exact I2]. intros a b. apply rel_Read12. apply H. cbn. lia.
  - apply rel_Begin_Read; [|exact I2]. intros a b. apply rel_Read16. apply H. cbn. lia.
  - unfold Begin_Sync10. cbv zeta. apply rel_ret. split; [|reflexivity]. apply sim_wr0; [exact A|]. intros _. wire_refl.
  - unfold Begin_Verify10. apply rel_bind. eapply rel_mono; [apply rel_Verify, H; cbn; lia|].
    intros [st x] [st' y] w' [K1 K2]. cbn [fst snd] in *. subst st'. apply rel_ret. split; [|reflexivity]. apply sim_wr0; assumption.
  - apply rel_ret. split; [|reflexivity]. split; [reflexivity|]. cbn. split; [congruence|]. split; [exact A|]. intros _. rewrite C1. apply same_wrs_0.
  - apply rel_Begin_Write; [|exact I2]. intros a b. apply rel_Write6. apply H. cbn. lia.
  - apply rel_Begin_Write; [|exact I2]. intros a b. apply rel_Write10. apply H. cbn. lia.
  - apply rel_Begin_Write; [|exact I2]. intros a b. apply rel_Write12. apply H. cbn. lia.
  - apply rel_Begin_Write; [|exact I2]. intros a b. apply rel_Write16. apply H. cbn. lia.
  - apply rel_ret. split; [|reflexivity]. split; [reflexivity|]. cbn. split; [congruence|]. split; [exact A|]. discriminate.
Qed.

(** ** Begin *)
Lemma rel_FlushOne a b w : same_al a b -> rel (FlushOne a) (FlushOne b) w (fun x y _ => same_al x y).
Proof.
  intros (H1 & H2 & H3 & H4). unfold FlushOne. rewrite <- H1.
  apply rel_bind. apply (rel_mono _ _ _ (fun x y _ => same_al x y)).
  - destruct (N.eqb_spec (data_addr a) 0) as [E|E]; cbn [negb].
    + apply rel_ret. split; [exact H1|]. auto.
    + rewrite <- (H3 E). apply rel_bind. eapply rel_mono; [apply rel_same; reflexivity|]. intros _ _ w' _. apply rel_ret.
      split; [reflexivity|]. cbn. split; [exact H2|]. split; [congruence|exact H4].
  - clear H1 H2 H3 H4. intros x y w' (H1 & H2 & H3 & H4). rewrite <- H2.
    destruct (N.eqb_spec (mdata_addr x) 0) as [E|E]; cbn [negb].
    + apply rel_ret. split; [exact H1|]. auto.
    + rewrite <- (H4 E). apply rel_bind. eapply rel_mono; [apply rel_same; reflexivity|]. intros _ _ w1 _. apply rel_ret.
      split; [exact H1|]. cbn. split; [reflexivity|]. split; [exact H3|congruence].
Qed.

Lemma rel_FlushLoop fuel : forall i a b w, same_als a b -> rel (FlushLoop fuel i a) (FlushLoop fuel i b) w (fun x y _ => same_als x y).
Proof.
  induction fuel as [|fuel IH]; intros i a b w A; cbn [FlushLoop]; [apply rel_ret, A|].
  pose proof A as (A0 & A1 & A2).
  destruct i as [|[p|[p|p|]|]]; cbn [aget]; try apply rel_ub.
  - apply rel_bind. eapply rel_mono; [apply rel_FlushOne, A0|]. intros x y w' K. apply IH. split; [exact K|split; assumption].
  - apply rel_bind. eapply rel_mono; [apply rel_FlushOne, A2|]. intros x y w' K. apply IH. split; [exact A0|split; assumption].
  - apply rel_bind. eapply rel_mono; [apply rel_FlushOne, A1|]. intros x y w' K. apply IH. split; [exact A0|split; assumption].
Qed.

Lemma rel_Flush ta tb w : nvme_cmd_count ta = nvme_cmd_count tb -> same_als (allocations ta) (allocations tb) ->
  rel (FlushMemory ta) (FlushMemory tb) w (fun x y _ =>
    same_als (allocations x) (allocations y) /\ pipeline_status x = pipeline_status ta /\ pipeline_status y = pipeline_status tb /\
    scsi_cmd_ x = scsi_cmd_ ta /\ scsi_cmd_ y = scsi_cmd_ tb).
Proof.
  intros C A. unfold FlushMemory. rewrite C. apply rel_bind. eapply rel_mono; [apply rel_FlushLoop, A|]. intros x y w' K. apply rel_ret.
  split; [exact K|]. auto.
Qed.

Lemma rel_Abort ta tb w : nvme_cmd_count ta = nvme_cmd_count tb -> same_als (allocations ta) (allocations tb) ->
  rel (AbortPipeline ta) (AbortPipeline tb) w (fun _ _ _ => True).
Proof.
  intros C A. unfold AbortPipeline. cbv zeta. apply rel_bind. eapply rel_mono; [apply rel_Flush; [exact C|exact A]|].
  intros x y w' _. apply rel_ret. exact I.
Qed.

Lemma span_at_pure s i w a w' : span_at s i w = Ret a w' -> w' = w.
Proof.
  unfold span_at. destruct (i <? len s); [|discriminate]. unfold bind, load. destruct (load_bytes _ _ _); [|discriminate].
  intros H. injection H as _ <-. reflexivity.
Qed.

Definition begun (ca cb : span) (r s : Translation * BeginResponse) : Prop :=
  sim (fst r) (fst s) /\ snd r = snd s /\
  (pipeline_status (fst r) = kSuccess -> scsi_cmd_ (fst r) = ca /\ scsi_cmd_ (fst s) = cb).

Lemma idle_started t c : idle t -> pipeline_status (started t c) = kSuccess /\ nvme_cmd_count (started t c) = 0.
Proof. intros (_ & H & _). split; [reflexivity|exact H]. Qed.

Lemma started_switch t c opc d buf n rl w t' l w' : idle t -> Begin_switch opc d buf n (started t c) rl w = Ret (t', l) w' ->
  scsi_cmd_ t' = c.
Proof.
  intros Hi E. pose proof (Begin_switch_post false opc d buf n (started t c) rl w (started_fresh t c Hi)) as P.
  specialize (P ltac:(discriminate) (no_ok_span _ _) (no_ok_span _ _)). unfold cst in P. rewrite E in P.
  destruct P as (evs & _ & _ & P & _). exact P.
Qed.

Lemma idle_als ta tb : idle ta -> idle tb -> same_als (allocations ta) (allocations tb).
Proof.
  intros (_ & _ & Ha) (_ & _ & Hb). apply held_nil in Ha as (A0 & A1 & A2). apply held_nil in Hb as (B0 & B1 & B2).
  split; [apply empty_same; assumption|]. split; apply empty_same; assumption.
Qed.

Lemma rel_Begin_gen ta tb ca cb buf lun w : idle ta -> idle tb -> (len ca =? 0) = (len cb =? 0) -> span_at ca 0 w = span_at cb 0 w ->
  (forall opc, span_at ca 0 w = Ret opc w -> idle2 (started ta ca) (started tb cb) ->
     rel (Begin_switch opc (subspan ca 1) buf (u32 (u32 lun + 1)) (started ta ca) 0)
         (Begin_switch opc (subspan cb 1) buf (u32 (u32 lun + 1)) (started tb cb) 0) w (fun r s _ => simr r s)) ->
  rel (Begin ta ca buf lun) (Begin tb cb buf lun) w (fun r s _ => begun ca cb r s).
Proof.
  intros Ia Ib Hlen Hop H. unfold Begin. pose proof (idle_als _ _ Ia Ib) as A.
  destruct (Ia) as (Sa & Ca & _). destruct (Ib) as (Sb & Cb & _). rewrite Sa, Sb. cbn [is_uninitialized negb]. rewrite <- Hlen.
  destruct (len ca =? 0).
  { apply rel_ret. split; [|split; [reflexivity|discriminate]]. split; [reflexivity|]. cbn. split; [congruence|]. split; [exact A|discriminate]. }
  cbv zeta. fold (started ta ca). fold (started tb cb).
  destruct (span_at ca 0 w) as [opc w1|] eqn:Eo.
  2:{ unfold rel, bind. rewrite Eo, <- Hop. exact I. }
  assert (w1 = w) by (eapply span_at_pure, Eo). subst w1.
  apply rel_bind. unfold rel at 1. rewrite Eo, <- Hop. split; [reflexivity|].
  apply rel_bind.
  assert (I2 : idle2 (started ta ca) (started tb cb)).
  { split; [reflexivity|]. split; [reflexivity|]. split; [exact Ca|]. split; [exact Cb|exact A]. }
  pose proof (H opc eq_refl I2) as R.
  unfold rel in R at 1. unfold rel at 1.
  destruct (Begin_switch opc (subspan ca 1) buf _ (started ta ca) 0 w) as [[t1 l1] w1|] eqn:E1;
  destruct (Begin_switch opc (subspan cb 1) buf _ (started tb cb) 0 w) as [[t2 l2] w2|] eqn:E2; try tauto.
  destruct R as [-> [(Rs & Rc & Ra & Rw) Rl]]. cbn [fst snd] in *. subst l2. split; [reflexivity|].
  pose proof (started_switch _ _ _ _ _ _ _ _ _ _ _ Ia E1) as K1. pose proof (started_switch _ _ _ _ _ _ _ _ _ _ _ Ib E2) as K2.
  apply rel_bind. unfold Begin_finish. rewrite <- Rs. destruct (is_success (pipeline_status t1)) eqn:Es; cbn [negb].
  - apply rel_ret, rel_ret. split; [|split; [reflexivity|]]; cbn [fst snd]; [split; [exact Rs|]; auto|auto].
  - apply rel_bind. eapply rel_mono; [apply rel_Flush; assumption|]. intros x y w' (F1 & F2 & F3 & F4 & F5). apply rel_ret, rel_ret.
    split; [|split; [reflexivity|]]; cbn [fst snd].
    + split; [cbn; congruence|]. split; [reflexivity|]. split; [exact F1|]. intros _. apply same_wrs_0.
    + cbn. rewrite F2. intros Hx. rewrite Hx in Es. discriminate.
Qed.

Lemma rel_Begin ta tb ca cb buf lun w : idle ta -> idle tb -> (len ca =? 0) = (len cb =? 0) -> span_at ca 0 w = span_at cb 0 w ->
  (forall opc, span_at ca 0 w = Ret opc w -> opc <> kUnmap /\ agree ca cb w (std_cdb_len opc) /\ (opc = kModeSense10 -> ca = cb)) ->
  rel (Begin ta ca buf lun) (Begin tb cb buf lun) w (fun r s _ => begun ca cb r s).
Proof.
  intros Ia Ib Hl Hs H. apply rel_Begin_gen; try assumption. intros opc Ho I2. destruct (H opc Ho) as (Hu & Hag & H10).
  apply rel_Begin_switch; assumption.
Qed.

(** UNMAP: the same object, the CDB at the same address *)
Lemma rel_Unmap t ca cb buf n rl w : 
  (forall w', ReadValue UnmapCommand (subspan ca 1) w' = ReadValue UnmapCommand (subspan cb 1) w') ->
  (forall w', ReadValue ModeSense6Command (subspan ca 1) w' = ReadValue ModeSense6Command (subspan cb 1) w') ->
  rel (Begin_Unmap (subspan ca 1) buf n (started t ca) rl) (Begin_Unmap (subspan cb 1) buf n (started t cb) rl) w (fun r s _ => simr r s).
Proof.
  intros Hu Hm. unfold Begin_Unmap. apply rel_bind. eapply rel_mono.
  { apply rel_same. unfold UnmapToNvme, bind at 1. rewrite Hu. reflexivity. }
  intros [[st wr] al] s w1 <-. cbv zeta.
  unfold Begin_ModeSense6. apply rel_bind. eapply rel_mono.
  { apply rel_same. unfold ModeSense6ToNvme, bind at 1. rewrite Hm. reflexivity. }
  intros [[[[st2 wrs] al2] k] l] s w2 <-. cbv zeta. apply rel_ret.
  split; [|reflexivity]. split; [reflexivity|]. split; [reflexivity|].
  split; [split; [apply same_al_refl|split; apply same_al_refl]|].
  intros _. split; [intros _; split; reflexivity|]. split; intros _; split; reflexivity.
Qed.

(** ** How many commands an accepted Begin exposes, per opcode *)
Lemma bind_ret_inv {A B} (m : M A) (k : A -> M B) w b w' : bind m k w = Ret b w' -> exists a w1, m w = Ret a w1 /\ k a w1 = Ret b w'.
Proof. unfold bind. destruct (m w) as [a w1|]; [|discriminate]. intros H. eauto. Qed.

Lemma MS_count at' wrs al ps n w st wrs' al' k w' : ModeSenseToNvme at' wrs al ps n 0 w = Ret (st, wrs', al', k) w' ->
  ca_dbd at' = false -> 1 <= k.
Proof.
  intros E Hd. unfold ModeSenseToNvme in E. rewrite Hd in E. cbn [aget] in E.
  apply bind_ret_inv in E as ([[[s1 w1] a1] k1] & w2 & E1 & E2).
  apply bind_ret_inv in E1 as ([[s2 x] y] & w3 & E1 & E3). unfold ret in E3. injection E3 as -> <- -> <- ->.
  change (0 + 1) with 1 in E2.
  destruct (negb (is_success s1)); [unfold ret in E2; injection E2 as _ _ _ <- _; lia|].
  destruct (_ && _).
  { destruct (_ || _); unfold ret in E2; injection E2 as _ _ _ <- _; lia. }
  cbn [aget] in E2. destruct (GenerateCacheGetFeaturesCmd _ _ _). unfold ret in E2. injection E2 as _ _ _ <- _. lia.
Qed.

Definition counts (opc : N) (c : span) (w : world) (k : N) : Prop :=
  (opc = kInquiry -> k = 2) /\ (opc = kReportLuns \/ opc = kReadCapacity10 \/ opc = kModeSense10 -> k = 1) /\
  (opc = kModeSense6 -> forall v, ReadValue ModeSense6Command c w = Ret (Some v) w -> ca_dbd (attrs6 v) = false -> 1 <= k).

Lemma RL_count c t rl w t' l w' : Begin_ReportLuns c t rl w = Ret (t', l) w' -> nvme_cmd_count t' = 1.
Proof.
  intros E. unfold Begin_ReportLuns in E. apply bind_ret_inv in E as ([[[s x] y] z] & w1 & _ & E). cbv zeta in E. unfold ret in E.
  injection E as <- _ _. reflexivity.
Qed.

Lemma switch_counts opc c buf n t rl w t' l w' : nvme_cmd_count t = 0 -> Begin_switch opc c buf n t rl w = Ret (t', l) w' ->
  counts opc c w (nvme_cmd_count t').
Proof.
  intros Hc E. unfold counts. split; [|split].
  - intros ->. change (Begin_switch kInquiry c buf n t rl) with (Begin_Inquiry c n t rl) in E. unfold Begin_Inquiry in E.
    apply bind_ret_inv in E as ([[[[[s x] y] z] u] v] & w1 & _ & E). cbv zeta in E. unfold ret in E. injection E as <- _ _. reflexivity.
  - intros [->|[->| ->]].
    + change (Begin_switch kReportLuns c buf n t rl) with (Begin_ReportLuns c t rl) in E. eapply RL_count, E.
    + change (Begin_switch kReadCapacity10 c buf n t rl) with (Begin_ReadCapacity10 c n t rl) in E. unfold Begin_ReadCapacity10 in E.
      apply bind_ret_inv in E as ([[[s x] y] z] & w1 & _ & E). cbv zeta in E. unfold ret in E. injection E as <- _ _. reflexivity.
    + change (Begin_switch kModeSense10 c buf n t rl) with (Begin_ModeSense10 c n t rl) in E. unfold Begin_ModeSense10, Begin_MaintenanceIn in E.
      apply bind_ret_inv in E as ([[[[s x] y] z] v] & w1 & _ & E). cbv zeta in E.
      apply bind_ret_inv in E as ([s1 x1] & w2 & _ & E). eapply RL_count, E.
  - intros -> v Hv Hd. change (Begin_switch kModeSense6 c buf n t rl) with (Begin_ModeSense6 c n t rl) in E.
    unfold Begin_ModeSense6, ModeSense6ToNvme in E. rewrite Hc in E.
    apply bind_ret_inv in E as ([[[[s x] y] z] u] & w1 & E1 & E). cbv zeta in E. unfold ret in E. injection E as <- _ _. cbn.
    unfold bind at 1 in E1. rewrite Hv in E1. cbv zeta in E1. apply bind_ret_inv in E1 as ([[[s1 x1] y1] z1] & w2 & E1 & E2).
    unfold ret in E2. injection E2 as _ _ _ <- _ _. eapply MS_count; eassumption.
Qed.

Lemma Begin_counts t c buf lun w t' r w' opc : idle t -> Begin t c buf lun w = Ret (t', r) w' -> pipeline_status t' = kSuccess ->
  span_at c 0 w = Ret opc w -> counts opc (subspan c 1) w (nvme_cmd_count t').
Proof.
  intros (Hs & Hc & _) E Hst Ho. unfold Begin in E. rewrite Hs in E. cbn [is_uninitialized negb] in E.
  destruct (len c =? 0).
  { unfold ret in E. injection E as <- _ _. discriminate Hst. }
  cbv zeta in E. fold (started t c) in E. apply bind_ret_inv in E as (o & w1 & E1 & E). rewrite Ho in E1. injection E1 as <- <-.
  apply bind_ret_inv in E as ([t1 l] & w2 & E1 & E). apply bind_ret_inv in E as (t2 & w3 & E2 & E).
  unfold ret in E. injection E as <- _ _. unfold Begin_finish in E2.
  destruct (is_success (pipeline_status t1)) eqn:Es; cbn [negb] in E2.
  - unfold ret in E2. injection E2 as <- _. eapply switch_counts; [|exact E1]. exact Hc.
  - exfalso. apply bind_ret_inv in E2 as (t3 & w4 & E2 & E3). unfold ret in E3. injection E3 as <- _.
    unfold FlushMemory in E2. apply bind_ret_inv in E2 as (al & w5 & _ & E2). unfold ret in E2. injection E2 as <- _.
    cbn in Hst. rewrite Hst in Es. discriminate.
Qed.

(** ** Complete *)
Lemma rel_Complete ta tb ca cb cpls buf sense w : sim ta tb ->
  (pipeline_status ta = kSuccess -> scsi_cmd_ ta = ca /\ scsi_cmd_ tb = cb /\ span_at ca 0 w = span_at cb 0 w /\
     (forall opc, span_at ca 0 w = Ret opc w -> agree ca cb w (std_cdb_len opc) /\ counts opc (subspan ca 1) w (nvme_cmd_count ta))) ->
  rel (Complete ta cpls buf sense) (Complete tb cpls buf sense) w (fun r s _ => snd r = snd s).
Proof.
  intros (Ss & Sc & Sa & Sw) H. unfold Complete. rewrite <- Ss, <- Sc.
  destruct (is_uninitialized (pipeline_status ta)); [apply rel_ret; reflexivity|].
  destruct (negb (N.of_nat (length cpls) =? nvme_cmd_count ta)).
  { apply rel_bind. eapply rel_mono; [apply rel_Abort; assumption|]. intros x y w' _. apply rel_ret. reflexivity. }
  destruct (is_success (pipeline_status ta)) eqn:Es; cbn [negb].
  2:{ cbv zeta. apply rel_bind. eapply rel_mono; [apply rel_same; reflexivity|]. intros _ _ w1 _.
      apply rel_bind. eapply rel_mono; [apply rel_Abort; assumption|]. intros x y w' _. apply rel_ret. reflexivity. }
  assert (Hs : pipeline_status ta = kSuccess) by (destruct (pipeline_status ta); try discriminate; reflexivity).
  destruct (first_error cpls) as [e|].
  { apply rel_bind. eapply rel_mono; [apply rel_same; reflexivity|]. intros _ _ w1 _.
    apply rel_bind. eapply rel_mono; [apply rel_Abort; assumption|]. intros x y w' _. apply rel_ret. reflexivity. }
  destruct (H Hs) as (E1 & E2 & Ho & K). rewrite E1, E2. cbv zeta.
  destruct (span_at ca 0 w) as [opc w1|] eqn:Eo.
  2:{ unfold rel, bind. rewrite Eo, <- Ho. exact I. }
  assert (w1 = w) by (eapply span_at_pure, Eo). subst w1. destruct (K opc eq_refl) as (Hag & Hc1 & Hc2 & Hc3).
  apply rel_bind. unfold rel at 1. rewrite Eo, <- Ho. split; [reflexivity|].
  specialize (Sw Hs). destruct Sw as (W0 & W1 & W2).
  apply rel_bind. apply (rel_mono _ _ _ (fun x y _ => x = y)).
  2:{ intros x y w' ->. apply rel_bind. eapply rel_mono; [apply rel_Abort; assumption|]. intros ? ? ? _. apply rel_ret. reflexivity. }
  apply rel_same. unfold Complete_switch. cbv zeta. rewrite <- Ss.
  repeat match goal with
  | |- (if ?o =? ?k then _ else _) _ = _ =>
      let E := fresh "E" in destruct (N.eqb_spec o k) as [E|E]; [subst o|clear E]
  end; try reflexivity.
  - (* INQUIRY *) specialize (Hc1 eq_refl). rewrite Hc1 in *.
    destruct (W0 ltac:(lia)) as [-> _]. destruct (W1 ltac:(lia)) as [-> _].
    unfold InquiryToScsi, bind. rewrite <- (Hag InquiryCommand) by (cbn; lia).
    destruct (ReadValue InquiryCommand (subspan ca 1) w) as [[c|] w1|]; reflexivity.
  - (* MODE SENSE(6) *) unfold bind at 1 3. destruct (cpl0_cdw0 cpls w) as [d w1|] eqn:Ed; [|reflexivity].
    assert (w1 = w) by (destruct cpls; [discriminate Ed|injection Ed as _ <-; reflexivity]). subst w1.
    unfold bind at 1 2. unfold ModeSense6ToScsi, bind. rewrite <- (Hag ModeSense6Command) by (cbn; lia).
    destruct (ReadValue ModeSense6Command (subspan ca 1) w) as [[c|] w1|] eqn:Er; try reflexivity.
    assert (w1 = w).
    { revert Er. unfold ReadValue. destruct (_ <? _); [discriminate|]. unfold bind, load. destruct (load_bytes _ _ _); [|discriminate].
      intros X. injection X as _ <-. reflexivity. }
    subst w1. specialize (Hc3 eq_refl c eq_refl). destruct (ca_dbd (attrs6 c)) eqn:Ed1.
    + unfold ModeSenseToScsi. rewrite Ed1. reflexivity.
    + destruct (W0 ltac:(specialize (Hc3 eq_refl); lia)) as [-> _]. reflexivity.
  - (* MODE SENSE(10) *) rewrite (Hc2 ltac:(auto)) in *. destruct (W0 ltac:(lia)) as [-> _].
    unfold bind at 1 3. destruct (cpl0_cdw0 cpls w) as [d w1|] eqn:Ed; [|reflexivity].
    assert (w1 = w) by (destruct cpls; [discriminate Ed|injection Ed as _ <-; reflexivity]). subst w1.
    unfold bind at 1 2. unfold ModeSense10ToScsi, bind. rewrite <- (Hag ModeSense10Command) by (cbn; lia). reflexivity.
  - (* REPORT LUNS *) rewrite (Hc2 ltac:(auto)) in *. destruct (W0 ltac:(lia)) as [-> _]. reflexivity.
  - (* READ CAPACITY *) rewrite (Hc2 ltac:(auto)) in *. destruct (W0 ltac:(lia)) as [-> _]. reflexivity.
  - (* REQUEST SENSE *) unfold RequestSenseToScsi, bind. rewrite <- (Hag RequestSenseCommand) by (cbn; lia). reflexivity.
Qed.
