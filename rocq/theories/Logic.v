(** A small program logic for the model's monad, and the effects of the
    translation functions on the world. *)
From Coq Require Import Arith NArith String List Lia Bool Init.Byte Permutation.
From Coq Require Import ZifyBool ZifyNat ZifyN.
From Verif Require Import Bytes Layout World ScsiDefs NvmeDefs Common ModeSenseCmd TranslationCls Spec
  Facts.
Import ListNotations.
Local Open Scope string_scope.
Local Open Scope list_scope.
Local Open Scope N_scope.

(** total correctness: no undefined behaviour, and [Q] of the result *)
Definition tst {A} (m : M A) (w : world) (Q : A -> world -> Prop) : Prop :=
  match m w with Ret a w' => Q a w' | UB _ => False end.
(** partial correctness: [Q] of the result, if there is one *)
Definition pst {A} (m : M A) (w : world) (Q : A -> world -> Prop) : Prop :=
  match m w with Ret a w' => Q a w' | UB _ => True end.

Lemma tst_ret {A} (a : A) w (Q : A -> world -> Prop) : Q a w -> tst (ret a) w Q.
Proof. intros H. exact H. Qed.
Lemma tst_bind {A B} (m : M A) (k : A -> M B) w Q :
  tst m w (fun a w' => tst (k a) w' Q) -> tst (bind m k) w Q.
Proof. unfold tst, bind. destruct (m w); auto. Qed.
Lemma tst_mono {A} (m : M A) w (P Q : A -> world -> Prop) :
  tst m w P -> (forall a w', P a w' -> Q a w') -> tst m w Q.
Proof. unfold tst. destruct (m w); auto. Qed.
Lemma tst_inv {A} (m : M A) w Q : tst m w Q -> exists a w', m w = Ret a w' /\ Q a w'.
Proof. unfold tst. destruct (m w) as [a w'|]; [|contradiction]. eauto. Qed.
Lemma tst_use {A} (m : M A) w Q a w' : tst m w Q -> m w = Ret a w' -> Q a w'.
Proof. unfold tst. intros H E. rewrite E in H. exact H. Qed.
Lemma tst_of_eq {A} (m : M A) w a w' (Q : A -> world -> Prop) : m w = Ret a w' -> Q a w' -> tst m w Q.
Proof. intros E H. unfold tst. rewrite E. exact H. Qed.

Lemma pst_ret {A} (a : A) w (Q : A -> world -> Prop) : Q a w -> pst (ret a) w Q.
Proof. intros H. exact H. Qed.
Lemma pst_bind {A B} (m : M A) (k : A -> M B) w Q :
  pst m w (fun a w' => pst (k a) w' Q) -> pst (bind m k) w Q.
Proof. unfold pst, bind. destruct (m w); auto. Qed.
Lemma pst_mono {A} (m : M A) w (P Q : A -> world -> Prop) :
  pst m w P -> (forall a w', P a w' -> Q a w') -> pst m w Q.
Proof. unfold pst. destruct (m w); auto. Qed.
Lemma pst_use {A} (m : M A) w Q a w' : pst m w Q -> m w = Ret a w' -> Q a w'.
Proof. unfold pst. intros H E. rewrite E in H. exact H. Qed.
Lemma pst_ub {A} s w (Q : A -> world -> Prop) : pst (ub s) w Q.
Proof. exact I. Qed.

(** both at once: [T] tells whether definedness is claimed *)
Definition cst (T : bool) {A} (m : M A) (w : world) (Q : A -> world -> Prop) : Prop :=
  match m w with Ret a w' => Q a w' | UB _ => T = false end.
Lemma cst_ret T {A} (a : A) w (Q : A -> world -> Prop) : Q a w -> cst T (ret a) w Q.
Proof. intros H. exact H. Qed.
Lemma cst_bind T {A B} (m : M A) (k : A -> M B) w Q :
  cst T m w (fun a w' => cst T (k a) w' Q) -> cst T (bind m k) w Q.
Proof. unfold cst, bind. destruct (m w); auto. Qed.
Lemma cst_mono T {A} (m : M A) w (P Q : A -> world -> Prop) :
  cst T m w P -> (forall a w', P a w' -> Q a w') -> cst T m w Q.
Proof. unfold cst. destruct (m w); auto. Qed.
Lemma cst_of_eq T {A} (m : M A) w a w' (Q : A -> world -> Prop) : m w = Ret a w' -> Q a w' -> cst T m w Q.
Proof. intros E H. unfold cst. rewrite E. exact H. Qed.
Lemma tst_cst T {A} (m : M A) w Q : tst m w Q -> cst T m w Q.
Proof. unfold tst, cst. destruct (m w); auto. contradiction. Qed.
Lemma cst_tst {A} (m : M A) w Q : cst true m w Q -> tst m w Q.
Proof. unfold tst, cst. destruct (m w); auto. discriminate. Qed.
Lemma cst_pst {A} (m : M A) w Q : cst false m w Q -> pst m w Q.
Proof. unfold pst, cst. destruct (m w); auto. Qed.

Definition ok_span (T : bool) (w : world) (s : span) : Prop := T = true -> span_mapped w s.

Lemma load_pure a n w l w' : load a n w = Ret l w' -> w' = w.
Proof. unfold load. destruct (load_bytes (mem w) a n); [|discriminate]. intros H. injection H as _ <-. reflexivity. Qed.

Lemma ReadValue_cst T l s w : ok_span T w s -> cst T (ReadValue l s) w (fun _ w' => w' = w).
Proof.
  intros H. destruct T.
  - destruct (ReadValue_mapped l s w (H eq_refl)) as [o E]. eapply cst_of_eq; [exact E|reflexivity].
  - unfold ReadValue. destruct (len s <? N.of_nat (sizeof l)); [reflexivity|].
    apply cst_bind. unfold cst at 1. destruct (load (ptr s) (sizeof l) w) as [bs w'|] eqn:E; [|reflexivity].
    apply load_pure in E. subst. reflexivity.
Qed.

(** ** Configuration *)
Record same_cfg (w w' : world) : Prop := {
  sc_alloc : alloc_cb w' = alloc_cb w;
  sc_dealloc : dealloc_cb w' = dealloc_cb w;
  sc_ans : ans w' = ans w;
  sc_fill : fill w' = fill w;
  sc_junk : junk w' = junk w
}.
Lemma same_cfg_refl w : same_cfg w w. Proof. constructor; reflexivity. Qed.
Lemma same_cfg_trans w1 w2 w3 : same_cfg w1 w2 -> same_cfg w2 w3 -> same_cfg w1 w3.
Proof. intros [? ? ? ? ?] [? ? ? ? ?]. constructor; congruence. Qed.

(** ** Effects of the ToNvme side: pages may be obtained, memory changes only
       inside them *)
Definition in_fresh (evs : list event) (x : N) : Prop :=
  exists ps n a, In (EvAlloc ps n a) evs /\ a <> 0 /\ a <= x < a + ps * n.
Definition is_alloc (e : event) : Prop := match e with EvAlloc _ _ _ => True | _ => False end.
(** allocations the environment answered, one after the other; only single
    4096-byte pages are ever asked for *)
Fixpoint drawn (an : nat -> N -> N -> N) (k : nat) (evs : list event) : Prop :=
  match evs with
  | [] => True
  | EvAlloc ps n a :: r => (ps = 4096 /\ n <= 1 /\ a = u64 (an k ps n)) /\ drawn an (S k) r
  | EvDealloc _ _ :: _ => False
  end.
Lemma drawn_app an e1 : forall k e2, drawn an k e1 -> drawn an (k + length e1) e2 -> drawn an k (e1 ++ e2).
Proof.
  induction e1 as [|[ps n a|a n] e1 IH]; intros k e2 H1 H2; cbn [app drawn length] in *; [rewrite Nat.add_0_r in H2; exact H2| |exact H1].
  destruct H1 as [H1 H3]. split; [exact H1|]. apply IH; [exact H3|]. rewrite Nat.add_succ_r in H2. exact H2.
Qed.
Lemma drawn_in an evs : forall k e, drawn an k evs -> In e evs -> exists j n, (k <= j < k + length evs)%nat /\ n <= 1 /\ e = EvAlloc 4096 n (u64 (an j 4096 n)).
Proof.
  induction evs as [|[ps n a|a n] evs IH]; intros k e H Hin; cbn [drawn length] in *; [destruct Hin| |destruct H].
  destruct H as [(-> & Hn & ->) H]. destruct Hin as [<-|Hin].
  - exists k, n. split; [lia|]. split; [exact Hn|reflexivity].
  - destruct (IH _ _ H Hin) as (j & n' & Hj & Hn' & E). exists j, n'. split; [lia|]. split; [exact Hn'|exact E].
Qed.

Record grows (w w' : world) (evs : list event) : Prop := {
  g_trace : trace w' = trace w ++ evs;
  g_from : drawn (ans w) (tick w) evs;
  g_tick : tick w' = (tick w + length evs)%nat;
  g_mem : forall x, mem w' x = mem w x \/ in_fresh evs x;
  g_dom : forall x, mem w x <> None -> mem w' x <> None;
  g_cfg : same_cfg w w'
}.

Lemma g_alloc w w' evs : grows w w' evs -> Forall is_alloc evs.
Proof. intros G. apply Forall_forall. intros e He. destruct (drawn_in _ _ _ _ (g_from _ _ _ G) He) as (j & n & _ & _ & ->). exact I. Qed.

Lemma in_fresh_app e1 e2 x : in_fresh (e1 ++ e2) x <-> in_fresh e1 x \/ in_fresh e2 x.
Proof.
  unfold in_fresh. split.
  - intros (ps & n & a & H & H'). apply in_app_or in H as [H|H]; [left|right]; exists ps, n, a; auto.
  - intros [(ps & n & a & H & H')|(ps & n & a & H & H')]; exists ps, n, a; split; auto;
      apply in_or_app; auto.
Qed.

Lemma grows_refl w : grows w w [].
Proof.
  constructor; auto using same_cfg_refl. - rewrite app_nil_r. reflexivity. - exact I.
Qed.

Lemma grows_trans w1 w2 w3 e1 e2 : grows w1 w2 e1 -> grows w2 w3 e2 -> grows w1 w3 (e1 ++ e2).
Proof.
  intros [A1 B1 T1 C1 D1 E1] [A2 B2 T2 C2 D2 E2]. constructor.
  - rewrite A2, A1, app_assoc. reflexivity.
  - apply drawn_app; [exact B1|]. rewrite <- T1, <- (sc_ans _ _ E1). exact B2.
  - rewrite T2, T1, app_length. lia.
  - intros x. rewrite in_fresh_app. destruct (C1 x) as [H1|H1]; destruct (C2 x) as [H2|H2]; auto.
    left. congruence.
  - auto.
  - eapply same_cfg_trans; eassumption.
Qed.

Lemma grows_mapped w w' evs a n : grows w w' evs -> mapped w a n -> mapped w' a n.
Proof. intros G H x Hx. apply (g_dom _ _ _ G). apply H. exact Hx. Qed.
Lemma grows_span w w' evs s : grows w w' evs -> span_mapped w s -> span_mapped w' s.
Proof. intros H. apply (grows_mapped _ _ _ _ _ H). Qed.

(** page runs obtained in a list of events *)
Fixpoint acquired (evs : list event) : list (N * N) :=
  match evs with
  | [] => []
  | EvAlloc _ n a :: evs' => (if a =? 0 then [] else [(a, n)]) ++ acquired evs'
  | EvDealloc _ _ :: evs' => acquired evs'
  end.
Lemma acquired_app e1 e2 : acquired (e1 ++ e2) = acquired e1 ++ acquired e2.
Proof. induction e1 as [|[? ? ?|? ?] e1 IH]; cbn; rewrite ?IH, ?app_assoc; reflexivity. Qed.

(** ** The allocator *)
Lemma AllocPages_spec ps n w : ps = 4096 -> n <= 1 ->
  tst (AllocPages ps n) w (fun a w' => exists evs,
    grows w w' evs /\ a < 2 ^ 64 /\
    acquired evs = (if a =? 0 then [] else [(a, n)]) /\
    (a <> 0 -> mapped w' a (ps * n) /\ forall x, a <= x < a + ps * n -> in_fresh evs x) /\
    (alloc_cb w = false -> a = 0) /\
    (alloc_cb w = true -> a = u64 (ans w (tick w) ps n))).
Proof.
  intros Hps Hn1. unfold tst, AllocPages. destruct (alloc_cb w) eqn:Ea; cbn [negb].
  2:{ exists []. split; [apply grows_refl|]. split; [lia|]. split; [reflexivity|]. split; [lia|].
      split; [reflexivity|discriminate]. }
  set (a := u64 (ans w (tick w) ps n)).
  exists [EvAlloc ps n a]. cbn [acquired]. rewrite app_nil_r.
  assert (Hlt : a < 2 ^ 64) by apply u64_lt.
  destruct (N.eqb_spec a 0) as [E|E].
  - split.
    { constructor; cbn; auto. - lia. - constructor; reflexivity. }
    split; [exact Hlt|]. split; [reflexivity|]. split; [intros; contradiction|].
    split; [discriminate|reflexivity].
  - split.
    { constructor; cbn.
      - reflexivity.
      - auto.
      - lia.
      - intros x. unfold map_pages.
        destruct (N.leb_spec a x); destruct (N.ltb_spec x (a + ps * n)); cbn [andb]; auto.
        right. exists ps, n, a. split; [left; reflexivity|]. split; [exact E|lia].
      - intros x Hx. unfold map_pages. destruct ((a <=? x) && (x <? a + ps * n)); [discriminate|exact Hx].
      - constructor; reflexivity. }
    split; [exact Hlt|]. split; [reflexivity|]. split; [|split; [discriminate|reflexivity]].
    intros _. split.
    + intros x Hx. cbn. unfold map_pages.
      replace ((a <=? x) && (x <? a + ps * n)) with true by lia. discriminate.
    + intros x Hx. exists ps, n, a. split; [left; reflexivity|]. split; [exact E|exact Hx].
Qed.

(** every run of the allocation is empty *)
Definition empty_alloc (a : Allocation) : Prop := data_addr a = 0 /\ mdata_addr a = 0.
Lemma empty_held a : empty_alloc a <-> held_by a = [].
Proof.
  unfold empty_alloc, held_by. destruct (N.eqb_spec (data_addr a) 0); destruct (N.eqb_spec (mdata_addr a) 0);
    cbn; split; intros H; try tauto; try discriminate; destruct H; contradiction.
Qed.

Definition zero_ok (w : world) : Prop := forall k ps, ans w k ps 0 = 0.
Lemma zero_ok_cfg w w' : same_cfg w w' -> zero_ok w -> zero_ok w'.
Proof. intros [_ _ E _ _] H k ps. rewrite E. apply H. Qed.

(** SetPages(page_size, 1, 0), as every caller uses it *)
Lemma SetPages1_spec al ps w : ps = 4096 ->
  tst (SetPages al ps 1 0) w (fun r w' => exists evs, let '(st, al') := r in
    grows w w' evs /\
    ((st = kSuccess /\ data_addr al = 0 /\ data_addr al' <> 0 /\ data_page_count al' = 1 /\
      data_addr al' < 2 ^ 64 /\ mapped w' (data_addr al') ps /\
      (forall x, data_addr al' <= x < data_addr al' + ps -> in_fresh evs x)) \/
     (st = kFailure /\ data_addr al = 0 /\ data_addr al' = 0) \/
     (st = kFailure /\ data_addr al <> 0 /\ al' = al /\ w' = w /\ evs = [])) /\
    (zero_ok w -> mdata_addr al = 0 -> mdata_addr al' = 0 /\
       Permutation (held_by al') (acquired evs ++ held_by al))).
Proof.
  intros Hps. unfold SetPages. change (negb (0 =? 0)) with false. change (negb (1 =? 0)) with true.
  cbn [andb orb]. rewrite orb_false_r.
  destruct (N.eqb_spec (data_addr al) 0) as [E|E]; cbn [negb].
  - apply tst_bind. eapply tst_mono; [apply AllocPages_spec; [exact Hps|lia]|].
    intros da w1 (e1 & G1 & L1 & Q1 & M1 & _ & _). cbv beta.
    apply tst_bind. eapply tst_mono; [apply AllocPages_spec; [exact Hps|lia]|].
    intros ma w2 (e2 & G2 & L2 & Q2 & M2 & N2 & S2). cbv beta.
    assert (Hz : zero_ok w -> ma = 0).
    { intros Hz. destruct (alloc_cb w1) eqn:Ea; [|auto].
      rewrite S2 by reflexivity. rewrite (zero_ok_cfg _ _ (g_cfg _ _ _ G1) Hz). reflexivity. }
    destruct (N.eqb_spec da 0) as [Ed|Ed]; cbn [orb]; rewrite ?orb_false_r;
      apply tst_ret; exists (e1 ++ e2); (split; [eapply grows_trans; eassumption|]); split.
    + right. left. auto.
    + intros Hz' Hm. rewrite Hz in * by exact Hz'. split; [reflexivity|].
      rewrite acquired_app, Q1, Q2. unfold held_by. cbn. rewrite E, Hm.
      subst da. cbn. constructor.
    + left. cbn. destruct (M1 Ed) as [M1a M1b]. rewrite N.mul_1_r in M1a, M1b.
      repeat split; auto.
      * eapply grows_mapped; [exact G2|exact M1a].
      * intros x Hx. apply in_fresh_app. left. apply M1b. exact Hx.
    + intros Hz' Hm. rewrite Hz in * by exact Hz'. split; [reflexivity|].
      rewrite acquired_app, Q1, Q2. unfold held_by. cbn. rewrite E, Hm.
      destruct (N.eqb_spec da 0); [contradiction|]. cbn. apply Permutation_refl.
  - apply tst_ret. exists []. split; [apply grows_refl|]. split.
    + right. right. auto.
    + intros _ Hm. split; [exact Hm|]. cbn. apply Permutation_refl.
Qed.

(** ** Effects of the ToScsi side: memory changes only inside [P] *)
Record framed (P : N -> Prop) (w w' : world) : Prop := {
  f_mem : forall x, ~ P x -> mem w' x = mem w x;
  f_dom : forall x, mem w x <> None -> mem w' x <> None;
  f_trace : trace w' = trace w;
  f_cfg : same_cfg w w'
}.
Lemma framed_refl P w : framed P w w.
Proof. constructor; auto using same_cfg_refl. Qed.
Lemma framed_trans P w1 w2 w3 : framed P w1 w2 -> framed P w2 w3 -> framed P w1 w3.
Proof.
  intros [A1 B1 C1 D1] [A2 B2 C2 D2]. constructor; auto.
  - intros x Hx. rewrite A2, A1; auto.
  - congruence.
  - eapply same_cfg_trans; eassumption.
Qed.
Lemma framed_weaken (P Q : N -> Prop) w w' : framed P w w' -> (forall x, P x -> Q x) -> framed Q w w'.
Proof. intros [A B C D] H. constructor; auto. Qed.
Lemma framed_mapped P w w' a n : framed P w w' -> mapped w a n -> mapped w' a n.
Proof. intros [_ D _ _] H x Hx. apply D. apply H. exact Hx. Qed.
Lemma framed_span P w w' s : framed P w w' -> span_mapped w s -> span_mapped w' s.
Proof. intros H. apply (framed_mapped _ _ _ _ _ H). Qed.

Lemma store_framed w a bs (P : N -> Prop) : (forall x, a <= x < a + N.of_nat (length bs) -> P x) ->
  framed P w (set_mem w (store_bytes (mem w) a bs)).
Proof.
  intros H. constructor; cbn [set_mem mem trace]; auto.
  - intros x Hx. apply store_bytes_out. intros Hc. apply Hx, H, Hc.
  - intros x Hx. unfold store_bytes. destruct ((a <=? x) && (x <? a + N.of_nat (length bs))); [discriminate|exact Hx].
  - constructor; reflexivity.
Qed.

Lemma stack_junk_spec P n w : tst (stack_junk n) w (fun l w' => framed P w w' /\ length l = n /\ mem w' = mem w).
Proof.
  unfold tst, stack_junk. split; [|split].
  - constructor; cbn; auto. constructor; reflexivity.
  - rewrite map_length, seq_length. reflexivity.
  - reflexivity.
Qed.

(** the memory after some calls wrote only in [P] *)
Definition confined {A} (P : N -> Prop) (m : M A) : Prop :=
  forall w, pst m w (fun _ w' => framed P w w').

Lemma confined_ret {A} P (a : A) : confined P (ret a).
Proof. intros w. apply pst_ret, framed_refl. Qed.
Lemma confined_ub {A} P s : confined P (@ub A s).
Proof. intros w. apply pst_ub. Qed.
Lemma confined_bind {A B} P (m : M A) (k : A -> M B) :
  confined P m -> (forall a, confined P (k a)) -> confined P (bind m k).
Proof.
  intros H1 H2 w. apply pst_bind. eapply pst_mono; [apply H1|]. intros a w' F. cbv beta.
  eapply pst_mono; [apply H2|]. intros b w'' F'. exact (framed_trans _ _ _ _ F F').
Qed.
Lemma confined_load P a n : confined P (load a n).
Proof. intros w. unfold pst, load. destruct (load_bytes (mem w) a n); [apply framed_refl|exact I]. Qed.
Lemma confined_store (P : N -> Prop) a bs : (forall x, a <= x < a + N.of_nat (length bs) -> P x) ->
  confined P (store a bs).
Proof.
  intros H w. unfold pst. destruct (store a bs w) as [u w'|] eqn:E; [|exact I].
  apply store_inv in E as [_ ->]. apply store_framed. exact H.
Qed.
Lemma confined_junk P n : confined P (stack_junk n).
Proof. intros w. apply (stack_junk_spec P n w). Qed.
Lemma confined_ReadValue P l s : confined P (ReadValue l s).
Proof.
  unfold ReadValue. destruct (len s <? N.of_nat (sizeof l)); [apply confined_ret|].
  apply confined_bind; [apply confined_load|]. intros. apply confined_ret.
Qed.
Lemma confined_span_at P s i : confined P (span_at s i).
Proof.
  unfold span_at. destruct (i <? len s); [|apply confined_ub].
  apply confined_bind; [apply confined_load|]. intros. apply confined_ret.
Qed.
Lemma confined_rd_field P l s a : confined P (rd_field l s a).
Proof.
  unfold rd_field. destruct (lay_find l s) as [[o w]|]; [|apply confined_ub].
  apply confined_bind; [apply confined_load|]. intros. apply confined_ret.
Qed.
Lemma confined_WriteValue_n (P : N -> Prop) bs s n : (forall x, in_span s x -> P x) ->
  confined P (WriteValue_n bs s n).
Proof.
  intros H. unfold WriteValue_n.
  destruct (N.ltb_spec (len s) (N.of_nat n)) as [Hl|Hl]; cbn [orb]; [apply confined_ret|].
  destruct (Nat.ltb_spec (length bs) n) as [Hn|Hn]; [apply confined_ret|].
  apply confined_bind; [|intros; apply confined_ret].
  apply confined_store. intros x Hx. apply H. unfold in_span. rewrite firstn_length in Hx. lia.
Qed.
Lemma confined_WriteValue (P : N -> Prop) bs s : (forall x, in_span s x -> P x) ->
  confined P (WriteValue bs s).
Proof. apply confined_WriteValue_n. Qed.

Lemma FillSenseBuffer_confined sense s (P : N -> Prop) : (forall x, in_span sense x -> P x) ->
  confined P (FillSenseBuffer sense s).
Proof.
  intros H. unfold FillSenseBuffer. apply confined_bind; [apply confined_junk|].
  intros j. cbv zeta. apply confined_WriteValue. exact H.
Qed.

(** a confined program that only loads from mapped memory terminates; helper for
    definedness *)
Lemma WriteValue_n_total bs s n w : span_mapped w s ->
  tst (WriteValue_n bs s n) w (fun _ w' => framed (in_span s) w w').
Proof.
  intros H. unfold WriteValue_n.
  destruct (N.ltb_spec (len s) (N.of_nat n)) as [Hl|Hl]; cbn [orb]; [apply tst_ret, framed_refl|].
  destruct (Nat.ltb_spec (length bs) n) as [Hn|Hn]; [apply tst_ret, framed_refl|].
  apply tst_bind. eapply tst_of_eq.
  - apply store_ok. rewrite firstn_length. eapply mapped_sub; [exact H|lia|lia].
  - apply tst_ret. apply store_framed. intros x Hx. unfold in_span. rewrite firstn_length in Hx. lia.
Qed.
Lemma WriteValue_total bs s w : span_mapped w s ->
  tst (WriteValue bs s) w (fun _ w' => framed (in_span s) w w').
Proof. apply WriteValue_n_total. Qed.
Lemma FillSenseBuffer_total sense s w : span_mapped w sense ->
  tst (FillSenseBuffer sense s) w (fun _ w' => framed (in_span sense) w w').
Proof.
  intros H. unfold FillSenseBuffer. apply tst_bind.
  eapply tst_mono; [apply (stack_junk_spec (in_span sense))|]. intros j w1 (F & Hl & Hm). cbv beta zeta.
  eapply tst_mono; [apply WriteValue_total; eapply framed_span; eassumption|].
  intros b w2 F2. eapply framed_trans; eassumption.
Qed.
