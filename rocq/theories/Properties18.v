(** C83: locality of the calls. *)
From Coq Require Import Arith NArith String List Lia Bool Init.Byte Permutation.
From Coq Require Import ZifyBool ZifyNat ZifyN.
From Verif Require Import Bytes Layout World ScsiDefs NvmeDefs Common ReadCmds WriteCmds SmallCmds
  UnmapCmd StatusCmd ModeSenseCmd InquiryCmd TranslationCls Spec RwSpec InquirySpec SmallSpec ModeSpec LocalSpec Facts Logic BeginFacts CompleteFacts RwFacts ProgFacts Witness
  Properties1 Properties8.
Import ListNotations.
Local Open Scope string_scope.
Local Open Scope list_scope.
Local Open Scope N_scope.

(** ** primitive effects *)
Lemma plus_load e w w2 a : forall n l, with_more e w w2 -> load_bytes (mem w) a n = Some l -> load_bytes (mem w2) a n = Some l.
Proof.
  intros n. revert a. induction n as [|n IH]; intros a l P H; cbn [load_bytes] in *; [exact H|].
  destruct (mem w a) as [b|] eqn:E; [|discriminate]. destruct (load_bytes (mem w) (a + 1) n) as [r|] eqn:E1; [|discriminate].
  rewrite (IH _ _ P E1). rewrite (proj2 P a), E. exact H.
Qed.

Lemma framed_prog d A (m : M A) : prog d m -> frame_safe m.
Proof.
  induction 1 as [A a|A s|A B m k _ IHm _ IHk|a n|a bs|ps n|a n _|n]; intros e w w2 r w' P E.
  - injection E as <- <-. eexists. split; [reflexivity|exact P].
  - discriminate.
  - unfold bind in E. destruct (m w) as [a w1|] eqn:E1; [|discriminate].
    destruct (IHm e w w2 a w1 P E1) as (w21 & E2 & P2). destruct (IHk a e w1 w21 r w' P2 E) as (w22 & E3 & P3).
    exists w22. split; [|exact P3]. unfold bind. rewrite E2. exact E3.
  - unfold load in E. destruct (load_bytes (mem w) a n) eqn:E1; [|discriminate]. injection E as <- <-.
    exists w2. split; [|exact P]. unfold load. rewrite (plus_load _ _ _ _ _ _ P E1). reflexivity.
  - unfold store in E. destruct (load_bytes (mem w) a (length bs)) eqn:E1; [|discriminate]. injection E as <- <-.
    unfold store. rewrite (plus_load _ _ _ _ _ _ P E1). eexists. split; [reflexivity|]. destruct P as [(P1 & P2 & P3 & P4 & P5 & P6 & P7) Pm].
    split; [repeat split; assumption|]. intros x. cbn [set_mem mem]. unfold store_bytes. destruct (_ && _); [reflexivity|apply Pm].
  - destruct P as [(P1 & P2 & P3 & P4 & P5 & P6 & P7) Pm]. unfold AllocPages in *. rewrite P1. destruct (alloc_cb w) eqn:Ec; cbn [negb] in *.
    2:{ injection E as <- <-. eexists. split; [reflexivity|]. split; [repeat split; congruence|exact Pm]. }
    rewrite P3, P6. destruct (u64 (ans w (tick w) ps n) =? 0); injection E as <- <-; (eexists; split; [reflexivity|]); (split; [|]).
    + unfold same_env; cbn; rewrite ?P7; repeat split; congruence.
    + exact Pm.
    + unfold same_env; cbn; rewrite ?P7; repeat split; congruence.
    + intros x. cbn. unfold map_pages. rewrite P4. destruct (_ && _); [reflexivity|apply Pm].
  - destruct P as [(P1 & P2 & P3 & P4 & P5 & P6 & P7) Pm]. unfold DeallocPages in *. rewrite P2. destruct (dealloc_cb w) eqn:Ec; cbn [negb] in *; injection E as <- <-;
      (eexists; split; [reflexivity|]); (split; [|exact Pm]); unfold same_env; cbn; rewrite ?P7; repeat split; congruence.
  - destruct P as [(P1 & P2 & P3 & P4 & P5 & P6 & P7) Pm]. unfold stack_junk in *. injection E as <- <-. rewrite P5, P6.
    eexists. split; [reflexivity|]. split; [|exact Pm]. unfold same_env; cbn; rewrite ?P7; repeat split; congruence.
Qed.

(** ** C83 *)

Theorem C83_begin_framed : forall t cdb buffer lun, frame_safe (Begin t cdb buffer lun).
Proof. intros. eapply framed_prog, p_Begin. Qed.
Print Assumptions C83_begin_framed.
Theorem C83_complete_framed : forall t cpls buffer sense, frame_safe (Complete t cpls buffer sense).
Proof. intros. eapply framed_prog, p_Complete. Qed.
Print Assumptions C83_complete_framed.
Theorem C83_abort_framed : forall t, frame_safe (AbortPipeline t).
Proof. intros. eapply framed_prog, p_Abort. Qed.
Print Assumptions C83_abort_framed.

Lemma only_plus S w : with_more (mem w) (only S w) w.
Proof. split; [unfold same_env; cbn; auto 8|]. intros x. cbn. destruct (S x); [|reflexivity]. destruct (mem w x); reflexivity. Qed.
Lemma only_plus2 S w w2 : same_env w w2 -> (forall x, S x = true -> mem w2 x = mem w x) -> with_more (mem w2) (only S w) w2.
Proof. intros E H. split; [exact E|]. intros x. cbn. destruct (S x) eqn:Ex; [|reflexivity]. rewrite (H x Ex). destruct (mem w x); reflexivity. Qed.

Lemma local_of {A} (m : M A) S w1 w2 a w1' : frame_safe m -> same_env w1 w2 -> (forall x, S x = true -> mem w2 x = mem w1 x) ->
  (exists a0 w0, m (only S w1) = Ret a0 w0) -> m w1 = Ret a w1' ->
  exists w2', m w2 = Ret a w2' /\ same_effect w1 w1' w2 w2'.
Proof.
  intros F E H (a0 & w0 & E0) E1.
  destruct (F _ _ _ _ _ (only_plus S w1) E0) as (w1a & E1a & Pa). rewrite E1 in E1a.
  assert (Ea : a = a0 /\ w1' = w1a) by (split; congruence). destruct Ea as [-> ->].
  destruct (F _ _ _ _ _ (only_plus2 S w1 w2 E H) E0) as (w2' & E2 & P2). exists w2'. split; [exact E2|].
  destruct Pa as [(A1 & A2 & A3 & A4 & A5 & A6 & A7) Am]. destruct P2 as [(B1 & B2 & B3 & B4 & B5 & B6 & B7) Bm].
  split; [unfold same_env; repeat split; congruence|]. intros x. rewrite Am, Bm. destruct (mem w0 x) eqn:E3; [left; reflexivity|right; auto].
Qed.

(** A call that works when only the memory of a set is accessible does the same
    in all worlds that agree on that set, whatever else they contain. *)
Theorem C83_footprint : forall (S : N -> bool) w1 w2, same_env w1 w2 -> agree_on (fun x => S x = true) w1 w2 ->
  (forall t cdb buffer lun a0 w0 r w1', Begin t cdb buffer lun (only S w1) = Ret a0 w0 -> Begin t cdb buffer lun w1 = Ret r w1' ->
     exists w2', Begin t cdb buffer lun w2 = Ret r w2' /\ same_effect w1 w1' w2 w2') /\
  (forall t cpls buffer sense a0 w0 r w1', Complete t cpls buffer sense (only S w1) = Ret a0 w0 -> Complete t cpls buffer sense w1 = Ret r w1' ->
     exists w2', Complete t cpls buffer sense w2 = Ret r w2' /\ same_effect w1 w1' w2 w2') /\
  (forall t a0 w0 r w1', AbortPipeline t (only S w1) = Ret a0 w0 -> AbortPipeline t w1 = Ret r w1' ->
     exists w2', AbortPipeline t w2 = Ret r w2' /\ same_effect w1 w1' w2 w2').
Proof.
  intros S w1 w2 E H. split; [|split].
  - intros t cdb buffer lun a0 w0 r w1' E0 E1. eapply local_of; eauto using C83_begin_framed.
  - intros t cpls buffer sense a0 w0 r w1' E0 E1. eapply local_of; eauto using C83_complete_framed.
  - intros t a0 w0 r w1' E0 E1. eapply local_of; eauto using C83_abort_framed.
Qed.
Print Assumptions C83_footprint.

(** sets of addresses as tests *)
Definition inb (s : span) (x : N) : bool := (ptr s <=? x) && (x <? ptr s + len s).
Lemma inb_iff s x : inb s x = true <-> in_span s x.
Proof. unfold inb, in_span. lia. Qed.
Definition runb (l : list (N * N)) (x : N) : bool := existsb (fun r => (fst r <=? x) && (x <? fst r + 4096 * snd r)) l.
Lemma runb_iff l x : runb l x = true <-> in_runs l x.
Proof.
  unfold runb, in_runs. rewrite existsb_exists. split.
  - intros ([p n] & Hin & H). exists p, n. cbn [fst snd] in H. split; [exact Hin|lia].
  - intros (p & n & Hin & H). exists (p, n). cbn [fst snd]. split; [exact Hin|lia].
Qed.

Lemma only_mapped S w a n : mapped w a n -> (forall x, a <= x < a + n -> S x = true) -> mapped (only S w) a n.
Proof. intros H HS x Hx. cbn. rewrite (HS x Hx). apply H. exact Hx. Qed.
Lemma only_bytes S w a bs : bytes_at w a bs -> (forall x, a <= x < a + N.of_nat (length bs) -> S x = true) -> bytes_at (only S w) a bs.
Proof.
  intros H HS i b Hi. cbn. assert (i < length bs)%nat by (apply nth_error_Some; congruence). rewrite HS by lia. apply H. exact Hi.
Qed.

(** Begin depends on, and changes, nothing but the CDB, the data buffer and the
    pages it is given. *)
Theorem C83_begin_local : forall env b t w1 w2 cdb buffer lun t' r w1',
  reach env b t w1 -> same_env w1 w2 -> span_mapped w1 cdb -> span_mapped w1 buffer ->
  agree_on (fun x => in_span cdb x \/ in_span buffer x) w1 w2 ->
  Begin t cdb buffer lun w1 = Ret (t', r) w1' ->
  exists w2', Begin t cdb buffer lun w2 = Ret (t', r) w2' /\ same_effect w1 w1' w2 w2'.
Proof.
  intros env b t w1 w2 cdb buffer lun t' r w1' R E H1 H2 Ha E1.
  apply (local_of _ (fun x => inb cdb x || inb buffer x) w1 w2 _ _ (C83_begin_framed t cdb buffer lun)); [exact E| | |exact E1].
  - intros x Hx. apply Ha. apply orb_true_iff in Hx. rewrite !inb_iff in Hx. exact Hx.
  - pose proof (reach_inv _ _ _ _ R) as I. destruct b.
    + do 2 eexists. apply Begin_busy. intros Hu. pose proof (i_busy _ _ I) as Hb. rewrite Hu in Hb. discriminate.
    + assert (M1 : span_mapped (only (fun x => inb cdb x || inb buffer x) w1) cdb).
      { apply only_mapped; [exact H1|]. intros x Hx. apply orb_true_iff. left. apply inb_iff. exact Hx. }
      assert (M2 : span_mapped (only (fun x => inb cdb x || inb buffer x) w1) buffer).
      { apply only_mapped; [exact H2|]. intros x Hx. apply orb_true_iff. right. apply inb_iff. exact Hx. }
      pose proof (Begin_idle_spec true t cdb buffer lun _ (inv_idle _ I) (fun _ => M1) (fun _ => M2)) as S.
      apply cst_tst, tst_inv in S as ([t1 r1] & w' & E0 & _). eauto.
Qed.
Print Assumptions C83_begin_local.

Definition complete_set (cdb buffer sense : span) (t : Translation) (x : N) : Prop :=
  in_span cdb x \/ in_span buffer x \/ in_span sense x \/ in_runs (held t) x.
Definition complete_setb (cdb buffer sense : span) (t : Translation) (x : N) : bool :=
  inb cdb x || inb buffer x || inb sense x || runb (held t) x.
Lemma complete_setb_iff c b s t x : complete_setb c b s t x = true <-> complete_set c b s t x.
Proof. unfold complete_setb, complete_set. rewrite !orb_true_iff, !inb_iff, runb_iff. tauto. Qed.

(** Complete depends on, and changes, nothing but the CDB given to Begin, the
    two buffers and the pages the object holds.  MODE SENSE is below. *)
Theorem C83_complete_local : forall t w cdb bs b0 lun t1 r0 w0,
  idle t -> span_holds w cdb bs -> Begin t cdb b0 lun w = Ret (t1, r0) w0 -> ~ In (byte_at bs 0) [0x1a; 0x5a] ->
  forall w1 w2 cpls buffer sense t' r w1', same_env w1 w2 ->
    span_holds w1 cdb bs -> span_mapped w1 buffer -> span_mapped w1 sense ->
    (forall p n, In (p, n) (held t1) -> mapped w1 p (4096 * n)) ->
    agree_on (complete_set cdb buffer sense t1) w1 w2 ->
    Complete t1 cpls buffer sense w1 = Ret (t', r) w1' ->
    exists w2', Complete t1 cpls buffer sense w2 = Ret (t', r) w2' /\ same_effect w1 w1' w2 w2'.
Proof.
  intros t w cdb bs b0 lun t1 r0 w0 Hi Hc E Hx w1 w2 cpls buffer sense t' r w1' Hs H1 H2 H3 H4 Ha E1.
  apply (local_of _ (complete_setb cdb buffer sense t1) w1 w2 _ _ (C83_complete_framed t1 cpls buffer sense)); [exact Hs| | |exact E1].
  - intros x Hx'. apply Ha. apply complete_setb_iff. exact Hx'.
  - destruct (C12_complete_defined_partial t w cdb bs b0 lun t1 r0 w0 Hi Hc E Hx (only (complete_setb cdb buffer sense t1) w1) cpls buffer sense) as (a & b & c & E2).
    + destruct H1 as [L B]. split; [exact L|]. apply only_bytes; [exact B|]. intros x Hx'. apply complete_setb_iff. left. unfold in_span. lia.
    + apply only_mapped; [exact H2|]. intros x Hx'. apply complete_setb_iff. right. left. exact Hx'.
    + apply only_mapped; [exact H3|]. intros x Hx'. apply complete_setb_iff. right. right. left. exact Hx'.
    + intros p n Hin. apply only_mapped; [exact (H4 p n Hin)|]. intros x Hx'. apply complete_setb_iff. right. right. right. exists p, n. auto.
    + eauto.
Qed.
Print Assumptions C83_complete_local.

(** MODE SENSE(6), in the cases where Complete is defined at all (see C12) *)
Theorem C83_mode_sense6_local : forall t w cdb bs b0 lun t1 r0 w0,
  idle t -> span_holds w cdb bs -> Begin t cdb b0 lun w = Ret (t1, r0) w0 -> byte_at bs 0 = 0x1a ->
  ms_dbd bs = false \/ In (ms_page bs) [0x08; 0x3f] ->
  forall w1 w2 cpls buffer sense t' r w1', same_env w1 w2 ->
    span_holds w1 cdb bs -> span_mapped w1 buffer -> span_mapped w1 sense ->
    (forall p, In (p, 1) (held t1) -> apart p buffer /\ exists ns, N.of_nat (length ns) = 4096 /\ bytes_at w1 p ns /\ ns_lbads ns < 32) ->
    agree_on (complete_set cdb buffer sense t1) w1 w2 ->
    Complete t1 cpls buffer sense w1 = Ret (t', r) w1' ->
    exists w2', Complete t1 cpls buffer sense w2 = Ret (t', r) w2' /\ same_effect w1 w1' w2 w2'.
Proof.
  intros t w cdb bs b0 lun t1 r0 w0 Hi Hc E Ho Hx w1 w2 cpls buffer sense t' r w1' Hs H1 H2 H3 H4 Ha E1.
  apply (local_of _ (complete_setb cdb buffer sense t1) w1 w2 _ _ (C83_complete_framed t1 cpls buffer sense)); [exact Hs| | |exact E1].
  - intros x Hx'. apply Ha. apply complete_setb_iff. exact Hx'.
  - destruct (C12_mode_sense6_partial t w cdb bs b0 lun t1 r0 w0 Hi Hc E Ho Hx (only (complete_setb cdb buffer sense t1) w1) cpls buffer sense) as (a & b & c & E2).
    + destruct H1 as [L B]. split; [exact L|]. apply only_bytes; [exact B|]. intros x Hx'. apply complete_setb_iff. left. unfold in_span. lia.
    + apply only_mapped; [exact H2|]. intros x Hx'. apply complete_setb_iff. right. left. exact Hx'.
    + apply only_mapped; [exact H3|]. intros x Hx'. apply complete_setb_iff. right. right. left. exact Hx'.
    + intros p Hin. destruct (H4 p Hin) as (Hap & ns & Hn & Hb & Hl). split; [exact Hap|]. exists ns. split; [exact Hn|]. split; [|exact Hl].
      apply only_bytes; [exact Hb|]. intros x Hx'. apply complete_setb_iff. right. right. right. exists p, 1. split; [exact Hin|lia].
    + eauto.
Qed.
Print Assumptions C83_mode_sense6_local.

(** a READ(10), in the example world and in the same world with another page
    mapped that holds something else *)
Definition ex_more (w : world) : world := set_mem w (zeros 0x90000 4096 (mem w)).
Lemma ex_more_agree cdb x : x < 0x90000 -> mem (ex_more (ex_world cdb)) x = mem (ex_world cdb) x.
Proof. intros H. cbn. unfold zeros. destruct (N.leb_spec 0x90000 x); [lia|reflexivity]. Qed.
Example C83_premises_met :
  reach any_env false ex_obj (ex_world ex_read10) /\ same_env (ex_world ex_read10) (ex_more (ex_world ex_read10)) /\
  mem (ex_more (ex_world ex_read10)) 0x90010 = Some x00 /\ mem (ex_world ex_read10) 0x90010 = None /\
  span_mapped (ex_world ex_read10) (ex_cdb ex_read10) /\ span_mapped (ex_world ex_read10) (ex_buf 4096) /\
  agree_on (fun x => in_span (ex_cdb ex_read10) x \/ in_span (ex_buf 4096) x) (ex_world ex_read10) (ex_more (ex_world ex_read10)) /\
  exists t1 r w1, Begin ex_obj (ex_cdb ex_read10) (ex_buf 4096) 6 (ex_world ex_read10) = Ret (t1, r) w1 /\
    agree_on (complete_set (ex_cdb ex_read10) (ex_buf 4096) ex_sense t1) (ex_world ex_read10) (ex_more (ex_world ex_read10)) /\
    exists t2 r2 w2, Complete t1 [0] (ex_buf 4096) ex_sense (ex_world ex_read10) = Ret (t2, r2) w2.
Proof.
  assert (H1 : span_mapped (ex_world ex_read10) (ex_cdb ex_read10)) by (eapply span_holds_mapped; apply (ex_cdb_holds (fun _ _ => x00) xff ex_read10 [])).
  assert (H2 : span_mapped (ex_world ex_read10) (ex_buf 4096)) by (apply ex_buf_mapped; vm_compute; discriminate).
  split; [apply ex_reach; exact I|]. split; [unfold same_env; repeat split|]. split; [reflexivity|]. split; [reflexivity|].
  split; [exact H1|]. split; [exact H2|]. split.
  - intros x [Hx|Hx]; apply ex_more_agree; unfold in_span, ex_cdb, ex_buf in Hx; cbn in Hx; lia.
  - destruct (Begin_read_ok RW10 ex_obj (ex_cdb ex_read10) (ex_buf 4096) 6 (ex_world ex_read10) ex_read10 15) as (t1 & E & Ha & _ & Hh).
    + apply ex_idle.
    + apply (ex_cdb_holds (fun _ _ => x00) xff ex_read10 []).
    + reflexivity.
    + split; [cbn; lia|]. split; [split; vm_compute; discriminate|]. split; [discriminate|vm_compute; discriminate].
    + reflexivity.
    + exists t1, (begin_ok (rw_blocks RW10 ex_read10 * 4096)), (ex_world ex_read10). split; [exact E|]. split.
      * intros x Hx. apply ex_more_agree. unfold complete_set in Hx. rewrite Hh in Hx. unfold in_span, ex_cdb, ex_buf, ex_sense, in_runs in Hx. cbn in Hx.
        destruct Hx as [Hx|[Hx|[Hx|(p & n & [] & _)]]]; lia.
      * eapply (C12_complete_defined_partial ex_obj (ex_world ex_read10) (ex_cdb ex_read10) ex_read10); [apply ex_idle|apply (ex_cdb_holds (fun _ _ => x00) xff ex_read10 [])|exact E|vm_compute; intuition discriminate|
          apply (ex_cdb_holds (fun _ _ => x00) xff ex_read10 [])|exact H2|apply ex_sense_mapped; vm_compute; discriminate|].
        rewrite Hh. intros p n [].
Qed.

