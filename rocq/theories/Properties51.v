(** C113: exactly what commands queued at once do not give back. *)
From Coq Require Import Arith NArith ZArith String List Lia Bool Init.Byte Permutation.
From Coq Require Import ZifyBool ZifyNat ZifyN.
From Verif Require Import Bytes Layout World ScsiDefs NvmeDefs Common ModeSenseCmd TranslationCls EngineE2e MockModule
  Spec RwSpec InquirySpec SmallSpec ModeSpec UnmapSpec EngineSpec MockSpec ConcSpec DiskSpec ConcDiskSpec AcceptSpec ConcAllSpec
  Facts Logic BeginFacts CompleteFacts StatusFacts RwFacts RelFacts ProgFacts EngineFacts MockFacts ConcFacts ConcDiskFacts
  Properties9 Properties11 Properties21 Properties25 Properties41 Properties42 Witness Properties43 Properties44 Properties45 Properties49.
Import ListNotations.
Local Open Scope string_scope.
Local Open Scope list_scope.
Local Open Scope N_scope.

(** ** Specification *)
(** the pages the allocator gave a command [p] that sends the data [d] are lost if the
    command is acceptable but its answer does not fit: the adapter aborts it *)
Definition lost_pages (x : pending * list byte * progress) : list (N * N) :=
  let '(p, d, g) := x in
  let n := sc_bufflen (p_cmnd p) mod 65536 in let ps := page_answers (g_evs g) in
  if acceptable (p_cdb p) (handed (p_cmnd p) n d) n ps && (n <? promised (p_cdb p)) then given_pages ps else [].
(** an UNMAP sends the data [d] *)
Definition parameters (ps : list pending) (mems : list memory) (ds : list (list byte)) : Prop :=
  length ds = length ps /\
  forall i p mm d, nth_error ps i = Some p -> nth_error mems i = Some mm -> nth_error ds i = Some d -> byte_at (p_cdb p) 0 = 0x42 ->
    sends mm (p_cmnd p) d /\ N.of_nat (length d) = N.min (sc_bufflen (p_cmnd p) mod 65536) (sg_total (sc_sgl (p_cmnd p))).

Lemma concat_flat_map {A B} (f : A -> list B) : forall ls xs, length ls = length xs ->
  (forall i l x, nth_error ls i = Some l -> nth_error xs i = Some x -> Permutation l (f x)) -> Permutation (concat ls) (flat_map f xs).
Proof.
  induction ls as [|l ls IH]; intros [|x xs] L H; try discriminate L; [apply Permutation_refl|]. cbn [concat flat_map].
  apply Permutation_app; [exact (H 0%nat l x eq_refl eq_refl)|]. apply IH; [cbn [length] in L; lia|]. intros i l0 x0 H1 H2. exact (H (S i) l0 x0 H1 H2).
Qed.
Lemma nth_combine {A B} : forall (l : list A) (l' : list B) i x, nth_error (combine l l') i = Some x -> nth_error l i = Some (fst x) /\ nth_error l' i = Some (snd x).
Proof.
  induction l as [|a l IH]; intros [|b l'] [|i] x H; try discriminate H; [apply Some_eq in H as <-; split; reflexivity|]. exact (IH l' i x H).
Qed.

(** When all have ended, the allocators have back everything they gave out, once,
    but for those pages. *)
Theorem C113_lost_exactly : forall dev w ps mems ds w' st o,
  all_queued w ps mems -> admissible dev ps -> alloc_cb w = true /\ dealloc_cb w = true -> ledger (trace w) = Some o ->
  parameters ps mems ds ->
  at_once dev w (starts ps mems) w' st -> (forall g, In g st -> exists r, returned (g_state g) r) ->
  exists L, ledger (trace w') = Some L /\ Permutation L (flat_map lost_pages (combine (combine ps ds) st) ++ o).
Proof.
  intros dev w ps mems ds w' st o Hq Ha Hcb Ho [Ld Hd] H Hc. destruct (C113_shared_ledger_partial dev w ps mems w' st o Hq Ha Hcb Ho H) as (ls & L & F & EL & P).
  exists L. split; [exact EL|]. eapply perm_trans; [exact P|]. apply Permutation_app_tail.
  assert (Ll : length ls = length st) by (symmetry; clear -F; induction F; cbn [length]; congruence).
  assert (Ls : length st = length ps).
  { rewrite (at_once_length _ _ _ _ _ H). apply starts_len. apply Hq. }
  apply concat_flat_map; [rewrite !combine_length; lia|].
  intros i l [[p d] g] Hl Hx. apply nth_combine in Hx as [Hx Eg]. cbn [fst snd] in Hx, Eg. apply nth_combine in Hx as [Ep Ed]. cbn [fst snd] in Ep, Ed.
  assert (G : ledger (g_evs g) = Some l).
  { clear -F Hl Eg. revert i Hl Eg. induction F as [|g0 l0 st ls G F IH]; intros [|i] Hl Eg; try discriminate Hl.
    - apply Some_eq in Hl as <-. apply Some_eq in Eg as <-. exact G.
    - exact (IH i Hl Eg). }
  destruct (Hc g (nth_error_In _ _ Eg)) as (r & Hr).
  destruct (find_thread dev w ps mems w' st i g Hq H Eg) as (p0 & mm & Ep0 & Em). rewrite Ep in Ep0. apply Some_eq in Ep0 as <-.
  destruct (admissible_isolated dev w ps mems w' st i p mm g r Hq Ha H Ep Em Eg Hr) as (D & mm' & v & v' & (V1 & V2 & V3) & Dr & Tv & E & T & _).
  destruct Hq as (_ & Hw & [S1 S2] & H4). destruct (H4 i p mm Ep Em) as (Q1 & Q2 & Q3 & Q4 & Q5 & Q6).
  destruct (S1 p (nth_error_In _ _ Ep)) as [S4 S3].
  assert (San : sane_allocator v).
  { split; [rewrite V2; apply Hcb|]. split; [rewrite V3; apply Hcb|]. intros k s. destruct (Dr k) as (k' & ->). apply S2. }
  unfold lost_pages. set (n := sc_bufflen (p_cmnd p) mod 65536).
  assert (Hcases : (0 < n /\ p_kz p = 0) \/ (n = 0 \/ p_kz p <> 0)) by lia.
  destruct Hcases as [[Hn Hk]|Hk].
  - assert (T0 : g_evs g = [EvAlloc 1 n 0]).
    { rewrite <- T. pose proof E as E0. rewrite mock_eq in E0. cbv zeta in E0. change (len (rq_data (mock_request (p_kz p) (p_wild p) (p_cmnd p)))) with n in E0. rewrite Hk in E0.
      replace ((0 <? n) && (0 =? 0)) with true in E0 by lia. replace (0 <? n) with true in E0 by lia. change (0 =? 0) with true in E0. cbv iota in E0.
      apply ret_eq in E0 as [_ <-]. cbn [trace log]. rewrite Tv. reflexivity. }
    rewrite T0 in *. cbn in G. apply Some_eq in G as <-.
    replace (page_answers [EvAlloc 1 n 0]) with (@nil N) by reflexivity. destruct (_ && _); apply Permutation_refl.
  - destruct (C90_adapter_leaks_exactly D (p_wrs p) (p_kz p) (p_wild p) (p_cmnd p) v (p_cdb p) d [] r v') as (pg & o' & (evs & Te & <-) & L1 & P1).
    + exact San.
    + rewrite Tv. reflexivity.
    + intros j b Hj. rewrite V1. apply Q2. exact Hj.
    + exact Q3.
    + exact Q4.
    + fold n. intros x Hx. rewrite V1. destruct (mm x) as [b|] eqn:Z; [|reflexivity]. destruct Hk as [Hk|Hk]; [lia|].
      destruct S3 as [S3|[S3 _]]; [contradiction|]. specialize (S3 x Hx). rewrite (proj1 Hw i mm Em x b Z) in S3. discriminate S3.
    + fold n. intros X. destruct (Hd i p mm d Ep Em Ed X) as ((U1 & U2) & U3). split; [split; [exact U1|]|split; [exact U3|]].
      * intros j a b Ha0 Hb. rewrite V1. exact (U2 j a b Ha0 Hb).
      * intros k size m0. cbv zeta. destruct (Dr k) as (k' & ->). apply S4.
    + exact E.
    + rewrite Tv in Te. cbn [app] in Te. rewrite T in Te. subst evs. fold n in P1. rewrite app_nil_r in P1.
      rewrite T, G in L1. apply Some_eq in L1 as <-. exact P1.
Qed.
Print Assumptions C113_lost_exactly.
(** VERIFY(10) and REQUEST SENSE, interleaved, end having lost nothing; an INQUIRY that
    is acceptable loses its two pages when its answer does not fit (36 < 255) *)
Example C113_lost_premises_met : let c2 := ex_sense43 in
  parameters (ex_ps c2) (ex_mems43 c2) [[]; []] /\
  exists w g1 g2, at_once (fun _ => True) (ex_world43 c2) (starts (ex_ps c2) (ex_mems43 c2)) w [g1; g2] /\
    (forall g, In g [g1; g2] -> exists r, returned (g_state g) r) /\
    forall d g, lost_pages (ex_pending 0 0 ex_verify43 0, d, g) = [] /\ lost_pages (ex_pending 0x100000 0x190000 c2 96, d, g) = [].
Proof.
  cbv zeta. destruct C112_premises_met as (Q & O & w & g1 & g2 & r1 & r2 & A & R1 & R2 & _). split.
  - split; [reflexivity|]. intros [|[|i]] p mm d H _ _ X; [| |destruct i; discriminate H]; apply Some_eq in H as <-; vm_compute in X; discriminate X.
  - exists w, g1, g2. split; [exact A|]. split; [intros g [<-|[<-|[]]]; eauto|]. intros d g. split; unfold lost_pages.
    + replace (sc_bufflen _ mod 65536 <? promised _) with false by (vm_compute; reflexivity). rewrite andb_false_r. reflexivity.
    + replace (sc_bufflen _ mod 65536 <? promised _) with false by (vm_compute; reflexivity). rewrite andb_false_r. reflexivity.
Qed.
Example C113_lost_nonempty : forall z kz d g, page_answers (g_evs g) = [0x300000; 0x100000] ->
  lost_pages (ex_pending z kz (B [0x12;0;0;0;255;0]) 36, d, g) = [(0x300000, 1); (0x100000, 1)].
Proof. intros z kz d g H. unfold lost_pages. rewrite H. reflexivity. Qed.
