(** Commands that fetch an Identify page: allocation of the pages, reading
    members of Identify pages, structures as byte strings. *)
From Coq Require Import Arith NArith String List Lia Bool Init.Byte Permutation.
From Coq Require Import ZifyBool ZifyNat ZifyN.
From Verif Require Import Bytes Layout World ScsiDefs NvmeDefs Common ReadCmds WriteCmds SmallCmds
  UnmapCmd StatusCmd ModeSenseCmd InquiryCmd TranslationCls Spec Facts Logic BeginFacts CompleteFacts
  WireFacts StatusFacts RwSpec RwFacts InquirySpec.
Import ListNotations.
Local Open Scope string_scope.
Local Open Scope list_scope.
Local Open Scope N_scope.

(** ** Page allocation *)
Lemma SetPages_case al w : data_addr al = 0 ->
  exists st al' w', SetPages al kPageSize 1 0 w = Ret (st, al') w' /\ same_cfg w w' /\
    ((st = kSuccess /\ exists p m, p <> 0 /\ p < 2 ^ 64 /\
        trace w' = trace w ++ [EvAlloc 4096 1 p; EvAlloc 4096 0 m] /\
        al' = {| data_addr := p; data_page_count := 1; mdata_addr := m; mdata_page_count := 0 |}) \/
     (st = kFailure /\ data_addr al' = 0 /\
        (alloc_cb w = false \/ exists m, trace w' = trace w ++ [EvAlloc 4096 1 0; EvAlloc 4096 0 m]))).
Proof.
  intros Hd. unfold SetPages, kPageSize. rewrite Hd. change (0 =? 0) with true. change (1 =? 0) with false.
  cbn [negb andb orb]. unfold AllocPages, bind. destruct (alloc_cb w) eqn:Ea; cbn [negb].
  2:{ do 3 eexists. rewrite Ea. cbn [negb]. split; [reflexivity|]. split; [apply same_cfg_refl|]. right. auto. }
  set (p := u64 (ans w (tick w) 4096 1)).
  assert (Hp : p < 2 ^ 64) by apply u64_lt.
  destruct (N.eqb_spec p 0) as [E|E]; cbn [alloc_cb log set_tick set_mem]; rewrite Ea; cbn [negb orb];
    match goal with |- context [u64 (ans ?v ?k ?s 0)] => set (m := u64 (ans v k s 0)) end;
    do 3 eexists; (split; [reflexivity|]);
    (split; [destruct (m =? 0); constructor; reflexivity|]).
  - right. split; [reflexivity|]. split; [exact E|]. right. exists m.
    destruct (m =? 0); cbn; rewrite <- app_assoc, E; reflexivity.
  - left. split; [reflexivity|]. exists p, m. split; [exact E|]. split; [exact Hp|].
    split; [destruct (m =? 0); cbn; rewrite <- app_assoc; reflexivity|reflexivity].
Qed.

(** ** A refused Begin, with its effect on the world *)
Lemma Begin_refuses_trace t cdb buffer lun w bs opc t2 al w2 : idle t -> span_holds w cdb bs -> bs <> [] ->
  byte_at bs 0 = opc ->
  Begin_switch opc (subspan cdb 1) buffer (nsid_of lun) (started t cdb) 0 w = Ret (t2, al) w2 ->
  ~ accepted t2 ->
  exists t' w', Begin t cdb buffer lun w = Ret (t', begin_ok al) w' /\ rejected t' /\ exposes t' = [] /\ held t' = [] /\
    released w2 w' (held t2).
Proof.
  intros Hi Hc Hb Ho E Ha. pose proof Hi as (Hs & _ & _).
  pose proof (Begin_switch_post false opc (subspan cdb 1) buffer (nsid_of lun) (started t cdb) 0 w
    (started_fresh t cdb Hi)) as P.
  specialize (P ltac:(discriminate) (no_ok_span _ _) (no_ok_span _ _)). unfold cst in P. rewrite E in P.
  destruct P as (evs & G & W & _ & Hu & _). cbn [fst] in W, Hu.
  pose proof (FlushMemory_spec t2 w2 W) as F. apply tst_inv in F as (t3 & w3 & Ef & R & Em & St).
  unfold Begin. rewrite Hs. cbn [is_uninitialized negb].
  assert (Hl : (0 < length bs)%nat) by (destruct bs; [contradiction|cbn; lia]).
  destruct (N.eqb_spec (len cdb) 0) as [E0|_]; [destruct Hc as [Hc _]; lia|].
  cbv zeta. fold (started t cdb). rewrite nsid_eq. unfold bind at 1.
  change 0 with (N.of_nat 0) at 1. rewrite (span_at_ok w cdb bs 0 Hc Hl), Ho.
  unfold bind at 1. rewrite E. unfold bind, Begin_finish.
  destruct (is_success (pipeline_status t2)) eqn:Es.
  { exfalso. apply Ha. unfold accepted. destruct (pipeline_status t2); try discriminate. reflexivity. }
  cbn [negb]. unfold bind. rewrite Ef. do 2 eexists. split; [reflexivity|].
  rewrite St. split; [|split; [reflexivity|split; [apply held_nil; exact Em|exact R]]].
  split; cbn; [|exact Hu]. intros Hx. rewrite Hx in Es. discriminate.
Qed.

(** ** Reading a member of an Identify page *)
Lemma load_page w base page (k m : nat) : bytes_at w base page -> (k + m <= length page)%nat ->
  load (base + N.of_nat k) m w = Ret (slice k m page) w.
Proof.
  intros H Hl. apply load_ok.
  - eapply bytes_at_slice; [exact H|reflexivity].
  - apply slice_length. exact Hl.
Qed.

Lemma rd_bits L f base w page o wd (k : nat) b : lay_find L f = Some (o, wd) -> bytes_at w base page ->
  o = 8 * N.of_nat k + b -> b + wd <= 8 -> 0 < wd -> (k < length page)%nat ->
  rd_field L f base w = Ret (bits (byte_at page k) b wd) w.
Proof.
  intros Hf Hb -> H1 H2 Hk. unfold rd_field. rewrite Hf. cbv zeta.
  replace ((8 * N.of_nat k + b) / 8) with (N.of_nat k).
  2:{ rewrite N.add_comm, N.mul_comm, N.div_add by discriminate. rewrite N.div_small by lia. lia. }
  replace ((8 * N.of_nat k + b + wd - 1) / 8) with (N.of_nat k).
  2:{ replace (8 * N.of_nat k + b + wd - 1) with ((b + wd - 1) + N.of_nat k * 8) by lia.
      rewrite N.div_add by discriminate. rewrite N.div_small by lia. lia. }
  replace (N.to_nat (N.of_nat k - N.of_nat k + 1)) with 1%nat by lia.
  unfold bind. rewrite (load_page w base page k 1 Hb) by lia. unfold ret.
  rewrite le_slice_1 by exact Hk. f_equal. f_equal. lia.
Qed.

Lemma rd_bytes L f base w page o wd (k m : nat) : lay_find L f = Some (o, wd) -> bytes_at w base page ->
  o = 8 * N.of_nat k -> wd = 8 * N.of_nat m -> (0 < m)%nat -> (k + m <= length page)%nat ->
  rd_field L f base w = Ret (le (slice k m page)) w.
Proof.
  intros Hf Hb -> -> Hm Hk. unfold rd_field. rewrite Hf. cbv zeta.
  replace (8 * N.of_nat k / 8) with (N.of_nat k) by (rewrite N.mul_comm, N.div_mul by discriminate; reflexivity).
  replace ((8 * N.of_nat k + 8 * N.of_nat m - 1) / 8) with (N.of_nat k + N.of_nat m - 1).
  2:{ replace (8 * N.of_nat k + 8 * N.of_nat m - 1) with (7 + (N.of_nat k + N.of_nat m - 1) * 8) by lia.
      rewrite N.div_add by discriminate. change (7 / 8) with 0. lia. }
  replace (N.to_nat (N.of_nat k + N.of_nat m - 1 - N.of_nat k + 1)) with m by lia.
  unfold bind. rewrite (load_page w base page k m Hb) by lia. unfold ret. f_equal.
  rewrite N.sub_diag, bits_low. rewrite N.mod_small; [reflexivity|].
  pose proof (le_lt (slice k m page)) as H. rewrite slice_length in H by exact Hk. exact H.
Qed.

(** rewrite the next [rd_field] of the goal, given the page contents *)
Ltac rd_step Hb :=
  match goal with
  | |- context [rd_field ?L ?f ?base ?w] =>
      let r := eval vm_compute in (lay_find L f) in
      match r with Some (?o, ?wd) =>
        let k := eval vm_compute in (N.to_nat (o / 8)) in
        let b := eval vm_compute in (o mod 8) in
        let m := eval vm_compute in (N.to_nat (wd / 8)) in
        let al := eval vm_compute in ((o mod 8 =? 0) && (wd mod 8 =? 0)) in
        match al with
        | true => rewrite (rd_bytes L f base w _ o wd k m eq_refl Hb eq_refl eq_refl) by lia
        | false => rewrite (rd_bits L f base w _ o wd k b eq_refl Hb eq_refl) by (first [lia | closed_le])
        end
      end
  end.

(** ** Structures as byte strings *)
Fixpoint pieces (o : N) (ns : list nat) (c : N) : list byte :=
  match ns with
  | [] => []
  | n :: ns' => le_encode n (bits c o (8 * N.of_nat n)) ++ pieces (o + 8 * N.of_nat n) ns' c
  end.
Lemma pieces_eq ns c : forall o, le_encode (list_sum ns) (c / 2 ^ o) = pieces o ns c.
Proof.
  induction ns as [|n ns IH]; intros o; cbn [list_sum fold_right pieces]; [reflexivity|].
  change (fold_right Nat.add 0%nat ns) with (list_sum ns). rewrite le_encode_chunk, IH. reflexivity.
Qed.
Lemma le_encode_pieces ns n c : n = list_sum ns -> le_encode n c = pieces 0 ns c.
Proof. intros ->. rewrite <- pieces_eq. change (2 ^ 0) with 1. rewrite N.div_1_r. reflexivity. Qed.

Ltac norm_pieces :=
  cbn [pieces];
  repeat match goal with |- context [bits ?c ?o ?w] =>
    progress (let o' := eval vm_compute in o in let w' := eval vm_compute in w in
    change (bits c o w) with (bits c o' w')) end.
Ltac struct_bytes ns := rewrite (le_encode_pieces ns) by reflexivity; norm_pieces; cbits.

Lemma firstn_le_encode n m x : (n <= m)%nat -> firstn n (le_encode m x) = le_encode n x.
Proof. intros H. replace m with (n + (m - n))%nat by lia. rewrite le_encode_app, firstn_app, le_encode_length.
  replace (n - n)%nat with 0%nat by lia. cbn [firstn]. rewrite app_nil_r. rewrite <- (le_encode_length n x) at 1. apply firstn_all. Qed.

Lemma le_encode_bits_full n x : le_encode n (bits x 0 (8 * N.of_nat n)) = le_encode n x.
Proof. rewrite bits_low. apply le_encode_mod. Qed.

(** ** WriteValue, as [wrote] *)
Lemma WriteValue_wrote bs s w : span_mapped w s -> N.of_nat (length bs) <= len s ->
  exists w', WriteValue bs s w = Ret true w' /\ wrote w w' (ptr s) bs /\ framed (in_span s) w w' /\ tick w' = tick w.
Proof.
  intros Hm Hl. eexists. split; [apply WriteValue_ok; [exact Hl|]|].
  - eapply mapped_sub; [exact Hm|lia|lia].
  - split; [apply wrote_store|]. split; [|reflexivity]. apply store_framed. intros x Hx. unfold in_span. lia.
Qed.

(** the memory of [w'] is that of [w], apart from [bs] at [a] *)
Lemma wrote_released w w1 w2 a bs l : wrote w w1 a bs -> released w1 w2 l -> wrote w w2 a bs.
Proof.
  intros [A B] R. pose proof (r_mem _ _ _ R) as M. split.
  - intros i b H. rewrite M. apply A. exact H.
  - intros x H. rewrite M. apply B. exact H.
Qed.
Lemma same_released w w1 w2 l : same_memory w w1 -> released w1 w2 l -> same_memory w w2.
Proof. intros A R x. rewrite (r_mem _ _ _ R). apply A. Qed.
