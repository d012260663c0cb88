(** C89: exactly which requests Begin accepts. *)
From Coq Require Import Arith NArith String List Lia Bool Init.Byte.
From Coq Require Import ZifyBool ZifyNat ZifyN.
From Verif Require Import Bytes Layout World ScsiDefs NvmeDefs Common ModeSenseCmd TranslationCls
  Spec RwSpec InquirySpec SmallSpec ModeSpec UnmapSpec AcceptSpec
  Facts Logic BeginFacts RwFacts AdminFacts InquiryFacts SmallFacts ModeFacts Mode10Facts UnmapFacts CatalogFacts ProgFacts AcceptFacts Witness
  Properties4 Properties14.
Import ListNotations.
Local Open Scope string_scope.
Local Open Scope list_scope.
Local Open Scope N_scope.

(** ** C89 *)
Definition decided (w : world) (t' : Translation) (r : BeginResponse) (w' : world) (b : list N -> bool) (al : N) : Prop :=
  exists ps, answered w w' ps /\ (accepted t' <-> b ps = true) /\ (accepted t' -> br_alloc_len r = al).

Lemma decided_refused t cdb buffer lun w bs t' r w' b al : idle t -> span_holds w cdb bs -> Begin t cdb buffer lun w = Ret (t', r) w' -> refuses t cdb buffer lun w -> (forall ps, b ps = false) -> decided w t' r w' b al.
Proof.
  intros Hi Hc E (t1 & r1 & w1 & E1 & _ & (X & _) & _) Hb. rewrite E in E1. injection E1 as <- <- <-.
  destruct (Begin_answers _ _ _ _ _ _ _ _ E) as (ps & A & _). exists ps. split; [exact A|]. rewrite Hb. split; [split; [|discriminate]|];
  intros Y; exfalso; apply X; exact Y.
Qed.
Lemma decided_same t cdb buffer lun w bs t' r w' b al : idle t -> span_holds w cdb bs -> Begin t cdb buffer lun w = Ret (t', r) w' -> (exists t1, Begin t cdb buffer lun w = Ret (t1, begin_ok al) w /\ accepted t1) -> b [] = true -> decided w t' r w' b al.
Proof.
  intros Hi Hc E (t1 & E1 & A1) Hb. rewrite E in E1. injection E1 as -> -> ->. exists []. split; [apply answered_same|].
  split; [split; intros; [exact Hb|exact A1]|reflexivity].
Qed.
Lemma decided_page t cdb buffer lun w bs t' r w' b al q : idle t -> span_holds w cdb bs -> Begin t cdb buffer lun w = Ret (t', r) w' -> one_page_pending t cdb buffer lun w al q -> (forall ps, b ps = given 1 ps) -> decided w t' r w' b al.
Proof.
  intros Hi Hc E (t1 & w1 & E1 & C) Hb. rewrite E in E1. injection E1 as <- -> <-.
  destruct (Begin_answers _ _ _ _ _ _ _ _ E) as (ps & A & _). exists ps. split; [exact A|]. split; [|reflexivity]. rewrite Hb.
  destruct C as [(p & evs & (_ & Ha & _) & Hp & (m & ->) & T & _)|(O & (X & _) & _)].
  - rewrite (answered_unique _ _ _ _ A (answered_page _ _ _ _ T)), given_one. split; [lia|intros _; exact Ha].
  - rewrite (out_not_given _ _ 0 _ _ _ _ _ _ _ E O A). split; [intros Y; exfalso; apply X; exact Y|discriminate].
Qed.
Lemma decided_read t cdb buffer lun w bs t' r w' f al : idle t -> span_holds w cdb bs -> Begin t cdb buffer lun w = Ret (t', r) w' -> byte_at bs 0 = read_opcode f -> (read_acceptable f bs (len buffer) = true -> al = rw_blocks f bs * 4096) ->
  decided w t' r w' (fun _ => read_acceptable f bs (len buffer)) al.
Proof.
  intros Hi Hc E Ho Hal. destruct (read_ok_dec f bs buffer) as [D|D].
  - assert (R : read_acceptable f bs (len buffer) = true).
    { destruct D as (D1 & D2 & D3 & D4). unfold read_acceptable, at_least. destruct (read_prinfo f bs); [|contradiction]. cbn [defined]. lia. }
    destruct (read_prinfo f bs) as [pr|] eqn:Ep; [|exfalso; destruct D as (_ & _ & D & _); contradiction].
    destruct (Begin_read_ok f t cdb buffer lun w bs pr Hi Hc Ho D Ep) as (t1 & E1 & A1 & _).
    eapply decided_same; [exact Hi|exact Hc|exact E|rewrite (Hal R); eauto|exact R].
  - eapply decided_refused; [exact Hi|exact Hc|exact E|eapply Begin_read_fail; eassumption|]. intros _. apply not_true_is_false. intros X. apply D.
    unfold read_acceptable, at_least in X. unfold read_ok. destruct (read_prinfo f bs); cbn [defined] in X; [|lia]. split; [lia|]. split; [lia|]. split; [discriminate|lia].
Qed.
Lemma decided_write t cdb buffer lun w bs t' r w' f : idle t -> span_holds w cdb bs -> Begin t cdb buffer lun w = Ret (t', r) w' -> byte_at bs 0 = write_opcode f -> decided w t' r w' (fun _ => write_acceptable f bs) 0.
Proof.
  intros Hi Hc E Ho. destruct (write_ok_dec f bs) as [D|D].
  - assert (R : write_acceptable f bs = true).
    { destruct D as (D1 & D2 & D3). unfold write_acceptable, at_least. destruct (write_prinfo f bs); [|contradiction]. cbn [defined]. lia. }
    destruct (write_prinfo f bs) as [pr|] eqn:Ep; [|exfalso; destruct D as (_ & _ & D); contradiction].
    destruct (Begin_write_ok f t cdb buffer lun w bs pr Hi Hc Ho D Ep) as (t1 & E1 & A1 & _).
    eapply decided_same; [exact Hi|exact Hc|exact E|eauto|exact R].
  - eapply decided_refused; [exact Hi|exact Hc|exact E|eapply Begin_write_fail; eassumption|]. intros _. apply not_true_is_false. intros X. apply D.
    unfold write_acceptable, at_least in X. unfold write_ok. destruct (write_prinfo f bs); cbn [defined] in X; [|lia]. split; [lia|]. split; [lia|discriminate].
Qed.
Lemma naca_bit bs i : no_naca i bs = (naca i bs =? 0).
Proof.
  unfold no_naca, naca. rewrite <- bit_testbit. pose proof (bits_lt (byte_at bs i) 2 1) as L. change (2 ^ 1) with 2 in L.
  destruct (N.eqb_spec (bits (byte_at bs i) 2 1) 1); destruct (N.eqb_spec (bits (byte_at bs i) 2 1) 0); lia.
Qed.
Lemma naca_cases bs i : naca i bs = 0 \/ naca i bs = 1.
Proof. unfold naca. pose proof (bits_lt (byte_at bs i) 2 1). change (2 ^ 1) with 2 in *. lia. Qed.

Lemma not_known bs pl n ps : ~ In (byte_at bs 0) known_opcodes -> acceptable bs pl n ps = false.
Proof.
  intros Hk. unfold acceptable. destruct (at_least 1 bs); [cbn [andb]|reflexivity]. revert Hk. generalize (byte_at bs 0) as x. intros x Hk.
  destruct x as [|x]; [exfalso; apply Hk; vm_compute; tauto|].
  do 8 (destruct x as [x|x|]; try reflexivity; try (exfalso; apply Hk; vm_compute; tauto)).
Qed.

Theorem C89_accepted_iff : forall t cdb buffer lun w bs pl t' r w',
  idle t -> span_holds w cdb bs -> Begin t cdb buffer lun w = Ret (t', r) w' ->
  (byte_at bs 0 = 0x42 -> span_holds w buffer pl /\ pages_apart w cdb) ->
  exists ps, answered w w' ps /\ (accepted t' <-> acceptable bs pl (len buffer) ps = true) /\
    (accepted t' -> br_alloc_len r = promised bs).
Proof.
  intros t cdb buffer lun w bs pl t' r w' Hi Hc E Hu. change (decided w t' r w' (acceptable bs pl (len buffer)) (promised bs)).
  assert (Ref : forall b al, refuses t cdb buffer lun w -> (forall ps, b ps = false) -> decided w t' r w' b al).
  { intros b al. eapply decided_refused; eassumption. }
  assert (Same : forall (b : list N -> bool) al, (exists t1, Begin t cdb buffer lun w = Ret (t1, begin_ok al) w /\ accepted t1) -> b [] = true -> decided w t' r w' b al).
  { intros b al. eapply decided_same; eassumption. }
  assert (Page : forall b al q, one_page_pending t cdb buffer lun w al q -> (forall ps, b ps = given 1 ps) -> decided w t' r w' b al).
  { intros b al q. eapply decided_page; eassumption. }
  destruct (list_eq_dec Byte.byte_eq_dec bs []) as [->|Hne].
  { apply Ref; [|reflexivity]. apply Begin_empty; [exact Hi|]. destruct Hc as [-> _]. reflexivity. }
  assert (H0 : at_least 1 bs = true) by (destruct bs; [contradiction|reflexivity]).
  assert (H0' : (0 < length bs)%nat) by (destruct bs; [contradiction|cbn; lia]).
  destruct (in_dec N.eq_dec (byte_at bs 0) known_opcodes) as [Hk|Hk].
  2:{ apply Ref; [eapply Begin_unknown; eassumption|]. intros ps. apply not_known, Hk. }
  assert (Len : forall k, (length bs < k)%nat -> at_least k bs = false) by (intros k X; unfold at_least; lia).
  assert (Len' : forall k, (k <= length bs)%nat -> at_least k bs = true) by (intros k X; unfold at_least; lia).
  cbn [known_opcodes In] in Hk. repeat (destruct Hk as [Hk|Hk]); try contradiction; symmetry in Hk; unfold acceptable, promised; rewrite Hk, H0; cbn [andb].
  - destruct (le_lt_dec 6 (length bs)) as [Hl|Hl].
    2:{ apply Ref; [eapply Begin_inquiry_short; eassumption|]. intros ps. rewrite Len by exact Hl. reflexivity. }
    destruct (Begin_inquiry_case t cdb buffer lun w bs Hi Hc (conj Hl Hk)) as (t1 & w1 & E1 & C).
    rewrite E in E1. injection E1 as <- -> <-. destruct (Begin_answers _ _ _ _ _ _ _ _ E) as (ps & A & _). exists ps. split; [exact A|]. split; [|reflexivity].
    rewrite Len' by exact Hl. cbn [andb].
    destruct C as [(p & q & e1 & e2 & Hpd & Hp & Hq & (m1 & ->) & (m2 & ->) & Ht & _)|(O & (X & _) & _)].
    + rewrite (answered_unique _ _ _ _ A (ex_intro _ _ (conj Ht eq_refl))). change (page_answers _) with [p; q]. rewrite given_two. split; [lia|].
      intros _. apply Hpd.
    + rewrite (out_not_given _ _ 1 _ _ _ _ _ _ _ E O A). split; [intros Y; exfalso; apply X; exact Y|discriminate].
  - destruct (Hu Hk) as [Hb Hap]. destruct (Begin_unmap_iff t cdb bs buffer pl lun w Hi Hc Hb Hap Hk) as (t1 & r1 & w1 & ps & E1 & A & X).
    rewrite E in E1. injection E1 as <- <- <-. exists ps. split; [exact A|exact X].
  - destruct (le_lt_dec 6 (length bs)) as [Hl|Hl].
    2:{ apply Ref; [eapply Begin_mode6_short; eassumption|]. intros ps. rewrite Len by exact Hl. reflexivity. }
    rewrite Len' by exact Hl. cbn [andb].
    destruct (Begin_mode6 t cdb buffer lun w bs Hi Hc (conj Hl Hk)) as (t1 & w1 & E1 & C).
    rewrite E in E1. injection E1 as <- -> <-. destruct (Begin_answers _ _ _ _ _ _ _ _ E) as (ps & A & _). exists ps. split; [exact A|]. split; [|reflexivity].
    destruct (mode_ok (ms_page bs) (ms_pc bs)); cbn [andb].
    + destruct (ms_dbd bs); cbn [orb].
      * destruct C as (_ & _ & P & _). split; [reflexivity|intros _; apply P].
      * destruct C as [(p & evs & Hp & (m & ->) & T & P & _)|(O & (X & _) & _)].
        -- rewrite (answered_unique _ _ _ _ A (answered_page _ _ _ _ T)), given_one. split; [lia|intros _; apply P].
        -- rewrite (out_not_given _ _ 0 _ _ _ _ _ _ _ E O A). split; [intros Y; exfalso; apply X; exact Y|discriminate].
    + destruct C as ((X & _) & _). split; [intros Y; exfalso; apply X; exact Y|discriminate].
  - destruct (Begin_mode10_iff t cdb bs buffer lun w Hi Hc Hk) as (t1 & r1 & w1 & ps & E1 & A & X).
    rewrite E in E1. injection E1 as <- <- <-. exists ps. split; [exact A|exact X].
  - destruct (le_lt_dec 12 (length bs)) as [Hl|Hl].
    2:{ apply Ref; [eapply Begin_maint_refuses; eauto|]. intros ps. rewrite Len by exact Hl. reflexivity. }
    rewrite Len' by exact Hl. cbn [andb]. destruct (N.leb_spec (byte_at bs 2) 2) as [Hs|Hs].
    2:{ apply Ref; [eapply Begin_maint_refuses; eauto|reflexivity]. }
    eapply Page; [eapply Begin_maint; try eassumption; split; assumption|reflexivity].
  - destruct (le_lt_dec 12 (length bs)) as [Hl|Hl].
    2:{ apply Ref; [eapply Begin_luns_refuses; eauto|]. intros ps. rewrite Len by exact Hl. reflexivity. }
    rewrite Len' by exact Hl. cbn [andb]. destruct (N.leb_spec (byte_at bs 2) 2) as [Hs|Hs].
    2:{ apply Ref; [eapply Begin_luns_refuses; eauto|reflexivity]. }
    eapply Page; [eapply Begin_luns; try eassumption; split; assumption|reflexivity].
  - destruct (le_lt_dec 10 (length bs)) as [Hl|Hl].
    2:{ apply Ref; [eapply Begin_capacity_refuses; eauto|]. intros ps. rewrite Len by exact Hl. reflexivity. }
    rewrite Len' by exact Hl. cbn [andb]. rewrite naca_bit. destruct (naca_cases bs 9%nat) as [Hn|Hn]; rewrite Hn.
    2:{ apply Ref; [eapply Begin_capacity_refuses; eauto|reflexivity]. }
    eapply Page; [eapply Begin_capacity; try eassumption; split; assumption|reflexivity].
  - destruct (le_lt_dec 6 (length bs)) as [Hl|Hl].
    2:{ apply Ref; [eapply Begin_sense_refuses; eauto|]. intros ps. rewrite Len by exact Hl. reflexivity. }
    rewrite Len' by exact Hl. cbn [andb]. rewrite naca_bit. destruct (naca_cases bs 5%nat) as [Hn|Hn]; rewrite Hn.
    2:{ apply Ref; [eapply Begin_sense_refuses; eauto|reflexivity]. }
    apply Same; [|reflexivity]. pose proof (Begin_sense t cdb buffer lun w bs Hi Hc (conj Hl Hk) Hn) as E1. eexists. split; [exact E1|reflexivity].
  - eapply decided_read with (f := RW6); eauto.
  - eapply decided_read with (f := RW10); eauto.
  - eapply decided_read with (f := RW12); eauto.
  - eapply decided_read with (f := RW16); eauto.
  - destruct (Begin_sync_ok t cdb buffer lun w bs Hi Hc Hk) as (t1 & E1 & A1 & _). apply Same; [eauto|reflexivity].
  - change (be (slice 7 2 bs)) with (verify_blocks bs). rewrite naca_bit.
    destruct (le_lt_dec 10 (length bs)) as [Hl|Hl].
    2:{ apply Ref; [eapply Begin_verify_fail; try eassumption; intros (X & _); lia|]. intros ps. rewrite Len by exact Hl. reflexivity. }
    rewrite Len' by exact Hl. cbn [andb]. destruct (N.eqb_spec (verify_blocks bs) 0) as [Hz|Hz]; cbn [negb andb].
    { apply Ref; [eapply Begin_verify_fail; try eassumption; intros (_ & X & _); contradiction|reflexivity]. }
    destruct (N.eqb_spec (naca 9 bs) 0) as [Hn|Hn].
    2:{ apply Ref; [eapply Begin_verify_fail; try eassumption; intros (_ & _ & X); contradiction|reflexivity]. }
    destruct (Begin_verify_ok t cdb buffer lun w bs Hi Hc Hk (conj Hl (conj Hz Hn))) as (t1 & E1 & A1 & _). apply Same; [eauto|reflexivity].
  - destruct (Begin_tur_ok t cdb buffer lun w bs Hi Hc Hne Hk) as (t1 & E1 & A1 & _). apply Same; [eauto|reflexivity].
  - eapply decided_write with (f := RW6); eauto.
  - eapply decided_write with (f := RW10); eauto.
  - eapply decided_write with (f := RW12); eauto.
  - eapply decided_write with (f := RW16); eauto.
Qed.
Print Assumptions C89_accepted_iff.

(** runs with allocators that refuse the requests listed *)
Definition ex_world_refusing (bs : list byte) (no : list nat) : world :=
  let w := ex_world bs in
  {| mem := mem w; alloc_cb := true; dealloc_cb := true;
     ans := fun k _ n => if (n =? 0) || existsb (Nat.eqb k) no then 0 else 0x100000 * (N.of_nat k + 1);
     fill := fill w; junk := junk w; tick := 0; trace := [] |}.
Definition ex_begin (bs : list byte) (no : list nat) : option (bool * N * list N) :=
  match Begin ex_obj (ex_cdb bs) (ex_buf 64) 0 (ex_world_refusing bs no) with
  | Ret (t, r) w => Some (is_success (pipeline_status t), br_alloc_len r, page_answers (trace w))
  | UB _ => None
  end.
Example C89_runs :
  (* INQUIRY, both pages given, the second refused *)
  ex_begin (B [0x12; 0; 0; 0; 36; 0]) [] = Some (true, 36, [0x100000; 0x300000]) /\
  acceptable (B [0x12; 0; 0; 0; 36; 0]) [] 64 [0x100000; 0x300000] = true /\
  ex_begin (B [0x12; 0; 0; 0; 36; 0]) [2]%nat = Some (false, 36, [0x100000; 0]) /\
  acceptable (B [0x12; 0; 0; 0; 36; 0]) [] 64 [0x100000; 0] = false /\
  (* MODE SENSE(10), 12 bytes: accepted only if the first page is refused *)
  ex_begin (B [0x5a; 0; 1; 0; 0; 0; 0; 0; 64; 0; 0; 0]) [0]%nat = Some (true, 16384, [0; 0x300000]) /\
  acceptable (B [0x5a; 0; 1; 0; 0; 0; 0; 0; 64; 0; 0; 0]) [] 64 [0; 0x300000] = true /\
  ex_begin (B [0x5a; 0; 1; 0; 0; 0; 0; 0; 64; 0; 0; 0]) [] = Some (false, 16384, [0x100000]) /\
  acceptable (B [0x5a; 0; 1; 0; 0; 0; 0; 0; 64; 0; 0; 0]) [] 64 [0x100000] = false /\
  (* UNMAP with zero reserved bytes; with bytes that look like MODE SENSE(6) *)
  ex_begin (B [0x42; 0; 0; 0; 0; 0; 0; 0; 24; 0]) [] = Some (false, 0, [0x100000]) /\
  acceptable (B [0x42; 0; 0; 0; 0; 0; 0; 0; 24; 0]) (repeat x00 64) 64 [0x100000] = false /\
  ex_begin (B [0x42; 0; 0x0a; 0; 0; 0; 0; 0; 0; 0]) [] = Some (true, 0, [0x100000]) /\
  acceptable (B [0x42; 0; 0x0a; 0; 0; 0; 0; 0; 0; 0]) (repeat x00 64) 64 [0x100000] = true /\
  (* no pages wanted *)
  ex_begin (B [0x35; 0; 0; 0; 0; 0; 0; 0; 0; 0]) [] = Some (true, 0, []) /\
  acceptable (B [0x35; 0; 0; 0; 0; 0; 0; 0; 0; 0]) [] 64 [] = true.
Proof. repeat split; vm_compute; reflexivity. Qed.
