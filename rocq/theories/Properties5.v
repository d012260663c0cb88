(** C34-C36, C43: MODE SENSE. *)
From Coq Require Import Arith NArith String List Lia Bool Init.Byte Permutation.
From Coq Require Import ZifyBool ZifyNat ZifyN.
From Verif Require Import Bytes Layout World NvmeDefs Common ModeSenseCmd TranslationCls Spec RwSpec InquirySpec SmallSpec ModeSpec
  Facts Logic BeginFacts CompleteFacts StatusFacts RwFacts AdminFacts InquiryFacts SmallFacts ModeFacts Mode10Facts Witness Properties4.
Import ListNotations.
Local Open Scope string_scope.
Local Open Scope list_scope.
Local Open Scope N_scope.

(** ** C34 *)
Theorem C34_mode_sense6_commands : forall t cdb buffer lun w bs,
  idle t -> span_holds w cdb bs -> (6 <= length bs)%nat -> byte_at bs 0 = 0x1a ->
  mode_ok (ms_page bs) (ms_pc bs) = true ->
  exists t' w', Begin t cdb buffer lun w = Ret (t', begin_ok (byte_at bs 4)) w' /\
    if ms_dbd bs then
      w' = w /\ accepted t' /\ held t' = [] /\
      map wire_of (exposes t') = map admin_wire (cache_cmds lun (ms_page bs) (ms_pc bs))
    else
      (exists p evs, accepted t' /\ p <> 0 /\ page_request p evs /\ trace w' = trace w ++ evs /\ In (p, 1) (held t') /\
         map wire_of (exposes t') =
           map admin_wire (identify_sqe 0 (nsid_of lun) p :: cache_cmds lun (ms_page bs) (ms_pc bs))) \/
      (out_of_pages w w' /\ rejected t' /\ exposes t' = [] /\ held t' = []).
Proof.
  intros t cdb buffer lun w bs Hi Hc Hl Ho Hm.
  destruct (Begin_mode6 t cdb buffer lun w bs Hi Hc (conj Hl Ho)) as (t' & w' & E & C). rewrite Hm in C.
  exists t', w'. split; [exact E|]. destruct (ms_dbd bs).
  - destruct C as (-> & Hh & (_ & Ha & _) & X). auto.
  - destruct C as [(p & evs & Hp & Hr & Ht & (_ & Ha & _) & X & Hin)|C]; [left|right; exact C].
    exists p, evs. repeat (split; [assumption|]). exact X.
Qed.
Print Assumptions C34_mode_sense6_commands.

Theorem C34_mode_sense6_refused : forall t cdb buffer lun w bs,
  idle t -> span_holds w cdb bs -> byte_at bs 0 = 0x1a ->
  (length bs < 6)%nat \/ mode_ok (ms_page bs) (ms_pc bs) = false -> refuses t cdb buffer lun w.
Proof.
  intros t cdb buffer lun w bs Hi Hc Ho H. destruct (le_lt_dec 6 (length bs)) as [Hl|Hl].
  2:{ eapply Begin_mode6_short; eassumption. }
  destruct H as [H|H]; [lia|].
  destruct (Begin_mode6 t cdb buffer lun w bs Hi Hc (conj Hl Ho)) as (t' & w' & E & C). rewrite H in C.
  destruct C as (C1 & C2 & C3). exists t', (begin_ok (byte_at bs 4)), w'. repeat (split; [first [assumption|reflexivity]|]). exact C3.
Qed.
Print Assumptions C34_mode_sense6_refused.

(** which requests those are: exactly the pages 08h, 0Ah, 1Ah, 3Fh, and page
    control 3 ("saved") only where the cache state is not needed *)
Theorem C34_mode_sense6_supported : forall page pc, page < 64 -> pc < 4 ->
  (mode_ok page pc = true <->
     (In page [0x0a; 0x1a] \/ (In page [0x08; 0x3f] /\ pc <> 3))).
Proof.
  intros page pc Hp Hpc. unfold mode_ok, known_page, needs_cache.
  assert (Hs : match sel_of pc with Some _ => true | None => false end = negb (pc =? 3)).
  { assert (pc = 0 \/ pc = 1 \/ pc = 2 \/ pc = 3) as [-> | [-> | [-> | ->]]] by lia; reflexivity. }
  rewrite Hs. cbn [In]. lia.
Qed.
Print Assumptions C34_mode_sense6_supported.

Definition ms6 (dbd page pc al : N) : list byte := B [0x1a; dbd * 8; pc * 64 + page; 0; al; 0].
Example C34_runs :
  api_run xff (ms6 0 0x3f 0 96) [] [0; 1] 0 255 4 = Some (96, 2%nat, GOOD, B [3 + 8 + 20 + 12 + 40; 0; 0x10; 8]) /\
  api_run xff (ms6 1 0x08 2 96) [] [1] 0 255 7 = Some (96, 1%nat, GOOD, B [3 + 20; 0; 0x10; 0; 8; 0x12; 0x84]) /\
  api_run xff (ms6 1 0x08 3 96) [] [] 0 255 1 = Some (96, 0%nat, CHECK_CONDITION, B [0]) /\
  api_run xff (ms6 1 0x07 0 96) [] [] 0 255 1 = Some (96, 0%nat, CHECK_CONDITION, B [0]).
Proof. repeat split; vm_compute; reflexivity. Qed.

(** ** C35 *)

(** What an accepted MODE SENSE(6) with at least one command returns, exactly:
    the WCE bit is bit 0 of the result of the FIRST completion. *)
Theorem C35_mode_data_partial : forall t w cdb bs b0 lun t1 r w1,
  idle t -> span_holds w cdb bs -> (6 <= length bs)%nat -> byte_at bs 0 = 0x1a ->
  Begin t cdb b0 lun w = Ret (t1, r) w1 -> accepted t1 ->
  exists p, map wire_of (exposes t1) =
     map admin_wire ((if ms_dbd bs then [] else [identify_sqe 0 (nsid_of lun) p]) ++ cache_cmds lun (ms_page bs) (ms_pc bs)) /\
   forall w2 cpl cpls ns buffer sense,
     length (cpl :: cpls) = length (exposes t1) -> Forall cpl_ok (cpl :: cpls) ->
     span_holds w2 cdb bs -> span_mapped w2 buffer ->
     (ms_dbd bs = false -> bytes_at w2 p ns /\ N.of_nat (length ns) = 4096 /\ ns_lbads ns < 32 /\ apart p buffer) ->
     let data := concat (mode6_data (if ms_dbd bs then None else Some (short_descriptor ns)) (ms_page bs) (N.testbit (cpl_dw0 cpl) 0)) in
     N.of_nat (length data) <= len buffer ->
     exists t2 w3, Complete t1 (cpl :: cpls) buffer sense w2 = Ret (t2, api_ok GOOD) w3 /\ idle t2 /\
       wrote w2 w3 (ptr buffer) data.
Proof.
  intros t w cdb bs b0 lun t1 r w1 Hi Hc Hl Ho E Ha.
  destruct (Begin_mode6 t cdb b0 lun w bs Hi Hc (conj Hl Ho)) as (t' & w' & E' & C).
  rewrite E in E'. injection E' as -> -> ->.
  destruct (mode_ok (ms_page bs) (ms_pc bs)) eqn:Hok.
  2:{ destruct C as ([C _] & _). unfold accepted in Ha. congruence. }
  assert (Hk : known_page (ms_page bs) = true) by (unfold mode_ok in Hok; apply andb_true_iff in Hok; tauto).
  assert (X : exists p, map wire_of (exposes t') =
      map admin_wire ((if ms_dbd bs then [] else [identify_sqe 0 (nsid_of lun) p]) ++ cache_cmds lun (ms_page bs) (ms_pc bs)) /\
      mode_pending t' cdb (if ms_dbd bs then None else Some p) (N.of_nat (length (exposes t')))).
  { destruct (ms_dbd bs).
    - destruct C as (_ & _ & P & X). exists 0. split; [exact X|]. rewrite <- (map_length wire_of), X, map_length. exact P.
    - destruct C as [(p & evs & _ & _ & _ & P & X & _)|(_ & [C _] & _)]; [|unfold accepted in Ha; congruence].
      exists p. split; [exact X|]. rewrite <- (map_length wire_of), X, map_length. exact P. }
  destruct X as (p & X & P). exists p. split; [exact X|].
  intros w2 cpl cpls ns buffer sense Hlen Hoks Hc2 Hm Hd data Hfit.
  destruct (mode_complete6 t' cdb _ _ bs ns cpl cpls buffer sense w2 P Hc2 (conj Hl Ho) Hk) as (t2 & w3 & E2 & Hi2 & W);
    try assumption.
  { rewrite Hlen. reflexivity. }
  { intros Hdb. rewrite Hdb. exists p. specialize (Hd Hdb). split; [reflexivity|exact Hd]. }
  exists t2, w3. split; [exact E2|]. split; [exact Hi2|]. rewrite fitting_all in W by exact Hfit. exact W.
Qed.
Print Assumptions C35_mode_data_partial.

(** DBD=1 and a page holding the cache state: the only command is Get Features,
    and the data is complete and correct *)
Theorem C35_wce_without_descriptor_partial : forall t w cdb bs b0 lun t1 r w1,
  idle t -> span_holds w cdb bs -> (6 <= length bs)%nat -> byte_at bs 0 = 0x1a -> ms_dbd bs = true ->
  In (ms_page bs) [0x08; 0x3f] ->
  Begin t cdb b0 lun w = Ret (t1, r) w1 -> accepted t1 ->
  exists sel, map wire_of (exposes t1) = [admin_wire (get_features_sqe (nsid_of lun) sel)] /\
  forall w2 features buffer sense, cpl_ok features -> span_holds w2 cdb bs -> span_mapped w2 buffer ->
    let data := concat (mode6_data None (ms_page bs) (N.testbit (cpl_dw0 features) 0)) in
    N.of_nat (length data) <= len buffer ->
    exists t2 w3, Complete t1 [features] buffer sense w2 = Ret (t2, api_ok GOOD) w3 /\ idle t2 /\
      wrote w2 w3 (ptr buffer) data.
Proof.
  intros t w cdb bs b0 lun t1 r w1 Hi Hc Hl Ho Hd Hp E Ha.
  destruct (C35_mode_data_partial t w cdb bs b0 lun t1 r w1 Hi Hc Hl Ho E Ha) as (p & X & K). rewrite Hd in X. cbn [app] in X.
  assert (Hm : mode_ok (ms_page bs) (ms_pc bs) = true).
  { destruct (mode_ok (ms_page bs) (ms_pc bs)) eqn:Hm; [reflexivity|exfalso].
    destruct (C34_mode_sense6_refused t cdb b0 lun w bs Hi Hc Ho (or_intror Hm)) as (t3 & r3 & w3 & E3 & _ & (R & _) & _).
    rewrite E in E3. injection E3 as <- _ _. unfold accepted in Ha. congruence. }
  assert (Hn : needs_cache (ms_page bs) = true) by (unfold needs_cache; cbn [In] in Hp; lia).
  unfold mode_ok in Hm. rewrite Hn in Hm. cbn [negb orb] in Hm. unfold cache_cmds in X. rewrite Hn in X.
  destruct (sel_of (ms_pc bs)) as [sel|]; [|rewrite andb_false_r in Hm; discriminate].
  exists sel. split; [exact X|]. intros w2 features buffer sense Hok Hc2 Hmp data Hfit.
  specialize (K w2 features [] [] buffer sense). rewrite Hd in K. apply K; try assumption.
  - rewrite <- (map_length wire_of (exposes t1)), X. reflexivity.
  - constructor; [exact Hok|constructor].
  - discriminate.
Qed.
Print Assumptions C35_wce_without_descriptor_partial.

(** with block descriptors the cache state the device reported is ignored: the
    WCE bit is taken from the completion of the Identify command *)
Theorem C35_wce_refuted : forall t w cdb bs b0 lun t1 r w1,
  idle t -> span_holds w cdb bs -> (6 <= length bs)%nat -> byte_at bs 0 = 0x1a -> ms_dbd bs = false ->
  In (ms_page bs) [0x08; 0x3f] ->
  Begin t cdb b0 lun w = Ret (t1, r) w1 -> accepted t1 ->
  exists p sel, map wire_of (exposes t1) =
      [admin_wire (identify_sqe 0 (nsid_of lun) p); admin_wire (get_features_sqe (nsid_of lun) sel)] /\
  forall w2 identify features ns buffer sense, cpl_ok identify -> cpl_ok features -> span_holds w2 cdb bs -> span_mapped w2 buffer ->
    bytes_at w2 p ns -> N.of_nat (length ns) = 4096 -> ns_lbads ns < 32 -> apart p buffer -> 255 <= len buffer ->
    exists t2 w3, Complete t1 [identify; features] buffer sense w2 = Ret (t2, api_ok GOOD) w3 /\
      wrote w2 w3 (ptr buffer)
        (concat (mode6_data (Some (short_descriptor ns)) (ms_page bs) (N.testbit (cpl_dw0 identify) 0))).
Proof.
  intros t w cdb bs b0 lun t1 r w1 Hi Hc Hl Ho Hd Hp E Ha.
  destruct (C35_mode_data_partial t w cdb bs b0 lun t1 r w1 Hi Hc Hl Ho E Ha) as (p & X & K). rewrite Hd in X. cbn [app] in X.
  assert (Hm : mode_ok (ms_page bs) (ms_pc bs) = true).
  { destruct (mode_ok (ms_page bs) (ms_pc bs)) eqn:Hm; [reflexivity|exfalso].
    destruct (C34_mode_sense6_refused t cdb b0 lun w bs Hi Hc Ho (or_intror Hm)) as (t3 & r3 & w3 & E3 & _ & (R & _) & _).
    rewrite E in E3. injection E3 as <- _ _. unfold accepted in Ha. congruence. }
  assert (Hn : needs_cache (ms_page bs) = true) by (unfold needs_cache; cbn [In] in Hp; lia).
  unfold mode_ok in Hm. rewrite Hn in Hm. cbn [negb orb] in Hm. unfold cache_cmds in X. rewrite Hn in X.
  destruct (sel_of (ms_pc bs)) as [sel|]; [|rewrite andb_false_r in Hm; discriminate].
  exists p, sel. split; [exact X|]. intros w2 idc features ns buffer sense Hok1 Hok2 Hc2 Hmp Hb Hnl H32 Hap Hlen.
  specialize (K w2 idc [features] ns buffer sense). rewrite Hd in K.
  destruct K as (t2 & w3 & K1 & _ & K2); try assumption; [| | | |eauto].
  - rewrite <- (map_length wire_of (exposes t1)), X. reflexivity.
  - constructor; [exact Hok1|constructor; [exact Hok2|constructor]].
  - auto.
  - unfold mode6_data. cbn [concat]. rewrite !app_length. unfold header6 at 1. unfold bytes. rewrite map_length. cbn [length].
    assert (length (short_descriptor ns) = 8%nat) as -> by (unfold short_descriptor; rewrite !app_length, !be_encode_length; reflexivity).
    rewrite pages_length. cbn [In] in Hp. destruct Hp as [<-|[<-|[]]]; cbn; lia.
Qed.
Print Assumptions C35_wce_refuted.

(** DBD=1 and a page that needs no device data: no command is issued, and
    Complete then reads the first of zero completions *)
Theorem C35_no_command_refuted : forall t w cdb bs b0 lun t1 r w1,
  idle t -> span_holds w cdb bs -> (6 <= length bs)%nat -> byte_at bs 0 = 0x1a -> ms_dbd bs = true ->
  In (ms_page bs) [0x0a; 0x1a] ->
  Begin t cdb b0 lun w = Ret (t1, r) w1 ->
  accepted t1 /\ exposes t1 = [] /\
  forall w2 buffer sense, span_holds w2 cdb bs -> exists s, Complete t1 [] buffer sense w2 = UB s.
Proof.
  intros t w cdb bs b0 lun t1 r w1 Hi Hc Hl Ho Hd Hp E.
  assert (Hm : mode_ok (ms_page bs) (ms_pc bs) = true).
  { unfold mode_ok, known_page, needs_cache. cbn [In] in Hp. lia. }
  assert (Hn : needs_cache (ms_page bs) = false) by (unfold needs_cache; cbn [In] in Hp; lia).
  destruct (Begin_mode6 t cdb b0 lun w bs Hi Hc (conj Hl Ho)) as (t' & w' & E' & C).
  rewrite E in E'. injection E' as -> -> ->. rewrite Hm, Hd in C. destruct C as (_ & _ & P & X).
  unfold ms_cmds, cache_cmds in P, X. rewrite Hn in P, X. cbn [app map length] in P, X.
  split; [apply P|]. split; [destruct (exposes t'); [reflexivity|discriminate X]|].
  intros w2 buffer sense Hc2. eapply mode_complete6_ub; [exact P|exact Hc2|split; assumption].
Qed.
Print Assumptions C35_no_command_refuted.

(** ... and a device reporting a block-size exponent of 32 or more makes
    Complete shift too far *)
Theorem C35_block_size_refuted : forall t w cdb bs b0 lun t1 r w1,
  idle t -> span_holds w cdb bs -> (6 <= length bs)%nat -> byte_at bs 0 = 0x1a -> ms_dbd bs = false ->
  Begin t cdb b0 lun w = Ret (t1, r) w1 -> accepted t1 ->
  exists p, map wire_of (exposes t1) =
     map admin_wire (identify_sqe 0 (nsid_of lun) p :: cache_cmds lun (ms_page bs) (ms_pc bs)) /\
  forall w2 cpls ns buffer sense, length cpls = length (exposes t1) -> Forall cpl_ok cpls -> span_holds w2 cdb bs -> span_mapped w2 buffer ->
    bytes_at w2 p ns -> N.of_nat (length ns) = 4096 -> 32 <= ns_lbads ns -> apart p buffer -> 8 <= len buffer ->
    exists s, Complete t1 cpls buffer sense w2 = UB s.
Proof.
  intros t w cdb bs b0 lun t1 r w1 Hi Hc Hl Ho Hd E Ha.
  destruct (Begin_mode6 t cdb b0 lun w bs Hi Hc (conj Hl Ho)) as (t' & w' & E' & C).
  rewrite E in E'. injection E' as -> -> ->.
  destruct (mode_ok (ms_page bs) (ms_pc bs)) eqn:Hok.
  2:{ destruct C as ([C _] & _). unfold accepted in Ha. congruence. }
  assert (Hk : known_page (ms_page bs) = true) by (unfold mode_ok in Hok; apply andb_true_iff in Hok; tauto).
  rewrite Hd in C. destruct C as [(p & evs & _ & _ & _ & P & X & _)|(_ & [C _] & _)]; [|unfold accepted in Ha; congruence].
  exists p. split; [exact X|]. intros w2 cpls ns buffer sense Hlen Hoks Hc2 Hm H1 H2 H3 H4 H5.
  assert (L : length (exposes t') = length (ms_cmds lun (Some p) (ms_page bs) (ms_pc bs)))
    by (rewrite <- (map_length wire_of), X, map_length; reflexivity).
  destruct cpls as [|cpl cpls]; [rewrite L in Hlen; discriminate Hlen|].
  eapply (mode_complete6_shift_ub t' cdb p); try eassumption; [split; assumption|]. rewrite Hlen, L. reflexivity.
Qed.
Print Assumptions C35_block_size_refuted.

(** Get Features says the cache is on (second completion, result 1): with DBD=0
    the data says WCE=0; with DBD=1 it says WCE=1.  NCAP=5, 512-byte blocks. *)
Definition ex_mode_ns : list byte := repeat x00 8 ++ le_encode 8 5 ++ repeat x00 112 ++ B [0; 0; 9; 0] ++ repeat x00 3964.
Example C35_runs :
  N.of_nat (length ex_mode_ns) = 4096 /\ ns_ncap ex_mode_ns = 5 /\ ns_lbads ex_mode_ns = 9 /\
  api_run xff (ms6 0 0x08 0 96) [ex_mode_ns] [0; 1] 0 255 15 =
    Some (96, 2%nat, GOOD, B [31; 0; 0x10; 8; 0; 0; 0; 5; 0; 0; 2; 0; 8; 0x12; 0x80]) /\
  api_run xff (ms6 1 0x08 0 96) [] [1] 0 255 7 = Some (96, 1%nat, GOOD, B [23; 0; 0x10; 0; 8; 0x12; 0x84]) /\
  api_run xff (ms6 1 0x0a 0 96) [] [] 0 255 7 = None.
Proof. repeat split; vm_compute; reflexivity. Qed.

(** ** C43 *)
Theorem C43_truncated_mode_data_is_prefix : forall t w cdb bs b0 lun t1 r w1,
  idle t -> span_holds w cdb bs -> (6 <= length bs)%nat -> byte_at bs 0 = 0x1a ->
  Begin t cdb b0 lun w = Ret (t1, r) w1 -> accepted t1 -> 
  exists p, (ms_dbd bs = false -> exists l, map wire_of (exposes t1) = admin_wire (identify_sqe 0 (nsid_of lun) p) :: l) /\
   forall cpl cpls ns, length (cpl :: cpls) = length (exposes t1) -> Forall cpl_ok (cpl :: cpls) ->
   exists data : N -> list byte,
     (forall n m, n <= m -> exists r, data m = data n ++ r) /\
     (forall n, N.of_nat (length (data n)) <= n) /\
     (forall n, 255 <= n -> data n = concat (mode6_data (if ms_dbd bs then None else Some (short_descriptor ns)) (ms_page bs) (N.testbit (cpl_dw0 cpl) 0))) /\
     forall w2 buffer sense, span_holds w2 cdb bs -> span_mapped w2 buffer ->
       (ms_dbd bs = false -> bytes_at w2 p ns /\ N.of_nat (length ns) = 4096 /\ ns_lbads ns < 32 /\ apart p buffer) ->
       exists t2 w3, Complete t1 (cpl :: cpls) buffer sense w2 = Ret (t2, api_ok GOOD) w3 /\ idle t2 /\
         wrote w2 w3 (ptr buffer) (data (len buffer)).
Proof.
  intros t w cdb bs b0 lun t1 r w1 Hi Hc Hl Ho E Ha.
  destruct (Begin_mode6 t cdb b0 lun w bs Hi Hc (conj Hl Ho)) as (t' & w' & E' & C).
  rewrite E in E'. injection E' as -> -> ->.
  destruct (mode_ok (ms_page bs) (ms_pc bs)) eqn:Hok.
  2:{ destruct C as ([C _] & _). unfold accepted in Ha. congruence. }
  assert (Hk : known_page (ms_page bs) = true) by (unfold mode_ok in Hok; apply andb_true_iff in Hok; tauto).
  assert (X : exists p, (ms_dbd bs = false -> exists l, map wire_of (exposes t') = admin_wire (identify_sqe 0 (nsid_of lun) p) :: l) /\
      mode_pending t' cdb (if ms_dbd bs then None else Some p) (N.of_nat (length (exposes t')))).
  { destruct (ms_dbd bs).
    - destruct C as (_ & _ & P & X). exists 0. split; [discriminate|]. rewrite <- (map_length wire_of), X, map_length. exact P.
    - destruct C as [(p & evs & _ & _ & _ & P & X & _)|(_ & [C _] & _)]; [|unfold accepted in Ha; congruence].
      exists p. split; [intros _; eexists; exact X|]. rewrite <- (map_length wire_of), X, map_length. exact P. }
  destruct X as (p & X & P). exists p. split; [exact X|].
  intros cpl cpls ns Hlen Hoks. 
  set (l := mode6_data (if ms_dbd bs then None else Some (short_descriptor ns)) (ms_page bs) (N.testbit (cpl_dw0 cpl) 0)).
  assert (HL : N.of_nat (length (concat l)) <= 255).
  { assert (Hd8 : length (short_descriptor ns) = 8%nat) by (unfold short_descriptor; rewrite !app_length, !be_encode_length; reflexivity).
    unfold l, mode6_data. destruct (ms_dbd bs); cbn [concat]; rewrite !app_length; unfold header6 at 1; unfold bytes; rewrite map_length;
      cbn [length]; rewrite ?Hd8; rewrite pages_length; destruct (known_in _ Hk) as [-> | [-> | [-> | ->]]]; cbn; lia. }
  exists (fun n => fitting n l). split; [intros n m H; apply fitting_prefix, H|]. split; [apply fitting_le|].
  split; [intros n Hn; apply fitting_all; lia|].
  intros w2 buffer sense Hc2 Hm Hd.
  eapply mode_complete6; try eassumption; [split; assumption|rewrite Hlen; reflexivity|].
  intros Hdb. rewrite Hdb. exists p. specialize (Hd Hdb). split; [reflexivity|exact Hd].
Qed.
Print Assumptions C43_truncated_mode_data_is_prefix.

Example C43_runs :
  api_run xff (ms6 1 0x3f 0 96) [] [1] 0 23 24 = Some (96, 1%nat, GOOD, B ([75; 0; 0x10; 0] ++ repeat 0 20)) /\
  api_run xff (ms6 1 0x3f 0 96) [] [1] 0 24 26 = Some (96, 1%nat, GOOD, B ([75; 0; 0x10; 0; 8; 0x12; 0x84] ++ repeat 0 19)).
Proof. repeat split; vm_compute; reflexivity. Qed.

(** ** C36 *)

(** No MODE SENSE(10) for a supported page, and no 10-byte MODE SENSE(10) at
    all, is ever accepted. *)
Theorem C36_mode_sense10_refuted : forall t cdb buffer lun w bs,
  idle t -> span_holds w cdb bs -> byte_at bs 0 = 0x5a ->
  (length bs < 12)%nat \/ In (ms_page bs) [0x08; 0x0a; 0x1a; 0x3f] -> refuses t cdb buffer lun w.
Proof.
  intros t cdb buffer lun w bs Hi Hc Ho H. eapply Begin_mode10_refuses; try eassumption.
  destruct H as [H|H]; [left; exact H|right].
  unfold ms_page in H. pose proof (bits_div_mod (byte_at bs 2) 0 6) as D. rewrite D in H. change (2 ^ 0) with 1 in H.
  rewrite N.div_1_r in H. change (2 ^ 6) with 64 in H.
  pose proof (N.mod_le (byte_at bs 2) 64 ltac:(lia)). cbn [In] in H. lia.
Qed.
Print Assumptions C36_mode_sense10_refuted.

(** The translation functions themselves, which Begin's missing break makes
    useless, are correct: the request ... *)
Theorem C36_request_function_partial : forall cdb bs wrs al lun w,
  span_holds w cdb bs -> (10 <= length bs)%nat -> data_addr al = 0 ->
  exists st wrs' al' n w', ModeSense10ToNvme (subspan cdb 1) wrs al 4096 (nsid_of lun) 0 0 w =
      Ret (st, wrs', al', n, be (slice 7 2 bs)) w' /\
    let built := map (fun x => (is_admin x, repr GenericCmd (cmd x))) (firstn (N.to_nat n) [e0 wrs'; e1 wrs'; e2 wrs']) in
    if mode_ok (ms_page bs) (ms_pc bs) then
      if ms_dbd bs then st = kSuccess /\ built = map admin_wire (cache_cmds lun (ms_page bs) (ms_pc bs))
      else (st = kSuccess /\ exists p, p <> 0 /\ data_addr al' = p /\
              built = map admin_wire (identify_sqe 0 (nsid_of lun) p :: cache_cmds lun (ms_page bs) (ms_pc bs))) \/
           (st = kFailure /\ data_addr al' = 0)
    else st = kFailure.
Proof.
  intros cdb bs wrs al lun w Hc Hl Hd. change 4096 with kPageSize.
  destruct (mode10_forward cdb bs wrs al lun w Hc Hl Hd) as (st & wrs' & al' & n & w' & E & F).
  exists st, wrs', al', n, w'. split; [exact E|].
  destruct (mode_forward {| ca_page_code := ms_page bs; ca_pc := ms_pc bs; ca_dbd := ms_dbd bs; ca_llbaa := ms10_llbaa bs |}
    wrs al lun w Hd (ms_pc_lt bs)) as (st2 & wrs2 & al2 & n2 & w2 & F2 & _ & _ & C).
  rewrite F in F2. injection F2 as <- <- <- <- <-. cbn [ca_dbd ca_page_code ca_pc] in C. cbv zeta.
  assert (HW : map (fun x => (is_admin x, repr GenericCmd (cmd x))) (firstn (N.to_nat n) [e0 wrs'; e1 wrs'; e2 wrs']) = wires wrs' n).
  { unfold wires. rewrite ?map_map. reflexivity. }
  rewrite HW. destruct (ms_dbd bs).
  - destruct C as (_ & _ & _ & C). destruct (mode_ok (ms_page bs) (ms_pc bs)); [|exact C]. destruct C as (C1 & _ & C3). split; [exact C1|exact C3].
  - destruct C as [(p & m & Hp & _ & -> & _ & C)|(-> & Hz & _)].
    + destruct (mode_ok (ms_page bs) (ms_pc bs)); [|exact C]. left. destruct C as (C1 & _ & C3 & _). split; [exact C1|].
      exists p. split; [exact Hp|]. split; [reflexivity|exact C3].
    + destruct (mode_ok (ms_page bs) (ms_pc bs)); [right; auto|reflexivity].
Qed.
Print Assumptions C36_request_function_partial.

(** ... and the response; [result] is the DWord 0 it is given *)
Theorem C36_response_function_partial : forall cdb bs result identify p ns buffer w,
  span_holds w cdb bs -> (10 <= length bs)%nat -> In (ms_page bs) [0x08; 0x0a; 0x1a; 0x3f] -> span_mapped w buffer ->
  (ms_dbd bs = false -> le (slice 24 8 (repr GenericCmd identify)) = p /\ bytes_at w p ns /\ N.of_nat (length ns) = 4096 /\
     ns_lbads ns < 32 /\ apart p buffer) ->
  exists st w1, ModeSense10ToScsi (subspan cdb 1) identify result buffer w = Ret st w1 /\
    wrote w w1 (ptr buffer) (fitting (len buffer) (mode10_data (ms10_llbaa bs)
      (if ms_dbd bs then None else Some (if ms10_llbaa bs then long_descriptor ns else short_descriptor ns))
      (ms_page bs) (N.testbit result 0))).
Proof.
  intros cdb bs result idc p ns buffer w Hc Hl Hp Hm Hd. eapply mode10_response; try eassumption.
  { unfold known_page. cbn [In] in Hp. lia. }
  intros Hdb. destruct (Hd Hdb) as (H1 & H2). split; [|exact H2]. rewrite <- H1.
  unfold repr. rewrite slice_le_encode by (cbn; lia). 
  rewrite le_le_encode. fields. symmetry. apply N.mod_small. apply (bits_lt idc 192 64).
Qed.
Print Assumptions C36_response_function_partial.

(** a standard CDB is refused; the same with two more bytes and page 0 is
    accepted, as REPORT LUNS, and completing it flows off the end of a function *)
Definition ms10 (dbd page : N) (extra : list N) : list byte := B ([0x5a; dbd * 8; page; 0; 0; 0; 0; 0; 96; 0] ++ extra).
Definition begins (cdb : list byte) : option (nat * list (list byte)) :=
  match Begin ex_obj (ex_cdb cdb) (ex_buf 64) 0 (ex_world cdb) with
  | Ret (t, _) _ => match pipeline_status t with
                    | kSuccess => Some (length (exposes t), map x_bytes (exposes t))
                    | _ => None
                    end
  | UB _ => None
  end.
Example C36_runs :
  begins (ms10 1 0x08 []) = None /\ begins (ms10 0 0x3f []) = None /\ begins (ms10 1 0x08 [0; 0]) = None /\
  begins (ms10 1 0 [0; 0]) = Some (1%nat, [sqe_bytes (identify_sqe 2 0 0x100000)]) /\
  api_run xff (ms10 1 0 [0; 0]) [] [0] 0 64 1 = None.
Proof. repeat split; vm_compute; reflexivity. Qed.
