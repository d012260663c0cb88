(** C50, C51, C53: what a translation depends on. *)
From Coq Require Import Arith NArith String List Lia Bool Init.Byte Permutation.
From Coq Require Import ZifyBool ZifyNat ZifyN.
From Verif Require Import Bytes Layout World ScsiDefs NvmeDefs Common ModeSenseCmd StatusCmd SmallCmds TranslationCls Spec RwSpec InquirySpec SmallSpec ModeSpec HistorySpec
  Facts Logic BeginFacts CompleteFacts StatusFacts RwFacts AdminFacts InquiryFacts SmallFacts ModeFacts RelFacts Witness Properties4.
Import ListNotations.
Local Open Scope string_scope.
Local Open Scope list_scope.
Local Open Scope N_scope.

Lemma slice_firstn {A} n k (l l' : list A) : firstn n l = firstn n l' -> (1 + k <= n)%nat -> slice 1 k l = slice 1 k l'.
Proof.
  intros H Hk. assert (E : forall x : list A, slice 1 k x = slice 1 k (firstn n x)).
  { intros x. unfold slice. rewrite skipn_firstn_comm, firstn_firstn. f_equal. lia. }
  rewrite (E l), (E l'), H. reflexivity.
Qed.

Lemma agree_bytes w ca cb bsa bsb n : span_holds w ca bsa -> span_holds w cb bsb -> (n <= length bsa)%nat -> (n <= length bsb)%nat ->
  firstn n bsa = firstn n bsb -> agree ca cb w n.
Proof.
  intros Ha Hb La Lb H l Hl. rewrite (cdb_ReadValue l ca w bsa Ha), (cdb_ReadValue l cb w bsb Hb) by lia.
  rewrite (slice_firstn n _ bsa bsb H) by lia. reflexivity.
Qed.

Lemma opcode_same w ca cb bsa bsb : span_holds w ca bsa -> span_holds w cb bsb -> bsa <> [] -> bsb <> [] -> byte_at bsa 0 = byte_at bsb 0 ->
  span_at ca 0 w = Ret (byte_at bsa 0) w /\ span_at cb 0 w = Ret (byte_at bsa 0) w.
Proof.
  intros Ha Hb Na Nb E. change 0 with (N.of_nat 0).
  rewrite (span_at_ok w ca bsa 0 Ha), (span_at_ok w cb bsb 0 Hb) by (destruct bsa, bsb; try contradiction; cbn; lia).
  split; [reflexivity|]. rewrite E. reflexivity.
Qed.

Lemma len_same w ca cb bsa bsb : span_holds w ca bsa -> span_holds w cb bsb -> bsa <> [] -> bsb <> [] -> (len ca =? 0) = (len cb =? 0).
Proof. intros [-> _] [-> _] Na Nb. destruct bsa, bsb; try contradiction. cbn [length]. lia. Qed.

Lemma counts_world opc c w w2 bs k : span_holds w c bs -> span_holds w2 c bs -> counts opc (subspan c 1) w k -> counts opc (subspan c 1) w2 k.
Proof.
  intros H1 H2 (A & B & C). split; [exact A|]. split; [exact B|]. intros Ho v Hv. apply (C Ho v).
  destruct (le_lt_dec 6 (length bs)) as [L|L].
  - rewrite (cdb_ReadValue ModeSense6Command c w2 bs H2) in Hv by (cbn; lia). rewrite (cdb_ReadValue ModeSense6Command c w bs H1) by (cbn; lia).
    injection Hv as <-. reflexivity.
  - rewrite (cdb_ReadValue_short ModeSense6Command c w2 bs H2) in Hv by (cbn; lia). discriminate Hv.
Qed.

Lemma wires_sim ta tb : sim ta tb -> (pipeline_status ta <> kSuccess -> nvme_cmd_count ta = 0) ->
  map wire_of (exposes ta) = map wire_of (exposes tb).
Proof.
  intros (Ss & Sc & _ & Sw) H. rewrite <- !wires_exposes. unfold wires. rewrite <- Sc.
  destruct (is_success (pipeline_status ta)) eqn:Es.
  - assert (Hs : pipeline_status ta = kSuccess) by (destruct (pipeline_status ta); try discriminate; reflexivity).
    destruct (Sw Hs) as (W0 & W1 & W2). set (n := nvme_cmd_count ta) in *.
    assert (K : forall a b, same_wire a b -> wire_of (view a) = wire_of (view b)).
    { intros a b [E1 E2]. unfold wire_of, view. cbn. rewrite E1, E2. reflexivity. }
    assert (Cn : n = 0 \/ n = 1 \/ n = 2 \/ 3 <= n) by lia.
    destruct Cn as [-> |[-> |[-> |Hn]]].
    + reflexivity.
    + change (N.to_nat 1) with 1%nat. cbn [firstn map]. rewrite (K _ _ (W0 ltac:(lia))). reflexivity.
    + change (N.to_nat 2) with 2%nat. cbn [firstn map]. rewrite (K _ _ (W0 ltac:(lia))), (K _ _ (W1 ltac:(lia))). reflexivity.
    + rewrite !firstn_all2 by (cbn; lia). cbn [map]. rewrite (K _ _ (W0 ltac:(lia))), (K _ _ (W1 ltac:(lia))), (K _ _ (W2 ltac:(lia))). reflexivity.
  - rewrite H; [reflexivity|]. intros E. rewrite E in Es. discriminate.
Qed.

Lemma Begin_zero t c buf lun w t' r w' : idle t -> Begin t c buf lun w = Ret (t', r) w' -> pipeline_status t' <> kSuccess -> nvme_cmd_count t' = 0.
Proof.
  intros (Hs & Hc & _) E Hn. unfold Begin in E. rewrite Hs in E. cbn [is_uninitialized negb] in E.
  destruct (len c =? 0).
  { unfold ret in E. injection E as <- _ _. exact Hc. }
  cbv zeta in E. apply bind_ret_inv in E as (o & w1 & E1 & E).
  apply bind_ret_inv in E as ([t1 l] & w2 & E2 & E). apply bind_ret_inv in E as (t2 & w3 & E3 & E).
  unfold ret in E. injection E as <- _ _. unfold Begin_finish in E3.
  destruct (is_success (pipeline_status t1)) eqn:Es; cbn [negb] in E3.
  - unfold ret in E3. injection E3 as <- _. exfalso. apply Hn. destruct (pipeline_status t1); try discriminate; reflexivity.
  - apply bind_ret_inv in E3 as (t3 & w4 & E2' & E3). unfold ret in E3. injection E3 as <- _. reflexivity.
Qed.

Definition begin_complete_same (ta tb : Translation) (ca cb : span) (bsa bsb : list byte) (buf : span) (lun : N) (w : world) : Prop :=
  same_outcome begin_seen (Begin ta ca buf lun w) (Begin tb cb buf lun w) /\
  forall ta' ra wa tb' rb wb, Begin ta ca buf lun w = Ret (ta', ra) wa -> Begin tb cb buf lun w = Ret (tb', rb) wb ->
    forall w2 cpls buffer sense, span_holds w2 ca bsa -> span_holds w2 cb bsb ->
      same_outcome complete_seen (Complete ta' cpls buffer sense w2) (Complete tb' cpls buffer sense w2).

Lemma from_rel ta tb ca cb bsa bsb buf lun w : idle ta -> idle tb ->
  span_holds w ca bsa ->
  (bsa <> [] -> bsb <> []) -> byte_at bsa 0 = byte_at bsb 0 ->
  (forall w2, span_holds w2 ca bsa -> span_holds w2 cb bsb -> agree ca cb w2 (std_cdb_len (byte_at bsa 0))) ->
  rel (Begin ta ca buf lun) (Begin tb cb buf lun) w (fun r s _ => begun ca cb r s) ->
  begin_complete_same ta tb ca cb bsa bsb buf lun w.
Proof.
  intros Ia Ib Ha Hne Ho Hag R. unfold rel in R. split.
  - unfold same_outcome. destruct (Begin ta ca buf lun w) as [[t1 r1] w1|] eqn:E1, (Begin tb cb buf lun w) as [[t2 r2] w2|] eqn:E2; try tauto.
    destruct R as [-> (S & Er & _)]. cbn [fst snd] in *. subst r2. split; [reflexivity|]. unfold begin_seen. cbn [fst snd]. f_equal.
    apply wires_sim; [exact S|]. exact (fun h => Begin_zero _ _ _ _ _ _ _ _ Ia E1 h).
  - intros t1 r1 w1 t2 r2 w1' E1 E2 w2 cpls buffer sense H1 H2. rewrite E1, E2 in R. destruct R as [_ (S & _ & K)]. cbn [fst snd] in *.
    assert (C : rel (Complete t1 cpls buffer sense) (Complete t2 cpls buffer sense) w2 (fun r s _ => snd r = snd s)).
    { apply (rel_Complete t1 t2 ca cb); [exact S|]. intros Hs. destruct (K Hs) as [K1 K2]. split; [exact K1|]. split; [exact K2|].
      assert (Na : bsa <> []).
      { intros ->. destruct Ha as [Hl _]. cbn in Hl. unfold Begin in E1. destruct Ia as (I1 & _). rewrite I1 in E1. cbn [is_uninitialized negb] in E1.
        rewrite Hl in E1. cbn in E1. unfold ret in E1. injection E1 as <- _ _. discriminate Hs. }
      destruct (opcode_same w2 ca cb bsa bsb H1 H2 Na (Hne Na) Ho) as [O1 O2]. split; [congruence|].
      intros opc Eo. rewrite O1 in Eo. injection Eo as <-. split; [apply Hag; assumption|].
      apply (counts_world _ _ w w2 bsa); [exact Ha|exact H1|]. apply (Begin_counts _ _ _ _ _ _ _ _ _ Ia E1 Hs).
      change 0 with (N.of_nat 0). apply span_at_ok; [exact Ha|]. destruct bsa; [contradiction|cbn; lia]. }
    unfold rel in C. unfold same_outcome, complete_seen.
    destruct (Complete t1 cpls buffer sense w2), (Complete t2 cpls buffer sense w2); try tauto.
Qed.

Lemma first_error_none cpls : first_error cpls = None -> Forall cpl_ok cpls.
Proof.
  intros H.
  assert (D : Forall cpl_ok cpls \/ exists pre c post, cpls = pre ++ c :: post /\ Forall cpl_ok pre /\ ~ cpl_ok c).
  { clear H. induction cpls as [|c l IH]; [left; constructor|].
    assert (Dc : cpl_ok c \/ ~ cpl_ok c) by (unfold cpl_ok; lia).
    destruct Dc as [Dc|Dc].
    - destruct IH as [IH|(pre & c' & post & -> & Hp & Hc)]; [left; constructor; assumption|].
      right. exists (c :: pre), c', post. split; [reflexivity|]. split; [constructor; assumption|exact Hc].
    - right. exists [], c, l. split; [reflexivity|]. split; [constructor|exact Dc]. }
  destruct D as [D|(pre & c & post & -> & Hp & Hc)]; [exact D|].
  destruct (first_error_at pre c post Hp Hc) as (s & Es & _). congruence.
Qed.

(** ** C51 *)

(** Two CDBs that agree on the bytes their opcode's CDB has, wherever they lie:
    same response, same world, same commands from Begin; same response and same
    world from Complete.  Missing for the full claim: MODE SENSE(10) (see the
    refutation); UNMAP is in the next theorem. *)
Theorem C51_trailing_bytes_partial : forall t w ca cb bsa bsb buffer lun,
  idle t -> span_holds w ca bsa -> span_holds w cb bsb -> bsa <> [] -> bsb <> [] ->
  byte_at bsa 0 = byte_at bsb 0 -> byte_at bsa 0 <> 0x42 -> byte_at bsa 0 <> 0x5a ->
  let n := std_cdb_len (byte_at bsa 0) in
  (n <= length bsa)%nat -> (n <= length bsb)%nat -> firstn n bsa = firstn n bsb ->
  same_outcome begin_seen (Begin t ca buffer lun w) (Begin t cb buffer lun w) /\
  forall ta ra wa tb rb wb, Begin t ca buffer lun w = Ret (ta, ra) wa -> Begin t cb buffer lun w = Ret (tb, rb) wb ->
    forall w2 cpls buffer2 sense, span_holds w2 ca bsa -> span_holds w2 cb bsb ->
      same_outcome complete_seen (Complete ta cpls buffer2 sense w2) (Complete tb cpls buffer2 sense w2).
Proof.
  intros t w ca cb bsa bsb buffer lun Hi Ha Hb Na Nb Ho Hu H10 n La Lb H.
  apply (from_rel t t ca cb bsa bsb); try assumption; [auto| |].
  { intros w2 H1 H2. eapply agree_bytes; eassumption. }
  destruct (opcode_same w ca cb bsa bsb Ha Hb Na Nb Ho) as [O1 O2].
  apply rel_Begin; try assumption; [eapply len_same; eassumption|congruence|].
  intros opc Eo. rewrite O1 in Eo. injection Eo as <-. split; [exact Hu|]. split; [eapply agree_bytes; eassumption|].
  intros E. contradiction.
Qed.
Print Assumptions C51_trailing_bytes_partial.

Lemma agree_ptr ca cb n w : ptr ca = ptr cb -> N.of_nat n <= len ca -> N.of_nat n <= len cb -> agree ca cb w n.
Proof.
  intros Hp La Lb l Hl. unfold ReadValue, subspan.
  replace (len ca <=? 1) with false by lia. replace (len cb <=? 1) with false by lia. cbn [ptr len]. rewrite Hp.
  replace (len ca - 1 <? N.of_nat (sizeof l)) with false by lia. replace (len cb - 1 <? N.of_nat (sizeof l)) with false by lia. reflexivity.
Qed.

(** The CDB at one address, passed with any two lengths that cover it: every
    opcode except MODE SENSE(10) *)
Theorem C51_longer_span_partial : forall t w a la lb bsa bsb buffer lun,
  let ca := {| ptr := a; len := la |} in let cb := {| ptr := a; len := lb |} in
  idle t -> span_holds w ca bsa -> span_holds w cb bsb -> bsa <> [] -> bsb <> [] -> byte_at bsa 0 <> 0x5a ->
  N.of_nat (std_cdb_len (byte_at bsa 0)) <= la -> N.of_nat (std_cdb_len (byte_at bsa 0)) <= lb ->
  same_outcome begin_seen (Begin t ca buffer lun w) (Begin t cb buffer lun w) /\
  forall ta ra wa tb rb wb, Begin t ca buffer lun w = Ret (ta, ra) wa -> Begin t cb buffer lun w = Ret (tb, rb) wb ->
    forall w2 cpls buffer2 sense, span_holds w2 ca bsa -> span_holds w2 cb bsb ->
      same_outcome complete_seen (Complete ta cpls buffer2 sense w2) (Complete tb cpls buffer2 sense w2).
Proof.
  intros t w a la lb bsa bsb buffer lun ca cb Hi Ha Hb Na Nb H10 La Lb.
  assert (Ho : byte_at bsa 0 = byte_at bsb 0).
  { destruct bsa as [|x bsa]; [contradiction|]. destruct bsb as [|y bsb]; [contradiction|].
    destruct Ha as [_ Ha], Hb as [_ Hb]. specialize (Ha 0%nat x eq_refl). specialize (Hb 0%nat y eq_refl). cbn [ca cb ptr] in Ha, Hb.
    rewrite Ha in Hb. injection Hb as <-. reflexivity. }
  apply (from_rel t t ca cb bsa bsb); try assumption; [auto| |].
  { intros w2 H1 H2. apply agree_ptr; [reflexivity|exact La|exact Lb]. }
  destruct (opcode_same w ca cb bsa bsb Ha Hb Na Nb Ho) as [O1 O2].
  apply rel_Begin_gen; try assumption; [eapply len_same; eassumption|congruence|].
  intros opc Eo I2. rewrite O1 in Eo. injection Eo as <-.
  destruct (N.eq_dec (byte_at bsa 0) 0x42) as [E|E].
  - rewrite E in La, Lb |- *. change (Begin_switch 0x42) with Begin_Unmap.
    apply rel_Unmap; intros w'; apply (agree_ptr ca cb 10); try reflexivity; try assumption; cbn; lia.
  - apply rel_Begin_switch; [apply agree_ptr; [reflexivity|exact La|exact Lb]|exact E|intros X; contradiction|exact I2].
Qed.
Print Assumptions C51_longer_span_partial.

(** MODE SENSE(10) reads two bytes past its 10-byte CDB: refused without them,
    translated (to an Identify command) with them *)
Definition accepts (cdb : list byte) : bool :=
  match Begin ex_obj (ex_cdb cdb) (ex_buf 64) 0 (ex_world cdb) with
  | Ret (t, _) _ => is_success (pipeline_status t)
  | UB _ => false
  end.
Theorem C51_trailing_bytes_refuted : exists cdb suffix,
  byte_at cdb 0 = 0x5a /\ (length cdb = std_cdb_len (byte_at cdb 0))%nat /\
  accepts cdb = false /\ accepts (cdb ++ suffix) = true.
Proof. exists (B [0x5a; 8; 0; 0; 0; 0; 0; 0; 96; 0]), (B [0; 0]). repeat split; vm_compute; reflexivity. Qed.
Print Assumptions C51_trailing_bytes_refuted.

Example C51_lengths : map std_cdb_len [0x12; 0x1a; 0x03; 0; 0x08; 0x25; 0x28; 0x35; 0x2f; 0x42; 0x5a; 0xa0; 0xa3; 0xa8; 0x88; 0x8a] =
  [6; 6; 6; 6; 6; 10; 10; 10; 10; 10; 10; 12; 12; 12; 16; 16]%nat.
Proof. reflexivity. Qed.
Example C51_run : accepts (B [0x12; 0; 0; 0; 36; 0]) = true /\ accepts (B [0x12; 0; 0; 0; 36; 0; 1; 2; 3]) = true /\
  api_run xff (B [0x28; 0; 0; 0; 0; 5; 0; 0; 1; 0]) [] [0] 0 4096 1 = Some (4096, 1%nat, GOOD, B [0]) /\
  api_run xff (B [0x28; 0; 0; 0; 0; 5; 0; 0; 1; 0; 7; 7]) [] [0] 0 4096 1 = Some (4096, 1%nat, GOOD, B [0]).
Proof. repeat split; vm_compute; reflexivity. Qed.

(** ** C53 *)

(** Two idle objects, whatever they were used for before: same response, world
    and commands (queue and 64 bytes) from Begin, same response and world from
    Complete.  Missing for the full claim: the buffer length advertised with a
    command, and UNMAP (see the refutations). *)
Theorem C53_history_independent_partial : forall ta tb w cdb bs buffer lun,
  idle ta -> idle tb -> span_holds w cdb bs -> byte_at bs 0 <> 0x42 ->
  same_outcome begin_seen (Begin ta cdb buffer lun w) (Begin tb cdb buffer lun w) /\
  forall ta' ra wa tb' rb wb, Begin ta cdb buffer lun w = Ret (ta', ra) wa -> Begin tb cdb buffer lun w = Ret (tb', rb) wb ->
    forall w2 cpls buffer2 sense, span_holds w2 cdb bs ->
      same_outcome complete_seen (Complete ta' cpls buffer2 sense w2) (Complete tb' cpls buffer2 sense w2).
Proof.
  intros ta tb w cdb bs buffer lun Ia Ib Hc Hu.
  assert (K : begin_complete_same ta tb cdb cdb bs bs buffer lun w).
  { apply from_rel; try assumption; [auto|reflexivity| |].
    - intros w2 _ _ l _. reflexivity.
    - apply rel_Begin; try assumption; try reflexivity. intros opc Eo.
      destruct bs as [|b bs].
      { exfalso. destruct Hc as [Hl _]. cbn in Hl. unfold span_at in Eo. rewrite Hl in Eo. discriminate Eo. }
      change 0 with (N.of_nat 0) in Eo. rewrite (span_at_ok w cdb (b :: bs) 0 Hc) in Eo by (cbn; lia). injection Eo as <-.
      split; [exact Hu|]. split; [intros l _; reflexivity|reflexivity]. }
  destruct K as [K1 K2]. split; [exact K1|]. intros. eapply K2; eassumption.
Qed.
Print Assumptions C53_history_independent_partial.

(** the buffer length advertised with a SYNCHRONIZE CACHE command is whatever
    the object held before: an earlier command's, or uninitialised memory *)
Theorem C53_buffer_length_refuted : forall wrs cdb buffer lun w bs,
  span_holds w cdb bs -> bs <> [] -> byte_at bs 0 = 0x35 ->
  exists t' r, Begin (Translation_init wrs) cdb buffer lun w = Ret (t', r) w /\
    map x_buffer_len (exposes t') = [buffer_len (e0 wrs)].
Proof.
  intros wrs cdb buffer lun w bs Hc Hne Ho.
  assert (Hi : idle (Translation_init wrs)) by (split; [reflexivity|split; reflexivity]).
  set (t0 := started (Translation_init wrs) cdb).
  set (t2 := set_count (set_status (set_wr0 t0 (SynchronizeCache10ToNvme (e0 (nvme_wrappers t0)) (nsid_of lun))) kSuccess) 1).
  exists t2, (begin_ok 0). split.
  - apply (Begin_accepts _ _ _ _ _ bs 0x35 t2 0 w Hi Hc Hne Ho); [|reflexivity].
    change (Begin_switch 0x35) with (fun (_ _ : span) => Begin_Sync10). cbv beta. reflexivity.
  - reflexivity.
Qed.
Print Assumptions C53_buffer_length_refuted.

(** a crafted UNMAP: whether a stale command of the object is exposed *)
Definition unmap_cdb : list byte := B [0x42; 8; 0x0a; 0; 0; 0; 0; 0; 0; 0].
Definition unmap_exposes (c : N) : list (bool * list byte) :=
  match Begin (Translation_init (Build_arr3 (ex_wr c) (ex_wr 0) (ex_wr 0))) (ex_cdb unmap_cdb) (ex_buf 64) 0 (ex_world unmap_cdb) with
  | Ret (t, _) _ => map wire_of (exposes t)
  | UB _ => []
  end.
Theorem C53_unmap_refuted : exists c1 c2, unmap_exposes c1 <> [] /\ unmap_exposes c1 <> unmap_exposes c2.
Proof. exists 1, 2. split; vm_compute; discriminate. Qed.
Print Assumptions C53_unmap_refuted.

(** an object that was used and aborted is idle again and differs from a new one *)
Definition C53_used : list (bool * bool) :=
  let c := B [0x28; 0; 0; 0; 0; 5; 0; 0; 1; 0] in
  match Begin ex_obj (ex_cdb c) (ex_buf 4096) 0 (ex_world c) with
  | Ret (t, _) w =>
      match AbortPipeline t w with
      | Ret t' _ => [(is_uninitialized (pipeline_status t') && (nvme_cmd_count t' =? 0) && match held t' with [] => true | _ => false end,
                      cmd (e0 (nvme_wrappers t')) =? cmd (e0 (nvme_wrappers ex_obj)))]
      | UB _ => []
      end
  | UB _ => []
  end.
Example C53_run : C53_used = [(true, false)].
Proof. vm_compute. reflexivity. Qed.

(** ** C50 *)

(** The response of REQUEST SENSE is chosen by the CDB found in memory when
    Complete runs, whatever CDB Begin accepted. *)
Theorem C50_cdb_reread_refuted : forall t cdb b0 lun w bs,
  idle t -> span_holds w cdb bs -> (6 <= length bs)%nat -> byte_at bs 0 = 0x03 -> bits (byte_at bs 5) 2 1 = 0 ->
  exists t1, Begin t cdb b0 lun w = Ret (t1, begin_ok (byte_at bs 4)) w /\ accepted t1 /\
    forall w2 bs' buffer sense, span_holds w2 cdb bs' -> (6 <= length bs')%nat -> byte_at bs' 0 = 0x03 -> span_mapped w2 buffer ->
      18 <= len buffer ->
      exists t2 w3, Complete t1 [] buffer sense w2 = Ret (t2, api_ok GOOD) w3 /\
        wrote w2 w3 (ptr buffer) (if N.testbit (byte_at bs' 1) 0 then x72 :: repeat x00 7 else x70 :: repeat x00 17).
Proof.
  intros t cdb b0 lun w bs Hi Hc Hl Ho Hn. exists (started t cdb).
  split; [eapply Begin_sense; try eassumption; split; assumption|]. split; [reflexivity|].
  intros w2 bs' buffer sense Hc2 Hl2 Ho2 Hm Hlen.
  destruct (sense_complete t cdb bs' buffer sense w2 Hi (conj Hl2 Ho2) Hc2 Hm) as (t2 & w3 & E & _ & W & _).
  exists t2, w3. split; [exact E|].
  assert (Hd : no_sense (bits (byte_at bs' 1) 0 1) = if N.testbit (byte_at bs' 1) 0 then x72 :: repeat x00 7 else x70 :: repeat x00 17).
  { unfold no_sense. pose proof (bits_testbit (byte_at bs' 1) 0 1 0) as Hb. cbn [N.add] in Hb. change (0 <? 1) with true in Hb. rewrite andb_true_r in Hb.
    rewrite <- Hb. destruct (bit_case (byte_at bs' 1)) as [-> | ->]; reflexivity. }
  rewrite <- Hd. apply W. rewrite Hd. destruct (N.testbit (byte_at bs' 1) 0); cbn; lia.
Qed.
Print Assumptions C50_cdb_reread_refuted.

(** Rejected requests and commands the device failed do not look at the CDB
    again: the outcome is the same for every CDB span. *)
Theorem C50_failures_partial : forall t cpls buffer sense w cdb',
  pipeline_status t <> kSuccess \/ ~ Forall cpl_ok cpls ->
  same_outcome complete_seen (Complete t cpls buffer sense w) (Complete (set_scsi_cmd t cdb') cpls buffer sense w).
Proof.
  intros t cpls buffer sense w cdb' H.
  assert (R : rel (Complete t cpls buffer sense) (Complete (set_scsi_cmd t cdb') cpls buffer sense) w (fun r s _ => snd r = snd s)).
  { unfold Complete. destruct t as [ps sc n wrs als]. cbn [pipeline_status nvme_cmd_count set_scsi_cmd scsi_cmd_ allocations nvme_wrappers].
    assert (A : same_als als als) by (split; [apply same_al_refl|split; apply same_al_refl]).
    destruct (is_uninitialized ps); [apply rel_ret; reflexivity|].
    destruct (negb _).
    { apply rel_bind. eapply rel_mono; [apply rel_Abort; [reflexivity|exact A]|]. intros x y w' _. apply rel_ret. reflexivity. }
    destruct (is_success ps) eqn:Es; cbn [negb].
    2:{ cbv zeta. apply rel_bind. eapply rel_mono; [apply rel_same; reflexivity|]. intros _ _ w1 _.
        apply rel_bind. eapply rel_mono; [apply rel_Abort; [reflexivity|exact A]|]. intros x y w' _. apply rel_ret. reflexivity. }
    destruct (first_error cpls) as [e|] eqn:Ef.
    { apply rel_bind. eapply rel_mono; [apply rel_same; reflexivity|]. intros _ _ w1 _.
      apply rel_bind. eapply rel_mono; [apply rel_Abort; [reflexivity|exact A]|]. intros x y w' _. apply rel_ret. reflexivity. }
    exfalso. destruct H as [H|H].
    - apply H. cbn. destruct ps; try discriminate; reflexivity.
    - apply H. apply first_error_none. exact Ef. }
  unfold rel in R. unfold same_outcome, complete_seen.
  destruct (Complete t cpls buffer sense w), (Complete (set_scsi_cmd t cdb') cpls buffer sense w); try tauto.
Qed.
Print Assumptions C50_failures_partial.

(** Commands without a response body: if only the bytes after the opcode
    change, the response is GOOD and nothing is written. *)
Theorem C50_data_commands_partial : forall t w cdb bs b0 lun t1 r w1,
  idle t -> span_holds w cdb bs -> bs <> [] ->
  In (byte_at bs 0) [0x00; 0x08; 0x28; 0xa8; 0x88; 0x0a; 0x2a; 0xaa; 0x8a; 0x35; 0x2f] ->
  Begin t cdb b0 lun w = Ret (t1, r) w1 -> accepted t1 ->
  forall w2 bs' cpls buffer sense, span_holds w2 cdb bs' -> bs' <> [] -> byte_at bs' 0 = byte_at bs 0 ->
    length cpls = length (exposes t1) -> Forall cpl_ok cpls ->
    exists t2 w3, Complete t1 cpls buffer sense w2 = Ret (t2, api_ok GOOD) w3 /\ same_memory w2 w3.
Proof.
  intros t w cdb bs b0 lun t1 r w1 Hi Hc Hne Hin E Ha w2 bs' cpls buffer sense Hc2 Hne2 Ho2 Hlen Hok.
  assert (Ws : wf t1 /\ scsi_cmd_ t1 = cdb).
  { pose proof Hi as (Hs & _ & _). unfold Begin in E. rewrite Hs in E. cbn [is_uninitialized negb] in E.
    assert (Hl : (len cdb =? 0) = false) by (destruct Hc as [-> _]; destruct bs; [contradiction|cbn [length]; lia]).
    rewrite Hl in E. cbv zeta in E. fold (started t cdb) in E.
    apply bind_ret_inv in E as (o & w3 & E1 & E). apply span_at_pure in E1 as ->.
    apply bind_ret_inv in E as ([t3 l] & w4 & E2 & E). apply bind_ret_inv in E as (t4 & w5 & E3 & E).
    unfold ret in E. injection E as <- _ _.
    pose proof (Begin_switch_post false o (subspan cdb 1) b0 (u32 (u32 lun + 1)) (started t cdb) 0 w (started_fresh t cdb Hi)) as P.
    specialize (P ltac:(discriminate) (no_ok_span _ _) (no_ok_span _ _)). unfold cst in P. rewrite E2 in P.
    destruct P as (evs & G & W & Hsc & Hu & _). cbn [fst] in *.
    unfold Begin_finish in E3. destruct (is_success (pipeline_status t3)) eqn:Es; cbn [negb] in E3.
    - unfold ret in E3. injection E3 as <- _. split; [exact W|exact Hsc].
    - exfalso. apply bind_ret_inv in E3 as (t5 & w6 & E3 & E5). unfold ret in E5. injection E5 as <- _.
      unfold FlushMemory in E3. apply bind_ret_inv in E3 as (al & w7 & _ & E3). unfold ret in E3. injection E3 as <- _.
      unfold accepted in Ha. cbn in Ha. rewrite Ha in Es. discriminate. }
  destruct Ws as [W Hsc].
  assert (Hcnt : N.of_nat (length cpls) = nvme_cmd_count t1).
  { rewrite Hlen. unfold exposes, GetNvmeWrappers. rewrite map_length, firstn_length. cbn. destruct W as (W1 & _). lia. }
  destruct (Complete_good t1 cpls buffer sense w2 bs' (byte_at bs' 0) kSuccess w2 W Ha Hcnt Hok) as (t2 & w3 & E3 & _ & R);
    try assumption; try reflexivity; [rewrite Hsc; exact Hc2| |].
  - rewrite Ho2. assert (A : pipeline_status t1 = kSuccess) by exact Ha.
    cbn [In] in Hin. repeat destruct Hin as [Hin|Hin]; try contradiction; rewrite <- Hin; unfold Complete_switch; cbn; rewrite ?A; reflexivity.
  - exists t2, w3. split; [exact E3|]. pose proof (r_mem _ _ _ R) as Rm. unfold same_memory, load. intros; rewrite ?Rm; reflexivity.
Qed.
Print Assumptions C50_data_commands_partial.

Example C50_premises_met : let c := B [0x03; 1; 0; 0; 18; 0] in let c' := B [0x03; 0; 0; 0; 18; 0] in
  bits (byte_at c 5) 2 1 = 0 /\ (6 <= length c')%nat /\ N.testbit (byte_at c 1) 0 = true /\ N.testbit (byte_at c' 1) 0 = false /\
  api_run xff c [] [] 0 18 8 = Some (18, 0%nat, GOOD, B [0x72; 0; 0; 0; 0; 0; 0; 0]) /\
  api_run xff c' [] [] 0 18 8 = Some (18, 0%nat, GOOD, B [0x70; 0; 0; 0; 0; 0; 0; 0]).
Proof. repeat split; vm_compute; try reflexivity; lia. Qed.
