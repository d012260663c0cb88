(** Data-path commands: the exact queue entry. *)
From Coq Require Import Arith NArith String List Lia Bool Init.Byte Permutation.
From Coq Require Import ZifyBool ZifyNat ZifyN.
From Verif Require Import Bytes Layout World ScsiDefs NvmeDefs Common ReadCmds WriteCmds SmallCmds
  UnmapCmd StatusCmd ModeSenseCmd InquiryCmd TranslationCls Spec Facts Logic BeginFacts CompleteFacts
  WireFacts StatusFacts RwSpec.
Import ListNotations.
Local Open Scope string_scope.
Local Open Scope list_scope.
Local Open Scope N_scope.

(** ** Running Begin on an idle object *)
Definition started (t : Translation) (cdb : span) : Translation :=
  set_scsi_cmd (set_status t kSuccess) cdb.

Lemma started_fresh t cdb : idle t -> fresh (started t cdb).
Proof. intros (_ & H1 & H2). split; assumption. Qed.

Lemma nsid_eq lun : u32 (u32 lun + 1) = nsid_of lun.
Proof.
  unfold u32, nsid_of. change 0x100000000 with (2 ^ 32).
  rewrite N.add_mod_idemp_l by discriminate. reflexivity.
Qed.
Lemma nsid_lt lun : nsid_of lun < 2 ^ 32.
Proof. unfold nsid_of. apply N.mod_lt. discriminate. Qed.

Lemma Begin_accepts t cdb buffer lun w bs opc t2 al w2 : idle t -> span_holds w cdb bs -> bs <> [] ->
  byte_at bs 0 = opc ->
  Begin_switch opc (subspan cdb 1) buffer (nsid_of lun) (started t cdb) 0 w = Ret (t2, al) w2 ->
  accepted t2 -> Begin t cdb buffer lun w = Ret (t2, begin_ok al) w2.
Proof.
  intros (Hs & _ & _) Hc Hb Ho E Ha. unfold Begin. rewrite Hs. cbn [is_uninitialized negb].
  assert (Hl : (0 < length bs)%nat) by (destruct bs; [contradiction|cbn; lia]).
  destruct (N.eqb_spec (len cdb) 0) as [E0|_]; [destruct Hc as [Hc _]; lia|].
  cbv zeta. fold (started t cdb). rewrite nsid_eq. unfold bind at 1.
  change 0 with (N.of_nat 0) at 1. rewrite (span_at_ok w cdb bs 0 Hc Hl), Ho.
  unfold bind at 1. rewrite E. unfold bind, Begin_finish. rewrite Ha. reflexivity.
Qed.

Lemma Begin_refuses t cdb buffer lun w bs opc t2 al w2 : idle t -> span_holds w cdb bs -> bs <> [] ->
  byte_at bs 0 = opc ->
  Begin_switch opc (subspan cdb 1) buffer (nsid_of lun) (started t cdb) 0 w = Ret (t2, al) w2 ->
  ~ accepted t2 -> refuses t cdb buffer lun w.
Proof.
  intros Hi Hc Hb Ho E Ha. pose proof Hi as (Hs & _ & _). unfold refuses.
  pose proof (Begin_switch_post false opc (subspan cdb 1) buffer (nsid_of lun) (started t cdb) 0 w
    (started_fresh t cdb Hi)) as P.
  specialize (P ltac:(discriminate) (no_ok_span _ _) (no_ok_span _ _)). unfold cst in P. rewrite E in P.
  destruct P as (evs & G & W & _ & Hu & _). cbn [fst] in W, Hu.
  pose proof (FlushMemory_spec t2 w2 W) as F. apply tst_inv in F as (t3 & w3 & Ef & R & Em & St).
  unfold Begin. rewrite Hs. cbn [is_uninitialized negb].
  assert (Hl : (0 < length bs)%nat) by (destruct bs; [contradiction|cbn; lia]).
  destruct (N.eqb_spec (len cdb) 0) as [E0|_]; [destruct Hc as [Hc _]; lia|].
  cbv zeta. fold (started t cdb). rewrite nsid_eq. unfold bind at 1.
  change 0 with (N.of_nat 0) at 1. rewrite (span_at_ok w cdb bs 0 Hc Hl), Ho.
  unfold bind at 1. rewrite E. unfold bind, Begin_finish.
  destruct (is_success (pipeline_status t2)) eqn:Es.
  { exfalso. apply Ha. unfold accepted. destruct (pipeline_status t2); try discriminate. reflexivity. }
  cbn [negb]. unfold bind. rewrite Ef. do 3 eexists. split; [reflexivity|]. split; [reflexivity|].
  rewrite St. split; [|split; [reflexivity|apply held_nil; exact Em]].
  split; cbn; [|exact Hu]. intros Hx. rewrite Hx in Es. discriminate.
Qed.

(** ** Bit-field arithmetic *)
Lemma land_shift b k a : a < 2 ^ k -> N.land (b * 2 ^ k) a = 0.
Proof.
  intros H. apply N.bits_inj. intros i. rewrite N.land_spec, N.bits_0.
  destruct (N.ltb_spec i k) as [Hi|Hi].
  - rewrite N.mul_pow2_bits_low by exact Hi. reflexivity.
  - rewrite <- (N.mod_small a (2 ^ k)) by exact H. rewrite N.mod_pow2_bits_high by exact Hi. apply andb_false_r.
Qed.
Lemma lor_shift b k a : a < 2 ^ k -> N.lor (b * 2 ^ k) a = b * 2 ^ k + a.
Proof.
  intros H. pose proof (land_shift b k a H) as L.
  rewrite <- N.lxor_lor by exact L. symmetry. apply N.add_nocarry_lxor. exact L.
Qed.

Lemma sub32_1 n : 1 <= n -> n < 2 ^ 32 -> sub32 n 1 = n - 1.
Proof.
  intros H1 H2. unfold sub32. replace (n + 2 ^ 32 - 1) with (n - 1 + 1 * 2 ^ 32) by lia.
  rewrite N.mod_add by discriminate. apply N.mod_small. lia.
Qed.

Lemma dw12_sum n pr fua : 1 <= n -> n <= 65536 -> pr < 16 -> fua < 2 ->
  N.lor (N.lor (u32 (N.shiftl fua 30)) (u32 (N.shiftl pr 26))) (sub32 n 1) =
  (n - 1) + pr * 2 ^ 26 + fua * 2 ^ 30.
Proof.
  intros H1 H2 H3 H4. rewrite sub32_1 by lia. rewrite !N.shiftl_mul_pow2.
  assert (P30 : 2 ^ 30 = 1073741824) by reflexivity. assert (P26 : 2 ^ 26 = 67108864) by reflexivity.
  unfold u32. rewrite (N.mod_small (fua * 2 ^ 30)) by lia. rewrite (N.mod_small (pr * 2 ^ 26)) by lia.
  rewrite lor_shift by lia.
  replace (fua * 2 ^ 30 + pr * 2 ^ 26) with ((fua * 16 + pr) * 2 ^ 26) by lia.
  rewrite lor_shift by lia. lia.
Qed.

Lemma read_prinfo_eq p : BuildPrinfo p = prinfo 15 p.
Proof. unfold BuildPrinfo, prinfo. destruct p as [|p]; [reflexivity|]. do 3 (destruct p as [p|p|]; try reflexivity). Qed.
Lemma write_prinfo_eq p : BuildPRInfo p = prinfo 8 p.
Proof. unfold BuildPRInfo, prinfo. destruct p as [|p]; [reflexivity|]. do 3 (destruct p as [p|p|]; try reflexivity). Qed.
Lemma prinfo_lt z p pr : z < 16 -> prinfo z p = Some pr -> pr < 16.
Proof.
  intros Hz. unfold prinfo. destruct p as [|p]; [intros H; injection H as <-; exact Hz|].
  do 3 (try (destruct p as [p|p|]; try discriminate)); intros H; injection H as <-; lia.
Qed.

(** ** The 64 bytes *)
Lemma wire_sqe c q :
  bits c 0 8 = bits (q_opc q) 0 8 -> bits c 8 24 = 0 -> bits c 32 32 = bits (q_nsid q) 0 32 -> bits c 64 128 = 0 ->
  bits c 192 64 = bits (q_prp1 q) 0 64 -> bits c 256 64 = 0 -> bits c 320 32 = bits (q_cdw10 q) 0 32 ->
  bits c 352 32 = bits (q_cdw11 q) 0 32 -> bits c 384 32 = bits (q_cdw12 q) 0 32 -> bits c 416 96 = 0 ->
  le_encode 64 c = sqe_bytes q.
Proof.
  intros H0 H1 H2 H3 H4 H5 H6 H7 H8 H9.
  rewrite (wire c _ _ _ _ _ _ H0 H1 H2 H3 H4 H5 H6 H7 H8 H9). unfold sqe_bytes.
  cbn [q_opc q_nsid q_prp1 q_cdw10 q_cdw11 q_cdw12]. rewrite !bits_low.
  change 8 with (8 * N.of_nat 1) at 1. change 32 with (8 * N.of_nat 4). change 64 with (8 * N.of_nat 8).
  rewrite !le_encode_mod. reflexivity.
Qed.

(** ** READ *)
Lemma LegacyRead_eq wr nsid n buffer : n * 4096 <= len buffer -> n <= 65536 ->
  LegacyRead wr nsid n kLbaSize buffer =
  (kSuccess, {| cmd := set GenericCmd "prp1" (ptr buffer) (mk GenericCmd [("opc", kNvmRead); ("psdt", 0); ("nsid", nsid)]);
                buffer_len := n * 4096; is_admin := false |}, n * 4096).
Proof.
  intros H1 H2. unfold LegacyRead. cbv zeta. unfold u32, kLbaSize. rewrite N.mod_small by lia.
  replace (len buffer <? n * 4096) with false by lia. reflexivity.
Qed.
Lemma LegacyRead_fail wr nsid n buffer : len buffer < n * 4096 -> n <= 65536 ->
  fst (fst (LegacyRead wr nsid n kLbaSize buffer)) <> kSuccess.
Proof.
  intros H1 H2. unfold LegacyRead. cbv zeta. unfold u32, kLbaSize. rewrite N.mod_small by lia.
  replace (len buffer <? n * 4096) with true by lia. discriminate.
Qed.

Lemma Read_eq prot fua n wr nsid buffer al pr : n * 4096 <= len buffer -> 1 <= n <= 65535 ->
  prinfo 15 prot = Some pr -> fua < 2 ->
  Read prot fua n wr nsid kLbaSize buffer al =
  (kSuccess, {| cmd := set GenericCmd "cdw12" ((n - 1) + pr * 2 ^ 26 + fua * 2 ^ 30)
                  (set GenericCmd "prp1" (ptr buffer) (mk GenericCmd [("opc", kNvmRead); ("psdt", 0); ("nsid", nsid)]));
                buffer_len := n * 4096; is_admin := false |}, n * 4096).
Proof.
  intros H1 H2 Hp Hf. unfold Read. replace (n =? 0) with false by lia. replace (0xffff <? n) with false by lia.
  cbv zeta. change 0xffff with (N.ones 16). rewrite N.land_ones. rewrite N.mod_small by (change (2 ^ 16) with 65536; lia).
  rewrite u16_small by (change (2 ^ 16) with 65536; lia). rewrite LegacyRead_eq by lia.
  rewrite read_prinfo_eq, Hp. unfold set_cmd. cbn [cmd buffer_len is_admin].
  unfold htoll, htoll_h, BuildCdw12. rewrite dw12_sum; [reflexivity|lia|lia| |exact Hf].
  eapply prinfo_lt; [|exact Hp]. lia.
Qed.
Lemma Read_fail prot fua n wr nsid buffer al : n < 2 ^ 32 ->
  ~ (n * 4096 <= len buffer /\ 1 <= n <= 65535 /\ prinfo 15 prot <> None) ->
  fst (fst (Read prot fua n wr nsid kLbaSize buffer al)) <> kSuccess.
Proof.
  intros Hn H. unfold Read. destruct (N.eqb_spec n 0); [discriminate|].
  destruct (N.ltb_spec 0xffff n); [discriminate|]. cbv zeta.
  change 0xffff with (N.ones 16) at 1. rewrite N.land_ones. rewrite N.mod_small by (change (2 ^ 16) with 65536; lia).
  rewrite u16_small by (change (2 ^ 16) with 65536; lia).
  destruct (N.leb_spec (n * 4096) (len buffer)) as [Hl|Hl].
  - rewrite LegacyRead_eq by lia. rewrite read_prinfo_eq.
    destruct (prinfo 15 prot) eqn:E; [|discriminate]. exfalso. apply H.
    split; [exact Hl|]. split; [lia|discriminate].
  - pose proof (LegacyRead_fail wr nsid n buffer Hl ltac:(lia)) as F.
    destruct (LegacyRead wr nsid n kLbaSize buffer) as [[st wr1] al1]. cbn [fst] in F.
    destruct st; try discriminate. contradiction.
Qed.

(** ** Big-endian fields *)
Lemma be_app a b : be (a ++ b) = be a * 2 ^ (8 * N.of_nat (length b)) + be b.
Proof. unfold be. rewrite rev_app_distr, le_app, rev_length. lia. Qed.

Lemma htonll_le (a b : list byte) : length a = 4%nat -> length b = 4%nat -> htonll (le (a ++ b)) = be (a ++ b).
Proof.
  intros Ha Hb. pose proof (le_lt a) as La. pose proof (le_lt b) as Lb. rewrite Ha in La. rewrite Hb in Lb.
  change (2 ^ (8 * N.of_nat 4)) with (2 ^ 32) in *.
  unfold htonll, htonll_h, htonl_h. rewrite le_app, Ha. change (2 ^ (8 * N.of_nat 4)) with (2 ^ 32).
  change 0xffffffff with (N.ones 32). rewrite N.land_ones, N.shiftr_div_pow2.
  replace ((le a + 2 ^ 32 * le b) / 2 ^ 32) with (le b).
  2:{ rewrite N.mul_comm, N.div_add by discriminate. rewrite (N.div_small (le a)) by exact La. lia. }
  replace ((le a + 2 ^ 32 * le b) mod 2 ^ 32) with (le a).
  2:{ rewrite N.mul_comm, N.mod_add by discriminate. rewrite N.mod_small by exact La. reflexivity. }
  rewrite !u32_small by assumption. rewrite !bswap_le by assumption.
  pose proof (be_lt a) as Ba. pose proof (be_lt b) as Bb. rewrite Ha in Ba. rewrite Hb in Bb.
  change (2 ^ (8 * N.of_nat 4)) with (2 ^ 32) in *.
  rewrite N.shiftl_mul_pow2. rewrite u64_small.
  - rewrite lor_shift by exact Bb. rewrite be_app, Hb. reflexivity.
  - change (2 ^ 64) with (2 ^ 32 * 2 ^ 32). apply N.mul_lt_mono_pos_r; [reflexivity|exact Ba].
Qed.
Lemma htonll_be l : length l = 8%nat -> htonll (le l) = be l.
Proof.
  intros H. rewrite <- (firstn_skipn 4 l). apply htonll_le.
  - rewrite firstn_length. lia.
  - rewrite skipn_length. lia.
Qed.

Lemma skipn_skipn' {A} a b (l : list A) : skipn a (skipn b l) = skipn (a + b) l.
Proof.
  revert l. induction b as [|b IH]; intros l; [rewrite Nat.add_0_r; reflexivity|].
  destruct l as [|x l]; [rewrite !skipn_nil; reflexivity|]. rewrite Nat.add_succ_r. cbn. apply IH.
Qed.
Lemma slice_app {A} o a b (l : list A) : slice o (a + b) l = slice o a l ++ slice (o + a) b l.
Proof.
  unfold slice. rewrite (Nat.add_comm o a), <- skipn_skipn'.
  set (m := skipn o l). rewrite <- (firstn_skipn a m) at 1.
  destruct (Nat.le_gt_cases a (length m)) as [H|H].
  - rewrite firstn_app, firstn_firstn, firstn_length. replace (Nat.min (a + b) a) with a by lia.
    replace (a + b - Nat.min a (length m))%nat with b by lia. reflexivity.
  - rewrite (skipn_all2 m) by lia. rewrite app_nil_r, firstn_nil, app_nil_r, firstn_firstn.
    f_equal. lia.
Qed.
Lemma le_slice_1 o (l : list byte) : (o < length l)%nat -> le (slice o 1 l) = byte_at l o.
Proof. intros H. rewrite slice_1 by exact H. cbn [le]. unfold byte_at. lia. Qed.
Lemma be_slice_1 o (l : list byte) : (o < length l)%nat -> be (slice o 1 l) = byte_at l o.
Proof. intros H. unfold be. rewrite slice_1 by exact H. cbn [rev app le]. unfold byte_at. lia. Qed.
Lemma byte_at_lt l i : byte_at l i < 256.
Proof. apply b2n_lt. Qed.
Lemma be_slice_lt o n l : (o + n <= length l)%nat -> be (slice o n l) < 2 ^ (8 * N.of_nat n).
Proof. intros H. pose proof (be_lt (slice o n l)) as B. rewrite slice_length in B by exact H. exact B. Qed.

(** named bit ranges of a CDB become bytes of the CDB *)
Ltac cdb_step :=
  match goal with
  | |- context [bits (le (slice ?o ?n ?bs)) ?ko ?wd] =>
      let k := eval vm_compute in (N.to_nat (ko / 8)) in
      let m := eval vm_compute in (N.to_nat (wd / 8)) in
      let b := eval vm_compute in (ko mod 8) in
      let r := eval vm_compute in ((ko mod 8 =? 0) && (wd mod 8 =? 0)) in
      let v := eval vm_compute in (o + k)%nat in
      match r with
      | true => rewrite (bits_le_slice_at bs o n k m ko wd) by (first [reflexivity | lia]);
                change (o + k)%nat with v
      | false => rewrite (bits_le_byte_at bs o n k ko b wd) by (first [reflexivity | lia]);
                change (o + k)%nat with v
      end
  end.
Ltac cdb_fields := fields; repeat cdb_step.

Lemma lba6 bs : (4 <= length bs)%nat ->
  u32 (N.shiftl (bits (byte_at bs 1) 0 5) 16 + ntohs (le (slice 2 2 bs))) = be (slice 1 3 bs) mod 2 ^ 21.
Proof.
  intros H. unfold ntohs. rewrite bswap_le by (apply slice_length; lia).
  change 3%nat with (1 + 2)%nat. rewrite slice_app, be_app, slice_length by lia. change (1 + 1)%nat with 2%nat.
  rewrite be_slice_1 by lia.
  pose proof (be_slice_lt 2 2 bs ltac:(lia)) as B. change (2 ^ (8 * N.of_nat 2)) with 65536 in *.
  pose proof (byte_at_lt bs 1) as B1. rewrite bits_low. change (2 ^ 5) with 32.
  rewrite N.shiftl_mul_pow2. change (2 ^ 16) with 65536. change (2 ^ 21) with (32 * 65536).
  set (x := be (slice 2 2 bs)) in *. set (b := byte_at bs 1) in *.
  rewrite (N.mul_comm 32), N.mod_mul_r by discriminate.
  rewrite (N.add_comm (b * 65536) x), N.mod_add, N.div_add by discriminate.
  rewrite (N.mod_small x), (N.div_small x) by exact B. rewrite N.add_0_l.
  rewrite u32_small; [lia|]. pose proof (N.mod_lt b 32 ltac:(discriminate)). change (2 ^ 32) with 4294967296. lia.
Qed.

Definition read_fun (f : rw_form) :=
  match f with RW6 => Read6ToNvme | RW10 => Read10ToNvme | RW12 => Read12ToNvme | RW16 => Read16ToNvme end.

Lemma read_switch f c buffer nsid t rl :
  Begin_switch (read_opcode f) c buffer nsid t rl = Begin_Read (read_fun f) c buffer nsid t rl.
Proof. destruct f; reflexivity. Qed.

Lemma rw_blocks_lt f bs : (rw_len f <= length bs)%nat -> rw_blocks f bs < 2 ^ 32.
Proof.
  intros H. destruct f; cbn [rw_len rw_blocks] in *.
  - pose proof (byte_at_lt bs 4). change (2 ^ 32) with 4294967296. destruct (byte_at bs 4 =? 0); lia.
  - pose proof (be_slice_lt 7 2 bs ltac:(lia)) as B. change (2 ^ (8 * N.of_nat 2)) with 65536 in B.
    change (2 ^ 32) with 4294967296. lia.
  - pose proof (be_slice_lt 6 4 bs ltac:(lia)) as B. exact B.
  - pose proof (be_slice_lt 10 4 bs ltac:(lia)) as B. exact B.
Qed.
Lemma rw_fua_lt f bs : rw_fua f bs < 2.
Proof. destruct f; cbn [rw_fua]; [lia|apply (bits_lt _ _ 1)..]. Qed.

(** [wire_sqe] applied to a nest of field assignments *)
Ltac wire_tac :=
  fields; apply wire_sqe; cbn [q_opc q_nsid q_prp1 q_cdw10 q_cdw11 q_cdw12]; cbits; try reflexivity.

Lemma read_fun_ok f cdb bs wr lun buffer al w pr : span_holds w cdb bs -> read_ok f bs buffer ->
  read_prinfo f bs = Some pr ->
  exists wr', read_fun f (subspan cdb 1) wr (nsid_of lun) kLbaSize buffer al w =
      Ret (kSuccess, wr', rw_blocks f bs * 4096) w /\
    view wr' = io (rw_blocks f bs * 4096)
      (rw_sqe 2 lun (ptr buffer) (rw_lba f bs) (rw_blocks f bs) (rw_fua f bs) pr).
Proof.
  intros Hc (Hl & Hn & _ & Hb) Hp. pose proof (rw_fua_lt f bs) as Hf.
  destruct f; cbn [read_fun rw_len rw_blocks rw_fua read_prinfo rw_lba] in *.
  - unfold Read6ToNvme, bind. rewrite (cdb_ReadValue Read6Command cdb w bs Hc) by (cbn; lia).
    change (sizeof Read6Command) with 5%nat. unfold ret, Read6_body. cdb_fields.
    rewrite le_slice_1 by lia. rewrite LegacyRead_eq by lia. rewrite lba6 by lia.
    eexists. split; [reflexivity|]. injection Hp as <-. unfold view, io, set_cmd. cbn [cmd buffer_len is_admin].
    f_equal. unfold htoll, htoll_h. rewrite sub32_1 by (change (2 ^ 32) with 4294967296; lia).
    assert (Hx : be (slice 1 3 bs) mod 2 ^ 21 < 2 ^ 32).
    { eapply N.lt_trans; [apply N.mod_lt; discriminate|reflexivity]. }
    unfold rw_sqe. wire_tac.
    + rewrite (N.mod_small _ (2 ^ 32)) by exact Hx. reflexivity.
    + rewrite N.div_small by exact Hx. reflexivity.
    + f_equal. lia.
  - unfold Read10ToNvme, bind. rewrite (cdb_ReadValue Read10Command cdb w bs Hc) by (cbn; lia).
    change (sizeof Read10Command) with 9%nat. unfold ret, Read10_body. cdb_fields.
    unfold ntohs, bswap_32. rewrite !bswap_le by (apply slice_length; lia).
    rewrite (Read_eq _ _ _ _ _ _ _ pr) by (auto; lia).
    eexists. split; [reflexivity|]. unfold view, io, set_cmd. cbn [cmd buffer_len is_admin].
    f_equal. assert (Hx : be (slice 2 4 bs) < 2 ^ 32) by (apply (be_slice_lt 2 4); lia).
    unfold rw_sqe. wire_tac.
    + rewrite (N.mod_small _ (2 ^ 32)) by exact Hx. reflexivity.
    + rewrite N.div_small by exact Hx. reflexivity.
  - unfold Read12ToNvme, bind. rewrite (cdb_ReadValue Read12Command cdb w bs Hc) by (cbn; lia).
    change (sizeof Read12Command) with 11%nat. unfold ret, Read12_body. cdb_fields.
    unfold ntohl, bswap_32. rewrite !bswap_le by (apply slice_length; lia).
    rewrite (Read_eq _ _ _ _ _ _ _ pr) by (auto; lia).
    eexists. split; [reflexivity|]. unfold view, io, set_cmd. cbn [cmd buffer_len is_admin].
    f_equal. assert (Hx : be (slice 2 4 bs) < 2 ^ 32) by (apply (be_slice_lt 2 4); lia).
    unfold rw_sqe. wire_tac.
    + rewrite (N.mod_small _ (2 ^ 32)) by exact Hx. reflexivity.
    + rewrite N.div_small by exact Hx. reflexivity.
  - unfold Read16ToNvme, bind. rewrite (cdb_ReadValue Read16Command cdb w bs Hc) by (cbn; lia).
    change (sizeof Read16Command) with 15%nat. unfold ret, Read16_body. cdb_fields.
    unfold ntohl, ntohll. rewrite !bswap_le by (apply slice_length; lia).
    rewrite htonll_be by (apply slice_length; lia).
    rewrite (Read_eq _ _ _ _ _ _ _ pr) by (auto; lia).
    eexists. split; [reflexivity|]. unfold view, io, set_cmd. cbn [cmd buffer_len is_admin].
    f_equal. assert (Hx : be (slice 2 8 bs) < 2 ^ 32 * 2 ^ 32) by (apply (be_slice_lt 2 8); lia).
    assert (Hd : be (slice 2 8 bs) / 2 ^ 32 < 2 ^ 32) by (apply N.div_lt_upper_bound; [discriminate|exact Hx]).
    unfold htoll, htoll_h. rewrite N.shiftr_div_pow2.
    unfold rw_sqe. wire_tac. unfold u32. rewrite (N.mod_small (_ / _)) by exact Hd. reflexivity.
Qed.

Lemma read_fun_fail f cdb bs wr lun buffer al w : span_holds w cdb bs -> ~ read_ok f bs buffer -> (0 < length bs)%nat ->
  exists st wr' al', read_fun f (subspan cdb 1) wr (nsid_of lun) kLbaSize buffer al w = Ret (st, wr', al') w /\
    st <> kSuccess.
Proof.
  intros Hc Hn Hz.
  assert (Sh : (length bs < rw_len f)%nat -> exists st wr' al',
     read_fun f (subspan cdb 1) wr (nsid_of lun) kLbaSize buffer al w = Ret (st, wr', al') w /\ st <> kSuccess).
  { intros Hl. destruct f; cbn [read_fun rw_len] in *; unfold Read6ToNvme, Read10ToNvme, Read12ToNvme, Read16ToNvme, bind;
      match goal with |- context [ReadValue ?L _] => rewrite (cdb_ReadValue_short L cdb w bs Hc) by (cbn; lia) end;
      do 3 eexists; (split; [reflexivity|discriminate]). }
  destruct (Nat.ltb_spec (length bs) (rw_len f)) as [Hl|Hl]; [exact (Sh Hl)|]. clear Sh.
  pose proof (rw_blocks_lt f bs Hl) as Hb32. unfold read_ok in Hn.
  destruct f; cbn [read_fun rw_len rw_blocks read_prinfo] in *.
  - unfold Read6ToNvme, bind. rewrite (cdb_ReadValue Read6Command cdb w bs Hc) by (cbn; lia).
    change (sizeof Read6Command) with 5%nat. unfold ret, Read6_body. cdb_fields.
    rewrite le_slice_1 by lia.
    pose proof (byte_at_lt bs 4) as B4.
    set (n := if byte_at bs 4 =? 0 then 256 else byte_at bs 4) in *.
    assert (Hnb : 1 <= n <= 256) by (unfold n; destruct (N.eqb_spec (byte_at bs 4) 0); lia).
    pose proof (LegacyRead_fail wr (nsid_of lun) n buffer) as F.
    destruct (LegacyRead wr (nsid_of lun) n kLbaSize buffer) as [[st wr1] al1]. cbn [fst] in F.
    assert (st <> kSuccess).
    { apply F; [|lia]. destruct (N.ltb_spec (len buffer) (n * 4096)); [assumption|]. exfalso. apply Hn.
      split; [exact Hl|]. split; [lia|]. split; [discriminate|assumption]. }
    destruct st; try contradiction; do 3 eexists; (split; [reflexivity|discriminate]).
  - unfold Read10ToNvme, bind. rewrite (cdb_ReadValue Read10Command cdb w bs Hc) by (cbn; lia).
    change (sizeof Read10Command) with 9%nat. unfold ret, Read10_body. cdb_fields.
    unfold ntohs. rewrite (bswap_le 2) by (apply slice_length; lia).
    pose proof (Read_fail (rw_protect bs) (bits (byte_at bs 1) 3 1)
      (be (slice 7 2 bs)) wr (nsid_of lun) buffer al Hb32) as F. fold (rw_protect bs).
    destruct (Read (rw_protect bs) (bits (byte_at bs 1) 3 1)
      (be (slice 7 2 bs)) wr (nsid_of lun) kLbaSize buffer al) as [[st wr1] al1]. cbn [fst] in F.
    assert (st <> kSuccess) by (apply F; tauto).
    destruct st; try contradiction; do 3 eexists; (split; [reflexivity|discriminate]).
  - unfold Read12ToNvme, bind. rewrite (cdb_ReadValue Read12Command cdb w bs Hc) by (cbn; lia).
    change (sizeof Read12Command) with 11%nat. unfold ret, Read12_body. cdb_fields.
    unfold ntohl. rewrite (bswap_le 4 (slice 6 4 bs)) by (apply slice_length; lia).
    pose proof (Read_fail (rw_protect bs) (bits (byte_at bs 1) 3 1)
      (be (slice 6 4 bs)) wr (nsid_of lun) buffer al Hb32) as F. fold (rw_protect bs).
    destruct (Read (rw_protect bs) (bits (byte_at bs 1) 3 1)
      (be (slice 6 4 bs)) wr (nsid_of lun) kLbaSize buffer al) as [[st wr1] al1]. cbn [fst] in F.
    assert (st <> kSuccess) by (apply F; tauto).
    destruct st; try contradiction; do 3 eexists; (split; [reflexivity|discriminate]).
  - unfold Read16ToNvme, bind. rewrite (cdb_ReadValue Read16Command cdb w bs Hc) by (cbn; lia).
    change (sizeof Read16Command) with 15%nat. unfold ret, Read16_body. cdb_fields.
    unfold ntohl. rewrite (bswap_le 4 (slice 10 4 bs)) by (apply slice_length; lia).
    pose proof (Read_fail (rw_protect bs) (bits (byte_at bs 1) 3 1)
      (be (slice 10 4 bs)) wr (nsid_of lun) buffer al Hb32) as F. fold (rw_protect bs).
    destruct (Read (rw_protect bs) (bits (byte_at bs 1) 3 1)
      (be (slice 10 4 bs)) wr (nsid_of lun) kLbaSize buffer al) as [[st wr1] al1]. cbn [fst] in F.
    assert (st <> kSuccess) by (apply F; tauto).
    destruct st; try contradiction; do 3 eexists; (split; [reflexivity|discriminate]).
Qed.

Lemma exposes_one t wr st : exposes (set_count (set_status (set_wr0 t wr) st) 1) = [view wr].
Proof. reflexivity. Qed.

Lemma cdb_nonempty bs opc : byte_at bs 0 = opc -> opc <> 0 -> bs <> [].
Proof. intros H Hn ->. apply Hn. symmetry. exact H. Qed.
Lemma nonempty_len {A} (bs : list A) : bs <> [] -> (0 < length bs)%nat.
Proof. destruct bs; [contradiction|cbn; lia]. Qed.

Lemma Begin_read_ok f t cdb buffer lun w bs pr : idle t -> span_holds w cdb bs -> byte_at bs 0 = read_opcode f ->
  read_ok f bs buffer -> read_prinfo f bs = Some pr ->
  exists t', Begin t cdb buffer lun w = Ret (t', begin_ok (rw_blocks f bs * 4096)) w /\ accepted t' /\
    exposes t' = [io (rw_blocks f bs * 4096)
                    (rw_sqe 2 lun (ptr buffer) (rw_lba f bs) (rw_blocks f bs) (rw_fua f bs) pr)] /\
    held t' = [].
Proof.
  intros Hi Hc Ho Hr Hp.
  destruct (read_fun_ok f cdb bs (e0 (nvme_wrappers (started t cdb))) lun buffer 0 w pr Hc Hr Hp) as (wr' & E & V).
  eexists. split; [|split; [|split]].
  - eapply Begin_accepts; try eassumption.
    + eapply cdb_nonempty; [exact Ho|destruct f; discriminate].
    + rewrite read_switch. unfold Begin_Read, bind. rewrite E. reflexivity.
    + reflexivity.
  - reflexivity.
  - rewrite exposes_one, V. reflexivity.
  - destruct Hi as (_ & _ & Hh). exact Hh.
Qed.

Lemma Begin_read_fail f t cdb buffer lun w bs : idle t -> span_holds w cdb bs -> byte_at bs 0 = read_opcode f ->
  ~ read_ok f bs buffer -> refuses t cdb buffer lun w.
Proof.
  intros Hi Hc Ho Hr.
  assert (Hne : bs <> []) by (eapply cdb_nonempty; [exact Ho|destruct f; discriminate]).
  destruct (read_fun_fail f cdb bs (e0 (nvme_wrappers (started t cdb))) lun buffer 0 w Hc Hr (nonempty_len _ Hne))
    as (st & wr' & al' & E & Hs).
  eapply Begin_refuses; try eassumption.
  - rewrite read_switch. unfold Begin_Read, bind. rewrite E. reflexivity.
  - exact Hs.
Qed.

(** ** WRITE *)
(** the block count a WRITE is really translated with: only the low 16 bits of
    the transfer length are used *)
Definition write_ok (f : rw_form) (bs : list byte) : Prop :=
  (rw_len f <= length bs)%nat /\ 1 <= rw_blocks f bs /\ write_prinfo f bs <> None.


Definition write_dw12 (n pr fua : N) : N :=
  N.lor (N.lor (u32 (N.shiftl fua 30)) (u32 (N.shiftl pr 26))) (sub32 (n mod 2 ^ 16) 1).
Lemma write_dw12_small n pr fua : 1 <= n mod 2 ^ 16 -> pr < 16 -> fua < 2 ->
  write_dw12 n pr fua = (n mod 2 ^ 16 - 1) + pr * 2 ^ 26 + fua * 2 ^ 30.
Proof.
  intros H1 H2 H3. unfold write_dw12. apply dw12_sum; auto.
  pose proof (N.mod_lt n (2 ^ 16) ltac:(discriminate)) as B. change (2 ^ 16) with 65536 in *. lia.
Qed.

Lemma Write_eq prot fua n wr nsid buffer pr : n <> 0 -> prinfo 8 prot = Some pr ->
  Write fua prot n wr nsid buffer =
  (kSuccess, {| cmd := set GenericCmd "cdw12" (write_dw12 n pr fua)
                  (set GenericCmd "prp1" (ptr buffer) (mk GenericCmd [("opc", kNvmWrite); ("psdt", 0); ("nsid", nsid)]));
                buffer_len := u32 (len buffer); is_admin := false |}).
Proof.
  intros Hn Hp. unfold Write. replace (n =? 0) with false by lia. cbv zeta. rewrite write_prinfo_eq, Hp.
  change 0xffff with (N.ones 16). rewrite N.land_ones. rewrite u16_small by (apply N.mod_lt; discriminate).
  reflexivity.
Qed.
Lemma Write_fail prot fua n wr nsid buffer : ~ (1 <= n /\ prinfo 8 prot <> None) ->
  fst (Write fua prot n wr nsid buffer) <> kSuccess.
Proof.
  intros H. unfold Write. destruct (N.eqb_spec n 0); [discriminate|]. cbv zeta. rewrite write_prinfo_eq.
  destruct (prinfo 8 prot) eqn:E; [|discriminate]. exfalso. apply H. split; [lia|discriminate].
Qed.

Definition write_fun (f : rw_form) :=
  match f with RW6 => Write6ToNvme | RW10 => Write10ToNvme | RW12 => Write12ToNvme | RW16 => Write16ToNvme end.
Lemma write_switch f c buffer nsid t rl :
  Begin_switch (write_opcode f) c buffer nsid t rl = Begin_Write (write_fun f) c buffer nsid t rl.
Proof. destruct f; reflexivity. Qed.

(** dword 12 as the code computes it *)
Definition write_d12 (f : rw_form) (bs : list byte) (pr : N) : N :=
  match f with RW6 => rw_blocks RW6 bs - 1 | _ => write_dw12 (rw_blocks f bs) pr (rw_fua f bs) end.

Lemma write_fun_ok f cdb bs wr lun buffer w pr : span_holds w cdb bs -> write_ok f bs ->
  write_prinfo f bs = Some pr ->
  exists wr', write_fun f (subspan cdb 1) wr (nsid_of lun) buffer w = Ret (kSuccess, wr') w /\
    view wr' = io (u32 (len buffer))
      {| q_opc := 1; q_nsid := nsid_of lun; q_prp1 := ptr buffer; q_cdw10 := rw_lba f bs mod 2 ^ 32;
         q_cdw11 := rw_lba f bs / 2 ^ 32; q_cdw12 := write_d12 f bs pr |}.
Proof.
  intros Hc (Hl & Hn & _) Hp.
  destruct f; cbn [write_fun rw_len rw_fua write_prinfo rw_lba write_d12] in *.
  - cbn [rw_blocks] in *.
    unfold Write6ToNvme, bind. rewrite (cdb_ReadValue Write6Command cdb w bs Hc) by (cbn; lia).
    change (sizeof Write6Command) with 5%nat. unfold ret, Write6_body. cdb_fields.
    rewrite le_slice_1 by lia. rewrite lba6 by lia.
    eexists. split; [reflexivity|]. unfold view, io, set_cmd, LegacyWrite. cbn [cmd buffer_len is_admin set_is_admin set_buffer_len set_cmd].
    f_equal. unfold htoll, htoll_h.
    pose proof (byte_at_lt bs 4) as B4.
    rewrite sub32_1 by (change (2 ^ 32) with 4294967296; destruct (N.eqb_spec (byte_at bs 4) 0); lia).
    assert (Hx : be (slice 1 3 bs) mod 2 ^ 21 < 2 ^ 32).
    { eapply N.lt_trans; [apply N.mod_lt; discriminate|reflexivity]. }
    wire_tac.
    + rewrite (N.mod_small _ (2 ^ 32)) by exact Hx. reflexivity.
    + rewrite N.div_small by exact Hx. reflexivity.
  - cbn [rw_blocks] in *. unfold Write10ToNvme, bind. rewrite (cdb_ReadValue Write10Command cdb w bs Hc) by (cbn; lia).
    change (sizeof Write10Command) with 9%nat. unfold ret, Write10_body. cdb_fields.
    unfold ntohs, bswap_32. rewrite !bswap_le by (apply slice_length; lia).
    rewrite (Write_eq _ _ _ _ _ _ pr) by (auto; lia).
    eexists. split; [reflexivity|]. unfold view, io, set_cmd. cbn [cmd buffer_len is_admin].
    f_equal. assert (Hx : be (slice 2 4 bs) < 2 ^ 32) by (apply (be_slice_lt 2 4); lia).
    wire_tac.
    + rewrite (N.mod_small _ (2 ^ 32)) by exact Hx. reflexivity.
    + rewrite N.div_small by exact Hx. reflexivity.
  - cbn [rw_blocks] in *. unfold Write12ToNvme, bind. rewrite (cdb_ReadValue Write12Command cdb w bs Hc) by (cbn; lia).
    change (sizeof Write12Command) with 11%nat. unfold ret, Write12_body. cdb_fields.
    unfold ntohl, bswap_32. rewrite !bswap_le by (apply slice_length; lia).
    rewrite (Write_eq _ _ _ _ _ _ pr) by (auto; lia).
    eexists. split; [reflexivity|]. unfold view, io, set_cmd. cbn [cmd buffer_len is_admin].
    f_equal. assert (Hx : be (slice 2 4 bs) < 2 ^ 32) by (apply (be_slice_lt 2 4); lia).
    wire_tac.
    + rewrite (N.mod_small _ (2 ^ 32)) by exact Hx. reflexivity.
    + rewrite N.div_small by exact Hx. reflexivity.
  - cbn [rw_blocks] in *. unfold Write16ToNvme, bind. rewrite (cdb_ReadValue Write16Command cdb w bs Hc) by (cbn; lia).
    change (sizeof Write16Command) with 15%nat. unfold ret, Write16_body. cdb_fields.
    unfold ntohl, ntohll. rewrite !bswap_le by (apply slice_length; lia).
    rewrite htonll_be by (apply slice_length; lia).
    rewrite (Write_eq _ _ _ _ _ _ pr) by (auto; lia).
    eexists. split; [reflexivity|]. unfold view, io, set_cmd. cbn [cmd buffer_len is_admin].
    f_equal. assert (Hx : be (slice 2 8 bs) < 2 ^ 32 * 2 ^ 32) by (apply (be_slice_lt 2 8); lia).
    assert (Hd : be (slice 2 8 bs) / 2 ^ 32 < 2 ^ 32) by (apply N.div_lt_upper_bound; [discriminate|exact Hx]).
    unfold htoll, htoll_h. rewrite N.shiftr_div_pow2.
    wire_tac. unfold u32. rewrite (N.mod_small (_ / _)) by exact Hd. reflexivity.
Qed.

Lemma write_fun_fail f cdb bs wr lun buffer w : span_holds w cdb bs -> ~ write_ok f bs -> (0 < length bs)%nat ->
  exists st wr', write_fun f (subspan cdb 1) wr (nsid_of lun) buffer w = Ret (st, wr') w /\ st <> kSuccess.
Proof.
  intros Hc Hn Hz.
  destruct (Nat.ltb_spec (length bs) (rw_len f)) as [Hl|Hl].
  { destruct f; cbn [write_fun rw_len] in *; unfold Write6ToNvme, Write10ToNvme, Write12ToNvme, Write16ToNvme, bind;
      match goal with |- context [ReadValue ?L _] => rewrite (cdb_ReadValue_short L cdb w bs Hc) by (cbn; lia) end;
      do 2 eexists; (split; [reflexivity|discriminate]). }
  unfold write_ok in Hn.
  destruct f; cbn [write_fun rw_len rw_blocks write_prinfo] in *.
  - exfalso. apply Hn. split; [exact Hl|]. split; [|discriminate].
    destruct (N.eqb_spec (byte_at bs 4) 0); lia.
  - unfold Write10ToNvme, bind. rewrite (cdb_ReadValue Write10Command cdb w bs Hc) by (cbn; lia).
    change (sizeof Write10Command) with 9%nat. unfold ret, Write10_body. cdb_fields.
    unfold ntohs. rewrite (bswap_le 2) by (apply slice_length; lia). fold (rw_protect bs).
    pose proof (Write_fail (rw_protect bs) (bits (byte_at bs 1) 3 1) (be (slice 7 2 bs)) wr (nsid_of lun) buffer) as F.
    destruct (Write (bits (byte_at bs 1) 3 1) (rw_protect bs) (be (slice 7 2 bs)) wr (nsid_of lun) buffer) as [st wr1].
    cbn [fst] in F. assert (st <> kSuccess) by (apply F; tauto).
    destruct st; try contradiction; do 2 eexists; (split; [reflexivity|discriminate]).
  - unfold Write12ToNvme, bind. rewrite (cdb_ReadValue Write12Command cdb w bs Hc) by (cbn; lia).
    change (sizeof Write12Command) with 11%nat. unfold ret, Write12_body. cdb_fields.
    unfold ntohl. rewrite (bswap_le 4 (slice 6 4 bs)) by (apply slice_length; lia). fold (rw_protect bs).
    pose proof (Write_fail (rw_protect bs) (bits (byte_at bs 1) 3 1) (be (slice 6 4 bs)) wr (nsid_of lun) buffer) as F.
    destruct (Write (bits (byte_at bs 1) 3 1) (rw_protect bs) (be (slice 6 4 bs)) wr (nsid_of lun) buffer) as [st wr1].
    cbn [fst] in F. assert (st <> kSuccess) by (apply F; tauto).
    destruct st; try contradiction; do 2 eexists; (split; [reflexivity|discriminate]).
  - unfold Write16ToNvme, bind. rewrite (cdb_ReadValue Write16Command cdb w bs Hc) by (cbn; lia).
    change (sizeof Write16Command) with 15%nat. unfold ret, Write16_body. cdb_fields.
    unfold ntohl. rewrite (bswap_le 4 (slice 10 4 bs)) by (apply slice_length; lia). fold (rw_protect bs).
    pose proof (Write_fail (rw_protect bs) (bits (byte_at bs 1) 3 1) (be (slice 10 4 bs)) wr (nsid_of lun) buffer) as F.
    destruct (Write (bits (byte_at bs 1) 3 1) (rw_protect bs) (be (slice 10 4 bs)) wr (nsid_of lun) buffer) as [st wr1].
    cbn [fst] in F. assert (st <> kSuccess) by (apply F; tauto).
    destruct st; try contradiction; do 2 eexists; (split; [reflexivity|discriminate]).
Qed.

Lemma Begin_write_ok f t cdb buffer lun w bs pr : idle t -> span_holds w cdb bs -> byte_at bs 0 = write_opcode f ->
  write_ok f bs -> write_prinfo f bs = Some pr ->
  exists t', Begin t cdb buffer lun w = Ret (t', begin_ok 0) w /\ accepted t' /\
    exposes t' = [io (u32 (len buffer))
      {| q_opc := 1; q_nsid := nsid_of lun; q_prp1 := ptr buffer; q_cdw10 := rw_lba f bs mod 2 ^ 32;
         q_cdw11 := rw_lba f bs / 2 ^ 32; q_cdw12 := write_d12 f bs pr |}] /\ held t' = [].
Proof.
  intros Hi Hc Ho Hr Hp.
  destruct (write_fun_ok f cdb bs (e0 (nvme_wrappers (started t cdb))) lun buffer w pr Hc Hr Hp) as (wr' & E & V).
  eexists. split; [|split; [|split]].
  - eapply Begin_accepts; try eassumption.
    + eapply cdb_nonempty; [exact Ho|destruct f; discriminate].
    + rewrite write_switch. unfold Begin_Write, bind. rewrite E. reflexivity.
    + reflexivity.
  - reflexivity.
  - rewrite exposes_one, V. reflexivity.
  - destruct Hi as (_ & _ & Hh). exact Hh.
Qed.
Lemma Begin_write_fail f t cdb buffer lun w bs : idle t -> span_holds w cdb bs -> byte_at bs 0 = write_opcode f ->
  ~ write_ok f bs -> refuses t cdb buffer lun w.
Proof.
  intros Hi Hc Ho Hr.
  assert (Hne : bs <> []) by (eapply cdb_nonempty; [exact Ho|destruct f; discriminate]).
  destruct (write_fun_fail f cdb bs (e0 (nvme_wrappers (started t cdb))) lun buffer w Hc Hr (nonempty_len _ Hne))
    as (st & wr' & E & Hs).
  eapply Begin_refuses; try eassumption.
  - rewrite write_switch. unfold Begin_Write, bind. rewrite E. reflexivity.
  - exact Hs.
Qed.

(** ** VERIFY(10), SYNCHRONIZE CACHE(10), TEST UNIT READY *)
Lemma verify_prinfo_eq b p : BuildPrInfoV b p = 8 + verify_prchk b p.
Proof.
  unfold BuildPrInfoV, verify_prchk.
  destruct b as [|b]; [|destruct b as [b|b|]]; try reflexivity;
  (destruct p as [|p]; [reflexivity|]); do 3 (try (destruct p as [p|p|]; try reflexivity)).
Qed.
Lemma verify_prchk_lt b p : verify_prchk b p < 8.
Proof.
  unfold verify_prchk. destruct b as [|[b|b|]]; try lia;
  (destruct p as [|p]; [lia|]); do 3 (try (destruct p as [p|p|]; try lia)).
Qed.

Lemma be_zero l : be l = 0 -> le l = 0.
Proof.
  intros H. assert (E : l = repeat x00 (length l)).
  { rewrite <- (rev_involutive l) at 1. rewrite <- (le_encode_le' (length l) (rev l)) by apply rev_length.
    unfold be in H. rewrite H, le_encode_0. apply nth_ext with (d := x00) (d' := x00).
    - rewrite rev_length, !repeat_length. reflexivity.
    - intros n Hn. rewrite rev_length, repeat_length in Hn. rewrite rev_nth by (rewrite repeat_length; exact Hn).
      rewrite !nth_repeat. reflexivity. }
  rewrite E, <- le_encode_0, le_le_encode. apply N.mod_0_l. apply N.pow_nonzero. lia.
Qed.
Lemma le_zero l : le l = 0 -> be l = 0.
Proof. intros H. rewrite <- (rev_involutive l) in H. apply be_zero in H. exact H. Qed.
Lemma le_zero_eqb l : (le l =? 0) = (be l =? 0).
Proof.
  destruct (N.eqb_spec (le l) 0) as [H|H], (N.eqb_spec (be l) 0) as [H'|H']; auto; exfalso;
    auto using be_zero, le_zero.
Qed.

Lemma verify_dw12 n pr : 1 <= n < 65536 -> pr < 16 ->
  N.lor (sub32 n 1) (u32 (N.shiftl pr 26)) = (n - 1) + pr * 2 ^ 26.
Proof.
  intros Hn Hp. rewrite sub32_1 by (change (2 ^ 32) with 4294967296; lia). rewrite N.shiftl_mul_pow2.
  assert (P26 : 2 ^ 26 = 67108864) by reflexivity.
  unfold u32. rewrite (N.mod_small (pr * 2 ^ 26)) by lia. rewrite N.lor_comm, lor_shift by lia. lia.
Qed.

Lemma bits1 x o : bits x o 1 = 0 \/ bits x o 1 = 1.
Proof. pose proof (bits_lt x o 1) as H. change (2 ^ 1) with 2 in H. lia. Qed.

Lemma Begin_verify_ok t cdb buffer lun w bs : idle t -> span_holds w cdb bs -> byte_at bs 0 = 0x2f -> verify_ok bs ->
  exists t', Begin t cdb buffer lun w = Ret (t', begin_ok 0) w /\ accepted t' /\
    exposes t' = [io (buffer_len (e0 (nvme_wrappers t))) (verify_sqe 0 0 bs)] /\ held t' = [].
Proof.
  intros Hi Hc Ho (Hl & Hn & Hz). eexists. split; [|split; [|split]].
  - eapply Begin_accepts; try eassumption; [eapply cdb_nonempty; [exact Ho|discriminate]| |].
    + change (Begin_switch 0x2f) with (fun c (buffer : span) (nsid : N) => Begin_Verify10 c). cbv beta.
      unfold Begin_Verify10, VerifyToNvme, bind.
      rewrite (cdb_ReadValue Verify10Command cdb w bs Hc) by (cbn; lia).
      change (sizeof Verify10Command) with 9%nat. unfold ret, Verify_body. cdb_fields.
      rewrite le_zero_eqb. fold (verify_blocks bs). replace (verify_blocks bs =? 0) with false by lia.
      rewrite Hz. cbn [N.eqb]. unfold ntohs, bswap_32. rewrite !bswap_le by (apply slice_length; lia).
      rewrite verify_prinfo_eq. fold (verify_blocks bs).
      rewrite verify_dw12.
      * reflexivity.
      * pose proof (be_slice_lt 7 2 bs ltac:(lia)) as B. change (2 ^ (8 * N.of_nat 2)) with 65536 in B.
        unfold verify_blocks in *. lia.
      * pose proof (verify_prchk_lt (bits (byte_at bs 1) 1 2) (bits (byte_at bs 1) 5 3)). lia.
    + reflexivity.
  - reflexivity.
  - rewrite exposes_one. unfold view, io. cbn [cmd buffer_len is_admin set_is_admin set_cmd].
    f_equal. f_equal. unfold verify_sqe. wire_tac.
  - destruct Hi as (_ & _ & Hh). exact Hh.
Qed.
Lemma Begin_verify_fail t cdb buffer lun w bs : idle t -> span_holds w cdb bs -> byte_at bs 0 = 0x2f -> ~ verify_ok bs ->
  refuses t cdb buffer lun w.
Proof.
  intros Hi Hc Ho Hr.
  assert (Hne : bs <> []) by (eapply cdb_nonempty; [exact Ho|discriminate]). pose proof (nonempty_len _ Hne) as Hz.
  assert (exists st wr', VerifyToNvme (subspan cdb 1) (e0 (nvme_wrappers (started t cdb))) w = Ret (st, wr') w /\ st <> kSuccess)
    as (st & wr' & E & Hs).
  { unfold VerifyToNvme, bind. destruct (Nat.ltb_spec (length bs) 10) as [Hl|Hl].
    - rewrite (cdb_ReadValue_short Verify10Command cdb w bs Hc) by (cbn; lia).
      do 2 eexists. split; [reflexivity|discriminate].
    - rewrite (cdb_ReadValue Verify10Command cdb w bs Hc) by (cbn; lia).
      change (sizeof Verify10Command) with 9%nat. unfold ret, Verify_body. cdb_fields.
      rewrite le_zero_eqb. fold (verify_blocks bs).
      destruct (N.eqb_spec (verify_blocks bs) 0) as [E0|E0]; [do 2 eexists; split; [reflexivity|discriminate]|].
      destruct (bits1 (byte_at bs 9) 2) as [E1|E1]; rewrite E1; cbn [N.eqb Pos.eqb].
      + exfalso. apply Hr. split; auto.
      + do 2 eexists; split; [reflexivity|discriminate]. }
  eapply Begin_refuses; try eassumption.
  - change (Begin_switch 0x2f) with (fun c (buffer : span) (nsid : N) => Begin_Verify10 c). cbv beta.
    unfold Begin_Verify10, bind. rewrite E. reflexivity.
  - exact Hs.
Qed.

Lemma Begin_sync_ok t cdb buffer lun w bs : idle t -> span_holds w cdb bs -> byte_at bs 0 = 0x35 ->
  exists t', Begin t cdb buffer lun w = Ret (t', begin_ok 0) w /\ accepted t' /\
    exposes t' = [io (buffer_len (e0 (nvme_wrappers t))) (flush_sqe lun)] /\ held t' = [].
Proof.
  intros Hi Hc Ho. eexists. split; [|split; [|split]].
  - eapply Begin_accepts; try eassumption; [eapply cdb_nonempty; [exact Ho|discriminate]| |].
    + change (Begin_switch 0x35) with (fun (c : span) (buffer : span) => Begin_Sync10). cbv beta.
      unfold Begin_Sync10. reflexivity.
    + reflexivity.
  - reflexivity.
  - rewrite exposes_one. unfold view, io. cbn [cmd buffer_len is_admin set_is_admin set_cmd SynchronizeCache10ToNvme].
    f_equal. f_equal. unfold flush_sqe. wire_tac.
  - destruct Hi as (_ & _ & Hh). exact Hh.
Qed.

Lemma Begin_tur_ok t cdb buffer lun w bs : idle t -> span_holds w cdb bs -> bs <> [] -> byte_at bs 0 = 0 ->
  exists t', Begin t cdb buffer lun w = Ret (t', begin_ok 0) w /\ accepted t' /\ exposes t' = [] /\ held t' = [] /\
    scsi_cmd_ t' = cdb.
Proof.
  intros Hi Hc Hb Ho. exists (started t cdb). pose proof Hi as (_ & Hn & Hh). split; [|split; [|split; [|split]]].
  - eapply Begin_accepts; try eassumption; reflexivity.
  - reflexivity.
  - unfold exposes, GetNvmeWrappers. cbn [nvme_cmd_count started set_scsi_cmd set_status]. rewrite Hn. reflexivity.
  - exact Hh.
  - reflexivity.
Qed.

(** ** Complete when every NVMe command succeeded *)
Lemma Complete_good t cpls buffer sense w bs opc st w1 : wf t -> accepted t ->
  N.of_nat (length cpls) = nvme_cmd_count t -> Forall cpl_ok cpls ->
  span_holds w (scsi_cmd_ t) bs -> bs <> [] -> byte_at bs 0 = opc ->
  Complete_switch opc (subspan (scsi_cmd_ t) 1) buffer cpls t w = Ret st w1 ->
  exists t' w', Complete t cpls buffer sense w = Ret (t', api_ok GOOD) w' /\ idle t' /\ released w1 w' (held t).
Proof.
  intros W Ha Hn Hk Hc Hb Ho E. unfold Complete. rewrite Ha. cbn [is_uninitialized is_success negb].
  rewrite Hn, N.eqb_refl. cbn [negb]. rewrite StatusFacts.first_error_ok by exact Hk. cbv zeta.
  unfold bind at 1. change 0 with (N.of_nat 0) at 1. rewrite (span_at_ok w _ bs 0 Hc (nonempty_len _ Hb)), Ho.
  unfold bind at 1. rewrite E. unfold bind.
  pose proof (AbortPipeline_spec (set_status t st) w1 W) as A. apply tst_inv in A as (t' & w2 & -> & Hi & R).
  exists t', w2. split; [reflexivity|]. split; [exact Hi|exact R].
Qed.
