(** The Unit Serial Number page. *)
From Coq Require Import Arith NArith String List Lia Bool Init.Byte Permutation.
From Coq Require Import ZifyBool ZifyNat ZifyN.
From Verif Require Import Bytes Layout World ScsiDefs NvmeDefs Common SmallCmds ModeSenseCmd InquiryCmd TranslationCls
  Spec Facts Logic WireFacts RwSpec RwFacts InquirySpec AdminFacts InquiryFacts.
Import ListNotations.
Local Open Scope string_scope.
Local Open Scope list_scope.
Local Open Scope N_scope.

(** ** Hexadecimal digits *)
Lemma hexdigits_S n x : hexdigits (S n) x = hexchar (x / 16 ^ N.of_nat n mod 16) :: hexdigits n x.
Proof. unfold hexdigits. rewrite seq_S, rev_app_distr. reflexivity. Qed.
Lemma hexdigits_length n x : length (hexdigits n x) = n.
Proof. unfold hexdigits. rewrite map_length, rev_length, seq_length. reflexivity. Qed.

Lemma hex_fixed_eq n x : hex_fixed n x = hexdigits n x.
Proof.
  unfold hex_fixed, hexdigits. apply map_ext. intros i. unfold hexdig, hexchar.
  change 15 with (N.ones 4). rewrite N.land_ones, N.shiftr_div_pow2.
  replace (2 ^ (4 * N.of_nat i)) with (16 ^ N.of_nat i) by (rewrite N.pow_mul_r; reflexivity). reflexivity.
Qed.

Definition unhex (b : byte) : N := let c := b2n b in if c <? 58 then c - 48 else c - 87.
Lemma hexchar_b2n d : d < 16 -> b2n (hexchar d) = if d <? 10 then 48 + d else 87 + d.
Proof. intros H. unfold hexchar. apply b2n_n2b_small. destruct (N.ltb_spec d 10); lia. Qed.
Lemma unhex_hexchar d : d < 16 -> unhex (hexchar d) = d.
Proof. intros H. unfold unhex. rewrite hexchar_b2n by exact H. cbv zeta.
  destruct (N.ltb_spec d 10); [replace (48 + d <? 58) with true by lia|replace (87 + d <? 58) with false by lia]; lia. Qed.

Fixpoint unhexs (l : list byte) : N :=
  match l with [] => 0 | b :: l' => unhex b * 16 ^ N.of_nat (length l') + unhexs l' end.
Lemma unhexs_hexdigits n x : x < 16 ^ N.of_nat n -> unhexs (hexdigits n x) = x.
Proof.
  revert x. induction n as [|n IH]; intros x H.
  - cbn in *. lia.
  - rewrite hexdigits_S. cbn [unhexs]. rewrite hexdigits_length.
    rewrite unhex_hexchar by (apply N.mod_lt; discriminate).
    assert (Hd : x / 16 ^ N.of_nat n < 16).
    { apply N.div_lt_upper_bound; [apply N.pow_nonzero; discriminate|].
      rewrite Nat2N.inj_succ, N.pow_succ_r' in H. lia. }
    rewrite N.mod_small by exact Hd.
    assert (E : hexdigits n x = hexdigits n (x mod 16 ^ N.of_nat n)).
    { unfold hexdigits. apply map_ext_in. intros i Hi. apply in_rev, in_seq in Hi. f_equal.
      replace (N.of_nat n) with (N.of_nat i + N.of_nat (n - i)) by lia.
      rewrite N.pow_add_r. rewrite N.mod_mul_r by (apply N.pow_nonzero; discriminate).
      rewrite (N.mul_comm (16 ^ N.of_nat i)), N.div_add by (apply N.pow_nonzero; discriminate).
      rewrite (N.div_small (x mod _)) by (apply N.mod_lt, N.pow_nonzero; discriminate).
      rewrite N.add_0_l. replace (N.of_nat (n - i)) with (1 + N.of_nat (n - i - 1)) by lia.
      rewrite N.pow_add_r, N.pow_1_r. rewrite N.mod_mul_r by (try apply N.pow_nonzero; discriminate).
      rewrite (N.mul_comm 16), N.mod_add by discriminate. rewrite N.mod_mod by discriminate. reflexivity. }
    rewrite E, IH by (apply N.mod_lt, N.pow_nonzero; discriminate).
    rewrite N.mul_comm, <- N.div_mod' . reflexivity.
Qed.

Lemma significant_ex x : x < 2 ^ 64 -> exists d, significant d x.
Proof.
  intros H. change (2 ^ 64) with (16 ^ 16) in H.
  assert (K : forall k, (k <= 8)%nat -> x < 16 ^ N.of_nat (8 + k) -> exists d, significant d x).
  { induction k as [|k IH]; intros Hk Hx.
    - exists 8%nat. left. auto.
    - destruct (N.lt_ge_cases x (16 ^ N.of_nat (8 + k))) as [L|L]; [apply IH; [lia|exact L]|].
      exists (8 + S k)%nat. right. split; [lia|]. replace (8 + S k - 1)%nat with (8 + k)%nat by lia. auto. }
  apply (K 8%nat); [lia|exact H].
Qed.
Lemma significant_le d x : significant d x -> (8 <= d <= 16)%nat /\ x < 16 ^ N.of_nat d.
Proof. intros [[-> H]|[H1 H2]]; split; [lia|exact H|lia|lia]. Qed.

Lemma strip0_eq x : forall k d, significant d x -> (d <= 8 + k)%nat -> strip0 k (hexdigits (8 + k) x) = hexdigits d x.
Proof.
  induction k as [|k IH]; intros d Hd Hk.
  - destruct (significant_le _ _ Hd) as [H _]. replace d with 8%nat by lia. reflexivity.
  - rewrite Nat.add_succ_r, hexdigits_S. cbn [strip0].
    rewrite hexchar_b2n by (apply N.mod_lt; discriminate).
    assert (P : 16 ^ N.of_nat (8 + k) <> 0) by (apply N.pow_nonzero; discriminate).
    destruct (Nat.eq_dec d (8 + S k)) as [->|Hne].
    + destruct Hd as [[Hd _]|[_ [Hd1 Hd2]]]; [lia|].
      replace (8 + S k - 1)%nat with (8 + k)%nat in Hd1 by lia.
      assert (Hq : 1 <= x / 16 ^ N.of_nat (8 + k)) by (apply N.div_le_lower_bound; [exact P|lia]).
      assert (Hq2 : x / 16 ^ N.of_nat (8 + k) < 16).
      { apply N.div_lt_upper_bound; [exact P|]. replace (8 + S k)%nat with (S (8 + k)) in Hd2 by lia.
        rewrite Nat2N.inj_succ, N.pow_succ_r' in Hd2. lia. }
      rewrite N.mod_small by exact Hq2.
      replace ((if x / 16 ^ N.of_nat (8 + k) <? 10 then 48 + x / 16 ^ N.of_nat (8 + k)
                else 87 + x / 16 ^ N.of_nat (8 + k)) =? 48) with false.
      * rewrite Nat.add_succ_r, hexdigits_S, N.mod_small by exact Hq2. reflexivity.
      * symmetry. apply N.eqb_neq. destruct (N.ltb_spec (x / 16 ^ N.of_nat (8 + k)) 10); lia.
    + destruct (significant_le _ _ Hd) as [_ Hx].
      assert (Hx2 : x < 16 ^ N.of_nat (8 + k)).
      { eapply N.lt_le_trans; [exact Hx|]. apply N.pow_le_mono_r; [discriminate|lia]. }
      rewrite N.div_small by exact Hx2. change ((if 0 mod 16 <? 10 then 48 + 0 mod 16 else 87 + 0 mod 16) =? 48) with true.
      cbv iota. apply IH; [exact Hd|lia].
Qed.

Lemma fmt_eq d x : significant d x -> fmt_08lx x = hexdigits d x.
Proof.
  intros H. unfold fmt_08lx. rewrite hex_fixed_eq. apply (strip0_eq x 8 d H).
  destruct (significant_le _ _ H). lia.
Qed.

(** ** Up to the first NUL *)
Fixpoint until0 (l : list byte) : list byte :=
  match l with [] => [] | b :: l' => if b2n b =? 0 then [] else b :: until0 l' end.
Lemma hexchar_nz d : d < 16 -> (b2n (hexchar d) =? 0) = false.
Proof. intros H. rewrite hexchar_b2n by exact H. destruct (N.ltb_spec d 10); lia. Qed.
Lemma until0_hex n x rest : until0 (hexdigits n x ++ rest) = hexdigits n x ++ until0 rest.
Proof.
  induction n as [|n IH]; [reflexivity|]. rewrite hexdigits_S. cbn [app until0].
  rewrite hexchar_nz by (apply N.mod_lt; discriminate). rewrite IH. reflexivity.
Qed.

Lemma half_length d x j : (d <= 16)%nat -> (16 <= d + 1 + length j)%nat -> length (half d x j) = 16%nat.
Proof. intros H1 H2. unfold half. rewrite firstn_length, app_length, hexdigits_length. cbn [length]. lia. Qed.
Lemma half_16 x j : half 16 x j = hexdigits 16 x.
Proof.
  unfold half. rewrite firstn_app, hexdigits_length, Nat.sub_diag, firstn_O, app_nil_r.
  apply firstn_all2. rewrite hexdigits_length. lia.
Qed.
Lemma half_inj d x j d' x' j' : significant d x -> significant d' x' -> half d x j = half d' x' j' -> x = x'.
Proof.
  intros H H' E. destruct (significant_le _ _ H) as [B L]. destruct (significant_le _ _ H') as [B' L'].
  assert (K : forall d x j, (d <= 16)%nat -> until0 (half d x j) = hexdigits d x).
  { clear. intros d x j Hd. unfold half. rewrite firstn_app, hexdigits_length.
    rewrite firstn_all2 by (rewrite hexdigits_length; exact Hd).
    rewrite until0_hex. destruct (16 - d)%nat as [|k]; cbn [firstn until0]; [apply app_nil_r|].
    change (b2n x00 =? 0) with true. cbv iota. apply app_nil_r. }
  apply (f_equal until0) in E. rewrite !K in E by lia. apply (f_equal unhexs) in E.
  rewrite !unhexs_hexdigits in E by assumption. exact E.
Qed.

(** ** Grouping *)
Lemma grouped_inj k : forall l l', length l = (4 * k)%nat -> length l' = (4 * k)%nat -> grouped k l = grouped k l' -> l = l'.
Proof.
  induction k as [|k IH]; intros l l' H H' E.
  - destruct l; [|discriminate]. destruct l'; [reflexivity|discriminate].
  - assert (F : length (firstn 4 l) = length (firstn 4 l')) by (rewrite !firstn_length; lia).
    destruct k as [|k].
    + cbn [grouped] in E. apply app_inj_tail in E as [E _].
      rewrite !firstn_all2 in E by lia. exact E.
    + change (firstn 4 l ++ [x5f] ++ grouped (S k) (skipn 4 l) = firstn 4 l' ++ [x5f] ++ grouped (S k) (skipn 4 l')) in E.
      pose proof (f_equal (firstn (length (firstn 4 l))) E) as E1.
      rewrite firstn_app, Nat.sub_diag, firstn_all, app_nil_r in E1.
      rewrite F, firstn_app, Nat.sub_diag, firstn_all, app_nil_r in E1.
      rewrite E1 in E. apply app_inv_head in E. apply (app_inv_head [x5f]) in E.
      apply (IH (skipn 4 l) (skipn 4 l')) in E; [|rewrite skipn_length; lia|rewrite skipn_length; lia].
      rewrite <- (firstn_skipn 4 l), <- (firstn_skipn 4 l'), E1, E. reflexivity.
Qed.

Lemma format_40 h : length h = 33%nat -> format_serial 40 h = grouped 8 (firstn 32 h).
Proof. intros H. do 33 (destruct h as [|? h]; [discriminate H|]). destruct h; [|discriminate H]. vm_compute. reflexivity. Qed.
Lemma format_20 h : length h = 33%nat -> format_serial 20 h = grouped 4 (firstn 16 h) ++ repeat x00 20.
Proof. intros H. do 33 (destruct h as [|? h]; [discriminate H|]). destruct h; [|discriminate H]. vm_compute. reflexivity. Qed.

Lemma sprintf_length a o s : (o + length s + 1 <= length a)%nat -> length (sprintf_at a o s) = length a.
Proof. intros H. unfold sprintf_at. cbv zeta. rewrite !app_length, firstn_length, skipn_length, ?app_length. cbn [length]. lia. Qed.

Lemma hex_two junk d0 d1 x0 x1 : length junk = 33%nat -> significant d0 x0 -> significant d1 x1 ->
  exists j0 j1, firstn 32 (sprintf_at (sprintf_at junk 0 (fmt_08lx x0)) 16 (fmt_08lx x1)) = half d0 x0 j0 ++ half d1 x1 j1 /\
    length j0 = (32 - d0)%nat /\ length j1 = (16 - d1)%nat.
Proof.
  intros Hj H0 H1. rewrite (fmt_eq _ _ H0), (fmt_eq _ _ H1).
  destruct (significant_le _ _ H0) as [B0 _]. destruct (significant_le _ _ H1) as [B1 _].
  set (a := sprintf_at junk 0 (hexdigits d0 x0)).
  assert (La : length a = 33%nat) by (unfold a; rewrite sprintf_length; rewrite ?hexdigits_length; lia).
  exists (skipn (d0 + 1) junk), (skipn (16 + (d1 + 1)) a).
  split; [|split; rewrite skipn_length; lia].
  unfold sprintf_at at 1. cbv zeta.
  rewrite firstn_app, firstn_firstn, firstn_length, La. replace (Nat.min 32 16) with 16%nat by lia.
  replace (32 - Nat.min 16 33)%nat with 16%nat by lia. rewrite app_length, hexdigits_length. cbn [length].
  f_equal.
  - unfold a, sprintf_at, half. cbv zeta. cbn [firstn app]. rewrite app_length, hexdigits_length. cbn [length Nat.add].
    rewrite <- app_assoc. reflexivity.
  - unfold half. rewrite <- app_assoc. reflexivity.
Qed.

Lemma hex_one junk d x : length junk = 33%nat -> significant d x ->
  exists j, firstn 16 (sprintf_at junk 0 (fmt_08lx x)) = half d x j /\ length j = (32 - d)%nat.
Proof.
  intros Hj H. rewrite (fmt_eq _ _ H). destruct (significant_le _ _ H) as [B _].
  exists (skipn (d + 1) junk). split; [|rewrite skipn_length; lia].
  unfold sprintf_at, half. cbv zeta. cbn [firstn app]. rewrite app_length, hexdigits_length. cbn [length Nat.add].
  rewrite <- app_assoc. reflexivity.
Qed.

(** ** The page *)
Lemma grouped_length k l : length l = (4 * k)%nat -> length (grouped k l) = (5 * k)%nat.
Proof.
  revert l. induction k as [|k IH]; intros l H; [reflexivity|]. destruct k as [|k].
  - cbn [grouped]. rewrite app_length, firstn_length. cbn [length]. lia.
  - change (grouped (S (S k)) l) with (firstn 4 l ++ [x5f] ++ grouped (S k) (skipn 4 l)).
    rewrite !app_length, IH by (rewrite skipn_length; lia). rewrite firstn_length. cbn [length]. lia.
Qed.

Section Serial.
Variables (w : world) (p q nsid : N) (ns ct : list byte) (buffer : span).
Hypothesis Hns : bytes_at w p ns.
Hypothesis Hct : bytes_at w q ct.
Hypothesis Ln : N.of_nat (length ns) = 4096.
Hypothesis Lc : N.of_nat (length ct) = 4096.
Hypothesis Hm : span_mapped w buffer.

Let w0 := set_tick w (S (tick w)).
Let jk := map (fun i => junk w (tick w) (N.of_nat i)) (seq 0 33).

Definition serial_text : N * list byte :=
  if nonzero (ns_nguid ns) || nonzero (ns_eui64 ns) then
      if nonzero (ns_nguid ns) then
        (40, format_serial 40 (sprintf_at (sprintf_at jk 0 (fmt_08lx (le (slice 104 8 ns)))) 16 (fmt_08lx (le (slice 112 8 ns)))))
      else (20, format_serial 20 (sprintf_at jk 0 (fmt_08lx (le (ns_eui64 ns)))))
    else (30, upd (sprintf_at (upd (ct_sn ct ++ repeat x00 20) 20 x5f) 21 (fmt_08x nsid)) 29 x2e).

Lemma serial_shape : TranslateUnitSerialNumberVpd q p nsid buffer w =
  (x <- WriteValue (bytes [0; 0x80; 0; fst serial_text]) buffer ;; if negb x then ret kFailure else
   y <- WriteValue (snd serial_text) (subspan buffer 4) ;; ret (if y then kSuccess else kFailure)) w0.
Proof.
  unfold TranslateUnitSerialNumberVpd. unfold bind at 1. unfold stack_junk. fold w0. fold jk.
  assert (Hn0 : bytes_at w0 p ns) by exact Hns. assert (Hc0 : bytes_at w0 q ct) by exact Hct.
  unfold bind at 1. rd_step Hn0. unfold bind at 1. rd_step Hn0. unfold bind at 1. rd_step Hn0.
  change 4 with (N.of_nat 4) at 1. unfold bind at 1. rewrite (load_page w0 q ct 4 20 Hc0) by lia.
  cbv zeta. rewrite (nz_nguid ns), (le_nonzero (slice 120 8 ns)). fold (ns_eui64 ns). fold (nonzero (ns_eui64 ns)).
  unfold serial_text, ct_sn.
  destruct (nonzero (ns_nguid ns)); [|destruct (nonzero (ns_eui64 ns))]; cbn [orb fst snd]; reflexivity.
Qed.

Lemma serial_written : 44 <= len buffer -> length (snd serial_text) = 40%nat ->
  exists w', TranslateUnitSerialNumberVpd q p nsid buffer w = Ret kSuccess w' /\
    wrote w w' (ptr buffer) (bytes [0; 0x80; 0; fst serial_text] ++ snd serial_text).
Proof.
  intros Hl H40. rewrite serial_shape.
  destruct (two_writes_ok (bytes [0; 0x80; 0; fst serial_text]) (snd serial_text) buffer 4 w0) as (w' & E & W).
  - reflexivity.
  - exact Hm.
  - rewrite H40. cbn. lia.
  - lia.
  - exists w'. split; [exact E|exact W].
Qed.

Lemma jk_length : length jk = 33%nat.
Proof. unfold jk. rewrite map_length, seq_length. reflexivity. Qed.

Lemma sn_text : (upd (sprintf_at (upd (ct_sn ct ++ repeat x00 20) 20 x5f) 21 (fmt_08x nsid)) 29 x2e) =
  ct_sn ct ++ [x5f] ++ hexdigits 8 nsid ++ [x2e] ++ repeat x00 10.
Proof.
  assert (L : length (ct_sn ct) = 20%nat) by (apply slice_length; lia).
  unfold fmt_08x. rewrite hex_fixed_eq. pose proof (hexdigits_length 8 nsid) as H8.
  set (a := ct_sn ct) in *. set (b := hexdigits 8 nsid) in *. clearbody a b.
  do 20 (destruct a as [|? a]; [discriminate L|]). destruct a; [|discriminate L].
  do 8 (destruct b as [|? b]; [discriminate H8|]). destruct b; [|discriminate H8].
  vm_compute. reflexivity.
Qed.

Lemma le8_lt l : length l = 8%nat -> le l < 2 ^ 64.
Proof. intros H. pose proof (le_lt l) as L. rewrite H in L. exact L. Qed.

Lemma serial_text_ok lun : nsid = nsid_of lun ->
  serial_page lun ns ct (bytes [0; 0x80; 0; fst serial_text] ++ snd serial_text) /\
  length (snd serial_text) = 40%nat /\ fst serial_text = vpd_length 0x80 ns.
Proof.
  intros Hid. unfold serial_page, serial_text, vpd_length.
  destruct (nonzero (ns_nguid ns)) eqn:Z1; [|destruct (nonzero (ns_eui64 ns)) eqn:Z2]; cbn [orb fst snd].
  - assert (E0 : nguid_lo ns = le (slice 104 8 ns)) by (unfold nguid_lo, ns_nguid; rewrite slice_slice by lia; reflexivity).
    assert (E1 : nguid_hi ns = le (slice 112 8 ns)) by (unfold nguid_hi, ns_nguid; rewrite slice_slice by lia; reflexivity).
    rewrite <- E0, <- E1.
    destruct (significant_ex (nguid_lo ns)) as [d0 S0]; [rewrite E0; apply le8_lt, slice_length; lia|].
    destruct (significant_ex (nguid_hi ns)) as [d1 S1]; [rewrite E1; apply le8_lt, slice_length; lia|].
    destruct (hex_two jk d0 d1 _ _ jk_length S0 S1) as (j0 & j1 & E & L0 & L1).
    destruct (significant_le _ _ S0) as [B0 _]. destruct (significant_le _ _ S1) as [B1 _].
    rewrite format_40, E.
    + split; [exists d0, d1, j0, j1; auto|]. split; [|reflexivity].
      rewrite grouped_length; [reflexivity|]. rewrite app_length, !half_length; lia.
    + assert (M : length (sprintf_at jk 0 (fmt_08lx (nguid_lo ns))) = 33%nat).
      { rewrite sprintf_length; rewrite ?jk_length; [reflexivity|]. rewrite (fmt_eq _ _ S0), hexdigits_length. lia. }
      rewrite sprintf_length; [exact M|]. rewrite M, (fmt_eq _ _ S1), hexdigits_length. lia.
  - destruct (significant_ex (le (ns_eui64 ns))) as [d S0]; [apply le8_lt, slice_length; lia|].
    destruct (hex_one jk d _ jk_length S0) as (j & E & L0). destruct (significant_le _ _ S0) as [B0 _].
    rewrite format_20, E.
    + split; [exists d, j; auto|]. split; [|reflexivity].
      rewrite app_length, grouped_length, repeat_length; [reflexivity|]. rewrite half_length; lia.
    + rewrite sprintf_length; rewrite ?jk_length; [reflexivity|]. rewrite (fmt_eq _ _ S0), hexdigits_length. lia.
  - rewrite sn_text, Hid. split; [reflexivity|]. split; [|reflexivity].
    rewrite !app_length, hexdigits_length, repeat_length. cbn [length].
    unfold ct_sn. rewrite slice_length by lia. reflexivity.
Qed.

Lemma serial_any lun : nsid = nsid_of lun ->
  exists st w', TranslateUnitSerialNumberVpd q p nsid buffer w = Ret st w' /\
    (same_memory w w' \/ exists img, serial_page lun ns ct img /\ length img = 44%nat /\
       firstn 4 img = bytes [0; 0x80; 0; vpd_length 0x80 ns] /\
       (wrote w w' (ptr buffer) (firstn 4 img) \/ wrote w w' (ptr buffer) img)).
Proof.
  intros Hid. destruct (serial_text_ok lun Hid) as (P & L & F). rewrite serial_shape.
  destruct (two_writes_any (bytes [0; 0x80; 0; fst serial_text]) (snd serial_text) buffer 4 w0 eq_refl Hm) as (st & w' & E & H).
  { lia. }
  exists st, w'. split; [exact E|].
  destruct H as [H|H]; [left; exact H|right]. exists (bytes [0; 0x80; 0; fst serial_text] ++ snd serial_text).
  split; [exact P|]. split; [rewrite app_length, L; reflexivity|]. rewrite <- F. split; [reflexivity|]. exact H.
Qed.

Lemma serial_full lun : nsid = nsid_of lun -> 44 <= len buffer ->
  exists w' img, TranslateUnitSerialNumberVpd q p nsid buffer w = Ret kSuccess w' /\
    serial_page lun ns ct img /\ wrote w w' (ptr buffer) img.
Proof.
  intros Hid Hl. destruct (serial_text_ok lun Hid) as (P & L & F). destruct (serial_written Hl L) as (w' & E & W).
  exists w'. eexists. split; [exact E|]. split; [exact P|exact W].
Qed.
End Serial.
