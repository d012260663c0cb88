(** C93: debug messages. *)
From Coq Require Import Arith NArith ZArith String Ascii List Lia Bool Init.Byte.
From Coq Require Import ZifyBool ZifyNat ZifyN.
From Verif Require Import Bytes World Common TranslationCls DebugLog Spec RwSpec Facts Logic BeginFacts CompleteFacts RwFacts SmallSpec SmallFacts CatalogFacts.
Import ListNotations.
Local Open Scope list_scope.
Local Open Scope string_scope.
Local Open Scope N_scope.

(** ** specification *)
(** no directive in [s]: used as a format it prints itself *)
Definition plain (s : string) : Prop := ~ In "%"%char (list_ascii_of_string s).
(** the number a string of digits stands for *)
Definition digit_of (c : ascii) : N :=
  let n := N_of_ascii c in if n <? 58 then n - 48 else n - 87.
Definition number (base : N) (s : string) : N := fold_left (fun a c => a * base + digit_of c) (list_ascii_of_string s) 0.

(** ** numbers *)
Lemma digit_back d : d < 16 -> digit_of (digit_char d) = d.
Proof.
  intros H. assert (D : In d [0;1;2;3;4;5;6;7;8;9;10;11;12;13;14;15]) by (cbn; lia).
  revert d D H. assert (F : Forall (fun d => digit_of (digit_char d) = d) [0;1;2;3;4;5;6;7;8;9;10;11;12;13;14;15]) by (repeat constructor).
  intros d D _. rewrite Forall_forall in F. exact (F d D).
Qed.
Lemma digit_plain d : digit_char d <> "%"%char.
Proof.
  unfold digit_char. destruct (nth_in_or_default (N.to_nat d) (list_ascii_of_string "0123456789abcdef") "0"%char) as [H|H].
  - intros E. rewrite E in H. clear E. cbn in H. repeat (destruct H as [H|H]; [discriminate H|]). destruct H.
  - intros E. rewrite E in H. discriminate H.
Qed.
Lemma digits_value base : 2 <= base <= 16 -> forall k n rest, n < base ^ N.of_nat (S k) ->
  fold_left (fun a c => a * base + digit_of c) (list_ascii_of_string (digits base (S k) n rest)) 0 =
  fold_left (fun a c => a * base + digit_of c) (list_ascii_of_string rest) n.
Proof.
  intros Hb. induction k as [|k IH]; intros n rest H.
  - cbn [digits]. rewrite N.pow_1_r in H. replace (n <? base) with true by lia. cbn [list_ascii_of_string fold_left].
    rewrite digit_back by lia. reflexivity.
  - cbn [digits]. destruct (N.ltb_spec n base) as [L|L].
    + cbn [list_ascii_of_string fold_left]. rewrite digit_back by lia. reflexivity.
    + change (fold_left (fun a c => a * base + digit_of c) (list_ascii_of_string (digits base (S k) (n / base) (String (digit_char (n mod base)) rest))) 0 =
        fold_left (fun a c => a * base + digit_of c) (list_ascii_of_string rest) n).
      rewrite IH.
      * cbn [list_ascii_of_string fold_left]. pose proof (N.mod_lt n base ltac:(lia)). rewrite digit_back by lia. f_equal.
        pose proof (N.div_mod n base ltac:(lia)). lia.
      * apply N.div_lt_upper_bound; [lia|]. rewrite Nat2N.inj_succ, N.pow_succ_r' in H. exact H.
Qed.
Lemma digits_length base k : forall n rest, (String.length (digits base k n rest) <= k + String.length rest)%nat.
Proof.
  induction k as [|k IH]; intros n rest; cbn [digits]; [lia|]. destruct (n <? base); [cbn [String.length]; lia|].
  specialize (IH (n / base) (String (digit_char (n mod base)) rest)). cbn [String.length] in IH. lia.
Qed.
Lemma digits_plain base k : forall n rest, plain rest -> plain (digits base k n rest).
Proof.
  induction k as [|k IH]; intros n rest H; cbn [digits]; [exact H|].
  assert (P : forall d, plain (String (digit_char d) rest)).
  { intros d [E|E]; [exact (digit_plain d E)|exact (H E)]. }
  destruct (n <? base); [apply P|apply IH, P].
Qed.

(** ** strings *)
Lemma append_chars a b : list_ascii_of_string (a ++ b) = (list_ascii_of_string a ++ list_ascii_of_string b)%list.
Proof. induction a as [|c a IH]; cbn; [reflexivity|f_equal; exact IH]. Qed.
Lemma append_length a b : (String.length (a ++ b) = String.length a + String.length b)%nat.
Proof. induction a as [|c a IH]; cbn; [reflexivity|f_equal; exact IH]. Qed.
Lemma append_plain a b : plain a -> plain b -> plain (a ++ b).
Proof. intros A B H. rewrite append_chars in H. apply in_app_or in H as [H|H]; auto. Qed.
Lemma whole s : forall n, (String.length s <= n)%nat -> substring 0 n s = s.
Proof. induction s as [|c s IH]; intros [|n] H; cbn in *; try reflexivity; try lia. f_equal. apply IH. lia. Qed.

Lemma printf_char c rest args : c <> "%"%char -> printf (String c rest) args = option_map (String c) (printf rest args).
Proof. intros H. destruct c as [[] [] [] [] [] [] [] []]; try reflexivity. contradiction. Qed.
Lemma printf_plain s : plain s -> printf s [] = Some s.
Proof.
  induction s as [|c s IH]; intros H; [reflexivity|].
  rewrite printf_char by (intros ->; apply H; left; reflexivity). rewrite IH by (intros X; apply H; right; exact X). reflexivity.
Qed.

(** ** names *)
Definition names : list string := Eval compute in
  map ScsiOpcodeToString [0x00;0x03;0x08;0x0a;0x12;0x16;0x17;0x1a;0x1b;0x1e;0x25;0x28;0x2a;0x2f;0x35;0x42;0x43;0x5a;0x5e;0x5f;0x7f;0x88;0x8a;0x8f;0x91;0x9e;0xa0;0xa3;0xa8;0xaa;0xaf;0xff].
Definition string_eq (a b : string) : bool := if string_dec a b then true else false.
Lemma name_in opc : In (ScsiOpcodeToString opc) names.
Proof.
  assert (K : existsb (string_eq (ScsiOpcodeToString opc)) names = true).
  { unfold ScsiOpcodeToString. destruct opc as [|p]; [reflexivity|]. do 8 (destruct p as [p|p|]; try reflexivity). }
  apply existsb_exists in K as (x & H & E). unfold string_eq in E. destruct (string_dec _ x) as [->|]; [exact H|discriminate].
Qed.
Lemma name_short opc : (String.length (ScsiOpcodeToString opc) <= 31)%nat /\ plain (ScsiOpcodeToString opc).
Proof.
  pose proof (name_in opc) as H. revert H. generalize (ScsiOpcodeToString opc) as s.
  assert (F : Forall (fun s => (String.length s <= 31)%nat /\ plain s) names).
  { unfold names, plain. repeat (constructor; [split; [cbn; lia|cbn; intros H; repeat (destruct H as [H|H]; [discriminate H|]); exact H]|]). constructor. }
  rewrite Forall_forall in F. exact F.
Qed.

(** ** formats and argument types *)
Definition numeric (ty : argty) : bool := match ty with TByte | TU16 | TU32 => true | _ => false end.
Fixpoint matches (fmt : string) (tys : list argty) : bool :=
  match fmt with
  | "" => match tys with [] => true | _ => false end
  | String "%"%char (String "#"%char (String "x"%char rest)) => match tys with ty :: tys' => numeric ty && matches rest tys' | [] => false end
  | String "%"%char (String "u"%char rest) => match tys with ty :: tys' => numeric ty && matches rest tys' | [] => false end
  | String "%"%char (String "d"%char rest) => match tys with TByte :: tys' | TU16 :: tys' => matches rest tys' | _ => false end
  | String "%"%char (String "s"%char rest) => match tys with TName :: tys' => matches rest tys' | _ => false end
  | String "%"%char _ => false
  | String _ rest => matches rest tys
  end.
Lemma matches_char c rest tys : c <> "%"%char -> matches (String c rest) tys = matches rest tys.
Proof. intros H. destruct c as [[] [] [] [] [] [] [] []]; try reflexivity. contradiction. Qed.

Definition fine (s : string) : Prop := (String.length s <= 31)%nat /\ plain s.
Lemma plain_nil : plain "". Proof. intros []. Qed.
Lemma decimal_fine n : fine (decimal n).
Proof. split; [pose proof (digits_length 10 10 n ""); cbn [String.length] in *; unfold decimal; lia|apply digits_plain, plain_nil]. Qed.
Lemma hexadecimal_fine n : fine (hexadecimal n).
Proof.
  unfold hexadecimal. pose proof (digits_length 16 8 n "") as L. pose proof (digits_plain 16 8 n "" plain_nil) as P. cbn [String.length] in L. split.
  - rewrite append_length. destruct (n =? 0); cbn [String.length]; lia.
  - apply append_plain; [|exact P]. destruct (n =? 0); [apply plain_nil|]. cbn. intros [H|[H|[]]]; discriminate H.
Qed.
Lemma numeric_u ty a : numeric ty = true -> of_type ty a -> exists s, directive "u" a = Some s /\ fine s.
Proof.
  destruct ty; try discriminate; intros _ (n & _ & ->); cbn [directive]; [destruct (Z.ltb_spec (Z.of_N n) 0) as [L|L]; [lia|] ..|];
    (eexists; split; [reflexivity|apply decimal_fine]).
Qed.
Lemma numeric_x ty a : numeric ty = true -> of_type ty a -> exists s, directive "x" a = Some s /\ fine s.
Proof.
  destruct ty; try discriminate; intros _ (n & _ & ->); cbn [directive]; [destruct (Z.ltb_spec (Z.of_N n) 0) as [L|L]; [lia|] ..|];
    (eexists; split; [reflexivity|apply hexadecimal_fine]).
Qed.
Lemma signed_d n : exists s, directive "d" (AInt (Z.of_N n)) = Some s /\ fine s.
Proof. cbn [directive]. destruct (Z.ltb_spec (Z.of_N n) 0) as [L|L]; [lia|]. eexists. split; [reflexivity|apply decimal_fine]. Qed.

Lemma printf_matches : forall n fmt tys args, (String.length fmt <= n)%nat -> matches fmt tys = true -> Forall2 of_type tys args ->
  exists s, printf fmt args = Some s /\ (String.length s <= String.length fmt + 31 * List.length tys)%nat /\ plain s.
Proof.
  induction n as [|n IH]; intros fmt tys args Hl Hm Ha.
  { destruct fmt; [|cbn in Hl; lia]. exists "". split; [reflexivity|]. split; [cbn; lia|apply plain_nil]. }
  destruct fmt as [|c fmt]; [exists ""; split; [reflexivity|]; split; [cbn; lia|apply plain_nil]|]. cbn [String.length] in Hl.
  destruct (ascii_dec c "%") as [->|Hc].
  2:{ rewrite matches_char in Hm by exact Hc. rewrite printf_char by exact Hc. destruct (IH fmt tys args ltac:(lia) Hm Ha) as (s & -> & L & P).
      exists (String c s). split; [reflexivity|]. split; [cbn [String.length]; lia|]. intros [H|H]; [exact (Hc H)|exact (P H)]. }
  assert (Step : forall k rest ty tys' d, tys = ty :: tys' -> matches rest tys' = true -> (String.length rest <= n)%nat ->
    (String.length rest <= k)%nat -> (forall a, of_type ty a -> exists s, directive d a = Some s /\ fine s) ->
    exists s, match args with [] => None | a :: args' => match directive d a, printf rest args' with Some s, Some r => Some (s ++ r) | _, _ => None end end = Some s /\
      (String.length s <= k + 31 * List.length tys)%nat /\ plain s).
  { intros k rest ty tys' d -> Hm' Hr Hk Hd. inversion Ha as [|? a ? args' H1 H2]; subst. destruct (Hd a H1) as (s1 & -> & L1 & P1).
    destruct (IH rest tys' args' Hr Hm' H2) as (s2 & -> & L2 & P2). exists (s1 ++ s2). split; [reflexivity|].
    split; [rewrite append_length; cbn [List.length]; lia|apply append_plain; assumption]. }
  destruct fmt as [|c2 rest]; [discriminate Hm|].
  destruct (ascii_dec c2 "#") as [->|H1].
  { destruct rest as [|c3 rest]; [discriminate Hm|]. destruct (ascii_dec c3 "x") as [->|H3].
    - destruct tys as [|ty tys']; [discriminate Hm|]. cbn [matches] in Hm. apply andb_true_iff in Hm as [N1 Hm]. cbn [String.length] in Hl.
      change (printf (String "%" (String "#" (String "x" rest))) args) with
        (match args with [] => None | a :: args' => match directive "x" a, printf rest args' with Some s, Some r => Some (s ++ r) | _, _ => None end end).
      apply (Step (String.length (String "%" (String "#" (String "x" rest)))) rest ty tys' "x"%char eq_refl Hm); [lia|cbn [String.length]; lia|]. intros a. apply numeric_x, N1.
    - exfalso. destruct c3 as [[] [] [] [] [] [] [] []]; try discriminate Hm. apply H3. reflexivity. }
  destruct (ascii_dec c2 "u") as [->|H2].
  { destruct tys as [|ty tys']; [discriminate Hm|]. cbn [matches] in Hm. apply andb_true_iff in Hm as [N1 Hm]. cbn [String.length] in Hl.
    change (printf (String "%" (String "u" rest)) args) with
      (match args with [] => None | a :: args' => match directive "u" a, printf rest args' with Some s, Some r => Some (s ++ r) | _, _ => None end end).
    apply (Step (String.length (String "%" (String "u" rest))) rest ty tys' "u"%char eq_refl Hm); [lia|cbn [String.length]; lia|]. intros a. apply numeric_u, N1. }
  destruct (ascii_dec c2 "d") as [->|H3].
  { destruct tys as [|ty tys']; [discriminate Hm|]. cbn [String.length] in Hl.
    change (printf (String "%" (String "d" rest)) args) with
      (match args with [] => None | a :: args' => match directive "d" a, printf rest args' with Some s, Some r => Some (s ++ r) | _, _ => None end end).
    assert (Hm' : matches rest tys' = true /\ (ty = TByte \/ ty = TU16)) by (destruct ty; try discriminate Hm; split; auto; exact Hm). destruct Hm' as [Hm' Ty].
    apply (Step (String.length (String "%" (String "d" rest))) rest ty tys' "d"%char eq_refl Hm'); [lia|cbn [String.length]; lia|].
    intros a Hty. destruct Ty as [-> | ->]; destruct Hty as (m & _ & ->); apply signed_d. }
  destruct (ascii_dec c2 "s") as [->|H4].
  { destruct tys as [|ty tys']; [discriminate Hm|]. cbn [String.length] in Hl.
    change (printf (String "%" (String "s" rest)) args) with
      (match args with [] => None | a :: args' => match directive "s" a, printf rest args' with Some s, Some r => Some (s ++ r) | _, _ => None end end).
    assert (Hm' : matches rest tys' = true /\ ty = TName) by (destruct ty; try discriminate Hm; split; auto; exact Hm). destruct Hm' as [Hm' Ty].
    apply (Step (String.length (String "%" (String "s" rest))) rest ty tys' "s"%char eq_refl Hm'); [lia|cbn [String.length]; lia|].
    subst ty. intros a (opc & ->). exists (ScsiOpcodeToString opc). split; [reflexivity|]. apply name_short. }
  exfalso. destruct c2 as [[] [] [] [] [] [] [] []]; try discriminate Hm; congruence.
Qed.

(** ** C93 *)
(** the arguments whose type no directive used here takes: size_t and scoped
    enumerations *)
Definition mismatched (s : site) : bool := existsb (fun ty => match ty with TSize | TScopedEnum8 => true | _ => false end) (site_args s).

Lemma sites_match : forallb (fun s => mismatched s || matches (site_format s) (site_args s) && Nat.leb (String.length (site_format s) + 31 * List.length (site_args s)) 1023) call_sites = true.
Proof. vm_compute. reflexivity. Qed.

(** Every message, whatever its arguments: well defined, delivered whole, and
    printed verbatim when the kernel module hands it to printk as a format.
    Missing: the two messages with mismatched arguments. *)
Theorem C93_messages_partial : forall s args, In s call_sites -> mismatched s = false -> Forall2 of_type (site_args s) args ->
  exists m, printf (site_format s) args = Some m /\ DebugLog true (site_format s) args = LogCall m /\ (String.length m < 1024)%nat /\ Print m = Some m.
Proof.
  intros s args Hin Hm Ha. pose proof sites_match as F. rewrite forallb_forall in F. specialize (F s Hin). rewrite Hm in F. cbn [orb] in F.
  apply andb_true_iff in F as [F1 F2]. apply Nat.leb_le in F2.
  destruct (printf_matches _ (site_format s) (site_args s) args (le_n _) F1 Ha) as (m & E & L & P).
  exists m. split; [exact E|]. unfold DebugLog. rewrite E, whole by lia. split; [reflexivity|]. split; [lia|]. apply printf_plain, P.
Qed.
Print Assumptions C93_messages_partial.

(** without a callback nothing happens, whatever the message *)
Theorem C93_silent : forall fmt args, DebugLog false fmt args = LogNothing.
Proof. reflexivity. Qed.

(** the two exceptions *)
Lemma sites_mismatched : map (fun s => (site_file s, site_line s)) (filter mismatched call_sites) = [("report_luns.cc", 55); ("translation.cc", 183)].
Proof. vm_compute. reflexivity. Qed.
Theorem C93_mismatched_refuted : forall s args, In s call_sites -> mismatched s = true -> Forall2 of_type (site_args s) args ->
  DebugLog true (site_format s) args = LogUB.
Proof.
  intros s args Hin Hm Ha.
  assert (F : In s (filter mismatched call_sites)) by (apply filter_In; split; assumption).
  let l := eval vm_compute in (filter mismatched call_sites) in change (filter mismatched call_sites) with l in F.
  clear Hin Hm. destruct F as [F|[F|[]]]; subst s; cbn [site_args] in Ha;
    inversion Ha as [|? a ? l' Hty Hl]; subst; destruct Hty as (n & _ & ->); reflexivity.
Qed.
Print Assumptions C93_mismatched_refuted.

(** ... and the calls that lead to them: Complete with a wrong number of
    completions, *)
Theorem C93_completion_count_refuted : forall env t w cpls, reach env true t w -> N.of_nat (List.length cpls) <> nvme_cmd_count t ->
  exists fmt args, Complete_logs t cpls = Some (fmt, args) /\ DebugLog true fmt args = LogUB.
Proof.
  intros env t w cpls R Hn. pose proof (i_busy _ _ (reach_inv _ _ _ _ R)) as Hb. unfold Complete_logs.
  replace (N.of_nat (List.length cpls) =? nvme_cmd_count t) with false by lia.
  destruct (pipeline_status t); try discriminate Hb; do 2 eexists; (split; [reflexivity|reflexivity]).
Qed.
Print Assumptions C93_completion_count_refuted.

(** REPORT LUNS and MAINTENANCE IN with a SELECT REPORT above 2 *)
Theorem C93_report_luns_refuted : forall t cdb buffer lun w bs, idle t -> span_holds w cdb bs -> (12 <= List.length bs)%nat ->
  byte_at bs 0 = 0xa0 \/ byte_at bs 0 = 0xa3 -> 2 < byte_at bs 2 ->
  refuses t cdb buffer lun w /\ exists fmt args, ReportLuns_logs bs = Some (fmt, args) /\ DebugLog true fmt args = LogUB.
Proof.
  intros t cdb buffer lun w bs Hi Hc Hl Ho Hs. split.
  - destruct Ho as [Ho|Ho]; [eapply Begin_luns_refuses|eapply Begin_maint_refuses]; try eassumption; right; exact Hs.
  - unfold ReportLuns_logs. replace (Nat.leb 12 (List.length bs)) with true by lia. replace (byte_at bs 2 <=? 2) with false by lia.
    do 2 eexists. split; reflexivity.
Qed.
Print Assumptions C93_report_luns_refuted.

(** what Begin says about the command: its name and its operation code, which
    can be read back; a command it accepts has a name *)
Theorem C93_translating : forall t cdb buffer lun w bs t' r w',
  idle t -> span_holds w cdb bs -> bs <> [] -> Begin t cdb buffer lun w = Ret (t', r) w' ->
  exists name digits,
    (let (fmt, args) := Begin_logs t cdb (byte_at bs 0) in DebugLog true fmt args) = LogCall ("Translating command " ++ name ++ " with opcode " ++ digits) /\
    (digits = "0" /\ byte_at bs 0 = 0 \/ exists h, digits = "0x" ++ h /\ number 16 h = byte_at bs 0) /\
    (accepted t' -> name <> "INVALID_OPCODE").
Proof.
  intros t cdb buffer lun w bs t' r w' Hi Hc Hne E. pose proof Hi as (Hs & _).
  assert (Hl : (len cdb =? 0) = false) by (destruct Hc as [-> _]; destruct bs; [contradiction|cbn [List.length]; lia]).
  assert (B : byte_at bs 0 < 256) by (unfold byte_at; apply b2n_lt).
  exists (ScsiOpcodeToString (byte_at bs 0)), (hexadecimal (byte_at bs 0)). split; [|split].
  - unfold Begin_logs. rewrite Hs, Hl.
    set (o := byte_at bs 0) in *.
    assert (P : printf "Translating command %s with opcode %#x" [AStr (ScsiOpcodeToString o); AInt (Z.of_N o)] =
      Some ("Translating command " ++ (ScsiOpcodeToString o ++ (" with opcode " ++ (hexadecimal o ++ ""))))).
    { cbn [printf directive]. replace (Z.ltb (Z.of_N o) 0) with false by lia. rewrite N2Z.id. reflexivity. }
    assert (A : forall s, s ++ "" = s) by (induction s as [|c s IH]; cbn; [reflexivity|f_equal; exact IH]). rewrite A in P.
    unfold DebugLog. rewrite P, whole; [reflexivity|]. rewrite !append_length. cbn [String.length].
    pose proof (proj1 (name_short o)). pose proof (proj1 (hexadecimal_fine o)). lia.
  - unfold hexadecimal. destruct (N.eqb_spec (byte_at bs 0) 0) as [Z|Z]; [left; rewrite Z; split; reflexivity|right].
    exists (digits 16 8 (byte_at bs 0) ""). split; [reflexivity|]. unfold number.
    rewrite digits_value; [reflexivity|lia|]. apply (N.lt_trans _ 256); [exact B|reflexivity].
  - intros Ha. destruct (in_dec N.eq_dec (byte_at bs 0) known_opcodes) as [Hk|Hk].
    + clear -Hk. cbn [known_opcodes In] in Hk. intros X.
      repeat (destruct Hk as [Hk|Hk]; [rewrite <- Hk in X; discriminate X|]). destruct Hk.
    + exfalso. destruct (Begin_unknown t cdb buffer lun w bs Hi Hc Hne Hk) as (t1 & r1 & w1 & E1 & _ & (X & _) & _).
      rewrite E in E1. injection E1 as <- _ _. apply X. exact Ha.
Qed.
Print Assumptions C93_translating.

Example C93_run :
  DebugLog true "Translating command %s with opcode %#x" [AStr (ScsiOpcodeToString 0x2a); AInt 0x2a] = LogCall "Translating command kWrite10 with opcode 0x2a" /\
  DebugLog true "RDPROTECT with value %d has no translation to PRINFO" [AInt 7] = LogCall "RDPROTECT with value 7 has no translation to PRINFO" /\
  Print "100% done" = None /\ number 16 "ff" = 255 /\ number 10 (decimal 4294967295) = 4294967295 /\ List.length call_sites = 94%nat.
Proof. repeat split; vm_compute; reflexivity. Qed.
