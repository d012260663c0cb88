(** C79-C81: the translated disk is a disk. *)
From Coq Require Import Arith NArith String List Lia Bool Init.Byte Permutation.
From Coq Require Import ZifyBool ZifyNat ZifyN.
From Verif Require Import Bytes Layout World ScsiDefs NvmeDefs Common ModeSenseCmd StatusCmd TranslationCls EngineE2e MockModule
  Spec RwSpec EngineSpec MockSpec Facts Logic BeginFacts CompleteFacts StatusFacts RelFacts RwFacts EngineFacts MockFacts Witness
  Properties1 Properties2 Properties6 Properties9 Properties11 DiskSpec DiskFacts.
Import ListNotations.
Local Open Scope string_scope.
Local Open Scope list_scope.
Local Open Scope N_scope.

Lemma Begin_write_rw f t cdb buffer lun w bs pr : idle t -> span_holds w cdb bs -> byte_at bs 0 = write_opcode f ->
  (rw_len f <= length bs)%nat -> 1 <= rw_blocks f bs <= 65535 -> write_prinfo f bs = Some pr -> len buffer < 2 ^ 32 ->
  exists t', Begin t cdb buffer lun w = Ret (t', begin_ok 0) w /\ accepted t' /\
    exposes t' = [io (len buffer) (rw_sqe 1 lun (ptr buffer) (rw_lba f bs) (rw_blocks f bs) (rw_fua f bs) pr)] /\ held t' = [].
Proof.
  intros Hi Hc Ho Hl Hn Hp Hb.
  destruct (C17_write_exact f t cdb buffer lun w bs pr Hi Hc Ho Hl Hn Hp Hb) as (t' & E & Ha & X).
  assert (Hr : write_ok f bs) by (split; [exact Hl|]; split; [lia|rewrite Hp; discriminate]).
  destruct (Begin_write_ok f t cdb buffer lun w bs pr Hi Hc Ho Hr Hp) as (t'' & E' & _ & _ & Hh).
  rewrite E in E'. apply ret_eq in E' as [E' _]. apply pair_eq in E' as [-> _]. exists t''. auto.
Qed.

Lemma io_sub_view r n s : view r = io n s -> sub_view (submit_exposed r) = (false, sqe_bytes s, q_prp1 s mod 2 ^ 64, n).
Proof.
  intros V. unfold sub_view, submit_exposed, view, io in *. cbn [sub_admin sub_cmd sub_buffer sub_bufflen].
  assert (A : is_admin r = false) by (apply (f_equal x_admin) in V; exact V).
  assert (B : buffer_len r = n) by (apply (f_equal x_buffer_len) in V; exact V).
  assert (C : le_encode 64 (cmd r) = sqe_bytes s) by (apply (f_equal x_bytes) in V; exact V).
  rewrite A, B, C, sqe_prp1. reflexivity.
Qed.

Lemma api_io_eq drv t q w t1 br r : Begin t (rq_cdb q) (rq_data q) (rq_lun q) w = Ret (t1, br) w -> GetNvmeWrappers t1 = [r] ->
  forall d, drv 0%nat (submit_exposed r) (mem w) = d ->
  forall t2 cr w2, Complete t1 [snd d mod 2 ^ 128] (rq_data q) (rq_sense q) (set_mem w (fst d)) = Ret (t2, cr) w2 ->
  api_io drv t q w = Ret (t2, cr_scsi_status cr) w2.
Proof.
  intros E G d D t2 cr w2 C. unfold api_io, bind. rewrite E. rewrite G. cbn [map device_run]. rewrite D. destruct d as [m c]. cbn [fst snd] in C.
  rewrite C. reflexivity.
Qed.

(** both kinds of command, up to what the device gets *)
Lemma asks_begin w q x bs : span_holds w (rq_cdb q) bs -> asks bs (rq_lun q) 65535 x ->
  match x with IoRead _ _ n => n * 4096 <= len (rq_data q) | IoWrite _ _ data => span_holds w (rq_data q) data end ->
  forall t, idle t ->
  let '(opc, lba, n) := match x with IoRead _ lba n => (2, lba, n) | IoWrite _ lba data => (1, lba, blocks_of data) end in
  bs <> [] /\ In (byte_at bs 0) data_opcodes /\ rq_lun q < 2 ^ 32 - 1 /\ lba < 2 ^ 64 /\ 1 <= n <= 65535 /\ n * 4096 <= len (rq_data q) /\
  exists t1 al bl fua pr, Begin t (rq_cdb q) (rq_data q) (rq_lun q) w = Ret (t1, begin_ok al) w /\ accepted t1 /\
    exposes t1 = [io bl (rw_sqe opc (rq_lun q) (ptr (rq_data q)) lba n fua pr)] /\ held t1 = [] /\
    (opc = 2 -> al = n * 4096) /\ (opc = 1 -> al = 0) /\
    (exists f, byte_at bs 0 = (if opc =? 2 then read_opcode f else write_opcode f) /\ fua = rw_fua f bs) /\ pr < 16 /\ bl <> 0.
Proof.
  intros Hc (f & Hl & Hn & Hu & Hx) Hd t Hi. destruct x as [u lba n|u lba data]; cbv iota beta.
  - destruct Hx as (-> & Ho & Hp & -> & ->). destruct (read_prinfo f bs) as [pr|] eqn:P; [|contradiction].
    destruct (Begin_read_ok f t (rq_cdb q) (rq_data q) (rq_lun q) w bs pr Hi Hc Ho) as (t1 & E & Ha & X & Hh).
    { split; [exact Hl|]. split; [exact Hn|]. split; [rewrite P; discriminate|exact Hd]. }
    { exact P. }
    split; [intros ->; destruct f; discriminate Ho|]. split; [rewrite Ho; destruct f; cbn; tauto|]. split; [exact Hu|].
    split; [apply rw_lba_lt|]. split; [exact Hn|]. split; [exact Hd|].
    exists t1. do 4 eexists. split; [exact E|]. split; [exact Ha|]. split; [exact X|]. split; [exact Hh|]. split; [reflexivity|]. split; [discriminate|]. split; [exists f; split; [exact Ho|reflexivity]|]. split; [destruct f; [injection P as <-; lia|..]; (eapply prinfo_lt; [|exact P]; lia)|lia].
  - destruct Hx as (-> & Ho & Hp & -> & Hlen). destruct (write_prinfo f bs) as [pr|] eqn:P; [|contradiction].
    destruct Hd as [Hd Hdb].
    destruct (Begin_write_rw f t (rq_cdb q) (rq_data q) (rq_lun q) w bs pr Hi Hc Ho Hl Hn P) as (t1 & E & Ha & X & Hh).
    { rewrite Hd, Hlen. lia. }
    assert (B : blocks_of data = rw_blocks f bs) by (unfold blocks_of; rewrite Hlen; apply N.div_mul; discriminate). rewrite B.
    split; [intros ->; destruct f; discriminate Ho|]. split; [rewrite Ho; destruct f; cbn; tauto|]. split; [exact Hu|].
    split; [apply rw_lba_lt|]. split; [exact Hn|]. split; [lia|].
    exists t1. do 4 eexists. split; [exact E|]. split; [exact Ha|]. split; [exact X|]. split; [exact Hh|]. split; [discriminate|]. split; [reflexivity|]. split; [exists f; split; [exact Ho|reflexivity]|]. split; [destruct f; [injection P as <-; lia|..]; (eapply prinfo_lt; [|exact P]; lia)|rewrite Hd, Hlen; lia].
Qed.

Lemma wrote_mapped w w' a bs y : wrote w w' a bs -> mem w y <> None -> exists b, mem w' y = Some b.
Proof.
  intros [H1 H2] Hy. destruct (N.ltb_spec y a) as [L|L]; [rewrite H2 by lia; destruct (mem w y); [eauto|contradiction]|].
  destruct (N.ltb_spec y (a + N.of_nat (length bs))) as [L2|L2]; [|rewrite H2 by lia; destruct (mem w y); [eauto|contradiction]].
  exists (nth (N.to_nat (y - a)) bs x00). replace y with (a + N.of_nat (N.to_nat (y - a))) at 1 by lia. apply H1. apply nth_error_nth'. lia.
Qed.

(** Begin, the device, Complete with any response buffer *)
Lemma lib_step_for cap drv t w q x d buffer : serves cap drv x (ptr (rq_data q)) -> cap_ok cap -> idle t -> stores w d -> api_presents w q x ->
  let '(d', a) := disk_step (fun lun => cap (lun + 1)) d x in
  exists t1 al r m c t' status w', Begin t (rq_cdb q) (rq_data q) (rq_lun q) w = Ret (t1, begin_ok al) w /\
    al = match x with IoRead _ _ n => n * 4096 | IoWrite _ _ _ => 0 end /\
    GetNvmeWrappers t1 = [r] /\ drv 0%nat (submit_exposed r) (mem w) = (m, c) /\
    Complete t1 [c mod 2 ^ 128] buffer (rq_sense q) (set_mem w m) = Ret (t', api_ok status) w' /\
    api_observes w' q status x a /\ stores w' d' /\ idle t' /\ trace w' = trace w /\
    untouched w w' (match x with IoRead _ _ _ => [rq_data q; rq_sense q] | IoWrite _ _ _ => [rq_sense q] end) /\
    (forall y, mem w y <> None -> mem w' y <> None).
Proof.
  intros Hdl Hcap Hi Hs ((_ & Hcb) & (Hdm & Hdb) & (Hsm & Hsb) & Hs8 & Hap & (bs & Hc & Hask) & Hx).
  pose proof (asks_begin w q x bs Hc Hask Hx t Hi) as B.
  set (k := match x with IoRead _ lba n => (2, lba, n) | IoWrite _ lba data => (1, lba, blocks_of data) end) in B.
  destruct k as [[opc lba] n] eqn:K. unfold k in K. clear k.
  destruct B as (Hne & Hin & Hu & Hlba & Hn & Hnl & t1 & al & bl & fua & pr & E & Ha & X & Hh & Hal1 & Hal2 & _ & _ & Hbl).
  assert (Hal : al = match x with IoRead _ _ n => n * 4096 | IoWrite _ _ _ => 0 end).
  { destruct x; injection K as <- <- <-; [apply Hal1|apply Hal2]; reflexivity. }
  destruct (one_wrapper _ _ X) as (r & G & V). pose proof (io_sub_view _ _ _ V) as SV.
  assert (Hopc : opc = 1 \/ opc = 2) by (destruct x; injection K as <- _ _; auto).
  assert (Hlen : n <= 65536) by lia.
  assert (Hx0 : match x with IoRead u _ _ | IoWrite u _ _ => u = rq_lun q end).
  { destruct Hask as (f & _ & _ & _ & Hask). destruct x; apply Hask. }
  pose proof (nvme_disk_eq cap 0%nat (submit_exposed r) (mem w) opc (rq_lun q) (ptr (rq_data q)) lba n fua pr _ _ SV Hopc Hlba (conj (proj1 Hn) Hlen)) as DEV.
  rewrite <- (Hdl (submit_exposed r) (mem w)) in DEV
    by (exists fua, pr, bl; split; [exact Hbl|]; destruct x; injection K as <- <- <-; subst; exact SV).
  rewrite lun_nsid in DEV by exact Hu. rewrite (N.mod_small (ptr (rq_data q))) in DEV by lia.
  assert (Hcl : forall i, (i < length bs)%nat -> ptr (rq_cdb q) + N.of_nat i < 2 ^ 64 /\ ~ in_span (rq_data q) (ptr (rq_cdb q) + N.of_nat i)).
  { intros i Hl. destruct Hc as [Hc _]. split; [lia|]. apply Hap. unfold in_span. lia. }
  destruct (N.ltb_spec (cap (rq_lun q + 1)) (lba + n)) as [Hr|Hr].
  - (* out of range *)
    destruct (complete_oor t (rq_cdb q) (rq_data q) (rq_lun q) w t1 al _ Hi E Ha X Hh buffer (rq_sense q) Hsm Hs8) as (t2 & w2 & sb & C & Hi2 & Hsay & Wr & Tr).
    assert (R : disk_step (fun lun => cap (lun + 1)) d x = (d, AnsOutOfRange)).
    { destruct x as [u b m|u b data]; injection K as <- <- <-; subst u; unfold disk_step.
      - replace (b + m <=? cap (rq_lun q + 1)) with false by lia. reflexivity.
      - replace (b + blocks_of data <=? cap (rq_lun q + 1)) with false by lia. reflexivity. }
    rewrite R. exists t1, al, r, (mem w), lba_out_of_range, t2, CHECK_CONDITION, w2. split; [exact E|]. split; [exact Hal|]. split; [exact G|]. split; [exact DEV|].
    assert (Hm : same_medium w w2).
    { intros y Hy. destruct Wr as [_ Wr]. apply Wr. destruct Hsay as [L _]. rewrite L. lia. }
    split; [|split; [|split; [|split; [|split; [|split]]]]].
    + rewrite set_mem_same. exact C.
    + assert (O : out_of_range_sense w2 (ptr (rq_sense q))) by (exists sb; split; [exact Hsay|apply Wr]).
      destruct x; split; auto.
    + exact (stores_same _ _ _ Hs Hm).
    + exact Hi2.
    + exact Tr.
    + intros y Hy Hz. destruct Wr as [_ Wr]. apply Wr. destruct Hsay as [L _]. rewrite L. intros Hw. apply (Hz (rq_sense q)); [destruct x; cbn; auto|unfold in_span; lia].
    + intros y Hy. destruct (wrote_mapped _ _ _ _ _ Wr Hy) as [b' Hb]. congruence.
  - assert (Hr64 : lba + n <= 2 ^ 64) by (specialize (Hcap (rq_lun q + 1)); lia).
    set (m := if opc =? 2 then copy (mem w) (medium (rq_lun q + 1) lba 0) (ptr (rq_data q)) (n * 4096)
              else copy (mem w) (ptr (rq_data q)) (medium (rq_lun q + 1) lba 0) (n * 4096)).
    assert (DEV' : drv 0%nat (submit_exposed r) (mem w) = (m, 0)) by (rewrite DEV; unfold m; destruct (opc =? 2); reflexivity).
    assert (Hc2 : span_holds (set_mem w m) (rq_cdb q) bs).
    { destruct Hc as [Hc0 Hc1]. split; [exact Hc0|]. intros i b Hb. cbn [mem set_mem]. rewrite <- (Hc1 _ _ Hb).
      destruct (Hcl i) as [Hy Hz]; [apply nth_error_Some; congruence|]. unfold m. destruct (opc =? 2); apply copy_out.
      - unfold in_span in Hz. lia.
      - pose proof (medium_high (rq_lun q + 1) lba 0). lia. }
    destruct (complete_good t (rq_cdb q) (rq_data q) (rq_lun q) w bs t1 al _ Hi Hc Hne Hin E Ha X Hh m 0 buffer (rq_sense q) Hc2 zero_ok) as (t2 & w2 & C & Hi2 & M2 & Tr).
    destruct x as [u b k|u b data]; injection K as <- <- <-; subst u; unfold disk_step.
    + replace (b + k <=? cap (rq_lun q + 1)) with true by lia. exists t1, al, r, m, 0, t2, GOOD, w2. split; [exact E|]. split; [exact Hal|]. split; [exact G|]. split; [exact DEV'|]. split; [exact C|]. change (2 =? 2) with true in m. cbv iota in m.
      split; [|split; [|split; [exact Hi2|split; [exact Tr|split]]]].
      * split; [reflexivity|]. split; [apply disk_read_length|]. intros i c Hi'. rewrite M2. unfold m. rewrite copy_in.
        -- exact (medium_read w d (rq_lun q) b k i c Hs Hu Hr64 Hi').
        -- apply disk_read_nth in Hi'. apply Hi'.
      * apply (stores_same w); [exact Hs|]. intros y Hy. rewrite M2. unfold m. apply copy_out. lia.
      * intros y Hy Hz. rewrite M2. unfold m. apply copy_out. intros Hw. apply (Hz (rq_data q)); [cbn; auto|unfold in_span; lia].
      * intros y Hy. rewrite M2. unfold m, copy. destruct (_ && _) eqn:Cp; [|exact Hy]. set (i := y - ptr (rq_data q)). rewrite <- (N2Nat.id i).
        erewrite (medium_read w d (rq_lun q) b k (N.to_nat i)); [discriminate|exact Hs|exact Hu|exact Hr64|].
        apply nth_error_nth' with (d := x00). pose proof (disk_read_length d (rq_lun q) b k). lia.
    + replace (b + blocks_of data <=? cap (rq_lun q + 1)) with true by lia. exists t1, al, r, m, 0, t2, GOOD, w2. split; [exact E|]. split; [exact Hal|]. split; [exact G|]. split; [exact DEV'|]. split; [exact C|]. change (1 =? 2) with false in m. cbv iota in m.
      split; [|split; [|split; [exact Hi2|split; [exact Tr|split]]]].
      * reflexivity.
      * destruct Hask as (f & _ & _ & _ & Hask). destruct Hask as (_ & _ & _ & _ & Hlen').
        apply (stores_write w w2 d (rq_lun q) b (blocks_of data) data (ptr (rq_data q)) Hs Hu Hr64).
        -- unfold blocks_of. rewrite Hlen', N.div_mul by discriminate. reflexivity.
        -- intros i c Hi'. destruct Hx as [_ Hx]. apply Hx. exact Hi'.
        -- intros y _. rewrite M2. reflexivity.
      * intros y Hy _. rewrite M2. unfold m. apply copy_out. pose proof (medium_high (rq_lun q + 1) b 0). lia.
      * intros y Hy. rewrite M2. unfold m, copy. destruct (_ && _) eqn:Cp; [|exact Hy]. apply Hdm. unfold blocks_of in *. lia.
Qed.

Lemma presents_serves cap drv w q x : disk_like cap drv -> api_presents w q x -> serves cap drv x (ptr (rq_data q)).
Proof.
  intros D (_ & _ & _ & _ & _ & (bs & _ & (f & Hf & Hn & _ & Hx)) & _). apply (disk_like_serves _ _ _ _ D).
  - destruct x; destruct Hx as (_ & _ & _ & -> & _); apply rw_lba_lt.
  - destruct x as [u b n|u b data]; cbn [io_blocks]; destruct Hx as (_ & _ & _ & _ & Hl).
    + lia.
    + unfold blocks_of. rewrite Hl, N.div_mul by discriminate. lia.
Qed.
Lemma lib_step cap drv t w q x d buffer : disk_like cap drv -> cap_ok cap -> idle t -> stores w d -> api_presents w q x ->
  let '(d', a) := disk_step (fun lun => cap (lun + 1)) d x in
  exists t1 al r m c t' status w', Begin t (rq_cdb q) (rq_data q) (rq_lun q) w = Ret (t1, begin_ok al) w /\
    al = match x with IoRead _ _ n => n * 4096 | IoWrite _ _ _ => 0 end /\
    GetNvmeWrappers t1 = [r] /\ drv 0%nat (submit_exposed r) (mem w) = (m, c) /\
    Complete t1 [c mod 2 ^ 128] buffer (rq_sense q) (set_mem w m) = Ret (t', api_ok status) w' /\
    api_observes w' q status x a /\ stores w' d' /\ idle t' /\ trace w' = trace w /\
    untouched w w' (match x with IoRead _ _ _ => [rq_data q; rq_sense q] | IoWrite _ _ _ => [rq_sense q] end) /\
    (forall y, mem w y <> None -> mem w' y <> None).
Proof. intros D Hc Hi Hs P. apply lib_step_for; try assumption. eapply presents_serves; eassumption. Qed.

(** ** C79 *)
Lemma api_step_dev cap drv t w q x d : disk_like cap drv -> cap_ok cap -> idle t -> stores w d -> api_presents w q x ->
  let '(d', a) := disk_step (fun lun => cap (lun + 1)) d x in
  exists t' status w', api_io drv t q w = Ret (t', status) w' /\
    api_observes w' q status x a /\ stores w' d' /\ idle t' /\ trace w' = trace w /\
    untouched w w' (match x with IoRead _ _ _ => [rq_data q; rq_sense q] | IoWrite _ _ _ => [rq_sense q] end).
Proof.
  intros Hdl Hcap Hi Hs P. pose proof (lib_step cap drv t w q x d (rq_data q) Hdl Hcap Hi Hs P) as Z.
  destruct (disk_step (fun lun => cap (lun + 1)) d x) as [d' a].
  destruct Z as (t1 & al & r & m & c & t' & st & w' & E & _ & G & DEV & C & O & S & I & T & U & _).
  exists t', st, w'. split; [|auto].
  exact (api_io_eq drv t q w t1 _ r E G _ DEV t' (api_ok st) w' C).
Qed.

Theorem C79_api_step : forall cap t w q x d, cap_ok cap -> idle t -> stores w d -> api_presents w q x ->
  let '(d', a) := disk_step (fun lun => cap (lun + 1)) d x in
  exists t' status w', api_io (nvme_disk cap) t q w = Ret (t', status) w' /\
    api_observes w' q status x a /\ stores w' d' /\ idle t' /\ trace w' = trace w /\
    untouched w w' (match x with IoRead _ _ _ => [rq_data q; rq_sense q] | IoWrite _ _ _ => [rq_sense q] end).
Proof. intros cap t w q x d. exact (api_step_dev cap (nvme_disk cap) t w q x d (disk_like_self cap)). Qed.
Print Assumptions C79_api_step.

Lemma bytes_at_unique w a bs bs' : bytes_at w a bs -> bytes_at w a bs' -> length bs = length bs' -> bs = bs'.
Proof.
  intros H H' L. apply (nth_ext _ _ x00 x00 L). intros i Hi.
  assert (E : nth_error bs i = Some (nth i bs x00)) by (apply nth_error_nth'; exact Hi).
  assert (E' : nth_error bs' i = Some (nth i bs' x00)) by (apply nth_error_nth'; lia).
  apply H in E. apply H' in E'. congruence.
Qed.
Lemma api_observes_unique w q st x a a' : api_observes w q st x a -> api_observes w q st x a' -> a = a'.
Proof.
  destruct x as [u b n|u b data], a as [bs| |], a' as [bs'| |]; cbn; intros H H'; try reflexivity; try contradiction;
    try (destruct H as [H _], H' as [H' _]; rewrite H in H'; discriminate H');
    try (destruct H as [H _]; rewrite H in H'; discriminate H'); try (destruct H' as [H' _]; rewrite H in H'; discriminate H').
  f_equal. destruct H as (_ & L & H), H' as (_ & L' & H'). apply (bytes_at_unique w (ptr (rq_data q))); auto. lia.
Qed.

(** every history of reads and writes served by one object is a history of the
    disk whose units are the namespaces *)
Theorem C79_api_refines : forall cap t0 w0 l t w d, cap_ok cap -> idle t0 -> stores w0 d -> api_history cap t0 w0 l t w ->
  exists d', explains (fun lun => cap (lun + 1)) d l d' /\ stores w d' /\ idle t.
Proof.
  intros cap t0 w0 l t w d Hcap Hi Hs H.
  induction H as [|l t w w' H IH Hm|l t w q x a st t' w' H IH P E O].
  - exists d. split; [constructor|]. auto.
  - destruct IH as (d' & X & S & I). exists d'. split; [exact X|]. split; [exact (stores_same _ _ _ S Hm)|exact I].
  - destruct IH as (d1 & X & S & I). pose proof (C79_api_step cap t w q x d1 Hcap I S P) as Z.
    destruct (disk_step (fun lun => cap (lun + 1)) d1 x) as [d' a'] eqn:D.
    destruct Z as (t2 & st2 & w2 & E2 & O2 & S2 & I2 & _). rewrite E in E2.
    assert (Q := E2). apply ret_eq in Q as [Q <-]. apply pair_eq in Q as [<- <-].
    pose proof (api_observes_unique _ _ _ _ _ _ O O2) as ->.
    exists d'. split; [|auto]. pose proof (explains_snoc _ _ _ _ x X) as Y. rewrite D in Y. exact Y.
Qed.
Print Assumptions C79_api_refines.

(** ** C80 *)
Lemma In_firstn_In {A} (y : A) n l : In y (firstn n l) -> In y l.
Proof. intros H. rewrite <- (firstn_skipn n l). apply in_or_app. auto. Qed.
Lemma sub_of_exposed r : sub_of r = submit_exposed r.
Proof.
  unfold sub_of, submit_exposed. f_equal. rewrite slice_le_encode by lia. rewrite le_le_encode. change (8 * N.of_nat 24) with 192. change (8 * N.of_nat 8) with 64.
  rewrite N.mod_small by apply bits_lt. reflexivity.
Qed.
Lemma engine_disk_for cap drv wrs q w x d : serves cap drv x (ptr (rq_data q)) -> cap_ok cap -> stores w d -> api_presents w q x ->
  let '(d', a) := disk_step (fun lun => cap (lun + 1)) d x in
  exists status t' subs w', engine drv wrs q w =
      Ret ({| er_return_code := status; er_alloc_len := match x with IoRead _ _ n => n * 4096 | IoWrite _ _ _ => 0 end |}, t', subs) w' /\
    api_observes w' q status x a /\ stores w' d' /\ trace w' = trace w /\
    untouched w w' (match x with IoRead _ _ _ => [rq_data q; rq_sense q] | IoWrite _ _ _ => [rq_sense q] end) /\
    (forall y, mem w y <> None -> mem w' y <> None).
Proof.
  intros Hdl Hcap Hs P.
  pose proof (lib_step_for cap drv (Translation_init wrs) w q x d
    (response_span q (match x with IoRead _ _ n => n * 4096 | IoWrite _ _ _ => 0 end)) Hdl Hcap (idle_init wrs) Hs P) as Z.
  assert (L : match x with IoRead _ _ n => n * 4096 | IoWrite _ _ _ => 0 end <= len (rq_data q)).
  { destruct P as (_ & _ & _ & _ & _ & _ & P). destruct x; [exact P|apply N.le_0_l]. }
  destruct (disk_step (fun lun => cap (lun + 1)) d x) as [d' a].
  destruct Z as (t1 & al & r & m & c & t' & st & w' & E & -> & G & DEV & C & O & S & _ & T & U & M).
  exists st, t', [sub_of r], w'. split; [|auto].
  rewrite (engine_ok drv wrs q w t1 _ w t' st w' E L); [rewrite G; reflexivity|].
  rewrite G. cbn [map device_run]. rewrite sub_of_exposed.
  rewrite DEV. exact C.
Qed.

Lemma asks_less bs lun k k' x : k <= k' -> asks bs lun k x -> asks bs lun k' x.
Proof. intros L (f & H1 & H2 & H). exists f. split; [exact H1|]. split; [lia|exact H]. Qed.

(** what the adapter's request presents to the engine *)
Lemma scsi_presents_api w w1 kz wild c x : scsi_presents w kz c x ->
  (forall y, ~ (kz <= y < kz + sc_bufflen c) -> mem w1 y = mem w y) ->
  (forall y, kz <= y < kz + sc_bufflen c -> mem w1 y <> None) ->
  (match x with IoRead _ _ _ => True | IoWrite _ _ data => bytes_at w1 kz data end) ->
  let q := mock_request kz wild c in
  1 <= sc_bufflen c < 65536 /\ rq_data q = {| ptr := kz; len := sc_bufflen c |} /\ rq_sense q = {| ptr := sc_sense c; len := 96 |} /\
  api_presents w1 q x.
Proof.
  intros ((bs & Hb & Hcl & Hcs & Hcb & Hask) & (Hsm & Hsb) & Hsg & Hkz & Hun & Hkl & Hx) Hout Hin Hd q.
  assert (Hn : 1 <= sc_bufflen c < 65536).
  { destruct Hask as (f & _ & Hn & _ & Hask). destruct x as [u b k|u b data].
    - destruct Hask as (_ & _ & _ & _ & ->). lia.
    - destruct Hask as (_ & _ & _ & _ & L). destruct Hx as (_ & L' & _). lia. }
  assert (Hlen : sc_bufflen c mod 65536 = sc_bufflen c) by (apply N.mod_small; lia).
  assert (Hq : rq_cdb q = {| ptr := sc_cmnd c; len := sc_cmd_len c |}).
  { unfold q, mock_request. cbn [rq_cdb]. rewrite N.mod_small by lia. reflexivity. }
  assert (Hqd : rq_data q = {| ptr := kz; len := sc_bufflen c |}).
  { unfold q, mock_request. cbn [rq_data]. cbv zeta. rewrite Hlen. replace (0 <? sc_bufflen c) with true by lia. reflexivity. }
  assert (Hqs : rq_sense q = {| ptr := sc_sense c; len := 96 |}) by reflexivity.
  split; [exact Hn|]. split; [exact Hqd|]. split; [exact Hqs|].
  assert (Hcl2 : forall i, (i < length bs)%nat -> ~ (kz <= sc_cmnd c + N.of_nat i < kz + sc_bufflen c)).
  { intros i Hi Hz. apply (bytes_mapped _ _ _ _ Hb Hi). apply Hun. exact Hz. }
  assert (Hb1 : bytes_at w1 (sc_cmnd c) bs).
  { intros i b Hi. rewrite Hout; [apply Hb; exact Hi|]. apply Hcl2. apply nth_error_Some. congruence. }
  unfold api_presents. rewrite Hq, Hqd, Hqs. unfold region, span_mapped. cbn [ptr len].
  assert (Hcm : forall y, sc_cmnd c <= y < sc_cmnd c + sc_cmd_len c -> exists i, (i < length bs)%nat /\ y = sc_cmnd c + N.of_nat i).
  { intros y Hy. exists (N.to_nat (y - sc_cmnd c)). split; lia. }
  split; [|split; [|split; [|split; [|split; [|split]]]]].
  - split; [|exact Hcb]. intros y Hy. destruct (Hcm y Hy) as (i & Hi & ->). apply (bytes_mapped _ _ _ _ Hb1 Hi).
  - split; [exact Hin|exact Hkl].
  - split; [|exact Hsb]. intros y Hy. rewrite Hout; [apply Hsm; exact Hy|]. intros Hz. apply (Hsm y Hy). apply Hun. exact Hz.
  - lia.
  - intros y Hy. unfold in_span in *. cbn [ptr len] in *. destruct (Hcm y Hy) as (i & Hi & ->). apply Hcl2. exact Hi.
  - exists bs. split; [split; [cbn [len]; lia|exact Hb1]|]. apply (asks_less bs (sc_lun c) 15); [lia|exact Hask].
  - destruct x as [u b k|u b data].
    + destruct Hx as (_ & -> & _). lia.
    + destruct Hx as (_ & L & _). split; [exact L|exact Hd].
Qed.

Lemma adapter_step_for cap drv wrs kz wild c w x d : serves cap drv x kz -> cap_ok cap -> stores w d -> scsi_presents w kz c x ->
  let '(d', a) := disk_step (fun lun => cap (lun + 1)) d x in
  exists r w', scsi_queuecommand drv wrs kz wild c w = Ret r w' /\
    scsi_observes w' c r x a /\ stores w' d' /\
    trace w' = trace w ++ [EvAlloc 1 (sc_bufflen c) kz; EvDealloc kz (sc_bufflen c)].
Proof.
  intros Hdl Hcap Hs P. pose proof P as P0.
  destruct P0 as (_ & (Hsm & Hsb) & Hsg & Hkz & Hun & Hkl & Hx).
  set (q := mock_request kz wild c). set (n := sc_bufflen c) in *. set (w1 := with_buffer w kz n).
  destruct x as [u b k|u b data].
  - (* READ *)
    destruct (scsi_presents_api w w1 kz wild c _ P) as (Hn & Hqd & Hqs & P1).
    { intros y Hy. apply with_buffer_out. exact Hy. }
    { intros y Hy. unfold w1, n. rewrite with_buffer_in by exact Hy. discriminate. }
    { exact I. }
    fold q n in Hn, Hqd, Hqs, P1.
    assert (S1 : stores w1 d).
    { apply (stores_same w); [exact Hs|]. intros y Hy. apply with_buffer_out. lia. }
    assert (Hdl' : serves cap drv (IoRead u b k) (ptr (rq_data q))) by (rewrite Hqd; exact Hdl).
    pose proof (engine_disk_for cap drv wrs q w1 (IoRead u b k) d Hdl' Hcap S1 P1) as Z.
    destruct (disk_step (fun lun => cap (lun + 1)) d (IoRead u b k)) as [d' a] eqn:D.
    destruct Z as (st & t' & subs & w2 & E & O & S2 & T & U & M).
    destruct Hx as (Hdi & Hnk & Hsv & Htot).
    assert (Hin : forall y, In y (sg_addrs (sc_sgl c)) -> ~ (kz <= y < kz + n)).
    { intros y Hy Hz. destruct Hsv as [_ Hm]. apply (Hm _ Hy). apply Hun. exact Hz. }
    assert (Hv2 : sg_valid w2 (sc_sgl c)).
    { destruct Hsv as [Hd Hm]. split; [exact Hd|]. intros y Hy. apply M. unfold w1. rewrite with_buffer_out by (apply Hin; exact Hy). apply Hm. exact Hy. }
    assert (Hmap : mapped w2 kz (N.of_nat (N.to_nat n))).
    { rewrite N2Nat.id. intros y Hy. apply M. unfold w1. rewrite with_buffer_in by exact Hy. discriminate. }
    destruct (mapped_bytes _ _ _ Hmap) as (bs & Hl & Hb).
    assert (Hld : (length bs <= length (sg_addrs (sc_sgl c)))%nat).
    { pose proof (sg_total_length (sc_sgl c)). lia. }
    destruct (sg_scatter_ok (sc_sgl c) bs w2 Hv2 Hld) as (m' & Es' & Hh' & Hm').
    exists {| mr_result := st; mr_resid := Some 0; mr_subs := subs |}, (log (set_mem w2 m') (EvDealloc kz n)).
    split; [|split; [|split]].
    + rewrite mock_eq. cbv zeta. fold q. rewrite Hqd. cbn [len]. replace (0 <? n) with true by lia. replace (kz =? 0) with false by lia.
      change (rq_data_in q) with (sc_from_device c). rewrite Hdi. cbn [andb negb]. unfold bind at 1. unfold ret at 1.
      change (set_mem (log w (EvAlloc 1 n kz)) (map_pages (mem w) kz n (fun _ : N => x00))) with w1.
      unfold bind at 1. rewrite E. unfold bind at 1. unfold sg_copy_from_buffer. unfold bind at 1. unfold bind at 1. cbn [er_alloc_len].
      rewrite (load_ok w2 kz _ bs).
      * rewrite Es'. unfold ret at 1. unfold bind, kfree, ret. cbn [er_return_code].
        replace (n - N.of_nat (length bs)) with 0 by lia. reflexivity.
      * exact Hb.
      * lia.
    + unfold disk_step in D. destruct (b + k <=? cap (u + 1)); apply pair_eq in D as [_ <-].
      * cbn [api_observes] in O. destruct O as (-> & L & O). cbn [scsi_observes mr_result mr_resid]. split; [reflexivity|]. split; [reflexivity|]. split; [exact L|].
        rewrite Hqd in O. cbn [ptr] in O. rewrite (bytes_at_unique w2 kz _ bs O Hb) by lia.
        destruct Hh' as [H1 H2]. split; [exact H1|]. exact H2.
      * cbn [api_observes] in O. destruct O as (-> & sb & Hsay & O). cbn [scsi_observes mr_result]. split; [reflexivity|].
        exists sb. split; [exact Hsay|]. rewrite Hqs in O. cbn [ptr] in O. intros i y Hi. cbn [mem log set_mem]. rewrite Hm'; [apply O; exact Hi|].
        intros Hy. apply In_firstn_In in Hy. apply Hsg in Hy as [_ Hy]. apply Hy. unfold in_span. cbn [ptr len].
        assert (i < length sb)%nat by (apply nth_error_Some; congruence). destruct Hsay as [L8 _]. lia.
    + apply (stores_same w2); [exact S2|]. intros y Hy. cbn [mem log set_mem]. apply Hm'. intros Hz. apply In_firstn_In in Hz. apply Hsg in Hz as [Hz _]. lia.
    + cbn [trace log set_mem]. rewrite T. unfold w1, with_buffer. cbn [trace log set_mem]. rewrite <- app_assoc. reflexivity.
  - (* WRITE *)
    destruct Hx as (Hdi & Hnd & Hh).
    set (w2 := set_mem w1 (store_bytes (mem w1) kz data)).
    assert (Hn2 : N.of_nat (length data) = n) by (symmetry; exact Hnd).
    destruct (scsi_presents_api w w2 kz wild c _ P) as (Hn & Hqd & Hqs & P1).
    { intros y Hy. unfold w2. cbn [mem set_mem]. rewrite store_bytes_out by (rewrite Hn2; exact Hy). apply with_buffer_out. exact Hy. }
    { intros y Hy. unfold w2. cbn [mem set_mem]. fold n in Hy. replace y with (kz + N.of_nat (N.to_nat (y - kz))) by lia.
      erewrite store_bytes_in; [discriminate|]. apply nth_error_nth' with (d := x00). lia. }
    { intros i y Hi. unfold w2. cbn [mem set_mem]. apply store_bytes_in. exact Hi. }
    fold q n in Hn, Hqd, Hqs, P1.
    assert (S1 : stores w2 d).
    { apply (stores_same w); [exact Hs|]. intros y Hy. unfold w2. cbn [mem set_mem]. rewrite store_bytes_out by (rewrite Hn2; lia). apply with_buffer_out. lia. }
    assert (Hdl' : serves cap drv (IoWrite u b data) (ptr (rq_data q))) by (rewrite Hqd; exact Hdl).
    pose proof (engine_disk_for cap drv wrs q w2 (IoWrite u b data) d Hdl' Hcap S1 P1) as Z.
    destruct (disk_step (fun lun => cap (lun + 1)) d (IoWrite u b data)) as [d' a] eqn:D.
    destruct Z as (st & t' & subs & w3 & E & O & S2 & T & U & M).
    exists {| mr_result := st; mr_resid := None; mr_subs := subs |}, (log w3 (EvDealloc kz n)).
    split; [|split; [|split]].
    + rewrite mock_eq. cbv zeta. fold q. rewrite Hqd. cbn [len]. replace (0 <? n) with true by lia. replace (kz =? 0) with false by lia.
      change (rq_data_in q) with (sc_from_device c). rewrite Hdi. cbn [andb negb].
      change (set_mem (log w (EvAlloc 1 n kz)) (map_pages (mem w) kz n (fun _ : N => x00))) with w1.
      unfold bind at 1. unfold sg_copy_to_buffer. unfold bind at 1. rewrite (sg_gather_ok (sc_sgl c) _ data).
      * unfold bind at 1. rewrite store_ok.
        -- fold w2. unfold ret at 1. unfold bind at 1. rewrite E. unfold bind, kfree, ret. cbn [er_return_code]. reflexivity.
        -- intros y Hy. rewrite Hn2 in Hy. unfold w1. rewrite with_buffer_in by exact Hy. discriminate.
      * destruct Hh as [H1 H2]. split; [exact H1|]. intros i y z Hi Hb. unfold w1. rewrite with_buffer_old; [eapply H2; eassumption|exact Hun|].
        rewrite (H2 _ _ _ Hi Hb). discriminate.
      * destruct Hh as [H1 _]. lia.
    + unfold disk_step in D. destruct (b + blocks_of data <=? cap (u + 1)); apply pair_eq in D as [_ <-].
      * exact O.
      * cbn [api_observes] in O. destruct O as (-> & O). split; [reflexivity|]. exact O.
    + apply (stores_same w3); [exact S2|]. intros y Hy. reflexivity.
    + cbn [trace log set_mem]. rewrite T. unfold w2, w1, with_buffer. cbn [trace log set_mem]. rewrite <- app_assoc. reflexivity.
Qed.

Lemma scsi_presents_serves cap drv w kz c x : disk_like cap drv -> scsi_presents w kz c x -> serves cap drv x kz.
Proof.
  intros D ((bs & _ & _ & _ & _ & (f & Hf & Hn & _ & Hx)) & _). apply (disk_like_serves _ _ _ _ D).
  - destruct x; destruct Hx as (_ & _ & _ & -> & _); apply rw_lba_lt.
  - destruct x as [u b n|u b data]; cbn [io_blocks]; destruct Hx as (_ & _ & _ & _ & Hl).
    + lia.
    + unfold blocks_of. rewrite Hl, N.div_mul by discriminate. lia.
Qed.
Lemma adapter_step_dev cap drv wrs kz wild c w x d : disk_like cap drv -> cap_ok cap -> stores w d -> scsi_presents w kz c x ->
  let '(d', a) := disk_step (fun lun => cap (lun + 1)) d x in
  exists r w', scsi_queuecommand drv wrs kz wild c w = Ret r w' /\
    scsi_observes w' c r x a /\ stores w' d' /\
    trace w' = trace w ++ [EvAlloc 1 (sc_bufflen c) kz; EvDealloc kz (sc_bufflen c)].
Proof. intros D Hc Hs P. apply adapter_step_for; try assumption. eapply scsi_presents_serves; eassumption. Qed.

Theorem C80_adapter_step : forall cap wrs kz wild c w x d, cap_ok cap -> stores w d -> scsi_presents w kz c x ->
  let '(d', a) := disk_step (fun lun => cap (lun + 1)) d x in
  exists r w', scsi_queuecommand (nvme_disk cap) wrs kz wild c w = Ret r w' /\
    scsi_observes w' c r x a /\ stores w' d' /\
    trace w' = trace w ++ [EvAlloc 1 (sc_bufflen c) kz; EvDealloc kz (sc_bufflen c)].
Proof. intros cap wrs kz wild c w x d. exact (adapter_step_dev cap (nvme_disk cap) wrs kz wild c w x d (disk_like_self cap)). Qed.
Print Assumptions C80_adapter_step.

Lemma sg_holds_unique w sgl bs bs' : sg_holds w sgl bs -> sg_holds w sgl bs' -> length bs = length bs' -> bs = bs'.
Proof.
  intros [H1 H] [_ H'] L. apply (nth_ext _ _ x00 x00 L). intros i Hi.
  assert (E : nth_error bs i = Some (nth i bs x00)) by (apply nth_error_nth'; exact Hi).
  assert (E' : nth_error bs' i = Some (nth i bs' x00)) by (apply nth_error_nth'; lia).
  assert (A : nth_error (sg_addrs sgl) i = Some (nth i (sg_addrs sgl) 0)) by (apply nth_error_nth'; lia).
  apply (H _ _ _ A) in E. apply (H' _ _ _ A) in E'. congruence.
Qed.
Lemma scsi_observes_unique w c r x a a' : scsi_observes w c r x a -> scsi_observes w c r x a' -> a = a'.
Proof.
  destruct x as [u b n|u b data], a as [bs| |], a' as [bs'| |]; cbn; intros H H'; try reflexivity; try contradiction;
    try (destruct H as [H _]; destruct H' as [H' _]; rewrite H in H'; discriminate H');
    try (destruct H as [H _]; rewrite H in H'; discriminate H'); try (destruct H' as [H' _]; rewrite H in H'; discriminate H').
  f_equal. destruct H as (_ & _ & L & H), H' as (_ & _ & L' & H'). apply (sg_holds_unique w (sc_sgl c)); auto. lia.
Qed.

Theorem C80_adapter_refines : forall cap w0 l w d, cap_ok cap -> stores w0 d -> scsi_history cap w0 l w ->
  exists d', explains (fun lun => cap (lun + 1)) d l d' /\ stores w d'.
Proof.
  intros cap w0 l w d Hcap Hs H.
  induction H as [|l w w' H IH Hm|l w wrs kz wild c x a r w' H IH P E O].
  - exists d. split; [constructor|exact Hs].
  - destruct IH as (d' & X & S). exists d'. split; [exact X|]. exact (stores_same _ _ _ S Hm).
  - destruct IH as (d1 & X & S). pose proof (C80_adapter_step cap wrs kz wild c w x d1 Hcap S P) as Z.
    destruct (disk_step (fun lun => cap (lun + 1)) d1 x) as [d' a'] eqn:D.
    destruct Z as (r2 & w2 & E2 & O2 & S2 & _). rewrite E in E2.
    apply ret_eq in E2 as [<- <-].
    pose proof (scsi_observes_unique _ _ _ _ _ _ O O2) as ->.
    exists d'. split; [|exact S2]. pose proof (explains_snoc _ _ _ _ x X) as Y. rewrite D in Y. exact Y.
Qed.
Print Assumptions C80_adapter_refines.

(** ** C81 *)
Lemma explains_inv_snoc cap d l p d' : explains cap d (l ++ [p]) d' ->
  exists d1, explains cap d l d1 /\ p = (fst p, snd (disk_step cap d1 (fst p))) /\ d' = fst (disk_step cap d1 (fst p)).
Proof.
  intros H. inversion H as [E|l1 d1 x H1 E E']; [destruct l; discriminate E|].
  apply app_inj_tail in E as [-> <-]. exists d1. auto.
Qed.
Lemma explains_app cap d l2 : forall l1 d', explains cap d (l1 ++ l2) d' -> exists d1, explains cap d l1 d1 /\ explains cap d1 l2 d'.
Proof.
  induction l2 as [|p l2 IH] using rev_ind; intros l1 d' H.
  - rewrite app_nil_r in H. exists d'. split; [exact H|constructor].
  - rewrite app_assoc in H. apply explains_inv_snoc in H as (d2 & H & Hp & ->). apply IH in H as (d1 & H1 & H2).
    exists d1. split; [exact H1|]. rewrite Hp. apply explains_snoc. exact H2.
Qed.
Lemma explains_keeps cap d l : forall d', explains cap d l d' -> forall lun b, (forall p, In p l -> ~ writes_block lun b p) ->
  forall o, d' lun b o = d lun b o.
Proof.
  induction l as [|p l IH] using rev_ind; intros d' H lun b Hw o.
  - inversion H as [|l1 ? ? ? E]; [reflexivity|]. destruct l1; discriminate E.
  - apply explains_inv_snoc in H as (d1 & H & Hp & ->). rewrite <- (IH d1 H lun b) by (intros; apply Hw; apply in_or_app; auto).
    assert (Hw' : ~ writes_block lun b p) by (apply Hw; apply in_or_app; right; left; reflexivity). clear Hw. rename Hw' into Hw. destruct p as [x a]. cbn [fst] in *. apply pair_eq in Hp as [_ ->].
    destruct x as [u lba n|u lba data]; unfold disk_step in *.
    + destruct (lba + n <=? cap u); reflexivity.
    + destruct (lba + blocks_of data <=? cap u); [|reflexivity]. cbn [fst snd writes_block] in *. unfold disk_write.
      destruct ((lun =? u) && (lba <=? b) && (b <? lba + blocks_of data)) eqn:C; [|reflexivity]. exfalso. apply Hw. lia.
Qed.
Lemma explains_one cap d p d' : explains cap d [p] d' -> p = (fst p, snd (disk_step cap d (fst p))) /\ d' = fst (disk_step cap d (fst p)).
Proof.
  intros H. apply (explains_inv_snoc cap d []) in H as (d1 & H & Hp & ->). inversion H as [|l1 ? ? ? E]; [subst; auto|]. destruct l1; discriminate E.
Qed.
Lemma disk_read_byte d lun lba n b o : lba <= b < lba + n -> o < 4096 -> block_byte lba b o (disk_read d lun lba n) = Some (d lun b o).
Proof.
  intros Hb Ho. unfold block_byte, disk_read. set (j := (b - lba) * 4096 + o).
  rewrite nth_error_map. rewrite (nth_error_nth' (seq 0 (N.to_nat (n * 4096))) 0%nat) by (rewrite seq_length; unfold j; lia).
  rewrite seq_nth by (unfold j; lia). cbn [option_map Nat.add]. rewrite N2Nat.id. f_equal.
  replace (j / 4096) with (b - lba) by (unfold j; rewrite N.div_add_l by discriminate; rewrite N.div_small by exact Ho; lia).
  replace (j mod 4096) with o by (unfold j; rewrite N.add_comm, N.mod_add by discriminate; rewrite N.mod_small by exact Ho; reflexivity).
  f_equal. lia.
Qed.

Lemma explains_read_back cap d l1 l2 lun lba data a lba' n bs d' b o :
  explains cap d (l1 ++ (IoWrite lun lba data, a) :: l2 ++ [(IoRead lun lba' n, AnsData bs)]) d' ->
  a = AnsDone -> (forall p, In p l2 -> ~ writes_block lun b p) -> lba <= b < lba + blocks_of data -> lba' <= b < lba' + n -> o < 4096 ->
  block_byte lba' b o bs = block_byte lba b o data.
Proof.
  intros H -> Hw Hb Hb' Ho. apply explains_app in H as (d1 & _ & H).
  change ((IoWrite lun lba data, AnsDone) :: l2 ++ _) with ([(IoWrite lun lba data, AnsDone)] ++ (l2 ++ [(IoRead lun lba' n, AnsData bs)])) in H.
  apply explains_app in H as (d2 & H1 & H). apply explains_app in H as (d3 & H2 & H3).
  apply explains_one in H1 as [A1 ->], H3 as [A3 _]. cbn [fst] in *. apply pair_eq in A1 as [_ A1], A3 as [_ A3].
  unfold disk_step in A1, A3, H2. destruct (lba + blocks_of data <=? cap lun); [|discriminate A1]. cbn [fst] in H2.
  destruct (lba' + n <=? cap lun); [|discriminate A3]. cbn [snd] in A3. injection A3 as ->.
  rewrite disk_read_byte by assumption. rewrite (explains_keeps _ _ _ _ H2 lun b Hw). unfold disk_write.
  replace ((lun =? lun) && (lba <=? b) && (b <? lba + blocks_of data)) with true by lia.
  unfold block_byte. symmetry. apply nth_error_nth'. unfold blocks_of in *.
  pose proof (N.mul_div_le (N.of_nat (length data)) 4096). lia.
Qed.
Lemma explains_untouched cap d l lun lba n bs d' b o :
  explains cap d (l ++ [(IoRead lun lba n, AnsData bs)]) d' -> (forall p, In p l -> ~ writes_block lun b p) ->
  lba <= b < lba + n -> o < 4096 -> block_byte lba b o bs = Some (d lun b o).
Proof.
  intros H Hw Hb Ho. apply explains_app in H as (d1 & H & H1). apply explains_one in H1 as [A _]. apply pair_eq in A as [_ A]. cbn [fst] in A.
  unfold disk_step in A. destruct (lba + n <=? cap lun); [|discriminate A]. cbn [snd] in A. injection A as ->.
  rewrite disk_read_byte by assumption. rewrite (explains_keeps _ _ _ _ H lun b Hw). reflexivity.
Qed.

(** what was written and acknowledged is read back, whatever else was read and
    written in between elsewhere *)
Theorem C81_read_your_writes : forall cap w0 w l1 l2 lun lba data lba' n bs b o,
  cap_ok cap -> (exists d, stores w0 d) ->
  scsi_history cap w0 (l1 ++ (IoWrite lun lba data, AnsDone) :: l2 ++ [(IoRead lun lba' n, AnsData bs)]) w ->
  lba <= b < lba + blocks_of data -> lba' <= b < lba' + n -> (forall p, In p l2 -> ~ writes_block lun b p) -> o < 4096 ->
  block_byte lba' b o bs = block_byte lba b o data /\ block_byte lba b o data <> None.
Proof.
  intros cap w0 w l1 l2 lun lba data lba' n bs b o Hcap [d Hs] H Hb Hb' Hw Ho.
  destruct (C80_adapter_refines cap w0 _ w d Hcap Hs H) as (d' & X & _). split.
  - exact (explains_read_back _ _ _ _ _ _ _ _ _ _ _ _ _ _ X eq_refl Hw Hb Hb' Ho).
  - unfold block_byte. apply nth_error_Some. unfold blocks_of in *. pose proof (N.mul_div_le (N.of_nat (length data)) 4096). lia.
Qed.
Print Assumptions C81_read_your_writes.

(** blocks nobody has written (acknowledged) still read as at the start: writes
    to other units or other blocks, and failed writes, do not reach them *)
Theorem C81_unwritten_blocks_keep : forall cap w0 w l lun lba n bs b o d,
  cap_ok cap -> stores w0 d -> scsi_history cap w0 (l ++ [(IoRead lun lba n, AnsData bs)]) w ->
  lba <= b < lba + n -> (forall p, In p l -> ~ writes_block lun b p) -> o < 4096 ->
  block_byte lba b o bs = Some (d lun b o).
Proof.
  intros cap w0 w l lun lba n bs b o d Hcap Hs H Hb Hw Ho.
  destruct (C80_adapter_refines cap w0 _ w d Hcap Hs H) as (d' & X & _).
  exact (explains_untouched _ _ _ _ _ _ _ _ _ _ X Hw Hb Ho).
Qed.
Print Assumptions C81_unwritten_blocks_keep.

Lemma NoDup_app_disjoint {A} (l1 l2 : list A) : NoDup l1 -> NoDup l2 -> (forall x, In x l1 -> ~ In x l2) -> NoDup (l1 ++ l2).
Proof.
  induction l1 as [|a l1 IH]; intros H1 H2 H; [exact H2|]. inversion H1; subst. cbn [app]. constructor.
  - intros Hin. apply in_app_or in Hin as [Hin|Hin]; [contradiction|]. exact (H a (or_introl eq_refl) Hin).
  - apply IH; [assumption|exact H2|]. intros x Hx. apply H. right. exact Hx.
Qed.

(** *** a disk of 100 blocks per unit, and commands to it *)
Definition ex_pattern (x : N) : byte := match Byte.of_N (x mod 251) with Some b => b | None => x00 end.
Definition ex_disk_mem (cdb : list byte) : N -> option byte := fun x =>
  if 2 ^ 64 <=? x then Some (ex_pattern x)
  else if (0x1000 <=? x) && (x <? 0x1000 + N.of_nat (length cdb)) then nth_error cdb (N.to_nat (x - 0x1000))
  else if (0x20000 <=? x) && (x <? 0x24000) then Some xcd
  else if (0x40000 <=? x) && (x <? 0x40060) then Some x00 else None.
Definition ex_disk_world (cdb : list byte) : world := set_mem (ex_world []) (ex_disk_mem cdb).
Definition ex_disk : disk := fun lun b o => ex_pattern (medium (lun + 1) b o).
Definition ex_cap : N -> N := fun _ => 100.
Definition ex_write7 : list byte := B [0x2a;0;0;0;0;7;0;0;1;0].
Definition ex_read6 : list byte := B [0x28;0;0;0;0;6;0;0;2;0].

Lemma ex_stores cdb : stores (ex_disk_world cdb) ex_disk.
Proof.
  intros lun b o _ _ _. unfold ex_disk_world. cbn [mem set_mem]. unfold ex_disk_mem. pose proof (medium_high (lun + 1) b o) as H.
  apply N.leb_le in H. rewrite H. reflexivity.
Qed.
Lemma ex_data_nth n b i c : nth_error (ex_data n b) i = Some c -> c = b.
Proof. intros H. apply nth_error_In in H. apply repeat_spec in H. exact H. Qed.
Lemma ex_sgl_addr n y : In y (sg_addrs (sc_sgl (ex_scsi ex_write7 false n))) -> 0x20000 <= y < 0x20000 + (n / 2 + n / 2).
Proof.
  unfold ex_scsi, sg_addrs. cbn [sc_sgl flat_map fst snd]. rewrite app_nil_r. intros H. apply in_app_or in H as [H|H];
    apply in_map_iff in H as (i & <- & H); apply in_seq in H; lia.
Qed.
Example C80_premises_met :
  scsi_presents (ex_disk_world ex_write7) 0x90000 (ex_scsi ex_write7 false 4096) (IoWrite 2 7 (ex_data (N.to_nat 4096) xcd)) /\
  cap_ok ex_cap /\ stores (ex_disk_world ex_write7) ex_disk /\
  snd (disk_step ex_cap ex_disk (IoWrite 2 7 (ex_data (N.to_nat 4096) xcd))) = AnsDone /\
  snd (disk_step ex_cap ex_disk (IoWrite 2 100 (ex_data (N.to_nat 4096) xcd))) = AnsOutOfRange.
Proof.
  assert (L : N.of_nat (length (ex_data (N.to_nat 4096) xcd)) = 4096) by (unfold ex_data; rewrite repeat_length; apply N2Nat.id).
  split; [|split; [|split; [|split]]].
  - unfold scsi_presents. cbv zeta. split; [|split; [|split; [|split; [|split; [|split]]]]].
    + exists ex_write7. split.
      { intros i b Hi. change (sc_cmnd (ex_scsi ex_write7 false 4096)) with 4096.
        assert (i < 10)%nat by (change 10%nat with (length ex_write7); apply nth_error_Some; congruence).
        unfold ex_disk_world. cbn [mem set_mem]. unfold ex_disk_mem. change (N.of_nat (length ex_write7)) with 10.
        replace (2 ^ 64 <=? 4096 + N.of_nat i) with false by lia.
        replace ((0x1000 <=? 4096 + N.of_nat i) && (4096 + N.of_nat i <? 0x1000 + 10)) with true by lia.
        replace (N.to_nat (4096 + N.of_nat i - 0x1000)) with i by lia. exact Hi. }
      split; [reflexivity|]. split; [reflexivity|]. split; [discriminate|].
      exists RW10. split; [cbn; lia|]. split; [split; discriminate|]. split; [reflexivity|]. split; [reflexivity|]. split; [reflexivity|].
      split; [discriminate|]. split; [reflexivity|]. rewrite L. reflexivity.
    + split; [|discriminate]. intros y Hy. change (ptr {| ptr := sc_sense (ex_scsi ex_write7 false 4096); len := 96 |}) with 0x40000 in Hy.
      change (len {| ptr := sc_sense (ex_scsi ex_write7 false 4096); len := 96 |}) with 96 in Hy.
      unfold ex_disk_world. cbn [mem set_mem]. unfold ex_disk_mem. change (N.of_nat (length ex_write7)) with 10.
      replace (2 ^ 64 <=? y) with false by lia. replace ((0x1000 <=? y) && (y <? 0x1000 + 10)) with false by lia.
      replace ((0x20000 <=? y) && (y <? 0x24000)) with false by lia. replace ((0x40000 <=? y) && (y <? 0x40060)) with true by lia. discriminate.
    + intros y Hy. apply ex_sgl_addr in Hy. unfold in_span. change (ptr {| ptr := sc_sense (ex_scsi ex_write7 false 4096); len := 96 |}) with 0x40000. cbn [len].
      change (4096 / 2) with 2048 in Hy. split; lia.
    + discriminate.
    + intros y Hy. change (sc_bufflen (ex_scsi ex_write7 false 4096)) with 4096 in Hy.
      unfold ex_disk_world. cbn [mem set_mem]. unfold ex_disk_mem. change (N.of_nat (length ex_write7)) with 10.
      replace (2 ^ 64 <=? y) with false by lia. replace ((0x1000 <=? y) && (y <? 0x1000 + 10)) with false by lia.
      replace ((0x20000 <=? y) && (y <? 0x24000)) with false by lia. replace ((0x40000 <=? y) && (y <? 0x40060)) with false by lia. reflexivity.
    + discriminate.
    + split; [reflexivity|]. split; [symmetry; exact L|]. split.
      * pose proof (sg_total_length (sc_sgl (ex_scsi ex_write7 false 4096))) as T. change (sg_total _) with 4096 in T. lia.
      * intros i y b Hi Hb. apply ex_data_nth in Hb as ->. apply nth_error_In in Hi. apply ex_sgl_addr in Hi. change (4096 / 2) with 2048 in Hi.
        unfold ex_disk_world. cbn [mem set_mem]. unfold ex_disk_mem. change (N.of_nat (length ex_write7)) with 10.
        replace (2 ^ 64 <=? y) with false by lia. replace ((0x1000 <=? y) && (y <? 0x1000 + 10)) with false by lia.
        replace ((0x20000 <=? y) && (y <? 0x24000)) with true by lia. reflexivity.
  - intros n. unfold ex_cap. discriminate.
  - apply ex_stores.
  - unfold disk_step, blocks_of. rewrite L. reflexivity.
  - unfold disk_step, blocks_of. rewrite L. reflexivity.
Qed.

(** a history with a write of block 7 of unit 2 and a read of blocks 6 and 7: the
    hypotheses of C81 are met, for block 7 (written) and block 6 (not) *)
Definition ex_later (w : world) : world :=
  set_mem (ex_world []) (fun x => if 2 ^ 64 <=? x then mem w x else ex_disk_mem ex_read6 x).
Lemma ex_later_low w y : y < 2 ^ 64 -> mem (ex_later w) y = ex_disk_mem ex_read6 y.
Proof. intros H. unfold ex_later. cbn [mem set_mem]. replace (2 ^ 64 <=? y) with false by lia. reflexivity. Qed.
Lemma ex_read_presented w : scsi_presents (ex_later w) 0x90000 (ex_scsi ex_read6 true 8192) (IoRead 2 6 2).
Proof.
  assert (A : forall y, In y (sg_addrs (sc_sgl (ex_scsi ex_read6 true 8192))) -> 0x20000 <= y < 0x22000).
  { unfold ex_scsi, sg_addrs. cbn [sc_sgl flat_map fst snd]. rewrite app_nil_r. change (8192 / 2) with 4096. intros y H.
    apply in_app_or in H as [H|H]; apply in_map_iff in H as (i & <- & H); apply in_seq in H; lia. }
  unfold scsi_presents. cbv zeta. split; [|split; [|split; [|split; [|split; [|split]]]]].
  - exists ex_read6. split.
    { intros i b Hi. change (sc_cmnd (ex_scsi ex_read6 true 8192)) with 4096.
      assert (i < 10)%nat by (change 10%nat with (length ex_read6); apply nth_error_Some; congruence).
      rewrite ex_later_low by lia. unfold ex_disk_mem. change (N.of_nat (length ex_read6)) with 10.
      replace (2 ^ 64 <=? 4096 + N.of_nat i) with false by lia.
      replace ((0x1000 <=? 4096 + N.of_nat i) && (4096 + N.of_nat i <? 0x1000 + 10)) with true by lia.
      replace (N.to_nat (4096 + N.of_nat i - 0x1000)) with i by lia. exact Hi. }
    split; [reflexivity|]. split; [reflexivity|]. split; [discriminate|].
    exists RW10. split; [cbn; lia|]. split; [split; discriminate|]. split; [reflexivity|]. split; [reflexivity|]. split; [reflexivity|].
    split; [discriminate|]. split; reflexivity.
  - split; [|discriminate]. intros y Hy. change (ptr {| ptr := sc_sense (ex_scsi ex_read6 true 8192); len := 96 |}) with 0x40000 in Hy.
    change (len {| ptr := sc_sense (ex_scsi ex_read6 true 8192); len := 96 |}) with 96 in Hy.
    rewrite ex_later_low by lia. unfold ex_disk_mem. change (N.of_nat (length ex_read6)) with 10.
    replace (2 ^ 64 <=? y) with false by lia. replace ((0x1000 <=? y) && (y <? 0x1000 + 10)) with false by lia.
    replace ((0x20000 <=? y) && (y <? 0x24000)) with false by lia. replace ((0x40000 <=? y) && (y <? 0x40060)) with true by lia. discriminate.
  - intros y Hy. apply A in Hy. unfold in_span. change (ptr {| ptr := sc_sense (ex_scsi ex_read6 true 8192); len := 96 |}) with 0x40000. cbn [len].
    split; lia.
  - discriminate.
  - intros y Hy. change (sc_bufflen (ex_scsi ex_read6 true 8192)) with 8192 in Hy.
    rewrite ex_later_low by lia. unfold ex_disk_mem. change (N.of_nat (length ex_read6)) with 10.
    replace (2 ^ 64 <=? y) with false by lia. replace ((0x1000 <=? y) && (y <? 0x1000 + 10)) with false by lia.
    replace ((0x20000 <=? y) && (y <? 0x24000)) with false by lia. replace ((0x40000 <=? y) && (y <? 0x40060)) with false by lia. reflexivity.
  - discriminate.
  - split; [reflexivity|]. split; [reflexivity|]. split; [|discriminate]. split.
    + unfold ex_scsi, sg_addrs. cbn [sc_sgl flat_map fst snd]. rewrite app_nil_r. change (8192 / 2) with 4096.
      apply NoDup_app_disjoint.
      * apply FinFun.Injective_map_NoDup; [intros a b H; lia|apply seq_NoDup].
      * apply FinFun.Injective_map_NoDup; [intros a b H; lia|apply seq_NoDup].
      * intros y H1 H2. apply in_map_iff in H1 as (i & <- & H1), H2 as (k & E & H2). apply in_seq in H1, H2. lia.
    + intros y Hy. apply A in Hy. rewrite ex_later_low by lia. unfold ex_disk_mem. change (N.of_nat (length ex_read6)) with 10.
      replace (2 ^ 64 <=? y) with false by lia. replace ((0x1000 <=? y) && (y <? 0x1000 + 10)) with false by lia.
      replace ((0x20000 <=? y) && (y <? 0x24000)) with true by lia. discriminate.
Qed.
Example C81_premises_met : exists w bs,
  scsi_history ex_cap (ex_disk_world ex_write7)
    ([] ++ (IoWrite 2 7 (ex_data (N.to_nat 4096) xcd), AnsDone) :: [] ++ [(IoRead 2 6 2, AnsData bs)]) w /\
  7 <= 7 < 7 + blocks_of (ex_data (N.to_nat 4096) xcd) /\ 6 <= 7 < 6 + 2 /\
  ~ writes_block 2 6 (IoWrite 2 7 (ex_data (N.to_nat 4096) xcd), AnsDone).
Proof.
  assert (L : N.of_nat (length (ex_data (N.to_nat 4096) xcd)) = 4096) by (unfold ex_data; rewrite repeat_length; apply N2Nat.id).
  assert (Bl : blocks_of (ex_data (N.to_nat 4096) xcd) = 1) by (unfold blocks_of; rewrite L; reflexivity).
  destruct C80_premises_met as (P & Hc & S & A & _).
  pose proof (C80_adapter_step ex_cap ex_wrs 0x90000 0 _ _ _ ex_disk Hc S P) as Z.
  change (fun lun => ex_cap (lun + 1)) with ex_cap in Z. destruct (disk_step ex_cap ex_disk _) as [d1 a1]. cbn [snd] in A. subst a1.
  destruct Z as (r1 & w1 & E1 & O1 & S1 & _).
  assert (S2 : stores (ex_later w1) d1).
  { apply (stores_same w1); [exact S1|]. intros y Hy. unfold ex_later. cbn [mem set_mem]. replace (2 ^ 64 <=? y) with true by lia. reflexivity. }
  pose proof (C80_adapter_step ex_cap ex_wrs 0x90000 0 _ _ _ d1 Hc S2 (ex_read_presented w1)) as Z.
  change (fun lun => ex_cap (lun + 1)) with ex_cap in Z.
  change (disk_step ex_cap d1 (IoRead 2 6 2)) with (d1, AnsData (disk_read d1 2 6 2)) in Z.
  destruct Z as (r2 & w2 & E2 & O2 & S3 & _).
  exists w2, (disk_read d1 2 6 2). split; [|split; [|split]].
  - cbn [app]. change [?a; ?b] with ([a] ++ [b]).
    eapply sh_io; [|apply ex_read_presented|exact E2|exact O2]. eapply sh_env.
    + change [?a] with ([] ++ [a]). eapply sh_io; [apply sh_nil|exact P|exact E1|exact O1].
    + intros y Hy. unfold ex_later. cbn [mem set_mem]. replace (2 ^ 64 <=? y) with true by lia. reflexivity.
  - rewrite Bl. lia.
  - lia.
  - cbn [writes_block]. lia.
Qed.

Definition ex_disk_req : request :=
  {| rq_cdb := {| ptr := 0x1000; len := 10 |}; rq_lun := 2; rq_sense := {| ptr := 0x40000; len := 96 |};
     rq_data := {| ptr := 0x20000; len := 8192 |}; rq_data_in := true |}.
Example C79_premises_met :
  api_presents (ex_disk_world ex_read6) ex_disk_req (IoRead 2 6 2) /\ idle ex_obj /\ stores (ex_disk_world ex_read6) ex_disk /\
  snd (disk_step ex_cap ex_disk (IoRead 2 6 2)) = AnsData (disk_read ex_disk 2 6 2).
Proof.
  assert (M : forall y, mem (ex_disk_world ex_read6) y = ex_disk_mem ex_read6 y) by reflexivity.
  split; [|split; [apply ex_idle|split; [apply ex_stores|reflexivity]]].
  unfold api_presents, DiskSpec.region, span_mapped, ex_disk_req. cbn [rq_cdb rq_data rq_sense rq_lun ptr len].
  split; [|split; [|split; [|split; [|split; [|split]]]]].
  - split; [|discriminate]. intros y Hy. rewrite M. unfold ex_disk_mem. change (N.of_nat (length ex_read6)) with 10.
    replace (2 ^ 64 <=? y) with false by lia. replace ((0x1000 <=? y) && (y <? 0x1000 + 10)) with true by lia.
    apply nth_error_Some. change (length ex_read6) with 10%nat. lia.
  - split; [|discriminate]. intros y Hy. rewrite M. unfold ex_disk_mem. change (N.of_nat (length ex_read6)) with 10.
    replace (2 ^ 64 <=? y) with false by lia. replace ((0x1000 <=? y) && (y <? 0x1000 + 10)) with false by lia.
    replace ((0x20000 <=? y) && (y <? 0x24000)) with true by lia. discriminate.
  - split; [|discriminate]. intros y Hy. rewrite M. unfold ex_disk_mem. change (N.of_nat (length ex_read6)) with 10.
    replace (2 ^ 64 <=? y) with false by lia. replace ((0x1000 <=? y) && (y <? 0x1000 + 10)) with false by lia.
    replace ((0x20000 <=? y) && (y <? 0x24000)) with false by lia. replace ((0x40000 <=? y) && (y <? 0x40060)) with true by lia. discriminate.
  - discriminate.
  - intros y. unfold in_span. cbn [ptr len]. lia.
  - exists ex_read6. split.
    + split; [reflexivity|]. intros i b Hi. cbn [ptr].
      assert (i < 10)%nat by (change 10%nat with (length ex_read6); apply nth_error_Some; congruence).
      rewrite M. unfold ex_disk_mem. change (N.of_nat (length ex_read6)) with 10.
      replace (2 ^ 64 <=? 4096 + N.of_nat i) with false by lia.
      replace ((0x1000 <=? 4096 + N.of_nat i) && (4096 + N.of_nat i <? 0x1000 + 10)) with true by lia.
      replace (N.to_nat (4096 + N.of_nat i - 0x1000)) with i by lia. exact Hi.
    + exists RW10. split; [cbn; lia|]. split; [split; discriminate|]. split; [reflexivity|]. split; [reflexivity|]. split; [reflexivity|].
      split; [discriminate|]. split; reflexivity.
  - discriminate.
Qed.
