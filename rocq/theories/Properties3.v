(** C24-C33: the INQUIRY family. *)
From Coq Require Import Arith NArith String List Lia Bool Init.Byte Permutation.
From Coq Require Import ZifyBool ZifyNat ZifyN.
From Verif Require Import Bytes Layout World Common ModeSenseCmd InquiryCmd TranslationCls Spec RwSpec InquirySpec Facts Logic BeginFacts
  CompleteFacts StatusFacts RwFacts AdminFacts InquiryFacts SerialFacts Witness.
Import ListNotations.
Local Open Scope list_scope.
Local Open Scope N_scope.

(** ** A concrete INQUIRY, executed *)
Definition prp1_of (x : exposed) : N := le (slice 24 8 (x_bytes x)).
(** Begin, the device fills the two pages, Complete; then the first [n] bytes
    of the data buffer (which was all zero) *)
Definition inq_run (jk : byte) (cdb ns ct : list byte) (lun blen : N) (n : nat) : option (N * list byte) :=
  match Begin ex_obj (ex_cdb cdb) (ex_buf blen) lun (ex_world_with (fun _ _ => x00) jk cdb []) with
  | Ret (t1, _) w1 =>
      match exposes t1 with
      | [x0; x1] =>
          let w2 := set_mem w1 (region (prp1_of x0) ns (region (prp1_of x1) ct (mem w1))) in
          match Complete t1 [0; 0] (ex_buf blen) ex_sense w2 with
          | Ret (_, r) w3 =>
              match load 0x20000 n w3 with Ret l _ => Some (cr_scsi_status r, l) | UB _ => None end
          | UB _ => None
          end
      | _ => None
      end
  | UB _ => None
  end.

(** an Identify Namespace page with given bytes 0-31 and identifiers, and an
    Identify Controller page *)
Definition ex_ns (head : list N) (nguid eui : list N) : list byte :=
  B head ++ repeat x00 (104 - length head) ++ B nguid ++ B eui ++ repeat x00 3968.
Definition ex_ct : list byte :=
  B [0;0;0;0] ++ B [0x53;0x4e;0x31;0x32;0x33;0x34;0x35;0x36;0x37;0x38;0x39;0x41;0x42;0x43;0x44;0x45;0x46;0x47;0x48;0x49]
  ++ repeat x4d 39 ++ [x4e] ++ B [0x31;0x2e;0x32;0x33;0x34;0x20;0x20;0x20]
  ++ repeat x00 5 ++ B [5] ++ repeat x00 442 ++ B [4;0;1;0;0;1] ++ repeat x00 3570.
Definition ex_id16 : list N := [0x11;0x22;0x33;0x44;0x55;0x66;0x77;0x88;0x99;0xaa;0xbb;0xcc;0xdd;0xee;0xff;0x10].
Definition ex_id8 : list N := [0x01;0x02;0x03;0x04;0x05;0x06;0x07;0x18].
Definition ex_head : list N := [0;0;1;0;0;0;0;0; 0;0;1;0;0;0;0;0; 0;0;0;0;0;0;0;0; 1;0;0;0; 7; 2].
Definition ex_ns1 : list byte := ex_ns ex_head ex_id16 ex_id8.
Example ex_pages_length : N.of_nat (length ex_ns1) = 4096 /\ N.of_nat (length ex_ct) = 4096. Proof. vm_compute. auto. Qed.

(** ** C24 *)
Theorem C24_inquiry_commands : forall t cdb buffer lun w bs,
  idle t -> span_holds w cdb bs -> (6 <= length bs)%nat -> byte_at bs 0 = 0x12 ->
  exists t' w', Begin t cdb buffer lun w = Ret (t', begin_ok (be (slice 3 2 bs))) w' /\
    ((accepted t' /\ exists p q ev1 ev2,
        page_request p ev1 /\ page_request q ev2 /\ p <> 0 /\ q <> 0 /\ trace w' = trace w ++ ev1 ++ ev2 /\
        exposes t' = [admin 4096 {| q_opc := 0x06; q_nsid := (lun + 1) mod 2 ^ 32; q_prp1 := p;
                                    q_cdw10 := 0; q_cdw11 := 0; q_cdw12 := 0 |};
                      admin 4096 {| q_opc := 0x06; q_nsid := 0; q_prp1 := q;
                                    q_cdw10 := 1; q_cdw11 := 0; q_cdw12 := 0 |}] /\
        In (p, 1) (held t') /\ In (q, 1) (held t')) \/
     (out_of_pages w w' /\ rejected t' /\ exposes t' = [] /\ held t' = [])).
Proof.
  intros t cdb buffer lun w bs Hi Hc Hl Ho.
  destruct (Begin_inquiry_case t cdb buffer lun w bs Hi Hc (conj Hl Ho)) as (t' & w' & E & C).
  exists t', w'. split; [exact E|]. destruct C as [C|C]; [left|right; exact C].
  destruct C as (p & q & ev1 & ev2 & (_ & Ha & _) & Hp & Hq & P1 & P2 & T & X & I1 & I2).
  split; [exact Ha|]. exists p, q, ev1, ev2. auto 10.
Qed.
Print Assumptions C24_inquiry_commands.

Theorem C24_inquiry_short : forall t cdb buffer lun w bs,
  idle t -> span_holds w cdb bs -> (length bs < 6)%nat -> byte_at bs 0 = 0x12 -> refuses t cdb buffer lun w.
Proof. intros. eapply Begin_inquiry_short; eassumption. Qed.
Print Assumptions C24_inquiry_short.

Definition ex_inq (evpd page : N) : list byte := B [0x12; evpd; page; 0x01; 0x00; 0].
(** accepted, with the two pages of the example allocator *)
Example C24_accepted :
  check (Begin ex_obj (ex_cdb (ex_inq 0 0)) (ex_buf 256) 3 (ex_world (ex_inq 0 0)))
    (fun r w => match exposes (fst r) with
                | [x0; x1] => (prp1_of x0 =? 0x100000) && negb (prp1_of x1 =? 0x100000) && negb (prp1_of x1 =? 0)
                              && (br_alloc_len (snd r) =? 256)
                | _ => false end) = true.
Proof. vm_compute. reflexivity. Qed.

(** ** C25 *)
Theorem C25_standard_inquiry : forall lun bs ns ct buffer,
  inquiry_cdb bs -> inq_evpd bs = 0 -> N.of_nat (length ns) = 4096 -> N.of_nat (length ct) = 4096 ->
  (36 <= len buffer ->
   inquiry_round_trip lun bs ns ct buffer (fun w2 w3 => wrote w2 w3 (ptr buffer) (standard_inquiry ns ct))) /\
  (len buffer < 36 -> inquiry_round_trip lun bs ns ct buffer (fun w2 w3 => same_memory w2 w3)).
Proof.
  intros lun bs ns ct buffer Hq He Ln Lc.
  assert (L : length (standard_inquiry ns ct) = 36%nat).
  { unfold standard_inquiry. rewrite !app_length, last4_length. unfold ct_mn. rewrite slice_slice, slice_length by lia. reflexivity. }
  split; intros Hl; apply round_trip; auto.
  - intros w w1 w2. apply wrote_stable.
  - intros w p q Hn Hc Hm. rewrite He. cbn [negb N.eqb]. rewrite (std_shape w p q ns ct buffer Hn Hc Ln Lc).
    destruct (one_write_ok (standard_inquiry ns ct) buffer w Hm) as (w' & E & W); [rewrite L; exact Hl|eauto].
  - intros w w1 w2. apply same_stable.
  - intros w p q Hn Hc Hm. rewrite He. cbn [negb N.eqb]. rewrite (std_shape w p q ns ct buffer Hn Hc Ln Lc).
    rewrite one_write_short by (rewrite L; exact Hl). do 2 eexists. split; [reflexivity|]. intros x. reflexivity.
Qed.
Print Assumptions C25_standard_inquiry.
Example C25_run : inq_run xff (ex_inq 0 0) ex_ns1 ex_ct 0 64 40 =
  Some (GOOD, B ([0;0;6;2;0x1f;1;0;2; 0x4e;0x56;0x4d;0x65;0x20;0x20;0x20;0x20] ++ repeat 0x4d 16 ++ [0x2e;0x32;0x33;0x34] ++ [0;0;0;0])).
Proof. vm_compute. reflexivity. Qed.

(** ** The pages, one by one *)
Ltac page_case He Hp := rewrite He, Hp; cbn [negb N.eqb Pos.eqb]; cbv zeta; cbn [N.eqb Pos.eqb].
Ltac stable_wrote := intros ? ? ?; apply wrote_stable.
Ltac stable_same := intros ? ? ?; apply same_stable.

Lemma page00 lun bs ns ct buffer : inquiry_cdb bs -> inq_evpd bs = 1 -> inq_page bs = 0x00 ->
  N.of_nat (length ns) = 4096 -> N.of_nat (length ct) = 4096 -> 11 <= len buffer ->
  inquiry_round_trip lun bs ns ct buffer (fun w2 w3 => wrote w2 w3 (ptr buffer) supported_pages).
Proof.
  intros Hq He Hp Ln Lc Hl. apply round_trip; auto; [stable_wrote|].
  intros w p q Hn Hc Hm. page_case He Hp.
  destruct (supported_ok w ns ct buffer Ln Lc Hm Hl) as (w' & E & W). eauto.
Qed.

Lemma page83 lun bs ns ct buffer id : inquiry_cdb bs -> inq_evpd bs = 1 -> inq_page bs = 0x83 ->
  N.of_nat (length ns) = 4096 -> N.of_nat (length ct) = 4096 -> designator ns = Some id -> 7 + N.of_nat (length id) <= len buffer ->
  inquiry_round_trip lun bs ns ct buffer (fun w2 w3 => wrote w2 w3 (ptr buffer) (device_id_page id)).
Proof.
  intros Hq He Hp Ln Lc Hd Hl. apply round_trip; auto; [stable_wrote|].
  intros w p q Hn Hc Hm. page_case He Hp.
  destruct (devid_ok w p ns ct buffer Hn Ln Lc Hm id Hd Hl) as (w' & E & W). eauto.
Qed.
Lemma page83_short lun bs ns ct buffer id : inquiry_cdb bs -> inq_evpd bs = 1 -> inq_page bs = 0x83 ->
  N.of_nat (length ns) = 4096 -> N.of_nat (length ct) = 4096 -> designator ns = Some id -> len buffer < 7 + N.of_nat (length id) ->
  inquiry_round_trip lun bs ns ct buffer (fun w2 w3 => same_memory w2 w3).
Proof.
  intros Hq He Hp Ln Lc Hd Hl. apply round_trip; auto; [stable_same|].
  intros w p q Hn Hc Hm. page_case He Hp.
  rewrite (devid_short w p ns ct buffer Hn Ln Lc id Hd Hl). do 2 eexists. split; [reflexivity|]. intros x. reflexivity.
Qed.
Lemma page83_none lun bs ns ct buffer : inquiry_cdb bs -> inq_evpd bs = 1 -> inq_page bs = 0x83 ->
  N.of_nat (length ns) = 4096 -> N.of_nat (length ct) = 4096 -> designator ns = None ->
  inquiry_round_trip lun bs ns ct buffer (fun w2 w3 => same_memory w2 w3).
Proof.
  intros Hq He Hp Ln Lc Hd. apply round_trip; auto; [stable_same|].
  intros w p q Hn Hc Hm. page_case He Hp.
  rewrite (devid_shape w p ns ct buffer Hn Ln Lc), Hd. do 2 eexists. split; [reflexivity|]. intros x. reflexivity.
Qed.

Lemma page86 lun bs ns ct buffer spt : inquiry_cdb bs -> inq_evpd bs = 1 -> inq_page bs = 0x86 ->
  N.of_nat (length ns) = 4096 -> N.of_nat (length ct) = 4096 -> code_spt ns = Some spt -> 14 <= len buffer ->
  inquiry_round_trip lun bs ns ct buffer (fun w2 w3 => wrote w2 w3 (ptr buffer) (extended_page spt ns ct)).
Proof.
  intros Hq He Hp Ln Lc Hd Hl. apply round_trip; auto; [stable_wrote|].
  intros w p q Hn Hc Hm. page_case He Hp.
  rewrite (extended_shape w p q ns ct buffer Hn Hc Ln Lc), Hd.
  destruct (one_write_ok (extended_page spt ns ct) buffer w Hm) as (w' & E & W); [exact Hl|eauto].
Qed.
Lemma page86_none lun bs ns ct buffer : inquiry_cdb bs -> inq_evpd bs = 1 -> inq_page bs = 0x86 ->
  N.of_nat (length ns) = 4096 -> N.of_nat (length ct) = 4096 -> code_spt ns = None \/ len buffer < 14 ->
  inquiry_round_trip lun bs ns ct buffer (fun w2 w3 => same_memory w2 w3).
Proof.
  intros Hq He Hp Ln Lc Hd. apply round_trip; auto; [stable_same|].
  intros w p q Hn Hc Hm. page_case He Hp.
  rewrite (extended_shape w p q ns ct buffer Hn Hc Ln Lc).
  destruct (code_spt ns) as [spt|]; [destruct Hd as [Hd|Hd]; [discriminate|]|].
  - rewrite one_write_short by exact Hd. do 2 eexists. split; [reflexivity|]. intros x. reflexivity.
  - do 2 eexists. split; [reflexivity|]. intros x. reflexivity.
Qed.

Lemma block_limits_length ct : length (block_limits_page ct) = 64%nat.
Proof. unfold block_limits_page, bytes. rewrite !app_length, map_length, !be_encode_length, !repeat_length. reflexivity. Qed.
Lemma pageb0 lun bs ns ct buffer : inquiry_cdb bs -> inq_evpd bs = 1 -> inq_page bs = 0xb0 ->
  N.of_nat (length ns) = 4096 -> N.of_nat (length ct) = 4096 -> 64 <= len buffer ->
  inquiry_round_trip lun bs ns ct buffer (fun w2 w3 => wrote w2 w3 (ptr buffer) (block_limits_page ct)).
Proof.
  intros Hq He Hp Ln Lc Hl. apply round_trip; auto; [stable_wrote|].
  intros w p q Hn Hc Hm. page_case He Hp. rewrite (limits_shape w q ns ct buffer Hc Ln Lc).
  destruct (one_write_ok (block_limits_page ct) buffer w Hm) as (w' & E & W); [rewrite block_limits_length; exact Hl|eauto].
Qed.
Lemma pageb0_short lun bs ns ct buffer : inquiry_cdb bs -> inq_evpd bs = 1 -> inq_page bs = 0xb0 ->
  N.of_nat (length ns) = 4096 -> N.of_nat (length ct) = 4096 -> len buffer < 64 ->
  inquiry_round_trip lun bs ns ct buffer (fun w2 w3 => same_memory w2 w3).
Proof.
  intros Hq He Hp Ln Lc Hl. apply round_trip; auto; [stable_same|].
  intros w p q Hn Hc Hm. page_case He Hp. rewrite (limits_shape w q ns ct buffer Hc Ln Lc).
  rewrite one_write_short by (rewrite block_limits_length; exact Hl). do 2 eexists. split; [reflexivity|]. intros x. reflexivity.
Qed.

Lemma pageb1 lun bs ns ct buffer : inquiry_cdb bs -> inq_evpd bs = 1 -> inq_page bs = 0xb1 ->
  N.of_nat (length ns) = 4096 -> N.of_nat (length ct) = 4096 -> 9 <= len buffer ->
  inquiry_round_trip lun bs ns ct buffer (fun w2 w3 => wrote w2 w3 (ptr buffer) characteristics_page).
Proof.
  intros Hq He Hp Ln Lc Hl. apply round_trip; auto; [stable_wrote|].
  intros w p q Hn Hc Hm. page_case He Hp. rewrite (bdc_shape w buffer).
  destruct (one_write_ok characteristics_page buffer w Hm) as (w' & E & W); [exact Hl|eauto].
Qed.

Lemma provisioning_length ns ct : length (provisioning_page ns ct) = 64%nat.
Proof. unfold provisioning_page, bytes. rewrite app_length, map_length. destruct (_ =? 0); reflexivity. Qed.
Lemma pageb2 lun bs ns ct buffer : inquiry_cdb bs -> inq_evpd bs = 1 -> inq_page bs = 0xb2 ->
  N.of_nat (length ns) = 4096 -> N.of_nat (length ct) = 4096 -> 64 <= len buffer ->
  inquiry_round_trip lun bs ns ct buffer (fun w2 w3 => wrote w2 w3 (ptr buffer) (provisioning_page ns ct)).
Proof.
  intros Hq He Hp Ln Lc Hl. apply round_trip; auto; [stable_wrote|].
  intros w p q Hn Hc Hm. page_case He Hp. rewrite (provisioning_shape w p q ns ct buffer Hn Hc Ln Lc).
  destruct (one_write_ok (provisioning_page ns ct) buffer w Hm) as (w' & E & W); [rewrite provisioning_length; exact Hl|eauto].
Qed.
Lemma pageb2_short lun bs ns ct buffer : inquiry_cdb bs -> inq_evpd bs = 1 -> inq_page bs = 0xb2 ->
  N.of_nat (length ns) = 4096 -> N.of_nat (length ct) = 4096 -> len buffer < 64 ->
  inquiry_round_trip lun bs ns ct buffer (fun w2 w3 => same_memory w2 w3).
Proof.
  intros Hq He Hp Ln Lc Hl. apply round_trip; auto; [stable_same|].
  intros w p q Hn Hc Hm. page_case He Hp. rewrite (provisioning_shape w p q ns ct buffer Hn Hc Ln Lc).
  rewrite one_write_short by (rewrite provisioning_length; exact Hl). do 2 eexists. split; [reflexivity|]. intros x. reflexivity.
Qed.

Lemma page80 lun bs ns ct buffer : inquiry_cdb bs -> inq_evpd bs = 1 -> inq_page bs = 0x80 ->
  N.of_nat (length ns) = 4096 -> N.of_nat (length ct) = 4096 -> 44 <= len buffer ->
  inquiry_round_trip lun bs ns ct buffer
    (fun w2 w3 => exists img, serial_page lun ns ct img /\ wrote w2 w3 (ptr buffer) img).
Proof.
  intros Hq He Hp Ln Lc Hl. apply round_trip; auto.
  - intros w w1 w2 (img & P & W) E. exists img. split; [exact P|]. eapply wrote_stable; eauto.
  - intros w p q Hn Hc Hm. page_case He Hp.
    destruct (serial_full w p q (nsid_of lun) ns ct buffer Hn Hc Ln Lc Hm lun eq_refl Hl) as (w' & img & E & P & W).
    do 2 eexists. split; [exact E|]. eauto.
Qed.
Lemma page80_any lun bs ns ct buffer : inquiry_cdb bs -> inq_evpd bs = 1 -> inq_page bs = 0x80 ->
  N.of_nat (length ns) = 4096 -> N.of_nat (length ct) = 4096 ->
  inquiry_round_trip lun bs ns ct buffer
    (fun w2 w3 => same_memory w2 w3 \/ exists img, serial_page lun ns ct img /\ length img = 44%nat /\
       firstn 4 img = bytes [0; 0x80; 0; vpd_length 0x80 ns] /\
       (wrote w2 w3 (ptr buffer) (firstn 4 img) \/ wrote w2 w3 (ptr buffer) img)).
Proof.
  intros Hq He Hp Ln Lc. apply round_trip; auto.
  - intros w w1 w2 [H|(img & P & Q & R & W)] E; [left; eapply same_stable; eauto|right].
    exists img. split; [exact P|]. split; [exact Q|]. split; [exact R|].
    destruct W as [W|W]; [left|right]; eapply wrote_stable; eauto.
  - intros w p q Hn Hc Hm. page_case He Hp. apply (serial_any w p q (nsid_of lun) ns ct buffer Hn Hc Ln Lc Hm lun eq_refl).
Qed.

(** header-only answers of the two-part pages *)
Lemma page00_any lun bs ns ct buffer : inquiry_cdb bs -> inq_evpd bs = 1 -> inq_page bs = 0x00 ->
  N.of_nat (length ns) = 4096 -> N.of_nat (length ct) = 4096 ->
  inquiry_round_trip lun bs ns ct buffer (fun w2 w3 => same_memory w2 w3 \/
    exists img, wrote w2 w3 (ptr buffer) img /\ (img = firstn 4 supported_pages \/ img = supported_pages)).
Proof.
  intros Hq He Hp Ln Lc. apply round_trip; auto.
  - intros w w1 w2 [H|(img & W & H)] E; [left; eapply same_stable; eauto|right; exists img; split; [eapply wrote_stable; eauto|exact H]].
  - intros w p q Hn Hc Hm. page_case He Hp. unfold TranslateSupportedVpdPages. cbv zeta.
    destruct (two_writes_any (firstn 4 supported_pages) (skipn 4 supported_pages) buffer 4 w eq_refl Hm) as (st & w' & E & H); [cbn; lia|].
    exists st, w'. split; [exact E|]. destruct H as [H|[H|H]]; [left; exact H|right; eexists; split; [exact H|auto]..].
Qed.

Lemma page_small lun bs ns ct buffer n (img : list byte) : inquiry_cdb bs -> inq_evpd bs = 1 ->
  N.of_nat (length ns) = 4096 -> N.of_nat (length ct) = 4096 -> N.of_nat (length img) = n ->
  (n <= len buffer -> inquiry_round_trip lun bs ns ct buffer (fun w2 w3 => wrote w2 w3 (ptr buffer) img)) ->
  (len buffer < n -> inquiry_round_trip lun bs ns ct buffer (fun w2 w3 => same_memory w2 w3)) ->
  inquiry_round_trip lun bs ns ct buffer (fun w2 w3 => same_memory w2 w3 \/ wrote w2 w3 (ptr buffer) img).
Proof.
  intros Hq He Ln Lc <- A B. destruct (N.le_gt_cases (N.of_nat (length img)) (len buffer)) as [L|L].
  - intros t w cdb b0 t1 r w1 Hi Hc E Ha. destruct (A L t w cdb b0 t1 r w1 Hi Hc E Ha) as (p & q & X & F).
    exists p, q. split; [exact X|]. intros w2 cpls sense H1 H2 H3 H4 H5 H6.
    destruct (F w2 cpls sense H1 H2 H3 H4 H5 H6) as (t2 & w3 & R & I & W). eauto 10.
  - intros t w cdb b0 t1 r w1 Hi Hc E Ha. destruct (B L t w cdb b0 t1 r w1 Hi Hc E Ha) as (p & q & X & F).
    exists p, q. split; [exact X|]. intros w2 cpls sense H1 H2 H3 H4 H5 H6.
    destruct (F w2 cpls sense H1 H2 H3 H4 H5 H6) as (t2 & w3 & R & I & W). eauto 10.
Qed.
Lemma round_trip_mono lun bs ns ct buffer (P Q : world -> world -> Prop) :
  (forall w w', P w w' -> Q w w') -> inquiry_round_trip lun bs ns ct buffer P -> inquiry_round_trip lun bs ns ct buffer Q.
Proof.
  intros H A t w cdb b0 t1 r w1 Hi Hc E Ha. destruct (A t w cdb b0 t1 r w1 Hi Hc E Ha) as (p & q & X & F).
  exists p, q. split; [exact X|]. intros w2 cpls sense H1 H2 H3 H4 H5 H6.
  destruct (F w2 cpls sense H1 H2 H3 H4 H5 H6) as (t2 & w3 & R & I & W). eauto 10.
Qed.

(** ** C26 *)
Theorem C26_supported_list : forall lun bs ns ct buffer,
  inquiry_cdb bs -> inq_evpd bs = 1 -> inq_page bs = 0x00 -> N.of_nat (length ns) = 4096 -> N.of_nat (length ct) = 4096 ->
  11 <= len buffer ->
  inquiry_round_trip lun bs ns ct buffer
    (fun w2 w3 => wrote w2 w3 (ptr buffer) (bytes [0; 0x00; 0; 7] ++ bytes [0x00; 0x80; 0x83; 0x86; 0xb0; 0xb1; 0xb2])).
Proof. exact page00. Qed.
Print Assumptions C26_supported_list.

(** any other page code: nothing is written *)
Theorem C26_unlisted_writes_nothing : forall lun bs ns ct buffer,
  inquiry_cdb bs -> inq_evpd bs = 1 -> ~ In (inq_page bs) [0x00; 0x80; 0x83; 0x86; 0xb0; 0xb1; 0xb2] ->
  N.of_nat (length ns) = 4096 -> N.of_nat (length ct) = 4096 ->
  inquiry_round_trip lun bs ns ct buffer (fun w2 w3 => same_memory w2 w3).
Proof.
  intros lun bs ns ct buffer Hq He Hp Ln Lc. apply round_trip; auto; [stable_same|].
  intros w p q Hn Hc Hm. rewrite He. cbn [negb N.eqb Pos.eqb]. cbv zeta. cbn [In] in Hp.
  repeat match goal with |- context [inq_page bs =? ?k] =>
    destruct (N.eqb_spec (inq_page bs) k); [exfalso; apply Hp; auto 10|] end.
  do 2 eexists. split; [reflexivity|]. intros x. reflexivity.
Qed.
Print Assumptions C26_unlisted_writes_nothing.

(** a listed page is produced, provided (missing from the full property) that
    the namespace has an identifier and a supported protection type *)
Theorem C26_listed_produced_partial : forall lun bs ns ct buffer,
  inquiry_cdb bs -> inq_evpd bs = 1 -> In (inq_page bs) [0x00; 0x80; 0x83; 0x86; 0xb0; 0xb1; 0xb2] ->
  N.of_nat (length ns) = 4096 -> N.of_nat (length ct) = 4096 -> 64 <= len buffer ->
  (inq_page bs = 0x83 -> nonzero (ns_nguid ns) = true \/ nonzero (ns_eui64 ns) = true) ->
  (inq_page bs = 0x86 -> ns_type 1 ns = true \/ ns_type 2 ns = true \/ ns_type 3 ns = true) ->
  inquiry_round_trip lun bs ns ct buffer (fun w2 w3 => exists img, (9 <= length img)%nat /\ wrote w2 w3 (ptr buffer) img).
Proof.
  intros lun bs ns ct buffer Hq He Hp Ln Lc Hl H83 H86. cbn [In] in Hp.
  destruct Hp as [E|[E|[E|[E|[E|[E|[E|[]]]]]]]]; symmetry in E.
  - eapply round_trip_mono; [|apply page00; auto; lia]. intros w w' W. eexists. split; [|exact W]. cbn; lia.
  - eapply round_trip_mono; [|apply page80; auto; lia]. intros w w' (img & P & W). exists img. split; [|exact W].
    clear W H83 H86. revert P. unfold serial_page. destruct (nonzero _); [|destruct (nonzero _)].
    + intros (d0 & d1 & j0 & j1 & S0 & S1 & L0 & L1 & ->). rewrite app_length, grouped_length; [cbn; lia|].
      destruct (significant_le _ _ S0), (significant_le _ _ S1). rewrite app_length, !half_length; lia.
    + intros (d & j & S0 & L0 & ->). rewrite !app_length, repeat_length. cbn. lia.
    + intros ->. rewrite !app_length, repeat_length. cbn. lia.
  - destruct (designator ns) as [id|] eqn:D.
    + assert (Hid : (length id <= 16)%nat).
      { destruct (designator_length ns ct Ln Lc id D). assumption. }
      eapply round_trip_mono; [|eapply page83; eauto; lia]. intros w w' W. eexists. split; [|exact W].
      unfold device_id_page, designation_descriptor. rewrite !app_length.
      destruct (designator_length ns ct Ln Lc id D). unfold designator in D.
      destruct (nonzero (ns_nguid ns)); [injection D as <-|destruct (nonzero (ns_eui64 ns)); [injection D as <-|discriminate]];
      unfold ns_nguid, ns_eui64; rewrite slice_length by lia; cbn; lia.
    + exfalso. unfold designator in D. destruct (H83 E) as [Z|Z]; rewrite Z in D; [discriminate|].
      destruct (nonzero (ns_nguid ns)); discriminate.
  - destruct (code_spt ns) as [spt|] eqn:D.
    + eapply round_trip_mono; [|eapply page86; eauto; lia]. intros w w' W. eexists. split; [|exact W]. cbn. lia.
    + exfalso. unfold code_spt, spc_spt in D. destruct (H86 E) as [Z|[Z|Z]]; rewrite Z in D;
      destruct (ns_type 1 ns), (ns_type 2 ns), (ns_type 3 ns); discriminate.
  - eapply round_trip_mono; [|apply pageb0; auto; lia]. intros w w' W. eexists. split; [|exact W].
    rewrite block_limits_length. lia.
  - eapply round_trip_mono; [|apply pageb1; auto; lia]. intros w w' W. eexists. split; [|exact W]. cbn. lia.
  - eapply round_trip_mono; [|apply pageb2; auto; lia]. intros w w' W. eexists. split; [|exact W].
    rewrite provisioning_length. lia.
Qed.
Print Assumptions C26_listed_produced_partial.

(** without an identifier, page 83h is listed but never produced (whatever the
    buffer), and likewise 86h without a protection type *)
Theorem C26_listed_refuted : forall lun bs ns ct buffer,
  inquiry_cdb bs -> inq_evpd bs = 1 -> N.of_nat (length ns) = 4096 -> N.of_nat (length ct) = 4096 ->
  (inq_page bs = 0x83 /\ nonzero (ns_nguid ns) = false /\ nonzero (ns_eui64 ns) = false) \/
  (inq_page bs = 0x86 /\ ns_type 1 ns = false /\ ns_type 2 ns = false /\ ns_type 3 ns = false) ->
  inquiry_round_trip lun bs ns ct buffer (fun w2 w3 => same_memory w2 w3).
Proof.
  intros lun bs ns ct buffer Hq He Ln Lc [(Hp & Z1 & Z2)|(Hp & Z1 & Z2 & Z3)].
  - apply page83_none; auto. unfold designator. rewrite Z1, Z2. reflexivity.
  - apply page86_none; auto. left. unfold code_spt. rewrite Z1, Z2, Z3. reflexivity.
Qed.
Print Assumptions C26_listed_refuted.

Definition ex_ns0 : list byte := ex_ns [] (repeat 0 16) (repeat 0 8).
Example C26_runs :
  inq_run xff (ex_inq 1 0) ex_ns1 ex_ct 0 64 12 = Some (GOOD, B [0;0;0;7;0;0x80;0x83;0x86;0xb0;0xb1;0xb2;0]) /\
  inq_run xff (ex_inq 1 0xb3) ex_ns1 ex_ct 0 64 8 = Some (GOOD, B [0;0;0;0;0;0;0;0]) /\
  inq_run xff (ex_inq 1 0x83) ex_ns0 ex_ct 0 64 8 = Some (GOOD, B [0;0;0;0;0;0;0;0]).
Proof. vm_compute. auto. Qed.

(** ** C27 *)
(** for every page but B1h, whatever the buffer: either nothing is written or
    byte 1 of what is written is the requested page code *)
Theorem C27_page_code_partial : forall lun bs ns ct buffer,
  inquiry_cdb bs -> inq_evpd bs = 1 -> inq_page bs <> 0xb1 -> N.of_nat (length ns) = 4096 -> N.of_nat (length ct) = 4096 ->
  inquiry_round_trip lun bs ns ct buffer (fun w2 w3 => same_memory w2 w3 \/
    exists img, (3 <= length img)%nat /\ wrote w2 w3 (ptr buffer) img /\ byte_at img 1 = inq_page bs).
Proof.
  intros lun bs ns ct buffer Hq He Hne Ln Lc.
  destruct (in_dec N.eq_dec (inq_page bs) [0x00; 0x80; 0x83; 0x86; 0xb0; 0xb1; 0xb2]) as [Hp|Hp].
  2:{ eapply round_trip_mono; [|apply C26_unlisted_writes_nothing; auto]. auto. }
  cbn [In] in Hp. destruct Hp as [E|[E|[E|[E|[E|[E|[E|[]]]]]]]]; symmetry in E; rewrite E.
  - eapply round_trip_mono; [|apply page00_any; auto].
    intros w w' [H|(img & W & H)]; [auto|right]. exists img. destruct H as [-> | ->]; (split; [cbn; lia|split; [exact W|reflexivity]]).
  - eapply round_trip_mono; [|apply page80_any; auto].
    intros w w' [H|(img & P & L & F & [W|W])]; [auto|right..]; [exists (firstn 4 img)|exists img].
    + split; [rewrite firstn_length; lia|]. split; [exact W|]. rewrite F. reflexivity.
    + split; [lia|]. split; [exact W|]. rewrite <- (firstn_skipn 4 img), F. reflexivity.
  - destruct (designator ns) as [id|] eqn:D.
    + eapply round_trip_mono; [|apply (page_small lun bs ns ct buffer (7 + N.of_nat (length id)) (device_id_page id)); auto].
      * intros w w' [H|H]; [auto|right]. eexists. split; [|split; [exact H|reflexivity]]. cbn. lia.
      * unfold device_id_page, designation_descriptor, bytes. rewrite !app_length, !map_length. cbn [length]. lia.
      * intros. eapply page83; eauto.
      * intros. eapply page83_short; eauto.
    + eapply round_trip_mono; [|apply page83_none; auto]. auto.
  - destruct (code_spt ns) as [spt|] eqn:D.
    + eapply round_trip_mono; [|apply (page_small lun bs ns ct buffer 14 (extended_page spt ns ct)); auto].
      * intros w w' [H|H]; [auto|right]. eexists. split; [|split; [exact H|reflexivity]]. cbn. lia.
      * intros. eapply page86; eauto.
      * intros. eapply page86_none; eauto.
    + eapply round_trip_mono; [|apply page86_none; auto]. auto.
  - eapply round_trip_mono; [|apply (page_small lun bs ns ct buffer 64 (block_limits_page ct)); auto].
    + intros w w' [H|H]; [auto|right]. eexists. split; [|split; [exact H|reflexivity]]. rewrite block_limits_length. lia.
    + intros. apply pageb0; auto.
    + intros. apply pageb0_short; auto.
  - contradiction.
  - eapply round_trip_mono; [|apply (page_small lun bs ns ct buffer 64 (provisioning_page ns ct)); auto].
    + intros w w' [H|H]; [auto|right]. eexists. split; [rewrite provisioning_length; lia|]. split; [exact H|].
      unfold provisioning_page. destruct (ct_dsm ct =? 0); reflexivity.
    + rewrite provisioning_length. reflexivity.
    + intros. apply pageb2; auto.
    + intros. apply pageb2_short; auto.
Qed.
Print Assumptions C27_page_code_partial.

(** a request for page B1h is always answered with a page that says 83h *)
Theorem C27_page_code_refuted : forall lun bs ns ct buffer,
  inquiry_cdb bs -> inq_evpd bs = 1 -> inq_page bs = 0xb1 -> N.of_nat (length ns) = 4096 -> N.of_nat (length ct) = 4096 ->
  9 <= len buffer ->
  inquiry_round_trip lun bs ns ct buffer (fun w2 w3 =>
    exists img, length img = 9%nat /\ wrote w2 w3 (ptr buffer) img /\ byte_at img 1 = 0x83).
Proof.
  intros. eapply round_trip_mono; [|apply pageb1; auto]. intros w w' W. eexists. split; [|split; [exact W|reflexivity]]. reflexivity.
Qed.
Print Assumptions C27_page_code_refuted.
Example C27_runs :
  inq_run xff (ex_inq 1 0xb1) ex_ns1 ex_ct 0 64 9 = Some (GOOD, B [0;0x83;0x3c;0;1;0;0;0;0]) /\
  option_map (fun r => firstn 2 (snd r)) (inq_run xff (ex_inq 1 0xb2) ex_ns1 ex_ct 0 64 9) = Some (B [0;0xb2]).
Proof. vm_compute. auto. Qed.

(** ** C28 *)
Theorem C28_page_length_partial : forall lun bs ns ct buffer,
  inquiry_cdb bs -> inq_evpd bs = 1 -> In (inq_page bs) [0x00; 0x80; 0xb2] -> N.of_nat (length ns) = 4096 -> N.of_nat (length ct) = 4096 ->
  inquiry_round_trip lun bs ns ct buffer (fun w2 w3 => same_memory w2 w3 \/
    exists img, (4 <= length img)%nat /\ wrote w2 w3 (ptr buffer) img /\ be (slice 2 2 img) = vpd_length (inq_page bs) ns).
Proof.
  intros lun bs ns ct buffer Hq He Hp Ln Lc.
  cbn [In] in Hp. destruct Hp as [E|[E|[E|[]]]]; symmetry in E; rewrite E.
  - eapply round_trip_mono; [|apply page00_any; auto].
    intros w w' [H|(img & W & H)]; [auto|right]. exists img. destruct H as [-> | ->]; (split; [cbn; lia|split; [exact W|reflexivity]]).
  - assert (V : forall rest, be (slice 2 2 (bytes [0; 0x80; 0; vpd_length 0x80 ns] ++ rest)) = vpd_length 0x80 ns).
    { intros rest. unfold vpd_length. destruct (nonzero _); [|destruct (nonzero _)]; reflexivity. }
    eapply round_trip_mono; [|apply page80_any; auto].
    intros w w' [H|(img & P & L & F & [W|W])]; [auto|right..]; [exists (firstn 4 img)|exists img].
    + split; [rewrite firstn_length; lia|]. split; [exact W|]. rewrite F. pose proof (V []) as V0. rewrite app_nil_r in V0. exact V0.
    + split; [lia|]. split; [exact W|]. rewrite <- (firstn_skipn 4 img), F. apply V.
  - eapply round_trip_mono; [|apply (page_small lun bs ns ct buffer 64 (provisioning_page ns ct)); auto].
    + intros w w' [H|H]; [auto|right]. eexists. split; [rewrite provisioning_length; lia|]. split; [exact H|].
      unfold provisioning_page. destruct (ct_dsm ct =? 0); reflexivity.
    + rewrite provisioning_length. reflexivity.
    + intros. apply pageb2; auto.
    + intros. apply pageb2_short; auto.
Qed.
Print Assumptions C28_page_length_partial.

(** the other four pages, whenever produced: the length is wrong (for 86h, B0h
    and B1h it is 3C00h, for 83h there is no 16-bit length field at all) *)
Theorem C28_page_length_refuted : forall lun bs ns ct buffer,
  inquiry_cdb bs -> inq_evpd bs = 1 -> In (inq_page bs) [0x83; 0x86; 0xb0; 0xb1] ->
  N.of_nat (length ns) = 4096 -> N.of_nat (length ct) = 4096 -> 64 <= len buffer ->
  (inq_page bs = 0x83 -> nonzero (ns_nguid ns) = true \/ nonzero (ns_eui64 ns) = true) ->
  (inq_page bs = 0x86 -> ns_type 1 ns = true \/ ns_type 2 ns = true \/ ns_type 3 ns = true) ->
  inquiry_round_trip lun bs ns ct buffer (fun w2 w3 =>
    exists img, (9 <= length img)%nat /\ wrote w2 w3 (ptr buffer) img /\
      be (slice 2 2 img) = (if inq_page bs =? 0x83 then (vpd_length 0x83 ns - 1) * 256 + 1 else 0x3c00) /\
      be (slice 2 2 img) <> vpd_length (inq_page bs) ns).
Proof.
  intros lun bs ns ct buffer Hq He Hp Ln Lc Hl H83 H86. cbn [In] in Hp.
  destruct Hp as [E|[E|[E|[E|[]]]]]; symmetry in E; rewrite E.
  - destruct (designator ns) as [id|] eqn:D.
    + destruct (designator_length ns ct Ln Lc id D) as [_ Hid].
      eapply round_trip_mono; [|eapply page83; eauto; lia]. intros w w' W. eexists. split; [|split; [exact W|]];
      unfold device_id_page, designation_descriptor, vpd_length; rewrite ?D; unfold designator in D;
      (destruct (nonzero (ns_nguid ns)); [injection D as <-|destruct (nonzero (ns_eui64 ns)); [injection D as <-|discriminate]]);
      [assert (L : length (ns_nguid ns) = 16%nat) by (unfold ns_nguid; rewrite slice_length by lia; reflexivity)
      |assert (L : length (ns_eui64 ns) = 8%nat) by (unfold ns_eui64; rewrite slice_length by lia; reflexivity)
      |assert (L : length (ns_nguid ns) = 16%nat) by (unfold ns_nguid; rewrite slice_length by lia; reflexivity)
      |assert (L : length (ns_eui64 ns) = 8%nat) by (unfold ns_eui64; rewrite slice_length by lia; reflexivity)];
      rewrite ?app_length, L; [cbn; lia|cbn; lia|split; [reflexivity|vm_compute; discriminate]..].
    + exfalso. unfold designator in D. destruct (H83 E) as [Z|Z]; rewrite Z in D; [discriminate|].
      destruct (nonzero (ns_nguid ns)); discriminate.
  - destruct (code_spt ns) as [spt|] eqn:D.
    + eapply round_trip_mono; [|eapply page86; eauto; lia]. intros w w' W. eexists. split; [|split; [exact W|]]; [cbn; lia|].
      split; [reflexivity|vm_compute; discriminate].
    + exfalso. unfold code_spt, spc_spt in D. destruct (H86 E) as [Z|[Z|Z]]; rewrite Z in D;
      destruct (ns_type 1 ns), (ns_type 2 ns), (ns_type 3 ns); discriminate.
  - eapply round_trip_mono; [|apply pageb0; auto; lia]. intros w w' W. eexists. split; [|split; [exact W|]].
    + rewrite block_limits_length. lia.
    + split; [reflexivity|vm_compute; discriminate].
  - eapply round_trip_mono; [|apply pageb1; auto; lia]. intros w w' W. eexists. split; [|split; [exact W|]]; [cbn; lia|].
    split; [reflexivity|vm_compute; discriminate].
Qed.
Print Assumptions C28_page_length_refuted.

(** ** C29 *)
(** what is returned for each kind of namespace; see [serial_page] *)
Theorem C29_unit_serial_partial : forall lun bs ns ct buffer,
  inquiry_cdb bs -> inq_evpd bs = 1 -> inq_page bs = 0x80 -> N.of_nat (length ns) = 4096 -> N.of_nat (length ct) = 4096 ->
  44 <= len buffer ->
  inquiry_round_trip lun bs ns ct buffer
    (fun w2 w3 => exists img, serial_page lun ns ct img /\ wrote w2 w3 (ptr buffer) img).
Proof. exact page80. Qed.
Print Assumptions C29_unit_serial_partial.

(** when the identifier has no leading zero digits the page is determined, and
    is the hexadecimal rendering *)
Theorem C29_unit_serial_exact : forall lun ns ct img, serial_page lun ns ct img ->
  (nonzero (ns_nguid ns) = true -> 2 ^ 60 <= nguid_lo ns < 2 ^ 64 -> 2 ^ 60 <= nguid_hi ns < 2 ^ 64 ->
   img = bytes [0; 0x80; 0; 40] ++ grouped 8 (hexdigits 16 (nguid_lo ns) ++ hexdigits 16 (nguid_hi ns))) /\
  (nonzero (ns_nguid ns) = false -> nonzero (ns_eui64 ns) = true -> 2 ^ 60 <= le (ns_eui64 ns) < 2 ^ 64 ->
   img = bytes [0; 0x80; 0; 20] ++ grouped 4 (hexdigits 16 (le (ns_eui64 ns))) ++ repeat x00 20) /\
  (nonzero (ns_nguid ns) = false -> nonzero (ns_eui64 ns) = false ->
   img = bytes [0; 0x80; 0; 30] ++ ct_sn ct ++ [x5f] ++ hexdigits 8 (nsid_of lun) ++ [x2e] ++ repeat x00 10).
Proof.
  assert (K : forall d x, significant d x -> 2 ^ 60 <= x -> d = 16%nat).
  { intros d x [[-> H]|[Hd [_ H]]] L; [exfalso; revert H L; change (16 ^ 8) with (2 ^ 32); intros; assert (2 ^ 32 < 2 ^ 60) by reflexivity; lia|].
    destruct (Nat.eq_dec d 16) as [E|E]; [exact E|]. exfalso.
    assert (B : 16 ^ N.of_nat d <= 16 ^ 15) by (apply N.pow_le_mono_r; [discriminate|lia]). change (16 ^ 15) with (2 ^ 60) in B. lia. }
  intros lun ns ct img H. unfold serial_page in H. split; [|split].
  - intros Z L0 L1. rewrite Z in H. destruct H as (d0 & d1 & j0 & j1 & S0 & S1 & _ & _ & ->).
    rewrite (K _ _ S0), (K _ _ S1), !half_16 by lia. reflexivity.
  - intros Z1 Z2 L0. rewrite Z1, Z2 in H. destruct H as (d & j & S0 & _ & ->). rewrite (K _ _ S0), half_16 by lia. reflexivity.
  - intros Z1 Z2. rewrite Z1, Z2 in H. exact H.
Qed.
Print Assumptions C29_unit_serial_exact.

(** namespaces with different identities never get the same page, whatever
    bytes the unrendered positions happen to hold *)
Theorem C29_distinct : forall lun ns ct img lun' ns' ct' img',
  N.of_nat (length ns) = 4096 -> N.of_nat (length ct) = 4096 -> N.of_nat (length ns') = 4096 -> N.of_nat (length ct') = 4096 ->
  serial_page lun ns ct img -> serial_page lun' ns' ct' img' ->
  identity_of lun ns ct <> identity_of lun' ns' ct' -> img <> img'.
Proof.
  intros lun ns ct img lun' ns' ct' img' Ln Lc Ln' Lc' P P' Hne He. subst img'. apply Hne. clear Hne.
  unfold serial_page, identity_of in *.
  assert (C4 : forall a b c d a' b' c' d' r r', bytes [a; b; c; d] ++ r = bytes [a'; b'; c'; d'] ++ r' -> n2b d = n2b d' /\ r = r').
  { intros a b c d a' b' c' d' r r' E. cbn in E. injection E. auto. }
  assert (App : forall (a b a' b' : list byte), length a = length a' -> a ++ b = a' ++ b' -> a = a' /\ b = b').
  { induction a as [|x a IH]; intros b [|x' a'] b' Hl E; try discriminate; [auto|].
    injection E as -> E. injection Hl as Hl. destruct (IH b a' b' Hl E) as [-> ->]. auto. }
  destruct (nonzero (ns_nguid ns)) eqn:Z; destruct (nonzero (ns_nguid ns')) eqn:Z'.
  - destruct P as (d0 & d1 & j0 & j1 & S0 & S1 & L0 & L1 & ->).
    destruct P' as (d0' & d1' & j0' & j1' & S0' & S1' & L0' & L1' & E). apply C4 in E as [_ E].
    pose proof (significant_le _ _ S0) as [B0 _]. pose proof (significant_le _ _ S1) as [B1 _].
    pose proof (significant_le _ _ S0') as [B0' _]. pose proof (significant_le _ _ S1') as [B1' _].
    apply grouped_inj in E; [|rewrite app_length, !half_length; lia|rewrite app_length, !half_length; lia].
    apply App in E as [E0 E1]; [|rewrite !half_length; lia].
    apply (half_inj _ _ _ _ _ _ S0 S0') in E0. apply (half_inj _ _ _ _ _ _ S1 S1') in E1.
    f_equal. unfold nguid_lo, nguid_hi, ns_nguid in E0, E1. rewrite !slice_slice in E0, E1 by lia.
    unfold ns_nguid. change 16%nat with (8 + 8)%nat. rewrite !slice_app. f_equal.
    + apply le_inj; [rewrite !slice_length by lia; reflexivity|exact E0].
    + apply le_inj; [rewrite !slice_length by lia; reflexivity|exact E1].
  - exfalso. destruct P as (d0 & d1 & j0 & j1 & S0 & S1 & L0 & L1 & ->).
    destruct (nonzero (ns_eui64 ns')); [destruct P' as (d & j & _ & _ & E)|rename P' into E]; apply C4 in E as [E _]; discriminate.
  - exfalso. destruct P' as (d0 & d1 & j0 & j1 & S0 & S1 & L0 & L1 & ->).
    destruct (nonzero (ns_eui64 ns)); [destruct P as (d & j & _ & _ & E)|rename P into E]; apply C4 in E as [E _]; discriminate.
  - destruct (nonzero (ns_eui64 ns)) eqn:Y; destruct (nonzero (ns_eui64 ns')) eqn:Y'.
    + destruct P as (d & j & S0 & L0 & ->). destruct P' as (d' & j' & S0' & L0' & E). apply C4 in E as [_ E].
      pose proof (significant_le _ _ S0) as [B0 _]. pose proof (significant_le _ _ S0') as [B0' _].
      apply App in E as [E _]; [|rewrite !grouped_length; [reflexivity|rewrite half_length; lia..]].
      apply grouped_inj in E; [|rewrite half_length; lia..]. apply (half_inj _ _ _ _ _ _ S0 S0') in E.
      f_equal. unfold ns_eui64 in *. apply le_inj; [rewrite !slice_length by lia; reflexivity|exact E].
    + exfalso. destruct P as (d & j & _ & _ & ->). apply C4 in P' as [E _]. discriminate.
    + exfalso. destruct P' as (d & j & _ & _ & ->). apply C4 in P as [E _]. discriminate.
    + subst img. apply C4 in P' as [_ E]. unfold ct_sn in *.
      apply App in E as [E1 E]; [|rewrite !slice_length by lia; reflexivity]. apply (app_inv_head [x5f]) in E.
      apply App in E as [E2 _]; [|rewrite !hexdigits_length; reflexivity].
      f_equal; [exact E1|]. apply (f_equal unhexs) in E2. rewrite !unhexs_hexdigits in E2; [exact E2|apply nsid_lt..].
Qed.
Print Assumptions C29_distinct.

(** uninitialised stack bytes do reach the caller: the very same request and
    device data, answered differently depending only on what the stack held *)
Theorem C29_uninitialised_refuted :
  let ns := ex_ns ex_head (repeat 0 8 ++ [1;0;0;0;0;0;0;0]) ex_id8 in
  exists a b, inq_run xaa (ex_inq 1 0x80) ns ex_ct 0 64 44 = Some (GOOD, a) /\
              inq_run xbb (ex_inq 1 0x80) ns ex_ct 0 64 44 = Some (GOOD, b) /\
              byte_at a 15 = 0xaa /\ byte_at b 15 = 0xbb.
Proof.
  do 2 eexists. split; [vm_compute; reflexivity|]. split; [vm_compute; reflexivity|]. split; vm_compute; reflexivity.
Qed.
Print Assumptions C29_uninitialised_refuted.
Example C29_runs :
  inq_run xff (ex_inq 1 0x80) ex_ns1 ex_ct 0 64 44 = Some (GOOD, B ([0;0x80;0;40] ++
     [0x38;0x38;0x37;0x37;0x5f;0x36;0x36;0x35;0x35;0x5f;0x34;0x34;0x33;0x33;0x5f;0x32;0x32;0x31;0x31;0x5f;
      0x31;0x30;0x66;0x66;0x5f;0x65;0x65;0x64;0x64;0x5f;0x63;0x63;0x62;0x62;0x5f;0x61;0x61;0x39;0x39;0x2e])).
Proof. vm_compute. reflexivity. Qed.

(** ** C30 *)
(** one binary designator of type EUI-64, its bytes unaltered: NGUID if nonzero,
    else EUI-64; a buffer too small for it is left untouched.  Missing from the
    full property: the header is 3 bytes instead of 4 (see the next theorem),
    and there is no fallback for a namespace without identifiers *)
Theorem C30_device_identification_partial : forall lun bs ns ct buffer id,
  inquiry_cdb bs -> inq_evpd bs = 1 -> inq_page bs = 0x83 -> N.of_nat (length ns) = 4096 -> N.of_nat (length ct) = 4096 ->
  (if nonzero (ns_nguid ns) then id = ns_nguid ns else nonzero (ns_eui64 ns) = true /\ id = ns_eui64 ns) ->
  (7 + N.of_nat (length id) <= len buffer ->
   inquiry_round_trip lun bs ns ct buffer (fun w2 w3 =>
     wrote w2 w3 (ptr buffer) (bytes [0; 0x83; 3 + N.of_nat (length id)] ++ designation_descriptor id))) /\
  (len buffer < 7 + N.of_nat (length id) ->
   inquiry_round_trip lun bs ns ct buffer (fun w2 w3 => same_memory w2 w3)).
Proof.
  intros lun bs ns ct buffer id Hq He Hp Ln Lc Hid.
  assert (D : designator ns = Some id).
  { unfold designator. destruct (nonzero (ns_nguid ns)); [subst id; reflexivity|]. destruct Hid as [-> ->]. reflexivity. }
  split; intros Hl; [apply page83|eapply page83_short]; eauto.
Qed.
Print Assumptions C30_device_identification_partial.

(** the page a conforming initiator would have to see: 4-byte header with the
    16-bit length of the descriptors; what is returned differs for every
    namespace, and without identifiers nothing is returned *)
Theorem C30_device_identification_refuted : forall lun bs ns ct buffer,
  inquiry_cdb bs -> inq_evpd bs = 1 -> inq_page bs = 0x83 -> N.of_nat (length ns) = 4096 -> N.of_nat (length ct) = 4096 ->
  (designator ns = None -> inquiry_round_trip lun bs ns ct buffer (fun w2 w3 => same_memory w2 w3)) /\
  (forall id rest, designator ns = Some id ->
     device_id_page id <> bytes [0; 0x83; 0; 4 + N.of_nat (length id)] ++ designation_descriptor id ++ rest).
Proof.
  intros lun bs ns ct buffer Hq He Hp Ln Lc. split.
  - intros D. apply page83_none; auto.
  - intros id rest D E. unfold device_id_page, designation_descriptor in E. cbn in E. injection E as E _.
    assert (L : length id = 16%nat \/ length id = 8%nat).
    { unfold designator in D. destruct (nonzero (ns_nguid ns)); [|destruct (nonzero (ns_eui64 ns)); [|discriminate]];
      injection D as <-; [left|right]; apply slice_length; lia. }
    destruct L as [L|L]; rewrite L in E; discriminate.
Qed.
Print Assumptions C30_device_identification_refuted.
Example C30_runs :
  inq_run xff (ex_inq 1 0x83) ex_ns1 ex_ct 0 64 24 = Some (GOOD, B ([0;0x83;19;1;2;0;16] ++ ex_id16 ++ [0])) /\
  inq_run xff (ex_inq 1 0x83) (ex_ns ex_head (repeat 0 16) ex_id8) ex_ct 0 64 16 =
    Some (GOOD, B ([0;0x83;11;1;2;0;8] ++ ex_id8 ++ [0])).
Proof. vm_compute. auto. Qed.

(** ** C31 *)
(** GRD_CHK, APP_CHK, REF_CHK and V_SUP are as prescribed whenever the page is
    produced; SPT only if types 1 and 3 are both supported or both unsupported *)
Theorem C31_extended_inquiry_partial : forall lun bs ns ct buffer,
  inquiry_cdb bs -> inq_evpd bs = 1 -> inq_page bs = 0x86 -> N.of_nat (length ns) = 4096 -> N.of_nat (length ct) = 4096 ->
  14 <= len buffer -> ns_type 1 ns = true \/ ns_type 2 ns = true \/ ns_type 3 ns = true ->
  inquiry_round_trip lun bs ns ct buffer (fun w2 w3 => exists spt,
    wrote w2 w3 (ptr buffer) (bytes [0; 0x86; 0x3c; 0; 0x80 + 8 * spt + (if ns_dps ns =? 0 then 0 else 7); 0x20;
                                     ct_vwc ct; 1; 0; 0; 0; 0; 0; 0]) /\
    (ns_type 1 ns = ns_type 3 ns -> spc_spt (ns_type 1 ns) (ns_type 2 ns) (ns_type 3 ns) = Some spt)).
Proof.
  intros lun bs ns ct buffer Hq He Hp Ln Lc Hl Ht.
  destruct (code_spt ns) as [spt|] eqn:D.
  - eapply round_trip_mono; [|eapply page86; eauto; lia]. intros w w' W. exists spt. split; [exact W|].
    intros E. rewrite <- D. unfold code_spt. rewrite E. reflexivity.
  - exfalso. unfold code_spt, spc_spt in D. destruct Ht as [Z|[Z|Z]]; rewrite Z in D;
    destruct (ns_type 1 ns), (ns_type 2 ns), (ns_type 3 ns); discriminate.
Qed.
Print Assumptions C31_extended_inquiry_partial.

(** if exactly one of types 1 and 3 is supported, SPT is that of the namespace
    with the two exchanged, which is never right *)
Theorem C31_extended_inquiry_refuted : forall lun bs ns ct buffer,
  inquiry_cdb bs -> inq_evpd bs = 1 -> inq_page bs = 0x86 -> N.of_nat (length ns) = 4096 -> N.of_nat (length ct) = 4096 ->
  14 <= len buffer -> ns_type 1 ns <> ns_type 3 ns ->
  inquiry_round_trip lun bs ns ct buffer (fun w2 w3 => exists spt right,
    wrote w2 w3 (ptr buffer) (extended_page spt ns ct) /\
    spc_spt (ns_type 1 ns) (ns_type 2 ns) (ns_type 3 ns) = Some right /\ spt <> right).
Proof.
  intros lun bs ns ct buffer Hq He Hp Ln Lc Hl Ht.
  destruct (code_spt ns) as [spt|] eqn:D; [destruct (spc_spt (ns_type 1 ns) (ns_type 2 ns) (ns_type 3 ns)) as [right|] eqn:S|].
  - eapply round_trip_mono; [|eapply page86; eauto; lia]. intros w w' W. exists spt, right. split; [exact W|].
    split; [reflexivity|]. intros ->. unfold code_spt in D.
    destruct (ns_type 1 ns), (ns_type 2 ns), (ns_type 3 ns); cbn in *; congruence.
  - exfalso. destruct (ns_type 1 ns), (ns_type 2 ns), (ns_type 3 ns); cbn in *; congruence.
  - exfalso. unfold code_spt in D. destruct (ns_type 1 ns), (ns_type 2 ns), (ns_type 3 ns); cbn in *; congruence.
Qed.
Print Assumptions C31_extended_inquiry_refuted.
(** all types supported and type 2 enabled: SPT 7; only type 1: SPT 4 instead of 0 *)
Example C31_runs :
  inq_run xff (ex_inq 1 0x86) ex_ns1 ex_ct 0 64 14 = Some (GOOD, B [0;0x86;0x3c;0;0xbf;0x20;1;1;0;0;0;0;0;0]) /\
  inq_run xff (ex_inq 1 0x86) (ex_ns (repeat 0 28 ++ [1;0]) ex_id16 ex_id8) ex_ct 0 64 14 =
    Some (GOOD, B [0;0x86;0x3c;0;0xa0;0x20;1;1;0;0;0;0;0;0]).
Proof. vm_compute. auto. Qed.

(** ** C32 *)
Theorem C32_block_limits : forall lun bs ns ct buffer,
  inquiry_cdb bs -> inq_evpd bs = 1 -> inq_page bs = 0xb0 -> N.of_nat (length ns) = 4096 -> N.of_nat (length ct) = 4096 ->
  let mtl := if ct_mdts ct =? 0 then 0 else 2 ^ N.min (ct_mdts ct) 16 in
  (64 <= len buffer ->
   inquiry_round_trip lun bs ns ct buffer (fun w2 w3 => exists hdr,
     length hdr = 4%nat /\ byte_at hdr 1 = 0xb0 /\
     wrote w2 w3 (ptr buffer)
       (hdr ++ bytes [0; (if ct_compare_write ct =? 0 then 0 else N.min 255 mtl); 0; 0]
        ++ be_encode 4 mtl                                        (* maximum transfer length *)
        ++ be_encode 4 0 ++ be_encode 4 0
        ++ be_encode 4 (if ct_dsm ct =? 0 then 0 else 1)          (* maximum unmap LBA count *)
        ++ be_encode 4 (if ct_dsm ct =? 0 then 0 else 256)        (* maximum unmap block descriptor count *)
        ++ repeat x00 36))) /\
  (len buffer < 64 -> inquiry_round_trip lun bs ns ct buffer (fun w2 w3 => same_memory w2 w3)).
Proof.
  intros lun bs ns ct buffer Hq He Hp Ln Lc mtl. split; intros Hl; [|apply pageb0_short; auto].
  eapply round_trip_mono; [|apply pageb0; auto]. intros w w' W. exists (bytes [0; 0xb0; 0x3c; 0]).
  split; [reflexivity|]. split; [reflexivity|].
  match goal with |- wrote _ _ _ ?x => replace x with (block_limits_page ct); [exact W|] end.
  unfold block_limits_page, ct_max_transfer. fold mtl.
  replace (if ct_dsm ct =? 0 then 0 else 1) with (ct_dsm ct); [reflexivity|].
  unfold ct_dsm. rewrite bit1. destruct (N.testbit _ _); reflexivity.
Qed.
Print Assumptions C32_block_limits.
Example C32_run : inq_run xff (ex_inq 1 0xb0) ex_ns1 ex_ct 0 64 64 =
  Some (GOOD, B ([0;0xb0;0x3c;0; 0;32;0;0; 0;0;0;32; 0;0;0;0; 0;0;0;0; 0;0;0;1; 0;0;1;0] ++ repeat 0 36)).
Proof. vm_compute. reflexivity. Qed.

(** ** C33 *)
Theorem C33_provisioning : forall lun bs ns ct buffer,
  inquiry_cdb bs -> inq_evpd bs = 1 -> inq_page bs = 0xb2 -> N.of_nat (length ns) = 4096 -> N.of_nat (length ct) = 4096 ->
  (64 <= len buffer ->
   inquiry_round_trip lun bs ns ct buffer (fun w2 w3 => exists img,
     wrote w2 w3 (ptr buffer) img /\ length img = 64%nat /\ firstn 5 img = bytes [0; 0xb2; 0; 4; 0] /\
     (* LBPU, LBPWS, LBPWS10, LBPRZ, ANC_SUP, DP *)
     bits (byte_at img 5) 7 1 = ct_dsm ct /\ bits (byte_at img 5) 5 2 = 0 /\
     bits (byte_at img 5) 2 3 = ct_dsm ct /\ bits (byte_at img 5) 0 2 = 0 /\
     (* provisioning type: 0 fully provisioned, 1 resource, 2 thin *)
     byte_at img 6 = (if ct_dsm ct =? 0 then 0 else if ns_thin ns =? 0 then 1 else 2) /\
     skipn 7 img = repeat x00 57)) /\
  (len buffer < 64 -> inquiry_round_trip lun bs ns ct buffer (fun w2 w3 => same_memory w2 w3)).
Proof.
  intros lun bs ns ct buffer Hq He Hp Ln Lc. split; intros Hl; [|apply pageb2_short; auto].
  eapply round_trip_mono; [|apply pageb2; auto]. intros w w' W. eexists. split; [exact W|].
  split; [apply provisioning_length|]. unfold provisioning_page.
  assert (D : ct_dsm ct = 0 \/ ct_dsm ct = 1) by (unfold ct_dsm; rewrite bit1; destruct (N.testbit _ _); auto).
  destruct D as [-> | ->]; [|destruct (ns_thin ns =? 0)]; vm_compute; repeat split.
Qed.
Print Assumptions C33_provisioning.
(** deallocate supported, thin provisioned: type 2 *)
Example C33_run : inq_run xff (ex_inq 1 0xb2) ex_ns1 ex_ct 0 64 8 = Some (GOOD, B [0;0xb2;0;4;0;0x84;2;0]).
Proof. vm_compute. reflexivity. Qed.
