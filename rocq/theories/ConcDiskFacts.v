(** Threads that share a disk. *)
From Coq Require Import Arith NArith String List Lia Bool Init.Byte.
From Coq Require Import ZifyBool ZifyNat ZifyN.
From Verif Require Import Bytes Layout World ScsiDefs NvmeDefs Common ModeSenseCmd StatusCmd TranslationCls EngineE2e MockModule Spec RwSpec EngineSpec MockSpec
  Facts Logic BeginFacts CompleteFacts ProgFacts ConcSpec ConcFacts DiskSpec ConcDiskSpec.
Import ListNotations.
Local Open Scope string_scope.
Local Open Scope list_scope.
Local Open Scope N_scope.

(** ** a queued command is a thread *)
Lemma ro_ext l (m m' : thread) : (forall drv w, m' drv w = m drv w) -> runs_on l m -> runs_on l m'.
Proof.
  intros H R. destruct R as [l m r F Hr|l m U|l m B a k Ha Hk R|l m s k Hk R].
  - apply (ro_done _ _ r); [|exact Hr]. intros drv w. rewrite H. apply F.
  - apply ro_undefined. intros drv. destruct (U drv) as [s F]. exists s. intros w. rewrite H. apply F.
  - apply (ro_act _ _ B a k Ha); [|exact R]. intros drv w. rewrite H. apply Hk.
  - apply (ro_submit _ _ s k); [|exact R]. intros drv w. rewrite H. apply Hk.
Qed.
Lemma ro_ret l r : mr_subs r = l -> runs_on l (fun _ => ret r).
Proof. intros H. apply (ro_done _ _ r); [|exact H]. intros drv w. reflexivity. Qed.
Lemma ro_bind l A (m : M A) (f : A -> thread) : prog true m -> (forall a, runs_on l (f a)) -> runs_on l (fun drv => bind m (fun a => f a drv)).
Proof.
  intros P Hf. apply program_prog in P. induction P as [m r F|m [s F]|m B a k Ha Hk P IH].
  - apply (ro_ext l (f r)); [|apply Hf]. intros drv w. unfold bind. rewrite F. reflexivity.
  - apply ro_undefined. intros drv. exists s. intros w. unfold bind. rewrite F. reflexivity.
  - apply (ro_act l _ B a (fun b drv => bind (k b) (fun x => f x drv))); [apply ac_library; exact Ha| |exact IH].
    intros drv w. unfold bind in *. rewrite Hk. destruct (a w); reflexivity.
Qed.
Lemma ro_action l A (m : M A) (f : A -> thread) : action m -> (forall a, runs_on l (f a)) -> runs_on l (fun drv => bind m (fun a => f a drv)).
Proof. intros Ha Hf. apply (ro_act l _ A m f Ha); [|exact Hf]. reflexivity. Qed.
Lemma ro_loop ws : forall l (f : list N * list submission -> thread), (forall cs ss, runs_on (l ++ ss) (f (cs, ss))) ->
  runs_on l (fun drv => bind (submit_loop drv (length l) ws) (fun x => f x drv)).
Proof.
  induction ws as [|x ws IH]; intros l f Hf.
  - apply (ro_ext l (f ([], []))); [reflexivity|]. specialize (Hf [] []). rewrite app_nil_r in Hf. exact Hf.
  - cbn [submit_loop]. set (s := {| sub_admin := is_admin x; sub_cmd := cmd x; sub_buffer := get GenericCmd "prp1" (cmd x); sub_bufflen := buffer_len x |}).
    apply (ro_submit l _ s (fun c drv => bind (submit_loop drv (length (l ++ [s])) ws) (fun y => f (c :: fst y, s :: snd y) drv))).
    + intros drv w. unfold bind. unfold hand_over. destruct (drv (length l) s (mem w)) as [m' cpl]. rewrite app_length. cbn [length]. rewrite Nat.add_1_r.
      destruct (submit_loop drv (S (length l)) ws (set_mem w m')) as [[cs ss] w1|]; reflexivity.
    + intros c. apply (IH (l ++ [s]) (fun y => f (c :: fst y, s :: snd y))). intros cs ss. cbn [fst snd]. rewrite <- app_assoc. apply Hf.
Qed.
Lemma prog_gather sgl : forall n, prog true (sg_gather sgl n).
Proof. induction sgl as [|[a k] sgl IH]; intros n; cbn [sg_gather]; [constructor|]. eapply p_bind; [constructor|]. intros x. eapply p_bind; [apply IH|]. intros y. constructor. Qed.
Lemma prog_scatter sgl : forall bs, prog true (sg_scatter sgl bs).
Proof. induction sgl as [|[a k] sgl IH]; intros n; cbn [sg_scatter]; [constructor|]. eapply p_bind; [constructor|]. intros x. eapply p_bind; [apply IH|]. intros y. constructor. Qed.
Lemma prog_if A (b : bool) (m m' : M A) : prog true m -> prog true m' -> prog true (if b then m else m').
Proof. destruct b; auto. Qed.

Lemma thread_rest q buf : let n := mock_data_len (sc_bufflen (q_cmnd q)) in let c := q_cmnd q in
  runs_on [] (fun drv =>
    if (0 <? n) && (buf =? 0) then ret {| mr_result := 23; mr_resid := None; mr_subs := [] |} else
    _ <- (if (0 <? n) && negb (sc_from_device c) then sg_copy_to_buffer (sc_sgl c) buf n else ret 0) ;;
    ' (resp, _, subs) <- ScsiToNvme drv (q_wrs q) (sc_cmnd c) (u16 (sc_cmd_len c)) (sc_lun c) (sc_sense c) SCSI_SENSE_BUFFERSIZE buf n (sc_from_device c) ;;
    resid <- (if sc_from_device c && (0 <? n) then sdb_len <- sg_copy_from_buffer (sc_sgl c) buf (er_alloc_len resp) ;; ret (Some (n - sdb_len)) else ret None) ;;
    _ <- (if 0 <? n then kfree buf n else ret tt) ;;
    ret {| mr_result := er_return_code resp; mr_resid := resid; mr_subs := subs |}).
Proof.
  intros n c.
  destruct ((0 <? n) && (buf =? 0)); [apply ro_ret; reflexivity|].
    apply (ro_bind [] N _ (fun _ drv => ' (resp, _, subs) <- ScsiToNvme drv _ _ _ _ _ _ _ _ _ ;; _)).
    { apply prog_if; [|constructor]. unfold sg_copy_to_buffer. eapply p_bind; [apply prog_gather|]. intros x. eapply p_bind; [constructor|]. intros []. constructor. }
    intros _.
    assert (F : forall resp subs, runs_on subs (fun _ =>
      resid <- (if sc_from_device c && (0 <? n) then sdb_len <- sg_copy_from_buffer (sc_sgl c) buf (er_alloc_len resp) ;; ret (Some (n - sdb_len)) else ret None) ;;
      _ <- (if 0 <? n then kfree buf n else ret tt) ;;
      ret {| mr_result := er_return_code resp; mr_resid := resid; mr_subs := subs |})).
    { intros resp subs. apply (ro_bind subs _ _ (fun resid _ => _ <- (if 0 <? n then kfree buf n else ret tt) ;; ret {| mr_result := er_return_code resp; mr_resid := resid; mr_subs := subs |})).
      { apply prog_if; [|constructor]. eapply p_bind; [|intros k; constructor]. unfold sg_copy_from_buffer. eapply p_bind; [constructor|]. intros x. apply prog_scatter. }
      intros resid. destruct (0 <? n).
      - apply (ro_action subs unit (kfree buf n) (fun _ _ => ret {| mr_result := er_return_code resp; mr_resid := resid; mr_subs := subs |})); [apply ac_kfree|]. intros _. apply ro_ret. reflexivity.
      - apply (ro_bind subs unit (ret tt) (fun _ _ => ret {| mr_result := er_return_code resp; mr_resid := resid; mr_subs := subs |})); [constructor|]. intros _. apply ro_ret. reflexivity. }
    unfold ScsiToNvme. cbv zeta.
    set (g := fun (x : EngineResponse * Translation * list submission) => let '(resp, _, subs) := x in
      resid <- (if sc_from_device c && (0 <? n) then sdb_len <- sg_copy_from_buffer (sc_sgl c) buf (er_alloc_len resp) ;; ret (Some (n - sdb_len)) else ret None) ;;
      _ <- (if 0 <? n then kfree buf n else ret tt) ;;
      ret {| mr_result := er_return_code resp; mr_resid := resid; mr_subs := subs |}).
    set (cdb := {| ptr := sc_cmnd c; len := u16 (sc_cmd_len c) |}).
    set (fin := fun (t : Translation) (br : BeginResponse) (y : list N * list submission) => let '(cpls, subs) := y in
        ' (t, cpl_resp) <- Complete t cpls (if sc_from_device c then {| ptr := buf; len := br_alloc_len br |} else null_span) {| ptr := sc_sense c; len := SCSI_SENSE_BUFFERSIZE |} ;;
        match cr_status cpl_resp with
        | ApiFailure => g ({| er_return_code := 0x40; er_alloc_len := 0 |}, t, subs)
        | ApiSuccess => g ({| er_return_code := cr_scsi_status cpl_resp; er_alloc_len := br_alloc_len br |}, t, subs)
        end).
    apply (ro_ext [] (fun drv => bind (Begin (Translation_init (q_wrs q)) cdb {| ptr := buf; len := n |} (sc_lun c)) (fun x => let '(t, br) := x in
      match br_status br with
      | ApiFailure => g ({| er_return_code := kTaskAborted; er_alloc_len := 0 |}, t, [])
      | ApiSuccess => if n <? br_alloc_len br then g ({| er_return_code := kTaskAborted; er_alloc_len := 0 |}, t, [])
                      else bind (submit_loop drv 0 (GetNvmeWrappers t)) (fin t br)
      end))).
    { intros drv w. unfold g, fin, bind. destruct (Begin _ _ _ _ w) as [[t br] w1|]; [|reflexivity].
      destruct (br_status br); [|reflexivity]. destruct (n <? br_alloc_len br); [reflexivity|].
      destruct (submit_loop drv 0 (GetNvmeWrappers t) w1) as [[cpls subs] w2|]; [|reflexivity].
      destruct (Complete _ _ _ _ w2) as [[t' cr] w3|]; [|reflexivity]. destruct (cr_status cr); reflexivity. }
    apply (ro_bind [] _ _ (fun x drv => let '(t, br) := x in _)); [apply p_Begin|]. intros [t br].
    destruct (br_status br); [|apply F]. destruct (n <? br_alloc_len br); [apply F|].
    apply (ro_loop (GetNvmeWrappers t) [] (fun y _ => fin t br y)). intros cs ss. unfold fin. cbn [app].
    apply (ro_bind ss _ _ (fun x _ => let '(t, cpl_resp) := x in _)); [apply p_Complete|]. intros [t' cr]. destruct (cr_status cr); apply F.
Qed.
Lemma thread_runs q : runs_on [] (thread_of q).
Proof.
  pose proof (thread_rest q) as K. cbv zeta in K. unfold thread_of, scsi_queuecommand. cbv zeta.
  set (n := mock_data_len (sc_bufflen (q_cmnd q))) in *. set (c := q_cmnd q) in *.
  destruct (0 <? n) eqn:E.
  - apply (ro_action [] N (kzalloc (q_kz q) n) (fun buf drv => if (true && (buf =? 0))%bool then _ else _)); [apply ac_kzalloc|]. exact K.
  - apply (ro_bind [] N (ret (q_wild q)) (fun buf drv => if (false && (buf =? 0))%bool then _ else _)); [constructor|]. exact K.
Qed.

(** ** one action, wherever the memory it needs is present *)
Lemma store_bytes_some m a bs x : m x <> None -> store_bytes m a bs x <> None.
Proof.
  unfold store_bytes. destruct ((a <=? x) && (x <? a + N.of_nat (length bs))) eqn:E; [|auto]. intros _.
  try (apply nth_error_Some; lia); discriminate.
Qed.
Lemma map_pages_some m p n f x : m x <> None -> map_pages m p n f x <> None.
Proof. unfold map_pages. destruct (_ && _); [discriminate|auto]. Qed.

Lemma action_eff B (a : M B) v b v1 : action a -> a v = Ret b v1 ->
  exists (eff : memory -> memory) d new,
    (forall u, (forall x c, mem v x = Some c -> mem u x = Some c) -> alloc_cb u = alloc_cb v -> dealloc_cb u = dealloc_cb v ->
       (d <> 0%nat -> same_draw v u) -> a u = Ret b (after u (eff (mem u)) d new)) /\
    (forall m m' x, m x = m' x -> eff m x = eff m' x) /\
    (forall m x, m x <> None -> eff m x <> None) /\
    (forall x, mem v x = None -> (exists size n p, new = [EvAlloc size n p] /\ p <> 0 /\ p <= x < p + size * n) \/ forall m, eff m x = m x).
Proof.
  intros Ha E. destruct Ha as [B a0 Hl|kz n|a n]; [destruct Hl as [a n|a bs|size n|a n|n]| |].
  - unfold load in E. destruct (load_bytes (mem v) a n) as [l|] eqn:El; [|discriminate E]. injection E as <- <-.
    exists (fun m => m), 0%nat, []. split; [|auto]. intros u Hm _ _ _. unfold load. rewrite (load_present _ _ _ _ _ Hm El), after_0. reflexivity.
  - unfold store in E. destruct (load_bytes (mem v) a (length bs)) as [l|] eqn:El; [|discriminate E]. injection E as <- <-.
    exists (fun m => store_bytes m a bs), 0%nat, []. split; [|split; [|split]].
    + intros u Hm _ _ _. unfold store. rewrite (load_present _ _ _ _ _ Hm El). unfold after, set_mem. rewrite Nat.add_0_r, app_nil_r. reflexivity.
    + intros m m' x Hx. unfold store_bytes. destruct (_ && _); [reflexivity|exact Hx].
    + intros m x. apply store_bytes_some.
    + intros x Hx. right. intros m. unfold store_bytes. destruct ((a <=? x) && (x <? a + N.of_nat (length bs))) eqn:R; [|reflexivity].
      exfalso. apply (load_dom _ _ _ _ El x); [lia|exact Hx].
  - unfold AllocPages in E. destruct (alloc_cb v) eqn:Ec; cbn [negb] in E.
    + set (p := u64 (ans v (tick v) size n)) in *.
      assert (b = p) as -> by (destruct (p =? 0); injection E as <- _; reflexivity). clear E.
      exists (fun m => if p =? 0 then m else map_pages m p (size * n) (fill v (tick v))), 1%nat, [EvAlloc size n p]. split; [|split; [|split]].
      * intros u _ Hc _ Hs. destruct (Hs ltac:(discriminate)) as (Q1 & Q2 & _). unfold AllocPages. rewrite Hc, Q1, Q2. fold p. cbn [negb].
        unfold after, log, set_tick, set_mem. rewrite Nat.add_1_r. destruct (p =? 0); reflexivity.
      * intros m m' x Hx. destruct (p =? 0); [exact Hx|]. unfold map_pages. destruct (_ && _); [reflexivity|exact Hx].
      * intros m x Hx. destruct (p =? 0); [exact Hx|]. apply map_pages_some. exact Hx.
      * intros x _. destruct (N.eqb_spec p 0) as [Z|Z]; [right; reflexivity|].
        destruct ((p <=? x) && (x <? p + size * n)) eqn:R; [left; exists size, n, p; split; [reflexivity|]; split; [exact Z|lia]|].
        right. intros m. unfold map_pages. rewrite R. reflexivity.
    + injection E as <- <-. exists (fun m => m), 0%nat, []. split; [|auto].
      intros u _ Hc _ _. unfold AllocPages. rewrite Hc. cbn [negb]. rewrite after_0. reflexivity.
  - unfold DeallocPages in E. destruct (dealloc_cb v) eqn:Ec; cbn [negb] in E; injection E as <- <-.
    + exists (fun m => m), 0%nat, [EvDealloc a n]. split; [|auto]. intros u _ _ Hc _. unfold DeallocPages. rewrite Hc. cbn [negb].
      unfold after, log. rewrite Nat.add_0_r. reflexivity.
    + exists (fun m => m), 0%nat, []. split; [|auto]. intros u _ _ Hc _. unfold DeallocPages. rewrite Hc. cbn [negb]. rewrite after_0. reflexivity.
  - unfold stack_junk in E. injection E as <- <-. exists (fun m => m), 1%nat, []. split; [|auto].
    intros u _ _ _ Hs. destruct (Hs ltac:(discriminate)) as (_ & _ & Q). unfold stack_junk. rewrite Q. unfold after, set_tick. rewrite Nat.add_1_r, app_nil_r. reflexivity.
  - unfold kzalloc in E. injection E as <- _. exists (fun m => if kz =? 0 then m else map_pages m kz n (fun _ => x00)), 0%nat, [EvAlloc 1 n kz]. split; [|split; [|split]].
    + intros u _ _ _ _. unfold kzalloc, after, log, set_mem. rewrite Nat.add_0_r. destruct (kz =? 0); reflexivity.
    + intros m m' x Hx. destruct (kz =? 0); [exact Hx|]. unfold map_pages. destruct (_ && _); [reflexivity|exact Hx].
    + intros m x Hx. destruct (kz =? 0); [exact Hx|]. apply map_pages_some. exact Hx.
    + intros x _. destruct (N.eqb_spec kz 0) as [Z|Z]; [right; reflexivity|].
      destruct ((kz <=? x) && (x <? kz + n)) eqn:R; [left; exists 1, n, kz; split; [reflexivity|]; split; [exact Z|lia]|].
      right. intros m. unfold map_pages. rewrite R. reflexivity.
  - unfold kfree in E. injection E as <- _. exists (fun m => m), 0%nat, [EvDealloc a n]. split; [|auto].
    intros u _ _ _ _. unfold kfree, after, log. rewrite Nat.add_0_r. reflexivity.
Qed.

(** ** what is left after the last command is handed over *)
Lemma runs_prefix l m : runs_on l m -> forall drv v r v', m drv v = Ret r v' ->
  (exists l', mr_subs r = l ++ l') /\ exists e, trace v' = trace v ++ e.
Proof.
  induction 1 as [l m r F Hr|l m U|l m B a k Ha Hk R IH|l m s k Hk R IH]; intros drv v r0 v' E.
  - rewrite F in E. injection E as <- <-. split; [exists []|exists []]; rewrite app_nil_r; [exact Hr|reflexivity].
  - destruct (U drv) as [s F]. rewrite F in E. discriminate E.
  - rewrite Hk in E. unfold bind in E. destruct (a v) as [b v1|] eqn:Ea; [|discriminate E].
    destruct (action_eff B a v b v1 Ha Ea) as (eff & d & new & Hu & _). rewrite (Hu v) in Ea; [|auto|reflexivity|reflexivity|split; [reflexivity|split; reflexivity]].
    injection Ea as <-. destruct (IH b drv _ _ _ E) as [H1 [e H2]]. split; [exact H1|]. exists (new ++ e). rewrite H2. cbn [after trace]. rewrite app_assoc. reflexivity.
  - rewrite Hk in E. unfold bind, hand_over in E. destruct (drv (length l) s (mem v)) as [m' c].
    destruct (IH _ drv _ _ _ E) as [[l' H1] H2]. split; [exists (s :: l'); rewrite H1, <- app_assoc; reflexivity|exact H2].
Qed.

Lemma frame_run l m : runs_on l m -> forall drv v r v' e, m drv v = Ret r v' -> mr_subs r = l ->
  (forall x, 2 ^ 64 <= x -> mem v x = None) -> trace v' = trace v ++ e ->
  (forall size n p, In (EvAlloc size n p) e -> p <> 0 -> p + size * n <= 2 ^ 64) ->
  forall drv' mu, (forall x, x < 2 ^ 64 -> mu x = mem v x) ->
  exists mu', m drv' (set_mem v mu) = Ret r (set_mem v' mu') /\ (forall x, x < 2 ^ 64 -> mu' x = mem v' x) /\ (forall x, 2 ^ 64 <= x -> mu' x = mu x).
Proof.
  induction 1 as [l m r F Hr|l m U|l m B a k Ha Hk R IH|l m s k Hk R IH]; intros drv v r0 v' e E Hs Hh Ht Hlow drv' mu Hmu.
  - rewrite F in E. injection E as <- <-. exists mu. rewrite F. split; [reflexivity|]. split; [exact Hmu|reflexivity].
  - destruct (U drv) as [s F]. rewrite F in E. discriminate E.
  - rewrite Hk in E. unfold bind in E. destruct (a v) as [b v1|] eqn:Ea; [|discriminate E].
    destruct (action_eff B a v b v1 Ha Ea) as (eff & d & new & Hu & Hp & _ & Hf).
    assert (Dr : forall m, same_draw v (set_mem v m)) by (intros m0; split; [reflexivity|split; reflexivity]).
    rewrite (Hu v) in Ea; [|auto|reflexivity|reflexivity|split; [reflexivity|split; reflexivity]].
    injection Ea as <-.
    assert (Eu : a (set_mem v mu) = Ret b (set_mem (after v (eff (mem v)) d new) (eff mu))).
    { rewrite (Hu (set_mem v mu)); [reflexivity| |reflexivity|reflexivity|intros _; apply Dr].
      cbn [mem set_mem]. intros x c Hx. rewrite Hmu; [exact Hx|]. destruct (N.lt_ge_cases x (2 ^ 64)) as [L|L]; [exact L|]. rewrite Hh in Hx by exact L. discriminate Hx. }
    destruct (runs_prefix _ _ (R b) _ _ _ _ E) as [_ [e' He']]. cbn [after trace] in He'. rewrite Ht, <- app_assoc in He'. apply app_inv_head in He'. subst e.
    assert (Hi : forall m0 x, 2 ^ 64 <= x -> eff m0 x = m0 x).
    { intros m0 x Hx. destruct (Hf x (Hh x Hx)) as [(sz & n & p & -> & Hp0 & Hr)|Q]; [|apply Q].
      assert (p + sz * n <= 2 ^ 64) by (apply Hlow; [left; reflexivity|exact Hp0]). lia. }
    destruct (IH b drv (after v (eff (mem v)) d new) r0 v' e' E Hs) with (drv' := drv') (mu := eff mu) as (mu' & E' & L' & H').
    + intros x Hx. cbn [after mem]. rewrite Hi by exact Hx. apply Hh. exact Hx.
    + cbn [after trace]. rewrite Ht, app_assoc. reflexivity.
    + intros size n p Hin. apply Hlow. apply in_or_app. right. exact Hin.
    + intros x Hx. cbn [after mem]. apply Hp. apply Hmu. exact Hx.
    + exists mu'. split; [|split; [exact L'|]].
      * rewrite Hk. unfold bind. rewrite Eu. exact E'.
      * intros x Hx. rewrite H' by exact Hx. apply Hi. exact Hx.
  - exfalso. rewrite Hk in E. unfold bind, hand_over in E. destruct (drv (length l) s (mem v)) as [m' c].
    destruct (runs_prefix _ _ (R _) drv _ _ _ E) as [[l' H1] _]. rewrite Hs in H1. apply (f_equal (@length _)) in H1. rewrite !app_length in H1. cbn [length] in H1. lia.
Qed.

(** ** ... and before it, on a device that works on the part below 2^64 only *)
Definition join (m mu : memory) : memory := fun y => if y <? 2 ^ 64 then m y else mu y.
Definition lowdev (drv : driver) (mu : memory) : driver := fun i s m =>
  (join (fst (drv i s (join m mu))) (fun _ => None), snd (drv i s (join m mu))).
Lemma join_low m mu y : y < 2 ^ 64 -> join m mu y = m y.
Proof. intros H. unfold join. replace (y <? 2 ^ 64) with true by lia. reflexivity. Qed.
Lemma join_high m mu y : 2 ^ 64 <= y -> join m mu y = mu y.
Proof. intros H. unfold join. replace (y <? 2 ^ 64) with false by lia. reflexivity. Qed.

Lemma lift_run l m : runs_on l m -> forall drv mu s v r v' e, m (lowdev drv mu) v = Ret r v' -> mr_subs r = l ++ [s] ->
  (forall x, 2 ^ 64 <= x -> mem v x = None) -> trace v' = trace v ++ e ->
  (forall size n p, In (EvAlloc size n p) e -> p <> 0 -> p + size * n <= 2 ^ 64) ->
  (forall m1 m2, (forall y, m1 y = m2 y) -> snd (drv (length l) s m1) = snd (drv (length l) s m2) /\ forall y, fst (drv (length l) s m1) y = fst (drv (length l) s m2) y) ->
  forall mb, (forall x, x < 2 ^ 64 -> mb x = mem v x) -> (forall x, 2 ^ 64 <= x -> mb x = mu x) ->
  exists mb', m drv (set_mem v mb) = Ret r (set_mem v' mb') /\ (forall x, x < 2 ^ 64 -> mb' x = mem v' x).
Proof.
  induction 1 as [l m r F Hr|l m U|l m B a k Ha Hk R IH|l m s k Hk R IH]; intros drv mu s0 v r0 v' e E Hs Hh Ht Hlow Hext mb Hmb Hhb.
  - exfalso. rewrite F in E. injection E as <- _. rewrite Hr in Hs. apply (f_equal (@length _)) in Hs. rewrite app_length in Hs. cbn [length] in Hs. lia.
  - destruct (U (lowdev drv mu)) as [s F]. rewrite F in E. discriminate E.
  - rewrite Hk in E. unfold bind in E. destruct (a v) as [b v1|] eqn:Ea; [|discriminate E].
    destruct (action_eff B a v b v1 Ha Ea) as (eff & d & new & Hu & Hp & _ & Hf).
    assert (Dr : forall m, same_draw v (set_mem v m)) by (intros m0; split; [reflexivity|split; reflexivity]).
    rewrite (Hu v) in Ea; [|auto|reflexivity|reflexivity|split; [reflexivity|split; reflexivity]].
    injection Ea as <-.
    assert (Eu : a (set_mem v mb) = Ret b (set_mem (after v (eff (mem v)) d new) (eff mb))).
    { rewrite (Hu (set_mem v mb)); [reflexivity| |reflexivity|reflexivity|intros _; apply Dr].
      cbn [mem set_mem]. intros x c Hx. rewrite Hmb; [exact Hx|]. destruct (N.lt_ge_cases x (2 ^ 64)) as [L|L]; [exact L|]. rewrite Hh in Hx by exact L. discriminate Hx. }
    destruct (runs_prefix _ _ (R b) _ _ _ _ E) as [_ [e' He']]. cbn [after trace] in He'. rewrite Ht, <- app_assoc in He'. apply app_inv_head in He'. subst e.
    assert (Hi : forall m0 x, 2 ^ 64 <= x -> eff m0 x = m0 x).
    { intros m0 x Hx. destruct (Hf x (Hh x Hx)) as [(sz & n & p & -> & Hp0 & Hr)|Q]; [|apply Q].
      assert (p + sz * n <= 2 ^ 64) by (apply Hlow; [left; reflexivity|exact Hp0]). lia. }
    destruct (IH b drv mu s0 (after v (eff (mem v)) d new) r0 v' e' E Hs) with (mb := eff mb) as (mb' & E' & L').
    + intros x Hx. cbn [after mem]. rewrite Hi by exact Hx. apply Hh. exact Hx.
    + cbn [after trace]. rewrite Ht, app_assoc. reflexivity.
    + intros size n p Hin. apply Hlow. apply in_or_app. right. exact Hin.
    + exact Hext.
    + intros x Hx. cbn [after mem]. apply Hp. apply Hmb. exact Hx.
    + intros x Hx. rewrite Hi by exact Hx. apply Hhb. exact Hx.
    + exists mb'. split; [|exact L']. rewrite Hk. unfold bind. rewrite Eu. exact E'.
  - rewrite Hk in E. unfold bind, hand_over in E. unfold lowdev in E at 1.
    destruct (runs_prefix _ _ (R _) _ _ _ _ E) as [[l' H1] _]. rewrite Hs, <- app_assoc in H1. apply app_inv_head in H1. injection H1 as -> H1. subst l'.
    destruct (Hext mb (join (mem v) mu)) as [X1 X2].
    { intros y. destruct (N.lt_ge_cases y (2 ^ 64)) as [L|L]; [rewrite join_low by exact L; apply Hmb; exact L|rewrite join_high by exact L; apply Hhb; exact L]. }
    destruct (frame_run _ _ (R _) _ _ _ _ e E Hs) with (drv' := drv) (mu := fst (drv (length l) s mb)) as (mu' & E' & L' & _).
    + intros x Hx. cbn [mem set_mem]. apply join_high. exact Hx.
    + exact Ht.
    + exact Hlow.
    + intros x Hx. cbn [mem set_mem]. rewrite join_low by exact Hx. apply X2.
    + exists mu'. split; [|exact L']. rewrite Hk. unfold bind, hand_over. cbn [mem set_mem]. rewrite <- X1 in E'. destruct (drv (length l) s mb) as [mm cc]. exact E'.
Qed.

(** ** threads on record *)
Definition tracked {A} (w : world) (t : nat) (u : world) (evs : list event) (m0 : M A) (mm0 : memory) (m : M A) (mm : memory) : Prop :=
  forall v, alone mm w v -> tick v = t -> trace v = evs ->
    (forall k, (k < t)%nat -> ans v k = ans u k /\ fill v k = fill u k /\ junk v k = junk u k) -> m0 (rewind v mm0) = m v.
Lemma track_start {A} w (m : M A) mm : tracked w 0 w [] m mm m mm.
Proof. intros v (<- & _) T Tr _. unfold rewind. destruct v as [me ac dc an fi ju ti tr]. cbn in *. rewrite T, Tr. reflexivity. Qed.

Section Step.
Variables (w0 w : world) (t : nat) (u : world) (evs : list event) (mm : memory).
Hypothesis Hf1 : alloc_cb w = alloc_cb w0.
Hypothesis Hf2 : dealloc_cb w = dealloc_cb w0.

Lemma track_step_at B (a : M B) b w2 : action a -> (exists b' v1, a (probe mm w u t evs) = Ret b' v1) -> present mm w ->
  (forall x, 2 ^ 64 <= x -> mm x = None) -> a w = Ret b w2 -> honest w w2 ->
  exists mm2 t2 new, (forall x, mm x <> None -> mm2 x <> None) /\ trace w2 = trace w ++ new /\
    (forall x, mem w x = None -> mem w2 x = None \/ exists size n p, new = [EvAlloc size n p] /\ p <> 0 /\ p <= x < p + size * n) /\ present mm2 w2 /\ (forall x, 2 ^ 64 <= x -> mm2 x = None /\ mem w2 x = mem w x) /\
    alloc_cb w2 = alloc_cb w0 /\ dealloc_cb w2 = dealloc_cb w0 /\
    (forall x, mem w x <> None -> mm x = None -> mm2 x = None /\ mem w2 x = mem w x) /\
    forall A (m0 : M A) mm0 m k, tracked w0 t u evs m0 mm0 m mm -> (forall v, m v = bind a k v) -> tracked w0 t2 (probe mm w u t evs) (evs ++ new) m0 mm0 (k b) mm2.
Proof.
  intros Ha (b' & v1 & Ev) Hp Hh E [Ho Hlow]. destruct (probe_ok mm w u t evs) as ((P0 & P1 & P2) & P3 & P4). set (v := probe mm w u t evs) in *.
  destruct (action_eff B a v b' v1 Ha Ev) as (eff & d & new & Hu & Hpt & Hke & Hf).
  assert (Ew : a w = Ret b' (after w (eff (mem w)) d new)).
  { apply Hu; [|congruence|congruence|]. { rewrite P0. exact Hp. } intros _. destruct P3 as (Q1 & Q2 & Q3). repeat split; congruence. }
  rewrite E in Ew. injection Ew as -> ->. clear E.
  assert (New : forall x, mm x = None -> (exists size n p, new = [EvAlloc size n p] /\ p <> 0 /\ p <= x < p + size * n /\ mem w x = None /\ x < 2 ^ 64) \/ forall m, eff m x = m x).
  { intros x Hx. destruct (Hf x) as [(size & n & p & -> & Hp0 & Hr)|Q]; [rewrite P0; exact Hx| |right; exact Q]. left. exists size, n, p.
    split; [reflexivity|]. split; [exact Hp0|]. split; [exact Hr|]. split; [apply (Ho size n p eq_refl Hp0); exact Hr|]. pose proof (Hlow size n p eq_refl Hp0). lia. }
  exists (eff mm), (t + d)%nat, new. split; [intros x; apply Hke|]. split; [reflexivity|]. split.
  { intros x Hx. assert (Em : mm x = None) by (destruct (mm x) as [c|] eqn:Em; [rewrite (Hp x c Em) in Hx; discriminate Hx|reflexivity]).
    destruct (New x Em) as [(size & n & p & H1 & H2 & H3 & _)|Q]; [right; eauto 10|left; cbn [after mem]; rewrite Q; exact Hx]. }
  split; [|split; [|split; [exact Hf1|split; [exact Hf2|split]]]].
  - intros x c Hx. cbn [after mem]. destruct (mm x) as [c0|] eqn:Em.
    + rewrite <- Hx. apply Hpt. rewrite (Hp x c0 Em). congruence.
    + destruct (New x Em) as [(size & n & p & _ & _ & _ & Hn & _)|Q]; [|rewrite Q in Hx; congruence]. rewrite <- Hx. apply Hpt. congruence.
  - intros x Hx. pose proof (Hh x Hx) as Em. destruct (New x Em) as [(size & n & p & _ & _ & _ & _ & L)|Q]; [lia|]. cbn [after mem]. rewrite !Q. auto.
  - intros x Hx Em. destruct (New x Em) as [(size & n & p & _ & _ & _ & Hn & _)|Q]; [congruence|]. cbn [after mem]. rewrite !Q. auto.
  - intros A m0 mm0 m k R Hk v2 (Hm & Hc1 & Hc2) T Tr Rc.
    set (v3 := {| mem := mm; alloc_cb := alloc_cb v2; dealloc_cb := dealloc_cb v2; ans := ans v2; fill := fill v2; junk := junk v2; tick := t; trace := evs |}).
    assert (Al : alone mm w0 v3) by (split; [reflexivity|]; cbn; split; congruence).
    assert (V : v2 = after v3 (eff mm) d new).
    { unfold after, v3. cbn. rewrite <- Hm. destruct v2. cbn in *. subst. reflexivity. }
    assert (Sa : a v3 = Ret b' (after v3 (eff mm) d new)).
    { replace (eff mm) with (eff (mem v3)) by reflexivity. apply Hu.
      - rewrite P0. cbn [mem v3]. auto.
      - cbn [v3 alloc_cb]. congruence.
      - cbn [v3 dealloc_cb]. congruence.
      - intros Hd. assert (Q := Rc t ltac:(lia)). destruct Q as (Q1 & Q2 & Q3). unfold same_draw. cbn [v3 tick ans fill junk].
        change (tick v) with t. repeat split; congruence. }
    assert (Q : m0 (rewind v3 mm0) = m v3).
    { apply R; [exact Al|reflexivity|reflexivity|]. intros j Hj. specialize (Rc j ltac:(lia)). unfold v, probe in Rc. cbn in Rc.
      replace (Nat.eqb j t) with false in Rc by (symmetry; apply Nat.eqb_neq; lia). exact Rc. }
    rewrite Hk in Q. unfold bind in Q. rewrite Sa in Q. rewrite <- V in Q. exact Q.
Qed.
Lemma track_step B (a : M B) b w2 : action a -> (exists b' v1, a (probe mm w u t evs) = Ret b' v1) -> present mm w ->
  (forall x, 2 ^ 64 <= x -> mm x = None) -> a w = Ret b w2 -> honest w w2 ->
  exists mm2 t2 u2 new, trace w2 = trace w ++ new /\
    (forall x, mem w x = None -> mem w2 x = None \/ exists size n p, new = [EvAlloc size n p] /\ p <> 0 /\ p <= x < p + size * n) /\ present mm2 w2 /\ (forall x, 2 ^ 64 <= x -> mm2 x = None /\ mem w2 x = mem w x) /\
    alloc_cb w2 = alloc_cb w0 /\ dealloc_cb w2 = dealloc_cb w0 /\
    (forall x, mem w x <> None -> mm x = None -> mm2 x = None /\ mem w2 x = mem w x) /\
    forall A (m0 : M A) mm0 m k, tracked w0 t u evs m0 mm0 m mm -> (forall v, m v = bind a k v) -> tracked w0 t2 u2 (evs ++ new) m0 mm0 (k b) mm2.
Proof.
  intros Ha Hd Hp Hh E Ho. destruct (track_step_at B a b w2 Ha Hd Hp Hh E Ho) as (mm2 & t2 & new & _ & H). exists mm2, t2, (probe mm w u t evs), new. exact H.
Qed.
End Step.
