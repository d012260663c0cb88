(** Specification: commands of every kind, queued at the same time from any number
    of threads. *)
From Coq Require Import Arith NArith List Bool Init.Byte.
From Verif Require Import Bytes World Common ModeSenseCmd TranslationCls EngineE2e MockModule Spec RwSpec UnmapSpec MockSpec ConcSpec ConcDiskSpec.
Import ListNotations.
Local Open Scope list_scope.
Local Open Scope N_scope.

(** a queued command: [p_cdb] is its CDB, [p_kz] what kzalloc will answer,
    [p_wrs] and [p_wild] the uninitialised locals *)
Record pending := { p_wrs : arr3 NvmeCmdWrapper; p_kz : N; p_wild : N; p_cmnd : scsi_cmnd; p_cdb : list byte }.
Definition code_of (p : pending) : thread := fun drv => scsi_queuecommand drv (p_wrs p) (p_kz p) (p_wild p) (p_cmnd p).
Definition cdb_of (p : pending) : span := {| ptr := sc_cmnd (p_cmnd p); len := sc_cmd_len (p_cmnd p) |}.

(** What is known of a thread: the commands it has handed over and what it has
    left to do ([state] of ConcDiskSpec), the completions it got, the memory a
    device may write to on its behalf, and its calls of the allocators. *)
Record progress := { g_state : state; g_cpls : list N; g_dma : N -> Prop; g_evs : list event }.
(** at the start: the thread's part [mm] of memory, but not the CDB *)
Definition start_of (p : pending) (mm : memory) : progress :=
  {| g_state := ([], code_of p); g_cpls := []; g_dma := fun x => mm x <> None /\ ~ in_span (cdb_of p) x; g_evs := [] |}.
Fixpoint starts (ps : list pending) (mems : list memory) : list progress :=
  match ps, mems with p :: ps, mm :: mems => start_of p mm :: starts ps mems | _, _ => [] end.
(** what an allocator has just handed out *)
Definition handed_out (w w' : world) (x : N) : Prop :=
  exists size n p, trace w' = trace w ++ [EvAlloc size n p] /\ p <> 0 /\ p <= x < p + size * n.

(** [at_once dev w st w' st']: started in [w], the threads [st] have come to [w'] and
    [st'].  Any thread may take the next step.  A command that is handed over is
    carried out by any device of [dev], which unmaps nothing and writes to no
    memory but what the thread may let it write to. *)
Inductive at_once (dev : driver -> Prop) (w : world) (st : list progress) : world -> list progress -> Prop :=
| ao_start : at_once dev w st w st
| ao_act w1 l1 subs m cs dma evs l2 B (a : M B) k b w2 new :
    at_once dev w st w1 (l1 ++ {| g_state := (subs, m); g_cpls := cs; g_dma := dma; g_evs := evs |} :: l2) -> next_action subs m a k -> a w1 = Ret b w2 -> honest w1 w2 -> trace w2 = trace w1 ++ new ->
    at_once dev w st w2 (l1 ++ {| g_state := (subs, k b); g_cpls := cs; g_dma := fun x => dma x \/ handed_out w1 w2 x; g_evs := evs ++ new |} :: l2)
| ao_submit w1 l1 subs m cs dma evs l2 s k drv c w2 :
    at_once dev w st w1 (l1 ++ {| g_state := (subs, m); g_cpls := cs; g_dma := dma; g_evs := evs |} :: l2) -> next_submission subs m s k -> dev drv -> hand_over drv (length subs) s w1 = Ret c w2 ->
    (forall x, ~ dma x -> mem w2 x = mem w1 x) -> (forall x, mem w1 x <> None -> mem w2 x <> None) ->
    at_once dev w st w2 (l1 ++ {| g_state := (subs ++ [s], k c); g_cpls := cs ++ [c]; g_dma := dma; g_evs := evs |} :: l2).

(** the thread's part [mm] of memory holds what its command needs: the CDB, the
    sense buffer, the scatterlist's buffers *)
Definition equipped (p : pending) (mm : memory) : Prop :=
  (forall x, 2 ^ 64 <= x -> mm x = None) /\ (forall i b, nth_error (p_cdb p) i = Some b -> mm (sc_cmnd (p_cmnd p) + N.of_nat i) = Some b) /\
  N.of_nat (length (p_cdb p)) = sc_cmd_len (p_cmnd p) /\ sc_cmd_len (p_cmnd p) < 65536 /\
  (forall x, sc_sense (p_cmnd p) <= x < sc_sense (p_cmnd p) + 96 -> mm x <> None) /\ (forall x, In x (sg_addrs (sc_sgl (p_cmnd p))) -> mm x <> None).
(** kzalloc fails or hands out memory not in use; the page allocator's pages keep
    off that memory and off the CDBs, and asked for no page it gives none *)
Definition supplied (w : world) (ps : list pending) : Prop :=
  (forall p, In p ps -> pages_apart w (cdb_of p) /\
     (p_kz p = 0 \/ unused w (p_kz p) (sc_bufflen (p_cmnd p) mod 65536) /\ pages_apart w {| ptr := p_kz p; len := sc_bufflen (p_cmnd p) mod 65536 |})) /\
  (forall k size, ans w k size 0 = 0).
(** every thread has its own part of memory, with what its command needs *)
Definition all_queued (w : world) (ps : list pending) (mems : list memory) : Prop :=
  length mems = length ps /\ each_own mems w /\ supplied w ps /\
  forall i p mm, nth_error ps i = Some p -> nth_error mems i = Some mm -> equipped p mm.
(** the device gives the completions [cs] *)
Definition gave (drv : driver) (cs : list N) : Prop := forall k s m c, nth_error cs k = Some c -> snd (drv k s m) mod 2 ^ 128 = c.
(** alone with the device [drv] and the part [mm] of the memory of [w], the command
    is answered [r], after the calls [evs] of the allocators, and leaves the memory [mm'] *)
Definition answered_alone (w : world) (p : pending) (mm : memory) (drv : driver) (r : mock_result) (evs : list event) (mm' : memory) : Prop :=
  exists v v', alone mm w v /\ (forall k, exists k', ans v k = ans w k') /\ trace v = [] /\
    scsi_queuecommand drv (p_wrs p) (p_kz p) (p_wild p) (p_cmnd p) v = Ret r v' /\ trace v' = evs /\ mem v' = mm'.
