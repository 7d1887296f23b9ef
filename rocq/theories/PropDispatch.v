(** PropDispatch.v - single-core scheduling properties C02-C07, C13-C15, C26 (picoRTOS.c and,
    unless [cfg_lite c = false] is assumed, picoRTOS-lite.c). *)
From Verif Require Import Base SchedModel SchedSpec SchedThms BootThms HistThms ExSched.

(** C02: right after any tick the running task is eligible (ready, and its turn), and no eligible
    task has a lower identifier, nor a numerically lower priority. *)
Theorem C02_tick_dispatch : forall c rs s e s' sp' ref',
  wf_config c -> regs_typed rs -> reachable c rs s ->
  step c s (Tick, e) = Ok (s', sp', ref') ->
  eligible c rs s' (cur s')
  /\ (forall pid, eligible c rs s' pid -> (cur s' <= pid)%nat)
  /\ (forall pid r r', eligible c rs s' pid -> task_of c rs (cur s') = Some r -> task_of c rs pid = Some r' ->
        rg_prio r <= rg_prio r').
Proof. exact tick_dispatch. Qed.
Print Assumptions C02_tick_dispatch.

(* B (identifier 0) sleeps 2 ticks, A (1) one tick; the next tick gives the CPU to C (2). *)
Definition h02 := [ev Tick 4; ev (Sleep 2) 0; ev (Sleep 1) 1].
Example C02_case : exists s s' sp' ref',
  wf_config exc /\ regs_typed exrs /\ reachable exc exrs s
  /\ step exc s (ev Tick 4) = Ok (s', sp', ref') /\ cur s = 4%nat /\ cur s' = 2%nat.
Proof.
  exists (st exc exrs h02). do 3 eexists. excase; vmr.
Qed.

(** C03: as long as nobody postponed since the last tick, a call to sleep, sleep_until or kill
    gives the CPU to the first eligible task after the caller in priority order. *)
Theorem C03_yield : forall c rs s e s1 sp1 r1 evs s2 o e2 s3 sp3 r3,
  wf_config c -> regs_typed rs -> reachable c rs s ->
  step c s (Tick, e) = Ok (s1, sp1, r1) ->
  run c s1 evs = Ok s2 -> postpone_free evs ->
  step c s2 (o, e2) = Ok (s3, sp3, r3) -> o <> Tick -> o <> Postpone ->
  least_from (eligible c rs s3) (S (cur s2)) (cur s3).
Proof. exact yield_next_hist. Qed.
Print Assumptions C03_yield.

Example C03_case : exists s s1 sp1 r1 s2 s3 sp3 r3,
  reachable exc exrs s /\ step exc s (ev Tick 4) = Ok (s1, sp1, r1)
  /\ run exc s1 [ev (Sleep 2) 0] = Ok s2 /\ postpone_free [ev (Sleep 2) 0]
  /\ step exc s2 (ev (Sleep 3) 1) = Ok (s3, sp3, r3)
  /\ cur s1 = 0%nat /\ cur s2 = 1%nat /\ cur s3 = 4%nat.
Proof.
  exists (st exc exrs []). do 7 eexists. excase; vmr.
Qed.

(** C04: between two ticks, as long as nobody postpones, the identifiers of the successive running
    tasks strictly increase. *)
Theorem C04_strictly_descending : forall c rs s e s1 sp1 r1 evs1 s2 evs2 s3,
  wf_config c -> regs_typed rs -> reachable c rs s ->
  step c s (Tick, e) = Ok (s1, sp1, r1) ->
  run c s1 evs1 = Ok s2 -> run c s2 evs2 = Ok s3 ->
  tick_free (evs1 ++ evs2) -> postpone_free (evs1 ++ evs2) -> evs2 <> [] ->
  (cur s2 < cur s3)%nat.
Proof. exact strictly_descending. Qed.
Print Assumptions C04_strictly_descending.

Example C04_case : exists s s1 sp1 r1 s2 s3,
  reachable exc exrs s /\ step exc s (ev Tick 4) = Ok (s1, sp1, r1)
  /\ run exc s1 [ev (Sleep 2) 0] = Ok s2 /\ run exc s2 [ev (SleepUntil 0 4) 1] = Ok s3
  /\ tick_free ([ev (Sleep 2) 0] ++ [ev (SleepUntil 0 4) 1])
  /\ postpone_free ([ev (Sleep 2) 0] ++ [ev (SleepUntil 0 4) 1]) /\ [ev (SleepUntil 0 4) 1] <> []
  /\ cur s1 = 0%nat /\ cur s2 = 1%nat /\ cur s3 = 4%nat.
Proof.
  exists (st exc exrs []). do 5 eexists. excase; try vmr.
Qed.

(** C05 (1): at every tick value exactly one of the tasks registered with a priority has its turn. *)
Theorem C05_one_turn : forall c tmp0 rs s0 tk p,
  wf_config c -> regs_typed rs -> boot c tmp0 rs = Ok s0 -> with_prio p rs <> [] ->
  exists pid, (exists r, task_of c rs pid = Some r /\ rg_prio r = p /\ turn c rs tk pid)
    /\ forall pid', (exists r, task_of c rs pid' = Some r /\ rg_prio r = p /\ turn c rs tk pid') -> pid' = pid.
Proof. exact turn_unique. Qed.
Print Assumptions C05_one_turn.

(** C05 (2): two tasks dispatched within one tick have different priorities, or are the same task. *)
Theorem C05_no_compete : forall c rs s evs s' r r',
  wf_config c -> regs_typed rs -> reachable c rs s ->
  run c s evs = Ok s' -> tick_free evs ->
  task_of c rs (cur s) = Some r -> task_of c rs (cur s') = Some r' -> rg_prio r = rg_prio r' ->
  cur s = cur s'.
Proof. exact same_prio_one_per_tick. Qed.
Print Assumptions C05_no_compete.

Example C05_case : boot exc junk exrs = Ok (st exc exrs []) /\ with_prio 1 exrs = [taskA; taskC]
  /\ turn exc exrs 4 1 /\ ~ turn exc exrs 4 2 /\ turn exc exrs 5 2 /\ ~ turn exc exrs 5 1.
Proof. split; [excase|]. repeat split; vmr. Qed.
(* A postpones and, B having slept, is dispatched again within the same tick. *)
Example C05_case_2 : exists s s', reachable exc exrs s /\ run exc s [ev Postpone 1] = Ok s'
  /\ tick_free [ev Postpone 1] /\ task_of exc exrs (cur s) = Some taskA /\ task_of exc exrs (cur s') = Some taskA.
Proof. exists (st exc exrs [ev Tick 4; ev (Sleep 2) 0]). eexists. excase; vmr. Qed.

(** C06: every task of a group of n gets its turn in any history of 2n-1 ticks, and in any history
    of n ticks in which the tick truncated to picoRTOS_priority_t does not wrap.
    The priority type is not wider than the tick type on any port. *)
Theorem C06_bounded_waiting : forall c rs s evs s' pid r,
  wf_config c -> regs_typed rs -> reachable c rs s ->
  cfg_lite c = false -> cfg_pbits c <= cfg_tbits c ->
  run c s evs = Ok s' -> task_of c rs pid = Some r ->
  (2 * group_size rs (rg_prio r) - 1 <= ticks evs
   \/ (group_size rs (rg_prio r) <= ticks evs
       /\ (c_tick s + 1) mod 2 ^ cfg_pbits c + group_size rs (rg_prio r) <= 2 ^ cfg_pbits c)) ->
  exists evs1 e evs2 s1, evs = evs1 ++ (Tick, e) :: evs2
    /\ run c s (evs1 ++ [(Tick, e)]) = Ok s1 /\ turn c rs (c_tick s1) pid.
Proof. exact bounded_waiting. Qed.
Print Assumptions C06_bounded_waiting.

Example C06_case : exists s', reachable exc exrs (st exc exrs [])
  /\ cfg_pbits exc <= cfg_tbits exc /\ task_of exc exrs 2 = Some taskC
  /\ run exc (st exc exrs []) [ev Tick 4; ev (Sleep 5) 0; ev Tick 1; ev Tick 2] = Ok s'
  /\ 2 * group_size exrs (rg_prio taskC) - 1 <= ticks [ev Tick 4; ev (Sleep 5) 0; ev Tick 1; ev Tick 2].
Proof. eexists. excase; vmr. Qed.

(** C07 (partial): two consecutive ticks never give the turn to the same task of a group of two or
    more, except when the truncated tick wraps and (2^pbits - 1) is a multiple of the group size.
    Missing: the claim itself at those wraps, where it is false (next theorem). *)
Theorem C07_alternation_partial : forall c rs s e s1 sp1 r1 evs s2 e2 s3 sp3 r3 pid r,
  wf_config c -> regs_typed rs ->
  reachable c rs s -> cfg_lite c = false -> cfg_pbits c <= cfg_tbits c ->
  step c s (Tick, e) = Ok (s1, sp1, r1) -> run c s1 evs = Ok s2 -> tick_free evs ->
  step c s2 (Tick, e2) = Ok (s3, sp3, r3) ->
  task_of c rs pid = Some r -> 2 <= group_size rs (rg_prio r) ->
  ~ (c_tick s1 mod 2 ^ cfg_pbits c = 2 ^ cfg_pbits c - 1
     /\ (2 ^ cfg_pbits c - 1) mod group_size rs (rg_prio r) = 0) ->
  ~ (turn c rs (c_tick s1) pid /\ turn c rs (c_tick s3) pid).
Proof. exact alternation_run. Qed.
Print Assumptions C07_alternation_partial.

Example C07_case : exists s s1 sp1 r1 s2 s3 sp3 r3, reachable exc exrs s
  /\ step exc s (ev Tick 4) = Ok (s1, sp1, r1) /\ run exc s1 [ev (Sleep 4) 0] = Ok s2
  /\ tick_free [ev (Sleep 4) 0] /\ step exc s2 (ev Tick 1) = Ok (s3, sp3, r3)
  /\ task_of exc exrs 1 = Some taskA /\ 2 <= group_size exrs (rg_prio taskA)
  /\ ~ (c_tick s1 mod 2 ^ cfg_pbits exc = 2 ^ cfg_pbits exc - 1
        /\ (2 ^ cfg_pbits exc - 1) mod group_size exrs (rg_prio taskA) = 0)
  /\ cur s2 = 1%nat /\ cur s3 = 2%nat.
Proof.
  exists (st exc exrs []). do 7 eexists. excase; try vmr.
  vm_compute. intros [H _]. discriminate.
Qed.

(** C07 is false as documented: three tasks of one priority on an 8-bit port (8-bit priority,
    16-bit tick, as on avr): the first one runs at ticks 255 and 256. *)
Definition exrs3 : list reg := [mkReg 12288 64 12300 0 0; mkReg 8192 64 8200 0 0; mkReg 16384 64 16390 0 0].
Definition rr (k : nat) : list (op * entry) := ev Tick 4 :: map (fun i => ev Tick (i mod 3)) (seq 0 k).
Theorem C07_alternation_refuted : exists c rs s s' e sp' ref' r,
  wf_config c /\ regs_typed rs /\ cfg_lite c = false /\ cfg_pbits c <= cfg_tbits c
  /\ reachable c rs s /\ step c s (Tick, e) = Ok (s', sp', ref')
  /\ task_of c rs 0 = Some r /\ group_size rs (rg_prio r) = 3
  /\ c_tick s = 255 /\ c_tick s' = 256
  /\ turn c rs (c_tick s) 0 /\ turn c rs (c_tick s') 0 /\ cur s = 0%nat /\ cur s' = 0%nat.
Proof.
  exists exc8, exrs3, (st exc8 exrs3 (rr 255)). eexists. exists (snd (ev Tick 0)). do 3 eexists.
  excase; try vmr.
  repeat constructor; cbn; lia.
Qed.
Print Assumptions C07_alternation_refuted.

(** C13: from any state reached after a successful start, a tick or an API call issued by a user
    task with a stack pointer inside its stack returns normally: no stall, no access outside the
    scheduler's tables, no endless loop. *)
Theorem C13_no_stall : forall c rs s o e,
  wf_config c -> regs_typed rs -> reachable c rs s ->
  may_issue c s o -> sp_ok c rs s (e_sp e) ->
  exists s' sp' ref', step c s (o, e) = Ok (s', sp', ref').
Proof. exact no_stall. Qed.
Print Assumptions C13_no_stall.

Example C13_case : exists s, reachable exc exrs s /\ cur s = 1%nat
  /\ may_issue exc s (SleepUntil 0 7) /\ sp_ok exc exrs s (spof 1).
Proof.
  exists (st exc exrs [ev Tick 4; ev (Sleep 2) 0]). excase; try vmr.
  - split; [vm_compute; discriminate|vm_compute; split; reflexivity].
  - exists 8192, (8192 + 4 * 64). split; [vm_compute; reflexivity|]. vm_compute. split; [discriminate|reflexivity].
Qed.

(** C14: once a task called picoRTOS_postpone, if no tick occurs and the idle task is reached, the
    task was dispatched again before. *)
Theorem C14_postpone : forall c rs s e s1 sp1 r1 evs s2,
  wf_config c -> regs_typed rs -> reachable c rs s ->
  step c s (Postpone, e) = Ok (s1, sp1, r1) ->
  run c s1 evs = Ok s2 -> tick_free evs -> cur s2 = cfg_n c ->
  dispatched_in c s1 evs (cur s).
Proof. exact postpone_before_idle. Qed.
Print Assumptions C14_postpone.

(* B postpones, A sleeps; B runs again, sleeps, then idle. *)
Example C14_case : exists s s1 sp1 r1 s2, reachable exc exrs s
  /\ step exc s (ev Postpone 0) = Ok (s1, sp1, r1)
  /\ run exc s1 [ev (Sleep 1) 1; ev (Sleep 1) 0] = Ok s2 /\ tick_free [ev (Sleep 1) 1; ev (Sleep 1) 0]
  /\ cur s = 0%nat /\ cur s1 = 1%nat /\ cur s2 = cfg_n exc.
Proof. exists (st exc exrs [ev Tick 4]). do 4 eexists. excase; vmr. Qed.

(** C15: whether a postpone request is pending or not when a tick occurs makes no difference, then
    or at any later time. *)
Theorem C15_postpone_forgotten : forall c s b e evs,
  run c (with_postponed s b) ((Tick, e) :: evs) = run c s ((Tick, e) :: evs).
Proof. exact postpone_forgotten. Qed.
Print Assumptions C15_postpone_forgotten.

Theorem C15_tick_clears : forall c rs s e s1 sp1 r1,
  wf_config c -> regs_typed rs -> reachable c rs s ->
  step c s (Tick, e) = Ok (s1, sp1, r1) -> c_postponed s1 = false.
Proof. exact tick_clears_postponed. Qed.
Print Assumptions C15_tick_clears.

(* A request is pending when the tick occurs. *)
Example C15_case : exists s s1 sp1 r1, reachable exc exrs s /\ c_postponed s = true
  /\ step exc s (ev Tick 1) = Ok (s1, sp1, r1).
Proof. exists (st exc exrs [ev Tick 4; ev Postpone 0]). do 3 eexists. excase; vmr. Qed.

(** C26 (1): idle runs right after a tick only if no user task is eligible. *)
Theorem C26_idle_after_tick : forall c rs s e s1 sp1 r1,
  wf_config c -> regs_typed rs -> reachable c rs s ->
  step c s (Tick, e) = Ok (s1, sp1, r1) -> cur s1 = cfg_n c ->
  forall pid, (pid < cfg_n c)%nat -> ~ eligible c rs s1 pid.
Proof. exact idle_after_tick. Qed.
Print Assumptions C26_idle_after_tick.

(** C26 (2): when idle is reached later within the tick, every task still eligible ran since. *)
Theorem C26_idle_after_syscall : forall c rs s e s1 sp1 r1 evs s2,
  wf_config c -> regs_typed rs -> reachable c rs s ->
  step c s (Tick, e) = Ok (s1, sp1, r1) -> run c s1 evs = Ok s2 -> tick_free evs -> cur s2 = cfg_n c ->
  forall pid, (pid < cfg_n c)%nat -> eligible c rs s2 pid -> dispatched_in c s1 evs pid.
Proof. exact idle_after_syscall. Qed.
Print Assumptions C26_idle_after_syscall.

(* Idle right after a tick; and idle after a late (non-blocking) sleep_until, B remaining eligible. *)
Example C26_case : exists s s1 sp1 r1, reachable exc exrs s
  /\ step exc s (ev Tick 4) = Ok (s1, sp1, r1) /\ cur s1 = cfg_n exc.
Proof.
  exists (st exc exrs [ev Tick 4; ev (Sleep 9) 0; ev (Sleep 9) 1; ev Tick 4; ev (Sleep 9) 2]).
  do 3 eexists. excase; vmr.
Qed.
Example C26_case_2 : exists s s1 sp1 r1 s2, reachable exc exrs s
  /\ step exc s (ev Tick 4) = Ok (s1, sp1, r1)
  /\ run exc s1 [ev (Sleep 0) 0; ev (Sleep 3) 1] = Ok s2 /\ tick_free [ev (Sleep 0) 0; ev (Sleep 3) 1]
  /\ cur s2 = cfg_n exc /\ eligible exc exrs s2 0.
Proof.
  exists (st exc exrs []). do 4 eexists. excase; try vmr. split; vmr.
Qed.
