(** PropTime.v - sleeping, contexts, identity, statistics: C08-C12, C16-C18, C53. *)
From Verif Require Import Base SchedModel SchedSpec SchedThms BootThms HistThms ExSched.

(** C08: a task that calls picoRTOS_sleep(d), 0 < d < 2^tbits, is neither ready nor running at any
    point before the d-th tick that follows, and is ready right after it, whatever happens
    meanwhile and across wrap-around of the tick. *)
Theorem C08_sleep_exact : forall c rs s d e s1 sp1 r1 evs s2,
  wf_config c -> regs_typed rs -> reachable c rs s ->
  0 < d < 2 ^ cfg_tbits c ->
  step c s (Sleep d, e) = Ok (s1, sp1, r1) -> run c s1 evs = Ok s2 ->
  (ticks evs < d -> state_of s2 (cur s) = Some SLEEP /\ cur s2 <> cur s)
  /\ (forall evs' e', evs = evs' ++ [(Tick, e')] -> ticks evs = d -> state_of s2 (cur s) = Some READY).
Proof. exact sleep_exact. Qed.
Print Assumptions C08_sleep_exact.

Example C08_case : exists s s1 sp1 r1 s2, reachable exc exrs s /\ cur s = 0%nat
  /\ step exc s (ev (Sleep 2) 0) = Ok (s1, sp1, r1)
  /\ run exc s1 ([ev Tick 1; ev (Sleep 6) 2] ++ [ev Tick 4]) = Ok s2
  /\ ticks ([ev Tick 1; ev (Sleep 6) 2] ++ [ev Tick 4]) = 2 /\ cur s2 = 0%nat.
Proof. exists (st exc exrs [ev Tick 4]). do 4 eexists. excase; vmr. Qed.

(** C09 (1): picoRTOS_sleep_until called on time sets *ref to ref + period (modulo the tick width);
    the caller is asleep until the tick equal to the new *ref, and ready right after it. *)
Theorem C09_sleep_until_exact : forall c rs s ref period e s1 sp1 ref' evs s2,
  wf_config c -> regs_typed rs -> reachable c rs s ->
  0 <= ref < 2 ^ cfg_tbits c -> 0 < period < 2 ^ cfg_tbits c ->
  let elapsed := (c_tick s - ref) mod 2 ^ cfg_tbits c in
  elapsed < period ->
  step c s (SleepUntil ref period, e) = Ok (s1, sp1, ref') -> run c s1 evs = Ok s2 ->
  ref' = (ref + period) mod 2 ^ cfg_tbits c
  /\ (ticks evs < period - elapsed -> state_of s2 (cur s) = Some SLEEP /\ cur s2 <> cur s)
  /\ (forall evs' e', evs = evs' ++ [(Tick, e')] -> ticks evs = period - elapsed ->
        state_of s2 (cur s) = Some READY /\ c_tick s2 = ref').
Proof. exact sleep_until_exact. Qed.
Print Assumptions C09_sleep_until_exact.

(** C09 (2): k calls made on time, each with the *ref of the previous one, give ref + k * period. *)
Theorem C09_no_drift : forall c rs period ref k refk,
  wf_config c -> regs_typed rs ->
  0 <= ref < 2 ^ cfg_tbits c -> 0 < period < 2 ^ cfg_tbits c ->
  on_time c rs period ref k refk -> refk = (ref + Z.of_nat k * period) mod 2 ^ cfg_tbits c.
Proof. exact no_drift. Qed.
Print Assumptions C09_no_drift.

(* B at tick 1 with ref = 0 and period = 3: one tick already elapsed, wakes up two ticks later. *)
Definition h09 := [ev Tick 4; ev (Sleep 1) 0; ev Tick 1].
Example C09_case : exists s s1 sp1 r1 s2, reachable exc exrs s /\ cur s = 0%nat
  /\ (c_tick s - 0) mod 2 ^ cfg_tbits exc = 1
  /\ step exc s (ev (SleepUntil 0 3) 0) = Ok (s1, sp1, r1)
  /\ run exc s1 ([ev Tick 2] ++ [ev Tick 1]) = Ok s2
  /\ ticks ([ev Tick 2] ++ [ev Tick 1]) = 3 - 1.
Proof. exists (st exc exrs h09). do 4 eexists. excase; vmr. Qed.
Example C09_case_2 : on_time exc exrs 3 0 2 6.
Proof.
  eapply (ot_cons _ _ _ _ _ 3 (st exc exrs (h09 ++ [ev (SleepUntil 0 3) 0; ev Tick 2; ev Tick 1])) (snd (ev Tick 0))).
  - eapply (ot_cons _ _ _ _ _ 0 (st exc exrs h09) (snd (ev Tick 0))).
    + apply ot_nil.
    + excase.
    + vmr.
    + vmr.
  - excase.
  - vmr.
  - vmr.
Qed.

(** C10 (partial): a late call does not block: the caller stays ready, *ref is set to the current
    tick only when the number of consecutive misses exceeds CONFIG_DEADLOCK_COUNT, and is left
    unchanged otherwise.  Missing: the documented update at each late call, false (next theorem). *)
Theorem C10_late_partial : forall c rs s ref period e s1 sp1 ref' t,
  wf_config c -> regs_typed rs -> reachable c rs s ->
  0 <= ref < 2 ^ cfg_tbits c -> 0 < period < 2 ^ cfg_tbits c ->
  period <= (c_tick s - ref) mod 2 ^ cfg_tbits c ->
  c_task s !! cur s = Some t ->
  step c s (SleepUntil ref period, e) = Ok (s1, sp1, ref') ->
  state_of s1 (cur s) = Some READY
  /\ (exists t', c_task s1 !! cur s = Some t' /\ t_miss t' = (t_miss t + 1) mod 2 ^ cfg_szbits c)
  /\ ref' = (if cfg_deadlock c <? (t_miss t + 1) mod 2 ^ cfg_szbits c then c_tick s else ref).
Proof. exact late_rule. Qed.
Print Assumptions C10_late_partial.

(** C10 is false as documented: a late call (two ticks elapsed for a period of one) that does not
    block and leaves *ref as it was. *)
Theorem C10_late_refuted : exists c rs s ref period e s1 sp1,
  wf_config c /\ regs_typed rs /\ reachable c rs s
  /\ 0 <= ref < 2 ^ cfg_tbits c /\ 0 < period < 2 ^ cfg_tbits c
  /\ period <= (c_tick s - ref) mod 2 ^ cfg_tbits c
  /\ step c s (SleepUntil ref period, e) = Ok (s1, sp1, ref) /\ ref <> c_tick s.
Proof.
  exists exc, exrs, (st exc exrs (h09 ++ [ev Tick 0])), 0, 1, (snd (ev Tick 0)). do 2 eexists.
  excase; vmr.
Qed.
Print Assumptions C10_late_refuted.

(** C11: whenever a task is dispatched, the stack pointer handed to the port is the one saved the
    last time that task was suspended, or its initial one. *)
Theorem C11_context_integrity : forall c tmp0 rs s0 evs s o e s' sp' ref',
  wf_config c -> regs_typed rs ->
  boot c tmp0 rs = Ok s0 -> run c s0 evs = Ok s -> step c s (o, e) = Ok (s', sp', ref') ->
  saved_sp c s0 (evs ++ [(o, e)]) (initial_sp c rs) (cur s') = Some sp'.
Proof. exact context_integrity. Qed.
Print Assumptions C11_context_integrity.

Example C11_case : exists s0 s s' sp' ref', boot exc junk exrs = Ok s0
  /\ run exc s0 [ev Tick 4; ev (Sleep 2) 0; ev Tick 1; ev (Sleep 6) 2] = Ok s
  /\ step exc s (ev Tick 4) = Ok (s', sp', ref') /\ cur s' = 0%nat /\ sp' = spof 0.
Proof. do 5 eexists. excase; vmr. Qed.

(** C12 (1): a tick or syscall entered with a stack pointer outside the stack of the running task
    stalls the system: nothing is dispatched.  [Fatal] carries no state. *)
Theorem C12_overflow_stalls : forall c rs s o e,
  wf_config c -> regs_typed rs -> reachable c rs s ->
  ~ sp_ok c rs s (e_sp e) -> step c s (o, e) = Fatal.
Proof. exact bad_sp_stalls. Qed.
Print Assumptions C12_overflow_stalls.

(** C12 (2): one entered with a stack pointer inside never stalls (for a tick, unconditionally). *)
Theorem C12_tick_ok : forall c rs s e,
  wf_config c -> regs_typed rs -> reachable c rs s ->
  sp_ok c rs s (e_sp e) -> exists s' sp' ref', step c s (Tick, e) = Ok (s', sp', ref').
Proof. exact (fun c rs s e Hw Ht Hr => no_stall c rs s Tick e Hw Ht Hr I). Qed.
Print Assumptions C12_tick_ok.

Example C12_case : exists s, reachable exc exrs s /\ cur s = 0%nat
  /\ ~ sp_ok exc exrs s 12287 /\ ~ sp_ok exc exrs s 12544 /\ sp_ok exc exrs s 12288 /\ sp_ok exc exrs s 12543.
Proof.
  exists (st exc exrs [ev Tick 4]).
  assert (E : stack_bounds exc exrs (cur (st exc exrs [ev Tick 4])) = Some (12288, 12544)) by vmr.
  excase; [vmr| | | |]; try (intros (b & x & H & Hb); rewrite E in H; injection H as <- <-; lia);
  (exists 12288, 12544; split; [done|lia]).
Qed.

(** C16: a task that calls picoRTOS_kill never runs again; the tick, and every other task's status,
    wake-up tick, context and eligibility are unchanged by the call. *)
Theorem C16_kill_final : forall c rs s e s1 sp1 r1,
  wf_config c -> regs_typed rs -> reachable c rs s ->
  step c s (Kill, e) = Ok (s1, sp1, r1) ->
  (forall evs s2, run c s1 evs = Ok s2 -> cur s2 <> cur s /\ state_of s2 (cur s) = Some EMPTY)
  /\ c_tick s1 = c_tick s
  /\ forall pid, pid <> cur s ->
       state_of s1 pid = state_of s pid
       /\ t_tick <$> (c_task s1 !! pid) = t_tick <$> (c_task s !! pid)
       /\ t_sp <$> (c_task s1 !! pid) = t_sp <$> (c_task s !! pid)
       /\ (eligible c rs s1 pid <-> eligible c rs s pid).
Proof. exact kill_final. Qed.
Print Assumptions C16_kill_final.

Example C16_case : exists s s1 sp1 r1 s2, reachable exc exrs s /\ cur s = 1%nat
  /\ step exc s (ev Kill 1) = Ok (s1, sp1, r1)
  /\ run exc s1 [ev Tick 4; ev (Sleep 1) 2; ev Tick 4; ev (Sleep 7) 0] = Ok s2 /\ cur s2 = 4%nat.
Proof. exists (st exc exrs [ev Tick 4; ev (Sleep 2) 0]). do 4 eexists. excase; vmr. Qed.

(** C17 (1): picoRTOS_self() identifies the caller by the stack it runs on, which never changes and
    (stacks being disjoint) belongs to no other task. *)
Theorem C17_self_is_caller : forall c rs s o e x pid r,
  wf_config c -> regs_typed rs -> reachable c rs s ->
  (forall i j ri rj sp, stack_bounds c rs i = Some ri -> stack_bounds c rs j = Some rj ->
      fst ri <= sp < snd ri -> fst rj <= sp < snd rj -> i = j) ->
  step c s (o, e) = Ok x ->
  (pid < cfg_n c)%nat -> task_of c rs pid = Some r -> in_stack c r (e_sp e) ->
  self s = Ok (Z.of_nat pid).
Proof. exact self_is_stack. Qed.
Print Assumptions C17_self_is_caller.

(** C17 (2): it is never the all-ones value of a type of at least pidbits (the mutex "nobody"). *)
Theorem C17_self_not_nobody : forall c rs s w v,
  wf_config c -> regs_typed rs -> reachable c rs s ->
  cfg_pidbits c <= w -> self s = Ok v -> v <> 2 ^ w - 1 /\ 0 <= v <= Z.of_nat (cfg_n c).
Proof. exact self_not_nobody. Qed.
Print Assumptions C17_self_not_nobody.

Example C17_case : exists s x, reachable exc exrs s
  /\ (forall i j ri rj sp, stack_bounds exc exrs i = Some ri -> stack_bounds exc exrs j = Some rj ->
      fst ri <= sp < snd ri -> fst rj <= sp < snd rj -> i = j)
  /\ step exc s (ev (Sleep 1) 0) = Ok x
  /\ (0 < cfg_n exc)%nat /\ task_of exc exrs 0 = Some taskB /\ in_stack exc taskB (spof 0)
  /\ self s = Ok 0.
Proof.
  exists (st exc exrs [ev Tick 4]). eexists. excase; try vmr.
  - assert (B : forall i r, stack_bounds exc exrs i = Some r ->
      (i = 0%nat /\ r = (12288, 12544)) \/ (i = 1%nat /\ r = (8192, 8448)) \/ (i = 2%nat /\ r = (16384, 16640))
      \/ (i = 4%nat /\ r = (4096, 4352))).
    { intros i r H. destruct i as [|[|[|[|[|i]]]]]; vm_compute in H; try discriminate; injection H as <-; tauto. }
    intros i j ri rj sp H1 H2 H3 H4. apply B in H1. apply B in H2.
    destruct H1 as [(-> & ->)|[(-> & ->)|[(-> & ->)|(-> & ->)]]], H2 as [(-> & ->)|[(-> & ->)|[(-> & ->)|(-> & ->)]]];
      cbn in *; lia || reflexivity.
  - cbn. lia.
  - unfold in_stack. vm_compute. split; [discriminate|reflexivity].
Qed.

(** C18: picoRTOS_get_tick() is the number of ticks since start, minus one, modulo 2^tbits. *)
Theorem C18_get_tick : forall c tmp0 rs s0 evs s,
  wf_config c -> regs_typed rs ->
  boot c tmp0 rs = Ok s0 -> run c s0 evs = Ok s ->
  get_tick s = Ok ((ticks evs - 1) mod 2 ^ cfg_tbits c).
Proof. exact get_tick_value. Qed.
Print Assumptions C18_get_tick.

Example C18_case : exists s0 s, boot exc junk exrs = Ok s0
  /\ run exc s0 [ev Tick 4; ev (Sleep 2) 0; ev Tick 1; ev (Sleep 6) 2] = Ok s /\ get_tick s = Ok 1.
Proof. do 2 eexists. excase; vmr. Qed.

(** C53: for each task (and idle) the watermarks bound every slice measured since start and are
    attained; [e_since] is the value of the cycle counter at the end of a slice. *)
Theorem C53_watermarks : forall c tmp0 rs s0 evs s pid,
  wf_config c -> regs_typed rs -> cfg_lite c = false ->
  boot c tmp0 rs = Ok s0 -> run c s0 evs = Ok s ->
  Forall (fun ev => 0 <= e_since (snd ev) < 2 ^ cfg_cbits c) evs -> (pid <= cfg_n c)%nat ->
  exists t, c_task s !! pid = Some t
    /\ (forall x, x ∈ slices c s0 evs pid -> t_wlo t <= x <= t_whi t)
    /\ (slices c s0 evs pid <> [] -> t_wlo t ∈ slices c s0 evs pid /\ t_whi t ∈ slices c s0 evs pid).
Proof. exact watermarks. Qed.
Print Assumptions C53_watermarks.

Definition h53 : list (op * entry) :=
  [(Tick, mkEntry 4100 9 1); (Postpone, mkEntry 12300 30 1); (Sleep 1, mkEntry 8200 4 1); (Sleep 1, mkEntry 12300 12 1)].
Example C53_case : exists s0 s, boot exc junk exrs = Ok s0 /\ run exc s0 h53 = Ok s
  /\ Forall (fun ev => 0 <= e_since (snd ev) < 2 ^ cfg_cbits exc) h53
  /\ slices exc s0 h53 0 = [30; 12].
Proof.
  do 2 eexists. split; [vmr|]. split; [vmr|]. split; [|vmr].
  repeat (apply Forall_cons_2; [vm_compute; split; [discriminate|reflexivity]|]). apply Forall_nil_2.
Qed.
