(** PropSmp.v - picoRTOS-SMP: C29-C34, C56-C61.

    In all statements an execution is any interleaving of tick interrupts and system calls of the
    cores; [on_core s k] is the task that runs on core k. *)
From Verif Require Import Base SchedModel SchedSpec SmpModel SmpSpec SmpThms ExSched ExSmp.

(* B on core 1, A on core 0, C and D ready. *)
Definition mh1 := [mev 0 Tick 4; mev 1 Tick 5].

(** C29: two cores never run the same task. *)
Theorem C29_no_two_cores : forall g rs s k k',
  wf_smp g -> smp_typed rs -> m_reachable g rs s ->
  (k < m_cores g)%nat -> (k' < m_cores g)%nat -> k <> k' -> on_core s k <> on_core s k'.
Proof. exact m_no_two_cores. Qed.
Print Assumptions C29_no_two_cores.

(* D may run on both cores: once on core 1, core 0 goes idle. *)
Example C29_case : exists s, m_reachable exg exgs s /\ on_core s 1 = 3%nat /\ on_core s 0 = 4%nat
  /\ allowed exg exgs 0 3.
Proof. exists (mst exg exgs (mh1 ++ [mev 1 (Sleep 3) 0; mev 0 (Sleep 3) 1; mev 0 (Sleep 3) 2])). mcase; vmr. Qed.

(** C30: a user task runs only on cores of the mask it was registered with. *)
Theorem C30_affinity : forall g rs s k,
  wf_smp g -> smp_typed rs -> m_reachable g rs s -> (k < m_cores g)%nat ->
  on_core s k = idle_of g k
  \/ exists r, order (m_base g) rs !! on_core s k = Some r /\ Z.testbit (rg_mask r) (Z.of_nat k) = true.
Proof. exact m_affinity. Qed.
Print Assumptions C30_affinity.

Example C30_case : exists s, m_reachable exg exgs s /\ on_core s 0 = 1%nat /\ on_core s 1 = 0%nat
  /\ order (m_base exg) exgs = [mB; mA; mC; mD].
Proof. exists (mst exg exgs mh1). mcase; vmr. Qed.

(** C31: after n tick interrupts (all cores together, in any order), the system tick is the number
    of rounds begun, ceil(n / cores), minus one; it changed exactly that many times. *)
Theorem C31_tick_rounds : forall g tmp0 rs s0 evs s,
  wf_smp g -> smp_typed rs ->
  m_boot g tmp0 rs = Ok s0 -> m_run g s0 evs = Ok s ->
  m_tick s = (rounds_begun (m_cores g) (m_irqs evs) - 1) mod 2 ^ cfg_tbits (m_base g)
  /\ m_advances g s0 evs = rounds_begun (m_cores g) (m_irqs evs).
Proof. exact m_tick_value. Qed.
Print Assumptions C31_tick_rounds.

Example C31_case : exists s0 s, m_boot exg junk exgs = Ok s0
  /\ m_run exg s0 (mh1 ++ [mev 1 Tick 0; mev 1 Tick 0; mev 0 Tick 1]) = Ok s /\ m_tick s = 2
  /\ m_irqs (mh1 ++ [mev 1 Tick 0; mev 1 Tick 0; mev 0 Tick 1]) = 5.
Proof. do 2 eexists. mcase; vmr. Qed.

(** C32: after a tick on core k the task r dispatched there has its turn and is allowed on k, runs
    on no other core (those are left alone), was runnable before (running on k, ready, done for the
    tick, or asleep with its wake-up date now), and no task that is ready, in turn and allowed on k
    comes before it or has a better priority. *)
Theorem C32_tick_dispatch : forall g rs s k e s' sp' ref',
  wf_smp g -> smp_typed rs -> m_reachable g rs s ->
  m_step g s (k, (Tick, e)) = Ok (s', sp', ref') ->
  let r := on_core s' k in
  turn (m_base g) rs (m_tick s') r /\ allowed g rs k r
  /\ (forall k', (k' < m_cores g)%nat -> k' <> k -> on_core s' k' = on_core s k' /\ on_core s' k' <> r)
  /\ (r = on_core s k \/ mstate s r = Some READY \/ mstate s r = Some DONE
      \/ exists t, m_task s !! r = Some t /\ t_state t = SLEEP /\ t_tick t = m_tick s')
  /\ (forall j, (j < r)%nat -> ~ eligible_on g rs s' k j)
  /\ (forall j rj, eligible_on g rs s' k j -> order (m_base g) rs !! j = Some rj ->
        exists rr, order (m_base g) rs !! r = Some rr /\ rg_prio rr <= rg_prio rj).
Proof. exact m_tick_dispatch. Qed.
Print Assumptions C32_tick_dispatch.

Example C32_case : exists s s' sp' ref', m_reachable exg exgs s /\ on_core s 0 = 2%nat
  /\ m_step exg s (mev 0 Tick 2) = Ok (s', sp', ref') /\ on_core s' 0 = 1%nat /\ mstate s 1 = Some DONE.
Proof. exists (mst exg exgs (mh1 ++ [mev 0 (Sleep 0) 1])). do 3 eexists. mcase; vmr. Qed.

(** C33 (1): picoRTOS_sleep(d): asleep and on no core until the system tick has advanced d times,
    ready (or already running) right after. *)
Theorem C33_sleep_exact : forall g rs s k d e s1 sp1 r1 evs s2,
  wf_smp g -> smp_typed rs -> m_reachable g rs s ->
  0 < d < 2 ^ cfg_tbits (m_base g) ->
  m_step g s (k, (Sleep d, e)) = Ok (s1, sp1, r1) -> m_run g s1 evs = Ok s2 ->
  (m_advances g s1 evs < d ->
     mstate s2 (on_core s k) = Some SLEEP /\ forall k', (k' < m_cores g)%nat -> on_core s2 k' <> on_core s k)
  /\ (forall evs' ev, evs = evs' ++ [ev] -> m_advances g s1 evs' = d - 1 -> m_advances g s1 evs = d ->
       mstate s2 (on_core s k) = Some READY
       \/ (mstate s2 (on_core s k) = Some BUSY /\ on_core s2 (fst ev) = on_core s k)).
Proof. exact m_sleep_exact. Qed.
Print Assumptions C33_sleep_exact.

(* B sleeps 2 ticks on core 1; the second advance comes with the 3rd following interrupt. *)
Definition mh2 := [mev 0 Tick 1; mev 1 Tick 3].
Example C33_case_sleep : exists s s1 sp1 r1 s2, m_reachable exg exgs s /\ on_core s 1 = 0%nat
  /\ m_step exg s (mev 1 (Sleep 2) 0) = Ok (s1, sp1, r1)
  /\ m_run exg s1 (mh2 ++ [mev 1 Tick 3]) = Ok s2
  /\ m_advances exg s1 mh2 = 1 /\ m_advances exg s1 (mh2 ++ [mev 1 Tick 3]) = 2 /\ on_core s2 1 = 0%nat.
Proof. exists (mst exg exgs mh1). do 4 eexists. mcase; vmr. Qed.

(** C33 (2): picoRTOS_sleep_until on time: *ref becomes ref + period, asleep until the tick equal to
    the new *ref. *)
Theorem C33_sleep_until_exact : forall g rs s k ref period e s1 sp1 ref' evs s2,
  wf_smp g -> smp_typed rs -> m_reachable g rs s ->
  0 <= ref < 2 ^ cfg_tbits (m_base g) -> 0 < period < 2 ^ cfg_tbits (m_base g) ->
  let elapsed := (m_tick s - ref) mod 2 ^ cfg_tbits (m_base g) in
  elapsed < period ->
  m_step g s (k, (SleepUntil ref period, e)) = Ok (s1, sp1, ref') -> m_run g s1 evs = Ok s2 ->
  ref' = (ref + period) mod 2 ^ cfg_tbits (m_base g)
  /\ (m_advances g s1 evs < period - elapsed ->
     mstate s2 (on_core s k) = Some SLEEP /\ forall k', (k' < m_cores g)%nat -> on_core s2 k' <> on_core s k)
  /\ (forall evs' ev, evs = evs' ++ [ev] -> m_advances g s1 evs' = period - elapsed - 1 ->
       m_advances g s1 evs = period - elapsed ->
       (mstate s2 (on_core s k) = Some READY
       \/ (mstate s2 (on_core s k) = Some BUSY /\ on_core s2 (fst ev) = on_core s k)) /\ m_tick s2 = ref').
Proof. exact m_sleep_until_exact. Qed.
Print Assumptions C33_sleep_until_exact.

Example C33_case_until : exists s s1 sp1 s2, m_reachable exg exgs s /\ on_core s 1 = 0%nat /\ m_tick s = 0
  /\ (m_tick s - 4294967295) mod 2 ^ cfg_tbits (m_base exg) = 1
  /\ m_step exg s (mev 1 (SleepUntil 4294967295 3) 0) = Ok (s1, sp1, 2)
  /\ m_run exg s1 (mh2 ++ [mev 1 Tick 3]) = Ok s2 /\ m_tick s2 = 2 /\ on_core s2 1 = 0%nat.
Proof.
  exists (mst exg exgs mh1).
  assert (E : mres_ref (m_step exg (mst exg exgs mh1) (mev 1 (SleepUntil 4294967295 3) 0)) = 2) by vmr.
  rewrite <- E. do 3 eexists. mcase; vmr.
Qed.

(** C33 (3): a task is always resumed with the stack pointer it was last suspended with. *)
Theorem C33_context_integrity : forall g tmp0 rs s0 evs s k o e s' sp' ref',
  wf_smp g -> smp_typed rs ->
  m_boot g tmp0 rs = Ok s0 -> m_run g s0 evs = Ok s -> m_step g s (k, (o, e)) = Ok (s', sp', ref') ->
  m_saved_sp g s0 (evs ++ [(k, (o, e))]) (m_initial_sp g rs) (on_core s' k) = Some sp'.
Proof. exact m_context_integrity. Qed.
Print Assumptions C33_context_integrity.

(* D, suspended on core 1, is resumed on core 0. *)
Example C33_case_context : exists s0 s s' sp' ref', m_boot exg junk exgs = Ok s0
  /\ m_run exg s0 (mh1 ++ [mev 1 (Sleep 1) 0; mev 0 (Sleep 3) 1; mev 1 Tick 3]) = Ok s
  /\ on_core s 1 = 0%nat
  /\ m_step exg s (mev 0 (Sleep 3) 2) = Ok (s', sp', ref') /\ on_core s' 0 = 3%nat /\ sp' = mspof 3.
Proof. do 5 eexists. mcase; vmr. Qed.

(** C33 (4): no spurious stall. *)
Theorem C33_no_stall : forall g rs s k o e,
  wf_smp g -> smp_typed rs -> m_reachable g rs s ->
  m_may_issue g s k o -> m_sp_ok g rs s k (e_sp e) ->
  exists s' sp' ref', m_step g s (k, (o, e)) = Ok (s', sp', ref').
Proof. exact m_no_stall. Qed.
Print Assumptions C33_no_stall.

Example C33_case_stall : exists s, m_reachable exg exgs s /\ m_may_issue exg s 1 Kill /\ m_sp_ok exg exgs s 1 12543.
Proof.
  exists (mst exg exgs mh1). split; [mcase|]. split.
  - split; [cbn; lia|]. apply Nat.ltb_lt. vm_compute. reflexivity.
  - exists 12288, 12544. split; [vmr|lia].
Qed.

(** C34 (partial): a task that calls picoRTOS_postpone while it has its turn is dispatched again
    before its core goes idle, if no tick occurs meanwhile and no other core uses up the request.
    Missing: the last hypothesis (next theorem). *)
Theorem C34_postpone_partial : forall g rs s k e s1 sp1 r1 evs s2,
  wf_smp g -> smp_typed rs -> m_reachable g rs s ->
  turn (m_base g) rs (m_tick s) (on_core s k) ->
  m_step g s (k, (Postpone, e)) = Ok (s1, sp1, r1) ->
  m_run g s1 evs = Ok s2 -> m_only_core_resets g k s1 evs -> on_core s2 k = idle_of g k ->
  m_dispatched_in g s1 evs (on_core s k).
Proof. exact m_postpone_before_idle. Qed.
Print Assumptions C34_postpone_partial.

Example C34_case : exists s s1 sp1 r1 s2, m_reachable exg exgs3 s /\ on_core s 0 = 1%nat
  /\ turn (m_base exg) exgs3 (m_tick s) (on_core s 0)
  /\ m_step exg s (mev 0 Postpone 1) = Ok (s1, sp1, r1) /\ on_core s1 0 = 2%nat
  /\ m_run exg s1 [mev 0 (Sleep 1) 2; mev 1 (Sleep 1) 0; mev 0 (Sleep 2) 1] = Ok s2
  /\ m_only_core_resets exg 0 s1 [mev 0 (Sleep 1) 2; mev 1 (Sleep 1) 0; mev 0 (Sleep 2) 1]
  /\ on_core s2 0 = idle_of exg 0.
Proof.
  exists (mst exg exgs3 mh1). do 4 eexists. mcase; try vmr.
  vm_compute. repeat split; try (left; reflexivity); try (right; left; reflexivity); try (right; right; reflexivity).
Qed.

(** C34 is false in general: A (core 0 only) postpones, C runs; B goes to sleep on core 1, whose
    scan uses up the request without being allowed to run A; C goes to sleep and core 0 goes idle
    although A is ready and was never dispatched. *)
Definition mh34 := [mev 1 (Sleep 5) 0; mev 0 (Sleep 5) 2].
Theorem C34_postpone_refuted : exists g rs s e s1 sp1 r1 evs s2,
  wf_smp g /\ smp_typed rs /\ m_reachable g rs s
  /\ turn (m_base g) rs (m_tick s) (on_core s 0)
  /\ m_step g s (0%nat, (Postpone, e)) = Ok (s1, sp1, r1)
  /\ m_run g s1 evs = Ok s2 /\ m_tick_free evs /\ on_core s2 0 = idle_of g 0
  /\ mstate s2 (on_core s 0) = Some READY
  /\ ~ m_dispatched_in g s1 evs (on_core s 0).
Proof.
  exists exg, exgs3, (mst exg exgs3 mh1), (snd (snd (mev 0 Postpone 1))). do 3 eexists. exists mh34. eexists.
  mcase; try vmr.
  - repeat constructor.
  - apply never_on_ok. vmr.
Qed.
Print Assumptions C34_postpone_refuted.

(** C56: an event on one core changes neither the task that runs on another core, nor its status,
    nor its saved context. *)
Theorem C56_isolation : forall g rs s k o e s' sp' ref',
  wf_smp g -> smp_typed rs -> m_reachable g rs s ->
  m_step g s (k, (o, e)) = Ok (s', sp', ref') ->
  forall k', (k' < m_cores g)%nat -> k' <> k ->
    on_core s' k' = on_core s k' /\ mstate s' (on_core s k') = mstate s (on_core s k')
    /\ t_sp <$> m_task s' !! on_core s k' = t_sp <$> m_task s !! on_core s k'.
Proof. exact m_isolation. Qed.
Print Assumptions C56_isolation.

Example C56_case : exists s s' sp' ref', m_reachable exg exgs s
  /\ m_step exg s (mev 1 Tick 0) = Ok (s', sp', ref') /\ m_tick s' = 1 /\ on_core s' 0 = 1%nat /\ mstate s' 1 = Some BUSY.
Proof. exists (mst exg exgs mh1). do 3 eexists. mcase; vmr. Qed.

(** C57: on a system call other than postpone, with no postpone request pending, the core moves on
    to the next task after the caller that is ready, in turn and allowed on this core, or to its
    own idle task; the system tick does not move. *)
Theorem C57_yield_next : forall g rs s k o e s' sp' ref',
  wf_smp g -> smp_typed rs -> m_reachable g rs s ->
  o <> Tick -> o <> Postpone -> m_postponed s = false ->
  m_step g s (k, (o, e)) = Ok (s', sp', ref') ->
  let r := on_core s' k in
  (on_core s k < r <= idle_of g k)%nat
  /\ eligible_on g rs s k r
  /\ (forall j, (on_core s k < j < r)%nat -> ~ eligible_on g rs s k j)
  /\ m_tick s' = m_tick s.
Proof. exact m_yield_next. Qed.
Print Assumptions C57_yield_next.

(* B on core 1 skips A and C, which are not allowed there. *)
Example C57_case : exists s s' sp' ref', m_reachable exg exgs s /\ m_postponed s = false
  /\ m_step exg s (mev 1 (Sleep 1) 0) = Ok (s', sp', ref') /\ on_core s' 1 = 3%nat /\ mstate s 2 = Some READY.
Proof. exists (mst exg exgs mh1). do 3 eexists. mcase; vmr. Qed.

(** C58: a killed task never runs again, on any core. *)
Theorem C58_kill_final : forall g rs s k e s1 sp1 r1 evs s2,
  wf_smp g -> smp_typed rs -> m_reachable g rs s ->
  m_step g s (k, (Kill, e)) = Ok (s1, sp1, r1) -> m_run g s1 evs = Ok s2 ->
  mstate s2 (on_core s k) = Some EMPTY /\ forall k', (k' < m_cores g)%nat -> on_core s2 k' <> on_core s k.
Proof. exact m_kill_final. Qed.
Print Assumptions C58_kill_final.

Example C58_case : exists s s1 sp1 r1 s2, m_reachable exg exgs s /\ on_core s 1 = 0%nat
  /\ m_step exg s (mev 1 Kill 0) = Ok (s1, sp1, r1)
  /\ m_run exg s1 [mev 1 Tick 3; mev 0 Tick 1; mev 1 Tick 3] = Ok s2 /\ on_core s2 1 = 3%nat.
Proof. exists (mst exg exgs mh1). do 4 eexists. mcase; vmr. Qed.

(** C59: in a user task, picoRTOS_self() is the task that runs on the calling core, and
    picoRTOS_get_tick() the system tick, shared by all cores. *)
Theorem C59_self_tick : forall g rs s k,
  wf_smp g -> smp_typed rs -> m_reachable g rs s -> (k < m_cores g)%nat ->
  (on_core s k < cfg_n (m_base g))%nat ->
  m_self s (Z.of_nat k) = Ok (Z.of_nat (on_core s k)) /\ m_get_tick s (Z.of_nat k) = Ok (m_tick s).
Proof. exact m_self_tick_ok. Qed.
Print Assumptions C59_self_tick.

Example C59_case : exists s, m_reachable exg exgs s
  /\ m_self s 0 = Ok 1 /\ m_self s 1 = Ok 0 /\ m_get_tick s 0 = Ok 0 /\ m_get_tick s 1 = Ok 0.
Proof. exists (mst exg exgs mh1). mcase; vmr. Qed.

(** C60 (1): start-up succeeds exactly when every mask is non-empty and within CONFIG_SMP_CORES,
    every priority below CONFIG_TASK_COUNT, and there are at most CONFIG_TASK_COUNT tasks;
    otherwise the system stalls. *)
Theorem C60_registration : forall g tmp0 rs,
  wf_smp g -> smp_typed rs ->
  let ok := Forall (fun r => 0 < rg_mask r < 2 ^ Z.of_nat (m_cores g) /\ rg_prio r < Z.of_nat (cfg_n (m_base g))) rs
            /\ (length rs <= cfg_n (m_base g))%nat in
  (ok -> exists s, m_boot g tmp0 rs = Ok s) /\ (~ ok -> m_boot g tmp0 rs = Fatal).
Proof. exact m_registration. Qed.
Print Assumptions C60_registration.

(** C60 (2): identifiers follow ascending priority, registration order inside a priority; each slot
    holds that task's own context, stack, priority and mask; each core starts on its own idle task. *)
Theorem C60_start_order : forall g tmp0 rs s,
  wf_smp g -> smp_typed rs -> m_boot g tmp0 rs = Ok s ->
  exists l, Permutation l rs
    /\ StronglySorted (fun a b => rg_prio a <= rg_prio b) l
    /\ (forall p, with_prio p l = with_prio p rs)
    /\ l = order (m_base g) rs
    /\ (forall pid, (pid < cfg_n (m_base g))%nat ->
    match l !! pid with
    | Some r => exists t, m_task s !! pid = Some t /\ t_state t = READY /\ t_sp t = rg_sp r
        /\ t_bot t = rg_stack r /\ t_top t = rg_stack r + cfg_ssize (m_base g) * rg_count r
        /\ t_count t = rg_count r /\ t_prio t = rg_prio r /\ t_mask t = rg_mask r
    | None => mstate s pid = Some EMPTY
    end)
    /\ forall k, (k < m_cores g)%nat -> on_core s k = idle_of g k
        /\ exists t, m_task s !! idle_of g k = Some t /\ t_state t = READY /\ t_sp t = m_idlesp g k
             /\ m_bounds g rs (idle_of g k) = Some (t_bot t, t_top t).
Proof. exact m_boot_order. Qed.
Print Assumptions C60_start_order.

(** C60 (3): picoRTOS_add_task allows every core. *)
Theorem C60_default_mask : forall g s r, wf_smp g -> m_add g s r =
  m_smp_add g s (mkReg (rg_stack r) (rg_count r) (rg_sp r) (rg_prio r) (2 ^ Z.of_nat (m_cores g) - 1))
  /\ forall k, (k < m_cores g)%nat -> Z.testbit (2 ^ Z.of_nat (m_cores g) - 1) (Z.of_nat k) = true.
Proof. exact m_add_any. Qed.
Print Assumptions C60_default_mask.

Example C60_case : exists s, m_boot exg junk exgs = Ok s
  /\ map t_bot (m_task s) = [12288; 8192; 16384; 20480; 4096; 6144]
  /\ map t_mask (m_task s) = [2; 1; 1; 3; 1; 2]
  /\ m_boot exg junk [mkReg 8192 64 8300 1 4] = Fatal /\ m_boot exg junk [mkReg 8192 64 8300 1 0] = Fatal.
Proof. eexists. mcase; vmr. Qed.

(** C61: a tick or system call entered with a stack pointer outside the stack of the task running
    on the core never completes. *)
Theorem C61_overflow_stalls : forall g rs s k o e x,
  wf_smp g -> smp_typed rs -> m_reachable g rs s -> (k < m_cores g)%nat ->
  ~ m_sp_ok g rs s k (e_sp e) -> m_step g s (k, (o, e)) <> Ok x.
Proof. exact m_bad_sp_stalls. Qed.
Print Assumptions C61_overflow_stalls.

Example C61_case : exists s, m_reachable exg exgs s /\ ~ m_sp_ok exg exgs s 1 12544
  /\ m_step exg s (1%nat, (Tick, mkEntry 12544 0 0)) = Fatal.
Proof.
  exists (mst exg exgs mh1). mcase; try vmr.
  assert (E : m_bounds exg exgs (on_core (mst exg exgs mh1) 1) = Some (12288, 12544)) by vmr.
  intros (b & x & H & Hb). rewrite E in H. injection H as <- <-. lia.
Qed.
