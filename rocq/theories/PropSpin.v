(** PropSpin.v - C67-C70: the spin lock of the multi-core ports, what it protects, and the calls that
    read without it. *)
From Verif Require Import Base SchedModel SchedSpec ExSched SmpModel SmpSpec ExSmp SpinModel SpinSpec SpinProofs SpinThms
  RaceModel RaceSpec RaceThms.
From Coq Require Import ZifyBool ZifyNat.

(** C67: two cores are never both between arch_spin_lock and arch_spin_unlock.  [S], [C], [body],
    [todo]: whatever is protected, whatever calls each core makes; [sched]: the order of all
    accesses.  True as long as no arch_spin_lock gave up after CONFIG_DEADLOCK_COUNT attempts, hence
    always in a debug build, where giving up stops the core. *)
Theorem C67_mutual_exclusion_partial : forall (Sh C : Type) cfg (body : C -> list (Sh -> Sh)) s todo sched j k,
  let w := spin_run cfg body sched (spin_init s todo) in
  never_gave_up w -> inside w j -> inside w k -> j = k.
Proof. intros Sh C cfg body s todo sched j k. exact (mutual_exclusion cfg body s todo sched j k). Qed.
Print Assumptions C67_mutual_exclusion_partial.

Theorem C67_debug_partial : forall (Sh C : Type) cfg (body : C -> list (Sh -> Sh)) s todo sched j k,
  l_ndebug cfg = false ->
  let w := spin_run cfg body sched (spin_init s todo) in
  never_gave_up w /\ (inside w j -> inside w k -> j = k).
Proof.
  intros Sh C cfg body s todo sched j k Hd w. assert (H := debug_never cfg body s todo sched Hd).
  split; [exact H|]. exact (mutual_exclusion cfg body s todo sched j k H).
Qed.
Print Assumptions C67_debug_partial.

(** With NDEBUG it is false, whatever CONFIG_DEADLOCK_COUNT: a core kept waiting long enough goes in. *)
Theorem C67_mutual_exclusion_refuted : forall (Sh C : Type) cfg (body : C -> list (Sh -> Sh)) s todo,
  l_ndebug cfg = true -> (0 < l_count cfg)%nat -> todo 0%nat <> [] -> todo 1%nat <> [] ->
  exists sched, let w := spin_run cfg body sched (spin_init s todo) in inside w 0%nat /\ inside w 1%nat.
Proof. intros Sh C cfg body s todo. exact (release_overlap cfg body s todo). Qed.
Print Assumptions C67_mutual_exclusion_refuted.

(** An attempt made while the lock is free succeeds: a core only gives up if the lock was owned at
    each of its attempts.  (Sema: an attempt is a write and a read, [l] is what the other cores do
    between them.) *)
Theorem C67_free_lock_taken : forall (Sh C : Type) cfg (body : C -> list (Sh -> Sh)) s todo sched k d l,
  let w := spin_run cfg body sched (spin_init s todo) in
  w_gate w = 0 ->
  (l_hw cfg = Sema -> w_pc w k = Wr d -> (forall j, j ∈ l -> j <> k) ->
     exists rest, w_pc (spin_run cfg body (k :: l ++ [k]) w) k = Inside true rest) /\
  (l_hw cfg = Sio -> w_pc w k = Rd d -> exists rest, w_pc (spin_step cfg body w k) k = Inside true rest).
Proof.
  intros Sh C cfg body s todo sched k d l w Hg.
  assert (Hb : busy_todo w) by (apply run_busy; by intros ? ?).
  split; intros Hh Hp.
  - intros Hl. by apply (sema_attempt cfg body w k d l).
  - by apply (sio_attempt cfg body w k d).
Qed.
Print Assumptions C67_free_lock_taken.

(** On SEMA4/SEMA42, even after a core gave up, at most one core is inside *with* the lock: the
    intruder's arch_spin_unlock does not release it. *)
Theorem C67_sema_one_owner : forall (Sh C : Type) cfg (body : C -> list (Sh -> Sh)) s todo sched j k r1 r2,
  l_hw cfg = Sema ->
  let w := spin_run cfg body sched (spin_init s todo) in
  w_pc w j = Inside true r1 -> w_pc w k = Inside true r2 -> j = k.
Proof.
  intros Sh C cfg body s todo sched j k r1 r2 Hh w H1 H2.
  apply (sema_owner cfg body s todo sched) in H1; [|done]. apply (sema_owner cfg body s todo sched) in H2; [|done]. lia.
Qed.
Print Assumptions C67_sema_one_owner.

(** On SIO it does: two cores may then hold the lock. *)
Definition ex_todo (k : nat) : list nat := match k with 0%nat => [5%nat] | 1%nat => [1%nat; 1%nat] | _ => [] end.
Definition ex_body (n : nat) : list (nat -> nat) := repeat S n.
Theorem C67_sio_one_owner_refuted : exists cfg sched r1 r2,
  l_hw cfg = Sio /\
  let w := spin_run cfg ex_body sched (spin_init 0%nat ex_todo) in
  w_pc w 0%nat = Inside true r1 /\ w_pc w 1%nat = Inside true r2.
Proof.
  exists (mkLockCfg 1 true Sio), [0; 0; 1; 1; 1; 1; 1; 1; 1]%nat. do 2 eexists. cbv zeta. split; [reflexivity|].
  split; reflexivity.
Qed.
Print Assumptions C67_sio_one_owner_refuted.

(** Core 1 waits while core 0 is inside, then gets in. *)
Example C67_case : let w := spin_run (mkLockCfg 3 true Sema) ex_body [0; 0; 0; 1; 1; 1; 0; 1]%nat (spin_init 0%nat ex_todo) in
  never_gave_up w /\ inside w 0%nat /\ ~ inside w 1%nat /\ w_pc w 1%nat = Rd 1.
Proof.
  cbv zeta. split; [repeat constructor|]. split; [eexists true, _; reflexivity|].
  split; [intros (b & r & H); discriminate H|reflexivity].
Qed.

(** C68: whatever the interleaving of the accesses of all cores, as long as no arch_spin_lock gave
    up, the state of the SMP scheduler whenever no core is inside is the one obtained by executing
    the calls one after the other in the order they got the lock; each core's calls are in program
    order.  [body]: any way of cutting picoRTOS_tick / picoRTOS_syscall into accesses.  Hence the
    theorems on [m_reachable] (C29-C34, C56-C61) apply to concurrent executions. *)
Theorem C68_serializable : forall cfg body g rs tmp0 s0 todo sched,
  wf_smp g -> smp_typed rs -> m_boot g tmp0 rs = Ok s0 ->
  (forall ev s, alone (body ev) s = smp_critical g ev s) ->
  let w := spin_run cfg body sched (spin_init (Ok s0) todo) in
  never_gave_up w -> tasks_only g s0 (entered w) ->
  ((forall k, ~ inside w k) -> w_shared w = m_run g s0 (entered w)) /\
  (forall k, entered_on w k `prefix_of` todo k).
Proof. exact smp_serialized. Qed.
Print Assumptions C68_serializable.

Theorem C68_reachable : forall cfg body g rs tmp0 s0 todo sched s,
  wf_smp g -> smp_typed rs -> m_boot g tmp0 rs = Ok s0 ->
  (forall ev s, alone (body ev) s = smp_critical g ev s) ->
  let w := spin_run cfg body sched (spin_init (Ok s0) todo) in
  never_gave_up w -> tasks_only g s0 (entered w) ->
  (forall k, ~ inside w k) -> w_shared w = Ok s -> m_reachable g rs s.
Proof.
  intros cfg body g rs tmp0 s0 todo sched s Hw Ht Hb Hbody w Hn Hv No E.
  destruct (smp_serialized cfg body g rs tmp0 s0 todo sched Hw Ht Hb Hbody Hn Hv) as [H _].
  exists tmp0, s0, (entered w). split; [done|]. fold w in H. rewrite <- H by done. done.
Qed.
Print Assumptions C68_reachable.

(** Ticks of both cores, cut in two accesses, interleaved with attempts of the other core. *)
Definition ex_cut (ev : nat * (op * entry)) : list (res smp -> res smp) := [fun s => s; smp_critical exg ev].
Definition ex_calls (k : nat) : list (nat * (op * entry)) :=
  match k with 0%nat => [mev 0 Tick 4; mev 0 (Sleep 2) 1] | 1%nat => [mev 1 Tick 5] | _ => [] end.
Definition ex_sched : list nat := [0;0;1;0;0;1;1;0;0;1;1;1;1;1;1;0;0;0;0;0;0]%nat.
Example C68_case : exists s0, m_boot exg junk exgs = Ok s0 /\
  let w := spin_run (mkLockCfg 9 true Sema) ex_cut ex_sched (spin_init (Ok s0) ex_calls) in
  never_gave_up w /\ entered w = [mev 0 Tick 4; mev 1 Tick 5; mev 0 (Sleep 2) 1]
  /\ (forall ev s, alone (ex_cut ev) s = smp_critical exg ev s)
  /\ w_pc w 0%nat = Out /\ w_pc w 1%nat = Out /\ is_ok (m_run exg s0 (entered w)) = true.
Proof.
  exists (mst exg exgs []). split; [mcase|]. cbv zeta. split; [|split; [|split; [done|]]].
  - repeat constructor.
  - reflexivity.
  - split; [reflexivity|]. split; [reflexivity|]. vm_compute. reflexivity.
Qed.

(** C69: picoRTOS_self() of the SMP scheduler returns the caller's identifier.  True of a task that
    may run on one core only, whatever happens meanwhile on all cores; ... *)
Theorem C69_self_pinned_partial : forall g rs pid k0 s es s' p,
  wf_smp g -> smp_typed rs -> m_reachable g rs s ->
  (pid < cfg_n (m_base g))%nat -> pinned g rs pid k0 ->
  calls_self g pid s SelfStart es -> race_run g s SelfStart es = Ok (s', p) ->
  p <> SelfFatal /\ forall v, p = SelfDone v -> v = Z.of_nat pid.
Proof.
  intros g rs pid k0 s es s' p Hw Ht Hr Hp Hpin Hc Hrun.
  assert (H := race_pinned g rs pid k0 Hw Ht Hp Hpin es s SelfStart Hr I Hc s' p Hrun).
  split; [by intros ->|]. by intros v ->.
Qed.
Print Assumptions C69_self_pinned_partial.

(** ... false of a task allowed on several: moved to another core between arch_core() and the read of
    index[], it gets the identifier of the task that replaced it. *)
Definition race_h : list (nat * (op * entry)) :=
  [mev 0 Tick 4; mev 1 Tick 5; mev 1 (Sleep 1) 0; mev 0 (Sleep 9) 1; mev 0 (Sleep 9) 2].
Definition race_es : list race_ev :=
  [Access 1; Access 1; Access 1; Access 1; Other (mev 1 Tick 3); Other (mev 0 Tick 4); Access 0].
Theorem C69_self_refuted : exists g rs pid s es s' v,
  wf_smp g /\ smp_typed rs /\ m_reachable g rs s /\ (pid < cfg_n (m_base g))%nat
  /\ calls_self g pid s SelfStart es /\ race_run g s SelfStart es = Ok (s', SelfDone v) /\ v <> Z.of_nat pid.
Proof.
  exists exg, exgs, 3%nat, (mst exg exgs race_h), race_es,
    (mst exg exgs (race_h ++ [mev 1 Tick 3; mev 0 Tick 4])), 0.
  split; [mcase|]. split; [mcase|]. split; [mcase|]. split; [cbn; lia|]. split; [|split; [vm_compute; reflexivity|done]].
  vm_compute. repeat split; try lia; intros; try discriminate; try reflexivity.
Qed.
Print Assumptions C69_self_refuted.

(** Task A (identifier 1) may run on core 0 only; it is preempted by nobody here. *)
Example C69_case : exists s s', m_reachable exg exgs s /\ pinned exg exgs 1 0
  /\ calls_self exg 1 s SelfStart [Access 0; Other (mev 1 Tick 0); Access 0; Access 0; Other (mev 0 Tick 1); Access 0; Access 0]
  /\ race_run exg s SelfStart [Access 0; Other (mev 1 Tick 0); Access 0; Access 0; Other (mev 0 Tick 1); Access 0; Access 0] = Ok (s', SelfDone 1).
Proof.
  exists (mst exg exgs [mev 0 Tick 4; mev 1 Tick 5]), (mst exg exgs [mev 0 Tick 4; mev 1 Tick 5; mev 1 Tick 0; mev 0 Tick 1]).
  split; [mcase|]. split; [|split].
  - intros k Hk Ha. destruct k as [|[|k]]; [done| |cbn in Hk; lia]. vm_compute in Ha. discriminate Ha.
  - vm_compute. repeat split; try lia; intros; try discriminate; try reflexivity.
  - vm_compute. reflexivity.
Qed.

(** C70: picoRTOS_get_tick() returns a value the tick had between call and return.  True when
    picoRTOS_tick_t is loaded at once; ... *)
Theorem C70_one_load_partial : forall c rs s,
  wf_config c -> regs_typed rs -> reachable c rs s -> tick_loads (cfg_tbits c) 0 [s] = c_tick s.
Proof. exact one_load. Qed.
Print Assumptions C70_one_load_partial.

(** ... when it takes two loads, if no tick interrupt comes between them, or none that carries into
    the upper half; ... *)
Theorem C70_two_loads_partial : forall c rs s evs s' b,
  wf_config c -> regs_typed rs -> reachable c rs s -> run c s evs = Ok s' ->
  0 < b -> cfg_tbits c = 2 * b -> (tick_free evs \/ c_tick s / 2 ^ b = c_tick s' / 2 ^ b) ->
  tick_loads b 0 [s; s'] = c_tick s.
Proof. exact two_loads. Qed.
Print Assumptions C70_two_loads_partial.

(** ... but a tick between the two loads may give a value 255 ticks ahead (avr geometry: 16-bit tick, 8-bit loads). *)
Definition h255 : list (op * entry) := ev Tick 4 :: repeat (ev Tick 0) 255.
Theorem C70_two_loads_refuted : exists c rs s e s',
  wf_config c /\ regs_typed rs /\ reachable c rs s /\ cfg_tbits c = 16 /\ run c s [(Tick, e)] = Ok s'
  /\ c_tick s = 255 /\ c_tick s' = 256 /\ tick_loads 8 0 [s; s'] = 511.
Proof.
  exists exc8, exrs, (st exc8 exrs h255), (snd (ev Tick 0)), (st exc8 exrs (h255 ++ [ev Tick 0])).
  split; [exact exc8_wf|]. split; [exact exrs_typed|]. split; [apply st_reach; vm_compute; reflexivity|].
  split; [reflexivity|]. split; [|split; [vm_compute; reflexivity|split; vm_compute; reflexivity]].
  vm_compute. reflexivity.
Qed.
Print Assumptions C70_two_loads_refuted.

Example C70_case : exists s s', reachable exc8 exrs s /\ run exc8 s [ev (Sleep 3) 0; ev (Sleep 2) 2] = Ok s'
  /\ tick_loads 8 0 [s; s'] = 1 /\ c_tick s = 1.
Proof.
  exists (st exc8 exrs [ev Tick 4; ev Tick 0]), (st exc8 exrs [ev Tick 4; ev Tick 0; ev (Sleep 3) 0; ev (Sleep 2) 2]).
  split; [apply st_reach; vm_compute; reflexivity|]. split; [vm_compute; reflexivity|]. split; vm_compute; reflexivity.
Qed.
