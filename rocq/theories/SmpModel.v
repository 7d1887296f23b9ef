(** SmpModel.v - executable model of scheduler/picoRTOS-SMP.c.

    Line numbers without a file name refer to /repo/scheduler/picoRTOS-SMP.c.

    Simplification common to the whole file: picoRTOS_tick (613-677) and picoRTOS_syscall (564-609)
    run entirely between arch_spin_lock and arch_spin_unlock, so an execution of all cores is a
    sequence of such calls, each tagged with its core (arch_core()) and each atomic (SpinModel.v and C68 justify this).  The
    data caches and the primitives of arch/*/picoRTOS-SMP_port.c are outside the model. *)
From Verif Require Import Base SchedModel.

(** Configuration: the one of the single-core scheduler (CONFIG_TASK_COUNT, types, stack geometry;
    [cfg_idlestk] and [cfg_idlesp] unused), CONFIG_SMP_CORES, the widths of picoRTOS_core_t and
    picoRTOS_mask_t, the address of picoRTOS_SMP_stack[i].idle (line 99) and what
    arch_prepare_stack returns for it. *)
Record smpcfg := mkSmpCfg {
  m_base     : config;
  m_cores    : nat;        (* CONFIG_SMP_CORES *)
  m_corebits : Z;          (* width of picoRTOS_core_t *)
  m_maskbits : Z;          (* width of picoRTOS_mask_t *)
  m_idlestk  : nat -> Z;
  m_idlesp   : nat -> Z
}.

(** struct picoRTOS_SMP_core, lines 80-88.  [m_stray]: see SchedModel.core. *)
Record smp := mkSmp {
  m_running   : bool;
  m_postponed : bool;
  m_index     : list Z;    (* index[CONFIG_SMP_CORES] *)
  m_tick      : Z;
  m_pidcount  : Z;
  m_counter   : Z;         (* core_counter *)
  m_task      : list task;
  m_sub       : list Z;
  m_stray     : list (Z * Z)
}.

Definition mw_running (s : smp) v := mkSmp v (m_postponed s) (m_index s) (m_tick s) (m_pidcount s) (m_counter s) (m_task s) (m_sub s) (m_stray s).
Definition mw_postponed (s : smp) v := mkSmp (m_running s) v (m_index s) (m_tick s) (m_pidcount s) (m_counter s) (m_task s) (m_sub s) (m_stray s).
Definition mw_index (s : smp) v := mkSmp (m_running s) (m_postponed s) v (m_tick s) (m_pidcount s) (m_counter s) (m_task s) (m_sub s) (m_stray s).
Definition mw_tick (s : smp) v := mkSmp (m_running s) (m_postponed s) (m_index s) v (m_pidcount s) (m_counter s) (m_task s) (m_sub s) (m_stray s).
Definition mw_pidcount (s : smp) v := mkSmp (m_running s) (m_postponed s) (m_index s) (m_tick s) v (m_counter s) (m_task s) (m_sub s) (m_stray s).
Definition mw_counter (s : smp) v := mkSmp (m_running s) (m_postponed s) (m_index s) (m_tick s) (m_pidcount s) v (m_task s) (m_sub s) (m_stray s).
Definition mw_task (s : smp) v := mkSmp (m_running s) (m_postponed s) (m_index s) (m_tick s) (m_pidcount s) (m_counter s) v (m_sub s) (m_stray s).
Definition mw_sub (s : smp) v w := mkSmp (m_running s) (m_postponed s) (m_index s) (m_tick s) (m_pidcount s) (m_counter s) (m_task s) v w.

(** TASK_COUNT, TASK_IDLE_PID: lines 56-58. *)
Definition m_taskcount (g : smpcfg) : Z := Z.of_nat (cfg_n (m_base g)) + Z.of_nat (m_cores g).
Definition m_idlepid (g : smpcfg) : Z := Z.of_nat (cfg_n (m_base g)).

(** TASK_BY_PID(x), line 62. *)
Definition mget (s : smp) (pid : Z) : res task := aget (m_task s) pid.
Definition mput (s : smp) (pid : Z) (t : task) : res smp :=
  let! l := aset (m_task s) pid t in Ok (mw_task s l).

(** (picoRTOS_mask_t)(1u << core), lines 202, 525, 640. *)
Definition core_bit (g : smpcfg) (k : Z) : Z := wrap (m_maskbits g) (Z.shiftl 1 k).

(** task_core_is_available, lines 124-132. *)
Definition m_available (g : smpcfg) (s : smp) (mask : Z) (t : task) : res bool :=
  if Z.land (t_mask t) mask =? 0 then Ok false
  else if negb (bool_decide (t_state t = READY)) then Ok false
  else
    let! n := aget (m_sub s) (t_prio t) in
    if n =? 0 then UB
    else Ok (wrap (cfg_pbits (m_base g)) (m_tick s) mod n =? t_sub t).

(** Slot written by picoRTOS_SMP_add_task (lines 335-346) and task_idle_init (198-208). *)
Definition m_fill (c : config) (t : task) (r : reg) : task :=
  let t := set_sp t (rg_sp r) in
  let t := set_state t READY in
  let t := set_mask t (rg_mask r) in
  let t := set_stack t (rg_stack r) (rg_stack r + cfg_ssize c * rg_count r) (rg_count r) in
  set_prio t (rg_prio r).

(** task_idle_init, lines 183-210: loop i = 0 .. CONFIG_SMP_CORES-1, [k] iterations left.
    picoRTOS_task_init (213-227) is the same code as picoRTOS.c:228-243. *)
Fixpoint m_idle_init (g : smpcfg) (k i : nat) (s : smp) : res smp :=
  match k with
  | O => Ok s
  | S k' =>
    let! sk := task_init (m_base g) (m_idlestk g i) (cfg_minstack (m_base g)) in
    let pid := wrap (cfg_pidbits (m_base g)) (m_idlepid g + Z.of_nat i) in
    let! t := mget s pid in
    let! s := mput s pid
      (m_fill (m_base g) t (mkReg (fst sk) (snd sk) (m_idlesp g i)
                              (wrap (cfg_pbits (m_base g)) (m_idlepid g)) (core_bit g (Z.of_nat i)))) in
    m_idle_init g k' (S i) s
  end.

(** picoRTOS_init, lines 229-255.  The loops writing the same value in every slot are modelled by
    [replicate], the loop filling index[] by [map]. *)
Definition m_init (g : smpcfg) : res smp :=
  let tc := (cfg_n (m_base g) + m_cores g)%nat in
  let s := mkSmp false false (replicate (m_cores g) 0) 0 0 0
             (replicate tc (task_core_init (m_base g) (m_taskcount g))) (replicate tc 1) [] in
  let! s := m_idle_init g (m_cores g) 0 s in
  let s := mw_tick s (wrap (cfg_tbits (m_base g)) (-1)) in
  let s := mw_index s (map (fun i => wrap (cfg_pidbits (m_base g)) (m_idlepid g + Z.of_nat i)) (seq 0 (m_cores g))) in
  let s := mw_counter s 0 in
  Ok (mw_postponed (mw_running s false) false).

(** picoRTOS_SMP_add_task, lines 322-350; the mask is [rg_mask r]. *)
Definition m_smp_add (g : smpcfg) (s : smp) (r : reg) : res smp :=
  assert_fatal (negb (rg_mask r =? 0))
  (assert_fatal (rg_mask r <? core_bit g (Z.of_nat (m_cores g)))
   (assert_fatal (rg_prio r <? wrap (cfg_pbits (m_base g)) (Z.of_nat (cfg_n (m_base g))))
    (let pid := m_pidcount s in
     assert_fatal (pid <? wrap (cfg_pidbits (m_base g)) (Z.of_nat (cfg_n (m_base g))))
       (let! t := mget s pid in
        assert_fatal (bool_decide (t_state t = EMPTY))
          (let! s := mput s pid (m_fill (m_base g) t r) in
           Ok (mw_pidcount s (wrap (cfg_pidbits (m_base g)) (m_pidcount s + 1)))))))).

(** PICORTOS_SMP_CORE_ANY, line 14. *)
Definition core_any (g : smpcfg) : Z := Z.shiftl 1 (Z.of_nat (m_cores g)) - 1.

(** picoRTOS_add_task, lines 257-264. *)
Definition m_add (g : smpcfg) (s : smp) (r : reg) : res smp :=
  assert_fatal (rg_prio r <? wrap (cfg_pbits (m_base g)) (Z.of_nat (cfg_n (m_base g))))
    (m_smp_add g s (mkReg (rg_stack r) (rg_count r) (rg_sp r) (rg_prio r) (wrap (m_maskbits g) (core_any g)))).

(** picoRTOS_start, lines 387-408, up to the start of the cores: core_sort_tasks (352-366) and
    core_arrange_shared_priorities (368-385) are the same code as in picoRTOS.c. *)
Definition m_start (g : smpcfg) (tmp0 : task) (s : smp) : res smp :=
  let! l := sort_tasks (cfg_n (m_base g)) tmp0 (m_task s) in
  let! x := arrange (cfg_pbits (m_base g)) (cfg_n (m_base g)) l (m_sub s) (m_stray s) in
  let '(l, sub, stray) := x in
  Ok (mw_running (mw_sub (mw_task s l) sub stray) true).

(** syscall_sleep, lines 481-488. *)
Definition m_sleep (g : smpcfg) (s : smp) (t : task) (delay : Z) : task :=
  if delay >? 0
  then set_state (set_ttick t (wrap (cfg_tbits (m_base g)) (m_tick s + delay))) SLEEP
  else t.

(** syscall_sleep_until, lines 490-512. *)
Definition m_sleep_until (g : smpcfg) (s : smp) (t : task) (ref period : Z) : task * Z :=
  let c := m_base g in
  let elapsed := wrap (cfg_tbits c) (m_tick s - ref) in
  if elapsed <? period then
    let wake := wrap (cfg_tbits c) (ref + period) in
    (set_miss (set_state (set_ttick t wake) SLEEP) 0, wake)
  else
    let t := set_miss t (wrap (cfg_szbits c) (t_miss t + 1)) in
    let ref := if t_miss t >? cfg_deadlock c then m_tick s else ref in
    (set_smiss t (wrap (cfg_szbits c) (t_smiss t + 1)), ref).

(** syscall_kill, lines 514-517. *)
Definition m_kill (t : task) : task := set_state t EMPTY.

(** syscall_switch_context, lines 536-540:
    [do { index[core]++; assert(index[core] < TASK_COUNT); } while (!is_available(task[index[core]], mask))].
    [idx] is index[core] on entry; the result is its value on exit (the caller stores it: no one
    else reads index[core] meanwhile, the lock being held). *)
Fixpoint m_scan (fuel : nat) (g : smpcfg) (s : smp) (mask idx : Z) : res Z :=
  match fuel with
  | O => Fuel
  | S f =>
    let idx := wrap (cfg_pidbits (m_base g)) (idx + 1) in
    assert_fatal (idx <? m_taskcount g)
      (let! t := mget s idx in
       let! a := m_available g s mask t in
       if a : bool then Ok idx else m_scan f g s mask idx)
  end.

(** syscall_switch_context, lines 534-558, [while (count-- != 0)] and the final assert. Result: the
    state (F_POSTPONED, task marked BUSY) and index[core]. *)
Fixpoint m_switch_loop (count : nat) (g : smpcfg) (s : smp) (mask idx : Z) : res (smp * Z) :=
  match count with
  | O => Fatal
  | S k =>
    let! idx := m_scan (S (cfg_n (m_base g) + m_cores g)) g s mask idx in
    if (idx >=? m_idlepid g) && m_postponed s
    then m_switch_loop k g (mw_postponed s false) mask (wrap (cfg_pidbits (m_base g)) (-1))
    else
      let! t := mget s idx in
      let! s := mput s idx (set_state t BUSY) in
      Ok (s, idx)
  end.

(** syscall_switch_context, lines 520-562. [idx] is index[core] (the caller's identifier).
    Statistics as in SchedModel ([cfg_lite] false). *)
Definition m_switch (g : smpcfg) (s : smp) (core idx : Z) (e : entry) : res smp :=
  let! t := mget s idx in
  let t := stat_finish (m_base g) (e_since e) t in
  let t := if bool_decide (t_state t = BUSY) then set_state t DONE else t in
  let! s := mput s idx t in
  let! x := m_switch_loop 2 g s (core_bit g core) idx in
  let '(s, idx) := x in
  let! l := aset (m_index s) core idx in
  let s := mw_index s l in
  let! t := mget s idx in
  mput s idx (stat_start (m_base g) (e_now e) t).

(** picoRTOS_syscall, lines 564-609, on core [core].  Result: state, returned sp, sc->ref. *)
Definition m_syscall (g : smpcfg) (s : smp) (core : Z) (e : entry) (sc : syscall) : res (smp * Z * Z) :=
  let! idx := aget (m_index s) core in
  let! t := mget s idx in
  assert_fatal (e_sp e >=? t_bot t)
  (assert_fatal (e_sp e <? t_top t)
   (let t := set_sp t (e_sp e) in
    let! x :=
      match sc with
      | SC_SLEEP d => let! s := mput s idx (m_sleep g s t d) in Ok (s, 0)
      | SC_SLEEP_UNTIL r p =>
          let '(t', r') := m_sleep_until g s t r p in
          let! s := mput s idx t' in Ok (s, r')
      | SC_KILL => let! s := mput s idx (m_kill t) in Ok (s, 0)
      | SC_SWITCH_CONTEXT =>
          let! s := mput s idx (set_state t READY) in Ok (mw_postponed s true, 0)
      end in
    let '(s, r) := x in
    let! s := m_switch g s core idx e in
    let! idx := aget (m_index s) core in
    let! t := mget s idx in
    Ok (s, t_sp t, r))).

(** picoRTOS_tick, lines 638-661: loop [pid = TASK_COUNT; while (pid-- != 0)]; [n] slots left,
    [idx] is index[core] so far. *)
Fixpoint m_pass (n : nat) (g : smpcfg) (s : smp) (mask idx : Z) : res (smp * Z) :=
  match n with
  | O => Ok (s, idx)
  | S m =>
    let pid := Z.of_nat m in
    let! t := mget s pid in
    let t := if bool_decide (t_state t = SLEEP) && (t_tick t =? m_tick s)
             then set_state t READY else t in
    let t := if bool_decide (t_state t = DONE) then set_state t READY else t in
    let! a := m_available g s mask t in
    let idx := if a : bool then pid else idx in
    let t := set_counter t 0 in
    let! s := mput s pid t in
    m_pass m g s mask idx
  end.

(** picoRTOS_tick, lines 613-677, on core [core].  Result: state and returned sp. *)
Definition m_dotick (g : smpcfg) (s : smp) (core : Z) (e : entry) : res (smp * Z) :=
  let! idx := aget (m_index s) core in
  let! t := mget s idx in
  assert_fatal (e_sp e >=? t_bot t)
  (assert_fatal (e_sp e <? t_top t)
   (let t := set_sp t (e_sp e) in
    let t := set_state t READY in
    let t := stat_finish (m_base g) (e_since e) t in
    let! s := mput s idx t in
    let first := m_counter s =? 0 in
    let s := mw_counter s (wrap (m_corebits g) (m_counter s + 1)) in
    let s := if first
             then mw_postponed (mw_tick s (wrap (cfg_tbits (m_base g)) (m_tick s + 1))) false
             else s in
    let! x := m_pass (cfg_n (m_base g) + m_cores g) g s (core_bit g core) idx in
    let '(s, idx) := x in
    let! l := aset (m_index s) core idx in
    let s := mw_index s l in
    let! t := mget s idx in
    let t := set_state t BUSY in
    let t := stat_start (m_base g) (e_now e) t in
    let! s := mput s idx t in
    let s := if m_counter s =? wrap (m_corebits g) (Z.of_nat (m_cores g)) then mw_counter s 0 else s in
    Ok (s, t_sp t))).

(** Guard of the API functions, TASK_CURRENT().state == BUSY: lines 436, 442, 449, 459, 465, 473. *)
Definition m_guard (s : smp) (core : Z) : res bool :=
  let! idx := aget (m_index s) core in
  let! t := mget s idx in
  Ok (bool_decide (t_state t = BUSY)).

(** picoRTOS_postpone 434-438, picoRTOS_sleep 440-444, picoRTOS_sleep_until 446-455,
    picoRTOS_kill 457-461 and the tick interrupt, on core [core]. *)
Definition m_api (g : smpcfg) (s : smp) (core : Z) (e : entry) (sc : syscall) : res (smp * Z * Z) :=
  let! b := m_guard s core in
  assert_fatal b (m_syscall g s core e sc).

Definition m_step (g : smpcfg) (s : smp) (ev : nat * (op * entry)) : res (smp * Z * Z) :=
  let '(k, (o, e)) := ev in
  let core := Z.of_nat k in
  let w := wrap (cfg_tbits (m_base g)) in
  match o with
  | Tick => let! x := m_dotick g s core e in Ok (fst x, snd x, 0)
  | Sleep d => m_api g s core e (SC_SLEEP (w d))
  | SleepUntil r p => assert_fatal (w p >? 0) (m_api g s core e (SC_SLEEP_UNTIL (w r) (w p)))
  | Kill => m_api g s core e SC_KILL
  | Postpone => m_api g s core e SC_SWITCH_CONTEXT
  end.

(** picoRTOS_self, lines 463-469. *)
Definition m_self (s : smp) (core : Z) : res Z :=
  let! b := m_guard s core in
  assert_fatal b (aget (m_index s) core).

(** picoRTOS_get_tick, lines 471-477. *)
Definition m_get_tick (s : smp) (core : Z) : res Z :=
  let! b := m_guard s core in
  assert_fatal b (Ok (m_tick s)).

(** Start-up: picoRTOS_init, picoRTOS_SMP_add_task for each task, picoRTOS_start. *)
Fixpoint m_adds (g : smpcfg) (s : smp) (rs : list reg) : res smp :=
  match rs with
  | [] => Ok s
  | r :: rs => let! s := m_smp_add g s r in m_adds g s rs
  end.

Definition m_boot (g : smpcfg) (tmp0 : task) (rs : list reg) : res smp :=
  let! s := m_init g in
  let! s := m_adds g s rs in
  m_start g tmp0 s.
