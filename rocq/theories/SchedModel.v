(** SchedModel.v - executable model of scheduler/picoRTOS.c and scheduler/picoRTOS-lite.c.

    Line numbers without a file name refer to /repo/scheduler/picoRTOS.c; "lite:" refers to
    /repo/scheduler/picoRTOS-lite.c. *)
From Verif Require Import Base.

(** * Configuration

    CONFIG_TASK_COUNT, CONFIG_DEADLOCK_COUNT (Kconfig), the widths of picoRTOS_tick_t,
    picoRTOS_priority_t, picoRTOS_pid_t, size_t (arch/*/picoRTOS_types.h), the constants
    ARCH_MIN_STACK_COUNT, ARCH_L1_DCACHE_LINESIZE, sizeof(picoRTOS_stack_t)
    (arch/*/picoRTOS_port.h), the address of picoRTOS.idle_stack (line 77) and what
    arch_prepare_stack returns for the idle task.  [cfg_lite] selects picoRTOS-lite.c. *)
Record config := mkConfig {
  cfg_n        : nat;   (* CONFIG_TASK_COUNT *)
  cfg_tbits    : Z;     (* width of picoRTOS_tick_t *)
  cfg_pbits    : Z;     (* width of picoRTOS_priority_t *)
  cfg_pidbits  : Z;     (* width of picoRTOS_pid_t *)
  cfg_szbits   : Z;     (* width of size_t *)
  cfg_cbits    : Z;     (* width of picoRTOS_cycles_t *)
  cfg_deadlock : Z;     (* CONFIG_DEADLOCK_COUNT *)
  cfg_minstack : Z;     (* ARCH_MIN_STACK_COUNT *)
  cfg_line     : Z;     (* ARCH_L1_DCACHE_LINESIZE, bytes *)
  cfg_ssize    : Z;     (* sizeof(picoRTOS_stack_t), bytes *)
  cfg_idlestk  : Z;     (* address of picoRTOS.idle_stack *)
  cfg_idlesp   : Z;     (* arch_prepare_stack(idle...) *)
  cfg_lite     : bool
}.

(** lines 10-16 (EMPTY, READY, SLEEP); BUSY and DONE exist only in picoRTOS-SMP.c:18-24.
    One enumeration for both files. *)
Inductive tstate := EMPTY | READY | BUSY | DONE | SLEEP.
#[global] Instance tstate_eq_dec : EqDecision tstate.
Proof. solve_decision. Defined.

(** struct picoRTOS_task_core, lines 18-40 (and picoRTOS-SMP.c:26-48 for [t_mask]).
    Pointers are byte addresses. *)
Record task := mkTask {
  t_sp      : Z;
  t_state   : tstate;
  t_tick    : Z;
  t_mask    : Z;        (* SMP only: core_mask *)
  t_bot     : Z;        (* stack_bottom *)
  t_top     : Z;        (* stack_top *)
  t_count   : Z;        (* stack_count *)
  t_counter : Z;        (* stat.counter *)
  t_wlo     : Z;        (* stat.watermark_lo *)
  t_whi     : Z;        (* stat.watermark_hi *)
  t_smiss   : Z;        (* stat.deadline_miss_count *)
  t_prio    : Z;
  t_sub     : Z;        (* sub_prio *)
  t_miss    : Z         (* deadline_miss_count *)
}.

(** Field assignments  task->f = v. *)
Definition set_sp (t : task) v := mkTask v (t_state t) (t_tick t) (t_mask t) (t_bot t) (t_top t) (t_count t) (t_counter t) (t_wlo t) (t_whi t) (t_smiss t) (t_prio t) (t_sub t) (t_miss t).
Definition set_state (t : task) v := mkTask (t_sp t) v (t_tick t) (t_mask t) (t_bot t) (t_top t) (t_count t) (t_counter t) (t_wlo t) (t_whi t) (t_smiss t) (t_prio t) (t_sub t) (t_miss t).
Definition set_ttick (t : task) v := mkTask (t_sp t) (t_state t) v (t_mask t) (t_bot t) (t_top t) (t_count t) (t_counter t) (t_wlo t) (t_whi t) (t_smiss t) (t_prio t) (t_sub t) (t_miss t).
Definition set_mask (t : task) v := mkTask (t_sp t) (t_state t) (t_tick t) v (t_bot t) (t_top t) (t_count t) (t_counter t) (t_wlo t) (t_whi t) (t_smiss t) (t_prio t) (t_sub t) (t_miss t).
Definition set_stack (t : task) b e n := mkTask (t_sp t) (t_state t) (t_tick t) (t_mask t) b e n (t_counter t) (t_wlo t) (t_whi t) (t_smiss t) (t_prio t) (t_sub t) (t_miss t).
Definition set_counter (t : task) v := mkTask (t_sp t) (t_state t) (t_tick t) (t_mask t) (t_bot t) (t_top t) (t_count t) v (t_wlo t) (t_whi t) (t_smiss t) (t_prio t) (t_sub t) (t_miss t).
Definition set_marks (t : task) lo hi := mkTask (t_sp t) (t_state t) (t_tick t) (t_mask t) (t_bot t) (t_top t) (t_count t) (t_counter t) lo hi (t_smiss t) (t_prio t) (t_sub t) (t_miss t).
Definition set_smiss (t : task) v := mkTask (t_sp t) (t_state t) (t_tick t) (t_mask t) (t_bot t) (t_top t) (t_count t) (t_counter t) (t_wlo t) (t_whi t) v (t_prio t) (t_sub t) (t_miss t).
Definition set_prio (t : task) v := mkTask (t_sp t) (t_state t) (t_tick t) (t_mask t) (t_bot t) (t_top t) (t_count t) (t_counter t) (t_wlo t) (t_whi t) (t_smiss t) v (t_sub t) (t_miss t).
Definition set_sub (t : task) v := mkTask (t_sp t) (t_state t) (t_tick t) (t_mask t) (t_bot t) (t_top t) (t_count t) (t_counter t) (t_wlo t) (t_whi t) (t_smiss t) (t_prio t) v (t_miss t).
Definition set_miss (t : task) v := mkTask (t_sp t) (t_state t) (t_tick t) (t_mask t) (t_bot t) (t_top t) (t_count t) (t_counter t) (t_wlo t) (t_whi t) (t_smiss t) (t_prio t) (t_sub t) v.

(** struct picoRTOS_core, lines 70-78; lite:42-48.  [flags] is split in F_RUNNING and
    F_POSTPONED.  [c_sub] holds picoRTOS.sub[].count.  [c_stray] is ghost: (index, value) of
    the writes to picoRTOS.sub[] beyond its end. *)
Record core := mkCore {
  c_running   : bool;
  c_postponed : bool;
  c_index     : Z;
  c_tick      : Z;
  c_pidcount  : Z;
  c_task      : list task;
  c_sub       : list Z;
  c_stray     : list (Z * Z)
}.

Definition with_running (s : core) v := mkCore v (c_postponed s) (c_index s) (c_tick s) (c_pidcount s) (c_task s) (c_sub s) (c_stray s).
Definition with_postponed (s : core) v := mkCore (c_running s) v (c_index s) (c_tick s) (c_pidcount s) (c_task s) (c_sub s) (c_stray s).
Definition with_index (s : core) v := mkCore (c_running s) (c_postponed s) v (c_tick s) (c_pidcount s) (c_task s) (c_sub s) (c_stray s).
Definition with_tick (s : core) v := mkCore (c_running s) (c_postponed s) (c_index s) v (c_pidcount s) (c_task s) (c_sub s) (c_stray s).
Definition with_pidcount (s : core) v := mkCore (c_running s) (c_postponed s) (c_index s) (c_tick s) v (c_task s) (c_sub s) (c_stray s).
Definition with_task (s : core) v := mkCore (c_running s) (c_postponed s) (c_index s) (c_tick s) (c_pidcount s) v (c_sub s) (c_stray s).
Definition with_sub (s : core) v w := mkCore (c_running s) (c_postponed s) (c_index s) (c_tick s) (c_pidcount s) (c_task s) v w.

(** TASK_COUNT, TASK_IDLE_PRIO, TASK_IDLE_PID: lines 47-50, lite:31-34. *)
Definition task_count (c : config) : Z := Z.of_nat (cfg_n c) + 1.
Definition idle_pid (c : config) : Z := task_count c - 1.

(** TASK_BY_PID(x): line 53. *)
Definition get_task (s : core) (pid : Z) : res task := aget (c_task s) pid.
Definition put_task (s : core) (pid : Z) (t : task) : res core :=
  let! l := aset (c_task s) pid t in Ok (with_task s l).

(** task_core_init, lines 83-103; lite:53-65 (no stat, prio, sub_prio there: in the lite model
    those fields keep dummy values nobody reads). *)
Definition task_core_init (c : config) (tc : Z) : task :=
  mkTask 0 EMPTY 0 0 0 0 0
         (wrap (cfg_cbits c) (-1)) (wrap (cfg_cbits c) (-1)) 0 0
         (wrap (cfg_pbits c) tc) 0 0.

(** task_core_is_available, lines 105-111; lite:67-71.  The && short-circuits: the sub array is
    read only for READY tasks. *)
Definition is_available (c : config) (s : core) (t : task) : res bool :=
  if negb (bool_decide (t_state t = READY)) then Ok false
  else if cfg_lite c then Ok true
  else
    let! n := aget (c_sub s) (t_prio t) in
    if n =? 0 then UB
    else Ok (wrap (cfg_pbits c) (c_tick s) mod n =? t_sub t).

(** task_core_quickcpy, lines 113-125; picoRTOS-SMP.c:134-147 also copies core_mask. *)
Definition quickcpy (dst src : task) : task :=
  mkTask (t_sp src) (t_state src) (t_tick dst) (t_mask src) (t_bot src) (t_top src) (t_count src)
         (t_counter dst) (t_wlo dst) (t_whi dst) (t_smiss dst) (t_prio src) (t_sub dst) (t_miss dst).

(** task_core_quickswap, lines 127-135: [tmp] is an uninitialised local, of which only the
    fields copied first are read. *)
Definition quickswap (tmp0 t1 t2 : task) : task * task :=
  let tmp := quickcpy tmp0 t1 in
  let t1' := quickcpy t1 t2 in
  let t2' := quickcpy t2 tmp in
  (t1', t2').

(** task_core_stat_start, lines 137-140: [now] is the value of arch_counter(CURRENT).
    picoRTOS-lite has no statistics. *)
Definition stat_start (c : config) (now : Z) (t : task) : task :=
  if cfg_lite c then t else set_counter t now.

(** task_core_stat_finish, lines 142-152: [since] is the value of arch_counter(SINCE, counter). *)
Definition stat_finish (c : config) (since : Z) (t : task) : task :=
  if cfg_lite c then t else
  let t1 := set_counter t since in
  let lo := if t_counter t1 <? t_wlo t1 then t_counter t1 else t_wlo t1 in
  let hi := if t_counter t1 >? t_whi t1 then t_counter t1 else t_whi t1 in
  set_marks t1 lo hi.

(** L1_CACHE_ALIGN, lines 58-66:  ptr + (((uintptr + (align-1)) & ~(align-1)) - uintptr). *)
Definition l1_align (align p : Z) : Z :=
  p + (Z.land (p + (align - 1)) (Z.lnot (align - 1)) - p).

(** picoRTOS_task_init, lines 228-243; lite:110-123 (no alignment).  Result: (stack, stack_count).
    STACK_COUNT_MASK = (LINESIZE / sizeof(picoRTOS_stack_t)) - 1 is computed in size_t (sizeof is
    a size_t), so it wraps when LINESIZE < sizeof; the pointer difference is cast to size_t. *)
Definition task_init (c : config) (stack stack_count : Z) : res (Z * Z) :=
  assert_fatal (stack_count >=? cfg_minstack c)
    (if cfg_lite c then Ok (stack, stack_count)
     else
       let al := l1_align (cfg_line c) stack in
       let mask := wrap (cfg_szbits c) (cfg_line c / cfg_ssize c - 1) in
       let diff := (stack + cfg_ssize c * stack_count - al) / cfg_ssize c in
       Ok (al, Z.land (wrap (cfg_szbits c) diff) (wrap (cfg_szbits c) (Z.lnot mask)))).

(** struct picoRTOS_task (picoRTOS.h:13-18) as given to picoRTOS_add_task together with its
    priority.  [rg_sp] is what arch_prepare_stack returns for it; [rg_mask] is the core mask
    (picoRTOS_SMP_add_task only). *)
Record reg := mkReg {
  rg_stack : Z;
  rg_count : Z;
  rg_sp    : Z;
  rg_prio  : Z;
  rg_mask  : Z
}.

(** Contents of a task slot filled by add_task / task_idle_init: lines 274-286, 171-180;
    lite:130-137, 84-90. *)
Definition fill_slot (c : config) (t : task) (r : reg) : task :=
  let t := set_state t READY in
  let t := set_sp t (rg_sp r) in
  let t := set_stack t (rg_stack r) (rg_stack r + cfg_ssize c * rg_count r) (rg_count r) in
  set_prio t (rg_prio r).

(** task_idle_init, lines 161-181; lite:73-91. *)
Definition idle_init (c : config) (s : core) : res core :=
  let! sk := task_init c (cfg_idlestk c) (cfg_minstack c) in
  let! t := get_task s (idle_pid c) in
  put_task s (idle_pid c)
    (fill_slot c t (mkReg (fst sk) (snd sk) (cfg_idlesp c) (wrap (cfg_pbits c) (idle_pid c)) 0)).

(** picoRTOS_init, lines 186-206; lite:93-108.  The initialisation loop writes the same value
    in every slot: modelled by [replicate].  picoRTOS.index is cast to picoRTOS_pid_t. *)
Definition init (c : config) : res core :=
  let tc := S (cfg_n c) in
  let s := mkCore false false 0 0 0
             (replicate tc (task_core_init c (task_count c))) (replicate tc 1) [] in
  let! s := idle_init c s in
  let s := with_index s (wrap (cfg_pidbits c) (idle_pid c)) in
  let s := with_tick s (wrap (cfg_tbits c) (-1)) in
  Ok s.

(** picoRTOS_add_task, lines 262-289. *)
Definition add_task_full (c : config) (s : core) (r : reg) : res core :=
  assert_fatal (rg_prio r <? wrap (cfg_pbits c) (Z.of_nat (cfg_n c)))
    (let pid := c_pidcount s in
     assert_fatal (pid <? wrap (cfg_pidbits c) (Z.of_nat (cfg_n c)))
       (let! t := get_task s pid in
        assert_fatal (bool_decide (t_state t = EMPTY))
          (let! s := put_task s pid (fill_slot c t r) in
           Ok (with_pidcount s (wrap (cfg_pidbits c) (c_pidcount s + 1)))))).

(** picoRTOS_add_task of picoRTOS-lite, lite:125-138: the slot is the priority. *)
Definition add_task_lite (c : config) (s : core) (r : reg) : res core :=
  assert_fatal (rg_prio r <? wrap (cfg_pbits c) (Z.of_nat (cfg_n c)))
    (let! t := get_task s (rg_prio r) in
     assert_fatal (bool_decide (t_state t = EMPTY))
       (put_task s (rg_prio r) (fill_slot c t r))).

Definition add_task (c : config) (s : core) (r : reg) : res core :=
  if cfg_lite c then add_task_lite c s r else add_task_full c s r.

(** picoRTOS_get_next_available_priority, lines 308-322: the loop
    [for (; pid < CONFIG_TASK_COUNT; pid++) if (task[pid].prio == prio) { pid = 0; prio++; }].
    Note that pid++ is executed after pid = 0. *)
Fixpoint next_loop (fuel : nat) (c : config) (s : core) (pid prio : Z) : res Z :=
  match fuel with
  | O => Fuel
  | S f =>
    if pid <? Z.of_nat (cfg_n c) then
      let! t := get_task s pid in
      if t_prio t =? prio
      then next_loop f c s (wrap (cfg_pidbits c) (0 + 1)) (wrap (cfg_pbits c) (prio + 1))
      else next_loop f c s (wrap (cfg_pidbits c) (pid + 1)) prio
    else Ok prio
  end.

Definition prio_fuel (c : config) : nat := (S (S (cfg_n c)) * S (S (cfg_n c)))%nat.

Definition get_next_full (c : config) (s : core) : res Z :=
  let! prio := next_loop (prio_fuel c) c s 0 0 in
  assert_fatal (prio <? wrap (cfg_pbits c) (idle_pid c)) (Ok prio).

(** picoRTOS_get_last_available_priority, lines 346-362. *)
Fixpoint last_loop (fuel : nat) (c : config) (s : core) (pid prio : Z) : res Z :=
  match fuel with
  | O => Fuel
  | S f =>
    if pid <? Z.of_nat (cfg_n c) then
      let! t := get_task s pid in
      if t_prio t =? prio
      then last_loop f c s (wrap (cfg_pidbits c) (0 + 1)) (wrap (cfg_pbits c) (prio - 1))
      else last_loop f c s (wrap (cfg_pidbits c) (pid + 1)) prio
    else Ok prio
  end.

Definition get_last_full (c : config) (s : core) : res Z :=
  let! prio := last_loop (prio_fuel c) c s 0 (wrap (cfg_pbits c) (idle_pid c - 1)) in
  assert_fatal (prio <? wrap (cfg_pbits c) (idle_pid c)) (Ok prio).

(** picoRTOS_get_next_available_priority of picoRTOS-lite, lite:140-151. *)
Fixpoint next_lite_loop (fuel : nat) (c : config) (s : core) (prio : Z) : res Z :=
  match fuel with
  | O => Fuel
  | S f =>
    if prio <? Z.of_nat (cfg_n c) then
      let! t := get_task s prio in
      if bool_decide (t_state t = EMPTY) then Ok prio
      else next_lite_loop f c s (wrap (cfg_pbits c) (prio + 1))
    else assert_fatal (prio <? idle_pid c) (Ok (wrap (cfg_pbits c) (-1)))
  end.

(** picoRTOS_get_last_available_priority of picoRTOS-lite, lite:153-164:
    [for (prio = TASK_IDLE_PRIO - 1; prio != 0; prio--)], then
    assert (prio != (picoRTOS_priority_t)-1). *)
Fixpoint last_lite_loop (fuel : nat) (c : config) (s : core) (prio : Z) : res Z :=
  match fuel with
  | O => Fuel
  | S f =>
    if negb (prio =? 0) then
      let! t := get_task s prio in
      if bool_decide (t_state t = EMPTY) then Ok prio
      else last_lite_loop f c s (wrap (cfg_pbits c) (prio - 1))
    else assert_fatal (negb (prio =? wrap (cfg_pbits c) (-1))) (Ok (wrap (cfg_pbits c) (-1)))
  end.

Definition get_next (c : config) (s : core) : res Z :=
  if cfg_lite c then next_lite_loop (prio_fuel c) c s 0 else get_next_full c s.
Definition get_last (c : config) (s : core) : res Z :=
  if cfg_lite c then last_lite_loop (prio_fuel c) c s (wrap (cfg_pbits c) (idle_pid c - 1))
  else get_last_full c s.

(** core_sort_tasks, lines 364-378: inner loop
    [while (j > 0 && task[j-1].prio > task[j].prio) { quickswap(&task[j], &task[j-1]); j--; }].
    [tmp0] is the uninitialised local of quickswap. *)
Fixpoint sift (tmp0 : task) (j : nat) (l : list task) : res (list task) :=
  match j with
  | O => Ok l
  | S j' =>
    let! a := aget l (Z.of_nat j') in
    let! b := aget l (Z.of_nat j) in
    if t_prio a >? t_prio b then
      let '(b', a') := quickswap tmp0 b a in
      let! l := aset l (Z.of_nat j) b' in
      let! l := aset l (Z.of_nat j') a' in
      sift tmp0 j' l
    else Ok l
  end.

(** core_sort_tasks, outer loop [for (i = 1; i < CONFIG_TASK_COUNT; i++)]; [k] iterations left. *)
Fixpoint sort_loop (tmp0 : task) (k i : nat) (l : list task) : res (list task) :=
  match k with
  | O => Ok l
  | S k' =>
    let! l := sift tmp0 i l in
    sort_loop tmp0 k' (S i) l
  end.

Definition sort_tasks (n : nat) (tmp0 : task) (l : list task) : res (list task) :=
  sort_loop tmp0 (n - 1) 1 l.

(** A write to picoRTOS.sub[i]: out of range goes to the ghost log (see DESIGN.md). *)
Definition sub_write (sub : list Z) (stray : list (Z * Z)) (i v : Z) : list Z * list (Z * Z) :=
  if (0 <=? i) && (i <? Z.of_nat (length sub)) then (<[Z.to_nat i := v]> sub, stray)
  else (sub, stray ++ [(i, v)]).

(** core_arrange_shared_priorities, lines 380-397: loop over pid = 1 .. CONFIG_TASK_COUNT-1 with
    the local sub_prio; [k] iterations left. *)
Fixpoint arrange_loop (pbits : Z) (k pid : nat) (sub_prio : Z)
    (l : list task) (sub : list Z) (stray : list (Z * Z))
  : res (list task * list Z * list (Z * Z)) :=
  match k with
  | O => Ok (l, sub, stray)
  | S k' =>
    let! t := aget l (Z.of_nat pid) in
    let! tp := aget l (Z.of_nat pid - 1) in
    if t_prio t =? t_prio tp then
      let sub_prio := wrap pbits (sub_prio + 1) in
      let! l := aset l (Z.of_nat pid) (set_sub t sub_prio) in
      let '(sub, stray) := sub_write sub stray (t_prio t) (wrap pbits (sub_prio + 1)) in
      arrange_loop pbits k' (S pid) sub_prio l sub stray
    else arrange_loop pbits k' (S pid) 0 l sub stray
  end.

Definition arrange (pbits : Z) (n : nat) (l : list task) (sub : list Z) (stray : list (Z * Z)) :=
  arrange_loop pbits (n - 1) 1 0 l sub stray.

(** picoRTOS_start, lines 402-410; lite:166-171.  arch_init / arch_start_first_task are outside:
    after this function the idle context runs.  [tmp0] as above. *)
Definition start (c : config) (tmp0 : task) (s : core) : res core :=
  if cfg_lite c then Ok (with_running s true)
  else
    let! l := sort_tasks (cfg_n c) tmp0 (c_task s) in
    let! x := arrange (cfg_pbits c) (cfg_n c) l (c_sub s) (c_stray s) in
    let '(l, sub, stray) := x in
    Ok (with_running (with_sub (with_task s l) sub stray) true).

(** syscall_sleep, lines 523-530; lite:235-242. *)
Definition syscall_sleep (c : config) (s : core) (t : task) (delay : Z) : task :=
  if delay >? 0
  then set_state (set_ttick t (wrap (cfg_tbits c) (c_tick s + delay))) SLEEP
  else t.

(** syscall_sleep_until, lines 532-554; lite:244-263.  Returns the task and sc->ref.
    picoRTOS_assert_void(false) (a debug break) has no effect on the state. *)
Definition syscall_sleep_until (c : config) (s : core) (t : task) (ref period : Z) : task * Z :=
  let elapsed := wrap (cfg_tbits c) (c_tick s - ref) in
  if elapsed <? period then
    let wake := wrap (cfg_tbits c) (ref + period) in
    let t := set_ttick t wake in
    let t := set_state t SLEEP in
    (set_miss t 0, wake)
  else
    let t := set_miss t (wrap (cfg_szbits c) (t_miss t + 1)) in
    let ref := if t_miss t >? cfg_deadlock c then c_tick s else ref in
    let t := if cfg_lite c then t else set_smiss t (wrap (cfg_szbits c) (t_smiss t + 1)) in
    (t, ref).

(** syscall_kill, lines 556-559; lite:265-268. *)
Definition syscall_kill (t : task) : task := set_state t EMPTY.

(** syscall_switch_context, lines 571-577, inner do/while:
    [do { index++; assert_fatal(index < TASK_COUNT); } while (!is_available(task[index]))]. *)
Fixpoint scan (fuel : nat) (c : config) (s : core) : res core :=
  match fuel with
  | O => Fuel
  | S f =>
    let s := with_index s (wrap (cfg_pidbits c) (c_index s + 1)) in
    assert_fatal (c_index s <? task_count c)
      (let! t := get_task s (c_index s) in
       let! a := is_available c s t in
       if a : bool then Ok s else scan f c s)
  end.

(** syscall_switch_context, lines 561-596; lite:270-301, outer loop [while (count-- != 0)] and
    the final assert (count != -1), which fails exactly when the loop runs out of iterations. *)
Fixpoint switch_loop (count : nat) (c : config) (s : core) : res core :=
  match count with
  | O => Fatal
  | S k =>
    let! s := scan (S (S (cfg_n c))) c s in
    if (c_index s =? idle_pid c) && c_postponed s
    then switch_loop k c (with_index (with_postponed s false) (wrap (cfg_pidbits c) (-1)))
    else Ok s
  end.

(** What the environment supplies to one entry in the scheduler: the stack pointer saved by the
    port, and the values returned by arch_counter. *)
Record entry := mkEntry { e_sp : Z; e_since : Z; e_now : Z }.

(** syscall_switch_context, lines 561-596: statistics, selection, statistics. *)
Definition switch_context (c : config) (s : core) (e : entry) : res core :=
  let! t := get_task s (c_index s) in
  let! s := put_task s (c_index s) (stat_finish c (e_since e) t) in
  let! s := switch_loop 2 c s in
  let! t := get_task s (c_index s) in
  put_task s (c_index s) (stat_start c (e_now e) t).

(** syscall_t and its argument (arch/include/picoRTOS_port.h; picoRTOS.c:608-627). *)
Inductive syscall :=
| SC_SLEEP (delay : Z)
| SC_SLEEP_UNTIL (ref period : Z)
| SC_KILL
| SC_SWITCH_CONTEXT.

(** picoRTOS_syscall, lines 598-633; lite:303-338.  Result: state, returned sp, sc->ref (0 when
    there is none).  priv is never NULL when called through the API. *)
Definition do_syscall (c : config) (s : core) (e : entry) (sc : syscall) : res (core * Z * Z) :=
  let! t := get_task s (c_index s) in
  assert_fatal (e_sp e >=? t_bot t)
  (assert_fatal (e_sp e <? t_top t)
   (let t := set_sp t (e_sp e) in
    let! x :=
      match sc with
      | SC_SLEEP d =>
          let! s := put_task s (c_index s) (syscall_sleep c s t d) in Ok (s, 0)
      | SC_SLEEP_UNTIL r p =>
          let '(t', r') := syscall_sleep_until c s t r p in
          let! s := put_task s (c_index s) t' in Ok (s, r')
      | SC_KILL =>
          let! s := put_task s (c_index s) (syscall_kill t) in Ok (s, 0)
      | SC_SWITCH_CONTEXT =>
          let! s := put_task s (c_index s) t in Ok (with_postponed s true, 0)
      end in
    let '(s, r) := x in
    let! s := switch_context c s e in
    let! t := get_task s (c_index s) in
    Ok (s, t_sp t, r))).

(** picoRTOS_tick, lines 652-674; lite:356-371: loop [pid = TASK_COUNT; while (pid-- != 0)];
    the recursion argument is the number of slots left. *)
Fixpoint tick_pass (n : nat) (c : config) (s : core) : res core :=
  match n with
  | O => Ok s
  | S m =>
    let pid := Z.of_nat m in
    let! t := get_task s pid in
    let t := if bool_decide (t_state t = SLEEP) && (t_tick t =? c_tick s)
             then set_state t READY else t in
    let! s := put_task s pid t in
    let! a := is_available c s t in
    let s := if a : bool then with_index s pid else s in
    let t := if cfg_lite c then t else set_counter t 0 in
    let! s := put_task s pid t in
    tick_pass m c s
  end.

(** picoRTOS_tick, lines 637-681; lite:342-377.  Result: state and returned sp. *)
Definition do_tick (c : config) (s : core) (e : entry) : res (core * Z) :=
  let! t := get_task s (c_index s) in
  assert_fatal (e_sp e >=? t_bot t)
  (assert_fatal (e_sp e <? t_top t)
   (let t := stat_finish c (e_since e) t in
    let t := set_sp t (e_sp e) in
    let! s := put_task s (c_index s) t in
    let s := with_tick s (wrap (cfg_tbits c) (c_tick s + 1)) in
    let s := with_postponed s false in
    let! s := tick_pass (S (cfg_n c)) c s in
    let! t := get_task s (c_index s) in
    let! s := put_task s (c_index s) (stat_start c (e_now e) t) in
    let! t := get_task s (c_index s) in
    Ok (s, t_sp t))).

(** * API entry points seen as events

    picoRTOS_postpone 441-445, picoRTOS_sleep 454-458, picoRTOS_sleep_until 480-489,
    picoRTOS_kill 494-498 (lite:192-219), and the tick interrupt.  Arguments are converted to
    picoRTOS_tick_t by the call. *)
Inductive op :=
| Tick
| Sleep (delay : Z)
| SleepUntil (ref period : Z)
| Kill
| Postpone.

(** Result of an event: new state, context (sp) resumed, value of *ref for SleepUntil. *)
Definition step (c : config) (s : core) (ev : op * entry) : res (core * Z * Z) :=
  let '(o, e) := ev in
  match o with
  | Tick => let! x := do_tick c s e in Ok (fst x, snd x, 0)
  | Sleep d => assert_fatal (c_running s) (do_syscall c s e (SC_SLEEP (wrap (cfg_tbits c) d)))
  | SleepUntil r p =>
      assert_fatal (wrap (cfg_tbits c) p >? 0)
        (assert_fatal (c_running s)
           (do_syscall c s e (SC_SLEEP_UNTIL (wrap (cfg_tbits c) r) (wrap (cfg_tbits c) p))))
  | Kill => assert_fatal (c_running s) (do_syscall c s e SC_KILL)
  | Postpone => assert_fatal (c_running s) (do_syscall c s e SC_SWITCH_CONTEXT)
  end.

(** picoRTOS_self, lines 503-507; lite:221-225. *)
Definition self (s : core) : res Z := assert_fatal (c_running s) (Ok (c_index s)).

(** picoRTOS_get_tick, lines 512-516; lite:227-231. *)
Definition get_tick (s : core) : res Z := assert_fatal (c_running s) (Ok (c_tick s)).

(** picoRTOS_suspend / picoRTOS_resume guards, lines 415-429: [tt] stands for the call to
    arch_suspend / arch_resume (see PortModel.v). *)
Definition suspend (s : core) : res unit := assert_fatal (c_running s) (Ok tt).
Definition resume (s : core) : res unit := assert_fatal (c_running s) (Ok tt).

(** The canonical start-up of an application: picoRTOS_init, picoRTOS_add_task for each task,
    picoRTOS_start (README "How to use", demo/*/main.c). *)
Fixpoint add_tasks (c : config) (s : core) (rs : list reg) : res core :=
  match rs with
  | [] => Ok s
  | r :: rs => let! s := add_task c s r in add_tasks c s rs
  end.

Definition boot (c : config) (tmp0 : task) (rs : list reg) : res core :=
  let! s := init c in
  let! s := add_tasks c s rs in
  start c tmp0 s.
