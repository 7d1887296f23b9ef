(** SysModel.v - the whole system on one core: tasks that run arbitrary code, the context switch of a
    port (AsmModel) and the scheduler (SchedModel), on one machine.

    [P] is a port; [P al] is the port when the hardware (or SAVE_CONTEXT_FPU) aligns the frame ([al]:
    skips a word).  The choice is made at each interrupt and found again in the saved context on
    return (bit 9 of the stacked xPSR, AsmModel [arm_entry]; word of alignment, AsmModel
    [mips_fpu_save]); here it is remembered in the ghost component [left]. *)
From Verif Require Import Base SchedModel SchedSpec AsmModel AsmSpec.

(** Stacks: [bs j] = bounds of the stack of task [j]. *)
Definition stacks : Type := nat -> option (Z * Z).
Definition upd {A} (f : nat -> option A) (j : nat) (v : A) : nat -> option A := fun i => if Nat.eqb i j then Some v else f i.

(** No stack changes from [m] to [m'], but maybe that of [except]. *)
Definition same_stacks (bs : stacks) (except : option nat) (m m' : mach) : Prop :=
  forall j b e a, Some j <> except -> bs j = Some (b, e) -> b <= a < e -> mem m' a = mem m a.
(** The stack of main or of the handlers is not that of a task. *)
Definition elsewhere (p : aport) (bs : stacks) (m : mach) : Prop :=
  let '(x, lo, hi) := p_kstk p in
  forall j b e a, bs j = Some (b, e) -> b <= a < e -> ~ (reg m x + lo <= a < reg m x + hi).

(** Before picoRTOS_start: main runs any code that does not write in the stacks of the tasks, and calls
    arch_prepare_stack (scheduler/picoRTOS.c:171-180, 274-286: task_idle_init and picoRTOS_add_task) for
    each task.  [born j]: the machine when it was called for [j]; [sps j]: what it returned. *)
Inductive prepared (p : aport) (bs : stacks) : (nat -> option mach) -> (nat -> option Z) -> mach -> Prop :=
| pr_reset m : prepared p bs (fun _ => None) (fun _ => None) m
| pr_main born sps m m' : prepared p bs born sps m -> same_stacks bs None m m' -> prepared p bs born sps m'
| pr_task born sps m h j b e : prepared p bs born sps m ->
    bs j = Some (b, e) -> born j = None -> reg m (p_top p) = e + p_fadj p -> elsewhere p bs m ->
    prepared p bs (upd born j m) (upd sps j (reg (exec h (p_first p) m) (p_fret p))) (exec h (p_first p) m).

(** Machine at which a task was last interrupted, by which event, with which alignment. *)
Definition leaves : Type := nat -> option (bool * op * mach).
Definition alof (left : leaves) (j : nat) : bool := match left j with Some (al, _, _) => al | None => false end.

Definition entry_code (p : aport) (o : op) : list ins := match o with Tick => p_tick p | _ => p_call p end.
Definition is_su (o : op) : Prop := match o with SleepUntil _ _ => True | _ => False end.

(** One event: the running task is interrupted by the tick or executes a system call; the context is
    saved; the scheduler runs (on its own stack, with its own variables: C code, of which only the
    result matters here; picoRTOS_sleep_until's result is written in the stack of the caller, above its
    context, scheduler/picoRTOS.c:541-551); the task it selects is resumed.  The stack pointer of the
    interrupted task is supposed not to be above its stack. *)
Definition switch (P : bool -> aport) (c : config) (bs : stacks)
    (k : core) (m : mach) (left : leaves) (ev : op * entry) (k' : core) (m' : mach) (left' : leaves) : Prop :=
  exists al h h' m2 sp' ref b e,
    let p := P al in let s := exec h (entry_code p (fst ev)) m in let sp := reg s (p_arg p) in
    bs (cur k) = Some (b, e) /\ reg m (p_sp p) - p_size p + p_hi p <= e /\
    e_sp (snd ev) = sp /\ step c k ev = Ok (k', sp', ref) /\
    (forall j b e a, bs j = Some (b, e) -> b <= a < e ->
      mem m2 a = mem s a \/ (is_su (fst ev) /\ j = cur k /\ sp + p_hi p <= a)) /\
    reg m2 (p_ret p) = sp' /\ elsewhere p bs m2 /\
    left' = upd left (cur k) (al, fst ev, m) /\
    m' = exec h' (p_resume (P (alof left' (cur k')))) m2.

(** Executions.  [born] as above, [evs] the events so far. *)
Inductive sysrun (P : bool -> aport) (c : config) (rs : list SchedModel.reg) (born : nat -> option mach) :
    core -> list (op * entry) -> core -> mach -> leaves -> Prop :=
| sr_start tmp0 k0 sps m m2 h sp0 :
    prepared (P false) (stack_bounds c rs) born sps m ->
    boot c tmp0 rs = Ok k0 -> (forall j, initial_sp c rs j = sps j) -> sps (cur k0) = Some sp0 ->
    same_stacks (stack_bounds c rs) None m m2 -> elsewhere (P false) (stack_bounds c rs) m2 -> reg m2 (p_ret (P false)) = sp0 ->
    sysrun P c rs born k0 [] k0 (exec h (p_start (P false)) m2) (fun _ => None)
| sr_task k0 evs k m m' left : sysrun P c rs born k0 evs k m left ->
    same_stacks (stack_bounds c rs) (Some (cur k)) m m' -> sysrun P c rs born k0 evs k m' left
| sr_switch k0 evs k m left ev k' m' left' : sysrun P c rs born k0 evs k m left ->
    switch P c (stack_bounds c rs) k m left ev k' m' left' ->
    sysrun P c rs born k0 (evs ++ [ev]) k' m' left'.

(** Stacks are large enough, and disjoint. *)
Definition stacks_ok (p : aport) (bs : stacks) : Prop :=
  (forall j b e, bs j = Some (b, e) -> p_min p * p_unit p <= e - b) /\
  (forall i j b e b' e' a, i <> j -> bs i = Some (b, e) -> bs j = Some (b', e') -> b <= a < e -> ~ (b' <= a < e')).

(** A port whose context switch does what AsmSpec asks, whatever the alignment. *)
Definition port_ok (P : bool -> aport) : Prop :=
  (forall al, let p := P al in
    tick_ok p (p_regs p) /\ call_ok p (p_regs p) /\ quiet_ok p (p_resume p) /\
    p_below p = 0 /\ 0 <= p_lo p <= p_hi p /\ p_ret p = p_ret (P false) /\ p_kstk p = p_kstk (P false)) /\
  first_ok (P false) /\ quiet_ok (P false) (p_start (P false)).

(** What task [j], about to run on [m'], must find: its registers as they were when it was last
    interrupted (after a system call, the next instruction), its stack as it was (but for what
    picoRTOS_sleep_until wrote); and the first time, its function and its argument. *)
Definition finds (P : bool -> aport) (bs : stacks) (born : nat -> option mach) (left' : leaves) (j : nat) (m' : mach) : Prop :=
  match left' j with
  | Some (al, o, mj) => let p := P al in
      (forall x, x ∈ p_regs p -> reg m' x = match o with
         | Tick => reg mj x
         | _ => if String.eqb x (p_pc p) then reg mj x + p_npc p else reg mj x end) /\
      (forall b e a, bs j = Some (b, e) -> ~ is_su o -> reg mj (p_sp p) - p_size p + p_hi p <= a < e -> mem m' a = mem mj a)
  | None => exists mb, born j = Some mb /\
      (forall y z, (y, z) ∈ p_fmap (P false) -> reg m' y = reg mb z) /\
      (forall b e, bs j = Some (b, e) -> b <= reg m' (p_sp (P false)) <= e)
  end.

(** The ports of the whole system: those of [al_ports] but HCS08, which writes two bytes below the
    stack pointer it gives to the scheduler. *)
Definition families : list (bool -> aport) :=
  [armv6m; armv7m; armv7em; fun _ => rv32ec; fun _ => rv32imac; fun _ => e200 false; fun _ => avr false; fun _ => avr true; fun _ => stm8].
