(** AsmSpec.v - what a context switch must do. *)
From Verif Require Import Base AsmModel.

(** Bytes [x + lo, x + hi) and [y + lo', y + hi'), in machine [m], do not overlap. *)
Definition apart (m : mach) (x : string) (lo hi : Z) (y : string) (lo' hi' : Z) : Prop :=
  forall k j, lo <= k < hi -> lo' <= j < hi' -> reg m x + k <> reg m y + j.

(** The saved context of the task whose stack pointer was given to the scheduler as [sp] is the same
    in [m'] as in [s]; [m'] is about to resume that task, and the stack the handlers use is elsewhere. *)
Definition kept (p : aport) (sp : Z) (s m' : mach) : Prop :=
  reg m' (p_ret p) = sp /\
  (forall a, sp + p_lo p <= a < sp + p_hi p -> mem m' a = mem s a) /\
  (let '(x, lo, hi) := p_kstk p in apart m' (p_ret p) (p_lo p) (p_hi p) x lo hi).

(** Saving writes next to the task's stack pointer, towards the free part of its stack, and hands
    over an address within it. *)
Definition save_ok (p : aport) (code : list ins) : Prop :=
  forall h m, let s := exec h code m in let sp := reg s (p_arg p) in
    sp + p_size p = reg m (p_sp p) /\
    (forall a, ~ (sp - p_below p <= a < sp + p_hi p) -> mem s a = mem m a).

(** Interrupted by a tick, then resumed at any later time, a task finds its registers (program counter,
    flags and stack pointer included) as they were, whatever the registers hold and whatever the rest
    of memory has become. *)
Definition tick_ok (p : aport) (regs : list string) : Prop :=
  save_ok p (p_tick p) /\
  forall h m h' m', let s := exec h (p_tick p) m in kept p (reg s (p_arg p)) s m' ->
    forall x, x ∈ regs -> reg (exec h' (p_resume p) m') x = reg m x.

(** The same for a system call, which continues at the next instruction... *)
Definition call_ok (p : aport) (regs : list string) : Prop :=
  save_ok p (p_call p) /\
  forall h m h' m', let s := exec h (p_call p) m in kept p (reg s (p_arg p)) s m' ->
    forall x, x ∈ regs ->
      reg (exec h' (p_resume p) m') x = if String.eqb x (p_pc p) then reg m x + p_npc p else reg m x.
(** ... and the scheduler gets the arguments of arch_syscall. *)
Definition args_ok (p : aport) : Prop :=
  forall h m, let s := exec h (p_call p) m in
    (forall x y, (x, y) ∈ p_cmap p -> reg s x = reg m y) /\
    (forall x k, (x, k) ∈ p_cmem p -> reg s x = mem m (reg m (p_sp p) + k)).

(** Resuming or starting a task writes nothing but the stack of the handlers. *)
Definition quiet_ok (p : aport) (code : list ins) : Prop :=
  let '(x, lo, hi) := p_kstk p in
  forall h m, apart m (p_ret p) (p_lo p) (p_hi p) x lo hi ->
    forall a, ~ (reg m x + lo <= a < reg m x + hi) -> mem (exec h code m) a = mem m a.

(** A new task: arch_save_first_context, called with the end of its stack, which does not overlap the
    stack of main, writes only in the last ARCH_MIN_STACK_COUNT units of it (and on the stack of
    main), keeps the caller's registers, returns a stack pointer whose context is in the task's
    stack, and, whether the task is started by arch_start_first_task or resumed by a handler, it finds
    itself at fn with priv as its first argument, and its stack pointer in its stack. *)
Definition first_ok (p : aport) : Prop :=
  forall h m, let s := exec h (p_first p) m in let sp := reg s (p_fret p) in
    let top := reg m (p_top p) - p_fadj p in let low := top - p_min p * p_unit p in
    let '(x, lo, hi) := p_kstk p in apart m (p_top p) (- p_fadj p - p_min p * p_unit p) (- p_fadj p) x lo hi ->
    (forall a, ~ (low <= a < top) -> ~ (reg m x + lo <= a < reg m x + hi) -> mem s a = mem m a) /\
    (forall y, y ∈ p_fkeep p -> reg s y = reg m y) /\
    low <= sp + p_lo p /\ sp + p_hi p <= top /\
    forall h' m' code, code = p_start p \/ code = p_resume p -> kept p sp s m' ->
      (forall y z, (y, z) ∈ p_fmap p -> reg (exec h' code m') y = reg m z) /\
      sp + p_lo p < reg (exec h' code m') (p_sp p) <= top.

(** All the ports (without c28x, 8051 and the simulators), with the alignments that exist; the ones
    whose registers all survive ([al_ports]), MIPS with and without FPU and DSP, and those of new tasks. *)
Definition al_ports : list aport :=
  [armv6m false; armv6m true; armv7m false; armv7m true; armv7em false; armv7em true;
   rv32ec; rv32imac; e200 false; avr false; avr true; stm8; hcs08].
Definition mips_ports : list aport :=
  [m51xx false false false; m51xx false true false; m51xx true false false; m51xx true true false;
   m51xx true false true; m51xx true true true].
Definition new_ports : list aport :=
  [armv6m false; armv7m false; armv7em false; rv32ec; rv32imac; e200 false; avr false; avr true; stm8; hcs08] ++ mips_ports.

Local Open Scope string_scope.
Local Open Scope Z_scope.
(** The registers of a MIPS task but s6 and at. *)
Definition mips_kept (p : aport) : list string := List.filter (fun x => negb (String.eqb x "s6" || String.eqb x "at")) (p_regs p).
