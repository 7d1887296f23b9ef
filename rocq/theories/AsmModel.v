(** AsmModel.v - the context switch of the ports, instruction by instruction.

    Conventions, for all ports:
    - one memory cell per saved register (a word on 32-bit ports, a byte on 8-bit ones), addressed in
      bytes; the code only uses accesses of one size at multiples of that size;
    - address arithmetic does not wrap (a stack never crosses the end of the address space);
    - registers of the CPU and of its system coprocessor, and the static variables that hold the stack
      pointer that is not in use, are named by strings;
    - the hardware's own part of interrupt entry and return is written with the same instructions;
    - flags set by the arithmetic of the handlers themselves are not followed: the task's own flags are
      the register "xpsr", "sreg", ... that is saved first and restored last. *)
From Verif Require Import Base.
From Coq Require Export String.

(** A machine: registers and memory. *)
Record mach := mkMach { reg : string -> Z; mem : Z -> Z }.
Definition rset (r : string -> Z) (x : string) (v : Z) : string -> Z := fun y => if String.eqb y x then v else r y.
Definition mset (m : Z -> Z) (a v : Z) : Z -> Z := fun b => if b =? a then v else m b.

(** Instructions (common denominator of the ports):
    [Mov d s]: d <- s; [Imm d v]: d <- v; [Add d s k]: d <- s + k; [St s b k]: memory[b + k] <- s;
    [Ld d b k]: d <- memory[b + k]; [Swp a b]: exchange; [Any d i]: d <- an arbitrary value (the i-th of
    the environment [h]): results that are not followed. *)
Inductive ins :=
| Mov (d s : string)
| Imm (d : string) (v : Z)
| Add (d s : string) (k : Z)
| St (s b : string) (k : Z)
| Ld (d b : string) (k : Z)
| Swp (a b : string)
| Any (d : string) (i : nat).

Definition exec1 (h : nat -> Z) (i : ins) (s : mach) : mach :=
  let r := reg s in let m := mem s in
  match i with
  | Mov d x => mkMach (rset r d (r x)) m
  | Imm d v => mkMach (rset r d v) m
  | Add d x k => mkMach (rset r d (r x + k)) m
  | St x b k => mkMach r (mset m (r b + k) (r x))
  | Ld d b k => mkMach (rset r d (m (r b + k))) m
  | Swp a b => mkMach (rset (rset r a (r b)) b (r a)) m
  | Any d n => mkMach (rset r d (h n)) m
  end.
Fixpoint exec (h : nat -> Z) (is : list ins) (s : mach) : mach :=
  match is with [] => s | i :: is => exec h is (exec1 h i s) end.

Local Open Scope string_scope.
Local Open Scope list_scope.

(** Store / load multiple at increasing offsets of [step] bytes. *)
Fixpoint stm (b : string) (k step : Z) (xs : list string) : list ins :=
  match xs with [] => [] | x :: xs => St x b k :: stm b (k + step) step xs end.
Fixpoint ldm (b : string) (k step : Z) (xs : list string) : list ins :=
  match xs with [] => [] | x :: xs => Ld x b k :: ldm b (k + step) step xs end.
(** Descending stacks that point to the next free byte (AVR, STM8, HCS08). *)
Definition push (x : string) : list ins := [St x "sp" 0; Add "sp" "sp" (-1)].
Definition pop (x : string) : list ins := [Add "sp" "sp" 1; Ld x "sp" 0].

(** What a port provides.
    [p_tick]: from the interrupt to the call of picoRTOS_tick (hardware and SAVE_CONTEXT);
    [p_call]: from arch_syscall's trap to the call of picoRTOS_syscall;
    [p_resume]: from the return of picoRTOS_tick or picoRTOS_syscall to the task;
    [p_arg], [p_ret]: where the stack pointer given to them, and the one they return, are;
    [p_cmap]: where the other arguments of picoRTOS_syscall are, and where the task had put them when it
    called arch_syscall; [p_cmem]: the same for what the task had put on its stack, relative to its
    stack pointer in arch_syscall;
    [p_first]: arch_save_first_context from its entry to its return, [p_top] where its first argument
    is, [p_fret] its result, [p_fadj] what arch_prepare_stack adds to the end of the stack to get it;
    [p_fmap]: where a C function finds its address and its first argument when it starts, and where
    arch_save_first_context finds fn and priv;
    [p_fkeep]: what arch_save_first_context must leave unchanged for its caller;
    [p_start]: arch_start_first_task, to the task;
    [p_sp]: the stack pointer of the tasks; [p_pc]: where they continue; a system call continues
    [p_npc] bytes after the address the hardware gives;
    [p_regs]: what belongs to a task;
    [p_size]: stack pointer of the task minus the one given to picoRTOS_tick; the context takes the bytes
    from p_lo to p_hi - 1 above the latter; [p_below]: bytes used below while saving;
    [p_kstk] = (x, lo, hi): bytes x + lo to x + hi - 1 of the stack of main or of the handlers, used by
    p_first or p_resume;
    [p_unit]: sizeof(picoRTOS_stack_t); [p_init], [p_min]: ARCH_INITIAL_STACK_COUNT and
    ARCH_MIN_STACK_COUNT. *)
Record aport := mkAport {
  p_tick : list ins; p_call : list ins; p_resume : list ins;
  p_arg : string; p_ret : string; p_cmap : list (string * string); p_cmem : list (string * Z);
  p_first : list ins; p_top : string; p_fret : string; p_fadj : Z; p_fmap : list (string * string); p_fkeep : list string;
  p_start : list ins;
  p_sp : string; p_pc : string; p_npc : Z;
  p_regs : list string; p_size : Z; p_lo : Z; p_hi : Z; p_below : Z; p_kstk : string * Z * Z;
  p_unit : Z; p_init : Z; p_min : Z
}.

(** ** ARMv6-M, ARMv7-M, ARMv7E-M *)

(** Cortex-M exception entry and return on the process stack (architecture; basic frame).  [al]: the
    stack pointer was not a multiple of 8, hardware skipped a word (and recorded it in bit 9 of the
    stacked xPSR, which is part of the frame, so that [al] is the same on return). *)
Definition hwregs := ["r0"; "r1"; "r2"; "r3"; "r12"; "lr"; "pc"; "xpsr"].
Definition arm_entry (al : bool) : list ins :=
  Add "psp" "psp" (if al then -36 else -32) :: stm "psp" 0 4 hwregs ++ [Any "lr" 0].
Definition arm_exit (al : bool) : list ins :=
  ldm "psp" 0 4 hwregs ++ [Add "psp" "psp" (if al then 36 else 32)].
Definition r4_11 := ["r4"; "r5"; "r6"; "r7"; "r8"; "r9"; "r10"; "r11"].

(** SAVE_CONTEXT / RESTORE_CONTEXT, arch/arm/armv7-m/picoRTOS_portasm.S:7-16 (clrex: see PortModel);
    stmdb writes the lowest register at the lowest address. *)
Definition v7m_save : list ins := Mov "r0" "psp" :: Add "r0" "r0" (-32) :: stm "r0" 0 4 r4_11.
Definition v7m_restore : list ins := ldm "r0" 0 4 r4_11 ++ [Add "r0" "r0" 32; Mov "psp" "r0"].
(** SysTick_Handler, :77-82; push/pop of lr concern the main stack pointer and the exception return
    value, which are not the task's. *)
(** SVC_Handler, :87-94. *)
(** arch_save_first_context, :22-38, from arch_prepare_stack, picoRTOS_port.c:64-71. "msp" is the
    stack of main.  pop {r4-r11, pc}: the return address goes to "ret". *)
Definition v7m_first : list ins :=
  Add "msp" "msp" (-36) :: stm "msp" 0 4 (r4_11 ++ ["lr"]) ++
  [Mov "r4" "r2"; Imm "r5" 0; Imm "r6" 0; Imm "r7" 0; Mov "r8" "r12"; Mov "r9" "lr"; Mov "r10" "r1"; Imm "r11" 16777216] ++
  Add "r0" "r0" (-32) :: stm "r0" 0 4 r4_11 ++
  Mov "psp" "r0" :: v7m_save ++
  ldm "msp" 0 4 (r4_11 ++ ["ret"]) ++ [Add "msp" "msp" 36].
(** arch_start_first_task, :42-65: the frame is popped by hand, bx r4 goes to the entry point.  The
    system timer is started with r1-r3, r4 and r5 keep the return address and xpsr. *)
Definition v7m_start : list ins :=
  v7m_restore ++ [Imm "r0" 2] ++
  ldm "psp" 0 4 ["r0"; "r1"; "r2"; "r3"; "r12"; "lr"] ++ [Add "psp" "psp" 24] ++
  ldm "psp" 0 4 ["r4"; "r5"] ++ [Add "psp" "psp" 8] ++
  [Any "r1" 0; Any "r2" 1; Any "r3" 2; Mov "pc" "r4"].
Definition arm_regs := hwregs ++ r4_11 ++ ["psp"].
Definition armv7m (al : bool) : aport := {|
  p_tick := arm_entry al ++ v7m_save;
  p_call := arm_entry al ++ v7m_save ++ [Ld "r1" "r0" 32; Ld "r2" "r0" 36];
  p_resume := v7m_restore ++ arm_exit al;
  p_arg := "r0"; p_ret := "r0"; p_cmap := [("r1", "r0"); ("r2", "r1")]; p_cmem := [];
  p_first := v7m_first; p_top := "r0"; p_fret := "r0"; p_fadj := 0; p_fmap := [("pc", "r1"); ("r0", "r2")];
  p_fkeep := r4_11 ++ ["msp"]; p_start := v7m_start;
  p_sp := "psp"; p_pc := "pc"; p_npc := 0; p_below := 0; p_kstk := ("msp", -36, 0);
  p_regs := arm_regs; p_lo := 0; p_hi := if al then 68 else 64; p_size := if al then 68 else 64;
  p_unit := 4; p_init := 17; p_min := 21 |}.

(** arch/arm/armv6-m/picoRTOS_portasm.S:7-28: no stmdb and no access to the high registers. *)
Definition r4_7 := ["r4"; "r5"; "r6"; "r7"].
Definition v6m_save : list ins :=
  [Mov "r0" "psp"; Add "r0" "r0" (-16)] ++ stm "r0" 0 4 r4_7 ++ [Add "r0" "r0" 16] ++
  [Mov "r4" "r8"; Mov "r5" "r9"; Mov "r6" "r10"; Mov "r7" "r11"; Add "r0" "r0" (-32)] ++
  stm "r0" 0 4 r4_7 ++ [Add "r0" "r0" 16; Add "r0" "r0" (-16)].
Definition v6m_restore : list ins :=
  ldm "r0" 0 4 r4_7 ++ [Add "r0" "r0" 16] ++
  [Mov "r8" "r4"; Mov "r9" "r5"; Mov "r10" "r6"; Mov "r11" "r7"] ++
  ldm "r0" 0 4 r4_7 ++ [Add "r0" "r0" 16; Mov "psp" "r0"].
(** arch_save_first_context, :35-53. *)
Definition v6m_first : list ins :=
  Add "msp" "msp" (-20) :: stm "msp" 0 4 (r4_7 ++ ["lr"]) ++
  [Add "r0" "r0" (-32); Mov "r4" "r2"; Imm "r5" 0; Imm "r6" 0; Imm "r7" 0] ++ stm "r0" 0 4 r4_7 ++ [Add "r0" "r0" 16] ++
  [Mov "r4" "r12"; Mov "r5" "lr"; Mov "r6" "r1"; Imm "r7" 16777216] ++ stm "r0" 0 4 r4_7 ++ [Add "r0" "r0" 16] ++
  [Add "r0" "r0" (-32); Mov "psp" "r0"] ++ v6m_save ++
  ldm "msp" 0 4 (r4_7 ++ ["ret"]) ++ [Add "msp" "msp" 20].
(** arch_start_first_task, :59-81 (and mach-rp2040/picoRTOS-SMP_portasm.S:39-58, the same but for the
    timer). *)
Definition v6m_start : list ins :=
  v6m_restore ++ [Imm "r0" 2] ++
  ldm "psp" 0 4 ["r0"; "r1"; "r2"; "r3"; "r4"; "r5"; "r6"; "r7"] ++ [Add "psp" "psp" 32] ++
  [Mov "r12" "r4"; Mov "lr" "r5"; Any "r1" 0; Any "r2" 1; Any "r3" 2; Mov "pc" "r6"].
(** SysTick_Handler, :94-99; SVC_Handler, :104-111. *)
Definition armv6m (al : bool) : aport := {|
  p_tick := arm_entry al ++ v6m_save;
  p_call := arm_entry al ++ v6m_save ++ [Ld "r1" "r0" 32; Ld "r2" "r0" 36];
  p_resume := v6m_restore ++ arm_exit al;
  p_arg := "r0"; p_ret := "r0"; p_cmap := [("r1", "r0"); ("r2", "r1")]; p_cmem := [];
  p_first := v6m_first; p_top := "r0"; p_fret := "r0"; p_fadj := 0; p_fmap := [("pc", "r1"); ("r0", "r2")];
  p_fkeep := r4_11 ++ ["msp"]; p_start := v6m_start;
  p_sp := "psp"; p_pc := "pc"; p_npc := 0; p_below := 0; p_kstk := ("msp", -20, 0);
  p_regs := arm_regs; p_lo := 0; p_hi := if al then 68 else 64; p_size := if al then 68 else 64;
  p_unit := 4; p_init := 17; p_min := 21 |}.

(** ARMv7E-M: always the extended frame (FPCCR.ASPEN = 1, LSPEN = 0, arch/arm/include/macros.S, and
    CONTROL.FPCA set by arch_start_first_task): 8 words, s0-s15, fpscr, one word unused. *)
Definition s0_15 := ["s0"; "s1"; "s2"; "s3"; "s4"; "s5"; "s6"; "s7"; "s8"; "s9"; "s10"; "s11"; "s12"; "s13"; "s14"; "s15"].
Definition s16_31 := ["s16"; "s17"; "s18"; "s19"; "s20"; "s21"; "s22"; "s23"; "s24"; "s25"; "s26"; "s27"; "s28"; "s29"; "s30"; "s31"].
Definition armfp_entry (al : bool) : list ins :=
  Add "psp" "psp" (if al then -108 else -104) :: stm "psp" 0 4 (hwregs ++ s0_15 ++ ["fpscr"]) ++ [Any "lr" 0].
Definition armfp_exit (al : bool) : list ins :=
  ldm "psp" 0 4 (hwregs ++ s0_15 ++ ["fpscr"]) ++ [Add "psp" "psp" (if al then 108 else 104)].
(** arch/arm/armv7e-m/picoRTOS_portasm.S:7-18. *)
Definition v7em_save : list ins :=
  Mov "r0" "psp" :: Add "r0" "r0" (-32) :: stm "r0" 0 4 r4_11 ++ Add "r0" "r0" (-64) :: stm "r0" 0 4 s16_31.
Definition v7em_restore : list ins :=
  ldm "r0" 0 4 s16_31 ++ [Add "r0" "r0" 64] ++ ldm "r0" 0 4 r4_11 ++ [Add "r0" "r0" 32; Mov "psp" "r0"].
(** arch_save_first_context, :24-42. *)
Definition v7em_first : list ins :=
  Add "msp" "msp" (-36) :: stm "msp" 0 4 (r4_11 ++ ["lr"]) ++
  [Add "r0" "r0" (-8); Add "r0" "r0" (-64)] ++ stm "r0" 0 4 s0_15 ++
  [Mov "r4" "r2"; Imm "r5" 0; Imm "r6" 0; Imm "r7" 0; Mov "r8" "r12"; Mov "r9" "lr"; Mov "r10" "r1"; Imm "r11" 16777216] ++
  Add "r0" "r0" (-32) :: stm "r0" 0 4 r4_11 ++
  Mov "psp" "r0" :: v7em_save ++
  ldm "msp" 0 4 (r4_11 ++ ["ret"]) ++ [Add "msp" "msp" 36].
(** arch_start_first_task, :46-74. *)
Definition v7em_start : list ins :=
  v7em_restore ++ [Imm "r0" 6] ++
  ldm "psp" 0 4 ["r0"; "r1"; "r2"; "r3"; "r12"; "lr"] ++ [Add "psp" "psp" 24] ++
  ldm "psp" 0 4 ["r4"; "r5"] ++ [Add "psp" "psp" 8] ++
  Mov "r5" "psp" :: ldm "r5" 0 4 s0_15 ++ [Add "r5" "r5" 64; Add "r5" "r5" 8; Mov "psp" "r5"] ++
  [Any "r1" 0; Any "r2" 1; Any "r3" 2; Mov "pc" "r4"].
(** SVC_Handler, :95-103. *)
Definition armv7em (al : bool) : aport := {|
  p_tick := armfp_entry al ++ v7em_save;
  p_call := armfp_entry al ++ v7em_save ++ [Ld "r1" "r0" 96; Ld "r2" "r0" 100];
  p_resume := v7em_restore ++ armfp_exit al;
  p_arg := "r0"; p_ret := "r0"; p_cmap := [("r1", "r0"); ("r2", "r1")]; p_cmem := [];
  p_first := v7em_first; p_top := "r0"; p_fret := "r0"; p_fadj := 0; p_fmap := [("pc", "r1"); ("r0", "r2")];
  p_fkeep := r4_11 ++ ["msp"]; p_start := v7em_start;
  p_sp := "psp"; p_pc := "pc"; p_npc := 0; p_below := 0; p_kstk := ("msp", -36, 0);
  p_regs := arm_regs ++ s0_15 ++ s16_31 ++ ["fpscr"];
  p_lo := 0; p_hi := if al then 204 else 200; p_size := if al then 204 else 200;
  p_unit := 4; p_init := 51; p_min := 51 |}.

(** ** RISC-V *)

(** rv32ec, arch/riscv/rv32ec/picoRTOS_portasm.S:9-50; [n] is the size of the frame.  On a trap the
    hardware puts pc in mepc; mret puts it back. *)
Definition rv_save (xs : list string) (n : Z) : list ins :=
  Add "sp" "sp" (- n) :: stm "sp" 0 4 xs ++ [Mov "t0" "mepc"; St "t0" "sp" (n - 4); Swp "sp" "mscratch"].
Definition rv_restore (xs : list string) (n : Z) : list ins :=
  [Swp "sp" "mscratch"; Ld "t0" "sp" (n - 4); Mov "mepc" "t0"] ++ ldm "sp" 0 4 xs ++ [Add "sp" "sp" n].
Definition rv_entry : list ins := [Mov "mepc" "pc"].
Definition rv_exit : list ins := [Mov "pc" "mepc"].
Definition rve_regs := ["ra"; "t0"; "t1"; "t2"; "s0"; "s1"; "a0"; "a1"; "a2"; "a3"; "a4"; "a5"].
Definition rvi_regs := rve_regs ++ ["a6"; "a7"; "s2"; "s3"; "s4"; "s5"; "s6"; "s7"; "s8"; "s9"; "s10"; "s11"; "t3"; "t4"; "t5"; "t6"].
(** EXC_Handler, rv32ec:70-93 / GeneralException_Handler, rv32imac:110-133: mcause is 11 (environment
    call), the other branch stops; mepc is the address of the ecall. *)
Definition rv_call (xs : list string) (n : Z) : list ins :=
  rv_entry ++ rv_save xs n ++ [Any "t0" 0; Imm "t1" 11; Mov "a0" "mscratch"; Ld "a1" "a0" 24; Ld "a2" "a0" 28;
    Ld "t0" "a0" (n - 4); Add "t0" "t0" 4; St "t0" "a0" (n - 4)].
(** arch_save_first_context, rv32ec:102-115 / rv32imac:142-155. *)
Definition rv_first (xs : list string) (n : Z) : list ins :=
  [Mov "mscratch" "a0"; Swp "sp" "mscratch"; Mov "a0" "a2"; Mov "mepc" "a1"; Imm "a1" 0; Imm "a2" 0] ++
  rv_save xs n ++ [Mov "a0" "mscratch"; Mov "ret" "ra"].
(** arch_start_first_task, rv32ec:120-127 / rv32imac:160-169 ([pre]: INCREASE_MTIMECMP, :80-97, which
    uses t0-t3). *)
Definition rv_start (pre : list ins) (xs : list string) (n : Z) : list ins :=
  Mov "mscratch" "a0" :: pre ++ rv_restore xs n ++ [Imm "t0" 128] ++ rv_exit.
(** SysTick_Handler, rv32ec:55-65; MachineTimerInterrupt_Handler, rv32imac:102-111. *)
Definition rv32ec : aport := {|
  p_tick := rv_entry ++ rv_save rve_regs 52 ++ [Any "t0" 0; Any "t1" 1; Mov "a0" "mscratch"];
  p_call := rv_call rve_regs 52;
  p_resume := Mov "mscratch" "a0" :: rv_restore rve_regs 52 ++ rv_exit;
  p_arg := "a0"; p_ret := "a0"; p_cmap := [("a1", "a0"); ("a2", "a1")]; p_cmem := [];
  p_first := rv_first rve_regs 52; p_top := "a0"; p_fret := "a0"; p_fadj := 0; p_fmap := [("pc", "a1"); ("a0", "a2")];
  p_fkeep := ["ra"; "sp"; "s0"; "s1"];
  p_start := rv_start [] rve_regs 52;
  p_sp := "sp"; p_pc := "pc"; p_npc := 4; p_below := 0; p_kstk := ("mscratch", 0, 0);
  p_regs := rve_regs ++ ["pc"; "sp"]; p_lo := 0; p_hi := 52; p_size := 52;
  p_unit := 4; p_init := 14; p_min := 22 |}.
Definition mtimecmp_regs : list ins := [Any "t0" 0; Any "t1" 1; Any "t2" 2; Any "t3" 3; Any "t0" 4; Any "t1" 5].
Definition rv32imac : aport := {|
  p_tick := rv_entry ++ rv_save rvi_regs 116 ++ [Mov "a0" "mscratch"];
  p_call := rv_call rvi_regs 116;
  p_resume := Mov "mscratch" "a0" :: mtimecmp_regs ++ rv_restore rvi_regs 116 ++ rv_exit;
  p_arg := "a0"; p_ret := "a0"; p_cmap := [("a1", "a0"); ("a2", "a1")]; p_cmem := [];
  p_first := rv_first rvi_regs 116; p_top := "a0"; p_fret := "a0"; p_fadj := 0; p_fmap := [("pc", "a1"); ("a0", "a2")];
  p_fkeep := ["ra"; "sp"; "s0"; "s1"; "s2"; "s3"; "s4"; "s5"; "s6"; "s7"; "s8"; "s9"; "s10"; "s11"];
  p_start := rv_start mtimecmp_regs rvi_regs 116;
  p_sp := "sp"; p_pc := "pc"; p_npc := 4; p_below := 0; p_kstk := ("mscratch", 0, 0);
  p_regs := rvi_regs ++ ["pc"; "sp"]; p_lo := 0; p_hi := 116; p_size := 116;
  p_unit := 4; p_init := 29; p_min := 37 |}.

(** ** PowerPC e200 *)

(** SAVE_CONTEXT / RESTORE_CONTEXT / SWAP_STACK, arch/powerpc/e200z4/picoRTOS_portasm.S:13-38 (same
    lines in e200z7).  [resv]: a reservation is held when the context is restored, and the conditional
    store of line 30 takes place: it overwrites half of the word at the stack pointer. *)
Definition ppc_gprs := ["r0"; "r3"; "r4"; "r5"; "r6"; "r7"; "r8"; "r9"; "r10"; "r11"; "r12"].
Definition ppc_14_31 := ["r14"; "r15"; "r16"; "r17"; "r18"; "r19"; "r20"; "r21"; "r22"; "r23"; "r24"; "r25"; "r26"; "r27"; "r28"; "r29"; "r30"; "r31"].
Definition ppc_sprs := ["cr"; "lr"; "ctr"; "xer"].
Definition ppc_frame := ["srr0"; "srr1"] ++ ppc_sprs ++ ppc_gprs ++ ppc_14_31.
Definition ppc_swap (x : string) : list ins := [Mov x "r1"; Mov "r1" "sprg0"; Mov "sprg0" x].
Definition ppc_entry : list ins := [Mov "srr0" "pc"; Mov "srr1" "msr"].
Definition ppc_exit : list ins := [Mov "pc" "srr0"; Mov "msr" "srr1"].
Definition ppc_save : list ins := Add "r1" "r1" (-140) :: stm "r1" 0 4 ppc_frame ++ ppc_swap "r0".
Definition ppc_restore (resv : bool) : list ins :=
  ppc_swap "r0" ++ (if resv then [Any "r0" 0; St "r0" "r1" 0] else []) ++ ldm "r1" 0 4 ppc_frame ++ [Add "r1" "r1" 140].
(** arch_save_first_context, :55-73.  e_stmw r30, -8(r1) on the stack of main. *)
Definition ppc_first : list ins :=
  stm "r1" (-8) 4 ["r30"; "r31"] ++ [Mov "sprg0" "r3"] ++ ppc_swap "r3" ++
  [Add "r1" "r1" (-140); Mov "r30" "r4"; Any "r31" 0; Any "r3" 1; Any "r31" 2] ++
  stm "r1" 0 4 ["r30"; "r31"] ++ [St "r5" "r1" 28] ++ ppc_swap "r3" ++ ldm "r1" (-8) 4 ["r30"; "r31"] ++ [Mov "ret" "lr"].
(** e200z4 tick: ExternalInput_Handler, :123-146, calls arch_timer_handler (timer-pit.c:33-50) which
    calls picoRTOS_tick(sprg0) and puts the result in sprg0; e200z7: Decrementer_Handler,
    e200z7/picoRTOS_portasm.S:60-73.  SystemCall_Handler, :43-50. *)
Definition e200 (resv : bool) : aport := {|
  p_tick := ppc_entry ++ ppc_save ++ [Mov "r3" "sprg0"];
  p_call := ppc_entry ++ ppc_save ++ [Mov "r3" "sprg0"; Ld "r4" "r3" 28; Ld "r5" "r3" 32];
  p_resume := Mov "sprg0" "r3" :: Any "r3" 2 :: Any "r4" 3 :: ppc_restore resv ++ ppc_exit;
  p_arg := "r3"; p_ret := "r3"; p_cmap := [("r4", "r3"); ("r5", "r4")]; p_cmem := [];
  p_first := ppc_first; p_top := "r3"; p_fret := "r3"; p_fadj := 0; p_fmap := [("pc", "r4"); ("r3", "r5")];
  p_fkeep := ppc_14_31 ++ ["r1"; "lr"];
  p_start := Any "r7" 4 :: Any "r8" 5 :: Mov "sprg0" "r3" :: ppc_restore resv ++ ppc_exit;
  p_sp := "r1"; p_pc := "pc"; p_npc := 0; p_below := 0; p_kstk := ("r1", -8, 0);
  p_regs := ppc_sprs ++ ppc_gprs ++ ppc_14_31 ++ ["pc"; "msr"; "r1"]; p_lo := 0; p_hi := 140; p_size := 140;
  p_unit := 4; p_init := 45; p_min := 53 |}.

(** ** MIPS m51xx *)

(** arch/mips/m51xx/picoRTOS_portasm.S:19-23, 83-128 and 186-236.  [fr]: the list of registers of the
    frame, in order; line 110 stores s7 where s6 should be. *)
Definition mips_swap : list ins := [Mov "at" "kscratch"; Mov "kscratch" "sp"; Mov "sp" "at"].
Definition mips_gprs (s6 : string) :=
  ["v0"; "v1"; "a0"; "a1"; "a2"; "a3"; "t0"; "t1"; "t2"; "t3"; "t4"; "t5"; "t6"; "t7"; "s0"; "s1"; "s2"; "s3"; "s4"; "s5"; s6; "s7"; "t8"; "t9"; "fp"; "ra"].
Definition mips_f := ["f0"; "f1"; "f2"; "f3"; "f4"; "f5"; "f6"; "f7"; "f8"; "f9"; "f10"; "f11"; "f12"; "f13"; "f14"; "f15";
  "f16"; "f17"; "f18"; "f19"; "f20"; "f21"; "f22"; "f23"; "f24"; "f25"; "f26"; "f27"; "f28"; "f29"; "f30"; "f31"].
(** SAVE_CONTEXT_FPU, :25-64: [al] is bit 2 of sp - 4; the word of alignment is 0, or 1 followed by
    another word.  A 64-bit register takes one cell of 8 bytes. *)
Definition mips_fpu_save (al : bool) : list ins :=
  [Add "sp" "sp" (-4); Imm "at" (if al then 1 else 0)] ++
  (if al then [Imm "zero" 0; St "zero" "sp" 0; Add "sp" "sp" (-4); St "at" "sp" 0] else [Imm "zero" 0; St "zero" "sp" 0]) ++
  [Add "sp" "sp" (-256)] ++ stm "sp" 0 8 mips_f.
Definition mips_fpu_restore (al : bool) : list ins :=
  ldm "sp" 0 8 mips_f ++ [Add "sp" "sp" 256; Ld "at" "sp" 0; Add "sp" "sp" 4] ++ (if al then [Add "sp" "sp" 4] else []).
(** SAVE_CONTEXT_DSP / RESTORE_CONTEXT_DSP, :66-81, 170-184. *)
Definition mips_acc := ["lo1"; "hi1"; "lo2"; "hi2"; "lo3"; "hi3"].
Fixpoint via_st (k : Z) (xs : list string) : list ins :=
  match xs with [] => [] | x :: xs => Mov "at" x :: St "at" "sp" k :: via_st (k + 4) xs end.
Fixpoint via_ld (k : Z) (xs : list string) : list ins :=
  match xs with [] => [] | x :: xs => Ld "at" "sp" k :: Mov x "at" :: via_ld (k + 4) xs end.
Definition mips_save (fpu dsp al : bool) (s6 : string) : list ins :=
  (if fpu then mips_fpu_save al else []) ++
  (if dsp then Add "sp" "sp" (-24) :: via_st 0 mips_acc else []) ++
  Add "sp" "sp" (-116) :: stm "sp" 0 4 (mips_gprs s6) ++ via_st 104 ["lo"; "hi"; "epc"] ++ mips_swap.
Definition mips_restore (fpu dsp al : bool) (s6 : string) : list ins :=
  mips_swap ++ ldm "sp" 0 4 (mips_gprs s6) ++ via_ld 104 ["lo"; "hi"; "epc"] ++ [Add "sp" "sp" 116] ++
  (if dsp then via_ld 0 mips_acc ++ [Add "sp" "sp" 24] else []) ++
  (if fpu then mips_fpu_restore al else []).
Definition mips_entry : list ins := [Mov "epc" "pc"].
Definition mips_exit : list ins := [Mov "pc" "epc"].
(** CoreTimer_Handler, :248-262 (the delay slot of jal loads a0; INCREMENT_CP0_COMPARE uses t0, t1;
    arch_ack_interrupt is C code); GeneralException_Handler, :267-292; arch_save_first_context,
    :318-328 (jr ra; delay slot mfc0 v0); arch_start_first_task, :333-342, whose argument is in a0 (here
    moved from v0, which is where the other entries get it). *)
Definition mips_size (fpu dsp al : bool) : Z := 116 + (if dsp then 24 else 0) + (if fpu then (if al then 264 else 260) else 0).
Definition m51xx (fpu dsp al : bool) : aport := {|
  p_tick := mips_entry ++ mips_save fpu dsp al "s7" ++ [Mov "a0" "kscratch"];
  p_call := mips_entry ++ mips_save fpu dsp al "s7" ++
    [Any "at" 0; Imm "t0" 8; Mov "a0" "kscratch"; Ld "a1" "a0" 8; Ld "a2" "a0" 12; Mov "at" "epc"; Add "at" "at" 4; St "at" "a0" 112];
  p_resume := Mov "kscratch" "v0" :: mips_restore fpu dsp al "s7" ++ mips_exit;
  p_arg := "a0"; p_ret := "v0"; p_cmap := [("a1", "a0"); ("a2", "a1")]; p_cmem := [];
  p_first := [Mov "kscratch" "a0"] ++ mips_swap ++ [Mov "a0" "a2"; Mov "epc" "a1"; Imm "a2" 0] ++
    mips_save fpu dsp al "s7" ++ [Mov "v0" "kscratch"; Mov "ret" "ra"];
  p_top := "a0"; p_fret := "v0"; p_fadj := 0; p_fmap := [("pc", "a1"); ("a0", "a2")];
  p_fkeep := ["s0"; "s1"; "s2"; "s3"; "s4"; "s5"; "s6"; "s7"; "fp"; "ra"; "sp"];
  p_start := [Mov "a0" "v0"; Any "t0" 0; Any "t1" 1; Mov "kscratch" "a0"] ++ mips_restore fpu dsp al "s7" ++ [Mov "ra" "epc"; Mov "pc" "ra"];
  p_sp := "sp"; p_pc := "pc"; p_npc := 4; p_below := 0; p_kstk := ("sp", 0, 0);
  p_regs := mips_gprs "s6" ++ ["at"; "lo"; "hi"; "pc"; "sp"] ++ (if dsp then mips_acc else []) ++ (if fpu then mips_f else []);
  p_lo := 0; p_hi := mips_size fpu dsp al; p_size := mips_size fpu dsp al;
  p_unit := 4; p_init := 29 + (if fpu then 66 else 0) + (if dsp then 6 else 0);
  p_min := 37 + (if fpu then 66 else 0) + (if dsp then 6 else 0) |}.

(** ** AVR *)

(** arch/avr/picoRTOS_portasm.S:10-99.  The stack pointer, GPIOR2:GPIOR1, and the pairs r25:r24 and
    r29:r28 when they hold an address ("w24", "w28") are one register each; SWAP_STACK uses r22-r25.
    [pc3]: 3-byte program counter, pushed low byte first. *)
Definition avr_pcs (pc3 : bool) := ["pcl"; "pch"] ++ (if pc3 then ["pce"] else []).
Definition pushs (xs : list string) : list ins := List.concat (List.map push xs).
Definition pops (xs : list string) : list ins := List.concat (List.map pop xs).
Definition anys (n : nat) (xs : list string) : list ins := imap (fun i x => Any x (n + i)) xs.
Definition avr_swap (n : nat) : list ins := Swp "sp" "gpior" :: anys n ["r22"; "r23"; "r24"; "r25"].
Definition avr_1_31 := ["r1"; "r2"; "r3"; "r4"; "r5"; "r6"; "r7"; "r8"; "r9"; "r10"; "r11"; "r12"; "r13"; "r14"; "r15"; "r16";
  "r17"; "r18"; "r19"; "r20"; "r21"; "r22"; "r23"; "r24"; "r25"; "r26"; "r27"; "r30"; "r31"].
(** SAVE_CONTEXT: [irq] is what the vector puts between its two steps (ldi r28, ldi r29: :201-208). *)
Definition avr_save (irq : list ins) : list ins :=
  pushs ["r28"; "r29"] ++ irq ++ push "r0" ++ [Mov "r0" "sreg"] ++ push "r0" ++ pushs avr_1_31 ++ avr_swap 10.
Definition avr_restore : list ins :=
  avr_swap 20 ++ pops (rev avr_1_31) ++ pop "r0" ++ [Mov "sreg" "r0"] ++ pops ["r0"; "r29"; "r28"].
(** Interrupt entry, or the call of arch_syscall, pushes the return address; reti pops it.  "sreg" is
    without the I bit, which reti sets. *)
Definition avr_entry (pc3 : bool) := pushs (avr_pcs pc3).
Definition avr_exit (pc3 : bool) := pops (rev (avr_pcs pc3)).
(** Tick: vector_isr_handler, :178-185, then arch_TIMER0_COMPA, timer-tc0.c:20-32 (or arch_RTC_CNT,
    timer-rtc.c:16-31).  arch_syscall, :137-167: syscall in r25:r24, priv in r23:r22, and they must
    be in r23:r22 and r21:r20 for picoRTOS_syscall.  arch_save_first_context, :103-127: stack in r25:r24,
    fn in r23:r22, priv in r21:r20. *)
Definition avr (pc3 : bool) : aport := {|
  p_tick := avr_entry pc3 ++ avr_save (anys 0 ["r28"; "r29"]) ++ anys 2 ["r30"; "r31"; "r24"; "r25"] ++ [Mov "w24" "gpior"];
  p_call := avr_entry pc3 ++ avr_save [] ++ [Mov "w28" "gpior"; Ld "r21" "w28" 7; Ld "r20" "w28" 8; Ld "r23" "w28" 5; Ld "r22" "w28" 6; Mov "w24" "w28"];
  p_resume := Mov "gpior" "w24" :: avr_restore ++ avr_exit pc3;
  p_arg := "w24"; p_ret := "w24"; p_cmap := [("r22", "r24"); ("r23", "r25"); ("r20", "r22"); ("r21", "r23")]; p_cmem := [];
  p_first := pushs ["r19"; "r18"] ++ [Mov "gpior" "w24"; Mov "r19" "r23"; Mov "r18" "r22"] ++ avr_swap 0 ++
    pushs ["r18"; "r19"] ++ (if pc3 then Imm "r19" 0 :: push "r19" else []) ++ [Mov "r25" "r21"; Mov "r24" "r20"] ++
    avr_save [] ++ [Mov "w24" "gpior"] ++ pops ["r18"; "r19"];
  p_top := "w24"; p_fret := "w24"; p_fadj := -1;
  p_fmap := [("pcl", "r22"); ("pch", "r23"); ("r24", "r20"); ("r25", "r21")];
  p_fkeep := ["r2"; "r3"; "r4"; "r5"; "r6"; "r7"; "r8"; "r9"; "r10"; "r11"; "r12"; "r13"; "r14"; "r15"; "r16"; "r17"; "r28"; "r29"; "sp"];
  p_start := Mov "gpior" "w24" :: avr_restore ++ avr_exit pc3;
  p_sp := "sp"; p_pc := "pcl"; p_npc := 0; p_below := 0; p_kstk := ("sp", -1, 1);
  p_regs := ["r0"; "r28"; "r29"; "sreg"; "sp"] ++ avr_1_31 ++ avr_pcs pc3;
  p_lo := 1; p_hi := if pc3 then 37 else 36; p_size := if pc3 then 36 else 35;
  p_unit := 1; p_init := if pc3 then 36 else 35; p_min := if pc3 then 42 else 41 |}.

(** ** STM8 *)

(** arch/stm8/picoRTOS_portasm.S:9-32: the hardware saves everything; interrupt entry pushes PCL, PCH,
    PCE, Y, X, A, CC.  SWAP_STACK leaves the task's stack pointer in x. *)
Definition stm8_frame := ["pcl"; "pch"; "pce"; "yl"; "yh"; "xl"; "xh"; "a"; "cc"].
Definition stm8_swap : list ins := [Mov "x" "sp"; Mov "y" "bsp"; Mov "sp" "y"; Mov "bsp" "x"].
(** Trap_Handler, :37-49: the argument given to picoRTOS_syscall is the address of the caller's frame
    beyond the return address of arch_syscall, saved sp + 12, that is task sp + 3 at the trap, and not
    what is there ([p_cmem]: priv as a 16-bit cell). Awu_Handler, :52-61. arch_prepare_stack,
    picoRTOS_port.c:47-68, writes the frame itself. *)
Definition stm8 : aport := {|
  p_tick := pushs stm8_frame ++ stm8_swap;
  p_call := pushs stm8_frame ++ stm8_swap ++ [Mov "y" "x"; Add "y" "y" 12];
  p_resume := Mov "bsp" "x" :: stm8_swap ++ pops (rev stm8_frame);
  p_arg := "x"; p_ret := "x"; p_cmap := [("a", "a")]; p_cmem := [("y", 3)];
  p_first := Add "x" "x" (-10) :: Imm "z" 0 :: Add "x" "x" 1 ::
    stm "x" 0 1 ["z"; "z"; "privh"; "privl"; "z"; "z"; "z"; "fnh"; "fnl"] ++ [Add "x" "x" (-1)];
  p_top := "x"; p_fret := "x"; p_fadj := 0;
  p_fmap := [("pcl", "fnl"); ("pch", "fnh"); ("xl", "privl"); ("xh", "privh")]; p_fkeep := ["sp"];
  p_start := Mov "bsp" "x" :: stm8_swap ++ pops (rev stm8_frame);
  p_sp := "sp"; p_pc := "pcl"; p_npc := 0; p_below := 0; p_kstk := ("sp", 0, 0);
  p_regs := stm8_frame ++ ["sp"]; p_lo := 1; p_hi := 10; p_size := 9;
  p_unit := 1; p_init := 9; p_min := 17 |}.

(** ** HCS08 *)

(** arch/hcs08/picoRTOS_portasm.S:9-39: interrupt entry pushes PCL, PCH, X, A, CCR; SAVE_CONTEXT pushes
    H.  SWAP_STACK, :9-19, taken as a whole: _bhx <- sp + 1, sp <- old _bhx - 1, H:X and two bytes below
    the stack pointer lost. *)
Definition hcs_frame := ["pcl"; "pch"; "xl"; "a"; "cc"; "h"].
Definition hcs_swap : list ins :=
  [Any "h" 0; Any "xl" 1; St "h" "sp" 0; St "xl" "sp" (-1); Mov "hx" "bhx"; Mov "t" "sp"; Add "bhx" "t" 1; Mov "sp" "hx"; Add "sp" "sp" (-1)].
(** Vswi_Handler, :56-72: syscall in a (kept by the hardware), priv at 8 and 9 above the task's frame:
    pushed by the caller of arch_syscall before the call. *)
Definition hcs08 : aport := {|
  p_tick := pushs hcs_frame ++ hcs_swap ++ [Mov "hx" "bhx"];
  p_call := pushs hcs_frame ++ hcs_swap ++ [Mov "hx" "bhx"; Mov "sysc" "a"; Ld "privl" "hx" 9; Ld "privh" "hx" 8];
  p_resume := Mov "bhx" "hx" :: hcs_swap ++ pops (rev hcs_frame);
  p_arg := "hx"; p_ret := "hx"; p_cmap := [("sysc", "a")]; p_cmem := [("privl", 4); ("privh", 3)];
  (* arch_save_first_context, :107-128: stack in x:a, the parameters fn and priv on main's stack *)
  p_first := Add "hx" "hx" (-6) :: Imm "a" 0 :: stm "hx" 0 1 ["a"; "a"; "privl"; "privh"; "fnh"; "fnl"];
  p_top := "hx"; p_fret := "hx"; p_fadj := -1;
  p_fmap := [("pcl", "fnl"); ("pch", "fnh"); ("a", "privl"); ("xl", "privh")]; p_fkeep := ["sp"];
  p_start := Mov "bhx" "hx" :: hcs_swap ++ pops (rev hcs_frame);
  p_sp := "sp"; p_pc := "pcl"; p_npc := 0; p_below := 2; p_kstk := ("sp", -1, 1);
  p_regs := hcs_frame ++ ["sp"]; p_lo := 0; p_hi := 6; p_size := 5;
  p_unit := 1; p_init := 6; p_min := 10 |}.
