(** Asm28Model.v - the context switch of the c28x port (TMS320C28x), instruction by instruction.

    The machine: memory of 16-bit words, a stack that grows upwards (SP points to the next free word),
    32-bit accesses that ignore the lowest bit of the address (TMS320C28x CPU and Instruction Set
    Reference Guide), registers as 16-bit halves.  Simplified: words are integers, addresses do not wrap;
    the flags set by the moves of the handlers are not followed (the task's are in ST0 and ST1, saved by
    the hardware first and restored last). *)
From Verif Require Import Base.
From Coq Require Export String.
Local Open Scope string_scope.
Local Open Scope list_scope.
Local Open Scope Z_scope.

Record m28 := mk28 { rg : string -> Z; sp : Z; mm : Z -> Z }.
Definition setr (m : m28) (x : string) (v : Z) : m28 := mk28 (fun y => if String.eqb y x then v else rg m y) (sp m) (mm m).
Definition setsp (m : m28) (v : Z) : m28 := mk28 (rg m) v (mm m).
Definition setm (m : m28) (a v : Z) : m28 := mk28 (rg m) (sp m) (fun b => if b =? a then v else mm m b).
(** The address of a 32-bit access. *)
Definition even (a : Z) : Z := 2 * (a / 2).

(** Instructions used by the port.
    [Push32 lo hi], [Pop32 lo hi]: a 32-bit register or pair (push, pop, mov32 with *SP++ and *--SP);
    [PushI]: push #imm; [Asp], [Nasp]: align and unalign the stack pointer, SPA is bit 4 of ST1;
    [Mov d s], [MovI d v]: 16 bits; [LdStk d], [StStk s]: @stack, 64-word page DP;
    [DpStk]: movz DP, #stack; [FromSP d], [ToSP s]: mov with @SP; [SubSP k]: subb SP, #k;
    [LdSP d k]: mov d, *-SP[k]; [LdSP32 lo hi k]: movl of *-SP[k]; [Disable]: setc INTM (bit 0 of ST1);
    [AddSP k]: what the hardware adds before and after. *)
Inductive i28 :=
| Push32 (lo hi : string) | Pop32 (lo hi : string) | PushI (v : Z) | Asp | Nasp
| Mov (d s : string) | MovI (d : string) (v : Z) | LdStk (d : string) | StStk (s : string) | DpStk
| FromSP (d : string) | ToSP (s : string) | SubSP (k : Z) | LdSP (d : string) (k : Z) | LdSP32 (lo hi : string) (k : Z)
| Disable | AddSP (k : Z) | IntSt1.

(** [stk]: the address of the variable "stack" (picoRTOS_portasm.asm:21-25). *)
Definition exec1 (stk : Z) (i : i28) (m : m28) : m28 :=
  match i with
  | Push32 lo hi => let a := even (sp m) in setsp (setm (setm m a (rg m lo)) (a + 1) (rg m hi)) (sp m + 2)
  | Pop32 lo hi => let a := even (sp m - 2) in setsp (setr (setr m lo (mm m a)) hi (mm m (a + 1))) (sp m - 2)
  | PushI v => setsp (setm m (sp m) v) (sp m + 1)
  | Asp => if Z.odd (sp m) then setsp (setr m "st1" (Z.lor (rg m "st1") 16)) (sp m + 1) else setr m "st1" (Z.ldiff (rg m "st1") 16)
  | Nasp => if Z.testbit (rg m "st1") 4 then setsp m (sp m - 1) else m
  | Mov d s => setr m d (rg m s)
  | MovI d v => setr m d v
  | LdStk d => setr m d (mm m (rg m "dp" * 64 + stk mod 64))
  | StStk s => setm m (rg m "dp" * 64 + stk mod 64) (rg m s)
  | DpStk => setr m "dp" (stk / 64)
  | FromSP d => setr m d (sp m)
  | ToSP s => setsp m (rg m s)
  | SubSP k => setsp m (sp m - k)
  | LdSP d k => setr m d (mm m (sp m - k))
  | LdSP32 lo hi k => let a := even (sp m - k) in setr (setr m lo (mm m a)) hi (mm m (a + 1))
  | Disable => setr m "st1" (Z.lor (rg m "st1") 1)
  | AddSP k => setsp m (sp m + k)
  | IntSt1 => setr m "st1" (Z.lor (Z.ldiff (rg m "st1") 224) 3)
  end.
Fixpoint exec (stk : Z) (is : list i28) (m : m28) : m28 :=
  match is with [] => m | i :: is => exec stk is (exec1 stk i m) end.

(** Registers: a pair is (low half, high half). *)
Definition pairs := list (string * string).
Definition push32s (l : pairs) : list i28 := List.map (fun p => Push32 p.1 p.2) l.
Definition pop32s (l : pairs) : list i28 := List.map (fun p => Pop32 p.1 p.2) (rev l).

(** The hardware's part of an interrupt (CPU guide, "Standard operation for maskable interrupts"):
    SP + 1, then T:ST0, AH:AL, PH:PL, AR1:AR0, DP:ST1, DBGSTAT:IER and the return address; INTM and DBGM
    are set, EALLOW, LOOP and IDLESTAT cleared.  IRET does the reverse. *)
Definition auto : pairs := [("st0", "t"); ("al", "ah"); ("pl", "ph"); ("ar0", "ar1"); ("st1", "dp"); ("ier", "dbgstat"); ("pcl", "pch")].
Definition int_entry : list i28 := AddSP 1 :: push32s auto ++ [IntSt1].
Definition iret : list i28 := pop32s auto ++ [AddSP (-1)].

(** SWAP_STACK, arch/c2000/c28x/picoRTOS_portasm.asm:27-33. *)
Definition swap_stack : list i28 := [DpStk; LdStk "al"; FromSP "ah"; StStk "ah"; ToSP "al"].

(** SAVE_CONTEXT_NOSWAP, :35-66: after DP:ST1 (which holds SPA), RPC, XT, AR1H:AR0H, XAR2 to XAR7, and
    with the FPU, RB, STF and R0L, R0H ... R7L, R7H. *)
Definition status : string * string := ("st1", "dp").
Definition core : pairs := [("rpcl", "rpch"); ("tl", "t"); ("ar0h", "ar1h"); ("ar2", "ar2h"); ("ar3", "ar3h");
  ("ar4", "ar4h"); ("ar5", "ar5h"); ("ar6", "ar6h"); ("ar7", "ar7h")].
Definition fstat : pairs := [("rbl", "rbh"); ("stfl", "stfh")].
(** The two 32-bit halves of R0 to R7, in the order they are saved. *)
Definition fregs : pairs := [
  ("r0l.l", "r0l.h"); ("r0h.l", "r0h.h"); ("r1l.l", "r1l.h"); ("r1h.l", "r1h.h");
  ("r2l.l", "r2l.h"); ("r2h.l", "r2h.h"); ("r3l.l", "r3l.h"); ("r3h.l", "r3h.h");
  ("r4l.l", "r4l.h"); ("r4h.l", "r4h.h"); ("r5l.l", "r5l.h"); ("r5h.l", "r5h.h");
  ("r6l.l", "r6l.h"); ("r6h.l", "r6h.h"); ("r7l.l", "r7l.h"); ("r7h.l", "r7h.h")].
Definition save_noswap (fpu : bool) : list i28 :=
  Asp :: push32s ((status :: core) ++ (if fpu then fstat ++ fregs else [])).
(** SAVE_CONTEXT, :68-71. *)
Definition save_context (fpu : bool) : list i28 := save_noswap fpu ++ swap_stack.

(** RESTORE_CONTEXT, :73-108: R7L is restored first, then R7H, and so on to R0H ([frest] lists this in
    the reverse order, as [fregs] lists the saves). *)
Definition frest : pairs := [
  ("r0h.l", "r0h.h"); ("r0l.l", "r0l.h"); ("r1h.l", "r1h.h"); ("r1l.l", "r1l.h");
  ("r2h.l", "r2h.h"); ("r2l.l", "r2l.h"); ("r3h.l", "r3h.h"); ("r3l.l", "r3l.h");
  ("r4h.l", "r4h.h"); ("r4l.l", "r4l.h"); ("r5h.l", "r5h.h"); ("r5l.l", "r5l.h");
  ("r6h.l", "r6h.h"); ("r6l.l", "r6l.h"); ("r7h.l", "r7h.h"); ("r7l.l", "r7l.h")].
Definition restore_context (fpu : bool) : list i28 :=
  swap_stack ++ pop32s ((status :: core) ++ (if fpu then fstat ++ frest else [])) ++ [Nasp].

(** TIMER2_Handler, :110-118, up to and after the call of picoRTOS_tick, whose argument and result are
    in XAR4 (movz clears the high half). *)
Definition tick_in (fpu : bool) : list i28 := int_entry ++ save_context fpu ++ [LdStk "ar4"; MovI "ar4h" 0].
Definition resume (fpu : bool) : list i28 := [DpStk; StStk "ar4"] ++ restore_context fpu ++ iret.

(** RealTimeOS_Handler, :126-145, entered by "intr RTOSINT" in arch_syscall, :120-124: picoRTOS_syscall(sp in
    XAR4, syscall in AL, priv in XAR5). *)
Definition call_in (fpu : bool) : list i28 :=
  int_entry ++ save_noswap fpu ++ [FromSP "ar6"; Mov "ar4" "ar6"; MovI "ar4h" 0] ++
  (if fpu then [SubSP 36] else []) ++ [LdSP32 "ar5" "ar5h" 8; LdSP "ar6" 34] ++ swap_stack ++ [Mov "al" "ar6"].

(** Default_Handler, :192-214, up to and after the call of the handler (the dispatch itself: IrqModel). *)
Definition isr_in (fpu : bool) : list i28 := int_entry ++ save_context fpu.
Definition isr_out (fpu : bool) : list i28 := restore_context fpu ++ iret.

(** arch_save_first_context, :147-175: sp in XAR4, fn in XAR5, priv in XAR6 through ACC (a third pointer
    argument is in ACC), result in XAR4. *)
Definition first_in (fpu : bool) : list i28 :=
  [Mov "ar6" "al"; Mov "ar6h" "ah"; DpStk; StStk "ar4"] ++ swap_stack ++
  [PushI 128; PushI 0; PushI 0; PushI 0; PushI 0; PushI 0; PushI 0; PushI 0; PushI 35336; PushI 0; PushI 40960; PushI 0;
   Push32 "ar5" "ar5h"; PushI 0; Disable; Mov "ar4" "ar6"; Mov "ar4h" "ar6h"; MovI "ar5" 0; MovI "ar5h" 0; MovI "ar6" 0; MovI "ar6h" 0] ++
  save_context fpu ++ [LdStk "ar4"; MovI "ar4h" 0].
(** arch_start_first_task, :177-182, is [resume]. *)

(** ARCH_INTIAL_STACK_COUNT, ARCH_MIN_STACK_COUNT, picoRTOS_types.h:17-25. *)
Definition init_count (fpu : bool) : Z := if fpu then 72 else 36.
Definition min_count (fpu : bool) : Z := init_count fpu + 4.
