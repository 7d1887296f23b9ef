(** Asm28Spec.v - what a context switch must do on c28x. *)
From Verif Require Import Base Asm28Model.
From Coq Require Import Ascii.
Local Open Scope string_scope.
Local Open Scope list_scope.
Local Open Scope Z_scope.

(** The registers that belong to a task, but the stack pointer. *)
Definition cpu_regs : list string :=
  ["st0"; "st1"; "tl"; "t"; "al"; "ah"; "pl"; "ph"; "dp"; "ier"; "dbgstat"; "pcl"; "pch"; "rpcl"; "rpch";
   "ar0"; "ar0h"; "ar1"; "ar1h"; "ar2"; "ar2h"; "ar3"; "ar3h"; "ar4"; "ar4h"; "ar5"; "ar5h"; "ar6"; "ar6h"; "ar7"; "ar7h"].
Definition fpu_status : list string := ["rbl"; "rbh"; "stfl"; "stfh"].
Definition fpu_regs : list string :=
  ["r0l.l"; "r0l.h"; "r0h.l"; "r0h.h"; "r1l.l"; "r1l.h"; "r1h.l"; "r1h.h"; "r2l.l"; "r2l.h"; "r2h.l"; "r2h.h";
   "r3l.l"; "r3l.h"; "r3h.l"; "r3h.h"; "r4l.l"; "r4l.h"; "r4h.l"; "r4h.h"; "r5l.l"; "r5l.h"; "r5h.l"; "r5h.h";
   "r6l.l"; "r6l.h"; "r6h.l"; "r6h.h"; "r7l.l"; "r7l.h"; "r7h.l"; "r7h.h"].

(** Going into the kernel with [code], from [m] to [s]: the words written are the next [n] of the task's
    stack, and the variable that holds the other stack pointer; the kernel gets its own stack pointer back
    and, in XAR4, where the task's stack ends now. *)
Definition saved (stk n : Z) (m s : m28) : Prop :=
  let c := rg s "ar4" in
  sp m < c <= sp m + n /\ rg s "ar4h" = 0 /\ sp s = mm m stk /\
  (forall a, ~ (sp m <= a < c) -> a <> stk -> mm s a = mm m a).
(** Coming back, in [m'], to the task whose stack ends at [c], nothing of it having changed since [s]. *)
Definition kept (c : Z) (m s m' : m28) : Prop := rg m' "ar4" = c /\ forall a, sp m <= a < c -> mm m' a = mm s a.
(** The task [m] finds [regs] and its stack pointer as they were; the kernel's stack pointer is put aside,
    and nothing else is written. *)
Definition found (stk : Z) (regs : list string) (m m' r : m28) : Prop :=
  (forall x, x ∈ regs -> rg r x = rg m x) /\ sp r = sp m /\ mm r stk = sp m' /\ (forall a, a <> stk -> mm r a = mm m' a).

(** Whatever happens in between, a task that goes into the kernel by [code] is found again. *)
Definition switch_ok (fpu : bool) (code : list i28) (regs : list string) : Prop :=
  forall stk m, ~ (sp m <= stk < sp m + init_count fpu) ->
    let s := exec stk code m in
    saved stk (init_count fpu) m s /\
    forall m', kept (rg s "ar4") m s m' -> found stk regs m m' (exec stk (resume fpu) m').

(** An interrupt: the handler keeps the stack pointer and what is saved (it runs on the kernel's stack). *)
Definition isr_ok (fpu : bool) (regs : list string) : Prop :=
  forall stk m, ~ (sp m <= stk < sp m + init_count fpu) ->
    let s := exec stk (isr_in fpu) m in
    sp s = mm m stk /\ sp m < mm s stk <= sp m + init_count fpu /\
    forall m', mm m' stk = mm s stk -> (forall a, sp m <= a < mm s stk -> mm m' a = mm s a) ->
      found stk regs m m' (exec stk (isr_out fpu) m').

(** A system call gets its arguments, the stack pointer being even, as it is when a function starts. *)
Definition args_ok (fpu : bool) : Prop :=
  forall stk m, Z.even (sp m) = true -> ~ (sp m <= stk < sp m + init_count fpu) ->
    let s := exec stk (call_in fpu) m in
    rg s "al" = rg m "al" /\ rg s "ar5" = rg m "ar4" /\ rg s "ar5h" = rg m "ar4h".

(** A new task, its stack starting at an even address (picoRTOS_task_init, scheduler/picoRTOS.c:241-242): only
    the first ARCH_MIN_STACK_COUNT words are written, the caller gets its stack pointer back; the task
    starts at fn, with priv in XAR4, interrupts enabled, its stack empty. *)
Definition first_ok (fpu : bool) : Prop :=
  forall stk m, Z.even (rg m "ar4") = true -> ~ (rg m "ar4" <= stk < rg m "ar4" + min_count fpu) ->
    let s := exec stk (first_in fpu) m in
    sp s = sp m /\ rg m "ar4" < rg s "ar4" <= rg m "ar4" + min_count fpu /\
    (forall a, ~ (rg m "ar4" <= a < rg m "ar4" + min_count fpu) -> a <> stk -> mm s a = mm m a) /\
    forall m', rg m' "ar4" = rg s "ar4" -> (forall a, rg m "ar4" <= a < rg s "ar4" -> mm m' a = mm s a) ->
      let r := exec stk (resume fpu) m' in
      rg r "pcl" = rg m "ar5" /\ rg r "pch" = rg m "ar5h" /\ rg r "ar4" = rg m "al" /\ rg r "ar4h" = rg m "ah" /\
      sp r = rg m "ar4" /\ Z.testbit (rg r "st1") 0 = false /\ rg r "ier" = 40960 /\
      mm r stk = sp m' /\ (forall a, a <> stk -> mm r a = mm m' a).

(** The other 32-bit half of an FPU register: "r3l.h" and "r3h.h". *)
Definition swapped (x : string) : string :=
  match x with
  | String c (String n (String h r)) => String c (String n (String (if Ascii.eqb h "l"%char then "h"%char else "l"%char) r))
  | _ => x
  end.
