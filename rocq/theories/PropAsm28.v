(** PropAsm28.v - property C90: the context switch of c28x. *)
From Verif Require Import Base Asm28Model Asm28Spec Asm28Proofs.
Local Open Scope string_scope.
Local Open Scope list_scope.
Local Open Scope Z_scope.

(** C90 (1): without the FPU, a task interrupted by the tick, wherever its stack pointer is, finds all its
    registers and its stack pointer again; the kernel keeps its own stack pointer and only the next
    ARCH_INITIAL_STACK_COUNT words of the task's stack are used. *)
Theorem C90_tick_partial : switch_ok false (tick_in false) cpu_regs.
Proof. exact (tick_switch false). Qed.
Print Assumptions C90_tick_partial.

(** C90 (2): the same for a system call, and the scheduler gets its arguments (with or without FPU). *)
Theorem C90_syscall_partial : switch_ok false (call_in false) cpu_regs /\ forall fpu, args_ok fpu.
Proof. exact (conj (call_switch false) call_args). Qed.
Print Assumptions C90_syscall_partial.

(** C90 (3): the same around an interrupt handler. *)
Theorem C90_interrupt_partial : isr_ok false cpu_regs.
Proof. exact (isr_back false). Qed.
Print Assumptions C90_interrupt_partial.

(** C90 (4): a new task starts at its function with its argument, with or without FPU. *)
Theorem C90_first_context : forall fpu, first_ok fpu.
Proof. exact first_new. Qed.
Print Assumptions C90_first_context.

(** C90 (5): with the FPU, all but the eight FPU registers. *)
Theorem C90_fpu_partial : switch_ok true (tick_in true) (cpu_regs ++ fpu_status) /\
  switch_ok true (call_in true) (cpu_regs ++ fpu_status) /\ isr_ok true (cpu_regs ++ fpu_status).
Proof. exact (conj (tick_switch true) (conj (call_switch true) (isr_back true))). Qed.
Print Assumptions C90_fpu_partial.

(** C90 (6): which come back with their two halves exchanged, every time. *)
Theorem C90_fpu_swapped : forall code, code = tick_in true \/ code = call_in true ->
  forall stk m m', ~ (sp m <= stk < sp m + init_count true) -> kept (rg (exec stk code m) "ar4") m (exec stk code m) m' ->
    forall x, x ∈ fpu_regs -> rg (exec stk (resume true) m') x = rg m (swapped x).
Proof.
  exact (fun code Hc => fpu_swapped code
    (match Hc with or_introl H => eq_ind_r (fun code => forall stk m, ~ (sp m <= stk < sp m + init_count true) -> let s := exec stk code m in
        framed (cpairs true) m (mm s) /\ rg s "ar4" = top (cpairs true) m /\ saved stk (init_count true) m s) (tick_in_ok true) H
      | or_intror H => eq_ind_r (fun code => forall stk m, ~ (sp m <= stk < sp m + init_count true) -> let s := exec stk code m in
        framed (cpairs true) m (mm s) /\ rg s "ar4" = top (cpairs true) m /\ saved stk (init_count true) m s) (call_in_ok true) H end)).
Qed.
Print Assumptions C90_fpu_swapped.

(** A task with R0L = 1 and R0H = 2, its stack at 9001, resumed after everything else changed. *)
Definition task28 : m28 := mk28 (fun x => if String.eqb x "r0l.l" then 1 else if String.eqb x "r0h.l" then 2 else if String.eqb x "pcl" then 77 else 5) 9001 (fun a => if a =? 300 then 8000 else 0).
Definition back28 (s m : m28) : m28 := mk28 (fun x => if String.eqb x "ar4" then rg s "ar4" else 6) 8000 (fun a => if (sp m <=? a) && (a <? rg s "ar4") then mm s a else 9).
Example C90_case : forall code, code = tick_in true \/ code = call_in true ->
  let s := exec 300 code task28 in let m' := back28 s task28 in
  ~ (sp task28 <= 300 < sp task28 + init_count true) /\ kept (rg s "ar4") task28 s m' /\ rg s "ar4" = 9072 /\
  rg (exec 300 (resume true) m') "pcl" = 77 /\ rg (exec 300 (resume true) m') "r0l.l" = 2 /\ sp (exec 300 (resume true) m') = 9001.
Proof.
  intros code Hc. cbv zeta. split; [cbn [sp task28 init_count]; lia|]. split.
  - split; [reflexivity|]. intros a Ha. unfold back28. cbn [mm]. by rewrite (proj2 (Z.leb_le _ _) (proj1 Ha)), (proj2 (Z.ltb_lt _ _) (proj2 Ha)).
  - destruct Hc as [-> | ->]; split_and!; vm_compute; reflexivity.
Qed.
Theorem C90_fpu_refuted : ~ switch_ok true (tick_in true) (cpu_regs ++ fpu_status ++ fpu_regs).
Proof.
  exact (fun H => let C := C90_case _ (or_introl eq_refl) in
    let K := proj1 (proj2 (H 300 task28 (proj1 C)) _ (proj1 (proj2 C))) "r0l.l" ltac:(apply elem_of_list_In; cbn; tauto) in
    ltac:(rewrite (proj1 (proj2 (proj2 (proj2 (proj2 C))))) in K; discriminate K)).
Qed.
Print Assumptions C90_fpu_refuted.

(** A new task whose stack is at 9000, with fn = 4:1234 and priv = 0:5678. *)
Definition main28 : m28 := mk28 (fun x => if String.eqb x "ar4" then 9000 else if String.eqb x "ar5" then 1234 else if String.eqb x "ar5h" then 4
  else if String.eqb x "al" then 5678 else 0) 8000 (fun _ => 0).
Example C90_first_case : let s := exec 300 (first_in false) main28 in
  let m' := mk28 (fun x => if String.eqb x "ar4" then rg s "ar4" else 6) 8000 (mm s) in
  Z.even (rg main28 "ar4") = true /\ rg s "ar4" = 9036 /\ sp s = 8000 /\
  rg (exec 300 (resume false) m') "pcl" = 1234 /\ rg (exec 300 (resume false) m') "ar4" = 5678 /\ sp (exec 300 (resume false) m') = 9000.
Proof. cbv zeta. split_and!; vm_compute; reflexivity. Qed.
