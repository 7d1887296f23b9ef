(** Asm51Model.v - the context switch of the 8051 port, arch/8051/picoRTOS_portasm.S (lines of that
    file), instruction by instruction.

    A task runs on the internal stack, which starts at __start__stack; when it is switched out, the
    whole internal stack is moved to its own stack in external RAM, top first, so that this one grows
    upwards; the address of the latter is kept in the two bytes at the bottom of the internal stack.

    Simplifications:
    - registers r0 to r7 are bytes 0 to 7 of the internal RAM (bank 0: SAVE_CONTEXT_STEP1 clears psw);
    - the flags are the saved psw; those set by the instructions of this file are only kept where a
      later one reads them (the carry of ADD_DPTR);
    - C functions are any change of the machine that the statements allow them. *)
From Verif Require Import Base.

Definition b8 (v : Z) : Z := v mod 256.

Record m51 := mk51 {
  ra : Z; rb : Z; rdpl : Z; rdph : Z; rpsw : Z; rsp : Z; rpcl : Z; rpch : Z;
  iram : Z -> Z; xram : Z -> Z }.

Definition set_a v m := mk51 v (rb m) (rdpl m) (rdph m) (rpsw m) (rsp m) (rpcl m) (rpch m) (iram m) (xram m).
Definition set_b v m := mk51 (ra m) v (rdpl m) (rdph m) (rpsw m) (rsp m) (rpcl m) (rpch m) (iram m) (xram m).
Definition set_dpl v m := mk51 (ra m) (rb m) v (rdph m) (rpsw m) (rsp m) (rpcl m) (rpch m) (iram m) (xram m).
Definition set_dph v m := mk51 (ra m) (rb m) (rdpl m) v (rpsw m) (rsp m) (rpcl m) (rpch m) (iram m) (xram m).
Definition set_psw v m := mk51 (ra m) (rb m) (rdpl m) (rdph m) v (rsp m) (rpcl m) (rpch m) (iram m) (xram m).
Definition set_sp v m := mk51 (ra m) (rb m) (rdpl m) (rdph m) (rpsw m) v (rpcl m) (rpch m) (iram m) (xram m).
Definition set_pcl v m := mk51 (ra m) (rb m) (rdpl m) (rdph m) (rpsw m) (rsp m) v (rpch m) (iram m) (xram m).
Definition set_pch v m := mk51 (ra m) (rb m) (rdpl m) (rdph m) (rpsw m) (rsp m) (rpcl m) v (iram m) (xram m).
Definition upd (f : Z -> Z) (a v : Z) : Z -> Z := fun x => if x =? a then v else f x.
Definition set_i a v m := mk51 (ra m) (rb m) (rdpl m) (rdph m) (rpsw m) (rsp m) (rpcl m) (rpch m) (upd (iram m) a v) (xram m).
Definition set_x a v m := mk51 (ra m) (rb m) (rdpl m) (rdph m) (rpsw m) (rsp m) (rpcl m) (rpch m) (iram m) (upd (xram m) a v).

(** push / pop of a byte: the stack pointer addresses the last byte pushed. *)
Definition push (v : Z) (m : m51) : m51 := let s := b8 (rsp m + 1) in set_i s v (set_sp s m).
Definition top (m : m51) : Z := iram m (rsp m).
Definition drop1 (m : m51) : m51 := set_sp (b8 (rsp m - 1)) m.

Definition dptr (m : m51) : Z := rdpl m + 256 * rdph m.
(** inc dptr: 16 bits. *)
Definition inc_dptr (m : m51) : m51 :=
  let d := (dptr m + 1) mod 65536 in set_dph (d / 256) (set_dpl (d mod 256) m).
(** DEC_DPTR, 66-72. *)
Definition dec_dptr (m : m51) : m51 :=
  let m := set_dpl (b8 (rdpl m - 1)) m in
  let m := set_a (rdpl m) m in
  if ra m =? 255 then set_dph (b8 (rdph m - 1)) m else m.

(** A sequence of instructions, and the instructions. *)
Fixpoint exec (l : list (m51 -> m51)) (m : m51) : m51 :=
  match l with [] => m | f :: l => exec l (f m) end.
Definition ar (k : Z) (m : m51) : Z := iram m k.   (* direct address of register rk *)
Definition at_r0 (m : m51) : Z := iram m (iram m 0).
Definition imm (v : Z) (m : m51) : Z := v.
Definition pushr (r : m51 -> Z) (m : m51) : m51 := push (r m) m.
Definition pop_psw (m : m51) : m51 := drop1 (set_psw (top m) m).
Definition pop_ar (k : Z) (m : m51) : m51 := drop1 (set_i k (top m) m).
Definition pop_b (m : m51) : m51 := drop1 (set_b (top m) m).
Definition pop_dph (m : m51) : m51 := drop1 (set_dph (top m) m).
Definition pop_dpl (m : m51) : m51 := drop1 (set_dpl (top m) m).
Definition pop_a (m : m51) : m51 := drop1 (set_a (top m) m).
Definition mov_a (r : m51 -> Z) (m : m51) : m51 := set_a (r m) m.
Definition mov_b (r : m51 -> Z) (m : m51) : m51 := set_b (r m) m.
Definition mov_dpl (r : m51 -> Z) (m : m51) : m51 := set_dpl (r m) m.
Definition mov_dph (r : m51 -> Z) (m : m51) : m51 := set_dph (r m) m.
Definition mov_psw (r : m51 -> Z) (m : m51) : m51 := set_psw (r m) m.
Definition mov_sp (r : m51 -> Z) (m : m51) : m51 := set_sp (r m) m.
Definition mov_r (k : Z) (r : m51 -> Z) (m : m51) : m51 := set_i k (r m) m.
Definition inc_r (k : Z) (m : m51) : m51 := set_i k (b8 (iram m k + 1)) m.
Definition dec_sp (m : m51) : m51 := set_sp (b8 (rsp m - 1)) m.
Definition add_a (v : Z) (m : m51) : m51 := set_a (b8 (ra m + v)) m.

Section port51.
  Context (S0 : Z).  (* __start__stack, 309-312 *)

  (** SAVE_CONTEXT_STEP1, 22-37. *)
  Definition step1 : m51 -> m51 := exec
    [pushr ra; pushr rdpl; pushr rdph; pushr rb; pushr (ar 0); pushr (ar 1); pushr (ar 2); pushr (ar 3);
     pushr (ar 4); pushr (ar 5); pushr (ar 6); pushr (ar 7); pushr rpsw; mov_psw (imm 0)].

  (** DPTR_FROM_SP, 40-46. *)
  Definition dptr_from_sp : m51 -> m51 := exec
    [mov_r 0 (imm S0); mov_dpl at_r0; inc_r 0; mov_dph at_r0; mov_b (imm 0)].

  (** SAVE_CONTEXT_STEP2, 48-59. *)
  Definition save_one : m51 -> m51 := exec
    [pop_a; (fun m => set_x (dptr m) (ra m) m); inc_dptr; mov_a rsp].
  Fixpoint save_loop (fuel : nat) (m : m51) : option m51 :=
    match fuel with
    | O => None
    | S fuel => let m := save_one m in
        if ra m =? b8 (S0 - 1) then Some m else save_loop fuel m
    end.
  Definition step2 (fuel : nat) (m : m51) : option m51 := save_loop fuel (dptr_from_sp m).

  (** PUSH_xxDPTR, 75-79. *)
  Definition push_xx : m51 -> m51 := exec [dec_dptr; mov_a (fun m => xram m (dptr m)); pushr ra].
  (** RESTORE_CONTEXT_STEP1, 81-95. *)
  Fixpoint rest_loop (fuel : nat) (m : m51) : option m51 :=
    match fuel with
    | O => None
    | S fuel =>
        let m := mov_a (ar 6) (push_xx m) in
        if negb (ra m =? rdpl m) then rest_loop fuel m else
        let m := mov_a (ar 7) m in
        if negb (ra m =? rdph m) then rest_loop fuel m else Some m
    end.
  Definition restore1 (fuel : nat) (m : m51) : option m51 :=
    rest_loop fuel (exec [mov_sp (imm (b8 (S0 - 1))); push_xx; mov_r 6 ra; push_xx; mov_r 7 ra] m).
  (** RESTORE_CONTEXT_STEP2, 97-111. *)
  Definition restore2 : m51 -> m51 := exec
    [pop_psw; pop_ar 7; pop_ar 6; pop_ar 5; pop_ar 4; pop_ar 3; pop_ar 2; pop_ar 1; pop_ar 0;
     pop_b; pop_dph; pop_dpl; pop_a].
  (** ret / reti. *)
  Definition ret : m51 -> m51 := exec
    [(fun m => drop1 (set_pch (top m) m)); (fun m => drop1 (set_pcl (top m) m))].
  Definition resume (fuel : nat) (m : m51) : option m51 :=
    match restore1 fuel m with Some m => Some (ret (restore2 m)) | None => None end.

  (** SysTick_Handler, 138-143: the interrupt pushes the program counter; [tick_in] up to the call of
      arch_timer_ack, [tick_save] from there to the call of picoRTOS_tick, then [resume]. *)
  Definition intr : m51 -> m51 := exec [pushr rpcl; pushr rpch].
  Definition tick_in (m : m51) : m51 := step1 (intr m).
  Definition tick_save := step2.

  (** Default_Handler, 147-188, around the call of the handler of the user. *)
  Definition isr_in (m : m51) : m51 := step1 (intr m).
  Definition isr_out (m : m51) : m51 := ret (restore2 m).

  (** ADD_DPTR, 126-133. *)
  Definition add_dptr (n : Z) (m : m51) : m51 :=
    let c := (rdpl m + n) / 256 in
    exec [mov_a rdpl; add_a n; mov_dpl ra; mov_a rdph; add_a c; mov_dph ra] m.

  (** arch_syscall, 235-277; [call_in] from its entry (the caller has pushed priv, and lcall its return
      address) to the call of picoRTOS_syscall; [call_save] from its return to RESTORE_CONTEXT. *)
  Definition call_args : m51 -> m51 := exec
    [dptr_from_sp; mov_a rsp; (fun m => set_a (b8 (ra m - (S0 - 1))) m); mov_r 0 ra;
     (fun m => add_dptr (iram m 0) m);
     mov_a rsp; add_a 239; mov_r 0 ra;
     mov_a at_r0; pushr ra; inc_r 0; mov_a at_r0; pushr ra; inc_r 0; mov_a at_r0; pushr ra;
     mov_a (ar 0); add_a 4; mov_r 0 ra; mov_a at_r0; pushr ra].
  Definition call_in (m : m51) : m51 := call_args (step1 m).
  Definition call_save (fuel : nat) (m : m51) : option m51 :=
    match step2 fuel (exec [mov_a rsp; add_a 252; mov_sp ra; mov_r 5 rdpl; mov_r 6 rdph] m) with
    | None => None
    | Some m => Some (exec [mov_dpl (ar 5); mov_dph (ar 6)] m)
    end.

  (** MOVX_DPTRxx, 119-123. *)
  Definition movx (r : m51 -> Z) : m51 -> m51 := exec [mov_a r; (fun m => set_x (dptr m) (ra m) m); inc_dptr].
  (** arch_save_first_context, 191-226, from its entry (dptr: sp; fn and priv on the stack) to its ret. *)
  Definition first_in : m51 -> m51 := exec
    [dec_sp; dec_sp; pop_ar 4; pop_ar 3; dec_sp; pop_ar 2; pop_ar 1].
  Definition first_out : m51 -> m51 := exec
    [movx (imm 0); movx (imm 7); movx (imm 6); movx (imm 5); movx (imm 4); movx (imm 3); movx (imm 2); movx (imm 1);
     movx (imm 0); movx (imm 0); movx (ar 2); movx (ar 1); movx (imm 65); movx (ar 4); movx (ar 3);
     movx (ar 6); movx (ar 5); mov_a rsp; add_a 7; mov_sp ra; ret].
  Definition save_first (m : m51) : m51 := first_out (first_in m).
End port51.
