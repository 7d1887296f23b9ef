(** Asm51Spec.v - what the context switch of the 8051 must do. *)
From Verif Require Import Base Asm51Model.

(** What belongs to a task: registers, r0 to r7, program counter, and its internal stack, bottom
    first; the stack starts with the address of its stack in external RAM, low byte first. *)
Record task51 := mkT51 {
  ta : Z; tb : Z; tdpl : Z; tdph : Z; tpsw : Z; tpcl : Z; tpch : Z; tr : list Z; tstk : list Z }.
Definition tbase (t : task51) : Z := nth 0 (tstk t) 0 + 256 * nth 1 (tstk t) 0.
Definition byte (v : Z) : Prop := 0 <= v < 256.

(** [t] is a task whose context fits: bytes, the bottom of its stack in place, room for [extra] more
    bytes on the internal stack (from [S0]), and for those and its context in external RAM. *)
Record fits (S0 : Z) (extra : Z) (t : task51) : Prop := {
  ft_r : length (tr t) = 8%nat;
  ft_two : (2 <= length (tstk t))%nat;
  ft_bytes : Forall byte (tstk t);
  ft_s0 : 8 <= S0;
  ft_iram : S0 + Z.of_nat (length (tstk t)) + extra <= 256;
  ft_xram : tbase t + Z.of_nat (length (tstk t)) + extra < 65536 }.

(** Task [t] is running on machine [m]. *)
Record runs (S0 : Z) (m : m51) (t : task51) : Prop := {
  rn_a : ra m = ta t; rn_b : rb m = tb t; rn_dpl : rdpl m = tdpl t; rn_dph : rdph m = tdph t;
  rn_psw : rpsw m = tpsw t; rn_pcl : rpcl m = tpcl t; rn_pch : rpch m = tpch t;
  rn_r : forall i v, tr t !! i = Some v -> iram m (Z.of_nat i) = v;
  rn_sp : rsp m = S0 - 1 + Z.of_nat (length (tstk t));
  rn_stk : forall i v, tstk t !! i = Some v -> iram m (S0 + Z.of_nat i) = v }.

(** The context of [t] in external RAM [x], under the stack pointer [sp] given to the scheduler. *)
Definition context (t : task51) : list Z :=
  tstk t ++ [tpcl t; tpch t; ta t; tdpl t; tdph t; tb t] ++ tr t ++ [tpsw t].
Definition parked (x : Z -> Z) (sp : Z) (t : task51) : Prop :=
  sp = tbase t + Z.of_nat (length (context t)) /\
  forall i v, context t !! i = Some v -> x (sp - 1 - Z.of_nat i) = v.

(** C code (arch_timer_ack, picoRTOS_tick, picoRTOS_syscall, handlers): the stack pointer and what is
    below it come back; the rest of the internal RAM, the registers and the external RAM are any. *)
Definition c_code (S0 : Z) (m m' : m51) : Prop :=
  rsp m' = rsp m /\ forall a, S0 <= a <= rsp m -> iram m' a = iram m a.
(** External RAM agrees on [lo, hi). *)
Definition same (lo hi : Z) (x y : Z -> Z) : Prop := forall a, lo <= a < hi -> x a = y a.

(** [l], bottom first, is the internal stack. *)
Definition onstack (S0 : Z) (m : m51) (l : list Z) : Prop :=
  rsp m = S0 - 1 + Z.of_nat (length l) /\ forall i v, l !! i = Some v -> iram m (S0 + Z.of_nat i) = v.

(** A task that will start at [fn], with [priv], pointer into external RAM, as its argument. *)
Definition new_task (base fn priv : Z) : task51 :=
  mkT51 65 0 (priv mod 256) (priv / 256 mod 256) 0 (fn mod 256) (fn / 256 mod 256)
    [0; 1; 2; 3; 4; 5; 6; 7] [base mod 256; base / 256].
