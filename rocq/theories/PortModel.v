(** PortModel.v - atomics, interrupt masking and interrupt controllers of the ports (arch/, paths
    under /repo), the delay macros of picoRTOS.h and the xorshift32 generator.

    Simplifications, for the whole file:
    - memory barriers, pipeline and cache instructions are not modelled: accesses take effect in
      program order;
    - registers of the assembly functions are named by Gallina variables;
    - the assertions on the range of an irq (arch_assert) are hypotheses of the theorems. *)
From Verif Require Import Base.

(** ** The processor, as seen by one atomic operation on one variable *)

(** Machine state: the variable, the reservation of load-linked / store-conditional, the interrupt
    enable flag, and the lock of the lock-based ports (None: free; Some true: held by this call; Some
    false: by somebody else). *)
Record pst := mkPst { m_var : Z; m_resv : bool; m_ie : bool; m_lock : option bool }.

(** Instructions.  [SC v] gives 1 if it stored, 0 otherwise; [TSet] gives 0 if it took the lock, 1 if
    the lock was busy. *)
Inductive pop := LL | SC (v : Z) | Clrex | Ld | St (v : Z) | Mask | Unmask | TSet | TClr.

Inductive pprog := PRet (r : Z) | POp (o : pop) (k : Z -> pprog).
Notation "x <-- o ; k" := (POp o (fun x => k)) (at level 100, o at next level, right associativity).

(** Effect of one instruction: state, result, and what it wrote to the variable (before, after). *)
Definition pexec (o : pop) (s : pst) : pst * Z * list (Z * Z) :=
  match o with
  | LL => (mkPst (m_var s) true (m_ie s) (m_lock s), m_var s, [])
  | SC v =>
      if m_resv s then (mkPst v false (m_ie s) (m_lock s), 1, [(m_var s, v)])
      else (mkPst (m_var s) false (m_ie s) (m_lock s), 0, [])
  | Clrex => (mkPst (m_var s) false (m_ie s) (m_lock s), 0, [])
  | Ld => (s, m_var s, [])
  | St v => (mkPst v (m_resv s) (m_ie s) (m_lock s), 0, [(m_var s, v)])
  | Mask => (mkPst (m_var s) (m_resv s) false (m_lock s), 0, [])
  | Unmask => (mkPst (m_var s) (m_resv s) true (m_lock s), 0, [])
  | TSet =>
      match m_lock s with
      | None => (mkPst (m_var s) (m_resv s) (m_ie s) (Some true), 0, [])
      | Some _ => (s, 1, [])
      end
  | TClr => (mkPst (m_var s) (m_resv s) (m_ie s) None, 0, [])
  end.

(** What the rest of the system may do between two instructions: write the variable (which costs the
    reservation), lose the reservation for any other reason, take or release the lock of lock-based
    ports.  Writes need interrupts enabled; on the lock-based ports everybody else writes the
    variable while holding the lock. *)
Inductive penv := EWrite (v : Z) | ELose | ELock | EUnlock.
Definition penv_step (s : pst) (e : penv) : pst :=
  match e with
  | EWrite v =>
      if m_ie s && negb (bool_decide (m_lock s = Some true))
      then mkPst v false (m_ie s) (m_lock s) else s
  | ELose => mkPst (m_var s) false (m_ie s) (m_lock s)
  | ELock => match m_lock s with None => mkPst (m_var s) (m_resv s) (m_ie s) (Some false) | _ => s end
  | EUnlock => match m_lock s with Some false => mkPst (m_var s) (m_resv s) (m_ie s) None | _ => s end
  end.

(** A run: before each instruction the rest of the system does [env i].  Result: final state,
    returned value, own writes. *)
Fixpoint prun (p : pprog) (env : nat -> list penv) (s : pst) : pst * Z * list (Z * Z) :=
  match p with
  | PRet r => (s, r, [])
  | POp o k =>
      let '(s1, v, w) := pexec o (fold_left penv_step (env O) s) in
      let '(s2, r, w') := prun (k v) (fun i => env (S i)) s1 in
      (s2, r, w ++ w')
  end.

(** *** arch_compare_and_swap *)

(** arch/arm/armv7-m/picoRTOS_portasm.S:98-114, arch/arm/armv7e-m/picoRTOS_portasm.S:107-123
    (strex gives 0 when it stored). *)
Definition cas_armv7m (old val : Z) : pprog :=
  r3 <-- LL;
  if r3 =? old then
    (ok <-- SC val;
     if negb (1 - ok =? 0) then PRet val else PRet old)
  else (_ <-- Clrex; PRet val).

(** arch/powerpc/e200z4/picoRTOS_portasm.S:93-108, arch/powerpc/e200z7/picoRTOS_portasm.S:133-148
    (sthcx. sets EQ when it stored). *)
Definition cas_e200 (old val : Z) : pprog :=
  r7 <-- LL;
  if r7 =? old then
    (ok <-- SC val;
     if negb (ok =? 1) then PRet val else PRet old)
  else (_ <-- SC r7; PRet val).

(** arch/riscv/rv32imac/picoRTOS_portasm.S:187-199 (sc.w gives 0 when it stored). *)
Definition cas_rv32imac (old val : Z) : pprog :=
  t0 <-- LL;
  if t0 =? old then
    (ok <-- SC val;
     if 1 - ok =? 0 then PRet val else PRet old)
  else (_ <-- SC t0; PRet val).

(** arch/mips/m51xx/picoRTOS_portasm.S:354-367 (sc replaces a2 by 1 when it stored, 0 otherwise). *)
Definition cas_m51xx (old val : Z) : pprog :=
  at_ <-- LL;
  if at_ =? old then
    (a2 <-- SC val;
     if a2 =? 0 then PRet a2 else PRet old)
  else (_ <-- SC at_; PRet val).

(** arch/avr/picoRTOS_port.c:63-76, arch/arm/armv6-m/picoRTOS_port.c:78-91,
    arch/stm8/picoRTOS_port.c:78-92, arch/riscv/rv32ec/picoRTOS_port.c:49-62,
    arch/8051/picoRTOS_portasm.S:280-298, arch/pthread/linux/picoRTOS_port.c:200-213,
    arch/win32/picoRTOS_port.c:116-129: cli / cpsid / sim / csrci / clr ea / SIG_BLOCK mask the
    interrupts. *)
Definition cas_masked (old val : Z) : pprog :=
  _ <-- Mask;
  x <-- Ld;
  if x =? old then (_ <-- St val; _ <-- Unmask; PRet old)
  else (_ <-- Unmask; PRet val).

(** arch/hcs08/picoRTOS_port.c:64-77: the same text, but on the HCS08 CLI clears the mask bit
    (interrupts enabled) and SEI sets it. *)
Definition cas_hcs08 (old val : Z) : pprog :=
  _ <-- Unmask;
  x <-- Ld;
  if x =? old then (_ <-- St val; _ <-- Mask; PRet old)
  else (_ <-- Mask; PRet val).

(** arch/c2000/c28x/picoRTOS_port.c:92-109 (arch_test_and_set is the instruction TSET),
    arch/arm/armv6-m/mach-rp2040/picoRTOS-SMP_port.c:265-280 (reading SIO_SPINLOCK1 gives non-zero
    when it took the lock). *)
Definition cas_locked (old val : Z) : pprog :=
  b <-- TSet;
  if b =? 0 then
    (res <-- Ld;
     if res =? old then (_ <-- St val; _ <-- TClr; PRet res)
     else (_ <-- TClr; PRet res))
  else PRet val.

(** *** arch_test_and_set (all ports but c28x): armv7-m picoRTOS_port.c:80-83 etc. *)
Definition tas_of (cas : Z -> Z -> pprog) : pprog := cas 0 1.

(** *** Critical sections *)

(** arch_suspend / arch_resume: armv6-m picoRTOS_port.c:48-58, armv7-m 51-61, armv7e-m 51-61,
    avr 33-43, stm8 36-46, 8051 34-44, e200z4 42-52, e200z7 39-49, rv32ec 20-30, rv32imac 30-40,
    m51xx 47-57, c28x 61-71, pthread 118-134, win32 35-43. *)
Definition suspend_std : list pop := [Mask].
Definition resume_std : list pop := [Unmask].
(** hcs08 picoRTOS_port.c:34-44: cli and sei the other way round. *)
Definition suspend_hcs08 : list pop := [Unmask].
Definition resume_hcs08 : list pop := [Mask].

(** Ports. *)
Inductive port :=
  AVR | ARMv6M | STM8 | MCS51 | RV32EC | PTHREAD | WIN32 | HCS08 | ARMv7M | ARMv7EM | E200Z4 | E200Z7
  | RV32IMAC | M51XX | C28X | RP2040.
Definition port_cas (p : port) : Z -> Z -> pprog :=
  match p with
  | AVR | ARMv6M | STM8 | MCS51 | RV32EC | PTHREAD | WIN32 => cas_masked
  | HCS08 => cas_hcs08
  | ARMv7M | ARMv7EM => cas_armv7m
  | E200Z4 | E200Z7 => cas_e200
  | RV32IMAC => cas_rv32imac
  | M51XX => cas_m51xx
  | C28X | RP2040 => cas_locked
  end.
Definition port_suspend (p : port) : list pop := match p with HCS08 => suspend_hcs08 | _ => suspend_std end.
Definition port_resume (p : port) : list pop := match p with HCS08 => resume_hcs08 | _ => resume_std end.

(** c28x has its own arch_test_and_set (picoRTOS_portasm.asm:181-188), on the futex itself. *)
Definition port_tas (p : port) : pprog :=
  match p with C28X => (b <-- TSet; PRet b) | _ => tas_of (port_cas p) end.

(** Non-blocking calls a task may make in a critical section: picoRTOS_futex_trylock
    (ipc/picoRTOS_futex.c:37-43), picoRTOS_futex_unlock (ipc/picoRTOS_futex.c:77-81),
    picoRTOS_mutex_trylock (ipc/picoRTOS_mutex.c:41-56) and the release of a mutex
    (ipc/picoRTOS_mutex.c:91-103).  Only their effect on the variable and on the flag is kept. *)
Inductive crit_call := FutexTry | FutexUnlock | MutexTry (pid : Z) | MutexRelease.
Definition crit_body (p : port) (c : crit_call) : pprog :=
  match c with
  | FutexTry => port_tas p
  | FutexUnlock => (_ <-- St 0; PRet 0)
  | MutexTry pid => port_cas p (-1) pid
  | MutexRelease => (_ <-- St (-1); PRet 0)
  end.

(** Interrupt flag after each instruction of a run, in order. *)
Fixpoint flags (pr : pprog) (env : nat -> list penv) (s : pst) : list bool :=
  match pr with
  | PRet _ => []
  | POp o k =>
      let '(s1, v, _) := pexec o (fold_left penv_step (env O) s) in
      m_ie s1 :: flags (k v) (fun i => env (S i)) s1
  end.
Definition seq_ops (ops : list pop) (s : pst) : pst := fold_left (fun s o => fst (fst (pexec o s))) ops s.
Fixpoint crit_flags (p : port) (cs : list crit_call) (env : nat -> nat -> list penv) (s : pst) : list bool :=
  match cs with
  | [] => []
  | c :: cs =>
      flags (crit_body p c) (env O) s ++
      crit_flags p cs (fun i => env (S i)) (fst (fst (prun (crit_body p c) (env O) s)))
  end.

(** ** Interrupt controllers *)

(** Registers of a controller, by index. *)
Definition regs := Z -> Z.
Definition rupd (r : regs) (i v : Z) : regs := fun j => if j =? i then v else r j.

(** NVIC_ISER: the bits written as 1 are enabled, the others are left alone (ARMv6-M / ARMv7-M
    Architecture Reference Manual, Interrupt Set-Enable Registers); reading gives the enabled set. *)
Definition w1s_write (r : regs) (i v : Z) : regs := rupd r i (Z.lor (r i) v).

(** Clear bit [b] of a 32-bit register value: v & ~(1ul << b). *)
Definition clr_bit (w v b : Z) : Z := Z.land v (Z.ldiff (Z.ones w) (Z.shiftl 1 b)).
Definition set_bit (v b : Z) : Z := Z.lor v (Z.shiftl 1 b).

(** arch/arm/armv7-m/picoRTOS_port.c:100-110, armv7e-m the same. *)
Definition nvic_enable (r : regs) (irq : Z) : regs :=
  w1s_write r (Z.shiftr irq 5) (set_bit (r (Z.shiftr irq 5)) (Z.land 31 irq)).
Definition nvic_disable (r : regs) (irq : Z) : regs :=
  w1s_write r (Z.shiftr irq 5) (clr_bit 32 (r (Z.shiftr irq 5)) (Z.land 31 irq)).
Definition nvic_enabled (r : regs) (irq : Z) : bool := Z.testbit (r (Z.shiftr irq 5)) (Z.land 31 irq).

(** arch/arm/armv6-m/picoRTOS_port.c:113-123: one register (irq < 26). *)
Definition nvic6_enable (r : regs) (irq : Z) : regs := w1s_write r 0 (set_bit (r 0) irq).
Definition nvic6_disable (r : regs) (irq : Z) : regs := w1s_write r 0 (clr_bit 32 (r 0) irq).
Definition nvic6_enabled (r : regs) (irq : Z) : bool := Z.testbit (r 0) irq.

(** arch/riscv/rv32ec/mach-ch32v003/intc-pfic.c:58-82; IENRx is write-1-to-set as well (QingKe V2
    manual, PFIC_IENRx). Registers: 0 is IENR1, 1 is IENR2. *)
Definition pfic_reg (irq : Z) : Z := if irq <? 16 then 0 else 1.
Definition pfic_bit (irq : Z) : Z := if irq <? 16 then irq + 16 else irq - 16.
Definition pfic_enable (r : regs) (irq : Z) : regs :=
  w1s_write r (pfic_reg irq) (set_bit (r (pfic_reg irq)) (pfic_bit irq)).
Definition pfic_disable (r : regs) (irq : Z) : regs :=
  w1s_write r (pfic_reg irq) (clr_bit 32 (r (pfic_reg irq)) (pfic_bit irq)).
Definition pfic_enabled (r : regs) (irq : Z) : bool := Z.testbit (r (pfic_reg irq)) (pfic_bit irq).

(** arch/mips/m51xx/mach-pic32mz/intc.c:38-68, the IEC registers (the priority registers IPC and the
    flags IFS are not modelled). *)
Definition iec_enable (r : regs) (irq : Z) : regs :=
  rupd r (Z.shiftl (Z.shiftr irq 5) 2) (set_bit (r (Z.shiftl (Z.shiftr irq 5) 2)) (Z.land 31 irq)).
Definition iec_disable (r : regs) (irq : Z) : regs :=
  rupd r (Z.shiftl (Z.shiftr irq 5) 2) (clr_bit 32 (r (Z.shiftl (Z.shiftr irq 5) 2)) (Z.land 31 irq)).
(** Hardware: bit (irq mod 32) of IEC number (irq / 32), each followed by three aliases. *)
Definition iec_enabled (r : regs) (irq : Z) : bool := Z.testbit (r (4 * (irq / 32))) (irq mod 32).

(** arch/riscv/rv32imac/mach-gd32vf103/intc-eclic.c:29-40: one byte clicintie per irq. *)
Definition eclic_enable (r : regs) (irq : Z) : regs := rupd r irq 1.
Definition eclic_disable (r : regs) (irq : Z) : regs := rupd r irq 0.
Definition eclic_enabled (r : regs) (irq : Z) : bool := Z.testbit (r irq) 0.

(** arch/powerpc/e200z4/mach-mpc574x/intc-siul2.c:63-82, on core [core]; one 16-bit PSR per irq. *)
Definition psr4_enable (core : Z) (r : regs) (irq : Z) : regs :=
  rupd r irq (wrap 16 (Z.lor (Z.shiftr (2 ^ 15) core) (Z.land 1 15))).
Definition psr4_disable (core : Z) (r : regs) (irq : Z) : regs :=
  rupd r irq (Z.land (r irq) (Z.ldiff (Z.ones 16) (Z.shiftr (2 ^ 15) core))).
(** Hardware: delivered to core [core] when its select bit is set and the priority is not 0. *)
Definition psr4_enabled (core : Z) (r : regs) (irq : Z) : bool :=
  Z.testbit (r irq) (15 - core) && negb (Z.land (r irq) 15 =? 0).

(** intc-siul2.c:109-139: prc_sel_from_mask, arch_smp_enable_interrupt, arch_smp_disable_interrupt. *)
Definition psr4_mask (m : Z) : Z :=
  Z.lor (Z.lor (if negb (Z.land 1 m =? 0) then 2 ^ 15 else 0) (if negb (Z.land 2 m =? 0) then 2 ^ 14 else 0))
        (if negb (Z.land 4 m =? 0) then 2 ^ 13 else 0).
Definition psr4_smp_enable (m : Z) (r : regs) (irq : Z) : regs :=
  rupd r irq (Z.lor (psr4_mask m) (Z.land 1 15)).
Definition psr4_smp_disable (m : Z) (r : regs) (irq : Z) : regs :=
  rupd r irq (Z.land (r irq) (Z.ldiff (Z.ones 16) (psr4_mask m))).

(** arch/powerpc/e200z7/mach-mpc577x/intc-siu.c:59-81, on core [core]; one byte PSR per irq:
    bits 7-6 select the processor (0: core 0, 1: both, 3: core 1), bits 3-0 are the priority. *)
Definition psr7_sel (x : Z) : Z := Z.shiftl (Z.land x 3) 6.
Definition psr7_enable (core : Z) (r : regs) (irq : Z) : regs :=
  rupd r irq (Z.lor (if negb (core =? 0) then psr7_sel 3 else psr7_sel 0) (Z.land 1 15)).
Definition psr7_disable (r : regs) (irq : Z) : regs :=
  rupd r irq (Z.land (r irq) (Z.ldiff (Z.ones 8) 15)).
(** Hardware: delivered to core 0 or 1 according to the selection, when the priority is not 0. *)
Definition psr7_enabled (core : Z) (r : regs) (irq : Z) : bool :=
  negb (Z.land (r irq) 15 =? 0) &&
  match Z.shiftr (r irq) 6 with 0 => core =? 0 | 1 => true | 3 => core =? 1 | _ => false end.

(** intc-siu.c:113-154, arch_smp_enable_interrupt. *)
Definition psr7_smp_enable (m : Z) (r : regs) (irq : Z) : regs :=
  let psr := r irq in
  let sel := Z.shiftr psr 6 in
  let psr' :=
    if Z.land psr 15 =? 0 then
      (if m =? 1 then psr7_sel 0 else if m =? 2 then psr7_sel 3 else psr7_sel 1)
    else if sel =? 0 then (if negb (Z.land m 2 =? 0) then psr7_sel 1 else psr)
    else if sel =? 1 then psr
    else if sel =? 3 then (if negb (Z.land m 1 =? 0) then psr7_sel 1 else psr)
    else psr in
  rupd r irq (Z.lor psr' (Z.land 1 15)).
(** intc-siu.c:156-196, arch_smp_disable_interrupt. *)
Definition psr7_smp_disable (m : Z) (r : regs) (irq : Z) : regs :=
  let psr := r irq in
  let sel := Z.shiftr psr 6 in
  let '(psr', prin) :=
    if sel =? 0 then (psr, if negb (Z.land m 1 =? 0) then 0 else Z.land 1 15)
    else if sel =? 1 then
      let p1 := if Z.land m 3 =? 1 then psr7_sel 3 else psr in
      let p2 := if Z.land m 3 =? 2 then psr7_sel 0 else p1 in
      (p2, if Z.land m 3 =? 3 then 0 else Z.land 1 15)
    else if sel =? 3 then (psr, if negb (Z.land m 2 =? 0) then 0 else Z.land 1 15)
    else (psr, Z.land 1 15) in
  rupd r irq (Z.lor psr' prin).

(** arch/c2000/c28x/picoRTOS_port.c:130-153, arch_set_irq_status (irq is 16 bits; IRQ_INT1_1 = 32,
    IRQ_INT1_9 = 128, mach-f28379x/picoRTOS_device.h:78-86).  PIEIERx has 12 registers; an index out of
    range is undefined behaviour. *)
Definition pie_index (irq : Z) : Z :=
  if irq <? 128 then Z.shiftr (wrap 16 (irq - 128)) 3 else Z.shiftr (Z.land 127 irq) 3.
Definition pie_bit (irq : Z) : Z :=
  if irq <? 128 then Z.land 7 (wrap 16 (irq - 128)) else Z.land 7 irq + 8.
Definition pie_set (enable : bool) (r : list Z) (irq : Z) : res (list Z) :=
  let! v := aget r (pie_index irq) in
  aset r (pie_index irq) (if enable then set_bit v (pie_bit irq) else clr_bit 16 v (pie_bit irq)).
(** Hardware: vector INTg.n is number 32 + 8 (g-1) + (n-1) for n <= 8, 128 + 8 (g-1) + (n-9) above. *)
Definition pie_enabled (r : list Z) (irq : Z) : bool :=
  match r !! Z.to_nat (if irq <? 128 then (irq - 32) / 8 else (irq - 128) / 8) with
  | Some v => Z.testbit v (if irq <? 128 then irq mod 8 else irq mod 8 + 8)
  | None => false
  end.

(** arch/avr/picoRTOS_port.c:101-113, arch/stm8/picoRTOS_port.c:115-125, arch/hcs08/picoRTOS_port.c:101-111:
    no effect. *)
Definition none_enable (r : regs) (_ : Z) : regs := r.
Definition none_disable (r : regs) (_ : Z) : regs := r.

(** ** picoRTOS.h *)

(** PICORTOS_DELAY_SEC / MSEC / USEC, picoRTOS.h:70-86: computed in an unsigned type of [wa] bits,
    then cast to a picoRTOS_tick_t of [w] bits. *)
Definition delay_sec (wa w hz x : Z) : Z := wrap w (wrap wa (x * hz)).
Definition delay_msec (wa w hz x : Z) : Z := wrap w (wrap wa (wrap wa (x * hz) + 999) / 1000).
Definition delay_usec (wa w hz x : Z) : Z := wrap w (wrap wa (wrap wa (x * hz) + 999999) / 1000000).

(** PICORTOS_DELAY_ELAPSED, picoRTOS.h:95; [now] is picoRTOS_get_tick(). *)
Definition delay_elapsed (w now ref x : Z) : bool := negb (wrap w (now - ref) <? x).

(** ** drivers/rng/rng-xorshift32.c *)

(** xorshift32, lines 6-13. *)
Definition xorshift32 (v : Z) : Z :=
  let v1 := Z.lxor v (wrap 32 (Z.shiftl v 13)) in
  let v2 := Z.lxor v1 (Z.shiftr v1 17) in
  Z.lxor v2 (wrap 32 (Z.shiftl v2 5)).

(** rng_xorshift32_init, lines 25-30: the new pool. *)
Definition rng_init (seed : Z) : Z := xorshift32 seed.

(** rng_read, lines 36-60; [fuel] bounds the do-while loop of the model.  Result: bytes written,
    count left, pool. *)
Definition rng_chunk (count : nat) (pool : Z) : list Z * nat :=
  let b k := wrap 8 (Z.shiftr pool k) in
  match count with
  | O => ([], O)
  | 1%nat => ([b 0], O)
  | 2%nat => ([b 8; b 0], O)
  | 3%nat => ([b 16; b 8; b 0], O)
  | S (S (S (S c))) => ([b 24; b 16; b 8; b 0], c)
  end.
Fixpoint rng_loop (fuel count : nat) (pool : Z) : res (list Z * nat * Z) :=
  match fuel with
  | O => Fuel
  | S f =>
      let '(bs, c) := rng_chunk count pool in
      let pool' := xorshift32 pool in
      if (0 <? c)%nat then
        let! (bs', c', pool'') := rng_loop f c pool' in
        Ok (bs ++ bs', c', pool'')
      else Ok (bs, c, pool')
  end.
(** Result: value returned, bytes, pool. [n = 0] fails its assertion (picoRTOS_assert: -EINVAL). *)
Definition rng_read (n : nat) (pool : Z) : res (Z * list Z * Z) :=
  match n with
  | O => Ok (-22, [], pool)
  | _ =>
      let! (bs, c, pool') := rng_loop n n pool in
      Ok (Z.of_nat n - Z.of_nat c, bs, pool')
  end.
