(** IrqModel.v - registration and dispatch of interrupt handlers, and enabling and disabling of
    interrupts, on every port.

    Memory: [mem a] is the value (a pointer) stored at address [a]; addresses are in bytes, in 16-bit words
    on c28x; pointers are not cut into bytes.  [wrap] (Base.v) gives the arithmetic of the registers.
    The saving and restoring of the context around the dispatch is AsmModel, Asm51Model, Asm28Model. *)
From Verif Require Import Base.
Local Open Scope Z_scope.

Definition memory := Z -> Z.
Definition sto (m : memory) (a v : Z) : memory := fun b => if b =? a then v else m b.

(** Where the handler returns to when it has run: the instructions that restore the context; the return
    address of the interrupted task (left in the link register); the instructions that look the handler up. *)
Inductive link := Epilogue | TaskLink | Lookup.
(** What an interrupt leads to: a debug break for ever (isr_fn_is_null), or a call fn(priv). *)
Inductive outcome := Halted | Called (fn priv : Z) (back : link).

(** A port: [ip_reg] = arch_register_interrupt, with the addresses of its (one or two) tables; [ip_seen]:
    what the handler reads from the hardware when irq is served; [ip_isr]: from there to the call;
    [ip_size]: the room the tables are given; [ip_irq]: the interrupts of the device. *)
Record iport := {
  ip_irq : Z -> bool;
  ip_reg : Z * Z -> Z -> Z -> Z -> memory -> memory;
  ip_seen : Z * Z -> Z -> Z;
  ip_isr : Z * Z -> Z -> memory -> outcome;
  ip_size : Z * Z }.

Definition below (n irq : Z) : bool := (0 <=? irq) && (irq <? n).
(** ISR_TABLE[irq].fn = fn; ISR_TABLE[irq].priv = priv, for pointers of [p] units; nothing if irq is not
    below [n] = DEVICE_INTERRUPT_VECTOR_COUNT. *)
Definition reg_table (n p base irq fn priv : Z) (m : memory) : memory :=
  if below n irq then sto (sto m (base + 2 * p * irq) fn) (base + 2 * p * irq + p) priv else m.
(** Load fn and priv at [a] and [a + p], halt on a null fn, call. *)
Definition call_entry (a p : Z) (back : link) (m : memory) : outcome :=
  if m a =? 0 then Halted else Called (m a) (m (a + p)) back.

(** arch/arm/armv6-m/picoRTOS_port.c:106-111, armv7-m/picoRTOS_port.c:93-98, armv7e-m/picoRTOS_port.c:93-98;
    Default_Handler, armv7-m/picoRTOS_portasm.S:117-137 (the same in armv6-m and armv7e-m): IPSR is irq + 16. *)
Definition arm (n : Z) : iport := {|
  ip_irq := below n;
  ip_reg := fun b => reg_table n 4 (fst b);
  ip_seen := fun _ irq => irq + 16;
  ip_isr := fun b ipsr => let r0 := wrap 32 (Z.shiftl (wrap 32 (ipsr - 16)) 3) in call_entry (wrap 32 (fst b + r0)) 4 Epilogue;
  ip_size := (8 * n, 0) |}.

(** arch/powerpc/e200z4/mach-mpc574x/intc-siul2.c:55-61 and 85-88, e200z7/mach-mpc577x/intc-siu.c:51-57;
    ExternalInput_Handler, e200z4/picoRTOS_portasm.S:130-153 (the same in e200z7): IACKR is the 20 upper bits
    of the base given at initialization and four times the number of the interrupt; rlwinm keeps bits 1 to 11. *)
Definition e200 (n : Z) : iport := {|
  ip_irq := below n;
  ip_reg := fun b irq fn priv m => if below n irq then sto (sto m (fst b + 4 * irq) fn) (snd b + 4 * irq) priv else m;
  ip_seen := fun b irq => Z.lor (Z.ldiff (fst b) 4095) (4 * irq);
  ip_isr := fun b r3 m => if m r3 =? 0 then Halted else Called (m r3) (m (wrap 32 (Z.land r3 4094 + snd b))) Epilogue;
  ip_size := (4 * n, 4 * n) |}.

(** arch/stm8/picoRTOS_port.c:107-113; IRQ_HANDLER in include/macros.S puts the number in the 8-bit a;
    Default_Handler, picoRTOS_portasm.S:62-84. *)
Definition stm8 (n : Z) : iport := {|
  ip_irq := below n;
  ip_reg := fun b => reg_table n 2 (fst b);
  ip_seen := fun _ irq => irq;
  ip_isr := fun b a => let a := wrap 8 (2 * wrap 8 (2 * a)) in call_entry (wrap 16 (fst b + a)) 2 Epilogue;
  ip_size := (4 * n, 0) |}.

(** arch/hcs08/picoRTOS_port.c:93-99; Default_Handler, picoRTOS_portasm.S:73-103: low byte, then high byte
    with carry.  [n] = 37 but the interrupts of mc9s08ptxx are 0 to 37 (picoRTOS_device.h:54-96). *)
Definition hcs08 (n : Z) (irqs : Z) : iport := {|
  ip_irq := below irqs;
  ip_reg := fun b => reg_table n 2 (fst b);
  ip_seen := fun _ irq => irq;
  ip_isr := fun b a =>
    let a := wrap 8 (2 * wrap 8 (2 * a)) in
    let lo := a + wrap 8 (fst b) in
    let x := wrap 8 lo in let h := wrap 8 (lo / 256 + wrap 8 (fst b / 256)) in
    call_entry (256 * h + x) 2 Epilogue;
  ip_size := (4 * n, 0) |}.

(** arch/8051/picoRTOS_port.c:74-80; Default_Handler, picoRTOS_portasm.S:146-188: entries of 5 bytes, fn on two and
    priv on three, the third of which (the kind of memory, 0 for xdata) is replaced by 0; no check of fn. *)
Definition mcs51 (n : Z) : iport := {|
  ip_irq := below n;
  ip_reg := fun b irq fn priv m => if below n irq
    then sto (sto (sto m (fst b + 5 * irq) fn) (fst b + 5 * irq + 2) (wrap 16 priv)) (fst b + 5 * irq + 4) (priv / 65536) else m;
  ip_seen := fun _ irq => irq;
  ip_isr := fun b vn m =>
    let a := wrap 8 (vn * 5) in
    let lo := a + wrap 8 (fst b) in
    let dptr := 256 * wrap 8 (fst b / 256 + lo / 256) + wrap 8 lo in
    Called (m dptr) (m (wrap 16 (dptr + 2))) Epilogue;
  ip_size := (5 * n, 0) |}.

(** arch/avr/picoRTOS_port.c:92-99: interrupts are 1 to [n]; __vector_(i+1) and vector_isr_handler,
    picoRTOS_portasm.S:179-212: no check of fn; the room of the table is [n] bytes (:180). *)
Definition avr (n : Z) : iport := {|
  ip_irq := fun irq => (1 <=? irq) && (irq <=? n);
  ip_reg := fun b irq fn priv m => if (1 <=? irq) && (irq <=? n)
    then sto (sto m (fst b + 4 * (irq - 1)) fn) (fst b + 4 * (irq - 1) + 2) priv else m;
  ip_seen := fun _ irq => irq;
  ip_isr := fun b vec m => let y := wrap 16 (fst b + 4 * (vec - 1)) in Called (m y) (m (y + 2)) Epilogue;
  ip_size := (n, 0) |}.

(** arch/riscv/rv32ec/mach-ch32v003/intc-pfic.c:51-56, rv32imac/mach-gd32vf103/intc-eclic.c:22-27;
    PlatformDefined_Handler, rv32ec/picoRTOS_portasm.S:134-153, rv32imac/picoRTOS_portasm.S:204-223.  [first]: the exception
    code of interrupt 0: 16 on ch32v003; on gd32vf103 the interrupts are numbered like the codes.
    jr does not write the link register: it is the task's. *)
Definition riscv (n first : Z) (irqs : Z -> bool) : iport := {|
  ip_irq := irqs;
  ip_reg := fun b => reg_table n 4 (fst b);
  ip_seen := fun _ irq => irq + first;
  ip_isr := fun b mcause => let t1 := wrap 32 (Z.shiftl (wrap 32 (Z.land mcause 4095 - 16)) 2) in
    call_entry (wrap 32 (fst b + t1)) 4 TaskLink;
  ip_size := (8 * n, 0) |}.
Definition ch32v003 : iport := riscv 23 16 (below 23).
Definition gd32vf103 : iport := riscv 68 0 (fun irq => (17 <=? irq) && (irq <? 68)).

(** arch/mips/m51xx/mach-pic32mz/intc.c:30-36; Interrupt_Handler, m51xx/picoRTOS_portasm.S:369-396: the number is the low
    byte of INTSTAT; jr does not write ra, which is the return address of the call of arch_get_interrupt. *)
Definition pic32mz (n : Z) : iport := {|
  ip_irq := below n;
  ip_reg := fun b => reg_table n 4 (fst b);
  ip_seen := fun _ irq => Z.land irq 255;
  ip_isr := fun b v0 => call_entry (wrap 32 (fst b + wrap 32 (Z.shiftl v0 3))) 4 Lookup;
  ip_size := (8 * n, 0) |}.

(** arch/c2000/c28x/picoRTOS_port.c:119-128: interrupts are 32 to 223, entries of four words; Default_Handler,
    picoRTOS_portasm.asm:192-214 (numbers outside are not looked at: without NDEBUG they stop in the debugger): PIECTRL is the address (0xd00 + two words per interrupt) of the vector, with ENPIE as bit 0. *)
Definition c28x : iport := {|
  ip_irq := fun irq => (32 <=? irq) && (irq <=? 223);
  ip_reg := fun b irq fn priv m => if (32 <=? irq) && (irq <=? 223)
    then sto (sto m (fst b + 4 * (irq - 32)) fn) (fst b + 4 * (irq - 32) + 2) priv else m;
  ip_seen := fun _ irq => Z.lor (3328 + 2 * irq) 1;
  ip_isr := fun b piectrl => let acc := Z.shiftl (Z.land (piectrl - 3328) 510) 1 in call_entry (fst b + acc) 2 Epilogue;
  ip_size := (4 * 192, 0) |}.

(** * Enabling and disabling *)

(** An interrupt controller as an array of registers, by number. *)
Definition regs := Z -> Z.
Definition setw (r : regs) (i v : Z) : regs := fun j => if j =? i then v else r j.

(** A controller: how the port enables and disables, and what the hardware makes of the registers:
    is interrupt irq let through to the core. *)
Record ictl := { ic_enable : Z -> regs -> regs; ic_disable : Z -> regs -> regs; ic_on : regs -> Z -> bool }.

Definition bit (k : Z) : Z := Z.shiftl 1 k.
(** ~x on 32 bits. *)
Definition inv32 (x : Z) : Z := 2 ^ 32 - 1 - x.

(** NVIC_ISER: reads the enabled interrupts, a write enables those whose bit is 1 and changes no other
    (ARMv7-M Architecture Reference Manual B3.4.4; ARMv6-M B3.4.3). *)
Definition wr_set (i v : Z) (r : regs) : regs := setw r i (Z.lor (r i) v).
(** arch/arm/armv7-m/picoRTOS_port.c:100-110, armv7e-m/picoRTOS_port.c:100-110, armv6-m/picoRTOS_port.c:113-123. *)
Definition nvic (n : Z) : ictl := {|
  ic_enable := fun irq r => if below n irq then wr_set (Z.shiftr irq 5) (Z.lor (r (Z.shiftr irq 5)) (bit (Z.land 31 irq))) r else r;
  ic_disable := fun irq r => if below n irq then wr_set (Z.shiftr irq 5) (Z.land (r (Z.shiftr irq 5)) (inv32 (bit (Z.land 31 irq)))) r else r;
  ic_on := fun r irq => Z.testbit (r (irq / 32)) (irq mod 32) |}.

(** arch/riscv/rv32ec/mach-ch32v003/intc-pfic.c:58-82: IENR1 and IENR2 are written the same way (CH32V003 reference manual,
    6.5.2); they hold the interrupts from exception code 0, 32 in each. *)
Definition pfic (n : Z) : ictl := {|
  ic_enable := fun irq r => if below n irq then
      if irq <? 16 then wr_set 0 (Z.lor (r 0) (bit (irq + 16))) r else wr_set 1 (Z.lor (r 1) (bit (irq - 16))) r else r;
  ic_disable := fun irq r => if below n irq then
      if irq <? 16 then wr_set 0 (Z.land (r 0) (inv32 (bit (irq + 16)))) r else wr_set 1 (Z.land (r 1) (inv32 (bit (irq - 16)))) r else r;
  ic_on := fun r irq => Z.testbit (r ((irq + 16) / 32)) ((irq + 16) mod 32) |}.

(** arch/riscv/rv32imac/mach-gd32vf103/intc-eclic.c:29-40: one byte clicintie per interrupt (clicintattr not modelled). *)
Definition eclic (n : Z) : ictl := {|
  ic_enable := fun irq r => if below n irq then setw r irq 1 else r;
  ic_disable := fun irq r => if below n irq then setw r irq 0 else r;
  ic_on := fun r irq => Z.testbit (r irq) 0 |}.

(** arch/mips/m51xx/mach-pic32mz/intc.c:38-69.  Registers IECn as 0, 1, ..., IPCn as 100, 101, ... (IFS is not
    modelled).  An interrupt goes through if it is enabled and its priority, bits 2 to 4 of byte irq mod 4 of
    IPC(irq / 4), is not 0 (PIC32MZ EF data sheet, 7.2 and register 7-7). *)
Definition ipc0 : Z := 100.
Definition ipri (r : regs) (irq : Z) : Z := Z.land (Z.shiftr (r (ipc0 + irq / 4)) (8 * (irq mod 4) + 2)) 7.
Definition pic32 (n : Z) : ictl := {|
  ic_enable := fun irq r => if below n irq then
      let r := setw r (ipc0 + Z.shiftr irq 6) (Z.lor (r (ipc0 + Z.shiftr irq 6)) (Z.shiftl 5 (Z.shiftl (Z.land 1 irq) 4))) in
      setw r (Z.shiftr irq 5) (Z.lor (r (Z.shiftr irq 5)) (bit (Z.land 31 irq))) else r;
  ic_disable := fun irq r => if below n irq then
      setw r (Z.shiftr irq 5) (Z.land (r (Z.shiftr irq 5)) (inv32 (bit (Z.land 31 irq)))) else r;
  ic_on := fun r irq => Z.testbit (r (irq / 32)) (irq mod 32) && negb (ipri r irq =? 0) |}.

(** arch/powerpc/e200z4/mach-mpc574x/intc-siul2.c:63-81, on core [core]: PSRn selects cores 0, 1, 2 by bits 15, 14, 13 and
    holds the priority, 0 to disable (MPC5744P reference manual, INTC_PSRn). *)
Definition z4_on (core : Z) (r : regs) (irq : Z) : bool := Z.testbit (r irq) (15 - core) && negb (Z.land (r irq) 15 =? 0).
Definition intc_z4 (n core : Z) : ictl := {|
  ic_enable := fun irq r => if below n irq then setw r irq (wrap 16 (Z.lor (Z.shiftr 32768 core) 1)) else r;
  ic_disable := fun irq r => if below n irq then setw r irq (Z.land (r irq) (Z.lnot (Z.shiftr 32768 core))) else r;
  ic_on := z4_on core |}.

(** arch/powerpc/e200z7/mach-mpc577x/intc-siu.c:62-83: PSRn (8 bits) selects core 0, both or core 1 by 0, 1 or 3 in bits 6 and 7. *)
Definition z7_on (core : Z) (r : regs) (irq : Z) : bool :=
  negb (Z.land (r irq) 15 =? 0) &&
  (let sel := Z.shiftr (r irq) 6 in (sel =? 1) || ((sel =? 0) && (core =? 0)) || ((sel =? 3) && (core =? 1))).
Definition intc_z7 (n core : Z) : ictl := {|
  ic_enable := fun irq r => if below n irq then setw r irq (Z.lor (Z.shiftl (if core =? 0 then 0 else 3) 6) 1) else r;
  ic_disable := fun irq r => if below n irq then setw r irq (Z.land (r irq) (wrap 8 (Z.lnot 15))) else r;
  ic_on := z7_on core |}.

(** arch/c2000/c28x/picoRTOS_port.c:130-171: PIEIxRn[0] to PIEIxRn[11]; interrupts 32 to 127 are INT1_1-8 to INT12_1-8,
    128 to 223 are INT1_9-16 to INT12_9-16; irq is 16 bits wide. *)
Definition pie_at (irq : Z) : Z * Z :=
  if irq <? 128 then let irq := wrap 16 (irq - 128) in (Z.shiftr irq 3, Z.land 7 irq)
  else (Z.shiftr (Z.land 127 irq) 3, Z.land 7 irq + 8).
Definition inv16 (x : Z) : Z := 2 ^ 16 - 1 - x.
Definition pie : ictl := {|
  ic_enable := fun irq r => if (32 <=? irq) && (irq <=? 223) then let p := pie_at irq in setw r (fst p) (Z.lor (r (fst p)) (bit (snd p))) else r;
  ic_disable := fun irq r => if (32 <=? irq) && (irq <=? 223) then let p := pie_at irq in setw r (fst p) (Z.land (r (fst p)) (inv16 (bit (snd p)))) else r;
  ic_on := fun r irq => if irq <? 128 then Z.testbit (r ((irq - 32) / 8)) ((irq - 32) mod 8) else Z.testbit (r ((irq - 128) / 8)) ((irq - 128) mod 8 + 8) |}.

(** The four 8051 machines with an interrupt.c: the register (0 = IE, 1 = EIE or IE_EX or IE2, 2 = EIE1) and
    the bit that the switch picks for irq; [None]: nothing is done. *)
(** arch/8051/mach-n76e003/interrupt.c:37-66 and 68-97. *)
Definition n76e003_bits : list (option (Z * Z)) := [Some (0, 0); Some (0, 1); Some (0, 2); Some (0, 3); Some (0, 4); Some (1, 7); Some (1, 0); Some (1, 1); Some (0, 5);
    Some (1, 6); Some (1, 4); Some (0, 6); Some (1, 2); Some (1, 3); Some (1, 5); Some (2, 0); Some (2, 1); Some (2, 2)].
Definition n76e003_bit (irq : Z) : option (Z * Z) := nth (Z.to_nat irq) n76e003_bits None.
(** arch/8051/mach-ch552/interrupt.c:37-62 and 64-89. *)
Definition ch552_bits : list (option (Z * Z)) := [Some (0, 0); Some (0, 1); Some (0, 2); Some (0, 3); Some (0, 4); Some (0, 5);
    Some (1, 0); Some (1, 1); Some (1, 2); Some (1, 3); Some (1, 4); Some (1, 5); Some (1, 6); Some (1, 7)].
Definition ch552_bit (irq : Z) : option (Z * Z) := nth (Z.to_nat irq) ch552_bits None.
(** arch/8051/mach-cy7c6801xa/interrupt.c:27-51 and 53-77. *)
Definition cy7c_bits : list (option (Z * Z)) := [Some (0, 0); Some (0, 1); Some (0, 2); Some (0, 3); Some (0, 4); Some (0, 5); None; Some (0, 6);
    Some (1, 0); Some (1, 1); Some (1, 2); Some (1, 3); Some (1, 4)].
Definition cy7c_bit (irq : Z) : option (Z * Z) := nth (Z.to_nat irq) cy7c_bits None.
(** arch/8051/mach-stc12c5axx/interrupt.c:24-45 and 47-68. *)
Definition stc12_bits : list (option (Z * Z)) := [Some (0, 0); Some (0, 1); Some (0, 2); Some (0, 3); Some (0, 4); Some (0, 5); Some (0, 6); None; Some (1, 0); Some (1, 1)].
Definition stc12_bit (irq : Z) : option (Z * Z) := nth (Z.to_nat irq) stc12_bits None.
Definition inv8 (x : Z) : Z := 2 ^ 8 - 1 - x.
Definition sfr_enable (tab : Z -> option (Z * Z)) (irq : Z) (r : regs) : regs :=
  match tab irq with Some (i, k) => setw r i (Z.lor (r i) (bit k)) | None => r end.
Definition sfr_disable (tab : Z -> option (Z * Z)) (irq : Z) (r : regs) : regs :=
  match tab irq with Some (i, k) => setw r i (Z.land (r i) (inv8 (bit k))) | None => r end.

(** * SMP *)

(** prc_sel_from_mask, arch_smp_enable_interrupt, arch_smp_disable_interrupt of e200z4, intc-siul2.c:104-139. *)
Definition prc_sel (mask : Z) : Z :=
  Z.lor (Z.lor (if Z.land 1 mask =? 0 then 0 else 32768) (if Z.land 2 mask =? 0 then 0 else 16384)) (if Z.land 4 mask =? 0 then 0 else 8192).
Definition z4_smp_enable (n irq mask : Z) (r : regs) : regs :=
  if below n irq && negb (mask =? 0) then setw r irq (Z.lor (prc_sel mask) 1) else r.
Definition z4_smp_disable (n irq mask : Z) (r : regs) : regs :=
  if below n irq && negb (mask =? 0) then setw r irq (Z.land (r irq) (inv16 (prc_sel mask))) else r.

(** The same of e200z7, intc-siu.c:113-194. *)
Definition sel (x : Z) : Z := Z.shiftl (Z.land x 3) 6.
Definition z7_smp_enable (n irq mask : Z) (r : regs) : regs :=
  if below n irq && negb (mask =? 0) then
    let psr := r irq in
    let seln := Z.shiftr psr 6 in
    let psr :=
      if Z.land psr 15 =? 0 then (if mask =? 1 then sel 0 else if mask =? 2 then sel 3 else sel 1)
      else if seln =? 0 then (if negb (Z.land mask 2 =? 0) then sel 1 else psr)
      else if seln =? 3 then (if negb (Z.land mask 1 =? 0) then sel 1 else psr)
      else psr in
    setw r irq (Z.lor psr 1)
  else r.
Definition z7_smp_disable (n irq mask : Z) (r : regs) : regs :=
  if below n irq && negb (mask =? 0) then
    let psr := r irq in
    let seln := Z.shiftr psr 6 in
    let '(psr, prin) :=
      if seln =? 0 then (psr, if negb (Z.land mask 1 =? 0) then 0 else 1)
      else if seln =? 1 then
        (let psr := if Z.land mask 3 =? 1 then sel 3 else psr in
         let psr := if Z.land mask 3 =? 2 then sel 0 else psr in psr,
         if Z.land mask 3 =? 3 then 0 else 1)
      else if seln =? 3 then (psr, if negb (Z.land mask 2 =? 0) then 0 else 1)
      else (psr, 1) in
    setw r irq (Z.lor psr prin)
  else r.
