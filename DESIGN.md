# Formal model of OpenPicoRTOS in Rocq (Coq 8.16.1)

## Layout

| file (rocq/theories) | content |
|---|---|
| `Base.v` | outcome type `res` (`Ok`, `Fatal` = picoRTOS_fatal() stall, `UB` = undefined behaviour, `Fuel` = model loop bound hit, proved unreachable), fixed-width arithmetic |
| `SchedModel.v`, `SchedSpec.v` | executable model of `scheduler/picoRTOS.c` and `scheduler/picoRTOS-lite.c`; vocabulary of their properties |
| `SortProofs BootProofs SchedProofs StepProofs SchedThms BootThms HistThms PrioThms InitThms .v` | proofs about it; `ExSched.v`: a concrete application; `PropBoot PropDispatch PropTime .v`: theorems C01-C28, C53 |
| `SmpModel.v`, `SmpSpec.v`, `SmpBoot SmpProofs SmpInv SmpThms ExSmp .v`, `PropSmp.v` | the same for `scheduler/picoRTOS-SMP.c`: C29-C34, C56-C61 |
| `SpinModel.v`, `SpinSpec.v`, `SpinProofs SpinThms .v`; `RaceModel RaceSpec RaceThms .v`; `PropSpin.v` | spin locks of the multi-core ports, one transition per access to the lock, and the critical sections they protect; picoRTOS_self (SMP) and picoRTOS_get_tick one access at a time: C67-C70 |
| `IpcModel.v`, `IpcSpec.v` | futex, mutex, cond and queue (`ipc/*.c`) as programs, one transition per memory access or system call, any number of tasks, any interleaving |
| `IpcLogic IpcAvoid MutexProofs MutexThms FutexProofs Cond* Queue* ExIpc .v`, `PropLock PropCond PropQueue .v` | C35-C46 |
| `FifoModel.v`, `FifoSpec.v`, `FifoProofs FifoThms FifoAny .v`, `PropFifo.v` | `drivers/include/fifo.h` and the interrupt-driven UART: C47, C54 |
| `PortModel.v`, `PortSpec.v`, `PortProofs.v`, `RngPeriod.v`, `PropPort.v` | delay macros, arch_counter, compare-and-swap, suspend/resume, interrupt controllers, rng: C48-C52, C55, C62 |
| `SpiModel.v`, `SpiSpec.v`, `SpiProofs SpiThms .v`, `PropSpi.v` | spi_xfer of thirteen polled SPI drivers over a model of the hardware (queues, shifter) that advances between any two accesses: C71-C73 |
| `FlashModel.v`, `FlashSpec.v`, `FlashProofs FlashProofs2 FlashProofs3 FlashProofs4 FlashThms .v`, `PropFlash.v` | the two external flash drivers over a model of the chip and an spi_xfer that stops anywhere: C74-C80 |
| `Asm51Model.v`, `Asm51Spec.v`, `Asm51Proofs.v`, `Asm51Thms.v`, `PropAsm51.v` | the 8051 port, instruction by instruction: C81, C82 |
| `GpioModel.v`, `GpioSpec.v`, `GpioProofs.v`, `PropGpio.v` | gpio_write, gpio_read, gpio_toggle of thirteen drivers, tasks sharing a port: C83, C84 |
| `TwiModel.v`, `TwiSpec.v`, `TwiProofs.v`, `PropTwi.v` | twi-avr.c as master, on a model of the AVR two-wire interface and any slave: C85, C86, C87 |
| `EepromModel.v`, `EepromSpec.v`, `EepromProofs.v`, `PropEeprom.v` | eeprom-cy15b004j.c over it, and the memory device: C88, C89 |
| `Asm28Model.v`, `Asm28Spec.v`, `Asm28Proofs.v`, `PropAsm28.v` | the context switch of c28x: C90 |
| `IrqModel.v`, `IrqSpec.v`, `IrqProofs.v`, `IrqCtlProofs.v`, `PropIrq.v` | registration, dispatch, enabling and disabling of interrupts on all ports: C91, C92, C93 |
| `UartModel.v`, `UartSpec.v`, `UartProofs.v`, `UartLinProofs.v`, `PropUart.v` | uart_write and uart_read of the eleven polled UART drivers: C94, C95 |
| `UartCfgModel.v`, `UartCfgSpec.v`, `UartBaudProofs.v`, `UartFrameProofs.v`, `PropUartCfg.v` | uart_setup of the same drivers: C96, C97 |
| `IflashModel.v`, `IflashSpec.v`, `IflashProofs.v`, `PropIflash.v` | internal flash of SAME5x, SAMx7x and GD32 and the AVR's EEPROM: C98-C100 |
| `TimerModel.v`, `TimerSpec.v`, `TimerProofs.v`, `PropTimer.v` | the timers that make the ticks and arch_delay_us, all ports: C101-C104 |
| `OsModel.v`, `OsSpec.v`, `OsProofs.v`, `PropOs.v` | locks and scheduler in one system: C105-C108 |
| `PwmModel.v`, `PwmSpec.v`, `PwmProofs.v`, `PropPwm.v` | PWM and input PWM drivers: C109-C114 |
| `WdModel.v`, `WdSpec.v`, `WdProofs.v`, `PropWd.v` | watchdog drivers and hardware: C115-C119 |
| `CanModel.v`, `CanSpec.v`, `CanProofs*.v`, `PropCan.v` | CAN drivers and controllers: C120-C126 |
| `AdcModel.v`, `AdcSpec.v`, `AdcProofs*.v`, `PropAdc.v` | ADC drivers and converters: C127-C133 |
| `ClockModel.v`, `ClockSpec.v`, `ClockProofs*.v`, `PropClock.v`, `SiuClockModel.v`, `SiuClockProofs.v`, `PropSiuClock.v`, `NuClockModel.v`, `NuClockSpec.v`, `NuClockProofs.v`, `PropNuClock.v`, `MpcClockModel.v`, `MpcClockSpec.v`, `MpcClockProofs.v`, `PropMpcClock.v` | clock drivers and clock trees: C134, C135 |
| `MuxModel.v`, `MuxSpec.v`, `MuxProofs.v`, `PropMux.v` | pin multiplexers: C136 |
| `DmaModel.v`, `DmaSpec.v`, `DmaProofs.v`, `PropDma.v` | DMA channels: C137 |
| `MiscModel.v`, `MiscSpec.v`, `MiscProofs.v`, `PropMisc.v` | RP2040 resets, STM32H7 request multiplexer, SAMV71 bus matrix: C138 |
| `AsmModel.v`, `AsmSpec.v` | the context switch of ten ports, instruction by instruction, with the hardware's part of interrupt entry and return |
| `AsmSym.v`, `AsmProofs.v` | a symbolic executor proved sound against `exec`, and the ports checked with it |
| `SysModel.v`, `SysProofs.v`, `PropAsm.v` | tasks + context switch + scheduler on one machine: C63-C66 |

Every definition of a model file carries the `/repo` file and lines it models and the
simplifications made.  Proofs never live in model files.

## Trusted base

* Coq 8.16.1's kernel (and `vm_compute`, used for concrete witnesses only).
* `Print Assumptions` under every theorem: expected `Closed under the global context`.
  Any exception is listed in the section "Axioms" at the end of this file.
* The reading of the C/assembly source as the model.  The code is never executed here.
* Environment assumptions, made explicit as inputs of the model, never as axioms:
  - `arch_prepare_stack`'s result is an arbitrary address (field of a registration);
  - `arch_counter` returns arbitrary values (fields of every event);
  - the scheduler model stops at the stack pointers exchanged with the assembly; what the assembly does
    with them is AsmModel, and SysModel puts both together;
  - interrupts are masked inside `picoRTOS_tick`/`picoRTOS_syscall` (each is one atomic step);
    for SMP the `arch_spin_lock` makes them atomic with regard to the other cores: this is C68, under
    the hardware's semantics of a SEMA4 gate / SIO spin lock, and if no core gives up (C67);
  - sequentially consistent memory at the granularity of one C memory access for the IPC models;
    D-cache maintenance calls are no-ops;
  - `picoRTOS_assert_fatal` is compiled in (it is, with or without NDEBUG).

## What is and is not modelled

Modelled: the three schedulers (all functions except cache maintenance), futex, mutex, cond, queue, fifo.h, delay macros, arch_counter,
compare-and-swap/test-and-set/suspend/resume/irq masking of the ports, the context switch assembly of
ARMv6-M, ARMv7-M, ARMv7E-M, rv32ec, rv32imac, e200z4/z7, MIPS m51xx, AVR, STM8, HCS08, 8051 and c28x (SAVE_CONTEXT,
RESTORE_CONTEXT, the tick and system call handlers, arch_save_first_context, arch_start_first_task),
interrupt registration, dispatch, enabling and disabling on all ports, DMA (not TI F28x), RP2040 resets, STM32H7 request multiplexer, SAMV71 matrix, pin multiplexers (all drivers; not AFIO remapping, IMUX, peripheral pin select), clocks (RP2040, MPC574xx, MPC5777C, Nuvoton 8051s, F28379x, PMC, SAM3X, PIC32MX, GD32VF103, RA4, SAME5x, tinyAVR, CY7C6801x), ADC (all drivers), CAN (all drivers), watchdogs (all drivers), PWM (all drivers that compile), system timers, internal flash (SAME5x, SAMx7x, GD32), AVR EEPROM, polled UARTs, interrupt-driven UART, the AVR two-wire master and the cy15b004j EEPROM over it, xorshift32, gpio_write, gpio_read and gpio_toggle, the two external flash drivers (not their lock and unlock), spi_xfer (without DMA) of all SPI drivers but spi-lgt8fx8p, spi-avr_irqdriven
and spi-atsamx7x_qspi.
Not modelled: startup code and linker scripts, most other device drivers
(register-level peripherals), the devicetree/Kconfig machinery, demos, the compiler, caches, the timing
of instructions.  In AsmModel: address wrap-around, the flags set by the handlers' own arithmetic (the
task's flags are a register that is saved and restored), accesses of mixed sizes.

## Model conventions

* Machine words are `Z` with explicit `wrap w x = x mod 2^w`; the widths of
  `picoRTOS_tick_t`, `picoRTOS_priority_t`, `picoRTOS_pid_t`, `size_t`, `picoRTOS_cycles_t` are
  parameters, so the theorems cover all ports.
* Table accesses out of range are `UB`.  One exception: the out-of-range write of
  `core_arrange_shared_priorities` (finding C22) is logged in a ghost list `stray` and the
  execution goes on, since otherwise every theorem would be void for all configurations with two
  or more unused slots; the write lands outside the modelled state.
* `flags` is split in two booleans.  Loops are structural recursions, except scans, which carry
  fuel and return `Fuel` when exhausted; theorems exclude `Fuel`.
* `cfg_lite` selects picoRTOS-lite; most single-core theorems are proved for both.

## Properties: what is modelled, how it is proved

| id | model | proof |
|---|---|---|
| C01 | boot = init, add_task*, start | insertion sort = concatenation of per-priority sublists; loop invariant on sortedness, preservation of per-priority filters by each swap |
| C02, C03, C26 | tick / syscall | characterisation of the two scans as "least pid such that", against a spec-level `eligible` computed from registrations only |
| C04 | trace of syscalls between ticks | induction over the trace, index strictly increases |
| C05, C06 | spec-level turn + correctness of arrange | arithmetic on tick mod n, wrap of the truncated tick |
| C07 | same | refuted by a witness at the wrap of an 8-bit priority; partial theorem when n divides 2^w or no wrap |
| C08, C09 | trace after the sleep | invariant "asleep with wake tick T" under any continuation |
| C10 | syscall_sleep_until | refuted; the actual rule (after CONFIG_DEADLOCK_COUNT consecutive misses) is proved |
| C11 | history of saved stack pointers | invariant: table sp = last saved sp |
| C12, C13 | outcome of every step | invariants of reachable states imply progress |
| C14, C15 | postpone flag | invariant over the trace |
| C16, C17, C18 | trace | invariants |
| C19 | add_task | case analysis, frame |
| C20, C21 | get_next/last loops | refuted by witness; exact characterisation proved |
| C22 | start | refuted by witness; exact condition proved |
| C23, C24 | task_init with byte addresses | bit masks as arithmetic; C24 refuted by witness |
| C25 | add_task in a running state | refuted by witness; partial theorem |
| C27 | API guards | case analysis |
| C28 | lite boot | induction |
| C29–C33 | SMP model, any interleaving of per-core ticks and syscalls | invariants over reachable states |
| C34 | SMP | refuted by witness; partial theorem |
| C35, C36 | futex interleaving model | invariant, counting attempts |
| C37–C39 | mutex interleaving model, one transition per memory access | invariant with ghost depth |
| C40–C43 | cond + mutex interleaving model | invariants; C42 and C43 refuted by witness, partial theorems |
| C44, C45 | queue head + buffer, atomic calls | refinement to a list; capacity is count-2, C45 refuted; `C45_capacity_partial`: exactly the first count-2 writes succeed |
| C46 | queue, one transition per memory access | refuted by witness (shared `head.i`, data stored after publication); `C46_any_interleaving_partial` (`QueueRace.v`): what holds of any number of readers and writers, whatever the interleaving |
| C47 | fifo.h, one transition per memory access, SPSC | refinement to a list |
| C48, C49 | macros | arithmetic |
| C50 | per-port CAS/TAS sequences with a reservation oracle | case analysis per port, two ports refuted |
| C51 | interrupt-enable flag machine | refuted on ports with emulated CAS, proved elsewhere |
| C52 | NVIC and other irq controllers | refuted on NVIC ports, proved elsewhere |
| C53 | watermarks in the scheduler history | invariant |
| C54 | uart irq-driven | refuted/partial |
| C55 | xorshift32, rng_read | linearity over GF(2): the 32x32 matrix has order exactly 2^32-1 (its power is 1; for each prime p of 2^32-1 the power (2^32-1)/p minus 1 is invertible) |
| C56-C61 | SMP model | invariants over reachable states |
| C62 | interrupt controllers of the SMP ports | refuted on both, partial theorems |
| C63-C65 | AsmModel, straight-line code on registers and memory | symbolic execution proved sound once; each port is then a computation checked by the kernel; MIPS, e200 with a reservation and STM8 arguments refuted |
| C66 | SysModel: arbitrary tasks, any events | invariant: the saved context of every suspended task is intact in memory; uses C11 and C12 |
| C67 | SpinModel: gate, attempts, bodies | invariant: the gate names the core that is inside; refuted in release builds by construction of a schedule for every CONFIG_DEADLOCK_COUNT |
| C68 | SpinModel + SmpModel | invariant: what remains of the body of the core inside, applied to the current state, gives the sequential result |
| C69, C70 | RaceModel | invariant over the interleaving / arithmetic; refuted by witnesses |
| C71-C73 | SpiModel: driver state machine, hardware queues, retry protocol of the callers | invariant: wire + shifter + queue = frames written so far, sent = received + pending + lost; progress measure for C72; the overrun by a schedule built for every queue size |
| C74, C75, C77, C80 | FlashModel: the state machines, the chip (commands, write enable, busy), a script of spi_xfer results | one lemma per command (what is sent, whatever the splits), an induction over the phases of a sequence with a measure of the bytes left for termination; refuted parts by computation over all data |
| C76, C78, C79 | FlashModel | refuted, C76 and C78_last for all states, the others by witnesses |
| C81, C82 | Asm51Model: registers, both memories, the macros of picoRTOS_portasm.S | the copy loops by induction over the stack, the straight-line parts by symbolic execution; C82 refuted for every state in which r5:r6 is not the stack |
| C83, C84 | GpioModel: the calls of 13 drivers as sequences of register accesses, interleaved | code that only reads and writes its own bit commutes with the rest: one invariant per task over all schedules; C83 refuted for each load-store driver and all pairs of pins |
| C85, C86, C87 | TwiModel: the five-state driver, TWCR/TWSR/TWDR/TWINT, an arbitrary slave, caller and hardware interleaved freely | phase invariants with a rank: each call that finds the hardware done lowers it; the log of the bus is a prefix of the specified transfer |
| C88, C89 | EepromModel: the three-state driver on top, the device as a fold over what happened on the bus | simulation by a transfer of TwiModel (address byte and data as one buffer), then induction on the bus events |
| C90 | Asm28Model: the word-addressed stack, 32-bit pushes that ignore the low bit of the address, ASP/NASP | symbolic execution with a list of saved pairs: what is pushed as a pair is popped as a pair |
| C91 | IrqModel: the table as memory, the C store and the assembly's address arithmetic with its register widths | fold over the history of registrations; the address read is the address written, by modular arithmetic |
| C92, C93 | IrqModel: the registers of each controller with their hardware semantics | one-step lemmas on single bits, then induction on the history |
| C94, C95 | UartModel: the driver's accesses interleaved with what the line does before each; queues of each device's depth | invariant (sent ++ queued = told sent; delivered ++ waiting = taken), induction on the program |
| C96 | UartCfgModel: set_baudrate with 32-bit arithmetic and register widths; UartCfgSpec: clocks per bit from the data sheets | division lemmas and linear arithmetic |
| C97 | UartCfgModel: set_cs, set_parity, set_cstopb on the registers' bits | bitwise specification lemmas, finite cases |
| C98, C99 | IflashModel: the three drivers and their flash controllers (pages, page buffers, lock regions, commands, busy periods as a list of polls) | loop invariants over the calls of write_all, induction on fuel; counterexamples by computation |
| C100 | IflashModel: EEAR, EEDR, EECR and the write under way | case analysis |
| C101, C104 | TimerModel: what each port's arch_init or arch_timer_init writes to its timer and the period that makes | arithmetic of truncated divisions, loop invariants |
| C102, C103 | TimerModel: compare timers with 32- and 64-bit counters, served after any list of latencies | induction on the list; Bezout for the stop on rv32imac |
| C105-C108 | OsModel: the product of SchedModel and IpcModel, where only the running task acts and the sleeps of the IPC functions are the scheduler's | projection on both models; invariant on what is left of a lock call and the ticks so far, with C08; counterexample by computation |
| C109-C114 | PwmModel: one timer with its registers and what 12 drivers keep; the arithmetic of ipwm | exact arithmetic with lia/nia, induction on the prescaler loops, counterexamples by computation |
| C115-C119 | WdModel: registers of ten watchdogs with their keys and locks, the counter as a transition system | bit and field lemmas, induction on prescaler loops and on histories |
| C120-C126 | CanModel: the four CAN drivers line by line over mailboxes, message objects, FIFO and filters of the controllers, frames on the bus | bit and byte packing lemmas, invariants over histories of calls and frames, induction on the prescaler search |
| C127-C133 | AdcModel: the eleven ADC drivers over a converter that takes its own time, signals as functions of input and time | integer lemmas, invariants over histories of reads and conversions, bit-field lemmas for multiplexers, sequences and slots |
| C134, C135 | ClockModel, SiuClockModel, NuClockModel, MpcClockModel: fourteen clock drivers next to the clock trees their registers select, frequencies as exact fractions | division lemmas, invariants over sequences of calls; counterexamples by computation |
| C136 | MuxModel: the calls of thirteen drivers over registers, and pins as the manuals read them from the registers | one lemma for a field that was written and fields beside it; induction over histories |
| C137 | DmaModel: the calls of five drivers, what the registers program, the accesses of the channel and their effect on a memory of bytes | registers by fields; induction over the units moved |
| C138 | MiscModel: the words of the registers before and after each call; loads and stores of two tasks as steps | bit lemmas; induction over the wait and over the schedule |

## Axioms

Every theorem of the Prop files prints "Closed under the global context".  The parameters that a
library scan lists (`Coq.ssr.ssrunder.Under_rel.*`, the module type of the standard library's `under`
tactic, loaded through std++) are used by no theorem.

## Findings

Defects of the code at the pinned commit that the model exhibits (theorems named `_refuted`) or that
were met while reading (no theorem).

* Scheduler: C07, C10, C15 (postpone forgotten), C20, C21, C22 (write beyond `sub[]`), C24, C25, C34.
  On the 64-bit simulators a cache line (4) is smaller than a stack element (8) and picoRTOS_task_init
  gives a count of 0.  SMP: a task that finished its slice can run again within the same tick when
  another core ticks later; picoRTOS_fatal within an SMP system call takes the spin lock again.
* Spin locks: with NDEBUG a core that spun CONFIG_DEADLOCK_COUNT times enters without the lock, and on
  RP2040 its unlock then frees the other core's lock (C67); so picoRTOS_fatal on one core does not stop
  the others.  picoRTOS_self returns another task's identifier when the caller migrates within the call
  (C69); picoRTOS_get_tick is torn on 8-bit machines (C70).
* IPC: C41, C42, C43 (cond), C45 (capacity `count - 2`), C46 (`head.i` shared, so even one reader and
  one writer is broken).  picoRTOS_futex_unlock can be called by anyone; picoRTOS_cond_wait with a mutex
  locked more than once sleeps with the mutex held; queue count 0 passes IS_POW2.
* fifo.h: capacity 2^k - 2; uart_write of more than the capacity reports n (C54); `int sent` overflows
  on AVR; the rx interrupt drops bytes when full; spi-avr_irqdriven pops even when nothing was sent.
* Delay macros overflow on 16-bit ports (700 ms at 100 Hz is 5 ticks).  arch_counter(SINCE) is off by one at
  the rollover.  xorshift32 stays at 0 with seed 0.  w1_read ORs into a buffer it does not clear.
* Atomics: rv32imac tests sc.w the wrong way round; MIPS reports success when sc fails; HCS08 has cli and
  sei exchanged (C50); ports with masking atomics re-enable interrupts inside critical sections (C51).
* Interrupt controllers: NVIC ISER and PFIC IENR are cleared with `&= ~bit`, which does nothing; c28x
  indexes out of bounds (C52); mpc574x/mpc577x SMP masks (C62).  AVR, STM8, HCS08: enable and
  disable have no effect.  STM8 arch_init enables interrupts (`rim`) where the comment says disable.
* Context switch: MIPS saves s7 twice and s6 never, and not `at`; e200 `sthcx. r1,0,r1` overwrites half of
  the saved pc when a reservation is held; STM8 passes the address `sp + 12` as argument of every
  system call (C63, C64).  HCS08 writes two bytes below the stack pointer it reports.  e200 does not save
  the upper halves of the SPE registers.
* Interrupt dispatch (C91): MIPS Interrupt_Handler and RISC-V PlatformDefined_Handler jump to the
  handler without link; RISC-V indexes the table with entries of 4 bytes (they have 8); AVR reserves
  COUNT bytes for ISR_TABLE instead of 4 * COUNT, and calls C code without clearing r1; rv32imac
  INCREASE_MTIMECMP propagates a false carry when the low word is 0.
* SPI: drivers that write as long as tx_n < n can receive more than the receive queue holds when they are
  preempted between write and read; the lost answer makes the transfer never end (C72: PL022, PIC32MX, tinyAVR,
  DSPI, SERCOM, F28x with more frames than the receive queue).  16-bit frames on PIC32MX and RA4 store only
  their low byte; 8-bit frames on SAM3X/SAMx7x use 16-bit accesses: one byte out of two is skipped, one byte
  beyond the buffer is accessed (C73).  spi_gd32vf103_init and spi_renesas_ra4_init do not initialise
  ctx->balance.
* External flash: flash_ext_read has no case 1 and never reads anything (C76); a write of less than 256 bytes programs the
  rest of the page with whatever the static buffer holds (C75); sst26vf's probe keeps its buffer on the stack and fails when
  spi_xfer splits the transfer after 2 or 3 bytes (C77); the last page cannot be written on sst26vf, and s25fl1 accepts writes
  beyond the end, which wrap (C78); an error in the middle of an operation leaves seq and left, so that the next operation starts
  in the middle and may erase a sector nobody named or index outside of its buffer (C79).
* 8051: arch_save_first_context takes the bottom of the stack from r5 and r6, which nothing sets (the comment says "already
  set"): the port relies on what the compiler's code of arch_prepare_stack leaves there (C82); it drops the memory space of
  priv, a pointer into code or internal RAM becomes one into external RAM (C82).
* GPIO: avr, nxp_siu, nxp_siul2 (gpio_write, gpio_toggle), gd32vf103 and stm32h7xx (gpio_toggle) load and store the output
  register of the port without protection: a task preempted in between undoes what other tasks did to their pins (C83). On
  ra4 gpio_toggle of an inverted pin inverts twice and never toggles (C84). On tinyavr gpio_read turns an output into an
  input (C84).
* TWI (avr): a byte the device does not acknowledge is counted as sent by twi_write, and the call that finds out counts one
  more, never sent (C87). twi_read sends STOP without TWI_F_P, so a read cannot be continued and one without TWI_F_S never
  returns anything but EAGAIN (C86).
* EEPROM (cy15b004j): eeprom_write never sends STOP (TWI_F_P goes with the address, flags are 0 for the data), and errors of
  the address phase are dropped: without a device both calls return EAGAIN for ever (C89).
* c28x: with the 64-bit FPU, RESTORE_CONTEXT pops R7L before R7H (and so on), though SAVE_CONTEXT pushes RnL before RnH: the
  two halves of every FPU register come back exchanged after each switch or interrupt (C90).
* Interrupt dispatch (C91): RISC-V uses 4 bytes per entry of a table of 8-byte entries, from (code - 16) even where
  registration uses the code itself, and jumps (jr) instead of calling, so the context is never restored; MIPS also uses jr;
  c28x looks up irq instead of irq - 32; AVR reserves COUNT bytes for a table of 4*COUNT, so most registrations write over
  other variables; HCS08 interrupt 37 cannot be registered; 8051 and AVR call address 0 for an unregistered interrupt.
* Interrupt control (C92): on ARM and ch32v003 arch_disable_interrupt clears a bit of a write-1-to-set register: no effect;
  on c28x interrupts below 128 (INTx.1 to INTx.8) are enabled at an index that wraps to 8180 and more, outside the PIE; on
  MIPS the priority goes to another interrupt, so most enabled interrupts keep priority 0.
* SMP interrupt control (C93): e200z4 arch_smp_enable_interrupt replaces the set of cores instead of adding to it; e200z7
  arch_smp_disable_interrupt ors the old priority back, so nothing is ever disabled, and enables core 0 when core 1 is
  disabled on an interrupt that was off.
* Polled UARTs (C94, C95): LINFlexD uart_write of two bytes sends one and says -EAGAIN, so a loop sends it again, and throws
  received bytes away; tinyAVR never reads again after a framing error, PIC32MX and RA4 after an overrun; PL011 uart_read
  returns 0 when nothing waits.
* Baud rates (C96): GD32 divides the fraction by the wrong number (and by 0 above f/16); PL011 counts hundredths for 64ths and
  does not latch a baud rate set alone; tinyAVR has no fraction (8.5 % off at 115200 of 20 MHz); SERCOM is 8.4 % off at 9600
  of 48 MHz; dividers that do not fit the register are cut instead of refused on SAM, AVR and PIC32.
* Frame formats (C97): 8E1 gives 7E1 on GD32 and STM32H7; SAM UART and PIC32 say 0 to formats they do not set; SAM USART refuses
  settings that leave the data bits alone; SERCOM, STM32H7, RA4 and LINFlexD stay off after a refused setting.
* Internal flash (C98, C99): SAME5x flash_erase erases 8192 bytes where the erase unit is told to be 512, and says 0 in locked
  regions without erasing; its flash_write reports the end of a quad word as the end of a page, so 496 of 528 bytes written
  from 496 are lost; flash_probe shifts by 32 or more if SmartEEPROM is on. SAMx7x passes a byte offset as the page number:
  whatever succeeds erases the first 8192 bytes or programs page 0, and flash_write returns 0 for n. GD32 never clears PG and
  PER, so erase-then-write does not work. flash-pic32mx.c does not compile.
* AVR EEPROM (C100): the busy check has && for ||: the second of two equal bytes is lost; an interrupt between EEMPE and EEPE
  makes eeprom_write say 1 with nothing written.
* Ticks (C101): the SysTick reload value is cut to 24 bits (480 MHz, 20 Hz is three times too fast); AVR TC0 gives no tick at all for
  up to 256 or more than 2^18 clocks (16 MHz, 50 Hz); tinyAVR makes 1024 Hz of 1000; STM8 AWU accepts 1 Hz and 128 kHz and makes
  something else; the 8051 timers are not checked to be wide enough, and STC12's period depends on the interrupt latency; HCS08
  has + 1 for - 1; mpc577x timer-stm.c reads SYSDIV at `(uint32_t*)ADDR_SIU + 0x9a0`, 0x2680 bytes away.
* rv32imac (C102): INCREASE_MTIMECMP carries when the low word of mtimecmp was 0: then no tick for 2^32 counts (159 s at 27 MHz);
  every system with an odd period gets there. mtime is read in two loads at the start, with no check.
* MIPS and STM (C103): a tick re-armed a period late is the last one for 2^32 counts. ARM: arch_suspend stops the clock, so the system time
  is late by the time spent suspended.
* arch_delay_us (C104) overflows (9 s at 480 MHz), is nothing below 1 MHz, and uses the frequency of the RTC on tinyAVR.
* Priority inversion (C108): a lock call declares deadlock when a task of a priority between the waiting one and the holder runs for
  CONFIG_DEADLOCK_COUNT ticks.
* PWM (C109-C114): GD32 writes PSC without subtracting 1, the timer is always slower than asked; AVR forgets the divider 256; eMIOS ors
  the second global prescaler into the first. Periods are computed in whole MHz, so 0 counts below 1 MHz, which PIC32, RA4, tinyAVR
  and the SAM timers accept; period registers are cut to 16 bits on AVR, tinyAVR, ePWM and SAM X7x; on RP2040 the second
  pwm_set_period uses the divider of the first for the wrong thing. PWM_DUTY_CYCLE_MAX is 65535/65536. On eMIOS the product of
  duty cycle and period overflows. pwm_stop stops the other outputs of the timer too. pwm-sam3x.c and pwm-atsamx7x.c cannot
  compile. ipwm: SAM3X computes RA * (65535 / RB), and divides by 0 if RB is not captured yet; eMIOS overflows beyond 4294 clocks.
* Watchdogs (C115-C119): the SAM3X watchdog can never run (init uses up the write-once register, and setup ors the complement of
  the timeout); Atmel divides 1000 by the frequency first (1.3 s for 1 s, division by 0 above 128 kHz); GD32 never gets more than
  107 ms (32-bit product), STM32 bites after 2 ms if asked for more than 4095 ms, PIC32 and RP2040 wrap, F28x loses the prescaler in
  wd_start. wd_stop returns 0 without effect on GD32, STM32, F28x and Atmel; on AVR an interrupt between its two writes starts
  the watchdog instead.
* CAN (C120-C126): SAM3X shifts extended identifiers by 17 instead of 18 and writes 14 of 18 low bits, and packs bytes big endian
  where the data sheet has byte 0 in the low byte; FlexCAN and DCAN ignore the accept mask; on all but SAM3X can_read writes past a
  short buffer; FlexCAN makes a frame without data an error and drops it; DCAN returns the identifier of the last can_accept, and
  shifts BRPE by 5 (250 kbit/s from 200 MHz are 96 kbit/s), and on C28x every write is undefined (1 << index in 16 bits); M_CAN
  reads its 7-bit fill level as 6 bits and is deaf for good once the FIFO was full; a failed can_setup stops a running controller;
  with no transmit mailboxes can_setup returns 0 and can_write divides by 0; FlexCAN never sets its transmit index.
* ADC (C127-C133): adc_setup accepts a divider of 0; on AVR 1023 * 5000 overflows an int; ADCSRB_MUX5 & channel and a mask of 4 bits
  select the wrong input for AVR channels 8..39 and from 48; two tasks polling two channels of an AVR, tinyAVR, RP2040 or SAME5x read
  each other's values, and on SAME5x one waits for ever; AVR auto trigger gives the old channel's value after a switch; NXP, AFEC and
  PIC32 give values from before the request; SAM3X gives data before the first conversion; RA4 continuous and NXP scan mode never
  give any; PIC32 setup clears the triggers of three other channels and uses bit numbers as masks for the input mode (own mode never
  set, others corrupted); tinyAVR may run its ADC at 2.2 MHz when 1.5 MHz, the maximum, was asked for; AFEC divides by 256 below
  20 MHz, and its protect writes the wrong key to the read-only status register; TI returns the index after the last slot instead of
  a count, shifts 1 by 15 in 16 bits, and lets channels share an interrupt flag; STM32H7 sets the sample time of the channel after
  from channel 9 on, masks 3-bit resolutions to 2 bits, ors new sequences to old ones, and never clears its data mask.
* Clocks (C134, C135): the SIU's wait for the PLL1 waits for it to be unlocked; RP2040 masks FBDIV to 7 bits (133 MHz from 12 MHz runs at 5 MHz), runs the vco of the usb pll at 192 MHz (750 is
  the minimum), gives the rtc fraction in hundredths instead of 256ths, cuts dividers to 24 bits, and its search overflows an int;
  F28379x writes n - 1 to PLLSYSCLKDIV where n / 2 belongs (right for 2 only), and never goes back from the crystal to INTOSC2; PMC:
  a second init without the upll leaves the cpu on it, pcks keep frequencies of before, plla * diva wraps so that 297 MHz from 16 MHz
  is refused; SAM3X says 90 MHz and makes 84, peripherals keep frequencies of before; PIC32: same for peripheral buses, divider 0
  divides by 0, vco out of range, and the oscillator without the pll needs a frequency the pll could have; GD32VF103: multipliers up
  to 15 are written one too high (96 MHz is 104), IRC8M reaches the pll halved and undivided, ADC divider 12 is that of 8; RA4 gives
  PCLKB for PCLKC, PCLKC for PCLKD, and 15 MHz for the 15 kHz of the watchdog; SAME5x divides by 0 for a divider of 0, cuts dividers to
  8 bits, takes the generator for the reference of a dpll whatever refclk says, and keeps old frequencies; tinyAVR believes in settings
  a locked clock ignores; CY7C6801x's clock_get_freq always gives an error.
* Multiplexers (C136): a SAME5x pin made a gpio keeps its peripheral function, or has its input buffer off after a reset; its pull_up is
  its pull_down (OUT is never written: both pull down after a reset); an SIUL2 output made an input goes on driving, an analog pin made an
  output stays analog; PIO_DISABLE of Atmel PIOs hands the pin to the peripheral that was selected last.
* DMA (C137): dma_xfer of GD32 and STM32H7 starts nothing without a peripheral's request (memory to memory mode is never set); that of SAME5x
  moves one unit; GD32 words program a reserved width, and 65536 units are done at once; units of 3 bytes are accepted by three drivers; bytes
  left over are dropped (SAME5x also starts past the source by as many); RP2040's dma_xfer leaves the permanent request on for later dma_setup
  calls, and triggers twice: a transfer that is over by then is done again past its end; STM32H7's dma_setup clears circular mode, and divides by a size of 0; the eDMA is done before it has begun.
* Nuvoton clocks (C134): the 16.6 MHz trim is `a | (b - 15)` where `(a | b) - 15` is meant: the oscillator gets one of its slowest trims instead; POF
  is `1 < 4`, so that IDL is cleared instead; with the external clock the HIRC is off but said to run; 24 MHz is never taken back.
* MPC574xx clocks (C134, C135): S40 dividers from 9 to 16 are cut to 3 bits and divide by 8 less; dividers of 0, documented as "disable", divide by 0;
  the product of the crystal and MFD wraps from 28.6 MHz on; going back to the FIRC leaves the PLL selected.
* misc (C138): rp2040_reset and rp2040_unreset of two tasks can lose each other's update; master 12 and slave 8 of the SAMV71 matrix are refused.
