(** TimerModel.v - the timers of the ports (arch), that make the system tick, and arch_delay_us.

    Simplifications:
    - CONFIG_TICK_HZ is hz > 0, the frequency the port believes in is f (sysclk_hz, timer_core_hz); times are counted
      in clocks of f, or of the timer's own source where it has one (RTC, AWU, WKT);
    - what the hardware makes of the registers is from the data sheets: how many clocks pass between two interrupts;
    - timer-pit.c (mpc574x), timer-t2.c (n76e003) and timer-pfic.c (rv32ec) are not built and are left out; the
      pthread and win32 ports are left out;
    - the clock select of the mc9s08ptxx RTC is taken to be the bus clock, as its comment says. *)
From Verif Require Import Base.

Definition w16 (x : Z) : Z := x mod 65536.
Definition w32 (x : Z) : Z := x mod 4294967296.
(** What arch_init and arch_timer_init leave: no tick at all, or one every [n] clocks. *)
Inductive tmr := Off | Every (n : Z).

(** ** Timers that reload themselves *)
(** arch/arm/armv6-m/picoRTOS_port.c:45, armv7-m/picoRTOS_port.c:48, armv7e-m/picoRTOS_port.c:48: SYST_RVR.
    ARMv6-M and ARMv7-M manuals: 24 bits, a tick every RVR + 1 clocks, none if RVR is 0. *)
Definition systick_rvr (f hz : Z) : Z := w32 (f / hz - 1).
Definition systick_hw (rvr : Z) : tmr := let r := rvr mod 16777216 in if r =? 0 then Off else Every (r + 1).
Definition systick (f hz : Z) : tmr := systick_hw (systick_rvr f hz).
(** arch/riscv/rv32ec/mach-ch32v003/timer-stk.c:31-39: STK_CMPLR, 32 bits, auto-reload *)
Definition ch32_stk (f hz : Z) : tmr := Every (w32 (f / hz - 1) + 1).
(** arch/c2000/c28x/picoRTOS_port.c:45-58: CPUTIMER2, PRD + 1 with TPR 0 *)
Definition c28x_timer2 (f hz : Z) : tmr := Every (w32 (f / hz - 1) + 1).
(** arch/arm/armv6-m/mach-rp2040/picoRTOS-SMP_port.c:53-67: the loop looks for the first divider; DIV has 8 bits and 4
    bits of fraction, TOP 16 bits. *)
Fixpoint rp2040_div (fuel : nat) (p div : Z) : Z :=
  match fuel with
  | O => div
  | S fuel => if 65535 <? p / div then rp2040_div fuel p (div + 1) else div
  end.
Definition rp2040_hw (div top : Z) : tmr :=
  let d := div / 16 mod 256 in Every ((if d =? 0 then 256 else d) * (top mod 65536 + 1)).
Definition rp2040_pwm (f hz : Z) : tmr :=
  let p := f / hz in
  let d := rp2040_div (Z.to_nat (p / 65536 + 1)) p 1 in
  rp2040_hw (w32 (d * 16)) (w32 (p / d - 1)).
(** arch/avr/timer-tc0.c:34-73: the prescaler, OCR0A; an assertion that fails returns before OCR0A is set and the interrupt
    registered. CTC mode: a tick every prescaler * (OCR0A + 1) clocks. *)
Definition tc0_hw (prescaler ocr0a : Z) : tmr := Every (prescaler * (ocr0a mod 256 + 1)).
Definition avr_tc0 (f hz : Z) : tmr :=
  let ocr := w32 (f / hz - 1) in
  if negb (ocr <? 262144) then Off else
  let prescaler := if ocr <? 256 then 0 else if ocr <? 2048 then 8 else if ocr <? 16384 then 64 else if ocr <? 65536 then 256 else 1024 in
  if prescaler =? 0 then Off else tc0_hw prescaler (ocr / prescaler).
(** arch/avr/mach-attiny88/timer-tc0.c:29-63; a value out of range does not compile: Off *)
Definition attiny88_tc0 (f hz : Z) : tmr :=
  let ocr := f / hz - 1 in
  if negb (ocr <? 262144) then Off else
  let prescaler := if ocr <? 256 then 1 else if ocr <? 2048 then 8 else if ocr <? 16384 then 64 else if ocr <? 65536 then 256 else 1024 in
  tc0_hw prescaler (ocr / prescaler).
(** arch/avr/timer-rtc.c:34-47: clocks of the 32768 Hz oscillator; PER has 16 bits *)
Definition avr_rtc (hz : Z) : tmr := Every (w16 (32768 / hz - 1) + 1).
(** arch/stm8/mach-stm8s/timer-awu.c:50-66: clocks of the 128 kHz oscillator. RM0016: a tick every APRDIV * 2^(AWUTB - 1) for
    AWUTB from 1 to 13, APRDIV = APR + 2. unsigned int has 16 bits. *)
Fixpoint awu_loop (fuel : nat) (awutb apr : Z) : Z * Z :=
  match fuel with
  | O => (awutb, apr)
  | S fuel => if 64 <? apr then awu_loop fuel (awutb + 1) (apr / 2) else (awutb, apr)
  end.
Definition awu_hw (awutb apr : Z) : tmr := if (1 <=? awutb) && (awutb <=? 13) then Every ((apr + 2) * 2 ^ (awutb - 1)) else Off.
Definition stm8_awu (hz : Z) : tmr :=
  let '(awutb, apr) := awu_loop 16 1 (w16 (128000 / hz)) in
  awu_hw (awutb mod 16) ((apr - 2) mod 64).
(** arch/8051/mach-n76e003/timer-wkt.c:37-65: clocks of the 10 kHz oscillator; the counter goes from RWK to 256 *)
Definition wkt_hw (prescaler rwk : Z) : tmr := Every (prescaler * (256 - rwk mod 256)).
Definition n76e003_wkt (hz : Z) : tmr :=
  let p := 10000 / hz in
  if 4095 <? p then wkt_hw 64 (256 - p / 64) else
  if 1023 <? p then wkt_hw 16 (256 - p / 16) else
  if 255 <? p then wkt_hw 4 (256 - p / 4) else wkt_hw 1 (256 - p).
(** arch/8051/mach-mcs51/timer-t2.c:42-60: timer 2 counts f / 12 up from RCAP2 (T2EX not pulled down); 16-bit unsigned int *)
Definition t2_hw (prescaler rcap : Z) : tmr := Every (prescaler * (65536 - rcap mod 65536)).
Definition mcs51_t2 (f hz : Z) : tmr := t2_hw 12 (65535 - w16 (f / hz / 12)).
(** arch/8051/mach-cy7c6801xa/timer-t2.c:43-69, mach-ch552/timer-t2.c:48-78 *)
Definition cy7c_t2 (f hz : Z) : tmr :=
  let p := f / hz in
  if 65535 <? p then t2_hw 12 (w16 (65535 - w16 (p / 12) + 1)) else t2_hw 4 (w16 (65535 - w16 (p / 4) + 1)).
(** arch/8051/mach-stc12c5axx/timer-t0.c:62-84, 106-110: mode 1: the counter goes on from 0 after an overflow, until
    arch_timer_ack writes it again [l] counts of f / 12 later. *)
Definition stc12_t0 (f hz l : Z) : tmr :=
  let t0 := w16 (4294967295 - w32 (f / hz / 12 - 8)) in Every (12 * (65536 - t0 + l)).
(** arch/powerpc/e200z7/timer-dec.c:24-31: DECAR; [zero]: whether the decrementer shows 0 before it reloads *)
Definition e200_dec (zero : bool) (f hz : Z) : tmr := Every (w32 (f / hz - 1) + if zero then 1 else 0).
(** arch/hcs08/mach-mc9s08ptxx/timer-mtim1.c:43-63: MOD + 1 counts of f / 2^ps; arch_break when none fits *)
Fixpoint mtim_loop (fuel : nat) (ps mod_ : Z) : tmr :=
  match fuel with
  | O => Off
  | S fuel => if mod_ <=? 255 then Every (2 ^ ps * (mod_ + 1)) else mtim_loop fuel (ps + 1) (mod_ / 2)
  end.
Definition hcs08_mtim (f hz : Z) : tmr := mtim_loop 9 0 (w32 (f / hz + 1)).
(** arch/hcs08/mach-mc9s08ptxx/timer-rtc.c:43-58: MOD + 1 counts *)
Definition hcs08_rtc (f hz : Z) : tmr := Every (w16 (f / hz + 1) + 1).

(** ** Timers that are compared with a running counter; times are in counts *)
(** arch/mips/m51xx/picoRTOS_port.c:43-44: counts of f / 2; powerpc/e200z4/mach-mpc574x/timer-stm.c:59, 78: the same *)
Definition mips_period (f hz : Z) : Z := f / hz / 2.
Definition stm_period (f hz : Z) : Z := Z.shiftr (f / hz) 1.
(** powerpc/e200z7/mach-mpc577x/timer-stm.c:62-65; [d]: the field of SYSDIV *)
Definition stma_period (d f hz : Z) : Z := Z.shiftr (w32 (f / hz)) (Z.land 3 d + 1).
(** riscv/rv32imac/picoRTOS_port.c:26 *)
Definition rv32_period (f hz : Z) : Z := f / hz.

(** mips/m51xx/picoRTOS_portasm.S:237-243, e200z4 timer-stm.c:50, e200z7 timer-stm.c:50: the new value of the compare register *)
Definition cmp_next (period cmp : Z) : Z := w32 (cmp + period).
(** The hardware: when the 32-bit counter, [now] counts after it was 0, will be equal to [cmp] for the first time from now on. *)
Definition match_after (now cmp : Z) : Z := now + w32 (cmp - now).
(** Matches from the first on: the k-th one at t, taken and re-armed [l] counts later, for l in the list. MIPS:
    picoRTOS_portasm.S:245-262; STM: Timer_Handler. *)
Fixpoint cmp_ticks (period cmp t : Z) (lats : list Z) : list Z :=
  match lats with
  | [] => [t]
  | l :: lats => let cmp := cmp_next period cmp in t :: cmp_ticks period cmp (match_after (t + l + 1) cmp) lats
  end.
(** arch_start_first_task, portasm.S:330-334: the first compare value is Count + period, at time [now] *)
Definition cmp_start (period now : Z) (lats : list Z) : list Z :=
  let cmp := w32 (w32 now + period) in cmp_ticks period cmp (match_after (now + 1) cmp) lats.

(** riscv/rv32imac/picoRTOS_portasm.S:85-102, on the two words; bltu: no carry if period < sum *)
Definition increase_mtimecmp (period lo hi : Z) : Z * Z :=
  let t2 := w32 (period + lo) in
  (t2, if period <? t2 then hi else w32 (hi + 1)).
(** As a 64-bit number. *)
Definition cat64 (x : Z * Z) : Z := fst x + 4294967296 * snd x.
(** The interrupt is asserted as long as mtime >= mtimecmp. The tick for [cmp] is taken some time after both it is due and the
    handler of the one before is left: [l] counts after that, for l in the list. portasm.S:104-117, 166-177. *)
Fixpoint rv32_ticks (period : Z) (cmp : Z * Z) (free : Z) (lats : list Z) : list (Z * Z) :=
  match lats with
  | [] => []
  | l :: lats => let t := Z.max (cat64 cmp) free + l in (cat64 cmp, t) :: rv32_ticks period (increase_mtimecmp period (fst cmp) (snd cmp)) t lats
  end.
(** arch_start_first_task: mtime read in two words, the low one at [now], the high one [d] counts later *)
Definition rv32_start (period now d : Z) : Z * Z :=
  increase_mtimecmp period (now mod 4294967296) ((now + d) / 4294967296 mod 4294967296).

(** ** Serving a self-reloading timer *)
(** A tick is requested every n clocks, and kept in one flag; [ds]: how long interrupts stay masked (or the handler busy) from
    each moment on. How many ticks are taken in the time sum ds: one at the end of each stretch if one or more requests came. *)
Fixpoint served (n now : Z) (ds : list Z) : Z :=
  match ds with
  | [] => 0
  | d :: ds => (if now / n <? (now + d) / n then 1 else 0) + served n (now + d) ds
  end.
(** arm: arch_suspend stops the counter, arch_resume starts it again (armv7e-m/picoRTOS_port.c:51-61): stretches of time, true for
    suspended ones; the clocks the timer counted. *)
Fixpoint counted (ds : list (bool * Z)) : Z :=
  match ds with
  | [] => 0
  | (s, d) :: ds => (if s : bool then 0 else d) + counted ds
  end.

(** ** arch_delay_us: how many times the loop is run *)
(** armv6-m, armv7-m, armv7e-m/picoRTOS_port.c:137-145, rv32ec timer-stk.c:82-90, rv32imac picoRTOS_port.c:104-112, mips picoRTOS_port.c:137-145,
    avr/timer-tc0.c:109-117: n * (f / 1000000), 32 bits *)
Definition delay_iters (f n : Z) : Z := w32 (n * (f / 1000000)).
(** 8051: timer-wkt.c:73-82, cy7c timer-t2.c:77-86 (and stm8 timer-awu.c:74-83), mcs51 timer-t2.c:68-77 *)
Definition delay_wkt (f n : Z) : Z := Z.shiftr (w32 (n * (f / 1000000))) 5.
Definition delay_quarter (f n : Z) : Z := Z.shiftr (w32 (n * (f / 1000000))) 2.
Definition delay_mcs51 (f n : Z) : Z := w32 (n * (f / 1000000)) / 12.
(** avr/timer-rtc.c:78-86: with the frequency of the RTC *)
Definition delay_rtc (n : Z) : Z := w32 (n * 32768) / 1000000.
