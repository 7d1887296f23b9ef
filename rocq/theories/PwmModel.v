(** PwmModel.v - the PWM drivers (drivers/pwm): period, duty cycle, start and stop, and the measurements of ipwm.

    Simplifications:
    - one timer with its outputs, numbered from 0; what each driver keeps in the structure of an output or of the timer is a
      function of the output here, the structures of the timer are under number 0;
    - clock_get_freq returns f, 0 < f < 2^31; unsigned long has 32 bits, size_t 32 bits except on AVR (16);
    - an assertion that fails takes its error exit; the busy waits of pwm-same5x_tc.c succeed;
    - what the hardware makes of the registers is in PwmSpec.v;
    - pwm-sam3x.c and pwm-atsamx7x.c do not compile (struct pwm has no member pwm) and are left out; the output logic
      (polarity, action qualifiers, pin functions) is left out. *)
From Verif Require Import Base.

Definition P_EIO : Z := 5.
Definition P_EINVAL : Z := 22.
Definition P_EAGAIN : Z := 11.
Definition p32 (x : Z) : Z := x mod 4294967296.
Definition p24 (x : Z) : Z := x mod 16777216.
Definition p16 (x : Z) : Z := x mod 65536.
Definition p8 (x : Z) : Z := x mod 256.
Definition MHZ : Z := 1000000.

(** The drivers: pwm-gd32vf103.c, pwm-nxp_emios.c, pwm-pic32mx.c, pwm-renesas_ra4_gpt.c, pwm-rp2040.c, pwm-stm32h7xx_tim.c,
    pwm-ti_epwm.c, pwm-tinyavr_tca.c, pwm-avr.c, pwm-atsamx7x_tc.c, pwm-sam3x_tc.c and pwm-same5x_tc.c in its three modes. *)
Inductive drv := Gd32 | Emios | Pic32 | Ra4 | Rp2040 | Stm32 | TiEpwm | TinyAvr | Avr | TcX7 | TcSam3 | TcE5_8 | TcE5_16 | TcE5_32.

Record pw := mkPw {
  p_hz : Z;              (* frequency, freq: the clock of the timer as the driver knows it (Gd32, TiEpwm, TcX7, TcSam3) *)
  p_sdiv : Z -> Z;       (* prescale, div, prescaler, gpre * ucpre: the divider as the driver knows it *)
  p_nc : Z -> Z;         (* ncycles *)
  p_div : Z;             (* hardware: divider of the input clock *)
  p_top : Z;             (* hardware: the period register *)
  p_dual : bool;         (* hardware: the counter goes up and down *)
  p_topA : bool;         (* Avr: OCRnA is the period register (waveforms _OCRnA) *)
  p_mx : bool;           (* TcE5: waveform MFRQ or MPWM *)
  p_cmp : Z -> Z;        (* hardware: the compare register of an output *)
  p_flat : Z -> bool;    (* TcX7: RC has the action of RA (duty cycle 0) *)
  p_inv : bool;          (* Pic32: invert *)
  p_on : Z -> bool;      (* hardware: the output is enabled *)
  p_run : bool           (* hardware: the counter runs *)
}.
(** 0, or an error; the state in both cases *)
Inductive pres := POk (s : pw) | PErr (e : Z) (s : pw).

Definition set1 {A} (g : Z -> A) (k : Z) (v : A) : Z -> A := fun j => if j =? k then v else g j.
Definition set_nc (s : pw) (k n : Z) : pw :=
  mkPw (p_hz s) (p_sdiv s) (set1 (p_nc s) k n) (p_div s) (p_top s) (p_dual s) (p_topA s) (p_mx s) (p_cmp s) (p_flat s) (p_inv s) (p_on s) (p_run s).
Definition set_top (s : pw) (t : Z) : pw :=
  mkPw (p_hz s) (p_sdiv s) (p_nc s) (p_div s) t (p_dual s) (p_topA s) (p_mx s) (p_cmp s) (p_flat s) (p_inv s) (p_on s) (p_run s).
Definition set_div (s : pw) (d : Z) : pw :=
  mkPw (p_hz s) (p_sdiv s) (p_nc s) d (p_top s) (p_dual s) (p_topA s) (p_mx s) (p_cmp s) (p_flat s) (p_inv s) (p_on s) (p_run s).
Definition set_sdiv (s : pw) (k d : Z) : pw :=
  mkPw (p_hz s) (set1 (p_sdiv s) k d) (p_nc s) (p_div s) (p_top s) (p_dual s) (p_topA s) (p_mx s) (p_cmp s) (p_flat s) (p_inv s) (p_on s) (p_run s).
Definition set_hz (s : pw) (h : Z) : pw :=
  mkPw h (p_sdiv s) (p_nc s) (p_div s) (p_top s) (p_dual s) (p_topA s) (p_mx s) (p_cmp s) (p_flat s) (p_inv s) (p_on s) (p_run s).
Definition set_cmp (s : pw) (k c : Z) : pw :=
  mkPw (p_hz s) (p_sdiv s) (p_nc s) (p_div s) (p_top s) (p_dual s) (p_topA s) (p_mx s) (set1 (p_cmp s) k c) (p_flat s) (p_inv s) (p_on s) (p_run s).
Definition set_flat (s : pw) (k : Z) (b : bool) : pw :=
  mkPw (p_hz s) (p_sdiv s) (p_nc s) (p_div s) (p_top s) (p_dual s) (p_topA s) (p_mx s) (p_cmp s) (set1 (p_flat s) k b) (p_inv s) (p_on s) (p_run s).
Definition set_on (s : pw) (k : Z) (b : bool) : pw :=
  mkPw (p_hz s) (p_sdiv s) (p_nc s) (p_div s) (p_top s) (p_dual s) (p_topA s) (p_mx s) (p_cmp s) (p_flat s) (p_inv s) (set1 (p_on s) k b) (p_run s).
Definition set_run (s : pw) (b : bool) : pw :=
  mkPw (p_hz s) (p_sdiv s) (p_nc s) (p_div s) (p_top s) (p_dual s) (p_topA s) (p_mx s) (p_cmp s) (p_flat s) (p_inv s) (p_on s) b.

(** ** The clock of the timer *)
(** pwm-gd32vf103.c:156-173 set_frequency. TIMERx_PSC: the clock is divided by PSC + 1. *)
Definition gd_clock (f : Z) (s : pw) (frequency : Z) : pres :=
  if frequency <=? 0 then PErr (- P_EINVAL) s else
  let psc := f / frequency in
  if psc <=? 65535 then POk (set_hz (set_div s (psc + 1)) frequency) else PErr (- P_EINVAL) s.
(** pwm-avr.c:67-83 set_clock_select: cs is the field CSn, 0 (stopped) to 7; the clock select is only written by pwm_start.
    The hardware divides by 1, 8, 64, 256 and 1024 for cs 1 to 5. *)
Definition avr_hw_div (cs : Z) : Z := if cs =? 1 then 1 else if cs =? 2 then 8 else if cs =? 3 then 64 else if cs =? 4 then 256 else if cs =? 5 then 1024 else 0.
Definition avr_clock (s : pw) (cs : Z) : pres :=
  if negb (cs <? 8) then PErr (- P_EINVAL) s else
  let s1 := set_div s (avr_hw_div cs) in
  POk (if cs =? 1 then set_sdiv s1 0 1 else if cs =? 2 then set_sdiv s1 0 8
       else if cs =? 3 then set_sdiv s1 0 64 else if cs =? 5 then set_sdiv s1 0 1024 else s1).
(** pwm-tinyavr_tca.c:75-98 set_clksel, pwm-same5x_tc.c:132-154 set_prescaler: the same eight dividers *)
Definition tab_div (sel : Z) : Z :=
  if sel =? 0 then 1 else if sel =? 1 then 2 else if sel =? 2 then 4 else if sel =? 3 then 8
  else if sel =? 4 then 16 else if sel =? 5 then 64 else if sel =? 6 then 256 else 1024.
Definition tab_clock (s : pw) (sel : Z) : pres :=
  if negb (sel <? 8) then PErr (- P_EINVAL) s else POk (set_sdiv (set_div s (tab_div sel)) 0 (tab_div sel)).
(** pwm-atsamx7x_tc.c:143-166 parent_get_freq, pwm-sam3x_tc.c:108-128: TIMER_CLOCK1 to TIMER_CLOCK5; for the last f is that of
    the slow clock *)
Definition tc_div (sel : Z) : Z := if sel =? 0 then 2 else if sel =? 1 then 8 else if sel =? 2 then 32 else if sel =? 3 then 128 else 1.
Definition tc_clock (f : Z) (s : pw) (sel : Z) : pres :=
  if negb (sel <? 5) then PErr (- P_EIO) s else
  if f / tc_div sel =? 0 then PErr (- P_EIO) s else POk (set_hz (set_div s (tc_div sel)) (f / tc_div sel)).
(** pwm-nxp_emios.c:76-88 pwm_nxp_emios_setup: MCR is or-ed with GPRE - 1. The state is the field GPRE of MCR and ctx->gpre. *)
Definition emios_gpre (mcr gpre : Z) : option (Z * Z) :=
  if (1 <=? gpre) && (gpre <=? 256) then Some (Z.lor mcr (gpre - 1), gpre) else None.

(** ** pwm_set_period *)
(** pwm-gd32vf103.c:311-323 *)
Definition gd_period (s : pw) (o us : Z) : pres :=
  if us =? 0 then PErr (- P_EINVAL) s else
  let n := p32 (p_hz s / MHZ * us) in
  let s1 := set_nc s o n in
  if n <=? 65535 then POk (set_top s1 n) else PErr (- P_EINVAL) s1.
(** pwm-nxp_emios.c:160-177; every output is a channel with a counter of its own *)
Definition emios_period (f : Z) (s : pw) (o us : Z) : pres :=
  if us =? 0 then PErr (- P_EINVAL) s else
  let n := p32 (f / p_sdiv s 0 / MHZ * us) in
  let s1 := set_nc s o n in
  if n =? 0 then PErr (- P_EINVAL) s1 else
  if negb (n <? 1048576) then PErr (- P_EINVAL) s1 else POk (set_top s1 n).
(** pwm-pic32mx.c:114-140 *)
Fixpoint pic_loop (ps : list Z) (f us : Z) : option (Z * Z) :=
  match ps with
  | [] => None
  | p :: ps' => let n := p32 (f / p / MHZ * us) in if n <=? 65535 then Some (p, n) else pic_loop ps' f us
  end.
Definition pic_period (f : Z) (s : pw) (o us : Z) : pres :=
  if us =? 0 then PErr (- P_EINVAL) s else
  match pic_loop [1; 2; 4; 8; 16; 32; 64; 256] f us with
  | Some (p, n) => POk (set_nc (set_top (set_div s p) n) o n)
  | None => PErr (- P_EIO) s
  end.
(** pwm-renesas_ra4_gpt.c:204-234: ncycles is set in every round *)
Fixpoint ra4_loop (ps : list Z) (f us last : Z) : Z * option Z :=
  match ps with
  | [] => (last, None)
  | p :: ps' => let n := p32 (f / p / MHZ * us) in if n <=? 65535 then (n, Some p) else ra4_loop ps' f us n
  end.
Definition ra4_period (f : Z) (s : pw) (o us : Z) : pres :=
  if us =? 0 then PErr (- P_EINVAL) s else
  match ra4_loop [1; 4; 16; 64; 256; 1024] f us (p_nc s o) with
  | (n, Some p) => POk (set_nc (set_div (set_top s n) p) o n)
  | (n, None) => PErr (- P_EIO) (set_nc s o n)
  end.
(** pwm-rp2040.c:86-108. CHn_DIV_INT: 8 bits, 0 divides by 256. *)
Definition rp_hw_div (d : Z) : Z := if d mod 256 =? 0 then 256 else d mod 256.
Definition rp_period (f : Z) (s : pw) (o us : Z) : pres :=
  if us =? 0 then PErr (- P_EINVAL) s else
  let n := p32 (f / p_sdiv s o / MHZ * us) in
  let d := if 65535 <? n then n / 65535 + 1 else p_sdiv s o in
  let n' := if 65535 <? n then n / d else n in
  let s1 := set_nc (set_sdiv s o d) o n' in
  if n' =? 0 then PErr (- P_EINVAL) s1 else POk (set_top (set_div s1 (rp_hw_div d)) (p16 n')).
(** pwm-stm32h7xx_tim.c:381-402; the loop ends when hz is below 1 MHz at the latest *)
Fixpoint stm_loop (fuel : nat) (psc f us : Z) : Z * Z :=
  let n := p32 (f / (psc + 1) / MHZ * us) in
  match fuel with
  | O => (psc + 1, n)
  | S fuel' => if 65535 <? n then stm_loop fuel' (psc + 1) f us else (psc + 1, n)
  end.
Definition stm_period (f : Z) (s : pw) (o us : Z) : pres :=
  if us =? 0 then PErr (- P_EINVAL) s else
  let (psc, n) := stm_loop (Z.to_nat (f / MHZ)) 0 f us in
  let s1 := set_nc s o n in
  if n =? 0 then PErr (- P_EINVAL) s1 else POk (set_top (set_div s1 (p16 (psc - 1) + 1)) n).
(** pwm-ti_epwm.c:440-453 *)
Definition ti_period (s : pw) (o us : Z) : pres :=
  if us =? 0 then PErr (- P_EINVAL) s else
  let n := p32 (p_hz s / MHZ * us) in
  let s1 := set_nc s o n in
  if n =? 0 then PErr (- P_EINVAL) s1 else POk (set_top s1 (p16 n)).
(** pwm-tinyavr_tca.c:148-161 *)
Definition tiny_period (f : Z) (s : pw) (o us : Z) : pres :=
  if us =? 0 then PErr (- P_EINVAL) s else
  let n := p16 (p32 (f / p_sdiv s 0 / MHZ * us)) in
  POk (set_top (set_nc s o n) n).
(** pwm-avr.c:273-303, for the waveforms that have a period register; OCRnA is the compare register of output 0 too *)
Definition avr_period (f : Z) (s : pw) (us : Z) : pres :=
  if us =? 0 then PErr (- P_EINVAL) s else
  let n := p16 (p32 (f / p_sdiv s 0 / MHZ * us)) in
  let s1 := set_nc s 0 n in
  if n =? 0 then PErr (- P_EINVAL) s1 else
  POk (let s2 := set_top s1 n in if p_topA s then set_cmp s2 0 n else s2).
(** pwm-atsamx7x_tc.c:244-250 (RC has 16 bits) and pwm-sam3x_tc.c:182-188 (32 bits) *)
Definition tc_period (w : Z -> Z) (s : pw) (o us : Z) : pres :=
  let n := p32 (p_hz s / MHZ * us) in POk (set_top (set_nc s o n) (w n)).
(** pwm-same5x_tc.c:240-286: in 8 bits the period register is PER, in 16 and 32 bits CC0 *)
Definition e5_period (max : Z) (mx : bool) (f : Z) (s : pw) (us : Z) : pres :=
  let n := p32 (f / p_sdiv s 0 / MHZ * us) in
  let s1 := set_nc s 0 n in
  if negb (n <=? max) then PErr (- P_EINVAL) s1 else
  if mx && negb (p_mx s) then PErr (- P_EINVAL) s1 else POk (set_top s1 n).

(** the function the driver exports *)
Definition pwm_set_period (d : drv) (f : Z) (s : pw) (o us : Z) : pres :=
  match d with
  | Gd32 => gd_period s o us
  | Emios => emios_period f s o us
  | Pic32 => pic_period f s o us
  | Ra4 => ra4_period f s o us
  | Rp2040 => rp_period f s o us
  | Stm32 => stm_period f s o us
  | TiEpwm => ti_period s o us
  | TinyAvr => tiny_period f s o us
  | Avr => avr_period f s us
  | TcX7 => tc_period p16 s o us
  | TcSam3 => tc_period p32 s o us
  | TcE5_8 => e5_period 255 false f s us
  | TcE5_16 => e5_period 65535 true f s us
  | TcE5_32 => e5_period 4294967295 true f s us
  end.

(** ** pwm_set_duty_cycle *)
(** (duty_cycle * ncycles) >> 16 in 32 bits: pwm-nxp_emios.c:179-183, pwm-pic32mx.c:142-154 (with invert, 16 bits kept),
    pwm-renesas_ra4_gpt.c:235-248, pwm-rp2040.c:110-123 (16 bits kept), pwm-stm32h7xx_tim.c:404-422, pwm-tinyavr_tca.c:163-171,
    pwm-avr.c:306-323, pwm-sam3x_tc.c:190-198, pwm-same5x_tc.c:292-339 *)
Definition shr16 (dc n : Z) : Z := p32 (dc * n) / 65536.
(** duty_cycle * ncycles / 65535 in 32 bits: pwm-gd32vf103.c:325-341, pwm-ti_epwm.c:455-469 (16 bits kept in both) *)
Definition by65535 (dc n : Z) : Z := p32 (dc * n) / 65535.
Definition pwm_set_duty_cycle (d : drv) (s : pw) (o dc : Z) : pres :=
  match d with
  | Gd32 | TiEpwm => POk (set_cmp s o (p16 (by65535 dc (p_nc s o))))
  | Emios => POk (set_cmp s o (p24 (shr16 dc (p_nc s o))))
  | Pic32 => POk (set_cmp s o (p16 (shr16 (if p_inv s then 65535 - dc else dc) (p_nc s o))))
  | Ra4 | Rp2040 | Stm32 | TinyAvr => POk (set_cmp s o (p16 (shr16 dc (p_nc s o))))
  | Avr => let c := p16 (shr16 dc (p_nc s 0)) in
           let s1 := set_cmp s o c in POk (if p_topA s && (o =? 0) then set_top s1 c else s1)
  (* pwm-atsamx7x_tc.c:252-272 *)
  | TcX7 => POk (set_flat (set_cmp s o (p16 (shr16 dc (p_nc s o) + 1))) o (dc =? 0))
  | TcSam3 => POk (set_cmp s o (shr16 dc (p_nc s o)))
  | TcE5_8 => let c := shr16 dc (p_nc s 0) in
              if c <? 256 then POk (set_cmp s o c) else PErr (- P_EINVAL) s
  | TcE5_16 => let c := shr16 dc (p_nc s 0) in
               if c <? 65536 then POk (set_cmp s 1 c) else PErr (- P_EINVAL) s
  | TcE5_32 => POk (set_cmp s 1 (shr16 dc (p_nc s 0)))
  end.

(** ** pwm_start and pwm_stop *)
(** pwm-gd32vf103.c:343-370, pwm-stm32h7xx_tim.c:424-440, pwm-pic32mx.c:156-165, pwm-tinyavr_tca.c:173-199: an enable of the
    output, and the counter (that of TinyAvr always runs);
    pwm-renesas_ra4_gpt.c:250-262, pwm-rp2040.c:125-133, pwm-ti_epwm.c:471-484, pwm-avr.c:218-228 and 325-333,
    pwm-atsamx7x_tc.c:274-282, pwm-sam3x_tc.c:200-208, pwm-same5x_tc.c:349-371, pwm-nxp_emios.c:185-193 (a counter for each
    output): the counter only *)
Definition pwm_start (d : drv) (s : pw) (o : Z) : pw :=
  match d with
  | Gd32 | Stm32 | Pic32 => set_run (set_on s o true) true
  | TinyAvr => set_on s o true
  | _ => set_run s true
  end.
Definition pwm_stop (d : drv) (s : pw) (o : Z) : pw :=
  match d with
  | Gd32 | Pic32 | TinyAvr => set_on s o false
  | Stm32 => set_run (set_on s o false) false
  | _ => set_run s false
  end.

(** ** ipwm: what is computed from the captured values *)
Inductive mres := MOk (v : Z) | MAgain | MUB.
(** pwm-sam3x_tc.c:259-271 ipwm_get_period_acq: ncycles is a signed difference *)
Definition s32 (x : Z) : Z := if p32 x <? 2147483648 then p32 x else p32 x - 4294967296.
Definition sam3_iperiod (hz : Z) (ldrbs : bool) (ra rb : Z) : mres :=
  if negb ldrbs then MAgain else
  let n := s32 (rb - ra) in
  if hz / MHZ =? 0 then MUB else MOk (p32 (Z.quot n (hz / MHZ))).
(** pwm-sam3x_tc.c:302-330 ipwm_get_duty_cycle_acq; pin: the level of TIOA, rising: ldr is RISING *)
Definition sam3_iduty (cpcs ldras pin rising : bool) (ra rb : Z) : mres :=
  if cpcs then MOk (if Bool.eqb pin rising then 65535 else 0)
  else if negb ldras then MAgain
  else if s32 rb =? 0 then MUB else MOk (p16 (s32 ra * Z.quot 65535 (s32 rb))).
(** pwm-nxp_emios.c:262-289 ipwm_get_period_acq; A and B are the times of the last two edges *)
Definition emios_iperiod (hz : Z) (flag : bool) (a b : Z) : mres :=
  if negb flag then MAgain else if hz =? 0 then MUB else MOk (p32 (p24 (a - b) * 1000000) / hz).
(** pwm-nxp_emios.c:330-347 ipwm_get_duty_cycle_acq; alta: counts during which the input was high, B: the length of the capture *)
Definition emios_iduty (flag : bool) (alta b : Z) : mres :=
  if negb flag then MAgain else if b =? 0 then MUB else MOk (p16 (p32 (alta * 65535) / b)).
(** pwm-rp2040.c:207-231 ipwm_get_period_acq; ctr: edges / div *)
Definition rp_iperiod (tick_hz elapsed div ctr : Z) : mres :=
  if elapsed =? 0 then MAgain else
  let n := p32 (ctr * div) in
  if n <? 2 then MAgain else MOk (p32 (elapsed * (1000000 / tick_hz)) / n).
(** pwm-rp2040.c:262-288 ipwm_get_duty_cycle_acq; ctr: the counter that runs while the input is high, 16 bits *)
Definition rp_iduty (f tick_hz elapsed div ctr : Z) (polarity : bool) : mres :=
  if elapsed =? 0 then MAgain else
  let cyc := p32 (f / div * elapsed) / tick_hz in
  if cyc =? 0 then MUB else
  let v := p16 (p32 (ctr * 65535) / cyc) in
  MOk (if polarity then v else 65535 - v).
