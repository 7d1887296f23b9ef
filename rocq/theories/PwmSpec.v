(** PwmSpec.v - what pwm.h and ipwm.h promise. *)
From Verif Require Import Base PwmModel.

(** Clocks of the timer in a period: the counter goes from 0 to the period register (from 1 on eMIOS, and the SAM TC restarts
    when it gets there), or up and down again. *)
Definition counts (d : drv) (s : pw) : Z :=
  if p_dual s then 2 * p_top s else
  match d with Emios | TcX7 | TcSam3 => p_top s | _ => p_top s + 1 end.
(** The period of the output is [us] microseconds, to within one count of the timer. *)
Definition period_ok (d : drv) (f us : Z) (s : pw) : Prop :=
  Z.abs (1000000 * (p_div s * counts d s) - f * us) <= 1000000 * p_div s.
(** The driver knows the clock of the timer (C109); those that choose the divider need not. *)
Definition knows_clock (d : drv) (f : Z) (s : pw) (o : Z) : Prop :=
  match d with
  | Gd32 | TiEpwm | TcX7 | TcSam3 => p_hz s * p_div s = f
  | Pic32 | Ra4 | Stm32 => True
  | Rp2040 => p_sdiv s o = 1
  | _ => p_sdiv s 0 = p_div s
  end.
(** The clock of the timer is a whole number of MHz (RP2040: the input clock). *)
Definition whole_mhz (d : drv) (f : Z) (s : pw) : Prop :=
  match d with Rp2040 => (1000000 | f) | _ => (1000000 * p_div s | f) end.
(** The largest value of the period register. *)
Definition max_top (d : drv) : Z :=
  match d with Emios => 1048575 | TcSam3 | TcE5_32 => 4294967295 | TcE5_8 => 255 | _ => 65535 end.
(** The registers that make the output. *)
Definition same_output (s s' : pw) : Prop :=
  p_div s' = p_div s /\ p_top s' = p_top s /\ (forall o, p_cmp s' o = p_cmp s o) /\ (forall o, p_flat s' o = p_flat s o) /\
  (forall o, p_on s' o = p_on s o) /\ p_run s' = p_run s.

(** Counts of a period during which output [o] is active. *)
Definition active_counts (s : pw) (o : Z) : Z := if p_flat s o then 0 else p_cmp s o.
(** It is the fraction dc / 65535 of [n] counts, to within two counts. *)
Definition duty_ok (dc n on : Z) : Prop := Z.abs (65535 * on - dc * n) < 2 * 65535.

(** The pin of output [o] carries the waveform. *)
Definition active (d : drv) (s : pw) (o : Z) : bool :=
  match d with
  | Gd32 | Stm32 | Pic32 => p_on s o && p_run s
  | TinyAvr => p_on s o
  | _ => p_run s
  end.
(** Outputs have an enable of their own that pwm_stop uses. *)
Definition own_enable (d : drv) : bool := match d with Gd32 | Pic32 | TinyAvr => true | _ => false end.
(** ncycles is kept for the timer, not for each output. *)
Definition timer_ncycles (d : drv) : bool := match d with Avr | TcE5_8 | TcE5_16 | TcE5_32 => true | _ => false end.
(** Where the output a duty cycle goes to, and its ncycles, are: in 16 and 32 bits SAM E5x has one output. *)
Definition at_out (d : drv) (o : Z) : Z := match d with TcE5_16 | TcE5_32 => 1 | _ => o end.
Definition nc_out (d : drv) (o : Z) : Z := if timer_ncycles d then 0 else o.

(** ** Measurements *)
(** [v] microseconds are [n] clocks of [hz], rounded down. *)
Definition us_of (hz n v : Z) : Prop := v * hz <= n * 1000000 < (v + 1) * hz.
(** [v] is the fraction [high] of [total], in 65535ths, rounded down. *)
Definition ratio_of (high total v : Z) : Prop := v * total <= high * 65535 < (v + 1) * total.
