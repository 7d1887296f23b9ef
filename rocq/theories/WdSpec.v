(** WdSpec.v - what wd.h promises. *)
From Verif Require Import Base WdModel.

(** Parameters that fit their types. *)
Definition set_ok (st : wset) : Prop := 0 <= ws_t st < 2 ^ 32 /\ 0 <= ws_w st < 2 ^ 32.

(** The watchdog resets the system after the time asked for, with an input clock of [f] Hz: in milliseconds or microseconds to within
    one step of its counter, or exactly the number of clocks (Pic32: of milliseconds) the enumeration names. *)
Definition timeout_ok (d : drv) (f : Z) (st : wset) (s : wd) : Prop :=
  match d with
  | Atmel | Sam3x => Z.abs (1000 * limit d s - f * ws_t st) <= 1000 * 128
  | Fwdgt => Z.abs (1000000 * limit d s - f * ws_t st) <= 1000000 * 2 ^ (w_cfg s + 2)
  | Iwdg => Z.abs (1000 * limit d s - f * ws_t st) <= 1000 * 2 ^ (w_cfg s + 2)
  | Rp2040 => 1000000 * limit d s = f * ws_t st
  | Avr => limit d s = 2048 * 2 ^ ws_t st
  | Pic32 => limit d s = 2 ^ ws_t st
  | SamE5 => limit d s = 8 * 2 ^ ws_t st + (if ws_win st then 8 * 2 ^ ws_w st else 0)
  | F28 => limit d s = 256 * (512 * 2 ^ Z.max 0 (ws_t st - 1))
  | TinyAvr => limit d s = 8 * 2 ^ (ws_t st - 1) + (if ws_w st =? 0 then 0 else 8 * 2 ^ (ws_w st - 1))
  end.
(** A step of the counter is small: the smallest there is, or 1/1024 of the time asked for. [u] is the unit: 1000 or 1000000. *)
Definition fine (u f : Z) (st : wset) (s : wd) : Prop :=
  w_cfg s = 0 \/ 1024 * (u * 2 ^ (w_cfg s + 2)) <= f * ws_t st.
(** A refresh is refused for the time asked for. *)
Definition closed_ok (d : drv) (f : Z) (st : wset) (s : wd) : Prop :=
  match d with
  | Iwdg => 1000 * closed d s = f * (ws_t st - ws_w st)
  | SamE5 => closed d s = (if ws_win st then 8 * 2 ^ ws_w st else 0)
  | F28 => closed d s = ws_w st * (512 * 2 ^ Z.max 0 (ws_t st - 1))
  | TinyAvr => closed d s = (if ws_w st =? 0 then 0 else 8 * 2 ^ (ws_w st - 1))
  | _ => closed d s = 0
  end.

(** What each driver needs of the state it finds; false is what C115_..._refuted are about. *)
Definition ready (d : drv) (f : Z) (st : wset) (s : wd) : Prop :=
  match d with
  | Atmel => w_key s = false /\ Z.testbit (w_mode s) 13 = true /\ Z.testbit (w_mode s) 15 = false     (* as after reset *)
  | Sam3x => False
  | Pic32 => 0 <= w_mode s /\ Z.testbit (w_mode s) 12 = false
  | Rp2040 => w_cfg s = 512 + f / 1000000 /\ f / 1000000 < 512                 (* as after init *)
  | SamE5 => w_mode s = 0                                                      (* as after init *)
  | F28 => w_once s = false
  | _ => True
  end.
(** Clocks and timeouts that work. *)
Definition suits (d : drv) (f : Z) (st : wset) : Prop :=
  match d with
  | Atmel => (128 | f) /\ (f / 128 | 1000)
  | Sam3x => False
  | Fwdgt => f * ws_t st < 2 ^ 32
  | Pic32 => ws_t st < 16
  | Rp2040 => (1000000 | f) /\ ws_t st < 2 ^ 31
  | Iwdg => ws_t st * (f / 4000) < 2 ^ 32 /\                        (* a prescaler that leaves a whole number of kHz is enough *)
            exists p, 0 <= p <= 6 /\ (1000 * 2 ^ (p + 2) | f) /\ ws_t st * (f / (1000 * 2 ^ (p + 2))) <= 4095
  | F28 => ws_t st <= 1
  | TinyAvr => ws_t st <> 0
  | _ => True
  end.

(** A history in which no refresh comes too late ([L] clocks after the last one) or too early (within [C] clocks). [c] clocks have
    passed since the last one. *)
Fixpoint in_time (L C c : Z) (l : list wev) : bool :=
  match l with
  | [] => true
  | Clk :: l' => (c + 1 <? L) && in_time L C (c + 1) l'
  | Feed :: l' => (C <=? c) && in_time L C 0 l'
  end.
(** RP2040: the refresh loads what setup did. *)
Definition rp_loaded (d : drv) (s : wd) : Prop := match d with Rp2040 => w_load s = u24 (w_ctx s) | _ => True end.

(** What a driver that works would accept. *)
Definition fits (d : drv) (f : Z) (st : wset) (s : wd) : Prop :=
  match d with
  | Atmel => 1000 / (f / 128) <= ws_t st < 4096 * (1000 / (f / 128))        (* 1 to 4095 steps *)
  | Sam3x => False
  | Avr => ws_t st <= 9
  | Fwdgt => True
  | Pic32 => True
  | Rp2040 => 0 < ws_t st < 2 ^ 23
  | SamE5 => ws_t st <= 11 /\ (ws_win st = true -> ws_w st <= 11) /\ w_sync s = true
  | Iwdg => 0 < ws_w st <= ws_t st /\ w_sync s = true
  | F28 => ws_w st <= 255
  | TinyAvr => ws_t st <= 11 /\ ws_w st <= 11
  end.

(** Where wd_stop works: WDT_MR can still be written, no interrupt comes into the timed sequence of AVR and the last reset was not
    by the watchdog. *)
Definition stoppable (d : drv) (irq : bool) (s : wd) : Prop :=
  match d with
  | Pic32 | Rp2040 | SamE5 | TinyAvr => True
  | Avr => irq = false /\ w_wdrf s = false
  | Atmel | Sam3x => w_once s = false \/ w_key s = false
  | _ => False
  end.
(** Where it does not, for F28 in every state the register can have (WDCHK reads 0). *)
Definition unstoppable (d : drv) (s : wd) : Prop :=
  match d with
  | Fwdgt | Iwdg => True
  | F28 => field (w_mode s) 3 3 = 0
  | Atmel | Sam3x => w_once s = true /\ w_key s = true
  | _ => False
  end.
