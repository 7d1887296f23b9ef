(** MpcClockSpec.v - what the MPC574xx's settings may be, by clock-mpc574xx.h, and what its PLL can make. *)
From Verif Require Import Base ClockModel MpcClockModel.

(** Numbers the types of the settings can hold, and the dividers the header allows, without its 0 *)
Definition mp_divs (st : mpset) : Prop := 1 <= ms_s160 st <= 8 /\ 1 <= ms_s80 st <= 8 /\ 1 <= ms_fs80 st <= 8 /\ 1 <= ms_s40 st <= 16.
(** PHI0 is [freq], rounded down, with some setting of the PLL *)
Definition mp_makes (clkin freq : Z) : Prop := exists prediv mfd rfd, 1 <= prediv <= 6 /\ 10 <= mfd <= 150 /\ 0 <= rfd <= 4 /\ clkin * mfd / (prediv * 2 * 2 ^ rfd) = freq.
(** The frequency of the clock the PLL is told to use *)
Definition mp_clkin (st : mpset) : Z := if ms_clkin st =? 0 then 16000000 else ms_fxosc st.
(** What init has to accept *)
Definition mp_can (st : mpset) : Prop :=
  mp_divs st /\ (ms_sys st = 0 \/ (ms_sys st = 1 /\ 8000000 <= ms_fxosc st <= 40000000) \/
    (ms_sys st = 2 /\ (ms_clkin st = 0 \/ ms_clkin st = 1) /\ 0 < ms_phi0 st /\ mp_makes (mp_clkin st) (ms_phi0 st))).
