(** NuClockSpec.v - the Nuvoton 8051s out of reset: the trim is that of the factory, the HIRC runs alone. *)
From Verif Require Import Base ClockModel NuClockModel.

Definition nu_reset (factory : Z) (s : nu) : Prop := 0 <= factory < 512 /\ w_trim0 s = factory / 2 /\ w_trim1 s = factory mod 2 /\ w_cken s = 32.
(** What init has to accept: an oscillator and a trim it knows of, a divider the hardware has, and the frequency of an external clock that is used. *)
Definition nu_makes (ml : bool) (st : nuset) : Prop :=
  0 <= ws_fosc st <= 2 /\ 0 <= ws_fhirc st <= (if ml then 2 else 1) /\ (ws_fosc st = 1 -> 0 < ws_feclk st) /\
  (ws_div st = 1 \/ exists n, 1 <= n <= 255 /\ ws_div st = 2 * n).
