(** ClockSpec.v - what clock.h promises. *)
From Verif Require Import Base ClockModel.

(** The frequency f is that of the hardware, rounded down to Hz. *)
Definition truthful (f : Z) (q : hz) : Prop := 0 <= fst q - f * snd q < snd q.
(** .. or within t Hz of it. *)
Definition within (t f : Z) (q : hz) : Prop := 0 < snd q /\ Z.abs (fst q - f * snd q) <= t * snd q.
(** The RP2040 can make f from xosc with REFDIV 1. *)
Definition rp_makes (xosc f : Z) : Prop := exists fb p1 p2, 16 <= fb <= 127 /\ 1 <= p1 <= 7 /\ 1 <= p2 <= 7 /\ xosc * fb / (p1 * p2) = f.
(** .. with its vco where it has to be, 750 to 1600 MHz (RP2040 datasheet, 2.18.2). *)
Definition rp_vco_ok (q : hz) : Prop := 750000000 * snd q <= fst q <= 1600000000 * snd q.
(** The vco of the PIC32MZ: 350 to 700 MHz. *)
Definition pic_vco_ok (q : hz) : Prop := 350000000 * snd q <= fst q <= 700000000 * snd q.
(** Settings the RP2040 dividers can hold. *)
Definition rp_divs_ok (st : rpset) : Prop := 0 < rs_sys st < 2 ^ 24 /\ 1 <= rs_ref st <= 3 /\ length (rs_out st) = 4%nat /\ Forall (fun d => 0 < d < 2 ^ 24) (rs_out st).
(** The PLLA of the ATSAMV71 can make plla. *)
Definition pmc_makes (plla mainck : Z) : Prop := exists mula diva, 2 <= mula <= 2047 /\ 1 <= diva <= 255 /\ mula * mainck = plla * diva.
(** What init succeeds with has property P. *)
Definition after {S} (r : kres S) (P : S -> Prop) : Prop := exists s, r = KOk s /\ P s.
(** One call after another *)
Definition then_ {S} (r : kres S) (f : S -> kres S) : kres S := match r with KOk s => f s | x => x end.
(** SAME5x: 12 generators, 2 dplls and 48 peripheral channels, in the hardware (e_) and in what the driver remembers (ec_). *)
Definition e5_wf (s : e5) : Prop := length (e_gen s) = 12%nat /\ length (e_dpll s) = 2%nat /\ length (e_pch s) = 48%nat /\ length (ec_gen s) = 12%nat /\ length (ec_pch s) = 48%nat /\ length (ec_dpll s) = 2%nat.
