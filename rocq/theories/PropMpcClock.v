(** PropMpcClock.v - C134 and C135 for the MPC574xx. *)
From Verif Require Import Base ClockModel ClockSpec MpcClockModel MpcClockSpec MpcClockProofs.

(** clock_get_freq gives the frequency of the hardware, for dividers from 1 to 8, an input of the PLL of at most 28.6 MHz, and the FIRC only where it already
    is the system clock. *)
Theorem C134_mpc574_partial : forall st s0 s, mp_divs st -> ms_s40 st <= 8 -> (ms_sys st = 0 -> m_sysclk s0 = 0) ->
  (ms_sys st = 2 -> 0 <= mp_clkin st /\ 150 * mp_clkin st < 2 ^ 32) -> mp_init st s0 = KOk s -> forall id, truthful (mp_get s id) (mp_hw (ms_fxosc st) s id).
Proof. exact mp_ok. Qed.
Print Assumptions C134_mpc574_partial.
(** Out of reset, and the settings of a board of 160 MHz. *)
Definition mp_boot : mp := mkMp 0 0 0 0 0 None None None None 16000000 0 0 0 0 0 0 0.
Definition mp_board (s40 : Z) : mpset := mkMpSet 2 0 0 160000000 1 2 2 s40.
Example C134_mpc574_runs : mp_divs (mp_board 4) /\ 150 * mp_clkin (mp_board 4) < 2 ^ 32 /\
  after (mp_init (mp_board 4) mp_boot) (fun s => map (mp_get s) [MF160; MS160; MS80; MFS80; MS40; MF40; MF80; MF20] =
    [160000000; 160000000; 80000000; 80000000; 40000000; 40000000; 80000000; 20000000]).
Proof. split; [repeat split; discriminate|]. split; [reflexivity|]. eexists. split; vm_compute; reflexivity. Qed.

(** A divider of 9 to 16 for S40, which the header allows, makes another one: 8 less. *)
Theorem C134_mpc574_s40_wrong : forall st s0 s, 9 <= ms_s40 st -> mp_init st s0 = KOk s ->
  mp_hw (ms_fxosc st) s MS40 = hdiv (mp_hw (ms_fxosc st) s MF160) (ms_s40 st - 8) /\ mp_get s MS40 = mp_get s MF160 / ms_s40 st /\ ms_s40 st <= 16.
Proof. exact mp_s40. Qed.
Print Assumptions C134_mpc574_s40_wrong.
Example C134_mpc574_s40_runs : after (mp_init (mp_board 10) mp_boot) (fun s => mp_get s MS40 = 16000000 /\ mp_hw 0 s MS40 = (16000000 * 20, 2 * 2)).
Proof. eexists. split; vm_compute; auto. Qed.
(** A product of 32 bits wraps: a crystal of 40 MHz, and 2.16 GHz where 12.516352 MHz are noted. *)
Theorem C134_mpc574_refuted : after (mp_init (mkMpSet 2 1 40000000 12516352 1 1 1 1) mp_boot) (fun s => mp_get s MF160 = 12516352 /\ mp_hw 40000000 s MF160 = (40000000 * 108, 2)).
Proof. eexists. split; vm_compute; auto. Qed.
Print Assumptions C134_mpc574_refuted.
(** Back to the FIRC: 16 MHz are noted, the PLL stays. *)
Theorem C134_mpc574_again_refuted : after (then_ (mp_init (mp_board 4) mp_boot) (mp_init (mkMpSet 0 0 0 0 1 1 1 1)))
  (fun s => mp_get s MF160 = 16000000 /\ mp_hw 0 s MF160 = (16000000 * 20, 2)).
Proof. eexists. split; vm_compute; auto. Qed.
Print Assumptions C134_mpc574_again_refuted.

(** Init finds a setting of the PLL whenever there is one, and accepts what it has to. *)
Theorem C135_mpc574_partial : forall st s0, mp_can st -> (ms_sys st = 2 -> 0 <= mp_clkin st /\ 150 * mp_clkin st < 2 ^ 32) -> exists s, mp_init st s0 = KOk s.
Proof. exact mp_accepts. Qed.
Print Assumptions C135_mpc574_partial.
Example C135_mpc574_runs : mp_can (mp_board 16).
Proof. split; [repeat split; discriminate|]. right. right. split; [reflexivity|]. split; [left; reflexivity|]. split; [reflexivity|]. exists 1, 20, 0. repeat split; discriminate. Qed.
(** A divider of 0, which the header has for "disable", divides by 0. *)
Theorem C135_mpc574_zero_ub : forall st s0, ms_s160 st <= 8 /\ ms_s80 st <= 8 /\ ms_fs80 st <= 8 /\ ms_s40 st <= 16 ->
  ms_s160 st = 0 \/ ms_s80 st = 0 \/ ms_fs80 st = 0 \/ ms_s40 st = 0 -> ms_sys st = 0 \/ (ms_sys st = 1 /\ 8000000 <= ms_fxosc st <= 40000000) -> mp_init st s0 = KUb.
Proof. exact mp_zero. Qed.
Print Assumptions C135_mpc574_zero_ub.
Example C135_mpc574_zero_runs : mp_init (mkMpSet 1 0 16000000 0 1 1 0 1) mp_boot = KUb.
Proof. reflexivity. Qed.
