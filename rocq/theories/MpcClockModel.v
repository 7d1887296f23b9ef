(** MpcClockModel.v - the clocks of the MPC574xx: clock-mpc574xx.c.

    Simplifications: unsigned long has 32 bits; the waits (for the PLL, for the end of a transition, for the mode DRUN) are left out (they end, or init
    fails); the bits of DRUN_MC other than SYSCLK, and the registers of the run modes and peripherals, which make no frequency, are left out. *)
From Verif Require Import Base ClockModel.

(** struct clock_settings (clock-mpc574xx.h:33) *)
Record mpset := mkMpSet { ms_sys : Z; ms_clkin : Z; ms_fxosc : Z; ms_phi0 : Z; ms_s160 : Z; ms_s80 : Z; ms_fs80 : Z; ms_s40 : Z }.
(** DRUN_MC.SYSCLK, AC5_SC.SELCTL; PREDIV, MFD and RFDPHI of PLLDV; SC_DC0, SC_DC1, SC_DC5 and SC_DC2: None with DE clear, else DIV; [clocks] (clock-mpc574xx.c:176) *)
Record mp := mkMp { m_sysclk : Z; m_selctl : Z; m_prediv : Z; m_mfd : Z; m_rfd : Z; m_dc0 : option Z; m_dc1 : option Z; m_dc5 : option Z; m_dc2 : option Z;
  mcl_sys : Z; mcl_s160 : Z; mcl_s80 : Z; mcl_fs80 : Z; mcl_s40 : Z; mcl_f80 : Z; mcl_f40 : Z; mcl_f20 : Z }.
(** setup_fmpll_phi0's search (clock-mpc574xx.c:261) *)
Definition mp_find (clkin freq : Z) : option (Z * Z * Z) :=
  first (fun prediv => first (fun mfd => first (fun rfd => if ul (clkin * mfd) / (prediv * 2 * 2 ^ rfd) =? freq then Some (prediv, mfd, rfd) else None) 5 0) 141 10) 6 1.
(** SC_DCn_DIV, of 3 bits, and SC_DCn_DE (clock-mpc574xx.c:60); a 0 leaves the register as it is (set_scalable_dividers :341) *)
Definition mp_dc (div : Z) (old : option Z) : option Z := if div =? 0 then old else Some (kf (div - 1) 3).
(** set_scalable_dividers (clock-mpc574xx.c:334) *)
Definition mp_dividers (st : mpset) (s : mp) : kres mp :=
  if negb (ms_s160 st <=? 8) then KErr else if negb (ms_s80 st <=? 8) then KErr else
  if negb (ms_fs80 st <=? 8) then KErr else if negb (ms_s40 st <=? 16) then KErr else
  let '(mkMp sc se p m r d0 d1 d5 d2 c0 c1 c2 c3 c4 c5 c6 c7) := s in
  KOk (mkMp sc se p m r (mp_dc (ms_s160 st) d0) (mp_dc (ms_s80 st) d1) (mp_dc (ms_fs80 st) d5) (mp_dc (ms_s40 st) d2) c0 c1 c2 c3 c4 c5 c6 c7).
(** switch_to_fxosc (clock-mpc574xx.c:310), switch_to_fmpll_phi0 (:281) with setup_fmpll_clkin (:222) and setup_fmpll_phi0 (:245), and the FIRC
    (clock_mpc574xx_init :374), for which no register is written *)
Definition mp_switch (st : mpset) (s : mp) : kres mp :=
  let '(mkMp sc se p m r d0 d1 d5 d2 c0 c1 c2 c3 c4 c5 c6 c7) := s in
  if ms_sys st =? 0 then KOk (mkMp sc se p m r d0 d1 d5 d2 16000000 c1 c2 c3 c4 c5 c6 c7)
  else if ms_sys st =? 1 then
    if negb (8000000 <=? ms_fxosc st) then KErr else if negb (ms_fxosc st <=? 40000000) then KErr else
    KOk (mkMp 1 se p m r d0 d1 d5 d2 (ms_fxosc st) c1 c2 c3 c4 c5 c6 c7)
  else if ms_sys st =? 2 then
    if negb ((ms_clkin st =? 0) || (ms_clkin st =? 1)) then KErr else
    if negb (0 <? ms_phi0 st) then KErr else
    match mp_find (if ms_clkin st =? 0 then 16000000 else ms_fxosc st) (ms_phi0 st) with
    | Some (prediv, mfd, rfd) => KOk (mkMp 2 (ms_clkin st) (kf prediv 3) (kf mfd 8) (kf rfd 6) d0 d1 d5 d2 (ms_phi0 st) c1 c2 c3 c4 c5 c6 c7)
    | None => KErr
    end
  else KErr.
(** clock_mpc574xx_init (clock-mpc574xx.c:365); a division by 0 is undefined *)
Definition mp_init (st : mpset) (s : mp) : kres mp :=
  match mp_dividers st s with
  | KOk s1 =>
      match mp_switch st s1 with
      | KOk (mkMp sc se p m r d0 d1 d5 d2 sys _ _ _ _ _ _ _) =>
          if (ms_s160 st =? 0) || (ms_s80 st =? 0) || (ms_fs80 st =? 0) || (ms_s40 st =? 0) then KUb else
          KOk (mkMp sc se p m r d0 d1 d5 d2 sys (sys / ms_s160 st) (sys / ms_s80 st) (sys / ms_fs80 st) (sys / ms_s40 st) (sys / 2) (sys / 4) (sys / 8))
      | x => x
      end
  | x => x
  end.
Inductive mpid := MF160 | MS160 | MS80 | MFS80 | MS40 | MF40 | MF80 | MF20.
(** clock_get_freq (clock-mpc574xx.c:494) *)
Definition mp_get (s : mp) (id : mpid) : Z :=
  match id with MF160 => mcl_sys s | MS160 => mcl_s160 s | MS80 => mcl_s80 s | MFS80 => mcl_fs80 s | MS40 => mcl_s40 s | MF40 => mcl_f40 s | MF80 => mcl_f80 s | MF20 => mcl_f20 s end.
(** Hardware: SYSCLK 0 is the FIRC, 1 the crystal, 2 PHI0 of the PLL, which is the clock SELCTL picks * MFD / (2 * PREDIV * 2^RFDPHI). A divider that is
    enabled divides by DIV + 1, one that is not gives nothing. *)
Definition mp_hw_sys (fxosc : Z) (s : mp) : hz :=
  if m_sysclk s =? 0 then (16000000, 1) else if m_sysclk s =? 1 then (fxosc, 1)
  else ((if m_selctl s =? 0 then 16000000 else fxosc) * m_mfd s, m_prediv s * 2 * 2 ^ m_rfd s).
Definition mp_hw_dc (q : hz) (d : option Z) : hz := match d with Some v => hdiv q (v + 1) | None => (0, 1) end.
Definition mp_hw (fxosc : Z) (s : mp) (id : mpid) : hz :=
  let sys := mp_hw_sys fxosc s in
  match id with
  | MF160 => sys | MS160 => mp_hw_dc sys (m_dc0 s) | MS80 => mp_hw_dc sys (m_dc1 s) | MFS80 => mp_hw_dc sys (m_dc5 s) | MS40 => mp_hw_dc sys (m_dc2 s)
  | MF40 => hdiv sys 4 | MF80 => hdiv sys 2 | MF20 => hdiv sys 8
  end.
