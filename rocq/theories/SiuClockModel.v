(** SiuClockModel.v - the clocks of the MPC5777C: clock-nxp_siu.c.

    Simplifications: unsigned long has 32 bits; a bit field written is cut to its width; waits for the crystal, the PLL0 and the progressive
    clock switch are left out (they end, or init fails); the wait for the PLL1 is a function of its own, [siu_wait1]; fixed dividers (ECCR,
    SDCLKCFG, LFCLKCFG, PSCLKCFG) and the clocks they make, which clock_get_freq does not answer for, are left out. *)
From Verif Require Import Base ClockModel.

(** struct clock_settings (clock-nxp_siu.h:31) *)
Record siuset := mkSiuSet { us_xosc : Z; us_pll0 : Z; us_phi : Z; us_phi1 : Z; us_pll1 : Z; us_sys : Z; us_per : Z; us_fm : Z; us_etpu : Z }.
(** Registers: PREDIV, MFD, RFDPHI and RFDPHI1 of PLL0DV; MFD and RFDPHI of PLL1DV; SYSCLKDIV, PERDIV, FMPERDIV and ETPUDIV of SIU_SYSDIV; and
    [clocks] (clock-nxp_siu.c:206) *)
Record siu := mkSiu { u_prediv : Z; u_mfd0 : Z; u_rfd0 : Z; u_rfd01 : Z; u_mfd1 : Z; u_rfd1 : Z; u_sysdiv : Z; u_perdiv : Z; u_fmdiv : Z; u_etpudiv : Z;
  uc_core : Z; uc_plat : Z; uc_per : Z; uc_fm : Z; uc_etpu : Z }.

(** setup_pll0's search (clock-nxp_siu.c:276) *)
Definition siu_find0 (xosc freq : Z) : option (Z * Z) :=
  first (fun prediv => first (fun mfd => if ul (xosc / prediv * mfd) =? freq then Some (prediv, mfd) else None) 120 8) 7 1.
(** setup_pll1's search (clock-nxp_siu.c:313) *)
Definition siu_find1 (phi1 freq : Z) : option (Z * Z) :=
  first (fun mfd => first (fun rfd => if ul (phi1 * mfd) / (rfd * 2) =? freq then Some (mfd, rfd) else None) 63 1) 19 16.
(** SYSCLKDIV (setup_sysclk, clock-nxp_siu.c:333) *)
Definition siu_sysdiv (d : Z) : option Z := if d =? 1 then Some 4 else if d =? 2 then Some 0 else if d =? 4 then Some 1 else if d =? 8 then Some 2 else if d =? 16 then Some 3 else None.
(** PERDIV, FMPERDIV (setup_per_clk :364, setup_fm_per_clk :386) *)
Definition siu_perdiv (d : Z) : option Z := if d =? 2 then Some 0 else if d =? 4 then Some 1 else if d =? 8 then Some 2 else None.
(** ETPUDIV (setup_etpu_clk :406) *)
Definition siu_etpudiv (d : Z) : option Z := if d =? 1 then Some 1 else if d =? 2 then Some 0 else None.
(** clock_nxp_siu_init (clock-nxp_siu.c:473) *)
Definition siu_init (st : siuset) : kres siu :=
  if negb ((0 <? us_phi st) && (us_phi st <=? 63)) then KErr else
  if negb ((4 <? us_phi1 st) && (us_phi1 st <=? 15)) then KErr else
  match siu_find0 (us_xosc st) (us_pll0 st) with
  | None => KErr
  | Some (prediv, mfd0) =>
      let phi := us_pll0 st / us_phi st in
      let phi1 := us_pll0 st / us_phi1 st in
      match siu_find1 phi1 (us_pll1 st), siu_perdiv (us_per st), siu_sysdiv (us_sys st), siu_perdiv (us_fm st), siu_etpudiv (us_etpu st) with
      | Some (mfd1, rfd1), Some p, Some s, Some f, Some e =>
          let sys := us_pll1 st / us_sys st in
          KOk (mkSiu (kf prediv 3) (kf mfd0 7) (kf (us_phi st) 6) (kf (us_phi1 st) 4) (kf mfd1 7) (kf rfd1 6) s p f e
            sys (sys / 2) (phi / us_per st) (sys / us_fm st) (sys / us_etpu st))
      | _, _, _, _, _ => KErr
      end
  end.
Inductive siuid := UCore | UPlat | UPer | UFm | UEtpu | UIrc.
(** clock_get_freq (clock-nxp_siu.c:525) *)
Definition siu_get (s : siu) (id : siuid) : Z :=
  match id with UCore => uc_core s | UPlat => uc_plat s | UPer => uc_per s | UFm => uc_fm s | UEtpu => uc_etpu s | UIrc => 16000000 end.
(** Hardware: PHI of the PLL0 is xosc * MFD / (PREDIV * RFDPHI), PHI1 is xosc * MFD / (PREDIV * RFDPHI1); PHI of the PLL1, which PHI1 feeds, is PHI1 *
    MFD / (2 * RFDPHI). SYSCLKDIV: 2, 4, 8, 16 for 0 to 3, and 1 for 4; PERDIV and FMPERDIV: 2, 4, 8; ETPUDIV: 2, and 1 for 1. *)
Definition siu_hw (xosc : Z) (s : siu) (id : siuid) : hz :=
  let phi := (xosc * u_mfd0 s, u_prediv s * u_rfd0 s) in
  let pll1 := (xosc * u_mfd0 s * u_mfd1 s, u_prediv s * u_rfd01 s * (2 * u_rfd1 s)) in
  let sys := hdiv pll1 (if u_sysdiv s =? 4 then 1 else 2 * 2 ^ u_sysdiv s) in
  match id with
  | UCore => sys | UPlat => hdiv sys 2 | UPer => hdiv phi (2 * 2 ^ u_perdiv s) | UFm => hdiv sys (2 * 2 ^ u_fmdiv s)
  | UEtpu => hdiv sys (if u_etpudiv s =? 1 then 1 else 2) | UIrc => (16000000, 1)
  end.
(** pll1_lock_busywait (clock-nxp_siu.c:246): [locked i] is the LOCK bit as it is read the i-th time; Some i: it returned 0 after that read, None: -EBUSY *)
Fixpoint siu_wait1 (deadlock : nat) (locked : nat -> bool) (i : nat) : option nat :=
  if locked i then match deadlock with O => None | S d => siu_wait1 d locked (S i) end else Some i.
