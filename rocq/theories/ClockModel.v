(** ClockModel.v - clock drivers (drivers/clock): init and clock_get_freq of the RP2040, F28379x, ATSAMV71 PMC, SAM3X PMC, PIC32MX,
    GD32VF103, RA4, SAME5x, tinyAVR and CY7C6801x, and the clock trees behind their registers.

    Simplifications:
    - register fields are kept apart, masked as the driver's macros mask them; a frequency the hardware makes is a fraction of integers;
    - the crystals have the frequency the settings say; oscillators, plls and multiplexers lock and switch in time: init returns 0 if
      its checks pass; assertions that fail take their error exit;
    - unsigned long has 32 bits;
    - enabling and disabling of gates, the flash wait states, arch_set_clock_frequency and start-up times are left out. *)
From Verif Require Import Base.

Definition K_EINVAL : Z := 22.
(** What init returns: 0 and the new state, an error, undefined behaviour. *)
Inductive kres (S : Type) := KOk (s : S) | KErr | KUb.
Arguments KOk {S} _. Arguments KErr {S}. Arguments KUb {S}.
(** A frequency of the hardware: fst / snd Hz *)
Definition hz := (Z * Z)%type.
Definition hdiv (q : hz) (d : Z) : hz := (fst q, snd q * d).
(** 32-bit arithmetic *)
Definition ul (x : Z) : Z := x mod 2 ^ 32.
(** field of n bits *)
Definition kf (x n : Z) : Z := x mod 2 ^ n.
(** for (x = lo; n times; x++): the result of the first iteration that has one *)
Fixpoint first {A} (body : Z -> option A) (n : nat) (x : Z) : option A :=
  match n with O => None | S k => match body x with Some r => Some r | None => first body k (x + 1) end end.

(** * RP2040: clock-rp2040.c *)
(** struct clock_settings (clock-rp2040.h); rs_out: clk_gpout0_div .. clk_gpout3_div *)
Record rpset := mkRpSet { rs_xosc : Z; rs_pll : Z; rs_ref : Z; rs_sys : Z; rs_out : list Z }.
(** REFDIV of CS, FBDIV_INT, POSTDIV1 and POSTDIV2 of PRIM (clock-rp2040.c:130-160) *)
Record rppll := mkRpPll { p_ref : Z; p_fb : Z; p_p1 : Z; p_p2 : Z }.
(** Registers, and [clocks] (clock-rp2040.c:166) *)
Record rp := mkRp {
  r_psys : rppll; r_pusb : rppll; r_refdiv : Z; r_sysdiv : Z; r_outdiv : list Z; r_rtcint : Z; r_rtcfrac : Z;
  rc_pll_usb : Z; rc_sys : Z; rc_ref : Z; rc_rtc : Z; rc_out : list Z
}.
(** pll_setup (clock-rp2040.c:202): the masks of the macros at :131-156 *)
Definition rp_pll_setup (refdiv fbdiv p1 p2 : Z) : rppll := mkRpPll (kf refdiv 5) (kf fbdiv 7) (kf p1 3) (kf p2 3).
(** the body of the innermost loop of pll_config (clock-rp2040.c:259-262), int arithmetic; None: go on *)
Definition rp_try (xosc hz refdiv fbdiv p1 p2 : Z) : option (option rppll) :=
  let m := xosc / refdiv * fbdiv in
  if 2 ^ 31 <=? m then Some None
  else if m / (p1 * p2) =? hz then Some (Some (rp_pll_setup refdiv fbdiv p1 p2)) else None.
(** pll_config (clock-rp2040.c:235) *)
Definition rp_pll_config (xosc hz : Z) : kres rppll :=
  if hz <=? 0 then KErr else
  match first (fun refdiv => first (fun fbdiv => first (fun p1 => first (fun p2 =>
          rp_try xosc hz refdiv fbdiv p1 p2) 7 1) 7 1) (Z.to_nat 304) 16) 63 1 with
  | None => KErr
  | Some None => KUb
  | Some (Some p) => KOk p
  end.
(** clock_rp2040_init (clock-rp2040.c:427) and the functions it calls (:181-:416) *)
Definition rp_init (st : rpset) : kres rp :=
  if rs_xosc st <=? 0 then KErr                                     (* :429 *)
  else if 15000000 <? rs_xosc st then KErr                          (* :187 *)
  else if (rs_ref st <=? 0) || (4 <=? rs_ref st) then KErr          (* :338 *)
  else match rp_pll_config (rs_xosc st) (rs_pll st) with
  | KErr => KErr | KUb => KUb
  | KOk psys => match rp_pll_config (rs_xosc st) 48000000 with
    | KErr => KErr | KUb => KUb
    | KOk pusb =>
      if rs_sys st <=? 0 then KErr                                  (* :313 *)
      else if existsb (fun d => d <=? 0) (rs_out st) then KErr      (* :361 *)
      else
        let sys := rs_pll st / rs_sys st in
        KOk (mkRp psys pusb (kf (rs_ref st) 2) (kf (rs_sys st) 24) (map (fun d => kf d 24) (rs_out st))
               (kf (rs_xosc st / 46875) 24) (kf (rs_xosc st mod 46875 * 100 / 46875) 8)
               48000000 sys (rs_xosc st / rs_ref st) 46875 (map (fun d => sys / d) (rs_out st)))
    end
  end.
Inductive rpid := RpSys | RpRef | RpPeri | RpUsb | RpAdc | RpRtc | RpOut (i : nat).
(** clock_get_freq (clock-rp2040.c:474) *)
Definition rp_get (s : rp) (id : rpid) : Z :=
  match id with
  | RpSys | RpPeri => rc_sys s
  | RpRef => rc_ref s
  | RpUsb | RpAdc => rc_pll_usb s
  | RpRtc => rc_rtc s
  | RpOut i => nth i (rc_out s) 0
  end.
(** Hardware: the vco makes xosc / REFDIV * FBDIV, the post dividers divide it; dividers of 0 divide by 65536; the rtc divider has a
    fraction of 8 bits. *)
Definition rp_vco (xosc : Z) (p : rppll) : hz := (xosc * p_fb p, p_ref p).
Definition rp_pll_hz (xosc : Z) (p : rppll) : hz := hdiv (rp_vco xosc p) (p_p1 p * p_p2 p).
Definition rp_divi (d : Z) : Z := if d =? 0 then 65536 else d.
Definition rp_hw (xosc : Z) (s : rp) (id : rpid) : hz :=
  let sys := hdiv (rp_pll_hz xosc (r_psys s)) (rp_divi (r_sysdiv s)) in
  match id with
  | RpSys | RpPeri => sys
  | RpRef => (xosc, rp_divi (r_refdiv s))
  | RpUsb | RpAdc => rp_pll_hz xosc (r_pusb s)
  | RpRtc => (xosc * 256, r_rtcint s * 256 + r_rtcfrac s)
  | RpOut i => hdiv sys (rp_divi (nth i (r_outdiv s) 0))
  end.

(** * F28379x: clock-f28379x.c *)
(** OSCCLKSRCSEL is XTAL; IMULT, FMULT, PLLSYSCLKDIV; [clocks] (clock-f28379x.c:73) *)
Record f28 := mkF28 { q_xtal : bool; q_imult : Z; q_fmult : Z; q_div : Z; qc_clksrc : Z; qc_cpu : Z }.
(** After reset: INTOSC2, the pll bypassed. *)
Definition f28_reset : f28 := mkF28 false 1 0 0 0 0.
(** the search of configure_pll (clock-f28379x.c:159-162): imult and divsel *)
Definition f28_find (clksrc freq : Z) : option (Z * Z) :=
  first (fun divsel => first (fun imult =>
    if freq =? ul (clksrc * imult) / divsel then Some (imult, divsel) else None) (Z.to_nat 127) 1) 62 2.
(** clock_f28379x_init (clock-f28379x.c:182): source XTAL of frequency xfreq or not, frequency asked for *)
Definition f28_init (xtal : bool) (xfreq freq : Z) (s : f28) : kres f28 :=
  let clksrc := if xtal then xfreq else 10000000 in
  let sel := if xtal then true else q_xtal s in                     (* configure_xtal_sel (:79); nothing switches back *)
  match f28_find clksrc freq with
  | Some (imult, divsel) => KOk (mkF28 sel (kf imult 7) 0 (kf (divsel - 1) 6) clksrc freq)   (* :163-165, pll_setup (:105) *)
  | None => KErr
  end.
Inductive f28id := FSys | FIntosc | FLsp | FEpwm.
(** clock_get_freq (clock-f28379x.c:241) *)
Definition f28_get (s : f28) (id : f28id) : Z :=
  match id with FSys => qc_cpu s | FIntosc => 10000000 | FLsp => qc_cpu s / 4 | FEpwm => qc_cpu s / 2 end.
(** Hardware: PLLSYSCLK is OSCCLK * (IMULT + FMULT / 4) / (2 * PLLSYSCLKDIV), not divided for 0. *)
Definition f28_hw (xfreq : Z) (s : f28) (id : f28id) : hz :=
  let osc := if q_xtal s then xfreq else 10000000 in
  let sys := (osc * (4 * q_imult s + q_fmult s), 4 * (if q_div s =? 0 then 1 else 2 * q_div s)) in
  match id with FSys => sys | FIntosc => (10000000, 1) | FLsp => hdiv sys 4 | FEpwm => hdiv sys 2 end.

(** * ATSAMV71: clock-atmel_pmc.c *)
(** struct clock_settings (clock-atmel_pmc.h:38): ps_upll 0 disabled, 1, 2 divided by 2; ps_css 0 slck, 1 mainck, 2 pllack, 3 upllckdiv *)
Record pmcset := mkPmcSet { ps_rc : bool; ps_mosc : Z; ps_plla : Z; ps_upll : Z; ps_css : Z; ps_pres : Z; ps_mdiv : Z }.
(** The frequency of the main oscillator; MULA and DIVA; UPLLEN and UPLLDIV2; PRES, MDIV and CSS of PMC_MCKR; PRES and CSS of each PMC_PCK;
    [clocks] (clock-atmel_pmc.c:114). *)
Record pmc := mkPmc {
  m_main : Z; m_mula : Z; m_diva : Z; m_upllen : bool; m_div2 : bool; m_pres : Z; m_mdiv : Z; m_css : Z; m_pck : list (Z * Z);
  mc_main : Z; mc_plla : Z; mc_upll : Z; mc_hclk : Z; mc_mck : Z; mc_pck : list Z
}.
(** After reset: 12 MHz RC oscillator; clocks is zero. *)
Definition pmc_reset : pmc := mkPmc 12000000 0 0 false false 0 0 1 (replicate 8 (0, 0)) 0 0 0 0 0 (replicate 8 0).
(** slck_probe (clock-atmel_pmc.c:129), the internal oscillator *)
Definition pmc_slck : Z := 32000.
(** the search of plla_setup (clock-atmel_pmc.c:190-195): mula and diva; unsigned long wraps *)
Definition pmc_find (plla mainck : Z) : option (Z * Z) :=
  first (fun diva => let mula := ul (plla * diva) / mainck in
    if ul (mula * mainck) / diva =? plla then Some (mula, diva) else None) (Z.to_nat 255) 1.
(** plla_setup (clock-atmel_pmc.c:181): the multiplier and divider written, None: -EINVAL *)
Definition pmc_plla (plla mainck : Z) : option (Z * Z) :=
  if plla / 2 <? mainck then None else
  match pmc_find plla mainck with
  | Some (mula, diva) => if mula <? 2048 then Some (kf (mula - 1) 11, kf diva 8) else None
  | None => None
  end.
(** mckr_pres (clock-atmel_pmc.c:256), PRES of init_mck (clock-sam3x_pmc.c:186) *)
Definition mckr_pres (p : Z) : option Z :=
  if p =? 1 then Some 0 else if p =? 2 then Some 1 else if p =? 3 then Some 7 else if p =? 4 then Some 2 else if p =? 8 then Some 3
  else if p =? 16 then Some 4 else if p =? 32 then Some 5 else if p =? 64 then Some 6 else None.
(** mckr_mdiv (clock-atmel_pmc.c:274) *)
Definition mckr_mdiv (m : Z) : option Z :=
  if m =? 1 then Some 0 else if m =? 2 then Some 1 else if m =? 3 then Some 3 else if m =? 4 then Some 2 else None.
(** mainck_setup (clock-atmel_pmc.c:139): accepted frequencies *)
Definition pmc_mosc_ok (st : pmcset) : bool :=
  if ps_rc st then (ps_mosc st =? 4000000) || (ps_mosc st =? 8000000) || (ps_mosc st =? 12000000) else 0 <? ps_mosc st.
(** clock_atmel_pmc_init (clock-atmel_pmc.c:356), upll_setup (:222), hclk_mck_setup (:288) *)
Definition pmc_init (st : pmcset) (s : pmc) : kres pmc :=
  if negb (pmc_mosc_ok st) then KErr else
  let pl := if ps_plla st =? 0 then Some (m_mula s, m_diva s, mc_plla s) else
            match pmc_plla (ps_plla st) (ps_mosc st) with Some (a, d) => Some (a, d, ps_plla st) | None => None end in
  match pl with
  | None => KErr
  | Some (mula, diva, plla) =>
    if negb ((0 <=? ps_upll st) && (ps_upll st <? 3) && (0 <=? ps_css st) && (ps_css st <? 4)) then KErr else
    let upllen := negb (ps_upll st =? 0) in
    let div2 := if ps_upll st =? 0 then m_div2 s else ps_upll st =? 2 in
    let upll := if ps_upll st =? 0 then mc_upll s else if ps_upll st =? 2 then 240000000 else 480000000 in
    match mckr_pres (ps_pres st), mckr_mdiv (ps_mdiv st) with
    | Some pres, Some mdiv =>
        let freq := if ps_css st =? 0 then pmc_slck else if ps_css st =? 1 then ps_mosc st else if ps_css st =? 2 then plla else upll in
        KOk (mkPmc (ps_mosc st) mula diva upllen div2 (kf pres 3) (kf mdiv 2) (kf (ps_css st) 2) (m_pck s)
               (ps_mosc st) plla upll (freq / ps_pres st) (freq / (ps_pres st * ps_mdiv st)) (mc_pck s))
    | _, _ => KErr
    end
  end.
(** clock_atmel_pmc_pck_enable (clock-atmel_pmc.c:418) *)
Definition pmc_pck_enable (pck : nat) (prescaler css : Z) (s : pmc) : kres pmc :=
  if negb ((pck <? 8)%nat && (0 <? prescaler) && (prescaler <=? 256) && (0 <=? css) && (css <? 5)) then KErr else
  let freq := if css =? 0 then pmc_slck else if css =? 1 then mc_main s else if css =? 2 then mc_plla s
              else if css =? 3 then mc_upll s else mc_mck s in
  KOk (mkPmc (m_main s) (m_mula s) (m_diva s) (m_upllen s) (m_div2 s) (m_pres s) (m_mdiv s) (m_css s)
         (<[pck := (kf (prescaler - 1) 8, kf css 3)]> (m_pck s))
         (mc_main s) (mc_plla s) (mc_upll s) (mc_hclk s) (mc_mck s) (<[pck := freq / prescaler]> (mc_pck s))).
(** pck_enable for a list of (pck, prescaler, css) *)
Fixpoint pmc_pcks (l : list (nat * Z * Z)) (s : pmc) : kres pmc :=
  match l with [] => KOk s | (i, p, c) :: l' => match pmc_pck_enable i p c s with KOk s' => pmc_pcks l' s' | r => r end end.
Inductive pmcid := PHclk | PMck | PPck (i : nat).
(** clock_get_freq (clock-atmel_pmc.c:458) *)
Definition pmc_get (s : pmc) (id : pmcid) : Z :=
  match id with PHclk => mc_hclk s | PMck => mc_mck s | PPck i => nth i (mc_pck s) 0 end.
(** Hardware: PRES 0..6 divides by 2^PRES, 7 by 3; MDIV 0, 1, 2, 3 divides by 1, 2, 4, 3; PLLA is off for DIVA or MULA 0, else
    MAINCK * (MULA + 1) / DIVA. *)
Definition hw_pres (p : Z) : Z := if p =? 7 then 3 else 2 ^ p.
Definition hw_mdiv (m : Z) : Z := if m =? 3 then 3 else 2 ^ m.
Definition hw_plla (main mula diva : Z) : hz := if (mula =? 0) || (diva =? 0) then (0, 1) else (main * (mula + 1), diva).
Definition pmc_src (s : pmc) (css : Z) : hz :=
  if css =? 0 then (pmc_slck, 1) else if css =? 1 then (m_main s, 1) else if css =? 2 then hw_plla (m_main s) (m_mula s) (m_diva s)
  else if m_upllen s then ((if m_div2 s then 240000000 else 480000000), 1) else (0, 1).
Definition pmc_hw (s : pmc) (id : pmcid) : hz :=
  let hclk := hdiv (pmc_src s (m_css s)) (hw_pres (m_pres s)) in
  let mck := hdiv hclk (hw_mdiv (m_mdiv s)) in
  match id with
  | PHclk => hclk
  | PMck => mck
  | PPck i => let '(p, c) := nth i (m_pck s) (0, 0) in hdiv (if c =? 4 then mck else pmc_src s c) (p + 1)
  end.

(** * SAM3X: clock-sam3x_pmc.c *)
(** The crystal; MULA and DIVA; PRES (CSS is PLLA); DIV of each PMC_PCR; [clocks] (clock-sam3x_pmc.c:89). *)
Record s3x := mkS3x { y_xtal : Z; y_mula : Z; y_diva : Z; y_pres : Z; y_pdiv : list Z; yc_mck : Z; yc_periph : list Z }.
(** DEVICE_PID_COUNT peripherals, all off *)
Definition s3x_reset : s3x := mkS3x 0 0 0 0 (replicate 45 0) 0 (replicate 45 0).
(** clock_sam3x_pmc_init (clock-sam3x_pmc.c:235), init_plla (:168), plla_setup (:140), init_mck (:180) *)
Definition s3x_init (moscx plla mck_div : Z) (s : s3x) : kres s3x :=
  if moscx <=? 0 then KErr
  else if plla / 2 <? moscx then KErr
  else let mula := plla / moscx in
  if 2048 <=? mula then KErr
  else match mckr_pres mck_div with
  | None => KErr
  | Some pres => KOk (mkS3x moscx (kf (mula - 1) 11) 1 (kf pres 3) (y_pdiv s) (plla / mck_div) (yc_periph s))
  end.
(** clock_sam3x_pmc_enable (clock-sam3x_pmc.c:272) of a peripheral *)
Definition s3x_enable (pid : nat) (div : Z) (s : s3x) : kres s3x :=
  if negb ((0 <=? div) && (div <? 3) && (0 <? pid)%nat && (pid <? 45)%nat) then KErr else
  KOk (mkS3x (y_xtal s) (y_mula s) (y_diva s) (y_pres s) (<[pid := kf div 2]> (y_pdiv s)) (yc_mck s)
         (<[pid := yc_mck s / 2 ^ div]> (yc_periph s))).
(** enable for a list of (pid, div) *)
Fixpoint s3x_enables (l : list (nat * Z)) (s : s3x) : kres s3x :=
  match l with [] => KOk s | (i, d) :: l' => match s3x_enable i d s with KOk s' => s3x_enables l' s' | r => r end end.
Inductive s3xid := SMck | SPeriph (pid : nat).
(** clock_get_freq (clock-sam3x_pmc.c:316) *)
Definition s3x_get (s : s3x) (id : s3xid) : Z := match id with SMck => yc_mck s | SPeriph p => nth p (yc_periph s) 0 end.
(** Hardware: as above; DIV of PMC_PCR divides by 1, 2 or 4. *)
Definition s3x_hw (s : s3x) (id : s3xid) : hz :=
  let mck := hdiv (hw_plla (y_xtal s) (y_mula s) (y_diva s)) (hw_pres (y_pres s)) in
  match id with SMck => mck | SPeriph p => hdiv mck (2 ^ nth p (y_pdiv s) 0) end.

(** * PIC32MX: clock-pic32mx.c *)
(** The crystal; PLLICLK is FRC; PLLIDIV, PLLMULT, PLLODIV; NOSC; PBDIV of PBxDIV; [clocks] (clock-pic32mx.c:100). *)
Record pic := mkPic { z_posc : Z; z_frc : bool; z_idiv : Z; z_mult : Z; z_odiv : Z; z_nosc : Z; z_pb : list Z; zc_sys : Z; zc_pb : list Z }.
Definition pic_reset : pic := mkPic 0 false 0 0 1 0 (replicate 8 1) 0 (replicate 8 0).
(** the search of configure_pll (clock-pic32mx.c:178-185): odiv, mult, idiv *)
Definition pic_find (iclk freq : Z) : option (Z * Z * Z) :=
  first (fun p2 => first (fun mult => first (fun idiv =>
    if freq =? ul (iclk / idiv * mult) / 2 ^ p2 then Some (p2, mult, idiv) else None) 8 1) (Z.to_nat 128) 1) 5 1.
(** switch_osc (clock-pic32mx.c:208): the frequency noted; None: -EINVAL *)
Definition pic_osc (osc posc pll : Z) : option Z :=
  if osc =? 0 then Some 8000000 else if osc =? 1 then Some pll else if osc =? 2 then Some posc else if osc =? 4 then Some 32768
  else if osc =? 5 then Some 32768 else if osc =? 6 then Some 8000000 else if osc =? 7 then Some 8000000 else None.
(** clock_pic32mx_init (clock-pic32mx.c:244), configure_pll (:155), configure_pll_input (:120) *)
Definition pic_init (posc : Z) (frc : bool) (pllo osc : Z) (s : pic) : kres pic :=
  if negb frc && (64000000 <=? posc) then KErr else
  match pic_find (if frc then 8000000 else posc) pllo with
  | None => KErr
  | Some (p2, mult, idiv) =>
    match pic_osc osc posc pllo with
    | None => KErr
    | Some f => KOk (mkPic posc frc (kf (idiv - 1) 3) (kf (mult - 1) 7) (kf p2 3) (kf osc 3) (z_pb s) f (zc_pb s))
    end
  end.
(** clock_pic32mx_pbclk_enable (clock-pic32mx.c:282), pb 0 .. 7 *)
Definition pic_pbclk_enable (pb : nat) (pbdiv : Z) (s : pic) : kres pic :=
  if negb ((pb <? 8)%nat && (pbdiv <? 128)) then KErr
  else if pbdiv =? 0 then KUb
  else KOk (mkPic (z_posc s) (z_frc s) (z_idiv s) (z_mult s) (z_odiv s) (z_nosc s) (<[pb := kf (pbdiv - 1) 7]> (z_pb s)) (zc_sys s)
              (<[pb := zc_sys s / pbdiv]> (zc_pb s))).
(** pbclk_enable for a list of (pb, pbdiv) *)
Fixpoint pic_pbclks (l : list (nat * Z)) (s : pic) : kres pic :=
  match l with [] => KOk s | (i, d) :: l' => match pic_pbclk_enable i d s with KOk s' => pic_pbclks l' s' | r => r end end.
Inductive picid := ISys | IPb (i : nat).
(** clock_get_freq (clock-pic32mx.c:317) *)
Definition pic_get (s : pic) (id : picid) : Z := match id with ISys => zc_sys s | IPb i => nth i (zc_pb s) 0 end.
(** Hardware: the vco makes input / (PLLIDIV + 1) * (PLLMULT + 1), the output divider 2 ^ PLLODIV; a peripheral bus divides by PBDIV + 1. *)
Definition pic_vco (s : pic) : hz := ((if z_frc s then 8000000 else z_posc s) * (z_mult s + 1), z_idiv s + 1).
Definition pic_hw (s : pic) (id : picid) : hz :=
  let sys := if z_nosc s =? 1 then hdiv (pic_vco s) (2 ^ z_odiv s) else if z_nosc s =? 2 then (z_posc s, 1)
             else if (z_nosc s =? 4) || (z_nosc s =? 5) then (32768, 1) else (8000000, 1) in
  match id with ISys => sys | IPb i => hdiv sys (nth i (z_pb s) 0 + 1) end.

(** * GD32VF103: clock-gd32vf103.c *)
(** struct clock_settings (clock-gd32vf103.h:28): gs_sys 0 IRC8M, 1 HXTAL, 2 PLL; gs_hx: the pll runs from HXTAL *)
Record gdset := mkGdSet { gs_hxtal : Z; gs_sys : Z; gs_hx : bool; gs_pll : Z; gs_ahb : Z; gs_apb1 : Z; gs_apb2 : Z; gs_adc : Z }.
(** The crystal; SCS; PLLSEL; PREDV0; PLLMF with bit 4; AHBPSC; APB1PSC; APB2PSC; ADCPSC with bit 2; [clocks] (clock-gd32vf103.c:84). *)
Record gd := mkGd {
  g_hxtal : Z; g_scs : Z; g_hx : bool; g_predv0 : Z; g_pllmf : Z; g_ahb : Z; g_apb1 : Z; g_apb2 : Z; g_adc : Z;
  gc_sys : Z; gc_ahb : Z; gc_apb1 : Z; gc_apb2 : Z; gc_adc : Z
}.
(** the search of setup_pll (clock-gd32vf103.c:152-155): pllmf, predv0 *)
Definition gd_find (input freq : Z) : option (Z * Z) :=
  first (fun pllmf => first (fun predv0 =>
    if ul (input / predv0 * pllmf) =? freq then Some (pllmf, predv0) else None) 16 1) 31 2.
(** setup_ahb_div (clock-gd32vf103.c:190), setup_apb1_div (:228), setup_apb2_div (:258), setup_adc_div (:288): the codes *)
Definition gd_ahb_code (d : Z) : option Z :=
  if d =? 1 then Some 0 else if d =? 2 then Some 8 else if d =? 4 then Some 9 else if d =? 8 then Some 10 else if d =? 16 then Some 11
  else if d =? 64 then Some 12 else if d =? 128 then Some 13 else if d =? 256 then Some 14 else if d =? 512 then Some 15 else None.
Definition gd_apb_code (d : Z) : option Z :=
  if d =? 1 then Some 0 else if d =? 2 then Some 4 else if d =? 4 then Some 5 else if d =? 8 then Some 6 else if d =? 16 then Some 7 else None.
Definition gd_adc_code (d : Z) : option Z :=
  if d =? 2 then Some 0 else if d =? 4 then Some 1 else if d =? 6 then Some 2 else if d =? 8 then Some 3
  else if d =? 12 then Some (4 + kf 6 2) else if d =? 16 then Some (4 + kf 7 2) else None.
(** clock_gd32vf103_init (clock-gd32vf103.c:333), setup_pll (:128), from cleared registers and clocks *)
Definition gd_init (st : gdset) : kres gd :=
  let pll :=
    if gs_sys st =? 0 then Some (8000000, 0, 0) else if gs_sys st =? 1 then Some (gs_hxtal st, 0, 0)
    else if negb (gs_sys st =? 2) || (gs_pll st <=? 0) || (108000000 <? gs_pll st) then None
    else match gd_find (if gs_hx st then gs_hxtal st else 8000000) (gs_pll st) with
         | Some (pllmf, predv0) => Some (gs_pll st, kf (predv0 - 1) 4, 16 * kf ((pllmf - 1) / 16) 1 + kf (pllmf - 1) 4)
         | None => None
         end in
  match pll with
  | None => KErr
  | Some (sys, predv0, pllmf) =>
    if (gs_ahb st <=? 0) || (gs_apb1 st <=? 0) || (gs_apb2 st <=? 0) || (gs_adc st <=? 0) then KErr else
    let ahb := sys / gs_ahb st in
    let apb1 := ahb / gs_apb1 st in
    let apb2 := ahb / gs_apb2 st in
    let adc := apb2 / gs_adc st in
    if (108000000 <? ahb) || (54000000 <? apb1) || (108000000 <? apb2) || (14000000 <? adc) then KErr else
    match gd_ahb_code (gs_ahb st), gd_apb_code (gs_apb1 st), gd_apb_code (gs_apb2 st), gd_adc_code (gs_adc st) with
    | Some a, Some b, Some c, Some d =>
        KOk (mkGd (gs_hxtal st) (kf (gs_sys st) 2) (gs_hx st) predv0 pllmf (kf a 4) (kf b 3) (kf c 3) d sys ahb apb1 apb2 adc)
    | _, _, _, _ => KErr
    end
  end.
Inductive gdid := GSys | GAhb | GApb1 | GApb2 | GAdc.
(** clock_get_freq (clock-gd32vf103.c:447) *)
Definition gd_get (s : gd) (id : gdid) : Z :=
  match id with GSys => gc_sys s | GAhb => gc_ahb s | GApb1 => gc_apb1 s | GApb2 => gc_apb2 s | GAdc => gc_adc s end.
(** Hardware: PLLMF 0..14 multiplies by 2..16 (13: by 6.5), 15 by 16, 16..31 by 17..32; the crystal is divided by PREDV0 + 1, IRC8M by 2. Twice
    the multiplier: *)
Definition gd_mul2 (c : Z) : Z := if c =? 13 then 13 else if c <? 15 then 2 * (c + 2) else 2 * (c + 1).
Definition gd_pll (s : gd) : hz := if g_hx s then (g_hxtal s * gd_mul2 (g_pllmf s), 2 * (g_predv0 s + 1)) else (4000000 * gd_mul2 (g_pllmf s), 2).
(** AHBPSC from 8 on divides by 2, 4, 8, 16, 64, 128, 256, 512; APBxPSC from 4 on by 2, 4, 8, 16; ADCPSC by 2, 4, 6, 8, 2, 12, 8, 16 *)
Definition gd_ahb_div (c : Z) : Z := if c <? 8 then 1 else if c <? 12 then 2 ^ (c - 7) else 2 ^ (c - 6).
Definition gd_apb_div (c : Z) : Z := if c <? 4 then 1 else 2 ^ (c - 3).
Definition gd_adc_div (c : Z) : Z :=
  if c =? 0 then 2 else if c =? 1 then 4 else if c =? 2 then 6 else if c =? 3 then 8 else if c =? 4 then 2 else if c =? 5 then 12 else if c =? 6 then 8 else 16.
Definition gd_hw (s : gd) (id : gdid) : hz :=
  let sys := if g_scs s =? 0 then (8000000, 1) else if g_scs s =? 1 then (g_hxtal s, 1) else gd_pll s in
  let ahb := hdiv sys (gd_ahb_div (g_ahb s)) in
  match id with
  | GSys => sys
  | GAhb => ahb
  | GApb1 => hdiv ahb (gd_apb_div (g_apb1 s))
  | GApb2 => hdiv ahb (gd_apb_div (g_apb2 s))
  | GAdc => hdiv (hdiv ahb (gd_apb_div (g_apb2 s))) (gd_adc_div (g_adc s))
  end.

(** * Renesas RA4: clock-renesas_ra4.c *)
Inductive raid := RaF | RaI | RaA | RaB | RaC | RaD | RaIwdt.
(** CKSEL and the fields of SCKDIVCR; [clocks] (clock-renesas_ra4.c:172) *)
Record ra := mkRa { a_cksel : Z; a_f : Z; a_i : Z; a_a : Z; a_b : Z; a_c : Z; a_d : Z; ac_main : Z; ac_f : Z; ac_i : Z; ac_a : Z; ac_b : Z; ac_c : Z; ac_d : Z }.
(** hoco_get_freq (clock-renesas_ra4.c:200), HOCOFRQ1 of OFS1; hardware: the same *)
Definition ra_hoco (ofs : Z) : option Z :=
  if ofs =? 0 then Some 24000000 else if ofs =? 2 then Some 32000000 else if ofs =? 4 then Some 48000000 else if ofs =? 5 then Some 64000000 else None.
(** setup_clock_source (clock-renesas_ra4.c:276); hardware: the same *)
Definition ra_main (cksel hoco mosc : Z) : option Z :=
  if cksel =? 0 then Some hoco else if cksel =? 1 then Some 8000000 else if cksel =? 2 then Some 32768 else if cksel =? 3 then Some mosc
  else if cksel =? 4 then Some 32768 else None.
(** clock_renesas_ra4_init (clock-renesas_ra4.c:310): the divider exponents f i a b c d *)
Definition ra_init (ofs mosc cksel f i a b c d : Z) : kres ra :=
  if existsb (fun x => (x <? 0) || (7 <=? x)) [f; i; a; b; c; d] then KErr else
  match ra_hoco ofs with
  | None => KErr
  | Some hoco =>
    if 20000000 <? mosc then KErr else
    match ra_main cksel hoco mosc with
    | None => KErr
    | Some m => KOk (mkRa (kf cksel 3) (kf f 3) (kf i 3) (kf a 3) (kf b 3) (kf c 3) (kf d 3) m
                       (m / 2 ^ f) (m / 2 ^ i) (m / 2 ^ a) (m / 2 ^ b) (m / 2 ^ c) (m / 2 ^ d))
    end
  end.
(** clock_get_freq (clock-renesas_ra4.c:413) *)
Definition ra_get (s : ra) (id : raid) : Z :=
  match id with
  | RaF => ac_f s | RaI => ac_i s | RaA => ac_a s | RaB => ac_b s
  | RaC => ac_b s
  | RaD => ac_c s
  | RaIwdt => 15000000
  end.
(** Hardware: each clock is the source divided by 2 ^ field; the IWDT has an oscillator of 15 kHz. *)
Definition ra_hw (ofs mosc : Z) (s : ra) (id : raid) : hz :=
  let m := match ra_hoco ofs with Some h => match ra_main (a_cksel s) h mosc with Some x => x | None => 0 end | None => 0 end in
  match id with
  | RaF => (m, 2 ^ a_f s) | RaI => (m, 2 ^ a_i s) | RaA => (m, 2 ^ a_a s) | RaB => (m, 2 ^ a_b s) | RaC => (m, 2 ^ a_c s) | RaD => (m, 2 ^ a_d s)
  | RaIwdt => (15000, 1)
  end.

(** * SAME5x: clock-same5x.c *)
(** SRC and DIV of each GENCTRL; REFCLK, LDR, LDRFRAC of each DPLL; GEN of each PCHCTRL; [clocks] (clock-same5x.c:217). *)
Record e5 := mkE5 { e_gen : list (Z * Z); e_dpll : list (Z * Z * Z); e_pch : list nat; ec_gen : list Z; ec_pch : list Z; ec_dpll : list Z }.
Definition e5_reset : e5 := mkE5 (replicate 12 (6, 1)) (replicate 2 (0, 0, 0)) (replicate 48 0%nat) (replicate 12 0) (replicate 48 0) (replicate 2 0).
(** clock_same5x_gclk_generator_setup (clock-same5x.c:255) *)
Definition e5_gen_setup (i : nat) (src dv : Z) (s : e5) : kres e5 :=
  if negb ((i <? 12)%nat && (dv <? 65536)) then KErr else
  let freq := if src =? 3 then Some (nth 1 (ec_gen s) 0) else if (src =? 4) || (src =? 5) then Some 32768 else if src =? 6 then Some 48000000
              else if src =? 7 then Some (nth 0 (ec_dpll s) 0) else if src =? 8 then Some (nth 1 (ec_dpll s) 0) else None in
  match freq with
  | None => KErr
  | Some f => if dv =? 0 then KUb else
      KOk (mkE5 (<[i := (kf src 4, kf dv 16)]> (e_gen s)) (e_dpll s) (e_pch s) (<[i := f / dv]> (ec_gen s)) (ec_pch s) (ec_dpll s))
  end.
(** clock_same5x_dpll_setup (clock-same5x.c:462); CLOCK_SAME5X_FDPLL0 and 1 are 1 and 2 *)
Definition e5_dpll_setup (i : nat) (refclk f : Z) (s : e5) : kres e5 :=
  if negb ((i <? 2)%nat && (0 <=? refclk) && (refclk <? 4)) then KErr else
  let freq := nth (S i) (ec_pch s) 0 in
  if freq <=? 0 then KErr else
  KOk (mkE5 (e_gen s) (<[i := (kf refclk 3, kf (f / freq - 1) 13, kf (ul (f mod freq * 32) / freq) 5)]> (e_dpll s)) (e_pch s)
         (ec_gen s) (ec_pch s) (<[i := f]> (ec_dpll s))).
(** clock_same5x_setup (clock-same5x.c:601) *)
Definition e5_setup (id g : nat) (s : e5) : kres e5 :=
  if negb ((id <? 48)%nat && (g <? 12)%nat) then KErr else
  KOk (mkE5 (e_gen s) (e_dpll s) (<[id := g]> (e_pch s)) (ec_gen s) (<[id := nth g (ec_gen s) 0]> (ec_pch s)) (ec_dpll s)).
(** clock_get_freq (clock-same5x.c:650) *)
Definition e5_get (s : e5) (id : nat) : Z := nth id (ec_pch s) 0.
(** Hardware: generator 1 divides by DIV, the others by its low 8 bits, 0 as 1; a dpll makes reference * (LDR + 1 + LDRFRAC / 32). The
    frequency of generator i, looking n sources back: *)
Definition e5_gdiv (i : nat) (div : Z) : Z := let d := if (i =? 1)%nat then div else kf div 8 in if d =? 0 then 1 else d.
Fixpoint e5_gen_hz (n : nat) (s : e5) (i : nat) : hz :=
  match n with
  | O => (0, 1)
  | S k =>
    let '(src, div) := nth i (e_gen s) (0, 0) in
    let dpll j := let '(r, ldr, frac) := nth j (e_dpll s) (0, 0, 0) in
                  let '(a, b) := if r =? 0 then e5_gen_hz k s (nth (S j) (e_pch s) 0%nat) else (32768, 1) in
                  (a * (32 * (ldr + 1) + frac), 32 * b) in
    hdiv (if src =? 3 then e5_gen_hz k s 1 else if (src =? 4) || (src =? 5) then (32768, 1) else if src =? 6 then (48000000, 1)
          else if src =? 7 then dpll 0%nat else dpll 1%nat) (e5_gdiv i div)
  end.
Definition e5_hw (s : e5) (id : nat) : hz := e5_gen_hz 4 s (nth id (e_pch s) 0%nat).
(** Calls *)
Inductive e5ev := EGen (i : nat) (src div : Z) | EDpll (i : nat) (refclk f : Z) | EPch (id g : nat).
Definition e5_step (e : e5ev) (s : e5) : kres e5 :=
  match e with EGen i src div => e5_gen_setup i src div s | EDpll i r f => e5_dpll_setup i r f s | EPch id g => e5_setup id g s end.
Fixpoint e5_run (l : list e5ev) (s : e5) : kres e5 :=
  match l with [] => KOk s | e :: l' => match e5_step e s with KOk s' => e5_run l' s' | r => r end end.

(** * tinyAVR: clock-tinyavr.c *)
(** FREQSEL of OSCCFG; CLKSEL, PEN and PDIV; MCLKLOCK; [clocks] (clock-tinyavr.c:39) *)
Record tiny := mkTiny { t_sel : Z; t_ulp : bool; t_pen : bool; t_pdiv : Z; t_lock : bool; tc_main : Z; tc_div : Z }.
Definition tiny_reset (sel : Z) : tiny := mkTiny sel false true 8 false 0 1.
(** setup_prescaler (clock-tinyavr.c:84): the divider of pdiv *)
Definition tiny_div (pdiv : Z) : option Z :=
  if pdiv =? 0 then Some 2 else if pdiv =? 1 then Some 4 else if pdiv =? 2 then Some 8 else if pdiv =? 3 then Some 16 else if pdiv =? 4 then Some 32
  else if pdiv =? 5 then Some 64 else if pdiv =? 8 then Some 6 else if pdiv =? 9 then Some 10 else if pdiv =? 10 then Some 12
  else if pdiv =? 11 then Some 24 else if pdiv =? 12 then Some 48 else None.
(** clock_tinyavr_init (clock-tinyavr.c:119): OSC20M or OSCULP32K (ulp), prescaler (None: disabled), lock; MCLKLOCK keeps MCLKCTRLA and B *)
Definition tiny_init (ulp : bool) (pre : option Z) (lock : bool) (s : tiny) : kres tiny :=
  if negb ((t_sel s =? 1) || (t_sel s =? 2)) then KErr else
  let osc := if t_sel s =? 1 then 16000000 else 20000000 in
  let main := if ulp then 32768 else osc in
  match match pre with Some p => match tiny_div p with Some d => Some (true, kf p 4, d) | None => None end | None => Some (false, 0, 1) end with
  | None => KErr
  | Some (pen, pdiv, d) =>
      if t_lock s then KOk (mkTiny (t_sel s) (t_ulp s) (t_pen s) (t_pdiv s) true main d)
      else KOk (mkTiny (t_sel s) ulp pen pdiv lock main d)
  end.
(** clock_get_freq (clock-tinyavr.c:168) of the cpu *)
Definition tiny_get (s : tiny) : Z := tc_main s / tc_div s.
(** Hardware: PDIV 0..5 divides by 2, 4, .. 64; 8..12 by 6, 10, 12, 24, 48. *)
Definition tiny_hw_div (p : Z) : Z :=
  if p <? 6 then 2 ^ (p + 1) else if p =? 8 then 6 else if p =? 9 then 10 else if p =? 10 then 12 else if p =? 11 then 24 else 48.
Definition tiny_hw (s : tiny) : hz :=
  ((if t_ulp s then 32768 else if t_sel s =? 1 then 16000000 else 20000000), if t_pen s then tiny_hw_div (t_pdiv s) else 1).

(** * CY7C6801xA: clock-cy7c6801xa.c *)
(** clock_cy7c6801xa_init (clock-cy7c6801xa.c:29): CLKSPD and the frequency noted *)
Definition cy_init (clkspd : Z) : kres (Z * Z) :=
  if clkspd =? 0 then KOk (0, 12000000) else if clkspd =? 1 then KOk (1, 24000000) else if clkspd =? 2 then KOk (2, 48000000) else KErr.
(** clock_get_freq (clock-cy7c6801xa.c:60): the cpu is id 0 (CLOCK_SYSCLK) *)
Definition cy_get (s : Z * Z) (id : Z) : Z := if id =? 0 then - K_EINVAL else - 5.
(** Hardware: 12 MHz times 2 ^ CLKSPD *)
Definition cy_hw (s : Z * Z) : hz := (12000000 * 2 ^ fst s, 1).
