(** PropClock.v - C134: clock_get_freq gives the frequency of the hardware; C135: init finds a setting, and is defined. *)
From Verif Require Import Base ClockModel ClockSpec ClockProofs ClockProofs2 ClockProofs3.

(** * C134: after init has returned 0, clock_get_freq gives the frequency the hardware makes *)
(** RP2040: both pll frequencies within reach of FBDIV 16 to 127 undivided, dividers of 24 bits; the rtc for multiples of 46875 Hz. *)
Theorem C134_rp2040_partial : forall st, 0 < rs_xosc st <= 15000000 -> 0 < rs_pll st -> rp_makes (rs_xosc st) (rs_pll st) -> rp_makes (rs_xosc st) 48000000 -> rp_divs_ok st ->
  after (rp_init st) (fun s =>
    (forall id, id <> RpRtc -> (forall i, id = RpOut i -> (i < 4)%nat) -> truthful (rp_get s id) (rp_hw (rs_xosc st) s id)) /\
    (rs_xosc st mod 46875 = 0 -> truthful (rp_get s RpRtc) (rp_hw (rs_xosc st) s RpRtc))).
Proof. exact rp_init_ok. Qed.
Print Assumptions C134_rp2040_partial.
Definition rp125 : rpset := mkRpSet 12000000 125000000 1 1 [1; 2; 3; 4].
Example C134_rp2040_runs : rp_makes 12000000 125000000 /\ rp_makes 12000000 48000000 /\ rp_divs_ok rp125 /\ 12000000 mod 46875 = 0 /\
  after (rp_init rp125) (fun s => map (rp_get s) [RpSys; RpRef; RpUsb; RpRtc; RpOut 3] = [125000000; 12000000; 48000000; 46875; 31250000]).
Proof.
  split; [exists 125, 2, 6; vm_compute; intuition congruence|]. split; [exists 16, 2, 2; vm_compute; intuition congruence|].
  split; [split; [vm_compute; split; reflexivity|]; split; [vm_compute; split; congruence|]; split; [reflexivity|]; repeat constructor; vm_compute; reflexivity|].
  split; [reflexivity|]. eexists. split; vm_compute; reflexivity.
Qed.
(** 133 MHz from 12 MHz, the usual settings of the RP2040: FBDIV would have to be 133, 5 is written. *)
Theorem C134_rp2040_refuted : after (rp_init (mkRpSet 12000000 133000000 1 1 [1; 1; 1; 1])) (fun s =>
  rp_get s RpSys = 133000000 /\ truthful 5000000 (rp_hw 12000000 s RpSys)).
Proof. eexists. split; [vm_compute; reflexivity|]. split; [vm_compute; reflexivity|]. vm_compute. split; congruence. Qed.
Print Assumptions C134_rp2040_refuted.
(** The fraction of the rtc divider is in hundredths instead of 256ths. *)
Theorem C134_rp2040_rtc_refuted : after (rp_init (mkRpSet 10000000 125000000 1 1 [1; 1; 1; 1])) (fun s =>
  rp_get s RpRtc = 46875 /\ truthful 46919 (rp_hw 10000000 s RpRtc)).
Proof. eexists. split; [vm_compute; reflexivity|]. split; [vm_compute; reflexivity|]. vm_compute. split; congruence. Qed.
Print Assumptions C134_rp2040_rtc_refuted.
(** Dividers are cut to 24 bits. *)
Theorem C134_rp2040_div_refuted : after (rp_init (mkRpSet 12000000 125000000 1 16777217 [1; 1; 1; 1])) (fun s =>
  rp_get s RpSys = 7 /\ truthful 125000000 (rp_hw 12000000 s RpSys)).
Proof. eexists. split; [vm_compute; reflexivity|]. split; [vm_compute; reflexivity|]. vm_compute. split; congruence. Qed.
Print Assumptions C134_rp2040_div_refuted.
(** The usb pll is always asked to run its vco at a quarter of the lowest frequency it can have. *)
Theorem C134_rp2040_vco_refuted : after (rp_init rp125) (fun s => rp_vco 12000000 (r_pusb s) = (192000000, 1) /\ ~ rp_vco_ok (rp_vco 12000000 (r_pusb s))).
Proof. eexists. split; [vm_compute; reflexivity|]. split; [vm_compute; reflexivity|]. intros [K _]. vm_compute in K. apply K. reflexivity. Qed.
Print Assumptions C134_rp2040_vco_refuted.

(** F28379x: multiples of half the oscillator. *)
Theorem C134_f28_partial : forall xtal xfreq f m s, (xtal = false -> q_xtal s = false) -> let c := if xtal then xfreq else 10000000 in 0 < c <= 33000000 -> 1 <= m <= 127 -> f = c * m / 2 ->
  after (f28_init xtal xfreq f s) (fun s' => forall id, truthful (f28_get s' id) (f28_hw xfreq s' id)).
Proof. exact f28_ok. Qed.
Print Assumptions C134_f28_partial.
Example C134_f28_runs : after (f28_init true 20000000 200000000 f28_reset) (fun s => map (f28_get s) [FSys; FLsp; FEpwm] = [200000000; 50000000; 100000000]).
Proof. eexists. split; vm_compute; reflexivity. Qed.
(** 15 MHz from a 20 MHz crystal: PLLSYSCLKDIV is set to 3 to divide by 4, and divides by 6. *)
Theorem C134_f28_refuted : after (f28_init true 20000000 15000000 f28_reset) (fun s => f28_get s FSys = 15000000 /\ truthful 10000000 (f28_hw 20000000 s FSys)).
Proof. eexists. split; [vm_compute; reflexivity|]. split; [vm_compute; reflexivity|]. vm_compute. split; congruence. Qed.
Print Assumptions C134_f28_refuted.
(** INTOSC2 after the crystal: the crystal stays, the CPU runs at twice the speed. *)
Theorem C134_f28_intosc_refuted : after (then_ (f28_init true 20000000 200000000 f28_reset) (f28_init false 20000000 100000000)) (fun s =>
  f28_get s FSys = 100000000 /\ truthful 200000000 (f28_hw 20000000 s FSys)).
Proof. eexists. split; [vm_compute; reflexivity|]. split; [vm_compute; reflexivity|]. vm_compute. split; congruence. Qed.
Print Assumptions C134_f28_intosc_refuted.

(** ATSAMV71: one init after reset, then any pcks. *)
Theorem C134_pmc_partial : forall st s l s', 0 <= ps_plla st < 2 ^ 32 -> 0 < ps_mosc st -> pmc_init st pmc_reset = KOk s -> pmc_pcks l s = KOk s' ->
  truthful (pmc_get s' PHclk) (pmc_hw s' PHclk) /\ truthful (pmc_get s' PMck) (pmc_hw s' PMck) /\
  forall i, In i (map (fun x => fst (fst x)) l) -> truthful (pmc_get s' (PPck i)) (pmc_hw s' (PPck i)).
Proof.
  intros st s l s' P M H L. pose proof (pmc_init_good _ _ P M H) as G. destruct (pmc_pcks_good _ _ _ G L) as [(G1 & G2 & G3 & G4 & G5 & _) T].
  split; [exact G4|]. split; [exact G5|]. intros i I. apply T. right. exact I.
Qed.
Print Assumptions C134_pmc_partial.
Definition v71 : pmcset := mkPmcSet false 12000000 300000000 2 2 1 2.
Example C134_pmc_runs : after (then_ (pmc_init v71 pmc_reset) (pmc_pcks [(3%nat, 6, 3); (5%nat, 256, 4)])) (fun s => map (pmc_get s) [PHclk; PMck; PPck 3; PPck 5] = [300000000; 150000000; 40000000; 585937]).
Proof. eexists. split; vm_compute; reflexivity. Qed.
(** A second init without the usb pll: the CPU is told 480 MHz, and its clock is off. *)
Theorem C134_pmc_upll_refuted : after (then_ (pmc_init (mkPmcSet false 12000000 0 1 3 1 2) pmc_reset) (pmc_init (mkPmcSet false 12000000 0 0 3 1 2))) (fun s =>
  pmc_get s PHclk = 480000000 /\ truthful 0 (pmc_hw s PHclk)).
Proof. eexists. split; [vm_compute; reflexivity|]. split; [vm_compute; reflexivity|]. vm_compute. split; congruence. Qed.
Print Assumptions C134_pmc_upll_refuted.
(** A pck from MCK keeps the frequency it had when init changes MCK. *)
Theorem C134_pmc_stale_refuted : after (then_ (then_ (pmc_init v71 pmc_reset) (pmc_pck_enable 0 1 4)) (pmc_init (mkPmcSet false 12000000 300000000 2 2 2 2))) (fun s =>
  pmc_get s (PPck 0) = 150000000 /\ truthful 75000000 (pmc_hw s (PPck 0))).
Proof. eexists. split; [vm_compute; reflexivity|]. split; [vm_compute; reflexivity|]. vm_compute. split; congruence. Qed.
Print Assumptions C134_pmc_stale_refuted.

(** SAM3X: multiples of the crystal, peripherals enabled after init. *)
Theorem C134_sam3x_partial : forall moscx plla d s l s', 0 < moscx -> plla mod moscx = 0 -> s3x_init moscx plla d s3x_reset = KOk s -> s3x_enables l s = KOk s' ->
  truthful (s3x_get s' SMck) (s3x_hw s' SMck) /\ forall i, In i (map fst l) -> truthful (s3x_get s' (SPeriph i)) (s3x_hw s' (SPeriph i)).
Proof.
  intros moscx plla d s l s' M Z0 H L. destruct (s3x_init_ok _ _ _ _ _ M Z0 H) as (T & E1 & E2).
  destruct (s3x_enables_ok l s s') as [A B]; [rewrite E1; reflexivity|rewrite E2; reflexivity|exact T|exact L|]. split; [exact A|]. intros i I. apply B. right. exact I.
Qed.
Print Assumptions C134_sam3x_partial.
Example C134_sam3x_runs : after (then_ (s3x_init 12000000 168000000 2 s3x_reset) (s3x_enables [(8%nat, 0); (43%nat, 2)])) (fun s =>
  map (s3x_get s) [SMck; SPeriph 8; SPeriph 43] = [84000000; 84000000; 21000000]).
Proof. eexists. split; vm_compute; reflexivity. Qed.
(** 90 MHz from 12 MHz is 84 MHz. *)
Theorem C134_sam3x_refuted : after (s3x_init 12000000 90000000 1 s3x_reset) (fun s => s3x_get s SMck = 90000000 /\ truthful 84000000 (s3x_hw s SMck)).
Proof. eexists. split; [vm_compute; reflexivity|]. split; [vm_compute; reflexivity|]. vm_compute. split; congruence. Qed.
Print Assumptions C134_sam3x_refuted.
Theorem C134_sam3x_stale_refuted : after (then_ (then_ (s3x_init 12000000 168000000 2 s3x_reset) (s3x_enable 8 0)) (s3x_init 12000000 168000000 4)) (fun s =>
  s3x_get s (SPeriph 8) = 84000000 /\ truthful 42000000 (s3x_hw s (SPeriph 8))).
Proof. eexists. split; [vm_compute; reflexivity|]. split; [vm_compute; reflexivity|]. vm_compute. split; congruence. Qed.
Print Assumptions C134_sam3x_stale_refuted.

(** PIC32MX: crystals below 33 MHz, peripheral buses set up after init; within 65 Hz from the pll, right otherwise. *)
Theorem C134_pic32_partial : forall posc frc pllo osc s l s', 0 <= posc < 2 ^ 25 -> 0 <= osc -> pic_init posc frc pllo osc pic_reset = KOk s -> Forall (fun x => 0 <= snd x) l -> pic_pbclks l s = KOk s' ->
  within 65 (pic_get s' ISys) (pic_hw s' ISys) /\ (osc <> 1 -> truthful (pic_get s' ISys) (pic_hw s' ISys)) /\
  forall i, In i (map fst l) -> within 66 (pic_get s' (IPb i)) (pic_hw s' (IPb i)).
Proof.
  intros posc frc pllo osc s l s' P O H F L. destruct (pic_init_ok _ _ _ _ _ _ P O H) as (W & T & E1 & E2).
  destruct (pic_pbs_ok 65 l ltac:(lia) F s s') as (A & B & C); [rewrite E1; reflexivity|rewrite E2; reflexivity|exact W|exact L|]. rewrite A, B. split; [exact W|]. split; [exact T|].
  intros i I. apply C. right. exact I.
Qed.
Print Assumptions C134_pic32_partial.
Example C134_pic32_runs : after (then_ (pic_init 24000000 false 200000000 1 pic_reset) (pic_pbclks [(1%nat, 2); (7%nat, 127)])) (fun s =>
  map (pic_get s) [ISys; IPb 1; IPb 7] = [200000000; 100000000; 1574803]).
Proof. eexists. split; vm_compute; reflexivity. Qed.
Theorem C134_pic32_stale_refuted : after (then_ (then_ (pic_init 24000000 false 200000000 1 pic_reset) (pic_pbclk_enable 1 2)) (pic_init 24000000 false 100000000 1)) (fun s =>
  pic_get s (IPb 1) = 100000000 /\ truthful 50000000 (pic_hw s (IPb 1))).
Proof. eexists. split; [vm_compute; reflexivity|]. split; [vm_compute; reflexivity|]. vm_compute. split; congruence. Qed.
Print Assumptions C134_pic32_stale_refuted.
(** 48 MHz from 24 MHz: the vco is asked for 96 MHz. *)
Theorem C134_pic32_vco_refuted : after (pic_init 24000000 false 48000000 1 pic_reset) (fun s => pic_vco s = (96000000, 1) /\ ~ pic_vco_ok (pic_vco s)).
Proof. eexists. split; [vm_compute; reflexivity|]. split; [vm_compute; reflexivity|]. intros [K _]. vm_compute in K. apply K. reflexivity. Qed.
Print Assumptions C134_pic32_vco_refuted.

(** GD32VF103: without the pll to 1 Hz (and 1 more for each divider in line); with the pll if the crystal has to be multiplied by more
    than 15, to 33 Hz; any ADC divider but 12. *)
Theorem C134_gd32_partial : forall st s t, 0 <= gs_hxtal st < 2 ^ 27 -> gs_adc st <> 12 -> gd_init st = KOk s ->
  (t = 1 /\ (gs_sys st = 0 \/ gs_sys st = 1)) \/ (t = 33 /\ gs_hx st = true /\ gs_sys st = 2 /\ 15 * gs_hxtal st < gs_pll st) ->
  within t (gd_get s GSys) (gd_hw s GSys) /\ within (t + 1) (gd_get s GAhb) (gd_hw s GAhb) /\ within (t + 2) (gd_get s GApb1) (gd_hw s GApb1) /\
  within (t + 2) (gd_get s GApb2) (gd_hw s GApb2) /\ within (t + 3) (gd_get s GAdc) (gd_hw s GAdc).
Proof. exact gd_init_ok. Qed.
Print Assumptions C134_gd32_partial.
Example C134_gd32_runs : 15 * 4000000 < 108000000 /\ after (gd_init (mkGdSet 4000000 2 true 108000000 1 2 1 8)) (fun s => map (gd_get s) [GSys; GAhb; GApb1; GApb2; GAdc] = [108000000; 108000000; 54000000; 108000000; 13500000]).
Proof. split; [reflexivity|]. eexists. split; vm_compute; reflexivity. Qed.
(** 96 MHz from 8 MHz: multipliers up to 15 are written one too high. *)
Theorem C134_gd32_mul_refuted : after (gd_init (mkGdSet 8000000 2 true 96000000 1 2 1 8)) (fun s => gd_get s GSys = 96000000 /\ truthful 104000000 (gd_hw s GSys)).
Proof. eexists. split; [vm_compute; reflexivity|]. split; [vm_compute; reflexivity|]. vm_compute. split; congruence. Qed.
Print Assumptions C134_gd32_mul_refuted.
(** IRC8M reaches the pll divided by 2, and PREDV0 does not divide it. *)
Theorem C134_gd32_irc_refuted : after (gd_init (mkGdSet 0 2 false 96000000 1 2 1 8)) (fun s => gd_get s GSys = 96000000 /\ truthful 52000000 (gd_hw s GSys)).
Proof. eexists. split; [vm_compute; reflexivity|]. split; [vm_compute; reflexivity|]. vm_compute. split; congruence. Qed.
Print Assumptions C134_gd32_irc_refuted.
(** ADC divider 12 is the code of 8. *)
Theorem C134_gd32_adc_refuted : after (gd_init (mkGdSet 4000000 2 true 108000000 1 2 1 12)) (fun s => gd_get s GAdc = 9000000 /\ within 1 13500000 (gd_hw s GAdc)).
Proof. eexists. split; [vm_compute; reflexivity|]. split; [vm_compute; reflexivity|]. vm_compute. split; [reflexivity|congruence]. Qed.
Print Assumptions C134_gd32_adc_refuted.

(** RA4: FCLK, ICLK, PCLKA, PCLKB. *)
Theorem C134_ra4_partial : forall ofs mosc cksel f i a b c d s id, 0 <= cksel -> id <> RaC -> id <> RaD -> id <> RaIwdt -> ra_init ofs mosc cksel f i a b c d = KOk s ->
  truthful (ra_get s id) (ra_hw ofs mosc s id).
Proof. exact ra_ok. Qed.
Print Assumptions C134_ra4_partial.
Example C134_ra4_runs : after (ra_init 4 0 0 1 0 0 1 0 0) (fun s => map (ra_get s) [RaF; RaI; RaA; RaB] = [24000000; 48000000; 48000000; 24000000]).
Proof. eexists. split; vm_compute; reflexivity. Qed.
(** PCLKC, the ADC clock, is given as PCLKB, PCLKD, the timer clock, as PCLKC. *)
Theorem C134_ra4_refuted : after (ra_init 4 0 0 1 0 0 1 2 0) (fun s =>
  ra_get s RaC = 24000000 /\ truthful 12000000 (ra_hw 4 0 s RaC) /\ ra_get s RaD = 12000000 /\ truthful 48000000 (ra_hw 4 0 s RaD)).
Proof. eexists. split; [vm_compute; reflexivity|]. split; [vm_compute; reflexivity|]. split; [vm_compute; split; congruence|]. split; [vm_compute; reflexivity|]. vm_compute. split; congruence. Qed.
Print Assumptions C134_ra4_refuted.
(** The watchdog clock is 15 kHz, not 15 MHz. *)
Theorem C134_ra4_iwdt_wrong : forall ofs mosc s, ra_get s RaIwdt = 15000000 /\ truthful 15000 (ra_hw ofs mosc s RaIwdt).
Proof. intros ofs mosc s. split; [reflexivity|]. unfold truthful. cbn [ra_hw fst snd]. lia. Qed.
Print Assumptions C134_ra4_iwdt_wrong.

(** SAME5x: a clock of a generator that divides the DFLL by at most 255 .. *)
Theorem C134_same5x_partial : forall g d id s, e5_wf s -> (g < 12)%nat -> (id < 48)%nat -> 1 <= d <= 255 ->
  after (e5_run [EGen g 6 d; EPch id g] s) (fun s' => truthful (e5_get s' id) (e5_hw s' id)).
Proof. intros g d id s W G I D. destruct (e5_direct g d id s W G I D) as (s' & R & T & _). exists s'. split; [exact R|exact T]. Qed.
Print Assumptions C134_same5x_partial.
(** .. and one of a generator that divides a dpll, which such a clock feeds: within a 32nd of the reference, exact if that divides. *)
Theorem C134_same5x_dpll_partial : forall g d j f i dv id s, e5_wf s -> (g < 12)%nat -> (i < 12)%nat -> i <> g -> (j < 2)%nat -> (id < 48)%nat -> id <> S j -> 1 <= d <= 255 -> 1 <= dv <= 255 ->
  48000000 mod d = 0 -> 48000000 / d <= f < 8192 * (48000000 / d) ->
  after (e5_run [EGen g 6 d; EPch (S j) g; EDpll j 0 f; EGen i (7 + Z.of_nat j) dv; EPch id i] s) (fun s' =>
    within (48000000 / d / 32 + 2) (e5_get s' id) (e5_hw s' id) /\ ((f * 32) mod (48000000 / d) = 0 -> truthful (e5_get s' id) (e5_hw s' id))).
Proof. exact e5_pll. Qed.
Print Assumptions C134_same5x_dpll_partial.
Example C134_same5x_runs : e5_wf e5_reset /\ after (e5_run [EGen 2 6 24; EPch 1 2; EDpll 0 0 120000000; EGen 0 7 1; EPch 7 0] e5_reset) (fun s => e5_get s 7 = 120000000 /\ truthful 120000000 (e5_hw s 7)).
Proof. split; [vm_compute; tauto|]. eexists. split; [vm_compute; reflexivity|]. split; [vm_compute; reflexivity|]. vm_compute. split; congruence. Qed.
(** Dividers up to 65535 are accepted; only generator 1 has 16 bits of them. *)
Theorem C134_same5x_div_refuted : after (e5_run [EGen 3 6 300; EPch 7 3] e5_reset) (fun s => e5_get s 7 = 160000 /\ truthful 1090909 (e5_hw s 7)).
Proof. eexists. split; [vm_compute; reflexivity|]. split; [vm_compute; reflexivity|]. vm_compute. split; congruence. Qed.
Print Assumptions C134_same5x_div_refuted.
(** The reference of a dpll is taken to be its generator, whatever refclk says. *)
Theorem C134_same5x_ref_refuted : after (e5_run [EGen 2 6 24; EPch 1 2; EDpll 0 1 120000000; EGen 0 7 1; EPch 7 0] e5_reset) (fun s =>
  e5_get s 7 = 120000000 /\ truthful 1966080 (e5_hw s 7)).
Proof. eexists. split; [vm_compute; reflexivity|]. split; [vm_compute; reflexivity|]. vm_compute. split; congruence. Qed.
Print Assumptions C134_same5x_ref_refuted.
(** A generator set up again: its clocks keep the old frequency. *)
Theorem C134_same5x_stale_refuted : after (e5_run [EGen 2 6 1; EPch 7 2; EGen 2 6 4] e5_reset) (fun s => e5_get s 7 = 48000000 /\ truthful 12000000 (e5_hw s 7)).
Proof. eexists. split; [vm_compute; reflexivity|]. split; [vm_compute; reflexivity|]. vm_compute. split; congruence. Qed.
Print Assumptions C134_same5x_stale_refuted.

(** tinyAVR: as long as the clock is not locked. *)
Theorem C134_tiny_partial : forall ulp pre lock s s', t_lock s = false -> tiny_init ulp pre lock s = KOk s' -> truthful (tiny_get s') (tiny_hw s').
Proof. exact tiny_ok. Qed.
Print Assumptions C134_tiny_partial.
Example C134_tiny_runs : after (tiny_init false (Some 8) true (tiny_reset 2)) (fun s => tiny_get s = 3333333).
Proof. eexists. split; vm_compute; reflexivity. Qed.
(** A locked clock cannot be changed: init returns 0 all the same, and believes it. *)
Theorem C134_tiny_refuted : after (then_ (tiny_init false None true (tiny_reset 2)) (tiny_init true None false)) (fun s => tiny_get s = 32768 /\ truthful 20000000 (tiny_hw s)).
Proof. eexists. split; [vm_compute; reflexivity|]. split; [vm_compute; reflexivity|]. vm_compute. split; congruence. Qed.
Print Assumptions C134_tiny_refuted.
(** CY7C6801x: the frequency of the cpu is always an error. *)
Theorem C134_cy7_wrong : forall k s, cy_init k = KOk s -> cy_get s 0 = - K_EINVAL /\ exists f, 0 < f /\ truthful f (cy_hw s) /\ snd s = f.
Proof.
  intros k s H. split; [reflexivity|]. unfold cy_init in H.
  destruct (k =? 0); [injection H as <-; exists 12000000; vm_compute; intuition congruence|]. destruct (k =? 1); [injection H as <-; exists 24000000; vm_compute; intuition congruence|].
  destruct (k =? 2); [injection H as <-; exists 48000000; vm_compute; intuition congruence|discriminate H].
Qed.
Print Assumptions C134_cy7_wrong.
Example C134_cy7_runs : cy_init 2 = KOk (2, 48000000).
Proof. reflexivity. Qed.

(** * C135: init returns 0 for every frequency the plls can make, and nothing it is given makes it undefined *)
(** ATSAMV71: as long as the frequency times the divider fits in 32 bits. *)
Theorem C135_pmc_partial : forall st s mula diva, pmc_mosc_ok st = true -> 0 <= ps_upll st < 3 -> 0 <= ps_css st < 4 -> mckr_pres (ps_pres st) <> None -> mckr_mdiv (ps_mdiv st) <> None ->
  0 < ps_mosc st -> 2 * ps_mosc st <= ps_plla st -> 1 <= mula <= 2047 -> 1 <= diva <= 255 -> mula * ps_mosc st = ps_plla st * diva -> ps_plla st * diva < 2 ^ 32 -> exists s', pmc_init st s = KOk s'.
Proof. exact pmc_accepts. Qed.
Print Assumptions C135_pmc_partial.
Example C135_pmc_runs : 75 * 12000000 = 300000000 * 3 /\ 300000000 * 3 < 2 ^ 32.
Proof. split; reflexivity. Qed.
(** 297 MHz from 16 MHz is times 297 by 16: refused. *)
Theorem C135_pmc_refuted : pmc_makes 297000000 16000000 /\ pmc_init (mkPmcSet false 16000000 297000000 0 2 1 2) pmc_reset = KErr.
Proof. split; [exists 297, 16; lia|]. vm_compute. reflexivity. Qed.
Print Assumptions C135_pmc_refuted.
(** RP2040: see C134_rp2040_partial for what it accepts. 1 MHz is 12 / 6 * 18 / (6 * 6); the search overflows an int before it is there. *)
Theorem C135_rp2040_refuted : 12000000 / 6 * 18 / (6 * 6) = 1000000 /\ rp_init (mkRpSet 12000000 1000000 1 1 [1; 1; 1; 1]) = KUb.
Proof. split; [reflexivity|]. vm_compute. reflexivity. Qed.
Print Assumptions C135_rp2040_refuted.
(** PIC32MX: a divider of 0 divides by 0; and the oscillator without the pll cannot be had without a frequency the pll could have. *)
Theorem C135_pic32_div_refuted : forall pb s, (pb < 8)%nat -> pic_pbclk_enable pb 0 s = KUb.
Proof. intros pb s H. unfold pic_pbclk_enable. rewrite (proj2 (Nat.ltb_lt _ _) H). reflexivity. Qed.
Print Assumptions C135_pic32_div_refuted.
Theorem C135_pic32_refuted : pic_init 24000000 false 0 2 pic_reset = KErr /\ after (pic_init 24000000 false 48000000 2 pic_reset) (fun s => pic_get s ISys = 24000000).
Proof. split; [vm_compute; reflexivity|]. eexists. split; vm_compute; reflexivity. Qed.
Print Assumptions C135_pic32_refuted.
(** SAME5x: a divider of 0, which is 1 for the hardware, divides by 0. *)
Theorem C135_same5x_refuted : forall i s, (i < 12)%nat -> e5_gen_setup i 6 0 s = KUb.
Proof. intros i s H. unfold e5_gen_setup. rewrite (proj2 (Nat.ltb_lt _ _) H). reflexivity. Qed.
Print Assumptions C135_same5x_refuted.
