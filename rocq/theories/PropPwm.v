(** PropPwm.v - C109: the clock of a PWM timer; C110: pwm_set_period; C111: pwm_set_duty_cycle; C112: the outputs of a timer;
    C113: pwm_start and pwm_stop; C114: ipwm_get_period and ipwm_get_duty_cycle. *)
From Verif Require Import Base PwmModel PwmSpec PwmProofs.

(** A timer of which the driver knows the clock hz = f / div. *)
Definition tmr (hz div top nc : Z) : pw :=
  mkPw hz (fun _ => div) (fun _ => nc) div top false false true (fun _ => 0) (fun _ => false) false (fun _ => true) true.

(** * C109: the clock the driver counts with is the clock of the timer *)
(** tinyAVR and SAM E5x, whatever was selected before; *)
Theorem C109_table : forall s sel s', tab_clock s sel = POk s' -> p_sdiv s' 0 = p_div s' /\ p_div s' = tab_div sel.
Proof.
  intros s sel s' E. unfold tab_clock in E. destruct (negb _); [discriminate|]. injection E as <-. split; [apply set1_eq|reflexivity].
Qed.
Print Assumptions C109_table.
Example C109_table_runs : exists s', tab_clock (tmr 0 1 0 0) 5 = POk s' /\ p_div s' = 64. Proof. eexists; split; reflexivity. Qed.
(** the SAM timer counters; *)
Theorem C109_tc : forall f s sel s', tc_clock f s sel = POk s' -> p_hz s' = f / p_div s' /\ p_div s' = tc_div sel /\ 0 < Z.abs (p_hz s').
Proof.
  intros f s sel s' E. unfold tc_clock in E. destruct (negb _); [discriminate|]. destruct (f / tc_div sel =? 0) eqn:C; [discriminate|].
  injection E as <-. apply Z.eqb_neq in C. split; [reflexivity|]. split; [reflexivity|]. cbn [p_hz set_hz set_div]. lia.
Qed.
Print Assumptions C109_tc.
Example C109_tc_runs : exists s', tc_clock 84000000 (tmr 0 1 0 0) 0 = POk s' /\ p_hz s' = 42000000. Proof. eexists; split; reflexivity. Qed.
(** AVR, except for the divider 256, *)
Theorem C109_avr_partial : forall s cs s', 1 <= cs <= 5 -> cs <> 4 -> avr_clock s cs = POk s' -> p_sdiv s' 0 = p_div s' /\ p_div s' = avr_hw_div cs.
Proof.
  intros s cs s' H1 H4 E. assert (C : cs = 1 \/ cs = 2 \/ cs = 3 \/ cs = 5) by lia.
  destruct C as [->|[->|[->| ->]]]; injection E as <-; (split; [apply set1_eq|reflexivity]).
Qed.
Print Assumptions C109_avr_partial.
Example C109_avr_runs : exists s', avr_clock (tmr 0 1 0 0) 2 = POk s' /\ p_sdiv s' 0 = 8. Proof. eexists; split; reflexivity. Qed.
(** which leaves the divider that was known before. *)
Theorem C109_avr_refuted : forall s, exists s', avr_clock s 4 = POk s' /\ p_div s' = 256 /\ p_sdiv s' 0 = p_sdiv s 0.
Proof. intros s. eexists. split; [reflexivity|]. split; reflexivity. Qed.
Print Assumptions C109_avr_refuted.
(** GD32: never, the timer is always slower than the frequency asked for. *)
Theorem C109_gd32_wrong : forall f s fr s', 0 < f -> gd_clock f s fr = POk s' -> p_hz s' = fr /\ f < p_hz s' * p_div s'.
Proof. exact gd_clock_wrong. Qed.
Print Assumptions C109_gd32_wrong.
(** The Longan Nano demo: 54 MHz / 55. *)
Example C109_gd32_demo : exists s', gd_clock 54000000 (tmr 0 1 0 0) 1000000 = POk s' /\ p_div s' = 55. Proof. eexists; split; reflexivity. Qed.
(** eMIOS: the first time, *)
Theorem C109_emios_partial : forall gpre mcr' g, emios_gpre 0 gpre = Some (mcr', g) -> g = gpre /\ mcr' + 1 = g.
Proof. intros gpre mcr' g E. unfold emios_gpre in E. destruct (_ && _); [|discriminate]. injection E as <- <-. split; [reflexivity|]. rewrite Z.lor_0_l. lia. Qed.
Print Assumptions C109_emios_partial.
Example C109_emios_runs : emios_gpre 0 100 = Some (99, 100). Proof. reflexivity. Qed.
(** not the second. *)
Theorem C109_emios_refuted : exists mcr' mcr'', emios_gpre 0 2 = Some (mcr', 2) /\ emios_gpre mcr' 3 = Some (mcr'', 3) /\ mcr'' + 1 = 4.
Proof. exists 1, 3. split; [reflexivity|]. split; reflexivity. Qed.
Print Assumptions C109_emios_refuted.

(** * C110: the period is the one asked for *)
(** To within one count, if the driver knows the clock of the timer, this is a whole number of MHz, the counter goes one way and the
    period fits in the registers. *)
Theorem C110_period_partial : forall d f s o us s',
  0 < f < 2147483648 -> 0 <= us < 4294967296 -> 0 < p_div s -> p_dual s = false -> knows_clock d f s o ->
  pwm_set_period d f s o us = POk s' ->
  whole_mhz d f s' -> f * us <= 1000000 * p_div s' * max_top d -> f / 1000000 * us < 4294967296 ->
  period_ok d f us s'.
Proof. exact period_partial. Qed.
Print Assumptions C110_period_partial.
Example C110_runs : exists s', pwm_set_period Rp2040 125000000 (tmr 0 1 0 0) 0 20000 = POk s' /\ p_div s' = 39 /\ p_top s' = 64102 /\ period_ok Rp2040 125000000 20000 s'.
Proof. eexists. split; [reflexivity|]. split; [reflexivity|]. split; [reflexivity|]. vm_compute. discriminate. Qed.
Example C110_runs_stm : exists s', pwm_set_period Stm32 200000000 (tmr 0 1 0 0) 0 1000 = POk s' /\ p_div s' = 4 /\ p_top s' = 50000.
Proof. eexists. split; [vm_compute; reflexivity|]. split; reflexivity. Qed.
(** Those that are given the divider accept every such period; *)
Theorem C110_accepts_partial : forall d f s o us, 0 < f < 2147483648 -> 0 < us < 4294967296 -> 0 < p_div s -> knows_clock d f s o ->
  (d = TcE5_16 \/ d = TcE5_32 -> p_mx s = true) ->
  match d with Pic32 | Ra4 | Stm32 | Rp2040 => False | _ => True end ->
  (1000000 * p_div s | f) -> f * us <= 1000000 * p_div s * max_top d ->
  exists s', pwm_set_period d f s o us = POk s' /\ 1000000 * (p_div s' * p_top s') = f * us.
Proof. exact accepts. Qed.
Print Assumptions C110_accepts_partial.
(** STM32H7 refuses 100 ms at 200 MHz, that the prescaler 400 would give. *)
Theorem C110_accepts_refuted : exists s', pwm_set_period Stm32 200000000 (tmr 0 1 0 0) 0 100000 = PErr (- P_EINVAL) s' /\
  period_ok Stm32 200000000 100000 (set_top (set_div (tmr 0 1 0 0) 400) 49999).
Proof. eexists. split; [vm_compute; reflexivity|]. vm_compute. discriminate. Qed.
Print Assumptions C110_accepts_refuted.
(** A refusal is an error and leaves the output alone, *)
Theorem C110_refused : forall d f s o us e s', pwm_set_period d f s o us = PErr e s' -> e < 0 /\ same_output s s'.
Proof. intros d f s o us e s' H. split; [exact (refused_errno d f s o us e s' H)|exact (refused_same d f s o us e s' H)]. Qed.
Print Assumptions C110_refused.
(** but not the duty cycles that are set afterwards: GD32, 1 MHz, 1000 us, then 70 ms are refused, then 50 %. *)
Theorem C110_refused_refuted : exists s1 s2 s3, pwm_set_period Gd32 1000000 (tmr 1000000 1 0 0) 0 1000 = POk s1 /\
  pwm_set_period Gd32 1000000 s1 0 70000 = PErr (- P_EINVAL) s2 /\ pwm_set_duty_cycle Gd32 s2 0 32768 = POk s3 /\
  p_top s3 = 1000 /\ p_cmp s3 0 = 35000.
Proof. do 3 eexists. split; [reflexivity|]. split; [reflexivity|]. split; [reflexivity|]. split; reflexivity. Qed.
Print Assumptions C110_refused_refuted.
(** GD32: wrong in every case. *)
Theorem C110_gd32_wrong : forall f s fr s' o us s'', 0 < f -> (fr | f) -> (1000000 | fr) -> gd_clock f s fr = POk s' -> p_dual s = false ->
  0 < us -> fr / 1000000 * us <= 65535 -> pwm_set_period Gd32 f s' o us = POk s'' -> ~ period_ok Gd32 f us s''.
Proof. exact gd_period_wrong. Qed.
Print Assumptions C110_gd32_wrong.
Example C110_gd32_runs : exists s' s'', gd_clock 54000000 (tmr 0 1 0 0) 1000000 = POk s' /\ pwm_set_period Gd32 54000000 s' 0 1000 = POk s''.
Proof. do 2 eexists. split; reflexivity. Qed.
(** The conditions: periods that do not fit, *)
Theorem C110_range_refuted : forall d, In d [TiEpwm; TinyAvr; Avr; TcX7] -> exists s', pwm_set_period d 16000000 (tmr 16000000 1 0 0) 0 5000 = POk s' /\
  knows_clock d 16000000 (tmr 16000000 1 0 0) 0 /\ whole_mhz d 16000000 s' /\ ~ period_ok d 16000000 5000 s'.
Proof.
  intros d H. repeat (destruct H as [<-|H]; [eexists; split; [vm_compute; reflexivity|]; split; [reflexivity|]; split;
    [exists 16; reflexivity|vm_compute; intros K; apply K; reflexivity]|]). destruct H.
Qed.
Print Assumptions C110_range_refuted.
(** prescalers that leave less than 1 MHz, or no whole number of them: 100 ms become 1.6 us, and 60 ms are 48, *)
Theorem C110_mhz_refuted : exists s1 s2, pwm_set_period Pic32 40000000 (tmr 0 1 0 0) 0 100000 = POk s1 /\ p_div s1 = 64 /\ p_top s1 = 0 /\
  pwm_set_period Pic32 80000000 (tmr 0 1 0 0) 0 60000 = POk s2 /\ p_div s2 = 64 /\ p_top s2 = 60000 /\
  ~ period_ok Pic32 40000000 100000 s1 /\ ~ period_ok Pic32 80000000 60000 s2.
Proof.
  do 2 eexists. split; [vm_compute; reflexivity|]. split; [reflexivity|]. split; [reflexivity|]. split; [vm_compute; reflexivity|].
  split; [reflexivity|]. split; [reflexivity|]. split; vm_compute; intros K; apply K; reflexivity.
Qed.
Print Assumptions C110_mhz_refuted.
(** products of more than 32 bits (21 s become half a microsecond), *)
Theorem C110_overflow_refuted : exists s', pwm_set_period Stm32 200000000 (tmr 0 1 0 0) 0 21474837 = POk s' /\ p_div s' = 1 /\ p_top s' = 104.
Proof. eexists. split; [vm_compute; reflexivity|]. split; reflexivity. Qed.
Print Assumptions C110_overflow_refuted.
(** counters that go up and down: twice the period, *)
Theorem C110_dual_refuted : exists s', let s := mkPw 0 (fun _ => 1) (fun _ => 0) 1 0 true false true (fun _ => 0) (fun _ => false) false (fun _ => true) true in
  pwm_set_period Avr 16000000 s 0 1000 = POk s' /\ counts Avr s' = 32000 /\ ~ period_ok Avr 16000000 1000 s'.
Proof. eexists. cbv zeta. split; [vm_compute; reflexivity|]. split; [reflexivity|]. vm_compute. intros K; apply K; reflexivity. Qed.
Print Assumptions C110_dual_refuted.
(** and RP2040 the second time: 20 ms, then 20 ms again, make 18.7 ms. *)
Theorem C110_twice_refuted : exists s1 s2, pwm_set_period Rp2040 125000000 (tmr 0 1 0 0) 0 20000 = POk s1 /\ period_ok Rp2040 125000000 20000 s1 /\
  pwm_set_period Rp2040 125000000 s1 0 20000 = POk s2 /\ p_div s2 = 39 /\ p_top s2 = 60000 /\ ~ period_ok Rp2040 125000000 20000 s2.
Proof.
  do 2 eexists. split; [vm_compute; reflexivity|]. split; [vm_compute; discriminate|]. split; [vm_compute; reflexivity|].
  split; [reflexivity|]. split; [reflexivity|]. vm_compute. intros K; apply K; reflexivity.
Qed.
Print Assumptions C110_twice_refuted.

(** * C111: the duty cycle *)
(** To within two counts, nothing for 0, more for more, if the output knows its period and this has at most 65535 counts. *)
Theorem C111_duty_partial : forall d s o dc, 0 <= dc <= 65535 -> p_nc s (nc_out d o) = p_top s -> 0 <= p_top s <= max_top d -> p_top s <= 65535 ->
  p_inv s = false -> (d <> TcX7 -> p_flat s (at_out d o) = false) ->
  exists s', pwm_set_duty_cycle d s o dc = POk s' /\ duty_ok dc (p_top s) (active_counts s' (at_out d o)) /\
             (dc = 0 -> active_counts s' (at_out d o) = 0).
Proof.
  intros d s o dc H1 H2 H3 H4 H5 H6. rewrite <- H2 in H3, H4 |- *. destruct (duty_computed d s o dc H1 H3 H4 H5 H6) as (s' & E & A).
  exists s'. split; [exact E|]. rewrite A. split; [apply duty_val_ok; lia|]. intros ->. apply duty_val_0.
Qed.
Print Assumptions C111_duty_partial.
Theorem C111_monotone : forall d s o dc dc' s1 s2, 0 <= dc <= dc' -> dc' <= 65535 -> 0 <= p_nc s (nc_out d o) <= max_top d -> p_nc s (nc_out d o) <= 65535 ->
  p_inv s = false -> (d <> TcX7 -> p_flat s (at_out d o) = false) ->
  pwm_set_duty_cycle d s o dc = POk s1 -> pwm_set_duty_cycle d s o dc' = POk s2 ->
  active_counts s1 (at_out d o) <= active_counts s2 (at_out d o).
Proof.
  intros d s o dc dc' s1 s2 H1 H1' H3 H4 H5 H6 E1 E2.
  destruct (duty_computed d s o dc ltac:(lia) H3 H4 H5 H6) as (t1 & F1 & A1). destruct (duty_computed d s o dc' ltac:(lia) H3 H4 H5 H6) as (t2 & F2 & A2).
  rewrite E1 in F1. rewrite E2 in F2. injection F1 as <-. injection F2 as <-. rewrite A1, A2. apply duty_val_mono; lia.
Qed.
Print Assumptions C111_monotone.
Example C111_runs : exists s', pwm_set_duty_cycle Stm32 (tmr 0 1 50000 50000) 0 32768 = POk s' /\ p_cmp s' 0 = 25000. Proof. eexists; split; reflexivity. Qed.
(** PWM_DUTY_CYCLE_MAX is not 100 %: there is always a gap, except on SAM X7x. *)
Theorem C111_full_refuted : forall d s o, d <> TcX7 -> p_nc s (nc_out d o) = p_top s -> 0 < p_top s <= max_top d -> p_top s <= 65535 ->
  p_inv s = false -> p_dual s = false -> p_topA s = false -> p_flat s (at_out d o) = false ->
  exists s', pwm_set_duty_cycle d s o 65535 = POk s' /\ active_counts s' (at_out d o) < counts d s.
Proof.
  intros d s o D H2 H3 H4 H5 H6 H7 H8. rewrite <- H2 in H3, H4.
  destruct (duty_computed d s o 65535 ltac:(lia) ltac:(lia) H4 H5 (fun _ => H8)) as (s' & E & A).
  exists s'. split; [exact E|]. rewrite A. rewrite H2 in *. unfold counts. rewrite H6.
  destruct (duty_val_max d (p_top s) ltac:(lia) D) as [K|[K ->]]; [destruct d; lia|]. destruct K as [-> | ->]; lia.
Qed.
Print Assumptions C111_full_refuted.
Theorem C111_full_x7 : forall s o, p_nc s o = p_top s -> 0 < p_top s <= 65535 -> p_inv s = false -> p_dual s = false ->
  exists s', pwm_set_duty_cycle TcX7 s o 65535 = POk s' /\ active_counts s' o = counts TcX7 s.
Proof.
  intros s o H2 H3 H5 H6. rewrite <- H2 in H3.
  destruct (duty_computed TcX7 s o 65535 ltac:(lia)) as (s' & E & A); [cbn [nc_out timer_ncycles max_top]; lia|cbn [nc_out timer_ncycles]; lia|exact H5|congruence|].
  exists s'. split; [exact E|]. cbn [at_out] in A. rewrite A. cbn [nc_out timer_ncycles]. rewrite duty_x7_max by lia. unfold counts. rewrite H6. exact H2.
Qed.
Print Assumptions C111_full_x7.
(** Long periods overflow: eMIOS, 100000 counts, 75 % becomes about 9 %. *)
Theorem C111_overflow_refuted : exists s', pwm_set_duty_cycle Emios (tmr 0 1 100000 100000) 0 49151 = POk s' /\ p_cmp s' 0 = 9462.
Proof. eexists; split; vm_compute; reflexivity. Qed.
Print Assumptions C111_overflow_refuted.

(** * C112: the outputs of a timer do not disturb each other *)
(** A duty cycle changes nothing else; *)
Theorem C112_duty_partial : forall d s o dc s', d <> TcE5_16 -> d <> TcE5_32 -> ~ (d = Avr /\ p_topA s = true /\ o = 0) ->
  pwm_set_duty_cycle d s o dc = POk s' ->
  p_top s' = p_top s /\ p_div s' = p_div s /\ p_run s' = p_run s /\
  forall o', o' <> o -> p_cmp s' o' = p_cmp s o' /\ p_flat s' o' = p_flat s o' /\ p_on s' o' = p_on s o'.
Proof. exact duty_isolated. Qed.
Print Assumptions C112_duty_partial.
(** on SAM E5x in 16 and 32 bits both outputs are one; *)
Theorem C112_duty_same5x_refuted : forall d, d = TcE5_16 \/ d = TcE5_32 -> exists s1 s2, pwm_set_duty_cycle d (tmr 0 1 1000 1000) 1 32768 = POk s1 /\ p_cmp s1 1 = 500 /\
  pwm_set_duty_cycle d s1 0 0 = POk s2 /\ p_cmp s2 1 = 0.
Proof. intros d [->| ->]; do 2 eexists; (split; [reflexivity|]; split; [reflexivity|]; split; reflexivity). Qed.
Print Assumptions C112_duty_same5x_refuted.
(** on AVR the waveforms with OCRnA lose their period. *)
Theorem C112_duty_avr_refuted : exists s1 s2, let s := mkPw 0 (fun _ => 1) (fun _ => 0) 1 0 false true true (fun _ => 0) (fun _ => false) false (fun _ => true) true in
  pwm_set_period Avr 16000000 s 0 1000 = POk s1 /\ p_top s1 = 16000 /\ pwm_set_duty_cycle Avr s1 0 32768 = POk s2 /\ p_top s2 = 8000.
Proof. do 2 eexists. cbv zeta. split; [vm_compute; reflexivity|]. split; [reflexivity|]. split; [vm_compute; reflexivity|]. reflexivity. Qed.
Print Assumptions C112_duty_avr_refuted.
(** The period, that all share, is known to all on AVR and SAM E5x, *)
Theorem C112_period_partial : forall d f s o us s' o', timer_ncycles d = true -> pwm_set_period d f s o us = POk s' -> p_nc s' (nc_out d o') = p_top s'.
Proof. exact period_known. Qed.
Print Assumptions C112_period_partial.
Example C112_period_runs : exists s', pwm_set_period Avr 16000000 (tmr 0 1 0 0) 0 1000 = POk s' /\ p_nc s' (nc_out Avr 2) = 16000. Proof. eexists; split; reflexivity. Qed.
(** elsewhere the others go on with the old one. *)
Theorem C112_period_wrong : forall d f s o us s' o', timer_ncycles d = false -> o' <> o -> pwm_set_period d f s o us = POk s' -> p_nc s' o' = p_nc s o'.
Proof. exact period_stale. Qed.
Print Assumptions C112_period_wrong.
Theorem C112_period_refuted : exists s1 s2, pwm_set_period Stm32 200000000 (tmr 0 1 0 0) 0 1000 = POk s1 /\ pwm_set_duty_cycle Stm32 s1 1 32768 = POk s2 /\
  p_top s2 = 50000 /\ active_counts s2 1 = 0 /\ ~ duty_ok 32768 (p_top s2) (active_counts s2 1).
Proof.
  do 2 eexists. split; [vm_compute; reflexivity|]. split; [vm_compute; reflexivity|]. split; [reflexivity|]. split; [reflexivity|]. vm_compute. discriminate.
Qed.
Print Assumptions C112_period_refuted.

(** * C113: pwm_start and pwm_stop *)
Theorem C113_start : forall d s o, active d (pwm_start d s o) o = true.
Proof. exact start_active. Qed.
Print Assumptions C113_start.
Theorem C113_stop : forall d s o, active d (pwm_stop d s o) o = false.
Proof. exact stop_inactive. Qed.
Print Assumptions C113_stop.
Theorem C113_keep : forall d s o, p_top (pwm_start d s o) = p_top s /\ p_div (pwm_start d s o) = p_div s /\ p_cmp (pwm_start d s o) = p_cmp s /\
  p_top (pwm_stop d s o) = p_top s /\ p_div (pwm_stop d s o) = p_div s /\ p_cmp (pwm_stop d s o) = p_cmp s.
Proof. exact start_stop_keep. Qed.
Print Assumptions C113_keep.
(** Only GD32, PIC32 and tinyAVR stop one output alone; *)
Theorem C113_others_partial : forall d s o o', own_enable d = true -> o' <> o -> active d (pwm_stop d s o) o' = active d s o'.
Proof. exact stop_others. Qed.
Print Assumptions C113_others_partial.
Example C113_runs : active Gd32 (pwm_stop Gd32 (tmr 0 1 0 0) 0) 1 = true /\ active Gd32 (pwm_stop Gd32 (tmr 0 1 0 0) 0) 0 = false. Proof. split; reflexivity. Qed.
(** the others stop all the outputs of the timer. *)
Theorem C113_others_refuted : forall d s o o', own_enable d = false -> o' <> o -> active d (pwm_stop d s o) o' = false.
Proof. exact stop_others_wrong. Qed.
Print Assumptions C113_others_refuted.

(** * C114: measured periods and duty cycles *)
(** n clocks of the timer between two edges: SAM3X with a whole number of MHz, *)
Theorem C114_period_sam3x_partial : forall hz ra n, 0 < hz < 2147483648 -> (1000000 | hz) -> 0 <= n < 2147483648 ->
  exists v, sam3_iperiod hz true ra (p32 (ra + n)) = MOk v /\ us_of hz n v.
Proof. exact sam3_iperiod_ok. Qed.
Print Assumptions C114_period_sam3x_partial.
Example C114_sam3x_runs : sam3_iperiod 42000000 true 4294967295 41999 = MOk 1000. Proof. reflexivity. Qed.
(** else too long, or a division by 0; *)
Theorem C114_period_sam3x_refuted : sam3_iperiod 2625000 true 0 2625 = MOk 1312 /\ ~ us_of 2625000 2625 1312 /\ sam3_iperiod 656250 true 0 1000 = MUB.
Proof. split; [reflexivity|]. split; [unfold us_of; lia|]. reflexivity. Qed.
Print Assumptions C114_period_sam3x_refuted.
(** eMIOS up to 4294 clocks, *)
Theorem C114_period_emios_partial : forall hz b n, 0 < hz -> 0 <= n <= 4294 -> exists v, emios_iperiod hz true (p24 (b + n)) b = MOk v /\ us_of hz n v.
Proof. exact emios_iperiod_ok. Qed.
Print Assumptions C114_period_emios_partial.
Example C114_emios_runs : emios_iperiod 1000000 true 4000 1000 = MOk 3000. Proof. reflexivity. Qed.
(** beyond it overflows: 5 ms measured as 0.7; *)
Theorem C114_period_emios_refuted : emios_iperiod 1000000 true 5000 0 = MOk 705 /\ ~ us_of 1000000 5000 705.
Proof. split; [reflexivity|]. unfold us_of. lia. Qed.
Print Assumptions C114_period_emios_refuted.
(** RP2040: the mean of the edges counted. *)
Theorem C114_period_rp2040_partial : forall tick_hz elapsed div ctr, 0 < tick_hz -> (tick_hz | 1000000) -> 0 < elapsed -> elapsed * (1000000 / tick_hz) < 2147483648 ->
  0 < div <= 256 -> 0 <= ctr < 65536 -> 2 <= ctr * div ->
  exists v, rp_iperiod tick_hz elapsed div ctr = MOk v /\ v * (ctr * div) * tick_hz <= elapsed * 1000000 < (v + 1) * (ctr * div) * tick_hz.
Proof. exact rp_iperiod_ok. Qed.
Print Assumptions C114_period_rp2040_partial.
Example C114_rp2040_runs : rp_iperiod 1000 1 1 20 = MOk 50. Proof. reflexivity. Qed.
(** Duty cycles: SAM3X if the period divides 65535, and at the rails; *)
Theorem C114_duty_sam3x_partial : forall pin rising ra rb, 0 < rb -> (rb | 65535) -> 0 <= ra <= rb ->
  exists v, sam3_iduty false true pin rising ra rb = MOk v /\ ratio_of ra rb v.
Proof. exact sam3_iduty_ok. Qed.
Print Assumptions C114_duty_sam3x_partial.
Example C114_duty_sam3x_runs : sam3_iduty false true true true 128 255 = MOk 32896. Proof. reflexivity. Qed.
(** an input without edges is measured as always on at the active level (high if rising edges start the cycle), else as off, whatever
    was captured before; *)
Theorem C114_rail_sam3x : forall ldras ra rb,
  sam3_iduty true ldras true true ra rb = MOk 65535 /\ sam3_iduty true ldras false true ra rb = MOk 0 /\
  sam3_iduty true ldras true false ra rb = MOk 0 /\ sam3_iduty true ldras false false ra rb = MOk 65535.
Proof. intros. split; [reflexivity|]. split; [reflexivity|]. split; reflexivity. Qed.
Print Assumptions C114_rail_sam3x.
(** else anything: a half is measured as a third at 42 MHz and 1 kHz, as 0 at 500 Hz, and a division by 0 if the second edge is
    not there yet. *)
Theorem C114_duty_sam3x_refuted : sam3_iduty false true true true 21000 42000 = MOk 21000 /\ sam3_iduty false true true true 42000 84000 = MOk 0 /\
  (forall pin rising ra, sam3_iduty false true pin rising ra 0 = MUB).
Proof. split; [reflexivity|]. split; [reflexivity|]. intros. reflexivity. Qed.
Print Assumptions C114_duty_sam3x_refuted.
Theorem C114_duty_emios_partial : forall alta b, 0 < b -> 0 <= alta <= b -> alta <= 65537 -> exists v, emios_iduty true alta b = MOk v /\ ratio_of alta b v.
Proof. exact emios_iduty_ok. Qed.
Print Assumptions C114_duty_emios_partial.
Example C114_duty_emios_runs : emios_iduty true 25000 50000 = MOk 32767. Proof. reflexivity. Qed.
(** 75000 of 100000. *)
Theorem C114_duty_emios_refuted : emios_iduty true 75000 100000 = MOk 6201 /\ ~ ratio_of 75000 100000 6201.
Proof. split; [reflexivity|]. unfold ratio_of. lia. Qed.
Print Assumptions C114_duty_emios_refuted.
Theorem C114_duty_rp2040_partial : forall f tick_hz elapsed div high total, 0 < f -> 0 < tick_hz -> 0 < elapsed -> 0 < div ->
  (div | f) -> f / div * elapsed < 4294967296 -> total = f / div * elapsed / tick_hz -> 0 < total -> 0 <= high <= total -> high < 65536 ->
  exists v, rp_iduty f tick_hz elapsed div (p16 high) true = MOk v /\ ratio_of high total v.
Proof. exact rp_iduty_ok. Qed.
Print Assumptions C114_duty_rp2040_partial.
Example C114_duty_rp2040_runs : rp_iduty 125000000 1000 1 10 6250 true = MOk 32767. Proof. reflexivity. Qed.
(** 125 MHz, 1 ms: 75 % measured as 22 %; 35 ms: 60000 clocks of 4375000, 1.4 %, measured as 75 %. *)
Theorem C114_duty_rp2040_refuted : rp_iduty 125000000 1000 1 1 (p16 93750) true = MOk 14792 /\ rp_iduty 125000000 1000 35 1 (p16 60000) true = MOk 49131 /\
  ~ ratio_of 93750 125000 14792 /\ ~ ratio_of 60000 4375000 49131.
Proof. split; [reflexivity|]. split; [reflexivity|]. unfold ratio_of. split; lia. Qed.
Print Assumptions C114_duty_rp2040_refuted.
