(** PropWd.v - C115: the timeout of the watchdog; C116: a setup that fails; C117: wd_stop; C118: wd_refresh; C119: the window. *)
From Verif Require Import Base WdModel WdSpec WdProofs.

(** A watchdog block with mode register [m] and configuration register [c], never touched. *)
Definition blk (m c : Z) : wd := mkWd m c 0 0 false false true false true 0 0 false.
Definition atmel_reset : wd := blk 1073688575 0.     (* 0x3fff2fff *)
Definition ms (t : Z) : wset := mkSet t 1 false.

(** * C115: after setup and wd_start the watchdog runs, with the timeout that was asked for *)
Theorem C115_timeout_partial : forall d f st irq s s1 s2, 0 < f -> set_ok st -> ready d f st s -> suits d f st -> (d = Avr -> irq = false) ->
  wd_setup d f st s = WOk s1 -> wd_start d irq s1 = WOk s2 -> running d s2 = true /\ timeout_ok d f st s2.
Proof. intros d f st irq s s1 s2 Hf Hs Hr Hsu Hi E1 E2. pose proof (start_ok d f st irq s s1 s2 Hf Hs Hr Hsu Hi E1 E2) as (A & B & _). split; assumption. Qed.
Print Assumptions C115_timeout_partial.
(** The prescaler is no larger than it must be. *)
Theorem C115_fine : forall d f st irq s s1 s2, 0 < f -> set_ok st -> suits d f st ->
  wd_setup d f st s = WOk s1 -> wd_start d irq s1 = WOk s2 ->
  match d with Fwdgt => fine 1000000 f st s2 | Iwdg => fine 1000 f st s2 | _ => True end.
Proof. exact fine_ok. Qed.
Print Assumptions C115_fine.
(** What the hardware can do is not refused. *)
Theorem C115_accepts_partial : forall d f st s, 0 < f -> set_ok st -> suits d f st -> fits d f st s -> exists s1, wd_setup d f st s = WOk s1.
Proof. exact wd_accepts. Qed.
Print Assumptions C115_accepts_partial.
(** The hypotheses are met: 32 kHz and 1 s on Atmel, 100 ms with 40 kHz on GD32, 2 s on RP2040, 4 s with 32 kHz on STM32, ... *)
Example C115_atmel_runs : ready Atmel 32000 (ms 1000) atmel_reset /\ suits Atmel 32000 (ms 1000) /\ exists s1, wd_setup Atmel 32000 (ms 1000) atmel_reset = WOk s1 /\ limit Atmel s1 = 32000.
Proof. split; [repeat split; reflexivity|]. split; [split; [exists 250; reflexivity|exists 4; reflexivity]|]. eexists. split; reflexivity. Qed.
Example C115_fwdgt_runs : suits Fwdgt 40000 (ms 100000) /\ exists s1, wd_setup Fwdgt 40000 (ms 100000) (blk 0 0) = WOk s1 /\ limit Fwdgt s1 = 4004.
Proof. split; [reflexivity|]. eexists. split; reflexivity. Qed.
Example C115_iwdg_runs : suits Iwdg 32000 (ms 4000) /\ fits Iwdg 32000 (ms 4000) (blk 0 0) /\ exists s1, wd_setup Iwdg 32000 (ms 4000) (blk 0 0) = WOk s1 /\ limit Iwdg s1 = 128032.
Proof.
  split; [|split; [split; [split; [reflexivity|intros K; discriminate K]|reflexivity]|eexists; split; reflexivity]]. split; [reflexivity|]. exists 3. split; [lia|]. split; [exists 1; reflexivity|]. intros K. discriminate K.
Qed.
Example C115_rp2040_runs : exists s0 s1, wd_init Rp2040 12000000 (blk 0 0) = WOk s0 /\ ready Rp2040 12000000 (ms 2000000) s0 /\ suits Rp2040 12000000 (ms 2000000) /\
  wd_setup Rp2040 12000000 (ms 2000000) s0 = WOk s1 /\ limit Rp2040 s1 = 24000000.
Proof. eexists. eexists. split; [reflexivity|]. split; [split; reflexivity|]. split; [split; [exists 12; reflexivity|reflexivity]|]. split; reflexivity. Qed.
Example C115_others_run : (exists s1, wd_setup Avr 1 (ms 9) (blk 0 0) = WOk s1) /\ (exists s1, wd_setup Pic32 1 (ms 10) (blk 0 0) = WOk s1) /\
  (exists s1, wd_setup SamE5 1 (mkSet 11 3 true) (blk 0 0) = WOk s1) /\ (exists s1, wd_setup F28 1 (ms 1) (blk 0 0) = WOk s1) /\ (exists s1, wd_setup TinyAvr 1 (ms 11) (blk 0 0) = WOk s1).
Proof. split; [eexists; reflexivity|]. split; [eexists; reflexivity|]. split; [eexists; reflexivity|]. split; eexists; reflexivity. Qed.

(** Each condition is needed. Atmel: with the usual 32768 Hz, WDV is timeout / 3 instead of timeout / 3.9: 1.3 s for 1 s, for all timeouts; *)
Theorem C115_atmel_refuted : exists s1, wd_setup Atmel 32768 (ms 1000) atmel_reset = WOk s1 /\ limit Atmel s1 = 42624 /\ ~ timeout_ok Atmel 32768 (ms 1000) s1.
Proof. eexists. split; [reflexivity|]. split; [reflexivity|]. vm_compute. intros K. apply K. reflexivity. Qed.
Print Assumptions C115_atmel_refuted.
(** with a clock beyond 128 kHz the division by 0 is undefined behaviour. *)
Theorem C115_atmel_ub : forall d f st s, (d = Atmel \/ d = Sam3x) -> 128 * 1001 <= f -> wd_setup d f st s = WUb.
Proof.
  intros d f st s Hd Hf. assert (H : 1001 <= f / 128) by (apply Z.div_le_lower_bound; lia).
  assert (E : atmel_wdv f (ws_t st) = WdvUb).
  { unfold atmel_wdv. cbv zeta. replace (f / 128 <=? 0) with false by (symmetry; apply Z.leb_gt; lia). rewrite Z.div_small by lia. reflexivity. }
  destruct Hd as [-> | ->]; cbn [wd_setup]; unfold atmel_setup, sam3x_setup; rewrite E; reflexivity.
Qed.
Print Assumptions C115_atmel_ub.
(** SAM3X: init uses up the only write of WDT_MR, and the watchdog never runs; *)
Theorem C115_sam3x_wrong : forall f st irq s s0 s1 s2, w_once s = true -> w_key s = false ->
  wd_init Sam3x f s = WOk s0 -> wd_setup Sam3x f st s0 = WOk s1 -> wd_start Sam3x irq s1 = WOk s2 -> running Sam3x s2 = false.
Proof. exact sam3x_never. Qed.
Print Assumptions C115_sam3x_wrong.
Example C115_sam3x_runs : exists s0 s1 s2, wd_init Sam3x 32768 atmel_reset = WOk s0 /\ wd_setup Sam3x 32768 (ms 1000) s0 = WOk s1 /\ wd_start Sam3x false s1 = WOk s2.
Proof. do 3 eexists. split; [reflexivity|]. split; reflexivity. Qed.
(** if it could be written, the timeout would be the complement of what was asked for. *)
Theorem C115_sam3x_complement_wrong : forall f st irq s s0 s1 s2, 0 < f -> set_ok st -> w_once s = false ->
  wd_init Sam3x f s = WOk s0 -> wd_setup Sam3x f st s0 = WOk s1 -> wd_start Sam3x irq s1 = WOk s2 ->
  running Sam3x s2 = true /\ limit Sam3x s2 = 128 * (4095 - ws_t st / (1000 / (f / 128))).
Proof. exact sam3x_complement. Qed.
Print Assumptions C115_sam3x_complement_wrong.
(** AVR: an interrupt in the timed sequence, and the watchdog runs with the shortest timeout instead of 8 s. *)
Theorem C115_avr_refuted : exists s1 s2, wd_setup Avr 1 (ms 9) (blk 0 0) = WOk s1 /\ wd_start Avr true s1 = WOk s2 /\ running Avr s2 = true /\ limit Avr s2 = 2048.
Proof. do 2 eexists. split; [reflexivity|]. split; [reflexivity|]. split; reflexivity. Qed.
Print Assumptions C115_avr_refuted.
(** GD32: no request is refused, and none gets more than 4304 clocks, 107.6 ms at 40 kHz. *)
Theorem C115_fwdgt_refuted : forall f st s, 0 < f -> exists s1, wd_setup Fwdgt f st s = WOk s1 /\ limit Fwdgt s1 <= 4304.
Proof. intros f st s Hf. destruct (fwdgt_never_refuses f st s Hf) as [s1 E]. exists s1. split; [exact E|exact (fwdgt_short f st s s1 Hf E)]. Qed.
Print Assumptions C115_fwdgt_refuted.
(** PIC32: 65 s become 1 ms. *)
Theorem C115_pic32_refuted : exists s1, wd_setup Pic32 1 (ms 16) (blk 0 0) = WOk s1 /\ limit Pic32 s1 = 1.
Proof. eexists. split; reflexivity. Qed.
Print Assumptions C115_pic32_refuted.
(** RP2040: 2147 s become 1 us; with 12.5 MHz the timeout is 4 % short. *)
Theorem C115_rp2040_refuted : exists s0 s1, wd_init Rp2040 12000000 (blk 0 0) = WOk s0 /\ wd_setup Rp2040 12000000 (ms 2147483649) s0 = WOk s1 /\ limit Rp2040 s1 = 12.
Proof. do 2 eexists. split; [reflexivity|]. split; reflexivity. Qed.
Print Assumptions C115_rp2040_refuted.
Theorem C115_rp2040_mhz_refuted : exists s0 s1, wd_init Rp2040 12500000 (blk 0 0) = WOk s0 /\ wd_setup Rp2040 12500000 (ms 1000000) s0 = WOk s1 /\ limit Rp2040 s1 = 12000000.
Proof. do 2 eexists. split; [reflexivity|]. split; reflexivity. Qed.
Print Assumptions C115_rp2040_mhz_refuted.
(** STM32: from 4096 ms on, with the 32 kHz clock, the watchdog bites after 2 ms. *)
Theorem C115_iwdg_refuted : forall t w s, 4096 <= t < 2 ^ 29 -> 0 < w <= t -> w_sync s = true ->
  exists s1, wd_setup Iwdg 32000 (mkSet t w false) s = WOk s1 /\ limit Iwdg s1 = 64 /\ running Iwdg s1 = true.
Proof. exact iwdg_lsi_long. Qed.
Print Assumptions C115_iwdg_refuted.
(** F28x: wd_start loses the prescaler. *)
Theorem C115_f28_wrong : forall f st irq s s1 s2, set_ok st -> w_once s = false -> wd_setup F28 f st s = WOk s1 -> wd_start F28 irq s1 = WOk s2 ->
  limit F28 s2 = 256 * 512.
Proof. intros f st irq s s1 s2 Hs Ho E1 E2. pose proof (f28_start_ok f st irq s s1 s2 Hs Ho E1 E2) as (_ & A & _). exact A. Qed.
Print Assumptions C115_f28_wrong.

(** * C116: a setup that returns an error changes nothing *)
Theorem C116_error_partial : forall d f st s e s1, d <> SamE5 -> (d = Iwdg -> w_sync s = true) -> wd_setup d f st s = WErr e s1 -> s1 = s.
Proof. exact setup_err. Qed.
Print Assumptions C116_error_partial.
Example C116_error_runs : wd_setup Atmel 32000 (ms 20000) atmel_reset = WErr W_EINVAL atmel_reset /\ wd_setup TinyAvr 1 (ms 12) (blk 0 0) = WErr W_EINVAL (blk 0 0).
Proof. split; reflexivity. Qed.
(** SAM E5x: the period is written before the window is checked; *)
Theorem C116_same5x_refuted : exists s1, wd_setup SamE5 1 (mkSet 0 12 true) (blk 0 11) = WErr W_EINVAL s1 /\ limit SamE5 (blk 0 11) = 16384 /\ limit SamE5 s1 = 8.
Proof. eexists. split; [reflexivity|]. split; reflexivity. Qed.
Print Assumptions C116_same5x_refuted.
(** STM32: when the registers are busy, the watchdog has been started all the same. *)
Theorem C116_iwdg_refuted : exists s1, wd_setup Iwdg 32000 (ms 10) (mkWd 0 0 4095 4095 false false false false false 0 0 false) = WErr W_EBUSY s1 /\ running Iwdg s1 = true.
Proof. eexists. split; reflexivity. Qed.
Print Assumptions C116_iwdg_refuted.

(** * C117: after wd_stop the watchdog never resets the system, whatever happens *)
Theorem C117_stop_partial : forall d irq s s1 l, 0 <= w_cnt s -> wd_stop d irq s = WOk s1 -> stoppable d irq s -> w_dead s = false -> w_dead (wd_run d s1 l) = false.
Proof. intros d irq s s1 l Hc E H Hd. pose proof (stop_ok d irq s s1 Hc E H) as [A B]. rewrite Hd in B. exact (proj1 (run_stopped d l s1 A B)). Qed.
Print Assumptions C117_stop_partial.
Example C117_stop_runs : exists s1, wd_stop Rp2040 false (blk 1073741824 0) = WOk s1 /\ running Rp2040 (blk 1073741824 0) = true.
Proof. eexists. split; reflexivity. Qed.
(** Only the first write after reset counts on Atmel (the SAME70 demo does that): a setup is one. *)
Theorem C117_atmel_setup : forall f st s s1, w_once s = true -> wd_setup Atmel f st s = WOk s1 -> unstoppable Atmel s1.
Proof.
  intros f st s s1 Ho E. cbn [wd_setup] in E. unfold atmel_setup in E. destruct (atmel_wdv _ _); try discriminate. injection E as <-. cbn [unstoppable]. unfold hw_mr.
  destruct (w_once s && w_key s) eqn:C; [apply andb_true_iff in C; exact C|]. split; [exact Ho|reflexivity].
Qed.
Print Assumptions C117_atmel_setup.
(** GD32, STM32, F28x, and Atmel after a setup: wd_stop returns 0 and the watchdog goes on; who stops refreshing is reset. *)
Theorem C117_stop_refuted : forall d irq s s1 l, 0 <= w_cnt s -> wd_stop d irq s = WOk s1 -> unstoppable d s -> running d s = true -> w_dead s = false ->
  running d s1 = true /\ w_dead (wd_run d s1 l) = negb (in_time (limit d s) (closed d s) (w_cnt s1) l).
Proof.
  intros d irq s s1 l Hc E H Hr Hd. pose proof (stop_wrong d irq s s1 E Hr Hd H) as (A & B & C & D). split; [exact A|]. rewrite <- B, <- C.
  apply run_in_time; try assumption.
  - destruct d; cbn [unstoppable] in H; try contradiction; unfold wd_stop in E; injection E as <-.
    + rewrite mr_locked by apply H. exact Hc.
    + rewrite mr_locked by apply H. exact Hc.
    + exact Hc.
    + exact Hc.
    + unfold hw_scsr, hw_wdcr. cbn [Z.testbit Z.odd]. destruct (negb _); exact Hc.
  - destruct d; cbn [unstoppable] in H; try contradiction; exact I.
Qed.
Print Assumptions C117_stop_refuted.
Example C117_f28_runs : exists s1 s2 s3, wd_setup F28 1 (mkSet 0 0 false) (mkWd 0 0 0 0 false false false false true 0 0 false) = WOk s1 /\ wd_start F28 false s1 = WOk s2 /\
  wd_stop F28 false s2 = WOk s3 /\ running F28 s3 = true /\ unstoppable F28 s2.
Proof. do 3 eexists. split; [reflexivity|]. split; [reflexivity|]. split; [reflexivity|]. split; reflexivity. Qed.
(** AVR: an interrupt in the timed sequence, and wd_stop starts a watchdog that did not run; after a reset by the watchdog it cannot be
    stopped, for nothing clears WDRF. *)
Theorem C117_avr_refuted : exists s1, wd_stop Avr true (blk 0 0) = WOk s1 /\ running Avr (blk 0 0) = false /\ running Avr s1 = true.
Proof. eexists. split; [reflexivity|]. split; reflexivity. Qed.
Print Assumptions C117_avr_refuted.
Theorem C117_avr_wdrf_refuted : forall irq s s1, w_wdrf s = true -> wd_stop Avr irq s = WOk s1 -> running Avr s1 = true.
Proof.
  intros irq s s1 Hw E. unfold wd_stop in E. injection E as <-. unfold avr_write, hw_wdtcsr. change (Z.testbit 24 4 && Z.testbit 24 3) with true. cbv iota zeta. change (Z.testbit 0 4 && Z.testbit 0 3) with false. cbv iota.
  destruct irq; unfold hw_irq; cbn [set_key w_key].
  - cbn [running w_mode set_mode set_key]. rewrite !Z.lor_spec. change (Z.testbit 8 3) with true. rewrite orb_true_r. reflexivity.
  - assert (W : w_wdrf (hw_refresh Avr s) = true) by (unfold hw_refresh; destruct (_ && _); exact Hw). cbn [w_wdrf set_mode running w_mode set_key]. rewrite W. reflexivity.
Qed.
Print Assumptions C117_avr_wdrf_refuted.

(** * C118: the watchdog resets the system exactly when it is not refreshed in time *)
Theorem C118_feed : forall d s l, running d s = true -> w_dead s = false -> 0 <= w_cnt s -> rp_loaded d s ->
  w_dead (wd_run d s l) = negb (in_time (limit d s) (closed d s) (w_cnt s) l).
Proof. intros d s l. exact (run_in_time d l s). Qed.
Print Assumptions C118_feed.
(** so it is never reset if it always refreshes after n clocks, for a fixed n neither too early nor too late; *)
Theorem C118_alive : forall d s n k, running d s = true -> w_dead s = false -> w_cnt s = 0 -> rp_loaded d s -> closed d s <= Z.of_nat n < limit d s ->
  w_dead (wd_run d s (concat (repeat (repeat Clk n ++ [Feed]) k))) = false.
Proof.
  intros d s n k Hr Hd Hc Hl Hn. rewrite run_in_time by (try assumption; lia). apply negb_false_iff. rewrite Hc.
  assert (G : forall m c rest, 0 <= c -> c + Z.of_nat m < limit d s -> in_time (limit d s) (closed d s) c (repeat Clk m ++ rest) = in_time (limit d s) (closed d s) (c + Z.of_nat m) rest).
  { induction m as [|m IH]; intros c rest H0 H1; [cbn [repeat app]; f_equal; lia|]. cbn [repeat app in_time]. replace (c + 1 <? limit d s) with true by (symmetry; apply Z.ltb_lt; lia).
    cbn [andb]. rewrite IH by lia. f_equal. lia. }
  induction k as [|k IH]; [reflexivity|]. cbn [repeat concat]. rewrite <- app_assoc, G by lia. cbn [app in_time]. rewrite IH. rewrite andb_true_r. apply Z.leb_le. lia.
Qed.
Print Assumptions C118_alive.
(** and reset after exactly the timeout when nobody does. *)
Theorem C118_bites : forall d s n, running d s = true -> w_dead s = false -> w_cnt s = 0 -> rp_loaded d s -> 0 < limit d s ->
  w_dead (wd_run d s (repeat Clk n)) = (limit d s <=? Z.of_nat n).
Proof.
  intros d s n Hr Hd Hc Hl Hlim. rewrite run_in_time by (try assumption; lia). rewrite Hc.
  assert (G : forall m c, 0 <= c < limit d s -> in_time (limit d s) (closed d s) c (repeat Clk m) = (c + Z.of_nat m <? limit d s)).
  { induction m as [|m IH]; intros c H0; cbn [repeat in_time]. - symmetry. apply Z.ltb_lt. lia.
    - destruct (c + 1 <? limit d s) eqn:Q; cbn [andb]; [apply Z.ltb_lt in Q; rewrite IH by lia; f_equal; lia|apply Z.ltb_ge in Q; symmetry; apply Z.ltb_ge; lia]. }
  rewrite G by lia. rewrite Z.add_0_l. symmetry. apply Z.leb_antisym.
Qed.
Print Assumptions C118_bites.
(** RP2040: setup and wd_start get to such a state. *)
Theorem C118_loaded : forall f st irq s s1 s2, 0 < f -> set_ok st -> ready Rp2040 f st s -> suits Rp2040 f st ->
  wd_setup Rp2040 f st s = WOk s1 -> wd_start Rp2040 irq s1 = WOk s2 -> rp_loaded Rp2040 s2.
Proof. intros f st irq s s1 s2 Hf Hs Hr Hsu E1 E2. pose proof (start_ok Rp2040 f st irq s s1 s2 Hf Hs Hr Hsu ltac:(discriminate) E1 E2) as (_ & _ & _ & A). exact A. Qed.
Print Assumptions C118_loaded.
Example C118_runs : exists s1 s2, wd_setup SamE5 1 (mkSet 0 0 true) (blk 0 0) = WOk s1 /\ wd_start SamE5 false s1 = WOk s2 /\ running SamE5 s2 = true /\ limit SamE5 s2 = 16 /\ closed SamE5 s2 = 8.
Proof. do 2 eexists. split; [reflexivity|]. split; [reflexivity|]. split; [reflexivity|]. split; reflexivity. Qed.

(** * C119: a refresh is refused for exactly the time asked for *)
Theorem C119_window_partial : forall d f st irq s s1 s2, 0 < f -> set_ok st -> ready d f st s -> suits d f st -> (d = Avr -> irq = false) ->
  wd_setup d f st s = WOk s1 -> wd_start d irq s1 = WOk s2 -> closed_ok d f st s2.
Proof. intros d f st irq s s1 s2 Hf Hs Hr Hsu Hi E1 E2. pose proof (start_ok d f st irq s s1 s2 Hf Hs Hr Hsu Hi E1 E2) as (_ & _ & A & _). exact A. Qed.
Print Assumptions C119_window_partial.
Example C119_window_runs : exists s1, wd_setup Iwdg 32000 (mkSet 1000 400 false) (blk 0 0) = WOk s1 /\ closed Iwdg s1 = 19200.
Proof. eexists. split; reflexivity. Qed.
(** SAM E5x: once set up, the window mode stays, with a window of 8 clocks, *)
Theorem C119_same5x_refuted : exists s1 s2, wd_setup SamE5 1 (mkSet 11 11 true) (blk 0 0) = WOk s1 /\ wd_setup SamE5 1 (mkSet 11 11 false) s1 = WOk s2 /\ closed SamE5 s2 = 8.
Proof. do 2 eexists. split; [reflexivity|]. split; reflexivity. Qed.
Print Assumptions C119_same5x_refuted.
(** on PIC32 too. *)
Theorem C119_pic32_refuted : forall f st s s1, ws_win st = false -> Z.testbit (w_mode s) 0 = true -> wd_setup Pic32 f st s = WOk s1 -> Z.testbit (w_mode s1) 0 = true.
Proof.
  intros f st s s1 Hw Hb E. cbn [wd_setup] in E. unfold pic32_setup in E. destruct (negb _); [discriminate|]. rewrite Hw in E. cbv zeta in E. injection E as <-.
  assert (M : forall x v, w_mode (hw_wdtcon_set x v) = Z.lor (w_mode x) (Z.land v 65535)).
  { intros x v. unfold hw_wdtcon_set. cbv zeta. destruct (_ =? _); [|reflexivity]. unfold hw_refresh. destruct (_ && _); reflexivity. }
  rewrite M, Z.lor_spec. cbn [hw_wdtcon_clr w_mode set_mode]. rewrite bit_land_lnot, Hb by lia. reflexivity.
Qed.
Print Assumptions C119_pic32_refuted.
(** F28x: the window, too, lacks the prescaler. *)
Theorem C119_f28_wrong : forall f st irq s s1 s2, set_ok st -> w_once s = false -> wd_setup F28 f st s = WOk s1 -> wd_start F28 irq s1 = WOk s2 ->
  closed F28 s2 = ws_w st * 512.
Proof. intros f st irq s s1 s2 Hs Ho E1 E2. pose proof (f28_start_ok f st irq s s1 s2 Hs Ho E1 E2) as (_ & _ & A & _). exact A. Qed.
Print Assumptions C119_f28_wrong.
