(** PropTimer.v - C101: the period of the system tick; C102: it does not drift; C103: late handlers; C104: arch_delay_us. *)
From Verif Require Import Base TimerModel TimerSpec TimerProofs.

(** * C101: a tick every f / CONFIG_TICK_HZ clocks *)
(** ARM: exactly, up to 2^24 clocks; *)
Theorem C101_systick_partial : forall f hz, 0 < hz -> f < 2147483648 -> 2 <= f / hz <= 16777216 -> exact (f / hz) (systick f hz).
Proof. exact systick_ok. Qed.
Print Assumptions C101_systick_partial.
Example C101_systick_1000 : systick 120000000 1000 = Every 120000. Proof. reflexivity. Qed.
(** beyond, the reload value loses its upper bits: 480 MHz, 20 Hz: more than three times too fast. *)
Theorem C101_systick_refuted : ~ (forall f hz, 0 < hz <= f -> f < 2147483648 -> 2 <= f / hz -> exact (f / hz) (systick f hz)).
Proof. intros H. specialize (H 480000000 20 ltac:(lia) ltac:(lia) ltac:(vm_compute; discriminate)). vm_compute in H. discriminate H. Qed.
Print Assumptions C101_systick_refuted.
(** ch32v003 and c28x: exactly, always. *)
Theorem C101_stk_timer2 : forall f hz, 0 < hz <= f -> f <= 4294967296 -> exact (f / hz) (ch32_stk f hz) /\ exact (f / hz) (c28x_timer2 f hz).
Proof. intros f hz H Hf. unfold exact, ch32_stk, c28x_timer2. rewrite full32 by assumption. split; reflexivity. Qed.
Print Assumptions C101_stk_timer2.
Example C101_stk_1000 : ch32_stk 24000000 1000 = Every 24000. Proof. reflexivity. Qed.
(** RP2040 with both cores: at most one clock in 65536 too short. *)
Theorem C101_rp2040_partial : forall f hz, 0 < hz <= f -> f < 4294967296 -> f / hz < 255 * 65536 -> between (f / hz - f / hz / 65536) (f / hz) (rp2040_pwm f hz).
Proof. exact rp2040_ok. Qed.
Print Assumptions C101_rp2040_partial.
Example C101_rp2040_1000 : rp2040_pwm 133000000 1000 = Every 132999. Proof. vm_compute. reflexivity. Qed.
Theorem C101_rp2040_refuted : ~ (forall f hz, 0 < hz <= f -> f < 4294967296 -> between (f / hz - f / hz / 65536) (f / hz) (rp2040_pwm f hz)).
Proof. intros H. destruct (H 133000000 7 ltac:(lia) ltac:(lia)) as (n & E & B). vm_compute in E. injection E as <-. vm_compute in B. destruct B as [B _]. apply B. reflexivity. Qed.
Print Assumptions C101_rp2040_refuted.
(** AVR: never too fast, at most a 32nd too slow, from 257 clocks to 2^18; no tick at all otherwise (with less than 257 clocks the
    prescaler 1 is written as 0, taken for a failure). *)
Theorem C101_avr_partial : forall f hz, 0 < hz <= f -> f < 4294967296 -> 257 <= f / hz <= 262144 -> between (f / hz) (f / hz + f / hz / 32) (avr_tc0 f hz).
Proof. exact avr_tc0_ok. Qed.
Print Assumptions C101_avr_partial.
Example C101_avr_1000 : avr_tc0 16000000 1000 = Every 16000. Proof. reflexivity. Qed.
Theorem C101_avr_refuted : forall f hz, 0 < hz <= f -> f < 4294967296 -> f / hz <= 256 \/ 262144 < f / hz -> avr_tc0 f hz = Off.
Proof. exact avr_tc0_off. Qed.
Print Assumptions C101_avr_refuted.
(** 16 MHz, 50 Hz. *)
Example C101_avr_50 : avr_tc0 16000000 50 = Off. Proof. reflexivity. Qed.
Theorem C101_attiny88 : forall f hz, 0 < hz <= f -> f / hz <= 262144 -> between (f / hz) (f / hz + f / hz / 32) (attiny88_tc0 f hz).
Proof. exact attiny88_ok. Qed.
Print Assumptions C101_attiny88.
Example C101_attiny88_100k : attiny88_tc0 8000000 100000 = Every 80. Proof. reflexivity. Qed.
(** tinyAVR, STM8, N76E003: in clocks of the slow oscillator the timer runs from. *)
Theorem C101_rtc : forall hz, 1 <= hz <= 32768 -> exact (32768 / hz) (avr_rtc hz).
Proof. exact rtc_ok. Qed.
Print Assumptions C101_rtc.
(** The default: 1000 Hz asked for, 1024 Hz made. *)
Example C101_rtc_1000 : avr_rtc 1000 = Every 32 /\ 32768 / 32 = 1024. Proof. split; reflexivity. Qed.
Theorem C101_awu_partial : forall hz, 2 <= hz <= 64000 -> between (128000 / hz - 128000 / hz / 32) (128000 / hz) (stm8_awu hz).
Proof. exact awu_ok. Qed.
Print Assumptions C101_awu_partial.
Example C101_awu_1000 : stm8_awu 1000 = Every 128. Proof. reflexivity. Qed.
(** 1 Hz, which takes 17 bits, and 128 kHz, which underflows, both accepted. *)
Theorem C101_awu_refuted : stm8_awu 1 = Every 62464 /\ stm8_awu 128000 = Every 65.
Proof. split; vm_compute; reflexivity. Qed.
Print Assumptions C101_awu_refuted.
Theorem C101_wkt : forall hz, 1 <= hz <= 10000 -> between (10000 / hz - 10000 / hz / 64) (10000 / hz) (n76e003_wkt hz).
Proof. exact wkt_ok. Qed.
Print Assumptions C101_wkt.
Example C101_wkt_1 : n76e003_wkt 1 = Every 9984. Proof. reflexivity. Qed.
(** The other 8051s: within 12 clocks, if the counter is wide enough; *)
Theorem C101_mcs51_partial : forall f hz, 0 < hz <= f -> f / hz / 12 < 65536 -> between (f / hz + 1) (f / hz + 12) (mcs51_t2 f hz).
Proof. exact mcs51_ok. Qed.
Print Assumptions C101_mcs51_partial.
Example C101_mcs51_1000 : mcs51_t2 12000000 1000 = Every 12012. Proof. reflexivity. Qed.
Theorem C101_cy7c_partial : forall f hz, 0 < hz <= f -> 4 <= f / hz -> f / hz / 12 <= 65536 -> between (f / hz - 11) (f / hz) (cy7c_t2 f hz).
Proof. exact cy7c_ok. Qed.
Print Assumptions C101_cy7c_partial.
Example C101_cy7c_1000 : cy7c_t2 48000000 1000 = Every 48000. Proof. reflexivity. Qed.
(** nobody checks that it is. *)
Theorem C101_8051_refuted : mcs51_t2 12000000 10 = Every 413580 /\ cy7c_t2 48000000 50 = Every 173568.
Proof. split; vm_compute; reflexivity. Qed.
Print Assumptions C101_8051_refuted.
(** STC12: the handler writes the counter again: the period depends on when, and is right only if this happens exactly 7 counts
    after the overflow. *)
Theorem C101_stc12 : forall f hz l, 8 <= f / hz / 12 <= 65536 -> stc12_t0 f hz l = Every (12 * (f / hz / 12) + 12 * (l - 7)).
Proof. exact stc12_ok. Qed.
Print Assumptions C101_stc12.
Example C101_stc12_runs : stc12_t0 22118400 1000 7 = Every 22116 /\ stc12_t0 22118400 1000 30 = Every 22392. Proof. split; vm_compute; reflexivity. Qed.
(** e200z7 (one core): exact, or one clock short if the decrementer does not show 0 before it reloads. *)
Theorem C101_dec : forall zero f hz, 0 < hz <= f -> f < 4294967296 -> between (f / hz - 1) (f / hz) (e200_dec zero f hz).
Proof. exact dec_ok. Qed.
Print Assumptions C101_dec.
Example C101_dec_1000 : e200_dec true 264000000 1000 = Every 264000. Proof. reflexivity. Qed.
(** HCS08: + 1 for - 1: two clocks too long, up to a 128th more with MTIM1; nothing or something else beyond 65534 clocks. *)
Theorem C101_mtim_partial : forall f hz, 0 < hz <= f -> f / hz + 1 < 65536 -> between (f / hz + 2) (f / hz + 2 + (f / hz + 1) / 128) (hcs08_mtim f hz).
Proof. exact mtim_ok. Qed.
Print Assumptions C101_mtim_partial.
Example C101_mtim_1000 : hcs08_mtim 8000000 1000 = Every 8032. Proof. reflexivity. Qed.
Theorem C101_mtim_refuted : forall f hz, 0 < hz <= f -> f < 4294967295 -> 65536 <= f / hz + 1 -> hcs08_mtim f hz = Off.
Proof. exact mtim_off. Qed.
Print Assumptions C101_mtim_refuted.
Example C101_mtim_100 : hcs08_mtim 8000000 100 = Off. Proof. reflexivity. Qed.
Theorem C101_hcs08_rtc_partial : forall f hz, 0 < hz <= f -> f / hz + 1 < 65536 -> exact (f / hz + 2) (hcs08_rtc f hz).
Proof. exact hcs08_rtc_ok. Qed.
Print Assumptions C101_hcs08_rtc_partial.
Theorem C101_hcs08_rtc_refuted : hcs08_rtc 20000000 100 = Every 3394.
Proof. vm_compute. reflexivity. Qed.
Print Assumptions C101_hcs08_rtc_refuted.
(** Compare timers: the period, in counts, is what it should be, up to one count: MIPS and e200z4 count f / 2, mpc577x (with more than one
    core) f / 2^(d + 1), rv32imac f. *)
Theorem C101_compare : forall f hz d, 0 < hz <= f -> f < 4294967296 -> 0 <= d <= 3 ->
  2 * mips_period f hz <= f / hz < 2 * mips_period f hz + 2 /\ 2 * stm_period f hz <= f / hz < 2 * stm_period f hz + 2 /\
  2 ^ (d + 1) * stma_period d f hz <= f / hz < 2 ^ (d + 1) * stma_period d f hz + 2 ^ (d + 1) /\ rv32_period f hz = f / hz.
Proof.
  intros f hz d H Hf Hd. pose proof (quo_pos f hz H) as Q. unfold mips_period, stm_period, stma_period, rv32_period. rewrite w32_small by lia. set (p := f / hz) in *. clearbody p.
  assert (E : Z.land 3 d = d) by (assert (d = 0 \/ d = 1 \/ d = 2 \/ d = 3) as [->|[->|[->| ->]]] by lia; reflexivity). rewrite E.
  rewrite !Z.shiftr_div_pow2 by lia. change (2 ^ 1) with 2. assert (0 < 2 ^ (d + 1)) by (apply Z.pow_pos_nonneg; lia). pose proof (dm p 2 ltac:(lia)). pose proof (dm p (2 ^ (d + 1)) ltac:(lia)). lia.
Qed.
Print Assumptions C101_compare.
Example C101_compare_1000 : mips_period 200000000 1000 = 100000 /\ rv32_period 27000000 1000 = 27000. Proof. split; reflexivity. Qed.

(** * C102: ticks do not drift *)
(** MIPS and STM: as long as each handler re-arms the timer within a period, however late, the ticks are due at start + k period
    exactly, for ever (the counter wraps). *)
Theorem C102_compare : forall period now lats, 0 < period < 4294967296 -> Forall (fun l => 0 <= l < period) lats ->
  cmp_start period now lats = regular now period (S (length lats)).
Proof. exact cmp_start_ok. Qed.
Print Assumptions C102_compare.
Example C102_compare_wraps : cmp_start 100000 4294900000 [3; 99999; 50] = [4295000000; 4295100000; 4295200000; 4295300000]. Proof. vm_compute. reflexivity. Qed.
(** rv32imac: whatever the delays, tick k is due at mtimecmp + k period, as long as none falls on a multiple of 2^32. *)
Theorem C102_rv32_partial : forall p lats, 0 < p < 4294967296 -> forall lo hi free, 0 <= lo < 4294967296 -> 0 <= hi ->
  cat64 (lo, hi) + p * Z.of_nat (length lats) < 2 ^ 64 - 2 ^ 32 ->
  (forall k : nat, (k < length lats)%nat -> (cat64 (lo, hi) + p * Z.of_nat k) mod 4294967296 <> 0) ->
  map fst (rv32_ticks p (lo, hi) free lats) = map (fun k => cat64 (lo, hi) + p * Z.of_nat k) (seq 0 (length lats)).
Proof. exact rv32_ok. Qed.
Print Assumptions C102_rv32_partial.
Example C102_rv32_runs : rv32_ticks 27000 (4294960000, 0) 0 [5; 100000; 7] = [(4294960000, 4294960005); (4294987000, 4295087000); (4295014000, 4295087007)]. Proof. vm_compute. reflexivity. Qed.
(** When one does, mtimecmp gets a carry too many (period < sum is no test when the low word is 0): the next tick is due 2^32
    counts too late (159 s at 27 MHz). *)
Theorem C102_rv32_refuted : exists lo hi, rv32_start 27000 4294940296 0 = (lo, hi) /\ rv32_ticks 27000 (lo, hi) 4294940296 [10; 10; 10] =
  [(4294967296, 4294967306); (8589961592, 8589961602); (8589988592, 8589988602)].
Proof. exists 0, 1. split; vm_compute; reflexivity. Qed.
Print Assumptions C102_rv32_refuted.
(** This happens to every system, if the period is odd or if the first mtimecmp has the factors 2 the period has, within 2^32
    ticks. *)
Theorem C102_rv32_stops : forall p lo hi, 0 < p < 4294967296 -> 0 <= lo < 4294967296 -> (Z.gcd p 4294967296 | lo) ->
  exists k : nat, Z.of_nat k < 4294967296 /\ fst (Nat.iter k (step_cmp p) (lo, hi)) = 0.
Proof. exact rv32_stops. Qed.
Print Assumptions C102_rv32_stops.
Theorem C102_rv32_carry : forall p hi, 0 < p < 4294967296 -> 0 <= hi < 4294967295 -> cat64 (step_cmp p (0, hi)) = cat64 (0, hi) + p + 4294967296.
Proof. intros p hi Hp Hh. exact (incr_zero p hi Hp Hh). Qed.
Print Assumptions C102_rv32_carry.
Example C102_rv32_one_in_eight : Z.gcd 27000 4294967296 = 8. Proof. vm_compute. reflexivity. Qed.
(** The first tick: one period after the start, unless the low word of mtime wraps between the two loads. *)
Theorem C102_rv32_start_partial : forall p now d, 0 < p < 4294967296 -> 0 < now mod 4294967296 -> 0 <= d -> 0 <= now < 2 ^ 64 - 2 ^ 33 -> now mod 4294967296 + d < 4294967296 ->
  cat64 (rv32_start p now d) = now + p.
Proof.
  intros p now d Hp Hn Hd Hm Hw. unfold rv32_start. pose proof (Z.div_mod now 4294967296 ltac:(lia)) as D. pose proof (Z.mod_pos_bound now 4294967296 ltac:(lia)) as M.
  assert (E : (now + d) / 4294967296 = now / 4294967296) by (symmetry; apply Z.div_unique with (now mod 4294967296 + d); lia). rewrite E.
  assert (B : 0 <= now / 4294967296 < 4294967294). { split; [apply Z.div_pos; lia|]. apply Z.div_lt_upper_bound; [lia|]. change (2 ^ 64 - 2 ^ 33) with (4294967294 * 4294967296) in Hm. lia. }
  rewrite (Z.mod_small (now / 4294967296)) by lia. destruct (incr_ok p (now mod 4294967296) (now / 4294967296) Hp ltac:(lia) ltac:(lia)) as [-> _]. unfold cat64. cbn [fst snd]. lia.
Qed.
Print Assumptions C102_rv32_start_partial.
Theorem C102_rv32_start_refuted : cat64 (rv32_start 27000 4294967290 10) = 4294967290 + 27000 + 4294967296.
Proof. vm_compute. reflexivity. Qed.
Print Assumptions C102_rv32_start_refuted.
(** Self-reloading timers: every period gives one tick, as long as interrupts are never kept away for more than a period. *)
Theorem C102_reload : forall n, 0 < n -> forall ds now, Forall (fun d => 0 <= d <= n) ds -> served n now ds = (now + zsum ds) / n - now / n.
Proof. exact served_ok. Qed.
Print Assumptions C102_reload.
Example C102_reload_runs : served 1000 0 [400; 999; 700; 901] = 3. Proof. reflexivity. Qed.

(** * C103: a handler that is late *)
(** MIPS, STM: a tick re-armed a whole period late or more is the last one for 2^32 counts (43 s at 100 MHz). *)
Theorem C103_compare_refuted : forall period now l, 0 < period < 4294967296 -> period <= l < 4294967296 ->
  cmp_start period now [l] = [now + period; now + 2 * period + 4294967296].
Proof. exact cmp_late. Qed.
Print Assumptions C103_compare_refuted.
Example C103_compare_runs : cmp_start 100000 0 [100000] = [100000; 4295167296]. Proof. vm_compute. reflexivity. Qed.
(** rv32imac: no tick is lost, they are taken one after the other as soon as can be, each when due or later (C102_rv32_partial has no condition
    on the delays). *)
Theorem C103_rv32 : forall p lats cmp free, Forall (fun l => 0 <= l) lats -> Forall (fun x => fst x <= snd x /\ free <= snd x) (rv32_ticks p cmp free lats).
Proof. intros p lats. exact (rv32_times p lats). Qed.
Print Assumptions C103_rv32.
(** Self-reloading timers forget all but one of the ticks they made meanwhile. *)
Theorem C103_reload_refuted : forall n k, 0 < n -> 1 <= k -> served n 0 [k * n] = 1 /\ (0 + zsum [k * n]) / n - 0 / n = k.
Proof.
  intros n k Hn Hk. unfold zsum. cbn [served fold_right]. replace (0 + (k * n + 0)) with (k * n) by lia. replace (0 + k * n) with (k * n) by lia.
  assert (A : k * n / n = k) by (apply Z.div_mul; lia). assert (B : 0 / n = 0) by (apply Z.div_0_l; lia). rewrite A, B. destruct (Z.ltb_spec 0 k); lia.
Qed.
Print Assumptions C103_reload_refuted.
(** ARM: picoRTOS_suspend stops the clock, so even short ones make the system time late, by their sum. *)
Theorem C103_arm_suspend : forall ds, counted ds = zsum (map snd ds) - zsum (map snd (filter (fun x => fst x = true) ds)).
Proof.
  induction ds as [|[s d] ds IH]; [reflexivity|]. cbn [counted map zsum fold_right snd]. rewrite IH. unfold zsum. destruct s.
  - rewrite filter_cons_True by reflexivity. cbn [map fold_right snd]. lia.
  - rewrite filter_cons_False by discriminate. lia.
Qed.
Print Assumptions C103_arm_suspend.
Theorem C103_arm_refuted : ~ (forall n ds, 0 < n -> Forall (fun x => 0 <= snd x < n) ds -> counted ds / n = zsum (map snd ds) / n).
Proof. intros H. specialize (H 1000 (concat (repeat [(false, 100); (true, 100)] 10)) ltac:(lia)). cbn [repeat concat app] in H. assert (F : 0 <= 100 < 1000) by lia. specialize (H ltac:(repeat (apply Forall_cons; split; [exact F|]); apply Forall_nil; exact I)). vm_compute in H. discriminate H. Qed.
Print Assumptions C103_arm_refuted.

(** * C104: arch_delay_us waits at least n microseconds *)
(** Loops of at least two cycles, at 1 MHz or more, as long as n times the megahertz fits 32 bits. *)
Theorem C104_delay_partial : forall f n c, 2 <= c -> 1000000 <= f -> 0 <= n -> n * (f / 1000000) < 4294967296 -> lasts c (delay_iters f n) f n.
Proof. exact delay_ok. Qed.
Print Assumptions C104_delay_partial.
Example C104_delay_runs : delay_iters 22100000 50 = 1100. Proof. reflexivity. Qed.
(** 9 s at 480 MHz last 0.3 ms for a loop of 6 cycles; below 1 MHz there is no delay. *)
Theorem C104_delay_refuted : ~ (forall f n, 1000000 <= f -> 0 <= n -> lasts 6 (delay_iters f n) f n) /\ forall f n, 0 <= f < 1000000 -> delay_iters f n = 0.
Proof.
  split; [intros H; specialize (H 480000000 9000000 ltac:(lia) ltac:(lia)); vm_compute in H; apply H; reflexivity|].
  intros f n H. unfold delay_iters. rewrite Z.div_small by lia. rewrite Z.mul_0_r. reflexivity.
Qed.
Print Assumptions C104_delay_refuted.
(** GD32VF103: the frequency is that of mtime, a quarter of the CPU's: loops of at least 4 cycles. *)
Theorem C104_gd32_partial : forall f n c, 4 <= c -> f mod 1000000 = 0 -> 0 <= f -> 0 <= n -> n * (f / 1000000) < 4294967296 -> lasts c (delay_iters f n) (4 * f) n.
Proof. exact delay_gd32. Qed.
Print Assumptions C104_gd32_partial.
(** 8051 and STM8, which divide by the cycles of a round: rounds of at least four times as many, and at least one round. *)
Theorem C104_8051_partial : forall f n c, 1000000 <= f -> 0 <= n ->
  (128 <= c -> 32 <= n * (f / 1000000) < 4294967296 -> lasts c (delay_wkt f n) f n) /\ (16 <= c -> 4 <= n * (f / 1000000) < 4294967296 -> lasts c (delay_quarter f n) f n) /\
  (48 <= c -> 12 <= n * (f / 1000000) < 4294967296 -> lasts c (delay_mcs51 f n) f n).
Proof.
  intros f n c Hf Hn. unfold delay_wkt, delay_quarter, delay_mcs51. rewrite !Z.shiftr_div_pow2 by lia. change (2 ^ 5) with 32. change (2 ^ 2) with 4.
  split; [|split]; intros Hc Hw; apply delay_div; lia.
Qed.
Print Assumptions C104_8051_partial.
(** tinyAVR: counts rounds by the frequency of the RTC: 1000 us at 20 MHz last 16 us for a loop of 10 cycles. *)
Theorem C104_rtc_refuted : ~ (forall n, 0 <= n <= 1000 -> lasts 10 (delay_rtc n) 20000000 n).
Proof. intros H. specialize (H 1000 ltac:(lia)). vm_compute in H. apply H. reflexivity. Qed.
Print Assumptions C104_rtc_refuted.
