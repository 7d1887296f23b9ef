(** TimerProofs.v - proofs about TimerModel.v. *)
From Verif Require Import Base TimerModel TimerSpec.

Lemma w32_small x : 0 <= x < 4294967296 -> w32 x = x. Proof. apply Z.mod_small. Qed.
Lemma w16_small x : 0 <= x < 65536 -> w16 x = x. Proof. apply Z.mod_small. Qed.
Lemma quo_pos f hz : 0 < hz <= f -> 1 <= f / hz <= f.
Proof. intros H. split; [apply Z.div_le_lower_bound; lia|apply Z.div_le_upper_bound; nia]. Qed.
Lemma dm x p : 0 < p -> p * (x / p) <= x < p * (x / p) + p.
Proof. intros H. pose proof (Z.div_mod x p ltac:(lia)). pose proof (Z.mod_pos_bound x p H). lia. Qed.

Lemma systick_ok f hz : 0 < hz -> f < 2147483648 -> 2 <= f / hz <= 16777216 -> exact (f / hz) (systick f hz).
Proof.
  intros Hz Hf H. unfold exact, systick, systick_rvr, systick_hw. rewrite w32_small by lia. rewrite Z.mod_small by lia. cbv zeta.
  destruct (Z.eqb_spec (f / hz - 1) 0); [lia|]. f_equal. lia.
Qed.
Lemma full32 f hz : 0 < hz <= f -> f <= 4294967296 -> w32 (f / hz - 1) + 1 = f / hz.
Proof. intros H Hf. pose proof (quo_pos f hz H). rewrite w32_small by lia. lia. Qed.

Lemma rp2040_div_ok fuel p d : 0 < d -> 0 <= p -> d <= p / 65536 + 1 -> p / 65536 + 1 - d <= Z.of_nat fuel -> rp2040_div fuel p d = p / 65536 + 1.
Proof.
  revert d; induction fuel as [|fuel IH]; intros d Hd Hp Hle Hf; cbn [rp2040_div]. { lia. }
  pose proof (dm p 65536 ltac:(lia)) as M. pose proof (dm p d Hd) as N. destruct (Z.ltb_spec 65535 (p / d)) as [L|L].
  - apply IH; try lia. assert (d * 65536 <= p) by nia. assert (d <= p / 65536) by (apply Z.div_le_lower_bound; lia). lia.
  - assert (p < 65536 * d) by nia. assert (p / 65536 < d) by (apply Z.div_lt_upper_bound; lia). lia.
Qed.
Lemma rp2040_ok f hz : 0 < hz <= f -> f < 4294967296 -> f / hz < 255 * 65536 -> between (f / hz - f / hz / 65536) (f / hz) (rp2040_pwm f hz).
Proof.
  intros H Hf Hp. pose proof (quo_pos f hz H) as Q. unfold between, rp2040_pwm. set (p := f / hz) in *. cbv zeta.
  assert (Hd : 0 <= p / 65536 < 255) by (split; [apply Z.div_pos; lia|apply Z.div_lt_upper_bound; lia]).
  rewrite rp2040_div_ok by lia. set (d := p / 65536 + 1) in *. pose proof (dm p d ltac:(lia)) as N. pose proof (dm p 65536 ltac:(lia)) as M.
  assert (B : 1 <= p / d <= 65535). { split; [apply Z.div_le_lower_bound; lia|]. assert (p / d < 65536) by (apply Z.div_lt_upper_bound; lia). lia. }
  unfold rp2040_hw. rewrite (w32_small (d * 16)) by lia. rewrite Z.div_mul by lia. rewrite (w32_small (p / d - 1)) by lia. rewrite (Z.mod_small d) by lia. rewrite (Z.mod_small (p / d - 1)) by lia. cbv zeta.
  destruct (Z.eqb_spec d 0); [lia|]. exists (d * (p / d)). split; [f_equal; lia|]. unfold d in *. lia.
Qed.

Lemma tc0_round o p : 0 < p -> p * (o / p + 1) <= o + p /\ o + 1 <= p * (o / p + 1).
Proof. intros H. pose proof (dm o p H). lia. Qed.
Lemma tc0_ok p o : 0 < p -> 0 <= o < 256 * p -> between (o + 1) (o + p) (tc0_hw p (o / p)).
Proof.
  intros Hp Ho. unfold between, tc0_hw. assert (0 <= o / p < 256) by (split; [apply Z.div_pos; lia|apply Z.div_lt_upper_bound; lia]).
  rewrite Z.mod_small by lia. exists (p * (o / p + 1)). split; [reflexivity|]. pose proof (tc0_round o p Hp). lia.
Qed.
Lemma between_weak lo hi lo' hi' t : between lo hi t -> lo' <= lo -> hi <= hi' -> between lo' hi' t.
Proof. intros (n & E & H) H1 H2. exists n. split; [exact E|lia]. Qed.
Lemma avr_tc0_ok f hz : 0 < hz <= f -> f < 4294967296 -> 257 <= f / hz <= 262144 -> between (f / hz) (f / hz + f / hz / 32) (avr_tc0 f hz).
Proof.
  intros H Hf B. unfold avr_tc0. rewrite w32_small by lia. set (o := f / hz - 1). assert (Hfo : f / hz = o + 1) by (unfold o; lia). rewrite Hfo in *. clearbody o. cbv zeta. pose proof (dm (o + 1) 32 ltac:(lia)) as D.
  destruct (Z.ltb_spec o 262144); [|lia]. cbn [negb]. destruct (Z.ltb_spec o 256); [lia|].
  destruct (Z.ltb_spec o 2048); [|destruct (Z.ltb_spec o 16384); [|destruct (Z.ltb_spec o 65536)]]; cbn [Z.eqb]; eapply between_weak; try (apply tc0_ok; lia); lia.
Qed.
Lemma avr_tc0_off f hz : 0 < hz <= f -> f < 4294967296 -> f / hz <= 256 \/ 262144 < f / hz -> avr_tc0 f hz = Off.
Proof.
  intros H Hf B. pose proof (quo_pos f hz H) as Q. unfold avr_tc0. rewrite w32_small by lia. cbv zeta. destruct (Z.ltb_spec (f / hz - 1) 262144); cbn [negb]; [|reflexivity].
  destruct (Z.ltb_spec (f / hz - 1) 256); [reflexivity|lia].
Qed.
Lemma attiny88_ok f hz : 0 < hz <= f -> f / hz <= 262144 -> between (f / hz) (f / hz + f / hz / 32) (attiny88_tc0 f hz).
Proof.
  intros H B. pose proof (quo_pos f hz H) as Q. unfold attiny88_tc0. set (o := f / hz - 1). assert (Hfo : f / hz = o + 1) by (unfold o; lia). rewrite Hfo in *. clearbody o. cbv zeta. pose proof (dm (o + 1) 32 ltac:(lia)) as D.
  destruct (Z.ltb_spec o 262144); [|lia]. cbn [negb]. destruct (Z.ltb_spec o 256); [|
  destruct (Z.ltb_spec o 2048); [|destruct (Z.ltb_spec o 16384); [|destruct (Z.ltb_spec o 65536)]]]; eapply between_weak; try (apply tc0_ok; lia); lia.
Qed.
Lemma rtc_ok hz : 1 <= hz <= 32768 -> exact (32768 / hz) (avr_rtc hz).
Proof. intros H. pose proof (quo_pos 32768 hz ltac:(lia)). unfold exact, avr_rtc. rewrite w16_small by lia. f_equal. lia. Qed.

Lemma awu_loop_ok fuel tb a0 a : 1 <= tb -> a * 2 ^ (tb - 1) <= a0 < (a + 1) * 2 ^ (tb - 1) -> (tb = 1 \/ 32 <= a) -> 2 <= a < 64 * 2 ^ Z.of_nat fuel ->
  let '(tb', a') := awu_loop fuel tb a in 1 <= tb' <= tb + Z.of_nat fuel /\ a' * 2 ^ (tb' - 1) <= a0 < (a' + 1) * 2 ^ (tb' - 1) /\ (tb' = 1 \/ 32 <= a') /\ 2 <= a' <= 64.
Proof.
  revert tb a; induction fuel as [|fuel IH]; intros tb a Ht Ha Hb Hu; cbn [awu_loop].
  - change (2 ^ Z.of_nat 0) with 1 in Hu. repeat split; try lia; exact Hb.
  - destruct (Z.ltb_spec 64 a) as [L|L]; [|repeat split; try lia; exact Hb].
    pose proof (dm a 2 ltac:(lia)) as D. rewrite Nat2Z.inj_succ, Z.pow_succ_r in Hu by lia.
    specialize (IH (tb + 1) (a / 2)). replace (tb + 1 - 1) with (Z.succ (tb - 1)) in IH by lia. rewrite Z.pow_succ_r in IH by lia.
    assert (0 < 2 ^ (tb - 1)) by (apply Z.pow_pos_nonneg; lia).
    specialize (IH ltac:(lia) ltac:(nia) ltac:(right; lia) ltac:(nia)). destruct (awu_loop fuel (tb + 1) (a / 2)) as [tb' a']. rewrite Nat2Z.inj_succ. intuition lia.
Qed.
Lemma awu_ok hz : 2 <= hz <= 64000 -> between (128000 / hz - 128000 / hz / 32) (128000 / hz) (stm8_awu hz).
Proof.
  intros H. set (p := 128000 / hz). assert (Hp : 2 <= p <= 64000) by (unfold p; split; [apply Z.div_le_lower_bound; lia|apply Z.div_le_upper_bound; lia]).
  unfold stm8_awu. fold p. rewrite w16_small by lia.
  pose proof (awu_loop_ok 10 1 p p ltac:(lia)) as K. change (2 ^ (1 - 1)) with 1 in K. change (2 ^ Z.of_nat 10) with 1024 in K. specialize (K ltac:(lia) ltac:(lia) ltac:(lia)).
  assert (E : forall n tb a, (let '(tb', a') := awu_loop n tb a in a' <= 64) -> awu_loop (n + 6) tb a = awu_loop n tb a).
  { induction n as [|n IH]; intros tb a L; [cbn [awu_loop] in *; cbn [Nat.add awu_loop]; destruct (Z.ltb_spec 64 a); [lia|reflexivity]|].
    cbn [Nat.add awu_loop] in *. destruct (64 <? a); [apply IH; exact L|reflexivity]. }
  change 16%nat with (10 + 6)%nat. rewrite E by (destruct (awu_loop 10 1 p); lia). destruct (awu_loop 10 1 p) as [tb a]. destruct K as (K1 & K2 & K3 & K4).
  assert (Htb : 1 <= tb <= 11) by lia. rewrite (Z.mod_small tb) by lia. rewrite (Z.mod_small (a - 2)) by lia. unfold awu_hw.
  destruct (Z.leb_spec 1 tb); [|lia]. destruct (Z.leb_spec tb 13); [|lia]. cbn [andb]. exists ((a - 2 + 2) * 2 ^ (tb - 1)). split; [reflexivity|]. replace (a - 2 + 2) with a by lia.
  pose proof (dm p 32 ltac:(lia)). destruct K3 as [->|K3]; [change (2 ^ (1 - 1)) with 1 in *; lia|nia].
Qed.
Lemma wkt_one p q : 0 < q -> 0 < p / q <= 256 -> wkt_hw q (256 - p / q) = Every (q * (p / q)).
Proof.
  intros Hq H. unfold wkt_hw. f_equal. f_equal. destruct (Z.eq_dec (p / q) 256) as [->|]; [reflexivity|]. rewrite Z.mod_small by lia. lia.
Qed.
Lemma wkt_ok hz : 1 <= hz <= 10000 -> between (10000 / hz - 10000 / hz / 64) (10000 / hz) (n76e003_wkt hz).
Proof.
  intros H. unfold n76e003_wkt. pose proof (quo_pos 10000 hz ltac:(lia)) as Q. set (p := 10000 / hz) in *. clearbody p. cbv zeta. pose proof (dm p 64 ltac:(lia)) as D.
  destruct (Z.ltb_spec 4095 p).
  { rewrite wkt_one by lia. exists (64 * (p / 64)). split; [reflexivity|lia]. }
  destruct (Z.ltb_spec 1023 p).
  { pose proof (dm p 16 ltac:(lia)). rewrite wkt_one by lia. exists (16 * (p / 16)). split; [reflexivity|lia]. }
  destruct (Z.ltb_spec 255 p).
  { pose proof (dm p 4 ltac:(lia)). rewrite wkt_one by lia. exists (4 * (p / 4)). split; [reflexivity|lia]. }
  exists p. split; [|lia]. rewrite <- (Z.div_1_r p) at 1. rewrite wkt_one by (rewrite ?Z.div_1_r; lia). rewrite Z.div_1_r. f_equal. lia.
Qed.
Lemma mcs51_ok f hz : 0 < hz <= f -> f / hz / 12 < 65536 -> between (f / hz + 1) (f / hz + 12) (mcs51_t2 f hz).
Proof.
  intros H B. pose proof (quo_pos f hz H) as Q. unfold mcs51_t2, t2_hw. set (p := f / hz) in *. pose proof (dm p 12 ltac:(lia)). assert (0 <= p / 12) by (apply Z.div_pos; lia).
  rewrite w16_small by lia. rewrite Z.mod_small by lia. exists (12 * (65536 - (65535 - p / 12))). split; [reflexivity|lia].
Qed.
Lemma t2_one q x : 0 < x <= 65536 -> t2_hw q (w16 (65535 - w16 x + 1)) = Every (q * x).
Proof.
  intros H. unfold t2_hw, w16. f_equal. destruct (Z.eq_dec x 65536) as [->|]; [reflexivity|].
  rewrite (Z.mod_small x) by lia. rewrite (Z.mod_small (65535 - x + 1)) by lia. rewrite Z.mod_small by lia. lia.
Qed.
Lemma cy7c_ok f hz : 0 < hz <= f -> 4 <= f / hz -> f / hz / 12 <= 65536 -> between (f / hz - 11) (f / hz) (cy7c_t2 f hz).
Proof.
  intros H L B. unfold cy7c_t2. set (p := f / hz) in *. clearbody p. cbv zeta. destruct (Z.ltb_spec 65535 p).
  - pose proof (dm p 12 ltac:(lia)). rewrite t2_one by lia. eexists. split; [reflexivity|lia].
  - pose proof (dm p 4 ltac:(lia)). rewrite t2_one by lia. eexists. split; [reflexivity|lia].
Qed.
Lemma stc12_ok f hz l : 8 <= f / hz / 12 <= 65536 -> stc12_t0 f hz l = Every (12 * (f / hz / 12) + 12 * (l - 7)).
Proof.
  intros B. unfold stc12_t0, w16. rewrite w32_small by lia. set (x := f / hz / 12) in *. clearbody x. cbv zeta.
  replace (4294967295 - (x - 8)) with (65543 - x + 65535 * 65536) by lia. rewrite Z.mod_add by lia.
  f_equal. destruct (Z_lt_le_dec (65543 - x) 65536); [rewrite Z.mod_small by lia; lia|lia].
Qed.
Lemma dec_ok z f hz : 0 < hz <= f -> f < 4294967296 -> between (f / hz - 1) (f / hz) (e200_dec z f hz).
Proof. intros H Hf. pose proof (quo_pos f hz H). unfold e200_dec. rewrite w32_small by lia. eexists. split; [reflexivity|]. destruct z; lia. Qed.
Lemma mtim_loop_ok fuel m0 ps m : 0 <= ps -> 1 <= m -> m * 2 ^ ps <= m0 < (m + 1) * 2 ^ ps -> (ps = 0 \/ 128 <= m) -> m < 256 * 2 ^ (Z.of_nat fuel - 1) -> (0 < fuel)%nat ->
  between (m0 + 1) (m0 + 1 + m0 / 128) (mtim_loop fuel ps m).
Proof.
  revert ps m; induction fuel as [|fuel IH]; intros ps m Hp Hm Hb Hs Hf Hpos; [lia|]. cbn [mtim_loop].
  assert (P2 : 0 < 2 ^ ps) by (apply Z.pow_pos_nonneg; lia). destruct (Z.leb_spec m 255) as [L|L].
  - exists (2 ^ ps * (m + 1)). split; [reflexivity|]. pose proof (dm m0 128 ltac:(lia)). destruct Hs as [->|Hs]; [change (2 ^ 0) with 1 in *; assert (0 <= m0 / 128) by (apply Z.div_pos; lia); lia|nia].
  - destruct fuel as [|fuel].
    { change (2 ^ (Z.of_nat 1 - 1)) with 1 in Hf. lia. }
    pose proof (dm m 2 ltac:(lia)) as D. apply IH; try lia.
    + rewrite Z.pow_add_r by lia. change (2 ^ 1) with 2. nia.
    + replace (Z.of_nat (S (S fuel)) - 1) with (Z.succ (Z.of_nat (S fuel) - 1)) in Hf by lia. rewrite Z.pow_succ_r in Hf by lia. lia.
Qed.
Lemma mtim_ok f hz : 0 < hz <= f -> f / hz + 1 < 65536 -> between (f / hz + 2) (f / hz + 2 + (f / hz + 1) / 128) (hcs08_mtim f hz).
Proof.
  intros H B. pose proof (quo_pos f hz H) as Q. unfold hcs08_mtim. rewrite w32_small by lia.
  eapply between_weak; [apply (mtim_loop_ok 9 (f / hz + 1) 0 (f / hz + 1)); try lia|lia|lia]; change (2 ^ 0) with 1; try lia.
Qed.
Lemma mtim_loop_off fuel ps m : 256 * 2 ^ (Z.of_nat fuel - 1) <= m -> (0 < fuel)%nat -> mtim_loop fuel ps m = Off.
Proof.
  revert ps m; induction fuel as [|fuel IH]; intros ps m Hf Hpos; [lia|]. cbn [mtim_loop].
  destruct fuel as [|fuel].
  { change (2 ^ (Z.of_nat 1 - 1)) with 1 in Hf. destruct (Z.leb_spec m 255); [lia|reflexivity]. }
  replace (Z.of_nat (S (S fuel)) - 1) with (Z.succ (Z.of_nat (S fuel) - 1)) in Hf by lia. rewrite Z.pow_succ_r in Hf by lia.
  assert (1 <= 2 ^ (Z.of_nat (S fuel) - 1)) by (apply Z.lt_pred_le; apply Z.pow_pos_nonneg; lia).
  destruct (Z.leb_spec m 255); [lia|]. apply IH; [|lia]. apply Z.div_le_lower_bound; lia.
Qed.
Lemma mtim_off f hz : 0 < hz <= f -> f < 4294967295 -> 65536 <= f / hz + 1 -> hcs08_mtim f hz = Off.
Proof. intros H Hf B. pose proof (quo_pos f hz H). unfold hcs08_mtim. rewrite w32_small by lia. apply mtim_loop_off; [|lia]. change (2 ^ (Z.of_nat 9 - 1)) with 256. lia. Qed.
Lemma hcs08_rtc_ok f hz : 0 < hz <= f -> f / hz + 1 < 65536 -> exact (f / hz + 2) (hcs08_rtc f hz).
Proof. intros H B. pose proof (quo_pos f hz H). unfold exact, hcs08_rtc. rewrite w16_small by lia. f_equal. lia. Qed.

(** ** Compare timers *)
Lemma match_exact now cmp t : now <= t < now + 4294967296 -> w32 t = cmp -> match_after now cmp = t.
Proof.
  intros H <-. unfold match_after, w32. rewrite Zminus_mod_idemp_l. rewrite Z.mod_small by lia. lia.
Qed.
Lemma cmp_ticks_ok period t lats : 0 < period < 4294967296 -> Forall (fun l => 0 <= l < period) lats ->
  cmp_ticks period (w32 t) t lats = t :: regular t period (length lats).
Proof.
  intros Hp. revert t; induction lats as [|l lats IH]; intros t F; cbn [cmp_ticks]; [reflexivity|].
  apply Forall_cons in F as [Hl F]. f_equal. assert (E : cmp_next period (w32 t) = w32 (t + period)) by (unfold cmp_next, w32; rewrite Zplus_mod_idemp_l; reflexivity).
  rewrite E. rewrite (match_exact _ _ (t + period)) by (try reflexivity; lia). rewrite IH by exact F.
  cbn [length]. unfold regular. cbn [seq map]. rewrite <- seq_shift, map_map. f_equal; [cbn; lia|]. apply map_ext. intros i. lia.
Qed.
Lemma cmp_start_ok period now lats : 0 < period < 4294967296 -> Forall (fun l => 0 <= l < period) lats ->
  cmp_start period now lats = regular now period (S (length lats)).
Proof.
  intros Hp F. unfold cmp_start. assert (E : w32 (w32 now + period) = w32 (now + period)) by (unfold w32; rewrite Zplus_mod_idemp_l; reflexivity). cbv zeta. rewrite E.
  rewrite (match_exact _ _ (now + period)) by (try reflexivity; lia). rewrite cmp_ticks_ok by assumption.
  unfold regular. cbn [seq map]. rewrite <- seq_shift, map_map. f_equal; [cbn; lia|]. apply map_ext. intros i. lia.
Qed.
Lemma cmp_late period now l : 0 < period < 4294967296 -> period <= l < 4294967296 ->
  cmp_start period now [l] = [now + period; now + 2 * period + 4294967296].
Proof.
  intros Hp Hl. unfold cmp_start. assert (E : w32 (w32 now + period) = w32 (now + period)) by (unfold w32; rewrite Zplus_mod_idemp_l; reflexivity). cbv zeta. rewrite E.
  rewrite (match_exact _ _ (now + period)) by (try reflexivity; lia). cbn [cmp_ticks]. f_equal. f_equal.
  apply match_exact; [lia|]. unfold cmp_next, w32. rewrite Zplus_mod_idemp_l. replace (now + 2 * period + 4294967296) with (now + period + period + 1 * 4294967296) by lia. apply Z.mod_add. lia.
Qed.

(** ** rv32imac *)
Lemma incr_lo p lo hi : fst (increase_mtimecmp p lo hi) = w32 (p + lo). Proof. reflexivity. Qed.
Lemma incr_ok p lo hi : 0 < p < 4294967296 -> 0 < lo < 4294967296 -> 0 <= hi < 4294967295 ->
  cat64 (increase_mtimecmp p lo hi) = cat64 (lo, hi) + p /\ 0 <= fst (increase_mtimecmp p lo hi) < 4294967296 /\ hi <= snd (increase_mtimecmp p lo hi) <= hi + 1.
Proof.
  intros Hp Hl Hh. unfold increase_mtimecmp, cat64, w32. cbv zeta. cbn [fst snd]. destruct (Z_lt_le_dec (p + lo) 4294967296) as [C|C].
  - rewrite (Z.mod_small (p + lo)) by lia. destruct (Z.ltb_spec p (p + lo)); [|lia]. lia.
  - assert (E : (p + lo) mod 4294967296 = p + lo - 4294967296) by (symmetry; apply Z.mod_unique with 1; lia). rewrite E. destruct (Z.ltb_spec p (p + lo - 4294967296)); [lia|]. rewrite Z.mod_small by lia. lia.
Qed.
Lemma incr_zero p hi : 0 < p < 4294967296 -> 0 <= hi < 4294967295 -> cat64 (increase_mtimecmp p 0 hi) = cat64 (0, hi) + p + 4294967296.
Proof. intros Hp Hh. unfold increase_mtimecmp, cat64, w32. cbv zeta. cbn [fst snd]. rewrite Z.add_0_r. rewrite (Z.mod_small p) by lia. rewrite Z.ltb_irrefl. rewrite Z.mod_small by lia. lia. Qed.
Lemma rv32_ok p lats : 0 < p < 4294967296 -> forall lo hi free, 0 <= lo < 4294967296 -> 0 <= hi -> cat64 (lo, hi) + p * Z.of_nat (length lats) < 2 ^ 64 - 2 ^ 32 ->
  (forall k : nat, (k < length lats)%nat -> (cat64 (lo, hi) + p * Z.of_nat k) mod 4294967296 <> 0) ->
  map fst (rv32_ticks p (lo, hi) free lats) = map (fun k => cat64 (lo, hi) + p * Z.of_nat k) (seq 0 (length lats)).
Proof.
  intros Hp. induction lats as [|l lats IH]; intros lo hi free Hl Hh Hm Hz; [reflexivity|]. cbn [rv32_ticks map length seq fst snd].
  assert (L0 : lo <> 0). { intros ->. apply (Hz 0%nat); [cbn; lia|]. unfold cat64. cbn [fst snd]. replace (0 + 4294967296 * hi + p * Z.of_nat 0) with (hi * 4294967296) by lia. apply Z.mod_mul. lia. }
  assert (Hh2 : hi < 4294967295) by (unfold cat64 in Hm; cbn [fst snd length] in Hm; change (2 ^ 64 - 2 ^ 32) with (4294967295 * 4294967296) in Hm; nia).
  destruct (incr_ok p lo hi Hp ltac:(lia) ltac:(lia)) as (E & B1 & B2). f_equal; [lia|].
  destruct (increase_mtimecmp p lo hi) as [lo' hi']. cbn [fst snd] in B1, B2. rewrite IH; [|lia|lia| |].
  - rewrite <- seq_shift, map_map. apply map_ext. intros k. rewrite E. lia.
  - rewrite E. cbn [length] in Hm. lia.
  - intros k Hk. rewrite E. specialize (Hz (S k) ltac:(cbn; lia)). intros C. apply Hz. rewrite <- C. f_equal. lia.
Qed.
(** A tick is never taken before it is due, nor before the one before. *)
Lemma rv32_times p lats : forall cmp free, Forall (fun l => 0 <= l) lats -> Forall (fun x => fst x <= snd x /\ free <= snd x) (rv32_ticks p cmp free lats).
Proof.
  induction lats as [|l lats IH]; intros cmp free F; cbn [rv32_ticks]; [constructor|]. apply Forall_cons in F as [Hl F]. constructor; [cbn [fst snd]; lia|].
  eapply Forall_impl; [apply IH; exact F|]. intros x [H1 H2]. lia.
Qed.
Lemma iter_lo p k lo hi : 0 <= lo < 4294967296 -> fst (Nat.iter k (step_cmp p) (lo, hi)) = w32 (lo + p * Z.of_nat k).
Proof.
  intros H. induction k as [|k IH]; [cbn; rewrite Z.mul_0_r, Z.add_0_r; symmetry; apply w32_small; exact H|].
  change (fst (Nat.iter (S k) (step_cmp p) (lo, hi))) with (w32 (p + fst (Nat.iter k (step_cmp p) (lo, hi)))). rewrite IH. unfold w32. rewrite Zplus_mod_idemp_r. f_equal. lia.
Qed.
Lemma hits_zero p lo : 0 < p -> 0 <= lo < 4294967296 -> (Z.gcd p 4294967296 | lo) -> exists k, 0 <= k < 4294967296 /\ w32 (lo + p * k) = 0.
Proof.
  intros Hp Hl (c & Hc). destruct (Z.gcd_bezout p 4294967296 (Z.gcd p 4294967296) eq_refl) as (a & b & B).
  exists ((- c * a) mod 4294967296). split; [apply Z.mod_pos_bound; lia|]. unfold w32. rewrite <- Zplus_mod_idemp_r, Zmult_mod_idemp_r, Zplus_mod_idemp_r.
  replace (lo + p * (- c * a)) with (c * b * 4294967296) by (rewrite Hc, <- B; ring). apply Z.mod_mul. lia.
Qed.
Lemma rv32_stops p lo hi : 0 < p < 4294967296 -> 0 <= lo < 4294967296 -> (Z.gcd p 4294967296 | lo) ->
  exists k : nat, Z.of_nat k < 4294967296 /\ fst (Nat.iter k (step_cmp p) (lo, hi)) = 0.
Proof.
  intros Hp Hl D. destruct (hits_zero p lo ltac:(lia) Hl D) as (k & Hk & E). exists (Z.to_nat k). rewrite Z2Nat.id by lia. split; [lia|]. rewrite iter_lo by lia. rewrite Z2Nat.id by lia. exact E.
Qed.

(** ** Serving *)
Lemma served_ok n : 0 < n -> forall ds now, Forall (fun d => 0 <= d <= n) ds -> served n now ds = (now + zsum ds) / n - now / n.
Proof.
  intros Hn. induction ds as [|d ds IH]; intros now F; cbn [served zsum fold_right]; [rewrite Z.add_0_r; lia|]. apply Forall_cons in F as [Hd F].
  rewrite IH by exact F. replace (now + (d + fold_right Z.add 0 ds)) with (now + d + zsum ds) by (unfold zsum; lia).
  pose proof (dm now n Hn) as A. pose proof (dm (now + d) n Hn) as B. destruct (Z.ltb_spec (now / n) ((now + d) / n)).
  - assert ((now + d) / n <= now / n + 1); [|lia]. apply Z.lt_succ_r. apply Z.div_lt_upper_bound; [lia|]. nia.
  - assert (now / n <= (now + d) / n) by (apply Z.div_le_mono; lia). lia.
Qed.

(** ** Delays *)
Lemma delay_ok f n c : 2 <= c -> 1000000 <= f -> 0 <= n -> n * (f / 1000000) < 4294967296 -> lasts c (delay_iters f n) f n.
Proof.
  intros Hc Hf Hn Hw. unfold lasts, delay_iters. pose proof (dm f 1000000 ltac:(lia)) as D. assert (1 <= f / 1000000) by (apply Z.div_le_lower_bound; lia). rewrite w32_small by nia.
  set (q := f / 1000000) in *. assert (n * f <= n * (2 * q * 1000000)) by (apply Z.mul_le_mono_nonneg_l; lia). nia.
Qed.
Lemma delay_div k f n c : 0 < k -> 4 * k <= c -> 1000000 <= f -> 0 <= n -> k <= n * (f / 1000000) < 4294967296 -> lasts c (w32 (n * (f / 1000000)) / k) f n.
Proof.
  intros Hk Hc Hf Hn Hw. pose proof (delay_ok f n 2 ltac:(lia) Hf Hn ltac:(lia)) as L. unfold lasts, delay_iters in *. rewrite w32_small in * by lia. set (x := n * (f / 1000000)) in *.
  pose proof (dm x k Hk) as D. assert (1 <= x / k) by (apply Z.div_le_lower_bound; lia). assert (x <= 2 * (k * (x / k))) by nia. nia.
Qed.
Lemma delay_gd32 f n c : 4 <= c -> f mod 1000000 = 0 -> 0 <= f -> 0 <= n -> n * (f / 1000000) < 4294967296 -> lasts c (delay_iters f n) (4 * f) n.
Proof.
  intros Hc Hm Hf Hn Hw. unfold lasts, delay_iters. pose proof (Z.div_mod f 1000000 ltac:(lia)) as D. rewrite Hm in D. assert (0 <= f / 1000000) by (apply Z.div_pos; lia). rewrite w32_small by nia.
  set (q := f / 1000000) in *. nia.
Qed.
