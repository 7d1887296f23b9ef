(** WdProofs.v - proofs about the watchdog drivers. *)
From Verif Require Import Base WdModel WdSpec.

Lemma field_arith : forall x lo n, 0 <= lo -> 0 <= n -> field x lo n = (x / 2 ^ lo) mod 2 ^ n.
Proof. intros. unfold field. rewrite Z.shiftr_div_pow2 by lia. apply Z.land_ones. lia. Qed.
Lemma field_bound : forall x lo n, 0 <= n -> 0 <= field x lo n < 2 ^ n.
Proof. intros. unfold field. rewrite Z.land_ones by lia. apply Z.mod_pos_bound. lia. Qed.
Lemma field_id : forall x n, 0 <= n -> 0 <= x < 2 ^ n -> field x 0 n = x.
Proof. intros. rewrite field_arith by lia. rewrite Z.pow_0_r, Z.div_1_r. apply Z.mod_small. lia. Qed.
Lemma field_lor : forall a b lo n, field (Z.lor a b) lo n = Z.lor (field a lo n) (field b lo n).
Proof. intros. unfold field. rewrite Z.shiftr_lor, Z.land_lor_distr_l. reflexivity. Qed.
Lemma field_lnot : forall a b lo n, 0 <= lo -> 0 <= n -> field (Z.land a (Z.lnot b)) lo n = Z.land (field a lo n) (Z.lnot (field b lo n)).
Proof.
  intros. unfold field. apply Z.bits_inj'. intros i Hi. rewrite !Z.land_spec, !Z.shiftr_spec by lia.
  rewrite !Z.land_spec, !Z.lnot_spec, !Z.land_spec, !Z.shiftr_spec by lia.
  destruct (Z.testbit a (i + lo)), (Z.testbit b (i + lo)), (Z.testbit (Z.ones n) i); reflexivity.
Qed.
Lemma field_clear : forall a lo n, 0 <= n -> Z.land (field a lo n) (Z.lnot (Z.ones n)) = 0.
Proof.
  intros. rewrite <- Z.ldiff_land, Z.ldiff_ones_r by lia. pose proof (field_bound a lo n ltac:(lia)) as B.
  rewrite Z.shiftr_div_pow2 by lia. rewrite Z.div_small by lia. apply Z.shiftl_0_l.
Qed.
Lemma bit_land_lnot : forall a b i, 0 <= i -> Z.testbit (Z.land a (Z.lnot b)) i = Z.testbit a i && negb (Z.testbit b i).
Proof. intros. rewrite Z.land_spec, Z.lnot_spec by lia. reflexivity. Qed.

(** * Atmel *)
Lemma atmel_wdv_ok : forall f t v, 0 < f -> atmel_wdv f t = WdvOk v -> 1 <= v <= 4095 /\ 1000 / (f / 128) <> 0.
Proof.
  intros f t v Hf E. unfold atmel_wdv in E. cbv zeta in E. destruct (_ <=? _) eqn:?; [discriminate|]. destruct (_ =? _) eqn:?; [discriminate|].
  destruct (u32 _ =? 0) eqn:C0; [discriminate|]. destruct (4095 <? _) eqn:C1; [discriminate|]. injection E as <-.
  apply Z.eqb_neq in C0. apply Z.ltb_ge in C1. apply Z.eqb_neq in Heqb0. split; [|exact Heqb0].
  pose proof (Z.mod_pos_bound (t / (1000 / (f / 128))) 4294967296 ltac:(lia)). unfold u32 in *. lia.
Qed.
Lemma atmel_wdv_val : forall f t v, 0 < f -> 0 <= t < 2 ^ 32 -> atmel_wdv f t = WdvOk v -> v = t / (1000 / (f / 128)) /\ 0 < f / 128.
Proof.
  intros f t v Hf Ht E. pose proof (atmel_wdv_ok _ _ _ Hf E) as [Hv Hn]. unfold atmel_wdv in E. cbv zeta in E.
  destruct (_ <=? _) eqn:C; [discriminate|]. apply Z.leb_gt in C. destruct (1000 / (f / 128) =? 0); [discriminate|]. destruct (u32 _ =? 0) eqn:C0; [discriminate|].
  destruct (4095 <? _) eqn:C1; [discriminate|]. injection E as <-. split; [|exact C]. unfold u32. apply Z.mod_small.
  pose proof (Z.div_pos 1000 (f / 128) ltac:(lia) C). pose proof (Z.div_pos t (1000 / (f / 128)) ltac:(lia) ltac:(lia)).
  pose proof (Z.div_le_upper_bound t (1000 / (f / 128)) t ltac:(lia) ltac:(nia)). lia.
Qed.
Definition atmel_mr (m wdv : Z) : Z := Z.lor (Z.land m (Z.lnot (536870912 + 4095 * 65536 + 4095))) (wdv * 65536 + wdv).
Lemma atmel_mr_fields : forall m v, 1 <= v <= 4095 ->
  field (atmel_mr m v) 0 12 = v /\ field (atmel_mr m v) 16 12 = v /\
  Z.testbit (atmel_mr m v) 13 = Z.testbit m 13 /\ Z.testbit (atmel_mr m v) 15 = Z.testbit m 15.
Proof.
  intros m v Hv. unfold atmel_mr. change (536870912 + 4095 * 65536 + 4095) with 805244927 at 1 2 3 4. rewrite !field_lor, !field_lnot by lia.
  change (field 805244927 0 12) with (Z.ones 12). change (field 805244927 16 12) with (Z.ones 12). rewrite !field_clear by lia. rewrite !Z.lor_0_l.
  rewrite !field_arith by lia. change (2 ^ 0) with 1. change (2 ^ 12) with 4096. change (2 ^ 16) with 65536. rewrite Z.div_1_r.
  split; [replace (v * 65536 + v) with (v + v * 16 * 4096) by lia; rewrite Z.mod_add by lia; apply Z.mod_small; lia|].
  split; [replace (v * 65536 + v) with (v + v * 65536) by lia; rewrite Z.div_add, (Z.div_small v 65536) by lia; apply Z.mod_small; lia|].
  assert (B : forall i, 12 <= i < 16 -> Z.testbit (v * 65536 + v) i = false).
  { intros i Hi. replace (v * 65536 + v) with (v + v * 2 ^ 16) by lia. 
    rewrite Z.testbit_odd, Z.shiftr_div_pow2 by lia. replace 16 with (i + (16 - i)) by lia. rewrite Z.pow_add_r, Z.mul_assoc by lia.
    replace (v * 2 ^ i * 2 ^ (16 - i)) with (v * 2 ^ (16 - i) * 2 ^ i) by lia. rewrite Z.div_add by (apply Z.pow_nonzero; lia).
    rewrite Z.div_small by (split; [lia|]; pose proof (Z.pow_le_mono_r 2 12 i); lia). rewrite Z.add_0_l. replace (16 - i) with (Z.succ (15 - i)) by lia.
    rewrite Z.pow_succ_r by lia. rewrite Z.odd_mul, Z.odd_mul. cbn [Z.odd]. rewrite andb_false_r. reflexivity. }
  rewrite !Z.lor_spec, !bit_land_lnot by lia. rewrite !B by lia. rewrite !orb_false_r. change (Z.testbit 805244927 13) with false.
  change (Z.testbit 805244927 15) with false. cbn [negb]. rewrite !andb_true_r. split; reflexivity.
Qed.

Lemma atmel_start_ok : forall f st s s1 s2, 0 < f -> set_ok st -> ready Atmel f st s -> suits Atmel f st ->
  atmel_setup f st s = WOk s1 -> wd_start Atmel false s1 = WOk s2 ->
  running Atmel s2 = true /\ timeout_ok Atmel f st s2 /\ closed_ok Atmel f st s2.
Proof.
  intros f st s s1 s2 Hf [Ht _] (Hk & H13 & H15) (Hd1 & Hd2) E1 E2. unfold atmel_setup in E1. destruct (atmel_wdv f (ws_t st)) as [v| |] eqn:Ev; try discriminate.
  pose proof (atmel_wdv_ok _ _ _ Hf Ev) as [Hv _]. pose proof (atmel_wdv_val _ _ _ Hf Ht Ev) as [Vv Hq].
  injection E1 as <-. fold (atmel_mr (w_mode s) v) in E2. unfold hw_mr in E2. rewrite Hk, andb_false_r in E2.
  destruct (atmel_mr_fields (w_mode s) v Hv) as (F0 & F16 & B13 & B15). set (m := atmel_mr (w_mode s) v) in *.
  unfold wd_start in E2. injection E2 as <-. unfold hw_mr. cbn [w_once w_key w_mode set_key set_mode].
  assert (T : Z.abs (1000 * (128 * v) - f * ws_t st) <= 1000 * 128).
  { destruct Hd1 as [q Hq1]. subst f. rewrite Z.div_mul in * by lia. destruct Hd2 as [r Hr]. rewrite Hr, Z.div_mul in Vv by lia.
    assert (Hr0 : 0 < r) by nia. pose proof (Z.div_mod (ws_t st) r ltac:(lia)). pose proof (Z.mod_pos_bound (ws_t st) r Hr0). rewrite Vv. set (k := ws_t st / r) in *.
    set (z := ws_t st mod r) in *. replace (1000 * (128 * k) - q * 128 * ws_t st) with (- (128 * (q * z))) by nia.
    rewrite Z.abs_opp, Z.abs_eq by nia. assert (q * z <= q * r) by nia. lia. }
  destruct (w_once s && true).
  - cbn [running timeout_ok closed_ok limit closed set_key set_mode w_mode]. rewrite F0, F16, B13, B15, H13, H15.
    split; [reflexivity|]. split; [exact T|]. rewrite Z.sub_diag. reflexivity.
  - assert (G : forall lo n, (lo = 0 \/ lo = 16) -> n = 12 -> field (Z.land m (Z.lnot 32768)) lo n = field m lo n).
    { intros lo n [-> | ->] ->; rewrite field_lnot by lia.
      - change (field 32768 0 12) with 0. apply Z.land_m1_r.
      - change (field 32768 16 12) with 0. apply Z.land_m1_r. }
    cbn [running timeout_ok closed_ok limit closed set_key set_mode w_mode]. rewrite !G by auto. rewrite !bit_land_lnot by lia. rewrite F0, F16, B13, B15, H13, H15.
    split; [reflexivity|]. split; [exact T|]. rewrite Z.sub_diag. reflexivity.
Qed.

(** * AVR *)
Lemma avr_start_ok : forall f st s s1 s2, set_ok st -> avr_setup st s = WOk s1 -> wd_start Avr false s1 = WOk s2 ->
  running Avr s2 = true /\ timeout_ok Avr f st s2 /\ closed_ok Avr f st s2.
Proof.
  intros f st s s1 s2 [Ht _] E1 E2. unfold avr_setup in E1. destruct (ws_t st <? 10) eqn:C; [|discriminate]. apply Z.ltb_lt in C. injection E1 as <-.
  unfold wd_start, avr_start, avr_write in E2. cbn [w_ctx set_ctx] in E2.
  assert (H : ws_t st = 0 \/ ws_t st = 1 \/ ws_t st = 2 \/ ws_t st = 3 \/ ws_t st = 4 \/ ws_t st = 5 \/ ws_t st = 6 \/ ws_t st = 7 \/ ws_t st = 8 \/ ws_t st = 9) by lia.
  injection E2 as <-. unfold hw_refresh, closed, hw_wdtcsr.
  destruct (running Avr (set_ctx s (ws_t st)) && _);
  (repeat destruct H as [H|H]; rewrite H; unfold timeout_ok, limit, running; rewrite H; cbn [Z.testbit Z.odd Pos.testbit andb w_key set_key w_mode set_mode];
   destruct (w_wdrf _); (split; [reflexivity|]; split; reflexivity)).
Qed.

(** * GD32 *)
Lemma fwdgt_loop_ok : forall k nclk p s s1, 2 <= p -> p + Z.of_nat k = 9 -> 0 <= nclk -> (p = 2 \/ 4095 < nclk / 2 ^ (p - 1)) ->
  fwdgt_loop k nclk p s = WOk s1 ->
  exists q, 2 <= q <= 8 /\ w_cfg s1 = q - 2 /\ w_load s1 = nclk / 2 ^ q /\ nclk / 2 ^ q <= 4095 /\ (q = 2 \/ 4095 < nclk / 2 ^ (q - 1)).
Proof.
  induction k as [|k IH]; intros nclk p s s1 Hp Hk Hn Hprev E; [discriminate|]. cbn [fwdgt_loop] in E. cbv zeta in E.
  destruct (nclk / 2 ^ p <=? 4095) eqn:C.
  - apply Z.leb_le in C. injection E as <-. exists p. split; [lia|].
    cbn [w_cfg w_load hw_load hw_cfg hw_kr set_key set_cfg set_load w_key Z.eqb Pos.eqb]. cbn.
    split; [apply field_id; lia|]. split; [apply field_id; [lia|]; split; [apply Z.div_pos; lia|lia]|]. split; assumption.
  - apply Z.leb_gt in C. apply (IH nclk (p + 1) s s1); try lia; [|exact E]. right. replace (p + 1 - 1) with p by lia. exact C.
Qed.
Lemma fwdgt_start_ok : forall f st irq s s1 s2, 0 < f -> set_ok st -> suits Fwdgt f st -> fwdgt_setup f st s = WOk s1 -> wd_start Fwdgt irq s1 = WOk s2 ->
  running Fwdgt s2 = true /\ timeout_ok Fwdgt f st s2 /\ closed_ok Fwdgt f st s2 /\ fine 1000000 f st s2.
Proof.
  intros f st irq s s1 s2 Hf [Ht _] Hs E1 E2. unfold fwdgt_setup in E1. cbn [suits] in Hs. unfold u32 in E1. rewrite Z.mod_small in E1 by nia.
  assert (Hn : 0 <= f * ws_t st / 1000000) by (apply Z.div_pos; nia).
  destruct (fwdgt_loop_ok 7 _ 2 s s1 ltac:(lia) ltac:(lia) Hn (or_introl eq_refl) E1) as (q & Hq & Ec & El & _ & Hprev).
  unfold wd_start in E2. injection E2 as <-. unfold running, timeout_ok, closed_ok, fine, limit, hw_kr. cbn [Z.eqb Pos.eqb w_on set_on set_key w_cfg w_load closed].
  rewrite Ec, El. replace (q - 2 + 2) with q by lia. set (n := f * ws_t st / 1000000) in *.
  assert (Hp : 0 < 2 ^ q) by (apply Z.pow_pos_nonneg; lia).
  pose proof (Z.div_mod (f * ws_t st) 1000000 ltac:(lia)) as D1. pose proof (Z.mod_pos_bound (f * ws_t st) 1000000 ltac:(lia)) as D2. fold n in D1.
  pose proof (Z.div_mod n (2 ^ q) ltac:(lia)) as D3. pose proof (Z.mod_pos_bound n (2 ^ q) Hp) as D4.
  split; [reflexivity|]. split; [nia|]. split; [reflexivity|].
  destruct Hprev as [-> | Hprev]; [left; reflexivity|right].
  replace (2 ^ q) with (2 * 2 ^ (q - 1)) by (rewrite <- Z.pow_succ_r by lia; f_equal; lia).
  assert (Hp1 : 0 < 2 ^ (q - 1)) by (apply Z.pow_pos_nonneg; lia).
  assert (4096 * 2 ^ (q - 1) <= n). { pose proof (Z.mul_div_le n (2 ^ (q - 1)) Hp1). assert (2 ^ (q - 1) * 4096 <= 2 ^ (q - 1) * (n / 2 ^ (q - 1))) by (apply Z.mul_le_mono_nonneg_l; lia). lia. }
  nia.
Qed.
(** 32 bits of clocks times microseconds are at most 4294 clocks of 1 MHz: the request never reaches further. *)
Lemma fwdgt_short : forall f st s s1, 0 < f -> fwdgt_setup f st s = WOk s1 -> limit Fwdgt s1 <= 4304.
Proof.
  intros f st s s1 Hf E1. unfold fwdgt_setup in E1.
  pose proof (Z.mod_pos_bound (f * ws_t st) 4294967296 ltac:(lia)) as B. fold (u32 (f * ws_t st)) in B.
  assert (Hn : 0 <= u32 (f * ws_t st) / 1000000 < 4295) by (split; [apply Z.div_pos; lia|apply Z.div_lt_upper_bound; lia]).
  destruct (fwdgt_loop_ok 7 _ 2 s s1 ltac:(lia) ltac:(lia) (proj1 Hn) (or_introl eq_refl) E1) as (q & Hq & Ec & El & _ & Hprev).
  set (n := u32 (f * ws_t st) / 1000000) in *. unfold limit. rewrite Ec, El. replace (q - 2 + 2) with q by lia.
  assert (q = 2). { destruct Hprev as [->|Hp]; [reflexivity|]. exfalso. assert (n / 2 ^ (q - 1) <= n / 2); [|].
    - pose proof (Z.pow_le_mono_r 2 1 (q - 1) ltac:(lia) ltac:(lia)) as M. change (2 ^ 1) with 2 in M. apply Z.div_le_compat_l; lia.
    - assert (n / 2 < 4095) by (apply Z.div_lt_upper_bound; lia). lia. }
  subst q. change (2 ^ 2) with 4. pose proof (Z.mul_div_le n 4 ltac:(lia)). lia.
Qed.
Lemma fwdgt_never_refuses : forall f st s, 0 < f -> exists s1, fwdgt_setup f st s = WOk s1.
Proof.
  intros f st s Hf. unfold fwdgt_setup. pose proof (Z.mod_pos_bound (f * ws_t st) 4294967296 ltac:(lia)) as B. fold (u32 (f * ws_t st)) in B.
  assert (Hn : 0 <= u32 (f * ws_t st) / 1000000 < 4295) by (split; [apply Z.div_pos; lia|apply Z.div_lt_upper_bound; lia]).
  set (n := u32 (f * ws_t st) / 1000000) in *. unfold fwdgt_loop; cbv zeta. change (2 ^ 2) with 4. assert (n / 4 <= 4095) by (apply Z.lt_le_incl; apply Z.div_lt_upper_bound; lia).
  replace (n / 4 <=? 4095) with true by (symmetry; apply Z.leb_le; assumption). eexists. reflexivity.
Qed.

(** * PIC32 *)
Lemma pic32_start_ok : forall f st irq s s1 s2, set_ok st -> ready Pic32 f st s -> suits Pic32 f st -> pic32_setup st s = WOk s1 -> wd_start Pic32 irq s1 = WOk s2 ->
  running Pic32 s2 = true /\ timeout_ok Pic32 f st s2 /\ closed_ok Pic32 f st s2.
Proof.
  intros f st irq s s1 s2 [Ht _] [Hm H12] Hs E1 E2. cbn [suits] in Hs. unfold pic32_setup in E1. destruct (ws_t st <? 21); [|discriminate]. cbn [negb] in E1. cbv zeta in E1.
  injection E1 as <-. unfold wd_start in E2. injection E2 as <-.
  assert (K : forall s0, w_mode (hw_wdtcon_set s0 32768) = Z.lor (w_mode s0) 32768) by reflexivity.
  assert (K1 : forall s0, w_mode (hw_wdtcon_set s0 1) = Z.lor (w_mode s0) 1) by reflexivity.
  assert (Hf0 : field (ws_t st) 0 4 = ws_t st) by (apply field_id; lia).
  assert (K2 : w_mode (hw_wdtcon_set (hw_wdtcon_clr s 3840) (Z.shiftl (field (ws_t st) 0 4) 8)) = Z.lor (Z.land (w_mode s) (Z.lnot 3840)) (Z.shiftl (ws_t st) 8)).
  { rewrite Hf0. unfold hw_wdtcon_set. cbv zeta. assert (B : 0 <= Z.shiftl (ws_t st) 8 < 2 ^ 12) by (rewrite Z.shiftl_mul_pow2 by lia; change (2 ^ 8) with 256; lia).
    assert (Z.shiftr (Z.shiftl (ws_t st) 8) 16 = 0) as -> by (rewrite Z.shiftr_div_pow2 by lia; apply Z.div_small; change (2 ^ 16) with 65536; change (2 ^ 12) with 4096 in B; lia).
    cbn [Z.eqb w_mode set_mode hw_wdtcon_clr]. f_equal. change 65535 with (Z.ones 16). rewrite Z.land_ones by lia. apply Z.mod_small. change (2 ^ 16) with 65536. change (2 ^ 12) with 4096 in B. lia. }
  set (m := Z.lor (Z.land (w_mode s) (Z.lnot 3840)) (Z.shiftl (ws_t st) 8)) in *.
  assert (F : field m 8 5 = ws_t st).
  { unfold m. rewrite field_lor, field_lnot by lia. change (field 3840 8 5) with (Z.ones 4).
    assert (A : field (Z.shiftl (ws_t st) 8) 8 5 = ws_t st). { unfold field. rewrite Z.shiftr_shiftl_l by lia. rewrite Z.sub_diag, Z.shiftl_0_r. rewrite Z.land_ones by lia. apply Z.mod_small. lia. }
    rewrite A. assert (B : Z.land (field (w_mode s) 8 5) (Z.lnot (Z.ones 4)) = 0); [|rewrite B; apply Z.lor_0_l].
    apply Z.bits_inj'. intros i Hi. rewrite bit_land_lnot, Z.bits_0 by lia. unfold field. rewrite Z.land_spec, Z.shiftr_spec by lia.
    destruct (Z_lt_dec i 4). - rewrite (Z.ones_spec_low 4 i) by lia. apply andb_false_r.
    - destruct (Z.eq_dec i 4) as [->|]; [change (4 + 8) with 12; rewrite H12; reflexivity|]. rewrite (Z.ones_spec_high 5 i) by lia. rewrite andb_false_r. reflexivity. }
  unfold running, timeout_ok, closed_ok, limit, closed.
  assert (G : forall m0, field m0 8 5 = ws_t st -> Z.testbit (Z.lor m0 32768) 15 = true /\ field (Z.lor m0 32768) 8 5 = ws_t st).
  { intros m0 Q. split; [rewrite Z.lor_spec; apply orb_true_r|]. rewrite field_lor, Q. change (field 32768 8 5) with 0. apply Z.lor_0_r. }
  destruct (ws_win st).
  - rewrite K, K1, K2. destruct (G (Z.lor m 1)) as [G1 G2]; [rewrite field_lor, F; change (field 1 8 5) with 0; apply Z.lor_0_r|]. rewrite G1, G2. auto.
  - rewrite K, K2. destruct (G m F) as [G1 G2]. rewrite G1, G2. auto.
Qed.

(** * RP2040 *)
Lemma rp_init_ok : forall f s s1, 0 < f -> rp_init f s = WOk s1 -> w_cfg s1 = 512 + f / 1000000 /\ f / 1000000 < 512.
Proof.
  intros f s s1 Hf E. unfold rp_init in E. cbv zeta in E. destruct (512 <=? _) eqn:C; [discriminate|]. apply Z.leb_gt in C. injection E as <-. split; [|exact C].
  cbn [w_cfg set_cfg]. pose proof (Z.div_pos f 1000000 ltac:(lia) ltac:(lia)). rewrite field_id by lia. set (x := f / 1000000) in *.
  rewrite <- Z.lxor_lor, <- Z.add_nocarry_lxor; [reflexivity| |].
  - apply Z.bits_inj'. intros i Hi. rewrite Z.land_spec, Z.bits_0. change 512 with (2 ^ 9). rewrite Z.pow2_bits_eqb by lia. destruct (9 =? i) eqn:Q; [|reflexivity].
    apply Z.eqb_eq in Q. subst i. cbn [andb]. rewrite Z.testbit_odd, Z.shiftr_div_pow2 by lia. rewrite Z.div_small by lia. reflexivity.
  - apply Z.bits_inj'. intros i Hi. rewrite Z.land_spec, Z.bits_0. change 512 with (2 ^ 9). rewrite Z.pow2_bits_eqb by lia. destruct (9 =? i) eqn:Q; [|reflexivity].
    apply Z.eqb_eq in Q. subst i. cbn [andb]. rewrite Z.testbit_odd, Z.shiftr_div_pow2 by lia. rewrite Z.div_small by lia. reflexivity.
Qed.
Lemma rp_start_ok : forall f st irq s s1 s2, 0 < f -> set_ok st -> ready Rp2040 f st s -> suits Rp2040 f st -> rp_setup st s = WOk s1 -> wd_start Rp2040 irq s1 = WOk s2 ->
  running Rp2040 s2 = true /\ timeout_ok Rp2040 f st s2 /\ closed_ok Rp2040 f st s2 /\ rp_loaded Rp2040 s2.
Proof.
  intros f st irq s s1 s2 Hf [Ht _] [Hc Hl] [[q Hq] Ht2] E1 E2. unfold rp_setup in E1. destruct (_ <=? 0) eqn:C; [discriminate|]. apply Z.leb_gt in C.
  unfold u32 in E1. rewrite Z.mod_small in E1 by lia. destruct (ws_t st * 2 <? 16777216) eqn:C2; [|discriminate]. apply Z.ltb_lt in C2. injection E1 as <-.
  unfold wd_start in E2. injection E2 as <-. unfold running, timeout_ok, closed_ok, limit, closed, rp_loaded, hw_rp_load. cbn [w_mode set_mode set_cnt set_load w_load w_cfg w_ctx set_ctx].
  rewrite Hc. subst f. rewrite Z.div_mul in * by lia. unfold u24. rewrite (Z.mod_small (ws_t st * 2)) by lia.
  replace ((ws_t st * 2 + 1) / 2) with (ws_t st) by (rewrite Z.add_comm, Z.div_add by lia; reflexivity).
  split; [rewrite Z.lor_spec; apply orb_true_r|]. split; [|split; reflexivity].
  rewrite field_arith by lia. rewrite Z.pow_0_r, Z.div_1_r. change (2 ^ 9) with 512. replace (512 + q) with (q + 1 * 512) by lia. rewrite Z.mod_add, Z.mod_small by lia. lia.
Qed.

(** * SAM E5x *)
Lemma same5x_start_ok : forall f st irq s s1 s2, set_ok st -> ready SamE5 f st s -> same5x_setup st s = WOk s1 -> wd_start SamE5 irq s1 = WOk s2 ->
  running SamE5 s2 = true /\ timeout_ok SamE5 f st s2 /\ closed_ok SamE5 f st s2.
Proof.
  intros f st irq s s1 s2 [Ht Hw] Hm E1 E2. cbn [ready] in Hm. unfold same5x_setup in E1. destruct (ws_t st <? 12) eqn:C; [|discriminate]. apply Z.ltb_lt in C. cbn [negb] in E1. cbv zeta in E1.
  assert (F : field (ws_t st) 0 4 = ws_t st) by (apply field_id; lia). rewrite F in E1. unfold hw_config in E1. rewrite Hm, Z.bits_0 in E1. cbn [w_mode set_cfg w_cfg] in E1. rewrite ?Hm, ?Z.bits_0 in E1.
  assert (U : u8 (ws_t st) = ws_t st) by (apply Z.mod_small; lia). unfold same5x_sync in E1.
  unfold wd_start, same5x_sync in E2. destruct (w_sync (set_mode s1 _)); [|discriminate]. injection E2 as <-.
  unfold running, timeout_ok, closed_ok, limit, closed. cbn [w_mode set_mode w_cfg].
  rewrite !(Z.lor_spec _ 2). change (Z.testbit 2 1) with true. change (Z.testbit 2 2) with false. rewrite orb_true_r, orb_false_r.
  destruct (ws_win st).
  - destruct (ws_w st <? 12) eqn:C2; [|discriminate]. apply Z.ltb_lt in C2. cbn [negb] in E1. destruct (w_sync _); [|discriminate]. injection E1 as <-. cbn [w_mode set_mode w_cfg set_cfg].
    change (Z.testbit 4 2) with true. cbv iota. assert (F2 : field (ws_w st) 0 4 = ws_w st) by (apply field_id; lia). rewrite F2, U.
    assert (L : Z.lor (ws_t st) (Z.shiftl (ws_w st) 4) = ws_t st + 16 * ws_w st).
    { assert (0 = Z.land (ws_t st) (Z.shiftl (ws_w st) 4)).
      { apply Z.bits_inj'. intros i Hi. rewrite Z.bits_0, Z.land_spec. symmetry. destruct (Z_lt_dec i 4); [rewrite Z.shiftl_spec_low by lia; apply andb_false_r|].
        assert (Z.testbit (ws_t st) i = false) as ->; [|reflexivity]. rewrite Z.testbit_odd, Z.shiftr_div_pow2 by lia. rewrite Z.div_small; [reflexivity|].
        pose proof (Z.pow_le_mono_r 2 4 i ltac:(lia) ltac:(lia)). lia. }
      rewrite <- Z.lxor_lor by auto. rewrite <- Z.add_nocarry_lxor by auto. rewrite Z.shiftl_mul_pow2 by lia. change (2 ^ 4) with 16. lia. }
    rewrite L. unfold u8. rewrite (Z.mod_small (ws_t st + 16 * ws_w st)) by lia. rewrite !field_arith by lia. rewrite Z.pow_0_r, Z.div_1_r. change (2 ^ 4) with 16.
    replace (ws_t st + 16 * ws_w st) with (ws_t st + ws_w st * 16) by lia. rewrite Z.mod_add, Z.div_add by lia. rewrite (Z.div_small (ws_t st)), (Z.mod_small (ws_t st)) by lia.
    rewrite Z.add_0_l, (Z.mod_small (ws_w st)) by lia. split; [reflexivity|]. split; reflexivity.
  - destruct (w_sync _); [|discriminate]. injection E1 as <-. cbn [w_mode set_mode w_cfg set_cfg]. rewrite Hm, Z.bits_0, U, F. cbv iota. split; [reflexivity|]. split; [lia|reflexivity].
Qed.

(** * STM32 *)
Definition itick (f p : Z) : Z := f / 2 ^ (p + 2) / 1000.
Lemma itick_le : forall f p, 0 < f -> 0 <= p -> 0 <= itick f p <= f / 4000.
Proof.
  intros f p Hf Hp. unfold itick. assert (0 < 2 ^ (p + 2)) by (apply Z.pow_pos_nonneg; lia). rewrite Z.div_div by lia. pose proof (Z.pow_le_mono_r 2 2 (p + 2) ltac:(lia) ltac:(lia)) as M. change (2 ^ 2) with 4 in M.
  split; [apply Z.div_pos; lia|]. apply Z.div_le_compat_l; lia.
Qed.
Lemma itick_exact : forall f p, 0 <= p -> (1000 * 2 ^ (p + 2) | f) -> itick f p * (1000 * 2 ^ (p + 2)) = f /\ itick f p = f / (1000 * 2 ^ (p + 2)).
Proof.
  intros f p Hp [k Hk]. assert (0 < 2 ^ (p + 2)) by (apply Z.pow_pos_nonneg; lia). unfold itick. rewrite Z.div_div by lia. rewrite (Z.mul_comm (2 ^ (p + 2)) 1000). split; [|reflexivity].
  rewrite Hk. rewrite Z.div_mul by lia. reflexivity.
Qed.
Lemma iwdg_loop_ok : forall k f t w p s r, 0 < f -> 0 <= w <= t -> t * (f / 4000) < 2 ^ 32 -> 0 <= p -> p + Z.of_nat k = 7 ->
  iwdg_loop k f t w p s = r ->
  (exists q, p <= q <= 6 /\ t * itick f q <= 4095 /\ (forall j, p <= j < q -> 4095 < t * itick f j) /\
     let s1 := mkWd (w_mode s) q (t * itick f q) (w_win s) true true (w_once s) (w_wdrf s) (w_sync s) (w_cnt s) (w_ctx s) (w_dead s) in
     r = if w_sync s then WOk (set_win s1 (w * itick f q)) else WErr W_EBUSY s1) \/
  (r = WErr W_EIO s /\ forall j, p <= j <= 6 -> 4095 < t * itick f j).
Proof.
  induction k as [|k IH]; intros f t w p s r Hf Hw Ht Hp Hk E; cbn [iwdg_loop] in E.
  - right. split; [auto|]. intros. lia.
  - cbv zeta in E. fold (itick f p) in E. pose proof (itick_le f p Hf Hp) as B. unfold u32 in E. rewrite (Z.mod_small (t * itick f p)), (Z.mod_small (w * itick f p)) in E by nia.
    destruct (t * itick f p <=? 4095) eqn:C1.
    + apply Z.leb_le in C1. replace (w * itick f p <=? 4095) with true in E by (symmetry; apply Z.leb_le; nia). cbn [andb] in E.
      left. exists p. split; [lia|]. split; [exact C1|]. split; [intros; lia|]. cbv zeta. subst r. reflexivity.
    + cbn [andb] in E. apply Z.leb_gt in C1. destruct (IH f t w (p + 1) s r Hf Hw Ht ltac:(lia) ltac:(lia) E) as [(q & Hq & Q1 & Q2 & Q3)|[Q1 Q2]].
      * left. exists q. split; [lia|]. split; [exact Q1|]. split; [|exact Q3]. intros j Hj. destruct (Z.eq_dec j p) as [->|]; [exact C1|apply Q2; lia].
      * right. split; [exact Q1|]. intros j Hj. destruct (Z.eq_dec j p) as [->|]; [exact C1|apply Q2; lia].
Qed.
Lemma iwdg_setup_ok : forall f st s, 0 < f -> set_ok st -> suits Iwdg f st -> 0 < ws_w st <= ws_t st -> w_sync s = true -> exists s1,
  iwdg_setup f st s = WOk s1 /\ w_on s1 = true /\
  timeout_ok Iwdg f st s1 /\ closed_ok Iwdg f st s1 /\ fine 1000 f st s1 /\ w_sync s1 = true.
Proof.
  intros f st s Hf [Ht Hw] (Hb & P & HP & Hdiv & Hfit) H Hsync. unfold iwdg_setup.
  destruct (ws_t st <=? 0) eqn:C1; [apply Z.leb_le in C1; lia|]. destruct (ws_w st <=? 0) eqn:C2; [apply Z.leb_le in C2; lia|]. destruct (ws_w st <=? ws_t st) eqn:C3; [|apply Z.leb_gt in C3; lia]. cbn [negb].
  destruct (iwdg_loop_ok 7 f (ws_t st) (ws_w st) 0 s _ Hf ltac:(lia) Hb ltac:(lia) ltac:(lia) eq_refl) as [(q & Hq & Q1 & Q2 & Q3)|[_ Q]].
  - cbv zeta in Q3. rewrite Hsync in Q3. rewrite Q3. eexists. split; [reflexivity|]. split; [reflexivity|]. destruct (itick_exact f P ltac:(lia) Hdiv) as [_ EP]. rewrite <- EP in Hfit.
    assert (HqP : q <= P) by (destruct (Z_le_dec q P); [assumption|]; specialize (Q2 P ltac:(lia)); lia).
    assert (D : forall j, 0 <= j <= P -> (1000 * 2 ^ (j + 2) | f)).
    { intros j Hj. destruct Hdiv as [z Hz]. exists (z * 2 ^ (P - j)). rewrite Hz. replace (P + 2) with ((P - j) + (j + 2)) by lia. rewrite Z.pow_add_r by lia. lia. }
    destruct (itick_exact f q ltac:(lia) (D q ltac:(lia))) as [Eq _]. assert (Hp : 0 < 2 ^ (q + 2)) by (apply Z.pow_pos_nonneg; lia).
    unfold timeout_ok, closed_ok, fine, limit, closed. cbn [w_load w_cfg w_win set_win w_sync]. set (k := itick f q) in *. set (z := 2 ^ (q + 2)) in *.
    pose proof (itick_le f q Hf ltac:(lia)) as B. fold k in B.
    split. { replace (1000 * ((ws_t st * k + 1) * z) - f * ws_t st) with (1000 * z); [lia|]. rewrite <- Eq. ring. }
    split. { rewrite Z.max_r by nia. rewrite <- Eq. ring. }
    split; [|reflexivity]. destruct (Z.eq_dec q 0) as [->|]; [left; reflexivity|right].
    specialize (Q2 (q - 1) ltac:(lia)). destruct (itick_exact f (q - 1) ltac:(lia) (D (q - 1) ltac:(lia))) as [Eq1 _].
    replace (q - 1 + 2) with (q + 1) in Eq1 by lia. assert (Ez : z = 2 * 2 ^ (q + 1)) by (unfold z; rewrite <- Z.pow_succ_r by lia; f_equal; lia).
    assert (0 < 2 ^ (q + 1)) by (apply Z.pow_pos_nonneg; lia). rewrite Ez. rewrite <- Eq1. set (k1 := itick f (q - 1)) in *. set (y := 2 ^ (q + 1)) in *.
    replace (k1 * (1000 * y) * ws_t st) with (1000 * y * (ws_t st * k1)) by ring. nia.
  - exfalso. destruct (itick_exact f P ltac:(lia) Hdiv) as [_ EP]. rewrite <- EP in Hfit. specialize (Q P ltac:(lia)). lia.
Qed.
Lemma iwdg_start_ok : forall f st irq s s1 s2, 0 < f -> set_ok st -> suits Iwdg f st -> iwdg_setup f st s = WOk s1 -> wd_start Iwdg irq s1 = WOk s2 ->
  running Iwdg s2 = true /\ timeout_ok Iwdg f st s2 /\ closed_ok Iwdg f st s2 /\ fine 1000 f st s2.
Proof.
  intros f st irq s s1 s2 Hf Hs Hsu E1 E2. assert (Hw : 0 < ws_w st <= ws_t st /\ w_sync s = true).
  { pose proof E1 as E. unfold iwdg_setup in E. destruct (ws_t st <=? 0) eqn:C1; [discriminate|]. destruct (ws_w st <=? 0) eqn:C2; [discriminate|]. destruct (ws_w st <=? ws_t st) eqn:C3; [|discriminate].
    apply Z.leb_le in C3. apply Z.leb_gt in C2. split; [lia|]. cbn [negb] in E. pose proof (proj1 Hsu) as Hb.
    destruct (iwdg_loop_ok 7 f (ws_t st) (ws_w st) 0 s _ Hf ltac:(lia) Hb ltac:(lia) ltac:(lia) E) as [(q & _ & _ & _ & Q)|[Q _]]; [|discriminate Q].
    cbv zeta in Q. destruct (w_sync s); [reflexivity|discriminate]. }
  destruct Hw as [Hw Hsync]. destruct (iwdg_setup_ok f st s Hf Hs Hsu Hw Hsync) as (s1' & E1' & A & B & C & D & _). rewrite E1' in E1. injection E1 as <-.
  unfold wd_start in E2. injection E2 as <-. split; [reflexivity|]. split; [exact B|]. split; [exact C|exact D].
Qed.
(** The 32 kHz clock beyond 4095 ms: the divided clock is below 1 kHz, the reload value is 0, the watchdog bites after 64 clocks, 2 ms. *)
Lemma iwdg_lsi_long : forall t w s, 4096 <= t < 2 ^ 29 -> 0 < w <= t -> w_sync s = true ->
  exists s1, iwdg_setup 32000 (mkSet t w false) s = WOk s1 /\ limit Iwdg s1 = 64 /\ running Iwdg s1 = true.
Proof.
  intros t w s Ht Hw Hsync. unfold iwdg_setup. cbn [ws_t ws_w]. replace (t <=? 0) with false by (symmetry; apply Z.leb_gt; lia). replace (w <=? 0) with false by (symmetry; apply Z.leb_gt; lia).
  replace (w <=? t) with true by (symmetry; apply Z.leb_le; lia). cbn [negb].
  destruct (iwdg_loop_ok 7 32000 t w 0 s _ ltac:(lia) ltac:(lia) ltac:(change (32000 / 4000) with 8; lia) ltac:(lia) ltac:(lia) eq_refl) as [(q & Hq & Q1 & Q2 & Q3)|[_ Q]].
  - cbv zeta in Q3. rewrite Hsync in Q3. rewrite Q3. eexists. split; [reflexivity|]. split; [|reflexivity].
    assert (q = 4). { assert (C : q = 0 \/ q = 1 \/ q = 2 \/ q = 3 \/ q = 4 \/ q = 5 \/ q = 6) by lia. destruct C as [->|[->|[->|[->|[->|[->| ->]]]]]]; try reflexivity.
      - change (itick 32000 0) with 8 in Q1. lia. - change (itick 32000 1) with 4 in Q1. lia. - change (itick 32000 2) with 2 in Q1. lia. - change (itick 32000 3) with 1 in Q1. lia.
      - specialize (Q2 4 ltac:(lia)). change (itick 32000 4) with 0 in Q2. lia. - specialize (Q2 4 ltac:(lia)). change (itick 32000 4) with 0 in Q2. lia. }
    subst q. unfold limit. cbn [w_load w_cfg set_win]. change (itick 32000 4) with 0. rewrite Z.mul_0_r. reflexivity.
  - specialize (Q 4 ltac:(lia)). change (itick 32000 4) with 0 in Q. lia.
Qed.

(** * F28x *)
Lemma f28_start_ok : forall f st irq s s1 s2, set_ok st -> ready F28 f st s -> f28_setup st s = WOk s1 -> wd_start F28 irq s1 = WOk s2 ->
  running F28 s2 = true /\ limit F28 s2 = 131072 /\ closed F28 s2 = ws_w st * 512 /\ w_dead s2 = w_dead s.
Proof.
  intros f st irq s s1 s2 [Ht Hw] Ho E1 E2. cbn [ready] in Ho. unfold f28_setup in E1. destruct (ws_t st <? 8) eqn:C1; [|discriminate]. apply Z.ltb_lt in C1. destruct (ws_w st <=? 255) eqn:C2; [|discriminate]. apply Z.leb_le in C2. cbn [negb] in E1. cbv zeta in E1.
  assert (F : field (ws_t st) 0 3 = ws_t st) by (apply field_id; lia). rewrite F in E1.
  assert (C : field (64 + ws_t st + 40) 3 3 = 5). { rewrite field_arith by lia. replace (64 + ws_t st + 40) with (ws_t st + 13 * 2 ^ 3) by lia. rewrite Z.div_add by lia. rewrite Z.div_small by lia. reflexivity. }
  unfold hw_wdcr in E1. rewrite C in E1. cbn [Z.eqb Pos.eqb negb] in E1. injection E1 as <-.
  unfold wd_start, hw_wdcr in E2. change (field 40 3 3 =? 5) with true in E2. cbn [negb w_once set_win set_mode] in E2. rewrite Ho in E2. injection E2 as <-.
  unfold running, limit, closed. cbn [w_mode set_mode w_win set_win w_dead]. change (field 40 0 3 + 64 * field 40 6 1) with 0. split; [reflexivity|]. split; [reflexivity|]. split; [|reflexivity].
  rewrite field_lor, field_lnot by lia. change (field 255 0 8) with (Z.ones 8). rewrite field_clear, Z.lor_0_l by lia. rewrite (field_id (field (ws_w st) 0 8)) by (try apply field_bound; lia). rewrite field_id by lia. reflexivity.
Qed.

(** * tinyAVR *)
Lemma tiny_start_ok : forall f st irq s s1 s2, set_ok st -> suits TinyAvr f st -> tiny_setup st s = WOk s1 -> wd_start TinyAvr irq s1 = WOk s2 ->
  running TinyAvr s2 = true /\ timeout_ok TinyAvr f st s2 /\ closed_ok TinyAvr f st s2.
Proof.
  intros f st irq s s1 s2 [Ht Hw] Hs E1 E2. cbn [suits] in Hs. unfold tiny_setup in E1. destruct (ws_w st <? 12) eqn:C2; [|discriminate]. apply Z.ltb_lt in C2. destruct (ws_t st <? 12) eqn:C1; [|discriminate]. apply Z.ltb_lt in C1. cbn [negb] in E1.
  rewrite !field_id in E1 by lia.
  assert (L : Z.lor (Z.shiftl (ws_w st) 4) (ws_t st) = ws_t st + ws_w st * 16).
  { assert (0 = Z.land (Z.shiftl (ws_w st) 4) (ws_t st)).
    { apply Z.bits_inj'. intros i Hi. rewrite Z.bits_0, Z.land_spec. symmetry. destruct (Z_lt_dec i 4); [rewrite Z.shiftl_spec_low by lia; reflexivity|].
      assert (Z.testbit (ws_t st) i = false) as ->; [|apply andb_false_r]. rewrite Z.testbit_odd, Z.shiftr_div_pow2 by lia. rewrite Z.div_small; [reflexivity|].
      pose proof (Z.pow_le_mono_r 2 4 i ltac:(lia) ltac:(lia)). lia. }
    rewrite <- Z.lxor_lor by auto. rewrite <- Z.add_nocarry_lxor by auto. rewrite Z.shiftl_mul_pow2 by lia. change (2 ^ 4) with 16. lia. }
  rewrite L in E1. unfold u8 in E1. rewrite Z.mod_small in E1 by lia. injection E1 as <-.
  assert (F0 : field (ws_t st + ws_w st * 16) 0 4 = ws_t st). { rewrite field_arith by lia. rewrite Z.pow_0_r, Z.div_1_r. change (2 ^ 4) with 16. rewrite Z.mod_add, Z.mod_small by lia. reflexivity. }
  assert (F4 : field (ws_t st + ws_w st * 16) 4 4 = ws_w st). { rewrite field_arith by lia. change (2 ^ 4) with 16. rewrite Z.div_add, (Z.div_small (ws_t st)) by lia. apply Z.mod_small. lia. }
  unfold wd_start in E2. injection E2 as <-.
  unfold running, timeout_ok, closed_ok, limit, closed. cbn [w_mode set_mode w_ctx set_ctx]. rewrite F0, F4. split; [apply negb_true_iff, Z.eqb_neq; lia|]. split; reflexivity.
Qed.

(** * What is accepted, and what an error leaves *)
Lemma wd_accepts : forall d f st s, 0 < f -> set_ok st -> suits d f st -> fits d f st s -> exists s1, wd_setup d f st s = WOk s1.
Proof.
  intros d f st s Hf Hs Hsu Hfi. pose proof Hs as [Ht Hw]. destruct d; cbn [suits fits wd_setup] in *; try contradiction.
  - destruct Hsu as [[q Hq] [r Hr]]. unfold atmel_setup, atmel_wdv. cbv zeta. subst f. rewrite Z.div_mul in * by lia. assert (Hq0 : 0 < q) by lia. assert (Hr0 : 0 < r) by nia.
    rewrite Hr, Z.div_mul in * by lia. destruct (q <=? 0) eqn:C; [apply Z.leb_le in C; lia|]. replace (r =? 0) with false by (symmetry; apply Z.eqb_neq; lia).
    assert (B : 1 <= ws_t st / r <= 4095). { split; [apply Z.div_le_lower_bound; lia|]. apply Z.lt_succ_r. apply Z.div_lt_upper_bound; lia. }
    unfold u32. rewrite Z.mod_small by lia. replace (ws_t st / r =? 0) with false by (symmetry; apply Z.eqb_neq; lia). replace (4095 <? ws_t st / r) with false by (symmetry; apply Z.ltb_ge; lia). eexists. reflexivity.
  - unfold avr_setup. destruct (ws_t st <? 10) eqn:C; [|apply Z.ltb_ge in C; lia]. eexists. reflexivity.
  - apply fwdgt_never_refuses. exact Hf.
  - unfold pic32_setup. destruct (ws_t st <? 21) eqn:C; [|apply Z.ltb_ge in C; lia]. eexists. reflexivity.
  - unfold rp_setup. destruct (ws_t st <=? 0) eqn:C; [apply Z.leb_le in C; lia|]. unfold u32. rewrite Z.mod_small by lia. destruct (_ <? 16777216) eqn:C2; [|apply Z.ltb_ge in C2; lia]. eexists. reflexivity.
  - destruct Hfi as (H1 & H2 & H3). unfold same5x_setup. destruct (ws_t st <? 12) eqn:C; [|apply Z.ltb_ge in C; lia]. cbn [negb]. cbv zeta. unfold hw_config, same5x_sync.
    assert (K : forall v x, w_sync (set_mode (set_cfg s v) x) = true) by (intros; exact H3).
    destruct (ws_win st).
    + specialize (H2 eq_refl). destruct (ws_w st <? 12) eqn:C2; [|apply Z.ltb_ge in C2; lia]. cbn [negb].
      destruct (Z.testbit (w_mode s) 1) eqn:B1; cbn [w_mode set_cfg w_cfg set_mode w_sync]; rewrite ?B1; cbn [w_mode set_cfg w_cfg set_mode w_sync]; rewrite H3; eexists; reflexivity.
    + destruct (Z.testbit (w_mode s) 1); cbn [w_sync set_cfg]; rewrite H3; eexists; reflexivity.
  - destruct Hfi as [H1 H2]. destruct (iwdg_setup_ok f st s Hf Hs Hsu H1 H2) as (s1 & E & _). exists s1. exact E.
  - unfold f28_setup. destruct (ws_t st <? 8) eqn:C; [|apply Z.ltb_ge in C; lia]. destruct (ws_w st <=? 255) eqn:C2; [|apply Z.leb_gt in C2; lia]. eexists. reflexivity.
  - unfold tiny_setup. destruct (ws_w st <? 12) eqn:C2; [|apply Z.ltb_ge in C2; lia]. destruct (ws_t st <? 12) eqn:C; [|apply Z.ltb_ge in C; lia]. eexists. reflexivity.
Qed.

Lemma iwdg_loop_err : forall k f t w p s e s1, w_sync s = true -> iwdg_loop k f t w p s = WErr e s1 -> s1 = s.
Proof.
  induction k as [|k IH]; intros f t w p s e s1 H E; cbn [iwdg_loop] in E; [congruence|]. cbv zeta in E. destruct (_ && _); [|exact (IH _ _ _ _ _ _ _ H E)].
  cbn in E. rewrite H in E. discriminate.
Qed.
Lemma fwdgt_loop_err : forall k n p s e s1, fwdgt_loop k n p s = WErr e s1 -> s1 = s.
Proof. induction k as [|k IH]; intros n p s e s1 E; cbn [fwdgt_loop] in E; [congruence|]. cbv zeta in E. destruct (_ <=? _); [discriminate|]. exact (IH _ _ _ _ _ E). Qed.
Lemma setup_err : forall d f st s e s1, d <> SamE5 -> (d = Iwdg -> w_sync s = true) -> wd_setup d f st s = WErr e s1 -> s1 = s.
Proof.
  intros d f st s e s1 H5 Hi E. destruct d; cbn [wd_setup] in E; try congruence.
  - unfold atmel_setup in E. destruct (atmel_wdv _ _); congruence.
  - unfold sam3x_setup in E. destruct (atmel_wdv _ _); try congruence. 
  - unfold avr_setup in E. destruct (negb _); congruence.
  - exact (fwdgt_loop_err _ _ _ _ _ _ E).
  - unfold pic32_setup in E. destruct (negb _); [congruence|]. discriminate.
  - unfold rp_setup in E. destruct (_ <=? _); [congruence|]. cbv zeta in E. destruct (negb _); [congruence|discriminate].
  - unfold iwdg_setup in E. destruct (_ <=? _); [congruence|]. destruct (_ <=? _); [congruence|]. destruct (negb _); [congruence|]. exact (iwdg_loop_err _ _ _ _ _ _ _ _ (Hi eq_refl) E).
  - unfold f28_setup in E. destruct (negb _); [congruence|]. destruct (negb _); [congruence|discriminate].
  - unfold tiny_setup in E. destruct (negb _); [congruence|]. destruct (negb _); [congruence|discriminate].
Qed.

(** * Histories *)
Definition cfg_of (d : drv) (s : wd) := (running d s, limit d s, closed d s).
Lemma refresh_ext : forall d s, w_mode (hw_refresh d s) = w_mode s /\ w_cfg (hw_refresh d s) = w_cfg s /\ w_load (hw_refresh d s) = w_load s /\
  w_win (hw_refresh d s) = w_win s /\ w_on (hw_refresh d s) = w_on s /\ w_ctx (hw_refresh d s) = w_ctx s /\ w_cnt (hw_refresh d s) = 0 /\
  w_dead (hw_refresh d s) = (running d s && (w_cnt s <? closed d s)) || w_dead s.
Proof. intros d s. unfold hw_refresh. destruct (running d s && _) eqn:E; repeat (split; [reflexivity|]); reflexivity. Qed.
Lemma cfg_ext : forall d s s', w_mode s' = w_mode s -> w_cfg s' = w_cfg s -> w_load s' = w_load s -> w_win s' = w_win s -> w_on s' = w_on s ->
  running d s' = running d s /\ limit d s' = limit d s /\ closed d s' = closed d s.
Proof. intros d s s' A B C D E. destruct d; cbn [running limit closed]; rewrite ?A, ?B, ?C, ?D, ?E; repeat split; reflexivity. Qed.
Lemma feed_eff : forall d s, w_dead s = false -> 0 <= w_cnt s -> rp_loaded d s -> let s' := wd_refresh d s in
  running d s' = running d s /\ limit d s' = limit d s /\ closed d s' = closed d s /\ w_cnt s' = 0 /\ rp_loaded d s' /\
  w_dead s' = (running d s && (w_cnt s <? closed d s)).
Proof.
  intros d s Hd Hc Hl.
  assert (G : forall s0, w_mode s0 = w_mode s -> w_cfg s0 = w_cfg s -> w_load s0 = w_load s -> w_win s0 = w_win s -> w_on s0 = w_on s -> w_ctx s0 = w_ctx s -> w_cnt s0 = w_cnt s -> w_dead s0 = false ->
    let s' := hw_refresh d s0 in running d s' = running d s /\ limit d s' = limit d s /\ closed d s' = closed d s /\ w_cnt s' = 0 /\ rp_loaded d s' /\ w_dead s' = (running d s && (w_cnt s <? closed d s))).
  { intros s0 A B C D E F I J. cbv zeta. destruct (refresh_ext d s0) as (R1 & R2 & R3 & R4 & R5 & R6 & R7 & R8).
    destruct (cfg_ext d s (hw_refresh d s0)) as (K1 & K2 & K3); try congruence. destruct (cfg_ext d s s0) as (L1 & L2 & L3); try congruence.
    rewrite K1, K2, K3, R7, R8, J, L1, L3, I, orb_false_r. repeat (split; [reflexivity|]). split; [|reflexivity]. destruct d; cbn [rp_loaded] in *; try exact Logic.I. rewrite R3, R6, C, F. exact Hl. }
  destruct d; cbn [wd_refresh]; try (apply G; auto; fail).
  - unfold hw_wdtcon_set. cbv zeta. change (Z.shiftr (22339 * 65536) 16 =? 22339) with true. cbv iota. change (Z.land (22339 * 65536) 65535) with 0. apply G; auto. cbn [w_mode set_mode]. apply Z.lor_0_r.
  - cbv zeta. cbn [rp_loaded] in Hl. unfold hw_rp_load. rewrite <- Hl. cbn [running limit closed w_mode w_cfg w_load set_cnt set_load w_cnt rp_loaded w_ctx w_dead].
    repeat (split; [reflexivity|]). split; [exact Hl|]. rewrite Hd. destruct (w_cnt s <? 0) eqn:C; [|rewrite andb_false_r; reflexivity].
    apply Z.ltb_lt in C. lia.
Qed.
Lemma tick_eff : forall d s, w_dead s = false -> running d s = true -> rp_loaded d s -> let s' := hw_tick d s in
  running d s' = true /\ limit d s' = limit d s /\ closed d s' = closed d s /\ w_cnt s' = w_cnt s + 1 /\ rp_loaded d s' /\ w_dead s' = negb (w_cnt s + 1 <? limit d s).
Proof.
  intros d s Hd Hr Hl. cbv zeta. unfold hw_tick. rewrite Hr. cbv zeta. destruct (limit d s <=? w_cnt s + 1) eqn:C.
  - destruct (cfg_ext d s (set_dead (set_cnt s (w_cnt s + 1)) true)) as (A & B & E); try reflexivity. rewrite A, B, E. repeat (split; [reflexivity || exact Hr|]). split; [destruct d; exact Hl|].
    apply Z.leb_le in C. replace (w_cnt s + 1 <? limit d s) with false by (symmetry; apply Z.ltb_ge; lia). reflexivity.
  - destruct (cfg_ext d s (set_cnt s (w_cnt s + 1))) as (A & B & E); try reflexivity. rewrite A, B, E. repeat (split; [reflexivity || exact Hr|]). split; [destruct d; exact Hl|].
    apply Z.leb_gt in C. replace (w_cnt s + 1 <? limit d s) with true by (symmetry; apply Z.ltb_lt; lia). exact Hd.
Qed.
Lemma dead_stays : forall d l s, w_dead s = true -> wd_run d s l = s.
Proof. induction l as [|e l IH]; intros s H; [reflexivity|]. cbn [wd_run]. assert (E : wd_step d s e = s) by (unfold wd_step; rewrite H; reflexivity). rewrite E. exact (IH s H). Qed.
(** The watchdog bites exactly when a refresh is missing or early. *)
Lemma run_in_time : forall d l s, running d s = true -> w_dead s = false -> 0 <= w_cnt s -> rp_loaded d s ->
  w_dead (wd_run d s l) = negb (in_time (limit d s) (closed d s) (w_cnt s) l).
Proof.
  induction l as [|e l IH]; intros s Hr Hd Hc Hl; [exact Hd|]. cbn [wd_run in_time]. unfold wd_step. rewrite Hd. destruct e.
  - pose proof (tick_eff d s Hd Hr Hl) as (A & B & C & D & E & F). destruct (w_cnt s + 1 <? limit d s) eqn:Q.
    + rewrite (IH _ A F ltac:(lia) E), B, C, D. reflexivity.
    + cbn [negb andb]. rewrite dead_stays by exact F. exact F.
  - pose proof (feed_eff d s Hd Hc Hl) as (A & B & C & D & E & F). rewrite Hr in A, F. cbn [andb] in F.
    destruct (w_cnt s <? closed d s) eqn:Q.
    + replace (closed d s <=? w_cnt s) with false by (symmetry; apply Z.ltb_lt in Q; apply Z.leb_gt; lia). rewrite dead_stays by exact F. exact F.
    + replace (closed d s <=? w_cnt s) with true by (symmetry; apply Z.ltb_ge in Q; apply Z.leb_le; lia). rewrite (IH _ A F ltac:(lia) E), B, C, D. reflexivity.
Qed.
(** A watchdog that does not run never bites. *)
Lemma feed_stopped : forall d s, running d s = false -> w_dead s = false -> running d (wd_refresh d s) = false /\ w_dead (wd_refresh d s) = false.
Proof.
  intros d s Hr Hd. assert (G : forall s0, w_mode s0 = w_mode s -> w_cfg s0 = w_cfg s -> w_load s0 = w_load s -> w_win s0 = w_win s -> w_on s0 = w_on s -> w_dead s0 = false ->
    running d (hw_refresh d s0) = false /\ w_dead (hw_refresh d s0) = false).
  { intros s0 A B C D E F. destruct (refresh_ext d s0) as (R1 & R2 & R3 & R4 & R5 & R6 & R7 & R8). destruct (cfg_ext d s (hw_refresh d s0)) as (K1 & _); try congruence. destruct (cfg_ext d s s0) as (L1 & _); try congruence.
    rewrite K1, R8, L1, Hr, F. split; reflexivity. }
  destruct d; cbn [wd_refresh]; try (apply G; auto; fail).
  - unfold hw_wdtcon_set. cbv zeta. change (Z.shiftr (22339 * 65536) 16 =? 22339) with true. cbv iota. change (Z.land (22339 * 65536) 65535) with 0. apply G; auto. cbn [w_mode set_mode]. apply Z.lor_0_r.
  - split; [exact Hr|exact Hd].
Qed.
Lemma run_stopped : forall d l s, running d s = false -> w_dead s = false -> w_dead (wd_run d s l) = false /\ running d (wd_run d s l) = false.
Proof.
  induction l as [|e l IH]; intros s Hr Hd; [split; assumption|]. cbn [wd_run]. unfold wd_step. rewrite Hd. destruct e.
  - unfold hw_tick. rewrite Hr. exact (IH s Hr Hd).
  - destruct (feed_stopped d s Hr Hd) as [A B]. exact (IH _ A B).
Qed.

(** * wd_stop *)
Lemma stop_ok : forall d irq s s1, 0 <= w_cnt s -> wd_stop d irq s = WOk s1 ->
  stoppable d irq s ->
  running d s1 = false /\ w_dead s1 = w_dead s.
Proof.
  intros d irq s s1 Hc E H. destruct d; cbn [stoppable unstoppable] in H; try contradiction; unfold wd_stop in E.
  1,2: injection E as <-; unfold hw_mr; replace (w_once s && w_key s) with false by (destruct H as [-> | ->]; [reflexivity|rewrite andb_false_r; reflexivity]);
    cbn [running w_mode set_key set_mode w_dead]; rewrite Z.lor_spec; change (Z.testbit 32768 15) with true; rewrite orb_true_r; split; reflexivity.
  - destruct H as [-> Hw]. injection E as <-. unfold avr_write. destruct (refresh_ext Avr s) as (R1 & R2 & R3 & R4 & R5 & R6 & R7 & R8).
    unfold hw_wdtcsr. change (Z.testbit 24 4 && Z.testbit 24 3) with true. cbv iota. change (Z.testbit 0 4 && Z.testbit 0 3) with false. cbv iota. cbn [w_key set_key w_wdrf set_mode w_mode running w_dead].
    assert (w_wdrf (hw_refresh Avr s) = false) as -> by (unfold hw_refresh; destruct (_ && _); exact Hw). split; [reflexivity|].
    unfold hw_refresh. cbn [closed]. destruct (running Avr s && (w_cnt s <? 0)) eqn:C; [|reflexivity]. apply andb_true_iff in C. destruct C as [_ C]. apply Z.ltb_lt in C. lia.
  - injection E as <-. unfold hw_wdtcon_clr. cbn [running w_mode set_mode w_dead]. rewrite bit_land_lnot by lia. change (Z.testbit 32768 15) with true. rewrite andb_false_r. split; reflexivity.
  - injection E as <-. cbn [running w_mode set_mode w_dead]. rewrite bit_land_lnot by lia. change (Z.testbit 1073741824 30) with true. rewrite andb_false_r. split; reflexivity.
  - unfold same5x_sync in E. destruct (w_sync _); [|discriminate]. injection E as <-. cbn [running w_mode set_mode w_dead]. rewrite bit_land_lnot by lia. change (Z.testbit 2 1) with true. rewrite andb_false_r. split; reflexivity.
  - injection E as <-. split; reflexivity.
Qed.
(** Where it does nothing. *)
Lemma stop_wrong : forall d irq s s1, wd_stop d irq s = WOk s1 -> running d s = true -> w_dead s = false ->
  unstoppable d s ->
  running d s1 = true /\ limit d s1 = limit d s /\ closed d s1 = closed d s /\ w_dead s1 = false.
Proof.
  intros d irq s s1 E Hr Hd H. destruct d; cbn [stoppable unstoppable] in H; try contradiction; unfold wd_stop in E.
  1,2: destruct H as [H1 H2]; injection E as <-; unfold hw_mr; rewrite H1, H2; cbn [andb]; repeat split; assumption.
  - injection E as <-. repeat split; assumption.
  - injection E as <-. repeat split; assumption.
  - injection E as <-. unfold hw_scsr. change (Z.testbit 1 0) with true. cbv iota. unfold hw_wdcr. cbn [w_mode set_once w_once].
    cbn [running] in Hr. apply negb_true_iff in Hr.
    assert (B : forall i, Z.testbit (Z.lor (w_mode s) (64 + 40)) i = Z.testbit (w_mode s) i || Z.testbit 104 i) by (intros; apply Z.lor_spec).
    assert (C0 : field (Z.lor (w_mode s) (64 + 40)) 0 3 = field (w_mode s) 0 3) by (rewrite field_lor; change (field (64 + 40) 0 3) with 0; apply Z.lor_0_r).
    assert (C6 : field (w_mode s) 6 1 = 0).
    { unfold field. apply Z.bits_inj'. intros i Hi. rewrite Z.land_spec, Z.shiftr_spec, Z.bits_0 by lia. destruct (Z.eq_dec i 0) as [->|]; [rewrite Z.add_0_l, Hr; reflexivity|]. rewrite Z.ones_spec_high by lia. apply andb_false_r. }
    rewrite C0, C6. assert (B3 := field_bound (w_mode s) 0 3 ltac:(lia)). change (2 ^ 3) with 8 in B3.
    destruct (negb (field (Z.lor (w_mode s) (64 + 40)) 3 3 =? 5)) eqn:Q.
    + rewrite field_lor, H in Q. discriminate Q.
    + cbn [running limit closed w_mode w_win set_mode set_once w_dead]. rewrite Z.mul_0_r, Z.add_0_r. rewrite (field_id (field (w_mode s) 0 3)) by lia.
      rewrite Z.testbit_odd, Z.shiftr_div_pow2 by lia. rewrite Z.div_small by (change (2 ^ 6) with 64; lia). repeat split; assumption.
Qed.

(** * All together *)
Lemma start_ok : forall d f st irq s s1 s2, 0 < f -> set_ok st -> ready d f st s -> suits d f st -> (d = Avr -> irq = false) ->
  wd_setup d f st s = WOk s1 -> wd_start d irq s1 = WOk s2 ->
  running d s2 = true /\ timeout_ok d f st s2 /\ closed_ok d f st s2 /\ rp_loaded d s2.
Proof.
  intros d f st irq s s1 s2 Hf Hs Hr Hsu Hi E1 E2. destruct d; cbn [wd_setup] in E1.
  - pose proof (atmel_start_ok f st s s1 s2 Hf Hs Hr Hsu E1 E2) as (A & B & C). repeat (split; [assumption|]). exact I.
  - destruct Hsu.
  - rewrite (Hi eq_refl) in E2. pose proof (avr_start_ok f st s s1 s2 Hs E1 E2) as (A & B & C). repeat (split; [assumption|]). exact I.
  - pose proof (fwdgt_start_ok f st irq s s1 s2 Hf Hs Hsu E1 E2) as (A & B & C & _). repeat (split; [assumption|]). exact I.
  - pose proof (pic32_start_ok f st irq s s1 s2 Hs Hr Hsu E1 E2) as (A & B & C). repeat (split; [assumption|]). exact I.
  - exact (rp_start_ok f st irq s s1 s2 Hf Hs Hr Hsu E1 E2).
  - pose proof (same5x_start_ok f st irq s s1 s2 Hs Hr E1 E2) as (A & B & C). repeat (split; [assumption|]). exact I.
  - pose proof (iwdg_start_ok f st irq s s1 s2 Hf Hs Hsu E1 E2) as (A & B & C & _). repeat (split; [assumption|]). exact I.
  - pose proof (f28_start_ok f st irq s s1 s2 Hs Hr E1 E2) as (A & B & C & _). cbn [suits] in Hsu. destruct Hs as [Ht _]. split; [exact A|].
    unfold timeout_ok, closed_ok, rp_loaded. rewrite B, C. rewrite (Z.max_l 0 (ws_t st - 1)) by lia. split; [reflexivity|]. split; [lia|exact I].
  - pose proof (tiny_start_ok f st irq s s1 s2 Hs Hsu E1 E2) as (A & B & C). repeat (split; [assumption|]). exact I.
Qed.
Lemma fine_ok : forall d f st irq s s1 s2, 0 < f -> set_ok st -> suits d f st ->
  wd_setup d f st s = WOk s1 -> wd_start d irq s1 = WOk s2 ->
  match d with Fwdgt => fine 1000000 f st s2 | Iwdg => fine 1000 f st s2 | _ => True end.
Proof.
  intros d f st irq s s1 s2 Hf Hs Hsu E1 E2. destruct d; try exact I; cbn [wd_setup] in E1.
  - pose proof (fwdgt_start_ok f st irq s s1 s2 Hf Hs Hsu E1 E2) as (_ & _ & _ & A). exact A.
  - pose proof (iwdg_start_ok f st irq s s1 s2 Hf Hs Hsu E1 E2) as (_ & _ & _ & A). exact A.
Qed.

(** * SAM3X *)
Lemma mr_locked : forall s v, w_once s = true -> w_key s = true -> hw_mr s v = s.
Proof. intros s v A B. unfold hw_mr. rewrite A, B. reflexivity. Qed.
Lemma mr_first : forall s v, w_once s = false \/ w_key s = false -> hw_mr s v = set_key (set_mode s v) true.
Proof. intros s v [A|A]; unfold hw_mr; rewrite A; [reflexivity|rewrite andb_false_r; reflexivity]. Qed.
Lemma sam3x_never : forall f st irq s s0 s1 s2, w_once s = true -> w_key s = false ->
  wd_init Sam3x f s = WOk s0 -> wd_setup Sam3x f st s0 = WOk s1 -> wd_start Sam3x irq s1 = WOk s2 -> running Sam3x s2 = false.
Proof.
  intros f st irq s s0 s1 s2 Ho Hk E0 E1 E2. cbn [wd_init] in E0. unfold sam3x_init in E0. cbv zeta in E0. rewrite (mr_first s) in E0 by auto.
  set (q := set_key (set_mode s (Z.lor (w_mode s) 32768)) true) in *. assert (Q1 : w_once q = true) by exact Ho. assert (Q2 : w_key q = true) by reflexivity.
  rewrite mr_locked in E0 by assumption. injection E0 as <-. cbn [wd_setup] in E1. unfold sam3x_setup in E1. destruct (atmel_wdv _ _); try discriminate. cbv zeta in E1.
  rewrite !(mr_locked q) in E1 by assumption. injection E1 as <-. unfold wd_start in E2. rewrite (mr_locked q) in E2 by assumption. injection E2 as <-.
  unfold q. cbn [running w_mode set_key set_mode]. rewrite Z.lor_spec. change (Z.testbit 32768 15) with true. rewrite orb_true_r. reflexivity.
Qed.
Lemma sam3x_complement : forall f st irq s s0 s1 s2, 0 < f -> set_ok st -> w_once s = false ->
  wd_init Sam3x f s = WOk s0 -> wd_setup Sam3x f st s0 = WOk s1 -> wd_start Sam3x irq s1 = WOk s2 ->
  running Sam3x s2 = true /\ limit Sam3x s2 = 128 * (4095 - ws_t st / (1000 / (f / 128))).
Proof.
  intros f st irq s s0 s1 s2 Hf [Ht _] Ho E0 E1 E2. cbn [wd_init] in E0. unfold sam3x_init in E0. cbv zeta in E0.
  assert (G : forall x v, w_once x = false -> w_mode (hw_mr x v) = v /\ w_once (hw_mr x v) = false) by (intros x v Hx; unfold hw_mr; rewrite Hx; split; [reflexivity|exact Hx]).
  injection E0 as E0. assert (A0 : w_mode s0 = Z.lor (Z.lor (w_mode s) 32768) 8192 /\ w_once s0 = false).
  { subst s0. destruct (G s (Z.lor (w_mode s) 32768) Ho) as [G1 G2]. destruct (G _ (Z.lor (w_mode (hw_mr s (Z.lor (w_mode s) 32768))) 8192) G2) as [G3 G4]. split; [rewrite G3, G1; reflexivity|exact G4]. }
  clear E0. destruct A0 as [M0 O0]. cbn [wd_setup] in E1. unfold sam3x_setup in E1. destruct (atmel_wdv f (ws_t st)) as [v| |] eqn:Ev; try discriminate.
  pose proof (atmel_wdv_ok _ _ _ Hf Ev) as [Hv _]. pose proof (atmel_wdv_val _ _ _ Hf Ht Ev) as [Vv _].
  cbv zeta in E1. injection E1 as E1. assert (A1 : w_mode s1 = Z.lor (Z.land (w_mode s0) (Z.lnot 4095)) (u32 (Z.lnot v)) /\ w_once s1 = false).
  { subst s1. destruct (G s0 (Z.land (w_mode s0) (Z.lnot 4095)) O0) as [G1 G2]. destruct (G _ (Z.lor (w_mode (hw_mr s0 (Z.land (w_mode s0) (Z.lnot 4095)))) (u32 (Z.lnot v))) G2) as [G3 G4]. split; [rewrite G3, G1; reflexivity|exact G4]. }
  clear E1. destruct A1 as [M1 O1]. unfold wd_start in E2. injection E2 as E2. assert (M2 : w_mode s2 = Z.land (w_mode s1) (Z.lnot 32768)) by (subst s2; apply (G s1); exact O1). clear E2.
  cbn [running limit]. rewrite M2, M1, M0.
  assert (U : u32 (Z.lnot v) = 4294967295 - v). { unfold u32. replace (Z.lnot v) with (4294967295 - v + (-1) * 4294967296) by (unfold Z.lnot; lia). rewrite Z.mod_add by lia. apply Z.mod_small. lia. }
  rewrite U. set (m := Z.lor (Z.lor (w_mode s) 32768) 8192). rewrite <- Vv. split.
  - rewrite !bit_land_lnot by lia. change (Z.testbit 32768 15) with true. change (Z.testbit 32768 13) with false. cbn [negb]. rewrite andb_false_r, andb_true_r. cbn [negb andb]. rewrite Z.lor_spec.
    rewrite bit_land_lnot by lia. change (Z.testbit 4095 13) with false. cbn [negb]. rewrite andb_true_r. unfold m. rewrite Z.lor_spec. change (Z.testbit 8192 13) with true. rewrite orb_true_r. reflexivity.
  - f_equal. rewrite field_lnot, field_lor, field_lnot by lia. change (field 4095 0 12) with (Z.ones 12). rewrite field_clear, Z.lor_0_l by lia. change (field 32768 0 12) with 0. change (Z.lnot 0) with (-1). rewrite Z.land_m1_r.
    rewrite field_arith by lia. rewrite Z.pow_0_r, Z.div_1_r. change (2 ^ 12) with 4096. replace (4294967295 - v) with (4095 - v + 1048575 * 4096) by lia. rewrite Z.mod_add by lia. apply Z.mod_small. lia.
Qed.
