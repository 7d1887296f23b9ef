(** PwmProofs.v *)
From Verif Require Import Base PwmModel PwmSpec.

Local Ltac dz := match goal with
  | |- context [if ?b then _ else _] => destruct b eqn:? end.

Lemma p32_id x : 0 <= x < 4294967296 -> p32 x = x.
Proof. intros. unfold p32. now apply Z.mod_small. Qed.
Lemma p16_id x : 0 <= x < 65536 -> p16 x = x.
Proof. intros. unfold p16. now apply Z.mod_small. Qed.
Lemma p24_id x : 0 <= x < 16777216 -> p24 x = x.
Proof. intros. unfold p24. now apply Z.mod_small. Qed.

(** a whole number of MHz *)
Lemma whole_n f D us m : 0 < D -> 0 <= us -> 0 < f -> (1000000 * D | f) -> f * us <= 1000000 * D * m -> m < 4294967296 ->
  p32 (f / D / MHZ * us) = f / D / MHZ * us /\ 1000000 * (D * (f / D / MHZ * us)) = f * us /\ 0 <= f / D / MHZ * us <= m.
Proof.
  intros HD Hu Hf [k Hk] Hr Hm.
  assert (E : f / D / MHZ = k).
  { rewrite Hk. replace (k * (1000000 * D)) with (k * 1000000 * D) by ring. rewrite Z.div_mul by lia.
    unfold MHZ. apply Z.div_mul. lia. }
  rewrite E. assert (0 <= k) by nia.
  assert (k * us <= m) by nia.
  split; [apply p32_id; nia|]. split; [nia|nia].
Qed.
Lemma whole_hz f D h us m : 0 < D -> 0 <= us -> 0 < f -> h * D = f -> (1000000 * D | f) -> f * us <= 1000000 * D * m -> m < 4294967296 ->
  p32 (h / MHZ * us) = h / MHZ * us /\ 1000000 * (D * (h / MHZ * us)) = f * us /\ 0 <= h / MHZ * us <= m.
Proof.
  intros HD Hu Hf Hh Hw Hr Hm. pose proof (whole_n f D us m HD Hu Hf Hw Hr Hm) as K.
  replace (f / D) with h in K; [exact K|]. rewrite <- Hh. symmetry. apply Z.div_mul. lia.
Qed.

Lemma pic_loop_in ps f us p n : pic_loop ps f us = Some (p, n) -> In p ps /\ n = p32 (f / p / MHZ * us) /\ n <= 65535.
Proof.
  induction ps as [|q ps IH]; [discriminate|]. cbn [pic_loop]. cbv zeta. dz; intros E.
  - injection E as <- <-. split; [now left|]. split; [reflexivity|]. now apply Z.leb_le.
  - destruct (IH E) as (A & B). split; [now right|exact B].
Qed.
Lemma ra4_loop_in ps f us l p n : ra4_loop ps f us l = (n, Some p) -> In p ps /\ n = p32 (f / p / MHZ * us) /\ n <= 65535.
Proof.
  revert l. induction ps as [|q ps IH]; intros l; [discriminate|]. cbn [ra4_loop]. cbv zeta. dz; intros E.
  - injection E as <- <-. split; [now left|]. split; [reflexivity|]. now apply Z.leb_le.
  - destruct (IH _ E) as (A & B). split; [now right|exact B].
Qed.
Lemma p32_range x : 0 <= p32 x < 4294967296.
Proof. apply Z.mod_pos_bound. lia. Qed.
Lemma stm_loop_in fuel : forall psc f us p n, stm_loop fuel psc f us = (p, n) -> 0 <= psc -> 0 <= f ->
  psc + Z.of_nat fuel >= f / MHZ -> psc < p <= psc + Z.of_nat fuel + 1 /\ n = p32 (f / p / MHZ * us) /\ n <= 65535.
Proof.
  induction fuel as [|fuel IH]; intros psc f us p n E Hp Hf Hb; cbn [stm_loop] in E; cbv zeta in E.
  - injection E as <- <-. split; [lia|]. split; [reflexivity|].
    assert (ZZ : f / (psc + 1) / MHZ = 0).
    { rewrite Z.div_div by (unfold MHZ; lia). apply Z.div_small. split; [lia|].
      pose proof (Z.mul_div_le f MHZ ltac:(unfold MHZ; lia)). pose proof (Z.mul_succ_div_gt f MHZ ltac:(unfold MHZ; lia)).
      unfold MHZ in *. nia. }
    rewrite ZZ, Z.mul_0_l. discriminate.
  - destruct (65535 <? p32 (f / (psc + 1) / MHZ * us)) eqn:C.
    + destruct (IH (psc + 1) f us p n E ltac:(lia) Hf ltac:(lia)) as (A & B & D). split; [lia|]. split; assumption.
    + injection E as <- <-. split; [lia|]. split; [reflexivity|]. apply Z.ltb_ge in C. exact C.
Qed.

Lemma period_exact d f us s n : p_dual s = false -> 0 < p_div s -> p_top s = n -> 1000000 * (p_div s * n) = f * us ->
  period_ok d f us s.
Proof.
  intros Hd Hp Ht E. unfold period_ok, counts. rewrite Hd, Ht. destruct d; lia.
Qed.

Theorem period_partial d f s o us s' :
  0 < f < 2147483648 -> 0 <= us < 4294967296 -> 0 < p_div s -> p_dual s = false -> knows_clock d f s o ->
  pwm_set_period d f s o us = POk s' ->
  whole_mhz d f s' -> f * us <= 1000000 * p_div s' * max_top d -> f / 1000000 * us < 4294967296 ->
  period_ok d f us s'.
Proof.
  intros Hf Hu Hp Hd Hk E Hw Hr Ho.
  destruct d; cbn [pwm_set_period knows_clock whole_mhz max_top] in *.
  - unfold gd_period in E. destruct (us =? 0); [discriminate|]. cbv zeta in E. destruct (_ <=? 65535) eqn:C; [|discriminate].
    injection E as <-. cbn [p_div p_top set_top set_nc] in *.
    destruct (whole_hz f (p_div s) (p_hz s) us 65535 Hp ltac:(lia) ltac:(lia) Hk Hw Hr ltac:(lia)) as (A & B & D).
    eapply period_exact; [exact Hd|exact Hp|reflexivity|]. cbn [p_div p_top set_top set_nc]. rewrite A. exact B.
  - unfold emios_period in E. destruct (us =? 0); [discriminate|]. cbv zeta in E. destruct (_ =? 0); [discriminate|].
    destruct (negb _); [discriminate|]. injection E as <-. cbn [p_div p_top set_top set_nc] in *. rewrite Hk in *.
    destruct (whole_n f (p_div s) us 1048575 Hp ltac:(lia) ltac:(lia) Hw Hr ltac:(lia)) as (A & B & D).
    eapply period_exact; [exact Hd|exact Hp|reflexivity|]. cbn [p_div p_top set_top set_nc]. rewrite A. exact B.
  - unfold pic_period in E. destruct (us =? 0); [discriminate|].
    destruct (pic_loop _ f us) as [[p n]|] eqn:L; [|discriminate]. injection E as <-. cbn [p_div p_top set_top set_nc set_div] in *.
    destruct (pic_loop_in _ _ _ _ _ L) as (I & N & B).
    assert (0 < p) by (cbn in I; lia).
    destruct (whole_n f p us 65535 ltac:(lia) ltac:(lia) ltac:(lia) Hw Hr ltac:(lia)) as (A & B' & D).
    eapply period_exact; [exact Hd|cbn [p_div p_top set_top set_nc set_div]; lia|reflexivity|]. cbn [p_div p_top set_top set_nc set_div]. rewrite N, A. exact B'.
  - unfold ra4_period in E. destruct (us =? 0); [discriminate|].
    destruct (ra4_loop _ f us _) as [n [p|]] eqn:L; [|discriminate]. injection E as <-. cbn [p_div p_top set_top set_nc set_div] in *.
    destruct (ra4_loop_in _ _ _ _ _ _ L) as (I & N & B).
    assert (0 < p) by (cbn in I; lia).
    destruct (whole_n f p us 65535 ltac:(lia) ltac:(lia) ltac:(lia) Hw Hr ltac:(lia)) as (A & B' & D).
    eapply period_exact; [exact Hd|cbn [p_div p_top set_top set_nc set_div]; lia|reflexivity|]. cbn [p_div p_top set_top set_nc set_div]. rewrite N, A. exact B'.
  - unfold rp_period in E. destruct (us =? 0); [discriminate|]. cbv zeta in E. rewrite Hk in E.
    rewrite Z.div_1_r in E. destruct Hw as [k Hkk].
    assert (F : f / MHZ = k) by (rewrite Hkk; unfold MHZ; apply Z.div_mul; lia).
    change 1000000 with MHZ in Ho. rewrite F in *.
    assert (0 <= k) by nia.
    rewrite (p32_id (k * us)) in E by nia.
    destruct (65535 <? k * us) eqn:C.
    + apply Z.ltb_lt in C.
      set (q := k * us / 65535 + 1) in *.
      destruct (k * us / q =? 0); [discriminate|]. injection E as <-.
      cbn [p_div p_top set_top set_nc set_div set_sdiv] in Hr.
      assert (Q : 1 < q). { unfold q. assert (1 <= k * us / 65535); [apply Z.div_le_lower_bound; lia|lia]. }
      assert (G : k * us < 65535 * q). { unfold q. pose proof (Z.mul_succ_div_gt (k * us) 65535 ltac:(lia)). lia. }
      assert (R : k * us <= rp_hw_div q * 65535) by nia.
      assert (Q2 : q <= 256).
      { unfold rp_hw_div in R. destruct (q mod 256 =? 0) eqn:Z0.
        - assert (k * us / 65535 <= 256); [apply Z.div_le_upper_bound; lia|].
          assert (q <= 257) by (unfold q; lia).
          apply Z.eqb_eq in Z0. destruct (Z.eq_dec q 257) as [->|]; [discriminate Z0|lia].
        - pose proof (Z.mod_pos_bound q 256 ltac:(lia)).
          assert (k * us / 65535 <= 255); [apply Z.div_le_upper_bound; lia|]. unfold q. lia. }
      assert (D : rp_hw_div q = q).
      { unfold rp_hw_div. destruct (Z.eq_dec q 256) as [->|]; [reflexivity|].
        rewrite Z.mod_small by lia. destruct (q =? 0) eqn:Z0; [apply Z.eqb_eq in Z0; lia|reflexivity]. }
      assert (N : 0 <= k * us / q < 65536).
      { split; [apply Z.div_pos; lia|]. apply Z.div_lt_upper_bound; [lia|]. nia. }
      unfold period_ok, counts. cbn [p_dual p_div p_top set_top set_nc set_div set_sdiv]. rewrite Hd, D, (p16_id _ N).
      pose proof (Z.mul_div_le (k * us) q ltac:(lia)). pose proof (Z.mul_succ_div_gt (k * us) q ltac:(lia)).
      rewrite Hkk. unfold MHZ. set (m := k * us / q) in *. replace (k * 1000000 * us) with (1000000 * (k * us)) by ring.
      replace (q * (m + 1)) with (q * m + q) by ring. replace (q * Z.succ m) with (q * m + q) in * by ring. lia.
    + apply Z.ltb_ge in C. destruct (k * us =? 0); [discriminate|]. injection E as <-.
      assert (NN : 0 <= k * us) by (apply Z.mul_nonneg_nonneg; lia).
      eapply period_exact; [exact Hd|reflexivity|reflexivity|]. cbn [p_div p_top set_top set_nc set_div set_sdiv].
      change (rp_hw_div 1) with 1. rewrite (p16_id (k * us)) by (clear - C NN; lia). rewrite Hkk. cbn [p_top set_top]. ring.
  - unfold stm_period in E. destruct (us =? 0); [discriminate|].
    destruct (stm_loop _ 0 f us) as [p n] eqn:L. cbv zeta in E. destruct (n =? 0); [discriminate|]. injection E as <-.
    cbn [p_div p_top set_top set_nc set_div] in *.
    assert (M : 0 <= f / MHZ <= 2147).
    { split; [apply Z.div_pos; unfold MHZ; lia|]. apply Z.lt_succ_r. apply Z.div_lt_upper_bound; unfold MHZ; lia. }
    destruct (stm_loop_in _ _ _ _ _ _ L ltac:(lia) ltac:(lia) ltac:(lia)) as (I & N & B).
    assert (P : p16 (p - 1) + 1 = p) by (rewrite p16_id; lia).
    rewrite P in *.
    destruct (whole_n f p us 65535 ltac:(lia) ltac:(lia) ltac:(lia) Hw Hr ltac:(lia)) as (A & B' & D).
    eapply period_exact; [exact Hd|cbn [p_div p_top set_top set_nc set_div]; lia|reflexivity|]. cbn [p_div p_top set_top set_nc set_div].
    rewrite N, A. exact B'.
  - unfold ti_period in E. destruct (us =? 0); [discriminate|]. cbv zeta in E. destruct (_ =? 0); [discriminate|].
    injection E as <-. cbn [p_div p_top set_top set_nc] in *.
    destruct (whole_hz f (p_div s) (p_hz s) us 65535 Hp ltac:(lia) ltac:(lia) Hk Hw Hr ltac:(lia)) as (A & B & D).
    eapply period_exact; [exact Hd|exact Hp|reflexivity|]. cbn [p_div p_top set_top set_nc]. rewrite A, p16_id by lia. exact B.
  - unfold tiny_period in E. destruct (us =? 0); [discriminate|]. cbv zeta in E.
    injection E as <-. cbn [p_div p_top set_top set_nc] in *. rewrite Hk in *.
    destruct (whole_n f (p_div s) us 65535 Hp ltac:(lia) ltac:(lia) Hw Hr ltac:(lia)) as (A & B & D).
    eapply period_exact; [exact Hd|exact Hp|reflexivity|]. cbn [p_div p_top set_top set_nc]. rewrite A, p16_id by lia. exact B.
  - unfold avr_period in E. destruct (us =? 0); [discriminate|]. cbv zeta in E. destruct (_ =? 0); [discriminate|].
    injection E as <-.
    assert (X : forall t, p_div (if p_topA s then set_cmp (set_top (set_nc s 0 t) t) 0 t else set_top (set_nc s 0 t) t) = p_div s)
      by (intros; destruct (p_topA s); reflexivity).
    rewrite X in *. rewrite Hk in *.
    destruct (whole_n f (p_div s) us 65535 Hp ltac:(lia) ltac:(lia) Hw Hr ltac:(lia)) as (A & B & D).
    rewrite A, p16_id by lia.
    eapply period_exact; [destruct (p_topA s); exact Hd|rewrite X; exact Hp|destruct (p_topA s); reflexivity|]. rewrite X. exact B.
  - unfold tc_period in E. injection E as <-. cbn [p_div p_top set_top set_nc] in *.
    destruct (whole_hz f (p_div s) (p_hz s) us 65535 Hp ltac:(lia) ltac:(lia) Hk Hw Hr ltac:(lia)) as (A & B & D).
    eapply period_exact; [exact Hd|exact Hp|reflexivity|]. cbn [p_div p_top set_top set_nc]. rewrite A, p16_id by lia. exact B.
  - unfold tc_period in E. injection E as <-. cbn [p_div p_top set_top set_nc] in *.
    destruct (whole_hz f (p_div s) (p_hz s) us 4294967295 Hp ltac:(lia) ltac:(lia) Hk Hw Hr ltac:(lia)) as (A & B & D).
    eapply period_exact; [exact Hd|exact Hp|reflexivity|]. cbn [p_div p_top set_top set_nc]. rewrite A, p32_id by lia. exact B.
  - unfold e5_period in E. cbv zeta in E. destruct (negb _); [discriminate|]. destruct (_ && _); [discriminate|].
    injection E as <-. cbn [p_div p_top set_top set_nc] in *. rewrite Hk in *.
    destruct (whole_n f (p_div s) us 255 Hp ltac:(lia) ltac:(lia) Hw Hr ltac:(lia)) as (A & B & D).
    eapply period_exact; [exact Hd|exact Hp|reflexivity|]. cbn [p_div p_top set_top set_nc]. rewrite A. exact B.
  - unfold e5_period in E. cbv zeta in E. destruct (negb _); [discriminate|]. destruct (_ && _); [discriminate|].
    injection E as <-. cbn [p_div p_top set_top set_nc] in *. rewrite Hk in *.
    destruct (whole_n f (p_div s) us 65535 Hp ltac:(lia) ltac:(lia) Hw Hr ltac:(lia)) as (A & B & D).
    eapply period_exact; [exact Hd|exact Hp|reflexivity|]. cbn [p_div p_top set_top set_nc]. rewrite A. exact B.
  - unfold e5_period in E. cbv zeta in E. destruct (negb _); [discriminate|]. destruct (_ && _); [discriminate|].
    injection E as <-. cbn [p_div p_top set_top set_nc] in *. rewrite Hk in *.
    destruct (whole_n f (p_div s) us 4294967295 Hp ltac:(lia) ltac:(lia) Hw Hr ltac:(lia)) as (A & B & D).
    eapply period_exact; [exact Hd|exact Hp|reflexivity|]. cbn [p_div p_top set_top set_nc]. rewrite A. exact B.
Qed.

(** refused: nothing of the output changes *)
Theorem refused_same d f s o us e s' : pwm_set_period d f s o us = PErr e s' -> same_output s s'.
Proof.
  intros E.
  assert (S0 : same_output s s) by (repeat split).
  assert (S1 : forall k n, same_output s (set_nc s k n)) by (intros; repeat split).
  assert (S2 : forall k n j m, same_output s (set_nc (set_sdiv s k n) j m)) by (intros; repeat split).
  destruct d; cbn [pwm_set_period] in E;
    unfold gd_period, emios_period, pic_period, ra4_period, rp_period, stm_period, ti_period, tiny_period, avr_period, tc_period, e5_period in E;
    cbv zeta in E; try discriminate;
    repeat match type of E with
    | (if ?b then _ else _) = _ => destruct b
    | (let (_, _) := ?x in _) = _ => destruct x
    | match ?x with Some _ => _ | None => _ end = _ => destruct x as [[]|] || destruct x
    | match ?x with (_, _) => _ end = _ => destruct x as [? []]
    end; try discriminate; injection E as <- <-; auto.
Qed.
Theorem refused_errno d f s o us e s' : pwm_set_period d f s o us = PErr e s' -> e < 0.
Proof.
  intros E.
  destruct d; cbn [pwm_set_period] in E;
    unfold gd_period, emios_period, pic_period, ra4_period, rp_period, stm_period, ti_period, tiny_period, avr_period, tc_period, e5_period in E;
    cbv zeta in E; try discriminate;
    repeat match type of E with
    | (if ?b then _ else _) = _ => destruct b
    | (let (_, _) := ?x in _) = _ => destruct x
    | match ?x with Some _ => _ | None => _ end = _ => destruct x as [[]|] || destruct x
    | match ?x with (_, _) => _ end = _ => destruct x as [? []]
    end; try discriminate; injection E as <- <-; reflexivity.
Qed.

(** accepted: with a given divider, every period of 1 to max_top counts *)
Theorem accepts d f s o us : 0 < f < 2147483648 -> 0 < us < 4294967296 -> 0 < p_div s -> knows_clock d f s o ->
  (d = TcE5_16 \/ d = TcE5_32 -> p_mx s = true) ->
  match d with Pic32 | Ra4 | Stm32 | Rp2040 => False | _ => True end ->
  (1000000 * p_div s | f) -> f * us <= 1000000 * p_div s * max_top d ->
  exists s', pwm_set_period d f s o us = POk s' /\ 1000000 * (p_div s' * p_top s') = f * us.
Proof.
  intros Hf Hu Hp Hk Hm Hd Hw Hr.
  assert (HH : forall h m, h * p_div s = f -> f * us <= 1000000 * p_div s * m -> m < 4294967296 ->
     p32 (h / MHZ * us) = h / MHZ * us /\ 1000000 * (p_div s * (h / MHZ * us)) = f * us /\ 0 <= h / MHZ * us <= m).
  { intros h m A B C. apply (whole_hz f (p_div s) h us m Hp (Z.lt_le_incl _ _ (proj1 Hu)) (proj1 Hf) A Hw B C). }
  assert (HN : forall m, f * us <= 1000000 * p_div s * m -> m < 4294967296 ->
     p32 (f / p_div s / MHZ * us) = f / p_div s / MHZ * us /\ 1000000 * (p_div s * (f / p_div s / MHZ * us)) = f * us /\ 0 <= f / p_div s / MHZ * us <= m).
  { intros m B C. apply (whole_n f (p_div s) us m Hp (Z.lt_le_incl _ _ (proj1 Hu)) (proj1 Hf) Hw B C). }
  assert (U0 : (us =? 0) = false) by (apply Z.eqb_neq; lia).
  assert (PZ : forall n, 1000000 * (p_div s * n) = f * us -> (n =? 0) = false).
  { intros n A. apply Z.eqb_neq. intros ->. nia. }
  destruct d; try contradiction; cbn [pwm_set_period knows_clock max_top] in *;
    unfold gd_period, emios_period, ti_period, tiny_period, avr_period, tc_period, e5_period; cbv zeta; rewrite ?U0, ?Hk.
  - destruct (HH _ _ Hk Hr ltac:(lia)) as (A & B & C). rewrite A. replace (_ <=? 65535) with true by (symmetry; apply Z.leb_le; lia).
    eexists; split; [reflexivity|exact B].
  - destruct (HN _ Hr ltac:(lia)) as (A & B & C). rewrite A, (PZ _ B). replace (_ <? 1048576) with true by (symmetry; apply Z.ltb_lt; lia).
    cbn [negb]. eexists; split; [reflexivity|exact B].
  - destruct (HH _ _ Hk Hr ltac:(lia)) as (A & B & C). rewrite A, (PZ _ B).
    eexists; split; [reflexivity|]. cbn [p_div p_top set_top set_nc]. rewrite p16_id by lia. exact B.
  - destruct (HN _ Hr ltac:(lia)) as (A & B & C). rewrite A, p16_id by lia. eexists; split; [reflexivity|exact B].
  - destruct (HN _ Hr ltac:(lia)) as (A & B & C). rewrite A, p16_id by lia. rewrite (PZ _ B). eexists; split; [reflexivity|].
    destruct (p_topA s); exact B.
  - destruct (HH _ _ Hk Hr ltac:(lia)) as (A & B & C). rewrite A.
    eexists; split; [reflexivity|]. cbn [p_div p_top set_top set_nc]. rewrite p16_id by lia. exact B.
  - destruct (HH _ _ Hk Hr ltac:(lia)) as (A & B & C). rewrite A.
    eexists; split; [reflexivity|]. cbn [p_div p_top set_top set_nc]. rewrite p32_id by lia. exact B.
  - destruct (HN _ Hr ltac:(lia)) as (A & B & C). rewrite A. replace (_ <=? 255) with true by (symmetry; apply Z.leb_le; lia).
    cbn [negb andb]. eexists; split; [reflexivity|exact B].
  - destruct (HN _ Hr ltac:(lia)) as (A & B & C). rewrite A. replace (_ <=? 65535) with true by (symmetry; apply Z.leb_le; lia).
    rewrite (Hm (or_introl eq_refl)). cbn [negb andb]. eexists; split; [reflexivity|exact B].
  - destruct (HN _ Hr ltac:(lia)) as (A & B & C). rewrite A. replace (_ <=? 4294967295) with true by (symmetry; apply Z.leb_le; lia).
    rewrite (Hm (or_intror eq_refl)). cbn [negb andb]. eexists; split; [reflexivity|exact B].
Qed.

(** GD32: the divider is one more than meant *)
Theorem gd_clock_wrong f s fr s' : 0 < f -> gd_clock f s fr = POk s' -> p_hz s' = fr /\ f < p_hz s' * p_div s'.
Proof.
  intros Hf E. unfold gd_clock in E. destruct (fr <=? 0) eqn:C; [discriminate|]. cbv zeta in E.
  destruct (_ <=? 65535); [|discriminate]. injection E as <-. cbn [p_hz p_div set_hz set_div]. split; [reflexivity|].
  apply Z.leb_gt in C. pose proof (Z.mul_succ_div_gt f fr C). lia.
Qed.
Theorem gd_period_wrong f s fr s' o us s'' : 0 < f -> (fr | f) -> (1000000 | fr) -> gd_clock f s fr = POk s' -> p_dual s = false ->
  0 < us -> fr / 1000000 * us <= 65535 ->
  pwm_set_period Gd32 f s' o us = POk s'' -> ~ period_ok Gd32 f us s''.
Proof.
  intros Hf [k Hk] [m Hm] E Hd Hu Hn P. unfold gd_clock in E. destruct (fr <=? 0) eqn:C; [discriminate|]. cbv zeta in E.
  destruct (_ <=? 65535); [|discriminate]. injection E as <-. apply Z.leb_gt in C.
  cbn [pwm_set_period] in P. unfold gd_period in P. destruct (us =? 0); [discriminate|]. cbv zeta in P.
  cbn [p_hz set_hz set_div] in P.
  assert (M : fr / MHZ = m) by (rewrite Hm; unfold MHZ; apply Z.div_mul; lia).
  change 1000000 with MHZ in Hn. rewrite M in *.
  assert (0 < m) by lia. assert (0 < m * us) by nia.
  rewrite (p32_id (m * us)) in P by lia. replace (m * us <=? 65535) with true in P by (symmetry; apply Z.leb_le; lia).
  injection P as <-. unfold period_ok, counts. cbn [p_dual p_div p_top set_top set_nc set_hz set_div]. rewrite Hd.
  assert (K : f / fr = k) by (rewrite Hk; apply Z.div_mul; lia). rewrite K.
  assert (0 < k) by nia.
  replace (f * us) with (1000000 * (k * (m * us))) by (rewrite Hk, Hm; ring).
  replace ((k + 1) * (m * us + 1)) with (k * (m * us) + k + m * us + 1) by ring. lia.
Qed.

(** ** duty cycle *)
Lemma shr16_val dc n : 0 <= dc <= 65535 -> 0 <= n <= 65537 -> shr16 dc n = dc * n / 65536.
Proof. intros. unfold shr16. rewrite p32_id; [reflexivity|nia]. Qed.
Lemma by65535_val dc n : 0 <= dc <= 65535 -> 0 <= n <= 65535 -> by65535 dc n = dc * n / 65535.
Proof. intros. unfold by65535. rewrite p32_id; [reflexivity|nia]. Qed.
Lemma shr16_ok dc n : 0 <= dc <= 65535 -> 0 <= n <= 65535 -> duty_ok dc n (dc * n / 65536).
Proof.
  intros Hd Hn. unfold duty_ok. pose proof (Z.mul_div_le (dc * n) 65536 ltac:(lia)). pose proof (Z.mul_succ_div_gt (dc * n) 65536 ltac:(lia)).
  assert (0 <= dc * n / 65536 < 65535).
  { split; [apply Z.div_pos; nia|]. apply Z.div_lt_upper_bound; nia. }
  lia.
Qed.
Lemma shr16_ok1 dc n : 0 < dc <= 65535 -> 0 <= n <= 65535 -> duty_ok dc n (dc * n / 65536 + 1).
Proof.
  intros Hd Hn. unfold duty_ok. pose proof (Z.mul_div_le (dc * n) 65536 ltac:(lia)). pose proof (Z.mul_succ_div_gt (dc * n) 65536 ltac:(lia)).
  assert (0 <= dc * n / 65536 < 65535).
  { split; [apply Z.div_pos; nia|]. apply Z.div_lt_upper_bound; nia. }
  lia.
Qed.
Lemma by65535_ok dc n : 0 <= dc <= 65535 -> 0 <= n <= 65535 -> duty_ok dc n (dc * n / 65535).
Proof.
  intros Hd Hn. unfold duty_ok. pose proof (Z.mul_div_le (dc * n) 65535 ltac:(lia)). pose proof (Z.mul_succ_div_gt (dc * n) 65535 ltac:(lia)). lia.
Qed.

(** what is computed *)
Definition duty_val (d : drv) (dc n : Z) : Z :=
  match d with Gd32 | TiEpwm => dc * n / 65535 | TcX7 => if dc =? 0 then 0 else dc * n / 65536 + 1 | _ => dc * n / 65536 end.

Lemma set1_eq {A} (g : Z -> A) k v : set1 g k v k = v.
Proof. unfold set1. now rewrite Z.eqb_refl. Qed.
Lemma set1_ne {A} (g : Z -> A) k v j : j <> k -> set1 g k v j = g j.
Proof. intros. unfold set1. apply Z.eqb_neq in H. now rewrite H. Qed.

Lemma duty_computed d s o dc : 0 <= dc <= 65535 -> 0 <= p_nc s (nc_out d o) <= max_top d -> p_nc s (nc_out d o) <= 65535 ->
  p_inv s = false -> (d <> TcX7 -> p_flat s (at_out d o) = false) ->
  exists s', pwm_set_duty_cycle d s o dc = POk s' /\ active_counts s' (at_out d o) = duty_val d dc (p_nc s (nc_out d o)).
Proof.
  intros Hdc Hn Hn' Hi Hfl.
  assert (B : 0 <= dc * p_nc s (nc_out d o) / 65536 < 65535).
  { split; [apply Z.div_pos; nia|]. apply Z.div_lt_upper_bound; nia. }
  assert (B' : 0 <= dc * p_nc s (nc_out d o) / 65535 <= 65535).
  { split; [apply Z.div_pos; nia|]. apply Z.div_le_upper_bound; nia. }
  destruct d; cbn [pwm_set_duty_cycle nc_out timer_ncycles at_out duty_val max_top] in *; cbv zeta;
    rewrite ?Hi, ?shr16_val, ?by65535_val by lia;
    rewrite ?p16_id, ?p24_id by lia.
  1-8: eexists; split; [reflexivity|]; unfold active_counts; cbn [p_flat p_cmp set_cmp]; rewrite (Hfl ltac:(discriminate)), set1_eq; reflexivity.
  - eexists; split; [reflexivity|]. unfold active_counts.
    destruct (p_topA s && _); cbn [p_flat p_cmp set_cmp set_top]; rewrite (Hfl ltac:(discriminate)), set1_eq; reflexivity.
  - eexists; split; [reflexivity|]. unfold active_counts. cbn [p_flat p_cmp set_cmp set_flat]. rewrite !set1_eq.
    destruct (dc =? 0); reflexivity.
  - eexists; split; [reflexivity|]; unfold active_counts; cbn [p_flat p_cmp set_cmp]; rewrite (Hfl ltac:(discriminate)), set1_eq; reflexivity.
  - replace (_ <? 256) with true.
    2:{ symmetry. apply Z.ltb_lt. apply Z.div_lt_upper_bound; nia. }
    eexists; split; [reflexivity|]; unfold active_counts; cbn [p_flat p_cmp set_cmp]; rewrite (Hfl ltac:(discriminate)), set1_eq; reflexivity.
  - replace (_ <? 65536) with true by (symmetry; apply Z.ltb_lt; lia).
    eexists; split; [reflexivity|]; unfold active_counts; cbn [p_flat p_cmp set_cmp]; rewrite (Hfl ltac:(discriminate)), set1_eq; reflexivity.
  - eexists; split; [reflexivity|]; unfold active_counts; cbn [p_flat p_cmp set_cmp]; rewrite (Hfl ltac:(discriminate)), set1_eq; reflexivity.
Qed.
Lemma duty_val_ok d dc n : 0 <= dc <= 65535 -> 0 <= n <= 65535 -> duty_ok dc n (duty_val d dc n).
Proof.
  intros A B. destruct d; cbn [duty_val]; try (now apply shr16_ok); try (now apply by65535_ok).
  destruct (dc =? 0) eqn:C; [apply Z.eqb_eq in C; subst; unfold duty_ok; lia|]. apply Z.eqb_neq in C. apply shr16_ok1; lia.
Qed.
Lemma duty_val_mono d dc dc' n : 0 <= dc <= dc' -> 0 <= n -> duty_val d dc n <= duty_val d dc' n.
Proof.
  intros A B.
  assert (S : dc * n / 65536 <= dc' * n / 65536) by (apply Z.div_le_mono; nia).
  assert (T : dc * n / 65535 <= dc' * n / 65535) by (apply Z.div_le_mono; nia).
  destruct d; cbn [duty_val]; try assumption.
  destruct (dc =? 0) eqn:C, (dc' =? 0) eqn:C'; try lia.
  - assert (0 <= dc' * n / 65536) by (apply Z.div_pos; nia). lia.
Qed.
Lemma duty_val_0 d n : duty_val d 0 n = 0.
Proof. destruct d; reflexivity. Qed.
Lemma duty_val_max d n : 0 < n <= 65535 -> d <> TcX7 -> duty_val d 65535 n <= n - 1 \/ ((d = Gd32 \/ d = TiEpwm) /\ duty_val d 65535 n = n).
Proof.
  intros A D.
  assert (S : 65535 * n / 65536 <= n - 1) by (apply Z.lt_le_pred; apply Z.div_lt_upper_bound; lia).
  assert (T : 65535 * n / 65535 = n) by (rewrite Z.mul_comm; apply Z.div_mul; lia).
  destruct d; cbn [duty_val]; try (left; assumption); try (right; split; [tauto|assumption]). congruence.
Qed.
Lemma duty_x7_max n : 0 < n <= 65535 -> duty_val TcX7 65535 n = n.
Proof.
  intros. cbn [duty_val]. change (65535 =? 0) with false. cbn iota.
  assert (65535 * n / 65536 = n - 1); [|lia]. symmetry. apply Z.div_unique with (r := 65536 - n); lia.
Qed.

(** an output's duty cycle leaves the others *)
Theorem duty_isolated d s o dc s' : d <> TcE5_16 -> d <> TcE5_32 -> ~ (d = Avr /\ p_topA s = true /\ o = 0) ->
  pwm_set_duty_cycle d s o dc = POk s' ->
  p_top s' = p_top s /\ p_div s' = p_div s /\ p_run s' = p_run s /\
  forall o', o' <> o -> p_cmp s' o' = p_cmp s o' /\ p_flat s' o' = p_flat s o' /\ p_on s' o' = p_on s o'.
Proof.
  intros D1 D2 D3 E.
  destruct d; try congruence; cbn [pwm_set_duty_cycle] in E; cbv zeta in E;
    try (destruct (_ <? 256) in E; [|discriminate]);
    injection E as <-; try (split; [reflexivity|]; split; [reflexivity|]; split; [reflexivity|]; intros o' Ho;
      cbn [p_cmp p_flat p_on set_cmp set_flat]; rewrite ?(set1_ne _ _ _ _ Ho); auto; fail).
  destruct (p_topA s) eqn:T; [destruct (o =? 0) eqn:O|]; cbn [andb].
  1: apply Z.eqb_eq in O; subst; exfalso; apply D3; auto.
  all: split; [reflexivity|]; split; [reflexivity|]; split; [reflexivity|]; intros o' Ho;
      cbn [p_cmp p_flat p_on set_cmp set_flat]; rewrite ?(set1_ne _ _ _ _ Ho); auto.
Qed.
(** and the period set through one output is not known to the others *)
Theorem period_stale d f s o us s' o' : timer_ncycles d = false -> o' <> o -> pwm_set_period d f s o us = POk s' -> p_nc s' o' = p_nc s o'.
Proof.
  intros T Ho E.
  assert (X : forall j n g, set1 g o n o' = (g : Z -> Z) o' \/ j = j :> Z) by (intros; now right).
  destruct d; try discriminate; cbn [pwm_set_period] in E;
    unfold gd_period, emios_period, pic_period, ra4_period, rp_period, stm_period, ti_period, tiny_period, tc_period in E; cbv zeta in E;
    repeat match type of E with
    | (if ?b then _ else _) = _ => destruct b
    | (let (_, _) := ?x in _) = _ => destruct x
    | match ?x with Some _ => _ | None => _ end = _ => destruct x as [[]|] || destruct x
    | match ?x with (_, _) => _ end = _ => destruct x as [? []]
    end; try discriminate; injection E as <-; cbn [p_nc set_top set_nc set_div set_sdiv]; now rewrite ?(set1_ne _ _ _ _ Ho).
Qed.
Theorem period_known d f s o us s' o' : timer_ncycles d = true -> pwm_set_period d f s o us = POk s' -> p_nc s' (nc_out d o') = p_top s'.
Proof.
  intros T E. unfold nc_out. rewrite T.
  destruct d; try discriminate; cbn [pwm_set_period] in E; unfold avr_period, e5_period in E; cbv zeta in E;
    repeat match type of E with (if ?b then _ else _) = _ => destruct b end; try discriminate; injection E as <-;
    try (destruct (p_topA s)); cbn [p_nc p_top set_top set_nc set_cmp]; now rewrite set1_eq.
Qed.

(** ** start and stop *)
Theorem start_active d s o : active d (pwm_start d s o) o = true.
Proof. destruct d; cbn [active pwm_start p_on p_run set_on set_run]; rewrite ?set1_eq; reflexivity. Qed.
Theorem stop_inactive d s o : active d (pwm_stop d s o) o = false.
Proof. destruct d; cbn [active pwm_stop p_on p_run set_on set_run]; rewrite ?set1_eq; reflexivity. Qed.
Theorem stop_others d s o o' : own_enable d = true -> o' <> o -> active d (pwm_stop d s o) o' = active d s o'.
Proof.
  intros H Ho. destruct d; try discriminate; cbn [active pwm_stop p_on p_run set_on set_run]; now rewrite (set1_ne _ _ _ _ Ho).
Qed.
Theorem stop_others_wrong d s o o' : own_enable d = false -> o' <> o -> active d (pwm_stop d s o) o' = false.
Proof.
  intros H Ho. destruct d; try discriminate; cbn [active pwm_stop p_on p_run set_on set_run]; try reflexivity. apply andb_false_r.
Qed.
Theorem start_stop_keep d s o : p_top (pwm_start d s o) = p_top s /\ p_div (pwm_start d s o) = p_div s /\ p_cmp (pwm_start d s o) = p_cmp s /\
  p_top (pwm_stop d s o) = p_top s /\ p_div (pwm_stop d s o) = p_div s /\ p_cmp (pwm_stop d s o) = p_cmp s.
Proof. destruct d; repeat split. Qed.

(** ** measurements *)
Lemma div_bounds a b : 0 < b -> a / b * b <= a < (a / b + 1) * b.
Proof. intros. pose proof (Z.mul_div_le a b H). pose proof (Z.mul_succ_div_gt a b H). lia. Qed.
Theorem sam3_iperiod_ok hz ra n : 0 < hz < 2147483648 -> (1000000 | hz) -> 0 <= n < 2147483648 ->
  exists v, sam3_iperiod hz true ra (p32 (ra + n)) = MOk v /\ us_of hz n v.
Proof.
  intros Hh [k Hk] Hn. unfold sam3_iperiod. cbn [negb]. cbv zeta.
  assert (S : s32 (p32 (ra + n) - ra) = n).
  { unfold s32. assert (E : p32 (p32 (ra + n) - ra) = n).
    { unfold p32. rewrite Zminus_mod_idemp_l. replace (ra + n - ra) with n by ring. apply Z.mod_small. lia. }
    rewrite E. replace (n <? 2147483648) with true by (symmetry; apply Z.ltb_lt; lia). reflexivity. }
  rewrite S. assert (K : hz / MHZ = k) by (rewrite Hk; unfold MHZ; apply Z.div_mul; lia). rewrite K.
  assert (0 < k) by lia. replace (k =? 0) with false by (symmetry; apply Z.eqb_neq; lia).
  eexists. split; [reflexivity|]. rewrite Z.quot_div_nonneg by lia.
  assert (0 <= n / k < 4294967296).
  { split; [apply Z.div_pos; lia|]. apply Z.div_lt_upper_bound; nia. }
  rewrite p32_id by lia. unfold us_of. rewrite Hk. pose proof (div_bounds n k ltac:(lia)). nia.
Qed.
Theorem emios_iperiod_ok hz b n : 0 < hz -> 0 <= n <= 4294 ->
  exists v, emios_iperiod hz true (p24 (b + n)) b = MOk v /\ us_of hz n v.
Proof.
  intros Hh Hn. unfold emios_iperiod. cbn [negb]. replace (hz =? 0) with false by (symmetry; apply Z.eqb_neq; lia).
  assert (E : p24 (p24 (b + n) - b) = n).
  { unfold p24. rewrite Zminus_mod_idemp_l. replace (b + n - b) with n by ring. apply Z.mod_small. lia. }
  rewrite E, p32_id by lia. eexists. split; [reflexivity|]. unfold us_of. apply div_bounds. lia.
Qed.
Theorem rp_iperiod_ok tick_hz elapsed div ctr : 0 < tick_hz -> (tick_hz | 1000000) -> 0 < elapsed -> elapsed * (1000000 / tick_hz) < 2147483648 ->
  0 < div <= 256 -> 0 <= ctr < 65536 -> 2 <= ctr * div ->
  exists v, rp_iperiod tick_hz elapsed div ctr = MOk v /\ v * (ctr * div) * tick_hz <= elapsed * 1000000 < (v + 1) * (ctr * div) * tick_hz.
Proof.
  intros Ht [k Hk] He Hu Hd Hc H2. unfold rp_iperiod. replace (elapsed =? 0) with false by (symmetry; apply Z.eqb_neq; lia). cbv zeta.
  assert (K : 1000000 / tick_hz = k) by (rewrite Hk; apply Z.div_mul; lia). rewrite K in *.
  assert (0 < k) by nia.
  rewrite (p32_id (ctr * div)) by nia. replace (ctr * div <? 2) with false by (symmetry; apply Z.ltb_ge; lia).
  rewrite p32_id by nia. eexists. split; [reflexivity|]. rewrite Hk.
  pose proof (div_bounds (elapsed * k) (ctr * div) ltac:(lia)). nia.
Qed.
Theorem sam3_iduty_ok pin rising ra rb : 0 < rb -> (rb | 65535) -> 0 <= ra <= rb ->
  exists v, sam3_iduty false true pin rising ra rb = MOk v /\ ratio_of ra rb v.
Proof.
  intros Hb [k Hk] Ha. unfold sam3_iduty. cbn [negb].
  assert (0 < k) by nia. assert (rb <= 65535) by nia.
  assert (S : forall x, 0 <= x <= 65535 -> s32 x = x).
  { intros x Hx. unfold s32. rewrite p32_id by lia. replace (x <? 2147483648) with true by (symmetry; apply Z.ltb_lt; lia). reflexivity. }
  rewrite !S by lia. replace (rb =? 0) with false by (symmetry; apply Z.eqb_neq; lia).
  eexists. split; [reflexivity|]. rewrite Z.quot_div_nonneg by lia.
  assert (K : 65535 / rb = k) by (rewrite Hk; apply Z.div_mul; lia). rewrite K.
  rewrite p16_id by nia. unfold ratio_of. nia.
Qed.
Theorem sam3_irail ra rb pin rising : sam3_iduty true true pin rising ra rb = MOk (if Bool.eqb pin rising then 65535 else 0).
Proof. reflexivity. Qed.
Theorem emios_iduty_ok alta b : 0 < b -> 0 <= alta <= b -> alta <= 65537 ->
  exists v, emios_iduty true alta b = MOk v /\ ratio_of alta b v.
Proof.
  intros Hb Ha Hm. unfold emios_iduty. cbn [negb]. replace (b =? 0) with false by (symmetry; apply Z.eqb_neq; lia).
  rewrite p32_id by lia. eexists. split; [reflexivity|].
  assert (0 <= alta * 65535 / b < 65536).
  { split; [apply Z.div_pos; lia|]. apply Z.div_lt_upper_bound; nia. }
  rewrite p16_id by lia. unfold ratio_of. apply div_bounds. lia.
Qed.
Theorem rp_iduty_ok f tick_hz elapsed div high total : 0 < f -> 0 < tick_hz -> 0 < elapsed -> 0 < div ->
  (div | f) -> f / div * elapsed < 4294967296 -> total = f / div * elapsed / tick_hz -> 0 < total -> 0 <= high <= total -> high < 65536 ->
  exists v, rp_iduty f tick_hz elapsed div (p16 high) true = MOk v /\ ratio_of high total v.
Proof.
  intros Hf Ht He Hd [k Hk] Hu HT H0 Hh Hm. unfold rp_iduty. replace (elapsed =? 0) with false by (symmetry; apply Z.eqb_neq; lia). cbv zeta.
  assert (0 <= f / div) by (apply Z.div_pos; lia).
  rewrite (p32_id (f / div * elapsed)) by nia. rewrite <- HT. replace (total =? 0) with false by (symmetry; apply Z.eqb_neq; lia).
  rewrite (p16_id high) by lia. rewrite (p32_id (high * 65535)) by lia. eexists. split; [reflexivity|].
  assert (0 <= high * 65535 / total < 65536).
  { split; [apply Z.div_pos; lia|]. apply Z.div_lt_upper_bound; nia. }
  rewrite p16_id by lia. unfold ratio_of. apply div_bounds. lia.
Qed.
