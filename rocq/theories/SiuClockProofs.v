(** SiuClockProofs.v - lemmas for the SIU's part of C134. *)
From Verif Require Import Base ClockModel ClockSpec ClockProofs SiuClockModel.

Lemma siu_find0_some x f p m : siu_find0 x f = Some (p, m) -> 1 <= p <= 7 /\ 8 <= m <= 127 /\ ul (x / p * m) = f.
Proof.
  intros H. unfold siu_find0 in H. apply first_some in H as (j & J & H). apply first_some in H as (k & K & H).
  destruct (Z.eqb_spec (ul (x / j * k)) f); [|discriminate H]. injection H as <- <-. repeat split; lia.
Qed.
Lemma siu_find1_some x f m r : siu_find1 x f = Some (m, r) -> 16 <= m <= 34 /\ 1 <= r <= 63 /\ ul (x * m) / (r * 2) = f.
Proof.
  intros H. unfold siu_find1 in H. apply first_some in H as (j & J & H). apply first_some in H as (k & K & H).
  destruct (Z.eqb_spec (ul (x * j) / (k * 2)) f); [|discriminate H]. injection H as <- <-. repeat split; lia.
Qed.
Lemma truthful_div n d : 0 < d -> truthful (n / d) (n, d).
Proof.
  intros D. unfold truthful. cbn [fst snd]. pose proof (Z.mod_pos_bound n d D). rewrite (Z.mul_comm (n / d)). rewrite Z.mod_eq in H by lia. exact H.
Qed.
Lemma truthful_hdiv f q k : 0 < k -> 0 < snd q -> truthful f q -> truthful (f / k) (hdiv q k).
Proof.
  intros K Q T. destruct q as [n d]. unfold truthful, hdiv in *. cbn [fst snd] in *.
  assert (E : f = n / d) by (apply (Z.div_unique_pos n d f (n - f * d)); lia).
  rewrite E, Zdiv_Zdiv by lia. pose proof (truthful_div n (d * k) ltac:(apply Z.mul_pos_pos; lia)) as T'. unfold truthful in T'. cbn [fst snd] in T'. exact T'.
Qed.
Lemma truthful_scale f n d k n' d' : 0 < k -> truthful f (n, d) -> n' = k * n -> d' = k * d -> truthful f (n', d').
Proof.
  intros K T -> ->. unfold truthful in *. cbn [fst snd] in *. replace (k * n - f * (k * d)) with (k * (n - f * d)) by ring. split.
  - apply Z.mul_nonneg_nonneg; lia.
  - apply Z.mul_lt_mono_pos_l; lia.
Qed.
Lemma siu_sysdiv_ok d c : siu_sysdiv d = Some c -> (if c =? 4 then 1 else 2 * 2 ^ c) = d /\ 0 < d.
Proof. unfold siu_sysdiv. repeat (match goal with |- context [d =? ?k] => destruct (Z.eqb_spec d k) end; [intros H; injection H as <-; subst; cbn; lia|]). discriminate. Qed.
Lemma siu_perdiv_ok d c : siu_perdiv d = Some c -> 2 * 2 ^ c = d /\ 0 < d.
Proof. unfold siu_perdiv. repeat (match goal with |- context [d =? ?k] => destruct (Z.eqb_spec d k) end; [intros H; injection H as <-; subst; cbn; lia|]). discriminate. Qed.
Lemma siu_etpudiv_ok d c : siu_etpudiv d = Some c -> (if c =? 1 then 1 else 2) = d /\ 0 < d.
Proof. unfold siu_etpudiv. repeat (match goal with |- context [d =? ?k] => destruct (Z.eqb_spec d k) end; [intros H; injection H as <-; subst; cbn; lia|]). discriminate. Qed.
Lemma kf_small x n : 0 <= x < 2 ^ n -> kf x n = x.
Proof. intros. apply Z.mod_small. assumption. Qed.

Lemma siu_ok st s : 0 < us_xosc st -> 0 < us_pll0 st < 2 ^ 32 -> 127 * us_xosc st < 2 ^ 32 + us_pll0 st -> us_pll0 st mod us_phi1 st = 0 -> us_pll0 st / us_phi1 st * 34 < 2 ^ 32 ->
  (forall p m, 1 <= p <= 7 -> 8 <= m <= 127 -> us_xosc st / p * m = us_pll0 st -> us_xosc st mod p = 0) ->
  siu_init st = KOk s -> forall id, truthful (siu_get s id) (siu_hw (us_xosc st) s id).
Proof.
  intros X P0 W E1 L R H. unfold siu_init in H.
  destruct ((0 <? us_phi st) && (us_phi st <=? 63)) eqn:B1; cbn [negb] in H; [|discriminate H].
  destruct ((4 <? us_phi1 st) && (us_phi1 st <=? 15)) eqn:B2; cbn [negb] in H; [|discriminate H].
  apply andb_true_iff in B1 as [B1 B1']. apply andb_true_iff in B2 as [B2 B2']. apply Z.ltb_lt in B1, B2. apply Z.leb_le in B1', B2'.
  destruct (siu_find0 _ _) as [[p m]|] eqn:F0; [|discriminate H]. apply siu_find0_some in F0 as (Pp & Pm & F0). cbv zeta in H.
  destruct (siu_find1 _ _) as [[m1 r1]|] eqn:F1; [|discriminate H]. apply siu_find1_some in F1 as (Pm1 & Pr1 & F1).
  destruct (siu_perdiv (us_per st)) as [c1|] eqn:D1; [|discriminate H]. destruct (siu_sysdiv (us_sys st)) as [c2|] eqn:D2; [|discriminate H].
  destruct (siu_perdiv (us_fm st)) as [c3|] eqn:D3; [|discriminate H]. destruct (siu_etpudiv (us_etpu st)) as [c4|] eqn:D4; [|discriminate H].
  injection H as <-. apply siu_perdiv_ok in D1 as [D1 D1'], D3 as [D3 D3']. apply siu_sysdiv_ok in D2 as [D2 D2']. apply siu_etpudiv_ok in D4 as [D4 D4'].
  destruct st as [x pl0 ph ph1 pl1 sy pe fm et]. cbn [us_xosc us_pll0 us_phi us_phi1 us_pll1 us_sys us_per us_fm us_etpu] in *.
  assert (G : x / p * m = pl0).
  { assert (x / p * m <= 127 * x).
    { assert (x / p <= x) by (apply Z.div_le_upper_bound; [lia|]; rewrite <- (Z.mul_1_l x) at 1; apply Z.mul_le_mono_nonneg_r; lia).
      assert (0 <= x / p) by (apply Z.div_pos; lia). rewrite (Z.mul_comm 127). apply Z.mul_le_mono_nonneg; lia. }
    assert (0 <= x / p * m) by (apply Z.mul_nonneg_nonneg; [apply Z.div_pos; lia|lia]).
    unfold ul in F0. set (v := x / p * m) in *. clearbody v. destruct (Z_lt_le_dec v (2 ^ 32)) as [V|V].
    - rewrite Z.mod_small in F0 by lia. exact F0.
    - assert (v mod 2 ^ 32 = v - 2 ^ 32) by (symmetry; apply (Z.mod_unique_pos v (2 ^ 32) 1); lia). lia. }
  assert (E0 : x mod p = 0) by (apply (R p m Pp Pm G)).
  assert (Q : x * m = p * pl0).
  { assert (x = p * (x / p)) by (pose proof (Z.div_mod x p); lia). rewrite <- G. rewrite H at 1. ring. }
  set (f1 := pl0 / ph1) in *. assert (Q1 : pl0 = ph1 * f1) by (unfold f1; pose proof (Z.div_mod pl0 ph1); lia).
  assert (f0 : 0 <= f1) by (apply Z.div_pos; lia).
  assert (U : ul (f1 * m1) = f1 * m1) by (apply Z.mod_small; split; [apply Z.mul_nonneg_nonneg; lia|]; apply Z.le_lt_trans with (f1 * 34); [apply Z.mul_le_mono_nonneg_l; lia|lia]).
  rewrite U in F1.
  unfold siu_get, siu_hw. cbn [u_prediv u_mfd0 u_rfd0 u_rfd01 u_mfd1 u_rfd1 u_sysdiv u_perdiv u_fmdiv u_etpudiv uc_core uc_plat uc_per uc_fm uc_etpu].
  rewrite !kf_small by lia. rewrite D1, D2, D3, D4.
  assert (TP : truthful (pl0 / ph) (x * m, p * ph)) by (apply (truthful_scale _ pl0 ph p); [lia|apply truthful_div; lia|exact Q|reflexivity]).
  assert (T1 : truthful pl1 (x * m * m1, p * ph1 * (2 * r1))).
  { apply (truthful_scale _ (f1 * m1) (r1 * 2) (p * ph1)); [apply Z.mul_pos_pos; lia|rewrite <- F1; apply truthful_div; lia|rewrite Q, Q1; ring|ring]. }
  assert (N : 0 < p * ph1 * (2 * r1)) by (repeat apply Z.mul_pos_pos; lia).
  assert (TS : truthful (pl1 / sy) (hdiv (x * m * m1, p * ph1 * (2 * r1)) sy)) by (apply truthful_hdiv; [lia|exact N|exact T1]).
  assert (NS : 0 < snd (hdiv (x * m * m1, p * ph1 * (2 * r1)) sy)) by (cbn [hdiv snd]; apply Z.mul_pos_pos; lia).
  destruct id; [exact TS|apply truthful_hdiv; [lia|exact NS|exact TS]|apply truthful_hdiv; [lia|cbn [snd]; apply Z.mul_pos_pos; lia|exact TP]|
    apply truthful_hdiv; [lia|exact NS|exact TS]|apply truthful_hdiv; [lia|exact NS|exact TS]|unfold truthful; cbn; lia].
Qed.

Lemma siu_wait_some d : forall l i j, siu_wait1 d l i = Some j -> (i <= j)%nat /\ l j = false.
Proof.
  induction d as [|d IH]; intros l i j H; cbn [siu_wait1] in H; destruct (l i) eqn:E; try discriminate H; try (injection H as <-; auto).
  apply IH in H. split; [lia|apply H].
Qed.
Lemma siu_wait_none d : forall l i, (forall j, (i <= j)%nat -> l j = true) -> siu_wait1 d l i = None.
Proof.
  induction d as [|d IH]; intros l i H; cbn [siu_wait1]; rewrite H by lia; [reflexivity|]. apply IH. intros. apply H. lia.
Qed.
