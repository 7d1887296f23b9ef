(** MpcClockProofs.v - lemmas for the MPC574xx's part of C134 and C135. *)
From Verif Require Import Base ClockModel ClockSpec ClockProofs SiuClockProofs MpcClockModel MpcClockSpec.

Lemma mp_find_some x f p m r : mp_find x f = Some (p, m, r) -> 1 <= p <= 6 /\ 10 <= m <= 150 /\ 0 <= r <= 4 /\ ul (x * m) / (p * 2 * 2 ^ r) = f.
Proof.
  intros H. unfold mp_find in H. apply first_some in H as (j & J & H). apply first_some in H as (k & K & H). apply first_some in H as (l & L & H).
  destruct (Z.eqb_spec (ul (x * k) / (j * 2 * 2 ^ l)) f); [|discriminate H]. injection H as <- <- <-. repeat split; lia.
Qed.
Lemma mp_ul x m : 0 <= x -> 150 * x < 2 ^ 32 -> 10 <= m <= 150 -> ul (x * m) = x * m.
Proof.
  intros X W M. unfold ul. apply Z.mod_small. split; [apply Z.mul_nonneg_nonneg; lia|]. assert (x * m <= x * 150) by (apply Z.mul_le_mono_nonneg_l; lia). lia.
Qed.
Lemma mp_find_hit x f : 0 <= x -> 150 * x < 2 ^ 32 -> mp_makes x f -> exists p m r, mp_find x f = Some (p, m, r).
Proof.
  intros X W (p & m & r & P & M & R & E). destruct (mp_find x f) as [[[a b] c]|] eqn:F; [eauto|]. exfalso. unfold mp_find in F.
  pose proof (first_none _ _ _ F p ltac:(lia)) as F1. cbv beta in F1. pose proof (first_none _ _ _ F1 m ltac:(lia)) as F2. cbv beta in F2.
  pose proof (first_none _ _ _ F2 r ltac:(lia)) as F3. cbv beta in F3. rewrite mp_ul in F3 by assumption. rewrite E, Z.eqb_refl in F3. discriminate F3.
Qed.

Lemma mp_pos p r : 1 <= p -> 0 <= r -> 0 < p * 2 * 2 ^ r.
Proof. intros. apply Z.mul_pos_pos; [lia|]. apply Z.pow_pos_nonneg; lia. Qed.

Lemma mp_dividers_ok st s s1 : mp_dividers st s = KOk s1 -> (ms_s160 st <= 8 /\ ms_s80 st <= 8 /\ ms_fs80 st <= 8 /\ ms_s40 st <= 16) /\ m_sysclk s1 = m_sysclk s /\
  m_dc0 s1 = mp_dc (ms_s160 st) (m_dc0 s) /\ m_dc1 s1 = mp_dc (ms_s80 st) (m_dc1 s) /\ m_dc5 s1 = mp_dc (ms_fs80 st) (m_dc5 s) /\ m_dc2 s1 = mp_dc (ms_s40 st) (m_dc2 s).
Proof.
  unfold mp_dividers. destruct (Z.leb_spec (ms_s160 st) 8); cbn [negb]; [|discriminate]. destruct (Z.leb_spec (ms_s80 st) 8); cbn [negb]; [|discriminate].
  destruct (Z.leb_spec (ms_fs80 st) 8); cbn [negb]; [|discriminate]. destruct (Z.leb_spec (ms_s40 st) 16); cbn [negb]; [|discriminate].
  destruct s. intros E. injection E as <-. cbn. auto 10.
Qed.

(** The system clock and the dividers after the switch *)
Lemma mp_switch_ok st s1 s2 : mp_switch st s1 = KOk s2 -> (ms_sys st = 0 -> m_sysclk s1 = 0) -> (ms_sys st = 2 -> 0 <= mp_clkin st /\ 150 * mp_clkin st < 2 ^ 32) ->
  truthful (mcl_sys s2) (mp_hw_sys (ms_fxosc st) s2) /\ 0 < snd (mp_hw_sys (ms_fxosc st) s2) /\
  m_dc0 s2 = m_dc0 s1 /\ m_dc1 s2 = m_dc1 s1 /\ m_dc5 s2 = m_dc5 s1 /\ m_dc2 s2 = m_dc2 s1.
Proof.
  intros H S0 W. unfold mp_switch in H. destruct s1 as [sc se p m r d0 d1 d5 d2 c0 c1 c2 c3 c4 c5 c6 c7]. cbn [m_sysclk] in S0.
  destruct (Z.eqb_spec (ms_sys st) 0) as [E0|E0].
  { injection H as <-. rewrite (S0 E0). unfold mp_hw_sys, truthful. cbn. repeat split; lia. }
  destruct (Z.eqb_spec (ms_sys st) 1) as [E1|E1].
  { destruct (negb _); [discriminate H|]. destruct (negb _); [discriminate H|]. injection H as <-. unfold mp_hw_sys, truthful. cbn -[Z.mul Z.sub]. repeat split; lia. }
  destruct (Z.eqb_spec (ms_sys st) 2) as [E2|E2]; [|discriminate H].
  destruct ((ms_clkin st =? 0) || (ms_clkin st =? 1)) eqn:C; cbn [negb] in H; [|discriminate H].
  destruct (negb (0 <? ms_phi0 st)); [discriminate H|]. specialize (W E2). destruct W as [W0 W]. fold (mp_clkin st) in H.
  destruct (mp_find (mp_clkin st) (ms_phi0 st)) as [[[a b] c]|] eqn:F; [|discriminate H]. injection H as <-.
  apply mp_find_some in F as (A & B & R & F). rewrite mp_ul in F by assumption. unfold kf. rewrite (Z.mod_small a) by lia. rewrite (Z.mod_small b) by lia. rewrite (Z.mod_small c) by lia.
  unfold mp_hw_sys. cbn [m_sysclk m_selctl m_prediv m_mfd m_rfd mcl_sys m_dc0 m_dc1 m_dc5 m_dc2]. change (2 =? 0) with false. change (2 =? 1) with false. cbv iota. fold (mp_clkin st).
  pose proof (mp_pos a c ltac:(lia) ltac:(lia)). rewrite <- F. cbn [snd]. repeat split; try reflexivity; try assumption; apply truthful_div; assumption.
Qed.

Lemma mp_init_inv st s0 s : mp_init st s0 = KOk s -> exists s1 s2, mp_dividers st s0 = KOk s1 /\ mp_switch st s1 = KOk s2 /\
  (ms_s160 st <> 0 /\ ms_s80 st <> 0 /\ ms_fs80 st <> 0 /\ ms_s40 st <> 0) /\
  s = mkMp (m_sysclk s2) (m_selctl s2) (m_prediv s2) (m_mfd s2) (m_rfd s2) (m_dc0 s2) (m_dc1 s2) (m_dc5 s2) (m_dc2 s2) (mcl_sys s2) (mcl_sys s2 / ms_s160 st)
    (mcl_sys s2 / ms_s80 st) (mcl_sys s2 / ms_fs80 st) (mcl_sys s2 / ms_s40 st) (mcl_sys s2 / 2) (mcl_sys s2 / 4) (mcl_sys s2 / 8).
Proof.
  intros H. unfold mp_init in H. destruct (mp_dividers st s0) as [s1| |]; try discriminate H. destruct (mp_switch st s1) as [s2| |] eqn:B; try discriminate H.
  destruct s2. destruct (_ || _) eqn:E in H; [discriminate H|]. injection H as <-. apply orb_false_iff in E as [E E4]. apply orb_false_iff in E as [E E3]. apply orb_false_iff in E as [E1 E2].
  apply Z.eqb_neq in E1, E2, E3, E4. exists s1. eexists. split; [reflexivity|]. split; [exact B|]. cbn. auto.
Qed.

Lemma mp_dc_ok sysf q d old : 1 <= d <= 8 -> 0 < snd q -> truthful sysf q -> truthful (sysf / d) (mp_hw_dc q (mp_dc d old)).
Proof.
  intros D Q T. unfold mp_dc. destruct (Z.eqb_spec d 0); [lia|]. unfold mp_hw_dc, kf. rewrite Z.mod_small by lia. replace (d - 1 + 1) with d by lia. apply truthful_hdiv; [lia|assumption|assumption].
Qed.

Lemma mp_ok st s0 s : mp_divs st -> ms_s40 st <= 8 -> (ms_sys st = 0 -> m_sysclk s0 = 0) -> (ms_sys st = 2 -> 0 <= mp_clkin st /\ 150 * mp_clkin st < 2 ^ 32) ->
  mp_init st s0 = KOk s -> forall id, truthful (mp_get s id) (mp_hw (ms_fxosc st) s id).
Proof.
  intros (D1 & D2 & D3 & D4) D S0 W H id. apply mp_init_inv in H as (s1 & s2 & A & B & _ & ->). apply mp_dividers_ok in A as (_ & A & A0 & A1 & A5 & A2).
  apply mp_switch_ok in B as (T & P & B0 & B1 & B5 & B2); [|rewrite A; exact S0|exact W].
  assert (E : forall f x0 x1 x2 x3 x4 x5 x6, mp_hw_sys f (mkMp (m_sysclk s2) (m_selctl s2) (m_prediv s2) (m_mfd s2) (m_rfd s2) (m_dc0 s2) (m_dc1 s2) (m_dc5 s2) (m_dc2 s2) (mcl_sys s2) x0 x1 x2 x3 x4 x5 x6) = mp_hw_sys f s2).
  { intros. reflexivity. }
  destruct id; unfold mp_hw; cbv zeta; rewrite E; cbn [mp_get m_dc0 m_dc1 m_dc5 m_dc2 mcl_sys mcl_s160 mcl_s80 mcl_fs80 mcl_s40 mcl_f80 mcl_f40 mcl_f20];
    rewrite ?B0, ?B1, ?B5, ?B2, ?A0, ?A1, ?A5, ?A2; try (apply mp_dc_ok; [lia|assumption|assumption]); try assumption; (apply truthful_hdiv; [lia|exact P|exact T]).
Qed.

Lemma mp_s40 st s0 s : 9 <= ms_s40 st -> mp_init st s0 = KOk s ->
  mp_hw (ms_fxosc st) s MS40 = hdiv (mp_hw (ms_fxosc st) s MF160) (ms_s40 st - 8) /\ mp_get s MS40 = mp_get s MF160 / ms_s40 st /\ ms_s40 st <= 16.
Proof.
  intros D H. apply mp_init_inv in H as (s1 & s2 & A & B & _ & ->). apply mp_dividers_ok in A as ((_ & _ & _ & L) & _ & _ & _ & _ & A2).
  assert (B2 : m_dc2 s2 = m_dc2 s1).
  { unfold mp_switch in B. destruct s1. destruct (_ =? 0); [injection B as <-; reflexivity|]. destruct (_ =? 1).
    - destruct (negb _); [discriminate B|]. destruct (negb _); [discriminate B|]. injection B as <-. reflexivity.
    - destruct (_ =? 2); [|discriminate B]. destruct (negb _); [discriminate B|]. destruct (negb _); [discriminate B|]. destruct (mp_find _ _) as [[[? ?] ?]|]; [|discriminate B]. injection B as <-. reflexivity. }
  split; [|split; [reflexivity|exact L]]. unfold mp_hw. cbv zeta. cbn [m_dc2]. rewrite B2, A2. unfold mp_dc. destruct (Z.eqb_spec (ms_s40 st) 0); [lia|]. unfold mp_hw_dc, kf.
  replace ((ms_s40 st - 1) mod 2 ^ 3) with (ms_s40 st - 9) by (apply (Z.mod_unique_pos _ (2 ^ 3) 1); lia). f_equal. lia.
Qed.

Lemma mp_accepts st s0 : mp_can st -> (ms_sys st = 2 -> 0 <= mp_clkin st /\ 150 * mp_clkin st < 2 ^ 32) -> exists s, mp_init st s0 = KOk s.
Proof.
  intros ((D1 & D2 & D3 & D4) & C) W. unfold mp_init, mp_dividers. destruct (Z.leb_spec (ms_s160 st) 8); [|lia]. destruct (Z.leb_spec (ms_s80 st) 8); [|lia].
  destruct (Z.leb_spec (ms_fs80 st) 8); [|lia]. destruct (Z.leb_spec (ms_s40 st) 16); [|lia]. cbn [negb]. destruct s0 as [sc se p m r d0 d1 d5 d2 c0 c1 c2 c3 c4 c5 c6 c7].
  assert (Z0 : (ms_s160 st =? 0) || (ms_s80 st =? 0) || (ms_fs80 st =? 0) || (ms_s40 st =? 0) = false) by (rewrite !orb_false_iff, !Z.eqb_neq; lia).
  unfold mp_switch. destruct C as [C|[(C & F)|(C & K & P & M)]].
  - rewrite C, Z.eqb_refl, Z0. eauto.
  - rewrite C. change (1 =? 0) with false. change (1 =? 1) with true. cbv iota. destruct (Z.leb_spec 8000000 (ms_fxosc st)); [|lia]. destruct (Z.leb_spec (ms_fxosc st) 40000000); [|lia].
    cbn [negb]. rewrite Z0. eauto.
  - specialize (W C). rewrite C. change (2 =? 0) with false. change (2 =? 1) with false. change (2 =? 2) with true. cbv iota. fold (mp_clkin st).
    assert (K' : (ms_clkin st =? 0) || (ms_clkin st =? 1) = true) by (apply orb_true_iff; rewrite !Z.eqb_eq; tauto). rewrite K'. cbn [negb]. destruct (Z.ltb_spec 0 (ms_phi0 st)); [|lia]. cbn [negb].
    destruct (mp_find_hit _ _ (proj1 W) (proj2 W) M) as (a & b & c & ->). rewrite Z0. eauto.
Qed.

Lemma mp_zero st s0 : ms_s160 st <= 8 /\ ms_s80 st <= 8 /\ ms_fs80 st <= 8 /\ ms_s40 st <= 16 -> ms_s160 st = 0 \/ ms_s80 st = 0 \/ ms_fs80 st = 0 \/ ms_s40 st = 0 ->
  ms_sys st = 0 \/ (ms_sys st = 1 /\ 8000000 <= ms_fxosc st <= 40000000) -> mp_init st s0 = KUb.
Proof.
  intros (D1 & D2 & D3 & D4) O C. unfold mp_init, mp_dividers. destruct (Z.leb_spec (ms_s160 st) 8); [|lia]. destruct (Z.leb_spec (ms_s80 st) 8); [|lia].
  destruct (Z.leb_spec (ms_fs80 st) 8); [|lia]. destruct (Z.leb_spec (ms_s40 st) 16); [|lia]. cbn [negb]. destruct s0 as [sc se p m r d0 d1 d5 d2 c0 c1 c2 c3 c4 c5 c6 c7].
  assert (Z0 : (ms_s160 st =? 0) || (ms_s80 st =? 0) || (ms_fs80 st =? 0) || (ms_s40 st =? 0) = true) by (rewrite !orb_true_iff, !Z.eqb_eq; tauto).
  unfold mp_switch. destruct C as [C|(C & F)].
  - rewrite C, Z.eqb_refl, Z0. reflexivity.
  - rewrite C. change (1 =? 0) with false. change (1 =? 1) with true. cbv iota. destruct (Z.leb_spec 8000000 (ms_fxosc st)); [|lia]. destruct (Z.leb_spec (ms_fxosc st) 40000000); [|lia].
    cbn [negb]. rewrite Z0. reflexivity.
Qed.
