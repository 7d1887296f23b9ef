(** ClockProofs2.v - lemmas for the clock drivers: PMC, SAM3X, PIC32MX, GD32VF103. *)
From Verif Require Import Base ClockModel ClockSpec ClockProofs.

(** * Atmel *)
Lemma mckr_pres_ok p c : mckr_pres p = Some c -> 0 < p /\ hw_pres (kf c 3) = p.
Proof.
  unfold mckr_pres. repeat match goal with |- context [p =? ?k] => destruct (Z.eqb_spec p k) as [->|]; [intros [= <-]; vm_compute; split; reflexivity|] end.
  intros H. discriminate H.
Qed.
Lemma mckr_mdiv_ok p c : mckr_mdiv p = Some c -> 0 < p /\ hw_mdiv (kf c 2) = p.
Proof.
  unfold mckr_mdiv. repeat match goal with |- context [p =? ?k] => destruct (Z.eqb_spec p k) as [->|]; [intros [= <-]; vm_compute; split; reflexivity|] end.
  intros H. discriminate H.
Qed.
Lemma pmc_find_some plla main m d : 0 <= plla < 2 ^ 32 -> 0 < main -> pmc_find plla main = Some (m, d) ->
  1 <= d <= 255 /\ 0 <= m /\ m * main / d = plla /\ m = ul (plla * d) / main.
Proof.
  intros P M H. unfold pmc_find in H. destruct (first_some _ _ _ _ H) as (j & J & B). cbv zeta in B.
  destruct (Z.eqb_spec (ul (ul (plla * j) / main * main) / j) plla) as [E|]; [|discriminate B]. injection B as <- <-.
  assert (U : 0 <= ul (plla * j) < 2 ^ 32) by (apply Z.mod_pos_bound; lia).
  assert (Q : 0 <= ul (plla * j) / main) by (apply Z.div_pos; lia). pose proof (Z.mul_div_le (ul (plla * j)) main M) as L.
  split; [lia|]. split; [exact Q|]. split; [|reflexivity]. rewrite ul_id in E; [exact E|]. nia.
Qed.
Lemma pmc_plla_ok plla main a d : 0 <= plla < 2 ^ 32 -> 0 < main -> pmc_plla plla main = Some (a, d) -> truthful plla (hw_plla main a d) /\ 1 <= a <= 2046 /\ 1 <= d <= 255.
Proof.
  intros P M H. unfold pmc_plla in H. destruct (Z.ltb_spec (plla / 2) main) as [|L]; [discriminate H|].
  destruct (pmc_find plla main) as [[m k]|] eqn:E; [|discriminate H]. destruct (Z.ltb_spec m 2048) as [B|]; [|discriminate H]. injection H as <- <-.
  destruct (pmc_find_some _ _ _ _ P M E) as (K & M0 & Q & _). pose proof (Z.mul_div_le plla 2 ltac:(lia)) as L2.
  assert (L3 : k * plla <= m * main) by (rewrite <- Q; apply Z.mul_div_le; lia). assert (M2 : 2 <= m) by nia.
  rewrite (kf_id (m - 1) 11), (kf_id k 8) by (try (change (2 ^ 11) with 2048); try (change (2 ^ 8) with 256); lia). split; [|lia].
  unfold hw_plla. rewrite (proj2 (Z.eqb_neq _ _)) by lia. rewrite (proj2 (Z.eqb_neq k 0)) by lia. cbn [orb]. apply truth_iff; cbn [fst snd]; [lia|].
  replace (m - 1 + 1) with m by lia. rewrite Z.mul_comm. exact Q.
Qed.
Lemma pmc_plla_finds plla main mula diva : 0 < main -> 2 * main <= plla -> 1 <= mula <= 2047 -> 1 <= diva <= 255 -> mula * main = plla * diva -> plla * diva < 2 ^ 32 ->
  pmc_plla plla main <> None.
Proof.
  intros M P A D E W. unfold pmc_plla. rewrite (proj2 (Z.ltb_ge _ _)) by (apply Z.div_le_lower_bound; lia).
  set (b := fun diva => let mula := ul (plla * diva) / main in if ul (mula * main) / diva =? plla then Some (mula, diva) else None).
  assert (B : b diva = Some (mula, diva)).
  { unfold b. cbv zeta. rewrite (ul_id (plla * diva)) by nia. rewrite <- E. rewrite Z.div_mul by lia. rewrite (ul_id (mula * main)) by nia. rewrite E. rewrite Z.div_mul by lia.
    rewrite Z.eqb_refl. reflexivity. }
  destruct (first_hit b (Z.to_nat 255) 1 diva _ ltac:(lia) B) as (i & s & I & S & H). change (pmc_find plla main) with (first b (Z.to_nat 255) 1). rewrite H.
  unfold b in S. cbv zeta in S. destruct (ul (ul (plla * i) / main * main) / i =? plla); [|discriminate S]. injection S as <-. rewrite (ul_id (plla * i)) by nia.
  rewrite (proj2 (Z.ltb_lt _ _)); [discriminate|]. apply Z.div_lt_upper_bound; [lia|]. nia.
Qed.
(** Sources the driver knows. *)
Definition pmc_good (s : pmc) : Prop :=
  truthful (mc_main s) (m_main s, 1) /\ truthful (mc_plla s) (hw_plla (m_main s) (m_mula s) (m_diva s)) /\ truthful (mc_upll s) (pmc_src s 3) /\
  truthful (mc_hclk s) (pmc_hw s PHclk) /\ truthful (mc_mck s) (pmc_hw s PMck) /\ length (m_pck s) = 8%nat /\ length (mc_pck s) = 8%nat.
Lemma one_truth f : truthful f (f, 1).
Proof. unfold truthful. cbn [fst snd]. lia. Qed.
Lemma pmc_init_good st s : 0 <= ps_plla st < 2 ^ 32 -> 0 < ps_mosc st -> pmc_init st pmc_reset = KOk s -> pmc_good s.
Proof.
  intros P M H. unfold pmc_init in H. destruct (negb (pmc_mosc_ok st)); [discriminate H|].
  set (pl := if ps_plla st =? 0 then _ else _) in H. cbv zeta in H.
  assert (PL : forall a d f, pl = Some (a, d, f) -> truthful f (hw_plla (ps_mosc st) a d)).
  { intros a d f. unfold pl. destruct (ps_plla st =? 0).
    - cbn [m_mula m_diva mc_plla pmc_reset]. intros [= <- <- <-]. unfold truthful, hw_plla. cbn [Z.eqb orb fst snd]. lia.
    - destruct (pmc_plla (ps_plla st) (ps_mosc st)) as [[a0 d0]|] eqn:E; [|discriminate]. intros [= <- <- <-]. exact (proj1 (pmc_plla_ok _ _ _ _ P M E)). }
  clearbody pl. destruct pl as [[[a d] f]|]; [|discriminate H]. specialize (PL a d f eq_refl).
  destruct ((0 <=? ps_upll st) && (ps_upll st <? 3) && (0 <=? ps_css st) && (ps_css st <? 4)) eqn:R; [|discriminate H]. cbn [negb] in H.
  apply andb_prop in R as [R R4]. apply andb_prop in R as [R R3]. apply andb_prop in R as [R1 R2].
  apply Z.leb_le in R1, R3. apply Z.ltb_lt in R2, R4.
  destruct (mckr_pres (ps_pres st)) as [pres|] eqn:EP; [|discriminate H]. destruct (mckr_mdiv (ps_mdiv st)) as [mdiv|] eqn:EM; [|discriminate H].
  destruct (mckr_pres_ok _ _ EP) as [P1 P2]. destruct (mckr_mdiv_ok _ _ EM) as [M1 M2]. injection H as <-.
  unfold pmc_good. cbn [pmc_reset m_div2 mc_upll m_pck mc_pck mc_main mc_plla mc_hclk mc_mck].
  set (s := mkPmc _ _ _ _ _ _ _ _ _ _ _ _ _ _ _).
  assert (UP : truthful (if ps_upll st =? 0 then 0 else if ps_upll st =? 2 then 240000000 else 480000000) (pmc_src s 3)).
  { unfold pmc_src. cbn [Z.eqb Pos.eqb s m_upllen m_div2]. destruct (ps_upll st =? 0); cbn [negb]; [unfold truthful; cbn [fst snd]; lia|]. destruct (ps_upll st =? 2); apply one_truth. }
  set (freq := if ps_css st =? 0 then pmc_slck else _).
  assert (SR : truthful freq (pmc_src s (m_css s))).
  { cbn [m_css s]. rewrite (kf_id (ps_css st) 2) by (change (2 ^ 2) with 4; lia). unfold freq. change (pmc_src s 3) with (if m_upllen s then ((if m_div2 s then 240000000 else 480000000), 1) else (0, 1)) in UP.
    unfold pmc_src. destruct (ps_css st =? 0); [apply one_truth|]. destruct (ps_css st =? 1); [apply one_truth|]. destruct (ps_css st =? 2); [exact PL|]. exact UP. }
  assert (HC : truthful (freq / ps_pres st) (pmc_hw s PHclk)).
  { cbn [pmc_hw]. cbn [m_pres s] in *. rewrite P2. apply truth_div; [exact SR|exact P1]. }
  split; [apply one_truth|]. split; [exact PL|]. split; [exact UP|]. split; [exact HC|]. split; [|split; reflexivity].
  rewrite <- Z.div_div by lia. change (pmc_hw s PMck) with (hdiv (pmc_hw s PHclk) (hw_mdiv (m_mdiv s))). cbn [m_mdiv s]. rewrite M2. apply truth_div; [exact HC|exact M1].
Qed.
Lemma pmc_pck_good i p c s s' : pmc_good s -> pmc_pck_enable i p c s = KOk s' ->
  pmc_good s' /\ truthful (pmc_get s' (PPck i)) (pmc_hw s' (PPck i)) /\
  (forall j, j <> i -> pmc_get s' (PPck j) = pmc_get s (PPck j) /\ pmc_hw s' (PPck j) = pmc_hw s (PPck j)) /\ (i < 8)%nat.
Proof.
  intros G H. unfold pmc_pck_enable in H. destruct ((i <? 8)%nat && (0 <? p) && (p <=? 256) && (0 <=? c) && (c <? 5)) eqn:R; [|discriminate H]. cbn [negb] in H. cbv zeta in H. injection H as <-.
  apply andb_prop in R as [R R5]. apply andb_prop in R as [R R4]. apply andb_prop in R as [R R3]. apply andb_prop in R as [R1 R2].
  apply Nat.ltb_lt in R1. apply Z.ltb_lt in R2, R5. apply Z.leb_le in R3, R4. destruct G as (G1 & G2 & G3 & G4 & G5 & L1 & L2).
  split; [|split; [|split; [|exact R1]]].
  - unfold pmc_good. cbn [mc_main m_main mc_plla m_mula m_diva mc_upll mc_hclk mc_mck m_pck mc_pck]. rewrite !insert_length.
    split; [exact G1|]. split; [exact G2|]. split; [exact G3|]. split; [exact G4|]. split; [exact G5|]. split; assumption.
  - cbn [pmc_get pmc_hw mc_pck m_pck]. rewrite !nth_lookup, !list_lookup_insert by lia. cbn [default from_option id].
    rewrite (kf_id (p - 1) 8) by (change (2 ^ 8) with 256; lia). rewrite (kf_id c 3) by (change (2 ^ 3) with 8; lia). replace (p - 1 + 1) with p by lia. apply truth_div; [|exact R2].
    cbn [pmc_hw] in G5. unfold pmc_src in *. cbn [m_main m_mula m_diva m_upllen m_div2 m_css m_pres m_mdiv]. destruct (Z.eqb_spec c 4) as [->|N4]; [cbn [Z.eqb Pos.eqb]; exact G5|].
    destruct (Z.eqb_spec c 0); [apply one_truth|]. destruct (Z.eqb_spec c 1); [exact G1|]. destruct (Z.eqb_spec c 2); [exact G2|]. destruct (Z.eqb_spec c 3); [|lia]. exact G3.
  - intros j J. cbn [pmc_get pmc_hw mc_pck m_pck]. rewrite !nth_lookup, !list_lookup_insert_ne by congruence. split; reflexivity.
Qed.
Lemma pmc_pcks_good l : forall s s', pmc_good s -> pmc_pcks l s = KOk s' ->
  pmc_good s' /\ forall i, (truthful (pmc_get s (PPck i)) (pmc_hw s (PPck i)) \/ In i (map (fun x => fst (fst x)) l)) -> truthful (pmc_get s' (PPck i)) (pmc_hw s' (PPck i)).
Proof.
  induction l as [|[[k p] c] l IH]; intros s s' G H.
  - injection H as <-. split; [exact G|]. intros i [T|[]]. exact T.
  - cbn [pmc_pcks] in H. destruct (pmc_pck_enable k p c s) as [s1| |] eqn:E; [|discriminate H..]. destruct (pmc_pck_good _ _ _ _ _ G E) as (G1 & T1 & N1 & _).
    destruct (IH _ _ G1 H) as [G' T']. split; [exact G'|]. intros i Hi. apply T'. destruct (Nat.eq_dec i k) as [->|Ne]; [left; exact T1|].
    destruct Hi as [T|[E0|Hi]]; [left|cbn [fst] in E0; congruence|right; exact Hi]. destruct (N1 i Ne) as [-> ->]. exact T.
Qed.

(** * SAM3X *)
Lemma s3x_init_ok moscx plla d s s' : 0 < moscx -> plla mod moscx = 0 -> s3x_init moscx plla d s = KOk s' ->
  truthful (s3x_get s' SMck) (s3x_hw s' SMck) /\ y_pdiv s' = y_pdiv s /\ yc_periph s' = yc_periph s.
Proof.
  intros M Z0 H. unfold s3x_init in H. destruct (moscx <=? 0); [discriminate H|]. destruct (Z.ltb_spec (plla / 2) moscx) as [|L]; [discriminate H|]. cbv zeta in H.
  destruct (Z.leb_spec 2048 (plla / moscx)) as [|B]; [discriminate H|]. destruct (mckr_pres d) as [pres|] eqn:E; [|discriminate H]. destruct (mckr_pres_ok _ _ E) as [D P]. injection H as <-.
  split; [|split; reflexivity]. cbn [s3x_get s3x_hw yc_mck y_xtal y_mula y_diva y_pres]. rewrite P. apply truth_div; [|exact D].
  pose proof (Z.div_mod plla moscx ltac:(lia)) as DM. rewrite Z0 in DM. pose proof (Z.mul_div_le plla 2 ltac:(lia)) as L2.
  set (q := plla / moscx) in *. assert (2 <= q) by nia. rewrite (kf_id (q - 1) 11) by (change (2 ^ 11) with 2048; lia). unfold hw_plla. rewrite (proj2 (Z.eqb_neq (q - 1) 0)) by lia. cbn [Z.eqb orb].
  unfold truthful. cbn [fst snd]. lia.
Qed.
Lemma s3x_enable_ok i d s s' : length (y_pdiv s) = 45%nat -> length (yc_periph s) = 45%nat -> truthful (s3x_get s SMck) (s3x_hw s SMck) -> s3x_enable i d s = KOk s' ->
  length (y_pdiv s') = 45%nat /\ length (yc_periph s') = 45%nat /\ truthful (s3x_get s' SMck) (s3x_hw s' SMck) /\ truthful (s3x_get s' (SPeriph i)) (s3x_hw s' (SPeriph i)) /\
  forall j, j <> i -> s3x_get s' (SPeriph j) = s3x_get s (SPeriph j) /\ s3x_hw s' (SPeriph j) = s3x_hw s (SPeriph j).
Proof.
  intros L1 L2 T H. unfold s3x_enable in H. destruct ((0 <=? d) && (d <? 3) && (0 <? i)%nat && (i <? 45)%nat) eqn:R; [|discriminate H]. cbn [negb] in H. injection H as <-.
  apply andb_prop in R as [R R4]. apply andb_prop in R as [R R3]. apply andb_prop in R as [R1 R2]. apply Z.leb_le in R1. apply Z.ltb_lt in R2. apply Nat.ltb_lt in R3, R4.
  cbn [y_pdiv yc_periph]. rewrite !insert_length. split; [exact L1|]. split; [exact L2|]. split; [exact T|]. cbn [s3x_get s3x_hw yc_mck y_xtal y_mula y_diva y_pres y_pdiv yc_periph] in *. split.
  - rewrite !nth_lookup, !list_lookup_insert by lia. cbn [default from_option id]. rewrite (kf_id d 2) by (change (2 ^ 2) with 4; lia). apply truth_div; [exact T|]. apply Z.pow_pos_nonneg; lia.
  - intros j J. rewrite !nth_lookup, !list_lookup_insert_ne by congruence. split; reflexivity.
Qed.
Lemma s3x_enables_ok l : forall s s', length (y_pdiv s) = 45%nat -> length (yc_periph s) = 45%nat -> truthful (s3x_get s SMck) (s3x_hw s SMck) -> s3x_enables l s = KOk s' ->
  truthful (s3x_get s' SMck) (s3x_hw s' SMck) /\
  forall i, (truthful (s3x_get s (SPeriph i)) (s3x_hw s (SPeriph i)) \/ In i (map fst l)) -> truthful (s3x_get s' (SPeriph i)) (s3x_hw s' (SPeriph i)).
Proof.
  induction l as [|[k d] l IH]; intros s s' L1 L2 T H.
  - injection H as <-. split; [exact T|]. intros i [X|[]]. exact X.
  - cbn [s3x_enables] in H. destruct (s3x_enable k d s) as [s1| |] eqn:E; [|discriminate H..]. destruct (s3x_enable_ok _ _ _ _ L1 L2 T E) as (A1 & A2 & A3 & T1 & N1).
    destruct (IH _ _ A1 A2 A3 H) as [G' T']. split; [exact G'|]. intros i Hi. apply T'. destruct (Nat.eq_dec i k) as [->|Ne]; [left; exact T1|].
    destruct Hi as [X|[E0|Hi]]; [left|cbn [fst] in E0; congruence|right; exact Hi]. destruct (N1 i Ne) as [-> ->]. exact X.
Qed.

(** * PIC32MX *)
Lemma pic_find_some c f p m i : 0 <= c < 2 ^ 25 -> pic_find c f = Some (p, m, i) -> 1 <= p <= 5 /\ 1 <= m <= 128 /\ 1 <= i <= 8 /\ f = c / i * m / 2 ^ p.
Proof.
  intros C H. unfold pic_find in H. destruct (first_some _ _ _ _ H) as (a & A & H1). destruct (first_some _ _ _ _ H1) as (b & B & H2). destruct (first_some _ _ _ _ H2) as (k & Kk & H3).
  cbv beta in H3. destruct (Z.eqb_spec f (ul (c / k * b) / 2 ^ a)) as [E|]; [|discriminate H3]. injection H3 as <- <- <-. split; [lia|]. split; [lia|]. split; [lia|].
  rewrite ul_id in E; [exact E|]. change (2 ^ 25) with 33554432 in C. change (2 ^ 32) with 4294967296.
  assert (0 <= c / k <= 33554431) by (split; [apply Z.div_pos; lia|apply Z.lt_succ_r; apply Z.div_lt_upper_bound; nia]). nia.
Qed.
Lemma pic_within c p m i : 0 <= c -> 1 <= p <= 5 -> 1 <= m <= 128 -> 1 <= i <= 8 -> within 65 (c / i * m / 2 ^ p) (c * m, i * 2 ^ p).
Proof.
  intros C P M I. assert (W : 2 <= 2 ^ p) by (change 2 with (2 ^ 1) at 1; apply Z.pow_le_mono_r; lia).
  pose proof (Z.div_mod c i ltac:(lia)) as D1. pose proof (Z.mod_pos_bound c i ltac:(lia)) as B1. set (q := c / i) in *. set (r := c mod i) in *.
  pose proof (Z.div_mod (q * m) (2 ^ p) ltac:(lia)) as D2. pose proof (Z.mod_pos_bound (q * m) (2 ^ p) ltac:(lia)) as B2. set (f := q * m / 2 ^ p) in *. set (e := (q * m) mod 2 ^ p) in *. set (w := 2 ^ p) in *.
  unfold within. cbn [fst snd]. split; [nia|]. replace (c * m - f * (i * w)) with (i * e + r * m) by (rewrite D1; replace ((i * q + r) * m) with (i * (q * m) + r * m) by ring; rewrite D2; ring).
  assert (0 <= i * e <= i * w) by nia. assert (0 <= r * m <= i * 128) by nia. assert (i * 128 <= 64 * (i * w)) by nia. lia.
Qed.
Lemma pic_exact c p m i : c mod i = 0 -> 1 <= p -> 1 <= i -> truthful (c / i * m / 2 ^ p) (c * m, i * 2 ^ p).
Proof.
  intros Z0 P I. assert (W : 0 < 2 ^ p) by (apply Z.pow_pos_nonneg; lia). apply truth_iff; cbn [fst snd]; [nia|]. rewrite <- Z.div_div by lia. f_equal.
  pose proof (Z.div_mod c i ltac:(lia)) as D1. rewrite Z0 in D1. set (q := c / i) in *. replace (c * m) with (q * m * i) by (rewrite D1; ring). apply Z.div_mul. lia.
Qed.
Lemma pic_init_ok posc frc pllo osc s s' : 0 <= posc < 2 ^ 25 -> 0 <= osc -> pic_init posc frc pllo osc s = KOk s' ->
  within 65 (pic_get s' ISys) (pic_hw s' ISys) /\ (osc <> 1 -> truthful (pic_get s' ISys) (pic_hw s' ISys)) /\ z_pb s' = z_pb s /\ zc_pb s' = zc_pb s.
Proof.
  intros P O H. unfold pic_init in H. destruct (negb frc && (64000000 <=? posc)); [discriminate H|].
  set (c := if frc then 8000000 else posc) in H. assert (C : 0 <= c < 2 ^ 25) by (unfold c; destruct frc; [change (2 ^ 25) with 33554432; lia|exact P]).
  destruct (pic_find c pllo) as [[[p m] i]|] eqn:E; [|discriminate H]. destruct (pic_osc osc posc pllo) as [f|] eqn:F; [|discriminate H]. injection H as <-.
  destruct (pic_find_some _ _ _ _ _ C E) as (P1 & M1 & I1 & Q).
  assert (O8 : osc < 8).
  { unfold pic_osc in F. repeat match type of F with context [osc =? ?k] => destruct (Z.eqb_spec osc k); [lia|] end. discriminate F. }
  cbn [pic_get zc_sys]. unfold pic_hw. cbn [z_nosc z_posc]. rewrite (kf_id osc 3) by (change (2 ^ 3) with 8; lia).
  unfold pic_vco. cbn [z_frc z_posc z_mult z_idiv z_odiv]. fold c. rewrite (kf_id (i - 1) 3), (kf_id (m - 1) 7), (kf_id p 3) by (try (change (2 ^ 3) with 8); try (change (2 ^ 7) with 128); lia).
  replace (i - 1 + 1) with i by lia. replace (m - 1 + 1) with m by lia. unfold pic_osc in F.
  assert (T : osc <> 1 -> truthful f (if osc =? 1 then hdiv (c * m, i) (2 ^ p) else if osc =? 2 then (posc, 1) else if (osc =? 4) || (osc =? 5) then (32768, 1) else (8000000, 1))).
  { intros N. rewrite (proj2 (Z.eqb_neq _ _) N) in *. destruct (Z.eqb_spec osc 0) as [->|]; [injection F as <-; cbn [Z.eqb orb]; apply one_truth|]. destruct (osc =? 2); [injection F as <-; apply one_truth|].
    destruct (osc =? 4); [injection F as <-; apply one_truth|]. destruct (osc =? 5); [injection F as <-; apply one_truth|]. cbn [orb]. destruct (osc =? 6); [injection F as <-; apply one_truth|]. destruct (osc =? 7); [injection F as <-; apply one_truth|discriminate F]. }
  split; [|split; [exact T|split; reflexivity]]. destruct (Z.eq_dec osc 1) as [->|N].
  - cbn [Z.eqb Pos.eqb] in *. injection F as <-. unfold hdiv. cbn [fst snd]. rewrite Q. apply pic_within; lia.
  - pose proof (truth_within _ _ (T N)) as [A B]. split; [exact A|]. lia.
Qed.
Lemma pic_pb_ok t i d s s' : 0 <= t -> length (z_pb s) = 8%nat -> length (zc_pb s) = 8%nat -> 0 <= d -> within t (pic_get s ISys) (pic_hw s ISys) -> pic_pbclk_enable i d s = KOk s' ->
  length (z_pb s') = 8%nat /\ length (zc_pb s') = 8%nat /\ pic_get s' ISys = pic_get s ISys /\ pic_hw s' ISys = pic_hw s ISys /\
  within (t + 1) (pic_get s' (IPb i)) (pic_hw s' (IPb i)) /\ forall j, j <> i -> pic_get s' (IPb j) = pic_get s (IPb j) /\ pic_hw s' (IPb j) = pic_hw s (IPb j).
Proof.
  intros T0 L1 L2 D T H. unfold pic_pbclk_enable in H. destruct ((i <? 8)%nat && (d <? 128)) eqn:R; [|discriminate H]. cbn [negb] in H. destruct (Z.eqb_spec d 0) as [|N]; [discriminate H|]. injection H as <-.
  apply andb_prop in R as [R1 R2]. apply Nat.ltb_lt in R1. apply Z.ltb_lt in R2. cbn [z_pb zc_pb]. rewrite !insert_length. split; [exact L1|]. split; [exact L2|]. split; [reflexivity|]. split; [reflexivity|].
  split.
  - cbn [pic_get zc_pb]. unfold pic_hw. cbn [z_pb]. rewrite !nth_lookup, !list_lookup_insert by lia. cbn [default from_option id]. rewrite (kf_id (d - 1) 7) by (change (2 ^ 7) with 128; lia).
    replace (d - 1 + 1) with d by lia. apply within_div; [exact T0|exact T|lia].
  - intros j J. cbn [pic_get zc_pb]. unfold pic_hw. cbn [z_pb]. rewrite !nth_lookup, !list_lookup_insert_ne by congruence. split; reflexivity.
Qed.
Lemma pic_pbs_ok t l : 0 <= t -> Forall (fun x => 0 <= snd x) l -> forall s s', length (z_pb s) = 8%nat -> length (zc_pb s) = 8%nat -> within t (pic_get s ISys) (pic_hw s ISys) -> pic_pbclks l s = KOk s' ->
  pic_get s' ISys = pic_get s ISys /\ pic_hw s' ISys = pic_hw s ISys /\
  forall i, (within (t + 1) (pic_get s (IPb i)) (pic_hw s (IPb i)) \/ In i (map fst l)) -> within (t + 1) (pic_get s' (IPb i)) (pic_hw s' (IPb i)).
Proof.
  intros T0 F. induction F as [|[k d] l Fd _ IH]; intros s s' L1 L2 T H.
  - injection H as <-. split; [reflexivity|]. split; [reflexivity|]. intros i [X|[]]. exact X.
  - cbn [pic_pbclks] in H. destruct (pic_pbclk_enable k d s) as [s1| |] eqn:E; [|discriminate H..]. destruct (pic_pb_ok t _ _ _ _ T0 L1 L2 Fd T E) as (A1 & A2 & A3 & A4 & T1 & N1).
    destruct (IH s1 s' A1 A2) as (G1 & G2 & T'); [rewrite A3, A4; exact T|exact H|]. split; [congruence|]. split; [congruence|]. intros i Hi. apply T'. destruct (Nat.eq_dec i k) as [->|Ne]; [left; exact T1|].
    destruct Hi as [X|[E0|Hi]]; [left|cbn [fst] in E0; congruence|right; exact Hi]. destruct (N1 i Ne) as [-> ->]. exact X.
Qed.

(** * GD32VF103 *)
Lemma gd_ahb_ok d c : gd_ahb_code d = Some c -> 0 < d /\ gd_ahb_div (kf c 4) = d.
Proof.
  unfold gd_ahb_code. repeat match goal with |- context [d =? ?k] => destruct (Z.eqb_spec d k) as [->|]; [intros [= <-]; vm_compute; split; reflexivity|] end.
  intros H. discriminate H.
Qed.
Lemma gd_apb_ok d c : gd_apb_code d = Some c -> 0 < d /\ gd_apb_div (kf c 3) = d.
Proof.
  unfold gd_apb_code. repeat match goal with |- context [d =? ?k] => destruct (Z.eqb_spec d k) as [->|]; [intros [= <-]; vm_compute; split; reflexivity|] end.
  intros H. discriminate H.
Qed.
Lemma gd_adc_ok d c : d <> 12 -> gd_adc_code d = Some c -> 0 < d /\ gd_adc_div c = d.
Proof.
  intros N. unfold gd_adc_code. rewrite (proj2 (Z.eqb_neq _ _) N). repeat match goal with |- context [d =? ?k] => destruct (Z.eqb_spec d k) as [->|]; [intros [= <-]; vm_compute; split; reflexivity|] end.
  intros H. discriminate H.
Qed.
Lemma gd_find_some c f m p : 0 <= c < 2 ^ 27 -> gd_find c f = Some (m, p) -> 2 <= m <= 32 /\ 1 <= p <= 16 /\ f = c / p * m.
Proof.
  intros C H. unfold gd_find in H. destruct (first_some _ _ _ _ H) as (a & A & H1). destruct (first_some _ _ _ _ H1) as (b & B & H2). cbv beta in H2.
  destruct (Z.eqb_spec (ul (c / b * a)) f) as [E|]; [|discriminate H2]. injection H2 as <- <-. split; [lia|]. split; [lia|]. rewrite ul_id in E; [symmetry; exact E|].
  change (2 ^ 27) with 134217728 in C. change (2 ^ 32) with 4294967296. assert (0 <= c / b <= 134217727) by (split; [apply Z.div_pos; lia|apply Z.lt_succ_r; apply Z.div_lt_upper_bound; nia]). nia.
Qed.
Lemma gd_mul2_16 m : 16 <= m <= 32 -> gd_mul2 (16 * kf ((m - 1) / 16) 1 + kf (m - 1) 4) = 2 * m.
Proof.
  intros M. replace m with (15 + Z.of_nat (Z.to_nat (m - 15))) by lia. assert (N : (1 <= Z.to_nat (m - 15) <= 17)%nat) by lia. set (n := Z.to_nat (m - 15)) in *. clearbody n.
  do 18 (destruct n as [|n]; [try lia; vm_compute; reflexivity|]). lia.
Qed.
(** Not from the pll, or from a crystal it has to multiply by more than 15. *)
Lemma gd_init_ok st s t : 0 <= gs_hxtal st < 2 ^ 27 -> gs_adc st <> 12 -> gd_init st = KOk s ->
  (t = 1 /\ (gs_sys st = 0 \/ gs_sys st = 1)) \/ (t = 33 /\ gs_hx st = true /\ gs_sys st = 2 /\ 15 * gs_hxtal st < gs_pll st) ->
  within t (gd_get s GSys) (gd_hw s GSys) /\ within (t + 1) (gd_get s GAhb) (gd_hw s GAhb) /\ within (t + 2) (gd_get s GApb1) (gd_hw s GApb1) /\
  within (t + 2) (gd_get s GApb2) (gd_hw s GApb2) /\ within (t + 3) (gd_get s GAdc) (gd_hw s GAdc).
Proof.
  intros X N12 H K. unfold gd_init in H. cbv zeta in H. set (pl := if gs_sys st =? 0 then _ else _) in H.
  assert (PL : forall f predv0 mf, pl = Some (f, predv0, mf) -> forall a b c d e, within t f (gd_hw (mkGd (gs_hxtal st) (kf (gs_sys st) 2) (gs_hx st) predv0 mf a b c d f (fst e) (snd e) f f) GSys)).
  { intros f predv0 mf E a b c d e. unfold pl in E. cbn [gd_hw g_scs g_hxtal]. destruct K as [[-> S]|(-> & HX & S & B)].
    - destruct S as [S|S]; rewrite S in *; cbn [Z.eqb Pos.eqb] in E; injection E as <- <- <-.
      + change (kf 0 2) with 0. cbn [Z.eqb]. apply truth_within, one_truth.
      + change (kf 1 2) with 1. cbn [Z.eqb Pos.eqb]. apply truth_within, one_truth.
    - rewrite S in *. cbn [Z.eqb Pos.eqb negb orb] in E. destruct ((gs_pll st <=? 0) || (108000000 <? gs_pll st)); [discriminate E|]. rewrite HX in *.
      destruct (gd_find (gs_hxtal st) (gs_pll st)) as [[m p]|] eqn:F; [|discriminate E]. injection E as <- <- <-. destruct (gd_find_some _ _ _ _ X F) as (M & P & Q).
      change (kf 2 2) with 2. cbn [Z.eqb Pos.eqb]. unfold gd_pll. cbn [g_hx g_hxtal g_pllmf g_predv0]. rewrite (kf_id (p - 1) 4) by (change (2 ^ 4) with 16; lia). replace (p - 1 + 1) with p by lia.
      pose proof (Z.div_mod (gs_hxtal st) p ltac:(lia)) as D. pose proof (Z.mod_pos_bound (gs_hxtal st) p ltac:(lia)) as Bd. set (q := gs_hxtal st / p) in *. set (r := gs_hxtal st mod p) in *.
      assert (M16 : 16 <= m) by nia. rewrite gd_mul2_16 by lia. unfold within. cbn [fst snd]. split; [lia|]. rewrite Q. rewrite D. replace ((p * q + r) * (2 * m) - q * m * (2 * p)) with (2 * (r * m)) by ring. nia. }
  clearbody pl. destruct pl as [[[f predv0] mf]|]; [|discriminate H]. specialize (PL f predv0 mf eq_refl).
  destruct ((gs_ahb st <=? 0) || (gs_apb1 st <=? 0) || (gs_apb2 st <=? 0) || (gs_adc st <=? 0)); [discriminate H|].
  match type of H with context [if ?b then KErr else _] => destruct b; [discriminate H|] end.
  destruct (gd_ahb_code (gs_ahb st)) as [a|] eqn:Ea; [|discriminate H]. destruct (gd_apb_code (gs_apb1 st)) as [b|] eqn:Eb; [|discriminate H].
  destruct (gd_apb_code (gs_apb2 st)) as [c|] eqn:Ec; [|discriminate H]. destruct (gd_adc_code (gs_adc st)) as [d|] eqn:Ed; [|discriminate H]. injection H as <-.
  apply gd_ahb_ok in Ea as [A1 A2]. apply gd_apb_ok in Eb as [B1 B2]. apply gd_apb_ok in Ec as [C1 C2]. apply (gd_adc_ok _ _ N12) in Ed as [D1 D2].
  assert (T0 : 0 <= t) by lia. pose proof (PL 0 0 0 0 (0, 0)) as W0. cbn [gd_hw gd_get g_scs g_hxtal g_ahb g_apb1 g_apb2 g_adc gc_sys gc_ahb gc_apb1 gc_apb2 gc_adc] in *.
  unfold gd_pll in *. cbn [g_hx g_hxtal g_pllmf g_predv0] in *. rewrite A2, B2, C2, D2.
  pose proof (within_div _ _ _ _ T0 W0 A1) as W1. split; [exact W0|]. split; [exact W1|].
  replace (t + 2) with (t + 1 + 1) by lia. replace (t + 3) with (t + 1 + 1 + 1) by lia.
  split; [apply within_div; [lia|exact W1|exact B1]|]. assert (W2 := within_div (t + 1) _ _ _ ltac:(lia) W1 C1). split; [exact W2|]. apply within_div; [lia|exact W2|exact D1].
Qed.
