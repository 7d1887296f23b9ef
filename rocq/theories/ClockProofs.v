(** ClockProofs.v - lemmas for the clock drivers. *)
From Verif Require Import Base ClockModel ClockSpec.

Lemma first_S {A} (b : Z -> option A) n x : first b (S n) x = match b x with Some r => Some r | None => first b n (x + 1) end.
Proof. reflexivity. Qed.
Lemma first_some {A} (b : Z -> option A) n : forall x r, first b n x = Some r -> exists j, x <= j < x + Z.of_nat n /\ b j = Some r.
Proof.
  induction n as [|n IH]; intros x r H; [discriminate H|]. rewrite first_S in H. destruct (b x) as [y|] eqn:E.
  - injection H as <-. exists x. split; [lia|exact E].
  - destruct (IH _ _ H) as (j & J & B). exists j. split; [lia|exact B].
Qed.
Lemma first_none {A} (b : Z -> option A) n : forall x, first b n x = None -> forall j, x <= j < x + Z.of_nat n -> b j = None.
Proof.
  induction n as [|n IH]; intros x H j J; [lia|]. rewrite first_S in H. destruct (b x) as [y|] eqn:E; [discriminate H|].
  destruct (Z.eq_dec j x) as [->|]; [exact E|]. apply (IH _ H). lia.
Qed.
(** A hit at j: the first hit is at j or before. *)
Lemma first_hit {A} (b : Z -> option A) n : forall x j r, x <= j < x + Z.of_nat n -> b j = Some r -> exists i s, x <= i <= j /\ b i = Some s /\ first b n x = Some s.
Proof.
  induction n as [|n IH]; intros x j r J B; [lia|]. rewrite first_S. destruct (b x) as [y|] eqn:E.
  - exists x, y. split; [lia|]. split; [exact E|reflexivity].
  - destruct (Z.eq_dec j x) as [->|]; [rewrite E in B; discriminate B|]. destruct (IH (x + 1) j r ltac:(lia) B) as (i & s & I & S & F).
    exists i, s. split; [lia|]. split; [exact S|exact F].
Qed.

Lemma truth_iff f q : 0 < snd q -> truthful f q <-> fst q / snd q = f.
Proof.
  intros P. unfold truthful. split.
  - intros H. symmetry. apply Z.div_unique with (fst q - f * snd q); [lia|]. lia.
  - intros <-. pose proof (Z.div_mod (fst q) (snd q) ltac:(lia)) as D. pose proof (Z.mod_pos_bound (fst q) (snd q) P). lia.
Qed.
Lemma truth_pos f q : truthful f q -> 0 < snd q.
Proof. unfold truthful. lia. Qed.
Lemma truth_div f q d : truthful f q -> 0 < d -> truthful (f / d) (hdiv q d).
Proof.
  intros H D. pose proof (truth_pos _ _ H) as P. apply truth_iff in H; [|exact P]. apply truth_iff; cbn [hdiv fst snd]; [nia|].
  rewrite <- Z.div_div by lia. rewrite H. reflexivity.
Qed.
Lemma truth_within f q : truthful f q -> within 1 f q.
Proof. unfold truthful, within. lia. Qed.
Lemma within_div t f q d : 0 <= t -> within t f q -> 0 < d -> within (t + 1) (f / d) (hdiv q d).
Proof.
  unfold within. cbn [hdiv fst snd]. intros T [P H] D. split; [nia|].
  pose proof (Z.div_mod f d ltac:(lia)) as E. pose proof (Z.mod_pos_bound f d D) as M.
  set (n := fst q) in *. set (m := snd q) in *. set (k := f / d) in *. set (r := f mod d) in *.
  replace (n - k * (m * d)) with ((n - f * m) + r * m) by (rewrite E; ring).
  assert (A1 : Z.abs (n - f * m) <= t * m * d) by nia. assert (A2 : 0 <= r * m <= m * d) by nia. replace ((t + 1) * (m * d)) with (t * m * d + m * d) by ring. lia.
Qed.
Lemma kf_id x n : 0 <= n -> 0 <= x < 2 ^ n -> kf x n = x.
Proof. intros _ H. unfold kf. apply Z.mod_small. exact H. Qed.
Lemma ul_id x : 0 <= x < 2 ^ 32 -> ul x = x.
Proof. intros H. unfold ul. apply Z.mod_small. exact H. Qed.

(** * RP2040 *)
Lemma rp_try_some xosc f fb p1 p2 r : 0 < xosc <= 15000000 -> 16 <= fb <= 127 -> 1 <= p1 <= 7 -> 1 <= p2 <= 7 -> rp_try xosc f 1 fb p1 p2 = Some r ->
  r = Some (mkRpPll 1 fb p1 p2) /\ xosc * fb / (p1 * p2) = f.
Proof.
  intros X F P1 P2 H. unfold rp_try in H. cbv zeta in H. rewrite Z.div_1_r in H. destruct (Z.leb_spec (2 ^ 31) (xosc * fb)) as [L|L]; [change (2 ^ 31) with 2147483648 in L; nia|].
  destruct (Z.eqb_spec (xosc * fb / (p1 * p2)) f) as [E|]; [|discriminate H]. injection H as <-. split; [|exact E]. unfold rp_pll_setup.
  rewrite (kf_id 1 5), (kf_id fb 7), (kf_id p1 3), (kf_id p2 3) by (try (change (2 ^ 5) with 32); try (change (2 ^ 7) with 128); try (change (2 ^ 3) with 8); lia). reflexivity.
Qed.
Lemma rp_try_hit xosc f fb p1 p2 : 0 < xosc <= 15000000 -> 16 <= fb <= 127 -> xosc * fb / (p1 * p2) = f -> rp_try xosc f 1 fb p1 p2 <> None.
Proof.
  intros X F E. unfold rp_try. cbv zeta. rewrite Z.div_1_r. destruct (2 ^ 31 <=? xosc * fb); [discriminate|]. rewrite (proj2 (Z.eqb_eq _ _) E). discriminate.
Qed.
Lemma rp_pll_ok xosc f : 0 < xosc <= 15000000 -> 0 < f -> rp_makes xosc f -> exists p, rp_pll_config xosc f = KOk p /\ truthful f (rp_pll_hz xosc p) /\
  p_ref p = 1 /\ 16 <= p_fb p <= 127 /\ 1 <= p_p1 p <= 7 /\ 1 <= p_p2 p <= 7.
Proof.
  intros X Hf (fb & p1 & p2 & F & P1 & P2 & E). unfold rp_pll_config. rewrite (proj2 (Z.leb_gt f 0)) by exact Hf.
  rewrite (first_S _ 62 1). set (bfb := fun fbdiv => first (fun p1 => first (fun p2 => rp_try xosc f 1 fbdiv p1 p2) 7 1) 7 1).
  assert (N : exists s, bfb fb = Some s).
  { destruct (bfb fb) as [s|] eqn:B; [exists s; reflexivity|]. unfold bfb in B. pose proof (first_none _ _ _ B p1 ltac:(lia)) as B1. cbv beta in B1.
    pose proof (first_none _ _ _ B1 p2 ltac:(lia)) as B2. cbv beta in B2. destruct (rp_try_hit xosc f fb p1 p2 X F E B2). }
  destruct N as [s0 N]. destruct (first_hit bfb (Z.to_nat 304) 16 fb s0 ltac:(lia) N) as (i & s & I & S & H). rewrite H.
  unfold bfb in S. destruct (first_some _ _ _ _ S) as (a & A & S1). destruct (first_some _ _ _ _ S1) as (b & B & S2).
  destruct (rp_try_some xosc f i a b s X ltac:(lia) ltac:(lia) ltac:(lia) S2) as [-> Eq]. eexists. split; [reflexivity|].
  cbn [p_ref p_fb p_p1 p_p2]. split; [|lia]. apply truth_iff; cbn [rp_pll_hz rp_vco hdiv fst snd p_ref p_fb p_p1 p_p2]; [nia|]. rewrite Z.mul_1_l. exact Eq.
Qed.
Lemma rp_divi_id d n : 0 < d < 2 ^ n -> 0 <= n -> rp_divi (kf d n) = d.
Proof. intros D N. rewrite kf_id by lia. unfold rp_divi. destruct (Z.eqb_spec d 0); [lia|reflexivity]. Qed.
Lemma rp_init_ok st : 0 < rs_xosc st <= 15000000 -> 0 < rs_pll st -> rp_makes (rs_xosc st) (rs_pll st) -> rp_makes (rs_xosc st) 48000000 -> rp_divs_ok st ->
  exists s, rp_init st = KOk s /\
    (forall id, id <> RpRtc -> (forall i, id = RpOut i -> (i < 4)%nat) -> truthful (rp_get s id) (rp_hw (rs_xosc st) s id)) /\
    (rs_xosc st mod 46875 = 0 -> truthful (rp_get s RpRtc) (rp_hw (rs_xosc st) s RpRtc)).
Proof.
  intros X P M1 M2 (D1 & D2 & D3 & D4). destruct (rp_pll_ok _ _ X P M1) as (p & E1 & T1 & R1). destruct (rp_pll_ok _ 48000000 X ltac:(lia) M2) as (u & E2 & T2 & R2).
  unfold rp_init. rewrite (proj2 (Z.leb_gt _ _)) by lia. rewrite (proj2 (Z.ltb_ge _ _)) by lia. rewrite (proj2 (Z.leb_gt (rs_ref st) 0)) by lia. rewrite (proj2 (Z.leb_gt 4 (rs_ref st))) by lia.
  cbn [orb]. rewrite E1, E2. rewrite (proj2 (Z.leb_gt (rs_sys st) 0)) by lia.
  assert (EX : existsb (fun d => d <=? 0) (rs_out st) = false).
  { clear D3. induction D4 as [|d l Hd _ IH]; [reflexivity|]. cbn [existsb]. rewrite (proj2 (Z.leb_gt d 0)) by lia. exact IH. }
  rewrite EX. cbv zeta. eexists. split; [reflexivity|].
  assert (TS : truthful (rs_pll st / rs_sys st) (hdiv (rp_pll_hz (rs_xosc st) p) (rp_divi (kf (rs_sys st) 24)))).
  { rewrite rp_divi_id by lia. apply truth_div; [exact T1|lia]. }
  split.
  - intros id N O. destruct id as [| | | | | |i]; cbn [rp_get rp_hw rc_sys rc_ref rc_pll_usb rc_rtc rc_out r_psys r_pusb r_refdiv r_sysdiv r_outdiv].
    + exact TS.
    + rewrite rp_divi_id by (change (2 ^ 2) with 4; lia). apply truth_iff; cbn [fst snd]; [lia|reflexivity].
    + exact TS.
    + exact T2.
    + exact T2.
    + destruct (N eq_refl).
    + specialize (O i eq_refl).
      assert (Li : (i < length (rs_out st))%nat) by lia. destruct (rs_out st !! i) as [d|] eqn:Ed; [|apply lookup_ge_None in Ed; lia].
      rewrite !nth_lookup, !list_lookup_fmap, Ed. cbn [fmap option_fmap option_map default from_option id].
      pose proof (proj1 (Forall_lookup _ _) D4 _ _ Ed) as Dd; cbv beta in Dd; rewrite (rp_divi_id d 24) by lia. apply truth_div; [exact TS|lia].
  - intros Z0. cbn [rp_get rp_hw rc_rtc r_rtcint r_rtcfrac]. rewrite Z0. change (0 * 100 / 46875) with 0. change (kf 0 8) with 0. pose proof (Z.div_mod (rs_xosc st) 46875 ltac:(lia)) as DM. rewrite Z0 in DM.
    assert (K : kf (rs_xosc st / 46875) 24 = rs_xosc st / 46875).
    { apply kf_id; [lia|]. split; [apply Z.div_pos; lia|]. apply Z.div_lt_upper_bound; [lia|]. change (2 ^ 24) with 16777216. lia. }
    rewrite K. unfold truthful. cbn [fst snd]. assert (0 < rs_xosc st / 46875) by nia. lia.
Qed.

(** * F28379x *)
Lemma f28_find_some c f m d : f28_find c f = Some (m, d) -> 1 <= m <= 127 /\ 2 <= d <= 63 /\ f = ul (c * m) / d.
Proof.
  unfold f28_find. intros H. destruct (first_some _ _ _ _ H) as (j & J & B). destruct (first_some _ _ _ _ B) as (k & Kk & C). cbv beta in C.
  destruct (Z.eqb_spec f (ul (c * k) / j)) as [E|]; [|discriminate C]. injection C as <- <-. split; [lia|]. split; [lia|exact E].
Qed.
(** A multiple of half the oscillator: divsel is 2. *)
Lemma f28_find_two c f m : 1 <= m <= 127 -> f = ul (c * m) / 2 -> exists k, f28_find c f = Some (k, 2).
Proof.
  intros M E. unfold f28_find. rewrite (first_S _ 61 2). set (b := fun imult => if f =? ul (c * imult) / 2 then Some (imult, 2) else None).
  assert (B : b m = Some (m, 2)) by (unfold b; rewrite (proj2 (Z.eqb_eq _ _) E); reflexivity).
  destruct (first_hit b (Z.to_nat 127) 1 m _ ltac:(lia) B) as (i & s & I & S & H). rewrite H. unfold b in S. destruct (f =? ul (c * i) / 2); [|discriminate S]. injection S as <-. exists i. reflexivity.
Qed.
Lemma f28_ok xtal xfreq f m s : (xtal = false -> q_xtal s = false) -> let c := if xtal then xfreq else 10000000 in 0 < c <= 33000000 -> 1 <= m <= 127 -> f = c * m / 2 ->
  exists s', f28_init xtal xfreq f s = KOk s' /\ forall id, truthful (f28_get s' id) (f28_hw xfreq s' id).
Proof.
  intros X c C M E. assert (U : forall k, 1 <= k <= 127 -> ul (c * k) = c * k) by (intros k Hk; apply ul_id; change (2 ^ 32) with 4294967296; nia).
  rewrite <- (U m M) in E. destruct (f28_find_two c f m M E) as [k Fk]. unfold f28_init. cbv zeta. fold c. rewrite Fk. eexists. split; [reflexivity|].
  destruct (f28_find_some _ _ _ _ Fk) as (K1 & _ & Ef). rewrite (U k K1) in Ef.
  assert (TS : truthful f (f28_hw xfreq (mkF28 (if xtal then true else q_xtal s) (kf k 7) 0 (kf (2 - 1) 6) c f) FSys)).
  { apply truth_iff; cbn [f28_hw q_xtal q_imult q_fmult q_div fst snd]; change (kf (2 - 1) 6) with 1; cbn [Z.eqb]; [lia|]. rewrite (kf_id k 7) by (change (2 ^ 7) with 128; lia).
    replace (if if xtal then true else q_xtal s then xfreq else 10000000) with c by (unfold c; destruct xtal; [reflexivity|]; rewrite (X eq_refl); reflexivity).
    change (4 * (2 * 1)) with (4 * 2). rewrite Z.add_0_r. replace (c * (4 * k)) with (4 * (c * k)) by ring. rewrite Z.div_mul_cancel_l by lia. symmetry. exact Ef. }
  intros id. destruct id; cbn [f28_get qc_cpu].
  - exact TS.
  - unfold truthful. cbn [f28_hw fst snd]. lia.
  - apply (truth_div _ _ 4) in TS; [exact TS|lia].
  - apply (truth_div _ _ 2) in TS; [exact TS|lia].
Qed.
