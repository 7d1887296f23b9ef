(** ClockProofs3.v - lemmas for the clock drivers: RA4, SAME5x, tinyAVR; what PMC init accepts. *)
From Verif Require Import Base ClockModel ClockSpec ClockProofs ClockProofs2.

(** * RA4 *)
Lemma ra_ok ofs mosc cksel f i a b c d s id : 0 <= cksel -> id <> RaC -> id <> RaD -> id <> RaIwdt -> ra_init ofs mosc cksel f i a b c d = KOk s -> truthful (ra_get s id) (ra_hw ofs mosc s id).
Proof.
  intros K N1 N2 N3 H. unfold ra_init in H. destruct (existsb _ _) eqn:E; [discriminate H|]. destruct (ra_hoco ofs) as [h|] eqn:Eh; [|discriminate H]. destruct (20000000 <? mosc); [discriminate H|].
  destruct (ra_main cksel h mosc) as [m|] eqn:Em; [|discriminate H]. injection H as <-.
  assert (R : forall x, In x [f; i; a; b; c; d] -> 0 <= x < 7).
  { intros x Hx. destruct (Z.ltb_spec x 0) as [L|L].
    - assert (existsb (fun x => (x <? 0) || (7 <=? x)) [f; i; a; b; c; d] = true) by (apply existsb_exists; exists x; split; [exact Hx|]; rewrite (proj2 (Z.ltb_lt _ _) L); reflexivity). congruence.
    - destruct (Z.leb_spec 7 x) as [G|G]; [|lia].
      assert (existsb (fun x => (x <? 0) || (7 <=? x)) [f; i; a; b; c; d] = true) by (apply existsb_exists; exists x; split; [exact Hx|]; rewrite (proj2 (Z.leb_le _ _) G); apply orb_true_r). congruence. }
  assert (C6 : cksel < 5). { unfold ra_main in Em. repeat match type of Em with context [cksel =? ?k] => destruct (Z.eqb_spec cksel k); [lia|] end. discriminate Em. }
  assert (T : forall x, In x [f; i; a; b; c; d] -> truthful (m / 2 ^ x) (m, 2 ^ kf x 3)).
  { intros x Hx. specialize (R x Hx). rewrite kf_id by (change (2 ^ 3) with 8; lia). apply truth_iff; cbn [fst snd]; [apply Z.pow_pos_nonneg; lia|reflexivity]. }
  unfold ra_hw. cbn [a_cksel a_f a_i a_a a_b a_c a_d]. rewrite (kf_id cksel 3) by (change (2 ^ 3) with 8; lia). rewrite Eh, Em.
  destruct id; try congruence; cbn [ra_get ac_f ac_i ac_a ac_b]; apply T; cbn [In]; tauto.
Qed.

(** * tinyAVR *)
Lemma tiny_div_ok p d : tiny_div p = Some d -> 0 < d /\ tiny_hw_div (kf p 4) = d.
Proof.
  unfold tiny_div. repeat match goal with |- context [p =? ?k] => destruct (Z.eqb_spec p k) as [->|]; [intros [= <-]; vm_compute; split; reflexivity|] end.
  intros H. discriminate H.
Qed.
Lemma tiny_ok ulp pre lock s s' : t_lock s = false -> tiny_init ulp pre lock s = KOk s' -> truthful (tiny_get s') (tiny_hw s').
Proof.
  intros L H. unfold tiny_init in H. destruct ((t_sel s =? 1) || (t_sel s =? 2)); [|discriminate H]. cbn [negb] in H. cbv zeta in H. rewrite L in H.
  destruct pre as [p|].
  - destruct (tiny_div p) as [d|] eqn:E; [|discriminate H]. injection H as <-. destruct (tiny_div_ok _ _ E) as [D T]. unfold tiny_get, tiny_hw. cbn [tc_main tc_div t_ulp t_sel t_pen t_pdiv]. rewrite T.
    apply truth_iff; cbn [fst snd]; [exact D|reflexivity].
  - injection H as <-. unfold tiny_get, tiny_hw. cbn [tc_main tc_div t_ulp t_sel t_pen t_pdiv]. apply truth_iff; cbn [fst snd]; [lia|reflexivity].
Qed.

(** * SAME5x *)
Lemma nth_ins {A} (l : list A) i x d : (i < length l)%nat -> nth i (<[i := x]> l) d = x.
Proof. intros H. rewrite nth_lookup, list_lookup_insert by exact H. reflexivity. Qed.
Lemma nth_ins_ne {A} (l : list A) i j x d : i <> j -> nth i (<[j := x]> l) d = nth i l d.
Proof. intros H. rewrite !nth_lookup, list_lookup_insert_ne by congruence. reflexivity. Qed.
Lemma e5_gen_eq k s i src div : nth i (e_gen s) (0, 0) = (src, div) -> e5_gen_hz (S k) s i =
  hdiv (if src =? 3 then e5_gen_hz k s 1 else if (src =? 4) || (src =? 5) then (32768, 1) else if src =? 6 then (48000000, 1)
        else let j := if src =? 7 then 0%nat else 1%nat in
             let '(r, ldr, frac) := nth j (e_dpll s) (0, 0, 0) in
             let '(a, b) := if r =? 0 then e5_gen_hz k s (nth (S j) (e_pch s) 0%nat) else (32768, 1) in
             (a * (32 * (ldr + 1) + frac), 32 * b)) (e5_gdiv i div).
Proof. intros E. cbn [e5_gen_hz]. rewrite E. destruct (src =? 3); [reflexivity|]. destruct (_ || _); [reflexivity|]. destruct (src =? 6); [reflexivity|]. destruct (src =? 7); reflexivity. Qed.
Lemma e5_gdiv_id i d : 1 <= d <= 255 -> e5_gdiv i (kf d 16) = d.
Proof.
  intros D. unfold e5_gdiv. rewrite (kf_id d 16) by (change (2 ^ 16) with 65536; lia). rewrite (kf_id d 8) by (change (2 ^ 8) with 256; lia). destruct (i =? 1)%nat; destruct (Z.eqb_spec d 0); lia.
Qed.
Lemma src_dfll d i : hdiv (if 6 =? 3 then (0, 1) else if (6 =? 4) || (6 =? 5) then (32768, 1) else if 6 =? 6 then (48000000, 1) else (0, 1)) (e5_gdiv i d) = (48000000, 1 * e5_gdiv i d).
Proof. reflexivity. Qed.
Lemma e5_direct g d id s : e5_wf s -> (g < 12)%nat -> (id < 48)%nat -> 1 <= d <= 255 ->
  exists s', e5_run [EGen g 6 d; EPch id g] s = KOk s' /\ truthful (e5_get s' id) (e5_hw s' id) /\ e5_wf s' /\
    nth id (e_pch s') 0%nat = g /\ nth g (e_gen s') (0, 0) = (6, kf d 16) /\ nth g (ec_gen s') 0 = 48000000 / d /\ e5_get s' id = 48000000 / d.
Proof.
  intros (L1 & L2 & L3 & L4 & L5 & L6) G I D. cbn [e5_run e5_step]. unfold e5_gen_setup. rewrite (proj2 (Nat.ltb_lt g 12) G). rewrite (proj2 (Z.ltb_lt d 65536)) by lia. cbn [andb negb]. cbv zeta.
  cbn [Z.eqb Pos.eqb orb]. destruct (Z.eqb_spec d 0); [lia|]. unfold e5_setup. rewrite (proj2 (Nat.ltb_lt id 48) I), (proj2 (Nat.ltb_lt g 12) G). cbn [andb negb e_gen e_dpll e_pch ec_gen ec_pch ec_dpll].
  eexists. split; [reflexivity|]. unfold e5_get, e5_hw. cbn [e_pch ec_pch e_gen ec_gen e_dpll ec_dpll]. rewrite !nth_ins by lia. change (kf 6 4) with 6. split.
  - rewrite (e5_gen_eq 3 _ g 6 (kf d 16)) by (cbn [e_gen]; rewrite nth_ins by lia; reflexivity). cbn [Z.eqb Pos.eqb orb]. rewrite e5_gdiv_id by lia. apply truth_div; [apply one_truth|lia].
  - split; [unfold e5_wf; cbn [e_pch ec_pch e_gen ec_gen e_dpll ec_dpll]; rewrite !insert_length; tauto|]. repeat split; reflexivity.
Qed.
(** A dpll fed by a generator that runs from the DFLL. *)
Lemma e5_pll g d j f i dv id s : e5_wf s -> (g < 12)%nat -> (i < 12)%nat -> i <> g -> (j < 2)%nat -> (id < 48)%nat -> id <> S j -> 1 <= d <= 255 -> 1 <= dv <= 255 ->
  48000000 mod d = 0 -> 48000000 / d <= f < 8192 * (48000000 / d) ->
  exists s', e5_run [EGen g 6 d; EPch (S j) g; EDpll j 0 f; EGen i (7 + Z.of_nat j) dv; EPch id i] s = KOk s' /\
    within (48000000 / d / 32 + 2) (e5_get s' id) (e5_hw s' id) /\ ((f * 32) mod (48000000 / d) = 0 -> truthful (e5_get s' id) (e5_hw s' id)).
Proof.
  intros W G I IG J Hid Nid D DV Z0 F. destruct (e5_direct g d (S j) s W G ltac:(lia) D) as (s1 & R1 & _ & W1 & P1 & G1 & C1 & E1).
  change (e5_run [EGen g 6 d; EPch (S j) g; EDpll j 0 f; EGen i (7 + Z.of_nat j) dv; EPch id i] s) with
    (match e5_gen_setup g 6 d s with KOk s1 => match e5_setup (S j) g s1 with KOk s2 => e5_run [EDpll j 0 f; EGen i (7 + Z.of_nat j) dv; EPch id i] s2 | r => r end | r => r end).
  cbn [e5_run e5_step] in R1. destruct (e5_gen_setup g 6 d s) as [s0| |]; [|discriminate R1..]. destruct (e5_setup (S j) g s0) as [s2| |]; [|discriminate R1..]. injection R1 as ->.
  destruct W1 as (L1 & L2 & L3 & L4 & L5 & L6). unfold e5_get in E1. set (r := 48000000 / d) in *. assert (Hr : 0 < r <= 48000000) by (pose proof (Z.div_mod 48000000 d ltac:(lia)) as DM; rewrite Z0 in DM; fold r in DM; nia).
  assert (Hd : 48000000 = d * r) by (pose proof (Z.div_mod 48000000 d ltac:(lia)) as DM; rewrite Z0 in DM; fold r in DM; lia).
  cbn [e5_run e5_step]. unfold e5_dpll_setup. rewrite (proj2 (Nat.ltb_lt j 2) J). cbn [Z.leb Z.compare Z.ltb andb negb]. cbv zeta. rewrite E1. rewrite (proj2 (Z.leb_gt r 0)) by lia.
  set (n1 := kf (f / r - 1) 13). set (n2 := kf (ul (f mod r * 32) / r) 5).
  pose proof (Z.div_mod f r ltac:(lia)) as DM. pose proof (Z.mod_pos_bound f r ltac:(lia)) as MB. set (q := f / r) in *. set (m := f mod r) in *.
  assert (Q : 1 <= q <= 8191) by nia.
  assert (N1 : n1 = q - 1) by (unfold n1; apply kf_id; [lia|change (2 ^ 13) with 8192; lia]).
  assert (N2 : n2 = m * 32 / r /\ 0 <= n2 < 32).
  { assert (U : ul (m * 32) = m * 32) by (apply ul_id; change (2 ^ 32) with 4294967296; lia). assert (B : 0 <= m * 32 / r < 32) by (split; [apply Z.div_pos; lia|apply Z.div_lt_upper_bound; lia]).
    unfold n2. rewrite U, kf_id by (change (2 ^ 5) with 32; lia). split; [reflexivity|exact B]. }
  destruct N2 as [N2 B2]. clearbody n1 n2.
  unfold e5_gen_setup. rewrite (proj2 (Nat.ltb_lt i 12) I). rewrite (proj2 (Z.ltb_lt dv 65536)) by lia. cbn [andb negb]. cbv zeta. cbn [e_gen e_dpll e_pch ec_gen ec_pch ec_dpll].
  assert (FR : (if 7 + Z.of_nat j =? 3 then Some (nth 1 (ec_gen s1) 0) else if (7 + Z.of_nat j =? 4) || (7 + Z.of_nat j =? 5) then Some 32768
    else if 7 + Z.of_nat j =? 6 then Some 48000000 else if 7 + Z.of_nat j =? 7 then Some (nth 0 (<[j:=f]> (ec_dpll s1)) 0) else if 7 + Z.of_nat j =? 8 then Some (nth 1 (<[j:=f]> (ec_dpll s1)) 0) else None) = Some f).
  { destruct j as [|[|j]]; [| |lia]; cbn [Z.of_nat Pos.of_succ_nat Z.add Pos.add Z.eqb Pos.eqb orb]; rewrite nth_ins by lia; reflexivity. }
  rewrite FR. destruct (Z.eqb_spec dv 0); [lia|]. unfold e5_setup. rewrite (proj2 (Nat.ltb_lt id 48) Hid), (proj2 (Nat.ltb_lt i 12) I). cbn [andb negb e_gen e_dpll e_pch ec_gen ec_pch ec_dpll].
  eexists. split; [reflexivity|]. unfold e5_get, e5_hw. cbn [e_pch ec_pch e_gen ec_gen e_dpll ec_dpll]. rewrite !nth_ins by lia.
  assert (K7 : kf (7 + Z.of_nat j) 4 = 7 + Z.of_nat j) by (apply kf_id; [lia|change (2 ^ 4) with 16; lia]). rewrite K7.
  set (s' := mkE5 _ _ _ _ _ _).
  assert (HW : e5_gen_hz 4 s' i = hdiv (r * (32 * q + n2) * d, 32 * d) dv).
  { rewrite (e5_gen_eq 3 s' i (7 + Z.of_nat j) (kf dv 16)) by (cbn [s' e_gen]; rewrite nth_ins by lia; reflexivity). rewrite e5_gdiv_id by lia. f_equal.
    assert (J7 : (if 7 + Z.of_nat j =? 7 then 0%nat else 1%nat) = j) by (destruct j as [|[|j]]; [reflexivity|reflexivity|lia]). cbv zeta. rewrite J7.
    destruct (Z.eqb_spec (7 + Z.of_nat j) 3); [lia|]. destruct (Z.eqb_spec (7 + Z.of_nat j) 4); [lia|]. destruct (Z.eqb_spec (7 + Z.of_nat j) 5); [lia|]. destruct (Z.eqb_spec (7 + Z.of_nat j) 6); [lia|]. cbn [orb].
    change (e_dpll s') with (<[j := (kf 0 3, n1, n2)]> (e_dpll s1)). rewrite nth_ins by lia. change (kf 0 3) with 0. cbn [Z.eqb].
    change (e_pch s') with (<[id := i]> (e_pch s1)). rewrite nth_ins_ne by congruence. rewrite P1.
    rewrite (e5_gen_eq 2 s' g 6 (kf d 16)) by (cbn [s' e_gen]; rewrite nth_ins_ne by congruence; exact G1). cbn [Z.eqb Pos.eqb orb]. rewrite e5_gdiv_id by lia. unfold hdiv. cbn [fst snd].
    f_equal; [rewrite N1, Hd; ring|ring]. }
  rewrite HW. pose proof (Z.div_mod (m * 32) r ltac:(lia)) as DN. pose proof (Z.mod_pos_bound (m * 32) r ltac:(lia)) as BN. rewrite <- N2 in DN.
  pose proof (Z.div_mod r 32 ltac:(lia)) as DR. pose proof (Z.mod_pos_bound r 32 ltac:(lia)) as BR.
  split.
  - replace (r / 32 + 2) with (r / 32 + 1 + 1) by lia. apply within_div; [assert (0 <= r / 32) by (apply Z.div_pos; lia); lia| |lia]. unfold within. cbn [fst snd]. split; [lia|].
    replace (r * (32 * q + n2) * d - f * (32 * d)) with (- ((m * 32) mod r * d)) by nia. rewrite Z.abs_opp, Z.abs_eq by nia. nia.
  - intros Z1. apply truth_div; [|lia]. assert (M0 : (m * 32) mod r = 0).
    { replace (m * 32) with (f * 32 + (- (q * 32)) * r) by lia. rewrite Z.mod_add by lia. exact Z1. }
    unfold truthful. cbn [fst snd]. replace (r * (32 * q + n2) * d - f * (32 * d)) with (- ((m * 32) mod r * d)) by nia. rewrite M0. lia.
Qed.

(** * What PMC init accepts *)
Lemma pmc_accepts st s mula diva : pmc_mosc_ok st = true -> 0 <= ps_upll st < 3 -> 0 <= ps_css st < 4 -> mckr_pres (ps_pres st) <> None -> mckr_mdiv (ps_mdiv st) <> None ->
  0 < ps_mosc st -> 2 * ps_mosc st <= ps_plla st -> 1 <= mula <= 2047 -> 1 <= diva <= 255 -> mula * ps_mosc st = ps_plla st * diva -> ps_plla st * diva < 2 ^ 32 -> exists s', pmc_init st s = KOk s'.
Proof.
  intros O U C P M M0 L A D E W. unfold pmc_init. rewrite O. cbn [negb]. pose proof (pmc_plla_finds _ _ _ _ M0 L A D E W) as F. destruct (ps_plla st =? 0).
  - rewrite (proj2 (Z.leb_le _ _)), (proj2 (Z.ltb_lt (ps_upll st) 3)), (proj2 (Z.leb_le 0 (ps_css st))), (proj2 (Z.ltb_lt (ps_css st) 4)) by lia. cbn [andb negb]. cbv zeta.
    destruct (mckr_pres (ps_pres st)); [|congruence]. destruct (mckr_mdiv (ps_mdiv st)); [|congruence]. eexists. reflexivity.
  - destruct (pmc_plla (ps_plla st) (ps_mosc st)) as [[a d]|]; [|congruence].
    rewrite (proj2 (Z.leb_le _ _)), (proj2 (Z.ltb_lt (ps_upll st) 3)), (proj2 (Z.leb_le 0 (ps_css st))), (proj2 (Z.ltb_lt (ps_css st) 4)) by lia. cbn [andb negb]. cbv zeta.
    destruct (mckr_pres (ps_pres st)); [|congruence]. destruct (mckr_mdiv (ps_mdiv st)); [|congruence]. eexists. reflexivity.
Qed.
