(** AdcProofs.v - lemmas about AdcModel: the calibration, register fields, one converter shared by several channels. *)
From Verif Require Import Base AdcModel AdcSpec.

Lemma fits_iff w x : fits w x = true <-> - 2 ^ (w - 1) <= x < 2 ^ (w - 1).
Proof. unfold fits. rewrite Bool.andb_true_iff, Z.leb_le, Z.ltb_lt. tauto. Qed.
Lemma to_int_id w x : 0 < w -> 0 <= x < 2 ^ (w - 1) -> to_int w x = x.
Proof.
  intros Hw H. unfold to_int. assert (2 ^ w = 2 * 2 ^ (w - 1)) by (rewrite <- Z.pow_succ_r by lia; f_equal; lia). rewrite Z.mod_small by lia. lia.
Qed.
Lemma quot_scaled p d : d <> 0 -> Z.abs (Z.quot p d * d) <= Z.abs p < Z.abs (Z.quot p d * d) + Z.abs d /\ 0 <= Z.quot p d * d * p.
Proof.
  intros Hd. pose proof (Z.quot_rem' p d) as E.
  assert (Hr : Z.abs (Z.rem p d) < Z.abs d) by (apply Z.rem_bound_abs; assumption).
  pose proof (Z.rem_sign_mul p d Hd) as Hs.
  assert (Hle : Z.abs (Z.rem p d) <= Z.abs p).
  { rewrite <- Z.rem_abs by assumption. apply Z.rem_le; [apply Z.abs_nonneg|]. pose proof (Z.abs_pos d). lia. }
  revert E Hr Hs Hle. generalize (Z.quot p d) as q. generalize (Z.rem p d) as r. intros r q E Hr Hs Hle.
  assert (Hq : q * d = p - r) by lia. rewrite Hq. clear E Hq q.
  destruct (Z.le_gt_cases 0 p) as [P|P].
  - assert (0 <= r) by nia. split; nia.
  - assert (r <= 0) by nia. split; nia.
Qed.
Lemma scale_sound w raw c v : 0 < w -> 0 <= raw < 2 ^ (w - 1) -> scale w raw c = Some v -> scaled raw c v.
Proof.
  intros Hw Hr E. unfold scale in E. cbv zeta in E. rewrite to_int_id in E by assumption.
  destruct (fits w (raw * c_mul c)); [|discriminate E]. cbn [negb] in E.
  destruct (Z.eqb_spec (c_div c) 0) as [D|D]; [discriminate E|].
  destruct (fits w (Z.quot (raw * c_mul c) (c_div c))); [|discriminate E]. cbn [negb] in E.
  destruct (fits w _); [|discriminate E]. injection E as <-.
  exists (Z.quot (raw * c_mul c) (c_div c)). split; [reflexivity|]. split; [exact D|]. apply quot_scaled. exact D.
Qed.
Lemma scale_total w hi raw c : 0 < w -> hi < 2 ^ (w - 1) -> 0 <= raw <= hi -> cal_ok w hi c -> exists v, scale w raw c = Some v.
Proof.
  intros Hw Hh Hr (D & B). unfold scale. cbv zeta. rewrite to_int_id by lia.
  assert (A : Z.abs (raw * c_mul c) <= hi * Z.abs (c_mul c)) by (rewrite Z.abs_mul; nia).
  assert (Q : Z.abs (Z.quot (raw * c_mul c) (c_div c)) <= Z.abs (raw * c_mul c)).
  { pose proof (quot_scaled (raw * c_mul c) _ D) as ((Q1 & _) & _). rewrite Z.abs_mul in Q1. pose proof (Z.abs_pos (c_div c)). nia. }
  pose proof (Z.abs_nonneg (c_off c)).
  rewrite (proj2 (fits_iff w (raw * c_mul c))) by lia. cbn [negb]. rewrite (proj2 (Z.eqb_neq _ _) D).
  rewrite (proj2 (fits_iff w (Z.quot _ _))) by lia. cbn [negb]. rewrite (proj2 (fits_iff w (_ + _))) by lia. eauto.
Qed.
Lemma scaled_unique raw c v v' : scaled raw c v -> scaled raw c v' -> v = v'.
Proof.
  intros (q & -> & D & (A1 & A2) & A3) (q' & -> & _ & (B1 & B2) & B3). f_equal. set (p := raw * c_mul c) in *. set (d := c_div c) in *.
  destruct (Z.eq_dec q q') as [->|N]; [reflexivity|exfalso].
  rewrite Z.abs_mul in *. assert (Hd : 0 < Z.abs d) by lia.
  assert (Z.abs q = Z.abs q') by nia. assert (q' = - q) by lia. subst q'.
  assert (q * d * p = 0) by nia. assert (p = 0) by nia. subst p. rewrite H1 in *. nia.
Qed.
Lemma give_ok w hi raw c : 0 < w -> hi < 2 ^ (w - 1) -> 0 <= raw <= hi -> cal_ok w hi c -> exists v, give w raw c = AData v /\ scaled raw c v.
Proof.
  intros Hw Hh Hr Hc. destruct (scale_total w hi raw c Hw Hh Hr Hc) as (v & E). unfold give. rewrite E. exists v. split; [reflexivity|].
  apply (scale_sound w); [assumption|lia|assumption].
Qed.

(** * Fields *)
Lemma afield_bits x lo n i : 0 <= lo -> 0 <= i -> 0 <= n -> Z.testbit (afield x lo n) i = Z.testbit x (i + lo) && (i <? n).
Proof.
  intros Hl Hi Hn. unfold afield. rewrite Z.land_spec, Z.shiftr_spec by lia. f_equal.
  destruct (Z.ltb_spec i n); [apply Z.ones_spec_low; lia|apply Z.ones_spec_high; lia].
Qed.
Lemma ones_bits n i : 0 <= n -> Z.testbit (Z.ones n) i = (0 <=? i) && (i <? n).
Proof.
  intros Hn. destruct (Z.leb_spec 0 i); cbn [andb]; [|apply Z.testbit_neg_r; lia].
  destruct (Z.ltb_spec i n); [apply Z.ones_spec_low; lia|apply Z.ones_spec_high; lia].
Qed.
Lemma land_ones_small x n : 0 <= n -> 0 <= x < 2 ^ n -> Z.land x (Z.ones n) = x.
Proof. intros Hn H. rewrite Z.land_ones by lia. apply Z.mod_small. lia. Qed.
Ltac ztb := repeat first [rewrite Z.lor_spec | rewrite Z.land_spec | rewrite Z.ldiff_spec | rewrite Z.shiftr_spec by lia | rewrite Z.shiftl_spec by lia].
(** A field replaced, read back; another field. *)
Lemma put_get m v lo n : 0 <= lo -> 0 <= n ->
  afield (Z.lor (Z.ldiff m (Z.shiftl (Z.ones n) lo)) (Z.shiftl (Z.land v (Z.ones n)) lo)) lo n = Z.land v (Z.ones n).
Proof.
  intros Hl Hn. apply Z.bits_inj'. intros i Hi. rewrite afield_bits by lia. ztb. replace (i + lo - lo) with i by lia.
  rewrite ones_bits by lia. rewrite (proj2 (Z.leb_le 0 i)) by lia. cbn [andb]. destruct (i <? n), (Z.testbit m (i + lo)), (Z.testbit v i); reflexivity.
Qed.
Lemma put_get_other m v lo n lo' n' : 0 <= lo -> 0 <= n -> 0 <= lo' -> 0 <= n' -> (lo + n <= lo' \/ lo' + n' <= lo) ->
  afield (Z.lor (Z.ldiff m (Z.shiftl (Z.ones n) lo)) (Z.shiftl (Z.land v (Z.ones n)) lo)) lo' n' = afield m lo' n'.
Proof.
  intros Hl Hn Hl' Hn' D. apply Z.bits_inj'. intros i Hi. rewrite !afield_bits by lia. destruct (Z.ltb_spec i n'); [|rewrite !andb_false_r; reflexivity].
  ztb. rewrite !ones_bits by lia. replace ((0 <=? i + lo' - lo) && (i + lo' - lo <? n)) with false; [rewrite !andb_false_r; cbn [negb]; rewrite andb_true_r, orb_false_r; reflexivity|].
  symmetry. apply andb_false_iff. rewrite Z.leb_gt, Z.ltb_ge. lia.
Qed.

(** * The multiplexer *)
Lemma avr_input m mb ch s : Z.testbit m 4 = false ->
  input1 Avr (avr_set_mux ch (k_set_mux s m mb)) = Z.land ch 15 + 32 * Z.b2z (Z.testbit ch 3).
Proof.
  intros H4. unfold input1, avr_set_mux. cbn [k_mux k_muxb k_set_mux]. f_equal.
  - apply Z.bits_inj'. intros i Hi. rewrite afield_bits by lia. ztb. rewrite Z.add_0_r. change 15 with (Z.ones 4). rewrite ones_bits by lia. rewrite (proj2 (Z.leb_le 0 i)) by lia.
    destruct (Z.ltb_spec i 4); cbn [andb negb].
    + rewrite (proj2 (Z.ltb_lt i 5)) by lia. destruct (Z.testbit m i), (Z.testbit ch i); reflexivity.
    + destruct (Z.eqb_spec i 4) as [->|]; [rewrite H4; destruct (Z.testbit ch 4); reflexivity|].
      rewrite (proj2 (Z.ltb_ge i 5)) by lia. destruct (Z.testbit m i), (Z.testbit ch i); reflexivity.
  - f_equal. apply Z.bits_inj'. intros i Hi. rewrite afield_bits by lia. ztb.
    destruct (Z.eqb_spec i 0) as [->|].
    + change (Z.testbit 8 (0 + 3)) with true. cbn [negb andb]. change (0 + 3) with 3. change (0 <? 1) with true. destruct (Z.testbit mb 3), (Z.testbit ch 3); reflexivity.
    + rewrite (proj2 (Z.ltb_ge i 1)) by lia. rewrite andb_false_r. destruct (Z.testbit ch 3); [change (Z.b2z true) with (2 ^ 0); rewrite Z.pow2_bits_false by lia; reflexivity|symmetry; apply Z.testbit_0_l].
Qed.
Lemma avr_mux4 m ch : Z.testbit m 4 = false -> Z.testbit (Z.lor (Z.ldiff m 15) (Z.land ch 15)) 4 = false.
Proof. intros H. ztb. rewrite H. destruct (Z.testbit ch 4); reflexivity. Qed.
Definition mux_table : bool :=
  forallb (fun k => let ch := Z.of_nat k in Bool.eqb (Z.land ch 15 + 32 * Z.b2z (Z.testbit ch 3) =? ch) ((ch <? 8) || ((40 <=? ch) && (ch <? 48)))) (seq 0 62).
Lemma mux_table_true : mux_table = true. Proof. vm_compute. reflexivity. Qed.
Lemma avr_mux_right m mb ch s : Z.testbit m 4 = false -> 0 <= ch <= 61 ->
  (input1 Avr (avr_set_mux ch (k_set_mux s m mb)) = ch <-> ch < 8 \/ 40 <= ch < 48).
Proof.
  intros H4 Hc. rewrite avr_input by assumption. pose proof mux_table_true as T. unfold mux_table in T. rewrite forallb_forall in T.
  specialize (T (Z.to_nat ch)). rewrite in_seq in T. specialize (T ltac:(lia)). cbv beta zeta in T. rewrite Z2Nat.id in T by lia.
  apply Bool.eqb_prop in T. rewrite <- Z.eqb_eq, T, orb_true_iff, andb_true_iff, !Z.ltb_lt, Z.leb_le. tauto.
Qed.

(** * One converter *)
Definition mux_ok (d : drv1) (s : st1) : Prop := d = Avr -> Z.testbit (k_mux s) 4 = false.
Definition acq_of (d : drv1) (cur : option (nat * nat)) (j : nat) : bool :=
  match d, cur with (Rp2040 | SamE5), Some (i, _) => (j =? i)%nat | _, _ => false end.
Definition ctxs_are (d : drv1) (l : list (Z * cal)) (cur : option (nat * nat)) (s : st1) : Prop :=
  forall j, k_ctx s !! j = (fun p => mkC1 (fst p) (acq_of d cur j) (snd p)) <$> (l !! j).
Definition inv1 (d : drv1) (sig : Z -> nat -> Z) (l : list (Z * cal)) (n : nat) (cur : option (nat * nat)) (s : st1) : Prop :=
  mux_ok d s /\ k_auto s = false /\ ctxs_are d l cur s /\
  match cur with
  | None => k_run s = None /\ (k_flag s = false \/ d = Rp2040) /\ k_acq s = false
  | Some (i, t0) => k_acq s = (match d with Avr | TinyAvr => true | _ => false end) /\
      exists p, l !! i = Some p /\ exists t, (t0 <= t < n)%nat /\
      ((k_run s = Some (fst p, t) /\ (k_flag s = false \/ d = Rp2040)) \/ (k_run s = None /\ k_flag s = true /\ k_res s = sig (fst p) t))
  end.
Lemma inv1_init d sig mux muxb l : (d = Avr -> Z.testbit mux 4 = false) -> inv1 d sig l 0 None (init1 mux muxb false l).
Proof.
  intros Hm. split; [exact Hm|]. split; [reflexivity|]. split; [|split; [reflexivity|split; [left; reflexivity|reflexivity]]].
  intros j. unfold init1. cbn [k_ctx]. rewrite list_lookup_fmap. destruct (l !! j); [|reflexivity]. cbn. destruct d; reflexivity.
Qed.
(** The input of the context is selected. *)
Lemma rp_input m ch : 0 <= ch < 5 -> afield (Z.lor (Z.ldiff m (Z.shiftl 7 12)) (Z.shiftl (Z.land ch 7) 12)) 12 3 = ch.
Proof. intros H. change 7 with (Z.ones 3). rewrite put_get by lia. apply land_ones_small; lia. Qed.
Lemma input_5 ch : 0 <= ch < 32 -> afield (Z.land ch 31) 0 5 = ch.
Proof. intros H. change 31 with (Z.ones 5). rewrite land_ones_small by (try lia; change (2 ^ 5) with 32; lia). unfold afield. rewrite Z.shiftr_0_r. apply land_ones_small; [lia|change (2 ^ 5) with 32; lia]. Qed.

Lemma put_ctxs d l (cur : option (nat * nat)) (i t : nat) s p (a : bool) : (d = Rp2040 \/ d = SamE5) -> ctxs_are d l cur s -> l !! i = Some p ->
  (cur = None \/ exists t', cur = Some (i, t')) ->
  forall cur' : option (nat * nat), cur' = (if a then Some (i, t) else None) ->
  ctxs_are d l cur' (put_acq s i (mkC1 (fst p) (acq_of d cur i) (snd p)) a).
Proof.
  intros Hd Hc Hp Hcur cur' -> j. unfold put_acq. cbn [k_ctx k_set_ctx x_chan x_cal].
  destruct (decide (j = i)) as [->|N].
  - rewrite list_lookup_insert by (eapply lookup_lt_Some; rewrite (Hc i), Hp; reflexivity). rewrite Hp. cbn. f_equal. f_equal.
    destruct Hd as [-> | ->]; destruct a; cbn [acq_of]; rewrite ?Nat.eqb_refl; reflexivity.
  - rewrite list_lookup_insert_ne by congruence. rewrite (Hc j). destruct (l !! j); [|reflexivity]. cbn. f_equal. f_equal.
    assert (E : (j =? i)%nat = false) by (apply Nat.eqb_neq; exact N).
    destruct Hd as [-> | ->]; destruct Hcur as [-> | (t' & ->)]; destruct a; cbn [acq_of]; rewrite ?E; reflexivity.
Qed.

(** What a read of context i does. *)
Lemma read1_ok d sig hi l n cur s i p : sig_ok (bits1 d) hi sig -> ctxs_ok1 d hi l -> inv1 d sig l n cur s -> l !! i = Some p ->
  (cur = None \/ exists t0, cur = Some (i, t0)) ->
  let t0 := match cur with Some (_, t) => t | None => n end in
  exists s' o, step1 d sig n (ERead i) s = (s', o) /\
    ((o = ARet (- A_EAGAIN) /\ inv1 d sig l (S n) (Some (i, t0)) s') \/
     (exists v t, o = AData v /\ (t0 <= t <= n)%nat /\ scaled (sig (fst p) t) (snd p) v /\ inv1 d sig l (S n) None s')) /\
    (forall t, cur = Some (i, t) -> k_run s = None -> exists v, o = AData v).
Proof.
  intros (Hhi & Hsig) Hok (Hmux & Hauto & Hctx & Hst) Hp Hcur. cbv zeta.
  assert (Hch : chan_ok1 d (fst p) = true /\ cal_ok (bits1 d) hi (snd p) /\ (d = Avr -> fst p < 8 \/ 40 <= fst p < 48)).
  { unfold ctxs_ok1 in Hok. rewrite Forall_forall in Hok. apply Hok. apply elem_of_list_lookup_2 in Hp. exact Hp. }
  destruct Hch as (Hch & Hcal & Havr).
  unfold step1. rewrite (Hctx i), Hp. cbn [fmap option_fmap option_map]. 
  destruct Hcur as [-> | (t0 & ->)].
  - destruct Hst as (Hr & Hf & Ha).
    assert (R : forall s', mux_ok d s' -> k_auto s' = false -> ctxs_are d l (Some (i, n)) s' -> k_acq s' = (match d with Avr | TinyAvr => true | _ => false end) ->
      k_run s' = Some (fst p, n) -> (k_flag s' = false \/ d = Rp2040) -> inv1 d sig l (S n) (Some (i, n)) s').
    { intros s' A B C D E F. split; [exact A|]. split; [exact B|]. split; [exact C|]. split; [exact D|]. exists p. split; [exact Hp|]. exists n. split; [lia|]. left. split; assumption. }
    destruct d.
    + (* Avr *)
      cbn [read1]. rewrite Ha. unfold avr_idle. cbn [x_chan]. cbn [chan_ok1] in Hch. apply andb_true_iff in Hch. destruct Hch as (H0 & H61). rewrite H61. cbn [negb].
      cbn [avr_set_mux k_set_mux k_auto]. rewrite Hauto. cbv zeta. eexists. eexists. split; [reflexivity|]. split; [|intros t K; discriminate K]. left. split; [reflexivity|].
      apply R; unfold hw_start1; cbn [k_run k_set_flag avr_set_mux k_set_mux]; rewrite Hr; cbn [k_set_acq k_set_run k_mux k_auto k_ctx k_acq k_run k_flag].
      * intros _. apply avr_mux4. exact (Hmux eq_refl).
      * exact Hauto.
      * intros j. exact (Hctx j).
      * reflexivity.
      * f_equal. f_equal. pose proof (avr_mux_right (k_mux s) (k_muxb s) (fst p) s (Hmux eq_refl)) as M. specialize (M ltac:(lia)). exact (proj2 M (Havr eq_refl)).
      * left. reflexivity.
    + cbn [read1]. rewrite Ha. unfold tiny_idle. rewrite Hr. cbn [is_some]. cbn [chan_ok1] in Hch. apply andb_true_iff in Hch. rewrite Z.leb_le, Z.ltb_lt in Hch.
      eexists. eexists. split; [reflexivity|]. split; [|intros t K; discriminate K]. left. split; [reflexivity|].
      apply R; unfold hw_start1; cbn [k_run k_set_flag k_set_mux x_chan]; rewrite Hr; cbn [k_set_acq k_set_run k_mux k_auto k_ctx k_acq k_run k_flag].
      * intros K; discriminate K.
      * exact Hauto.
      * intros j. exact (Hctx j).
      * reflexivity.
      * f_equal. f_equal. cbn [input1 k_mux k_set_mux]. apply input_5. lia.
      * exact Hf.
    + cbn [read1 x_acq acq_of]. unfold rp_idle. cbn [chan_ok1] in Hch. apply andb_true_iff in Hch. rewrite Z.leb_le, Z.ltb_lt in Hch.
      eexists. eexists. split; [reflexivity|]. split; [|intros t K; discriminate K]. left. split; [reflexivity|].
      set (s1 := k_set_mux s _ _). assert (E1 : hw_start1 Rp2040 n s1 = k_set_run s1 (Some (fst p, n))).
      { unfold hw_start1. cbn [s1 k_run k_set_mux]. rewrite Hr. f_equal. f_equal. f_equal. cbn [input1 s1 k_mux k_set_mux x_chan]. apply rp_input. lia. }
      rewrite E1. apply R.
      * intros K; discriminate K.
      * exact Hauto.
      * apply (put_ctxs Rp2040 l None i n _ p true); [left; reflexivity|intros j; exact (Hctx j)|exact Hp|left; reflexivity|reflexivity].
      * exact Ha.
      * reflexivity.
      * right. reflexivity.
    + cbn [read1 x_acq acq_of]. unfold sam_idle. rewrite Hr. cbn [is_some]. cbn [chan_ok1] in Hch. apply andb_true_iff in Hch. rewrite Z.leb_le, Z.ltb_lt in Hch.
      eexists. eexists. split; [reflexivity|]. split; [|intros t K; discriminate K]. left. split; [reflexivity|].
      set (s1 := k_set_mux s _ _). assert (E1 : hw_start1 SamE5 n s1 = k_set_run s1 (Some (fst p, n))).
      { unfold hw_start1. cbn [s1 k_run k_set_mux]. rewrite Hr. f_equal. f_equal. f_equal. cbn [input1 s1 k_mux k_set_mux x_chan]. apply input_5. lia. }
      rewrite E1. apply R.
      * intros K; discriminate K.
      * exact Hauto.
      * apply (put_ctxs SamE5 l None i n _ p true); [right; reflexivity|intros j; exact (Hctx j)|exact Hp|left; reflexivity|reflexivity].
      * exact Ha.
      * reflexivity.
      * exact Hf.
  - destruct Hst as (Ha & p' & Hp' & t & Ht & Hst). rewrite Hp in Hp'. injection Hp' as <-.
    assert (Hbits : 0 < bits1 d) by (destruct d; cbn [bits1]; lia).
    assert (W : forall s', mux_ok d s' -> k_auto s' = false -> ctxs_are d l None s' -> k_run s' = None -> (k_flag s' = false \/ d = Rp2040) -> k_acq s' = false -> inv1 d sig l (S n) None s').
    { intros s' A B C D E F. split; [exact A|]. split; [exact B|]. split; [exact C|]. split; [exact D|]. split; assumption. }
    destruct Hst as [(Hr & Hf)|(Hr & Hf & Hv)].
    + (* still converting *)
      assert (K : forall s', s' = s -> inv1 d sig l (S n) (Some (i, t0)) s').
      { intros s' ->. split; [exact Hmux|]. split; [exact Hauto|]. split; [exact Hctx|]. split; [exact Ha|]. exists p. split; [exact Hp|]. exists t. split; [lia|]. left. split; assumption. }
      destruct d; cbn [read1 x_acq acq_of]; rewrite ?Nat.eqb_refl, ?Ha.
      * unfold avr_acq. destruct Hf as [-> |X]; [|discriminate X]. cbn [negb]. eexists. eexists. split; [reflexivity|]. split; [left; split; [reflexivity|apply K; reflexivity]|]. intros t' _ X. rewrite Hr in X. discriminate X.
      * unfold tiny_acq. destruct Hf as [-> |X]; [|discriminate X]. cbn [negb]. eexists. eexists. split; [reflexivity|]. split; [left; split; [reflexivity|apply K; reflexivity]|]. intros t' _ X. rewrite Hr in X. discriminate X.
      * unfold rp_acq. rewrite Hr. cbn [is_some]. eexists. eexists. split; [reflexivity|]. split; [left; split; [reflexivity|apply K; reflexivity]|]. intros t' _ X. discriminate X.
      * unfold sam_acq. rewrite Hr. cbn [is_some orb]. eexists. eexists. split; [reflexivity|]. split; [left; split; [reflexivity|apply K; reflexivity]|]. intros t' _ X. discriminate X.
    + (* done *)
      destruct (give_ok (bits1 d) hi (k_res s) (snd p) Hbits Hhi) as (v & Ev & Sv); [rewrite Hv; apply Hsig|exact Hcal|].
      rewrite Hv in Sv.
      destruct d; cbn [read1 x_acq acq_of]; rewrite ?Nat.eqb_refl, ?Ha; cbn [bits1] in Ev.
      * unfold avr_acq. rewrite Hf. cbn [negb x_cal]. rewrite Ev. eexists. eexists. split; [reflexivity|]. split; [right; exists v, t; split; [reflexivity|]; split; [lia|]; split; [exact Sv|]|intros; eauto].
        apply W; cbn [k_set_acq k_set_flag k_mux k_auto k_ctx k_run k_flag k_acq]; [exact Hmux|exact Hauto|intros j; exact (Hctx j)|exact Hr|left; reflexivity|reflexivity].
      * unfold tiny_acq. rewrite Hf. cbn [negb x_cal]. rewrite Ev. eexists. eexists. split; [reflexivity|]. split; [right; exists v, t; split; [reflexivity|]; split; [lia|]; split; [exact Sv|]|intros; eauto].
        apply W; cbn [k_set_acq k_set_flag k_mux k_auto k_ctx k_run k_flag k_acq]; [exact Hmux|exact Hauto|intros j; exact (Hctx j)|exact Hr|left; reflexivity|reflexivity].
      * unfold rp_acq. rewrite Hr. cbn [is_some x_cal]. rewrite Ev. eexists. eexists. split; [reflexivity|]. split; [right; exists v, t; split; [reflexivity|]; split; [lia|]; split; [exact Sv|]|intros; eauto].
        assert (PC : ctxs_are Rp2040 l None (put_acq s i (mkC1 (fst p) (acq_of Rp2040 (Some (i, t0)) i) (snd p)) false))
          by (apply (put_ctxs Rp2040 l (Some (i, t0)) i n s p false); [left; reflexivity|exact Hctx|exact Hp|right; eauto|reflexivity]).
        cbn [acq_of] in PC. rewrite Nat.eqb_refl in PC.
        apply W; [exact Hmux|exact Hauto|exact PC|exact Hr|right; reflexivity|exact Ha].
      * unfold sam_acq. rewrite Hr, Hf. cbn [is_some orb negb x_cal]. rewrite Ev. eexists. eexists. split; [reflexivity|]. split; [right; exists v, t; split; [reflexivity|]; split; [lia|]; split; [exact Sv|]|intros; eauto].
        assert (PC : ctxs_are SamE5 l None (put_acq (k_set_flag s false) i (mkC1 (fst p) (acq_of SamE5 (Some (i, t0)) i) (snd p)) false))
          by (apply (put_ctxs SamE5 l (Some (i, t0)) i n (k_set_flag s false) p false); [right; reflexivity|exact Hctx|exact Hp|right; eauto|reflexivity]).
        cbn [acq_of] in PC. rewrite Nat.eqb_refl in PC.
        apply W; [exact Hmux|exact Hauto|exact PC|exact Hr|left; reflexivity|exact Ha].
Qed.
Lemma inv1_later d sig l n cur s : inv1 d sig l n cur s -> inv1 d sig l (S n) cur s.
Proof.
  intros (A & B & C & D). split; [exact A|]. split; [exact B|]. split; [exact C|]. destruct cur as [(i, t0)|]; [|exact D].
  destruct D as (D & p & Hp & t & Ht & D'). split; [exact D|]. exists p. split; [exact Hp|]. exists t. split; [lia|exact D'].
Qed.
Lemma done1_ok d sig l n cur s : inv1 d sig l n cur s -> inv1 d sig l (S n) cur (fst (step1 d sig n EDone s)).
Proof.
  intros H. unfold step1, fst, hw_done1. destruct (k_run s) as [(c, u)|] eqn:Hr; [|apply inv1_later; exact H].
  destruct H as (A & B & C & D). destruct cur as [(i, t0)|].
  - destruct D as (Ha & p & Hp & t & Ht & [(R & F)|(R & _)]); rewrite Hr in R; [|discriminate R]. injection R as -> ->.
    split; [exact A|]. split; [exact B|]. split; [intros j; exact (C j)|]. split; [exact Ha|]. exists p. split; [exact Hp|]. exists t. split; [lia|]. right. split; [reflexivity|]. split; reflexivity.
  - destruct D as (R & _). rewrite Hr in R. discriminate R.
Qed.
(** Along a history with one read at a time. *)
Lemma run1_inv d sig hi l : sig_ok (bits1 d) hi sig -> ctxs_ok1 d hi l -> forall evs n cur s cur',
  inv1 d sig l n cur s -> Forall (fun e => match e with ERead i => is_some (l !! i) = true | _ => True end) evs ->
  one_at_a_time n cur (trace1 d sig n evs s) = Some cur' ->
  inv1 d sig l (n + length evs)%nat cur' (run1 d sig n evs s).
Proof.
  intros Hs Hk. induction evs as [|e evs IH]; intros n cur s cur' HI Hv E.
  - cbn in E. injection E as <-. cbn. rewrite Nat.add_0_r. exact HI.
  - apply Forall_cons in Hv. destruct Hv as (Hv1 & Hv). cbn [trace1 run1 length] in *. rewrite Nat.add_succ_r.
    destruct (step1 d sig n e s) as (s1, o) eqn:Es. cbn [fst].
    destruct e as [i| |].
    + cbn [one_at_a_time] in E. destruct (l !! i) as [p|] eqn:Hp; [|discriminate Hv1].
      destruct cur as [(j, t0)|].
      * destruct (Nat.eqb_spec j i) as [->|]; [|discriminate E].
        destruct (read1_ok d sig hi l n (Some (i, t0)) s i p Hs Hk HI Hp (or_intror (ex_intro _ t0 eq_refl))) as (s' & o' & E' & HH & _).
        rewrite Es in E'. injection E' as <- <-.
        destruct HH as [(-> & HI')|(v & t & -> & _ & _ & HI')]; exact (IH _ _ _ _ HI' Hv E).
      * rewrite Nat.eqb_refl in E.
        destruct (read1_ok d sig hi l n None s i p Hs Hk HI Hp (or_introl eq_refl)) as (s' & o' & E' & HH & _).
        rewrite Es in E'. injection E' as <- <-.
        destruct HH as [(-> & HI')|(v & t & -> & _ & _ & HI')]; exact (IH _ _ _ _ HI' Hv E).
    + cbn [one_at_a_time] in E. pose proof (done1_ok d sig l n cur s HI) as HI'. rewrite Es in HI'. exact (IH _ _ _ _ HI' Hv E).
    + cbn [one_at_a_time] in E. assert (HI' : inv1 d sig l (S n) cur s1).
      { cbn [step1] in Es. destruct HI as (A & B & C). rewrite B in Es. injection Es as <- <-. apply inv1_later. split; [exact A|]. split; [exact B|exact C]. }
      exact (IH _ _ _ _ HI' Hv E).
Qed.
