(** AdcProofs3.v - lemmas about AdcModel: PIC32 channels, clocks, slots of TI type 4. *)
From Verif Require Import Base AdcModel AdcSpec AdcProofs.

(** * PIC32 *)
Lemma set_at_same {A} (f : Z -> A) k v : set_at f k v k = v. Proof. unfold set_at. rewrite Z.eqb_refl. reflexivity. Qed.
Lemma set_at_other {A} (f : Z -> A) k v x : x <> k -> set_at f k v x = f x. Proof. intros N. unfold set_at. rewrite (proj2 (Z.eqb_neq _ _) N). reflexivity. Qed.
Lemma land3 ch : 0 <= Z.land ch 3 < 4.
Proof. change 3 with (Z.ones 2). rewrite Z.land_ones by lia. apply Z.mod_pos_bound. lia. Qed.
Lemma pic_trg_own cl2 ch trg lvl s s' : 0 <= ch -> pic_trgsrc cl2 ch trg lvl s = Some s' ->
  ch < cl2 /\ 0 <= trg < 13 /\ trg_of s' ch = trg /\ Z.testbit (p_sns s') ch = lvl /\
  (forall ch', 0 <= ch' -> ch' / 4 <> ch / 4 -> trg_of s' ch' = trg_of s ch') /\
  (forall ch', 0 <= ch' -> ch' / 4 = ch / 4 -> ch' <> ch -> trg_of s' ch' = 0) /\
  (forall ch', 0 <= ch' -> ch' <> ch -> Z.testbit (p_sns s') ch' = Z.testbit (p_sns s) ch') /\
  p_im s' = p_im s /\ p_time s' = p_time s /\
  (forall x, 0 <= x -> Z.testbit (p_css s' (Z.shiftr x 5)) (Z.land x 31) = Z.testbit (p_css s (Z.shiftr x 5)) (Z.land x 31) || ((trg =? 3) && (x =? ch))).
Proof.
  intros Hch E. unfold pic_trgsrc in E.
  destruct (_ && _) eqn:Ht in E; [|discriminate E]. apply andb_true_iff in Ht. rewrite Z.leb_le, Z.ltb_lt in Ht. cbn [negb] in E.
  destruct (Z.ltb_spec ch cl2) as [Hl|]; [|discriminate E]. cbn [negb] in E. cbv zeta in E.
  set (w := u32 (Z.shiftl (Z.land trg 31) (Z.land ch 3 * 8))) in E.
  set (sn := if lvl then _ else _) in E.
  assert (T : p_trg s' = set_at (p_trg s) (Z.shiftr ch 2) w /\ p_sns s' = sn /\ p_im s' = p_im s /\ p_time s' = p_time s /\
    p_css s' = if trg =? 3 then upd (p_css s) (Z.shiftr ch 5) (fun r => Z.lor r (Z.shiftl 1 (Z.land ch 31))) else p_css s).
  { destruct (trg =? 3); injection E as <-; repeat split. }
  destruct T as (T1 & T2 & T3 & T4 & T5). clear E.
  pose proof (land3 ch) as L3.
  assert (Hw : forall ch', 0 <= ch' -> afield w (Z.land ch' 3 * 8) 5 = if Z.land ch' 3 =? Z.land ch 3 then trg else 0).
  { intros ch' Hch'. pose proof (land3 ch') as L3'. apply Z.bits_inj'. intros i Hi. rewrite afield_bits by lia. unfold w, u32.
    destruct (Z.ltb_spec i 5) as [I5|I5].
    - rewrite Z.mod_pow2_bits_low by lia. rewrite Z.shiftl_spec by lia. change 31 with (Z.ones 5).
      destruct (Z.eqb_spec (Z.land ch' 3) (Z.land ch 3)) as [-> |N].
      + replace (i + Z.land ch 3 * 8 - Z.land ch 3 * 8) with i by lia. rewrite land_ones_small by (try lia; change (2 ^ 5) with 32; lia). apply andb_true_r.
      + rewrite Z.land_spec, ones_bits by lia. rewrite Z.testbit_0_l. replace ((0 <=? _) && (_ <? 5)) with false; [rewrite !andb_false_r; reflexivity|]. symmetry. apply andb_false_iff. rewrite Z.leb_gt, Z.ltb_ge. lia.
    - rewrite andb_false_r. destruct (Z.land ch' 3 =? Z.land ch 3); [|symmetry; apply Z.testbit_0_l]. symmetry. destruct (Z.eq_dec trg 0) as [->|]; [apply Z.testbit_0_l|]. apply Z.bits_above_log2; [lia|]. apply Z.log2_lt_pow2; [lia|].
      apply Z.lt_le_trans with (2 ^ 5); [change (2 ^ 5) with 32; lia|]. apply Z.pow_le_mono_r; lia. }
  assert (Hdiv : forall x, Z.shiftr x 2 = x / 4) by (intros x; rewrite Z.shiftr_div_pow2 by lia; reflexivity).
  assert (Hmod : forall x, 0 <= x -> Z.land x 3 = x mod 4) by (intros x _; change 3 with (Z.ones 2); rewrite Z.land_ones by lia; reflexivity).
  split; [exact Hl|]. split; [lia|].
  split; [unfold trg_of; rewrite T1, set_at_same, Hw by lia; rewrite Z.eqb_refl; reflexivity|].
  assert (B1 : forall x, 0 <= x -> Z.testbit (Z.shiftl 1 ch) x = (x =? ch)).
  { intros x Hx. rewrite Z.shiftl_1_l. rewrite Z.pow2_bits_eqb by lia. apply Z.eqb_sym. }
  split; [rewrite T2; unfold sn; destruct lvl; rewrite ?Z.lor_spec, ?Z.ldiff_spec, B1 by lia; rewrite Z.eqb_refl; [apply orb_true_r|apply andb_false_r]|].
  split; [|split; [|split; [|split; [exact T3|split; [exact T4|]]]]].
  - intros ch' H1 H2. unfold trg_of. rewrite T1, set_at_other by (rewrite !Hdiv; exact H2). reflexivity.
  - intros ch' H1 H2 H3. unfold trg_of. rewrite T1. rewrite (Hdiv ch'), H2, <- Hdiv, set_at_same, Hw by lia.
    destruct (Z.eqb_spec (Z.land ch' 3) (Z.land ch 3)) as [K|]; [exfalso|reflexivity]. rewrite !Hmod in K by lia. pose proof (Z.div_mod ch 4). pose proof (Z.div_mod ch' 4). lia.
  - intros ch' H1 H2. rewrite T2. unfold sn. apply Z.eqb_neq in H2. destruct lvl; rewrite ?Z.lor_spec, ?Z.ldiff_spec, B1 by lia; rewrite H2; [apply orb_false_r|apply andb_true_r].
  - intros x Hx. rewrite T5. destruct (trg =? 3); [|rewrite orb_false_r; reflexivity]. cbn [andb].
    assert (D5 : forall y, Z.shiftr y 5 = y / 32) by (intros y; rewrite Z.shiftr_div_pow2 by lia; reflexivity).
    assert (M5 : forall y, Z.land y 31 = y mod 32) by (intros y; change 31 with (Z.ones 5); rewrite Z.land_ones by lia; reflexivity).
    unfold upd, set_at. rewrite !D5, !M5. destruct (Z.eqb_spec (x / 32) (ch / 32)) as [Q|Q].
    + rewrite Q. rewrite Z.lor_spec. f_equal. rewrite Z.shiftl_1_l, Z.pow2_bits_eqb by (apply Z.mod_pos_bound; lia).
      destruct (Z.eqb_spec (ch mod 32) (x mod 32)), (Z.eqb_spec x ch); try reflexivity; exfalso; pose proof (Z.div_mod ch 32); pose proof (Z.div_mod x 32); [lia|subst; lia].
    + destruct (Z.eqb_spec x ch) as [->|]; [lia|]. rewrite orb_false_r. reflexivity.
Qed.
(** Input modes other than 0 are never set on cleared registers. *)
Definition im_table : bool :=
  forallb (fun k => forallb (fun im =>
    match pic_input_mode (Z.of_nat k) im (mkPic (fun _ => 0) (fun _ => 0) (fun _ => 0) 0 (fun _ => 0)) with
    | Some s => negb (Bool.eqb (sign_of s (Z.of_nat k)) (Z.odd im) && Bool.eqb (diff_of s (Z.of_nat k)) (2 <=? im))
    | None => false end) [1; 2; 3]) (seq 0 64).
Lemma im_table_true : im_table = true. Proof. vm_compute. reflexivity. Qed.
Lemma im_never ch im t c n tm s : 0 <= ch < 64 -> 1 <= im <= 3 ->
  pic_input_mode ch im (mkPic (fun _ => 0) t c n tm) = Some s -> ~ mode_is s ch im.
Proof.
  intros Hc Hi E (A & B). pose proof im_table_true as T. unfold im_table in T. rewrite forallb_forall in T. specialize (T (Z.to_nat ch)). rewrite in_seq in T. specialize (T ltac:(lia)).
  rewrite forallb_forall in T. specialize (T im). rewrite Z2Nat.id in T by lia.
  assert (I : In im [1; 2; 3]) by (cbn [In]; lia). specialize (T I).
  assert (G : forall t' c' n' tm', exists s', pic_input_mode ch im (mkPic (fun _ => 0) t' c' n' tm') = Some s' /\ p_im s' = p_im s).
  { intros t' c' n' tm'. unfold pic_input_mode in *. cbv zeta in *. destruct (if im =? 0 then _ else _); [|discriminate E]. injection E as <-. eexists. split; reflexivity. }
  destruct (G (fun _ => 0) (fun _ => 0) 0 (fun _ => 0)) as (s' & E' & P). rewrite E' in T. unfold sign_of, diff_of in T, A, B. rewrite P, A, B, !Bool.eqb_reflx in T. discriminate T.
Qed.
Lemma im_zero ch t c n tm : 0 <= ch < 64 -> exists s, pic_input_mode ch 0 (mkPic (fun _ => 0) t c n tm) = Some s /\ (forall x, 0 <= x -> mode_is s x 0).
Proof.
  intros H. unfold pic_input_mode. cbv zeta. cbn [Z.eqb]. eexists. split; [reflexivity|]. intros x Hx. unfold mode_is, sign_of, diff_of. cbn [p_im]. unfold upd, set_at.
  change (Z.odd 0) with false. change (2 <=? 0) with false. destruct (_ =? _); rewrite ?Z.ldiff_0_l, ?Z.testbit_0_l; split; reflexivity.
Qed.

(** * Clocks *)
Lemma tiny_ok f clk p : tiny_presc f clk = Some (Some p) -> f < 257 * clk -> 0 <= p < 8 /\ tiny_div p * clk < 2 * f /\ f < (tiny_div p + 1) * clk.
Proof.
  intros E Hf. unfold tiny_presc in E. destruct (_ && _) eqn:C in E; [|discriminate E]. apply andb_true_iff in C. rewrite !Z.leb_le in C. cbn [negb] in E. cbv zeta in E.
  destruct (Z.ltb_spec 0 f); [|discriminate E]. cbn [negb] in E.
  pose proof (Z.div_mod f clk ltac:(lia)) as D. pose proof (Z.mod_pos_bound f clk ltac:(lia)) as M. set (q := f / clk) in *.
  assert (Q : q <= 256) by nia.
  destruct (Z.ltb_spec 128 q); [injection E as <-; change (tiny_div 7) with 256; nia|].
  destruct (Z.ltb_spec 64 q); [injection E as <-; change (tiny_div 6) with 128; nia|].
  destruct (Z.ltb_spec 32 q); [injection E as <-; change (tiny_div 5) with 64; nia|].
  destruct (Z.ltb_spec 16 q); [injection E as <-; change (tiny_div 4) with 32; nia|].
  destruct (Z.ltb_spec 8 q); [injection E as <-; change (tiny_div 3) with 16; nia|].
  destruct (Z.ltb_spec 4 q); [injection E as <-; change (tiny_div 2) with 8; nia|].
  destruct (Z.ltb_spec 2 q); [injection E as <-; change (tiny_div 1) with 4; nia|].
  destruct (Z.ltb_spec 1 q); [injection E as <-; change (tiny_div 0) with 2; nia|discriminate E].
Qed.
Lemma tiny_accepts f clk : 0 < f -> 50000 <= clk <= 1500000 -> 2 * clk <= f -> exists p, tiny_presc f clk = Some (Some p).
Proof.
  intros Hf Hc H. unfold tiny_presc. rewrite (proj2 (andb_true_iff _ _)) by (rewrite !Z.leb_le; lia). cbn [negb]. cbv zeta. rewrite (proj2 (Z.ltb_lt 0 f)) by lia. cbn [negb].
  assert (Q : 2 <= f / clk) by (apply Z.div_le_lower_bound; lia). set (q := f / clk) in *.
  destruct (128 <? q); [eauto|]. destruct (64 <? q); [eauto|]. destruct (32 <? q); [eauto|]. destruct (16 <? q); [eauto|]. destruct (8 <? q); [eauto|]. destruct (4 <? q); [eauto|].
  destruct (2 <? q); [eauto|]. rewrite (proj2 (Z.ltb_lt 1 q)) by lia. eauto.
Qed.
Lemma afec_ok f p : afec_presc f = Some p -> 20000000 <= f < 2 ^ 31 -> 20000000 * (p + 1) <= f < 40000000 * (p + 1).
Proof.
  intros E Hf. unfold afec_presc in E. rewrite (proj2 (Z.ltb_lt 0 f)) in E by lia. cbn [negb] in E. injection E as <-.
  pose proof (Z.div_mod f 20000000 ltac:(lia)) as D. pose proof (Z.mod_pos_bound f 20000000 ltac:(lia)) as M. set (q := f / 20000000) in *.
  assert (1 <= q <= 107) by nia. unfold u32. rewrite Z.mod_small by (change (2 ^ 32) with 4294967296; lia). change 255 with (Z.ones 8). rewrite land_ones_small by (try lia; change (2 ^ 8) with 256; lia). nia.
Qed.

(** * TI type 4 *)
Definition tinv (p : list tctx * ti) : Prop :=
  0 <= i_count (snd p) <= 16 /\
  (forall i c, fst p !! i = Some c -> 0 <= t_start c <= t_end c /\ t_end c < i_count (snd p) /\ 0 <= t_chan c < 16 /\ 0 <= t_int c < 4 /\
    forall k, t_start c <= k <= t_end c -> i_sel (snd p) k = t_chan c) /\
  (forall i j a b, fst p !! i = Some a -> fst p !! j = Some b -> (i < j)%nat -> t_end a < t_start b) /\
  (NoDup (map t_int (fst p)) -> forall i c, fst p !! i = Some c -> i_int (snd p) (t_int c) = t_end c).
Lemma land15 ch : 0 <= ch < 16 -> Z.land ch 15 = ch.
Proof. intros H. change 15 with (Z.ones 4). apply land_ones_small; [lia|change (2 ^ 4) with 16; lia]. Qed.
Lemma tinv_reset : tinv ti_reset.
Proof. split; [cbn; lia|]. split; [intros i c E; discriminate E|]. split; [intros i j a b E; discriminate E|]. intros _ i c E; discriminate E. Qed.
Lemma ti_init_case ch n int s : 0 <= i_count s <= 16 ->
  (exists r, snd (fst (ti_adc_init ch n int s)) = None /\ fst (fst (ti_adc_init ch n int s)) = - r /\ 0 < r /\ snd (ti_adc_init ch n int s) = s) \/
  (0 <= ch < 16 /\ 0 < n /\ i_count s + n <= 16 /\ 0 <= int < 4 /\ ti_adc_init ch n int s =
    ((0, Some (mkT ch (i_count s) (i_count s + n - 1) int true cal_init)),
     mkTi (i_count s + n) (fun k => if (i_count s <=? k) && (k <=? i_count s + n - 1) then Z.land ch 15 else i_sel s k) (set_at (i_int s) int (i_count s + n - 1)))).
Proof.
  intros Hk. unfold ti_adc_init, ti_request, A_EINVAL, A_EIO.
  destruct (_ && (ch <? 16)) eqn:C1; [|left; exists 22; cbn; repeat split; lia]. cbn [negb].
  destruct (Z.leb_spec n 16); [|left; exists 22; cbn; repeat split; lia]. cbn [negb].
  destruct (_ && (int <? 4)) eqn:C2; [|left; exists 22; cbn; repeat split; lia]. cbn [negb].
  destruct (Z.ltb_spec 0 n); cbn [negb]; [|left; exists 22; cbn; repeat split; lia].
  destruct (Z.leb_spec (i_count s + n) 16); cbn [negb]; [|left; exists 5; cbn; repeat split; lia].
  rewrite (proj2 (Z.ltb_ge (i_count s) 0)) by lia. cbv zeta. apply andb_true_iff in C1, C2. rewrite Z.leb_le, Z.ltb_lt in C1, C2.
  right. split; [lia|]. split; [lia|]. split; [lia|]. split; [lia|]. reflexivity.
Qed.
Lemma tinv_step amin o p : tinv p -> tinv (ti_step amin o p).
Proof.
  intros (A & B & C & D). destruct p as (cs, s). cbn [fst snd] in *. destruct o as [ch n int|k trig acqps].
  - cbn [ti_step fst snd]. destruct (ti_init_case ch n int s A) as [(r & E1 & E2 & E3 & E4)|(H1 & H2 & H3 & H4 & E)].
    + destruct (ti_adc_init ch n int s) as ((r', o), s1). cbn [fst snd] in *. subst o s1. split; [exact A|]. split; [exact B|]. split; [exact C|exact D].
    + rewrite E. cbn [fst snd]. set (hi := i_count s + n - 1). 
      split; [cbn [i_count snd]; lia|]. cbn [fst snd i_count i_sel i_int].
      assert (Old : forall i c, cs !! i = Some c -> t_end c < i_count s) by (intros i c X; apply (B i c X)).
      assert (Look : forall i c, (cs ++ [mkT ch (i_count s) hi int true cal_init]) !! i = Some c -> (cs !! i = Some c) \/ (i = length cs /\ c = mkT ch (i_count s) hi int true cal_init)).
      { intros i c X. apply lookup_app_Some in X. destruct X as [X|(X1 & X2)]; [left; exact X|right]. apply list_lookup_singleton_Some in X2. destruct X2 as (X2 & <-). split; [lia|reflexivity]. }
      split; [|split].
      * intros i c X. destruct (Look i c X) as [Y|(-> & ->)].
        -- destruct (B i c Y) as (B1 & B2 & B3 & B4 & B5). split; [exact B1|]. split; [lia|]. split; [exact B3|]. split; [exact B4|]. intros k Hk. rewrite (proj2 (Z.leb_gt (i_count s) k)) by lia. cbn [andb]. exact (B5 k Hk).
        -- cbn [t_start t_end t_chan t_int]. subst hi. split; [lia|]. split; [lia|]. split; [lia|]. split; [lia|]. intros k Hk. rewrite (proj2 (andb_true_iff _ _)) by (rewrite !Z.leb_le; lia). apply land15. lia.
      * intros i j a b X Y L. destruct (Look j b Y) as [Y'|(-> & ->)]; destruct (Look i a X) as [X'|(-> & ->)].
        -- exact (C i j a b X' Y' L).
        -- apply lookup_lt_Some in Y'. lia.
        -- cbn [t_start]. exact (Old i a X').
        -- lia.
      * intros ND i c X. rewrite map_app in ND. apply NoDup_app in ND. destruct ND as (ND1 & ND2 & _).
        destruct (Look i c X) as [Y|(-> & ->)].
        -- rewrite set_at_other; [exact (D ND1 i c Y)|]. intros K. apply (ND2 (t_int c)); [|cbn [map t_int]; rewrite K; constructor].
           apply elem_of_list_lookup. exists i. rewrite list_lookup_fmap, Y. reflexivity.
        -- cbn [t_int t_end]. apply set_at_same.
  - cbn [ti_step fst snd]. destruct (cs !! k) as [c|] eqn:Hc; [|split; [exact A|split; [exact B|split; [exact C|exact D]]]].
    destruct (B k c Hc) as (B1 & B2 & B3 & B4 & B5).
    assert (E : exists c' s', ti_adc_setup trig acqps amin c s = ((fst (fst (ti_adc_setup trig acqps amin c s)), c'), s') /\ i_count s' = i_count s /\ i_int s' = i_int s /\ (forall x, i_sel s' x = i_sel s x) /\
      t_chan c' = t_chan c /\ t_start c' = t_start c /\ t_end c' = t_end c /\ t_int c' = t_int c).
    { unfold ti_adc_setup. destruct (_ && (trig <? 40)); cbn [negb]; [|exists c, s; repeat split]. destruct (amin <=? acqps); cbn [negb]; [|exists c, s; repeat split].
      eexists. eexists. split; [reflexivity|]. split; [reflexivity|]. split; [reflexivity|]. split; [|repeat split].
      intros x. cbn [ti_slots i_sel]. destruct (_ && (x <=? t_end c)) eqn:Q; [|reflexivity]. apply andb_true_iff in Q. rewrite !Z.leb_le in Q. rewrite land15 by exact B3. symmetry. apply B5. exact Q. }
    destruct E as (c' & s' & -> & E1 & E2 & E3 & E4 & E5 & E6 & E7). cbn [fst snd].
    assert (Lk : forall i a, (<[k := c']> cs) !! i = Some a -> exists a0, cs !! i = Some a0 /\ t_chan a = t_chan a0 /\ t_start a = t_start a0 /\ t_end a = t_end a0 /\ t_int a = t_int a0).
    { intros i a X. destruct (decide (i = k)) as [->|N].
      - rewrite list_lookup_insert in X by (eapply lookup_lt_Some; exact Hc). injection X as <-. exists c. split; [exact Hc|]. split; [exact E4|]. split; [exact E5|]. split; [exact E6|exact E7].
      - rewrite list_lookup_insert_ne in X by congruence. exists a. repeat split; assumption. }
    split; [cbn [snd]; rewrite E1; exact A|]. cbn [fst snd]. rewrite E1, E2. split; [|split].
    + intros i a X. destruct (Lk i a X) as (a0 & X0 & -> & -> & -> & ->). destruct (B i a0 X0) as (Q1 & Q2 & Q3 & Q4 & Q5). repeat split; try assumption; try lia. intros x Hx. rewrite E3. exact (Q5 x Hx).
    + intros i j a b X Y L. destruct (Lk i a X) as (a0 & X0 & _ & _ & -> & _). destruct (Lk j b Y) as (b0 & Y0 & _ & -> & _ & _). exact (C i j a0 b0 X0 Y0 L).
    + intros ND i a X. destruct (Lk i a X) as (a0 & X0 & _ & _ & -> & ->). apply (D) with (i := i); [|exact X0].
      replace (map t_int cs) with (map t_int (<[k:=c']> cs)); [exact ND|]. apply list_eq. intros x. rewrite !list_lookup_fmap. destruct (decide (x = k)) as [->|N].
      * rewrite list_lookup_insert by (eapply lookup_lt_Some; exact Hc). rewrite Hc. cbn. f_equal. exact E7.
      * rewrite list_lookup_insert_ne by congruence. reflexivity.
Qed.
Lemma tinv_run amin l : forall p, tinv p -> tinv (ti_run amin l p).
Proof. induction l as [|o l IH]; intros p H; [exact H|]. apply IH. apply tinv_step. exact H. Qed.

Lemma ti_collect_ok hi res c k : forall i, hi < 2 ^ 15 -> (forall j, 0 <= res j <= hi) -> cal_ok 16 hi c ->
  exists l, ti_collect res c i k = Some l /\ length l = k /\ forall j v, l !! j = Some v -> scaled (res (i + Z.of_nat j)) c v.
Proof.
  induction k as [|k IH]; intros i Hh Hr Hc.
  - exists []. split; [reflexivity|]. split; [reflexivity|]. intros j v E. discriminate E.
  - cbn [ti_collect]. destruct (scale_total 16 hi (res i) c ltac:(lia) Hh (Hr i) Hc) as (v & E). rewrite E. destruct (IH (i + 1) Hh Hr Hc) as (l & El & Ll & Hl). rewrite El.
    exists (v :: l). split; [reflexivity|]. split; [cbn [length]; rewrite Ll; reflexivity|]. intros j w X. destruct j as [|j].
    + cbn in X. injection X as <-. rewrite Z.add_0_r. apply (scale_sound 16); [lia|change (16 - 1) with 15; specialize (Hr i); lia|exact E].
    + cbn in X. specialize (Hl j w X). replace (i + Z.of_nat (S j)) with (i + 1 + Z.of_nat j) by lia. exact Hl.
Qed.
Lemma ti_read_ok hi n flags res c : hi < 2 ^ 15 -> (forall j, 0 <= res j <= hi) -> cal_ok 16 hi (t_cal c) -> 0 <= t_start c <= t_end c -> 0 < n <= 16 ->
  0 <= t_int c -> Z.testbit flags (t_int c) = true ->
  exists l, ti_read_multiple n flags res c = TRet (t_start c + Z.of_nat (length l)) l None (2 ^ t_int c) /\ Z.of_nat (length l) = Z.min n (t_end c - t_start c + 1) /\
    forall j v, l !! j = Some v -> scaled (res (t_start c + Z.of_nat j)) (t_cal c) v.
Proof.
  intros Hh Hr Hc Hs Hn Hi Hf. unfold ti_read_multiple. rewrite (proj2 (Z.ltb_lt 0 n)) by lia. rewrite (proj2 (Z.leb_le n 16)) by lia. cbn [negb]. cbv zeta.
  assert (F : (Z.land flags (Z.shiftl 1 (t_int c)) =? 0) = false).
  { apply Z.eqb_neq. intros K. assert (B : Z.testbit (Z.land flags (Z.shiftl 1 (t_int c))) (t_int c) = false) by (rewrite K; apply Z.testbit_0_l).
    rewrite Z.land_spec, Hf, Z.shiftl_1_l, Z.pow2_bits_true in B by lia. discriminate B. }
  rewrite F. destruct (ti_collect_ok hi res (t_cal c) (Z.to_nat (Z.min (t_end c + 1) (t_start c + n) - t_start c)) (t_start c) Hh Hr Hc) as (l & El & Ll & Hl).
  rewrite El. exists l. split; [|split; [lia|exact Hl]]. rewrite Z.shiftl_1_l. f_equal. lia.
Qed.
Lemma ti_mask_ok c : 0 <= t_start c <= t_end c -> t_end c < 14 -> exists m, ti_mask c = Some m /\ 0 <= m < 65536 /\ forall k, 0 <= k -> Z.testbit m k = (t_start c <=? k) && (k <=? t_end c).
Proof.
  intros H1 H2. unfold ti_mask. rewrite (proj2 (Z.ltb_lt (t_end c + 1) 15)) by lia. rewrite (proj2 (Z.ltb_lt (t_start c) 15)) by lia. cbn [negb].
  assert (P : 2 ^ (t_end c + 1) <= 2 ^ 14) by (apply Z.pow_le_mono_r; lia). assert (P0 : 0 < 2 ^ (t_end c + 1)) by (apply Z.pow_pos_nonneg; lia). change (2 ^ 14) with 16384 in P.
  rewrite Z.mod_small by lia.
  assert (Bits : forall k, 0 <= k -> Z.testbit (Z.land (2 ^ (t_end c + 1) - 1) (65535 - (2 ^ t_start c - 1))) k = (t_start c <=? k) && (k <=? t_end c)).
  { intros k Hk. rewrite Z.land_spec. replace (2 ^ (t_end c + 1) - 1) with (Z.ones (t_end c + 1)) by (rewrite Z.ones_equiv; lia). rewrite ones_bits by lia. rewrite (proj2 (Z.leb_le 0 k)) by lia. cbn [andb].
    destruct (Z.ltb_spec k (t_end c + 1)) as [L|L]; cbn [andb]; [|rewrite (proj2 (Z.leb_gt k (t_end c))) by lia; rewrite andb_false_r; reflexivity].
    rewrite (proj2 (Z.leb_le k (t_end c))) by lia. rewrite andb_true_r.
    replace (65535 - (2 ^ t_start c - 1)) with (Z.ldiff (Z.ones 16) (Z.ones (t_start c))).
    - rewrite Z.ldiff_spec, !ones_bits by lia. rewrite (proj2 (Z.leb_le 0 k)) by lia. rewrite (proj2 (Z.ltb_lt k 16)) by lia. cbn [andb]. destruct (Z.leb_spec (t_start c) k); [rewrite (proj2 (Z.ltb_ge k (t_start c))) by lia; reflexivity|rewrite (proj2 (Z.ltb_lt k (t_start c))) by lia; reflexivity].
    - rewrite <- Z.sub_nocarry_ldiff.
      + rewrite (Z.ones_equiv (t_start c)). change (Z.ones 16) with 65535. lia.
      + apply Z.bits_inj'. intros i Hi. rewrite Z.ldiff_spec, !ones_bits, Z.testbit_0_l by lia. rewrite (proj2 (Z.leb_le 0 i)) by lia. cbn [andb].
        destruct (Z.ltb_spec i (t_start c)); [rewrite (proj2 (Z.ltb_lt i 16)) by lia; reflexivity|reflexivity]. }
  eexists. split; [reflexivity|]. split; [|exact Bits].
  assert (N : 0 <= Z.land (2 ^ (t_end c + 1) - 1) (65535 - (2 ^ t_start c - 1))) by (apply Z.land_nonneg; left; lia). split; [exact N|].
  rewrite Z.land_comm. replace (2 ^ (t_end c + 1) - 1) with (Z.ones (t_end c + 1)) by (rewrite Z.ones_equiv; lia). rewrite Z.land_ones by lia.
  pose proof (Z.mod_pos_bound (65535 - (2 ^ t_start c - 1)) (2 ^ (t_end c + 1)) ltac:(lia)). lia.
Qed.
