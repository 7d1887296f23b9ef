(** MuxProofs.v - lemmas for C136. *)
From Verif Require Import Base MuxModel MuxSpec.
Ltac Zify.zify_post_hook ::= Z.to_euclidean_division_equations.

Lemma mf_bits r lo n i : 0 <= lo -> 0 <= n -> 0 <= i -> Z.testbit (mf r lo n) i = Z.testbit r (i + lo) && (i <? n).
Proof.
  intros. unfold mf. rewrite Z.land_spec, Z.shiftr_spec by lia. destruct (i <? n) eqn:E.
  - rewrite Z.ones_spec_low by (apply Z.ltb_lt in E; lia). reflexivity.
  - rewrite Z.ones_spec_high by (apply Z.ltb_ge in E; lia). rewrite !andb_false_r. reflexivity.
Qed.
Lemma put_bits r lo n v i : 0 <= lo -> 0 <= n -> 0 <= i ->
  Z.testbit (put r lo n v) i = if (lo <=? i) && (i <? lo + n) then Z.testbit v (i - lo) else Z.testbit r i.
Proof.
  intros. unfold put. rewrite Z.lor_spec, Z.ldiff_spec, !Z.shiftl_spec by lia.
  destruct (lo <=? i) eqn:E; cbn [andb].
  - apply Z.leb_le in E. rewrite Z.land_spec. destruct (i <? lo + n) eqn:F.
    + apply Z.ltb_lt in F. rewrite Z.ones_spec_low by lia. cbn [negb]. rewrite andb_false_r, andb_true_r. reflexivity.
    + apply Z.ltb_ge in F. rewrite Z.ones_spec_high by lia. cbn [negb]. rewrite andb_true_r, andb_false_r, orb_false_r. reflexivity.
  - apply Z.leb_gt in E. rewrite !(Z.testbit_neg_r _ (i - lo)) by lia. cbn [negb]. rewrite andb_true_r, orb_false_r. reflexivity.
Qed.
Lemma mf_put_same r lo n v : 0 <= lo -> 0 <= n -> 0 <= v < 2 ^ n -> mf (put r lo n v) lo n = v.
Proof.
  intros L N V. apply Z.bits_inj'. intros i I. rewrite mf_bits by lia. rewrite put_bits by lia.
  destruct (i <? n) eqn:E.
  - apply Z.ltb_lt in E. replace (lo <=? i + lo) with true by (symmetry; apply Z.leb_le; lia). replace (i + lo <? lo + n) with true by (symmetry; apply Z.ltb_lt; lia).
    cbn [andb]. rewrite andb_true_r. f_equal. lia.
  - apply Z.ltb_ge in E. rewrite andb_false_r. symmetry. destruct (Z.eq_dec v 0) as [->|Hv]; [apply Z.testbit_0_l|].
    apply Z.bits_above_log2; [lia|]. apply Z.log2_lt_pow2; [lia|]. apply Z.lt_le_trans with (2 ^ n); [lia|]. apply Z.pow_le_mono_r; lia.
Qed.
Lemma mf_put_other r lo n v lo' n' : 0 <= lo -> 0 <= n -> 0 <= lo' -> 0 <= n' -> lo' + n' <= lo \/ lo + n <= lo' -> mf (put r lo n v) lo' n' = mf r lo' n'.
Proof.
  intros. apply Z.bits_inj'. intros i I. rewrite !mf_bits by lia. destruct (i <? n') eqn:E; [|rewrite !andb_false_r; reflexivity].
  apply Z.ltb_lt in E. rewrite put_bits by lia. replace ((lo <=? i + lo') && (i + lo' <? lo + n)) with false; [reflexivity|].
  symmetry. apply andb_false_iff. destruct (Z.le_gt_cases lo (i + lo')); [right; apply Z.ltb_ge; lia|left; apply Z.leb_gt; lia].
Qed.
(** A field within a field that was written. *)
Lemma mf_put_in r lo n v lo' n' : 0 <= lo -> 0 <= n -> 0 <= n' -> lo <= lo' -> lo' + n' <= lo + n -> mf (put r lo n v) lo' n' = mf v (lo' - lo) n'.
Proof.
  intros. apply Z.bits_inj'. intros i I. rewrite !mf_bits by lia. destruct (i <? n') eqn:E; [|rewrite !andb_false_r; reflexivity].
  apply Z.ltb_lt in E. rewrite put_bits by lia.
  replace (lo <=? i + lo') with true by (symmetry; apply Z.leb_le; lia). replace (i + lo' <? lo + n) with true by (symmetry; apply Z.ltb_lt; lia). cbn [andb].
  f_equal. f_equal. lia.
Qed.
Lemma wr_eq r v s : wr r v s r = v.
Proof. unfold wr. rewrite decide_True by reflexivity. reflexivity. Qed.
Lemma wr_ne r v s r' : r' <> r -> wr r v s r' = s r'.
Proof. intros. unfold wr. rewrite decide_False by assumption. reflexivity. Qed.

Lemma below_iff x n : below x n = true <-> 0 <= x < n.
Proof. unfold below. rewrite andb_true_iff, Z.leb_le, Z.ltb_lt. tauto. Qed.
Ltac fields := unfold isset; repeat match goal with
  | |- context [mf (put ?r ?lo ?n ?v) ?lo' ?n'] =>
      first [rewrite (mf_put_same r lo n v) by lia | rewrite (mf_put_other r lo n v lo' n') by lia | rewrite (mf_put_in r lo n v lo' n') by lia]
  end.
Ltac regs := repeat match goal with
  | |- context [wr ?r ?v ?s ?r'] => first [rewrite (wr_eq r v s) | rewrite (wr_ne r v s r') by (congruence || (intros K; injection K; lia))]
  end.
Ltac belows := repeat match goal with
  | H : (if negb ?b then None else _) = Some _ |- _ => let E := fresh "B" in destruct b eqn:E; cbn [negb] in H; [|discriminate H]
  | H : None = Some _ |- _ => discriminate H
  | H : Some _ = Some _ |- _ => injection H as <-
  end; rewrite ?andb_true_iff, ?below_iff in *.
(** q = p or not *)
Ltac which q p := destruct (Z.eqb_spec q p) as [->|?].

Lemma stm_ok c p s s' q : stm_mux c p s = Some s' -> 0 <= q < 16 -> pin_of MStm s' q = if q =? p then asked MStm c (pin_of MStm s p) else pin_of MStm s q.
Proof.
  intros H Q. unfold stm_mux in H. destruct c; belows; unfold wf, pin_of; cbn [asked];
    try (which q p; regs; fields; reflexivity).
  destruct (p <? 8) eqn:E; (which q p; regs; fields; rewrite ?E; try reflexivity).
  all: try (destruct (q <? 8) eqn:F; [apply Z.ltb_lt in F|apply Z.ltb_ge in F]); try apply Z.ltb_lt in E; try apply Z.ltb_ge in E; regs; fields; try reflexivity.
Qed.
Lemma pio_ok (b : bool) c p s s' q : let d := if b then MSam3x else MAtmel in
  pio_mux b c p s = Some s' -> sound d c (pin_of d s p) = true -> 0 <= q < 32 -> pin_of d s' q = if q =? p then asked d c (pin_of d s p) else pin_of d s q.
Proof.
  intros d H S Q. unfold pio_mux, pio_sel in H. destruct c; belows; subst d.
  1, 2: destruct b; cbn [sound] in S; apply negb_true_iff in S; rewrite S in H;
    (match type of H with context [if negb ?x then _ else _] => destruct x eqn:B1 end); cbn [negb] in H; try discriminate H; apply below_iff in B1;
    destruct (f =? 1) eqn:F; injection H as <-; apply Z.eqb_neq in S; cbn [pin_of asked fun_of]; rewrite ?F;
    (which q p; unfold wf; regs; fields; try reflexivity); unfold set_fun; cbn [p_pull p_od p_x p_y]; try (apply Z.eqb_neq in F); repeat f_equal; lia.
  destruct b; cbn [pin_of asked]; unfold wf; (which q p; regs; fields; reflexivity).
Qed.
Lemma ti_ok c p s s' q : ti_mux c p s = Some s' -> 0 <= q < 32 -> pin_of MTi s' q = if q =? p then asked MTi c (pin_of MTi s p) else pin_of MTi s q.
Proof.
  intros H Q. unfold ti_mux in H. destruct c; belows; unfold wf, pin_of, ti_set_mux, wf; cbn [asked fun_of].
  all: which q p; repeat match goal with |- context [?x <? 16] => destruct (Z.ltb_spec x 16) end; cbv zeta; regs; fields; try reflexivity.
  all: try (exfalso; lia).
  all: replace (4 * (f / 4) + f mod 4) with f by lia; reflexivity.
Qed.
Lemma rp_ok c p s s' q : rp_mux c p s = Some s' -> 0 <= q < 30 -> pin_of MRp s' q = if q =? p then asked MRp c (pin_of MRp s p) else pin_of MRp s q.
Proof.
  intros H Q. unfold rp_mux in H. destruct c; belows; unfold wf, pin_of; cbn [asked]; (which q p; cbv zeta; regs; fields; reflexivity).
Qed.
Lemma ra4_ok c p s s' q : ra4_mux c p s = Some s' -> 0 <= q < 160 -> pin_of MRa4 s' q = if q =? p then asked MRa4 c (pin_of MRa4 s p) else pin_of MRa4 s q.
Proof.
  intros H Q. unfold ra4_mux in H. destruct c; belows; unfold wf, pin_of; cbn [asked]; (which q p; cbv zeta; regs; fields; reflexivity).
Qed.
Lemma avr_ok c p s s' q : avr_mux c p s = Some s' -> 0 <= q < 8 -> pin_of MAvr s' q = if q =? p then asked MAvr c (pin_of MAvr s p) else pin_of MAvr s q.
Proof.
  intros H Q. unfold avr_mux in H. destruct c; belows; unfold wf, pin_of; cbn [asked]; try destruct (v =? 0); try destruct (f =? 0); (which q p; cbv zeta; regs; fields; reflexivity).
Qed.
Lemma tiny_mux_ok c p s s' q : tiny_mux c p s = Some s' -> 0 <= q < 8 -> pin_of MTiny s' q = if q =? p then asked MTiny c (pin_of MTiny s p) else pin_of MTiny s q.
Proof.
  intros H Q. unfold tiny_mux in H. destruct c; belows; unfold wf, pin_of; cbn [asked]; (which q p; cbv zeta; regs; fields; reflexivity).
Qed.
Lemma picm_ok c p s s' q : pic_mux c p s = Some s' -> 0 <= q < 16 -> pin_of MPic s' q = if q =? p then asked MPic c (pin_of MPic s p) else pin_of MPic s q.
Proof.
  intros H Q. unfold pic_mux in H. destruct c; belows; unfold wf, pin_of; cbn [asked]; (which q p; cbv zeta; regs; fields; reflexivity).
Qed.
Lemma siu_ok c p s s' q : siu_mux c p s = Some s' -> 0 <= q < 512 -> pin_of MSiu s' q = if q =? p then asked MSiu c (pin_of MSiu s p) else pin_of MSiu s q.
Proof.
  intros H Q. unfold siu_mux in H. destruct c; belows; unfold wf, pin_of; cbn [asked]; (which q p; cbv zeta; regs; fields; reflexivity).
Qed.
Lemma siul2_ok c p s s' q : siul2_mux c p s = Some s' -> sound MSiul2 c (pin_of MSiul2 s p) = true -> 0 <= q < 264 ->
  pin_of MSiul2 s' q = if q =? p then asked MSiul2 c (pin_of MSiul2 s p) else pin_of MSiul2 s q.
Proof.
  intros H S Q. unfold siul2_mux in H. destruct c; belows; cbn [sound] in S; unfold wf; cbn [asked];
    (which q p; [|cbn [pin_of]; cbv zeta; regs; reflexivity]); cbn [pin_of p_fun p_out] in S |- *; cbv zeta; regs; fields; try reflexivity.
  - apply negb_true_iff in S. unfold set_fun; cbn [p_fun p_pull p_od p_x p_y]. unfold isset in S. rewrite S. reflexivity.
  - unfold isset in S |- *. destruct (mf (s (MSCR p)) 22 1 =? 1); [discriminate S|]. reflexivity.
Qed.
Lemma e5_ok c p s s' q : e5_mux c p s = Some s' -> sound MSame5x c (pin_of MSame5x s p) = true -> 0 <= q < 32 ->
  pin_of MSame5x s' q = if q =? p then asked MSame5x c (pin_of MSame5x s p) else pin_of MSame5x s q.
Proof.
  intros H S Q. unfold e5_mux in H. destruct c; belows; cbn [sound] in S; try discriminate S; apply negb_true_iff in S; rewrite S in *; unfold e5_pmux, wf; cbn [asked fun_of]; rewrite S;
    (which q p; cbn [pin_of]; cbv zeta; regs; fields; try reflexivity).
  all: try (apply Z.eqb_neq in S; fields; reflexivity).
  all: destruct (Z.eq_dec (q / 2) (p / 2)) as [E|E]; rewrite ?E; regs; fields; reflexivity.
Qed.
Lemma gd_ok c p s s' q : gd_mux c p s = Some s' -> 0 <= q < 16 -> pin_of MGd s' q = if q =? p then asked MGd c (pin_of MGd s p) else pin_of MGd s q.
Proof.
  intros H Q. unfold gd_mux in H.
  assert (O : forall v, pin_of MGd (wf (CTL (p / 8)) (4 * (p mod 8)) 4 v s) q = pin_of MGd (wf (CTL (p / 8)) (4 * (p mod 8)) 4 v s) q) by reflexivity. clear O.
  assert (X : forall v s1 (P : 0 <= p < 16), s1 OCTL = s OCTL \/ (exists b, s1 OCTL = put (s OCTL) p 1 b) -> (forall i, s1 (CTL i) = s (CTL i)) -> q <> p -> pin_of MGd (wf (CTL (p / 8)) (4 * (p mod 8)) 4 v s1) q = pin_of MGd s q).
  { intros v s1 P O C N. assert (OQ : isset (s1 OCTL) q = isset (s OCTL) q).
    { destruct O as [->|[b ->]]; [reflexivity|]. unfold isset. rewrite mf_put_other by lia. reflexivity. }
    unfold wf, pin_of. cbv zeta. rewrite (wr_ne _ _ _ OCTL) by congruence. rewrite OQ. destruct (Z.eq_dec (q / 8) (p / 8)) as [E|E].
    - rewrite E, wr_eq, C, mf_put_other by lia. reflexivity.
    - rewrite wr_ne by congruence. rewrite C. reflexivity. }
  destruct c; belows; cbn [asked].
  - which q p; [|apply X; auto]. unfold wf, pin_of. cbv zeta. regs. fields. reflexivity.
  - which q p.
    + destruct (m =? 0) eqn:M0; [|destruct (m =? 1) eqn:M1]; injection H as <-; unfold wf, pin_of; cbv zeta; regs; fields; reflexivity.
    + destruct (m =? 0) eqn:M0; [|destruct (m =? 1) eqn:M1]; injection H as <-; (apply X; [lia| |intros; unfold wf; regs; reflexivity|assumption]).
      * left. reflexivity.
      * right. eexists. unfold wf. regs. reflexivity.
      * right. eexists. unfold wf. regs. reflexivity.
  - which q p; [|apply X; auto; lia]. unfold wf, pin_of, gd_md. cbv zeta. regs. fields.
    assert (M : (4 * m + (sp + 1)) mod 4 = sp + 1) by lia. assert (D : (4 * m + (sp + 1)) / 4 = m) by lia. rewrite M, D.
    replace (sp + 1 =? 0) with false by lia. replace (m <? 2) with true by lia. f_equal. destruct (Z.eqb_spec m 1); [subst; reflexivity|]. apply Z.eqb_neq. lia.
  - which q p; [|apply X; auto; lia]. unfold wf, pin_of, gd_md. cbv zeta. destruct (Z.eqb_spec m 0) as [->|]; regs; fields.
    + assert (M : (8 + (sp + 1)) mod 4 = sp + 1) by lia. assert (D : (8 + (sp + 1)) / 4 = 2) by lia. rewrite M, D. replace (sp + 1 =? 0) with false by lia. reflexivity.
    + assert (M : (12 + (sp + 1)) mod 4 = sp + 1) by lia. assert (D : (12 + (sp + 1)) / 4 = 3) by lia. rewrite M, D. replace (sp + 1 =? 0) with false by lia.
      replace m with 1 by lia. reflexivity.
Qed.

Lemma mux_ok d c p s s' q : mux_call d c p s = Some s' -> sound d c (pin_of d s p) = true -> 0 <= q < pins d ->
  pin_of d s' q = if q =? p then asked d c (pin_of d s p) else pin_of d s q.
Proof.
  intros H S Q. destruct d; cbn [mux_call pins] in *.
  - exact (stm_ok _ _ _ _ _ H Q).
  - exact (gd_ok _ _ _ _ _ H Q).
  - exact (pio_ok false _ _ _ _ _ H S Q).
  - exact (pio_ok true _ _ _ _ _ H S Q).
  - exact (e5_ok _ _ _ _ _ H S Q).
  - exact (ti_ok _ _ _ _ _ H Q).
  - exact (siul2_ok _ _ _ _ _ H S Q).
  - exact (rp_ok _ _ _ _ _ H Q).
  - exact (ra4_ok _ _ _ _ _ H Q).
  - exact (avr_ok _ _ _ _ _ H Q).
  - exact (tiny_mux_ok _ _ _ _ _ H Q).
  - exact (picm_ok _ _ _ _ _ H Q).
  - exact (siu_ok _ _ _ _ _ H Q).
Qed.

Lemma mux_other d c p s s' q : mux_call d c p s = Some s' -> 0 <= q < pins d -> q <> p -> pin_of d s' q = pin_of d s q.
Proof.
  intros H Q N. assert (F : sound d c (pin_of d s p) = true -> pin_of d s' q = pin_of d s q).
  { intros S. rewrite (mux_ok _ _ _ _ _ _ H S Q). destruct (Z.eqb_spec q p); [contradiction|reflexivity]. }
  destruct d; try (apply F; destruct c; reflexivity); clear F; cbn [mux_call pins] in *.
  - unfold pio_mux, pio_sel in H. destruct c; belows;
      repeat (match type of H with context [if ?x then _ else _] => destruct x end; try discriminate H); try injection H as <-; unfold wf; cbn [pin_of]; regs; fields; reflexivity.
  - unfold pio_mux, pio_sel in H. destruct c; belows;
      repeat (match type of H with context [if ?x then _ else _] => destruct x end; try discriminate H); try injection H as <-; unfold wf; cbn [pin_of]; regs; fields; reflexivity.
  - unfold e5_mux in H. destruct c; belows; unfold e5_pmux, wf; try destruct (f =? 14); cbn [pin_of]; cbv zeta; regs; fields; try reflexivity.
    all: destruct (Z.eq_dec (q / 2) (p / 2)) as [E|E]; rewrite ?E; regs; fields; reflexivity.
  - unfold siul2_mux in H. destruct c; belows; unfold wf; cbn [pin_of]; cbv zeta; regs; fields; reflexivity.
Qed.
Lemma mux_history d l q : 0 <= q < pins d -> forall s s', mux_calls d l s = Some s' -> all_sound d q l (pin_of d s q) = true ->
  pin_of d s' q = asked_all d q l (pin_of d s q).
Proof.
  intros Q. induction l as [|[c p] l IH]; intros s s' H S; cbn [mux_calls all_sound] in *; [injection H as <-; reflexivity|].
  destruct (mux_call d c p s) as [s1|] eqn:E; [|discriminate H].
  unfold asked_all. cbn [fold_left fst snd]. fold (asked_all d q l).
  destruct (Z.eqb_spec p q) as [->|N].
  - apply andb_true_iff in S as [S1 S2]. pose proof (mux_ok _ _ _ _ _ _ E S1 Q) as K. rewrite Z.eqb_refl in K. rewrite <- K in *. apply (IH s1 s' H S2).
  - rewrite <- (mux_other _ _ _ _ _ q E Q) in * by congruence. apply (IH s1 s' H S).
Qed.
Lemma mux_accepts d c p s : (exists s', mux_call d c p s = Some s') <-> has d c = true /\ 0 <= p < pins d.
Proof.
  rewrite <- below_iff.
  assert (T : forall f, below f 16 = below (f / 4) 4 && below (f mod 4) 4).
  { intros f. apply eq_iff_eq_true. rewrite andb_true_iff, !below_iff. lia. }
  assert (G : forall (b : bool) (x : mst), (exists s', (if negb b then None else Some x) = Some s') <-> b = true).
  { intros b x. destruct b; cbn [negb]; split; intros K; try reflexivity; [eexists; reflexivity|destruct K as [? K]; discriminate K|discriminate K]. }
  assert (Z0 : (exists s' : mst, None = Some s') <-> false = true) by (split; [intros [? K]; discriminate K|discriminate]).
  assert (Z1 : forall x : mst, (exists s', Some x = Some s') <-> true = true) by (intros x; split; [reflexivity|intros _; eexists; reflexivity]).
  destruct d; cbn [mux_call pins]; unfold stm_mux, gd_mux, pio_mux, pio_sel, e5_mux, ti_mux, siul2_mux, rp_mux, ra4_mux, avr_mux, tiny_mux, pic_mux, siu_mux;
    (match goal with |- context [if negb (below p ?n) then _ else _] => destruct (below p n) eqn:B end; cbn [negb]; [|rewrite Z0; split; [discriminate|intros [_ K]; discriminate K]]);
    destruct c; cbn [has]; rewrite ?T; try (rewrite ?G, ?Z0, ?Z1; tauto).
  all: repeat match goal with |- context [negb ?b] => destruct b; cbn [negb] end; repeat match goal with |- context [if ?x =? ?y then _ else _] => destruct (x =? y) end; rewrite ?Z0, ?Z1; tauto.
Qed.
Lemma pio_disable b p s s' : pio_mux b (CIn 0) p s = Some s' -> exists k, p_fun (pin_of (if b then MSam3x else MAtmel) s' p) = Alt k.
Proof.
  intros H. unfold pio_mux, pio_sel in H. belows. destruct b; cbn in H; injection H as <-; unfold wf; cbn [pin_of p_fun]; regs; fields; eexists; reflexivity.
Qed.
Lemma e5_pulls p s : mux_call MSame5x CUp p s = mux_call MSame5x CDown p s.
Proof. reflexivity. Qed.
