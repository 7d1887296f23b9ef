(** AdcProofs4.v - lemmas about AdcModel: the sequence and the results of the STM32H7. *)
From Verif Require Import Base AdcModel AdcSpec AdcProofs AdcProofs3.

Lemma orf_own r ch lo : 0 <= lo -> afield r lo 5 = 0 -> 0 <= ch < 32 -> afield (orf r ch lo) lo 5 = ch.
Proof.
  intros Hl H0 Hc. apply Z.bits_inj'. intros i Hi. rewrite afield_bits by lia. unfold orf. change 31 with (Z.ones 5).
  rewrite (land_ones_small ch 5) by (try lia; change (2 ^ 5) with 32; lia). rewrite Z.lor_spec, Z.shiftl_spec by lia. replace (i + lo - lo) with i by lia.
  assert (B : Z.testbit (afield r lo 5) i = false) by (rewrite H0; apply Z.testbit_0_l). rewrite afield_bits in B by lia.
  destruct (Z.ltb_spec i 5) as [L|L]; [rewrite andb_true_r in *; rewrite B; reflexivity|].
  rewrite andb_false_r. symmetry. destruct (Z.eq_dec ch 0) as [->|]; [apply Z.testbit_0_l|]. apply Z.bits_above_log2; [lia|]. apply Z.log2_lt_pow2; [lia|].
  apply Z.lt_le_trans with (2 ^ 5); [change (2 ^ 5) with 32; lia|]. apply Z.pow_le_mono_r; lia.
Qed.
Lemma orf_other r ch lo lo' n : 0 <= lo -> 0 <= lo' -> 0 <= n -> (lo + 5 <= lo' \/ lo' + n <= lo) -> afield (orf r ch lo) lo' n = afield r lo' n.
Proof.
  intros Hl Hl' Hn D. apply Z.bits_inj'. intros i Hi. rewrite !afield_bits by lia. destruct (Z.ltb_spec i n) as [L|L]; [|rewrite !andb_false_r; reflexivity]. rewrite !andb_true_r.
  unfold orf. change 31 with (Z.ones 5). rewrite Z.lor_spec, Z.shiftl_spec, Z.land_spec, ones_bits by lia.
  replace ((0 <=? i + lo' - lo) && (i + lo' - lo <? 5)) with false; [rewrite andb_false_r, orb_false_r; reflexivity|].
  symmetry. apply andb_false_iff. rewrite Z.leb_gt, Z.ltb_ge. lia.
Qed.
Lemma len_own q k : 0 <= k < 16 -> afield (Z.lor (Z.ldiff q 15) (Z.land k 15)) 0 4 = k.
Proof.
  intros H. pose proof (put_get q k 0 4 ltac:(lia) ltac:(lia)) as P. change (Z.ones 4) with 15 in P. rewrite !Z.shiftl_0_r in P. rewrite P. apply land15. exact H.
Qed.
Lemma len_other q k lo n : 4 <= lo -> 0 <= n -> afield (Z.lor (Z.ldiff q 15) (Z.land k 15)) lo n = afield q lo n.
Proof.
  intros H Hn. pose proof (put_get_other q k 0 4 lo n ltac:(lia) ltac:(lia) ltac:(lia) Hn ltac:(lia)) as P. change (Z.ones 4) with 15 in P. rewrite !Z.shiftl_0_r in P. exact P.
Qed.
Lemma stm_init_step ch s k : 0 <= ch < 20 -> h_count s = k -> 0 <= k < 16 -> sq s k = 0 ->
  exists s', stm_adc_init ch s = ((0, Some (mkSc ch k cal_init)), s') /\ h_count s' = k + 1 /\ seq_len s' = k + 1 /\ sq s' k = ch /\
    (forall j, 0 <= j < 16 -> j <> k -> sq s' j = sq s j) /\ h_mask s' = h_mask s /\ h_run s' = h_run s /\ h_eos s' = h_eos s /\
    (forall x, 0 <= x -> Z.testbit (h_pcsel s') x = Z.testbit (h_pcsel s) x || (x =? ch)).
Proof.
  intros Hc Hk Hr Hz. unfold stm_adc_init. rewrite (proj2 (andb_true_iff _ _)) by (rewrite Z.leb_le, Z.ltb_lt; lia). cbn [negb]. rewrite Hk. cbv zeta.
  assert (C : k = 0 \/ k = 1 \/ k = 2 \/ k = 3 \/ k = 4 \/ k = 5 \/ k = 6 \/ k = 7 \/ k = 8 \/ k = 9 \/ k = 10 \/ k = 11 \/ k = 12 \/ k = 13 \/ k = 14 \/ k = 15) by lia.
  clear Hr. assert (PB : forall x, 0 <= x -> Z.testbit (Z.lor (h_pcsel s) (2 ^ ch)) x = Z.testbit (h_pcsel s) x || (x =? ch)).
  { intros x Hx. rewrite Z.lor_spec, Z.pow2_bits_eqb by lia. rewrite (Z.eqb_sym ch x). reflexivity. }
  destruct C as [C|[C|[C|[C|[C|[C|[C|[C|[C|[C|[C|[C|[C|[C|[C|C]]]]]]]]]]]]]]]; rewrite C in *; clear C;
  (eexists; split; [reflexivity|]; cbn [h_count h_mask h_run h_eos h_pcsel h_seq]; split; [reflexivity|];
   split; [unfold seq_len; cbn [h_sqr1 h_seq]; rewrite len_own by lia; reflexivity|];
   split; [unfold sq in *; cbn [Z.ltb Z.compare Pos.compare Pos.compare_cont Z.mul Z.sub Z.add Z.opp Z.pos_sub Pos.mul Pos.add Pos.sub Pos.succ Pos.pred_double Z.double Z.succ_double Z.pred_double h_sqr1 h_sqr2 h_sqr3 h_sqr4 h_seq] in *;
     rewrite ?len_other by lia; apply orf_own; [lia|exact Hz|lia]|];
   split; [|split; [reflexivity|split; [reflexivity|split; [reflexivity|exact PB]]]];
   intros j Hj Hn; unfold sq; cbn [h_sqr1 h_sqr2 h_sqr3 h_sqr4 h_seq];
   destruct (Z.ltb_spec j 4); [rewrite ?len_other by lia; try reflexivity; apply orf_other; lia|];
   destruct (Z.ltb_spec j 9); [try reflexivity; apply orf_other; lia|];
   destruct (Z.ltb_spec j 14); [try reflexivity; apply orf_other; lia|]; try reflexivity; apply orf_other; lia).
Qed.
Lemma stm_inits_ok l : forall s k, h_count s = k -> 0 <= k -> k + Z.of_nat (length l) <= 16 -> (forall j, k <= j < 16 -> sq s j = 0) -> Forall (fun ch => 0 <= ch < 20) l ->
  let cs := fst (stm_inits l s) in let s' := snd (stm_inits l s) in
  length cs = length l /\ (forall i ch, l !! i = Some ch -> cs !! i = Some (mkSc ch (k + Z.of_nat i) cal_init) /\ sq s' (k + Z.of_nat i) = ch) /\
  (forall j, 0 <= j < k -> sq s' j = sq s j) /\ h_count s' = k + Z.of_nat (length l) /\ (l <> [] -> seq_len s' = k + Z.of_nat (length l)) /\
  h_mask s' = h_mask s /\ h_run s' = h_run s /\ h_eos s' = h_eos s /\
  (forall x, 0 <= x -> Z.testbit (h_pcsel s') x = true <-> Z.testbit (h_pcsel s) x = true \/ In x l).
Proof.
  induction l as [|ch l IH]; intros s k Hk H0 Hl Hz Hc; cbv zeta.
  - cbn [stm_inits fst snd length]. split; [reflexivity|]. split; [intros i ch X; discriminate X|]. split; [reflexivity|]. split; [rewrite Hk; cbn; lia|]. split; [congruence|]. repeat split; try reflexivity; [tauto|]. intros [X|[]]; exact X.
  - cbn [length] in Hl. inversion Hc as [|? ? C1 C2]; subst.
    destruct (stm_init_step ch s (h_count s) C1 eq_refl ltac:(lia) (Hz (h_count s) ltac:(lia))) as (s1 & E & P1 & P2 & P3 & P4 & P5 & P6 & P7 & P8).
    cbn [stm_inits]. rewrite E. 
    specialize (IH s1 (h_count s + 1) P1 ltac:(lia) ltac:(lia)). cbv zeta in IH.
    destruct (IH ltac:(intros j Hj; rewrite P4 by lia; apply Hz; lia) C2) as (I1 & I2 & I3 & I4 & I5 & I6 & I7 & I8 & I9). clear IH.
    destruct (stm_inits l s1) as (cs, s2) eqn:E2. cbn [fst snd] in *. cbn [length].
    split; [rewrite I1; reflexivity|]. split; [|split; [|split; [|split; [|split; [|split; [|split]]]]]].
    + intros i x X. destruct i as [|i].
      * cbn in X. injection X as <-. rewrite Z.add_0_r. split; [reflexivity|]. rewrite I3 by lia. exact P3.
      * cbn in X. destruct (I2 i x X) as (J1 & J2). replace (h_count s + Z.of_nat (S i)) with (h_count s + 1 + Z.of_nat i) by lia. split; [exact J1|exact J2].
    + intros j Hj. rewrite I3 by lia. apply P4; lia.
    + rewrite I4. lia.
    + intros _. destruct l as [|y l].
      * cbn in E2. injection E2 as <- <-. rewrite P2. cbn [length]. lia.
      * rewrite I5 by discriminate. cbn [length]. lia.
    + rewrite I6. exact P5.
    + rewrite I7. exact P6.
    + rewrite I8. exact P7.
    + intros x Hx. rewrite I9 by exact Hx. rewrite P8 by exact Hx. cbn [In]. rewrite orb_true_iff, Z.eqb_eq. intuition.
Qed.
Lemma stm_full ch s : 0 <= ch < 20 -> 16 <= h_count s -> stm_adc_init ch s = ((- A_EIO, None), s).
Proof.
  intros Hc Hk. unfold stm_adc_init. rewrite (proj2 (andb_true_iff _ _)) by (rewrite Z.leb_le, Z.ltb_lt; lia). cbn [negb]. cbv zeta.
  repeat (rewrite (proj2 (Z.eqb_neq (h_count s) _)) by lia). reflexivity.
Qed.

(** * Reads *)
Definition inv3 (sig : Z -> nat -> Z) (n : nat) (cs : list sctx) (s : stm) : Prop :=
  (forall r, h_run s = Some r -> (r < n)%nat) /\
  (h_eos s = true -> exists t, (t < n)%nat /\ forall c, In c cs -> h_dr s (s_index c) = sig (s_chan c) t) /\
  (forall c, In c cs -> Z.testbit (h_mask s) (s_index c) = true -> exists t, (t < n)%nat /\ h_dr s (s_index c) = sig (s_chan c) t) /\
  (forall c, In c cs -> 0 <= s_index c < seq_len s /\ sq s (s_index c) = s_chan c).
Lemma sq_h_set s m r e k : sq (h_set s m r e) k = sq s k. Proof. reflexivity. Qed.
Lemma inv3_later sig n cs s : inv3 sig n cs s -> inv3 sig (S n) cs s.
Proof.
  intros (A & B & C & D). split; [intros r E; specialize (A r E); lia|]. split; [intros E; destruct (B E) as (t & T & X); exists t; split; [lia|exact X]|].
  split; [|exact D]. intros c I E. destruct (C c I E) as (t & T & X). exists t. split; [lia|exact X].
Qed.
Lemma inv3_done sig n cs s : inv3 sig n cs s -> inv3 sig (S n) cs (stm_done sig s).
Proof.
  intros H. unfold stm_done. destruct (h_run s) as [t|] eqn:R; [|apply inv3_later; exact H].
  destruct H as (A & B & C & D). specialize (A t R).
  assert (Q : forall c, In c cs -> (if (0 <=? s_index c) && (s_index c <? seq_len s) then sig (sq s (s_index c)) t else h_dr s (s_index c)) = sig (s_chan c) t).
  { intros c I. destruct (D c I) as (D1 & D2). rewrite (proj2 (andb_true_iff _ _)) by (rewrite Z.leb_le, Z.ltb_lt; lia). rewrite D2. reflexivity. }
  split; [intros r E; discriminate E|]. split; [intros _; exists t; split; [lia|exact Q]|]. split; [|exact D].
  intros c I _. exists t. split; [lia|exact (Q c I)].
Qed.
Lemma clear_spec a i j : 0 <= i -> 0 <= j -> Z.testbit (Z.clearbit a i) j = true -> Z.testbit a j = true.
Proof. intros Hi Hj E. rewrite Z.clearbit_eqb in E by lia. apply andb_true_iff in E. tauto. Qed.
Lemma read3_ok sig hi n cs s c : sig_ok 32 hi sig -> In c cs -> cal_ok 32 hi (s_cal c) -> inv3 sig n cs s ->
  inv3 sig (S n) cs (fst (stm_read n c s)) /\
  (snd (stm_read n c s) = ARet (- A_EAGAIN) \/ exists v t, snd (stm_read n c s) = AData v /\ (t < n)%nat /\ scaled (sig (s_chan c) t) (s_cal c) v).
Proof.
  intros (Hhi & Hsig) Hi Hc H. pose proof H as (A & B & C & D). apply inv3_later in H. destruct H as (A' & B' & C' & D'). unfold stm_read.
  destruct (D c Hi) as (D1 & D2).
  assert (G : forall t, (t < n)%nat -> h_dr s (s_index c) = sig (s_chan c) t -> exists v t', give 32 (h_dr s (s_index c)) (s_cal c) = AData v /\ (t' < n)%nat /\ scaled (sig (s_chan c) t') (s_cal c) v).
  { intros t T X. rewrite X. destruct (give_ok 32 hi (sig (s_chan c) t) (s_cal c) ltac:(lia) Hhi (Hsig _ _) Hc) as (v & V1 & V2). exists v, t. split; [exact V1|]. split; [exact T|exact V2]. }
  destruct (Z.testbit (h_mask s) (s_index c)) eqn:M.
  - cbn [fst snd]. split.
    + split; [exact A'|]. split; [exact B'|]. split; [|exact D']. intros c' I E. cbn [h_mask h_set] in E. apply clear_spec in E; [|lia|destruct (D c' I); lia]. exact (C' c' I E).
    + right. destruct (C c Hi M) as (t & T & X). exact (G t T X).
  - destruct (is_some (h_run s)) eqn:R; cbn [fst snd]; [split; [split; [exact A'|split; [exact B'|split; [exact C'|exact D']]]|left; reflexivity]|].
    destruct (h_eos s) eqn:E; cbn [negb fst snd].
    + split.
      * split; [exact A'|]. split; [intros X; discriminate X|]. split; [|exact D']. intros c' I _. destruct (B eq_refl) as (t & T & X). exists t. split; [lia|exact (X c' I)].
      * right. destruct (B eq_refl) as (t & T & X). exact (G t T (X c Hi)).
    + split; [|left; reflexivity]. split; [cbn [h_run h_set]; intros r X; injection X as <-; lia|]. split; [cbn [h_eos h_set]; intros X; discriminate X|]. split; [exact C'|exact D'].
Qed.
Lemma trace3_own sig hi cs : sig_ok 32 hi sig -> (forall c, In c cs -> cal_ok 32 hi (s_cal c)) -> forall evs n s, inv3 sig n cs s ->
  forall pre i o post, trace3 sig n evs cs s = pre ++ (ERead i, o) :: post -> forall c, cs !! i = Some c ->
  o = ARet (- A_EAGAIN) \/ exists v t, o = AData v /\ (t < n + length pre)%nat /\ scaled (sig (s_chan c) t) (s_cal c) v.
Proof.
  intros Hs Hc. induction evs as [|e evs IH]; intros n s HI pre i o post E c Hi; [destruct pre; discriminate E|].
  cbn [trace3] in E. destruct (step3 sig n e cs s) as (s1, o1) eqn:Es.
  assert (I1 : inv3 sig (S n) cs s1).
  { destruct e as [j| |]; cbn [step3] in Es.
    - destruct (cs !! j) as [cj|] eqn:Hj; [|injection Es as <- _; apply inv3_later; exact HI].
      pose proof (elem_of_list_lookup_2 _ _ _ Hj) as Ij. apply elem_of_list_In in Ij.
      destruct (read3_ok sig hi n cs s cj Hs Ij (Hc cj Ij) HI) as (X & _). rewrite Es in X. exact X.
    - injection Es as <- _. apply inv3_done. exact HI.
    - injection Es as <- _. apply inv3_later. exact HI. }
  destruct pre as [|x pre].
  - cbn [app] in E. injection E as -> -> _. cbn [step3] in Es. rewrite Hi in Es.
    pose proof (elem_of_list_lookup_2 _ _ _ Hi) as Ii. apply elem_of_list_In in Ii.
    destruct (read3_ok sig hi n cs s c Hs Ii (Hc c Ii) HI) as (_ & X). rewrite Es in X. cbn [snd] in X.
    destruct X as [X|(v & t & X1 & X2 & X3)]; [left; exact X|right]. exists v, t. split; [exact X1|]. split; [cbn [length]; lia|exact X3].
  - cbn [app] in E. injection E as _ E. destruct (IH (S n) s1 I1 pre i o post E c Hi) as [X|(v & t & X1 & X2 & X3)]; [left; exact X|right]. exists v, t. split; [exact X1|]. split; [cbn [length]; lia|exact X3].
Qed.
Lemma give_not_ret w x c r : give w x c <> ARet r.
Proof. unfold give. destruct (scale w x c); discriminate. Qed.
Lemma wait_run n c s r : snd (stm_read n c s) = ARet r -> h_run (fst (stm_read n c s)) <> None.
Proof.
  unfold stm_read. destruct (Z.testbit (h_mask s) (s_index c)); [cbn [snd]; intros X; destruct (give_not_ret _ _ _ _ X)|].
  destruct (h_run s) as [q|] eqn:R; cbn [is_some]; [intros _; cbn [fst]; rewrite R; discriminate|].
  destruct (h_eos s); cbn [negb]; [cbn [snd]; intros X; destruct (give_not_ret _ _ _ _ X)|]. intros _. cbn [fst h_run h_set]. discriminate.
Qed.
Lemma progress3 sig hi cs i c n s : sig_ok 32 hi sig -> cs !! i = Some c -> (forall c, In c cs -> cal_ok 32 hi (s_cal c)) -> inv3 sig n cs s ->
  exists v, In (ERead i, AData v) (trace3 sig n [ERead i; EDone; ERead i] cs s).
Proof.
  intros Hs Hi Hc HI. pose proof (elem_of_list_lookup_2 _ _ _ Hi) as Ii. apply elem_of_list_In in Ii.
  assert (Step : forall n s, inv3 sig n cs s -> (h_eos s = true /\ h_run s = None) \/ Z.testbit (h_mask s) (s_index c) = true -> exists v, snd (stm_read n c s) = AData v).
  { intros m q I K. destruct (read3_ok sig hi m cs q c Hs Ii (Hc c Ii) I) as (_ & [X|(v & t & X & _)]); [|exists v; exact X]. exfalso.
    unfold stm_read in X. destruct (Z.testbit (h_mask q) (s_index c)); [cbn [snd] in X; exact (give_not_ret _ _ _ _ X)|].
    destruct K as [(K1 & K2)|K]; [|discriminate K]. rewrite K1, K2 in X. cbn [is_some negb snd] in X. exact (give_not_ret _ _ _ _ X). }
  cbn [trace3 step3]. rewrite Hi. destruct (stm_read n c s) as (s1, o) eqn:E1.
  destruct (read3_ok sig hi n cs s c Hs Ii (Hc c Ii) HI) as (I1 & [X|(v & t & X & _)]); rewrite E1 in *; cbn [fst snd] in *; [|exists v; left; rewrite X; reflexivity].
  assert (K : h_run s1 <> None) by (pose proof (wait_run n c s _ ltac:(rewrite E1; exact X)) as W; rewrite E1 in W; exact W).
  destruct (h_run s1) as [r|] eqn:R; [|congruence].
  pose proof (inv3_done sig (S n) cs s1 I1) as I2. destruct (Step (S (S n)) (stm_done sig s1) I2) as (v & V); [left; unfold stm_done; rewrite R; split; reflexivity|].
  destruct (stm_read (S (S n)) c (stm_done sig s1)) as (s3, o3) eqn:E3. cbn [snd] in V. subst o3. exists v. right. right. left. reflexivity.
Qed.
(** The contexts made by adc_init, with any calibration. *)
Lemma inv3_init sig l cs : Forall (fun ch => 0 <= ch < 20) l -> (length l <= 16)%nat -> Forall2 (fun c c0 => s_chan c = s_chan c0 /\ s_index c = s_index c0) cs (fst (stm_inits l (stm_reset 0))) ->
  inv3 sig 0 cs (snd (stm_inits l (stm_reset 0))).
Proof.
  intros Hl Hn Hcs. assert (Z0 : forall j, 0 <= j < 16 -> sq (stm_reset 0) j = 0).
  { intros j _. unfold sq, stm_reset. cbn [h_sqr1 h_sqr2 h_sqr3 h_sqr4]. unfold afield. rewrite !Z.shiftr_0_l, !Z.land_0_l. destruct (j <? 4), (j <? 9), (j <? 14); reflexivity. }
  destruct (stm_inits_ok l (stm_reset 0) 0 eq_refl ltac:(lia) ltac:(lia) Z0 Hl) as (I1 & I2 & _ & _ & I5 & I6 & I7 & I8 & _).
  destruct (stm_inits l (stm_reset 0)) as (cs0, s) eqn:E. cbn [fst snd] in *.
  split; [rewrite I7; intros r X; discriminate X|]. split; [rewrite I8; intros X; discriminate X|]. split; [rewrite I6; intros c _ X; cbn [h_mask stm_reset] in X; rewrite Z.testbit_0_l in X; discriminate X|].
  intros c Ic. apply elem_of_list_In, elem_of_list_lookup in Ic. destruct Ic as (i & Hi). destruct (Forall2_lookup_l _ _ _ _ _ Hcs Hi) as (c0 & H0 & Q1 & Q2). rewrite Q1, Q2.
  assert (L : (i < length l)%nat) by (rewrite <- I1; apply lookup_lt_Some in H0; exact H0). destruct (lookup_lt_is_Some_2 l i L) as (ch & Hch).
  destruct (I2 i ch Hch) as (J1 & J2). rewrite H0 in J1. injection J1 as ->. cbn [s_chan s_index]. rewrite I5 by (intros ->; discriminate Hch). split; [lia|exact J2].
Qed.

(** * Sample times, resolution *)
Lemma smp_low smp c s s' : stm_adc_setup smp c s = (0, s') -> 0 <= s_chan c < 9 ->
  0 <= smp < 8 /\ smp_of s' (s_chan c) = smp /\ forall ch, 0 <= ch < 20 -> ch <> s_chan c -> smp_of s' ch = smp_of s ch.
Proof.
  intros E H. unfold stm_adc_setup in E. destruct (_ && _) eqn:C in E; [|discriminate E]. apply andb_true_iff in C. rewrite Z.leb_le, Z.ltb_lt in C. cbn [negb] in E.
  rewrite (proj2 (Z.ltb_lt (s_chan c) 9)) in E by lia. cbv zeta in E. injection E as <-.
  assert (Sm : Z.land smp (Z.ones 3) = smp) by (apply land_ones_small; [lia|change (2 ^ 3) with 8; lia]).
  assert (B : forall lo, 0 <= lo < 30 -> afield (u32 (Z.lor (Z.ldiff (h_smpr1 s) (Z.shiftl 7 (s_chan c * 3))) (Z.shiftl smp (s_chan c * 3)))) lo 3 = afield (Z.lor (Z.ldiff (h_smpr1 s) (Z.shiftl 7 (s_chan c * 3))) (Z.shiftl smp (s_chan c * 3))) lo 3).
  { intros lo Hlo. apply Z.bits_inj'. intros i Hi. rewrite !afield_bits by lia. destruct (Z.ltb_spec i 3); [|rewrite !andb_false_r; reflexivity]. unfold u32. rewrite Z.mod_pow2_bits_low by lia. reflexivity. }
  split; [lia|]. split.
  - unfold smp_of. rewrite (proj2 (Z.ltb_lt (s_chan c) 10)) by lia. cbn [h_smpr1]. rewrite B by lia. rewrite <- Sm at 1. change 7 with (Z.ones 3). rewrite Z.mul_comm. rewrite put_get by lia. exact Sm.
  - intros ch Hch N. unfold smp_of. cbn [h_smpr1 h_smpr2]. destruct (Z.ltb_spec ch 10); [|reflexivity]. rewrite B by lia. rewrite <- Sm. change 7 with (Z.ones 3). rewrite put_get_other by lia. reflexivity.
Qed.
Lemma smp_high smp c s s' : stm_adc_setup smp c s = (0, s') -> 9 <= s_chan c < 19 ->
  smp_of s' (s_chan c + 1) = smp.
Proof.
  intros E H. unfold stm_adc_setup in E. destruct (_ && _) eqn:C in E; [|discriminate E]. apply andb_true_iff in C. rewrite Z.leb_le, Z.ltb_lt in C. cbn [negb] in E.
  rewrite (proj2 (Z.ltb_ge (s_chan c) 9)) in E by lia. cbv zeta in E. injection E as <-.
  assert (Sm : Z.land smp (Z.ones 3) = smp) by (apply land_ones_small; [lia|change (2 ^ 3) with 8; lia]).
  unfold smp_of. rewrite (proj2 (Z.ltb_ge (s_chan c + 1) 10)) by lia. cbn [h_smpr2]. replace (s_chan c + 1 - 10) with (s_chan c - 9) by lia.
  apply Z.bits_inj'. intros i Hi. pose proof (put_get (h_smpr2 s) smp (3 * (s_chan c - 9)) 3 ltac:(lia) ltac:(lia)) as P. change (Z.ones 3) with 7 in *. rewrite Sm in P. rewrite (Z.mul_comm (s_chan c - 9) 3).
  assert (Q : Z.testbit (afield (Z.lor (Z.ldiff (h_smpr2 s) (Z.shiftl 7 (3 * (s_chan c - 9)))) (Z.shiftl smp (3 * (s_chan c - 9)))) (3 * (s_chan c - 9)) 3) i = Z.testbit smp i) by (rewrite P; reflexivity).
  rewrite afield_bits in Q by lia. rewrite afield_bits by lia. rewrite <- Q. destruct (Z.ltb_spec i 3); [|rewrite !andb_false_r; reflexivity]. unfold u32. rewrite Z.mod_pow2_bits_low by lia. reflexivity.
Qed.
Lemma res_ok res cfgr r : stm_res res cfgr = Some r -> Z.testbit cfgr 4 = false -> 0 <= res < 8 /\ (res_of r = res <-> res < 4) /\ forall lo n, 0 <= n -> 4 <= lo -> afield r lo n = afield cfgr lo n.
Proof.
  intros E B4. unfold stm_res in E. destruct (_ && _) eqn:C in E; [|discriminate E]. apply andb_true_iff in C. rewrite Z.leb_le, Z.ltb_lt in C. cbn [negb] in E. injection E as <-.
  split; [lia|]. assert (R : res_of (Z.lor (Z.ldiff cfgr (Z.shiftl 3 2)) (Z.shiftl (Z.land res 3) 2)) = Z.land res 3).
  { unfold res_of. apply Z.bits_inj'. intros i Hi. pose proof (put_get cfgr res 2 2 ltac:(lia) ltac:(lia)) as P. change (Z.ones 2) with 3 in P.
    assert (Q : Z.testbit (afield (Z.lor (Z.ldiff cfgr (Z.shiftl 3 2)) (Z.shiftl (Z.land res 3) 2)) 2 2) i = Z.testbit (Z.land res 3) i) by (rewrite P; reflexivity).
    rewrite afield_bits in * by lia. rewrite <- Q. destruct (Z.ltb_spec i 2); [rewrite (proj2 (Z.ltb_lt i 3)) by lia; reflexivity|].
    rewrite andb_false_r. destruct (Z.ltb_spec i 3); [|apply andb_false_r]. rewrite andb_true_r. assert (i = 2) as -> by lia. ztb. change 3 with (Z.ones 2). rewrite !ones_bits by lia. change (2 + 2) with 4. rewrite B4. cbn. rewrite andb_false_r. reflexivity. }
  rewrite R. split.
  - change 3 with (Z.ones 2). split; intros K; [|apply land_ones_small; [lia|change (2 ^ 2) with 4; lia]]. rewrite Z.land_ones in K by lia. pose proof (Z.mod_pos_bound res (2 ^ 2) ltac:(lia)). change (2 ^ 2) with 4 in *. lia.
  - intros lo n Hn Hlo. pose proof (put_get_other cfgr res 2 2 lo n ltac:(lia) ltac:(lia) ltac:(lia) Hn ltac:(lia)) as P. exact P.
Qed.
