(** CanProofs5.v - proofs for PropCan.v: histories on DCAN. *)
From Verif Require Import Base CanModel CanSpec CanProofs CanProofs2 CanProofs3 CanProofs4.

Definition dc_arb (id : Z) : Z := Z.lor (Z.shiftl id 18) (2 ^ 31).
Definition d_entry (o : dmo) (id : Z) : Prop :=
  Z.testbit (o_arb o) 31 = true /\ Z.testbit (o_arb o) 29 = false /\ Z.testbit (o_arb o) 30 = false /\ field (o_arb o) 18 11 = id /\ Z.testbit (o_mctl o) 12 = false.
Definition dcan_inv (s : dcan) (l : list (Z * Z)) : Prop :=
  d_rxc s + d_txc s = 32 /\ 0 <= d_txi s < d_txc s /\ (0 <= d_rxi s <= d_rxc s /\ length l = Z.to_nat (d_rxi s)) /\
  (forall k, d_rxc s < k <= 32 -> Z.testbit (o_arb (d_obj s k)) 31 = false \/ Z.testbit (o_arb (d_obj s k)) 29 = true) /\
  (forall k, d_rxi s < k <= d_rxc s -> Z.testbit (o_arb (d_obj s k)) 31 = false) /\
  (forall k, 1 <= k <= d_rxi s -> d_entry (d_obj s k) (fst (nth (Z.to_nat (k - 1)) l (0, 0)))) /\ Forall (fun p => 0 <= fst p < 2048) l /\
  (l <> [] -> o_arb (d_if2 s) = dc_arb (fst (List.last l (0, 0)))).

Lemma dc_arb_fields id : 0 <= id < 2048 -> field (dc_arb id) 18 11 = id /\ Z.testbit (dc_arb id) 29 = false /\ Z.testbit (dc_arb id) 30 = false /\ Z.testbit (dc_arb id) 31 = true /\
  Z.shiftr (Z.land (dc_arb id) 536870911) 18 = id.
Proof.
  intros H. unfold dc_arb. assert (S : forall b, 29 <= b -> Z.testbit (Z.shiftl id 18) b = false).
  { intros b Hb. rewrite Z.shiftl_spec by lia. replace id with (id mod 2 ^ 11) by (apply Z.mod_small; lia). apply Z.mod_pow2_bits_high. lia. }
  assert (F : field (Z.lor (Z.shiftl id 18) (2 ^ 31)) 18 11 = id).
  { unfold field. apply Z.bits_inj'. intros i Hi. rewrite Z.land_spec, Z.shiftr_spec, !Z.lor_spec, Z.shiftl_spec by lia. replace (i + 18 - 18) with i by lia. destruct (Z.lt_ge_cases i 11) as [L|L].
    + rewrite Z.ones_spec_low, !Z.pow2_bits_false by lia. rewrite !orb_false_r, andb_true_r. reflexivity.
    + rewrite Z.ones_spec_high by lia. rewrite andb_false_r. replace id with (id mod 2 ^ 11) by (apply Z.mod_small; lia). rewrite Z.mod_pow2_bits_high by lia. reflexivity. }
  split; [exact F|]. rewrite !Z.lor_spec, !S by lia. split; [reflexivity|]. split; [reflexivity|]. split; [reflexivity|].
  rewrite <- F at 2. unfold field. rewrite Z.shiftr_land. reflexivity.
Qed.
Lemma d_entry_takes o id f : frame_ok f -> d_entry o id -> dcan_takes o f = true <-> fr_ext f = false /\ fr_id f = id.
Proof.
  intros (Hf & _) (A & B & C & D & U). unfold dcan_takes. cbv zeta. rewrite A, B, C, U. cbn [negb andb]. destruct (fr_ext f) eqn:X; cbn [Bool.eqb andb].
  - split; [discriminate|]. intros [K _]. discriminate K.
  - change (field 536870911 18 11) with (Z.ones 11). rewrite land_small_ones by (change (2 ^ 11) with 2048; lia). rewrite Z.eqb_eq. unfold field in *. rewrite <- Z.land_assoc, Z.land_diag. rewrite D. tauto.
Qed.
Lemma d_no_takes o f : Z.testbit (o_arb o) 31 = false \/ Z.testbit (o_arb o) 29 = true -> dcan_takes o f = false.
Proof. intros [H|H]; unfold dcan_takes; rewrite H; cbn [negb andb]; [reflexivity|rewrite andb_false_r; reflexivity]. Qed.
Lemma dcan_inv_not s l k : dcan_inv s l -> d_rxi s < k <= 32 -> Z.testbit (o_arb (d_obj s k)) 31 = false \/ Z.testbit (o_arb (d_obj s k)) 29 = true.
Proof. intros (I1 & I2 & I3 & I4 & I5 & _) Hk. destruct (Z.lt_ge_cases (d_rxc s) k); [apply I4; lia|left; apply I5; lia]. Qed.
Lemma dcan_inv_takes s l f : dcan_inv s l -> frame_ok f -> taken (fun k => dcan_takes (d_obj s k) f) 1 33 <-> named l f.
Proof.
  intros I Hf. pose proof I as (I1 & I2 & I3 & I4 & I5 & I6 & I7 & I8). split.
  - intros (k & Hk & T). destruct (Z.le_gt_cases k (d_rxi s)) as [L|L].
    + specialize (I6 k ltac:(lia)). apply (d_entry_takes _ _ f Hf I6) in T. set (i := Z.to_nat (k - 1)) in *. assert (Hin : In (nth i l (0, 0)) l) by (apply nth_In; lia). destruct (nth i l (0, 0)) as [id mask].
      exists id, mask. split; [exact Hin|]. cbn [fst] in T. destruct T as [T1 T2]. rewrite List.Forall_forall in I7. specialize (I7 _ Hin). cbn [fst] in I7. split; [|exact T2]. rewrite T1. symmetry. apply Z.leb_gt. lia.
    + pose proof (d_no_takes _ f (dcan_inv_not s l k I ltac:(lia))) as N. cbv beta in T. congruence.
  - intros (id & mask & Hin & A1 & A2). destruct (In_nth l _ (0, 0) Hin) as (i & Hi & Ei). exists (Z.of_nat i + 1). split; [lia|]. specialize (I6 (Z.of_nat i + 1) ltac:(lia)).
    replace (Z.to_nat (Z.of_nat i + 1 - 1)) with i in I6 by lia. rewrite Ei in I6. apply (d_entry_takes _ _ f Hf I6). cbn [fst]. split; [|exact A2]. rewrite List.Forall_forall in I7. specialize (I7 _ Hin). cbn [fst] in I7. rewrite A1. apply Z.leb_gt. lia.
Qed.
(** Two states that agree where it matters *)
Lemma dcan_inv_ext s s' l : dcan_inv s l -> d_rxc s' = d_rxc s -> d_txc s' = d_txc s -> d_rxi s' = d_rxi s -> 0 <= d_txi s' < d_txc s -> o_arb (d_if2 s') = o_arb (d_if2 s) ->
  (forall k, 1 <= k <= 32 -> (d_obj s' k = d_obj s k) \/ (o_arb (d_obj s' k) = o_arb (d_obj s k) /\ Z.testbit (o_mctl (d_obj s' k)) 12 = Z.testbit (o_mctl (d_obj s k)) 12) \/ (d_rxc s < k /\ Z.testbit (o_arb (d_obj s' k)) 29 = true)) -> dcan_inv s' l.
Proof.
  intros (I1 & I2 & I3 & I4 & I5 & I6 & I7 & I8) E1 E2 E3 Ht E5 H. unfold dcan_inv. rewrite E1, E2, E3, E5. split; [exact I1|]. split; [exact Ht|]. split; [exact I3|]. split; [|split; [|split; [|split; [exact I7|exact I8]]]].
  - intros k Hk. destruct (H k ltac:(lia)) as [->|[[-> _]|[_ K]]]; [apply I4; exact Hk|apply I4; exact Hk|right; exact K].
  - intros k Hk. destruct (H k ltac:(lia)) as [->|[[-> _]|[K _]]]; [apply I5; exact Hk|apply I5; exact Hk|lia].
  - intros k Hk. specialize (I6 k Hk). unfold d_entry in *. destruct (H k ltac:(lia)) as [->|[[-> ->]|[K _]]]; [exact I6|exact I6|lia].
Qed.
Lemma dcan_index s l : dcan_inv s l -> u32 (d_rxc s + d_txi s) = d_rxc s + d_txi s /\ d_rxc s <= d_rxc s + d_txi s < 32.
Proof. intros (I1 & I2 & I3 & _). unfold u32. split; [apply Z.mod_small; lia|lia]. Qed.
Lemma dcan_write_inv t id buf n s l r s' : t_int t = 32 -> 0 <= id -> dcan_inv s l -> dcan_write t id buf n s = CRet r s' -> dcan_inv s' l.
Proof.
  intros Ht Hid I E. destruct (dcan_write_ok _ _ _ _ _ _ _ Ht E) as (A1 & A2 & A3 & A4 & A5 & A6). destruct (dcan_index s l I) as [Ei Hi].
  assert (T : 0 <= d_txi s' < d_txc s). { destruct I as (I1 & I2 & I3 & _). destruct A5 as [->|[_ ->]]; [exact I2|]. apply Z.mod_pos_bound. lia. }
  apply (dcan_inv_ext s s' l I A1 A2 A3 T); [congruence|]. intros k Hk. destruct A6 as [[_ O]|(_ & H8 & Hd & k0 & K0 & _ & _ & O & M)]; [left; apply O|]. destruct (Z.eq_dec k k0) as [->|N]; [|left; apply O; exact N].
  right. right. rewrite Ei in K0. split; [lia|]. destruct (pack_le buf n) as [a b]. rewrite M. cbn [o_arb]. apply (dw_arb_fields id). lia.
Qed.
Lemma dcan_read_inv t n s l r id out s' : dcan_inv s l -> dcan_read t n s = RRet r id out s' -> dcan_inv s' l.
Proof.
  intros I E. unfold dcan_read in E. destruct (negb (0 <? n)); [injection E as _ _ _ <-; exact I|]. destruct (negb (n <=? 8)); [injection E as _ _ _ <-; exact I|]. destruct (negb (d_rxc s <? t_int t)); [discriminate E|]. cbv zeta in E.
  destruct (Z.land _ _ =? 0); [injection E as _ _ _ <-; exact I|]. destruct (scan _ _) as [i|] eqn:S; [|injection E as _ _ _ <-; exact I]. destruct (scan_some _ _ _ S) as (Hi & _). pose proof I as (I1 & I2 & I3 & _).
  destruct (dcan_read_mb_ok t i s r id out s' ltac:(lia) E) as (A1 & A2 & A3 & A4 & A5 & A6 & A7). apply (dcan_inv_ext s s' l I A1 A2 A3); [rewrite A4; exact I2|exact A5|].
  intros k Hk. destruct A7 as [(_ & _ & O)|(_ & _ & _ & M & _)]; [left; apply O|]. destruct (Z.eq_dec k (i + 1)) as [->|N]; [|left; apply A6; exact N].
  right. left. rewrite M. cbn [o_arb o_mctl]. split; [reflexivity|]. rewrite Z.ldiff_spec, Z.pow2_bits_false by lia. apply andb_true_r.
Qed.
Lemma last_snoc (l : list (Z * Z)) x : List.last (l ++ [x]) (0, 0) = x. Proof. apply last_last. Qed.
Lemma dcan_accept_inv id mask s l r s' : dcan_inv s l -> 0 <= id -> dcan_accept id mask s = CRet r s' -> dcan_inv s' (if r =? 0 then l ++ [(id, mask)] else l).
Proof.
  intros I Hid E. unfold dcan_accept in E. destruct (id <? 2048) eqn:E1; cbn [negb] in E; [|injection E as <- <-; exact I]. apply Z.ltb_lt in E1. destruct (negb (mask <? 2048)); [injection E as <- <-; exact I|].
  destruct (d_rxi s <? d_rxc s) eqn:E3; cbn [negb] in E; [|injection E as <- <-; exact I]. apply Z.ltb_lt in E3. cbv zeta in E. injection E as <- <-. change (0 =? 0) with true. cbv iota.
  destruct I as (I1 & I2 & I3 & I4 & I5 & I6 & I7 & I8). set (i := d_rxi s) in *. unfold d_cmd2. rewrite (if_cmd_to (Z.lor (Z.lor (2 ^ 23) (2 ^ 21)) (2 ^ 20)) (i + 1)) by (reflexivity || lia).
  set (c := Z.lor (Z.lor (2 ^ 23) (2 ^ 21)) (2 ^ 20)). change (Z.testbit c 21) with true. change (Z.testbit c 22) with false. change (Z.testbit c 20) with true. change (Z.testbit c 17) with false. change (Z.testbit c 16) with false. cbv iota.
  unfold d_set_rxi. cbn [d_btr d_obj d_if1 d_if2 d_rxi d_rxc d_txi d_txc o_arb o_mctl o_msk o_da o_db]. fold (dc_arb id). destruct (dc_arb_fields id ltac:(lia)) as (F1 & F2 & F3 & F4 & F5).
  unfold dcan_inv. cbn [d_btr d_obj d_if1 d_if2 d_rxi d_rxc d_txi d_txc o_arb]. split; [exact I1|]. split; [exact I2|]. split; [rewrite app_length; cbn [length]; lia|].
  split; [|split; [|split; [|split]]].
  - intros k Hk. rewrite upd_ne by lia. apply I4. exact Hk.
  - intros k Hk. rewrite upd_ne by lia. apply I5. lia.
  - intros k Hk. destruct (Z.eq_dec k (i + 1)) as [->|N].
    + rewrite upd_eq, app_nth2 by lia. replace (Z.to_nat (i + 1 - 1) - length l)%nat with 0%nat by lia. cbn [nth fst]. unfold d_entry. cbn [o_arb o_mctl]. tauto.
    + rewrite upd_ne by exact N. rewrite app_nth1 by lia. apply I6. lia.
  - apply Forall_app. split; [exact I7|]. constructor; [|constructor]. cbn [fst]. lia.
  - intros _. rewrite last_snoc. reflexivity.
Qed.
Lemma arb_std id : 0 <= id < 2048 -> let a := 2 ^ 31 + id * 2 ^ 18 in Z.testbit a 31 = true /\ Z.testbit a 29 = false /\ Z.testbit a 30 = false /\ field a 18 11 = id.
Proof.
  intros H a. assert (E : a = dc_arb id).
  { unfold a, dc_arb. rewrite Z.lor_comm. replace (2 ^ 31) with (Z.shiftl 1 31) by reflexivity. rewrite Z.lor_comm. rewrite lor_add; [rewrite !Z.shiftl_mul_pow2 by lia; lia|lia|rewrite Z.shiftl_mul_pow2 by lia; lia]. }
  rewrite E. destruct (dc_arb_fields id H) as (A & B & C & D & _). tauto.
Qed.
Lemma dcan_receives_inv f k s l : dcan_inv s l -> frame_ok f -> 1 <= k <= 32 -> dcan_takes (d_obj s k) f = true -> dcan_inv (dcan_receives f k s) l.
Proof.
  intros I Hf Hk T. assert (L : k <= d_rxi s). { destruct (Z.le_gt_cases k (d_rxi s)) as [L|L]; [exact L|]. rewrite (d_no_takes _ f (dcan_inv_not s l k I ltac:(lia))) in T. discriminate T. }
  destruct I as (I1 & I2 & I3 & I4 & I5 & I6 & I7 & I8). pose proof (I6 k ltac:(lia)) as En. set (id := fst _) in En. apply (d_entry_takes _ id f Hf En) in T. destruct T as [T1 T2].
  unfold dcan_receives, dcan_inv. cbn [d_btr d_obj d_if1 d_if2 d_rxi d_rxc d_txi d_txc]. split; [exact I1|]. split; [exact I2|]. split; [exact I3|]. split; [|split; [|split; [|split; [exact I7|exact I8]]]].
  - intros j Hj. rewrite upd_ne by lia. apply I4. exact Hj.
  - intros j Hj. rewrite upd_ne by lia. apply I5. exact Hj.
  - intros j Hj. destruct (Z.eq_dec j k) as [->|N]; [|rewrite upd_ne by exact N; apply I6; exact Hj]. rewrite upd_eq. fold id. destruct (dcan_filled_fields f (d_obj s k) Hf) as (A & _ & _ & B & _). cbv zeta in A, B.
    unfold d_entry. rewrite A, B, T1, T2. destruct Hf as (Hf & _). rewrite T1, T2 in Hf. destruct (arb_std id Hf) as (X1 & X2 & X3 & X4). cbv zeta in X1, X2, X3, X4. destruct En as (_ & _ & _ & _ & U). tauto.
Qed.
Lemma dcan_sent_inv k s l : dcan_inv s l -> dcan_inv (dcan_sent k s) l.
Proof.
  intros I. pose proof I as (_ & I2 & _). apply (dcan_inv_ext s _ l I); try reflexivity; [exact I2|]. intros j Hj. unfold dcan_sent. cbn [d_obj]. destruct (Z.eq_dec j k) as [->|N]; [|left; apply upd_ne; exact N].
  right. left. rewrite upd_eq. cbn [o_arb o_mctl]. split; [reflexivity|]. rewrite Z.ldiff_spec, Z.pow2_bits_false by lia. apply andb_true_r.
Qed.
Lemma dcan_up_inv freq st s : dcan_up freq st s -> dcan_inv s [].
Proof.
  intros (s0 & s1 & E0 & E1 & Hn). unfold dcan_init, dcan_set_tx in E0. change (2 <? 32) with true in E0. cbn [negb] in E0. cbv zeta in E0. injection E0 as <-. unfold dcan_setup in E1.
  destruct (dcan_bitrate freq (cs_rate st)) as [b|e|] eqn:B; [|exfalso|discriminate E1].
  2:{ apply set_bitrate_err in B; [|reflexivity]. injection E1 as E1 _. lia. }
  unfold dcan_set_tx in E1. destruct (Z.ltb_spec (cs_ntx st) 32) as [L|L]; cbn [negb] in E1; [|discriminate E1]. injection E1 as <-.
  unfold dcan_inv, d_set_cnt, d_set_btr. cbn [d_btr d_obj d_if1 d_if2 d_rxi d_rxc d_txi d_txc o_arb length]. split; [lia|]. split; [lia|]. split; [split; [lia|reflexivity]|]. split; [intros k _; left; apply Z.bits_0|]. split; [intros k _; apply Z.bits_0|].
  split; [intros k Hk; lia|]. split; [constructor|]. intros K. destruct K. reflexivity.
Qed.
Lemma dcan_run_inv t std : t_int t = 32 -> forall ops s l s' l', dcan_inv s l -> ops_ok std ops -> run (dcan_step t) ops s l = Some (s', l') -> dcan_inv s' l'.
Proof.
  intros Ht. induction ops as [|o ops IH]; intros s l s' l' I Ho E; cbn [run] in E; [injection E as <- <-; exact I|]. apply Forall_cons in Ho as [Ho Hos]. destruct (dcan_step t o s l) as [[s1 l1]|] eqn:S; [|discriminate E].
  apply (IH s1 l1 s' l'); [|exact Hos|exact E]. clear E IH. destruct o as [id mask|id buf n|n|f k|k]; cbn [dcan_step op_ok] in *.
  - destruct (dcan_accept id mask s) as [r s2|] eqn:A; [|discriminate S]. cbn [ret_c] in S. injection S as <- <-. apply (dcan_accept_inv id mask s l r s2 I); [lia|exact A].
  - destruct (dcan_write t id buf n s) as [r s2|] eqn:A; [|discriminate S]. cbn [ret_c] in S. injection S as <- <-. rewrite app_nil_r. destruct Ho as [[Ho _] _]. destruct (r =? 0); apply (dcan_write_inv _ _ _ _ _ _ _ _ Ht (proj1 Ho) I A).
  - destruct (dcan_read t n s) as [r id out s2|] eqn:A; [|discriminate S]. cbn [ret_r] in S. injection S as <- <-. apply (dcan_read_inv _ _ _ _ _ _ _ _ I A).
  - injection S as <- <-. destruct ((1 <=? k) && (k <=? 32) && dcan_takes (d_obj s k) f) eqn:T; [|exact I]. apply andb_true_iff in T as [T T3]. apply andb_true_iff in T as [T1 T2]. apply dcan_receives_inv; try assumption. lia.
  - injection S as <- <-. destruct ((1 <=? k) && (k <=? 32) && _); [|exact I]. apply dcan_sent_inv. exact I.
Qed.
Lemma dcan_write_def t id buf n s l : t_int t = 32 -> dcan_inv s l -> dcan_write t id buf n s <> CUb.
Proof.
  intros Ht I E. destruct (dcan_index s l I) as [Ei Hi]. destruct I as (I1 & I2 & I3 & _). unfold dcan_write in E. rewrite Ei, Ht in E. destruct (negb (id <? 2048)); [discriminate E|]. destruct (negb (0 <? n)); [discriminate E|]. destruct (negb (n <=? 8)); [discriminate E|].
  cbv zeta in E. replace (d_rxc s + d_txi s <? 32) with true in E by (symmetry; apply Z.ltb_lt; lia). cbn [negb] in E. destruct (negb _); [discriminate E|]. replace (d_txc s =? 0) with false in E by (symmetry; apply Z.eqb_neq; lia).
  destruct (negb _); [discriminate E|]. destruct (pack_le buf n). discriminate E.
Qed.
Lemma dcan_read_def t n s l : t_int t = 32 -> dcan_inv s l -> dcan_read t n s <> RUb.
Proof.
  intros Ht I E. destruct I as (I1 & I2 & I3 & _). unfold dcan_read in E. destruct (negb (0 <? n)); [discriminate E|]. destruct (negb (n <=? 8)); [discriminate E|]. rewrite Ht in E. replace (d_rxc s <? 32) with true in E by (symmetry; apply Z.ltb_lt; lia). cbn [negb] in E. cbv zeta in E.
  destruct (_ =? 0); [discriminate E|]. destruct (scan _ _); [|discriminate E]. unfold dcan_read_mb in E. cbv zeta in E. destruct (_ =? 0); discriminate E.
Qed.
Lemma dcan_write_where t id buf n s l r s' k : t_int t = 32 -> dcan_inv s l -> dcan_write t id buf n s = CRet r s' -> d_obj s' k <> d_obj s k -> d_rxc s < k <= 32.
Proof.
  intros Ht I E D. destruct (dcan_write_ok _ _ _ _ _ _ _ Ht E) as (_ & _ & _ & _ & _ & A6). destruct (dcan_index s l I) as [Ei Hi]. destruct A6 as [[_ O]|(_ & _ & _ & k0 & K0 & _ & _ & O & _)]; [destruct D; apply O|].
  destruct (Z.eq_dec k k0) as [->|N]; [lia|]. destruct D. apply O. exact N.
Qed.
Lemma dcan_accept_where id mask s l r s' k : dcan_inv s l -> dcan_accept id mask s = CRet r s' -> d_obj s' k <> d_obj s k -> 1 <= k <= d_rxc s /\ k = d_rxi s + 1.
Proof.
  intros (I1 & I2 & I3 & _) E D. unfold dcan_accept in E. destruct (negb (id <? 2048)); [injection E as <- <-; congruence|]. destruct (negb (mask <? 2048)); [injection E as <- <-; congruence|].
  destruct (d_rxi s <? d_rxc s) eqn:E3; cbn [negb] in E; [|injection E as <- <-; congruence]. apply Z.ltb_lt in E3. cbv zeta in E. injection E as _ <-. destruct (Z.eq_dec k (d_rxi s + 1)) as [->|N]; [lia|]. exfalso. apply D.
  unfold d_cmd2. rewrite (if_cmd_to (Z.lor (Z.lor (2 ^ 23) (2 ^ 21)) (2 ^ 20)) (d_rxi s + 1)) by (reflexivity || lia). unfold d_set_rxi. cbn [d_obj]. apply upd_ne. exact N.
Qed.
(** Read *)
Lemma mask_bit k i : 0 <= k -> 0 <= i -> Z.testbit (2 ^ k - 1) i = (i <? k).
Proof. intros Hk Hi. rewrite Z.sub_1_r, <- Z.ones_equiv. destruct (Z.ltb_spec i k); [apply Z.ones_spec_low; lia|apply Z.ones_spec_high; lia]. Qed.
Lemma dcan_read_frame t n s l r id out s' : t_char t = 8 -> dcan_inv s l -> dcan_read t n s = RRet r id out s' -> 0 <= r ->
  exists i, 1 <= i <= d_rxi s /\ Z.testbit (o_mctl (d_obj s i)) 15 = true /\ Z.testbit (o_mctl (d_obj s' i)) 15 = false /\ (forall j, j <> i -> d_obj s' j = d_obj s j) /\
  id = Some (fst (List.last l (0, 0))) /\ forall f o, frame_ok f -> d_obj s i = dcan_filled f o -> r = fr_len f /\ out = fr_data f.
Proof.
  intros Ht I E Hr. unfold dcan_read in E. destruct (negb (0 <? n)); [injection E as <- _ _ _; unfold C_EINVAL in Hr; lia|]. destruct (negb (n <=? 8)); [injection E as <- _ _ _; unfold C_EINVAL in Hr; lia|].
  destruct (negb (d_rxc s <? t_int t)); [discriminate E|]. cbv zeta in E. destruct (Z.land _ _ =? 0); [injection E as <- _ _ _; unfold C_EAGAIN in Hr; lia|]. pose proof I as (I1 & I2 & I3 & I4 & I5 & I6 & I7 & I8).
  destruct (scan _ _) as [i|] eqn:S; [|injection E as <- _ _ _; unfold C_EIO in Hr; lia]. destruct (scan_some _ _ _ S) as (Hi & _).
  destruct (dcan_read_mb_ok t i s r id out s' ltac:(lia) E) as (A1 & A2 & A3 & A4 & A5 & A6 & [(_ & K & _)|(B1 & B2 & B3 & B4 & B5)]); [unfold C_EAGAIN in K; lia|].
  exists (i + 1). split; [lia|]. split; [exact B1|]. split; [rewrite B4; cbn [o_mctl]; apply ldiff_pow; lia|]. split; [exact A6|]. split.
  - rewrite B3. f_equal. rewrite I8 by (intros ->; cbn [length] in I3; lia). apply dc_arb_fields. assert (Hin : In (List.last l (0, 0)) l).
    { assert (Hl : l <> []) by (intros ->; cbn [length] in I3; lia). destruct (exists_last Hl) as (l0 & x & ->). rewrite last_snoc. apply in_or_app. right. left. reflexivity. }
    rewrite List.Forall_forall in I7. apply I7. exact Hin.
  - intros f o Hf M. rewrite M in B2, B5. destruct (dcan_filled_fields f o Hf) as (_ & C1 & _ & _ & _ & C2 & C3). cbv zeta in C1, C2, C3. rewrite C1 in B2. split; [exact B2|]. rewrite B5, B2. pose proof (len_range f Hf) as L.
    replace (i <? d_rxc s) with true by (symmetry; apply Z.ltb_lt; lia). replace (fr_len f <=? 8) with true by (symmetry; apply Z.leb_le; lia). rewrite andb_true_r. cbn [andb].
    destruct (Z.ltb_spec 0 (fr_len f)) as [P|P].
    + rewrite (dcan_bytes8 t _ _ Ht). destruct (Z.ltb_spec 3 (fr_len f)) as [Q|Q]; [|rewrite (le_short _ _ _ (o_db (dcan_filled f o))) by lia]; rewrite C2; apply data_firstn.
    + unfold fr_len in P. destruct (fr_data f); [reflexivity|cbn [length] in P; lia].
Qed.
Lemma dcan_read_progress t n s l i : t_int t = 32 -> dcan_inv s l -> 0 < n <= 8 -> 1 <= i <= d_rxi s -> Z.testbit (o_mctl (d_obj s i)) 15 = true -> exists r id out s', dcan_read t n s = RRet r id out s' /\ 0 <= r.
Proof.
  intros Ht I Hn Hi B. destruct (dcan_read t n s) as [r id out s'|] eqn:E; [|destruct (dcan_read_def t n s l Ht I E)]. exists r, id, out, s'. split; [reflexivity|]. pose proof I as (I1 & I2 & I3 & _).
  unfold dcan_read in E. replace (0 <? n) with true in E by (symmetry; apply Z.ltb_lt; lia). replace (n <=? 8) with true in E by (symmetry; apply Z.leb_le; lia). rewrite Ht in E. replace (d_rxc s <? 32) with true in E by (symmetry; apply Z.ltb_lt; lia). cbn [negb] in E. cbv zeta in E.
  set (nd := Z.land (d_ndat s) (2 ^ d_rxc s - 1)) in E. assert (T : Z.testbit nd (i - 1) = true).
  { unfold nd, d_ndat. rewrite Z.land_spec, collect_bit, mask_bit by lia. replace (i - 1 + 1) with i by lia. rewrite B. change (Z.of_nat 32) with 32. replace (i - 1 <? 32) with true by (symmetry; apply Z.ltb_lt; lia). apply Z.ltb_lt. lia. }
  destruct (Z.eqb_spec nd 0) as [Z0|Z0]; [rewrite Z0, Z.bits_0 in T; discriminate T|]. destruct (scan nd (Z.to_nat (d_rxi s))) as [j|] eqn:S; [|rewrite (scan_none nd _ (i - 1) S) in T by lia; discriminate T].
  destruct (scan_some _ _ _ S) as (Hj & Tj & _). destruct (dcan_read_mb_ok t j s r id out s' ltac:(lia) E) as (_ & _ & _ & _ & _ & _ & [(K & _)|(_ & -> & _)]).
  - unfold nd, d_ndat in Tj. rewrite Z.land_spec, collect_bit in Tj by lia. apply andb_true_iff in Tj as [Tj _]. apply andb_true_iff in Tj as [_ Tj]. congruence.
  - apply Z.land_nonneg. right. lia.
Qed.
