(** CanProofs4.v - proofs for PropCan.v: DCAN. *)
From Verif Require Import Base CanModel CanSpec CanProofs CanProofs2 CanProofs3.

(** Bit maps *)
Lemma collect_range g : forall n, 0 <= collect g n < 2 ^ Z.of_nat n.
Proof.
  induction n as [|n IH]; [cbn; lia|]. cbn [collect]. replace (2 ^ Z.of_nat (S n)) with (2 * 2 ^ Z.of_nat n) by (rewrite Nat2Z.inj_succ, Z.pow_succ_r by lia; reflexivity). destruct (g (Z.of_nat n)); lia.
Qed.
Lemma collect_bit g : forall n i, 0 <= i -> Z.testbit (collect g n) i = (i <? Z.of_nat n) && g i.
Proof.
  induction n as [|n IH]; intros i Hi; [cbn [collect]; rewrite Z.bits_0; replace (i <? Z.of_nat 0) with false by (symmetry; apply Z.ltb_ge; lia); reflexivity|].
  cbn [collect]. pose proof (collect_range g n) as R. assert (L : (if g (Z.of_nat n) then 2 ^ Z.of_nat n else 0) + collect g n = Z.lor (collect g n) (Z.shiftl (if g (Z.of_nat n) then 1 else 0) (Z.of_nat n))).
  { rewrite lor_add by lia. destruct (g (Z.of_nat n)); lia. }
  rewrite L, Z.lor_spec, IH, Z.shiftl_spec by lia. destruct (Z.lt_trichotomy i (Z.of_nat n)) as [H|[->|H]].
  - rewrite Z.testbit_neg_r by lia. replace (i <? Z.of_nat n) with true by (symmetry; apply Z.ltb_lt; lia). replace (i <? Z.of_nat (S n)) with true by (symmetry; apply Z.ltb_lt; lia). rewrite orb_false_r. reflexivity.
  - rewrite Z.sub_diag. replace (Z.of_nat n <? Z.of_nat n) with false by (symmetry; apply Z.ltb_ge; lia). replace (Z.of_nat n <? Z.of_nat (S n)) with true by (symmetry; apply Z.ltb_lt; lia). destruct (g (Z.of_nat n)); reflexivity.
  - replace (i <? Z.of_nat n) with false by (symmetry; apply Z.ltb_ge; lia). replace (i <? Z.of_nat (S n)) with false by (symmetry; apply Z.ltb_ge; lia). cbn [andb orb].
    destruct (g (Z.of_nat n)); [|apply Z.bits_0]. replace 1 with (2 ^ 0) by reflexivity. rewrite Z.pow2_bits_false by lia. reflexivity.
Qed.
(** Commands *)
Lemma cmd_field c i : Z.land c 255 = 0 -> 0 <= i < 256 -> field (Z.lor c i) 0 8 = i.
Proof.
  intros Hc Hi. unfold field. rewrite Z.shiftr_0_r. change (Z.ones 8) with 255. rewrite Z.land_lor_distr_l, Hc, Z.lor_0_l. change 255 with (Z.ones 8). apply land_small_ones; [lia|exact Hi].
Qed.
Lemma cmd_bit c i b : 0 <= i < 256 -> 8 <= b -> Z.testbit (Z.lor c i) b = Z.testbit c b.
Proof.
  intros Hi Hb. rewrite Z.lor_spec. replace i with (i mod 2 ^ 8) by (apply Z.mod_small; exact Hi). rewrite Z.mod_pow2_bits_high by lia. apply orb_false_r.
Qed.
Lemma dmo_eta o : mkDmo (o_arb o) (o_msk o) (o_mctl o) (o_da o) (o_db o) = o. Proof. destruct o; reflexivity. Qed.
Lemma if_cmd_to c i r obj : Z.land c 255 = 0 -> 0 <= i < 256 -> Z.testbit c 23 = true ->
  if_cmd (Z.lor c i) r obj = (r, upd obj i (mkDmo (if Z.testbit c 21 then o_arb r else o_arb (obj i)) (if Z.testbit c 22 then o_msk r else o_msk (obj i)) (if Z.testbit c 20 then o_mctl r else o_mctl (obj i))
     (if Z.testbit c 17 then o_da r else o_da (obj i)) (if Z.testbit c 16 then o_db r else o_db (obj i)))).
Proof. intros Hc Hi H. unfold if_cmd. cbv zeta. rewrite cmd_field by assumption. rewrite !cmd_bit by lia. rewrite H. reflexivity. Qed.
Lemma if_cmd_from c i r obj : Z.land c 255 = 0 -> 0 <= i < 256 -> Z.testbit c 23 = false ->
  if_cmd (Z.lor c i) r obj = (mkDmo (if Z.testbit c 21 then o_arb (obj i) else o_arb r) (if Z.testbit c 22 then o_msk (obj i) else o_msk r) (if Z.testbit c 20 then o_mctl (obj i) else o_mctl r)
     (if Z.testbit c 17 then o_da (obj i) else o_da r) (if Z.testbit c 16 then o_db (obj i) else o_db r),
     upd obj i (mkDmo (o_arb (obj i)) (o_msk (obj i)) (if Z.testbit c 18 then Z.ldiff (o_mctl (obj i)) (2 ^ 15) else o_mctl (obj i)) (o_da (obj i)) (o_db (obj i)))).
Proof. intros Hc Hi H. unfold if_cmd. cbv zeta. rewrite cmd_field by assumption. rewrite !cmd_bit by lia. rewrite H. reflexivity. Qed.
Lemma upd_same (obj : Z -> dmo) i j : upd obj i (mkDmo (o_arb (obj i)) (o_msk (obj i)) (o_mctl (obj i)) (o_da (obj i)) (o_db (obj i))) j = obj j.
Proof. unfold upd. destruct (Z.eqb_spec j i) as [->|N]; [apply dmo_eta|reflexivity]. Qed.

(** Write *)
Definition dw_arb (id : Z) : Z := Z.lor (Z.lor (Z.shiftl id 18) (2 ^ 31)) (2 ^ 29).
Definition dw_mctl (n : Z) : Z := Z.lor n (Z.lor (2 ^ 7) (2 ^ 8)).
Lemma dcan_write_ok t id buf n s r s' : t_int t = 32 -> dcan_write t id buf n s = CRet r s' ->
  d_rxc s' = d_rxc s /\ d_txc s' = d_txc s /\ d_rxi s' = d_rxi s /\ d_if2 s' = d_if2 s /\ (d_txi s' = d_txi s \/ d_txc s <> 0 /\ d_txi s' = u32 (d_txi s + 1) mod d_txc s) /\
  ((r < 0 /\ forall j, d_obj s' j = d_obj s j) \/
   (r = n /\ 0 < n <= 8 /\ id < 2048 /\ exists k, k = u32 (d_rxc s + d_txi s) + 1 /\ 1 <= k <= 32 /\ Z.testbit (o_mctl (d_obj s k)) 8 = false /\ (forall j, j <> k -> d_obj s' j = d_obj s j) /\
    (let (a, b) := pack_le buf n in d_obj s' k = mkDmo (dw_arb id) (o_msk (d_obj s k)) (dw_mctl n) a (if 4 <? n then b else o_db (d_obj s k))))).
Proof.
  intros Ht E. unfold dcan_write in E. destruct (id <? 2048) eqn:E1; cbn [negb] in E; [|injection E as <- <-; unfold C_EINVAL; split_and!; try reflexivity; [left; reflexivity|left; split; [lia|reflexivity]]].
  destruct (0 <? n) eqn:E2; cbn [negb] in E; [|injection E as <- <-; unfold C_EINVAL; split_and!; try reflexivity; [left; reflexivity|left; split; [lia|reflexivity]]].
  destruct (n <=? 8) eqn:E3; cbn [negb] in E; [|injection E as <- <-; unfold C_EINVAL; split_and!; try reflexivity; [left; reflexivity|left; split; [lia|reflexivity]]].
  cbv zeta in E. rewrite Ht in E. set (i := u32 (d_rxc s + d_txi s)) in *. assert (Hi0 : 0 <= i) by (apply Z.mod_pos_bound; lia).
  destruct (i <? 32) eqn:E4; cbn [negb] in E; [|discriminate E]. rewrite land_pow_testbit in E by exact Hi0. rewrite negb_involutive in E. unfold d_txrq in E. rewrite collect_bit in E by exact Hi0.
  change (Z.of_nat 32) with 32 in E. rewrite E4 in E. cbn [andb] in E. destruct (Z.testbit (o_mctl (d_obj s (i + 1))) 8) eqn:E5; [injection E as <- <-; unfold C_EAGAIN; split_and!; try reflexivity; [left; reflexivity|left; split; [lia|reflexivity]]|].
  destruct (d_txc s =? 0) eqn:E6; [discriminate E|]. apply Z.eqb_neq in E6. cbn [negb] in E. unfold d_cmd1, d_set_txi in E. cbn [d_btr d_obj d_if1 d_if2 d_rxi d_rxc d_txi d_txc] in E.
  rewrite (if_cmd_from (2 ^ 20) (i + 1)) in E by (reflexivity || lia). cbv iota zeta in E. cbn [d_btr d_obj d_if1 d_if2 d_rxi d_rxc d_txi d_txc o_mctl o_msk o_arb o_da o_db] in E.
  change (Z.testbit (2 ^ 20) 20) with true in E. change (Z.testbit (2 ^ 20) 22) with false in E. change (Z.testbit (2 ^ 20) 16) with false in E. change (Z.testbit (2 ^ 20) 18) with false in E. cbv iota in E.
  rewrite land_pow_testbit, E5 in E by lia. cbn [negb] in E. destruct (pack_le buf n) as [a b] eqn:P.
  set (c := Z.lor (if 4 <? n then Z.lor (2 ^ 16) (2 ^ 17) else 2 ^ 17) (Z.lor (Z.lor (2 ^ 23) (2 ^ 21)) (2 ^ 20))) in E.
  assert (C : Z.land c 255 = 0 /\ Z.testbit c 23 = true /\ Z.testbit c 21 = true /\ Z.testbit c 22 = false /\ Z.testbit c 20 = true /\ Z.testbit c 17 = true /\ Z.testbit c 16 = (4 <? n)).
  { unfold c. destruct (4 <? n); repeat split; reflexivity. }
  destruct C as (C0 & C23 & C21 & C22 & C20 & C17 & C16). rewrite if_cmd_to in E by (assumption || lia). rewrite C21, C22, C20, C17, C16 in E. cbv iota in E. cbn [o_mctl o_msk o_arb o_da o_db] in E. injection E as <- <-.
  cbn [d_btr d_obj d_if1 d_if2 d_rxi d_rxc d_txi d_txc]. split_and!; try reflexivity; [right; split; [exact E6|reflexivity]|]. right. split; [reflexivity|]. split; [lia|]. split; [lia|]. exists (i + 1). split; [reflexivity|]. split; [lia|]. split; [exact E5|]. split.
  - intros j Hj. rewrite upd_ne by exact Hj. apply upd_same.
  - rewrite upd_eq. rewrite upd_same. unfold dw_arb, dw_mctl. destruct (4 <? n); reflexivity.
Qed.
Lemma dw_arb_fields id : 0 <= id < 2048 -> field (dw_arb id) 18 11 = id /\ Z.testbit (dw_arb id) 29 = true /\ Z.testbit (dw_arb id) 30 = false /\ Z.testbit (dw_arb id) 31 = true.
Proof.
  intros H. unfold dw_arb. assert (S : forall b, 29 <= b -> Z.testbit (Z.shiftl id 18) b = false).
  { intros b Hb. rewrite Z.shiftl_spec by lia. replace id with (id mod 2 ^ 11) by (apply Z.mod_small; lia). apply Z.mod_pow2_bits_high. lia. }
  split.
  - unfold field. apply Z.bits_inj'. intros i Hi. rewrite Z.land_spec, Z.shiftr_spec, !Z.lor_spec, Z.shiftl_spec by lia. replace (i + 18 - 18) with i by lia. destruct (Z.lt_ge_cases i 11) as [L|L].
    + rewrite Z.ones_spec_low, !Z.pow2_bits_false by lia. rewrite !orb_false_r, andb_true_r. reflexivity.
    + rewrite Z.ones_spec_high by lia. rewrite andb_false_r. replace id with (id mod 2 ^ 11) by (apply Z.mod_small; lia). rewrite Z.mod_pow2_bits_high by lia. reflexivity.
  - rewrite !Z.lor_spec, !S by lia. repeat split; reflexivity.
Qed.
Lemma dw_mctl_fields n : 0 < n <= 8 -> field (dw_mctl n) 0 4 = n /\ Z.testbit (dw_mctl n) 8 = true.
Proof. intros H. destruct (n_cases n H) as [->|[->|[->|[->|[->|[->|[->| ->]]]]]]]; split; reflexivity. Qed.
Lemma le_short n a b b' : 0 < n <= 4 -> firstn (Z.to_nat n) (bytes_le a b) = firstn (Z.to_nat n) (bytes_le a b').
Proof. intros H. assert (C : n = 1 \/ n = 2 \/ n = 3 \/ n = 4) by lia. destruct C as [->|[->|[->| ->]]]; reflexivity. Qed.
Lemma dcan_write_frame t id buf n s s' : t_int t = 32 -> args_ok id buf n -> 0 < n -> dcan_write t id buf n s = CRet n s' -> exists k, 1 <= k <= 32 /\
  dcan_is_tx (d_obj s' k) = true /\ dcan_sends (d_obj s' k) = frame_of id buf n /\ (forall j, j <> k -> d_obj s' j = d_obj s j) /\ dcan_is_tx (d_obj s k) = false.
Proof.
  intros Ht (Hi & Hb & Hl) Hn E. destruct (dcan_write_ok _ _ _ _ _ _ _ Ht E) as (_ & _ & _ & _ & _ & [(K & _)|(_ & H8 & Hid & k & _ & Hk & Q & O & M)]); [lia|]. exists k. split; [exact Hk|].
  destruct (pack_le buf n) as [a b] eqn:P. destruct (dw_arb_fields id ltac:(lia)) as (A1 & A2 & A3 & A4). destruct (dw_mctl_fields n H8) as (B1 & B2). rewrite M. split; [|split; [|split; [exact O|]]].
  - unfold dcan_is_tx. cbn [o_arb o_mctl]. rewrite A2, A4, B2. reflexivity.
  - unfold dcan_sends. cbn [o_arb o_mctl o_da o_db]. rewrite A3, A1, B1. cbv zeta. assert (D : firstn (Z.to_nat n) (bytes_le a (if 4 <? n then b else o_db (d_obj s k))) = firstn (Z.to_nat n) (bytes_le a b)).
    { destruct (Z.ltb_spec 4 n) as [L|L]; [reflexivity|apply le_short; lia]. }
    rewrite D, (le_bytes buf n a b Hb P), sels_firstn by lia. unfold frame_of. replace (2048 <=? id) with false by (symmetry; apply Z.leb_gt; lia). reflexivity.
  - unfold dcan_is_tx. rewrite Q. apply andb_false_r.
Qed.
(** Read *)
Lemma dcan_filled_fields f o : frame_ok f -> let b := dcan_filled f o in
  o_arb b = 2 ^ 31 + (if fr_ext f then 2 ^ 30 + fr_id f else fr_id f * 2 ^ 18) /\ Z.land (o_mctl b) 15 = fr_len f /\ Z.testbit (o_mctl b) 15 = true /\ Z.testbit (o_mctl b) 12 = Z.testbit (o_mctl o) 12 /\
  Z.testbit (o_mctl b) 8 = false /\ bytes_le (o_da b) (o_db b) = fr_data f ++ repeat 0 (8 - length (fr_data f)) /\ pack_le (fr_data f) (fr_len f) = (o_da b, o_db b).
Proof.
  intros H. cbv zeta. unfold dcan_filled. destruct (pack_le (fr_data f) (fr_len f)) as [l h] eqn:P. cbn [o_arb o_mctl o_da o_db]. split; [reflexivity|].
  assert (U : Z.land (o_mctl o) (2 ^ 12) = if Z.testbit (o_mctl o) 12 then 2 ^ 12 else 0).
  { apply Z.bits_inj'. intros i Hi. rewrite Z.land_spec. destruct (Z.eq_dec i 12) as [->|N]; [rewrite Z.pow2_bits_true by lia; destruct (Z.testbit (o_mctl o) 12); reflexivity|].
    rewrite Z.pow2_bits_false by lia. rewrite andb_false_r. destruct (Z.testbit (o_mctl o) 12); [rewrite Z.pow2_bits_false by lia; reflexivity|symmetry; apply Z.bits_0]. }
  assert (B : Z.land (2 ^ 15 + Z.land (o_mctl o) (2 ^ 12) + fr_len f) 15 = fr_len f /\ Z.testbit (2 ^ 15 + Z.land (o_mctl o) (2 ^ 12) + fr_len f) 15 = true /\ Z.testbit (2 ^ 15 + Z.land (o_mctl o) (2 ^ 12) + fr_len f) 12 = Z.testbit (o_mctl o) 12 /\
    Z.testbit (2 ^ 15 + Z.land (o_mctl o) (2 ^ 12) + fr_len f) 8 = false).
  { rewrite U. destruct (Z.testbit (o_mctl o) 12); destruct (len_cases _ (len_range f H)) as [->|[->|[->|[->|[->|[->|[->|[->| ->]]]]]]]]; repeat split; reflexivity. }
  destruct B as (B1 & B2 & B3 & B4). split; [exact B1|]. split; [exact B2|]. split; [exact B3|]. split; [exact B4|]. split; [|reflexivity]. destruct H as (_ & Hb & Hl). rewrite (le_bytes _ _ _ _ Hb P). apply sels_all. exact Hl.
Qed.
Lemma dcan_bytes8 t a b : t_char t = 8 -> dcan_bytes t a b = bytes_le a b.
Proof.
  intros H. unfold dcan_bytes. cbv zeta. rewrite H. change (2 ^ 8) with 256. unfold bytes_le, u8. rewrite !Z.shiftr_0_r. change 255 with (Z.ones 8). rewrite !Z.land_ones by lia. reflexivity.
Qed.
(** What a read does to the state *)
Lemma dcan_read_mb_ok t i s r id out s' : 0 <= i < 255 -> dcan_read_mb t i s = RRet r id out s' ->
  d_rxc s' = d_rxc s /\ d_txc s' = d_txc s /\ d_rxi s' = d_rxi s /\ d_txi s' = d_txi s /\ o_arb (d_if2 s') = o_arb (d_if2 s) /\ (forall j, j <> i + 1 -> d_obj s' j = d_obj s j) /\
  (Z.testbit (o_mctl (d_obj s (i + 1))) 15 = false /\ r = - C_EAGAIN /\ (forall j, d_obj s' j = d_obj s j) \/
   Z.testbit (o_mctl (d_obj s (i + 1))) 15 = true /\ r = Z.land (o_mctl (d_obj s (i + 1))) 15 /\ id = Some (Z.shiftr (Z.land (o_arb (d_if2 s)) 536870911) 18) /\
     d_obj s' (i + 1) = mkDmo (o_arb (d_obj s (i + 1))) (o_msk (d_obj s (i + 1))) (Z.ldiff (o_mctl (d_obj s (i + 1))) (2 ^ 15)) (o_da (d_obj s (i + 1))) (o_db (d_obj s (i + 1))) /\
     out = (if (i <? d_rxc s) && (0 <? r) && (r <=? 8) then firstn (Z.to_nat r) (dcan_bytes t (o_da (d_obj s (i + 1))) (if 3 <? r then o_db (d_obj s (i + 1)) else o_db (d_if2 s))) else [])).
Proof.
  intros Hi E. unfold dcan_read_mb in E.
  assert (S1 : d_cmd2 s (d_if2 s) (Z.lor (2 ^ 20) (i + 1)) = let o := d_obj s (i + 1) in mkDcan (d_btr s) (upd (d_obj s) (i + 1) (mkDmo (o_arb o) (o_msk o) (o_mctl o) (o_da o) (o_db o))) (d_if1 s)
    (mkDmo (o_arb (d_if2 s)) (o_msk (d_if2 s)) (o_mctl o) (o_da (d_if2 s)) (o_db (d_if2 s))) (d_rxi s) (d_rxc s) (d_txi s) (d_txc s)).
  { unfold d_cmd2. rewrite (if_cmd_from (2 ^ 20) (i + 1)) by (reflexivity || lia). reflexivity. }
  rewrite S1 in E. clear S1. cbv zeta in E.
  set (O1 := upd (d_obj s) (i + 1) _) in E. assert (HO1 : forall j, O1 j = d_obj s j) by (intros j; apply upd_same). set (o := d_obj s (i + 1)) in *.
  cbn [d_btr d_obj d_if1 d_if2 d_rxi d_rxc d_txi d_txc o_mctl o_msk o_arb o_da o_db] in E. rewrite land_pow_testbit in E by lia.
  destruct (Z.testbit (o_mctl o) 15) eqn:B15; cbn [negb] in E.
  2:{ injection E as <- _ _ <-. cbn [d_btr d_obj d_if1 d_if2 d_rxi d_rxc d_txi d_txc o_arb]. do 5 (split; [reflexivity|]). split; [intros j _; apply HO1|left; split; [reflexivity|]; split; [reflexivity|exact HO1]]. }
  set (copy := (i <? d_rxc s) && (0 <? Z.land (o_mctl o) 15) && (Z.land (o_mctl o) 15 <=? 8)) in E. set (dlc := Z.land (o_mctl o) 15) in *.
  unfold d_cmd2 in E. cbn [d_btr d_obj d_if1 d_if2 d_rxi d_rxc d_txi d_txc o_mctl o_msk o_arb o_da o_db] in E.
  destruct copy eqn:Cp.
  - set (c := if 3 <? dlc then Z.lor (2 ^ 17) (2 ^ 16) else 2 ^ 17) in E.
    assert (C : Z.land c 255 = 0 /\ Z.testbit c 23 = false /\ Z.testbit c 21 = false /\ Z.testbit c 22 = false /\ Z.testbit c 20 = false /\ Z.testbit c 17 = true /\ Z.testbit c 16 = (3 <? dlc) /\ Z.testbit c 18 = false).
    { unfold c. destruct (3 <? dlc); repeat split; reflexivity. }
    destruct C as (C0 & C23 & C21 & C22 & C20 & C17 & C16 & C18). rewrite (if_cmd_from c (i + 1)) in E by (assumption || lia). rewrite C21, C22, C20, C17, C16, C18 in E. cbv iota in E.
    cbn [d_btr d_obj d_if1 d_if2 d_rxi d_rxc d_txi d_txc o_mctl o_msk o_arb o_da o_db] in E. rewrite (if_cmd_from (2 ^ 18) (i + 1)) in E by (reflexivity || lia).
    change (Z.testbit (2 ^ 18) 18) with true in E. change (Z.testbit (2 ^ 18) 21) with false in E. cbv iota in E. cbn [o_mctl o_msk o_arb o_da o_db] in E.
    set (O2 := upd O1 (i + 1) _) in E. assert (HO2 : forall j, O2 j = d_obj s j) by (intros j; unfold O2; rewrite upd_same; apply HO1).
    injection E as <- <- <- <-. cbn [d_btr d_obj d_if1 d_if2 d_rxi d_rxc d_txi d_txc o_arb]. do 5 (split; [reflexivity|]). split.
    + intros j Hj. rewrite upd_ne by exact Hj. apply HO2.
    + right. split; [reflexivity|]. split; [reflexivity|]. split; [reflexivity|]. split; [rewrite upd_eq, HO2; reflexivity|]. fold copy. rewrite Cp, HO1. reflexivity.
  - rewrite (if_cmd_from (2 ^ 18) (i + 1)) in E by (reflexivity || lia). change (Z.testbit (2 ^ 18) 18) with true in E. change (Z.testbit (2 ^ 18) 21) with false in E. cbv iota in E. cbn [o_mctl o_msk o_arb o_da o_db] in E.
    injection E as <- <- <- <-. cbn [d_btr d_obj d_if1 d_if2 d_rxi d_rxc d_txi d_txc o_arb]. do 5 (split; [reflexivity|]). split.
    + intros j Hj. rewrite upd_ne by exact Hj. apply HO1.
    + right. split; [reflexivity|]. split; [reflexivity|]. split; [reflexivity|]. split; [rewrite upd_eq, HO1; reflexivity|]. fold copy. rewrite Cp. reflexivity.
Qed.
