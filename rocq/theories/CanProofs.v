(** CanProofs.v - proofs for PropCan.v. *)
From Verif Require Import Base CanModel CanSpec.

(** * Bits *)
Lemma lor_add a b k : 0 <= k -> 0 <= a < 2 ^ k -> Z.lor a (Z.shiftl b k) = a + b * 2 ^ k.
Proof.
  intros Hk Ha. rewrite Z.shiftl_mul_pow2 by lia. symmetry. rewrite Z.add_nocarry_lxor.
  - rewrite Z.lxor_lor; [reflexivity|]. apply Z.bits_inj'. intros i Hi. rewrite Z.land_spec, Z.bits_0. destruct (Z.lt_ge_cases i k) as [L|L].
    + rewrite (Z.mul_pow2_bits_low b k i) by lia. apply andb_false_r.
    + replace a with (a mod 2 ^ k) by (apply Z.mod_small; lia). rewrite Z.mod_pow2_bits_high by lia. reflexivity.
  - apply Z.bits_inj'. intros i Hi. rewrite Z.land_spec, Z.bits_0. destruct (Z.lt_ge_cases i k) as [L|L].
    + rewrite (Z.mul_pow2_bits_low b k i) by lia. apply andb_false_r.
    + replace a with (a mod 2 ^ k) by (apply Z.mod_small; lia). rewrite Z.mod_pow2_bits_high by lia. reflexivity.
Qed.
Lemma field_arith x lo n : 0 <= lo -> 0 <= n -> field x lo n = (x / 2 ^ lo) mod 2 ^ n.
Proof. intros. unfold field. rewrite Z.land_ones by lia. rewrite Z.shiftr_div_pow2 by lia. reflexivity. Qed.
Lemma land_small_ones x n : 0 <= n -> 0 <= x < 2 ^ n -> Z.land x (Z.ones n) = x.
Proof. intros. rewrite Z.land_ones by lia. apply Z.mod_small. lia. Qed.
Lemma word_be_arith b0 b1 b2 b3 : 0 <= b0 < 256 -> 0 <= b1 < 256 -> 0 <= b2 < 256 -> 0 <= b3 < 256 ->
  word_be b0 b1 b2 b3 = b3 + b2 * 2 ^ 8 + b1 * 2 ^ 16 + b0 * 2 ^ 24.
Proof.
  intros. unfold word_be. rewrite Z.shiftl_0_r. rewrite (lor_add b3 b2 8) by lia. rewrite (lor_add _ b1 16) by lia. rewrite (lor_add _ b0 24) by lia. reflexivity.
Qed.
Lemma word_bytes b0 b1 b2 b3 : 0 <= b0 < 256 -> 0 <= b1 < 256 -> 0 <= b2 < 256 -> 0 <= b3 < 256 ->
  let w := word_be b0 b1 b2 b3 in
  u8 (Z.shiftr w 24) = b0 /\ u8 (Z.shiftr w 16) = b1 /\ u8 (Z.shiftr w 8) = b2 /\ u8 (Z.shiftr w 0) = b3 /\ 0 <= w < 2 ^ 32.
Proof.
  intros H0 H1 H2 H3 w. unfold w. rewrite word_be_arith by lia. unfold u8. rewrite !Z.shiftr_div_pow2 by lia.
  change (2 ^ 24) with 16777216. change (2 ^ 16) with 65536. change (2 ^ 8) with 256. change (2 ^ 0) with 1. change (2 ^ 32) with 4294967296. rewrite Z.div_1_r.
  repeat split; try lia; Z.to_euclidean_division_equations; lia.
Qed.
Lemma byte_range buf i : is_bytes buf -> 0 <= byte buf i < 256.
Proof.
  intros H. unfold byte. destruct (Nat.lt_ge_cases i (length buf)) as [L|L].
  - unfold is_bytes in H. rewrite List.Forall_forall in H. apply H. apply nth_In. exact L.
  - rewrite nth_overflow by exact L. lia.
Qed.
Lemma sel_range buf n i : is_bytes buf -> 0 <= sel buf n i < 256.
Proof. intros H. unfold sel. destruct (Z.of_nat i <? n); [apply byte_range; exact H|lia]. Qed.
Definition sels (buf : list Z) (n : Z) : list Z := [sel buf n 0; sel buf n 1; sel buf n 2; sel buf n 3; sel buf n 4; sel buf n 5; sel buf n 6; sel buf n 7].
Lemma be_bytes buf n l h : is_bytes buf -> pack_be buf n = (l, h) -> bytes_be l h = sels buf n.
Proof.
  intros H E. unfold pack_be in E. injection E as <- <-. pose proof (sel_range buf n) as R.
  pose proof (word_bytes _ _ _ _ (R 0%nat H) (R 1%nat H) (R 2%nat H) (R 3%nat H)) as (A0 & A1 & A2 & A3 & _).
  pose proof (word_bytes _ _ _ _ (R 4%nat H) (R 5%nat H) (R 6%nat H) (R 7%nat H)) as (B0 & B1 & B2 & B3 & _).
  cbv zeta in *. unfold bytes_be, sels. rewrite A0, A1, A2, A3, B0, B1, B2, B3. reflexivity.
Qed.
Lemma le_words buf n l h : is_bytes buf -> pack_le buf n = (l, h) ->
  l = word_be (sel buf n 3) (sel buf n 2) (sel buf n 1) (sel buf n 0) /\ h = word_be (sel buf n 7) (sel buf n 6) (sel buf n 5) (sel buf n 4).
Proof.
  intros H E. unfold pack_le in E. injection E as <- <-. pose proof (sel_range buf n) as R.
  pose proof (word_bytes _ _ _ _ (R 3%nat H) (R 2%nat H) (R 1%nat H) (R 0%nat H)) as (_ & _ & _ & _ & A).
  pose proof (word_bytes _ _ _ _ (R 7%nat H) (R 6%nat H) (R 5%nat H) (R 4%nat H)) as (_ & _ & _ & _ & B).
  cbv zeta in A, B. unfold u32. change 4294967296 with (2 ^ 32). rewrite !Z.mod_small by assumption. split; reflexivity.
Qed.
Lemma le_bytes buf n l h : is_bytes buf -> pack_le buf n = (l, h) -> bytes_le l h = sels buf n.
Proof.
  intros H E. destruct (le_words _ _ _ _ H E) as [-> ->]. pose proof (sel_range buf n) as R.
  pose proof (word_bytes _ _ _ _ (R 3%nat H) (R 2%nat H) (R 1%nat H) (R 0%nat H)) as (A3 & A2 & A1 & A0 & _).
  pose proof (word_bytes _ _ _ _ (R 7%nat H) (R 6%nat H) (R 5%nat H) (R 4%nat H)) as (B3 & B2 & B1 & B0 & _).
  cbv zeta in *. unfold bytes_le, sels. rewrite A0, A1, A2, A3, B0, B1, B2, B3. reflexivity.
Qed.
Lemma sels_length buf n : length (sels buf n) = 8%nat. Proof. reflexivity. Qed.
(** The first n bytes are those of the buffer. *)
Lemma sels_nth buf n i d : (i < 8)%nat -> nth i (sels buf n) d = sel buf n i.
Proof. intros H. do 8 (destruct i as [|i]; [reflexivity|]). lia. Qed.
Lemma nth_firstn_lt {A} (l : list A) d : forall i n, (i < n)%nat -> nth i (firstn n l) d = nth i l d.
Proof. induction l as [|x l IH]; intros [|i] [|n] H; try lia; cbn; try reflexivity. apply IH. lia. Qed.
Lemma sels_firstn buf n m : 0 <= m <= 8 -> (m <= n -> m <= Z.of_nat (length buf) -> firstn (Z.to_nat m) (sels buf n) = firstn (Z.to_nat m) buf).
Proof.
  intros Hm Hn Hl. apply (nth_ext _ _ 0 0).
  - rewrite !firstn_length, sels_length. lia.
  - intros i Hi. rewrite firstn_length, sels_length in Hi. rewrite !nth_firstn_lt by lia. rewrite sels_nth by lia.
    unfold sel, byte. replace (Z.of_nat i <? n) with true by (symmetry; apply Z.ltb_lt; lia). reflexivity.
Qed.
(** All of them: the frame's data, then zeros. *)
Lemma sels_all buf : (length buf <= 8)%nat -> sels buf (Z.of_nat (length buf)) = buf ++ repeat 0 (8 - length buf).
Proof.
  intros H. do 9 (destruct buf as [|? buf]; [reflexivity|]). cbn in H. lia.
Qed.

(** * SAM3X *)
Lemma upd_eq {A} (m : Z -> A) k v : upd m k v k = v. Proof. unfold upd. rewrite Z.eqb_refl. reflexivity. Qed.
Lemma upd_ne {A} (m : Z -> A) k v j : j <> k -> upd m k v j = m j. Proof. intros H. unfold upd. apply Z.eqb_neq in H. rewrite H. reflexivity. Qed.
Lemma mot_set x v : 0 <= v < 8 -> field (Z.lor (clr_mot x) (MOT v)) 24 3 = v.
Proof.
  intros H. unfold field, clr_mot, MOT. apply Z.bits_inj'. intros i Hi. rewrite Z.land_spec, Z.shiftr_spec, Z.lor_spec, Z.land_spec, Z.lnot_spec by lia.
  rewrite !Z.shiftl_spec by lia. replace (i + 24 - 24) with i by lia. rewrite !Z.land_spec. change 7 with (Z.ones 3).
  destruct (Z.lt_ge_cases i 3) as [L|L].
  - rewrite Z.ones_spec_low by lia. cbn [andb negb]. rewrite !andb_true_r, andb_false_r. reflexivity.
  - rewrite Z.ones_spec_high by lia. rewrite !andb_false_r. replace v with (v mod 2 ^ 3) by (apply Z.mod_small; lia). rewrite Z.mod_pow2_bits_high by lia. reflexivity.
Qed.
Lemma mot_only v : 0 <= v < 8 -> field (MOT v) 24 3 = v.
Proof. intros H. assert (C : v = 0 \/ v = 1 \/ v = 2 \/ v = 3 \/ v = 4 \/ v = 5 \/ v = 6 \/ v = 7) by lia. repeat (destruct C as [->|C]; [reflexivity|]). subst. reflexivity. Qed.
Lemma midva x : MIDvA x = (x mod 2048) * 2 ^ 18.
Proof. unfold MIDvA. change 2047 with (Z.ones 11). rewrite Z.land_ones, Z.shiftl_mul_pow2 by lia. reflexivity. Qed.
Lemma midva_field x : field (MIDvA x) 18 11 = x mod 2048.
Proof. rewrite midva, field_arith by lia. rewrite Z.div_mul by lia. change (2 ^ 11) with 2048. apply Z.mod_mod. lia. Qed.
Lemma midva_29 x : Z.testbit (MIDvA x) 29 = false.
Proof. rewrite midva. apply Z.testbit_false; [lia|]. pose proof (Z.mod_pos_bound x 2048 ltac:(lia)). rewrite Z.div_small; [reflexivity|lia]. Qed.
Lemma sam_mid_std id : 0 <= id < 2048 -> field (sam_mid id) 18 11 = id /\ Z.testbit (sam_mid id) 29 = false.
Proof. intros H. unfold sam_mid. replace (id <? 2048) with true by (symmetry; apply Z.ltb_lt; lia). rewrite midva_field, midva_29. split; [apply Z.mod_small; lia|reflexivity]. Qed.
Lemma land_pow_testbit x k : 0 <= k -> (Z.land x (2 ^ k) =? 0) = negb (Z.testbit x k).
Proof.
  intros H. destruct (Z.testbit x k) eqn:E; cbn [negb].
  - apply Z.eqb_neq. intros K. assert (T : Z.testbit (Z.land x (2 ^ k)) k = true) by (rewrite Z.land_spec, E, Z.pow2_bits_true by lia; reflexivity). rewrite K, Z.bits_0 in T. discriminate T.
  - apply Z.eqb_eq. apply Z.bits_inj'. intros i Hi. rewrite Z.land_spec, Z.bits_0. destruct (Z.eq_dec i k) as [->|N]; [rewrite E; reflexivity|]. rewrite Z.pow2_bits_false by lia. apply andb_false_r.
Qed.
Lemma n_cases n : 0 < n <= 8 -> n = 1 \/ n = 2 \/ n = 3 \/ n = 4 \/ n = 5 \/ n = 6 \/ n = 7 \/ n = 8. Proof. lia. Qed.
Lemma mcr_tx n : 0 < n <= 8 -> let c := Z.lor (2 ^ 23) (Z.shiftl (Z.land n 15) 16) in field c 16 4 = n /\ Z.testbit c 23 = true.
Proof. intros H. cbv zeta. destruct (n_cases n H) as [->|[->|[->|[->|[->|[->|[->| ->]]]]]]]; split; reflexivity. Qed.
Lemma ldiff_pow x k : 0 <= k -> Z.testbit (Z.ldiff x (2 ^ k)) k = false.
Proof. intros. rewrite Z.ldiff_spec, Z.pow2_bits_true by lia. apply andb_false_r. Qed.

(** What a successful write has done *)
Lemma sam_write_ok id buf n s s' : sam_write id buf n s = CRet n s' -> 0 < n -> exists k, k = u32 (s_rxc s + s_txi s) /\ 0 <= k < 8 /\ id < 536870912 /\ n <= 8 /\ s_txc s <> 0 /\
  s_txi s' = u32 (s_txi s + 1) mod s_txc s /\ s_rxc s' = s_rxc s /\ s_rxi s' = s_rxi s /\ s_txc s' = s_txc s /\
  (let (l, h) := pack_be buf n in
   s_mb s' k = mkSmb (Z.lor (clr_mot (mb_mmr (s_mb s k))) (MOT 3)) (sam_mam id 0) (sam_mid id) (Z.ldiff (mb_msr (s_mb s k)) (2 ^ 23)) l h (Z.lor (2 ^ 23) (Z.shiftl (Z.land n 15) 16))) /\
  forall j, j <> k -> s_mb s' j = s_mb s j.
Proof.
  intros E Hn. unfold sam_write in E. destruct (id <? 536870912) eqn:E1; cbn [negb] in E; [|injection E; unfold C_EINVAL; lia].
  destruct (0 <? n) eqn:E2; cbn [negb] in E; [|injection E; unfold C_EINVAL; lia]. destruct (n <=? 8) eqn:E3; cbn [negb] in E; [|injection E; unfold C_EINVAL; lia].
  cbv zeta in E. destruct (u32 (s_rxc s + s_txi s) <? 31) eqn:E4; cbn [negb] in E; [|discriminate E].
  destruct (Z.land (s_sr s) _ =? 0) eqn:E5; [injection E; unfold C_EAGAIN; lia|]. destruct (s_txc s =? 0) eqn:E6; [discriminate E|].
  destruct (u32 (s_rxc s + s_txi s) <? 8) eqn:E7; cbn [negb] in E; [|injection E; unfold C_EINVAL; lia].
  destruct (Z.land (mb_msr _) _ =? 0) eqn:E8; [injection E; unfold C_EAGAIN; lia|].
  exists (u32 (s_rxc s + s_txi s)). destruct (pack_be buf n) as [l h] eqn:P. injection E as <-.
  assert (0 <= u32 (s_rxc s + s_txi s)) by (apply Z.mod_pos_bound; lia).
  split; [reflexivity|]. split; [lia|]. split; [lia|]. split; [lia|]. split; [lia|]. do 4 (split; [reflexivity|]). split.
  - unfold sam_start, s_set_sr, s_set_mb, s_set_txi. cbn [s_mb]. rewrite !upd_eq. reflexivity.
  - intros j Hj. unfold sam_start, s_set_sr, s_set_mb, s_set_txi. cbn [s_mb]. rewrite !upd_ne by exact Hj. reflexivity.
Qed.
Lemma sam_write_ret id buf n s r s' : sam_write id buf n s = CRet r s' -> r = n /\ 0 < n \/ r < 0.
Proof.
  intros E. unfold sam_write in E. destruct (id <? 536870912) eqn:E1; cbn [negb] in E; [|injection E as <- <-; unfold C_EINVAL; lia].
  destruct (0 <? n) eqn:E2; cbn [negb] in E; [|injection E as <- <-; unfold C_EINVAL; lia]. destruct (n <=? 8) eqn:E3; cbn [negb] in E; [|injection E as <- <-; unfold C_EINVAL; lia].
  cbv zeta in E. destruct (u32 (s_rxc s + s_txi s) <? 31) eqn:E4; cbn [negb] in E; [|discriminate E].
  destruct (Z.land (s_sr s) _ =? 0) eqn:E5; [injection E as <- <-; unfold C_EAGAIN; lia|]. destruct (s_txc s =? 0) eqn:E6; [discriminate E|].
  destruct (u32 (s_rxc s + s_txi s) <? 8) eqn:E7; cbn [negb] in E; [|injection E as <- <-; unfold C_EINVAL; lia].
  destruct (Z.land (mb_msr _) _ =? 0) eqn:E8; [injection E as <- <-; unfold C_EAGAIN; lia|].
  destruct (pack_be buf n) as [l h]. injection E as <- _. left. lia.
Qed.
(** A refused one changes no mailbox and none of the counters but the rotating index *)
Lemma sam_write_err id buf n s r s' : sam_write id buf n s = CRet r s' -> r < 0 ->
  s_mb s' = s_mb s /\ s_rxc s' = s_rxc s /\ s_txc s' = s_txc s /\ s_rxi s' = s_rxi s /\ (s_txi s' = s_txi s \/ s_txc s <> 0 /\ s_txi s' = u32 (s_txi s + 1) mod s_txc s) /\ s_ovw s' = s_ovw s.
Proof.
  intros E Hr. unfold sam_write in E.
  assert (Same : s_mb s = s_mb s /\ s_rxc s = s_rxc s /\ s_txc s = s_txc s /\ s_rxi s = s_rxi s /\ (s_txi s = s_txi s \/ s_txc s <> 0 /\ s_txi s = u32 (s_txi s + 1) mod s_txc s) /\ s_ovw s = s_ovw s) by tauto.
  destruct (id <? 536870912) eqn:E1; cbn [negb] in E; [|injection E as <- <-; exact Same].
  destruct (0 <? n) eqn:E2; cbn [negb] in E; [|injection E as <- <-; exact Same]. destruct (n <=? 8) eqn:E3; cbn [negb] in E; [|injection E as <- <-; exact Same].
  cbv zeta in E. destruct (u32 (s_rxc s + s_txi s) <? 31) eqn:E4; cbn [negb] in E; [|discriminate E].
  destruct (Z.land (s_sr s) _ =? 0) eqn:E5; [injection E as <- <-; destruct (s_abort s); exact Same|]. destruct (s_txc s =? 0) eqn:E6; [discriminate E|].
  assert (Rot : s_mb (s_set_txi s (u32 (s_txi s + 1) mod s_txc s)) = s_mb s /\ s_rxc s = s_rxc s /\ s_txc s = s_txc s /\ s_rxi s = s_rxi s /\ (u32 (s_txi s + 1) mod s_txc s = s_txi s \/ s_txc s <> 0 /\ u32 (s_txi s + 1) mod s_txc s = u32 (s_txi s + 1) mod s_txc s) /\ s_ovw s = s_ovw s).
  { split; [reflexivity|]. do 3 (split; [reflexivity|]). split; [right; split; [lia|reflexivity]|reflexivity]. }
  destruct (u32 (s_rxc s + s_txi s) <? 8) eqn:E7; cbn [negb] in E; [|injection E as <- <-; exact Rot].
  destruct (Z.land (mb_msr _) _ =? 0) eqn:E8; [injection E as <- <-; exact Rot|].
  destruct (pack_be buf n) as [l h]. injection E as <- _. lia.
Qed.
Lemma sam_write_frame id buf n s s' : args_ok id buf n -> id < 2048 -> 0 < n -> sam_write id buf n s = CRet n s' -> exists k, 0 <= k < 8 /\
  sam_is_tx (s_mb s' k) = true /\ sam_sends false (s_mb s' k) = frame_of id buf n /\ forall j, j <> k -> s_mb s' j = s_mb s j.
Proof.
  intros (Hi & Hb & Hl) Hs Hn E. destruct (sam_write_ok _ _ _ _ _ E Hn) as (k & _ & Hk & _ & H8 & _ & _ & _ & _ & _ & M & O). exists k. split; [exact Hk|].
  destruct (pack_be buf n) as [l h] eqn:P. rewrite M. destruct (mcr_tx n ltac:(lia)) as [A B]. destruct (sam_mid_std id ltac:(lia)) as [C D]. cbv zeta in A, B. split; [|split; [|exact O]].
  - unfold sam_is_tx. cbn [mb_mmr mb_mcr mb_msr]. rewrite mot_set, B, ldiff_pow by lia. reflexivity.
  - unfold sam_sends. cbn [mb_mid mb_mcr mb_mdl mb_mdh]. rewrite A, D. unfold sam_bytes. rewrite (be_bytes buf n l h Hb P), C. rewrite sels_firstn by lia.
    unfold frame_of. replace (2048 <=? id) with false by (symmetry; apply Z.leb_gt; lia). reflexivity.
Qed.
(** Read *)
Lemma scan_some bits : forall i k, scan bits i = Some k -> 0 <= k < Z.of_nat i /\ Z.testbit bits k = true /\ forall j, k < j < Z.of_nat i -> Z.testbit bits j = false.
Proof.
  induction i as [|i IH]; intros k E; [discriminate E|]. cbn [scan] in E. rewrite land_pow_testbit in E by lia. rewrite negb_involutive in E. destruct (Z.testbit bits (Z.of_nat i)) eqn:T.
  - injection E as <-. split; [lia|]. split; [exact T|]. intros j Hj. lia.
  - destruct (IH k E) as (A & B & C). split; [lia|]. split; [exact B|]. intros j Hj. destruct (Z.eq_dec j (Z.of_nat i)) as [->|N]; [exact T|]. apply C. lia.
Qed.
Lemma scan_none bits : forall i k, scan bits i = None -> 0 <= k < Z.of_nat i -> Z.testbit bits k = false.
Proof.
  induction i as [|i IH]; intros k E Hk; [lia|]. cbn [scan] in E. rewrite land_pow_testbit in E by lia. rewrite negb_involutive in E. destruct (Z.testbit bits (Z.of_nat i)) eqn:T; [discriminate E|].
  destruct (Z.eq_dec k (Z.of_nat i)) as [->|N]; [exact T|]. apply IH; [exact E|lia].
Qed.
Lemma len_range f : frame_ok f -> 0 <= fr_len f <= 8. Proof. intros (_ & _ & H). unfold fr_len. lia. Qed.
Lemma len_cases n : 0 <= n <= 8 -> n = 0 \/ n = 1 \/ n = 2 \/ n = 3 \/ n = 4 \/ n = 5 \/ n = 6 \/ n = 7 \/ n = 8. Proof. lia. Qed.
Lemma msr_rx n : 0 <= n <= 8 -> let v := 2 ^ 23 + Z.shiftl n 16 in Z.testbit v 23 = true /\ Z.land (Z.shiftr v 16) 15 = n.
Proof. intros H. cbv zeta. destruct (len_cases n H) as [->|[->|[->|[->|[->|[->|[->|[->| ->]]]]]]]]; split; reflexivity. Qed.
Lemma bit_add k id : 0 <= id < 2 ^ k -> 0 <= k -> Z.testbit (2 ^ k + id) k = true /\ Z.ldiff (2 ^ k + id) (2 ^ k) = id /\ (forall j, k < j -> Z.testbit (2 ^ k + id) j = false).
Proof.
  intros H Hk. assert (E : 2 ^ k + id = Z.lor id (Z.shiftl 1 k)) by (rewrite lor_add by lia; lia). rewrite E. rewrite Z.shiftl_1_l.
  assert (B : forall j, k <= j -> Z.testbit id j = false). { intros j Hj. replace id with (id mod 2 ^ k) by (apply Z.mod_small; lia). apply Z.mod_pow2_bits_high. lia. }
  split; [|split].
  - rewrite Z.lor_spec, Z.pow2_bits_true by lia. apply orb_true_r.
  - apply Z.bits_inj'. intros i Hi. rewrite Z.ldiff_spec, Z.lor_spec. destruct (Z.eq_dec i k) as [->|N].
    + rewrite Z.pow2_bits_true by lia. rewrite B by lia. reflexivity.
    + rewrite Z.pow2_bits_false by lia. cbn [negb]. rewrite orb_false_r, andb_true_r. reflexivity.
  - intros j Hj. rewrite Z.lor_spec, Z.pow2_bits_false by lia. rewrite B by lia. reflexivity.
Qed.
Lemma std_shift id : 0 <= id < 2048 -> Z.shiftr (id * 2 ^ 18) 18 = id /\ field (id * 2 ^ 18) 18 11 = id /\ (forall j, 29 <= j -> Z.testbit (id * 2 ^ 18) j = false).
Proof.
  intros H. split; [|split].
  - rewrite Z.shiftr_div_pow2 by lia. apply Z.div_mul. lia.
  - rewrite field_arith by lia. rewrite Z.div_mul by lia. apply Z.mod_small. lia.
  - intros j Hj. replace (id * 2 ^ 18) with ((id * 2 ^ 18) mod 2 ^ 29) by (apply Z.mod_small; lia). apply Z.mod_pow2_bits_high. lia.
Qed.
Lemma sam_mid_read f : frame_ok f -> sam_read_mid (sam_mid_of f) = fr_id f.
Proof.
  intros (H & _). unfold sam_read_mid, sam_mid_of. rewrite land_pow_testbit by lia. rewrite negb_involutive. destruct (fr_ext f).
  - destruct (bit_add 29 (fr_id f) ltac:(lia) ltac:(lia)) as (A & B & _). rewrite A. exact B.
  - destruct (std_shift (fr_id f) ltac:(lia)) as (A & _ & B). rewrite B by lia. exact A.
Qed.
Lemma sam_filled_fields f m : frame_ok f -> let b := sam_filled false f m in
  mb_mid b = sam_mid_of f /\ Z.testbit (mb_msr b) 23 = true /\ Z.land (Z.shiftr (mb_msr b) 16) 15 = fr_len f /\ bytes_be (mb_mdl b) (mb_mdh b) = fr_data f ++ repeat 0 (8 - length (fr_data f)).
Proof.
  intros H. cbv zeta. unfold sam_filled. destruct (pack_be (fr_data f) (fr_len f)) as [l h] eqn:P. cbn [mb_mid mb_msr mb_mdl mb_mdh]. destruct (msr_rx (fr_len f) (len_range f H)) as [A B]. cbv zeta in A, B.
  split; [reflexivity|]. split; [exact A|]. split; [exact B|]. destruct H as (_ & Hb & Hl). rewrite (be_bytes _ _ _ _ Hb P). apply sels_all. exact Hl.
Qed.
Lemma sam_read_ok n s r id out s' : 0 <= s_rxc s <= 8 -> 0 <= s_rxi s -> sam_read n s = RRet r id out s' -> 0 <= r -> 0 < n <= 8 /\ exists i, 0 <= i < s_rxi s /\ Z.testbit (s_sr s) i = true /\ i < s_rxc s /\
  id = Some (sam_read_mid (mb_mid (s_mb s i))) /\ r = Z.land (Z.shiftr (mb_msr (s_mb s i)) 16) 15 /\ out = firstn (Z.to_nat n) (bytes_be (mb_mdl (s_mb s i)) (mb_mdh (s_mb s i))) /\
  s' = sam_start s i (2 ^ 23).
Proof.
  intros Hc Hx E Hr. unfold sam_read in E. destruct (0 <? n) eqn:E1; cbn [negb] in E; [|injection E as <- _ _ _; unfold C_EINVAL in Hr; lia].
  destruct (n <=? 8) eqn:E2; cbn [negb] in E; [|injection E as <- _ _ _; unfold C_EINVAL in Hr; lia]. cbv zeta in E.
  destruct (Z.land (s_sr s) _ =? 0) eqn:E3; [injection E as <- _ _ _; unfold C_EAGAIN in Hr; lia|].
  destruct (scan _ _) as [i|] eqn:S; [|injection E as <- _ _ _; unfold C_EIO in Hr; lia].
  destruct (Z.land (mb_msr _) _ =? 0) eqn:E4; [injection E as <- _ _ _; unfold C_EAGAIN in Hr; lia|].
  injection E as <- <- <- <-. split; [lia|]. destruct (scan_some _ _ _ S) as (A & B & _). exists i. rewrite Z.land_spec in B. apply andb_true_iff in B as [B1 B2]. split; [lia|]. split; [exact B1|]. split.
  { destruct (Z.lt_ge_cases i (s_rxc s)) as [L|L]; [exact L|exfalso]. unfold u8 in B2. rewrite Z.mod_small in B2.
    - assert (K : Z.testbit (2 ^ s_rxc s - 1) i = false); [|congruence]. replace (2 ^ s_rxc s - 1) with (Z.ones (s_rxc s)) by (rewrite Z.ones_equiv; lia). apply Z.ones_spec_high. lia.
    - pose proof (Z.pow_le_mono_r 2 (s_rxc s) 8 ltac:(lia) ltac:(lia)). pose proof (Z.pow_pos_nonneg 2 (s_rxc s) ltac:(lia) ltac:(lia)). change (2 ^ 8) with 256 in *. lia. }
  repeat split; reflexivity.
Qed.
Lemma sam_start_others s i v j : j <> i -> s_mb (sam_start s i v) j = s_mb s j.
Proof. intros H. unfold sam_start, s_set_sr, s_set_mb. cbn [s_mb]. apply upd_ne. exact H. Qed.
Lemma sam_read_frame n s r id out s' : 0 <= s_rxc s <= 8 -> 0 <= s_rxi s -> sam_read n s = RRet r id out s' -> 0 <= r ->
  exists i, 0 <= i < s_rxi s /\ i < s_rxc s /\ Z.testbit (s_sr s) i = true /\ Z.testbit (s_sr s') i = false /\ (forall j, j <> i -> s_mb s' j = s_mb s j) /\ length out = Z.to_nat n /\
  forall f m, frame_ok f -> s_mb s i = sam_filled false f m -> id = Some (fr_id f) /\ r = fr_len f /\ out = firstn (Z.to_nat n) (fr_data f ++ repeat 0 (8 - length (fr_data f))).
Proof.
  intros Hc Hx E Hr. destruct (sam_read_ok _ _ _ _ _ _ Hc Hx E Hr) as (Hn & i & A & B & L & -> & -> & -> & ->). exists i. split; [exact A|]. split; [exact L|]. split; [exact B|]. split.
  { unfold sam_start, s_set_sr, s_set_mb. cbn [s_sr]. apply ldiff_pow. lia. }
  split; [intros j Hj; apply sam_start_others; exact Hj|]. split; [rewrite firstn_length; cbn [length bytes_be]; lia|].
  intros f m Hf M. destruct (sam_filled_fields f m Hf) as (X1 & X2 & X3 & X4). cbv zeta in *. rewrite M, X1, X3, X4. rewrite sam_mid_read by exact Hf. repeat split; reflexivity.
Qed.
(** A frame that is there is returned. *)
Lemma sam_read_progress n s i : 0 < n <= 8 -> 0 <= s_rxi s <= s_rxc s -> s_rxc s <= 8 -> (forall k, 0 <= k < 8 -> Z.testbit (s_sr s) k = Z.testbit (mb_msr (s_mb s k)) 23) ->
  0 <= i < s_rxi s -> Z.testbit (s_sr s) i = true -> exists r id out s', sam_read n s = RRet r id out s' /\ 0 <= r.
Proof.
  intros Hn H1 H2 HS Hi T. unfold sam_read. replace (0 <? n) with true by (symmetry; apply Z.ltb_lt; lia). replace (n <=? 8) with true by (symmetry; apply Z.leb_le; lia). cbn [negb]. cbv zeta.
  assert (M : u8 (2 ^ s_rxc s - 1) = Z.ones (s_rxc s)).
  { rewrite Z.ones_equiv. unfold u8. rewrite Z.mod_small; [lia|]. pose proof (Z.pow_le_mono_r 2 (s_rxc s) 8 ltac:(lia) ltac:(lia)). pose proof (Z.pow_pos_nonneg 2 (s_rxc s) ltac:(lia) ltac:(lia)). change (2 ^ 8) with 256 in *. lia. }
  rewrite M. assert (Ti : Z.testbit (Z.land (s_sr s) (Z.ones (s_rxc s))) i = true) by (rewrite Z.land_spec, T, Z.ones_spec_low by lia; reflexivity).
  destruct (Z.land (s_sr s) (Z.ones (s_rxc s)) =? 0) eqn:E; [apply Z.eqb_eq in E; rewrite E, Z.bits_0 in Ti; discriminate Ti|].
  destruct (scan _ _) as [k|] eqn:S.
  - destruct (scan_some _ _ _ S) as (A & B & _). rewrite Z.land_spec in B. apply andb_true_iff in B as [B _]. rewrite land_pow_testbit by lia. rewrite HS in B by lia. rewrite B. cbn [negb].
    do 4 eexists. split; [reflexivity|]. change 15 with (Z.ones 4). rewrite Z.land_ones by lia. apply Z.mod_pos_bound. lia.
  - rewrite (scan_none _ _ i S) in Ti by lia. discriminate Ti.
Qed.
(** Histories *)
Lemma land_low x m : 0 <= x < 2048 -> Z.land x (m mod 2048) = Z.land x m.
Proof.
  intros H. change 2048 with (2 ^ 11). rewrite <- Z.land_ones by lia. rewrite (Z.land_comm m), Z.land_assoc. rewrite land_small_ones by (change (2 ^ 11) with 2048; lia). reflexivity.
Qed.
Definition s_entry (m : smb) (e : Z * Z) : Prop :=
  (field (mb_mmr m) 24 3 = 1 \/ field (mb_mmr m) 24 3 = 2) /\ Z.testbit (mb_mid m) 29 = false /\ field (mb_mam m) 18 11 = snd e mod 2048 /\
  Z.land (field (mb_mid m) 18 11) (snd e mod 2048) = Z.land (fst e) (snd e mod 2048).
Definition sam_inv (s : sam) (l : list (Z * Z)) : Prop :=
  s_rxc s + s_txc s = 8 /\ 0 <= s_txi s < s_txc s /\ 0 <= s_rxi s <= s_rxc s /\ Z.of_nat (length l) = s_rxi s /\
  (forall k, s_rxc s <= k < 8 -> field (mb_mmr (s_mb s k)) 24 3 = 3) /\ (forall k, s_rxi s <= k < s_rxc s -> field (mb_mmr (s_mb s k)) 24 3 = 0) /\
  (forall k, 0 <= k < s_rxi s -> s_entry (s_mb s k) (nth (Z.to_nat k) l (0, 0))) /\ Forall (fun e => 0 <= fst e < 2048 /\ 0 <= snd e) l /\
  (forall k, 0 <= k < 8 -> Z.testbit (s_sr s) k = Z.testbit (mb_msr (s_mb s k)) 23).
Lemma takes_entry m e f : s_entry m e -> frame_ok f -> 0 <= fst e < 2048 -> sam_takes m f = true <-> asked (fst e) (snd e) f.
Proof.
  intros (A & B & C & D) (Hf & _) He. unfold sam_takes, asked. rewrite B, C. replace (2048 <=? fst e) with false by (symmetry; apply Z.leb_gt; lia).
  assert (M : (field (mb_mmr m) 24 3 =? 1) || (field (mb_mmr m) 24 3 =? 2) = true) by (destruct A as [-> | ->]; reflexivity). rewrite M. cbn [andb].
  destruct (fr_ext f); cbn [Bool.eqb andb]; [split; [discriminate|intros [K _]; discriminate K]|]. rewrite Z.eqb_eq, D. rewrite !land_low by lia. split; [intros K; split; [reflexivity|exact K]|intros [_ K]; exact K].
Qed.
Lemma takes_not m f : field (mb_mmr m) 24 3 = 3 \/ field (mb_mmr m) 24 3 = 0 -> sam_takes m f = false.
Proof. intros H. unfold sam_takes. destruct H as [-> | ->]; reflexivity. Qed.
Lemma sam_inv_takes s l f : sam_inv s l -> frame_ok f -> taken (fun k => sam_takes (s_mb s k) f) 0 8 <-> wanted l f.
Proof.
  intros (I1 & I2 & I3 & I4 & I5 & I6 & I7 & I8 & I9) Hf. rewrite List.Forall_forall in I8. split.
  - intros (k & Hk & T). destruct (Z.lt_ge_cases k (s_rxi s)) as [L|L].
    + specialize (I7 k ltac:(lia)). assert (Hin : In (nth (Z.to_nat k) l (0, 0)) l) by (apply nth_In; lia). exists (fst (nth (Z.to_nat k) l (0, 0))), (snd (nth (Z.to_nat k) l (0, 0))).
      rewrite <- surjective_pairing. split; [exact Hin|]. apply (takes_entry (s_mb s k)); [exact I7|exact Hf|apply I8; exact Hin|exact T].
    + rewrite takes_not in T; [discriminate T|]. destruct (Z.lt_ge_cases k (s_rxc s)); [right; apply I6; lia|left; apply I5; lia].
  - intros (id & mask & Hin & A). destruct (In_nth l (id, mask) (0, 0) Hin) as (n & Hn & En). exists (Z.of_nat n). split; [lia|]. specialize (I7 (Z.of_nat n) ltac:(lia)). rewrite Nat2Z.id, En in I7.
    apply (takes_entry _ (id, mask) f I7 Hf); [apply (I8 _ Hin)|exact A].
Qed.
(** A mailbox changed in nothing the invariant speaks of *)
Definition same_cfg (a b : smb) : Prop := field (mb_mmr a) 24 3 = field (mb_mmr b) 24 3 /\ mb_mam a = mb_mam b.
Lemma sr_ldiff sr k j : 0 <= k -> 0 <= j -> Z.testbit (Z.ldiff sr (2 ^ k)) j = if j =? k then false else Z.testbit sr j.
Proof. intros. rewrite Z.ldiff_spec, Z.pow2_bits_eqb by lia. rewrite (Z.eqb_sym k j). destruct (j =? k); cbn [negb]; [apply andb_false_r|apply andb_true_r]. Qed.
Lemma sr_lor sr k j : 0 <= k -> 0 <= j -> Z.testbit (Z.lor sr (2 ^ k)) j = if j =? k then true else Z.testbit sr j.
Proof. intros. rewrite Z.lor_spec, Z.pow2_bits_eqb by lia. rewrite (Z.eqb_sym k j). destruct (j =? k); [apply orb_true_r|apply orb_false_r]. Qed.
(** The invariant after a change of mailbox [k] *)
Lemma sam_inv_upd s l k m sr txi abort acr : sam_inv s l -> 0 <= k < 8 -> 0 <= txi < s_txc s ->
  field (mb_mmr m) 24 3 = field (mb_mmr (s_mb s k)) 24 3 -> (k < s_rxi s -> s_entry m (nth (Z.to_nat k) l (0, 0))) ->
  (forall j, 0 <= j < 8 -> Z.testbit sr j = if j =? k then Z.testbit (mb_msr m) 23 else Z.testbit (s_sr s) j) ->
  sam_inv (mkSam (s_en s) (s_br s) sr acr (upd (s_mb s) k m) (s_rxi s) txi (s_rxc s) (s_txc s) abort (s_ovw s)) l.
Proof.
  intros (I1 & I2 & I3 & I4 & I5 & I6 & I7 & I8 & I9) Hk Ht Hm He Hsr. unfold sam_inv. cbn [s_rxc s_txc s_txi s_rxi s_mb s_sr].
  split; [exact I1|]. split; [lia|]. split; [exact I3|]. split; [exact I4|].
  split; [intros j Hj; unfold upd; destruct (Z.eqb_spec j k) as [->|N]; [rewrite Hm|]; apply I5; lia|].
  split; [intros j Hj; unfold upd; destruct (Z.eqb_spec j k) as [->|N]; [rewrite Hm|]; apply I6; lia|].
  split; [intros j Hj; unfold upd; destruct (Z.eqb_spec j k) as [->|N]; [apply He; lia|apply I7; lia]|].
  split; [exact I8|]. intros j Hj. rewrite Hsr by lia. unfold upd. destruct (Z.eqb_spec j k) as [->|N]; [reflexivity|apply I9; lia].
Qed.
Lemma sam_inv_txi s l txi acr : sam_inv s l -> 0 <= txi < s_txc s -> sam_inv (mkSam (s_en s) (s_br s) (s_sr s) acr (s_mb s) (s_rxi s) txi (s_rxc s) (s_txc s) (s_abort s) (s_ovw s)) l.
Proof. intros (I1 & I2 & I3 & I4 & I5 & I6 & I7 & I8 & I9) Ht. unfold sam_inv. cbn [s_rxc s_txc s_txi s_rxi s_mb s_sr]. tauto. Qed.
Lemma sam_txi_next s l : sam_inv s l -> 0 <= u32 (s_txi s + 1) mod s_txc s < s_txc s.
Proof. intros (I1 & I2 & _). apply Z.mod_pos_bound. lia. Qed.
Lemma sam_index s l : sam_inv s l -> u32 (s_rxc s + s_txi s) = s_rxc s + s_txi s /\ s_rxc s <= s_rxc s + s_txi s < 8.
Proof. intros (I1 & I2 & I3 & _). split; [apply Z.mod_small; lia|lia]. Qed.
Lemma sam_write_inv id buf n s l r s' : sam_inv s l -> sam_write id buf n s = CRet r s' -> sam_inv s' l.
Proof.
  intros I E. pose proof (sam_txi_next s l I) as Ht. destruct (sam_index s l I) as [Ei Hi]. unfold sam_write in E. rewrite Ei in E.
  destruct (negb (id <? 536870912)); [injection E as _ <-; exact I|]. destruct (negb (0 <? n)); [injection E as _ <-; exact I|]. destruct (negb (n <=? 8)); [injection E as _ <-; exact I|].
  cbv zeta in E. destruct (negb (_ <? 31)); [discriminate E|].
  destruct (Z.land (s_sr s) _ =? 0); [injection E as _ <-; destruct (s_abort s) eqn:Ea; [unfold s_set_acr; apply sam_inv_txi; [exact I|apply I]|exact I]|].
  destruct (s_txc s =? 0); [discriminate E|]. assert (Ir : sam_inv (s_set_txi s (u32 (s_txi s + 1) mod s_txc s)) l) by (apply sam_inv_txi; assumption).
  destruct (negb (_ <? 8)); [injection E as _ <-; exact Ir|]. destruct (Z.land (mb_msr _) _ =? 0); [injection E as _ <-; exact Ir|].
  destruct (pack_be buf n) as [lo hi]. injection E as _ <-. pose proof I as (I1 & I2 & I3 & I4 & I5 & _).
  unfold sam_start, s_set_sr, s_set_mb, s_set_txi. cbn [s_en s_br s_sr s_acr s_mb s_rxi s_txi s_rxc s_txc s_abort s_ovw]. rewrite !upd_eq. cbn [mb_mmr mb_mam mb_mid mb_msr mb_mdl mb_mdh].
  set (k := s_rxc s + s_txi s) in *. set (mk := mkSmb _ _ _ _ _ _ _) at 2.
  assert (X : sam_inv (mkSam (s_en s) (s_br s) (Z.ldiff (s_sr s) (2 ^ k)) (s_acr s) (upd (s_mb s) k mk) (s_rxi s) (u32 (s_txi s + 1) mod s_txc s) (s_rxc s) (s_txc s) (s_abort s) (s_ovw s)) l).
  { apply sam_inv_upd; try assumption; try lia.
    - unfold mk. cbn [mb_mmr]. rewrite mot_set by lia. symmetry. apply I5. lia.
    - intros j Hj. rewrite sr_ldiff by lia. unfold mk. cbn [mb_msr]. rewrite ldiff_pow by lia. reflexivity. }
  destruct X as (X1 & X2 & X3 & X4 & X5 & X6 & X7 & X8 & X9). unfold sam_inv. cbn [s_rxc s_txc s_txi s_rxi s_mb s_sr] in *.
  assert (U : forall j, upd (upd (s_mb s) k (mkSmb (Z.lor (clr_mot (mb_mmr (s_mb s k))) (MOT 3)) (sam_mam id 0) (sam_mid id) (mb_msr (s_mb s k)) lo hi (mb_mcr (s_mb s k)))) k mk j = upd (s_mb s) k mk j).
  { intros j. unfold upd. destruct (j =? k); reflexivity. }
  split; [exact X1|]. split; [exact X2|]. split; [exact X3|]. split; [exact X4|].
  split; [intros j Hj; rewrite U; apply X5; exact Hj|]. split; [intros j Hj; rewrite U; apply X6; exact Hj|]. split; [intros j Hj; rewrite U; apply X7; exact Hj|]. split; [exact X8|].
  intros j Hj. rewrite U. apply X9. exact Hj.
Qed.
Lemma sam_accept_inv id mask s l r s' : sam_inv s l -> 0 <= id < 2048 -> 0 <= mask -> sam_accept id mask s = CRet r s' -> sam_inv s' (if r =? 0 then l ++ [(id, mask)] else l).
Proof.
  intros I Hid Hm E. unfold sam_accept in E. destruct (negb (id <? 536870912)); [injection E as <- <-; exact I|]. destruct (negb (mask <? 536870912)); [injection E as <- <-; exact I|].
  destruct (s_rxi s <? s_rxc s) eqn:E3; cbn [negb] in E; [|injection E as <- <-; exact I]. apply Z.ltb_lt in E3. cbv zeta in E. injection E as <- <-.
  change (0 =? 0) with true. cbv iota. destruct I as (I1 & I2 & I3 & I4 & I5 & I6 & I7 & I8 & I9). set (i := s_rxi s) in *.
  unfold sam_inv, sam_start, s_set_sr, s_set_mb, s_set_rxi. cbn [s_en s_br s_sr s_acr s_mb s_rxi s_txi s_rxc s_txc s_abort s_ovw]. rewrite !upd_eq. cbn [mb_mmr mb_mam mb_mid mb_msr mb_mdl mb_mdh].
  set (m0 := mkSmb _ _ _ (mb_msr (s_mb s i)) _ _ _). set (mk := mkSmb _ _ _ (Z.ldiff _ _) _ _ _).
  assert (U : forall j, upd (upd (s_mb s) i m0) i mk j = if j =? i then mk else s_mb s j). { intros j. unfold upd. destruct (j =? i); reflexivity. }
  assert (Mot : field (mb_mmr mk) 24 3 = 1 \/ field (mb_mmr mk) 24 3 = 2). { unfold mk. cbn [mb_mmr]. destruct (s_ovw s); rewrite mot_set by lia; [right|left]; reflexivity. }
  split; [exact I1|]. split; [exact I2|]. split; [lia|]. split; [rewrite app_length; cbn [length]; lia|].
  split; [intros j Hj; rewrite U; destruct (Z.eqb_spec j i); [lia|apply I5; exact Hj]|].
  split; [intros j Hj; rewrite U; destruct (Z.eqb_spec j i); [lia|apply I6; lia]|].
  split; [|split].
  - intros j Hj. rewrite U. destruct (Z.eqb_spec j i) as [->|N].
    + rewrite app_nth2 by lia. replace (Z.to_nat i - length l)%nat with 0%nat by lia. cbn [nth]. unfold s_entry. split; [exact Mot|]. unfold mk. cbn [mb_mid mb_mam fst snd].
      destruct (sam_mid_std id Hid) as [A B]. split; [exact B|]. rewrite A. unfold sam_mam. replace (id <? 2048) with true by (symmetry; apply Z.ltb_lt; lia). split; [apply midva_field|reflexivity].
    + rewrite app_nth1 by lia. apply I7. lia.
  - apply Forall_app. split; [exact I8|]. constructor; [|constructor]. cbn [fst snd]. lia.
  - intros j Hj. rewrite U, sr_ldiff by lia. destruct (Z.eqb_spec j i) as [->|N]; [unfold mk; cbn [mb_msr]; rewrite ldiff_pow by lia; reflexivity|apply I9; exact Hj].
Qed.
Lemma sam_start_inv s l i v : sam_inv s l -> 0 <= i < 8 -> sam_inv (sam_start s i v) l.
Proof.
  intros I Hi. unfold sam_start, s_set_sr, s_set_mb. cbn [s_en s_br s_sr s_acr s_mb s_rxi s_txi s_rxc s_txc s_abort s_ovw]. apply sam_inv_upd; try assumption.
  - apply I.
  - reflexivity.
  - intros L. destruct I as (_ & _ & _ & _ & _ & _ & I7 & _). apply (I7 i). lia.
  - intros j Hj. rewrite sr_ldiff by lia. cbn [mb_msr]. rewrite ldiff_pow by lia. reflexivity.
Qed.
Lemma sam_read_inv n s l r id out s' : sam_inv s l -> sam_read n s = RRet r id out s' -> sam_inv s' l.
Proof.
  intros I E. unfold sam_read in E. destruct (negb (0 <? n)); [injection E as _ _ _ <-; exact I|]. destruct (negb (n <=? 8)); [injection E as _ _ _ <-; exact I|]. cbv zeta in E.
  destruct (Z.land (s_sr s) _ =? 0); [injection E as _ _ _ <-; exact I|]. destruct (scan _ _) as [i|] eqn:S; [|injection E as _ _ _ <-; exact I].
  destruct (Z.land (mb_msr _) _ =? 0); [injection E as _ _ _ <-; exact I|]. injection E as _ _ _ <-. destruct (scan_some _ _ _ S) as (A & _). apply sam_start_inv; [exact I|]. destruct I as (I1 & I2 & I3 & _). lia.
Qed.
Lemma sam_receives_inv le f k s l : sam_inv s l -> frame_ok f -> 0 <= k < 8 -> sam_takes (s_mb s k) f = true -> sam_inv (sam_receives le f k s) l.
Proof.
  intros I Hf Hk T. unfold sam_receives, s_set_sr, s_set_mb. cbn [s_en s_br s_sr s_acr s_mb s_rxi s_txi s_rxc s_txc s_abort s_ovw].
  assert (F : mb_mmr (sam_filled le f (s_mb s k)) = mb_mmr (s_mb s k) /\ mb_mam (sam_filled le f (s_mb s k)) = mb_mam (s_mb s k) /\ mb_mid (sam_filled le f (s_mb s k)) = sam_mid_of f /\ mb_msr (sam_filled le f (s_mb s k)) = 2 ^ 23 + Z.shiftl (fr_len f) 16).
  { unfold sam_filled. destruct (if le then _ else _) as [l0 h0]. repeat split; reflexivity. }
  destruct F as (F1 & F2 & F3 & F4). apply sam_inv_upd; try assumption.
  - apply I.
  - rewrite F1. reflexivity.
  - intros L. destruct I as (_ & _ & _ & _ & _ & _ & I7 & I8 & _). specialize (I7 k ltac:(lia)). destruct I7 as (A & B & C & D). unfold s_entry. rewrite F1, F2, F3. split; [exact A|].
    unfold sam_takes in T. apply andb_true_iff in T as [T T3]. apply andb_true_iff in T as [_ T2]. rewrite B in T2. destruct (fr_ext f) eqn:X; [discriminate T2|]. unfold sam_mid_of. rewrite X.
    destruct Hf as (Hf & _). rewrite X in Hf. destruct (std_shift (fr_id f) Hf) as (_ & S2 & S3). split; [apply S3; lia|]. split; [exact C|]. rewrite S2. apply Z.eqb_eq in T3. rewrite C in T3. rewrite T3. exact D.
  - intros j Hj. rewrite sr_lor by lia. rewrite F4. destruct (msr_rx (fr_len f) (len_range f Hf)) as [A _]. cbv zeta in A. rewrite A. reflexivity.
Qed.
Lemma sam_sent_inv k s l : sam_inv s l -> 0 <= k < 8 -> sam_inv (sam_sent k s) l.
Proof.
  intros I Hk. unfold sam_sent, s_set_sr, s_set_mb. cbn [s_en s_br s_sr s_acr s_mb s_rxi s_txi s_rxc s_txc s_abort s_ovw]. apply sam_inv_upd; try assumption.
  - apply I.
  - reflexivity.
  - intros L. destruct I as (_ & _ & _ & _ & _ & _ & I7 & _). apply (I7 k). lia.
  - intros j Hj. rewrite sr_lor by lia. cbn [mb_msr]. rewrite Z.lor_spec, Z.pow2_bits_true by lia. rewrite orb_true_r. reflexivity.
Qed.
Lemma sam_tx_loop_at rxc : forall n mb j, sam_tx_loop mb rxc n j =
  if (rxc <=? j) && (j <? rxc + Z.of_nat n) then mkSmb (MOT 3) (mb_mam (mb j)) (mb_mid (mb j)) (mb_msr (mb j)) (mb_mdl (mb j)) (mb_mdh (mb j)) (mb_mcr (mb j)) else mb j.
Proof.
  induction n as [|n IH]; intros mb j.
  - cbn [sam_tx_loop]. replace (j <? rxc + Z.of_nat 0) with (j <? rxc) by (f_equal; lia). destruct (Z.leb_spec rxc j), (Z.ltb_spec j rxc); cbn [andb]; try reflexivity. lia.
  - cbn [sam_tx_loop]. cbv zeta. rewrite IH. unfold upd. destruct (Z.eqb_spec j (rxc + Z.of_nat n)) as [->|N].
    + replace (rxc + Z.of_nat n <? rxc + Z.of_nat n) with false by (symmetry; apply Z.ltb_ge; lia). rewrite andb_false_r.
      replace (rxc <=? rxc + Z.of_nat n) with true by (symmetry; apply Z.leb_le; lia). replace (rxc + Z.of_nat n <? rxc + Z.of_nat (S n)) with true by (symmetry; apply Z.ltb_lt; lia). reflexivity.
    + replace (j <? rxc + Z.of_nat (S n)) with (j <? rxc + Z.of_nat n); [reflexivity|]. destruct (Z.ltb_spec j (rxc + Z.of_nat n)), (Z.ltb_spec j (rxc + Z.of_nat (S n))); try reflexivity; lia.
Qed.
Lemma sam_up_inv freq st s : sam_up freq st s -> sam_inv s [].
Proof.
  intros (s0 & s1 & R & E0 & E1 & Hn). unfold sam_init, sam_set_tx in E0. cbn in E0. injection E0 as <-.
  unfold sam_setup in E1. destruct (sam_bitrate freq (cs_rate st)) as [br| |] eqn:B; [|injection E1 as K _; exfalso|discriminate E1].
  2:{ unfold sam_bitrate, set_bitrate in B. destruct (cs_rate st <=? 0); [injection B as <-; discriminate K|]. destruct (freq <? 0) eqn:F; [injection B as <-; lia|]. destruct (negb _); [injection B as <-; discriminate K|].
      revert B. generalize (Z.to_nat 128) 1. intros fuel. induction fuel as [|fuel IH]; intros b B; cbn [bit_loop] in B; [injection B as <-; discriminate K|]. cbv zeta in B.
      destruct (u32 _ =? 0); [discriminate B|]. destruct (negb _); [exact (IH _ B)|]. destruct (_ || _); [exact (IH _ B)|]. destruct (sam_seg _ _); [discriminate B|exact (IH _ B)]. }
  unfold sam_set_tx in E1. destruct (cs_ntx st <? 8) eqn:L; cbn [negb] in E1; [|cbn in E1; discriminate E1]. apply Z.ltb_lt in L. cbn [Z.ltb] in E1. change (0 <? 0) with false in E1. cbv iota in E1. injection E1 as <-.
  unfold sam_inv, s_set_cfg, s_set_cnt. cbn [s_en s_br s_sr s_acr s_mb s_rxi s_txi s_rxc s_txc s_abort s_ovw length].
  assert (M7 : forall j, sam_tx_loop (upd (s_mb s0) 7 (mkSmb (MOT 3) (mb_mam (s_mb s0 7)) (mb_mid (s_mb s0 7)) (mb_msr (s_mb s0 7)) (mb_mdl (s_mb s0 7)) (mb_mdh (s_mb s0 7)) (mb_mcr (s_mb s0 7)))) (8 - cs_ntx st) (Z.to_nat (cs_ntx st)) j =
     if (8 - cs_ntx st <=? j) && (j <? 8) then mkSmb (MOT 3) (mb_mam (s_mb s0 j)) (mb_mid (s_mb s0 j)) (mb_msr (s_mb s0 j)) (mb_mdl (s_mb s0 j)) (mb_mdh (s_mb s0 j)) (mb_mcr (s_mb s0 j)) else s_mb s0 j).
  { intros j. rewrite sam_tx_loop_at. rewrite Z2Nat.id by lia. replace (8 - cs_ntx st + cs_ntx st) with 8 by lia. unfold upd. destruct (Z.eqb_spec j 7) as [->|N]; [|reflexivity].
    replace (8 - cs_ntx st <=? 7) with true by (symmetry; apply Z.leb_le; lia). reflexivity. }
  split; [lia|]. split; [lia|]. split; [lia|]. split; [reflexivity|]. split; [|split; [|split; [|split]]].
  - intros k Hk. rewrite M7. replace (8 - cs_ntx st <=? k) with true by (symmetry; apply Z.leb_le; lia). replace (k <? 8) with true by (symmetry; apply Z.ltb_lt; lia). reflexivity.
  - intros k Hk. rewrite M7. replace (8 - cs_ntx st <=? k) with false by (symmetry; apply Z.leb_gt; lia). cbn [andb]. destruct (R k ltac:(lia)) as [-> _]. reflexivity.
  - intros k Hk. lia.
  - constructor.
  - intros k Hk. rewrite M7. destruct (R k Hk) as [_ ->]. destruct (_ && _); reflexivity.
Qed.
Lemma sam_run_inv le : forall ops s l s' l', sam_inv s l -> ops_ok true ops -> run (sam_step le) ops s l = Some (s', l') -> sam_inv s' l'.
Proof.
  induction ops as [|o ops IH]; intros s l s' l' I Ho E; cbn [run] in E; [injection E as <- <-; exact I|]. apply Forall_cons in Ho as [Ho Hos]. destruct (sam_step le o s l) as [[s1 l1]|] eqn:S; [|discriminate E].
  apply (IH s1 l1 s' l'); [|exact Hos|exact E]. clear E IH. destruct o as [id mask|id buf n|n|f k|k]; cbn [sam_step op_ok] in *.
  - destruct (sam_accept id mask s) as [r s2|] eqn:A; [|discriminate S]. cbn [ret_c] in S. injection S as <- <-. destruct Ho as (H1 & H2 & H3). apply (sam_accept_inv id mask s l r s2 I); [lia|exact H2|exact A].
  - destruct (sam_write id buf n s) as [r s2|] eqn:A; [|discriminate S]. cbn [ret_c] in S. injection S as <- <-. rewrite app_nil_r. destruct (r =? 0); apply (sam_write_inv _ _ _ _ _ _ _ I A).
  - destruct (sam_read n s) as [r id out s2|] eqn:A; [|discriminate S]. cbn [ret_r] in S. injection S as <- <-. apply (sam_read_inv _ _ _ _ _ _ _ I A).
  - injection S as <- <-. destruct ((0 <=? k) && (k <? 8) && sam_takes (s_mb s k) f) eqn:T; [|exact I]. apply andb_true_iff in T as [T T3]. apply andb_true_iff in T as [T1 T2]. apply sam_receives_inv; try assumption. lia.
  - injection S as <- <-. destruct ((0 <=? k) && (k <? 8) && _) eqn:T; [|exact I]. apply andb_true_iff in T as [T T3]. apply andb_true_iff in T as [T1 T2]. apply sam_sent_inv; [exact I|lia].
Qed.
(** No undefined behaviour *)
Lemma sam_write_def id buf n s l : sam_inv s l -> sam_write id buf n s <> CUb.
Proof.
  intros I E. destruct (sam_index s l I) as [Ei Hi]. destruct I as (I1 & I2 & I3 & _). unfold sam_write in E. rewrite Ei in E.
  destruct (negb (id <? 536870912)); [discriminate E|]. destruct (negb (0 <? n)); [discriminate E|]. destruct (negb (n <=? 8)); [discriminate E|].
  cbv zeta in E. replace (s_rxc s + s_txi s <? 31) with true in E by (symmetry; apply Z.ltb_lt; lia). cbn [negb] in E. destruct (Z.land (s_sr s) _ =? 0); [discriminate E|].
  replace (s_txc s =? 0) with false in E by (symmetry; apply Z.eqb_neq; lia). destruct (negb _); [discriminate E|]. destruct (Z.land (mb_msr _) _ =? 0); [discriminate E|]. destruct (pack_be buf n). discriminate E.
Qed.
Lemma sam_write_where id buf n s l r s' k : sam_inv s l -> sam_write id buf n s = CRet r s' -> s_mb s' k <> s_mb s k -> s_rxc s <= k < 8.
Proof.
  intros I E D. destruct (sam_write_ret _ _ _ _ _ _ E) as [[-> Hn]|Hr].
  - destruct (sam_write_ok _ _ _ _ _ E Hn) as (k0 & K & _ & _ & _ & _ & _ & _ & _ & _ & _ & O). destruct (sam_index s l I) as [Ei Hi]. rewrite Ei in K. destruct (Z.eq_dec k k0) as [->|N]; [lia|]. exfalso. apply D. apply O. exact N.
  - destruct (sam_write_err _ _ _ _ _ _ E Hr) as [M _]. rewrite M in D. congruence.
Qed.
Lemma sam_accept_where id mask s l r s' k : sam_inv s l -> sam_accept id mask s = CRet r s' -> s_mb s' k <> s_mb s k -> 0 <= k < s_rxc s /\ k = s_rxi s.
Proof.
  intros I E D. unfold sam_accept in E. destruct (negb (id <? 536870912)); [injection E as <- <-; congruence|]. destruct (negb (mask <? 536870912)); [injection E as <- <-; congruence|].
  destruct (s_rxi s <? s_rxc s) eqn:E3; cbn [negb] in E; [|injection E as <- <-; congruence]. apply Z.ltb_lt in E3. cbv zeta in E. injection E as <- <-.
  destruct I as (I1 & I2 & I3 & _). destruct (Z.eq_dec k (s_rxi s)) as [->|N]; [lia|]. exfalso. apply D. unfold s_set_rxi. cbn [s_mb]. rewrite sam_start_others by exact N. unfold s_set_mb. cbn [s_mb]. apply upd_ne. exact N.
Qed.
