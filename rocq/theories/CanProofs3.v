(** CanProofs3.v - proofs for PropCan.v: histories on FlexCAN. *)
From Verif Require Import Base CanModel CanSpec CanProofs CanProofs2.

Definition fcode (m : fmb) : Z := field (fb_cs m) 24 4.
Definition norx (m : fmb) : Prop := fcode m <> 2 /\ fcode m <> 4 /\ fcode m <> 6.
Definition f_entry (m : fmb) (id : Z) : Prop :=
  (fcode m = 2 \/ fcode m = 4 \/ fcode m = 6) /\ Z.testbit (fb_cs m) 21 = (2048 <=? id) /\
  (if 2048 <=? id then field (fb_id m) 0 29 = id else field (fb_id m) 18 11 = id).
Definition flex_inv (s : flex) (l : list (Z * Z)) : Prop :=
  f_irmq s = false /\ (f_rxc s + f_txc s = f_cnt s /\ f_cnt s <= 96) /\ (0 <= f_txi s < f_txc s) /\ (0 <= f_rxi s <= f_rxc s /\ length l = Z.to_nat (f_rxi s)) /\
  (forall k, f_rxc s <= k < f_cnt s -> norx (f_mb s k)) /\ (forall k, f_rxi s <= k < f_rxc s -> norx (f_mb s k) /\ fcode (f_mb s k) <> 12) /\
  (forall k, 0 <= k < f_rxi s -> f_entry (f_mb s k) (fst (nth (Z.to_nat k) l (0, 0)))) /\ Forall (fun p => 0 <= fst p < 536870912) l.

Lemma flex_takes_strict s k f : f_irmq s = false -> frame_ok f -> flex_takes s k f = true <->
  (fcode (f_mb s k) = 2 \/ fcode (f_mb s k) = 4 \/ fcode (f_mb s k) = 6) /\ Z.testbit (fb_cs (f_mb s k)) 21 = fr_ext f /\
  fr_id f = (if fr_ext f then field (fb_id (f_mb s k)) 0 29 else field (fb_id (f_mb s k)) 18 11).
Proof.
  intros Hi (Hf & _). unfold flex_takes. cbv zeta. rewrite Hi. fold (fcode (f_mb s k)). set (c := fcode (f_mb s k)). set (m := f_mb s k).
  assert (A : field 4294967295 0 29 = Z.ones 29) by reflexivity. assert (B : field 4294967295 18 11 = Z.ones 11) by reflexivity. rewrite A, B. clear A B.
  assert (X : forall lo n, 0 <= lo -> 0 <= n -> Z.land (field (fb_id m) lo n) (Z.ones n) = field (fb_id m) lo n).
  { intros lo n H1 H2. unfold field. rewrite <- Z.land_assoc, Z.land_diag. reflexivity. }
  rewrite !andb_true_iff, !orb_true_iff, !Z.eqb_eq, Bool.eqb_true_iff. rewrite !X by lia. destruct (fr_ext f).
  - rewrite land_small_ones by (change (2 ^ 29) with 536870912; lia). rewrite Z.eqb_eq. tauto.
  - rewrite land_small_ones by (change (2 ^ 11) with 2048; lia). rewrite Z.eqb_eq. tauto.
Qed.
Lemma f_entry_takes s k id f : f_irmq s = false -> frame_ok f -> f_entry (f_mb s k) id -> flex_takes s k f = true <-> fr_ext f = (2048 <=? id) /\ fr_id f = id.
Proof.
  intros Hi Hf (A & B & C). rewrite (flex_takes_strict s k f Hi Hf). rewrite B. split.
  - intros (_ & X & Y). rewrite <- X in *. split; [reflexivity|]. rewrite Y. destruct (2048 <=? id); exact C.
  - intros (X & Y). split; [exact A|]. split; [congruence|]. rewrite X, Y. destruct (2048 <=? id); congruence.
Qed.
Lemma norx_takes s k f : f_irmq s = false -> frame_ok f -> norx (f_mb s k) -> flex_takes s k f = false.
Proof. intros Hi Hf (A & B & C). destruct (flex_takes s k f) eqn:T; [|reflexivity]. apply (flex_takes_strict s k f Hi Hf) in T. destruct T as (T & _). tauto. Qed.
Lemma flex_inv_takes s l f : flex_inv s l -> frame_ok f -> taken (fun k => flex_takes s k f) 0 (f_cnt s) <-> named l f.
Proof.
  intros (I1 & I2 & I3 & I4 & I5 & I6 & I7 & I8) Hf. split.
  - intros (k & Hk & T). destruct (Z.lt_ge_cases k (f_rxi s)) as [L|L].
    + specialize (I7 k ltac:(lia)). apply (f_entry_takes s k _ f I1 Hf I7) in T. destruct (nth (Z.to_nat k) l (0, 0)) as [id mask] eqn:N. exists id, mask. split; [|exact T]. rewrite <- N. apply nth_In. lia.
    + assert (N : norx (f_mb s k)) by (destruct (Z.lt_ge_cases k (f_rxc s)); [apply I6; lia|apply I5; lia]). rewrite (norx_takes s k f I1 Hf N) in T. discriminate T.
  - intros (id & mask & Hin & A). destruct (In_nth l _ (0, 0) Hin) as (i & Hi & Ei). exists (Z.of_nat i). split; [lia|].
    specialize (I7 (Z.of_nat i) ltac:(lia)). rewrite Nat2Z.id, Ei in I7. apply (f_entry_takes s _ id f I1 Hf I7). exact A.
Qed.
(** Changes of a mailbox *)
Lemma flex_inv_mb s l k m frz c1 rm fl txi ab : flex_inv s l -> 0 <= txi < f_txc s ->
  (f_rxc s <= k < f_cnt s -> norx m) -> (f_rxi s <= k < f_rxc s -> norx m /\ fcode m <> 12) -> (0 <= k < f_rxi s -> f_entry m (fst (nth (Z.to_nat k) l (0, 0)))) ->
  flex_inv (mkFlex frz (f_irmq s) c1 (upd (f_mb s) k m) rm fl (f_cnt s) (f_rxi s) txi (f_rxc s) (f_txc s) ab) l.
Proof.
  intros (I1 & I2 & I3 & I4 & I5 & I6 & I7 & I8) Ht A B C. unfold flex_inv. cbn [f_irmq f_rxc f_txc f_cnt f_txi f_rxi f_mb]. split; [exact I1|]. split; [exact I2|]. split; [exact Ht|]. split; [exact I4|].
  split; [|split; [|split; [|exact I8]]]; intros j Hj; unfold upd; destruct (Z.eqb_spec j k) as [->|N]; auto.
Qed.
Lemma flex_inv_soft s l frz c1 rm fl txi ab : flex_inv s l -> 0 <= txi < f_txc s ->
  flex_inv (mkFlex frz (f_irmq s) c1 (f_mb s) rm fl (f_cnt s) (f_rxi s) txi (f_rxc s) (f_txc s) ab) l.
Proof. intros (I1 & I2 & I3 & I4 & I5 & I6 & I7 & I8) Ht. unfold flex_inv. cbn [f_irmq f_rxc f_txc f_cnt f_txi f_rxi f_mb]. tauto. Qed.
Lemma flex_index s l : flex_inv s l -> u32 (f_rxc s + f_txi s) = f_rxc s + f_txi s /\ f_rxc s <= f_rxc s + f_txi s < f_cnt s.
Proof. intros (_ & I2 & I3 & I4 & _). unfold u32. split; [apply Z.mod_small; lia|lia]. Qed.
Lemma flex_next s l : flex_inv s l -> 0 <= u32 (f_txi s + 1) mod f_txc s < f_txc s.
Proof. intros (_ & I2 & I3 & _). apply Z.mod_pos_bound. lia. Qed.
Lemma cs_code (x : bool) n : 0 < n <= 8 -> field (Z.lor (Z.shiftl 12 24) (Z.lor (Z.shiftl (Z.land n 15) 16) (if x then Z.lor (2 ^ 22) (2 ^ 21) else 0))) 24 4 = 12.
Proof. intros H. exact (proj1 (cs_tx n x H)). Qed.
Lemma flex_write_inv id buf n s l r s' : flex_inv s l -> flex_write id buf n s = CRet r s' -> flex_inv s' l.
Proof.
  intros I E. pose proof (flex_next s l I) as Ht. destruct (flex_index s l I) as [Ei Hi]. assert (Rx : f_rxi s <= f_rxc s) by apply I. unfold flex_write in E. rewrite Ei in E.
  destruct (0 <? n) eqn:E0; cbn [negb] in E; [|injection E as _ <-; exact I]. destruct (n <=? 8) eqn:E8; cbn [negb] in E; [|injection E as _ <-; exact I].
  cbv zeta in E. destruct (f_txc s =? 0); [discriminate E|]. unfold f_set_flag, f_set_txi, f_set_mb in E. cbn [f_frz f_irmq f_ctrl1 f_mb f_rximr f_flag f_cnt f_rxi f_txi f_rxc f_txc f_abort] in E.
  destruct (negb (_ <? f_cnt s)); [injection E as _ <-; apply flex_inv_soft; assumption|]. destruct (negb (id <? 536870912)); [injection E as _ <-; apply flex_inv_soft; assumption|].
  destruct (field _ 24 4 =? 12).
  - injection E as _ <-. destruct (f_abort s); [|apply flex_inv_soft; assumption]. apply flex_inv_mb; try assumption; try (intros; lia). intros _. unfold norx, fcode. cbn [fb_cs]. vm_compute. repeat split; discriminate.
  - destruct (pack_be buf n) as [lo hi]. injection E as _ <-. apply flex_inv_mb; try assumption; try (intros; lia). intros _. unfold norx, fcode. cbn [fb_cs]. rewrite cs_code by lia. lia.
Qed.
Lemma flex_accept_inv id mask s l r s' : flex_inv s l -> 0 <= id -> flex_accept id mask s = CRet r s' -> flex_inv s' (if r =? 0 then l ++ [(id, mask)] else l).
Proof.
  intros I Hid E. unfold flex_accept in E. destruct (id <? 536870912) eqn:E1; cbn [negb] in E; [|injection E as <- <-; exact I]. apply Z.ltb_lt in E1. destruct (negb (mask <? 536870912)); [injection E as <- <-; exact I|].
  destruct (f_rxi s <? f_rxc s) eqn:E3; cbn [negb] in E; [|injection E as <- <-; exact I]. apply Z.ltb_lt in E3. cbv zeta in E. injection E as <- <-. change (0 =? 0) with true. cbv iota.
  set (i := f_rxi s) in *. set (s1 := if id <? 2048 then _ else _). set (s2 := if mask =? 0 then _ else _).
  assert (M : exists m, f_entry m id /\ s1 = f_set_mb s i m).
  { unfold s1. destruct (Z.ltb_spec id 2048) as [L|L]; eexists; (split; [|reflexivity]); unfold f_entry, fcode; cbn [fb_cs fb_id].
    - replace (2048 <=? id) with false by (symmetry; apply Z.leb_gt; lia). split; [right; left; reflexivity|]. split; [reflexivity|]. apply id_std_field. lia.
    - replace (2048 <=? id) with true by (symmetry; apply Z.leb_le; lia). split; [right; left; reflexivity|]. split; [reflexivity|]. destruct (id_ext_field id ltac:(lia)) as [-> ->]. reflexivity. }
  destruct M as (m & Hm & S1). assert (S2 : f_irmq s2 = f_irmq s /\ f_mb s2 = upd (f_mb s) i m /\ f_cnt s2 = f_cnt s /\ f_txi s2 = f_txi s /\ f_rxc s2 = f_rxc s /\ f_txc s2 = f_txc s).
  { unfold s2. rewrite S1. unfold f_set_rximr, f_set_mb. cbn [f_frz]. destruct (mask =? 0); [repeat split; reflexivity|]. destruct (id <? 2048); destruct (f_frz s); repeat split; reflexivity. }
  destruct S2 as (T1 & T2 & T3 & T4 & T5 & T6). destruct I as (I1 & I2 & I3 & I4 & I5 & I6 & I7 & I8).
  unfold flex_inv, f_set_rxi. cbn [f_irmq f_rxc f_txc f_cnt f_txi f_rxi f_mb]. rewrite T1, T2, T3, T4, T5, T6. split; [exact I1|]. split; [exact I2|]. split; [exact I3|]. split; [rewrite app_length; cbn [length]; lia|].
  split; [|split; [|split]].
  - intros j Hj. rewrite upd_ne by lia. apply I5. exact Hj.
  - intros j Hj. rewrite upd_ne by lia. apply I6. lia.
  - intros j Hj. destruct (Z.eq_dec j i) as [->|N].
    + rewrite upd_eq, app_nth2 by lia. replace (Z.to_nat i - length l)%nat with 0%nat by lia. exact Hm.
    + rewrite upd_ne by exact N. rewrite app_nth1 by lia. apply I7. lia.
  - apply Forall_app. split; [exact I8|]. constructor; [|constructor]. cbn [fst]. lia.
Qed.
Lemma flex_read_mb_inv i n s l r id out s' : flex_inv s l -> flex_read_mb i n s = RRet r id out s' -> flex_inv s' l.
Proof.
  intros I E. assert (Sf : flex_inv (f_set_flag s i false) l) by (unfold f_set_flag; apply flex_inv_soft; [exact I|apply I]).
  unfold flex_read_mb in E. cbv zeta in E. destruct (negb (i <? f_rxc s)); [injection E as _ _ _ <-; exact I|]. destruct (negb (f_flag s i)); [injection E as _ _ _ <-; exact I|]. destruct (negb _); [injection E as _ _ _ <-; exact I|].
  destruct (_ =? 4); [injection E as _ _ _ <-; exact Sf|]. destruct (_ || _); [|injection E as _ _ _ <-; exact Sf]. destruct (_ || _); injection E as _ _ _ <-; exact Sf.
Qed.
Lemma flex_scan_inv n l : forall k s r id out s', flex_inv s l -> flex_scan n k s = RRet r id out s' -> flex_inv s' l.
Proof.
  induction k as [|k IH]; intros s r id out s' I E; cbn [flex_scan] in E; [injection E as _ _ _ <-; exact I|]. destruct (flex_read_mb (Z.of_nat k) n s) as [r1 id1 o1 s1|] eqn:R; [|discriminate E].
  pose proof (flex_read_mb_inv _ _ _ _ _ _ _ _ I R) as I1. destruct (negb _); [injection E as _ _ _ <-; exact I1|]. exact (IH _ _ _ _ _ I1 E).
Qed.
Lemma flex_read_inv n s l r id out s' : flex_inv s l -> flex_read n s = RRet r id out s' -> flex_inv s' l.
Proof.
  intros I E. unfold flex_read in E. destruct (negb (0 <? n)); [injection E as _ _ _ <-; exact I|]. destruct (negb (n <=? 8)); [injection E as _ _ _ <-; exact I|]. exact (flex_scan_inv _ _ _ _ _ _ _ _ I E).
Qed.
Lemma flex_receives_inv f k s l : flex_inv s l -> frame_ok f -> 0 <= k < f_cnt s -> flex_takes s k f = true -> flex_inv (flex_receives f k s) l.
Proof.
  intros I Hf Hk T. pose proof I as (I1 & I2 & I3 & I4 & I5 & I6 & I7 & I8). unfold flex_receives, f_set_flag, f_set_mb. cbn [f_frz f_irmq f_ctrl1 f_mb f_rximr f_flag f_cnt f_rxi f_txi f_rxc f_txc f_abort].
  assert (L : k < f_rxi s). { destruct (Z.lt_ge_cases k (f_rxi s)) as [L|L]; [exact L|]. assert (N : norx (f_mb s k)) by (destruct (Z.lt_ge_cases k (f_rxc s)); [apply I6; lia|apply I5; lia]). rewrite (norx_takes s k f I1 Hf N) in T. discriminate T. }
  apply flex_inv_mb; try assumption; try (intros; lia). intros _. specialize (I7 k ltac:(lia)). set (id := fst _) in *. apply (f_entry_takes s k id f I1 Hf I7) in T. destruct T as [Tx Ti].
  destruct (flex_filled_fields f Hf) as (A & B & _ & _ & D). cbv zeta in A, B, D. unfold f_entry, fcode. rewrite A, B, D, Tx, Ti. split; [left; reflexivity|]. split; [reflexivity|].
  destruct Hf as (Hf & _). rewrite Tx, Ti in Hf. destruct (2048 <=? id); [apply id_ext_field; exact Hf|]. exact (proj1 (proj2 (std_shift id Hf))).
Qed.
Lemma code8 c : field (Z.shiftl 8 24 + c mod 2 ^ 24) 24 4 = 8.
Proof.
  rewrite field_arith by lia. change (Z.shiftl 8 24) with (8 * 2 ^ 24). rewrite Z.add_comm, Z.div_add by lia. pose proof (Z.mod_pos_bound c (2 ^ 24) ltac:(lia)). rewrite (Z.div_small (c mod 2 ^ 24)) by lia. reflexivity.
Qed.
Lemma flex_sent_inv k s l : flex_inv s l -> 0 <= k < f_cnt s -> flex_is_tx (f_mb s k) = true -> flex_inv (flex_sent k s) l.
Proof.
  intros I Hk T. pose proof I as (I1 & I2 & I3 & I4 & I5 & I6 & I7 & I8). unfold flex_sent, f_set_flag, f_set_mb. cbn [f_frz f_irmq f_ctrl1 f_mb f_rximr f_flag f_cnt f_rxi f_txi f_rxc f_txc f_abort].
  unfold flex_is_tx in T. fold (fcode (f_mb s k)) in T. apply Z.eqb_eq in T.
  assert (L : f_rxc s <= k). { destruct (Z.lt_ge_cases k (f_rxc s)) as [L|L]; [|exact L]. destruct (Z.lt_ge_cases k (f_rxi s)) as [L2|L2]; [destruct (I7 k ltac:(lia)) as (A & _); lia|destruct (I6 k ltac:(lia)) as [_ A]; lia]. }
  apply flex_inv_mb; try assumption; try (intros; lia). intros _. unfold norx, fcode. cbn [fb_cs]. rewrite code8. lia.
Qed.
Lemma flex_tx_loop_at rxc : forall n mb j, flex_tx_loop mb rxc n j =
  if (rxc <=? j) && (j <? rxc + Z.of_nat n) then mkFmb (Z.shiftl 8 24) (fb_id (mb j)) (fb_dl (mb j)) (fb_dh (mb j)) else mb j.
Proof.
  induction n as [|n IH]; intros mb j.
  - cbn [flex_tx_loop]. replace (j <? rxc + Z.of_nat 0) with (j <? rxc) by (f_equal; lia). destruct (Z.leb_spec rxc j), (Z.ltb_spec j rxc); cbn [andb]; try reflexivity. lia.
  - cbn [flex_tx_loop]. cbv zeta. rewrite IH. unfold upd. destruct (Z.eqb_spec j (rxc + Z.of_nat n)) as [->|N].
    + replace (rxc + Z.of_nat n <? rxc + Z.of_nat n) with false by (symmetry; apply Z.ltb_ge; lia). rewrite andb_false_r.
      replace (rxc <=? rxc + Z.of_nat n) with true by (symmetry; apply Z.leb_le; lia). replace (rxc + Z.of_nat n <? rxc + Z.of_nat (S n)) with true by (symmetry; apply Z.ltb_lt; lia). reflexivity.
    + replace (j <? rxc + Z.of_nat (S n)) with (j <? rxc + Z.of_nat n); [reflexivity|]. destruct (Z.ltb_spec j (rxc + Z.of_nat n)), (Z.ltb_spec j (rxc + Z.of_nat (S n))); try reflexivity; lia.
Qed.
(** An error of set_bitrate is an error *)
Lemma bit_loop_err seg tqmin tqmax freq rate err : forall fuel b e, bit_loop seg tqmin tqmax freq rate err fuel b = BErr e -> e = err.
Proof.
  induction fuel as [|fuel IH]; intros b e B; cbn [bit_loop] in B; [injection B as <-; reflexivity|]. cbv zeta in B.
  destruct (u32 _ =? 0); [discriminate B|]. destruct (negb _); [exact (IH _ _ B)|]. destruct (_ || _); [exact (IH _ _ B)|]. destruct (seg _ _); [discriminate B|exact (IH _ _ B)].
Qed.
Lemma set_bitrate_err seg bmax lo hi err freq rate e : 0 < err -> set_bitrate seg bmax lo hi err freq rate = BErr e -> 0 < e.
Proof.
  intros He B. unfold set_bitrate in B. destruct (rate <=? 0); [injection B as <-; reflexivity|]. destruct (freq <? 0) eqn:F; [injection B as <-; lia|]. destruct (negb _); [injection B as <-; reflexivity|].
  rewrite (bit_loop_err _ _ _ _ _ _ _ _ _ B). exact He.
Qed.
Lemma flex_set_tx_ok s n r s2 : flex_set_tx s n = CRet r s2 -> ((r <? 0) = true /\ n >= f_cnt s) \/ ((r <? 0) = false /\ n < f_cnt s /\ f_cnt s2 = f_cnt s /\ f_irmq s2 = f_irmq s /\ f_rxi s2 = f_rxi s /\ f_txi s2 = f_txi s /\
  f_rxc s2 = f_cnt s - n /\ f_txc s2 = n /\ forall k, f_mb s2 k = f_mb s k \/ fcode (f_mb s2 k) = 8).
Proof.
  intros E. unfold flex_set_tx in E. destruct (Z.ltb_spec n (f_cnt s)) as [L|L]; cbn [negb] in E; [right|left; injection E as <- _; split; [reflexivity|lia]]. injection E as <- <-. split; [reflexivity|]. split; [exact L|]. do 6 (split; [reflexivity|]).
  intros k. cbn [f_mb]. rewrite flex_tx_loop_at. destruct (_ && _); [right; reflexivity|left; reflexivity].
Qed.
Lemma flex_set_cfg_all s a b : f_cnt (f_set_cfg s a b) = f_cnt s /\ f_irmq (f_set_cfg s a b) = f_irmq s /\ f_rxi (f_set_cfg s a b) = f_rxi s /\ f_txi (f_set_cfg s a b) = f_txi s /\ f_rxc (f_set_cfg s a b) = f_rxc s /\ f_txc (f_set_cfg s a b) = f_txc s /\ f_mb (f_set_cfg s a b) = f_mb s.
Proof. repeat split; reflexivity. Qed.
Lemma code0 m : fb_cs m = 0 -> fcode m = 0. Proof. intros H. unfold fcode. rewrite H. reflexivity. Qed.
Lemma flex_init_ok cntmax cnt s s1 : flex_init cntmax cnt s = CRet 0 s1 -> 4 < cnt <= cntmax /\ f_cnt s1 = cnt /\ f_irmq s1 = false /\ f_rxi s1 = 0 /\ f_txi s1 = f_txi s /\
  forall k, 0 <= k < cnt -> fb_cs (f_mb s1 k) = fb_cs (f_mb s k) \/ fcode (f_mb s1 k) = 8.
Proof.
  intros E. unfold flex_init in E. destruct (0 <? cnt) eqn:C0; cbn [negb] in E; [|discriminate E]. destruct (cnt <=? cntmax) eqn:C1; cbn [negb] in E; [|discriminate E]. cbv zeta in E.
  apply Z.ltb_lt in C0. apply Z.leb_le in C1. set (m0 := mkFlex _ _ _ _ _ _ _ _ _ _ _ _) in E. destruct (flex_set_tx m0 4) as [r s2|] eqn:T; [|discriminate E]. destruct (flex_set_tx_ok _ _ _ _ T) as [[H _]|(H & L & A1 & A2 & A3 & A4 & A5 & A6 & A7)].
  - rewrite H in E. injection E as -> _. discriminate H.
  - rewrite H in E. injection E as <-. destruct (flex_set_cfg_all s2 false (f_ctrl1 s2)) as (-> & -> & -> & -> & _ & _ & ->). rewrite A1, A2, A3, A4. unfold m0 in L. cbn [f_cnt] in L. split; [lia|]. do 4 (split; [reflexivity|]).
    intros k Hk. destruct (A7 k) as [->|K]; [left|right; exact K]. unfold m0. cbn [f_mb]. replace (0 <=? k) with true by (symmetry; apply Z.leb_le; lia). replace (k <? cnt) with true by (symmetry; apply Z.ltb_lt; lia). reflexivity.
Qed.
Lemma flex_setup_ok freq st s s1 : flex_setup freq st s = CRet 0 s1 -> cs_ntx st < f_cnt s /\ f_cnt s1 = f_cnt s /\ f_irmq s1 = f_irmq s /\ f_rxi s1 = f_rxi s /\ f_txi s1 = f_txi s /\
  f_rxc s1 = f_cnt s - cs_ntx st /\ f_txc s1 = cs_ntx st /\ forall k, f_mb s1 k = f_mb s k \/ fcode (f_mb s1 k) = 8.
Proof.
  intros E. unfold flex_setup in E. destruct (flex_bitrate freq (cs_rate st)) as [c1|e|] eqn:B; [|exfalso|discriminate E].
  2:{ apply set_bitrate_err in B; [|reflexivity]. injection E as E _. lia. }
  cbv zeta in E. set (m0 := f_set_cfg (f_set_cfg s true (f_ctrl1 s)) true c1) in E. destruct (flex_set_tx m0 (cs_ntx st)) as [r s2|] eqn:T; [|discriminate E]. destruct (flex_set_tx_ok _ _ _ _ T) as [[H _]|(H & L & A1 & A2 & A3 & A4 & A5 & A6 & A7)].
  - rewrite H in E. injection E as -> _. discriminate H.
  - rewrite H in E. injection E as <-. destruct (flex_set_cfg_all s2 false c1) as (-> & -> & -> & -> & -> & -> & ->). rewrite A1, A2, A3, A4, A5, A6. split; [exact L|]. do 6 (split; [reflexivity|]). exact A7.
Qed.
Lemma flex_up_inv cntmax cnt freq st s : flex_up cntmax cnt freq st s -> flex_inv s [].
Proof.
  intros (s0 & s1 & (R0 & R) & E0 & E1 & Hn & Hc). destruct (flex_init_ok _ _ _ _ E0) as (A1 & A2 & A3 & A4 & A5 & A6). destruct (flex_setup_ok _ _ _ _ E1) as (B1 & B2 & B3 & B4 & B5 & B6 & B7 & B8).
  assert (N : forall k, 0 <= k < cnt -> norx (f_mb s k) /\ fcode (f_mb s k) <> 12).
  { intros k Hk. assert (C : fcode (f_mb s k) = 8 \/ fcode (f_mb s k) = 0). { destruct (B8 k) as [->|K]; [|left; exact K]. destruct (A6 k Hk) as [K|K]; [right|left; exact K]. apply code0. rewrite K. apply R. exact Hk. }
    unfold norx. lia. }
  unfold flex_inv. rewrite B2, B3, B4, B5, B6, B7, A2, A3, A4, A5, R0. rewrite A2 in B1. split; [reflexivity|]. split; [lia|]. split; [lia|]. split; [split; [lia|reflexivity]|].
  split; [intros k Hk; apply N; lia|]. split; [intros k Hk; apply N; lia|]. split; [intros k Hk; lia|constructor].
Qed.
Lemma flex_run_inv std : forall ops s l s' l', flex_inv s l -> ops_ok std ops -> run flex_step ops s l = Some (s', l') -> flex_inv s' l'.
Proof.
  induction ops as [|o ops IH]; intros s l s' l' I Ho E; cbn [run] in E; [injection E as <- <-; exact I|]. apply Forall_cons in Ho as [Ho Hos]. destruct (flex_step o s l) as [[s1 l1]|] eqn:S; [|discriminate E].
  apply (IH s1 l1 s' l'); [|exact Hos|exact E]. clear E IH. destruct o as [id mask|id buf n|n|f k|k]; cbn [flex_step op_ok] in *.
  - destruct (flex_accept id mask s) as [r s2|] eqn:A; [|discriminate S]. cbn [ret_c] in S. injection S as <- <-. apply (flex_accept_inv id mask s l r s2 I); [lia|exact A].
  - destruct (flex_write id buf n s) as [r s2|] eqn:A; [|discriminate S]. cbn [ret_c] in S. injection S as <- <-. rewrite app_nil_r. destruct (r =? 0); apply (flex_write_inv _ _ _ _ _ _ _ I A).
  - destruct (flex_read n s) as [r id out s2|] eqn:A; [|discriminate S]. cbn [ret_r] in S. injection S as <- <-. apply (flex_read_inv _ _ _ _ _ _ _ I A).
  - injection S as <- <-. destruct ((0 <=? k) && (k <? f_cnt s) && flex_takes s k f) eqn:T; [|exact I]. apply andb_true_iff in T as [T T3]. apply andb_true_iff in T as [T1 T2]. apply flex_receives_inv; try assumption. lia.
  - injection S as <- <-. destruct ((0 <=? k) && (k <? f_cnt s) && _) eqn:T; [|exact I]. apply andb_true_iff in T as [T T3]. apply andb_true_iff in T as [T1 T2]. apply flex_sent_inv; [exact I|lia|exact T3].
Qed.
Lemma flex_write_def id buf n s l : flex_inv s l -> flex_write id buf n s <> CUb.
Proof.
  intros (_ & I2 & I3 & _) E. unfold flex_write in E. destruct (negb (0 <? n)); [discriminate E|]. destruct (negb (n <=? 8)); [discriminate E|]. cbv zeta in E.
  replace (f_txc s =? 0) with false in E by (symmetry; apply Z.eqb_neq; lia). destruct (negb _); [discriminate E|]. destruct (negb _); [discriminate E|]. destruct (_ =? 12); [discriminate E|]. destruct (pack_be buf n). discriminate E.
Qed.
Lemma flex_write_where id buf n s l r s' k : flex_inv s l -> flex_write id buf n s = CRet r s' -> f_mb s' k <> f_mb s k -> f_rxc s <= k < f_cnt s.
Proof.
  intros I E D. destruct (flex_index s l I) as [Ei Hi]. destruct (Z.eq_dec k (f_rxc s + f_txi s)) as [->|N]; [exact Hi|]. exfalso. apply D. clear D. unfold flex_write in E. rewrite Ei in E.
  destruct (negb (0 <? n)); [injection E as _ <-; reflexivity|]. destruct (negb (n <=? 8)); [injection E as _ <-; reflexivity|]. cbv zeta in E. destruct (f_txc s =? 0); [discriminate E|].
  destruct (negb _); [injection E as _ <-; reflexivity|]. destruct (negb _); [injection E as _ <-; reflexivity|]. unfold f_set_flag, f_set_txi, f_set_mb in E. cbn [f_mb] in E.
  destruct (_ =? 12); [injection E as _ <-; destruct (f_abort s); [cbn [f_mb]; apply upd_ne; exact N|reflexivity]|]. destruct (pack_be buf n). injection E as _ <-. cbn [f_mb]. apply upd_ne. exact N.
Qed.
Lemma flex_accept_where id mask s l r s' k : flex_inv s l -> flex_accept id mask s = CRet r s' -> f_mb s' k <> f_mb s k -> 0 <= k < f_rxc s /\ k = f_rxi s.
Proof.
  intros (_ & _ & _ & I4 & _) E D. unfold flex_accept in E. destruct (negb (id <? 536870912)); [injection E as <- <-; congruence|]. destruct (negb (mask <? 536870912)); [injection E as <- <-; congruence|].
  destruct (f_rxi s <? f_rxc s) eqn:E3; cbn [negb] in E; [|injection E as <- <-; congruence]. apply Z.ltb_lt in E3. cbv zeta in E. destruct (Z.eq_dec k (f_rxi s)) as [->|N]; [lia|]. exfalso. apply D. injection E as _ <-.
  unfold f_set_rxi, f_set_rximr, f_set_mb. cbn [f_mb]. destruct (id <? 2048); destruct (mask =? 0); cbn [f_mb f_frz]; try (apply upd_ne; exact N); destruct (f_frz s); cbn [f_mb]; apply upd_ne; exact N.
Qed.
