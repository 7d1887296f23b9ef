(** CanProofs2.v - proofs for PropCan.v: FlexCAN. *)
From Verif Require Import Base CanModel CanSpec CanProofs.

Lemma land29 x : 0 <= x < 536870912 -> Z.land x 536870911 = x.
Proof. intros H. change 536870911 with (Z.ones 29). apply land_small_ones; [lia|]. change (2 ^ 29) with 536870912. lia. Qed.
Lemma id_ext_field id : 0 <= id < 536870912 -> ID_EXT id = id /\ field id 0 29 = id.
Proof. intros H. unfold ID_EXT. split; [apply land29; exact H|]. rewrite field_arith by lia. rewrite Z.pow_0_r, Z.div_1_r. apply Z.mod_small. exact H. Qed.
Lemma id_std_field id : 0 <= id < 2048 -> field (ID_ID id) 18 11 = id.
Proof. intros H. change (ID_ID id) with (MIDvA id). rewrite midva_field. apply Z.mod_small. lia. Qed.
Lemma cs_tx n (x : bool) : 0 < n <= 8 -> let c := Z.lor (Z.shiftl 12 24) (Z.lor (Z.shiftl (Z.land n 15) 16) (if x then Z.lor (2 ^ 22) (2 ^ 21) else 0)) in
  field c 24 4 = 12 /\ Z.testbit c 21 = x /\ field c 16 4 = n.
Proof. intros H. cbv zeta. destruct x; destruct (n_cases n H) as [->|[->|[->|[->|[->|[->|[->| ->]]]]]]]; repeat split; reflexivity. Qed.
Lemma cs_rx f : frame_ok f -> let c := 2 * 2 ^ 24 + (if fr_ext f then 3 * 2 ^ 21 else 0) + Z.shiftl (fr_len f) 16 in
  field c 24 4 = 2 /\ Z.testbit c 21 = fr_ext f /\ field c 16 4 = fr_len f.
Proof. intros H. cbv zeta. destruct (fr_ext f); destruct (len_cases _ (len_range f H)) as [->|[->|[->|[->|[->|[->|[->|[->| ->]]]]]]]]; repeat split; reflexivity. Qed.
Lemma flex_filled_fields f : frame_ok f -> let b := flex_filled f in
  field (fb_cs b) 24 4 = 2 /\ Z.testbit (fb_cs b) 21 = fr_ext f /\ field (fb_cs b) 16 4 = fr_len f /\ bytes_be (fb_dl b) (fb_dh b) = fr_data f ++ repeat 0 (8 - length (fr_data f)) /\
  fb_id b = (if fr_ext f then fr_id f else fr_id f * 2 ^ 18).
Proof.
  intros H. cbv zeta. unfold flex_filled. destruct (pack_be (fr_data f) (fr_len f)) as [l h] eqn:P. cbn [fb_cs fb_id fb_dl fb_dh]. destruct (cs_rx f H) as (A & B & C). cbv zeta in A, B, C.
  split; [exact A|]. split; [exact B|]. split; [exact C|]. split; [|reflexivity]. destruct H as (_ & Hb & Hl). rewrite (be_bytes _ _ _ _ Hb P). apply sels_all. exact Hl.
Qed.
Lemma data_firstn f : firstn (Z.to_nat (fr_len f)) (fr_data f ++ repeat 0 (8 - length (fr_data f))) = fr_data f.
Proof. unfold fr_len. rewrite Nat2Z.id. rewrite firstn_app. rewrite Nat.sub_diag. rewrite firstn_all. cbn [firstn]. apply app_nil_r. Qed.

(** Write *)
Lemma flex_write_ok id buf n s s' : flex_write id buf n s = CRet n s' -> 0 < n -> exists k, k = u32 (f_rxc s + f_txi s) /\ 0 <= k < f_cnt s /\ id < 536870912 /\ n <= 8 /\ f_txc s <> 0 /\
  (let (l, h) := pack_be buf n in
   f_mb s' k = mkFmb (Z.lor (Z.shiftl 12 24) (Z.lor (Z.shiftl (Z.land n 15) 16) (if 2048 <=? id then Z.lor (2 ^ 22) (2 ^ 21) else 0))) (if 2048 <=? id then ID_EXT id else ID_ID id) l h) /\
  (forall j, j <> k -> f_mb s' j = f_mb s j) /\ field (fb_cs (f_mb s k)) 24 4 <> 12.
Proof.
  intros E Hn. unfold flex_write in E. destruct (0 <? n) eqn:E2; cbn [negb] in E; [|injection E; unfold C_EINVAL; lia]. destruct (n <=? 8) eqn:E3; cbn [negb] in E; [|injection E; unfold C_EINVAL; lia].
  cbv zeta in E. destruct (f_txc s =? 0) eqn:E4; [discriminate E|]. set (k := u32 (f_rxc s + f_txi s)) in *. assert (Hk0 : 0 <= k) by (apply Z.mod_pos_bound; lia).
  destruct (k <? f_cnt s) eqn:E5; cbn [negb] in E; [|injection E; unfold C_EINVAL; lia]. destruct (id <? 536870912) eqn:E6; cbn [negb] in E; [|injection E; unfold C_EINVAL; lia].
  unfold f_set_flag, f_set_txi in E. cbn [f_mb] in E. destruct (field (fb_cs (f_mb s k)) 24 4 =? 12) eqn:E7; [injection E; unfold C_EAGAIN; lia|]. apply Z.eqb_neq in E7.
  exists k. destruct (pack_be buf n) as [l h]. injection E as <-. unfold f_set_mb. cbn [f_mb]. split; [reflexivity|]. split; [lia|]. split; [lia|]. split; [lia|]. split; [lia|].
  split; [apply upd_eq|]. split; [intros j Hj; apply upd_ne; exact Hj|exact E7].
Qed.
Lemma flex_write_frame id buf n s s' : args_ok id buf n -> 0 < n -> flex_write id buf n s = CRet n s' -> exists k, 0 <= k < f_cnt s /\
  flex_is_tx (f_mb s' k) = true /\ flex_sends (f_mb s' k) = frame_of id buf n /\ (forall j, j <> k -> f_mb s' j = f_mb s j) /\ flex_is_tx (f_mb s k) = false.
Proof.
  intros (Hi & Hb & Hl) Hn E. destruct (flex_write_ok _ _ _ _ _ E Hn) as (k & _ & Hk & _ & H8 & _ & M & O & Q). exists k. split; [exact Hk|].
  destruct (pack_be buf n) as [l h] eqn:P. rewrite M. destruct (cs_tx n (2048 <=? id) ltac:(lia)) as (A & B & C). cbv zeta in A, B, C. split; [|split; [|split; [exact O|]]].
  - unfold flex_is_tx. cbn [fb_cs]. rewrite A. reflexivity.
  - unfold flex_sends. cbn [fb_cs fb_id fb_dl fb_dh]. rewrite B, C, (be_bytes buf n l h Hb P), sels_firstn by lia. unfold frame_of. f_equal. destruct (Z.leb_spec 2048 id) as [L|L].
    + destruct (id_ext_field id Hi) as [-> ->]. reflexivity.
    + apply id_std_field. lia.
  - unfold flex_is_tx. apply Z.eqb_neq. exact Q.
Qed.
(** A refused write leaves all mailboxes as they are, except that with auto-abort the one in use is aborted. *)
Lemma flex_write_ret id buf n s r s' : flex_write id buf n s = CRet r s' -> r = n /\ 0 < n \/ r < 0.
Proof.
  intros E. unfold flex_write in E. destruct (0 <? n) eqn:E2; cbn [negb] in E; [|injection E as <- _; unfold C_EINVAL; lia]. destruct (n <=? 8) eqn:E3; cbn [negb] in E; [|injection E as <- _; unfold C_EINVAL; lia].
  cbv zeta in E. destruct (f_txc s =? 0) eqn:E4; [discriminate E|]. destruct (negb (_ <? f_cnt s)); [injection E as <- _; unfold C_EINVAL; lia|]. destruct (negb (id <? 536870912)); [injection E as <- _; unfold C_EINVAL; lia|].
  destruct (field _ 24 4 =? 12); [injection E as <- _; unfold C_EAGAIN; lia|]. destruct (pack_be buf n). injection E as <- _. left. lia.
Qed.
Lemma flex_write_err id buf n s r s' : flex_write id buf n s = CRet r s' -> r < 0 -> forall j, flex_is_tx (f_mb s j) = false \/ f_abort s = false -> f_mb s' j = f_mb s j.
Proof.
  intros E Hr j Hj. unfold flex_write in E. destruct (0 <? n) eqn:E0; cbn [negb] in E; [|injection E as _ <-; reflexivity]. apply Z.ltb_lt in E0. destruct (negb (n <=? 8)); [injection E as _ <-; reflexivity|].
  cbv zeta in E. destruct (f_txc s =? 0); [discriminate E|]. set (k := u32 (f_rxc s + f_txi s)) in *. destruct (negb (k <? f_cnt s)); [injection E as _ <-; reflexivity|]. destruct (negb (id <? 536870912)); [injection E as _ <-; reflexivity|].
  unfold f_set_flag, f_set_txi in E. cbn [f_mb] in E. destruct (field (fb_cs (f_mb s k)) 24 4 =? 12) eqn:Q.
  - injection E as _ <-. destruct (f_abort s) eqn:A; [|reflexivity]. unfold f_set_mb. cbn [f_mb]. apply upd_ne. intros ->. destruct Hj as [Hj|Hj]; [|discriminate Hj]. unfold flex_is_tx in Hj. congruence.
  - destruct (pack_be buf n). injection E as <- _. exfalso. lia.
Qed.

(** Read *)
Definition rxcode (m : fmb) : Prop := field (fb_cs m) 24 4 = 2 \/ field (fb_cs m) 24 4 = 6.
Lemma flex_read_mb_frame i n s r id out s' : flex_read_mb i n s = RRet r id out s' -> r <> - C_EAGAIN -> i < f_rxc s ->
  f_flag s i = true /\ f_mb s' = f_mb s /\ f_flag s' i = false /\ (forall j, j <> i -> f_flag s' j = f_flag s j) /\
  forall f, frame_ok f -> f_mb s i = flex_filled f -> id = Some (fr_id f) /\ (if fr_len f =? 0 then r = - C_EINVAL /\ out = [] else r = fr_len f /\ out = fr_data f).
Proof.
  intros E Hr Hi. unfold flex_read_mb in E. replace (i <? f_rxc s) with true in E by (symmetry; apply Z.ltb_lt; lia). cbn [negb] in E.
  destruct (f_flag s i) eqn:F; cbn [negb] in E; [|injection E as <- _ _ _; congruence]. cbv zeta in E. destruct (negb (Z.land (field (fb_cs (f_mb s i)) 24 4) 1 =? 0)) eqn:E1; [injection E as <- _ _ _; congruence|].
  destruct (field (fb_cs (f_mb s i)) 24 4 =? 4) eqn:E2; [injection E as <- _ _ _; congruence|]. split; [reflexivity|].
  assert (St : s' = f_set_flag s i false). { destruct (_ || _) in E; [|injection E as _ _ _ <-; reflexivity]. destruct ((_ <=? 0) || _) in E; injection E as _ _ _ <-; reflexivity. }
  split; [rewrite St; reflexivity|]. split; [rewrite St; unfold f_set_flag; cbn [f_flag]; apply upd_eq|]. split; [intros j Hj; rewrite St; unfold f_set_flag; cbn [f_flag]; apply upd_ne; exact Hj|].
  intros f Hf M. destruct (flex_filled_fields f Hf) as (A & B & C & D & I). cbv zeta in *. rewrite M in E. rewrite A, C, D, I in E. rewrite land_pow_testbit, B, negb_involutive in E by lia. cbn [Z.eqb orb] in E. change (2 =? 2) with true in E. cbn [orb] in E.
  assert (Hid : (if fr_ext f then Z.land (if fr_ext f then fr_id f else fr_id f * 2 ^ 18) 536870911 else Z.land (Z.shiftr (if fr_ext f then fr_id f else fr_id f * 2 ^ 18) 18) 2047) = fr_id f).
  { destruct Hf as (Hf & _). destruct (fr_ext f); [apply land29; exact Hf|]. exact (proj1 (proj2 (std_shift (fr_id f) Hf))). }
  rewrite Hid in E. pose proof (len_range f Hf) as L. replace (8 <? fr_len f) with false in E by (symmetry; apply Z.ltb_ge; lia). rewrite orb_false_r in E. rewrite data_firstn in E.
  destruct (Z.leb_spec (fr_len f) 0) as [Z0|Z0].
  - replace (fr_len f =? 0) with true by (symmetry; apply Z.eqb_eq; lia). injection E as <- <- <- _. repeat split; reflexivity.
  - replace (fr_len f =? 0) with false by (symmetry; apply Z.eqb_neq; lia). injection E as <- <- <- _. repeat split; reflexivity.
Qed.
Lemma flex_read_mb_again i n s id out s' : flex_read_mb i n s = RRet (- C_EAGAIN) id out s' ->
  f_mb s' = f_mb s /\ f_rxc s' = f_rxc s /\ (forall j, j <> i -> f_flag s' j = f_flag s j) /\ (f_flag s' i = true -> f_flag s i = true) /\ (i < f_rxc s -> f_flag s i = true -> ~ rxcode (f_mb s i)).
Proof.
  intros E. unfold flex_read_mb in E. destruct (i <? f_rxc s) eqn:E0; cbn [negb] in E; [|discriminate E].
  destruct (f_flag s i) eqn:F; cbn [negb] in E; [|injection E as _ _ <-; rewrite F; repeat split; try congruence]. cbv zeta in E.
  destruct (negb (Z.land (field (fb_cs (f_mb s i)) 24 4) 1 =? 0)) eqn:E1.
  { injection E as _ _ <-. rewrite F. repeat split; try congruence. intros _ _ [K|K]; rewrite K in E1; discriminate E1. }
  destruct (field (fb_cs (f_mb s i)) 24 4 =? 4) eqn:E2.
  { apply Z.eqb_eq in E2. injection E as _ _ <-. unfold f_set_flag. cbn [f_mb f_flag f_rxc]. split; [reflexivity|]. split; [reflexivity|]. split; [intros j Hj; apply upd_ne; exact Hj|]. split; [reflexivity|]. intros _ _ [K|K]; congruence. }
  destruct ((field (fb_cs (f_mb s i)) 24 4 =? 2) || _) eqn:E3; [|discriminate E]. exfalso. destruct ((_ <=? 0) || _) eqn:E4; [discriminate E|]. injection E as K _ _ _. apply orb_false_iff in E4 as [E4 _]. unfold C_EAGAIN in K. lia.
Qed.
Lemma flex_scan_ok n : forall k s r id out s', flex_scan n k s = RRet r id out s' -> r <> - C_EAGAIN ->
  exists i s1, 0 <= i < Z.of_nat k /\ flex_read_mb i n s1 = RRet r id out s' /\ f_mb s1 = f_mb s /\ f_rxc s1 = f_rxc s /\ (f_flag s1 i = true -> f_flag s i = true).
Proof.
  induction k as [|k IH]; intros s r id out s' E Hr; cbn [flex_scan] in E; [injection E as <- _ _ _; congruence|]. destruct (flex_read_mb (Z.of_nat k) n s) as [r1 id1 out1 s1|] eqn:R; [|discriminate E].
  destruct (Z.eqb_spec r1 (- C_EAGAIN)) as [->|N]; cbn [negb] in E.
  - destruct (flex_read_mb_again _ _ _ _ _ _ R) as (A & B & C & _). destruct (IH s1 r id out s' E Hr) as (i & s2 & X1 & X2 & X3 & X4 & X5). exists i, s2. split; [lia|]. split; [exact X2|]. split; [congruence|]. split; [congruence|].
    intros K. rewrite <- C by lia. apply X5. exact K.
  - injection E as <- <- <- <-. exists (Z.of_nat k), s. repeat split; try lia; try assumption. tauto.
Qed.
Lemma flex_scan_again n i : forall k s id out s', flex_scan n k s = RRet (- C_EAGAIN) id out s' -> 0 <= i < Z.of_nat k -> i < f_rxc s -> f_flag s i = true -> ~ rxcode (f_mb s i).
Proof.
  induction k as [|k IH]; intros s id out s' E Hi Hc F; [lia|]. cbn [flex_scan] in E. destruct (flex_read_mb (Z.of_nat k) n s) as [r1 id1 out1 s1|] eqn:R; [|discriminate E].
  destruct (Z.eqb_spec r1 (- C_EAGAIN)) as [->|N]; cbn [negb] in E; [|injection E as K _ _ _; congruence].
  destruct (flex_read_mb_again _ _ _ _ _ _ R) as (A & B & C & _ & D). destruct (Z.eq_dec i (Z.of_nat k)) as [->|Ne]; [apply D; assumption|].
  specialize (IH s1 id out s' E ltac:(lia)). rewrite A, B in IH. apply IH; [exact Hc|]. rewrite C by exact Ne. exact F.
Qed.
Lemma flex_read_frame n s r id out s' : 0 <= f_rxi s <= f_rxc s -> 0 < n <= 8 -> flex_read n s = RRet r id out s' -> r <> - C_EAGAIN ->
  exists i, 0 <= i < f_rxi s /\ f_flag s i = true /\ f_flag s' i = false /\ f_mb s' = f_mb s /\
  forall f, frame_ok f -> f_mb s i = flex_filled f -> id = Some (fr_id f) /\ (if fr_len f =? 0 then r = - C_EINVAL /\ out = [] else r = fr_len f /\ out = fr_data f).
Proof.
  intros H Hn E Hr. unfold flex_read in E. replace (0 <? n) with true in E by (symmetry; apply Z.ltb_lt; lia). replace (n <=? 8) with true in E by (symmetry; apply Z.leb_le; lia). cbn [negb] in E.
  destruct (flex_scan_ok _ _ _ _ _ _ _ E Hr) as (i & s1 & A & B & C & D & F). destruct (flex_read_mb_frame _ _ _ _ _ _ _ B Hr ltac:(lia)) as (X1 & X2 & X3 & _ & X4).
  exists i. split; [lia|]. split; [apply F; exact X1|]. split; [exact X3|]. split; [congruence|]. rewrite C in X4. exact X4.
Qed.
Lemma flex_read_progress n s i f : 0 <= f_rxi s <= f_rxc s -> 0 < n <= 8 -> frame_ok f -> 0 <= i < f_rxi s -> f_flag s i = true -> f_mb s i = flex_filled f ->
  exists r id out s', flex_read n s = RRet r id out s' /\ r <> - C_EAGAIN.
Proof.
  intros H Hn Hf Hi F M. unfold flex_read. replace (0 <? n) with true by (symmetry; apply Z.ltb_lt; lia). replace (n <=? 8) with true by (symmetry; apply Z.leb_le; lia). cbn [negb].
  assert (D : forall k s0, flex_scan n k s0 <> RUb).
  { induction k as [|k IH]; intros s0; cbn [flex_scan]; [discriminate|]. destruct (flex_read_mb _ n s0) eqn:R; [destruct (negb _); [discriminate|apply IH]|]. exfalso. unfold flex_read_mb in R. cbv zeta in R.
    repeat match type of R with context[if ?b then _ else _] => destruct b; try discriminate R end. }
  destruct (flex_scan n (Z.to_nat (f_rxi s)) s) as [r id out s'|] eqn:E; [|destruct (D _ _ E)]. exists r, id, out, s'. split; [reflexivity|]. intros ->.
  apply (flex_scan_again n i _ _ _ _ _ E); [lia|lia|exact F|]. left. rewrite M. exact (proj1 (flex_filled_fields f Hf)).
Qed.
