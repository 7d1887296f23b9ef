(** CanProofs6.v - proofs for PropCan.v: M_CAN. *)
From Verif Require Import Base CanModel CanSpec CanProofs CanProofs2 CanProofs3.

(** * Write *)
Lemma mcan_t0 id : 0 <= id < 536870912 -> let t := if id <? 2048 then Z.land (u32 (Z.shiftl id 18)) 536870911 else Z.lor (2 ^ 30) (Z.land id 536870911) in
  Z.testbit t 30 = (2048 <=? id) /\ (if 2048 <=? id then field t 0 29 = id else field t 18 11 = id).
Proof.
  intros H. cbv zeta. destruct (Z.ltb_spec id 2048) as [L|L].
  - replace (2048 <=? id) with false by (symmetry; apply Z.leb_gt; lia). rewrite Z.shiftl_mul_pow2 by lia. unfold u32. rewrite Z.mod_small by lia. rewrite land29 by lia. destruct (std_shift id ltac:(lia)) as (_ & B & C). split; [apply C; lia|exact B].
  - replace (2048 <=? id) with true by (symmetry; apply Z.leb_le; lia). rewrite land29 by lia. assert (E : Z.lor (2 ^ 30) id = 2 ^ 30 + id) by (rewrite Z.lor_comm; change (2 ^ 30) with (Z.shiftl 1 30) at 1; rewrite lor_add by lia; lia). rewrite E. split.
    + apply bit_add; lia.
    + rewrite field_arith by lia. rewrite Z.pow_0_r, Z.div_1_r. replace (2 ^ 30 + id) with (id + 2 * 2 ^ 29) by lia. rewrite Z.mod_add by lia. apply Z.mod_small. lia.
Qed.
Lemma len_field n : 0 <= n <= 8 -> field (Z.shiftl (Z.land n 15) 16) 16 4 = n.
Proof. intros H. destruct (len_cases n H) as [->|[->|[->|[->|[->|[->|[->|[->| ->]]]]]]]]; reflexivity. Qed.
Lemma mcan_write_frame id buf n s r s' : args_ok id buf n -> mcan_write id buf n s = CRet r s' -> 0 <= r ->
  r = n /\ m_bo s = false /\ m_full s = false /\ m_pend s' (m_pi s) = true /\ mcan_sends (m_tx s' (m_pi s)) = frame_of id buf n /\ forall j, j <> m_pi s -> m_tx s' j = m_tx s j /\ m_pend s' j = m_pend s j.
Proof.
  intros (Hi & Hb & Hl) E Hr. unfold mcan_write in E. destruct (n <=? 8) eqn:E8; cbn [negb] in E; [|injection E as <- _; unfold C_EINVAL in Hr; lia]. apply Z.leb_le in E8. destruct (_ && _); [injection E as <- _; unfold C_EBUSY in Hr; lia|]. cbv zeta in E. unfold m_set_rec in E. cbn [m_bo m_full m_pi m_tx m_pend] in E.
  destruct (m_bo s); [injection E as <- _; unfold C_EIO in Hr; lia|]. destruct (m_full s); [injection E as <- _; unfold C_EAGAIN in Hr; lia|]. destruct (pack_le buf n) as [l h] eqn:P.
  set (t := if id <? 2048 then _ else _) in E. destruct (mcan_t0 id Hi) as [A B]. cbv zeta in A, B. fold t in A, B. injection E as <- <-. cbn [m_tx m_pend]. do 3 (split; [reflexivity|]). split; [apply upd_eq|]. split; [|intros j Hj; split; apply upd_ne; exact Hj].
  rewrite upd_eq. unfold mcan_sends. cbn [e0 e1 e2 e3]. cbv zeta. rewrite A, len_field by lia. rewrite (le_bytes buf n l h Hb P), sels_firstn by lia. unfold frame_of. f_equal. destruct (2048 <=? id); exact B.
Qed.
Lemma mcan_write_err id buf n s r s' : mcan_write id buf n s = CRet r s' -> r < 0 -> 0 <= n -> m_tx s' = m_tx s /\ m_pend s' = m_pend s.
Proof.
  intros E Hr Hn. unfold mcan_write in E. destruct (negb (n <=? 8)); [injection E as _ <-; split; reflexivity|]. destruct (_ && _); [injection E as _ <-; split; reflexivity|]. cbv zeta in E. destruct (m_bo _); [injection E as _ <-; split; reflexivity|]. destruct (m_full _); [injection E as _ <-; split; reflexivity|].
  destruct (pack_le buf n). injection E as <- _. lia.
Qed.
Lemma mcan_write_other id buf n s r s' : mcan_write id buf n s = CRet r s' -> m_rx s' = m_rx s /\ m_gi s' = m_gi s /\ m_fl s' = m_fl s /\ m_sf s' = m_sf s /\ m_ef s' = m_ef s /\ m_n11 s' = m_n11 s /\ m_n29 s' = m_n29 s /\ m_bo s' = m_bo s.
Proof.
  intros E. unfold mcan_write in E. destruct (negb (n <=? 8)); [injection E as _ <-; repeat split; reflexivity|]. destruct (_ && _); [injection E as _ <-; repeat split; reflexivity|]. cbv zeta in E.
  change (m_bo (m_set_rec s false (m_initb s))) with (m_bo s) in E. destruct (m_bo s) eqn:B; [injection E as _ <-; unfold m_set_rec; cbn [m_rx m_gi m_fl m_sf m_ef m_n11 m_n29 m_bo]; tauto|]. destruct (m_full _); [injection E as _ <-; unfold m_set_rec; cbn [m_rx m_gi m_fl m_sf m_ef m_n11 m_n29 m_bo]; tauto|].
  destruct (pack_le buf n). injection E as _ <-. unfold m_set_rec; cbn [m_rx m_gi m_fl m_sf m_ef m_n11 m_n29 m_bo]; tauto.
Qed.
Lemma mcan_write_def id buf n s : mcan_write id buf n s <> CUb.
Proof. unfold mcan_write. destruct (negb (n <=? 8)); [discriminate|]. destruct (_ && _); [discriminate|]. cbv zeta. destruct (m_bo _); [discriminate|]. destruct (m_full _); [discriminate|]. destruct (pack_le buf n). discriminate. Qed.

(** * Read and the FIFO *)
Lemma rxf0s_fl s : 0 <= m_gi s < 64 -> 0 <= m_fl s <= 64 -> Z.land (mcan_rxf0s s) 63 = m_fl s mod 64 /\ Z.land (Z.shiftr (mcan_rxf0s s) 8) 63 = m_gi s.
Proof.
  intros G F. unfold mcan_rxf0s. change 63 with (Z.ones 6). rewrite !Z.land_ones by lia. rewrite Z.shiftr_div_pow2 by lia. change (2 ^ 6) with 64. change (2 ^ 8) with 256. split.
  - replace (m_gi s * 256 + m_fl s) with (m_fl s + (m_gi s * 4) * 64) by lia. apply Z.mod_add. lia.
  - rewrite Z.div_add_l by lia. rewrite (Z.div_small (m_fl s)) by lia. rewrite Z.add_0_r. apply Z.mod_small. exact G.
Qed.
Lemma mcan_filled_fields f : frame_ok f -> let b := mcan_filled f in Z.land (Z.shiftr (e1 b) 16) 15 = fr_len f /\ bytes_le (e2 b) (e3 b) = fr_data f ++ repeat 0 (8 - length (fr_data f)) /\
  (if Z.land (e0 b) (2 ^ 30) =? 0 then Z.shiftr (Z.land (e0 b) 536870911) 18 else Z.land (e0 b) 536870911) = fr_id f.
Proof.
  intros H. cbv zeta. unfold mcan_filled. destruct (pack_le (fr_data f) (fr_len f)) as [l h] eqn:P. cbn [e0 e1 e2 e3]. split; [|split].
  - destruct (len_cases _ (len_range f H)) as [->|[->|[->|[->|[->|[->|[->|[->| ->]]]]]]]]; reflexivity.
  - destruct H as (_ & Hb & Hl). rewrite (le_bytes _ _ _ _ Hb P). apply sels_all. exact Hl.
  - rewrite land_pow_testbit by lia. destruct H as (Hf & _). destruct (fr_ext f).
    + destruct (bit_add 30 (fr_id f) ltac:(lia) ltac:(lia)) as [-> _]. cbn [negb]. change 536870911 with (Z.ones 29). rewrite Z.land_ones by lia. replace (2 ^ 30 + fr_id f) with (fr_id f + 2 * 2 ^ 29) by lia. rewrite Z.mod_add by lia. apply Z.mod_small. lia.
    + destruct (std_shift (fr_id f) Hf) as (A & _ & C). rewrite C by lia. cbn [negb]. rewrite land29 by lia. exact A.
Qed.
(** A read takes the oldest *)
Lemma mcan_read_head n s f c r id out s' : rep s (f :: c) -> mcan_read n s = RRet r id out s' -> 0 < n <= 8 -> (length c < 63)%nat ->
  r = fr_len f /\ id = Some (fr_id f) /\ out = fr_data f /\ rep s' c.
Proof.
  intros (R1 & R2 & R3 & R4 & R5) E Hn Hc. unfold mcan_read in E. replace (0 <? n) with true in E by (symmetry; apply Z.ltb_lt; lia). replace (n <=? 8) with true in E by (symmetry; apply Z.leb_le; lia). cbn [negb] in E. cbn [length] in *.
  destruct (rxf0s_fl s R2 ltac:(lia)) as [A B]. rewrite A in E. rewrite Z.mod_small in E by lia. replace (m_fl s =? 0) with false in E by (symmetry; apply Z.eqb_neq; lia). rewrite B in E. cbv zeta in E.
  pose proof (R5 0%nat ltac:(lia) f) as M. cbn [nth] in M. rewrite Z.add_0_r, Z.mod_small in M by lia. rewrite M in E. apply Forall_cons in R4 as [Hf R4]. destruct (mcan_filled_fields f Hf) as (F1 & F2 & F3). cbv zeta in F1, F2, F3. rewrite F1, F2, F3 in E.
  pose proof (len_range f Hf) as L. replace (fr_len f <=? 8) with true in E by (symmetry; apply Z.leb_le; lia). rewrite data_firstn in E. injection E as <- <- <- <-. do 3 (split; [reflexivity|]).
  unfold rep, mcan_ack. cbn [m_rx m_gi m_fl]. split; [lia|]. split; [apply Z.mod_pos_bound; lia|]. split; [lia|]. split; [exact R4|]. intros i Hi d. rewrite Zplus_mod_idemp_l. pose proof (R5 (S i) ltac:(lia) d) as K. cbn [nth] in K. rewrite <- K. f_equal. f_equal. lia.
Qed.
Lemma mcan_read_none n s c r id out s' : rep s c -> mcan_read n s = RRet r id out s' -> r < 0 \/ id = None -> s' = s /\ id = None /\ out = [].
Proof.
  intros (R1 & R2 & R3 & R4 & R5) E H. unfold mcan_read in E. destruct (negb (0 <? n)); [injection E as _ <- <- <-; tauto|]. destruct (negb (n <=? 8)); [injection E as _ <- <- <-; tauto|]. destruct (_ =? 0); [injection E as _ <- <- <-; tauto|].
  cbv zeta in E. injection E as E1 E2 _ _. exfalso. destruct H as [H|H]; [|congruence]. assert (0 <= Z.land (Z.shiftr (e1 (m_rx s (Z.land (Z.shiftr (mcan_rxf0s s) 8) 63))) 16) 15) by (apply Z.land_nonneg; lia). lia.
Qed.
Lemma mcan_read_cases n s c r id out s' : rep s c -> mcan_read n s = RRet r id out s' ->
  (s' = s /\ id = None /\ r < 0) \/ (exists f c', c = f :: c' /\ id = Some (fr_id f) /\ out = fr_data f /\ rep s' c').
Proof.
  intros R E. pose proof R as (R1 & R2 & R3 & R4 & R5). unfold mcan_read in E. destruct (0 <? n) eqn:N0; cbn [negb] in E; [|injection E as <- <- _ <-; left; unfold C_EINVAL; repeat split; lia]. destruct (n <=? 8) eqn:N8; cbn [negb] in E; [|injection E as <- <- _ <-; left; unfold C_EINVAL; repeat split; lia].
  destruct (rxf0s_fl s R2 ltac:(lia)) as [A B]. rewrite A in E. destruct (Z.eqb_spec (m_fl s mod 64) 0) as [Z0|Z0]; [injection E as <- <- _ <-; left; unfold C_EAGAIN; repeat split; lia|]. right.
  destruct c as [|f c]; [cbn [length] in R1; rewrite R1 in Z0; destruct Z0; reflexivity|]. exists f, c. split; [reflexivity|]. assert (Hc : (length c < 63)%nat). { cbn [length] in *. destruct (Nat.eq_dec (length c) 63%nat) as [K|K]; [rewrite R1, K in Z0; destruct Z0; reflexivity|lia]. }
  assert (E' : mcan_read n s = RRet r id out s'). { unfold mcan_read. rewrite N0, N8. cbn [negb]. rewrite A. apply Z.eqb_neq in Z0. rewrite Z0. exact E. }
  destruct (mcan_read_head n s f c r id out s' R E' ltac:(lia) Hc) as (_ & H2 & H3 & H4). tauto.
Qed.
Lemma mcan_receives_rep f s c : rep s c -> frame_ok f -> (length c < 64)%nat -> rep (mcan_receives f s) (c ++ [f]).
Proof.
  intros (R1 & R2 & R3 & R4 & R5) Hf Hc. unfold mcan_receives. replace (64 <=? m_fl s) with false by (symmetry; apply Z.leb_gt; lia). unfold rep. cbn [m_rx m_gi m_fl]. rewrite app_length. cbn [length].
  split; [lia|]. split; [exact R2|]. split; [lia|]. split; [apply Forall_app; split; [exact R4|constructor; [exact Hf|constructor]]|]. intros i Hi d. destruct (Nat.eq_dec i (length c)) as [->|N].
  - rewrite R1, upd_eq, app_nth2 by lia. rewrite Nat.sub_diag. reflexivity.
  - rewrite app_nth1 by lia. rewrite upd_ne; [apply R5; lia|]. rewrite R1. intros K. assert (Q : (m_gi s + Z.of_nat i) = (m_gi s + Z.of_nat (length c)) + 64 * ((m_gi s + Z.of_nat i) / 64 - (m_gi s + Z.of_nat (length c)) / 64)).
    { pose proof (Z.div_mod (m_gi s + Z.of_nat i) 64 ltac:(lia)). pose proof (Z.div_mod (m_gi s + Z.of_nat (length c)) 64 ltac:(lia)). lia. }
    lia.
Qed.
Lemma rep_ext s s' c : rep s c -> m_rx s' = m_rx s -> m_gi s' = m_gi s -> m_fl s' = m_fl s -> rep s' c.
Proof. intros R A B C. unfold rep. rewrite A, B, C. exact R. Qed.
Definition idata (f : frame) : Z * list Z := (fr_id f, fr_data f).
Lemma mcan_accept_other id mask s r s' : mcan_accept id mask s = CRet r s' -> m_rx s' = m_rx s /\ m_gi s' = m_gi s /\ m_fl s' = m_fl s /\ m_bo s' = m_bo s /\ m_initb s' = m_initb s /\ m_rec s' = m_rec s.
Proof.
  intros E. unfold mcan_accept in E. destruct (negb _); [injection E as _ <-; repeat split; reflexivity|]. destruct (negb _); [injection E as _ <-; repeat split; reflexivity|]. destruct (id <? 2048); destruct (negb _); injection E as _ <-; repeat split; reflexivity.
Qed.
Lemma fifo_run_order : forall ops s c ins outs s', rep s c -> Forall rx_ok ops -> fifo_run ops s = (ins, outs, s') -> exists c', rep s' c' /\ map idata (c ++ ins) = outs ++ map idata c'.
Proof.
  induction ops as [|o ops IH]; intros s c ins outs s' R Ho E.
  - cbn [fifo_run] in E. injection E as <- <- <-. exists c. split; [exact R|]. rewrite app_nil_r. reflexivity.
  - apply Forall_cons in Ho as [Ho Hos]. destruct o as [id mask|id buf n|n|f k|k]; cbn [fifo_run mcan_step] in E.
    + destruct (mcan_accept id mask s) as [r s1|] eqn:A; cbn [ret_c] in E; [|injection E as <- <- <-; exists c; split; [exact R|rewrite app_nil_r; reflexivity]]. destruct (mcan_accept_other _ _ _ _ _ A) as (X1 & X2 & X3 & _).
      exact (IH s1 c ins outs s' (rep_ext s s1 c R X1 X2 X3) Hos E).
    + destruct (mcan_write id buf n s) as [r s1|] eqn:A; cbn [ret_c] in E; [|injection E as <- <- <-; exists c; split; [exact R|rewrite app_nil_r; reflexivity]]. destruct (mcan_write_other _ _ _ _ _ _ A) as (X1 & X2 & X3 & _).
      exact (IH s1 c ins outs s' (rep_ext s s1 c R X1 X2 X3) Hos E).
    + destruct (mcan_read n s) as [r id out s1|] eqn:A; [|injection E as <- <- <-; exists c; split; [exact R|rewrite app_nil_r; reflexivity]]. destruct (fifo_run ops s1) as [[i o] s2] eqn:F. destruct (mcan_read_cases n s c r id out s1 R A) as [(-> & -> & _)|(f & c0 & -> & -> & -> & R1)].
      * injection E as <- <- <-. exact (IH s c i o s2 R Hos F).
      * injection E as <- <- <-. destruct (IH s1 c0 i o s2 R1 Hos F) as (c' & R' & M). exists c'. split; [exact R'|]. cbn [app map]. rewrite M. reflexivity.
    + cbn [rx_ok] in Ho. destruct (mcan_takes s f) eqn:T.
      * cbn [andb] in E. destruct (fifo_run ops (mcan_receives f s)) as [[i o] s2] eqn:F. pose proof R as (R1 & R2 & R3 & _). destruct (Z.ltb_spec (m_fl s) 64) as [L|L].
        -- injection E as <- <- <-. destruct (IH _ (c ++ [f]) i o s2 (mcan_receives_rep f s c R Ho ltac:(lia)) Hos F) as (c' & R' & M). exists c'. split; [exact R'|]. rewrite <- M, <- app_assoc. reflexivity.
        -- injection E as <- <- <-. unfold mcan_receives in F. replace (64 <=? m_fl s) with true in F by (symmetry; apply Z.leb_le; lia). exact (IH s c i o s2 R Hos F).
      * cbn [andb] in E. destruct (fifo_run ops s) as [[i o] s2] eqn:F. injection E as <- <- <-. exact (IH s c i o s2 R Hos F).
    + refine (IH _ c ins outs s' _ Hos E). apply (rep_ext s _ c R); reflexivity.
Qed.
Lemma mcan_read_progress n s c : rep s c -> 0 < n <= 8 -> (0 < length c < 64)%nat -> exists r id out s', mcan_read n s = RRet r id out s' /\ 0 <= r /\ m_fl s' = m_fl s - 1.
Proof.
  intros R Hn Hc. destruct c as [|f c]; [cbn [length] in Hc; lia|]. assert (D : mcan_read n s <> RUb). { unfold mcan_read. destruct (negb _); [discriminate|]. destruct (negb _); [discriminate|]. destruct (_ =? 0); discriminate. }
  destruct (mcan_read n s) as [r id out s'|] eqn:E; [|congruence]. exists r, id, out, s'. split; [reflexivity|]. destruct (mcan_read_head n s f c r id out s' R E Hn) as (-> & _ & _ & R'); [cbn [length] in Hc; lia|]. pose proof R as (R1 & _ & _ & R4 & _). apply Forall_cons in R4 as [Hf _]. pose proof (len_range f Hf).
  destruct R' as (R1' & _). cbn [length] in *. lia.
Qed.
(** A full FIFO: no read, no reception, for ever *)
Lemma mcan_full_read n s : 0 <= m_gi s < 64 -> m_fl s = 64 -> exists r, mcan_read n s = RRet r None [] s /\ r < 0.
Proof.
  intros G F. unfold mcan_read. destruct (negb _); [eexists; split; [reflexivity|unfold C_EINVAL; lia]|]. destruct (negb _); [eexists; split; [reflexivity|unfold C_EINVAL; lia]|]. destruct (rxf0s_fl s G ltac:(lia)) as [-> _]. rewrite F. change (64 mod 64 =? 0) with true. cbv iota. eexists. split; [reflexivity|unfold C_EAGAIN; lia].
Qed.
Lemma mcan_deaf : forall ops s acc s' acc', 0 <= m_gi s < 64 -> m_fl s = 64 -> run mcan_step ops s acc = Some (s', acc') -> m_gi s' = m_gi s /\ m_fl s' = 64 /\ m_rx s' = m_rx s.
Proof.
  induction ops as [|o ops IH]; intros s acc s' acc' G F E; cbn [run] in E; [injection E as <- _; tauto|]. destruct (mcan_step o s acc) as [[s1 a1]|] eqn:S; [|discriminate E].
  assert (X : m_rx s1 = m_rx s /\ m_gi s1 = m_gi s /\ m_fl s1 = m_fl s).
  { destruct o as [id mask|id buf n|n|f k|k]; cbn [mcan_step] in S.
    - destruct (mcan_accept id mask s) eqn:A; [|discriminate S]. injection S as <- _. destruct (mcan_accept_other _ _ _ _ _ A) as (X1 & X2 & X3 & _). tauto.
    - destruct (mcan_write id buf n s) eqn:A; [|discriminate S]. injection S as <- _. destruct (mcan_write_other _ _ _ _ _ _ A) as (X1 & X2 & X3 & _). tauto.
    - destruct (mcan_full_read n s G F) as (r & A & _). rewrite A in S. injection S as <- _. tauto.
    - injection S as <- _. destruct (mcan_takes s f); [|tauto]. unfold mcan_receives. rewrite F. change (64 <=? 64) with true. cbv iota. tauto.
    - injection S as <- _. cbn [m_rx m_gi m_fl]. tauto. }
  destruct X as (X1 & X2 & X3). destruct (IH s1 a1 s' acc') as (Y1 & Y2 & Y3); [lia|lia|exact E|]. rewrite Y1, Y2, Y3. tauto.
Qed.

(** * Acceptance *)
Definition std_entry (id mask : Z) : Z := Z.lor (Z.lor (Z.lor (Z.shiftl 2 30) (Z.shiftl 1 27)) (Z.shiftl (Z.land id 2047) 16)) (Z.land mask 2047).
Definition ext_entry (id mask : Z) : Z * Z := (Z.lor (Z.shiftl 1 29) (Z.land id 536870911), Z.lor (Z.shiftl 2 30) (Z.land mask 536870911)).
Lemma field_lor a b lo n : field (Z.lor a b) lo n = Z.lor (field a lo n) (field b lo n).
Proof. unfold field. rewrite Z.shiftr_lor, Z.land_lor_distr_l. reflexivity. Qed.
Lemma land_ones_bound x n : 0 <= n -> 0 <= Z.land x (Z.ones n) < 2 ^ n.
Proof. intros H. rewrite Z.land_ones by lia. apply Z.mod_pos_bound. lia. Qed.
Lemma field_low x n : 0 <= n -> 0 <= x < 2 ^ n -> field x 0 n = x.
Proof. intros. unfold field. rewrite Z.shiftr_0_r. apply land_small_ones; assumption. Qed.
Lemma field_high x lo n : 0 <= lo -> 0 <= n -> 0 <= x < 2 ^ lo -> field x lo n = 0.
Proof. intros. rewrite field_arith by lia. rewrite Z.div_small by lia. apply Z.mod_0_l. lia. Qed.
Lemma std_entry_fields id mask : 0 <= id < 2048 -> field (std_entry id mask) 30 2 = 2 /\ field (std_entry id mask) 27 3 = 1 /\ field (std_entry id mask) 0 11 = Z.land mask 2047 /\ field (std_entry id mask) 16 11 = id.
Proof.
  intros Hi. unfold std_entry. change 2047 with (Z.ones 11). rewrite (land_small_ones id 11) by (change (2 ^ 11) with 2048; lia). pose proof (land_ones_bound mask 11 ltac:(lia)) as Hm. set (m := Z.land mask (Z.ones 11)) in *. clearbody m. change (2 ^ 11) with 2048 in Hm.
  rewrite !field_lor. rewrite (field_high m 30), (field_high m 27), (field_high m 16) by lia. rewrite (field_low m) by (change (2 ^ 11) with 2048; lia). rewrite (Z.shiftl_mul_pow2 id) by lia.
  rewrite (field_high (id * 2 ^ 16) 30), (field_high (id * 2 ^ 16) 27) by lia.
  assert (A : field (id * 2 ^ 16) 0 11 = 0). { rewrite field_arith by lia. rewrite Z.pow_0_r, Z.div_1_r. replace (id * 2 ^ 16) with (id * 32 * 2 ^ 11) by lia. apply Z.mod_mul. lia. }
  assert (B : field (id * 2 ^ 16) 16 11 = id). { rewrite field_arith by lia. rewrite Z.div_mul by lia. apply Z.mod_small. change (2 ^ 11) with 2048. lia. }
  rewrite A, B. rewrite !Z.lor_0_r. repeat split.
Qed.
Lemma std_entry_match id mask x : 0 <= id < 2048 -> 0 <= x < 2048 -> std_match (std_entry id mask) x = (Z.land x mask =? Z.land id mask).
Proof.
  intros Hi Hx. destruct (std_entry_fields id mask Hi) as (A & B & C & D). unfold std_match. rewrite A, B, C, D. change ((2 =? 2) && (1 =? 1)) with true. cbn [andb]. change 2047 with (Z.ones 11).
  assert (R : forall y, 0 <= y < 2048 -> Z.land y (Z.land mask (Z.ones 11)) = Z.land y mask). { intros y Hy. rewrite (Z.land_comm mask), Z.land_assoc, (land_small_ones y 11) by (change (2 ^ 11) with 2048; lia). reflexivity. }
  rewrite !R by assumption. reflexivity.
Qed.
Lemma ext_entry_match id mask x : 0 <= id < 536870912 -> 0 <= x < 536870912 -> ext_match (ext_entry id mask) x = (Z.land x mask =? Z.land id mask).
Proof.
  intros Hi Hx. unfold ext_match, ext_entry. cbn [fst snd]. change 536870911 with (Z.ones 29). rewrite (land_small_ones id 29) by (change (2 ^ 29) with 536870912; lia). pose proof (land_ones_bound mask 29 ltac:(lia)) as Hm.
  rewrite !field_lor. rewrite (field_high id 29), (field_high (Z.land mask _) 30), (field_low id), (field_low (Z.land mask _)) by lia.
  change (field (Z.shiftl 1 29) 29 3) with 1. change (field (Z.shiftl 2 30) 30 2) with 2. change (field (Z.shiftl 2 30) 0 29) with 0. change (field (Z.shiftl 1 29) 0 29) with 0. rewrite !Z.lor_0_l, !Z.lor_0_r. change ((1 =? 1) && (2 =? 2)) with true. cbn [andb].
  assert (R : forall y, 0 <= y < 536870912 -> Z.land y (Z.land mask (Z.ones 29)) = Z.land y mask). { intros y Hy. rewrite (Z.land_comm mask), Z.land_assoc, (land_small_ones y 29) by (change (2 ^ 29) with 536870912; lia). reflexivity. }
  rewrite !R by assumption. reflexivity.
Qed.
Lemma any_spec g : forall n, any g n = true <-> exists k, 0 <= k < Z.of_nat n /\ g k = true.
Proof.
  induction n as [|n IH]; cbn [any].
  - split; [discriminate|]. intros (k & H & _). lia.
  - rewrite orb_true_iff, IH. split.
    + intros [H|(k & H & G)]; [exists (Z.of_nat n)|exists k]; (split; [lia|assumption]).
    + intros (k & H & G). destruct (Z.eq_dec k (Z.of_nat n)) as [->|N]; [left; exact G|right; exists k; split; [lia|exact G]].
Qed.
Definition m_inv (s : mcan) (l : list (Z * Z)) : Prop :=
  0 <= m_n11 s <= 128 /\ 0 <= m_n29 s <= 64 /\ Forall (fun p => 0 <= fst p < 536870912) l /\
  (forall k, m_n11 s <= k < 128 -> m_sf s k = 3 * 2 ^ 30) /\ (forall k, m_n29 s <= k < 64 -> fst (m_ef s k) = 0) /\
  (forall k, 0 <= k < m_n11 s -> exists id mask, In (id, mask) l /\ id < 2048 /\ m_sf s k = std_entry id mask) /\
  (forall k, 0 <= k < m_n29 s -> exists id mask, In (id, mask) l /\ 2048 <= id /\ m_ef s k = ext_entry id mask) /\
  (forall id mask, In (id, mask) l -> if id <? 2048 then exists k, 0 <= k < m_n11 s /\ m_sf s k = std_entry id mask else exists k, 0 <= k < m_n29 s /\ m_ef s k = ext_entry id mask).
Lemma m_inv_takes s l f : m_inv s l -> frame_ok f -> mcan_takes s f = true <-> wanted l f.
Proof.
  intros (I1 & I2 & I3 & I4 & I5 & I6 & I7 & I8) (Hf & _). rewrite List.Forall_forall in I3. unfold mcan_takes. destruct (fr_ext f) eqn:X; rewrite any_spec; split.
  - intros (k & Hk & T). change (Z.of_nat 64) with 64 in Hk. destruct (Z.lt_ge_cases k (m_n29 s)) as [L|L].
    + destruct (I7 k ltac:(lia)) as (id & mask & Hin & Hid & M). specialize (I3 _ Hin). cbn [fst] in I3. rewrite M, ext_entry_match in T by (assumption || lia). exists id, mask. split; [exact Hin|]. split; [rewrite X; symmetry; apply Z.leb_le; lia|]. lia.
    + unfold ext_match in T. rewrite (I5 k ltac:(lia)) in T. discriminate T.
  - intros (id & mask & Hin & A1 & A2). specialize (I8 id mask Hin). specialize (I3 _ Hin). cbn [fst] in I3. rewrite X in A1. symmetry in A1. apply Z.leb_le in A1. replace (id <? 2048) with false in I8 by (symmetry; apply Z.ltb_ge; lia). destruct I8 as (k & Hk & M).
    exists k. split; [lia|]. rewrite M, ext_entry_match by (assumption || lia). apply Z.eqb_eq. exact A2.
  - intros (k & Hk & T). change (Z.of_nat 128) with 128 in Hk. destruct (Z.lt_ge_cases k (m_n11 s)) as [L|L].
    + destruct (I6 k ltac:(lia)) as (id & mask & Hin & Hid & M). specialize (I3 _ Hin). cbn [fst] in I3. rewrite M, std_entry_match in T by (assumption || lia). exists id, mask. split; [exact Hin|]. split; [rewrite X; symmetry; apply Z.leb_gt; lia|]. lia.
    + unfold std_match in T. rewrite (I4 k ltac:(lia)) in T. discriminate T.
  - intros (id & mask & Hin & A1 & A2). specialize (I8 id mask Hin). specialize (I3 _ Hin). cbn [fst] in I3. rewrite X in A1. symmetry in A1. apply Z.leb_gt in A1. replace (id <? 2048) with true in I8 by (symmetry; apply Z.ltb_lt; lia). destruct I8 as (k & Hk & M).
    exists k. split; [lia|]. rewrite M, std_entry_match by (assumption || lia). apply Z.eqb_eq. exact A2.
Qed.
Lemma m_inv_ext s s' l : m_inv s l -> m_sf s' = m_sf s -> m_ef s' = m_ef s -> m_n11 s' = m_n11 s -> m_n29 s' = m_n29 s -> m_inv s' l.
Proof. intros I A B C D. unfold m_inv. rewrite A, B, C, D. exact I. Qed.
Lemma mcan_accept_inv id mask s l r s' : m_inv s l -> 0 <= id -> mcan_accept id mask s = CRet r s' -> m_inv s' (if r =? 0 then l ++ [(id, mask)] else l).
Proof.
  intros I Hid E. unfold mcan_accept in E. destruct (id <? 536870912) eqn:E1; cbn [negb] in E; [|injection E as <- <-; exact I]. apply Z.ltb_lt in E1. destruct (negb (mask <? 536870912)); [injection E as <- <-; exact I|]. destruct (id <? 2048) eqn:E2.
  - destruct (m_n11 s <? 128) eqn:E3; cbn [negb] in E; [|injection E as <- <-; exact I]. apply Z.ltb_lt in E3. injection E as <- <-. change (0 =? 0) with true. cbv iota. fold (std_entry id mask). destruct I as (I1 & I2 & I3 & I4 & I5 & I6 & I7 & I8).
    unfold m_inv. cbn [m_sf m_ef m_n11 m_n29]. split; [lia|]. split; [lia|]. split; [apply Forall_app; split; [exact I3|]; constructor; [cbn [fst]; lia|constructor]|]. split; [intros k Hk; rewrite upd_ne by lia; apply I4; lia|]. split; [exact I5|]. split; [|split].
    + intros k Hk. destruct (Z.eq_dec k (m_n11 s)) as [->|N].
      * exists id, mask. split; [apply in_or_app; right; left; reflexivity|]. split; [lia|]. apply upd_eq.
      * destruct (I6 k ltac:(lia)) as (i & m & A & B & C). exists i, m. split; [apply in_or_app; left; exact A|]. split; [exact B|]. rewrite upd_ne by exact N. exact C.
    + intros k Hk. destruct (I7 k Hk) as (i & m & A & B & C). exists i, m. split; [apply in_or_app; left; exact A|]. split; [exact B|exact C].
    + intros i m Hin. apply in_app_or in Hin as [Hin|[Hin|[]]].
      * specialize (I8 i m Hin). destruct (i <? 2048); [|exact I8]. destruct I8 as (k & Hk & M). exists k. split; [lia|]. rewrite upd_ne by lia. exact M.
      * injection Hin as <- <-. rewrite E2. exists (m_n11 s). split; [lia|]. apply upd_eq.
  - destruct (m_n29 s <? 64) eqn:E3; cbn [negb] in E; [|injection E as <- <-; exact I]. apply Z.ltb_lt in E3. apply Z.ltb_ge in E2. injection E as <- <-. change (0 =? 0) with true. cbv iota. fold (ext_entry id mask). destruct I as (I1 & I2 & I3 & I4 & I5 & I6 & I7 & I8).
    unfold m_inv. cbn [m_sf m_ef m_n11 m_n29]. split; [lia|]. split; [lia|]. split; [apply Forall_app; split; [exact I3|]; constructor; [cbn [fst]; lia|constructor]|]. split; [exact I4|]. split; [intros k Hk; rewrite upd_ne by lia; apply I5; lia|]. split; [|split].
    + intros k Hk. destruct (I6 k Hk) as (i & m & A & B & C). exists i, m. split; [apply in_or_app; left; exact A|]. split; [exact B|exact C].
    + intros k Hk. destruct (Z.eq_dec k (m_n29 s)) as [->|N].
      * exists id, mask. split; [apply in_or_app; right; left; reflexivity|]. split; [lia|]. apply upd_eq.
      * destruct (I7 k ltac:(lia)) as (i & m & A & B & C). exists i, m. split; [apply in_or_app; left; exact A|]. split; [exact B|]. rewrite upd_ne by exact N. exact C.
    + intros i m Hin. apply in_app_or in Hin as [Hin|[Hin|[]]].
      * specialize (I8 i m Hin). destruct (i <? 2048); [exact I8|]. destruct I8 as (k & Hk & M). exists k. split; [lia|]. rewrite upd_ne by lia. exact M.
      * injection Hin as <- <-. replace (id <? 2048) with false by (symmetry; apply Z.ltb_ge; lia). exists (m_n29 s). split; [lia|]. apply upd_eq.
Qed.
Lemma mcan_setup_ok freq st s s' : mcan_setup freq st s = CRet 0 s' -> exists b, mcan_bitrate freq (cs_rate st) = BSet b /\ 0 < cs_ntx st <= 32 /\ s' = m_set_cfg s false b (cs_ntx st).
Proof.
  intros E. unfold mcan_setup in E. destruct (mcan_bitrate freq (cs_rate st)) as [b|e|] eqn:B; [|exfalso|discriminate E].
  2:{ apply set_bitrate_err in B; [|reflexivity]. injection E as E _. lia. }
  destruct (0 <? cs_ntx st) eqn:A; cbn [negb orb] in E; [|discriminate E]. destruct (cs_ntx st <=? 32) eqn:C; cbn [negb] in E; [|discriminate E]. injection E as <-. exists b. split; [reflexivity|]. split; [lia|reflexivity].
Qed.
Lemma mcan_up_inv freq st s : mcan_up freq st s -> m_inv s [] /\ rep s [] /\ m_initb s = false /\ m_rec s = false /\ m_bo s = false.
Proof.
  intros (s0 & s1 & Hb & E0 & E1). unfold mcan_init in E0. injection E0 as <-. destruct (mcan_setup_ok _ _ _ _ E1) as (b & _ & _ & ->). unfold m_set_cfg. cbn [m_rx m_gi m_fl m_tx m_pend m_pi m_full m_sf m_ef m_n11 m_n29 m_rec m_initb m_bo m_nbtp m_tfqs].
  split; [|split; [|split; [reflexivity|split; [reflexivity|exact Hb]]]].
  - unfold m_inv. cbn [m_sf m_ef m_n11 m_n29]. split; [lia|]. split; [lia|]. split; [constructor|]. split; [|split; [|split; [|split]]].
    + intros k Hk. replace (0 <=? k) with true by (symmetry; apply Z.leb_le; lia). replace (k <? 128) with true by (symmetry; apply Z.ltb_lt; lia). reflexivity.
    + intros k Hk. replace (0 <=? k) with true by (symmetry; apply Z.leb_le; lia). replace (k <? 64) with true by (symmetry; apply Z.ltb_lt; lia). reflexivity.
    + intros k Hk. lia.
    + intros k Hk. lia.
    + intros i m [].
  - unfold rep. cbn [m_fl m_gi m_rx length]. split; [reflexivity|]. split; [lia|]. split; [lia|]. split; [constructor|]. intros i Hi. lia.
Qed.
Lemma mcan_run_inv std : forall ops s l s' l', m_inv s l -> ops_ok std ops -> run mcan_step ops s l = Some (s', l') -> m_inv s' l'.
Proof.
  induction ops as [|o ops IH]; intros s l s' l' I Ho E; cbn [run] in E; [injection E as <- <-; exact I|]. apply Forall_cons in Ho as [Ho Hos]. destruct (mcan_step o s l) as [[s1 l1]|] eqn:S; [|discriminate E].
  apply (IH s1 l1 s' l'); [|exact Hos|exact E]. clear E IH. destruct o as [id mask|id buf n|n|f k|k]; cbn [mcan_step op_ok] in *.
  - destruct (mcan_accept id mask s) as [r s2|] eqn:A; [|discriminate S]. cbn [ret_c] in S. injection S as <- <-. apply (mcan_accept_inv id mask s l r s2 I); [lia|exact A].
  - destruct (mcan_write id buf n s) as [r s2|] eqn:A; [|discriminate S]. cbn [ret_c] in S. injection S as <- <-. rewrite app_nil_r. destruct (mcan_write_other _ _ _ _ _ _ A) as (_ & _ & _ & X1 & X2 & X3 & X4 & _). destruct (r =? 0); apply (m_inv_ext s s2 l I X1 X2 X3 X4).
  - destruct (mcan_read n s) as [r id out s2|] eqn:A; [|discriminate S]. cbn [ret_r] in S. injection S as <- <-. unfold mcan_read in A. destruct (negb _); [injection A as _ _ _ <-; exact I|]. destruct (negb _); [injection A as _ _ _ <-; exact I|]. destruct (_ =? 0); [injection A as _ _ _ <-; exact I|].
    cbv zeta in A. injection A as _ _ _ <-. apply (m_inv_ext s _ l I); reflexivity.
  - injection S as <- <-. destruct (mcan_takes s f); [|exact I]. unfold mcan_receives. destruct (64 <=? m_fl s); [exact I|]. apply (m_inv_ext s _ l I); reflexivity.
  - injection S as <- <-. apply (m_inv_ext s _ l I); reflexivity.
Qed.

(** * Bus off *)
Lemma mcan_busoff_write id buf n s r s' : m_bo s = true -> mcan_write id buf n s = CRet r s' -> n <= 8 -> r < 0 /\ m_bo s' = true /\ m_rec s' = true /\ (m_rec s = true -> m_initb s' = false) /\ (m_initb s = false -> m_initb s' = false).
Proof.
  intros B E Hn. unfold mcan_write in E. replace (n <=? 8) with true in E by (symmetry; apply Z.leb_le; lia). cbn [negb] in E. destruct (m_rec s) eqn:R; destruct (m_initb s) eqn:J; cbn [andb] in E; cbv zeta in E.
  - injection E as <- <-. unfold m_set_rec, C_EBUSY. cbn [m_bo m_rec m_initb]. rewrite B. repeat split; lia || reflexivity.
  - unfold m_set_rec in E. cbn [m_bo m_rec m_initb] in E. rewrite B in E. injection E as <- <-. unfold C_EIO. cbn [m_bo m_rec m_initb]. repeat split; lia || reflexivity.
  - unfold m_set_rec in E. cbn [m_bo m_rec m_initb] in E. rewrite B in E. injection E as <- <-. unfold C_EIO. cbn [m_bo m_rec m_initb]. repeat split; lia || congruence.
  - unfold m_set_rec in E. cbn [m_bo m_rec m_initb] in E. rewrite B in E. injection E as <- <-. unfold C_EIO. cbn [m_bo m_rec m_initb]. repeat split; lia || congruence.
Qed.
Lemma mcan_up_write id buf n s : m_bo s = false -> m_initb s = false -> m_full s = false -> n <= 8 -> exists s', mcan_write id buf n s = CRet n s'.
Proof.
  intros B J F Hn. unfold mcan_write. replace (n <=? 8) with true by (symmetry; apply Z.leb_le; lia). cbn [negb]. rewrite J, andb_false_r. cbv zeta. unfold m_set_rec. cbn [m_bo m_full m_pi m_tx m_pend]. rewrite B, F. destruct (pack_le buf n). eexists. reflexivity.
Qed.
