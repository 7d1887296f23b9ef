(** PropCan.v - C120: can_write; C121: can_read; C122: can_accept; C123: the bit rate; C124: mailboxes; C125: order on M_CAN; C126: bus off. *)
From Verif Require Import Base CanModel CanSpec CanProofs CanProofs2 CanProofs3 CanProofs4 CanProofs5 CanProofs6 CanProofs7.

(** Running without looking at the closures in a state *)
Definition ret_of {S} (r : cres S) : option Z := match r with CRet v _ => Some v | CUb => None end.
Definition log_of {S} (r : option (S * list (Z * Z))) : option (list (Z * Z)) := match r with Some (_, l) => Some l | None => None end.
Lemma by_ret {S} (r : cres S) (v : Z) (d : S) : ret_of r = Some v -> r = CRet v (okc r d).
Proof. destruct r as [x s|]; cbn [ret_of okc]; [intros E; injection E as ->; reflexivity|discriminate]. Qed.
Lemma ex_ret {S} (r : cres S) (v : Z) : ret_of r = Some v -> exists s, r = CRet v s.
Proof. destruct r as [x s|]; cbn [ret_of]; [intros E; injection E as ->; exists s; reflexivity|discriminate]. Qed.
Lemma by_log {S} (r : option (S * list (Z * Z))) (l : list (Z * Z)) (d : S) : log_of r = Some l -> r = Some (st_of r d, l).
Proof. destruct r as [[s x]|]; cbn [log_of st_of]; [intros E; injection E as ->; reflexivity|discriminate]. Qed.
Lemma ex_pair {A B} (x : A * B) a : fst x = a -> exists s, x = (a, s).
Proof. destruct x as [u v]. cbn [fst]. intros ->. exists v. reflexivity. Qed.
Definition st_r {S} (r : rres S) (d : S) : S := match r with RRet _ _ _ s => s | RUb => d end.
Lemma by_show {S} (r : rres S) v id out (d : S) : show r = Some (v, id, out) -> r = RRet v id out (st_r r d).
Proof. destruct r as [v0 id0 out0 s|]; cbn [show st_r]; [intros E; injection E as -> -> ->; reflexivity|discriminate]. Qed.
Lemma sam1_up : sam_up 84000000 (set500 2) sam1.
Proof.
  exists sam0, (okc (sam_init sam0) sam0). split; [|split; [|split]]; [|reflexivity|reflexivity|reflexivity].
  intros k Hk. split; [reflexivity|]. assert (C : k = 0 \/ k = 1 \/ k = 2 \/ k = 3 \/ k = 4 \/ k = 5 \/ k = 6 \/ k = 7) by lia. repeat (destruct C as [->|C]; [reflexivity|]). subst k. reflexivity.
Qed.
Lemma flex1_up : flex_up 64 64 80000000 (set500 4) flex1.
Proof. exists flex0, (okc (flex_init 64 64 flex0) flex0). split; [split; [reflexivity|intros k _; reflexivity]|]. split; [reflexivity|]. split; [reflexivity|]. split; [reflexivity|lia]. Qed.
Lemma dcan1_up : dcan_up 200000000 (set500 2) dcan1.
Proof. exists dcan0, (okc (dcan_init dcan0) dcan0). split; [reflexivity|]. split; reflexivity. Qed.
Lemma mcan1_up : mcan_up 40000000 (set500 8) mcan1.
Proof. exists mcan0, (okc (mcan_init mcan0) mcan0). split; [reflexivity|]. split; reflexivity. Qed.

(** * C120: can_write sends exactly the frame that was asked for *)
Theorem C120_sam3x_partial : forall id buf n s s', args_ok id buf n -> id < 2048 -> 0 < n -> sam_write id buf n s = CRet n s' -> exists k, 0 <= k < 8 /\
  sam_is_tx (s_mb s' k) = true /\ sam_sends false (s_mb s' k) = frame_of id buf n /\ forall j, j <> k -> s_mb s' j = s_mb s j.
Proof. exact sam_write_frame. Qed.
Print Assumptions C120_sam3x_partial.
Theorem C120_flexcan : forall id buf n s s', args_ok id buf n -> 0 < n -> flex_write id buf n s = CRet n s' -> exists k, 0 <= k < f_cnt s /\
  flex_is_tx (f_mb s' k) = true /\ flex_sends (f_mb s' k) = frame_of id buf n /\ (forall j, j <> k -> f_mb s' j = f_mb s j) /\ flex_is_tx (f_mb s k) = false.
Proof. exact flex_write_frame. Qed.
Print Assumptions C120_flexcan.
Theorem C120_dcan_partial : forall t id buf n s s', t_int t = 32 -> args_ok id buf n -> 0 < n -> dcan_write t id buf n s = CRet n s' -> exists k, 1 <= k <= 32 /\
  dcan_is_tx (d_obj s' k) = true /\ dcan_sends (d_obj s' k) = frame_of id buf n /\ (forall j, j <> k -> d_obj s' j = d_obj s j) /\ dcan_is_tx (d_obj s k) = false.
Proof. exact dcan_write_frame. Qed.
Print Assumptions C120_dcan_partial.
Theorem C120_mcan : forall id buf n s r s', args_ok id buf n -> mcan_write id buf n s = CRet r s' -> 0 <= r ->
  r = n /\ m_bo s = false /\ m_full s = false /\ m_pend s' (m_pi s) = true /\ mcan_sends (m_tx s' (m_pi s)) = frame_of id buf n /\ forall j, j <> m_pi s -> m_tx s' j = m_tx s j /\ m_pend s' j = m_pend s j.
Proof. exact mcan_write_frame. Qed.
Print Assumptions C120_mcan.
(** The result is n or an error; on an error no mailbox changes, but for the abort on FlexCAN of one that is waiting. *)
Theorem C120_refused : (forall id buf n s r s', sam_write id buf n s = CRet r s' -> r <> n \/ n <= 0 -> r < 0 /\ s_mb s' = s_mb s) /\
  (forall id buf n s r s', flex_write id buf n s = CRet r s' -> r <> n \/ n <= 0 -> r < 0 /\ forall j, flex_is_tx (f_mb s j) = false \/ f_abort s = false -> f_mb s' j = f_mb s j) /\
  (forall t id buf n s r s', t_int t = 32 -> dcan_write t id buf n s = CRet r s' -> r <> n \/ n <= 0 -> r < 0 /\ forall j, d_obj s' j = d_obj s j) /\
  (forall id buf n s r s', 0 <= n -> mcan_write id buf n s = CRet r s' -> r < 0 -> m_tx s' = m_tx s /\ m_pend s' = m_pend s).
Proof.
  split; [|split; [|split]].
  - intros id buf n s r s' E H. destruct (sam_write_ret _ _ _ _ _ _ E) as [K|K]; [lia|]. split; [exact K|]. apply (sam_write_err _ _ _ _ _ _ E K).
  - intros id buf n s r s' E H. destruct (flex_write_ret _ _ _ _ _ _ E) as [K|K]; [lia|]. split; [exact K|]. intros j Hj. apply (flex_write_err _ _ _ _ _ _ E K j Hj).
  - intros t id buf n s r s' Ht E H. destruct (dcan_write_ok _ _ _ _ _ _ _ Ht E) as (_ & _ & _ & _ & _ & [K|(K & K2 & _)]); [exact K|lia].
  - intros id buf n s r s' Hn E H. exact (mcan_write_err _ _ _ _ _ _ E H Hn).
Qed.
Print Assumptions C120_refused.
Example C120_runs : args_ok 291 [1; 2; 3] 3 /\ (exists s, sam_write 291 [1; 2; 3] 3 sam1 = CRet 3 s) /\ (exists s, flex_write 123456 [1; 2; 3] 3 flex1 = CRet 3 s) /\
  (exists s, dcan_write usual 291 [1; 2; 3] 3 dcan1 = CRet 3 s) /\ (exists s, mcan_write 123456 [1; 2; 3] 3 mcan1 = CRet 3 s).
Proof.
  split; [split; [lia|split; [repeat constructor; lia|cbn; lia]]|]. split; [apply ex_ret; vm_compute; reflexivity|]. split; [apply ex_ret; vm_compute; reflexivity|]. split; apply ex_ret; vm_compute; reflexivity.
Qed.
(** Extended identifiers on SAM3X: the shift is 17 and not 18, and only 14 of the 18 low bits are written; 2^14 is sent as 0 *)
Theorem C120_sam3x_ext_refuted : ~ (forall id buf n s s', args_ok id buf n -> 0 < n -> sam_write id buf n s = CRet n s' -> exists k, 0 <= k < 8 /\ sam_is_tx (s_mb s' k) = true /\ sam_sends false (s_mb s' k) = frame_of id buf n).
Proof.
  intros H. destruct (H 16384 [7] 1 sam1 (okc (sam_write 16384 [7] 1 sam1) sam0)) as (k & Hk & T & E); [split; [lia|split; [repeat constructor; lia|cbn; lia]]|lia|apply by_ret; vm_compute; reflexivity|].
  assert (C : k = 0 \/ k = 1 \/ k = 2 \/ k = 3 \/ k = 4 \/ k = 5 \/ k = 6 \/ k = 7) by lia. repeat (destruct C as [->|C]; [vm_compute in T, E; discriminate|]). subst k. vm_compute in T, E. discriminate.
Qed.
Print Assumptions C120_sam3x_ext_refuted.
(** With the order of the data sheet, byte 0 of the frame in CAN_MDL[7:0], a frame of one byte is always 0. *)
Theorem C120_sam3x_order_wrong : forall id b s s', 0 <= id < 2048 -> 0 <= b < 256 -> sam_write id [b] 1 s = CRet 1 s' -> exists k, sam_is_tx (s_mb s' k) = true /\ fr_data (sam_sends true (s_mb s' k)) = [0].
Proof.
  intros id b s s' Hi Hb E. destruct (sam_write_ok _ _ _ _ _ E ltac:(lia)) as (k & _ & Hk & _ & _ & _ & _ & _ & _ & _ & M & _). exists k. cbn [pack_be] in M. rewrite M. split.
  - unfold sam_is_tx. cbn [mb_mmr mb_mcr mb_msr]. rewrite mot_set, ldiff_pow by lia. reflexivity.
  - unfold sam_sends. cbn [mb_mid mb_mcr mb_mdl mb_mdh fr_data sam_bytes]. change (field (Z.lor (2 ^ 23) (Z.shiftl (Z.land 1 15) 16)) 16 4) with 1. cbv zeta. cbn [fr_data]. unfold bytes_le. change (Z.to_nat 1) with 1%nat. cbn [firstn]. f_equal.
    change (sel [b] 1 0) with b. change (sel [b] 1 1) with 0. change (sel [b] 1 2) with 0. change (sel [b] 1 3) with 0. rewrite word_be_arith by lia. unfold u8. rewrite Z.shiftr_0_r. replace (0 + 0 * 2 ^ 8 + 0 * 2 ^ 16 + b * 2 ^ 24) with (b * 65536 * 256) by lia. apply Z.mod_mul. lia.
Qed.
Print Assumptions C120_sam3x_order_wrong.
(** M_CAN does not look at the identifier: 2^29 is sent as 0. *)
Theorem C120_mcan_id_refuted : exists s', mcan_write 536870912 [7] 1 mcan1 = CRet 1 s' /\ m_pend s' 0 = true /\ mcan_sends (m_tx s' 0) = mkFrame true 0 [7].
Proof. exists (okc (mcan_write 536870912 [7] 1 mcan1) mcan0). split; [apply by_ret; vm_compute; reflexivity|]. split; vm_compute; reflexivity. Qed.
Print Assumptions C120_mcan_id_refuted.
(** On the TMS320F2837x, where an int has 16 bits, every write is undefined with up to 16 transmit mailboxes: 1 << index. *)
Theorem C120_c28x_refuted : forall freq st s id buf n, dcan_up freq st s -> cs_ntx st <= 16 -> 0 <= id < 2048 -> 0 < n <= 8 -> dcan_write c28x id buf n s = CUb.
Proof.
  intros freq st s id buf n U Hn Hi Hl. pose proof U as (s0 & s1 & E0 & E1 & Hp). pose proof (dcan_up_inv _ _ _ U) as I. destruct (dcan_index s [] I) as [Ei _]. destruct I as (I1 & I2 & _).
  assert (Tx : d_txc s = cs_ntx st). { unfold dcan_setup in E1. destruct (dcan_bitrate freq (cs_rate st)) as [b|e|] eqn:B; [|exfalso|discriminate E1].
    - unfold dcan_set_tx in E1. destruct (negb _); [discriminate E1|]. injection E1 as <-. reflexivity.
    - apply set_bitrate_err in B; [|reflexivity]. injection E1 as E1 _. lia. }
  unfold dcan_write. replace (id <? 2048) with true by (symmetry; apply Z.ltb_lt; lia). replace (0 <? n) with true by (symmetry; apply Z.ltb_lt; lia). replace (n <=? 8) with true by (symmetry; apply Z.leb_le; lia). cbn [negb]. cbv zeta. rewrite Ei.
  replace (d_rxc s + d_txi s <? t_int c28x) with false by (symmetry; apply Z.ltb_ge; cbn [t_int c28x]; lia). reflexivity.
Qed.
Print Assumptions C120_c28x_refuted.

(** * C121: can_read returns a frame that was received, all of it, once *)
Theorem C121_sam3x_partial : forall freq st s0 ops s l n r id out s', sam_up freq st s0 -> ops_ok true ops -> run (sam_step false) ops s0 [] = Some (s, l) -> sam_read n s = RRet r id out s' -> 0 <= r ->
  exists i, 0 <= i < s_rxi s /\ i < s_rxc s /\ Z.testbit (s_sr s) i = true /\ Z.testbit (s_sr s') i = false /\ (forall j, j <> i -> s_mb s' j = s_mb s j) /\ length out = Z.to_nat n /\
  forall f m, frame_ok f -> s_mb s i = sam_filled false f m -> id = Some (fr_id f) /\ r = fr_len f /\ out = firstn (Z.to_nat n) (fr_data f ++ repeat 0 (8 - length (fr_data f))).
Proof. intros freq st s0 ops s l n r id out s' U Ho R E Hr. destruct (sam_run_inv false ops s0 [] s l (sam_up_inv _ _ _ U) Ho R) as (I1 & I2 & I3 & _). apply (sam_read_frame n s r id out s'); [lia|lia|exact E|exact Hr]. Qed.
Print Assumptions C121_sam3x_partial.
Theorem C121_flexcan_partial : forall cntmax cnt freq st s0 ops s l n r id out s', flex_up cntmax cnt freq st s0 -> ops_ok false ops -> run flex_step ops s0 [] = Some (s, l) -> 0 < n <= 8 -> flex_read n s = RRet r id out s' -> r <> - C_EAGAIN ->
  exists i, 0 <= i < f_rxi s /\ f_flag s i = true /\ f_flag s' i = false /\ f_mb s' = f_mb s /\
  forall f, frame_ok f -> f_mb s i = flex_filled f -> id = Some (fr_id f) /\ (if fr_len f =? 0 then r = - C_EINVAL /\ out = [] else r = fr_len f /\ out = fr_data f).
Proof. intros cntmax cnt freq st s0 ops s l n r id out s' U Ho R Hn E Hr. destruct (flex_run_inv false ops s0 [] s l (flex_up_inv _ _ _ _ _ U) Ho R) as (_ & _ & _ & I4 & _). apply (flex_read_frame n s r id out s'); [lia|exact Hn|exact E|exact Hr]. Qed.
Print Assumptions C121_flexcan_partial.
(** DCAN returns the identifier of the last call of can_accept. *)
Theorem C121_dcan_partial : forall freq st s0 ops s l n r id out s', dcan_up freq st s0 -> ops_ok false ops -> run (dcan_step usual) ops s0 [] = Some (s, l) -> dcan_read usual n s = RRet r id out s' -> 0 <= r ->
  exists i, 1 <= i <= d_rxi s /\ Z.testbit (o_mctl (d_obj s i)) 15 = true /\ Z.testbit (o_mctl (d_obj s' i)) 15 = false /\ (forall j, j <> i -> d_obj s' j = d_obj s j) /\
  id = Some (fst (List.last l (0, 0))) /\ forall f o, frame_ok f -> d_obj s i = dcan_filled f o -> r = fr_len f /\ out = fr_data f.
Proof. intros freq st s0 ops s l n r id out s' U Ho R E Hr. apply (dcan_read_frame usual n s l r id out s' eq_refl); [|exact E|exact Hr]. exact (dcan_run_inv usual false eq_refl ops s0 [] s l (dcan_up_inv _ _ _ U) Ho R). Qed.
Print Assumptions C121_dcan_partial.
(** M_CAN: whatever the history, the contents of the FIFO come out, oldest first; see also C125. *)
Theorem C121_mcan : forall n s f c r id out s', rep s (f :: c) -> (length c < 63)%nat -> 0 < n <= 8 -> mcan_read n s = RRet r id out s' -> r = fr_len f /\ id = Some (fr_id f) /\ out = fr_data f /\ rep s' c.
Proof. intros n s f c r id out s' R Hc Hn E. exact (mcan_read_head n s f c r id out s' R E Hn Hc). Qed.
Print Assumptions C121_mcan.
(** A frame that is there is not missed. *)
Theorem C121_progress :
  (forall freq st s0 ops s l n i, sam_up freq st s0 -> ops_ok true ops -> run (sam_step false) ops s0 [] = Some (s, l) -> 0 < n <= 8 -> 0 <= i < s_rxi s -> Z.testbit (s_sr s) i = true -> exists r id out s', sam_read n s = RRet r id out s' /\ 0 <= r) /\
  (forall cntmax cnt freq st s0 ops s l n i f, flex_up cntmax cnt freq st s0 -> ops_ok false ops -> run flex_step ops s0 [] = Some (s, l) -> 0 < n <= 8 -> 0 <= i < f_rxi s -> f_flag s i = true -> frame_ok f -> f_mb s i = flex_filled f ->
     exists r id out s', flex_read n s = RRet r id out s' /\ r <> - C_EAGAIN) /\
  (forall freq st s0 ops s l n i, dcan_up freq st s0 -> ops_ok false ops -> run (dcan_step usual) ops s0 [] = Some (s, l) -> 0 < n <= 8 -> 1 <= i <= d_rxi s -> Z.testbit (o_mctl (d_obj s i)) 15 = true -> exists r id out s', dcan_read usual n s = RRet r id out s' /\ 0 <= r) /\
  (forall n s c, rep s c -> 0 < n <= 8 -> (0 < length c < 64)%nat -> exists r id out s', mcan_read n s = RRet r id out s' /\ 0 <= r /\ m_fl s' = m_fl s - 1).
Proof.
  split; [|split; [|split]].
  - intros freq st s0 ops s l n i U Ho R Hn Hi T. destruct (sam_run_inv false ops s0 [] s l (sam_up_inv _ _ _ U) Ho R) as (I1 & I2 & I3 & _ & _ & _ & _ & _ & I9). apply (sam_read_progress n s i Hn); [lia|lia|exact I9|exact Hi|exact T].
  - intros cntmax cnt freq st s0 ops s l n i f U Ho R Hn Hi T Hf M. destruct (flex_run_inv false ops s0 [] s l (flex_up_inv _ _ _ _ _ U) Ho R) as (_ & _ & _ & I4 & _). apply (flex_read_progress n s i f); [lia|exact Hn|exact Hf|exact Hi|exact T|exact M].
  - intros freq st s0 ops s l n i U Ho R Hn Hi T. exact (dcan_read_progress usual n s l i eq_refl (dcan_run_inv usual false eq_refl ops s0 [] s l (dcan_up_inv _ _ _ U) Ho R) Hn Hi T).
  - exact mcan_read_progress.
Qed.
Print Assumptions C121_progress.
Definition rx_sam := st_of (run (sam_step false) (got_rx 0 f8) sam1 []) sam0.
Definition rx_flex := st_of (run flex_step (got_rx 0 f8) flex1 []) flex0.
Definition rx_dcan := st_of (run (dcan_step usual) (got_rx 1 f8) dcan1 []) dcan0.
Definition rx_mcan := st_of (run mcan_step (got_rx 0 f8) mcan1 []) mcan0.
Example C121_runs : frame_ok f8 /\ ops_ok true (got_rx 0 f8) /\ show (sam_read 8 rx_sam) = Some (8, Some 291, fr_data f8) /\ show (flex_read 8 rx_flex) = Some (8, Some 291, fr_data f8) /\
  show (dcan_read usual 8 rx_dcan) = Some (8, Some 291, fr_data f8) /\ show (mcan_read 8 rx_mcan) = Some (8, Some 291, fr_data f8).
Proof.
  assert (F : frame_ok f8) by (split; [cbn; lia|split; [repeat constructor; lia|cbn; lia]]).
  split; [exact F|]. split; [constructor; [cbn [op_ok]; lia|constructor; [exact F|constructor]]|]. split; [vm_compute; reflexivity|]. split; [vm_compute; reflexivity|]. split; vm_compute; reflexivity.
Qed.
(** A buffer shorter than the frame: all but SAM3X write past its end; SAM3X says it wrote more than it did. *)
Theorem C121_overflow_refuted : show (flex_read 1 rx_flex) = Some (8, Some 291, fr_data f8) /\ show (dcan_read usual 1 rx_dcan) = Some (8, Some 291, fr_data f8) /\ show (mcan_read 1 rx_mcan) = Some (8, Some 291, fr_data f8) /\
  show (sam_read 1 rx_sam) = Some (8, Some 291, [1]).
Proof. split; [vm_compute; reflexivity|]. split; [vm_compute; reflexivity|]. split; vm_compute; reflexivity. Qed.
Print Assumptions C121_overflow_refuted.
(** A frame without data is an error on FlexCAN, and is dropped. *)
Theorem C121_flexcan_empty_refuted : exists s', flex_read 8 (st_of (run flex_step (got_rx 0 f0) flex1 []) flex0) = RRet (- C_EINVAL) (Some 291) [] s' /\ f_flag s' 0 = false.
Proof. eexists. split; [apply (by_show _ _ _ _ flex0); vm_compute; reflexivity|vm_compute; reflexivity]. Qed.
Print Assumptions C121_flexcan_empty_refuted.
(** DCAN with two filters: a frame 291 is said to be 292. *)
Theorem C121_dcan_id_refuted : show (dcan_read usual 8 (st_of (run (dcan_step usual) [OAccept 291 2047; OAccept 292 2047; ORx f8 1] dcan1 []) dcan0)) = Some (8, Some 292, fr_data f8).
Proof. vm_compute; reflexivity. Qed.
Print Assumptions C121_dcan_id_refuted.
(** Two different frames, 11-bit and 29-bit identifier 5, that cannot be told apart *)
Theorem C121_ambiguous_refuted : exists f g, frame_ok f /\ frame_ok g /\ f <> g /\
  show (mcan_read 8 (st_of (run mcan_step [OAccept 5 2047; OAccept 2048 0; ORx f 0] mcan1 []) mcan0)) = Some (1, Some 5, [9]) /\
  show (mcan_read 8 (st_of (run mcan_step [OAccept 5 2047; OAccept 2048 0; ORx g 0] mcan1 []) mcan0)) = Some (1, Some 5, [9]).
Proof.
  exists (mkFrame false 5 [9]), (mkFrame true 5 [9]). split; [split; [cbn; lia|split; [repeat constructor; lia|cbn; lia]]|]. split; [split; [cbn; lia|split; [repeat constructor; lia|cbn; lia]]|].
  split; [intros K; discriminate K|]. split; vm_compute; reflexivity.
Qed.
Print Assumptions C121_ambiguous_refuted.

(** * C122: the frames that are received are those can_accept asked for *)
Theorem C122_sam3x_partial : forall freq st s0 ops s l f, sam_up freq st s0 -> ops_ok true ops -> run (sam_step false) ops s0 [] = Some (s, l) -> frame_ok f ->
  taken (fun k => sam_takes (s_mb s k) f) 0 8 <-> wanted l f.
Proof. intros freq st s0 ops s l f U Ho R Hf. apply (sam_inv_takes s l f); [|exact Hf]. exact (sam_run_inv false ops s0 [] s l (sam_up_inv _ _ _ U) Ho R). Qed.
Print Assumptions C122_sam3x_partial.
Theorem C122_mcan : forall freq st s0 ops s l f, mcan_up freq st s0 -> ops_ok false ops -> run mcan_step ops s0 [] = Some (s, l) -> frame_ok f -> mcan_takes s f = true <-> wanted l f.
Proof. intros freq st s0 ops s l f U Ho R Hf. apply m_inv_takes; [|exact Hf]. exact (mcan_run_inv false ops s0 [] s l (proj1 (mcan_up_inv _ _ _ U)) Ho R). Qed.
Print Assumptions C122_mcan.
(** FlexCAN and DCAN ignore the mask: only the very identifiers that were named come through. *)
Theorem C122_flexcan_partial : forall cntmax cnt freq st s0 ops s l f, flex_up cntmax cnt freq st s0 -> ops_ok false ops -> run flex_step ops s0 [] = Some (s, l) -> frame_ok f ->
  taken (fun k => flex_takes s k f) 0 (f_cnt s) <-> named l f.
Proof. intros cntmax cnt freq st s0 ops s l f U Ho R Hf. apply flex_inv_takes; [|exact Hf]. exact (flex_run_inv false ops s0 [] s l (flex_up_inv _ _ _ _ _ U) Ho R). Qed.
Print Assumptions C122_flexcan_partial.
Theorem C122_dcan_partial : forall freq st s0 ops s l f, dcan_up freq st s0 -> ops_ok false ops -> run (dcan_step usual) ops s0 [] = Some (s, l) -> frame_ok f ->
  taken (fun k => dcan_takes (d_obj s k) f) 1 33 <-> named l f.
Proof. intros freq st s0 ops s l f U Ho R Hf. apply dcan_inv_takes; [|exact Hf]. exact (dcan_run_inv usual false eq_refl ops s0 [] s l (dcan_up_inv _ _ _ U) Ho R). Qed.
Print Assumptions C122_dcan_partial.
Example C122_runs : ops_ok true acc_ops /\ frame_ok f257 /\ wanted [(256, 1792)] f257 /\ (exists s, run (sam_step false) acc_ops sam1 [] = Some (s, [(256, 1792)]) /\ sam_takes (s_mb s 0) f257 = true) /\
  (exists s, run mcan_step acc_ops mcan1 [] = Some (s, [(256, 1792)]) /\ mcan_takes s f257 = true).
Proof.
  split; [constructor; [cbn [op_ok]; lia|constructor]|]. split; [split; [cbn; lia|split; [repeat constructor; lia|cbn; lia]]|]. split; [exists 256, 1792; split; [left; reflexivity|split; reflexivity]|].
  split; [eexists; split; [apply (by_log _ _ sam0); vm_compute; reflexivity|vm_compute; reflexivity]|eexists; split; [apply (by_log _ _ mcan0); vm_compute; reflexivity|vm_compute; reflexivity]].
Qed.
Theorem C122_mask_refuted : (exists s, run flex_step acc_ops flex1 [] = Some (s, [(256, 1792)]) /\ ~ taken (fun k => flex_takes s k f257) 0 (f_cnt s)) /\
  (exists s, run (dcan_step usual) acc_ops dcan1 [] = Some (s, [(256, 1792)]) /\ ~ taken (fun k => dcan_takes (d_obj s k) f257) 1 33).
Proof.
  assert (N : ~ named [(256, 1792)] f257) by (intros (id & mask & [K|[]] & _ & A); injection K as <- <-; discriminate A).
  assert (F : frame_ok f257) by (split; [cbn; lia|split; [repeat constructor; lia|cbn; lia]]). assert (Ho : ops_ok false acc_ops) by (constructor; [cbn [op_ok]; lia|constructor]).
  assert (A1 : run flex_step acc_ops flex1 [] = Some (st_of (run flex_step acc_ops flex1 []) flex0, [(256, 1792)])) by (apply by_log; vm_compute; reflexivity).
  assert (A2 : run (dcan_step usual) acc_ops dcan1 [] = Some (st_of (run (dcan_step usual) acc_ops dcan1 []) dcan0, [(256, 1792)])) by (apply by_log; vm_compute; reflexivity).
  split; [exists (st_of (run flex_step acc_ops flex1 []) flex0)|exists (st_of (run (dcan_step usual) acc_ops dcan1 []) dcan0)]; (split; [assumption|]); intros T; apply N.
  - exact (proj1 (C122_flexcan_partial 64 64 80000000 (set500 4) flex1 acc_ops _ _ f257 flex1_up Ho A1 F) T).
  - exact (proj1 (C122_dcan_partial 200000000 (set500 2) dcan1 acc_ops _ _ f257 dcan1_up Ho A2 F) T).
Qed.
Print Assumptions C122_mask_refuted.

(** * C123: the bit rate is exactly the one asked for, or setup fails *)
Theorem C123_sam3x : forall freq rate, 0 < rate -> 0 <= freq -> 128 * rate < 4294967296 ->
  match sam_bitrate freq rate with
  | BSet r => rate_ok freq rate (sam_bit r) /\ sample_between 85 93 (sam_bit r) (sam_sample r) /\ feasible 128 11 19 freq rate
  | BErr e => (e = C_EINVAL \/ e = C_EIO) /\ ~ feasible 128 11 19 freq rate
  | BUb => False
  end.
Proof. intros freq rate H1 H2 H3. apply (set_bitrate_spec sam_seg sam_bit sam_sample 128 8 25 11 19 85 93 C_EINVAL freq rate sam_check); try assumption; lia. Qed.
Print Assumptions C123_sam3x.
Theorem C123_flexcan : forall freq rate, 0 < rate -> 0 <= freq -> 256 * rate < 4294967296 ->
  match flex_bitrate freq rate with
  | BSet r => rate_ok freq rate (flex_bit r) /\ sample_between 87 90 (flex_bit r) (flex_sample r) /\ feasible 256 16 19 freq rate
  | BErr e => (e = C_EINVAL \/ e = C_EIO) /\ ~ feasible 256 16 19 freq rate
  | BUb => False
  end.
Proof. intros freq rate H1 H2 H3. apply (set_bitrate_spec flex_seg flex_bit flex_sample 256 16 25 16 19 87 90 C_EINVAL freq rate flex_check); try assumption; lia. Qed.
Print Assumptions C123_flexcan.
Theorem C123_mcan : forall freq rate, 0 < rate -> 0 <= freq -> 32 * rate < 4294967296 ->
  match mcan_bitrate freq rate with
  | BSet r => rate_ok freq rate (mcan_bit r) /\ sample_between 85 91 (mcan_bit r) (mcan_sample r) /\ feasible 32 14 38 freq rate
  | BErr e => (e = C_EINVAL \/ e = C_EIO) /\ ~ feasible 32 14 38 freq rate
  | BUb => False
  end.
Proof. intros freq rate H1 H2 H3. apply (set_bitrate_spec mcan_seg mcan_bit mcan_sample 32 1 51 14 38 85 91 C_EINVAL freq rate mcan_check); try assumption; lia. Qed.
Print Assumptions C123_mcan.
(** DCAN: with prescalers up to 32 only, and sampled earlier *)
Theorem C123_dcan_partial : forall freq rate, 0 < rate -> 0 <= freq -> 1024 * rate < 4294967296 -> feasible 32 8 23 freq rate ->
  exists r, dcan_bitrate freq rate = BSet r /\ rate_ok freq rate (dcan_bit r) /\ sample_between 50 77 (dcan_bit r) (dcan_sample r).
Proof. exact dcan_bitrate_spec. Qed.
Print Assumptions C123_dcan_partial.
(** What setup programs is what this computes; the controller is then on. *)
Theorem C123_setup :
  (forall freq st s s', sam_setup freq st s = CRet 0 s' -> sam_bitrate freq (cs_rate st) = BSet (s_br s') /\ s_en s' = true) /\
  (forall freq st s s', flex_setup freq st s = CRet 0 s' -> flex_bitrate freq (cs_rate st) = BSet (f_ctrl1 s') /\ f_frz s' = false) /\
  (forall freq st s s', dcan_setup freq st s = CRet 0 s' -> dcan_bitrate freq (cs_rate st) = BSet (d_btr s')) /\
  (forall freq st s s', mcan_setup freq st s = CRet 0 s' -> mcan_bitrate freq (cs_rate st) = BSet (m_nbtp s') /\ m_initb s' = false).
Proof.
  split; [|split; [|split]].
  - intros freq st s s' E. unfold sam_setup in E. cbv zeta in E. destruct (sam_bitrate freq (cs_rate st)) as [b|e|] eqn:B; [| |discriminate E].
    + unfold sam_set_tx in E. destruct (negb (_ <? 8)); [discriminate E|]. change (0 <? 0) with false in E. cbv iota zeta in E. injection E as <-. split; reflexivity.
    + apply set_bitrate_err in B; [|reflexivity]. injection E as E _. lia.
  - intros freq st s s' E. unfold flex_setup in E. cbv zeta in E. destruct (flex_bitrate freq (cs_rate st)) as [b|e|] eqn:B; [| |discriminate E].
    + destruct (flex_set_tx _ _) as [r s2|]; [|discriminate E]. destruct (r <? 0) eqn:Hr; [injection E as -> _; discriminate Hr|]. injection E as <-. split; reflexivity.
    + apply set_bitrate_err in B; [|reflexivity]. injection E as E _. lia.
  - intros freq st s s' E. unfold dcan_setup in E. destruct (dcan_bitrate freq (cs_rate st)) as [b|e|] eqn:B; [| |discriminate E].
    + unfold dcan_set_tx in E. destruct (negb _); [discriminate E|]. injection E as <-. reflexivity.
    + apply set_bitrate_err in B; [|reflexivity]. injection E as E _. lia.
  - intros freq st s s' E. destruct (mcan_setup_ok _ _ _ _ E) as (b & B & _ & ->). rewrite B. split; reflexivity.
Qed.
Print Assumptions C123_setup.
Example C123_runs : feasible 128 11 19 84000000 500000 /\ feasible 256 16 19 80000000 500000 /\ feasible 32 14 38 40000000 500000 /\ feasible 32 8 23 200000000 500000 /\ ~ feasible 128 11 19 84000001 500000.
Proof.
  split; [exists 12, 14; lia|]. split; [exists 10, 16; lia|]. split; [exists 4, 20; lia|]. split; [exists 20, 20; lia|]. intros (b & t & _ & _ & E). assert (K : 84000001 mod 500000 = 0) by (rewrite <- E; apply Z.mod_mul; lia). discriminate K.
Qed.
(** Larger prescalers are garbled on DCAN (BRPE is shifted by 5 and not by 6): 250 kbit/s from 200 MHz are 96 kbit/s. *)
Theorem C123_dcan_refuted : exists r, dcan_bitrate 200000000 250000 = BSet r /\ ~ rate_ok 200000000 250000 (dcan_bit r) /\ 200000000 / dcan_bit r = 96153.
Proof. eexists. split; [vm_compute; reflexivity|]. split; [intros K; vm_compute in K; discriminate K|vm_compute; reflexivity]. Qed.
Print Assumptions C123_dcan_refuted.
(** A setup that fails stops a controller that was running. *)
Theorem C123_failed_setup_refuted : (exists s', sam_setup 84000000 (mkCset 499999 2 false false false) sam1 = CRet (- C_EIO) s' /\ s_en sam1 = true /\ s_en s' = false) /\
  (exists s', flex_setup 80000000 (mkCset 499999 4 false false false) flex1 = CRet (- C_EIO) s' /\ f_frz flex1 = false /\ f_frz s' = true) /\
  (exists s', mcan_setup 40000000 (mkCset 499999 8 false false false) mcan1 = CRet (- C_EIO) s' /\ m_initb mcan1 = false /\ m_initb s' = true).
Proof. split; [exists (okc (sam_setup 84000000 (mkCset 499999 2 false false false) sam1) sam0)|split; [exists (okc (flex_setup 80000000 (mkCset 499999 4 false false false) flex1) flex0)|exists (okc (mcan_setup 40000000 (mkCset 499999 8 false false false) mcan1) mcan0)]]; (split; [apply by_ret; vm_compute; reflexivity|split; vm_compute; reflexivity]). Qed.
Print Assumptions C123_failed_setup_refuted.
(** Absurd rates: the product of prescaler and rate wraps to 0, and is divided by. *)
Theorem C123_overflow_refuted : mcan_bitrate 134217728 134217728 = BUb /\ flex_bitrate 134217728 134217728 = BUb /\ sam_bitrate 134217728 134217728 = BUb /\ dcan_bitrate 134217728 134217728 = BUb.
Proof. split; [vm_compute; reflexivity|]. split; [vm_compute; reflexivity|]. split; vm_compute; reflexivity. Qed.
Print Assumptions C123_overflow_refuted.

(** * C124: can_write touches transmit mailboxes only, can_accept a free receive mailbox; no undefined behaviour *)
Theorem C124_sam3x_partial : forall le freq st s0 ops s l, sam_up freq st s0 -> ops_ok true ops -> run (sam_step le) ops s0 [] = Some (s, l) -> 0 <= s_rxi s <= s_rxc s /\
  (forall id buf n, sam_write id buf n s <> CUb) /\ (forall id buf n r s' k, sam_write id buf n s = CRet r s' -> s_mb s' k <> s_mb s k -> s_rxc s <= k < 8) /\
  (forall id mask r s' k, sam_accept id mask s = CRet r s' -> s_mb s' k <> s_mb s k -> 0 <= k < s_rxc s /\ k = s_rxi s).
Proof.
  intros le freq st s0 ops s l U Ho R. pose proof (sam_run_inv le ops s0 [] s l (sam_up_inv _ _ _ U) Ho R) as I. split; [destruct I as (I1 & I2 & I3 & _); lia|]. split; [intros id buf n; exact (sam_write_def id buf n s l I)|].
  split; [intros id buf n r s' k; exact (sam_write_where id buf n s l r s' k I)|intros id mask r s' k; exact (sam_accept_where id mask s l r s' k I)].
Qed.
Print Assumptions C124_sam3x_partial.
Theorem C124_flexcan_partial : forall cntmax cnt freq st s0 ops s l, flex_up cntmax cnt freq st s0 -> ops_ok false ops -> run flex_step ops s0 [] = Some (s, l) -> 0 <= f_rxi s <= f_rxc s /\
  (forall id buf n, flex_write id buf n s <> CUb) /\ (forall id buf n r s' k, flex_write id buf n s = CRet r s' -> f_mb s' k <> f_mb s k -> f_rxc s <= k < f_cnt s) /\
  (forall id mask r s' k, flex_accept id mask s = CRet r s' -> f_mb s' k <> f_mb s k -> 0 <= k < f_rxc s /\ k = f_rxi s).
Proof.
  intros cntmax cnt freq st s0 ops s l U Ho R. pose proof (flex_run_inv false ops s0 [] s l (flex_up_inv _ _ _ _ _ U) Ho R) as I. split; [apply I|]. split; [intros id buf n; exact (flex_write_def id buf n s l I)|].
  split; [intros id buf n r s' k; exact (flex_write_where id buf n s l r s' k I)|intros id mask r s' k; exact (flex_accept_where id mask s l r s' k I)].
Qed.
Print Assumptions C124_flexcan_partial.
Theorem C124_dcan_partial : forall freq st s0 ops s l, dcan_up freq st s0 -> ops_ok false ops -> run (dcan_step usual) ops s0 [] = Some (s, l) -> 0 <= d_rxi s <= d_rxc s /\
  (forall id buf n, dcan_write usual id buf n s <> CUb) /\ (forall n, dcan_read usual n s <> RUb) /\ (forall id buf n r s' k, dcan_write usual id buf n s = CRet r s' -> d_obj s' k <> d_obj s k -> d_rxc s < k <= 32) /\
  (forall id mask r s' k, dcan_accept id mask s = CRet r s' -> d_obj s' k <> d_obj s k -> 1 <= k <= d_rxc s /\ k = d_rxi s + 1).
Proof.
  intros freq st s0 ops s l U Ho R. pose proof (dcan_run_inv usual false eq_refl ops s0 [] s l (dcan_up_inv _ _ _ U) Ho R) as I. split; [apply I|]. split; [intros id buf n; exact (dcan_write_def usual id buf n s l eq_refl I)|]. split; [intros n; exact (dcan_read_def usual n s l eq_refl I)|].
  split; [intros id buf n r s' k; exact (dcan_write_where usual id buf n s l r s' k eq_refl I)|intros id mask r s' k; exact (dcan_accept_where id mask s l r s' k I)].
Qed.
Print Assumptions C124_dcan_partial.
Example C124_runs : (exists s, run (sam_step false) [OWrite 1 [1] 1; OWrite 2 [1] 1; OAccept 5 2047; OTx 6; OWrite 3 [1] 1] sam1 [] = Some (s, [(5, 2047)]) /\ s_txi s = 1) /\
  (exists s, run flex_step [OWrite 1 [1] 1; OWrite 2 [1] 1; OAccept 5 2047; OWrite 3 [1] 1] flex1 [] = Some (s, [(5, 2047)]) /\ f_txi s = 3) /\
  (exists s, run (dcan_step usual) [OWrite 1 [1] 1; OAccept 5 2047] dcan1 [] = Some (s, [(5, 2047)]) /\ d_txi s = 1).
Proof. split; [eexists; split; [apply (by_log _ _ sam0); vm_compute; reflexivity|vm_compute; reflexivity]|split; [eexists; split; [apply (by_log _ _ flex0); vm_compute; reflexivity|vm_compute; reflexivity]|eexists; split; [apply (by_log _ _ dcan0); vm_compute; reflexivity|vm_compute; reflexivity]]]. Qed.
(** A second can_setup with fewer transmit mailboxes keeps the old index: no frame is ever sent again on SAM3X. *)
Theorem C124_sam3x_setup_refuted : s_en sam_stuck = true /\ forall id buf n r s', sam_write id buf n sam_stuck = CRet r s' -> r < 0 /\ s_txi s' = s_txi sam_stuck.
Proof.
  split; [vm_compute; reflexivity|]. assert (X : s_rxc sam_stuck = 6 /\ s_txi sam_stuck = 3) by (split; vm_compute; reflexivity). destruct X as [X1 X2]. generalize dependent sam_stuck. intros s X1 X2 id buf n r s' E.
  unfold sam_write in E. rewrite X1, X2 in E. destruct (negb _); [injection E as <- <-; split; [reflexivity|first [reflexivity|exact X2]]|]. destruct (negb _); [injection E as <- <-; split; [reflexivity|first [reflexivity|exact X2]]|]. destruct (negb _); [injection E as <- <-; split; [reflexivity|first [reflexivity|exact X2]]|].
  change (negb (u32 (6 + 3) <? 31)) with false in E. change (u8 (2 ^ u32 (6 + 3))) with 0 in E. cbv iota zeta in E. rewrite Z.land_0_r in E. change (0 =? 0) with true in E. cbv iota in E. injection E as <- <-. split; [reflexivity|]. destruct (s_abort s); cbn; first [reflexivity|congruence].
Qed.
Print Assumptions C124_sam3x_setup_refuted.
(** No transmit mailboxes: setup returns 0, and can_write divides by 0 on FlexCAN, shifts by 32 on DCAN. *)
Theorem C124_none_refuted : (exists s', flex_setup 80000000 (set500 0) flex1 = CRet 0 s' /\ flex_write 1 [1] 1 s' = CUb) /\ (exists s', dcan_setup 200000000 (set500 0) dcan1 = CRet 0 s' /\ dcan_write usual 1 [1] 1 s' = CUb).
Proof. split; [eexists; split; [apply (by_ret _ _ flex0); vm_compute; reflexivity|vm_compute; reflexivity]|eexists; split; [apply (by_ret _ _ dcan0); vm_compute; reflexivity|vm_compute; reflexivity]]. Qed.
Print Assumptions C124_none_refuted.
(** can_nxp_flexcan_init does not set the transmit index: in memory that was not 0, a receive mailbox is overwritten. *)
Theorem C124_flexcan_init_refuted : exists s', flex_write 1 [1] 1 flex_dirty = CRet 1 s' /\ f_rxc flex_dirty = 60 /\ f_mb s' 59 <> f_mb flex_dirty 59.
Proof. eexists. split; [apply (by_ret _ _ flex0); vm_compute; reflexivity|]. split; [vm_compute; reflexivity|]. intros K. apply (f_equal fb_cs) in K. vm_compute in K. discriminate K. Qed.
Print Assumptions C124_flexcan_init_refuted.

(** * C125: M_CAN gives back the frames it took in the order it took them, none twice, none lost *)
Theorem C125_order : forall freq st s ops ins outs s', mcan_up freq st s -> Forall rx_ok ops -> fifo_run ops s = (ins, outs, s') ->
  exists c, rep s' c /\ map (fun f => (fr_id f, fr_data f)) ins = outs ++ map (fun f => (fr_id f, fr_data f)) c.
Proof. intros freq st s ops ins outs s' U Ho E. exact (fifo_run_order ops s [] ins outs s' (proj1 (proj2 (mcan_up_inv _ _ _ U))) Ho E). Qed.
Print Assumptions C125_order.
(** Once it is full, and the field of 7 bits read as 6, nothing is read and nothing is received any more. *)
Theorem C125_full_refuted : forall ops s acc s' acc' n, 0 <= m_gi s < 64 -> m_fl s = 64 -> run mcan_step ops s acc = Some (s', acc') ->
  (exists r, mcan_read n s' = RRet r None [] s' /\ r < 0) /\ forall f, mcan_receives f s' = s'.
Proof.
  intros ops s acc s' acc' n G F E. destruct (mcan_deaf ops s acc s' acc' G F E) as (A & B & C). split; [apply mcan_full_read; [lia|exact B]|]. intros f. unfold mcan_receives. rewrite B. reflexivity.
Qed.
Print Assumptions C125_full_refuted.
Example C125_runs : exists s', fifo_run [OAccept 0 0; ORx (mkFrame false 1 [1]) 0; ORx (mkFrame false 2 [2]) 0; ORead 8; ORx (mkFrame false 3 [3]) 0; ORead 8] mcan1 = ([mkFrame false 1 [1]; mkFrame false 2 [2]; mkFrame false 3 [3]], [(1, [1]); (2, [2])], s').
Proof. apply ex_pair. vm_compute; reflexivity. Qed.
Example C125_full_reached : let s := st_of (run mcan_step (OAccept 0 0 :: repeat (ORx f8 0) 64) mcan1 []) mcan0 in m_gi s = 0 /\ m_fl s = 64.
Proof. split; vm_compute; reflexivity. Qed.

(** * C126: M_CAN comes back after bus off *)
(** While off, each write fails; with the second at the latest recovery begins; when it is over writes succeed. *)
Theorem C126_recovery : forall s id1 buf1 n1 r1 s1 id2 buf2 n2 r2 s2 id buf n, mcan_write id1 buf1 n1 (mcan_busoff s) = CRet r1 s1 -> n1 <= 8 -> mcan_write id2 buf2 n2 s1 = CRet r2 s2 -> n2 <= 8 -> m_full s2 = false -> n <= 8 ->
  r1 < 0 /\ r2 < 0 /\ exists s3, mcan_write id buf n (mcan_recovered s2) = CRet n s3.
Proof.
  intros s id1 buf1 n1 r1 s1 id2 buf2 n2 r2 s2 id buf n E1 H1 E2 H2 F Hn. destruct (mcan_busoff_write id1 buf1 n1 (mcan_busoff s) r1 s1 eq_refl E1 H1) as (A1 & A2 & A3 & _).
  destruct (mcan_busoff_write id2 buf2 n2 s1 r2 s2 A2 E2 H2) as (B1 & B2 & B3 & B4 & _). split; [exact A1|]. split; [exact B1|]. unfold mcan_recovered. rewrite (B4 A3). apply mcan_up_write; try reflexivity; assumption.
Qed.
Print Assumptions C126_recovery.
(** Nothing is sent while off, and a recovery that has begun is not undone, however many writes there are. *)
Theorem C126_stable : forall ws s acc s' acc', m_bo s = true -> m_initb s = false -> Forall (fun o => match o with OWrite _ _ n => 0 <= n <= 8 | ORx _ _ | OTx _ => False | _ => True end) ws -> run mcan_step ws s acc = Some (s', acc') ->
  m_bo s' = true /\ m_initb s' = false /\ m_tx s' = m_tx s.
Proof.
  induction ws as [|o ws IH]; intros s acc s' acc' B J Hw E; cbn [run] in E; [injection E as <- _; tauto|]. apply Forall_cons in Hw as [Ho Hw]. destruct (mcan_step o s acc) as [[s1 a1]|] eqn:S; [|discriminate E].
  assert (X : m_bo s1 = true /\ m_initb s1 = false /\ m_tx s1 = m_tx s).
  { destruct o as [id mask|id buf n|n|f k|k]; cbn [mcan_step] in S; [| | |destruct Ho|destruct Ho].
    - destruct (mcan_accept id mask s) as [r s2|] eqn:A; [|discriminate S]. injection S as <- _. assert (T : m_tx s2 = m_tx s). { unfold mcan_accept in A. destruct (negb _); [injection A as _ <-; reflexivity|]. destruct (negb _); [injection A as _ <-; reflexivity|]. destruct (id <? 2048); destruct (negb _); injection A as _ <-; reflexivity. }
      destruct (mcan_accept_other _ _ _ _ _ A) as (_ & _ & _ & X1 & X2 & _). rewrite X1, X2. tauto.
    - destruct (mcan_write id buf n s) as [r s2|] eqn:A; [|discriminate S]. injection S as <- _. destruct (mcan_busoff_write id buf n s r s2 B A ltac:(lia)) as (C1 & C2 & _ & _ & C5). destruct (mcan_write_err _ _ _ _ _ _ A C1 ltac:(lia)) as [C6 _]. tauto.
    - destruct (mcan_read n s) as [r id out s2|] eqn:A; [|discriminate S]. injection S as <- _. unfold mcan_read in A. destruct (negb _); [injection A as _ _ _ <-; tauto|]. destruct (negb _); [injection A as _ _ _ <-; tauto|]. destruct (_ =? 0); [injection A as _ _ _ <-; tauto|]. cbv zeta in A. injection A as _ _ _ <-. tauto. }
  destruct X as (X1 & X2 & X3). destruct (IH s1 a1 s' acc' X1 X2 Hw E) as (Y1 & Y2 & Y3). rewrite Y3. tauto.
Qed.
Print Assumptions C126_stable.
Example C126_runs : exists r1 s1 r2 s2, mcan_write 1 [1] 1 (mcan_busoff mcan1) = CRet r1 s1 /\ mcan_write 1 [1] 1 s1 = CRet r2 s2 /\ m_full s2 = false /\ r1 = - C_EIO /\ r2 = - C_EBUSY /\ m_bo s2 = true /\ m_initb s2 = false.
Proof.
  exists (- C_EIO), (okc (mcan_write 1 [1] 1 (mcan_busoff mcan1)) mcan0), (- C_EBUSY), (okc (mcan_write 1 [1] 1 (okc (mcan_write 1 [1] 1 (mcan_busoff mcan1)) mcan0)) mcan0).
  split; [apply by_ret; vm_compute; reflexivity|]. split; [apply by_ret; vm_compute; reflexivity|]. split; [vm_compute; reflexivity|]. split; [reflexivity|]. split; [reflexivity|]. split; vm_compute; reflexivity.
Qed.
