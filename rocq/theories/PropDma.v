(** PropDma.v - C137: a DMA transfer moves what it was asked to, and is done when it has. *)
From Verif Require Import Base MuxModel DmaModel DmaSpec DmaProofs.

(** Transfers the channel can do are accepted (the eDMA's while its channel is idle). *)
Theorem C137_accepts : forall d base x s, possible d x -> (exists s', dma_setup d base x s = DOk s') /\
  (d <> DEdma \/ mf (s CSR) 6 1 = 0 -> exists s', dma_xfer d base x s = DOk s').
Proof.
  intros d base x s P. split; [apply setup_accepts; exact P|]. intros H. assert (N : d = DEdma \/ d <> DEdma) by (destruct d; ((left; reflexivity) || (right; congruence))). destruct N as [->|N].
  - destruct H as [H|H]; [congruence|]. apply xfer_accepts; auto.
  - apply xfer_accepts'; auto.
Qed.
Print Assumptions C137_accepts.
(** The channel is programmed to read and write the units asked for, in order, whatever it did before. *)
Theorem C137_units_partial : forall d base x s s', possible d x -> dma_setup d base x s = DOk s' \/ dma_xfer d base x s = DOk s' ->
  exists p, programmed d s' = Some p /\ accesses p = asked_units x.
Proof.
  intros d base x s s' P [H|H]; exists (prog_of x); (split; [|apply prog_of_units]).
  - exact (setup_prog d base x s s' P H).
  - exact (xfer_prog d base x s s' P H).
Qed.
Print Assumptions C137_units_partial.
(** From memory to memory: when they have all been moved the destination is a copy, and no other byte was written. *)
Theorem C137_copy_partial : forall d base x s s', possible d x -> dma_setup d base x s = DOk s' \/ dma_xfer d base x s = DOk s' ->
  incr_read x <> 0 -> incr_write x <> 0 -> apart x -> exists p, programmed d s' = Some p /\ forall m a, copies (accesses p) m a = memory_copied x m a.
Proof.
  intros d base x s s' P H R W A. destruct (C137_units_partial d base x s s' P H) as [p [Q E]]. exists p. split; [exact Q|].
  intros m a. rewrite E. exact (units_copy d x m P R W A a).
Qed.
Print Assumptions C137_copy_partial.
(** dma_xfer_done says so when the last unit was moved, and not before (eDMA: from when the channel is served). *)
Theorem C137_done_partial : forall d base x s s' k, possible d x -> dma_setup d base x s = DOk s' \/ dma_xfer d base x s = DOk s' ->
  0 <= k <= byte_count x / size x -> dma_done d (moved d k s') = (k =? byte_count x / size x).
Proof.
  intros d base x s s' k P H K.
  assert (Q : programmed d s' = Some (prog_of x)) by (destruct H as [H|H]; [exact (setup_prog d base x s s' P H)|exact (xfer_prog d base x s s' P H)]).
  apply (moved_done d s' (prog_of x) k Q); [|exact K]. intros ->.
  destruct H as [H|H]; exact (proj2 (proj2 (gd_prog base x s s' P H))).
Qed.
Print Assumptions C137_done_partial.
(** RP2040 and eDMA: dma_xfer starts by itself, and moves all units. *)
Theorem C137_starts_partial : forall d base x s s', d = DRp \/ d = DEdma -> possible d x -> dma_xfer d base x s = DOk s' -> self_started d s' = byte_count x / size x.
Proof.
  intros d base x s s' D P H. unfold self_started. rewrite (xfer_prog d base x s s' P H). destruct D as [->| ->]; cbn [dma_xfer] in H.
  - rewrite (proj2 (rp_prog true x s s' P H)). reflexivity.
  - destruct (edma_prog true x s s' P H) as [_ [-> _]]. reflexivity.
Qed.
Print Assumptions C137_starts_partial.

(** A board's transfers: 12 bytes by words, by half-words from a peripheral, and the memory after it. *)
Definition idle : dst := fun _ => 0.
Definition words : xfer := mkXfer 536870912 536871936 1 1 4 12.
Definition halves : xfer := mkXfer 1073816620 536870912 0 1 2 10.
Example C137_runs : possible DStm words /\ possible DE5 words /\ possible DRp words /\ possible DEdma words /\ possible DGd halves /\ apart words.
Proof. repeat split; vm_compute; try reflexivity; try (intros K; discriminate K). left. intros K; discriminate K. Qed.
Example C137_runs2 : exists s', dma_xfer DRp 0 words idle = DOk s' /\ (exists p, programmed DRp s' = Some p /\ accesses p =
    [(536870912, 536871936, 4); (536870916, 536871940, 4); (536870920, 536871944, 4)] /\ copies (accesses p) (fun a => a) 536871947 = 536870923) /\
  dma_done DRp (moved DRp 2 s') = false /\ dma_done DRp (moved DRp 3 s') = true.
Proof. eexists. split; [reflexivity|]. split; [eexists; split; [vm_compute; reflexivity|split; vm_compute; reflexivity]|split; vm_compute; reflexivity]. Qed.
Example C137_runs3 : exists s', dma_setup DGd 1073741824 halves idle = DOk s' /\ exists p, programmed DGd s' = Some p /\
  accesses p = [(1073816620, 536870912, 2); (1073816620, 536870914, 2); (1073816620, 536870916, 2); (1073816620, 536870918, 2); (1073816620, 536870920, 2)].
Proof. eexists. split; [reflexivity|]. eexists. split; vm_compute; reflexivity. Qed.

(** GD32, STM32H7: dma_xfer starts nothing: memory to memory mode is never asked for, and the channel waits for a peripheral's request. *)
Theorem C137_unstarted_refuted : forall d base x s s', d = DGd \/ d = DStm -> possible d x -> dma_xfer d base x s = DOk s' -> self_started d s' = 0.
Proof.
  intros d base x s s' D P H. unfold self_started. rewrite (xfer_prog d base x s s' P H). destruct D as [->| ->]; cbn [dma_xfer] in H.
  - destruct (gd_prog base x s s' P H) as [_ [-> _]]. reflexivity.
  - destruct (stm_prog base x s s' P H) as [_ [L _]]. destruct (Z.eqb_spec (mf (s' SCR) 6 2) 2); [lia|reflexivity].
Qed.
Print Assumptions C137_unstarted_refuted.
(** SAME5x: the channel was made to move one unit for each trigger, and dma_xfer gives one: more units than one are never done. *)
Theorem C137_same5x_one_refuted : forall base trigsrc x s s', 0 <= trigsrc < 128 -> possible DE5 x -> size x < byte_count x -> dma_xfer DE5 base x (e5_init trigsrc s) = DOk s' ->
  self_started DE5 s' = 1 /\ dma_done DE5 (moved DE5 (self_started DE5 s') s') = false.
Proof.
  intros base t x s s' T P L H. destruct (e5_prog x _ s' P H) as [Q [_ A]].
  assert (M : 1 < p_count (prog_of x)).
  { destruct P as [U W S _ _ _ _]. cbn [prog_of p_count]. assert (0 < size x) by (destruct (unit_cases _ _ U) as [->|[->|[[-> _]|[-> _]]]]; lia).
    pose proof (Z.div_mod (byte_count x) (size x)) as D. assert (size x * (byte_count x / size x) = byte_count x) by lia. nia. }
  assert (E : self_started DE5 s' = 1).
  { unfold self_started. rewrite Q, A. unfold e5_init. dregs. MuxProofs.fields.
    match goal with |- (if ?b then _ else _) = _ => change b with true end. cbv iota. lia. }
  split; [exact E|]. rewrite E.
  rewrite (moved_done DE5 s' (prog_of x) 1 Q) by (congruence || lia). apply Z.eqb_neq. lia.
Qed.
Print Assumptions C137_same5x_one_refuted.
(** GD32: units of 4 bytes are accepted, and program a reserved width. *)
Theorem C137_gd32_word_refuted : forall base x s s', size x = 4 -> dma_setup DGd base x s = DOk s' -> programmed DGd s' = None.
Proof.
  intros base x s s' E H. cbn [dma_setup] in H. unfold gd_setup in H. rewrite E in H. cbn [Z.ltb Z.leb Z.compare Pos.compare Pos.compare_cont andb negb] in H.
  destruct (negb (0 <? byte_count x)); [discriminate H|]. destruct (negb (incr_ok x)); [discriminate H|]. cbv zeta in H.
  destruct (on_cases (incr_read x)) as [Oi|Oi], (on_cases (incr_write x)) as [Ow|Ow]; rewrite ?Oi, ?Ow in H.
  all: destruct (base <=? saddr x); injection H as <-; cbn [programmed]; dregs; reflexivity.
Qed.
Print Assumptions C137_gd32_word_refuted.
Example C137_gd32_word_runs : exists s', dma_setup DGd 1073741824 words idle = DOk s' /\ programmed DGd s' = None.
Proof. eexists. split; [reflexivity|]. vm_compute. reflexivity. Qed.
(** Units of 3 bytes are accepted: GD32 moves as many words, STM32H7 and SAME5x half-words. *)
Theorem C137_three_wrong :
  (exists s' p, dma_setup DGd 0 (mkXfer 100 200 1 1 3 6) idle = DOk s' /\ programmed DGd s' = Some p /\ p_width p = 4 /\ p_count p = 2) /\
  (exists s' p, dma_setup DStm 0 (mkXfer 100 200 1 1 3 6) idle = DOk s' /\ programmed DStm s' = Some p /\ p_width p = 2 /\ p_count p = 2) /\
  (exists s' p, dma_setup DE5 0 (mkXfer 100 200 1 1 3 6) idle = DOk s' /\ programmed DE5 s' = Some p /\ p_width p = 2 /\ p_count p = 2).
Proof. repeat split; eexists; eexists; (split; [reflexivity|]); (split; [vm_compute; reflexivity|split; reflexivity]). Qed.
Print Assumptions C137_three_wrong.
(** STM32H7: a size of 0 is not refused, and divides by it. *)
Theorem C137_stm32_zero_ub : forall base x s, size x = 0 -> incr_ok x = true -> dma_setup DStm base x s = DUb.
Proof. intros base x s E I. cbn [dma_setup]. unfold stm_setup. rewrite I, E. reflexivity. Qed.
Print Assumptions C137_stm32_zero_ub.
(** GD32: 65536 units, or a multiple, are accepted, and done at once: none was moved. *)
Theorem C137_gd32_count_wrong : forall base x s s', dma_xfer DGd base x s = DOk s' -> (byte_count x / size x) mod 2 ^ 16 = 0 -> dma_done DGd s' = true.
Proof.
  intros base x s s' H E. cbn [dma_xfer] in H. unfold gd_setup in H.
  destruct (negb _); [discriminate H|]. destruct (negb _); [discriminate H|]. destruct (negb _); [discriminate H|]. cbv zeta in H. rewrite E in H.
  destruct (base <=? saddr x); injection H as <-; cbn [dma_done]; dregs; reflexivity.
Qed.
Print Assumptions C137_gd32_count_wrong.
Example C137_gd32_count_runs : exists s', dma_xfer DGd 1073741824 (mkXfer 1073816620 536870912 0 1 2 131072) idle = DOk s' /\ (131072 / 2) mod 2 ^ 16 = 0.
Proof. eexists. split; vm_compute; reflexivity. Qed.
(** What is left over of the last unit is never moved; SAME5x also starts past the source, and the destination, by as much. *)
Theorem C137_rest_wrong :
  (exists s' p, dma_setup DE5 0 (mkXfer 100 200 1 1 4 6) idle = DOk s' /\ programmed DE5 s' = Some p /\ accesses p = [(102, 202, 4)]) /\
  (exists s' p, dma_setup DRp 0 (mkXfer 100 200 1 1 4 6) idle = DOk s' /\ programmed DRp s' = Some p /\ accesses p = [(100, 200, 4)]).
Proof. repeat split; eexists; eexists; (split; [reflexivity|]); (split; vm_compute; reflexivity). Qed.
Print Assumptions C137_rest_wrong.
(** RP2040: after a dma_xfer the channel has the permanent request for good: a transfer set up for a peripheral then starts without it. *)
Theorem C137_rp2040_pace_refuted : forall base x y s s1 s2, possible DRp x -> possible DRp y -> dma_xfer DRp base x s = DOk s1 -> dma_setup DRp base y s1 = DOk s2 ->
  self_started DRp s2 = byte_count y / size y.
Proof.
  intros base x y s s1 s2 P Q H K. unfold self_started. rewrite (setup_prog DRp base y s1 s2 Q K). cbn [dma_xfer dma_setup] in *.
  rewrite (proj2 (rp_prog false y s1 s2 Q K)), (proj2 (rp_prog true x s s1 P H)). reflexivity.
Qed.
Print Assumptions C137_rp2040_pace_refuted.
(** As made, it waits. *)
Example C137_rp2040_pace_runs : exists s1, dma_setup DRp 0 words (rp_init 16 idle) = DOk s1 /\ self_started DRp s1 = 0.
Proof. eexists. split; [reflexivity|]. vm_compute. reflexivity. Qed.
(** STM32H7: dma_setup takes back the circular mode that dma_stm32h7xx_setup has set. *)
Theorem C137_stm32_circ_refuted : forall base x s s', possible DStm x -> dma_setup DStm base x (stm_circ true s) = DOk s' -> mf (s' SCR) 8 1 = 0.
Proof. intros base x s s' P H. exact (proj2 (proj2 (proj2 (stm_prog base x _ s' P H)))). Qed.
Print Assumptions C137_stm32_circ_refuted.
(** eDMA: until the channel is served dma_xfer_done says that it is done: nothing was moved. *)
Theorem C137_edma_done_wrong : forall base x s s', possible DEdma x -> dma_xfer DEdma base x s = DOk s' -> dma_done DEdma s' = true.
Proof.
  intros base x s s' P H. destruct (edma_prog true x s s' P H) as [_ [_ A]]. cbn [dma_xfer dma_done] in *. unfold edma_xfer, edma_tcd in H.
  destruct (mf (s CSR) 6 1 =? 1) eqn:E; [discriminate H|]. destruct (edma_size (size x)); [|discriminate H]. cbv zeta in H. injection H as <-. dregs. MuxProofs.fields.
  assert (B : mf (s CSR) 6 1 = 0 \/ mf (s CSR) 6 1 = 1).
  { unfold mf. rewrite Z.land_ones by discriminate. pose proof (Z.mod_pos_bound (Z.shiftr (s CSR) 6) (2 ^ 1) eq_refl) as M.
    change (2 ^ 1) with 2 in *. set (v := Z.shiftr (s CSR) 6 mod 2) in *. clearbody v. lia. }
  destruct B as [B|B]; [rewrite B; reflexivity|congruence].
Qed.
Print Assumptions C137_edma_done_wrong.
(** RP2040: dma_xfer triggers the channel twice. If it is still busy at the second trigger, each unit is moved once... *)
Theorem C137_rp2040_once_partial : forall base x s s' k, possible DRp x -> dma_xfer DRp base x s = DOk s' -> (k < Z.to_nat (byte_count x / size x))%nat ->
  exists p, programmed DRp s' = Some p /\ rr_log (rr_xfer p k) = asked_units x.
Proof.
  intros base x s s' k P H K. exists (prog_of x). split; [exact (xfer_prog DRp base x s s' P H)|]. rewrite <- prog_of_units. apply rr_once. exact K.
Qed.
Print Assumptions C137_rp2040_once_partial.
(** ... but if it has finished by then (a short transfer, and a request that is there), all is moved again, from where it ended: bytes past the
    destination are overwritten. *)
Theorem C137_rp2040_twice_refuted : forall base x s s', possible DRp x -> dma_xfer DRp base x s = DOk s' ->
  exists p, programmed DRp s' = Some p /\ rr_log (rr_xfer p (Z.to_nat (byte_count x / size x))) = asked_units x ++
    asked_units (mkXfer (saddr x + (if incr_read x =? 0 then 0 else byte_count x)) (daddr x + (if incr_write x =? 0 then 0 else byte_count x)) (incr_read x) (incr_write x) (size x) (byte_count x)).
Proof.
  intros base x s s' P H. exists (prog_of x). split; [exact (xfer_prog DRp base x s s' P H)|].
  rewrite <- !prog_of_units. change (byte_count x / size x) with (p_count (prog_of x)). rewrite rr_twice. f_equal.
  destruct P as [U W S _ _ _ _]. assert (Z0 : 0 < size x) by (destruct (unit_cases _ _ U) as [->|[->|[[-> _]|[-> _]]]]; lia).
  assert (D : byte_count x = size x * (byte_count x / size x)) by (rewrite (Z.div_mod (byte_count x) (size x)) at 1 by lia; rewrite W; apply Z.add_0_r).
  assert (N : 0 <= byte_count x / size x) by (apply Z.div_pos; lia).
  unfold accesses, prog_of. cbn [p_width p_count p_src p_sstep p_dst p_dstep saddr daddr incr_read incr_write size byte_count]. rewrite Z2Nat.id by exact N.
  assert (M : forall i, byte_count x / size x * (size x * on i) = if i =? 0 then 0 else byte_count x).
  { intros i. unfold on. destruct (i =? 0); [rewrite !Z.mul_0_r; reflexivity|]. rewrite Z.mul_1_r, Z.mul_comm. symmetry. exact D. }
  rewrite !M. reflexivity.
Qed.
Print Assumptions C137_rp2040_twice_refuted.
Example C137_rp2040_twice_runs : rr_log (rr_xfer (mkProg 4 1 100 4 200 4) 1) = [(100, 200, 4); (104, 204, 4)].
Proof. reflexivity. Qed.
