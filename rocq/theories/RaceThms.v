(** RaceThms.v - proofs about RaceModel.v. *)
From Verif Require Import Base SchedModel SchedSpec SortProofs BootProofs SchedProofs StepProofs SchedThms BootThms HistThms
  SmpModel SmpSpec SmpBoot SmpProofs SmpInv SmpThms RaceModel RaceSpec.
From Coq Require Import ZifyBool ZifyNat.

Definition self_ok (pid k0 : nat) (p : self_pc) : Prop :=
  match p with
  | SelfStart | SelfCore => True
  | SelfIndex c | SelfRead c => c = Z.of_nat k0
  | SelfState v | SelfDone v => v = Z.of_nat pid
  | SelfFatal => False
  end.
Lemma m_reachable_step g rs s ev s' sp r : m_reachable g rs s -> m_step g s ev = Ok (s', sp, r) -> m_reachable g rs s'.
Proof.
  intros (tmp0 & s0 & evs & H1 & H2) H3. exists tmp0, s0, (evs ++ [ev]). split; [done|].
  clear H1. revert s0 H2. induction evs as [|e evs IH]; intros s0; cbn [app m_run].
  - intros [= ->]. rewrite H3. done.
  - destruct (m_step g s0 e) as [x| | |]; cbn [rbind]; [|done..]. apply IH.
Qed.
Lemma race_pinned g rs pid k0 : wf_smp g -> smp_typed rs -> (pid < cfg_n (m_base g))%nat -> pinned g rs pid k0 ->
  forall es s p, m_reachable g rs s -> self_ok pid k0 p -> calls_self g pid s p es ->
  forall s' p', race_run g s p es = Ok (s', p') -> self_ok pid k0 p'.
Proof.
  intros Hw Ht Hp Hpin es. induction es as [|e es IH]; intros s p Hr Hok Hc s' p'; cbn [race_run].
  - intros [= <- <-]. done.
  - cbn [calls_self] in Hc. destruct Hc as [Hc1 Hc2]. destruct (race_step g s p e) as [[s1 p1]| | |] eqn:E; cbn [rbind]; [|done..].
    apply IH; [| |done].
    + destruct e as [ev|k]; cbn [race_step] in E.
      * destruct (m_step g s ev) as [[[a b] d]| | |] eqn:Es; cbn [rbind fst] in E; [|done..]. injection E as <- <-.
        by eapply m_reachable_step.
      * destruct (self_access s k p); cbn [rbind] in E; [|done..]. injection E as <- <-. done.
    + destruct e as [ev|k]; cbn [race_step] in E.
      * destruct (m_step g s ev) as [[[a b] d]| | |] eqn:Es; cbn [rbind fst] in E; [|done..]. injection E as <- <-. done.
      * destruct Hc1 as [Hk Hon].
        assert (Hi := m_reachable_inv _ _ _ Hw Ht Hr).
        destruct (inv_on_core g rs s k Hi Hk) as [Hix _]. rewrite Hon in Hix.
        destruct (m_cur_lookup g rs s k Hi Hk) as (t & Htk & Hb). rewrite Hon in Htk, Hb.
        assert (Hbusy : t_state t = BUSY) by (destruct Hb as [?|[Hid _]]; [done|unfold idle_of in Hid; lia]).
        assert (k = k0).
        { apply Hpin; [done|]. destruct (m_affinity g rs s k Hw Ht Hr Hk) as [Hid|(r & Hor & Hbit)].
          - rewrite Hon in Hid. unfold idle_of in Hid. lia.
          - rewrite Hon in Hor. unfold allowed. rewrite decide_True by done. by rewrite Hor. }
        subst k. destruct (self_access s k0 p) as [p2| | |] eqn:Ea; cbn [rbind] in E; [|done..]. injection E as <- <-.
        destruct p; cbn [self_access self_ok] in Ea, Hok |- *; subst.
        -- by injection Ea as <-.
        -- rewrite (aget_ok _ _ _ Hix) in Ea. cbn [rbind] in Ea. by injection Ea as <-.
        -- rewrite (mget_ok _ _ _ Htk) in Ea. cbn [rbind] in Ea. rewrite bool_decide_eq_true_2 in Ea by done. by injection Ea as <-.
        -- by injection Ea as <-.
        -- rewrite (aget_ok _ _ _ Hix) in Ea. cbn [rbind] in Ea. by injection Ea as <-.
        -- by injection Ea as <-.
        -- done.
Qed.

(** ** Torn reads *)
Lemma tick_loads_const b v ss : 0 < b -> 0 <= v -> forall i, 0 <= i -> Forall (fun s => c_tick s = v) ss ->
  tick_loads b i ss = (v / 2 ^ (b * i)) mod 2 ^ (b * Z.of_nat (length ss)) * 2 ^ (b * i).
Proof.
  intros Hb Hv. induction ss as [|s ss IH]; intros i Hi HF; cbn [tick_loads length].
  - rewrite Z.mul_0_r, Z.mod_1_r. done.
  - inversion HF as [|? ? E1 E2]; subst. rewrite IH by (done || lia).
    set (n := Z.of_nat (length ss)). assert (0 <= n) by lia.
    replace (b * Z.of_nat (S (length ss))) with (b + b * n) by lia.
    rewrite (Z.pow_add_r 2 b (b * n)) by nia. replace (b * (i + 1)) with (b * i + b) by lia. rewrite Z.pow_add_r by nia.
    rewrite Z.rem_mul_r by (try apply Z.pow_nonzero; try apply Z.pow_pos_nonneg; nia).
    rewrite <- Z.div_div by (try apply Z.pow_nonzero; try apply Z.pow_pos_nonneg; nia). ring.
Qed.
Lemma tick_bound c rs s : wf_config c -> regs_typed rs -> reachable c rs s -> 0 <= c_tick s < 2 ^ cfg_tbits c.
Proof.
  intros Hw Ht (tmp0 & s0 & evs & H1 & H2). pose proof (get_tick_value c tmp0 rs s0 evs s Hw Ht H1 H2) as H.
  unfold get_tick, assert_fatal in H. destruct (c_running s); [|done]. injection H as ->.
  apply Z.mod_pos_bound. apply Z.pow_pos_nonneg; [lia|]. destruct Hw as (_ & ? & _). lia.
Qed.
Lemma one_load c rs s : wf_config c -> regs_typed rs -> reachable c rs s -> tick_loads (cfg_tbits c) 0 [s] = c_tick s.
Proof.
  intros Hw Ht Hr. pose proof (tick_bound c rs s Hw Ht Hr) as Hb. cbn [tick_loads]. rewrite Z.mul_0_r. change (2 ^ 0) with 1.
  rewrite Z.div_1_r, Z.mod_small by done. lia.
Qed.
Lemma two_loads c rs s evs s' b : wf_config c -> regs_typed rs -> reachable c rs s -> run c s evs = Ok s' ->
  0 < b -> cfg_tbits c = 2 * b -> (tick_free evs \/ c_tick s / 2 ^ b = c_tick s' / 2 ^ b) ->
  tick_loads b 0 [s; s'] = c_tick s.
Proof.
  intros Hw Ht Hr Hrun Hb Hc H. pose proof (tick_bound c rs s Hw Ht Hr) as HB.
  assert (E : c_tick s' / 2 ^ b = c_tick s / 2 ^ b).
  { destruct H as [H|H]; [|done]. f_equal. apply (tick_free_tick c rs evs); try done. by apply reachable_inv. }
  cbn [tick_loads]. replace (b * 0) with 0 by lia. replace (b * (0 + 1)) with b by lia. change (2 ^ 0) with 1. rewrite Z.div_1_r, E.
  assert (P : 0 < 2 ^ b) by (apply Z.pow_pos_nonneg; lia).
  rewrite (Z.mod_small (c_tick s / 2 ^ b)).
  - pose proof (Z.div_mod (c_tick s) (2 ^ b) ltac:(lia)). lia.
  - split; [apply Z.div_pos; lia|]. apply Z.div_lt_upper_bound; [lia|]. rewrite <- Z.pow_add_r by lia. replace (b + b) with (2 * b) by lia. rewrite <- Hc. lia.
Qed.
