(** SmpInv.v - the invariant of picoRTOS-SMP holds in every reachable state. *)
From Verif Require Import Base SchedModel SchedSpec SortProofs BootProofs SchedProofs StepProofs
  SmpModel SmpSpec SmpBoot SmpProofs.
From Coq Require Import ZifyBool ZifyNat.

Lemma aget_oob {A} (l : list A) k : (length l <= k)%nat -> aget l (Z.of_nat k) = UB.
Proof.
  intros H. unfold aget. destruct (Z.ltb_spec (Z.of_nat k) 0); [done|]. rewrite Nat2Z.id.
  rewrite lookup_ge_None_2 by done. done.
Qed.

Lemma m_scan_idle g s mask idx n : wf_smp g -> (cfg_n (m_base g) <= idx)%nat ->
  (idx < cfg_n (m_base g) + m_cores g)%nat ->
  length (m_task s) = (cfg_n (m_base g) + m_cores g)%nat ->
  (forall i t, (idx < i)%nat -> m_task s !! i = Some t -> m_available g s mask t = Ok false) ->
  (cfg_n (m_base g) + m_cores g - idx <= n)%nat ->
  m_scan n g s mask (Z.of_nat idx) = Fatal.
Proof.
  revert idx. induction n as [|n IH]; intros idx Hw Hn Hlt Hlen Hav Hf; [lia|]. cbn [m_scan].
  rewrite wfm_pid by (done || (unfold m_taskcount; lia)). unfold assert_fatal, m_taskcount.
  destruct (Z.ltb_spec (Z.of_nat idx + 1) (Z.of_nat (cfg_n (m_base g)) + Z.of_nat (m_cores g))); [|done].
  destruct (lookup_lt_is_Some_2 (m_task s) (S idx)) as [t Ht]; [lia|].
  replace (Z.of_nat idx + 1) with (Z.of_nat (S idx)) by lia.
  rewrite (mget_ok _ _ _ Ht). cbn [rbind]. rewrite (Hav (S idx) t) by (done || lia). cbn [rbind].
  apply IH; try done; try lia. intros i u Hi Hu. apply (Hav i u); [lia|done].
Qed.

(** An event that does not stall was valid. *)
Lemma m_step_ok_valid g rs s k o e x : wf_smp g -> MInv g rs s -> m_step g s (k, (o, e)) = Ok x ->
  m_valid g s k o /\ m_spin s k e.
Proof.
  intros Hw Hi Hst.
  assert (Hk : (k < m_cores g)%nat).
  { destruct (decide (k < m_cores g)%nat) as [|Hn]; [done|exfalso].
    assert (Ho : aget (m_index s) (Z.of_nat k) = UB) by (apply aget_oob; rewrite (mi_ilen _ _ _ Hi); lia).
    destruct o; cbn [m_step] in Hst; unfold m_dotick, m_api, m_guard, assert_fatal in Hst;
      rewrite ?Ho in Hst; try done. destruct (_ >? 0); [|done]. rewrite ?Ho in Hst. done. }
  destruct (inv_on_core g rs s k Hi Hk) as [Hix Hlt].
  destruct (lookup_lt_is_Some_2 (m_task s) (on_core s k)) as [t Ht]; [rewrite (mi_len _ _ _ Hi); done|].
  assert (Hsys : forall sc y, m_api g s (Z.of_nat k) e sc = Ok y ->
     t_bot t <= e_sp e < t_top t /\ (on_core s k < cfg_n (m_base g))%nat).
  { intros sc y Hy. unfold m_api, m_guard in Hy. rewrite (aget_ok _ _ _ Hix) in Hy. cbn [rbind] in Hy.
    rewrite (mget_ok _ _ _ Ht) in Hy. cbn [rbind] in Hy. unfold assert_fatal in Hy.
    destruct (bool_decide (t_state t = BUSY)) eqn:Eb; [|done]. apply bool_decide_eq_true in Eb.
    unfold m_syscall in Hy. rewrite (aget_ok _ _ _ Hix) in Hy. cbn [rbind] in Hy.
    rewrite (mget_ok _ _ _ Ht) in Hy. cbn [rbind] in Hy. unfold assert_fatal in Hy.
    destruct (e_sp e >=? t_bot t) eqn:E1; [|done].
    destruct (Z.ltb_spec (e_sp e) (t_top t)) as [E2|E2]; [|done].
    split; [lia|].
    destruct (decide (on_core s k < cfg_n (m_base g))%nat) as [|Hn]; [done|exfalso].
    assert (Hltt := lookup_lt_Some _ _ _ Ht).
    assert (Hid : on_core s k = idle_of g k).
    { destruct (mi_cur _ _ _ Hi k Hk) as [Ha _]. unfold allowed in Ha. rewrite decide_False in Ha by done. done. }
    assert (Hsw : forall t1 f,
       m_switch g (mw_postponed (mw_task s (<[on_core s k := t1]> (m_task s))) f) (Z.of_nat k) (Z.of_nat (on_core s k)) e = Fatal).
    { intros t1 f. unfold m_switch.
      assert (Hg : m_task (mw_postponed (mw_task s (<[on_core s k := t1]> (m_task s))) f) !! on_core s k = Some t1).
      { cbn. rewrite list_lookup_insert by done. done. }
      rewrite (mget_ok _ _ _ Hg). cbn [rbind].
      rewrite mput_ok by (apply lookup_lt_Some in Hg; done). cbn [rbind]. cbn [m_switch_loop].
      rewrite (m_scan_idle g); try done; try lia.
      - cbn. rewrite !insert_length. apply (mi_len _ _ _ Hi).
      - intros i u Hiu Hu. cbn in Hu. rewrite !list_lookup_insert_ne in Hu by lia.
        unfold m_available. rewrite core_bit_pow by (done || lia). rewrite land_pow2.
        destruct (mi_slot _ _ _ Hi _ _ Hu) as (_ & Hm & _). specialize (Hm k Hk).
        destruct (Z.testbit (t_mask u) (Z.of_nat k)); [|done].
        exfalso. assert (Ha : allowed g rs k i) by (apply Hm; done).
        unfold allowed in Ha. rewrite decide_False in Ha by lia. lia. }
    assert (Hsw' : forall t1, m_switch g (mw_task s (<[on_core s k := t1]> (m_task s))) (Z.of_nat k) (Z.of_nat (on_core s k)) e = Fatal).
    { intros t1. assert (Hq := Hsw t1 (m_postponed s)).
      replace (mw_postponed (mw_task s (<[on_core s k:=t1]> (m_task s))) (m_postponed s))
        with (mw_task s (<[on_core s k:=t1]> (m_task s))) in Hq by (destruct s; done). done. }
    destruct sc as [d|r p| |].
    - rewrite mput_ok in Hy by done. cbn [rbind] in Hy. rewrite Hsw' in Hy. done.
    - destruct (m_sleep_until g s (set_sp t (e_sp e)) r p) as [u v].
      rewrite mput_ok in Hy by done. cbn [rbind] in Hy. rewrite Hsw' in Hy. done.
    - rewrite mput_ok in Hy by done. cbn [rbind] in Hy. rewrite Hsw' in Hy. done.
    - rewrite mput_ok in Hy by done. cbn [rbind] in Hy. rewrite Hsw in Hy. done. }
  assert (G : (o = Tick \/ (on_core s k < cfg_n (m_base g))%nat) /\ t_bot t <= e_sp e < t_top t
     /\ (forall r p, o = SleepUntil r p -> 0 < wrap (cfg_tbits (m_base g)) p)).
  { destruct o; cbn [m_step] in Hst.
    - split; [left; done|]. split; [|done].
      unfold m_dotick in Hst. rewrite (aget_ok _ _ _ Hix) in Hst. cbn [rbind] in Hst.
      rewrite (mget_ok _ _ _ Ht) in Hst. cbn [rbind] in Hst. unfold assert_fatal in Hst.
      destruct (e_sp e >=? t_bot t) eqn:E1; [|done].
      destruct (Z.ltb_spec (e_sp e) (t_top t)) as [E2|E2]; [|done]. lia.
    - apply Hsys in Hst as [? ?]. split; [right; done|]. split; done.
    - unfold assert_fatal in Hst. destruct (Z.gtb_spec (wrap (cfg_tbits (m_base g)) period) 0) as [E|E]; [|done].
      apply Hsys in Hst as [? ?]. split; [right; done|]. split; [done|]. intros ? ? [= -> ->]. lia.
    - apply Hsys in Hst as [? ?]. split; [right; done|]. split; done.
    - apply Hsys in Hst as [? ?]. split; [right; done|]. split; done. }
  destruct G as (G1 & G2 & G3). split; [|exists t; done].
  split; [done|]. destruct o; destruct G1 as [?|?]; try done.
  split; [done|]. eapply G3. done.
Qed.

Lemma m_step_spec g rs s k o e s' sp' ref' : wf_smp g -> MInv g rs s ->
  m_step g s (k, (o, e)) = Ok (s', sp', ref') ->
  m_valid g s k o /\ m_spin s k e /\
  exists r f t, m_select g rs s k o e r f /\ (r <= idle_of g k)%nat
    /\ s' = m_fin g (m_mid g s k o e) k e r f /\ m_task s' !! r = Some t /\ sp' = t_sp t /\ ref' = m_refout g s k o.
Proof.
  intros Hw Hi Hst. destruct (m_step_ok_valid _ _ _ _ _ _ _ Hw Hi Hst) as [Hv Hsp].
  split; [done|]. split; [done|].
  destruct (m_step_progress g rs s k o e Hw Hi Hv Hsp) as (r & f & t & Hsel & Hr & Ht & Heq).
  rewrite Heq in Hst. injection Hst as <- <- <-. exists r, f, t. done.
Qed.

Lemma m_select_elig g rs s k o e r f : m_select g rs s k o e r f -> eligible_on g rs (m_mid g s k o e) k r.
Proof.
  intros H. unfold m_select in H.
  assert (G : forall r1, (if decide ((cfg_n (m_base g) <= r1)%nat /\ m_postponed (m_mid g s k o e) = true)
        then f = false /\ least_from (eligible_on g rs (m_mid g s k o e) k) 0 r
        else f = m_postponed (m_mid g s k o e) /\ r = r1) ->
        least_from (eligible_on g rs (m_mid g s k o e) k) (S (on_core s k)) r1 -> eligible_on g rs (m_mid g s k o e) k r).
  { intros r1 H1 H2. destruct (decide _); [apply H1|]. destruct H1 as [_ ->]. apply H2. }
  destruct o; [apply H|..]; destruct H as (r1 & H1 & _ & H2); eapply G; done.
Qed.

Lemma m_fin_on_core g m k e r f : (k < length (m_index m))%nat -> on_core (m_fin g m k e r f) k = r.
Proof. intros H. unfold on_core. cbn. rewrite list_lookup_insert by done. lia. Qed.
Lemma m_fin_on_core_ne g m k e r f k' : k' <> k -> on_core (m_fin g m k e r f) k' = on_core m k'.
Proof. intros H. unfold on_core. cbn. rewrite list_lookup_insert_ne by done. done. Qed.
Lemma m_fin_state g m k e r f i : mstate (m_fin g m k e r f) i =
  if decide (i = r) then (fun _ => BUSY) <$> m_task m !! i else mstate m i.
Proof.
  unfold mstate. cbn. destruct (decide (i = r)) as [->|].
  - rewrite list_lookup_alter. destruct (m_task m !! r) as [t|]; [|done]. cbn. rewrite stat_start_state. done.
  - rewrite list_lookup_alter_ne by done. done.
Qed.

(** Tasks running on other cores are untouched by the first part of an event, as far as their state
    is concerned. *)
Lemma m_mid_other g rs s k o e k' : MInv g rs s -> (k < m_cores g)%nat -> (k' < m_cores g)%nat -> k' <> k ->
  mstate (m_mid g s k o e) (on_core s k') = mstate s (on_core s k').
Proof.
  intros Hi Hk Hk' Hne. unfold mstate. rewrite m_mid_lookup.
  destruct (decide (on_core s k' = on_core s k)) as [E|_]; [apply (mi_dup _ _ _ Hi) in E; done|].
  destruct (mi_cur _ _ _ Hi k' Hk') as [_ Hs]. unfold mstate in Hs.
  destruct (m_task s !! on_core s k') as [t|] eqn:Et; [|done]. cbn in *. f_equal.
  destruct o; cbn [m_all_upd]; try done. rewrite m_wake_state.
  destruct Hs as [[= Hs]|[_ [= Hs]]]; rewrite Hs; done.
Qed.

Lemma m_step_inv g rs s k o e s' sp' ref' : wf_smp g -> MInv g rs s ->
  m_step g s (k, (o, e)) = Ok (s', sp', ref') -> MInv g rs s'.
Proof.
  intros Hw Hi Hst. destruct (m_step_spec _ _ _ _ _ _ _ _ _ Hw Hi Hst) as (Hv & Hsp & r & f & t & Hsel & Hr & -> & _).
  assert (Hk : (k < m_cores g)%nat) by apply Hv.
  assert (Hel := m_select_elig _ _ _ _ _ _ _ _ Hsel).
  assert (Hslot := m_mid_slot g rs s k o e Hw Hi Hv).
  assert (Hoth := fun k' => m_mid_other g rs s k o e k' Hi Hk).
  assert (Hml : m_index (m_mid g s k o e) = m_index s) by done.
  assert (Hoc : forall k', on_core (m_mid g s k o e) k' = on_core s k') by done.
  assert (Hself : on_core (m_fin g (m_mid g s k o e) k e r f) k = r).
  { apply m_fin_on_core. rewrite Hml, (mi_ilen _ _ _ Hi). done. }
  (* the selected task runs nowhere else *)
  assert (Hnot : forall k', (k' < m_cores g)%nat -> k' <> k -> on_core s k' <> r).
  { intros k' Hk' Hne E. specialize (Hoth k' Hk' Hne). rewrite E in Hoth.
    destruct Hel as (He1 & _ & He3). rewrite He1 in Hoth.
    destruct (mi_cur _ _ _ Hi k' Hk') as [_ [Hb|[Hb _]]].
    - rewrite E in Hb. congruence.
    - rewrite E in Hb. unfold allowed in He3. rewrite decide_False in He3 by (unfold idle_of in Hb; lia).
      unfold idle_of in *. lia. }
  constructor.
  - apply (mi_good _ _ _ Hi).
  - cbn. rewrite alter_length, map_length, alter_length. apply (mi_len _ _ _ Hi).
  - cbn. rewrite insert_length. apply (mi_ilen _ _ _ Hi).
  - intros k' z Hz. cbn in Hz. destruct (decide (k' = k)) as [->|].
    + rewrite list_lookup_insert in Hz by (rewrite (mi_ilen _ _ _ Hi); done). injection Hz as <-.
      unfold m_taskcount, idle_of in *. lia.
    + rewrite list_lookup_insert_ne in Hz by done. apply (mi_idx _ _ _ Hi) in Hz. done.
  - cbn. assert (Ht := mi_tick _ _ _ Hi). destruct o; cbn; try done.
    destruct (_ =? 0); [|done]. apply Z.mod_pos_bound, Z.pow_pos_nonneg; unfold wf_smp in Hw; lia.
  - cbn. assert (Ht := mi_cnt _ _ _ Hi). destruct o; cbn; try done.
    destruct (Z.eqb_spec (m_counter s + 1) (Z.of_nat (m_cores g))); lia.
  - intros pid u Hu. change (m_sub (m_fin g (m_mid g s k o e) k e r f)) with (m_sub s).
    cbn [m_fin m_task] in Hu. destruct (decide (pid = r)) as [->|Hne].
    + rewrite list_lookup_alter in Hu. destruct (m_task (m_mid g s k o e) !! r) as [v|] eqn:Ev; [|done].
      cbn in Hu. injection Hu as <-.
      eapply mslot_upd; [apply Hslot; exact Ev| |].
      * eapply same_static_trans; [|apply stat_start_static]. done.
      * right. destruct Hel as (He1 & _ & _). unfold mstate in He1. rewrite Ev in He1. cbn in He1.
        injection He1 as ->. split; [done|]. intros _. right. rewrite stat_start_state. done.
    + rewrite list_lookup_alter_ne in Hu by done. apply Hslot. done.
  - intros k' Hk'. destruct (decide (k' = k)) as [->|Hne].
    + rewrite Hself. split; [apply Hel|]. left. rewrite m_fin_state, decide_True by done.
      destruct Hel as (He1 & _ & _). unfold mstate in He1.
      destruct (m_task (m_mid g s k o e) !! r); done.
    + rewrite m_fin_on_core_ne by done. rewrite Hoc.
      destruct (mi_cur _ _ _ Hi k' Hk') as [Ha Hs]. split; [done|].
      rewrite m_fin_state. rewrite decide_False by (apply Hnot; done).
      rewrite Hoth by done. done.
  - intros pid Hb. rewrite m_fin_state in Hb. destruct (decide (pid = r)) as [->|Hne].
    + exists k. done.
    + unfold mstate in Hb. rewrite m_mid_lookup in Hb.
      destruct (m_task s !! pid) as [u|] eqn:Eu; [|done]. cbn in Hb. injection Hb as Hb.
      assert (Hpk : pid <> on_core s k /\ t_state u = BUSY).
      { destruct (decide (pid = on_core s k)) as [->|Hpc].
        - exfalso. destruct (mi_cur _ _ _ Hi k Hk) as [_ Hcs]. unfold mstate in Hcs. rewrite Eu in Hcs. cbn in Hcs.
          assert (Hbu : t_state u = BUSY \/ o = Tick).
          { destruct Hcs as [[= ?]|[Hidl _]]; [left; done|]. right. destruct Hv as [_ Hv].
            unfold idle_of in Hidl. destruct o; lia || done. }
          assert (Hcu := m_cur_state g s o e u Hbu).
          destruct o; cbn [m_all_upd] in Hb.
          + rewrite m_wake_state, Hcu in Hb. done.
          + destruct Hcu; congruence.
          + destruct Hcu; congruence.
          + congruence.
          + congruence.
        - split; [done|]. destruct o; cbn [m_all_upd] in Hb; try done.
          rewrite m_wake_state in Hb. destruct (_ || _); done. }
      destruct Hpk as [Hpc Hu]. destruct (mi_busy _ _ _ Hi pid) as (k' & Hk' & Hon).
      { unfold mstate. rewrite Eu. cbn. congruence. }
      exists k'. split; [done|]. rewrite m_fin_on_core_ne; [done|]. intros ->. congruence.
  - intros k1 k2 Hk1 Hk2 Heq.
    destruct (decide (k1 = k)) as [->|H1], (decide (k2 = k)) as [->|H2]; try done.
    + exfalso. rewrite Hself, m_fin_on_core_ne, Hoc in Heq by done. apply (Hnot k2); done.
    + exfalso. rewrite Hself, m_fin_on_core_ne, Hoc in Heq by done. apply (Hnot k1); done.
    + rewrite !m_fin_on_core_ne, !Hoc in Heq by done. apply (mi_dup _ _ _ Hi); done.
Qed.

(** * Boot *)
Lemma m_inv_boot g tmp0 rs s : wf_smp g -> smp_typed rs -> m_boot g tmp0 rs = Ok s -> MInv g rs s.
Proof.
  intros Hw Ht Hb. rewrite m_boot_ok in Hb by done. destruct (decide (m_good g rs)) as [Hg|]; [|done].
  injection Hb as <-.
  set (c := m_base g) in *.
  assert (Hgr := m_good_regs g rs Hg).
  assert (Hg' := m_good_order g rs Hg).
  assert (Hlen : length (m_sorted g rs) = cfg_n c) by (apply m_users_length, Hg').
  assert (Hol := order_length c rs Hgr).
  assert (Hidx : forall k, (k < m_cores g)%nat -> m_index (m_bootstate g rs) !! k = Some (Z.of_nat (idle_of g k))).
  { intros k Hk. cbn. rewrite list_lookup_fmap. rewrite lookup_seq_lt by done. done. }
  assert (Hon : forall k, (k < m_cores g)%nat -> on_core (m_bootstate g rs) k = idle_of g k).
  { intros k Hk. unfold on_core. rewrite Hidx by done. lia. }
  assert (Htask : forall pid, m_task (m_bootstate g rs) !! pid =
     if decide (pid < cfg_n c)%nat then arr (m_sorted g rs) !! pid
     else idle_slot g <$> seq 0 (m_cores g) !! (pid - cfg_n c)%nat).
  { intros pid. cbn. destruct (decide _).
    - rewrite lookup_app_l by (rewrite arr_length; lia). done.
    - rewrite lookup_app_r by (rewrite arr_length; lia). rewrite arr_length, Hlen.
      unfold m_idles. rewrite list_lookup_fmap. done. }
  assert (Hcnt : forall p l, cnt p (map (m_fill c (T0m g)) l) = length (with_prio p l)).
  { intros p l. unfold cnt, c. rewrite filter_map_mfill, map_length. done. }
  assert (Hcr : forall p k, p <> m_taskcount g -> cnt p (replicate k (T0m g)) = 0%nat).
  { intros p k Hp. apply cnt_zero. intros t [-> _]%elem_of_replicate. rewrite T0m_prio by done. lia. }
  constructor.
  - done.
  - cbn. unfold m_idles. rewrite app_length, arr_length, map_length, seq_length. fold c. lia.
  - cbn. rewrite map_length, seq_length. done.
  - intros k z Hz. assert (Hk := lookup_lt_Some _ _ _ Hz). cbn in Hk. rewrite map_length, seq_length in Hk.
    rewrite Hidx in Hz by done. injection Hz as <-. unfold m_taskcount, idle_of. lia.
  - cbn. assert (0 < 2 ^ cfg_tbits (m_base g)) by (apply Z.pow_pos_nonneg; unfold wf_smp in Hw; lia). lia.
  - cbn. unfold wf_smp in Hw. lia.
  - intros pid t Hpt. rewrite Htask in Hpt. change (m_sub (m_bootstate g rs)) with (subs_of (cfg_n c + m_cores g) (m_sorted g rs)).
    destruct (decide (pid < cfg_n c)%nat) as [Hp|Hp].
    + rewrite arr_lookup in Hpt.
      destruct (m_sorted g rs !! pid) as [t0|] eqn:E0; [|done]. cbn in Hpt. injection Hpt as <-.
      assert (E1 := E0). unfold m_sorted, m_users in E1. fold c in E1.
      unfold mslot. fold c.
      assert (Hal : forall k, allowed g rs k pid <-> match order c rs !! pid with
                 | Some r => Z.testbit (rg_mask r) (Z.of_nat k) = true | None => False end).
      { intros k. unfold allowed. rewrite decide_True by done. done. }
      unfold m_bounds. fold c. rewrite !(decide_True (P := (pid < cfg_n c)%nat)) by done.
      destruct (order c rs !! pid) as [r|] eqn:Er.
      * assert (Hor := lookup_lt_Some _ _ _ Er).
        rewrite lookup_app_l in E1 by (rewrite map_length; lia).
        rewrite list_lookup_fmap, Er in E1. cbn in E1. injection E1 as <-.
        split; [intros b e [= <- <-]; done|]. split; [intros k Hk; rewrite Hal; done|].
        split; [lia|]. split; [done|].
        intros r' [= <-].
        assert (Hrin : r ∈ rs).
        { rewrite <- (order_perm c rs Hgr). eapply elem_of_list_lookup_2. exact Er. }
        assert (Hpr : 0 <= rg_prio r < Z.of_nat (cfg_n c)).
        { destruct Hgr as [H _]. rewrite Forall_forall in H. apply H. done. }
        split; [done|]. split; [lia|]. split.
        { change (t_sub (set_sub (m_fill c (T0m g) r) ?x)) with x.
          change (t_prio (m_fill c (T0m g) r)) with (rg_prio r).
          unfold rank. f_equal. unfold m_sorted, m_users. fold c.
          rewrite take_app_le by (rewrite map_length; lia).
          rewrite firstn_map, Hcnt. done. }
        split.
        { rewrite subs_of_lookup, decide_True by lia. rewrite Z2Nat.id by lia. f_equal.
          unfold m_sorted, m_users. fold c. rewrite cnt_app, Hcr by (unfold m_taskcount; fold c; lia).
          rewrite Hcnt, order_with_prio by done.
          assert (H0 := group_size_pos rs r Hrin). unfold group_size in *. lia. }
        apply group_size_pos. done.
      * apply lookup_ge_None in Er. rewrite lookup_app_r in E1 by (rewrite map_length; lia).
        apply lookup_replicate in E1 as [-> _].
        split; [done|]. split; [|split; [lia|split; [done|done]]].
        intros k Hk. rewrite Hal. cbn. rewrite Z.bits_0. done.
    + destruct (seq 0 (m_cores g) !! (pid - cfg_n c)%nat) as [i|] eqn:Ei; [|done]. cbn in Hpt. injection Hpt as <-.
      apply lookup_seq in Ei as [Ei1 Ei2]. cbn in Ei1.
      unfold mslot. fold c. unfold m_bounds. fold c. rewrite !(decide_False (P := (pid < cfg_n c)%nat)) by done.
      rewrite <- Ei1.
      destruct (task_init_min c (m_idlestk g i)) as (b & n & E).
      assert (Hir : idle_regm g i = mkReg b n (m_idlesp g i) (Z.of_nat (cfg_n c)) (2 ^ Z.of_nat i)).
      { unfold idle_regm. fold c. rewrite E. done. }
      split.
      { rewrite E. intros b0 e0 [= <- <-]. unfold idle_slot. rewrite Hir. done. }
      split.
      { intros k Hk. unfold idle_slot. rewrite Hir. cbn.
        unfold allowed. rewrite decide_False by done. unfold idle_of. fold c.
        destruct (decide (k = i)) as [->|Hne].
        - rewrite Z.pow2_bits_true by lia. split; [lia|done].
        - rewrite Z.pow2_bits_false by lia. split; [done|lia]. }
      split; [left; done|]. split; [lia|].
      split; [unfold idle_slot; rewrite Hir; done|]. split; [done|].
      rewrite subs_of_lookup, decide_True by (unfold wf_smp in Hw; fold c in Hw; lia). f_equal.
      unfold m_sorted, m_users. fold c. rewrite cnt_app, Hcr by (unfold m_taskcount, wf_smp in *; fold c in Hw |- *; lia).
      rewrite Hcnt. rewrite order_with_prio by done. rewrite (with_prio_big g) by (done || (fold c; lia)). done.
  - intros k Hk. rewrite Hon by done. split.
    + unfold allowed. rewrite decide_False by (unfold idle_of; lia). done.
    + right. split; [done|]. unfold mstate. rewrite Htask. unfold idle_of. fold c.
      rewrite decide_False by lia. replace (cfg_n c + k - cfg_n c)%nat with k by lia.
      rewrite lookup_seq_lt by done. done.
  - intros pid Hb. exfalso. unfold mstate in Hb. rewrite Htask in Hb.
    destruct (decide (pid < cfg_n c)%nat) as [Hp|Hp].
    + rewrite arr_lookup in Hb. destruct (m_sorted g rs !! pid) as [t0|] eqn:E0; [|done]. cbn in Hb.
      unfold m_sorted, m_users in E0. apply elem_of_list_lookup_2 in E0.
      apply elem_of_app in E0 as [E0|E0].
      * apply elem_of_list_fmap in E0 as (r & -> & _). done.
      * apply elem_of_replicate in E0 as [-> _]. done.
    + destruct (seq _ _ !! _); done.
  - intros k k' Hk Hk' Heq. rewrite !Hon in Heq by done. unfold idle_of in Heq. lia.
Qed.

Lemma m_run_inv g rs evs : forall s s', wf_smp g -> MInv g rs s -> m_run g s evs = Ok s' -> MInv g rs s'.
Proof.
  induction evs as [|[k [o e]] evs IH]; intros s s' Hw Hi Hr; cbn [m_run] in Hr.
  - injection Hr as <-. done.
  - destruct (m_step g s (k, (o, e))) as [[[s1 sp1] r1]| | |] eqn:E; cbn [rbind] in Hr; try done.
    eapply IH; [done| |exact Hr]. eapply m_step_inv; [| |exact E]; done.
Qed.

Lemma m_reachable_inv g rs s : wf_smp g -> smp_typed rs -> m_reachable g rs s -> MInv g rs s.
Proof.
  intros Hw Ht (tmp0 & s0 & evs & Hb & Hr). eapply m_run_inv; [done| |exact Hr].
  eapply m_inv_boot; done.
Qed.

Lemma m_run_app g evs1 : forall evs2 s, m_run g s (evs1 ++ evs2) = let! s1 := m_run g s evs1 in m_run g s1 evs2.
Proof.
  induction evs1 as [|ev evs1 IH]; intros evs2 s; cbn [app m_run]; [done|].
  destruct (m_step g s ev) as [x| | |]; cbn [rbind]; [apply IH|done..].
Qed.

Lemma m_reachable_step g rs s ev s' sp' r' : m_reachable g rs s -> m_step g s ev = Ok (s', sp', r') -> m_reachable g rs s'.
Proof.
  intros (tmp0 & s0 & evs & Hb & Hr) Hst. exists tmp0, s0, (evs ++ [ev]). split; [done|].
  rewrite m_run_app, Hr. cbn [rbind m_run]. rewrite Hst. done.
Qed.
