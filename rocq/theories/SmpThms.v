(** SmpThms.v - proofs of the multi-core properties. *)
From Verif Require Import Base SchedModel SchedSpec SortProofs BootProofs SchedProofs StepProofs SchedThms
  SmpModel SmpSpec SmpBoot SmpProofs SmpInv.
From Coq Require Import ZifyBool ZifyNat.

(** Slot [pid] after an event on core [k] that dispatches [r]. *)
Definition m_upd (g : smpcfg) (s : smp) (k : nat) (o : op) (e : entry) (r pid : nat) (t : task) : task :=
  let u := m_all_upd g s o (if decide (pid = on_core s k) then m_cur_upd g s o e t else t) in
  if decide (pid = r) then stat_start (m_base g) (e_now e) (set_busy u) else u.

Record m_post (g : smpcfg) (rs : list reg) (s : smp) (k : nat) (o : op) (e : entry) (s' : smp) (sp' ref' : Z) : Prop := {
  mp_valid : m_valid g s k o;
  mp_spin  : m_spin s k e;
  mp_task  : forall pid, m_task s' !! pid = m_upd g s k o e (on_core s' k) pid <$> m_task s !! pid;
  mp_core  : forall k', k' <> k -> on_core s' k' = on_core s k';
  mp_tick  : m_tick s' = m_newtick g s o;
  mp_cnt   : m_counter s' = m_newcnt g s o;
  mp_sel   : m_select g rs s k o e (on_core s' k) (m_postponed s');
  mp_le    : (on_core s' k <= idle_of g k)%nat;
  mp_sp    : exists t, m_task s' !! on_core s' k = Some t /\ sp' = t_sp t;
  mp_ref   : ref' = m_refout g s k o;
  mp_inv   : MInv g rs s'
}.

Lemma m_step_post g rs s k o e s' sp' ref' : wf_smp g -> MInv g rs s ->
  m_step g s (k, (o, e)) = Ok (s', sp', ref') -> m_post g rs s k o e s' sp' ref'.
Proof.
  intros Hw Hi Hst. assert (Hi' := m_step_inv _ _ _ _ _ _ _ _ _ Hw Hi Hst).
  destruct (m_step_spec _ _ _ _ _ _ _ _ _ Hw Hi Hst) as (Hv & Hsp & r & f & t & Hsel & Hr & Es & Ht & Esp & Eref).
  assert (Hk : (k < m_cores g)%nat) by apply Hv.
  assert (Hself : on_core s' k = r).
  { rewrite Es. apply m_fin_on_core. change (m_index (m_mid g s k o e)) with (m_index s). rewrite (mi_ilen _ _ _ Hi). done. }
  constructor; try done.
  - intros pid. rewrite Hself. rewrite Es at 1. cbn [m_fin m_task]. unfold m_upd.
    destruct (decide (pid = r)) as [->|Hne].
    + rewrite list_lookup_alter, m_mid_lookup. destruct (m_task s !! r); done.
    + rewrite list_lookup_alter_ne by done. rewrite m_mid_lookup. destruct (m_task s !! pid); done.
  - intros k' Hk'. rewrite Es. rewrite m_fin_on_core_ne by done. done.
  - rewrite Es. done.
  - rewrite Es. done.
  - rewrite Hself. rewrite Es. done.
  - rewrite Hself. done.
  - rewrite Hself. eauto.
Qed.

Lemma m_cur_lookup g rs s k : MInv g rs s -> (k < m_cores g)%nat ->
  exists t, m_task s !! on_core s k = Some t /\ (t_state t = BUSY \/ (on_core s k = idle_of g k /\ t_state t = READY)).
Proof.
  intros Hi Hk. destruct (mi_cur _ _ _ Hi k Hk) as [_ H]. unfold mstate in H.
  destruct (m_task s !! on_core s k) as [t|]; cbn in H.
  - exists t. split; [done|]. destruct H as [[= H]|[H [= H']]]; auto.
  - destruct H as [H|[_ H]]; done.
Qed.

(** States of the tasks after an event. *)
Lemma m_upd_state g s k o e r pid t : t_state (m_upd g s k o e r pid t) =
  if decide (pid = r) then BUSY
  else t_state (m_all_upd g s o (if decide (pid = on_core s k) then m_cur_upd g s o e t else t)).
Proof. unfold m_upd. destruct (decide (pid = r)); [|done]. rewrite stat_start_state. done. Qed.

Lemma m_all_state g s o t : t_state (m_all_upd g s o t) =
  match o with
  | Tick => if (bool_decide (t_state t = SLEEP) && (t_tick t =? m_newtick g s Tick)) || bool_decide (t_state t = DONE)
            then READY else t_state t
  | _ => t_state t
  end.
Proof. destruct o; cbn [m_all_upd]; try done. apply m_wake_state. Qed.

Lemma m_wake_tick tk t : t_tick (m_wake tk t) = t_tick t.
Proof. unfold m_wake. cbv zeta. destruct (_ && _); destruct (bool_decide _); done. Qed.
Lemma m_wake_sp tk t : t_sp (m_wake tk t) = t_sp t.
Proof. unfold m_wake. cbv zeta. destruct (_ && _); destruct (bool_decide _); done. Qed.
Lemma m_all_tick g s o t : t_tick (m_all_upd g s o t) = t_tick t.
Proof. destruct o; cbn [m_all_upd]; try done. apply m_wake_tick. Qed.
Lemma m_all_sp g s o t : t_sp (m_all_upd g s o t) = t_sp t.
Proof. destruct o; cbn [m_all_upd]; try done. apply m_wake_sp. Qed.
Lemma m_cur_sp g s o e t : t_sp (m_cur_upd g s o e t) = e_sp e.
Proof.
  assert (Hd : forall t', t_sp t' = e_sp e -> t_sp
    (let u := stat_finish (m_base g) (e_since e) t' in if bool_decide (t_state u = BUSY) then set_state u DONE else u) = e_sp e).
  { intros t' H. cbv zeta. destruct (bool_decide _); cbn; rewrite ?stat_finish_sp; done. }
  destruct o; cbn [m_cur_upd].
  - rewrite stat_finish_sp. done.
  - apply Hd. unfold m_sleep. destruct (_ >? _); done.
  - apply Hd. unfold m_sleep_until. destruct (_ <? _); done.
  - apply Hd. done.
  - apply Hd. done.
Qed.
Lemma m_upd_sp g s k o e r pid t : t_sp (m_upd g s k o e r pid t) = if decide (pid = on_core s k) then e_sp e else t_sp t.
Proof.
  unfold m_upd.
  assert (H : t_sp (m_all_upd g s o (if decide (pid = on_core s k) then m_cur_upd g s o e t else t))
    = if decide (pid = on_core s k) then e_sp e else t_sp t).
  { rewrite m_all_sp. destruct (decide _); [apply m_cur_sp|done]. }
  destruct (decide (pid = r)); [|done]. rewrite stat_start_sp. done.
Qed.

(** * C29, C30 *)
Lemma m_no_two_cores g rs s k k' : wf_smp g -> smp_typed rs -> m_reachable g rs s ->
  (k < m_cores g)%nat -> (k' < m_cores g)%nat -> k <> k' -> on_core s k <> on_core s k'.
Proof. intros Hw Ht Hr Hk Hk' Hne E. apply Hne. eapply mi_dup; [eapply m_reachable_inv|..]; done. Qed.

Lemma m_affinity g rs s k : wf_smp g -> smp_typed rs -> m_reachable g rs s -> (k < m_cores g)%nat ->
  on_core s k = idle_of g k
  \/ exists r, order (m_base g) rs !! on_core s k = Some r /\ Z.testbit (rg_mask r) (Z.of_nat k) = true.
Proof.
  intros Hw Ht Hr Hk. destruct (mi_cur _ _ _ (m_reachable_inv _ _ _ Hw Ht Hr) k Hk) as [Ha _].
  unfold allowed in Ha. destruct (decide _); [|left; done]. right.
  destruct (order _ _ !! _) as [r|]; [eauto|done].
Qed.

(** * C31 *)
Lemma m_irqs_cons ev evs : m_irqs (ev :: evs) = (if is_tick (snd ev) then 1 else 0) + m_irqs evs.
Proof.
  unfold m_irqs. rewrite filter_cons. destruct (is_tick (snd ev)) eqn:E.
  - rewrite decide_True by done. cbn [length]. lia.
  - rewrite decide_False by done. lia.
Qed.
Lemma m_irqs_nonneg evs : 0 <= m_irqs evs.
Proof. unfold m_irqs. lia. Qed.

(** Rounds begun, from a state whose round counter is [n]. *)
Lemma rounds_step K n : (1 <= K)%nat -> 0 <= n ->
  rounds_begun K (n + 1) = rounds_begun K n + (if n mod Z.of_nat K =? 0 then 1 else 0).
Proof.
  intros HK Hn. unfold rounds_begun. set (k := Z.of_nat K) in *. assert (0 < k) by lia.
  assert (E := Z_div_mod_eq_full n k). assert (B := Z.mod_pos_bound n k ltac:(lia)).
  destruct (Z.eqb_spec (n mod k) 0) as [E0|E0].
  - rewrite E0 in E. replace (n + 1 + k - 1) with ((n / k + 1) * k) by lia. rewrite Z.div_mul by lia.
    replace (n + k - 1) with ((n / k) * k + (k - 1)) by lia.
    rewrite Z.div_add_l by lia. rewrite (Z.div_small (k - 1)) by lia. lia.
  - replace (n + 1 + k - 1) with ((n / k + 1) * k + (n mod k)) by lia.
    replace (n + k - 1) with ((n / k + 1) * k + (n mod k - 1)) by lia.
    rewrite !Z.div_add_l by lia. rewrite (Z.div_small (n mod k)), (Z.div_small (n mod k - 1)) by lia. lia.
Qed.
Lemma rounds_0 K : (1 <= K)%nat -> rounds_begun K 0 = 0.
Proof. intros H. unfold rounds_begun. apply Z.div_small. lia. Qed.
Lemma counter_step K n : (1 <= K)%nat -> 0 <= n ->
  (n + 1) mod Z.of_nat K = if n mod Z.of_nat K + 1 =? Z.of_nat K then 0 else n mod Z.of_nat K + 1.
Proof.
  intros HK Hn. set (k := Z.of_nat K) in *. assert (0 < k) by lia.
  assert (E := Z_div_mod_eq_full n k). assert (B := Z.mod_pos_bound n k ltac:(lia)).
  destruct (Z.eqb_spec (n mod k + 1) k) as [E0|E0].
  - replace (n + 1) with ((n / k + 1) * k) by lia. apply Z.mod_mul. lia.
  - replace (n + 1) with ((n mod k + 1) + (n / k) * k) by lia. rewrite Z.mod_add by lia. apply Z.mod_small. lia.
Qed.

Lemma m_tick_run g rs evs : forall s s' n, wf_smp g -> MInv g rs s -> 0 <= n ->
  m_counter s = n mod Z.of_nat (m_cores g) -> m_run g s evs = Ok s' ->
  m_counter s' = (n + m_irqs evs) mod Z.of_nat (m_cores g)
  /\ m_tick s' = wrap (cfg_tbits (m_base g))
       (m_tick s + (rounds_begun (m_cores g) (n + m_irqs evs) - rounds_begun (m_cores g) n))
  /\ m_advances g s evs = rounds_begun (m_cores g) (n + m_irqs evs) - rounds_begun (m_cores g) n.
Proof.
  induction evs as [|[k [o e]] evs IH]; intros s s' n Hw Hi Hn Hc Hr; cbn [m_run m_advances] in *.
  - injection Hr as <-. change (m_irqs []) with 0. rewrite Z.add_0_r, Z.sub_diag, Z.add_0_r.
    split; [done|]. split; [|done]. rewrite wrap_small; [done|]. apply (mi_tick _ _ _ Hi).
  - destruct (m_step g s (k, (o, e))) as [[[s1 sp1] r1]| | |] eqn:E; cbn [rbind fst] in Hr; try done.
    assert (Hp := m_step_post _ _ _ _ _ _ _ _ _ Hw Hi E).
    assert (HK : (1 <= m_cores g)%nat) by apply Hw.
    assert (Htb : 2 <= 2 ^ cfg_tbits (m_base g)).
    { change 2 with (2 ^ 1) at 1. apply Z.pow_le_mono_r; [lia|]. destruct Hw as (_ & _ & _ & H & _). lia. }
    assert (Htk := mi_tick _ _ _ Hi).
    rewrite m_irqs_cons. cbn [snd]. set (b := if is_tick (o, e) then 1 else 0).
    assert (Hb : m_counter s1 = (n + b) mod Z.of_nat (m_cores g)
      /\ m_tick s1 = wrap (cfg_tbits (m_base g)) (m_tick s + (rounds_begun (m_cores g) (n + b) - rounds_begun (m_cores g) n))
      /\ (if m_tick s1 =? m_tick s then 0 else 1) = rounds_begun (m_cores g) (n + b) - rounds_begun (m_cores g) n).
    { rewrite (mp_cnt _ _ _ _ _ _ _ _ _ Hp), (mp_tick _ _ _ _ _ _ _ _ _ Hp).
      destruct (decide (o = Tick)) as [->|Ho].
      - cbn [is_tick fst] in b. subst b. cbn [m_newcnt m_newtick].
        rewrite counter_step, rounds_step by lia. rewrite <- Hc. split; [done|].
        destruct (m_counter s =? 0).
        + replace (rounds_begun (m_cores g) n + 1 - rounds_begun (m_cores g) n) with 1 by lia.
          split; [done|]. destruct (Z.eqb_spec (wrap (cfg_tbits (m_base g)) (m_tick s + 1)) (m_tick s)) as [E0|]; [|done].
          exfalso. unfold wrap in E0. destruct (decide (m_tick s + 1 = 2 ^ cfg_tbits (m_base g))) as [E1|E1].
          * rewrite E1, Z.mod_same in E0 by lia. lia.
          * rewrite Z.mod_small in E0 by lia. lia.
        + replace (rounds_begun (m_cores g) n + 0 - rounds_begun (m_cores g) n) with 0 by lia.
          rewrite Z.add_0_r, wrap_small by done. split; [done|]. rewrite Z.eqb_refl. done.
      - assert (Hb0 : b = 0) by (destruct o; done). rewrite Hb0, Z.add_0_r, Z.sub_diag, Z.add_0_r, wrap_small by done.
        assert (m_newcnt g s o = m_counter s /\ m_newtick g s o = m_tick s) as [-> ->] by (destruct o; done).
        rewrite Z.eqb_refl. done. }
    destruct Hb as (Hb1 & Hb2 & Hb3).
    destruct (IH s1 s' (n + b)) as (G1 & G2 & G3); try done.
    + apply (mp_inv _ _ _ _ _ _ _ _ _ Hp).
    + unfold b. destruct (is_tick _); lia.
    + replace (n + (b + m_irqs evs)) with (n + b + m_irqs evs) by lia. split; [done|]. split.
      * rewrite G2, Hb2, wrap_add. f_equal. lia.
      * rewrite G3, Hb3. lia.
Qed.

Lemma m_boot_cur g tmp0 rs s : wf_smp g -> smp_typed rs -> m_boot g tmp0 rs = Ok s ->
  m_tick s = 2 ^ cfg_tbits (m_base g) - 1 /\ m_counter s = 0 /\ m_postponed s = false
  /\ forall k, (k < m_cores g)%nat -> on_core s k = idle_of g k.
Proof.
  intros Hw Ht Hb. rewrite m_boot_ok in Hb by done. destruct (decide (m_good g rs)) as [Hg|]; [|done].
  injection Hb as <-. split; [done|]. split; [done|]. split; [done|].
  intros k Hk. unfold on_core. cbn. rewrite list_lookup_fmap, lookup_seq_lt by done. cbn. unfold idle_of. lia.
Qed.

Lemma m_tick_value g tmp0 rs s0 evs s : wf_smp g -> smp_typed rs ->
  m_boot g tmp0 rs = Ok s0 -> m_run g s0 evs = Ok s ->
  m_tick s = (rounds_begun (m_cores g) (m_irqs evs) - 1) mod 2 ^ cfg_tbits (m_base g)
  /\ m_advances g s0 evs = rounds_begun (m_cores g) (m_irqs evs).
Proof.
  intros Hw Ht Hb Hr. assert (Hi := m_inv_boot _ _ _ _ Hw Ht Hb).
  destruct (m_boot_cur _ _ _ _ Hw Ht Hb) as (E1 & E2 & _).
  assert (HK : (1 <= m_cores g)%nat) by apply Hw.
  destruct (m_tick_run g rs evs s0 s 0 Hw Hi) as (_ & H1 & H2); try done.
  rewrite rounds_0, Z.sub_0_r in * by done. rewrite Z.add_0_l in *. split; [|done].
  rewrite H1, E1. unfold wrap.
  replace (2 ^ cfg_tbits (m_base g) - 1 + rounds_begun (m_cores g) (m_irqs evs))
    with ((rounds_begun (m_cores g) (m_irqs evs) - 1) + 1 * 2 ^ cfg_tbits (m_base g)) by lia.
  apply Z.mod_add. assert (0 < 2 ^ cfg_tbits (m_base g)); [|lia]. apply Z.pow_pos_nonneg; [lia|]. destruct Hw as (_ & _ & _ & H & _). lia.
Qed.

(** * C32 *)
Lemma m_order_mono g rs i j r r' : order (m_base g) rs !! i = Some r -> order (m_base g) rs !! j = Some r' ->
  (i <= j)%nat -> rg_prio r <= rg_prio r'.
Proof. apply order_prio_mono. Qed.

(** Ready tasks of the intermediate state, but the dispatched one, are the ready tasks of the final one. *)
Lemma m_fin_eligible g rs s k o e s' sp' ref' k2 pid : m_post g rs s k o e s' sp' ref' ->
  pid <> on_core s' k -> eligible_on g rs (m_mid g s k o e) k2 pid <-> eligible_on g rs s' k2 pid.
Proof.
  intros Hp Hne. unfold eligible_on.
  assert (mstate (m_mid g s k o e) pid = mstate s' pid) as ->.
  { unfold mstate. rewrite m_mid_lookup, (mp_task _ _ _ _ _ _ _ _ _ Hp).
    destruct (m_task s !! pid) as [t|]; [|done]. cbn. f_equal. rewrite m_upd_state, (decide_False (P := pid = on_core s' k)) by done. done. }
  rewrite (mp_tick _ _ _ _ _ _ _ _ _ Hp). done.
Qed.

Lemma m_disp_facts g rs s k o e s' sp' ref' : wf_smp g -> MInv g rs s -> m_post g rs s k o e s' sp' ref' ->
  let r := on_core s' k in
  turn (m_base g) rs (m_tick s') r /\ allowed g rs k r /\ mstate s' r = Some BUSY
  /\ (forall k', (k' < m_cores g)%nat -> k' <> k -> on_core s k' <> r)
  /\ (r = on_core s k /\ (o = Tick \/ o = Postpone) \/ r <> on_core s k /\
      (mstate s r = Some READY
       \/ (o = Tick /\ mstate s r = Some DONE)
       \/ (o = Tick /\ exists t, m_task s !! r = Some t /\ t_state t = SLEEP /\ t_tick t = m_tick s'))).
Proof.
  intros Hw Hi Hp r. assert (Hel := m_select_elig _ _ _ _ _ _ _ _ (mp_sel _ _ _ _ _ _ _ _ _ Hp)). fold r in Hel.
  destruct (mp_valid _ _ _ _ _ _ _ _ _ Hp) as [Hk Hv].
  destruct Hel as (He1 & He2 & He3). split; [|split; [done|split; [|split]]].
  - rewrite (mp_tick _ _ _ _ _ _ _ _ _ Hp). exact He2.
  - unfold mstate. rewrite (mp_task _ _ _ _ _ _ _ _ _ Hp).
    unfold mstate in He1. rewrite m_mid_lookup in He1. fold r. destruct (m_task s !! r); [|done]. cbn. f_equal.
    rewrite m_upd_state, decide_True by done. done.
  - intros k' Hk' Hne E. assert (G := mi_dup _ _ _ (mp_inv _ _ _ _ _ _ _ _ _ Hp) k' k Hk' Hk).
    rewrite (mp_core _ _ _ _ _ _ _ _ _ Hp k' Hne) in G. auto.
  - unfold mstate in He1. rewrite m_mid_lookup in He1. destruct (m_task s !! r) as [t|] eqn:Et; [|done]. cbn in He1.
    injection He1 as He1. unfold mstate. rewrite Et. cbn.
    destruct (decide (r = on_core s k)) as [Erk|Erk].
    + left. split; [done|]. rewrite m_all_state in He1.
      destruct (m_cur_lookup g rs s k Hi Hk) as (u & Hu & Hus). rewrite <- Erk, Et in Hu. injection Hu as <-.
      assert (Hb : t_state t = BUSY \/ o = Tick).
      { destruct Hus as [?|[Hid _]]; [left; done|right]. rewrite Hid in Hv. unfold idle_of in Hv. destruct o; lia || done. }
      assert (G := m_cur_state g s o e t Hb).
      destruct o; auto; exfalso.
      * destruct G; congruence.
      * destruct G; congruence.
      * congruence.
    + right. split; [done|]. rewrite m_all_state in He1. rewrite (mp_tick _ _ _ _ _ _ _ _ _ Hp).
      destruct o; try (left; congruence).
      destruct (bool_decide (t_state t = SLEEP)) eqn:E1.
      * apply bool_decide_eq_true in E1. rewrite E1 in He1. cbn [andb orb] in He1.
        destruct (Z.eqb_spec (t_tick t) (m_newtick g s Tick)) as [E2|E2]; [|done]. right. right.
        split; [done|]. exists t. done.
      * cbn [andb orb] in He1. destruct (bool_decide (t_state t = DONE)) eqn:E2; [|left; congruence].
        apply bool_decide_eq_true in E2. right. left. split; [done|]. congruence.
Qed.

Lemma m_tick_dispatch g rs s k e s' sp' ref' : wf_smp g -> smp_typed rs -> m_reachable g rs s ->
  m_step g s (k, (Tick, e)) = Ok (s', sp', ref') ->
  let r := on_core s' k in
  turn (m_base g) rs (m_tick s') r /\ allowed g rs k r
  /\ (forall k', (k' < m_cores g)%nat -> k' <> k -> on_core s' k' = on_core s k' /\ on_core s' k' <> r)
  /\ (r = on_core s k \/ mstate s r = Some READY \/ mstate s r = Some DONE
      \/ exists t, m_task s !! r = Some t /\ t_state t = SLEEP /\ t_tick t = m_tick s')
  /\ (forall j, (j < r)%nat -> ~ eligible_on g rs s' k j)
  /\ (forall j rj, eligible_on g rs s' k j -> order (m_base g) rs !! j = Some rj ->
        exists rr, order (m_base g) rs !! r = Some rr /\ rg_prio rr <= rg_prio rj).
Proof.
  intros Hw Ht Hr Hst r. assert (Hi := m_reachable_inv _ _ _ Hw Ht Hr).
  assert (Hp := m_step_post _ _ _ _ _ _ _ _ _ Hw Hi Hst).
  destruct (m_disp_facts _ _ _ _ _ _ _ _ _ Hw Hi Hp) as (H1 & H2 & H3 & H4 & H5). fold r in H1, H2, H3, H4, H5.
  assert (Hleast : forall j, (j < r)%nat -> ~ eligible_on g rs s' k j).
  { intros j Hj He. assert (Hs := mp_sel _ _ _ _ _ _ _ _ _ Hp). cbn in Hs. destruct Hs as (_ & _ & _ & Hmin).
    apply (Hmin j); [fold r; lia|]. eapply m_fin_eligible; [exact Hp|fold r; lia|done]. }
  split; [done|]. split; [done|]. split.
  { intros k' Hk' Hne. rewrite (mp_core _ _ _ _ _ _ _ _ _ Hp k' Hne). auto. }
  split.
  { destruct H5 as [[? _]|[_ [?|[[_ ?]|[_ ?]]]]]; auto. }
  split; [done|].
  intros j rj Hj Hrj. assert (r <= j)%nat by (destruct (decide (j < r)%nat); [exfalso; eapply Hleast; done|lia]).
  destruct (order (m_base g) rs !! r) as [rr|] eqn:Er.
  - exists rr. split; [done|]. eapply m_order_mono; done.
  - exfalso. apply lookup_ge_None in Er. apply lookup_lt_Some in Hrj. lia.
Qed.

(** * C33: sleeping *)
Definition m_asleep (s : smp) (pid : nat) (wk : Z) : Prop :=
  exists t, m_task s !! pid = Some t /\ t_state t = SLEEP /\ t_tick t = wk.

Lemma m_asleep_off g rs s pid wk k : MInv g rs s -> (k < m_cores g)%nat -> m_asleep s pid wk -> on_core s k <> pid.
Proof.
  intros Hi Hk (t & Ht & Hs & _) E. destruct (m_cur_lookup g rs s k Hi Hk) as (u & Hu & Hb).
  rewrite E in Hu. rewrite Ht in Hu. injection Hu as <-. destruct Hb as [?|[_ ?]]; congruence.
Qed.

Lemma m_asleep_step g rs s k o e s' sp' ref' pid wk : wf_smp g -> MInv g rs s ->
  m_step g s (k, (o, e)) = Ok (s', sp', ref') -> m_asleep s pid wk ->
  (o = Tick -> wk <> m_tick s') -> m_asleep s' pid wk.
Proof.
  intros Hw Hi Hst Has Hne. assert (Hp := m_step_post _ _ _ _ _ _ _ _ _ Hw Hi Hst).
  destruct (mp_valid _ _ _ _ _ _ _ _ _ Hp) as [Hk _].
  assert (Hoff := m_asleep_off _ _ _ _ _ k Hi Hk Has).
  destruct (m_disp_facts _ _ _ _ _ _ _ _ _ Hw Hi Hp) as (_ & _ & _ & _ & Hr).
  destruct Has as (t & Htk & Hs & Hwk).
  assert (Hpr : pid <> on_core s' k).
  { intros Epr. rewrite <- Epr in Hr. destruct Hr as [[Hr _]|[_ Hr]]; [congruence|]. unfold mstate in Hr. rewrite Htk in Hr. cbn in Hr.
    destruct Hr as [Hr|[[_ Hr]|[Ho (u & Hu & _ & Hk1)]]]; [congruence..|].
    injection Hu as <-. apply Hne; [done|congruence]. }
  exists (m_upd g s k o e (on_core s' k) pid t). split; [rewrite (mp_task _ _ _ _ _ _ _ _ _ Hp), Htk; done|].
  unfold m_upd. rewrite (decide_False (P := pid = on_core s' k)) by done.
  rewrite (decide_False (P := pid = on_core s k)) by congruence.
  rewrite m_all_tick, m_all_state. split; [|done]. destruct o; try done.
  rewrite Hs. rewrite bool_decide_eq_true_2 by done. cbn [andb].
  destruct (Z.eqb_spec (t_tick t) (m_newtick g s Tick)) as [E|E]; cbn [orb].
  - exfalso. apply Hne; [done|]. rewrite (mp_tick _ _ _ _ _ _ _ _ _ Hp). congruence.
  - done.
Qed.

Lemma m_asleep_wake g rs s k e s' sp' ref' pid wk : wf_smp g -> MInv g rs s ->
  m_step g s (k, (Tick, e)) = Ok (s', sp', ref') -> m_asleep s pid wk -> wk = m_tick s' ->
  mstate s' pid = Some READY \/ (mstate s' pid = Some BUSY /\ on_core s' k = pid).
Proof.
  intros Hw Hi Hst Has Heq. assert (Hp := m_step_post _ _ _ _ _ _ _ _ _ Hw Hi Hst).
  destruct (mp_valid _ _ _ _ _ _ _ _ _ Hp) as [Hk _].
  assert (Hoff := m_asleep_off _ _ _ _ _ k Hi Hk Has). destruct Has as (t & Htk & Hs & Hwk).
  unfold mstate. rewrite (mp_task _ _ _ _ _ _ _ _ _ Hp), Htk. cbn. rewrite m_upd_state.
  destruct (decide (pid = on_core s' k)); [right; done|]. left.
  rewrite (decide_False (P := pid = on_core s k)) by congruence. rewrite m_all_state, Hs.
  rewrite bool_decide_eq_true_2 by done.
  rewrite <- (mp_tick _ _ _ _ _ _ _ _ _ Hp : _ = m_newtick g s Tick), Hwk, Heq, Z.eqb_refl. done.
Qed.

Lemma m_advances_nonneg g evs : forall s, 0 <= m_advances g s evs.
Proof.
  induction evs as [|ev evs IH]; intros s; cbn [m_advances]; [lia|].
  destruct (m_step g s ev) as [[[s1 ?] ?]| | |]; try lia. specialize (IH s1). destruct (_ =? _); lia.
Qed.

Lemma m_step_tick g rs s k o e s' sp' ref' : wf_smp g -> MInv g rs s -> m_step g s (k, (o, e)) = Ok (s', sp', ref') ->
  m_tick s' = wrap (cfg_tbits (m_base g)) (m_tick s + (if m_tick s' =? m_tick s then 0 else 1))
  /\ (m_tick s' <> m_tick s -> o = Tick).
Proof.
  intros Hw Hi Hst. assert (Hp := m_step_post _ _ _ _ _ _ _ _ _ Hw Hi Hst).
  assert (Hk := mp_tick _ _ _ _ _ _ _ _ _ Hp). assert (Ht := mi_tick _ _ _ Hi).
  destruct (Z.eqb_spec (m_tick s') (m_tick s)) as [E|E].
  - rewrite Z.add_0_r, wrap_small by done. done.
  - rewrite Hk in *. destruct o; cbn [m_newtick] in *; try done. destruct (m_counter s =? 0); done.
Qed.

Lemma m_asleep_run g rs evs : forall s s' pid d, wf_smp g -> MInv g rs s ->
  m_asleep s pid (wrap (cfg_tbits (m_base g)) (m_tick s + d)) -> d < 2 ^ cfg_tbits (m_base g) ->
  m_advances g s evs < d -> m_run g s evs = Ok s' ->
  m_asleep s' pid (wrap (cfg_tbits (m_base g)) (m_tick s + d))
  /\ m_tick s' = wrap (cfg_tbits (m_base g)) (m_tick s + m_advances g s evs) /\ MInv g rs s'.
Proof.
  induction evs as [|[k [o e]] evs IH]; intros s s' pid d Hw Hi Has Hd Hk Hr; cbn [m_run m_advances] in *.
  - injection Hr as <-. rewrite Z.add_0_r, (wrap_small _ (m_tick s)) by apply (mi_tick _ _ _ Hi). done.
  - destruct (m_step g s (k, (o, e))) as [[[s1 sp1] r1]| | |] eqn:E; cbn [rbind fst] in Hr; try done.
    assert (Hi1 := m_step_inv _ _ _ _ _ _ _ _ _ Hw Hi E).
    destruct (m_step_tick _ _ _ _ _ _ _ _ _ Hw Hi E) as [Hkv Hkt].
    assert (Hnn := m_advances_nonneg g evs s1).
    set (b := if m_tick s1 =? m_tick s then 0 else 1) in *.
    assert (Hb : 0 <= b <= 1) by (unfold b; destruct (_ =? _); lia).
    assert (Heq : wrap (cfg_tbits (m_base g)) (m_tick s + d) = wrap (cfg_tbits (m_base g)) (m_tick s1 + (d - b))).
    { rewrite Hkv, wrap_add. f_equal. lia. }
    assert (Hpos : 0 < cfg_tbits (m_base g)) by apply Hw.
    assert (Has1 := m_asleep_step g rs s k o e s1 sp1 r1 pid _ Hw Hi E Has).
    rewrite Heq in *.
    destruct (IH s1 s' pid (d - b)) as (G1 & G2 & G3); try done; try lia.
    { apply Has1. intros _ E2. apply (wrap_neq (cfg_tbits (m_base g)) (m_tick s) b d); [lia|lia|lia|].
      rewrite Heq, E2. done. }
    split; [done|]. split; [|done]. rewrite G2, Hkv, wrap_add. f_equal. lia.
Qed.

Lemma m_advances_app g evs1 : forall evs2 s s1, m_run g s evs1 = Ok s1 ->
  m_advances g s (evs1 ++ evs2) = m_advances g s evs1 + m_advances g s1 evs2.
Proof.
  induction evs1 as [|ev evs1 IH]; intros evs2 s s1 Hr; cbn [app m_run m_advances] in *.
  - injection Hr as <-. lia.
  - destruct (m_step g s ev) as [[[s2 ?] ?]| | |]; cbn [rbind fst] in Hr; try done. rewrite (IH evs2 s2 s1 Hr). lia.
Qed.

Lemma m_asleep_exact g rs s pid d evs s' : wf_smp g -> MInv g rs s ->
  m_asleep s pid (wrap (cfg_tbits (m_base g)) (m_tick s + d)) -> 0 < d < 2 ^ cfg_tbits (m_base g) ->
  m_run g s evs = Ok s' ->
  (m_advances g s evs < d -> mstate s' pid = Some SLEEP /\ forall k, (k < m_cores g)%nat -> on_core s' k <> pid)
  /\ (forall evs' ev, evs = evs' ++ [ev] -> m_advances g s evs' = d - 1 -> m_advances g s evs = d ->
       (mstate s' pid = Some READY \/ (mstate s' pid = Some BUSY /\ on_core s' (fst ev) = pid))
       /\ m_tick s' = wrap (cfg_tbits (m_base g)) (m_tick s + d)).
Proof.
  intros Hw Hi Has Hd Hr. split.
  - intros Hk. destruct (m_asleep_run g rs evs s s' pid d Hw Hi Has) as (Has' & _ & Hi'); try done; [lia|].
    split; [|intros k Hkk; eapply m_asleep_off; done].
    destruct Has' as (t & Ht & Hs & _). unfold mstate. rewrite Ht. cbn. congruence.
  - intros evs' [k [o e]] -> Hk1 Hk2. rewrite m_run_app in Hr.
    destruct (m_run g s evs') as [s1| | |] eqn:E1; cbn [rbind] in Hr; try done.
    destruct (m_asleep_run g rs evs' s s1 pid d Hw Hi Has) as (Has1 & Htk1 & Hi1); try done; [lia|lia|].
    rewrite (m_advances_app _ _ _ _ _ E1) in Hk2. cbn [m_run m_advances] in Hr, Hk2.
    destruct (m_step g s1 (k, (o, e))) as [[[s2 sp2] r2]| | |] eqn:E; cbn [rbind fst] in Hr; try done.
    injection Hr as <-. destruct (m_step_tick _ _ _ _ _ _ _ _ _ Hw Hi1 E) as [Hkv Hkt].
    destruct (Z.eqb_spec (m_tick s2) (m_tick s1)) as [|Hne]; [lia|].
    assert (Ht : m_tick s2 = wrap (cfg_tbits (m_base g)) (m_tick s + d)).
    { rewrite Hkv, Htk1, wrap_add. f_equal. lia. }
    split; [|done]. rewrite (Hkt Hne) in E. eapply m_asleep_wake; [done|exact Hi1|exact E|exact Has1|done].
Qed.

(** Slot of the caller after a system call. *)
Lemma m_caller_slot g rs s k o e s' sp' ref' : wf_smp g -> MInv g rs s -> o <> Tick ->
  m_step g s (k, (o, e)) = Ok (s', sp', ref') ->
  exists t, m_task s !! on_core s k = Some t /\ t_state t = BUSY /\
    (on_core s' k <> on_core s k \/ o = Postpone) /\
    (on_core s' k <> on_core s k -> m_task s' !! on_core s k = Some (m_cur_upd g s o e t)).
Proof.
  intros Hw Hi Ho Hst. assert (Hp := m_step_post _ _ _ _ _ _ _ _ _ Hw Hi Hst).
  destruct (mp_valid _ _ _ _ _ _ _ _ _ Hp) as [Hk Hv].
  destruct (m_cur_lookup g rs s k Hi Hk) as (t & Ht & Hb). exists t. split; [done|].
  split.
  { destruct Hb as [?|[Hid _]]; [done|]. exfalso. rewrite Hid in Hv. unfold idle_of in Hv. destruct o; lia || done. }
  split.
  { destruct (m_disp_facts _ _ _ _ _ _ _ _ _ Hw Hi Hp) as (_ & _ & _ & _ & [[_ [?|?]]|[? _]]); auto. }
  intros Hne. rewrite (mp_task _ _ _ _ _ _ _ _ _ Hp), Ht. cbn. f_equal. unfold m_upd.
  rewrite decide_False by done. rewrite decide_True by done. destruct o; done.
Qed.

Lemma m_done_busy g x t :
  t_state t <> BUSY -> (let u := stat_finish (m_base g) x t in if bool_decide (t_state u = BUSY) then set_state u DONE else u)
  = stat_finish (m_base g) x t.
Proof. intros H. cbv zeta. rewrite stat_finish_state, bool_decide_eq_false_2 by done. done. Qed.

Lemma m_sleep_exact g rs s k d e s1 sp1 r1 evs s2 : wf_smp g -> smp_typed rs -> m_reachable g rs s ->
  0 < d < 2 ^ cfg_tbits (m_base g) ->
  m_step g s (k, (Sleep d, e)) = Ok (s1, sp1, r1) -> m_run g s1 evs = Ok s2 ->
  (m_advances g s1 evs < d ->
     mstate s2 (on_core s k) = Some SLEEP /\ forall k', (k' < m_cores g)%nat -> on_core s2 k' <> on_core s k)
  /\ (forall evs' ev, evs = evs' ++ [ev] -> m_advances g s1 evs' = d - 1 -> m_advances g s1 evs = d ->
       mstate s2 (on_core s k) = Some READY
       \/ (mstate s2 (on_core s k) = Some BUSY /\ on_core s2 (fst ev) = on_core s k)).
Proof.
  intros Hw Ht Hr Hd Hst Hrun. assert (Hi := m_reachable_inv _ _ _ Hw Ht Hr).
  assert (Hp := m_step_post _ _ _ _ _ _ _ _ _ Hw Hi Hst).
  destruct (m_caller_slot _ _ _ _ (Sleep d) _ _ _ _ Hw Hi ltac:(done) Hst) as (t & Htk & Hb & Hne & Hslot).
  destruct Hne as [Hne|]; [|done].
  assert (Has : m_asleep s1 (on_core s k) (wrap (cfg_tbits (m_base g)) (m_tick s1 + d))).
  { exists (m_cur_upd g s (Sleep d) e t). split; [auto|]. rewrite (mp_tick _ _ _ _ _ _ _ _ _ Hp).
    cbn [m_cur_upd m_newtick]. rewrite (wrap_small _ d) by lia. unfold m_sleep.
    destruct (d >? 0) eqn:E; [|lia]. rewrite m_done_busy by done.
    rewrite stat_finish_state, stat_finish_tick. done. }
  destruct (m_asleep_exact g rs s1 _ d evs s2 Hw (mp_inv _ _ _ _ _ _ _ _ _ Hp) Has Hd Hrun) as [H1 H2].
  split; [done|]. intros evs' ev E1 E2 E3. eapply H2; done.
Qed.

Lemma m_sleep_until_exact g rs s k ref period e s1 sp1 ref' evs s2 : wf_smp g -> smp_typed rs -> m_reachable g rs s ->
  0 <= ref < 2 ^ cfg_tbits (m_base g) -> 0 < period < 2 ^ cfg_tbits (m_base g) ->
  let elapsed := (m_tick s - ref) mod 2 ^ cfg_tbits (m_base g) in
  elapsed < period ->
  m_step g s (k, (SleepUntil ref period, e)) = Ok (s1, sp1, ref') -> m_run g s1 evs = Ok s2 ->
  ref' = (ref + period) mod 2 ^ cfg_tbits (m_base g)
  /\ (m_advances g s1 evs < period - elapsed ->
     mstate s2 (on_core s k) = Some SLEEP /\ forall k', (k' < m_cores g)%nat -> on_core s2 k' <> on_core s k)
  /\ (forall evs' ev, evs = evs' ++ [ev] -> m_advances g s1 evs' = period - elapsed - 1 ->
       m_advances g s1 evs = period - elapsed ->
       (mstate s2 (on_core s k) = Some READY
       \/ (mstate s2 (on_core s k) = Some BUSY /\ on_core s2 (fst ev) = on_core s k)) /\ m_tick s2 = ref').
Proof.
  intros Hw Ht Hr Hrf Hpd elapsed Hel Hst Hrun. assert (Hi := m_reachable_inv _ _ _ Hw Ht Hr).
  assert (Hp := m_step_post _ _ _ _ _ _ _ _ _ Hw Hi Hst).
  destruct (m_caller_slot _ _ _ _ (SleepUntil ref period) _ _ _ _ Hw Hi ltac:(done) Hst) as (t & Htk & Hb & Hne & Hslot).
  destruct Hne as [Hne|]; [|done].
  assert (Hpos : 0 < 2 ^ cfg_tbits (m_base g)) by lia.
  assert (Heb := Z.mod_pos_bound (m_tick s - ref) _ Hpos). fold elapsed in Heb.
  assert (Hsu : m_sleep_until g s (set_sp t (e_sp e)) ref period =
     (set_miss (set_state (set_ttick (set_sp t (e_sp e)) (wrap (cfg_tbits (m_base g)) (ref + period))) SLEEP) 0,
      wrap (cfg_tbits (m_base g)) (ref + period))).
  { unfold m_sleep_until. unfold wrap at 1. fold elapsed. destruct (Z.ltb_spec elapsed period); [done|lia]. }
  assert (Eref : ref' = (ref + period) mod 2 ^ cfg_tbits (m_base g)).
  { rewrite (mp_ref _ _ _ _ _ _ _ _ _ Hp). cbn [m_refout]. rewrite Htk, !wrap_small by lia.
    unfold m_sleep_until. unfold wrap at 1. fold elapsed. destruct (Z.ltb_spec elapsed period); [done|lia]. }
  split; [done|].
  assert (Hmod : wrap (cfg_tbits (m_base g)) (ref + period) = wrap (cfg_tbits (m_base g)) (m_tick s1 + (period - elapsed))).
  { rewrite (mp_tick _ _ _ _ _ _ _ _ _ Hp). cbn [m_newtick]. unfold wrap, elapsed.
    replace (m_tick s + (period - (m_tick s - ref) mod 2 ^ cfg_tbits (m_base g)))
      with ((m_tick s + period) - (m_tick s - ref) mod 2 ^ cfg_tbits (m_base g)) by lia.
    rewrite Zminus_mod_idemp_r. f_equal. lia. }
  assert (Has : m_asleep s1 (on_core s k) (wrap (cfg_tbits (m_base g)) (m_tick s1 + (period - elapsed)))).
  { exists (m_cur_upd g s (SleepUntil ref period) e t). split; [auto|]. rewrite <- Hmod.
    cbn [m_cur_upd]. rewrite !(wrap_small _ ref), !(wrap_small _ period) by lia. rewrite Hsu. cbn [fst].
    rewrite m_done_busy by done. rewrite stat_finish_state, stat_finish_tick. done. }
  destruct (m_asleep_exact g rs s1 _ (period - elapsed) evs s2 Hw (mp_inv _ _ _ _ _ _ _ _ _ Hp) Has ltac:(lia) Hrun) as [H1 H2].
  split; [done|]. intros evs' ev E1 E2 E3. destruct (H2 evs' ev E1 E2 E3) as [G1 G2].
  split; [done|]. rewrite G2, <- Hmod, Eref. done.
Qed.

(** * C33: contexts *)
Definition m_sp_map (g : smpcfg) (s : smp) (m : nat -> option Z) : Prop :=
  forall pid t, m_task s !! pid = Some t -> t_state t <> EMPTY -> m pid = Some (t_sp t).

Lemma m_upd_empty g rs s k o e s' sp' ref' pid t : wf_smp g -> MInv g rs s -> m_post g rs s k o e s' sp' ref' ->
  m_task s !! pid = Some t -> t_state t = EMPTY ->
  t_state (m_upd g s k o e (on_core s' k) pid t) = EMPTY /\ pid <> on_core s' k.
Proof.
  intros Hw Hi Hp Ht He. destruct (mp_valid _ _ _ _ _ _ _ _ _ Hp) as [Hk _].
  destruct (m_disp_facts _ _ _ _ _ _ _ _ _ Hw Hi Hp) as (_ & _ & _ & _ & Hr).
  assert (Hpc : pid <> on_core s k).
  { intros ->. destruct (m_cur_lookup g rs s k Hi Hk) as (u & Hu & [?|[_ ?]]); congruence. }
  assert (Hpr : pid <> on_core s' k).
  { intros Epr. rewrite <- Epr in Hr. unfold mstate in Hr. rewrite Ht in Hr. cbn in Hr.
    destruct Hr as [[Hr _]|[_ [Hr|[[_ Hr]|(_ & u & Hu & Hr & _)]]]]; congruence. }
  split; [|done]. rewrite m_upd_state. rewrite (decide_False (P := pid = on_core s' k)) by done.
  rewrite decide_False by done. rewrite m_all_state, He. destruct o; done.
Qed.

Lemma m_sp_map_step g rs s k o e s' sp' ref' m : wf_smp g -> MInv g rs s ->
  m_step g s (k, (o, e)) = Ok (s', sp', ref') -> m_sp_map g s m ->
  m_sp_map g s' (fun pid => if Nat.eqb pid (on_core s k) then Some (e_sp e) else m pid).
Proof.
  intros Hw Hi Hst Hm pid t Ht Hne. assert (Hp := m_step_post _ _ _ _ _ _ _ _ _ Hw Hi Hst).
  rewrite (mp_task _ _ _ _ _ _ _ _ _ Hp) in Ht.
  destruct (m_task s !! pid) as [u|] eqn:Eu; [|done]. cbn in Ht. injection Ht as <-.
  rewrite m_upd_sp. destruct (Nat.eqb_spec pid (on_core s k)) as [->|Hpc].
  - rewrite decide_True by done. done.
  - rewrite decide_False by done. apply Hm; [done|]. intros He. apply Hne.
    eapply m_upd_empty; [done|exact Hi|exact Hp|exact Eu|done].
Qed.

Lemma m_sp_map_run g rs evs : forall s s' m, wf_smp g -> MInv g rs s ->
  m_run g s evs = Ok s' -> m_sp_map g s m -> m_sp_map g s' (m_saved_sp g s evs m).
Proof.
  induction evs as [|[k [o e]] evs IH]; intros s s' m Hw Hi Hr Hm; cbn [m_run m_saved_sp] in *.
  - injection Hr as <-. done.
  - destruct (m_step g s (k, (o, e))) as [[[s1 sp1] r1]| | |] eqn:E; cbn [rbind fst] in Hr; try done.
    cbn [fst snd]. eapply IH; [done| |exact Hr|].
    + eapply m_step_inv; [| |exact E]; done.
    + eapply m_sp_map_step; [done|exact Hi|exact E|done].
Qed.

Lemma m_sp_map_boot g tmp0 rs s : wf_smp g -> smp_typed rs -> m_boot g tmp0 rs = Ok s -> m_sp_map g s (m_initial_sp g rs).
Proof.
  intros Hw Ht Hb. rewrite m_boot_ok in Hb by done. destruct (decide (m_good g rs)) as [Hg|]; [|done].
  injection Hb as <-. intros pid t Htk Hne. cbn in Htk.
  assert (Hlen : length (m_sorted g rs) = cfg_n (m_base g)) by (apply m_users_length, m_good_order, Hg).
  unfold m_initial_sp. destruct (decide _) as [Hp|Hp].
  - rewrite lookup_app_l in Htk by (rewrite arr_length; lia). rewrite arr_lookup in Htk.
    destruct (m_sorted g rs !! pid) as [u|] eqn:Eu; [|done]. cbn in Htk. injection Htk as <-.
    unfold m_sorted, m_users in Eu. destruct (order (m_base g) rs !! pid) as [r|] eqn:Eo.
    + assert (Hor := lookup_lt_Some _ _ _ Eo). rewrite lookup_app_l in Eu by (rewrite map_length; lia).
      rewrite list_lookup_fmap, Eo in Eu. cbn in Eu. injection Eu as <-. done.
    + apply lookup_ge_None in Eo. rewrite lookup_app_r in Eu by (rewrite map_length; lia).
      apply lookup_replicate in Eu as [-> _]. done.
  - rewrite lookup_app_r in Htk by (rewrite arr_length; lia). rewrite arr_length, Hlen in Htk.
    unfold m_idles in Htk. rewrite list_lookup_fmap in Htk.
    destruct (seq 0 (m_cores g) !! (pid - cfg_n (m_base g))%nat) as [i|] eqn:Ei; [|done]. cbn in Htk. injection Htk as <-.
    apply lookup_seq in Ei as [Ei1 Ei2]. cbn in Ei1. rewrite <- Ei1.
    destruct (task_init_min (m_base g) (m_idlestk g i)) as (b & n & E).
    unfold idle_slot, idle_regm. rewrite E. done.
Qed.

Lemma m_context_integrity g tmp0 rs s0 evs s k o e s' sp' ref' : wf_smp g -> smp_typed rs ->
  m_boot g tmp0 rs = Ok s0 -> m_run g s0 evs = Ok s -> m_step g s (k, (o, e)) = Ok (s', sp', ref') ->
  m_saved_sp g s0 (evs ++ [(k, (o, e))]) (m_initial_sp g rs) (on_core s' k) = Some sp'.
Proof.
  intros Hw Ht Hb Hr Hst. assert (Hi0 := m_inv_boot _ _ _ _ Hw Ht Hb).
  assert (Hr' : m_run g s0 (evs ++ [(k, (o, e))]) = Ok s').
  { rewrite m_run_app, Hr. cbn [rbind m_run]. rewrite Hst. done. }
  assert (Hm := m_sp_map_run g rs _ s0 s' _ Hw Hi0 Hr' (m_sp_map_boot _ _ _ _ Hw Ht Hb)).
  assert (Hi : MInv g rs s) by (eapply m_run_inv; [done|exact Hi0|exact Hr]).
  assert (Hp := m_step_post _ _ _ _ _ _ _ _ _ Hw Hi Hst).
  destruct (mp_sp _ _ _ _ _ _ _ _ _ Hp) as (t & Htk & ->).
  apply Hm; [done|]. destruct (m_disp_facts _ _ _ _ _ _ _ _ _ Hw Hi Hp) as (_ & _ & H & _).
  unfold mstate in H. rewrite Htk in H. cbn in H. congruence.
Qed.

(** * C33: no stall, overflow detection *)
Lemma m_bounds_some g rs s k : wf_smp g -> MInv g rs s -> (k < m_cores g)%nat -> exists t,
  m_task s !! on_core s k = Some t /\ m_bounds g rs (on_core s k) = Some (t_bot t, t_top t).
Proof.
  intros Hw Hi Hk. destruct (m_cur_lookup g rs s k Hi Hk) as (t & Ht & _). exists t. split; [done|].
  destruct (mi_slot _ _ _ Hi _ _ Ht) as (H & _). destruct (mi_cur _ _ _ Hi k Hk) as [Ha _].
  destruct (m_bounds g rs (on_core s k)) as [[b e]|] eqn:E.
  - destruct (H b e eq_refl) as [-> ->]. done.
  - exfalso. unfold m_bounds in E. unfold allowed in Ha. destruct (decide _).
    + destruct (order _ _ !! _); done.
    + destruct (task_init_min (m_base g) (m_idlestk g (on_core s k - cfg_n (m_base g)))) as (b & nn & E2).
      rewrite E2 in E. done.
Qed.

Lemma m_sp_ok_iff g rs s k e : wf_smp g -> MInv g rs s -> (k < m_cores g)%nat ->
  m_sp_ok g rs s k (e_sp e) <-> m_spin s k e.
Proof.
  intros Hw Hi Hk. destruct (m_bounds_some g rs s k Hw Hi Hk) as (t & Ht & Hb). unfold m_sp_ok, m_spin.
  rewrite Hb, Ht. split.
  - intros (b & x & [= <- <-] & H). eauto.
  - intros (u & [= <-] & H). eauto.
Qed.

Lemma m_no_stall g rs s k o e : wf_smp g -> smp_typed rs -> m_reachable g rs s ->
  m_may_issue g s k o -> m_sp_ok g rs s k (e_sp e) -> exists s' sp' ref', m_step g s (k, (o, e)) = Ok (s', sp', ref').
Proof.
  intros Hw Ht Hr [Hk Hm] Hsp. assert (Hi := m_reachable_inv _ _ _ Hw Ht Hr).
  assert (Hv : m_valid g s k o).
  { split; [done|]. destruct o; try done. destruct Hm as [? ?]. split; [done|]. rewrite wrap_small by lia. lia. }
  apply m_sp_ok_iff in Hsp; try done.
  destruct (m_step_progress g rs s k o e Hw Hi Hv Hsp) as (r & f & t & _ & _ & _ & E). rewrite E. eauto.
Qed.

Lemma m_bad_sp_stalls g rs s k o e x : wf_smp g -> smp_typed rs -> m_reachable g rs s -> (k < m_cores g)%nat ->
  ~ m_sp_ok g rs s k (e_sp e) -> m_step g s (k, (o, e)) <> Ok x.
Proof.
  intros Hw Ht Hr Hk Hn Hst. assert (Hi := m_reachable_inv _ _ _ Hw Ht Hr).
  destruct (m_step_ok_valid _ _ _ _ _ _ _ Hw Hi Hst) as [_ Hs]. apply Hn. apply m_sp_ok_iff; done.
Qed.

(** * C34 *)
Definition m_must_run (g : smpcfg) (rs : list reg) (k : nat) (s : smp) (pid : nat) : Prop :=
  (pid < cfg_n (m_base g))%nat /\ eligible_on g rs s k pid /\ (m_postponed s = true \/ (on_core s k < pid)%nat).

Lemma m_eligible_other g rs s k0 o e s' sp' ref' k pid : wf_smp g -> MInv g rs s ->
  m_step g s (k0, (o, e)) = Ok (s', sp', ref') -> o <> Tick -> on_core s k0 <> pid ->
  eligible_on g rs s k pid -> on_core s' k0 = pid \/ eligible_on g rs s' k pid.
Proof.
  intros Hw Hi Hst Ho Hpc (H1 & H2 & H3). assert (Hp := m_step_post _ _ _ _ _ _ _ _ _ Hw Hi Hst).
  destruct (decide (on_core s' k0 = pid)) as [|Hne]; [left; done|right].
  assert (Htk : m_tick s' = m_tick s) by (rewrite (mp_tick _ _ _ _ _ _ _ _ _ Hp); destruct o; done).
  split; [|rewrite Htk; done]. unfold mstate in *. rewrite (mp_task _ _ _ _ _ _ _ _ _ Hp).
  destruct (m_task s !! pid) as [t|]; [|done]. cbn in *. f_equal. injection H1 as H1.
  rewrite m_upd_state. rewrite (decide_False (P := pid = on_core s' k0)) by congruence.
  rewrite decide_False by congruence. rewrite m_all_state. destruct o; done.
Qed.

Lemma m_must_run_step g rs s k0 o e s' sp' ref' k pid : wf_smp g -> MInv g rs s ->
  m_step g s (k0, (o, e)) = Ok (s', sp', ref') -> o <> Tick -> on_core s k0 <> pid ->
  (k0 = k \/ m_postponed s = false \/ m_postponed s' = true) -> m_must_run g rs k s pid ->
  on_core s' k0 = pid \/ m_must_run g rs k s' pid.
Proof.
  intros Hw Hi Hst Ho Hpc Hk0 (Hn & Hel & Hc). assert (Hp := m_step_post _ _ _ _ _ _ _ _ _ Hw Hi Hst).
  destruct (m_eligible_other _ _ _ _ _ _ _ _ _ k pid Hw Hi Hst Ho Hpc Hel) as [|Hel']; [left; done|].
  destruct (decide (on_core s' k0 = pid)) as [|Hne]; [left; done|right].
  split; [done|]. split; [done|].
  destruct (decide (k0 = k)) as [->|Hkk].
  - assert (Hmid : eligible_on g rs (m_mid g s k o e) k pid) by (eapply m_fin_eligible; [exact Hp|congruence|done]).
    assert (Hpend : m_postponed s = true -> m_postponed (m_mid g s k o e) = true) by (destruct o; done).
    assert (G : exists r1, least_from (eligible_on g rs (m_mid g s k o e) k) (S (on_core s k)) r1 /\
       (if decide ((cfg_n (m_base g) <= r1)%nat /\ m_postponed (m_mid g s k o e) = true)
        then m_postponed s' = false /\ least_from (eligible_on g rs (m_mid g s k o e) k) 0 (on_core s' k)
        else m_postponed s' = m_postponed (m_mid g s k o e) /\ on_core s' k = r1)).
    { assert (Hs := mp_sel _ _ _ _ _ _ _ _ _ Hp). destruct o; try done; destruct Hs as (r1 & G1 & _ & G2); eauto. }
    destruct G as (r1 & (_ & _ & Hl) & Hd).
    destruct (decide ((cfg_n (m_base g) <= r1)%nat /\ m_postponed (m_mid g s k o e) = true)) as [Hx|Hx].
    + destruct Hd as [_ (_ & _ & Hmin)]. right.
      destruct (decide (on_core s' k < pid)%nat) as [|Hge]; [done|]. exfalso. apply (Hmin pid); [lia|done].
    + destruct Hd as [Hf Hr]. destruct Hc as [Hc|Hc].
      * left. rewrite Hf. auto.
      * right. rewrite Hr in *. destruct (decide (r1 < pid)%nat) as [|Hge]; [done|]. exfalso. apply (Hl pid); [lia|done].
  - destruct Hc as [Hc|Hc].
    + destruct Hk0 as [?|[Hf|Hf]]; [done|congruence|left; done].
    + right. rewrite (mp_core _ _ _ _ _ _ _ _ _ Hp k) by done. done.
Qed.

(** A core that just went idle by a system call left no request pending. *)
Lemma m_idle_not_pending g rs s k o e s' sp' ref' : wf_smp g -> MInv g rs s ->
  m_step g s (k, (o, e)) = Ok (s', sp', ref') -> o <> Tick ->
  (cfg_n (m_base g) <= on_core s' k)%nat -> m_postponed s' = false.
Proof.
  intros Hw Hi Hst Ho Hid. assert (Hp := m_step_post _ _ _ _ _ _ _ _ _ Hw Hi Hst).
  assert (G : exists r1, (if decide ((cfg_n (m_base g) <= r1)%nat /\ m_postponed (m_mid g s k o e) = true)
        then m_postponed s' = false /\ least_from (eligible_on g rs (m_mid g s k o e) k) 0 (on_core s' k)
        else m_postponed s' = m_postponed (m_mid g s k o e) /\ on_core s' k = r1)).
  { assert (Hs := mp_sel _ _ _ _ _ _ _ _ _ Hp). destruct o; try done; destruct Hs as (r1 & G1 & _ & G2); eauto. }
  destruct G as (r1 & G). destruct (decide _) as [|Hx]; [apply G|]. destruct G as [-> <-].
  destruct (m_postponed (m_mid g s k o e)); [|done]. exfalso. apply Hx. done.
Qed.

Lemma m_must_run_run g rs k evs : forall s s' pid, wf_smp g -> MInv g rs s -> m_only_core_resets g k s evs ->
  m_run g s evs = Ok s' -> m_must_run g rs k s pid -> (k < m_cores g)%nat ->
  (on_core s k < cfg_n (m_base g))%nat ->
  (cfg_n (m_base g) <= on_core s' k)%nat -> m_dispatched_in g s evs pid.
Proof.
  induction evs as [|[k0 [o e]] evs IH]; intros s s' pid Hw Hi Hor Hr Hm Hk Hc Hid; cbn [m_run m_only_core_resets] in *.
  - injection Hr as <-. lia.
  - destruct (m_step g s (k0, (o, e))) as [[[s1 sp1] r1]| | |] eqn:E; cbn [rbind fst snd] in *; try done.
    destruct Hor as (Htf & Hk0 & Hor).
    assert (Hp := m_step_post _ _ _ _ _ _ _ _ _ Hw Hi E).
    destruct (mp_valid _ _ _ _ _ _ _ _ _ Hp) as [Hkk0 _].
    assert (Ho : o <> Tick) by (intros ->; done).
    destruct (decide (on_core s k0 = pid)) as [Hcp|Hcp].
    { exists [], ((k0, (o, e)) :: evs), s, k0. done. }
    destruct (m_must_run_step _ _ _ _ _ _ _ _ _ k pid Hw Hi E Ho Hcp Hk0 Hm) as [Hd|Hd].
    + exists [(k0, (o, e))], evs, s1, k0. split; [done|]. split; [cbn [m_run]; rewrite E; done|done].
    + destruct (decide (cfg_n (m_base g) <= on_core s1 k)%nat) as [Hi1|Hi1].
      * exfalso. assert (k0 = k).
        { destruct (decide (k0 = k)); [done|]. rewrite (mp_core _ _ _ _ _ _ _ _ _ Hp k) in Hi1 by done. lia. }
        subst k0. destruct Hd as (Hn & _ & [Hx|Hx]); [|lia].
        rewrite (m_idle_not_pending _ _ _ _ _ _ _ _ _ Hw Hi E Ho Hi1) in Hx. done.
      * destruct (IH s1 s' pid) as (evs1 & evs2 & s2 & k2 & -> & Hr2 & Hc2); try done.
        -- apply (mp_inv _ _ _ _ _ _ _ _ _ Hp).
        -- lia.
        -- exists ((k0, (o, e)) :: evs1), evs2, s2, k2. split; [done|]. split; [|done]. cbn [m_run]. rewrite E. done.
Qed.

Lemma m_postpone_before_idle g rs s k e s1 sp1 r1 evs s2 : wf_smp g -> smp_typed rs -> m_reachable g rs s ->
  turn (m_base g) rs (m_tick s) (on_core s k) ->
  m_step g s (k, (Postpone, e)) = Ok (s1, sp1, r1) ->
  m_run g s1 evs = Ok s2 -> m_only_core_resets g k s1 evs -> on_core s2 k = idle_of g k ->
  m_dispatched_in g s1 evs (on_core s k).
Proof.
  intros Hw Ht Hr Htn Hst Hrun Hor Hid. assert (Hi := m_reachable_inv _ _ _ Hw Ht Hr).
  assert (Hp := m_step_post _ _ _ _ _ _ _ _ _ Hw Hi Hst).
  destruct (mp_valid _ _ _ _ _ _ _ _ _ Hp) as [Hk Hn].
  destruct (decide (on_core s1 k = on_core s k)) as [Heq|Hne].
  { exists [], evs, s1, k. done. }
  destruct (m_caller_slot _ _ _ _ Postpone _ _ _ _ Hw Hi ltac:(done) Hst) as (t & Htk & Hb & _ & Hslot).
  assert (Hel : eligible_on g rs s1 k (on_core s k)).
  { split; [|split].
    - unfold mstate. rewrite Hslot by done. cbn. f_equal. apply (m_cur_state g s Postpone e t). left. done.
    - rewrite (mp_tick _ _ _ _ _ _ _ _ _ Hp). done.
    - apply (mi_cur _ _ _ Hi k Hk). }
  assert (Hmid : eligible_on g rs (m_mid g s k Postpone e) k (on_core s k)).
  { eapply m_fin_eligible; [exact Hp|congruence|done]. }
  destruct (mp_sel _ _ _ _ _ _ _ _ _ Hp) as (q & (_ & _ & Hl) & _ & Hd).
  assert (Hg : m_postponed s1 = true \/ (on_core s1 k < on_core s k)%nat).
  { destruct (decide _) as [Hx|Hx].
    - destruct Hd as [_ (_ & _ & Hmin)]. right.
      destruct (decide (on_core s1 k < on_core s k)%nat) as [|Hge]; [done|]. exfalso. apply (Hmin (on_core s k)); [lia|done].
    - left. destruct Hd as [-> _]. done. }
  destruct (decide (cfg_n (m_base g) <= on_core s1 k)%nat) as [Hi1|Hi1].
  { exfalso. destruct Hg as [Hg|Hg]; [|lia].
    rewrite (m_idle_not_pending _ _ _ _ Postpone _ _ _ _ Hw Hi Hst ltac:(done) Hi1) in Hg. done. }
  eapply (m_must_run_run g rs k); [done|apply (mp_inv _ _ _ _ _ _ _ _ _ Hp)|done|exact Hrun|split; done|done|lia|].
  rewrite Hid. unfold idle_of. lia.
Qed.

(** * Isolation: what an event on one core leaves alone *)
Lemma m_isolation g rs s k o e s' sp' ref' : wf_smp g -> smp_typed rs -> m_reachable g rs s ->
  m_step g s (k, (o, e)) = Ok (s', sp', ref') ->
  forall k', (k' < m_cores g)%nat -> k' <> k ->
    on_core s' k' = on_core s k' /\ mstate s' (on_core s k') = mstate s (on_core s k')
    /\ t_sp <$> m_task s' !! on_core s k' = t_sp <$> m_task s !! on_core s k'.
Proof.
  intros Hw Ht Hr Hst k' Hk' Hne. assert (Hi := m_reachable_inv _ _ _ Hw Ht Hr).
  assert (Hp := m_step_post _ _ _ _ _ _ _ _ _ Hw Hi Hst).
  destruct (mp_valid _ _ _ _ _ _ _ _ _ Hp) as [Hk _].
  assert (Hc := mp_core _ _ _ _ _ _ _ _ _ Hp k' Hne). split; [done|].
  destruct (m_disp_facts _ _ _ _ _ _ _ _ _ Hw Hi Hp) as (_ & _ & _ & Hnr & _).
  specialize (Hnr k' Hk' Hne).
  assert (Hnc : on_core s k' <> on_core s k) by (intros E; apply Hne, (mi_dup _ _ _ Hi); done).
  destruct (m_cur_lookup g rs s k' Hi Hk') as (t & Htk & Hb). unfold mstate.
  rewrite (mp_task _ _ _ _ _ _ _ _ _ Hp), Htk. cbn.
  rewrite m_upd_state, m_upd_sp, (decide_False (P := on_core s k' = on_core s' k)), !(decide_False (P := on_core s k' = on_core s k)) by done.
  rewrite m_all_state. split; [|done]. f_equal. destruct o; try done.
  destruct Hb as [->|[_ ->]]; done.
Qed.

(** * Yielding *)
Lemma m_yield_next g rs s k o e s' sp' ref' : wf_smp g -> smp_typed rs -> m_reachable g rs s ->
  o <> Tick -> o <> Postpone -> m_postponed s = false ->
  m_step g s (k, (o, e)) = Ok (s', sp', ref') ->
  let r := on_core s' k in
  (on_core s k < r <= idle_of g k)%nat
  /\ eligible_on g rs s k r
  /\ (forall j, (on_core s k < j < r)%nat -> ~ eligible_on g rs s k j)
  /\ m_tick s' = m_tick s.
Proof.
  intros Hw Ht Hr Ho Ho2 Hf Hst r. assert (Hi := m_reachable_inv _ _ _ Hw Ht Hr).
  assert (Hp := m_step_post _ _ _ _ _ _ _ _ _ Hw Hi Hst).
  assert (Hpend : m_postponed (m_mid g s k o e) = false) by (destruct o; done).
  assert (Htk : m_tick s' = m_tick s) by (rewrite (mp_tick _ _ _ _ _ _ _ _ _ Hp); destruct o; done).
  assert (G : least_from (eligible_on g rs (m_mid g s k o e) k) (S (on_core s k)) r).
  { assert (Hs := mp_sel _ _ _ _ _ _ _ _ _ Hp). destruct o; try done; destruct Hs as (r1 & G1 & _ & G2);
      rewrite Hpend in G2; rewrite decide_False in G2 by (intros [_ ?]; done); destruct G2 as [_ G2]; unfold r; rewrite G2; done. }
  assert (Heq : forall j, j <> on_core s k -> eligible_on g rs (m_mid g s k o e) k j <-> eligible_on g rs s k j).
  { intros j Hj. unfold eligible_on.
    assert (mstate (m_mid g s k o e) j = mstate s j) as ->.
    { unfold mstate. rewrite m_mid_lookup. destruct (m_task s !! j) as [u|]; [|done]. cbn.
      rewrite m_all_state, decide_False by done. destruct o; done. }
    assert (m_tick (m_mid g s k o e) = m_tick s) as -> by (rewrite <- Htk, (mp_tick _ _ _ _ _ _ _ _ _ Hp); done). done. }
  destruct G as (G1 & G2 & G3). assert (Hle := mp_le _ _ _ _ _ _ _ _ _ Hp). fold r in Hle.
  split; [lia|]. split; [apply Heq; [lia|done]|]. split; [|done].
  intros j Hj He. apply (G3 j); [lia|]. apply Heq; [lia|done].
Qed.

(** * Killing *)
Lemma m_empty_run g rs evs : forall s s' pid, wf_smp g -> MInv g rs s -> m_run g s evs = Ok s' ->
  mstate s pid = Some EMPTY -> mstate s' pid = Some EMPTY /\ MInv g rs s'.
Proof.
  induction evs as [|[k [o e]] evs IH]; intros s s' pid Hw Hi Hr He; cbn [m_run] in Hr.
  - injection Hr as <-. done.
  - destruct (m_step g s (k, (o, e))) as [[[s1 sp1] r1]| | |] eqn:E; cbn [rbind fst] in Hr; try done.
    assert (Hp := m_step_post _ _ _ _ _ _ _ _ _ Hw Hi E).
    eapply IH; [done|apply (mp_inv _ _ _ _ _ _ _ _ _ Hp)|exact Hr|].
    unfold mstate in *. rewrite (mp_task _ _ _ _ _ _ _ _ _ Hp). destruct (m_task s !! pid) as [t|] eqn:Et; [|done].
    cbn in *. f_equal. injection He as He. eapply m_upd_empty; [done|exact Hi|exact Hp|done|done].
Qed.

Lemma m_kill_final g rs s k e s1 sp1 r1 evs s2 : wf_smp g -> smp_typed rs -> m_reachable g rs s ->
  m_step g s (k, (Kill, e)) = Ok (s1, sp1, r1) -> m_run g s1 evs = Ok s2 ->
  mstate s2 (on_core s k) = Some EMPTY /\ forall k', (k' < m_cores g)%nat -> on_core s2 k' <> on_core s k.
Proof.
  intros Hw Ht Hr Hst Hrun. assert (Hi := m_reachable_inv _ _ _ Hw Ht Hr).
  assert (Hp := m_step_post _ _ _ _ _ _ _ _ _ Hw Hi Hst).
  destruct (m_caller_slot _ _ _ _ Kill _ _ _ _ Hw Hi ltac:(done) Hst) as (t & Htk & Hb & Hne & Hslot).
  destruct Hne as [Hne|]; [|done].
  destruct (m_empty_run g rs evs s1 s2 (on_core s k) Hw (mp_inv _ _ _ _ _ _ _ _ _ Hp) Hrun) as [H1 H2].
  { unfold mstate. rewrite Hslot by done. cbn. f_equal. apply (m_cur_state g s Kill e t). left. done. }
  split; [done|]. intros k' Hk' E. destruct (mi_cur _ _ _ H2 k' Hk') as [_ H3]. rewrite E in H3.
  destruct H3 as [H3|[_ H3]]; congruence.
Qed.

(** * picoRTOS_self, picoRTOS_get_tick *)
Lemma m_self_tick_ok g rs s k : wf_smp g -> smp_typed rs -> m_reachable g rs s -> (k < m_cores g)%nat ->
  (on_core s k < cfg_n (m_base g))%nat ->
  m_self s (Z.of_nat k) = Ok (Z.of_nat (on_core s k)) /\ m_get_tick s (Z.of_nat k) = Ok (m_tick s).
Proof.
  intros Hw Ht Hr Hk Hn. assert (Hi := m_reachable_inv _ _ _ Hw Ht Hr).
  destruct (inv_on_core g rs s k Hi Hk) as [Hix _].
  destruct (m_cur_lookup g rs s k Hi Hk) as (t & Htk & Hb).
  assert (Hbusy : t_state t = BUSY) by (destruct Hb as [?|[Hid _]]; [done|unfold idle_of in Hid; lia]).
  unfold m_self, m_get_tick, m_guard. rewrite (aget_ok _ _ _ Hix). cbn [rbind].
  rewrite (mget_ok _ _ _ Htk). cbn [rbind]. rewrite bool_decide_eq_true_2 by done. done.
Qed.

(** * Registration and start-up *)
Lemma m_registration g tmp0 rs : wf_smp g -> smp_typed rs ->
  let ok := Forall (fun r => 0 < rg_mask r < 2 ^ Z.of_nat (m_cores g) /\ rg_prio r < Z.of_nat (cfg_n (m_base g))) rs
            /\ (length rs <= cfg_n (m_base g))%nat in
  (ok -> exists s, m_boot g tmp0 rs = Ok s) /\ (~ ok -> m_boot g tmp0 rs = Fatal).
Proof.
  intros Hw Ht ok. rewrite m_boot_ok by done.
  assert (Hiff : m_good g rs <-> ok).
  { unfold m_good, ok, smp_typed in *. split; intros [H1 H2]; (split; [|done]);
      rewrite Forall_forall in H1, Ht; rewrite Forall_forall; intros r Hr; specialize (H1 r Hr); specialize (Ht r Hr); lia. }
  split; intros H; destruct (decide (m_good g rs)); eauto; tauto.
Qed.

Lemma m_boot_order g tmp0 rs s : wf_smp g -> smp_typed rs -> m_boot g tmp0 rs = Ok s ->
  exists l, Permutation l rs
    /\ StronglySorted (fun a b => rg_prio a <= rg_prio b) l
    /\ (forall p, with_prio p l = with_prio p rs)
    /\ l = order (m_base g) rs
    /\ (forall pid, (pid < cfg_n (m_base g))%nat ->
    match l !! pid with
    | Some r => exists t, m_task s !! pid = Some t /\ t_state t = READY /\ t_sp t = rg_sp r
        /\ t_bot t = rg_stack r /\ t_top t = rg_stack r + cfg_ssize (m_base g) * rg_count r
        /\ t_count t = rg_count r /\ t_prio t = rg_prio r /\ t_mask t = rg_mask r
    | None => mstate s pid = Some EMPTY
    end)
    /\ forall k, (k < m_cores g)%nat -> on_core s k = idle_of g k
        /\ exists t, m_task s !! idle_of g k = Some t /\ t_state t = READY /\ t_sp t = m_idlesp g k
             /\ m_bounds g rs (idle_of g k) = Some (t_bot t, t_top t).
Proof.
  intros Hw Ht Hb. assert (Hi := m_inv_boot _ _ _ _ Hw Ht Hb). assert (Hc := m_boot_cur _ _ _ _ Hw Ht Hb).
  assert (Hspm := m_sp_map_boot _ _ _ _ Hw Ht Hb).
  rewrite m_boot_ok in Hb by done. destruct (decide (m_good g rs)) as [Hg|]; [|done].
  injection Hb as <-. assert (Hgr := m_good_regs g rs Hg).
  assert (Hlen : length (m_sorted g rs) = cfg_n (m_base g)) by (apply m_users_length, m_good_order, Hg).
  assert (Hol := order_length (m_base g) rs Hgr).
  exists (order (m_base g) rs). split; [apply order_perm; done|]. split; [apply order_asc|].
  split; [intros p; apply order_with_prio; done|]. split; [done|]. split.
  - intros pid Hp. unfold mstate. cbn. rewrite lookup_app_l by (rewrite arr_length; lia). rewrite arr_lookup.
    unfold m_sorted, m_users. destruct (order (m_base g) rs !! pid) as [r|] eqn:Er.
    + assert (Hor := lookup_lt_Some _ _ _ Er). rewrite lookup_app_l by (rewrite map_length; lia).
      rewrite list_lookup_fmap, Er. cbn. eexists. split; [done|]. done.
    + apply lookup_ge_None in Er. rewrite lookup_app_r by (rewrite map_length; lia).
      rewrite lookup_replicate_2 by (rewrite map_length; lia). done.
  - intros k Hk. destruct Hc as (_ & _ & _ & Hon). split; [auto|].
    destruct (m_bounds_some g rs _ k Hw Hi Hk) as (t & Htk & Hbd). rewrite (Hon k Hk) in *.
    exists t. split; [done|].
    destruct (mi_cur _ _ _ Hi k Hk) as [_ Hst]. rewrite (Hon k Hk) in Hst.
    assert (Hrd : t_state t = READY).
    { assert (Hb2 : mstate (m_bootstate g rs) (idle_of g k) = Some READY).
      { unfold mstate. cbn. unfold idle_of. rewrite lookup_app_r by (rewrite arr_length; lia).
        rewrite arr_length, Hlen. replace (cfg_n (m_base g) + k - cfg_n (m_base g))%nat with k by lia.
        unfold m_idles. rewrite list_lookup_fmap, lookup_seq_lt by done. done. }
      unfold mstate in Hb2. rewrite Htk in Hb2. cbn in Hb2. congruence. }
    split; [done|]. split; [|done].
    assert (H := Hspm _ _ Htk ltac:(congruence)). unfold m_initial_sp in H.
    rewrite decide_False in H by (unfold idle_of; lia).
    replace (idle_of g k - cfg_n (m_base g))%nat with k in H by (unfold idle_of; lia). congruence.
Qed.

(** picoRTOS_add_task is picoRTOS_SMP_add_task with all cores allowed. *)
Lemma m_add_any g s r : wf_smp g -> m_add g s r =
  m_smp_add g s (mkReg (rg_stack r) (rg_count r) (rg_sp r) (rg_prio r) (2 ^ Z.of_nat (m_cores g) - 1))
  /\ forall k, (k < m_cores g)%nat -> Z.testbit (2 ^ Z.of_nat (m_cores g) - 1) (Z.of_nat k) = true.
Proof.
  intros Hw.
  assert (Hm : wrap (m_maskbits g) (core_any g) = 2 ^ Z.of_nat (m_cores g) - 1).
  { unfold core_any. rewrite Z.shiftl_mul_pow2 by lia. rewrite Z.mul_1_l. apply Z.mod_small.
    assert (0 < 2 ^ Z.of_nat (m_cores g)) by (apply Z.pow_pos_nonneg; lia).
    assert (2 ^ Z.of_nat (m_cores g) <= 2 ^ m_maskbits g); [|lia].
    apply Z.pow_le_mono_r; [lia|]. unfold wf_smp in Hw. lia. }
  split.
  - unfold m_add. rewrite Hm. unfold m_smp_add, assert_fatal. cbn [rg_prio rg_mask].
    destruct (rg_prio r <? _); [done|].
    destruct (negb _); [|done]. destruct (_ <? core_bit _ _); done.
  - intros k Hk. replace (2 ^ Z.of_nat (m_cores g) - 1) with (Z.ones (Z.of_nat (m_cores g))).
    + apply Z.ones_spec_low. lia.
    + rewrite Z.ones_equiv. lia.
Qed.
