(** SpinThms.v - concurrent calls of the SMP scheduler under the spin lock are the sequences of
    atomic calls of SmpModel. *)
From Verif Require Import Base SchedModel SchedSpec SortProofs BootProofs SchedProofs StepProofs SchedThms
  SmpModel SmpSpec SmpBoot SmpProofs SmpInv SmpThms SpinModel SpinSpec SpinProofs.
From Coq Require Import ZifyBool ZifyNat.

Lemma critical_step g rs s k o e : wf_smp g -> smp_typed rs -> m_reachable g rs s -> m_may_issue g s k o ->
  smp_critical g (k, (o, e)) (Ok s) = (let! x := m_step g s (k, (o, e)) in Ok (fst (fst x))).
Proof.
  intros Hw Ht Hr [Hk Hm]. assert (Hi := m_reachable_inv _ _ _ Hw Ht Hr).
  assert (G : (on_core s k < cfg_n (m_base g))%nat -> m_guard s (Z.of_nat k) = Ok true).
  { intros Hn. destruct (inv_on_core g rs s k Hi Hk) as [Hix _].
    destruct (m_cur_lookup g rs s k Hi Hk) as (t & Htk & Hb).
    assert (Hbusy : t_state t = BUSY) by (destruct Hb as [?|[Hid _]]; [done|unfold idle_of in Hid; lia]).
    unfold m_guard. rewrite (aget_ok _ _ _ Hix). cbn [rbind].
    rewrite (mget_ok _ _ _ Htk). cbn [rbind]. by rewrite bool_decide_eq_true_2. }
  cbn [smp_critical rbind m_step]. destruct o; unfold m_api.
  - destruct (m_dotick _ _ _ _); done.
  - rewrite G by done. done.
  - destruct Hm as [Hn Hp]. rewrite G by done. cbn [rbind]. unfold assert_fatal.
    destruct Hw as (_ & _ & _ & Htb & _). 
    unfold wrap. rewrite (Z.mod_small period) by lia. destruct (period >? 0) eqn:E; [done|lia].
  - rewrite G by done. done.
  - rewrite G by done. done.
Qed.
Lemma critical_fail g ev (r : res smp) : (forall s, r <> Ok s) -> smp_critical g ev r = r.
Proof. intros H. destruct ev as [k [o e]], r as [s| | |]; [by destruct (H s)|done..]. Qed.
Lemma m_run_snoc g evs ev : forall s, m_run g s (evs ++ [ev]) = (let! s' := m_run g s evs in let! x := m_step g s' ev in Ok (fst (fst x))).
Proof.
  induction evs as [|e evs IH]; intros s; cbn [app m_run rbind].
  - destruct (m_step g s ev); done.
  - destruct (m_step g s e); cbn [rbind]; try done.
Qed.
Lemma critical_run g rs tmp0 s0 : wf_smp g -> smp_typed rs -> m_boot g tmp0 rs = Ok s0 ->
  forall evs, tasks_only g s0 evs -> fold_left (fun s c => smp_critical g c s) evs (Ok s0) = m_run g s0 evs.
Proof.
  intros Hw Ht Hb evs. induction evs as [|ev evs IH] using rev_ind; intros Hv; [done|].
  rewrite fold_left_app, m_run_snoc. cbn [fold_left]. rewrite IH.
  - destruct (m_run g s0 evs) as [s| | |] eqn:E; cbn [rbind]; [|by rewrite critical_fail..].
    destruct ev as [k [o e]]. apply (critical_step g rs); [done|done| |].
    + exists tmp0, s0, evs. done.
    + eapply Hv; [|exact E]. reflexivity.
  - intros evs1 k o e evs2 s E. apply (Hv evs1 k o e (evs2 ++ [ev]) s). by rewrite E, <- app_assoc.
Qed.
Lemma smp_serialized cfg body g rs tmp0 s0 todo sched :
  wf_smp g -> smp_typed rs -> m_boot g tmp0 rs = Ok s0 ->
  (forall ev s, alone (body ev) s = smp_critical g ev s) ->
  let w := spin_run cfg body sched (spin_init (Ok s0) todo) in
  never_gave_up w -> tasks_only g s0 (entered w) ->
  ((forall k, ~ inside w k) -> w_shared w = m_run g s0 (entered w)) /\
  (forall k, entered_on w k `prefix_of` todo k).
Proof.
  intros Hw Ht Hb Hbody w Hn Hv. split; [|intros k; apply in_order].
  intros No. destruct (serialized cfg body (Ok s0) todo sched Hn) as [H _]. fold w in H. rewrite (H No).
  unfold in_sequence. rewrite <- (critical_run g rs tmp0) by done.
  generalize (Ok s0). generalize (entered w). intros l. induction l as [|ev l IH]; intros r; [done|]. cbn [fold_left]. by rewrite Hbody.
Qed.
