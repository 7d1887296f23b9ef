(** SchedThms.v - proofs of the single-core scheduler properties. *)
From Verif Require Import Base SchedModel SchedSpec SortProofs BootProofs SchedProofs StepProofs.
From Coq Require Import ZifyBool ZifyNat.

Lemma ev_upd_other c s o e r i t : i <> cur s ->
  ev_upd c s o e r i t = if decide (i = r) then stat_start c (e_now e) (all_upd c s o t) else all_upd c s o t.
Proof. intros H. unfold ev_upd. rewrite (decide_False (P := i = cur s)) by done. done. Qed.
Lemma ev_upd_self c s o e r t :
  ev_upd c s o e r (cur s) t =
    if decide (cur s = r) then stat_start c (e_now e) (all_upd c s o (cur_upd c s o e t))
    else all_upd c s o (cur_upd c s o e t).
Proof. unfold ev_upd. rewrite (decide_True (P := cur s = cur s)) by done. done. Qed.

Lemma may_issue_valid c rs s o : wf_config c -> Inv c rs s -> may_issue c s o -> valid_op c s o.
Proof.
  intros Hwf Hi H. assert (Hx := inv_idx _ _ _ Hi).
  destruct o; cbn in *; try done; unfold cur in *; try lia.
  rewrite wrap_small by lia. lia.
Qed.

Lemma cur_lookup c rs s : Inv c rs s -> exists t, c_task s !! cur s = Some t /\ t_state t = READY.
Proof.
  intros Hi. assert (H := inv_cur _ _ _ Hi). unfold state_of in H.
  destruct (c_task s !! cur s) as [t|]; [|done]. cbn in H. injection H as H. eauto.
Qed.

Lemma cur_bounds c rs s : Inv c rs s ->
  exists t b e, c_task s !! cur s = Some t /\ stack_bounds c rs (cur s) = Some (b, e)
    /\ t_bot t = b /\ t_top t = e.
Proof.
  intros Hi. destruct (cur_lookup _ _ _ Hi) as (t & Ht & Hr).
  destruct (inv_slot _ _ _ Hi _ _ Ht) as (_ & H2 & H3 & H4 & _).
  destruct (stack_bounds c rs (cur s)) as [[b e]|] eqn:E.
  - exists t, b, e. destruct (H2 b e eq_refl). done.
  - exfalso. unfold stack_bounds in E. destruct (Nat.eqb_spec (cur s) (cfg_n c)) as [Ec|Ec].
    + destruct (task_init_idle c) as (b & n & Ei). rewrite Ei in E. done.
    + destruct (task_of c rs (cur s)) eqn:Et; [done|]. rewrite (H4 Ec eq_refl) in Hr. done.
Qed.

Lemma sp_ok_iff c rs s sp : Inv c rs s ->
  sp_ok c rs s sp <-> exists t, c_task s !! cur s = Some t /\ t_bot t <= sp < t_top t.
Proof.
  intros Hi. destruct (cur_bounds _ _ _ Hi) as (t & b & e & Ht & Hb & H1 & H2). unfold sp_ok. split.
  - intros (b' & e' & Hb' & Hr). rewrite Hb in Hb'. injection Hb' as <- <-. exists t. split; [done|]. lia.
  - intros (t' & Ht' & Hr). rewrite Ht in Ht'. injection Ht' as <-. exists b, e. split; [done|]. lia.
Qed.

(** C12 / C13 *)
Lemma no_stall c rs s o e : wf_config c -> regs_typed rs -> reachable c rs s ->
  may_issue c s o -> sp_ok c rs s (e_sp e) ->
  exists s' sp' ref', step c s (o, e) = Ok (s', sp', ref').
Proof.
  intros Hwf Ht Hr Hm Hsp. assert (Hi := reachable_inv _ _ _ Hwf Ht Hr).
  destruct (step_progress c rs s o e Hwf Hi (may_issue_valid _ _ _ _ Hwf Hi Hm)) as (s' & sp' & r' & H & _).
  - apply (sp_ok_iff c rs s); done.
  - eauto.
Qed.

Lemma bad_sp_stalls c rs s o e : wf_config c -> regs_typed rs -> reachable c rs s ->
  ~ sp_ok c rs s (e_sp e) -> step c s (o, e) = Fatal.
Proof.
  intros Hwf Ht Hr Hsp. assert (Hi := reachable_inv _ _ _ Hwf Ht Hr).
  destruct (cur_bounds _ _ _ Hi) as (t & b & e' & Htk & Hb & H1 & H2).
  assert (Hn : ~ (t_bot t <= e_sp e < t_top t)).
  { intros Hx. apply Hsp. apply (sp_ok_iff c rs s); [done|]. eauto. }
  assert (Hc : c_index s = Z.of_nat (cur s)) by (assert (Hx := inv_idx _ _ _ Hi); unfold cur; lia).
  assert (Hd : forall sc, do_syscall c s e sc = Fatal).
  { intros sc. unfold do_syscall. rewrite Hc, (get_task_ok _ _ _ Htk). cbn [rbind]. unfold assert_fatal.
    destruct (e_sp e >=? t_bot t) eqn:E1; [|done]. destruct (e_sp e <? t_top t) eqn:E2; [|done]. lia. }
  assert (Hdt : do_tick c s e = Fatal).
  { unfold do_tick. rewrite Hc, (get_task_ok _ _ _ Htk). cbn [rbind]. unfold assert_fatal.
    destruct (e_sp e >=? t_bot t) eqn:E1; [|done]. destruct (e_sp e <? t_top t) eqn:E2; [|done]. lia. }
  destruct o; cbn [step]; rewrite ?Hd, ?Hdt; unfold assert_fatal; try done; try (destruct (c_running s); done).
  destruct (_ >? 0), (c_running s); done.
Qed.

(** C02 *)
Lemma order_prio_mono c rs i j r r' : order c rs !! i = Some r -> order c rs !! j = Some r' -> (i <= j)%nat ->
  rg_prio r <= rg_prio r'.
Proof.
  intros Hi Hj Hij. assert (Hs := order_asc c rs). unfold asc in Hs.
  revert i j Hi Hj Hij. induction Hs as [|x l Hs IH Hf]; intros i j Hi Hj Hij; [done|].
  destruct i as [|i], j as [|j]; cbn in Hi, Hj; try lia.
  - injection Hi as ->. injection Hj as ->. lia.
  - injection Hi as ->. rewrite Forall_forall in Hf. apply Hf. eapply elem_of_list_lookup_2. exact Hj.
  - eapply IH; [exact Hi|exact Hj|lia].
Qed.

Lemma task_of_mono c rs i j r r' : (cfg_lite c = true -> True) ->
  task_of c rs i = Some r -> task_of c rs j = Some r' -> (i <= j)%nat -> rg_prio r <= rg_prio r'.
Proof.
  intros _ Hi Hj Hij. unfold task_of in *. destruct (cfg_lite c).
  - assert (G : forall p x, head (with_prio p rs) = Some x -> rg_prio x = p).
    { intros p x Hx. assert (x ∈ with_prio p rs) as Hin.
      { destruct (with_prio p rs); [done|]. cbn in Hx. injection Hx as ->. left. }
      apply elem_of_list_filter in Hin. tauto. }
    rewrite (G _ _ Hi), (G _ _ Hj). lia.
  - eapply order_prio_mono; done.
Qed.

Lemma tick_dispatch c rs s e s' sp' ref' : wf_config c -> regs_typed rs -> reachable c rs s ->
  step c s (Tick, e) = Ok (s', sp', ref') ->
  eligible c rs s' (cur s')
  /\ (forall pid, eligible c rs s' pid -> (cur s' <= pid)%nat)
  /\ (forall pid r r', eligible c rs s' pid -> task_of c rs (cur s') = Some r -> task_of c rs pid = Some r' ->
        rg_prio r <= rg_prio r').
Proof.
  intros Hwf Ht Hr Hst. assert (Hi := reachable_inv _ _ _ Hwf Ht Hr).
  destruct (po_disp _ _ _ _ _ _ _ _ (step_post _ _ _ _ _ _ _ _ Hwf Hi Hst)) as (_ & _ & Hel & Hmin).
  assert (Hle : forall pid, eligible c rs s' pid -> (cur s' <= pid)%nat).
  { intros pid Hp. destruct (decide (cur s' <= pid)%nat); [done|]. exfalso. apply (Hmin pid); [lia|done]. }
  split; [done|]. split; [done|].
  intros pid r r' Hp H1 H2. eapply task_of_mono; [done|exact H1|exact H2|]. apply Hle. done.
Qed.

(** Postpone flag over postpone-free histories. *)
Lemma postponed_false_step c rs s o e s' sp' ref' : wf_config c -> Inv c rs s ->
  step c s (o, e) = Ok (s', sp', ref') -> o <> Postpone -> c_postponed s = false -> c_postponed s' = false.
Proof.
  intros Hwf Hi Hst Ho Hf. assert (Hp := po_disp _ _ _ _ _ _ _ _ (step_post _ _ _ _ _ _ _ _ Hwf Hi Hst)).
  destruct o; try done; [apply Hp|..]; destruct Hp as (r1 & _ & _ & Hd); cbn [pending] in Hd; rewrite Hf in Hd;
    rewrite decide_False in Hd by (intros [_ ?]; done); destruct Hd as [Hd _]; rewrite Hd; destruct (decide _); done.
Qed.

Lemma postponed_false_run c rs evs : forall s s', wf_config c -> Inv c rs s -> postpone_free evs ->
  run c s evs = Ok s' -> c_postponed s = false -> c_postponed s' = false.
Proof.
  induction evs as [|[o e] evs IH]; intros s s' Hwf Hi Hpf Hr Hf; cbn [run] in Hr.
  - injection Hr as <-. done.
  - destruct (step c s (o, e)) as [[[s1 sp1] r1]| | |] eqn:E; cbn [rbind] in Hr; try done.
    inversion Hpf as [|? ? Ho Hpf']; subst. cbn [fst] in Hr.
    eapply IH; [done| |done|exact Hr|].
    + eapply step_inv; [| |exact E]; done.
    + eapply postponed_false_step; [| |exact E| |]; try done. intros ->. done.
Qed.

(** C03 *)
Lemma yield_next c rs s o e s' sp' ref' : wf_config c -> Inv c rs s ->
  step c s (o, e) = Ok (s', sp', ref') -> o <> Tick -> o <> Postpone -> c_postponed s = false ->
  least_from (eligible c rs s') (S (cur s)) (cur s').
Proof.
  intros Hwf Hi Hst Ho1 Ho2 Hf. assert (Hp := po_disp _ _ _ _ _ _ _ _ (step_post _ _ _ _ _ _ _ _ Hwf Hi Hst)).
  destruct o; try done; destruct Hp as (r1 & _ & Hl & Hd); cbn [pending] in Hd; rewrite Hf in Hd;
    rewrite decide_False in Hd by (intros [_ ?]; done); destruct Hd as [_ Hd]; rewrite Hd; done.
Qed.

Lemma yield_next_hist c rs s e s1 sp1 r1 evs s2 o e2 s3 sp3 r3 :
  wf_config c -> regs_typed rs -> reachable c rs s ->
  step c s (Tick, e) = Ok (s1, sp1, r1) ->
  run c s1 evs = Ok s2 -> postpone_free evs ->
  step c s2 (o, e2) = Ok (s3, sp3, r3) -> o <> Tick -> o <> Postpone ->
  least_from (eligible c rs s3) (S (cur s2)) (cur s3).
Proof.
  intros Hwf Ht Hr Hst Hrun Hpf Hst3 Ho1 Ho2. assert (Hi := reachable_inv _ _ _ Hwf Ht Hr).
  assert (Hi1 : Inv c rs s1) by (eapply step_inv; [| |exact Hst]; done).
  assert (Hf1 : c_postponed s1 = false).
  { apply (po_disp _ _ _ _ _ _ _ _ (step_post _ _ _ _ _ _ _ _ Hwf Hi Hst)). }
  eapply yield_next; [done| |exact Hst3|done|done|].
  - eapply run_inv; [done|exact Hi1|exact Hrun].
  - eapply postponed_false_run; [done|exact Hi1|done|exact Hrun|done].
Qed.

(** C04 *)
Lemma cur_increases c rs evs : forall s s', wf_config c -> Inv c rs s -> c_postponed s = false ->
  tick_free evs -> postpone_free evs -> run c s evs = Ok s' ->
  evs <> [] -> (cur s < cur s')%nat.
Proof.
  induction evs as [|[o e] evs IH]; intros s s' Hwf Hi Hf Htf Hpf Hr Hne; cbn [run] in Hr; [done|].
  destruct (step c s (o, e)) as [[[s1 sp1] r1]| | |] eqn:E; cbn [rbind fst] in Hr; try done.
  inversion Htf as [|? ? Ho Htf']; subst. inversion Hpf as [|? ? Ho2 Hpf']; subst.
  assert (Hnt : o <> Tick) by (intros ->; done). assert (Hnp : o <> Postpone) by (intros ->; done).
  destruct (yield_next c rs s o e s1 sp1 r1 Hwf Hi E Hnt Hnp Hf) as (Hlt & _).
  destruct evs as [|ev evs]; [cbn in Hr; injection Hr as <-; lia|].
  assert (cur s1 < cur s')%nat; [|lia].
  eapply IH; try done.
  - eapply step_inv; [| |exact E]; done.
  - eapply postponed_false_step; [| |exact E| |]; done.
Qed.

Lemma strictly_descending c rs s e s1 sp1 r1 evs1 s2 evs2 s3 :
  wf_config c -> regs_typed rs -> reachable c rs s ->
  step c s (Tick, e) = Ok (s1, sp1, r1) ->
  run c s1 evs1 = Ok s2 -> run c s2 evs2 = Ok s3 ->
  tick_free (evs1 ++ evs2) -> postpone_free (evs1 ++ evs2) -> evs2 <> [] ->
  (cur s2 < cur s3)%nat.
Proof.
  intros Hwf Ht Hr Hst Hr1 Hr2 Htf Hpf Hne. assert (Hi := reachable_inv _ _ _ Hwf Ht Hr).
  assert (Hi1 : Inv c rs s1) by (eapply step_inv; [| |exact Hst]; done).
  assert (Hf1 : c_postponed s1 = false).
  { apply (po_disp _ _ _ _ _ _ _ _ (step_post _ _ _ _ _ _ _ _ Hwf Hi Hst)). }
  apply Forall_app in Htf as [Htf1 Htf2]. apply Forall_app in Hpf as [Hpf1 Hpf2].
  eapply cur_increases; [done| | |exact Htf2|exact Hpf2|exact Hr2|done].
  - eapply run_inv; [done|exact Hi1|exact Hr1].
  - eapply postponed_false_run; [done|exact Hi1|exact Hpf1|exact Hr1|done].
Qed.

(** C08: a sleeping task. *)
Definition asleep (s : core) (pid : nat) (wk : Z) : Prop :=
  exists t, c_task s !! pid = Some t /\ t_state t = SLEEP /\ t_tick t = wk.

Lemma asleep_step c rs s o e s' sp' ref' pid wk : wf_config c -> Inv c rs s ->
  step c s (o, e) = Ok (s', sp', ref') -> asleep s pid wk ->
  (o = Tick -> wk <> c_tick s') -> asleep s' pid wk /\ cur s' <> pid.
Proof.
  intros Hwf Hi Hst (t & Ht & Hs & Hw) Hne.
  assert (Hp := step_post _ _ _ _ _ _ _ _ Hwf Hi Hst).
  assert (Hi' : Inv c rs s') by (eapply step_inv; [| |exact Hst]; done).
  assert (Hpc : pid <> cur s).
  { intros ->. destruct (cur_lookup _ _ _ Hi) as (t' & Ht' & Hr). congruence. }
  assert (Has : asleep s' pid wk).
  { exists (ev_upd c s o e (cur s') pid t). split; [rewrite (po_task _ _ _ _ _ _ _ _ Hp), Ht; done|].
    rewrite ev_upd_other by done.
    assert (G : t_state (all_upd c s o t) = SLEEP /\ t_tick (all_upd c s o t) = wk).
    { destruct o; cbn [all_upd]; try done. rewrite tickupd_state, tickupd_tick.
      split; [|done]. unfold wake. rewrite Hs. rewrite bool_decide_eq_true_2 by done. cbn [andb].
      rewrite Hw. assert (Hk := po_tick _ _ _ _ _ _ _ _ Hp). cbn in Hk. rewrite <- Hk.
      destruct (Z.eqb_spec wk (c_tick s')); [|done]. exfalso. apply Hne; done. }
    destruct (decide (pid = cur s')); rewrite ?stat_start_state, ?stat_start_tick; done. }
  split; [done|]. intros Hc. destruct Has as (u & Hu & Hus & _).
  destruct (cur_lookup _ _ _ Hi') as (t' & Ht' & Hr). rewrite Hc in Ht'. congruence.
Qed.

Lemma asleep_wake c rs s e s' sp' ref' pid wk : wf_config c -> Inv c rs s ->
  step c s (Tick, e) = Ok (s', sp', ref') -> asleep s pid wk -> wk = c_tick s' ->
  state_of s' pid = Some READY.
Proof.
  intros Hwf Hi Hst (t & Ht & Hs & Hw) Heq.
  assert (Hp := step_post _ _ _ _ _ _ _ _ Hwf Hi Hst).
  assert (Hpc : pid <> cur s).
  { intros ->. destruct (cur_lookup _ _ _ Hi) as (t' & Ht' & Hr). congruence. }
  unfold state_of. rewrite (po_task _ _ _ _ _ _ _ _ Hp), Ht. cbn. f_equal.
  rewrite ev_upd_other by done.
  assert (G : t_state (all_upd c s Tick t) = READY).
  { cbn [all_upd]. rewrite tickupd_state. unfold wake. rewrite Hs, bool_decide_eq_true_2 by done. cbn [andb].
    assert (Hk := po_tick _ _ _ _ _ _ _ _ Hp). cbn in Hk. rewrite <- Hk, Hw, Heq, Z.eqb_refl. done. }
  destruct (decide _); rewrite ?stat_start_state; done.
Qed.

Lemma ticks_cons ev evs : ticks (ev :: evs) = (if is_tick ev then 1 else 0) + ticks evs.
Proof.
  unfold ticks. rewrite filter_cons. destruct (is_tick ev) eqn:E.
  - rewrite decide_True by done. cbn [length]. lia.
  - rewrite decide_False by done. lia.
Qed.
Lemma ticks_app evs1 evs2 : ticks (evs1 ++ evs2) = ticks evs1 + ticks evs2.
Proof. unfold ticks. rewrite filter_app, app_length. lia. Qed.
Lemma ticks_nonneg evs : 0 <= ticks evs.
Proof. unfold ticks. lia. Qed.

Lemma wrap_add w a b : wrap w (wrap w a + b) = wrap w (a + b).
Proof. unfold wrap. apply Zplus_mod_idemp_l. Qed.

Lemma step_tick_value c rs s ev s' sp' ref' : wf_config c -> Inv c rs s ->
  step c s ev = Ok (s', sp', ref') ->
  c_tick s' = wrap (cfg_tbits c) (c_tick s + (if is_tick ev then 1 else 0)).
Proof.
  intros Hwf Hi Hst. destruct ev as [o e].
  assert (Hk := po_tick _ _ _ _ _ _ _ _ (step_post _ _ _ _ _ _ _ _ Hwf Hi Hst)).
  destruct o; cbn [is_tick fst]; try (rewrite Z.add_0_r, wrap_small by apply (inv_tick _ _ _ Hi)); done.
Qed.

Lemma run_tick_value c rs evs : forall s s', wf_config c -> Inv c rs s -> run c s evs = Ok s' ->
  c_tick s' = wrap (cfg_tbits c) (c_tick s + ticks evs).
Proof.
  induction evs as [|[o e] evs IH]; intros s s' Hwf Hi Hr; cbn [run] in Hr.
  - injection Hr as <-. change (ticks []) with 0. rewrite Z.add_0_r, wrap_small; [done|]. apply (inv_tick _ _ _ Hi).
  - destruct (step c s (o, e)) as [[[s1 sp1] r1]| | |] eqn:E; cbn [rbind fst] in Hr; try done.
    rewrite (IH s1 s'); [|done|eapply step_inv; [| |exact E]; done|done].
    rewrite (step_tick_value c rs s _ s1 sp1 r1) by done. rewrite wrap_add, ticks_cons. f_equal. lia.
Qed.

Lemma wrap_neq w a k d : 0 < w -> 0 <= k < d -> d < 2 ^ w -> wrap w (a + d) <> wrap w (a + k).
Proof.
  intros Hw Hk Hd E. unfold wrap in E.
  assert (Hp : 0 < 2 ^ w) by lia.
  assert ((d - k) mod 2 ^ w = 0) as G.
  { replace (d - k) with ((a + d) - (a + k)) by lia. rewrite Zminus_mod, E, Z.sub_diag. apply Z.mod_0_l. lia. }
  rewrite Z.mod_small in G by lia. lia.
Qed.

Lemma asleep_run c rs evs : forall s s' pid d, wf_config c -> Inv c rs s ->
  asleep s pid (wrap (cfg_tbits c) (c_tick s + d)) -> d < 2 ^ cfg_tbits c ->
  ticks evs < d -> run c s evs = Ok s' ->
  asleep s' pid (wrap (cfg_tbits c) (c_tick s + d)) /\ cur s' <> pid.
Proof.
  induction evs as [|[o e] evs IH]; intros s s' pid d Hwf Hi Has Hd Hk Hr; cbn [run] in Hr.
  - injection Hr as <-. split; [done|]. intros Hc. destruct Has as (u & Hu & Hus & _).
    destruct (cur_lookup _ _ _ Hi) as (t' & Ht' & Hr'). rewrite Hc in Ht'. congruence.
  - destruct (step c s (o, e)) as [[[s1 sp1] r1]| | |] eqn:E; cbn [rbind fst] in Hr; try done.
    assert (Hi1 : Inv c rs s1) by (eapply step_inv; [| |exact E]; done).
    assert (Hkv := step_tick_value c rs s _ s1 sp1 r1 Hwf Hi E).
    rewrite ticks_cons in Hk. assert (Hnn := ticks_nonneg evs).
    set (b := if is_tick (o, e) then 1 else 0) in *.
    assert (Heq : wrap (cfg_tbits c) (c_tick s + d) = wrap (cfg_tbits c) (c_tick s1 + (d - b))).
    { rewrite Hkv, wrap_add. f_equal. lia. }
    destruct (asleep_step c rs s o e s1 sp1 r1 pid _ Hwf Hi E Has) as [Has1 _].
    { intros ->. rewrite Hkv. cbn in b. apply wrap_neq; [apply Hwf| |done]. subst b. cbn in *. lia. }
    rewrite Heq in *. apply (IH s1 s' pid (d - b)); try done; unfold b in *; destruct (is_tick _); lia.
Qed.

Lemma asleep_exact c rs s pid d evs s' : wf_config c -> Inv c rs s ->
  asleep s pid (wrap (cfg_tbits c) (c_tick s + d)) -> 0 < d < 2 ^ cfg_tbits c ->
  run c s evs = Ok s' ->
  (ticks evs < d -> state_of s' pid = Some SLEEP /\ cur s' <> pid)
  /\ (forall evs' e, evs = evs' ++ [(Tick, e)] -> ticks evs = d ->
       state_of s' pid = Some READY /\ c_tick s' = wrap (cfg_tbits c) (c_tick s + d)).
Proof.
  intros Hwf Hi Has Hd Hr. split.
  - intros Hk. destruct (asleep_run c rs evs s s' pid d Hwf Hi Has) as [(t & Ht & Hs & _) Hc]; try done; [lia|].
    split; [|done]. unfold state_of. rewrite Ht. cbn. congruence.
  - intros evs' e -> Hk. rewrite run_app in Hr.
    destruct (run c s evs') as [s1| | |] eqn:E1; cbn [rbind] in Hr; try done.
    rewrite ticks_app in Hk. change (ticks [(Tick, e)]) with 1 in Hk.
    destruct (asleep_run c rs evs' s s1 pid d Hwf Hi Has) as [Has1 _]; try done; [lia|lia|].
    cbn [run] in Hr. destruct (step c s1 (Tick, e)) as [[[s2 sp2] r2]| | |] eqn:E; cbn [rbind fst] in Hr; try done.
    injection Hr as <-.
    assert (Hi1 : Inv c rs s1) by (eapply run_inv; [done|exact Hi|exact E1]).
    assert (Hkv := step_tick_value c rs s1 _ s2 sp2 r2 Hwf Hi1 E). cbn in Hkv.
    assert (Hk1 := run_tick_value c rs evs' s s1 Hwf Hi E1).
    assert (Ht : c_tick s2 = wrap (cfg_tbits c) (c_tick s + d)).
    { rewrite Hkv, Hk1, wrap_add. f_equal. lia. }
    split; [|done]. eapply asleep_wake; [done|exact Hi1|exact E|exact Has1|]. done.
Qed.

Lemma sleep_asleep c rs s d e s1 sp1 r1 : wf_config c -> Inv c rs s -> 0 < d < 2 ^ cfg_tbits c ->
  step c s (Sleep d, e) = Ok (s1, sp1, r1) ->
  asleep s1 (cur s) (wrap (cfg_tbits c) (c_tick s1 + d)).
Proof.
  intros Hwf Hi Hd Hst. assert (Hp := step_post _ _ _ _ _ _ _ _ Hwf Hi Hst).
  destruct (cur_lookup _ _ _ Hi) as (t & Ht & Hr).
  exists (ev_upd c s (Sleep d) e (cur s1) (cur s) t).
  split; [rewrite (po_task _ _ _ _ _ _ _ _ Hp), Ht; done|].
  rewrite (po_tick _ _ _ _ _ _ _ _ Hp).
  rewrite ev_upd_self. cbn [all_upd cur_upd].
  rewrite (wrap_small _ d) by lia. unfold syscall_sleep.
  destruct (d >? 0) eqn:E; [|lia].
  destruct (decide _); rewrite ?stat_start_state, ?stat_start_tick, stat_finish_state, stat_finish_tick; done.
Qed.

Lemma sleep_exact c rs s d e s1 sp1 r1 evs s2 : wf_config c -> regs_typed rs -> reachable c rs s ->
  0 < d < 2 ^ cfg_tbits c ->
  step c s (Sleep d, e) = Ok (s1, sp1, r1) -> run c s1 evs = Ok s2 ->
  (ticks evs < d -> state_of s2 (cur s) = Some SLEEP /\ cur s2 <> cur s)
  /\ (forall evs' e', evs = evs' ++ [(Tick, e')] -> ticks evs = d -> state_of s2 (cur s) = Some READY).
Proof.
  intros Hwf Ht Hr Hd Hst Hrun. assert (Hi := reachable_inv _ _ _ Hwf Ht Hr).
  assert (Has := sleep_asleep c rs s d e s1 sp1 r1 Hwf Hi Hd Hst).
  assert (Hi1 : Inv c rs s1) by (eapply step_inv; [| |exact Hst]; done).
  destruct (asleep_exact c rs s1 (cur s) d evs s2 Hwf Hi1 Has Hd Hrun) as [H1 H2].
  split; [done|]. intros evs' e' He Hk. apply (H2 evs' e' He Hk).
Qed.

(** C09 *)
Lemma sleep_until_asleep c rs s ref period e s1 sp1 r1 : wf_config c -> Inv c rs s ->
  0 <= ref < 2 ^ cfg_tbits c -> 0 < period < 2 ^ cfg_tbits c ->
  (c_tick s - ref) mod 2 ^ cfg_tbits c < period ->
  step c s (SleepUntil ref period, e) = Ok (s1, sp1, r1) ->
  r1 = (ref + period) mod 2 ^ cfg_tbits c /\
  asleep s1 (cur s) (wrap (cfg_tbits c) (c_tick s1 + (period - (c_tick s - ref) mod 2 ^ cfg_tbits c))) /\
  r1 = wrap (cfg_tbits c) (c_tick s1 + (period - (c_tick s - ref) mod 2 ^ cfg_tbits c)).
Proof.
  intros Hwf Hi Href Hper Hel Hst. assert (Hp := step_post _ _ _ _ _ _ _ _ Hwf Hi Hst).
  destruct (cur_lookup _ _ _ Hi) as (t & Ht & Hr).
  assert (Hro := po_ref _ _ _ _ _ _ _ _ Hp). cbn [ref_out] in Hro. rewrite Ht in Hro.
  rewrite (wrap_small _ ref), (wrap_small _ period) in Hro by lia.
  assert (Hsu : forall u, syscall_sleep_until c s u ref period =
     (set_miss (set_state (set_ttick u (wrap (cfg_tbits c) (ref + period))) SLEEP) 0, wrap (cfg_tbits c) (ref + period))).
  { intros u. unfold syscall_sleep_until. unfold wrap at 1.
    destruct (Z.ltb_spec ((c_tick s - ref) mod 2 ^ cfg_tbits c) period); [done|lia]. }
  rewrite Hsu in Hro. cbn [snd] in Hro.
  assert (Hk := po_tick _ _ _ _ _ _ _ _ Hp). cbn in Hk.
  assert (Hp2 : 0 < 2 ^ cfg_tbits c) by lia.
  assert (Heq : wrap (cfg_tbits c) (ref + period)
     = wrap (cfg_tbits c) (c_tick s1 + (period - (c_tick s - ref) mod 2 ^ cfg_tbits c))).
  { rewrite Hk. unfold wrap.
    replace (c_tick s + (period - (c_tick s - ref) mod 2 ^ cfg_tbits c))
      with ((c_tick s + period) - (c_tick s - ref) mod 2 ^ cfg_tbits c) by lia.
    rewrite Zminus_mod_idemp_r. f_equal. lia. }
  split; [done|]. split; [|congruence].
  exists (ev_upd c s (SleepUntil ref period) e (cur s1) (cur s) t).
  split; [rewrite (po_task _ _ _ _ _ _ _ _ Hp), Ht; done|].
  rewrite ev_upd_self. cbn [all_upd cur_upd].
  rewrite (wrap_small _ ref), (wrap_small _ period) by lia. rewrite Hsu. cbn [fst].
  rewrite <- Heq.
  destruct (decide _); rewrite ?stat_start_state, ?stat_start_tick, stat_finish_state, stat_finish_tick; done.
Qed.

Lemma sleep_until_exact c rs s ref period e s1 sp1 ref' evs s2 : wf_config c -> regs_typed rs -> reachable c rs s ->
  0 <= ref < 2 ^ cfg_tbits c -> 0 < period < 2 ^ cfg_tbits c ->
  let elapsed := (c_tick s - ref) mod 2 ^ cfg_tbits c in
  elapsed < period ->
  step c s (SleepUntil ref period, e) = Ok (s1, sp1, ref') -> run c s1 evs = Ok s2 ->
  ref' = (ref + period) mod 2 ^ cfg_tbits c
  /\ (ticks evs < period - elapsed -> state_of s2 (cur s) = Some SLEEP /\ cur s2 <> cur s)
  /\ (forall evs' e', evs = evs' ++ [(Tick, e')] -> ticks evs = period - elapsed ->
        state_of s2 (cur s) = Some READY /\ c_tick s2 = ref').
Proof.
  intros Hwf Ht Hr Href Hper elapsed Hel Hst Hrun. assert (Hi := reachable_inv _ _ _ Hwf Ht Hr).
  destruct (sleep_until_asleep c rs s ref period e s1 sp1 ref' Hwf Hi Href Hper Hel Hst) as (H1 & Has & H2).
  assert (Hi1 : Inv c rs s1) by (eapply step_inv; [| |exact Hst]; done).
  assert (Heb : 0 <= elapsed < 2 ^ cfg_tbits c) by (apply Z.mod_pos_bound; lia).
  destruct (asleep_exact c rs s1 (cur s) (period - elapsed) evs s2 Hwf Hi1 Has) as [H3 H4]; [lia|done|].
  split; [done|]. split; [done|]. intros evs' e' He Hk.
  destruct (H4 evs' e' He Hk) as [H5 H6]. split; [done|]. rewrite H6, H2. done.
Qed.

Lemma no_drift c rs period ref k refk : wf_config c -> regs_typed rs ->
  0 <= ref < 2 ^ cfg_tbits c -> 0 < period < 2 ^ cfg_tbits c ->
  on_time c rs period ref k refk -> refk = (ref + Z.of_nat k * period) mod 2 ^ cfg_tbits c.
Proof.
  intros Hwf Ht Href Hper H. induction H as [|ref k refk s e s' sp' refk' H IH Hr Hel Hst].
  - rewrite Z.mul_0_l, Z.add_0_r, Z.mod_small by done. done.
  - specialize (IH Href). assert (Hi := reachable_inv _ _ _ Hwf Ht Hr).
    assert (Hrk : 0 <= refk < 2 ^ cfg_tbits c) by (rewrite IH; apply Z.mod_pos_bound; lia).
    destruct (sleep_until_asleep c rs s refk period e s' sp' refk' Hwf Hi Hrk Hper Hel Hst) as (H1 & _).
    rewrite H1, IH, Zplus_mod_idemp_l. f_equal. lia.
Qed.

(** C10: what a late call really does. *)
Lemma late_rule c rs s ref period e s1 sp1 ref' t : wf_config c -> regs_typed rs -> reachable c rs s ->
  0 <= ref < 2 ^ cfg_tbits c -> 0 < period < 2 ^ cfg_tbits c ->
  period <= (c_tick s - ref) mod 2 ^ cfg_tbits c ->
  c_task s !! cur s = Some t ->
  step c s (SleepUntil ref period, e) = Ok (s1, sp1, ref') ->
  state_of s1 (cur s) = Some READY
  /\ (exists t', c_task s1 !! cur s = Some t' /\ t_miss t' = (t_miss t + 1) mod 2 ^ cfg_szbits c)
  /\ ref' = (if cfg_deadlock c <? (t_miss t + 1) mod 2 ^ cfg_szbits c then c_tick s else ref).
Proof.
  intros Hwf Ht Hr Href Hper Hel Htk Hst. assert (Hi := reachable_inv _ _ _ Hwf Ht Hr).
  assert (Hp := step_post _ _ _ _ _ _ _ _ Hwf Hi Hst).
  assert (Hro := po_ref _ _ _ _ _ _ _ _ Hp). cbn [ref_out] in Hro. rewrite Htk in Hro.
  rewrite (wrap_small _ ref), (wrap_small _ period) in Hro by lia.
  assert (Hst' : t_state t = READY).
  { destruct (cur_lookup _ _ _ Hi) as (u & Hu & Hur). congruence. }
  assert (Htask : c_task s1 !! cur s = Some (ev_upd c s (SleepUntil ref period) e (cur s1) (cur s) t)).
  { rewrite (po_task _ _ _ _ _ _ _ _ Hp), Htk. done. }
  assert (Hlate : forall u, syscall_sleep_until c s u ref period =
     let t := set_miss u (wrap (cfg_szbits c) (t_miss u + 1)) in
     (if cfg_lite c then t else set_smiss t (wrap (cfg_szbits c) (t_smiss t + 1)),
      if t_miss t >? cfg_deadlock c then c_tick s else ref)).
  { intros u. unfold syscall_sleep_until. cbv zeta. unfold wrap at 1.
    destruct (Z.ltb_spec ((c_tick s - ref) mod 2 ^ cfg_tbits c) period); [lia|]. done. }
  split; [|split].
  - unfold state_of. rewrite Htask. cbn. f_equal. rewrite ev_upd_self.
    cbn [all_upd cur_upd]. rewrite (wrap_small _ ref), (wrap_small _ period) by lia.
    rewrite Hlate. cbv zeta. cbn [fst].
    destruct (decide _); rewrite ?stat_start_state, stat_finish_state; destruct (cfg_lite c); done.
  - eexists. split; [exact Htask|]. rewrite ev_upd_self.
    cbn [all_upd cur_upd]. rewrite (wrap_small _ ref), (wrap_small _ period) by lia.
    rewrite Hlate. cbv zeta. cbn [fst].
    destruct (decide _); rewrite ?stat_start_miss, stat_finish_miss; destruct (cfg_lite c); done.
  - rewrite Hro. rewrite Hlate. cbv zeta. cbn [snd t_miss set_miss].
    unfold wrap. rewrite Z.gtb_ltb. done.
Qed.

(** C11 *)
Definition sp_map_ok (c : config) (rs : list reg) (s : core) (m : nat -> option Z) : Prop :=
  forall pid t, c_task s !! pid = Some t -> t_state t <> EMPTY \/ pid = cur s -> m pid = Some (t_sp t).

Lemma ev_upd_sp c s o e r i t : t_sp (ev_upd c s o e r i t) = if decide (i = cur s) then e_sp e else t_sp t.
Proof.
  unfold ev_upd.
  assert (H1 : t_sp (if decide (i = cur s) then cur_upd c s o e t else t) = if decide (i = cur s) then e_sp e else t_sp t).
  { destruct (decide _); [|done]. destruct o; cbn [cur_upd]; try (rewrite stat_finish_sp); try done.
    - unfold syscall_sleep. destruct (_ >? _); done.
    - unfold syscall_sleep_until. destruct (_ <? _); [done|]. cbn. destruct (cfg_lite c); done. }
  set (t1 := if decide (i = cur s) then _ else _) in *.
  assert (H2 : t_sp (all_upd c s o t1) = t_sp t1) by (destruct o; cbn [all_upd]; rewrite ?tickupd_sp; done).
  destruct (decide (i = r)); rewrite ?stat_start_sp, H2; done.
Qed.

Lemma ev_upd_empty c rs s o e r i t s' sp' ref' : wf_config c -> Inv c rs s ->
  step c s (o, e) = Ok (s', sp', ref') -> c_task s !! i = Some t ->
  t_state (ev_upd c s o e r i t) <> EMPTY -> t_state t <> EMPTY.
Proof.
  intros Hwf Hi Hst Ht Hne He. apply Hne.
  assert (i <> cur s).
  { intros ->. destruct (cur_lookup _ _ _ Hi) as (u & Hu & Hur). congruence. }
  rewrite ev_upd_other by done.
  assert (G : t_state (all_upd c s o t) = EMPTY).
  { destruct o; cbn [all_upd]; try done. rewrite tickupd_state. unfold wake. rewrite He.
    rewrite bool_decide_eq_false_2 by done. done. }
  destruct (decide _); rewrite ?stat_start_state; done.
Qed.

Lemma sp_map_step c rs s o e s' sp' ref' m : wf_config c -> Inv c rs s ->
  step c s (o, e) = Ok (s', sp', ref') -> sp_map_ok c rs s m ->
  sp_map_ok c rs s' (fun pid => if Nat.eqb pid (cur s) then Some (e_sp e) else m pid).
Proof.
  intros Hwf Hi Hst Hm pid t Ht Hne. assert (Hp := step_post _ _ _ _ _ _ _ _ Hwf Hi Hst).
  assert (Hi' : Inv c rs s') by (eapply step_inv; [| |exact Hst]; done).
  assert (Hne' : t_state t <> EMPTY).
  { destruct Hne as [Hne| ->]; [done|]. destruct (cur_lookup _ _ _ Hi') as (u & Hu & Hur). congruence. }
  rewrite (po_task _ _ _ _ _ _ _ _ Hp) in Ht.
  destruct (c_task s !! pid) as [u|] eqn:Eu; [|done]. cbn in Ht. injection Ht as <-.
  rewrite ev_upd_sp. destruct (Nat.eqb_spec pid (cur s)) as [->|Hpc].
  - rewrite decide_True by done. done.
  - rewrite decide_False by done. apply Hm; [done|]. left. exact (ev_upd_empty _ _ _ _ _ _ _ _ _ _ _ Hwf Hi Hst Eu Hne').
Qed.

Lemma sp_map_run c rs evs : forall s s' m, wf_config c -> Inv c rs s ->
  run c s evs = Ok s' -> sp_map_ok c rs s m -> sp_map_ok c rs s' (saved_sp c s evs m).
Proof.
  induction evs as [|[o e] evs IH]; intros s s' m Hwf Hi Hr Hm; cbn [run saved_sp] in *.
  - injection Hr as <-. done.
  - destruct (step c s (o, e)) as [[[s1 sp1] r1]| | |] eqn:E; cbn [rbind fst] in Hr; try done.
    cbn [snd]. eapply IH; [done| |exact Hr|].
    + eapply step_inv; [| |exact E]; done.
    + eapply sp_map_step; [done|done|exact E|done].
Qed.

Lemma sp_map_boot c tmp0 rs s : wf_config c -> regs_typed rs -> boot c tmp0 rs = Ok s ->
  sp_map_ok c rs s (initial_sp c rs).
Proof.
  intros Hwf Ht Hb. destruct (idle_reg_some c) as [ir Hir].
  assert (Hirsp : rg_sp ir = cfg_idlesp c).
  { unfold idle_reg in Hir. destruct (task_init_idle c) as (b & n & E). rewrite E in Hir. injection Hir as <-. done. }
  intros pid t Htk Hne.
  assert (Hne' : t_state t <> EMPTY).
  { destruct Hne as [Hne| ->]; [done|]. assert (Hi := inv_boot _ _ _ _ Hwf Ht Hb).
    destruct (cur_lookup _ _ _ Hi) as (u & Hu & Hur). congruence. }
  unfold initial_sp, task_of. destruct (cfg_lite c) eqn:Hl.
  - rewrite (boot_lite c tmp0 rs ir) in Hb by done. destruct (decide _) as [Hg|]; [|done]. injection Hb as <-.
    cbn in Htk. destruct (Nat.eqb_spec pid (cfg_n c)) as [->|Hn].
    + rewrite lookup_app_r in Htk by (rewrite lite_slots_length; lia).
      rewrite lite_slots_length, Nat.sub_diag in Htk. injection Htk as <-. cbn. congruence.
    + assert (Hlt := lookup_lt_Some _ _ _ Htk). rewrite app_length, lite_slots_length in Hlt. cbn in Hlt.
      rewrite lookup_app_l in Htk by (rewrite lite_slots_length; lia).
      rewrite lite_slots_lookup, decide_True in Htk by lia. injection Htk as <-.
      destruct (head _); done.
  - rewrite (boot_full c tmp0 rs ir) in Hb by done. destruct (decide _) as [Hg|]; [|done]. injection Hb as <-.
    cbn in Htk. assert (Hlen : length (sorted_slots c rs) = cfg_n c) by (apply user_slots_length, good_order, Hg).
    destruct (Nat.eqb_spec pid (cfg_n c)) as [->|Hn].
    + rewrite lookup_app_r in Htk by (rewrite arr_length; lia).
      rewrite arr_length, Hlen, Nat.sub_diag in Htk. injection Htk as <-. cbn. congruence.
    + assert (Hlt := lookup_lt_Some _ _ _ Htk). rewrite app_length, arr_length, Hlen in Hlt. cbn in Hlt.
      rewrite lookup_app_l in Htk by (rewrite arr_length; lia). rewrite arr_lookup in Htk.
      destruct (sorted_slots c rs !! pid) as [u|] eqn:Eu; [|done]. cbn in Htk. injection Htk as <-.
      unfold sorted_slots, user_slots in Eu. destruct (order c rs !! pid) as [r|] eqn:Eo.
      * assert (Hor := lookup_lt_Some _ _ _ Eo). rewrite lookup_app_l in Eu by (rewrite map_length; lia).
        rewrite list_lookup_fmap, Eo in Eu. cbn in Eu. injection Eu as <-. done.
      * apply lookup_ge_None in Eo. rewrite lookup_app_r in Eu by (rewrite map_length; lia).
        apply lookup_replicate in Eu as [-> _]. done.
Qed.

Lemma context_integrity c tmp0 rs s0 evs s o e s' sp' ref' : wf_config c -> regs_typed rs ->
  boot c tmp0 rs = Ok s0 -> run c s0 evs = Ok s -> step c s (o, e) = Ok (s', sp', ref') ->
  saved_sp c s0 (evs ++ [(o, e)]) (initial_sp c rs) (cur s') = Some sp'.
Proof.
  intros Hwf Ht Hb Hr Hst. assert (Hi0 := inv_boot _ _ _ _ Hwf Ht Hb).
  assert (Hr' : run c s0 (evs ++ [(o, e)]) = Ok s').
  { rewrite run_app, Hr. cbn [rbind run]. rewrite Hst. done. }
  assert (Hm := sp_map_run c rs _ s0 s' _ Hwf Hi0 Hr' (sp_map_boot _ _ _ _ Hwf Ht Hb)).
  assert (Hi : Inv c rs s) by (eapply run_inv; [done|exact Hi0|exact Hr]).
  destruct (po_sp _ _ _ _ _ _ _ _ (step_post _ _ _ _ _ _ _ _ Hwf Hi Hst)) as (t & Htk & ->).
  apply Hm; [done|]. right. done.
Qed.

(** Eligibility only shrinks between ticks. *)
Lemma eligible_step_back c rs s o e s' sp' ref' pid : wf_config c -> Inv c rs s ->
  step c s (o, e) = Ok (s', sp', ref') -> o <> Tick -> eligible c rs s' pid -> eligible c rs s pid.
Proof.
  intros Hwf Hi Hst Ho [Hr Htn]. assert (Hp := step_post _ _ _ _ _ _ _ _ Hwf Hi Hst).
  assert (Hk := po_tick _ _ _ _ _ _ _ _ Hp).
  assert (Hk' : c_tick s' = c_tick s) by (destruct o; done).
  split; [|rewrite <- Hk'; done].
  unfold ready, state_of in *. rewrite (po_task _ _ _ _ _ _ _ _ Hp) in Hr.
  destruct (c_task s !! pid) as [t|] eqn:Et; [|done]. cbn in Hr |- *. f_equal. injection Hr as Hr.
  destruct (decide (pid = cur s)) as [->|Hpc].
  - destruct (cur_lookup _ _ _ Hi) as (u & Hu & Hur). congruence.
  - rewrite ev_upd_other in Hr by done.
    assert (Hau : all_upd c s o t = t) by (destruct o; done). rewrite Hau in Hr.
    destruct (decide _); rewrite ?stat_start_state in Hr; done.
Qed.

(** C14 *)
Lemma eligible_other_step c rs s o e s' sp' ref' pid : wf_config c -> Inv c rs s ->
  step c s (o, e) = Ok (s', sp', ref') -> o <> Tick -> pid <> cur s -> eligible c rs s pid -> eligible c rs s' pid.
Proof.
  intros Hwf Hi Hst Ho Hpc [Hr Htn]. assert (Hp := step_post _ _ _ _ _ _ _ _ Hwf Hi Hst).
  assert (Hk := po_tick _ _ _ _ _ _ _ _ Hp).
  assert (Hk' : c_tick s' = c_tick s) by (destruct o; done).
  split; [|rewrite Hk'; done].
  unfold ready, state_of in *. rewrite (po_task _ _ _ _ _ _ _ _ Hp).
  destruct (c_task s !! pid) as [t|] eqn:Et; [|done]. cbn in Hr |- *. f_equal. injection Hr as Hr.
  rewrite ev_upd_other by done.
  assert (Hau : all_upd c s o t = t) by (destruct o; done). rewrite Hau.
  destruct (decide _); rewrite ?stat_start_state; done.
Qed.

Definition must_run (c : config) (rs : list reg) (s : core) (pid : nat) : Prop :=
  (pid < cfg_n c)%nat /\ eligible c rs s pid /\ (c_postponed s = true \/ (cur s < pid)%nat).

Lemma must_run_disp c rs s' k pid b r1 :
  (pid < cfg_n c)%nat -> eligible c rs s' pid ->
  least_from (eligible c rs s') (S k) r1 ->
  (if decide (r1 = cfg_n c /\ b = true)
   then c_postponed s' = false /\ least_from (eligible c rs s') 0 (cur s')
   else c_postponed s' = (if decide (r1 = cfg_n c) then false else b) /\ cur s' = r1) ->
  (b = true \/ (k < pid)%nat) ->
  cur s' = pid \/ (c_postponed s' = true \/ (cur s' < pid)%nat).
Proof.
  intros Hn Hel (Hl1 & _ & Hl2) Hd Hc.
  destruct (decide (r1 = cfg_n c /\ b = true)) as [[-> ->]|Hnd].
  - destruct Hd as [_ (_ & _ & Hmin)].
    destruct (decide (cur s' = pid)); [left; done|]. right. right.
    destruct (decide (cur s' < pid)%nat); [done|]. exfalso. apply (Hmin pid); [lia|done].
  - destruct Hd as [Hpf ->]. destruct Hc as [->|Hk].
    + assert (r1 <> cfg_n c) by tauto. rewrite decide_False in Hpf by done. right. left. done.
    + destruct (decide (r1 = pid)); [left; done|]. right. right.
      destruct (decide (r1 < pid)%nat); [done|]. exfalso. apply (Hl2 pid); [lia|done].
Qed.

Lemma must_run_step c rs s o e s' sp' ref' pid : wf_config c -> Inv c rs s ->
  step c s (o, e) = Ok (s', sp', ref') -> o <> Tick -> cur s <> pid -> must_run c rs s pid ->
  cur s' = pid \/ must_run c rs s' pid.
Proof.
  intros Hwf Hi Hst Ho Hpc (Hn & Hel & Hc).
  assert (Hel' : eligible c rs s' pid) by (eapply eligible_other_step; [done|done|exact Hst|done..]).
  assert (Hp := po_disp _ _ _ _ _ _ _ _ (step_post _ _ _ _ _ _ _ _ Hwf Hi Hst)).
  assert (G : exists r1, least_from (eligible c rs s') (S (cur s)) r1 /\
     (if decide (r1 = cfg_n c /\ pending s o = true)
            then c_postponed s' = false /\ least_from (eligible c rs s') 0 (cur s')
            else c_postponed s' = (if decide (r1 = cfg_n c) then false else pending s o) /\ cur s' = r1)).
  { destruct o; try done; destruct Hp as (r1 & _ & H1 & H2); eauto. }
  destruct G as (r1 & H1 & H2).
  destruct (must_run_disp c rs s' (cur s) pid (pending s o) r1 Hn Hel' H1 H2) as [H|H].
  - destruct Hc as [Hc|Hc]; [left|right; done]. destruct o; done.
  - left. done.
  - right. split; [done|]. done.
Qed.

(** When idle runs no postpone request is pending (from the first tick on). *)
Lemma idle_not_postponed_step c rs s o e s' sp' ref' : wf_config c -> Inv c rs s ->
  step c s (o, e) = Ok (s', sp', ref') -> cur s' = cfg_n c -> c_postponed s' = false.
Proof.
  intros Hwf Hi Hst Hc. assert (Hp := po_disp _ _ _ _ _ _ _ _ (step_post _ _ _ _ _ _ _ _ Hwf Hi Hst)).
  destruct o; [apply Hp|..]; destruct Hp as (r1 & _ & _ & Hd);
    (destruct (decide (r1 = cfg_n c /\ _)); [apply Hd|]); destruct Hd as [Hd <-]; rewrite decide_True in Hd; done.
Qed.

Lemma must_run_run c rs evs : forall s s' pid, wf_config c -> Inv c rs s -> tick_free evs ->
  run c s evs = Ok s' -> must_run c rs s pid -> (cur s = cfg_n c -> c_postponed s = false) ->
  cur s' = cfg_n c -> dispatched_in c s evs pid.
Proof.
  induction evs as [|[o e] evs IH]; intros s s' pid Hwf Hi Htf Hr Hm Hnp Hc; cbn [run] in Hr.
  - injection Hr as <-. destruct Hm as (Hn & Hel & [Hp|Hp]); [|lia]. rewrite (Hnp Hc) in Hp. done.
  - destruct (step c s (o, e)) as [[[s1 sp1] r1]| | |] eqn:E; cbn [rbind fst] in Hr; try done.
    inversion Htf as [|? ? Ho Htf']; subst.
    destruct (decide (cur s = pid)) as [Hcp|Hcp]; [exists [], ((o, e) :: evs), s; done|].
    assert (Hd : cur s1 = pid \/ must_run c rs s1 pid).
    { eapply must_run_step; [done|done|exact E| |done|done]. intros ->. done. }
    destruct Hd as [Hd|Hd].
    + exists [(o, e)], evs, s1. split; [done|]. split; [cbn [run]; rewrite E; done|done].
    + destruct (IH s1 s' pid) as (evs1 & evs2 & s2 & -> & Hr2 & Hc2); try done.
      * eapply step_inv; [| |exact E]; done.
      * intros Hx. eapply idle_not_postponed_step; [done|done|exact E|done].
      * exists ((o, e) :: evs1), evs2, s2. split; [done|]. split; [|done]. cbn [run]. rewrite E. done.
Qed.

Lemma cur_eligible_step c rs s o e s' sp' ref' : wf_config c -> Inv c rs s ->
  step c s (o, e) = Ok (s', sp', ref') -> eligible c rs s' (cur s').
Proof.
  intros Hwf Hi Hst. assert (Hp := po_disp _ _ _ _ _ _ _ _ (step_post _ _ _ _ _ _ _ _ Hwf Hi Hst)).
  destruct o; [apply Hp|..]; destruct Hp as (r1 & _ & (_ & Hel & _) & Hd);
    (destruct (decide (r1 = cfg_n c /\ _)); [apply Hd|]); destruct Hd as [Hd ->]; done.
Qed.

Lemma boot_cur c tmp0 rs s : wf_config c -> regs_typed rs -> boot c tmp0 rs = Ok s ->
  cur s = cfg_n c /\ c_tick s = 2 ^ cfg_tbits c - 1 /\ c_postponed s = false.
Proof.
  intros Hwf Ht Hb. destruct (idle_reg_some c) as [ir Hir]. destruct (cfg_lite c) eqn:Hl.
  - rewrite (boot_lite c tmp0 rs ir) in Hb by done. destruct (decide _); [|done]. injection Hb as <-.
    unfold cur. cbn. split; [lia|]. done.
  - rewrite (boot_full c tmp0 rs ir) in Hb by done. destruct (decide _); [|done]. injection Hb as <-.
    unfold cur. cbn. split; [lia|]. done.
Qed.

Lemma cur_eligible_run c rs evs : forall s s', wf_config c -> Inv c rs s -> eligible c rs s (cur s) ->
  run c s evs = Ok s' -> eligible c rs s' (cur s').
Proof.
  induction evs as [|[o e] evs IH]; intros s s' Hwf Hi Hel Hr; cbn [run] in Hr; [injection Hr as <-; done|].
  destruct (step c s (o, e)) as [[[s1 sp1] r1]| | |] eqn:E; cbn [rbind fst] in Hr; try done.
  eapply IH; [done| | |exact Hr].
  - eapply step_inv; [| |exact E]; done.
  - eapply cur_eligible_step; [done|done|exact E].
Qed.

Lemma cur_eligible c rs s : wf_config c -> regs_typed rs -> reachable c rs s -> eligible c rs s (cur s).
Proof.
  intros Hwf Ht (tmp0 & s0 & evs & Hb & Hr). assert (Hi := inv_boot _ _ _ _ Hwf Ht Hb).
  eapply cur_eligible_run; [done|exact Hi| |exact Hr].
  destruct (boot_cur _ _ _ _ Hwf Ht Hb) as [-> _].
  apply idle_eligible; apply Hi.
Qed.

Lemma postpone_before_idle c rs s e s1 sp1 r1 evs s2 : wf_config c -> regs_typed rs -> reachable c rs s ->
  step c s (Postpone, e) = Ok (s1, sp1, r1) ->
  run c s1 evs = Ok s2 -> tick_free evs -> cur s2 = cfg_n c ->
  dispatched_in c s1 evs (cur s).
Proof.
  intros Hwf Ht Hr Hst Hrun Htf Hc. assert (Htn : turn c rs (c_tick s) (cur s)) by (apply (cur_eligible c rs s); done). assert (Hi := reachable_inv _ _ _ Hwf Ht Hr).
  assert (Hi1 : Inv c rs s1) by (eapply step_inv; [| |exact Hst]; done).
  assert (Hp := step_post _ _ _ _ _ _ _ _ Hwf Hi Hst).
  assert (Hlt : (cur s < cfg_n c)%nat) by (apply (step_ok_valid _ _ _ _ _ _ Hwf Hi Hst)).
  assert (Hel : eligible c rs s1 (cur s)).
  { split; [|rewrite (po_tick _ _ _ _ _ _ _ _ Hp); done].
    destruct (cur_lookup _ _ _ Hi) as (t & Htk & Hrd).
    unfold ready, state_of. rewrite (po_task _ _ _ _ _ _ _ _ Hp), Htk. cbn. f_equal. rewrite ev_upd_self. cbn [all_upd cur_upd].
    destruct (decide _); rewrite ?stat_start_state, stat_finish_state; done. }
  destruct (po_disp _ _ _ _ _ _ _ _ Hp) as (q & Hq & H1 & H2).
  destruct (must_run_disp c rs s1 (cur s) (cur s) (pending s Postpone) q Hlt Hel H1 H2) as [H|H]; [left; done| |].
  - exists [], evs, s1. done.
  - eapply must_run_run; [done|exact Hi1|done|exact Hrun|split; [done|]; split; done| |done].
    intros Hx. eapply idle_not_postponed_step; [done|exact Hi|exact Hst|done].
Qed.
