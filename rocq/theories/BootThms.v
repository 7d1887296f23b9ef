(** BootThms.v - registration, start-up and shared-priority properties (C01, C05-C07, C17-C19,
    C22, C27, C28). *)
From Verif Require Import Base SchedModel SchedSpec SortProofs BootProofs SchedProofs StepProofs SchedThms.
From Coq Require Import ZifyBool ZifyNat.

(** * C01 *)
Lemma boot_good c tmp0 rs s : wf_config c -> regs_typed rs -> boot c tmp0 rs = Ok s -> good c rs.
Proof. intros Hwf Ht Hb. apply (inv_good _ _ _ (inv_boot _ _ _ _ Hwf Ht Hb)). Qed.

Lemma boot_slots c tmp0 rs s : wf_config c -> regs_typed rs -> cfg_lite c = false ->
  boot c tmp0 rs = Ok s ->
  forall pid, (pid < cfg_n c)%nat ->
    match order c rs !! pid with
    | Some r => exists t, c_task s !! pid = Some t /\ t_state t = READY /\ t_sp t = rg_sp r
        /\ t_bot t = rg_stack r /\ t_top t = rg_stack r + cfg_ssize c * rg_count r
        /\ t_count t = rg_count r /\ t_prio t = rg_prio r
    | None => state_of s pid = Some EMPTY
    end.
Proof.
  intros Hwf Ht Hl Hb pid Hpid. destruct (idle_reg_some c) as [ir Hir].
  rewrite (boot_full c tmp0 rs ir) in Hb by done. destruct (decide _) as [Hg|]; [|done]. injection Hb as <-.
  assert (Hlen : length (sorted_slots c rs) = cfg_n c) by (apply user_slots_length, good_order, Hg).
  unfold state_of. cbn [boot_state c_task].
  rewrite lookup_app_l by (rewrite arr_length; lia). rewrite arr_lookup.
  unfold sorted_slots, user_slots. destruct (order c rs !! pid) as [r|] eqn:Eo.
  - assert (Hor := lookup_lt_Some _ _ _ Eo). rewrite lookup_app_l by (rewrite map_length; lia).
    rewrite list_lookup_fmap, Eo. cbn. eexists. split; [done|]. done.
  - apply lookup_ge_None in Eo. rewrite lookup_app_r by (rewrite map_length; lia).
    rewrite lookup_replicate_2; [done|]. rewrite map_length. rewrite order_length in * by done. lia.
Qed.

Lemma boot_order c tmp0 rs s : wf_config c -> regs_typed rs -> cfg_lite c = false ->
  boot c tmp0 rs = Ok s ->
  exists l, Permutation l rs
    /\ StronglySorted (fun a b => rg_prio a <= rg_prio b) l
    /\ (forall p, with_prio p l = with_prio p rs)
    /\ (forall pid r, l !! pid = Some r -> task_of c rs pid = Some r)
    /\ forall pid, (pid < cfg_n c)%nat ->
    match l !! pid with
    | Some r => exists t, c_task s !! pid = Some t /\ t_state t = READY /\ t_sp t = rg_sp r
        /\ t_bot t = rg_stack r /\ t_top t = rg_stack r + cfg_ssize c * rg_count r
        /\ t_count t = rg_count r /\ t_prio t = rg_prio r
    | None => state_of s pid = Some EMPTY
    end.
Proof.
  intros Hwf Ht Hl Hb. exists (order c rs).
  assert (Hg := boot_good _ _ _ _ Hwf Ht Hb). unfold good in Hg. rewrite Hl in Hg.
  split; [apply order_perm; done|]. split; [apply order_asc|].
  split; [intros p; apply order_with_prio; done|]. split.
  - intros pid r H. unfold task_of. rewrite Hl. done.
  - eapply boot_slots; done.
Qed.

(** * C05 *)
Lemma filter_pos {A} (P : A -> Prop) `{!forall x, Decision (P x)} (l : list A) : forall k,
  (k < length (filter P l))%nat ->
  exists i x, l !! i = Some x /\ P x /\ length (filter P (take i l)) = k.
Proof.
  induction l as [|a l IH]; intros k Hk; [cbn in Hk; lia|].
  rewrite filter_cons in Hk. destruct (decide (P a)) as [Ha|Ha].
  - destruct k as [|k]; [exists 0%nat, a; done|].
    cbn in Hk. destruct (IH k ltac:(lia)) as (i & x & H1 & H2 & H3).
    exists (S i), x. split; [done|]. split; [done|]. cbn [take]. rewrite filter_cons_True by done. cbn. lia.
  - destruct (IH k Hk) as (i & x & H1 & H2 & H3). exists (S i), x. split; [done|]. split; [done|].
    cbn [take]. rewrite filter_cons_False by done. done.
Qed.

Lemma filter_take_mono {A} (P : A -> Prop) `{!forall x, Decision (P x)} (l : list A) i j x :
  (i < j)%nat -> l !! i = Some x -> P x ->
  (length (filter P (take i l)) < length (filter P (take j l)))%nat.
Proof.
  intros Hij Hi Hp. replace j with (i + (j - i))%nat by lia.
  rewrite <- (take_take_drop l i (j - i)). rewrite filter_app, app_length.
  assert (Hd : drop i l = x :: drop (S i) l) by (apply drop_S; done).
  rewrite Hd. destruct (j - i)%nat as [|m] eqn:E; [lia|]. cbn [take].
  rewrite filter_cons_True by done. cbn. lia.
Qed.

Lemma filter_pos_unique {A} (P : A -> Prop) `{!forall x, Decision (P x)} (l : list A) i j x y :
  l !! i = Some x -> P x -> l !! j = Some y -> P y ->
  length (filter P (take i l)) = length (filter P (take j l)) -> i = j.
Proof.
  intros H1 H2 H3 H4 Hq. destruct (decide (i < j)%nat) as [Hl|Hl].
  - assert (G := filter_take_mono P l i j x Hl H1 H2). lia.
  - destruct (decide (j < i)%nat) as [Hl'|Hl']; [|lia].
    assert (G := filter_take_mono P l j i y Hl' H3 H4). lia.
Qed.

Lemma with_prio_lite c rs p : good_lite c rs -> (length (with_prio p rs) <= 1)%nat.
Proof.
  intros [_ Hnd]. unfold with_prio. clear c. induction rs as [|r rs IH]; [cbn; lia|].
  cbn [map] in Hnd. inversion Hnd as [|? ? Hni Hnd']; subst. specialize (IH Hnd').
  rewrite filter_cons. destruct (decide _) as [<-|]; [|done].
  change (filter (fun r0 => rg_prio r0 = rg_prio r) rs) with (with_prio (rg_prio r) rs).
  rewrite (proj2 (with_prio_nil_iff _ _)) by done. cbn. lia.
Qed.

Lemma head_with_prio p rs x : head (with_prio p rs) = Some x -> rg_prio x = p /\ x ∈ rs.
Proof.
  intros Hx. assert (x ∈ with_prio p rs) as Hin.
  { destruct (with_prio p rs); [done|]. cbn in Hx. injection Hx as ->. left. }
  apply elem_of_list_filter in Hin. done.
Qed.

Lemma turn_unique_gen c rs tk p : good c rs -> with_prio p rs <> [] ->
  exists pid, (exists r, task_of c rs pid = Some r /\ rg_prio r = p /\ turn c rs tk pid)
    /\ forall pid', (exists r, task_of c rs pid' = Some r /\ rg_prio r = p /\ turn c rs tk pid') -> pid' = pid.
Proof.
  intros Hg Hne. unfold task_of, turn. unfold good in Hg. destruct (cfg_lite c).
  - destruct (with_prio p rs) as [|r l] eqn:E; [done|]. clear Hne.
    assert (Hr : rg_prio r = p /\ r ∈ rs) by (apply head_with_prio; rewrite E; done).
    assert (0 <= p) by (destruct Hg as [Hg _]; rewrite Forall_forall in Hg; destruct Hr as [<- Hr]; apply Hg in Hr; lia).
    exists (Z.to_nat p). rewrite Z2Nat.id by done. rewrite E. split; [exists r; cbn; tauto|].
    intros pid' (r' & H1 & H2 & _). apply head_with_prio in H1. lia.
  - assert (Hw := order_with_prio c rs p Hg).
    set (g := group_size rs p). assert (Hgp : 0 < g).
    { unfold g, group_size. destruct (with_prio p rs); [done|]. cbn. lia. }
    set (k := Z.to_nat (wrap (cfg_pbits c) tk mod g)).
    assert (Hk : Z.of_nat k = wrap (cfg_pbits c) tk mod g).
    { unfold k. rewrite Z2Nat.id; [done|]. apply Z.mod_pos_bound. done. }
    assert (Hkb : (k < length (with_prio p (order c rs)))%nat).
    { rewrite Hw. assert (0 <= wrap (cfg_pbits c) tk mod g < g) by (apply Z.mod_pos_bound; done).
      unfold g, group_size in *. lia. }
    destruct (filter_pos _ _ k Hkb) as (i & r & Hi & Hr & Hc). cbn beta in Hr.
    exists i. split.
    + exists r. rewrite Hi. split; [done|]. split; [done|]. rewrite Hr. fold g. rewrite <- Hk. unfold rank, with_prio.
      rewrite Hc. done.
    + intros j (r' & Hj & Hr' & Htn). rewrite Hj in Htn. rewrite Hr' in Htn. fold g in Htn. rewrite <- Hk in Htn.
      unfold rank, with_prio in Htn. apply (filter_pos_unique (fun r => rg_prio r = p) (order c rs) j i r' r); try done. lia.
Qed.

Lemma turn_unique c tmp0 rs s0 tk p : wf_config c -> regs_typed rs -> boot c tmp0 rs = Ok s0 ->
  with_prio p rs <> [] ->
  exists pid, (exists r, task_of c rs pid = Some r /\ rg_prio r = p /\ turn c rs tk pid)
    /\ forall pid', (exists r, task_of c rs pid' = Some r /\ rg_prio r = p /\ turn c rs tk pid') -> pid' = pid.
Proof. intros Hwf Ht Hb. apply turn_unique_gen. eapply boot_good; done. Qed.

(** No two tasks of one priority run within one tick. *)
Lemma tick_free_tick c rs evs : forall s s', wf_config c -> Inv c rs s -> tick_free evs ->
  run c s evs = Ok s' -> c_tick s' = c_tick s.
Proof.
  intros s s' Hwf Hi Htf Hr. rewrite (run_tick_value c rs evs s s' Hwf Hi Hr).
  assert (ticks evs = 0) as ->.
  { clear Hr. induction evs as [|ev evs IH]; [done|]. inversion Htf as [|? ? H1 H2]; subst.
    rewrite ticks_cons, H1, IH by done. done. }
  rewrite Z.add_0_r. apply wrap_small, Hi.
Qed.

Lemma same_prio_one_per_tick c rs s evs s' r r' : wf_config c -> regs_typed rs -> reachable c rs s ->
  run c s evs = Ok s' -> tick_free evs ->
  task_of c rs (cur s) = Some r -> task_of c rs (cur s') = Some r' -> rg_prio r = rg_prio r' ->
  cur s = cur s'.
Proof.
  intros Hwf Ht Hr Hrun Htf H1 H2 Hp.
  assert (Hi := reachable_inv _ _ _ Hwf Ht Hr). assert (Hr' := reachable_run _ _ _ _ _ Hr Hrun).
  assert (Hk := tick_free_tick c rs evs s s' Hwf Hi Htf Hrun).
  destruct (cur_eligible c rs s Hwf Ht Hr) as [_ Ht1].
  destruct (cur_eligible c rs s' Hwf Ht Hr') as [_ Ht2]. rewrite Hk in Ht2.
  assert (Hne : with_prio (rg_prio r) rs <> []).
  { intros E. apply with_prio_nil_iff in E. apply E.
    assert (r ∈ rs) as Hin.
    { unfold task_of in H1. assert (Hg := inv_good _ _ _ Hi). unfold good in Hg. destruct (cfg_lite c).
      - apply head_with_prio in H1. tauto.
      - rewrite <- (order_perm c rs Hg). eapply elem_of_list_lookup_2; exact H1. }
    apply elem_of_list_fmap. exists r. done. }
  destruct (turn_unique_gen c rs (c_tick s) _ (inv_good _ _ _ Hi) Hne) as (pid & _ & Hu).
  rewrite (Hu (cur s)) by eauto. rewrite (Hu (cur s')); [done|]. exists r'. split; [done|]. split; [congruence|done].
Qed.

(** * C06 *)
Lemma window_nowrap w t0 n k0 : 0 < n <= 2 ^ w -> 0 <= k0 < n -> t0 mod 2 ^ w + n <= 2 ^ w ->
  exists k, 0 <= k < n /\ ((t0 + k) mod 2 ^ w) mod n = k0.
Proof.
  intros Hn Hk Hw. set (v := t0 mod 2 ^ w) in *. assert (Hv : 0 <= v < 2 ^ w) by (apply Z.mod_pos_bound; lia).
  exists ((k0 - v) mod n). assert (Hm : 0 <= (k0 - v) mod n < n) by (apply Z.mod_pos_bound; lia).
  split; [done|]. rewrite <- (Zplus_mod_idemp_l t0). fold v.
  rewrite (Z.mod_small (v + _)) by lia. rewrite Zplus_mod_idemp_r.
  replace (v + (k0 - v)) with k0 by lia. apply Z.mod_small. done.
Qed.

Lemma window_any w t0 n k0 : 0 < n <= 2 ^ w -> 0 <= k0 < n ->
  exists k, 0 <= k < 2 * n - 1 /\ ((t0 + k) mod 2 ^ w) mod n = k0.
Proof.
  intros Hn Hk. set (v := t0 mod 2 ^ w). assert (Hv : 0 <= v < 2 ^ w) by (apply Z.mod_pos_bound; lia).
  destruct (Z_le_gt_dec (v + n) (2 ^ w)) as [Hw|Hw].
  - destruct (window_nowrap w t0 n k0 Hn Hk Hw) as (k & H1 & H2). exists k. split; [lia|done].
  - exists (2 ^ w - v + k0). split; [lia|]. rewrite <- (Zplus_mod_idemp_l t0). fold v.
    replace (v + (2 ^ w - v + k0)) with (k0 + 1 * 2 ^ w) by lia. rewrite Z.mod_add by lia.
    rewrite (Z.mod_small k0 (2 ^ w)) by lia. apply Z.mod_small. done.
Qed.

Lemma wrap_wrap w1 w2 x : 0 <= w1 <= w2 -> wrap w1 (wrap w2 x) = x mod 2 ^ w1.
Proof.
  intros H. unfold wrap. symmetry. apply Znumtheory.Zmod_div_mod.
  - apply Z.pow_pos_nonneg; lia.
  - apply Z.pow_pos_nonneg; lia.
  - exists (2 ^ (w2 - w1)). rewrite <- Z.pow_add_r by lia. f_equal. lia.
Qed.

Lemma rank_bound c rs pid r : good_regs c rs -> order c rs !! pid = Some r ->
  0 <= rank c rs (rg_prio r) pid < group_size rs (rg_prio r).
Proof.
  intros Hg Hr. unfold rank, group_size. split; [lia|].
  assert (G := filter_take_mono (fun x => rg_prio x = rg_prio r) (order c rs) pid (length (order c rs)) r
    ltac:(apply lookup_lt_Some in Hr; done) Hr eq_refl).
  rewrite (take_ge (order c rs) (length (order c rs))) in G by lia. rewrite <- (order_with_prio c rs (rg_prio r) Hg). unfold with_prio.
  apply Nat2Z.inj_lt. exact G.
Qed.

Lemma group_size_le c rs p : good_regs c rs -> group_size rs p <= Z.of_nat (cfg_n c).
Proof.
  intros [_ H]. unfold group_size, with_prio. assert (G := filter_length (fun x => rg_prio x = p) rs). lia.
Qed.

(** The [k]-th tick of a history. *)
Lemma nth_tick c rs evs : forall s s' k, wf_config c -> Inv c rs s -> run c s evs = Ok s' ->
  1 <= k <= ticks evs ->
  exists evs1 e evs2 s1, evs = evs1 ++ (Tick, e) :: evs2 /\ ticks evs1 = k - 1
    /\ run c s (evs1 ++ [(Tick, e)]) = Ok s1 /\ c_tick s1 = wrap (cfg_tbits c) (c_tick s + k).
Proof.
  induction evs as [|[o e] evs IH]; intros s s' k Hwf Hi Hr Hk.
  - change (ticks []) with 0 in Hk. lia.
  - cbn [run] in Hr. destruct (step c s (o, e)) as [[[s1 sp1] r1]| | |] eqn:E; cbn [rbind fst] in Hr; try done.
    assert (Hi1 : Inv c rs s1) by (eapply step_inv; [| |exact E]; done).
    assert (Hkv := step_tick_value c rs s _ s1 sp1 r1 Hwf Hi E).
    rewrite ticks_cons in Hk. set (b := if is_tick (o, e) then 1 else 0) in *.
    destruct (decide (b = 1 /\ k = 1)) as [[Hb ->]|Hn].
    + exists [], e, evs, s1. destruct o; try done. split; [done|]. split; [done|]. split; [cbn [run app]; rewrite E; done|].
      rewrite Hkv, Hb. done.
    + assert (Hb : b = 0 \/ b = 1) by (unfold b; destruct (is_tick _); lia).
      assert (Hnn := ticks_nonneg evs).
      destruct (IH s1 s' (k - b) Hwf Hi1 Hr ltac:(lia)) as (evs1 & e' & evs2 & s2 & -> & H1 & H2 & H3).
      exists ((o, e) :: evs1), e', evs2, s2. split; [done|]. split; [rewrite ticks_cons; fold b; lia|].
      split.
      * cbn [app run]. rewrite E. cbn [rbind fst]. done.
      * rewrite H3, Hkv, wrap_add. f_equal. lia.
Qed.

Lemma bounded_waiting c rs s evs s' pid r : wf_config c -> regs_typed rs -> reachable c rs s ->
  cfg_lite c = false -> cfg_pbits c <= cfg_tbits c ->
  run c s evs = Ok s' -> task_of c rs pid = Some r ->
  (2 * group_size rs (rg_prio r) - 1 <= ticks evs
   \/ (group_size rs (rg_prio r) <= ticks evs
       /\ (c_tick s + 1) mod 2 ^ cfg_pbits c + group_size rs (rg_prio r) <= 2 ^ cfg_pbits c)) ->
  exists evs1 e evs2 s1, evs = evs1 ++ (Tick, e) :: evs2
    /\ run c s (evs1 ++ [(Tick, e)]) = Ok s1 /\ turn c rs (c_tick s1) pid.
Proof.
  intros Hwf Ht Hr Hl Hpt Hrun Hto Hw. assert (Hi := reachable_inv _ _ _ Hwf Ht Hr).
  unfold task_of in Hto. rewrite Hl in Hto.
  assert (Hg := inv_good _ _ _ Hi). unfold good in Hg. rewrite Hl in Hg.
  set (n := group_size rs (rg_prio r)) in *.
  assert (Hrk := rank_bound c rs pid r Hg Hto). fold n in Hrk.
  assert (Hgs := group_size_le c rs (rg_prio r) Hg). fold n in Hgs.
  assert (Hn2 : 0 < n <= 2 ^ cfg_pbits c) by (unfold wf_config in Hwf; lia).
  assert (Hk : exists k, 1 <= k <= ticks evs /\ ((c_tick s + k) mod 2 ^ cfg_pbits c) mod n = rank c rs (rg_prio r) pid).
  { destruct Hw as [Hw|[Hw1 Hw2]].
    - destruct (window_any (cfg_pbits c) (c_tick s + 1) n _ Hn2 Hrk) as (k & H1 & H2).
      exists (k + 1). split; [lia|]. rewrite <- H2. do 2 f_equal. lia.
    - destruct (window_nowrap (cfg_pbits c) (c_tick s + 1) n _ Hn2 Hrk Hw2) as (k & H1 & H2).
      exists (k + 1). split; [lia|]. rewrite <- H2. do 2 f_equal. lia. }
  destruct Hk as (k & Hk1 & Hk2).
  destruct (nth_tick c rs evs s s' k Hwf Hi Hrun Hk1) as (evs1 & e & evs2 & s1 & H1 & _ & H2 & H3).
  exists evs1, e, evs2, s1. split; [done|]. split; [done|].
  unfold turn. rewrite Hl, Hto. fold n. rewrite H3, wrap_wrap; [done|]. unfold wf_config in Hwf. lia.
Qed.

(** * C07 *)
Lemma alternation_exact c rs tk pid r : wf_config c -> cfg_lite c = false -> cfg_pbits c <= cfg_tbits c ->
  good_regs c rs -> task_of c rs pid = Some r -> 2 <= group_size rs (rg_prio r) ->
  turn c rs tk pid -> turn c rs (wrap (cfg_tbits c) (tk + 1)) pid ->
  tk mod 2 ^ cfg_pbits c = 2 ^ cfg_pbits c - 1
  /\ (2 ^ cfg_pbits c - 1) mod group_size rs (rg_prio r) = 0.
Proof.
  intros Hwf Hl Hpt Hg Hto Hn H1 H2. unfold task_of in Hto. rewrite Hl in Hto.
  unfold turn in H1, H2. rewrite Hl, Hto in H1, H2.
  set (n := group_size rs (rg_prio r)) in *.
  rewrite wrap_wrap in H2 by (unfold wf_config in Hwf; lia). unfold wrap in H1.
  set (v := tk mod 2 ^ cfg_pbits c) in *.
  assert (Hp : 0 < 2 ^ cfg_pbits c) by (apply Z.pow_pos_nonneg; unfold wf_config in Hwf; lia).
  assert (Hv : 0 <= v < 2 ^ cfg_pbits c) by (apply Z.mod_pos_bound; lia).
  rewrite <- Zplus_mod_idemp_l in H2. fold v in H2.
  destruct (Z.eq_dec v (2 ^ cfg_pbits c - 1)) as [Ev|Ev].
  - split; [done|]. rewrite <- Ev. rewrite Ev in H2. replace (2 ^ cfg_pbits c - 1 + 1) with (2 ^ cfg_pbits c) in H2 by lia.
    rewrite Z.mod_same in H2 by lia. rewrite Z.mod_0_l in H2 by lia. lia.
  - exfalso. rewrite (Z.mod_small (v + 1)) in H2 by lia.
    assert (E : (v + 1) mod n = v mod n) by lia.
    assert (G : ((v + 1) - v) mod n = 0) by (rewrite Zminus_mod, E, Z.sub_diag; apply Z.mod_0_l; lia).
    replace (v + 1 - v) with 1 in G by lia. rewrite Z.mod_small in G by lia. lia.
Qed.

Lemma alternation_run c rs s e s1 sp1 r1 evs s2 e2 s3 sp3 r3 pid r : wf_config c -> regs_typed rs ->
  reachable c rs s -> cfg_lite c = false -> cfg_pbits c <= cfg_tbits c ->
  step c s (Tick, e) = Ok (s1, sp1, r1) -> run c s1 evs = Ok s2 -> tick_free evs ->
  step c s2 (Tick, e2) = Ok (s3, sp3, r3) ->
  task_of c rs pid = Some r -> 2 <= group_size rs (rg_prio r) ->
  ~ (c_tick s1 mod 2 ^ cfg_pbits c = 2 ^ cfg_pbits c - 1
     /\ (2 ^ cfg_pbits c - 1) mod group_size rs (rg_prio r) = 0) ->
  ~ (turn c rs (c_tick s1) pid /\ turn c rs (c_tick s3) pid).
Proof.
  intros Hwf Ht Hr Hl Hpt Hst Hrun Htf Hst2 Hto Hn Hnw [H1 H2]. assert (Hi := reachable_inv _ _ _ Hwf Ht Hr).
  assert (Hi1 : Inv c rs s1) by (eapply step_inv; [| |exact Hst]; done).
  assert (Hi2 : Inv c rs s2) by (eapply run_inv; [done|exact Hi1|exact Hrun]).
  assert (Hk := step_tick_value c rs s2 _ s3 sp3 r3 Hwf Hi2 Hst2). cbn in Hk.
  rewrite (tick_free_tick c rs evs s1 s2) in Hk by done. rewrite Hk in H2.
  apply Hnw. assert (Hg := inv_good _ _ _ Hi). unfold good in Hg. rewrite Hl in Hg.
  eapply alternation_exact; done.
Qed.

(** * C18 *)
Lemma get_tick_value c tmp0 rs s0 evs s : wf_config c -> regs_typed rs ->
  boot c tmp0 rs = Ok s0 -> run c s0 evs = Ok s ->
  get_tick s = Ok ((ticks evs - 1) mod 2 ^ cfg_tbits c).
Proof.
  intros Hwf Ht Hb Hr. assert (Hi0 := inv_boot _ _ _ _ Hwf Ht Hb).
  assert (Hi : Inv c rs s) by (eapply run_inv; [done|exact Hi0|exact Hr]).
  unfold get_tick. rewrite (inv_run _ _ _ Hi). cbn. f_equal.
  rewrite (run_tick_value c rs evs s0 s Hwf Hi0 Hr).
  destruct (boot_cur _ _ _ _ Hwf Ht Hb) as (_ & -> & _). unfold wrap.
  replace (2 ^ cfg_tbits c - 1 + ticks evs) with (ticks evs - 1 + 1 * 2 ^ cfg_tbits c) by lia.
  rewrite Z.mod_add; [done|]. assert (0 < 2 ^ cfg_tbits c) by (apply Z.pow_pos_nonneg; unfold wf_config in Hwf; lia). lia.
Qed.

(** * C17 *)
Lemma self_value c rs s : wf_config c -> regs_typed rs -> reachable c rs s ->
  self s = Ok (Z.of_nat (cur s)) /\ (cur s <= cfg_n c)%nat.
Proof.
  intros Hwf Ht Hr. assert (Hi := reachable_inv _ _ _ Hwf Ht Hr). unfold self.
  rewrite (inv_run _ _ _ Hi). assert (Hx := inv_idx _ _ _ Hi). unfold cur. split; [cbn; f_equal; lia|lia].
Qed.

Lemma self_is_stack c rs s o e x pid r : wf_config c -> regs_typed rs -> reachable c rs s ->
  (forall i j ri rj sp, stack_bounds c rs i = Some ri -> stack_bounds c rs j = Some rj ->
      fst ri <= sp < snd ri -> fst rj <= sp < snd rj -> i = j) ->
  step c s (o, e) = Ok x ->
  (pid < cfg_n c)%nat -> task_of c rs pid = Some r -> in_stack c r (e_sp e) ->
  self s = Ok (Z.of_nat pid).
Proof.
  intros Hwf Ht Hr Hdis Hst Hpid Hto Hin. assert (Hi := reachable_inv _ _ _ Hwf Ht Hr).
  destruct (step_ok_valid _ _ _ _ _ _ Hwf Hi Hst) as [_ Hb].
  apply (sp_ok_iff c rs s) in Hb; [|done]. destruct Hb as (b & t & Hb & Hsp).
  destruct (self_value c rs s Hwf Ht Hr) as [-> _]. do 2 f_equal.
  eapply Hdis; [exact Hb| | |].
  - unfold stack_bounds. destruct (Nat.eqb_spec pid (cfg_n c)); [lia|]. rewrite Hto. done.
  - exact Hsp.
  - exact Hin.
Qed.

Lemma self_not_nobody c rs s w v : wf_config c -> regs_typed rs -> reachable c rs s ->
  cfg_pidbits c <= w -> self s = Ok v -> v <> 2 ^ w - 1 /\ 0 <= v <= Z.of_nat (cfg_n c).
Proof.
  intros Hwf Ht Hr Hw Hs. destruct (self_value c rs s Hwf Ht Hr) as [H1 H2]. rewrite H1 in Hs. injection Hs as <-.
  split; [|lia]. unfold wf_config in Hwf.
  assert (2 ^ cfg_pidbits c <= 2 ^ w) by (apply Z.pow_le_mono_r; lia). lia.
Qed.

(** * C19 *)
Lemma add_tasks_iff c rs : wf_config c -> regs_typed rs -> cfg_lite c = false ->
  (exists s, (let! s := init c in add_tasks c s rs) = Ok s)
  <-> (Forall (fun r => rg_prio r < Z.of_nat (cfg_n c)) rs /\ (length rs <= cfg_n c)%nat).
Proof.
  intros Hwf Ht Hl. destruct (idle_reg_some c) as [ir Hir]. rewrite (reg_state_nil c ir) by done. cbn [rbind].
  rewrite add_tasks_full by (done || cbn; lia). cbn [app]. destruct (decide _) as [H|H].
  - split; [done|]. eauto.
  - split; [intros [s Hs]; done|done].
Qed.

Lemma add_tasks_total c rs : wf_config c -> regs_typed rs -> cfg_lite c = false ->
  (exists s, (let! s := init c in add_tasks c s rs) = Ok s) \/ (let! s := init c in add_tasks c s rs) = Fatal.
Proof.
  intros Hwf Ht Hl. destruct (idle_reg_some c) as [ir Hir]. rewrite (reg_state_nil c ir) by done. cbn [rbind].
  rewrite add_tasks_full by (done || cbn; lia). destruct (decide _); eauto.
Qed.

(** One more registration: outcome, new slot, frame. *)
Lemma add_one c rs r s : wf_config c -> regs_typed rs -> cfg_lite c = false ->
  (let! s := init c in add_tasks c s rs) = Ok s ->
  (rg_prio r < Z.of_nat (cfg_n c) /\ (length rs < cfg_n c)%nat ->
     exists s' t, add_task c s r = Ok s'
       /\ c_task s' = <[length rs := t]> (c_task s)
       /\ t_state t = READY /\ t_sp t = rg_sp r /\ t_bot t = rg_stack r
       /\ t_top t = rg_stack r + cfg_ssize c * rg_count r /\ t_count t = rg_count r /\ t_prio t = rg_prio r
       /\ c_sub s' = c_sub s /\ c_tick s' = c_tick s /\ c_index s' = c_index s /\ c_running s' = c_running s
       /\ c_postponed s' = c_postponed s /\ c_stray s' = c_stray s)
  /\ (~ (rg_prio r < Z.of_nat (cfg_n c) /\ (length rs < cfg_n c)%nat) -> add_task c s r = Fatal).
Proof.
  intros Hwf Ht Hl Hs. destruct (idle_reg_some c) as [ir Hir]. rewrite (reg_state_nil c ir) in Hs by done. cbn [rbind] in Hs.
  rewrite add_tasks_full in Hs by (done || cbn; lia). cbn [app] in Hs. destruct (decide _) as [[Hf Hlen]|]; [|done].
  injection Hs as <-. unfold add_task. rewrite Hl, add_task_full_step by done. split.
  - intros [H1 H2]. destruct (Z.ltb_spec (rg_prio r) (Z.of_nat (cfg_n c))); [|lia].
    destruct (Nat.ltb_spec (length rs) (cfg_n c)); [|lia]. cbn [andb].
    exists (reg_state c ir (rs ++ [r])), (fill_slot c (T0 c) r). split; [done|].
    split; [|done]. cbn [reg_state c_task].
    rewrite insert_app_r_alt by (rewrite map_length; lia). rewrite map_length, Nat.sub_diag, map_app, app_length.
    cbn [length map]. destruct (cfg_n c - length rs)%nat as [|k] eqn:Ek; [lia|].
    rewrite <- app_assoc. cbn. replace (cfg_n c - (length rs + 1))%nat with k by lia. done.
  - intros H. destruct (Z.ltb_spec (rg_prio r) (Z.of_nat (cfg_n c))); [|done].
    destruct (Nat.ltb_spec (length rs) (cfg_n c)); [|done]. exfalso. apply H. done.
Qed.

(** * C22 *)
Lemma strays_map_fill c l : wf_config c -> Forall (fun r => rg_prio r < Z.of_nat (cfg_n c)) l ->
  strays (S (cfg_n c)) (map (fill_slot c (T0 c)) l) = [].
Proof.
  intros Hwf. induction l as [|r l IH] using rev_ind; intros Hf; [done|].
  apply Forall_app in Hf as [Hf1 Hf2]. inversion Hf2; subst.
  rewrite map_app. cbn [map]. rewrite strays_snoc, IH by done. rewrite fill_prio.
  destruct (Z.leb_spec (Z.of_nat (S (cfg_n c))) (rg_prio r)); [lia|]. rewrite andb_false_r. done.
Qed.

Lemma strays_nil c rs : wf_config c -> good_regs c rs ->
  strays (S (cfg_n c)) (sorted_slots c rs) = [] <-> (cfg_n c <= S (length rs))%nat.
Proof.
  intros Hwf Hg. assert (Hlen := order_length c rs Hg). unfold sorted_slots, user_slots. rewrite Hlen.
  assert (Hp := T0_prio c Hwf).
  assert (G : forall k l, strays (S (cfg_n c)) (map (fill_slot c (T0 c)) l) = [] ->
     with_prio (Z.of_nat (cfg_n c) + 1) l = [] ->
     (strays (S (cfg_n c)) (map (fill_slot c (T0 c)) l ++ replicate k (T0 c)) = [] <-> (k <= 1)%nat)).
  { intros k l H0 Hw. destruct k as [|k]; [rewrite app_nil_r; split; [lia|done]|].
    rewrite replicate_S_end, app_assoc, strays_snoc.
    rewrite cnt_app, cnt_map_fill, Hp, Hw. cbn [length].
    assert (Hc : cnt (Z.of_nat (cfg_n c) + 1) (replicate k (T0 c)) = k).
    { unfold cnt. rewrite (filter_replicate_true _ _ (T0 c)) by done. apply replicate_length. }
    rewrite Hc. destruct k as [|k]; cbn [Nat.add].
    - cbn [replicate]. cbn [Z.of_nat Z.ltb Z.compare andb]. rewrite !app_nil_r, H0. split; [lia|done].
    - split; [|lia]. intros E. apply app_eq_nil in E as [_ E]. exfalso.
      destruct (Z.ltb_spec 0 (Z.of_nat (S k))); [|lia].
      destruct (Z.leb_spec (Z.of_nat (S (cfg_n c))) (Z.of_nat (cfg_n c) + 1)); [|lia]. done. }
  assert (Hf : Forall (fun r => rg_prio r < Z.of_nat (cfg_n c)) (order c rs)).
  { destruct (good_order c rs Hg) as [Hf _]. eapply Forall_impl; [exact Hf|]. cbn. lia. }
  rewrite G.
  - destruct Hg as [_ Hg]. lia.
  - apply strays_map_fill; done.
  - apply with_prio_nil_iff. intros Hin. apply elem_of_list_fmap in Hin as (r & Hr & Hin).
    rewrite Forall_forall in Hf. specialize (Hf r Hin). lia.
Qed.

Lemma start_no_stray c tmp0 rs s : wf_config c -> regs_typed rs -> cfg_lite c = false ->
  boot c tmp0 rs = Ok s -> (c_stray s = [] <-> (cfg_n c <= S (length rs))%nat).
Proof.
  intros Hwf Ht Hl Hb. destruct (idle_reg_some c) as [ir Hir].
  rewrite (boot_full c tmp0 rs ir) in Hb by done. destruct (decide _) as [Hg|]; [|done]. injection Hb as <-.
  apply strays_nil; done.
Qed.

(** Out-of-bounds writes happen in picoRTOS_start only. *)
Lemma run_stray c rs evs : forall s s', wf_config c -> Inv c rs s -> run c s evs = Ok s' -> c_stray s' = c_stray s.
Proof.
  induction evs as [|[o e] evs IH]; intros s s' Hwf Hi Hr; cbn [run] in Hr; [injection Hr as <-; done|].
  destruct (step c s (o, e)) as [[[s1 sp1] r1]| | |] eqn:E; cbn [rbind fst] in Hr; try done.
  rewrite (IH s1 s'); [|done| |done].
  - apply (po_stray _ _ _ _ _ _ _ _ (step_post _ _ _ _ _ _ _ _ Hwf Hi E)).
  - eapply step_inv; [| |exact E]; done.
Qed.

(** * C27 *)
Lemma not_running_before_start c rs s : wf_config c -> regs_typed rs ->
  (let! s := init c in add_tasks c s rs) = Ok s -> c_running s = false.
Proof.
  intros Hwf Ht Hs. destruct (idle_reg_some c) as [ir Hir]. destruct (cfg_lite c) eqn:Hl.
  - rewrite (init_ok c ir) in Hs by done. cbn [rbind] in Hs.
    replace (mkCore _ _ _ _ _ _ _ _) with (lite_state c ir []) in Hs.
    + rewrite add_tasks_lite in Hs; try done; [|split; constructor].
      destruct (decide _); [|done]. injection Hs as <-. done.
    + unfold lite_state. do 2 f_equal. unfold lite_slots.
      apply list_eq. intros i. rewrite list_lookup_fmap. destruct (decide (i < cfg_n c)%nat).
      * rewrite lookup_seq_lt by lia. rewrite lookup_replicate_2 by done. done.
      * rewrite lookup_seq_ge by lia. symmetry. apply lookup_replicate_None. lia.
  - rewrite (reg_state_nil c ir) in Hs by done. cbn [rbind] in Hs.
    rewrite add_tasks_full in Hs by (done || cbn; lia). destruct (decide _); [|done]. injection Hs as <-. done.
Qed.

Lemma api_before_start c rs s : wf_config c -> regs_typed rs ->
  (let! s := init c in add_tasks c s rs) = Ok s ->
  (forall o e, o <> Tick -> step c s (o, e) = Fatal)
  /\ self s = Fatal /\ get_tick s = Fatal /\ suspend s = Fatal /\ resume s = Fatal.
Proof.
  intros Hwf Ht Hs. assert (Hr := not_running_before_start c rs s Hwf Ht Hs).
  unfold self, get_tick, suspend, resume. rewrite Hr. split; [|done].
  intros o e Ho. destruct o; cbn [step]; rewrite ?Hr; try done. destruct (_ >? 0); done.
Qed.

(** * C28 *)
Lemma lite_boot_iff c tmp0 rs : wf_config c -> regs_typed rs -> cfg_lite c = true ->
  (if decide (Forall (fun r => rg_prio r < Z.of_nat (cfg_n c)) rs /\ NoDup (map rg_prio rs))
   then exists s, boot c tmp0 rs = Ok s else boot c tmp0 rs = Fatal).
Proof.
  intros Hwf Ht Hl. destruct (idle_reg_some c) as [ir Hir]. rewrite (boot_lite c tmp0 rs ir) by done.
  destruct (decide _) as [[H1 H2]|H]; destruct (decide _) as [H'|H']; eauto.
  - exfalso. apply H'. split; [|done]. unfold regs_typed in Ht. rewrite Forall_forall in *. intros r Hr.
    specialize (H1 r Hr). specialize (Ht r Hr). lia.
  - exfalso. apply H. destruct H' as [H1 H2]. split; [|done]. eapply Forall_impl; [exact H1|]. cbn. intros; lia.
Qed.

Lemma lite_self c rs s : wf_config c -> regs_typed rs -> cfg_lite c = true -> reachable c rs s ->
  cur s <> cfg_n c ->
  exists r, r ∈ rs /\ task_of c rs (cur s) = Some r /\ self s = Ok (rg_prio r)
   /\ stack_bounds c rs (cur s) = Some (rg_stack r, rg_stack r + cfg_ssize c * rg_count r).
Proof.
  intros Hwf Ht Hl Hr Hc. assert (Hi := reachable_inv _ _ _ Hwf Ht Hr).
  destruct (self_value c rs s Hwf Ht Hr) as [-> _].
  destruct (task_of c rs (cur s)) as [r|] eqn:Et.
  - exists r. assert (Et' := Et). unfold task_of in Et. rewrite Hl in Et. apply head_with_prio in Et as [-> Hin].
    split; [done|]. split; [done|]. split; [done|].
    unfold stack_bounds. destruct (Nat.eqb_spec (cur s) (cfg_n c)); [done|]. rewrite Et'. done.
  - exfalso. destruct (cur_lookup _ _ _ Hi) as (t & Htk & Hrd).
    destruct (inv_slot _ _ _ Hi _ _ Htk) as (_ & _ & _ & H4 & _). rewrite H4 in Hrd by done. done.
Qed.
