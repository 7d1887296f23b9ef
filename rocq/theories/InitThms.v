(** InitThms.v - picoRTOS_task_init (C23, C24) and registration after start (C25). *)
From Verif Require Import Base SchedModel SchedSpec SortProofs BootProofs SchedProofs StepProofs SchedThms BootThms.
From Coq Require Import ZifyBool ZifyNat.

Lemma land_lnot_mask k x : 0 <= k -> Z.land x (Z.lnot (2 ^ k - 1)) = x / 2 ^ k * 2 ^ k.
Proof.
  intros Hk. replace (2 ^ k - 1) with (Z.ones k) by (rewrite Z.ones_equiv; lia).
  change (Z.land x (Z.lnot (Z.ones k))) with (Z.land x (Z.lnot (Z.ones k))).
  rewrite <- Z.ldiff_land, Z.ldiff_ones_r by done.
  rewrite Z.shiftl_mul_pow2, Z.shiftr_div_pow2 by done. done.
Qed.

Lemma l1_align_spec k p : 0 <= k -> l1_align (2 ^ k) p = (p + (2 ^ k - 1)) / 2 ^ k * 2 ^ k.
Proof. intros Hk. unfold l1_align. rewrite land_lnot_mask by done. lia. Qed.

Lemma land_wrapped_mask sz j x : 0 <= j -> 0 <= sz -> 0 <= x < 2 ^ sz ->
  Z.land x (wrap sz (Z.lnot (2 ^ j - 1))) = x / 2 ^ j * 2 ^ j.
Proof.
  intros Hj Hs Hx. unfold wrap. rewrite <- Z.land_ones by done.
  rewrite (Z.land_comm (Z.lnot _)), Z.land_assoc, Z.land_ones by done.
  rewrite (Z.mod_small x) by done. apply land_lnot_mask. done.
Qed.

Lemma task_init_spec c stack count b n : wf_config c -> cfg_lite c = false -> line_geometry c ->
  stack mod cfg_ssize c = 0 -> count < 2 ^ cfg_szbits c ->
  task_init c stack count = Ok (b, n) ->
  b mod cfg_line c = 0 /\ (b + cfg_ssize c * n) mod cfg_line c = 0
  /\ stack <= b /\ 0 <= n /\ b + cfg_ssize c * n <= stack + cfg_ssize c * count
  /\ count - 2 * (cfg_line c / cfg_ssize c - 1) <= n <= count
  /\ (stack mod cfg_line c = 0 -> count mod (cfg_line c / cfg_ssize c) = 0 -> b = stack /\ n = count).
Proof.
  intros Hwf Hl (k & m & Hmk & Hk & Hm & Hmin) Hst Hc Hi.
  unfold task_init, assert_fatal in Hi. destruct (Z.geb_spec count (cfg_minstack c)) as [Hge|]; [|done].
  rewrite Hl in Hi. rewrite Hk in Hi. rewrite Hm in Hi. rewrite l1_align_spec in Hi by lia.
  rewrite Hk, Hm in *. set (j := k - m). assert (Hj : 0 <= j) by lia.
  assert (Hp1 : 0 < 2 ^ k) by (apply Z.pow_pos_nonneg; lia).
  assert (Hp2 : 0 < 2 ^ m) by (apply Z.pow_pos_nonneg; lia).
  assert (Hp3 : 0 < 2 ^ j) by (apply Z.pow_pos_nonneg; lia).
  assert (Hkj : 2 ^ k = 2 ^ j * 2 ^ m) by (rewrite <- Z.pow_add_r by lia; f_equal; lia).
  assert (Hdiv : 2 ^ k / 2 ^ m = 2 ^ j) by (rewrite Hkj; apply Z.div_mul; lia).
  rewrite Hdiv in *.
  set (a := (stack + (2 ^ k - 1)) / 2 ^ k) in *.
  assert (Ha : stack <= a * 2 ^ k < stack + 2 ^ k).
  { assert (E := Z.div_mod (stack + (2 ^ k - 1)) (2 ^ k) ltac:(lia)). fold a in E.
    assert (0 <= (stack + (2 ^ k - 1)) mod 2 ^ k < 2 ^ k) by (apply Z.mod_pos_bound; lia). nia. }
  assert (Hs : exists q, stack = q * 2 ^ m).
  { exists (stack / 2 ^ m). assert (E := Z.div_mod stack (2 ^ m) ltac:(lia)). lia. }
  destruct Hs as [q Hq].
  assert (Hd : (stack + 2 ^ m * count - a * 2 ^ k) / 2 ^ m = q + count - a * 2 ^ j).
  { replace (stack + 2 ^ m * count - a * 2 ^ k) with ((q + count - a * 2 ^ j) * 2 ^ m) by (rewrite Hkj, Hq; ring).
    apply Z.div_mul. lia. }
  rewrite Hd in Hi. set (d := q + count - a * 2 ^ j) in *.
  assert (Hab : q <= a * 2 ^ j < q + 2 ^ j).
  { rewrite Hkj, Hq in Ha. nia. }
  assert (H2jc : 2 ^ j <= count) by (rewrite Hkj in Hmin; nia).
  assert (Hd0 : 0 <= d <= count) by (unfold d; lia).
  assert (Hmask : wrap (cfg_szbits c) (2 ^ j - 1) = 2 ^ j - 1) by (apply wrap_small; lia).
  assert (Hszb : 0 <= cfg_szbits c) by (unfold wf_config in Hwf; lia).
  rewrite Hmask, (wrap_small _ d) in Hi by lia. rewrite land_wrapped_mask in Hi by lia.
  injection Hi as <- <-.
  set (n := d / 2 ^ j * 2 ^ j).
  assert (Hn : d - (2 ^ j - 1) <= n <= d).
  { assert (E := Z.div_mod d (2 ^ j) ltac:(lia)).
    assert (0 <= d mod 2 ^ j < 2 ^ j) by (apply Z.mod_pos_bound; lia). unfold n. lia. }
  assert (Hn0 : 0 <= n) by (unfold n; assert (0 <= d / 2 ^ j) by (apply Z.div_pos; lia); nia).
  split; [apply Z.mod_mul; lia|]. split.
  { unfold n. replace (a * 2 ^ k + 2 ^ m * (d / 2 ^ j * 2 ^ j)) with ((a + d / 2 ^ j) * 2 ^ k) by (rewrite Hkj; ring).
    apply Z.mod_mul. lia. }
  split; [lia|]. split; [done|]. split.
  { rewrite Hkj, Hq. unfold d in Hn.
    replace (a * (2 ^ j * 2 ^ m) + 2 ^ m * n) with (2 ^ m * (a * 2 ^ j + n)) by ring.
    replace (q * 2 ^ m + 2 ^ m * count) with (2 ^ m * (q + count)) by ring.
    apply Z.mul_le_mono_nonneg_l; lia. }
  split; [unfold d in *; lia|].
  intros Hs0 Hc0.
  assert (Hae : a * 2 ^ k = stack).
  { unfold a. assert (E := Z.div_mod stack (2 ^ k) ltac:(lia)). rewrite Hs0, Z.add_0_r in E.
    rewrite E at 1. rewrite (Z.mul_comm (2 ^ k)), Z.add_comm, Z.div_add by lia.
    rewrite (Z.div_small (2 ^ k - 1)) by lia. lia. }
  split; [done|]. assert (Haq : a * 2 ^ j = q) by (rewrite Hkj, Hq in Hae; apply (Z.mul_reg_r _ _ (2 ^ m)); lia).
  unfold n, d. replace (q + count - a * 2 ^ j) with count by lia.
  assert (E := Z.div_mod count (2 ^ j) ltac:(lia)). lia.
Qed.

(** * C25: the first task registered after start, with a new and lowest priority. *)
Lemma order_snoc c rs r : good_regs c rs -> 0 <= rg_prio r < Z.of_nat (cfg_n c) ->
  Forall (fun x => rg_prio x < rg_prio r) rs -> order c (rs ++ [r]) = order c rs ++ [r].
Proof.
  intros Hg Hr Hlt. unfold order.
  assert (G : forall a n, Z.of_nat (a + n) <= rg_prio r ->
     concat (map (fun p => with_prio (Z.of_nat p) (rs ++ [r])) (seq a n)) = concat (map (fun p => with_prio (Z.of_nat p) rs) (seq a n))).
  { intros a n. revert a. induction n as [|n IH]; intros a Ha; [done|]. cbn [seq map concat].
    rewrite IH by lia. f_equal. unfold with_prio. rewrite filter_app, filter_cons_False by lia. rewrite filter_nil, app_nil_r. done. }
  assert (G0 : forall a n, rg_prio r < Z.of_nat a ->
     concat (map (fun p => with_prio (Z.of_nat p) (rs ++ [r])) (seq a n)) = []
     /\ concat (map (fun p => with_prio (Z.of_nat p) rs) (seq a n)) = []).
  { intros a n. revert a. induction n as [|n IH]; intros a Ha; [done|]. cbn [seq map concat].
    destruct (IH (S a)) as [-> ->]; [lia|]. rewrite !app_nil_r.
    assert (E : with_prio (Z.of_nat a) rs = []).
    { apply with_prio_nil_iff. intros Hin. apply elem_of_list_fmap in Hin as (x & Hx & Hin).
      rewrite Forall_forall in Hlt. specialize (Hlt x Hin). lia. }
    split; [|done]. rewrite with_prio_app, E. unfold with_prio. rewrite filter_cons_False by lia. done. }
  set (p := Z.to_nat (rg_prio r)).
  replace (cfg_n c) with (p + S (cfg_n c - p - 1))%nat by lia.
  rewrite seq_app, !map_app, !concat_app. rewrite G by lia. rewrite <- app_assoc. f_equal.
  cbn [seq map concat Nat.add]. destruct (G0 (S p) (cfg_n c - p - 1)%nat) as [-> ->]; [lia|].
  rewrite !app_nil_r. rewrite with_prio_app.
  assert (E : with_prio (Z.of_nat p) rs = []).
  { apply with_prio_nil_iff. intros Hin. apply elem_of_list_fmap in Hin as (x & Hx & Hin).
    rewrite Forall_forall in Hlt. specialize (Hlt x Hin). lia. }
  rewrite E. unfold with_prio. rewrite filter_cons_True by lia. done.
Qed.

(** What every running state keeps from start-up about the first unused slot. *)
Record spare (c : config) (rs : list reg) (s : core) : Prop := {
  sp_pid  : c_pidcount s = Z.of_nat (length rs);
  sp_slot : exists t, c_task s !! length rs = Some t /\ t_state t = EMPTY /\ t_sub t = 0;
  sp_sub  : forall p, (p < cfg_n c)%nat -> with_prio (Z.of_nat p) rs = [] -> c_sub s !! p = Some 1
}.

Lemma spare_boot c tmp0 rs s : wf_config c -> regs_typed rs -> cfg_lite c = false -> boot c tmp0 rs = Ok s ->
  (length rs < cfg_n c)%nat -> spare c rs s.
Proof.
  intros Hwf Ht Hl Hb Hlt. destruct (idle_reg_some c) as [ir Hir].
  rewrite (boot_full c tmp0 rs ir) in Hb by done. destruct (decide _) as [Hg|]; [|done]. injection Hb as <-.
  assert (Hol := order_length c rs Hg).
  assert (Hlen : length (sorted_slots c rs) = cfg_n c) by (apply user_slots_length, good_order, Hg).
  split.
  - done.
  - cbn [boot_state c_task]. rewrite lookup_app_l by (rewrite arr_length; lia). rewrite arr_lookup.
    unfold sorted_slots, user_slots. rewrite lookup_app_r by (rewrite map_length; lia).
    rewrite map_length, Hol, Nat.sub_diag. destruct (cfg_n c - length rs)%nat as [|k] eqn:E; [lia|]. cbn [replicate lookup list_lookup].
    eexists. split; [done|]. split; [done|]. cbn [t_sub set_sub].
    rewrite take_app_alt by (rewrite map_length; lia). rewrite cnt_map_fill.
    rewrite T0_prio by done. rewrite (proj2 (with_prio_nil_iff _ _)); [done|].
    intros Hin. apply elem_of_list_fmap in Hin as (x & Hx & Hin).
    destruct (good_order c rs Hg) as [Hf _]. rewrite Forall_forall in Hf. specialize (Hf x Hin). lia.
  - intros p Hp Hw. cbn [boot_state c_sub]. rewrite subs_of_lookup, decide_True by lia. f_equal.
    unfold sorted_slots, user_slots. rewrite cnt_app, cnt_replicate_T0, cnt_map_fill, order_with_prio, Hw by (done || lia). done.
Qed.

Lemma spare_run c rs evs : forall s s', wf_config c -> Inv c rs s -> run c s evs = Ok s' -> spare c rs s -> spare c rs s'.
Proof.
  induction evs as [|[o e] evs IH]; intros s s' Hwf Hi Hr Hs; cbn [run] in Hr; [injection Hr as <-; done|].
  destruct (step c s (o, e)) as [[[s1 sp1] r1]| | |] eqn:E; cbn [rbind fst] in Hr; try done.
  assert (Hp := step_post _ _ _ _ _ _ _ _ Hwf Hi E).
  eapply IH; [done| |exact Hr|].
  - eapply step_inv; [| |exact E]; done.
  - destruct Hs as [H1 (t & H2 & H3 & H4) H5]. split.
    + rewrite (po_pidc _ _ _ _ _ _ _ _ Hp). done.
    + exists (ev_upd c s o e (cur s1) (length rs) t). split; [rewrite (po_task _ _ _ _ _ _ _ _ Hp), H2; done|]. split.
      * destruct (decide (t_state (ev_upd c s o e (cur s1) (length rs) t) = EMPTY)); [done|].
        exfalso. exact (ev_upd_empty _ _ _ _ _ _ _ _ _ _ _ Hwf Hi E H2 n H3).
      * destruct (ev_upd_static c s o e (cur s1) (length rs) t) as (_ & _ & _ & _ & -> & _). done.
    + rewrite (po_sub _ _ _ _ _ _ _ _ Hp). done.
Qed.

Lemma late_add_inv c rs s r s' : wf_config c -> regs_typed rs -> cfg_lite c = false -> reachable c rs s ->
  0 <= rg_prio r -> Forall (fun x => rg_prio x < rg_prio r) rs ->
  add_task c s r = Ok s' ->
  Inv c (rs ++ [r]) s' /\ (length rs < cfg_n c)%nat /\ ready s' (length rs) /\ task_of c (rs ++ [r]) (length rs) = Some r.
Proof.
  intros Hwf Ht Hl Hr Hr0 Hlow Hadd.
  assert (Hi := reachable_inv _ _ _ Hwf Ht Hr). assert (Hg := inv_good _ _ _ Hi). unfold good in Hg. rewrite Hl in Hg.
  destruct Hr as (tmp0 & s0 & evs & Hb & Hrun).
  assert (Hpc : c_pidcount s = Z.of_nat (length rs)).
  { clear -Hwf Ht Hl Hb Hrun. assert (Hi0 := inv_boot _ _ _ _ Hwf Ht Hb).
    assert (E0 : c_pidcount s0 = Z.of_nat (length rs)).
    { destruct (idle_reg_some c) as [ir Hir]. rewrite (boot_full c tmp0 rs ir) in Hb by done.
      destruct (decide _); [|done]. injection Hb as <-. done. }
    rewrite <- E0. clear E0 Hb. revert s0 Hrun Hi0. induction evs as [|[o e] evs IH]; intros s0 Hrun Hi0; cbn [run] in Hrun.
    - injection Hrun as <-. done.
    - destruct (step c s0 (o, e)) as [[[s1 sp1] r1]| | |] eqn:E; cbn [rbind fst] in Hrun; try done.
      rewrite (IH s1 Hrun); [|eapply step_inv; [| |exact E]; done].
      apply (po_pidc _ _ _ _ _ _ _ _ (step_post _ _ _ _ _ _ _ _ Hwf Hi0 E)). }
  unfold add_task in Hadd. rewrite Hl in Hadd. unfold add_task_full, assert_fatal in Hadd.
  rewrite wf_prio, wf_pid, Hpc in Hadd by done.
  destruct (Z.ltb_spec (rg_prio r) (Z.of_nat (cfg_n c))) as [Hrn|]; [|done].
  destruct (Z.ltb_spec (Z.of_nat (length rs)) (Z.of_nat (cfg_n c))) as [Hlt|]; [|done].
  assert (Hs : spare c rs s).
  { eapply spare_run; [done| |exact Hrun|].
    - eapply inv_boot; done.
    - eapply spare_boot; try done. lia. }
  destruct Hs as [_ (t & Htk & Hte & Hts) Hsub].
  rewrite (get_task_ok _ _ _ Htk) in Hadd. cbn [rbind] in Hadd. rewrite bool_decide_eq_true_2 in Hadd by done.
  rewrite put_task_ok in Hadd by (apply lookup_lt_Some in Htk; done). cbn [rbind] in Hadd. injection Hadd as <-.
  assert (Hord := order_snoc c rs r Hg ltac:(lia) Hlow).
  assert (Hol := order_length c rs Hg).
  assert (Hlen := inv_len _ _ _ Hi).
  assert (Htr : order c (rs ++ [r]) !! length rs = Some r).
  { rewrite Hord, lookup_app_r by lia. rewrite Hol, Nat.sub_diag. done. }
  assert (Hwp : with_prio (rg_prio r) rs = []).
  { apply with_prio_nil_iff. intros Hin. apply elem_of_list_fmap in Hin as (x & Hx & Hin).
    rewrite Forall_forall in Hlow. specialize (Hlow x Hin). lia. }
  assert (Hgs : group_size (rs ++ [r]) (rg_prio r) = 1).
  { unfold group_size. rewrite with_prio_app, Hwp. unfold with_prio. rewrite filter_cons_True by done. done. }
  assert (Hg' : good_regs c (rs ++ [r])).
  { destruct Hg as [Hg1 Hg2]. split; [apply Forall_app; split; [done|repeat constructor; lia]|]. rewrite app_length. cbn. lia. }
  assert (Hnew : ready (with_pidcount (with_task s (<[length rs := fill_slot c t r]> (c_task s)))
      (wrap (cfg_pidbits c) (c_pidcount (with_task s (<[length rs := fill_slot c t r]> (c_task s))) + 1))) (length rs)).
  { unfold ready, state_of. cbn. rewrite list_lookup_insert by lia. done. }
  split; [|split; [lia|]; split; [done|unfold task_of; rewrite Hl; done]].
  assert (Hcn : cur s <> length rs).
  { intros E. assert (Hc := inv_cur _ _ _ Hi). unfold state_of in Hc. rewrite E, Htk in Hc. cbn in Hc. congruence. }
  split.
  - unfold good. rewrite Hl. done.
  - cbn. rewrite insert_length. done.
  - apply Hi.
  - apply (inv_idx _ _ _ Hi).
  - apply (inv_tick _ _ _ Hi).
  - intros pid u Hu. cbn [with_pidcount with_task c_task] in Hu. cbn [with_pidcount with_task c_sub].
    destruct (decide (pid = length rs)) as [->|Hne].
    + rewrite list_lookup_insert in Hu by lia. injection Hu as <-.
      split; [right; left; done|]. split.
      { intros b e Hb'. unfold stack_bounds in Hb'. destruct (Nat.eqb_spec (length rs) (cfg_n c)); [lia|].
        unfold task_of in Hb'. rewrite Hl, Htr in Hb'. injection Hb' as <- <-. done. }
      split; [lia|]. split; [intros _ Hx; unfold task_of in Hx; rewrite Hl, Htr in Hx; done|].
      intros _. rewrite decide_False by lia. intros r0 Hr1. rewrite Htr in Hr1. injection Hr1 as <-.
      rewrite Hgs. split; [done|]. split; [lia|]. split.
      { cbn. rewrite Hts. unfold rank. rewrite Hord, take_app_alt by lia. rewrite order_with_prio, Hwp by done. done. }
      split; [|lia]. apply Hsub; [lia|]. rewrite Z2Nat.id by lia. done.
    + rewrite list_lookup_insert_ne in Hu by done.
      destruct (inv_slot _ _ _ Hi _ _ Hu) as (S1 & S2 & S3 & S4 & S5).
      assert (Hto : task_of c (rs ++ [r]) pid = task_of c rs pid).
      { unfold task_of. rewrite Hl, Hord. destruct (decide (pid < length rs)%nat).
        - rewrite lookup_app_l by lia. done.
        - rewrite lookup_app_r by lia. rewrite (lookup_ge_None_2 (order c rs)) by lia.
          destruct (pid - length (order c rs))%nat eqn:E; [lia|]. done. }
      split; [done|]. split.
      { intros b e Hb'. apply S2. unfold stack_bounds in *. rewrite Hto in Hb'. done. }
      split; [done|]. split; [rewrite Hto; done|].
      intros _. specialize (S5 Hl). destruct (decide (pid = cfg_n c)); [done|].
      intros r0 Hr1. unfold task_of in Hto. rewrite Hl in Hto. rewrite Hto in Hr1.
      destruct (S5 r0 Hr1) as (A1 & A2 & A3 & A4 & A5).
      assert (Hlt0 := lookup_lt_Some _ _ _ Hr1).
      assert (Hin : r0 ∈ rs) by (rewrite <- (order_perm c rs Hg); eapply elem_of_list_lookup_2; exact Hr1).
      assert (Hgsz : group_size (rs ++ [r]) (rg_prio r0) = group_size rs (rg_prio r0)).
      { unfold group_size. rewrite with_prio_app. rewrite Forall_forall in Hlow. specialize (Hlow r0 Hin).
        unfold with_prio at 2. rewrite filter_cons_False by lia. rewrite filter_nil, app_nil_r. done. }
      rewrite Hgsz. split; [done|]. split; [done|]. split; [|done]. rewrite A3. unfold rank. rewrite Hord.
      rewrite take_app_le by lia. done.
  - unfold state_of, cur. cbn. change (Z.to_nat (c_index s)) with (cur s). rewrite list_lookup_insert_ne by done. apply (inv_cur _ _ _ Hi).
Qed.

Lemma late_add_dispatch c rs s r s' evs s1 e s2 sp2 r2 : wf_config c -> regs_typed rs -> cfg_lite c = false -> reachable c rs s ->
  0 <= rg_prio r -> Forall (fun x => rg_prio x < rg_prio r) rs ->
  add_task c s r = Ok s' -> run c s' evs = Ok s1 -> step c s1 (Tick, e) = Ok (s2, sp2, r2) ->
  ready s' (length rs)
  /\ (ready s2 (length rs) -> (forall pid, (pid < length rs)%nat -> ~ eligible c rs s2 pid) -> cur s2 = length rs).
Proof.
  intros Hwf Ht Hl Hr Hr0 Hlow Hadd Hrun Hst.
  destruct (late_add_inv c rs s r s' Hwf Ht Hl Hr Hr0 Hlow Hadd) as (Hi & Hlt & Hrd & Hto).
  split; [done|]. intros Hrd2 Hno.
  assert (Hi1 : Inv c (rs ++ [r]) s1) by (eapply run_inv; [done|exact Hi|exact Hrun]).
  destruct (po_disp _ _ _ _ _ _ _ _ (step_post _ _ _ _ _ _ _ _ Hwf Hi1 Hst)) as (_ & _ & Hel & Hmin).
  assert (Hg := inv_good _ _ _ Hi). unfold good in Hg. rewrite Hl in Hg.
  assert (Hwp : with_prio (rg_prio r) rs = []).
  { apply with_prio_nil_iff. intros Hin. apply elem_of_list_fmap in Hin as (x & Hx & Hin).
    rewrite Forall_forall in Hlow. specialize (Hlow x Hin). lia. }
  assert (Hgr : good_regs c rs).
  { destruct Hg as [Hg1 Hg2]. apply Forall_app in Hg1 as [Hg1 _]. rewrite app_length in Hg2. split; [done|lia]. }
  assert (Hrn : rg_prio r < Z.of_nat (cfg_n c)).
  { destruct Hg as [Hg1 _]. apply Forall_app in Hg1 as [_ Hg1]. inversion Hg1; subst. lia. }
  assert (Hord := order_snoc c rs r Hgr ltac:(lia) Hlow). assert (Hol := order_length c rs Hgr).
  assert (Hnew : eligible c (rs ++ [r]) s2 (length rs)).
  { split; [done|]. unfold turn. rewrite Hl. unfold task_of in Hto. rewrite Hl in Hto. rewrite Hto.
    assert (Hgs : group_size (rs ++ [r]) (rg_prio r) = 1).
    { unfold group_size. rewrite with_prio_app, Hwp. unfold with_prio. rewrite filter_cons_True by done. done. }
    rewrite Hgs, Z.mod_1_r. unfold rank. rewrite Hord, take_app_alt by lia. rewrite order_with_prio, Hwp by done. done. }
  assert (Hle : (cur s2 <= length rs)%nat).
  { destruct (decide (cur s2 <= length rs)%nat); [done|]. exfalso. apply (Hmin (length rs)); [lia|done]. }
  destruct (decide (cur s2 = length rs)); [done|]. exfalso. apply (Hno (cur s2)); [lia|].
  destruct Hel as [H1 H2]. split; [done|]. unfold turn in *. rewrite Hl in *. rewrite Hord in H2.
  rewrite lookup_app_l in H2 by lia. destruct (order c rs !! cur s2) as [r0|] eqn:E; [|done].
  assert (Hin : r0 ∈ rs) by (rewrite <- (order_perm c rs Hgr); eapply elem_of_list_lookup_2; exact E).
  assert (Hgsz : group_size (rs ++ [r]) (rg_prio r0) = group_size rs (rg_prio r0)).
  { unfold group_size. rewrite with_prio_app. rewrite Forall_forall in Hlow. specialize (Hlow r0 Hin).
    unfold with_prio at 2. rewrite filter_cons_False by lia. rewrite filter_nil, app_nil_r. done. }
  rewrite Hgsz in H2. rewrite H2. unfold rank. rewrite Hord. rewrite take_app_le by lia. done.
Qed.

(** C24 *)
Lemma task_init_size c stack count b n : wf_config c -> cfg_lite c = false -> line_geometry c ->
  stack mod cfg_ssize c = 0 -> count < 2 ^ cfg_szbits c ->
  task_init c stack count = Ok (b, n) ->
  count - 2 * (cfg_line c / cfg_ssize c - 1) <= n <= count
  /\ (stack mod cfg_line c = 0 -> count mod (cfg_line c / cfg_ssize c) = 0 ->
      b = stack /\ n = count /\ cfg_minstack c <= n).
Proof.
  intros H1 H2 H3 H4 H5 H6.
  destruct (task_init_spec c stack count b n H1 H2 H3 H4 H5 H6) as (_ & _ & _ & _ & _ & Hn & Ha).
  split; [done|]. intros A B. destruct (Ha A B) as [-> ->]. split; [done|]. split; [done|].
  unfold task_init, assert_fatal in H6. destruct (Z.geb_spec count (cfg_minstack c)); [lia|done].
Qed.
