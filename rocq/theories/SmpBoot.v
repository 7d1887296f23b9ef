(** SmpBoot.v - what picoRTOS_init, picoRTOS_SMP_add_task* and picoRTOS_start leave in memory (SMP). *)
From Verif Require Import Base SchedModel SchedSpec SortProofs BootProofs SchedProofs SmpModel SmpSpec.
From Coq Require Import ZifyBool ZifyNat.

Lemma sort_tasks_suf tmp0 us suf m :
  (1 <= length us)%nat ->
  uniform (us ++ suf) ->
  Forall (fun t => 0 <= t_prio t < Z.of_nat m) us ->
  sort_tasks (length us) tmp0 (us ++ suf) = Ok (bykey t_prio m us ++ suf).
Proof.
  intros Hn Hu Hf. destruct us as [|x us]; [cbn in Hn; lia|].
  unfold sort_tasks. cbn [length]. replace (S (length us) - 1)%nat with (length us) by lia.
  destruct (sort_loop_spec tmp0 us [x] suf) as (r' & Hr & Hd & Hl & Hp & Hfl).
  - cbn. cbn in Hu. done.
  - repeat constructor.
  - cbn [length rev app] in *. rewrite Hr. f_equal. f_equal.
    rewrite (asc_bykey t_prio m (rev r')).
    + unfold bykey. f_equal. apply map_ext. intros p. apply Hfl.
    + apply desc_asc_rev. done.
    + rewrite Hp. done.
Qed.

Definition T0m (g : smpcfg) : task := task_core_init (m_base g) (m_taskcount g).

Definition idle_regm (g : smpcfg) (i : nat) : reg :=
  match task_init (m_base g) (m_idlestk g i) (cfg_minstack (m_base g)) with
  | Ok (b, n) => mkReg b n (m_idlesp g i) (Z.of_nat (cfg_n (m_base g))) (2 ^ Z.of_nat i)
  | _ => mkReg 0 0 0 0 0
  end.
Definition idle_slot (g : smpcfg) (i : nat) : task := m_fill (m_base g) (T0m g) (idle_regm g i).

Lemma task_init_min c stk : exists b n, task_init c stk (cfg_minstack c) = Ok (b, n).
Proof.
  unfold task_init, assert_fatal.
  destruct (cfg_minstack c >=? cfg_minstack c) eqn:E; [|lia].
  destruct (cfg_lite c); eauto.
Qed.

Lemma core_bit_pow g k : wf_smp g -> (k <= m_cores g)%nat -> core_bit g (Z.of_nat k) = 2 ^ Z.of_nat k.
Proof.
  intros Hw Hk. unfold core_bit. rewrite Z.shiftl_1_l. apply wrap_small.
  destruct Hw as (_ & _ & _ & _ & _ & _ & _ & _ & _ & _ & _ & _ & _ & H). split; [lia|].
  apply Z.pow_lt_mono_r; lia.
Qed.

Lemma wfm_pid g x : wf_smp g -> 0 <= x <= m_taskcount g -> wrap (cfg_pidbits (m_base g)) x = x.
Proof. intros Hw Hx. apply wrap_small. unfold wf_smp, m_taskcount in *. lia. Qed.
Lemma wfm_prio g x : wf_smp g -> 0 <= x <= m_taskcount g -> wrap (cfg_pbits (m_base g)) x = x.
Proof. intros Hw Hx. apply wrap_small. unfold wf_smp, m_taskcount in *. lia. Qed.
Lemma T0m_prio g : wf_smp g -> t_prio (T0m g) = m_taskcount g.
Proof. intros Hw. cbn. apply wfm_prio; [done|]. unfold m_taskcount. lia. Qed.

Lemma mget_ok s i t : m_task s !! i = Some t -> mget s (Z.of_nat i) = Ok t.
Proof. apply aget_ok. Qed.
Lemma mput_ok s i t : (i < length (m_task s))%nat ->
  mput s (Z.of_nat i) t = Ok (mw_task s (<[i := t]> (m_task s))).
Proof. intros H. unfold mput. rewrite aset_ok by done. done. Qed.

Lemma m_idle_init_spec g k : forall i s, wf_smp g -> (i + k <= m_cores g)%nat ->
  m_task s = replicate (cfg_n (m_base g)) (T0m g) ++ map (idle_slot g) (seq 0 i) ++ replicate k (T0m g) ->
  m_idle_init g k i s =
    Ok (mw_task s (replicate (cfg_n (m_base g)) (T0m g) ++ map (idle_slot g) (seq 0 (i + k)))).
Proof.
  induction k as [|k IH]; intros i s Hw Hik Hs; cbn [m_idle_init].
  - rewrite app_nil_r in Hs. rewrite Nat.add_0_r, <- Hs. destruct s; done.
  - destruct (task_init_min (m_base g) (m_idlestk g i)) as (b & n & E). rewrite E. cbn [rbind fst snd].
    rewrite wfm_pid by (done || (unfold m_idlepid, m_taskcount; lia)).
    unfold m_idlepid. rewrite <- Nat2Z.inj_add.
    assert (Hlk : m_task s !! (cfg_n (m_base g) + i)%nat = Some (T0m g)).
    { rewrite Hs. rewrite lookup_app_r by (rewrite replicate_length; lia). rewrite replicate_length.
      rewrite lookup_app_r by (rewrite map_length, seq_length; lia). rewrite map_length, seq_length.
      replace (_ - _ - _)%nat with 0%nat by lia. done. }
    rewrite (mget_ok _ _ _ Hlk). cbn [rbind].
    rewrite mput_ok by (apply lookup_lt_Some in Hlk; done). cbn [rbind].
    rewrite wfm_prio by (done || (unfold m_taskcount; lia)). rewrite core_bit_pow by (done || lia).
    rewrite (IH (S i)); [|done|lia|].
    + replace (S i + k)%nat with (i + S k)%nat by lia. destruct s; done.
    + cbn [m_task mw_task]. rewrite Hs.
      rewrite insert_app_r_alt by (rewrite replicate_length; lia). rewrite replicate_length.
      rewrite insert_app_r_alt by (rewrite map_length, seq_length; lia). rewrite map_length, seq_length.
      replace (_ - _ - _)%nat with 0%nat by lia. cbn [replicate]. f_equal.
      rewrite seq_S, map_app. rewrite <- app_assoc. cbn [map app Nat.add]. f_equal.
      change (<[0%nat := ?x]> (?y :: ?l)) with (x :: l). f_equal.
      unfold idle_slot, idle_regm. rewrite E. done.
Qed.

Definition m_regstate (g : smpcfg) (rs : list reg) : smp :=
  let c := m_base g in
  mkSmp false false (map (fun i => Z.of_nat (idle_of g i)) (seq 0 (m_cores g)))
    (2 ^ cfg_tbits c - 1) (Z.of_nat (length rs)) 0
    ((map (m_fill c (T0m g)) rs ++ replicate (cfg_n c - length rs) (T0m g))
       ++ map (idle_slot g) (seq 0 (m_cores g)))
    (replicate (cfg_n c + m_cores g) 1) [].

Lemma m_init_ok g : wf_smp g -> m_init g = Ok (m_regstate g []).
Proof.
  intros Hw. unfold m_init.
  erewrite m_idle_init_spec; [|done|lia|].
  2:{ cbn. rewrite replicate_add. done. }
  cbn [rbind]. unfold m_regstate, mw_postponed, mw_running, mw_counter, mw_index, mw_tick, mw_task. cbn.
  rewrite wrap_m1 by (unfold wf_smp in Hw; lia). rewrite Nat.sub_0_r. f_equal. f_equal.
  apply map_ext_in. intros i Hi%in_seq. rewrite wfm_pid.
  - unfold m_idlepid, idle_of. lia.
  - done.
  - unfold m_idlepid, m_taskcount. lia.
Qed.

Definition m_good (g : smpcfg) (rs : list reg) : Prop :=
  Forall (fun r => 0 <= rg_prio r < Z.of_nat (cfg_n (m_base g)) /\ 0 < rg_mask r < 2 ^ Z.of_nat (m_cores g)) rs
  /\ (length rs <= cfg_n (m_base g))%nat.
#[global] Instance m_good_dec g rs : Decision (m_good g rs).
Proof. unfold m_good. apply _. Defined.

Lemma m_smp_add_step g rs r : wf_smp g -> (length rs <= cfg_n (m_base g))%nat ->
  m_smp_add g (m_regstate g rs) r =
  if negb (rg_mask r =? 0) && (rg_mask r <? 2 ^ Z.of_nat (m_cores g))
     && (rg_prio r <? Z.of_nat (cfg_n (m_base g))) && (length rs <? cfg_n (m_base g))%nat
  then Ok (m_regstate g (rs ++ [r])) else Fatal.
Proof.
  intros Hw Hlen. unfold m_smp_add, assert_fatal.
  rewrite core_bit_pow by (done || lia).
  rewrite wfm_prio, wfm_pid by (done || (unfold m_taskcount; lia)).
  destruct (negb (rg_mask r =? 0)); cbn [andb]; [|done].
  destruct (rg_mask r <? _); cbn [andb]; [|done].
  destruct (rg_prio r <? _); cbn [andb]; [|done].
  cbn [m_pidcount m_regstate].
  destruct (Nat.ltb_spec (length rs) (cfg_n (m_base g))) as [E2|E2];
    destruct (Z.ltb_spec (Z.of_nat (length rs)) (Z.of_nat (cfg_n (m_base g)))); try lia; [|done].
  destruct (cfg_n (m_base g) - length rs)%nat as [|k] eqn:Ek; [lia|].
  assert (Hl : m_task (m_regstate g rs) !! length rs = Some (T0m g)).
  { cbn. rewrite Ek. rewrite lookup_app_l by (rewrite app_length, map_length, replicate_length; lia).
    rewrite lookup_app_r by (rewrite map_length; lia). rewrite map_length, Nat.sub_diag. done. }
  rewrite (mget_ok _ _ _ Hl). cbn [rbind].
  rewrite bool_decide_eq_true_2 by done.
  rewrite mput_ok by (apply lookup_lt_Some in Hl; done). cbn [rbind].
  unfold mw_pidcount, mw_task, m_regstate. cbn [m_running m_postponed m_index m_tick m_pidcount m_counter m_task m_sub m_stray].
  rewrite Ek. rewrite wfm_pid by (done || (unfold m_taskcount; lia)).
  rewrite app_length. cbn [length]. rewrite Nat2Z.inj_add.
  f_equal. f_equal.
  rewrite insert_app_l by (rewrite app_length, map_length, replicate_length; lia). f_equal.
  rewrite insert_app_r_alt by (rewrite map_length; lia). rewrite map_length, Nat.sub_diag.
  rewrite map_app, <- app_assoc. cbn. f_equal. f_equal. f_equal. lia.
Qed.

Lemma m_adds_spec g rs2 : forall rs1, wf_smp g -> smp_typed rs2 -> m_good g rs1 ->
  m_adds g (m_regstate g rs1) rs2 =
  if decide (m_good g (rs1 ++ rs2)) then Ok (m_regstate g (rs1 ++ rs2)) else Fatal.
Proof.
  induction rs2 as [|r rs2 IH]; intros rs1 Hw Ht Hg; cbn [m_adds].
  - rewrite app_nil_r. rewrite decide_True by done. done.
  - inversion Ht as [|? ? [Hr Hr'] Ht']; subst. rewrite m_smp_add_step by (done || apply Hg).
    destruct (_ && _) eqn:E; cbn [rbind].
    + assert (G : m_good g (rs1 ++ [r])).
      { destruct Hg as [H1 H2]. split; [apply Forall_app; split; [done|repeat constructor; lia]|].
        rewrite app_length. cbn. lia. }
      rewrite IH by done. rewrite <- app_assoc. done.
    + rewrite decide_False; [done|]. intros [H1 H2]. apply Forall_app in H1 as [_ H1]. inversion H1; subst.
      rewrite app_length in H2. cbn in H2. lia.
Qed.

Definition m_users (g : smpcfg) (rs : list reg) : list task :=
  map (m_fill (m_base g) (T0m g)) rs ++ replicate (cfg_n (m_base g) - length rs) (T0m g).
Definition m_sorted (g : smpcfg) (rs : list reg) : list task := m_users g (order (m_base g) rs).
Definition m_idles (g : smpcfg) : list task := map (idle_slot g) (seq 0 (m_cores g)).

Lemma m_good_regs g rs : m_good g rs -> good_regs (m_base g) rs.
Proof. intros [H1 H2]. split; [|done]. eapply Forall_impl; [exact H1|]. cbn. lia. Qed.

Lemma m_uniform g rs : uniform (m_users g rs ++ m_idles g).
Proof.
  assert (H : forall t, t ∈ m_users g rs ++ m_idles g ->
              quickcpy (T0m g) t = t /\ t_tick t = t_tick (T0m g) /\ t_counter t = t_counter (T0m g)
              /\ t_wlo t = t_wlo (T0m g) /\ t_whi t = t_whi (T0m g) /\ t_smiss t = t_smiss (T0m g)
              /\ t_sub t = t_sub (T0m g) /\ t_miss t = t_miss (T0m g)).
  { intros t Ht. apply elem_of_app in Ht as [Ht|Ht].
    - apply elem_of_app in Ht as [Ht|Ht].
      + apply elem_of_list_fmap in Ht as (r & -> & _). done.
      + apply elem_of_replicate in Ht as [-> _]. done.
    - apply elem_of_list_fmap in Ht as (r & -> & _). done. }
  intros a b Ha Hb. destruct (H a Ha) as (_ & Ha1). destruct (H b Hb) as (Hb0 & Hb1).
  unfold same_rest, quickcpy. destruct a, b. cbn in *. destruct_and!. subst. done.
Qed.

Lemma filter_map_mfill g p rs :
  filter (fun t => t_prio t = p) (map (m_fill (m_base g) (T0m g)) rs)
  = map (m_fill (m_base g) (T0m g)) (with_prio p rs).
Proof.
  induction rs as [|r rs IH]; [done|]. cbn [map]. unfold with_prio in *. rewrite !filter_cons.
  change (t_prio (m_fill (m_base g) (T0m g) r)) with (rg_prio r).
  destruct (decide (rg_prio r = p)); cbn [map]; rewrite IH; done.
Qed.

Lemma with_prio_big g rs p : m_good g rs -> Z.of_nat (cfg_n (m_base g)) <= p -> with_prio p rs = [].
Proof.
  intros [Hg _] Hp. unfold with_prio. induction rs as [|x l IHl]; [done|].
  inversion Hg; subst. rewrite filter_cons_False by lia. auto.
Qed.

Lemma bykey_m_users g rs : wf_smp g -> m_good g rs ->
  bykey t_prio (S (cfg_n (m_base g) + m_cores g)) (m_users g rs) = m_sorted g rs.
Proof.
  intros Hw Hg. assert (Hp := T0m_prio g Hw).
  assert (Hol := order_length _ _ (m_good_regs g rs Hg)).
  unfold m_sorted, m_users at 2. rewrite Hol.
  assert (E2 : forall m, (m <= cfg_n (m_base g))%nat ->
    bykey t_prio m (m_users g rs) = map (m_fill (m_base g) (T0m g)) (bykey rg_prio m rs)).
  { induction m as [|m IH]; intros Hm; [done|]. rewrite !bykey_S, IH by lia.
    unfold m_users. rewrite filter_app, filter_map_mfill.
    rewrite (filter_replicate_false _ _ (T0m g)) by (unfold m_taskcount in Hp; lia).
    rewrite app_nil_r, map_app. done. }
  assert (E3 : forall d, (d <= m_cores g)%nat ->
    bykey t_prio (cfg_n (m_base g) + d) (m_users g rs) = map (m_fill (m_base g) (T0m g)) (order (m_base g) rs)).
  { induction d as [|d IH]; intros Hd.
    - rewrite Nat.add_0_r. rewrite E2 by lia. done.
    - rewrite Nat.add_succ_r, bykey_S, IH by lia.
      unfold m_users. rewrite filter_app, filter_map_mfill.
      rewrite (filter_replicate_false _ _ (T0m g)) by (unfold m_taskcount in Hp; lia).
      rewrite (with_prio_big g) by (done || lia). cbn [map app]. rewrite ?app_nil_r. done. }
  rewrite bykey_S, E3 by lia. f_equal.
  unfold m_users. rewrite filter_app, filter_map_mfill.
  rewrite (filter_replicate_true _ _ (T0m g)) by (unfold m_taskcount in Hp; lia).
  rewrite (with_prio_big g) by (done || lia). done.
Qed.

Definition m_bootstate (g : smpcfg) (rs : list reg) : smp :=
  mkSmp true false (map (fun i => Z.of_nat (idle_of g i)) (seq 0 (m_cores g)))
    (2 ^ cfg_tbits (m_base g) - 1) (Z.of_nat (length rs)) 0
    (arr (m_sorted g rs) ++ m_idles g)
    (subs_of (cfg_n (m_base g) + m_cores g) (m_sorted g rs))
    (strays (cfg_n (m_base g) + m_cores g) (m_sorted g rs)).

Lemma m_users_length g rs : (length rs <= cfg_n (m_base g))%nat -> length (m_users g rs) = cfg_n (m_base g).
Proof. intros H. unfold m_users. rewrite app_length, map_length, replicate_length. lia. Qed.

Lemma m_good_order g rs : m_good g rs -> m_good g (order (m_base g) rs).
Proof.
  intros H. assert (P := order_perm _ rs (m_good_regs g rs H)). destruct H as [H1 H2].
  split; rewrite P; done.
Qed.

Lemma m_users_range g rs : wf_smp g -> m_good g rs ->
  Forall (fun t => 0 <= t_prio t < Z.of_nat (S (cfg_n (m_base g) + m_cores g)) /\ t_sub t = 0) (m_users g rs).
Proof.
  intros Hw [H1 H2]. unfold m_users. apply Forall_app. split.
  - apply Forall_map. eapply Forall_impl; [exact H1|]. cbn. intros. split; [lia|done].
  - apply Forall_replicate. rewrite T0m_prio by done. unfold m_taskcount. split; [lia|done].
Qed.

Lemma m_start_ok g tmp0 rs : wf_smp g -> m_good g rs ->
  m_start g tmp0 (m_regstate g rs) = Ok (m_bootstate g rs).
Proof.
  intros Hw Hg. unfold m_start. cbn [m_task m_regstate m_sub m_stray].
  fold (m_users g rs). fold (m_idles g).
  assert (Hlen : length (m_users g rs) = cfg_n (m_base g)) by (apply m_users_length, Hg).
  assert (Hr := m_users_range g rs Hw Hg).
  rewrite <- Hlen at 1.
  rewrite (sort_tasks_suf _ _ _ (S (cfg_n (m_base g) + m_cores g))).
  2:{ rewrite Hlen. unfold wf_smp in Hw. lia. }
  2:{ apply m_uniform. }
  2:{ eapply Forall_impl; [exact Hr|]. cbn. intros; lia. }
  cbn [rbind]. rewrite bykey_m_users by done.
  assert (Hg' := m_good_order g rs Hg).
  assert (Hlen' : length (m_sorted g rs) = cfg_n (m_base g)) by (apply m_users_length, Hg').
  assert (Hr' := m_users_range g (order (m_base g) rs) Hw Hg'). fold (m_sorted g rs) in Hr'.
  rewrite <- Hlen' at 1.
  rewrite arrange_spec.
  2:{ unfold wf_smp in Hw. lia. }
  2:{ rewrite Hlen'. unfold wf_smp in Hw. lia. }
  2:{ rewrite <- bykey_m_users by done. apply bykey_asc. }
  2:{ eapply Forall_impl; [exact Hr'|]. cbn. intros; lia. }
  2:{ rewrite Hlen'. unfold wf_smp in Hw. lia. }
  cbn [rbind]. reflexivity.
Qed.

Lemma m_boot_ok g tmp0 rs : wf_smp g -> smp_typed rs ->
  m_boot g tmp0 rs = if decide (m_good g rs) then Ok (m_bootstate g rs) else Fatal.
Proof.
  intros Hw Ht. unfold m_boot. rewrite m_init_ok by done. cbn [rbind].
  rewrite m_adds_spec by (done || (split; [constructor|cbn; lia])). cbn [app].
  destruct (decide (m_good g rs)); [|done]. cbn [rbind]. apply m_start_ok; done.
Qed.
