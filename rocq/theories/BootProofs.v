(** BootProofs.v - what picoRTOS_init, picoRTOS_add_task* and picoRTOS_start leave in memory. *)
From Verif Require Import Base SchedModel SchedSpec SortProofs.
From Coq Require Import ZifyBool ZifyNat.

Definition T0 (c : config) : task := task_core_init c (task_count c).

Definition idle_reg (c : config) : option reg :=
  match task_init c (cfg_idlestk c) (cfg_minstack c) with
  | Ok (b, n) => Some (mkReg b n (cfg_idlesp c) (Z.of_nat (cfg_n c)) 0)
  | _ => None
  end.

Lemma task_init_idle c : exists b n, task_init c (cfg_idlestk c) (cfg_minstack c) = Ok (b, n).
Proof.
  unfold task_init, assert_fatal.
  destruct (cfg_minstack c >=? cfg_minstack c) eqn:E; [|lia].
  destruct (cfg_lite c); eauto.
Qed.

Lemma idle_reg_some c : exists r, idle_reg c = Some r.
Proof. unfold idle_reg. destruct (task_init_idle c) as (b & n & ->). eauto. Qed.

Lemma wf_prio c : wf_config c -> wrap (cfg_pbits c) (Z.of_nat (cfg_n c)) = Z.of_nat (cfg_n c).
Proof. intros H. apply wrap_small. unfold wf_config in H. lia. Qed.
Lemma wf_pid c : wf_config c -> wrap (cfg_pidbits c) (Z.of_nat (cfg_n c)) = Z.of_nat (cfg_n c).
Proof. intros H. apply wrap_small. unfold wf_config in H. lia. Qed.
Lemma T0_prio c : wf_config c -> t_prio (T0 c) = Z.of_nat (cfg_n c) + 1.
Proof. intros H. unfold T0, task_core_init, task_count. cbn. apply wrap_small. unfold wf_config in H. lia. Qed.
Lemma idle_pid_n c : idle_pid c = Z.of_nat (cfg_n c).
Proof. unfold idle_pid, task_count. lia. Qed.

Lemma wrap_m1 w : 0 < w -> wrap w (-1) = 2 ^ w - 1.
Proof.
  intros H. unfold wrap.
  rewrite <- (Z.mod_unique (-1) (2 ^ w) (-1) (2 ^ w - 1)); try lia.
Qed.

Lemma replicate_S_end {A} n (x : A) : replicate (S n) x = replicate n x ++ [x].
Proof. induction n as [|n IH]; [done|]. cbn [replicate app]. f_equal. exact IH. Qed.

Lemma init_ok c ir : wf_config c -> idle_reg c = Some ir ->
  init c = Ok (mkCore false false (Z.of_nat (cfg_n c)) (2 ^ cfg_tbits c - 1) 0
                 (replicate (cfg_n c) (T0 c) ++ [fill_slot c (T0 c) ir]) (replicate (S (cfg_n c)) 1) []).
Proof.
  intros Hwf Hir. unfold init, idle_init. unfold idle_reg in Hir.
  destruct (task_init_idle c) as (b & n & E). rewrite E in *. injection Hir as <-. cbn [rbind fst snd].
  rewrite idle_pid_n. unfold get_task, put_task. cbn [c_task].
  assert (Hl : replicate (S (cfg_n c)) (task_core_init c (task_count c)) !! cfg_n c = Some (T0 c)).
  { apply lookup_replicate_2. lia. }
  rewrite (aget_ok _ _ _ Hl). cbn [rbind].
  rewrite aset_ok by (rewrite replicate_length; lia). cbn [rbind].
  unfold with_tick, with_index, with_task. cbn [c_running c_postponed c_index c_tick c_pidcount c_task c_sub c_stray].
  rewrite wf_pid, wf_prio by done. rewrite wrap_m1 by apply Hwf.
  f_equal. f_equal.
  change (task_core_init c (task_count c)) with (T0 c).
  rewrite replicate_S_end. rewrite insert_app_r_alt by (rewrite replicate_length; lia).
  rewrite replicate_length, Nat.sub_diag. done.
Qed.

(** * picoRTOS_add_task on the full scheduler *)

(** State during registration: [k] slots used by [rs]. *)
Definition reg_state (c : config) (ir : reg) (rs : list reg) : core :=
  mkCore false false (Z.of_nat (cfg_n c)) (2 ^ cfg_tbits c - 1) (Z.of_nat (length rs))
    (map (fill_slot c (T0 c)) rs ++ replicate (cfg_n c - length rs) (T0 c) ++ [fill_slot c (T0 c) ir])
    (replicate (S (cfg_n c)) 1) [].

Lemma add_task_full_step c ir rs r : wf_config c -> (length rs <= cfg_n c)%nat ->
  add_task_full c (reg_state c ir rs) r =
  if (rg_prio r <? Z.of_nat (cfg_n c)) && (length rs <? cfg_n c)%nat
  then Ok (reg_state c ir (rs ++ [r])) else Fatal.
Proof.
  intros Hwf Hlen. unfold add_task_full, assert_fatal. rewrite wf_prio, wf_pid by done.
  destruct (rg_prio r <? Z.of_nat (cfg_n c)) eqn:E1; cbn [andb]; [|done].
  cbn [c_pidcount reg_state].
  destruct (Nat.ltb_spec (length rs) (cfg_n c)) as [E2|E2];
    destruct (Z.ltb_spec (Z.of_nat (length rs)) (Z.of_nat (cfg_n c))); try lia; [|done].
  unfold get_task, put_task, reg_state. cbn [c_task].
  destruct (cfg_n c - length rs)%nat as [|k] eqn:Ek; [lia|].
  assert (Hl : (map (fill_slot c (T0 c)) rs ++ replicate (S k) (T0 c) ++ [fill_slot c (T0 c) ir]) !! length rs
               = Some (T0 c)).
  { rewrite lookup_app_r by (rewrite map_length; lia). rewrite map_length, Nat.sub_diag. done. }
  rewrite (aget_ok _ _ _ Hl). cbn [rbind].
  rewrite bool_decide_eq_true_2 by done.
  rewrite aset_ok by (apply lookup_lt_Some in Hl; done). cbn [rbind].
  unfold with_pidcount, with_task. cbn [c_running c_postponed c_index c_tick c_pidcount c_task c_sub c_stray].
  rewrite wrap_small by (unfold wf_config in Hwf; lia).
  rewrite app_length. cbn [length]. rewrite Nat2Z.inj_add.
  f_equal. f_equal.
  rewrite insert_app_r_alt by (rewrite map_length; lia). rewrite map_length, Nat.sub_diag.
  rewrite map_app. cbn. rewrite <- app_assoc. cbn. f_equal. f_equal. f_equal. f_equal. lia.
Qed.

Lemma add_tasks_full c ir rs2 : forall rs1,
  wf_config c -> cfg_lite c = false -> (length rs1 <= cfg_n c)%nat ->
  add_tasks c (reg_state c ir rs1) rs2 =
  if decide (Forall (fun r => rg_prio r < Z.of_nat (cfg_n c)) rs2 /\ (length (rs1 ++ rs2) <= cfg_n c)%nat)
  then Ok (reg_state c ir (rs1 ++ rs2)) else Fatal.
Proof.
  induction rs2 as [|r rs2 IH]; intros rs1 Hwf Hl Hlen; cbn [add_tasks].
  - rewrite app_nil_r. rewrite decide_True; [done|]. split; [constructor|done].
  - unfold add_task. rewrite Hl, add_task_full_step by done.
    destruct (rg_prio r <? Z.of_nat (cfg_n c)) eqn:E1; cbn [andb].
    + destruct (Nat.ltb_spec (length rs1) (cfg_n c)) as [E2|E2]; cbn [rbind].
      * rewrite IH; [|done|done|rewrite app_length; cbn; lia].
        rewrite <- app_assoc. cbn [app].
        destruct (decide _) as [H|H]; destruct (decide _) as [H'|H']; try done; exfalso.
        -- apply H'. destruct H as [H1 H2]. split; [constructor; [lia|done]|done].
        -- apply H. destruct H' as [H1 H2]. inversion H1; subst. done.
      * rewrite decide_False; [done|]. intros [_ H]. rewrite app_length in H. cbn in H. lia.
    + cbn [rbind]. rewrite decide_False; [done|]. intros [H _]. inversion H; subst. lia.
Qed.

Lemma reg_state_nil c ir : wf_config c -> idle_reg c = Some ir -> init c = Ok (reg_state c ir []).
Proof. intros Hwf H. rewrite (init_ok c ir) by done. unfold reg_state. cbn. rewrite Nat.sub_0_r. done. Qed.

(** * picoRTOS_start on the full scheduler *)

Definition user_slots (c : config) (rs : list reg) : list task :=
  map (fill_slot c (T0 c)) rs ++ replicate (cfg_n c - length rs) (T0 c).

Definition sorted_slots (c : config) (rs : list reg) : list task := user_slots c (order c rs).

Lemma fill_prio c t r : t_prio (fill_slot c t r) = rg_prio r.
Proof. done. Qed.

Lemma uniform_slots c rs ir : uniform (user_slots c rs ++ [fill_slot c (T0 c) ir]).
Proof.
  assert (H : forall t, t ∈ user_slots c rs ++ [fill_slot c (T0 c) ir] ->
              quickcpy (T0 c) t = t /\ t_tick t = t_tick (T0 c) /\ t_counter t = t_counter (T0 c)
              /\ t_wlo t = t_wlo (T0 c) /\ t_whi t = t_whi (T0 c) /\ t_smiss t = t_smiss (T0 c)
              /\ t_sub t = t_sub (T0 c) /\ t_miss t = t_miss (T0 c)).
  { intros t Ht. apply elem_of_app in Ht as [Ht|Ht].
    - apply elem_of_app in Ht as [Ht|Ht].
      + apply elem_of_list_fmap in Ht as (r & -> & _). done.
      + apply elem_of_replicate in Ht as [-> _]. done.
    - apply elem_of_list_singleton in Ht as ->. done. }
  intros a b Ha Hb. destruct (H a Ha) as (_ & Ha1). destruct (H b Hb) as (Hb0 & Hb1).
  unfold same_rest, quickcpy. destruct a, b. cbn in *. destruct_and!. subst. done.
Qed.

Lemma filter_map_fill c p rs :
  filter (fun t => t_prio t = p) (map (fill_slot c (T0 c)) rs) = map (fill_slot c (T0 c)) (with_prio p rs).
Proof.
  induction rs as [|r rs IH]; [done|]. cbn [map]. unfold with_prio in *. rewrite !filter_cons.
  rewrite fill_prio. destruct (decide (rg_prio r = p)); cbn [map]; rewrite IH; done.
Qed.

Lemma filter_replicate_true {A} (P : A -> Prop) `{!forall x, Decision (P x)} n x :
  P x -> filter P (replicate n x) = replicate n x.
Proof. intros HP. induction n as [|n IH]; [done|]. cbn [replicate]. rewrite filter_cons_True by done. rewrite IH. done. Qed.
Lemma filter_replicate_false {A} (P : A -> Prop) `{!forall x, Decision (P x)} n x :
  ~ P x -> filter P (replicate n x) = [].
Proof. intros HP. induction n as [|n IH]; [done|]. cbn [replicate]. rewrite filter_cons_False by done. done. Qed.

Lemma order_bykey c rs : order c rs = bykey rg_prio (cfg_n c) rs.
Proof. done. Qed.

Definition good_regs (c : config) (rs : list reg) : Prop :=
  Forall (fun r => 0 <= rg_prio r < Z.of_nat (cfg_n c)) rs /\ (length rs <= cfg_n c)%nat.

#[global] Instance good_regs_dec c rs : Decision (good_regs c rs).
Proof. unfold good_regs. apply _. Defined.

Lemma order_perm c rs : good_regs c rs -> order c rs ≡ₚ rs.
Proof. intros [H _]. apply bykey_perm. done. Qed.
Lemma order_length c rs : good_regs c rs -> length (order c rs) = length rs.
Proof. intros H. rewrite order_perm by done. done. Qed.
Lemma order_asc c rs : asc rg_prio (order c rs).
Proof. apply bykey_asc. Qed.
Lemma order_with_prio c rs p : good_regs c rs -> with_prio p (order c rs) = with_prio p rs.
Proof.
  intros [H _]. rewrite order_bykey.
  assert (G : forall m, with_prio p (bykey rg_prio m rs) =
              if decide (0 <= p < Z.of_nat m) then with_prio p rs else []).
  { induction m as [|m IH].
    - rewrite decide_False by lia. done.
    - rewrite bykey_S. unfold with_prio in *. rewrite filter_app, IH, list_filter_filter.
      destruct (decide (p = Z.of_nat m)) as [->|Hne].
      + rewrite decide_False by lia. rewrite decide_True by lia. cbn. apply list_filter_iff. intros. tauto.
      + replace (filter (fun x => rg_prio x = p /\ rg_prio x = Z.of_nat m) rs) with (@nil reg).
        * rewrite app_nil_r. destruct (decide _), (decide _); try done; lia.
        * symmetry.
          clear -Hne. induction rs as [|x l IHl]; [done|]. rewrite filter_cons_False by lia. done. }
  rewrite G. destruct (decide _) as [Hp|Hp]; [done|]. symmetry.
  unfold with_prio. clear G. induction rs as [|x l IHl]; [done|]. inversion H; subst.
  rewrite filter_cons_False by lia. auto.
Qed.

Lemma good_order c rs : good_regs c rs -> good_regs c (order c rs).
Proof. intros H. assert (P := order_perm c rs H). destruct H as [H1 H2]. split; rewrite P; done. Qed.

Lemma bykey_user_slots c rs : wf_config c -> good_regs c rs ->
  bykey t_prio (S (S (cfg_n c))) (user_slots c rs) = sorted_slots c rs.
Proof.
  intros Hwf Hg. assert (Hp := T0_prio c Hwf). destruct Hg as [Hg1 Hg2].
  rewrite !bykey_S. unfold user_slots, sorted_slots, user_slots.
  rewrite order_length by done.
  rewrite !filter_app, !filter_map_fill.
  rewrite (filter_replicate_false _ _ (T0 c)) by lia.
  rewrite (filter_replicate_true _ _ (T0 c)) by lia.
  assert (E1 : forall p, Z.of_nat (cfg_n c) <= p -> with_prio p rs = []).
  { intros p Hpp. unfold with_prio. clear -Hg1 Hpp. induction rs as [|x l IHl]; [done|].
    inversion Hg1; subst. rewrite filter_cons_False by lia. auto. }
  rewrite !E1 by lia. cbn [map app]. rewrite app_nil_r. f_equal.
  assert (E2 : forall m, (m <= cfg_n c)%nat ->
    bykey t_prio m (map (fill_slot c (T0 c)) rs ++ replicate (cfg_n c - length rs) (T0 c))
    = map (fill_slot c (T0 c)) (bykey rg_prio m rs)).
  { induction m as [|m IH]; intros Hm; [done|]. rewrite !bykey_S, IH by lia.
    rewrite filter_app, filter_map_fill. rewrite (filter_replicate_false _ _ (T0 c)) by lia.
    rewrite app_nil_r, map_app. done. }
  apply E2. done.
Qed.

Definition boot_state (c : config) (ir : reg) (rs : list reg) : core :=
  mkCore true false (Z.of_nat (cfg_n c)) (2 ^ cfg_tbits c - 1) (Z.of_nat (length rs))
    (arr (sorted_slots c rs) ++ [fill_slot c (T0 c) ir])
    (subs_of (S (cfg_n c)) (sorted_slots c rs)) (strays (S (cfg_n c)) (sorted_slots c rs)).

Lemma user_slots_length c rs : (length rs <= cfg_n c)%nat -> length (user_slots c rs) = cfg_n c.
Proof. intros H. unfold user_slots. rewrite app_length, map_length, replicate_length. lia. Qed.

Lemma user_slots_range c rs : wf_config c -> good_regs c rs ->
  Forall (fun t => 0 <= t_prio t < Z.of_nat (S (S (cfg_n c))) /\ t_sub t = 0) (user_slots c rs).
Proof.
  intros Hwf [H1 H2]. unfold user_slots. apply Forall_app. split.
  - apply Forall_map. eapply Forall_impl; [exact H1|]. cbn. intros. split; [lia|done].
  - apply Forall_replicate. rewrite T0_prio by done. split; [lia|done].
Qed.

Lemma start_full c tmp0 ir rs : wf_config c -> cfg_lite c = false -> good_regs c rs ->
  start c tmp0 (reg_state c ir rs) = Ok (boot_state c ir rs).
Proof.
  intros Hwf Hl Hg. unfold start. rewrite Hl. cbn [c_task reg_state c_sub c_stray].
  rewrite app_assoc. fold (user_slots c rs).
  assert (Hlen : length (user_slots c rs) = cfg_n c) by (apply user_slots_length, Hg).
  assert (Hr := user_slots_range c rs Hwf Hg).
  rewrite <- Hlen at 1.
  rewrite (sort_tasks_spec _ _ _ (S (S (cfg_n c)))).
  2:{ rewrite Hlen. apply Hwf. }
  2:{ apply uniform_slots. }
  2:{ eapply Forall_impl; [exact Hr|]. cbn. intros; lia. }
  cbn [rbind]. rewrite bykey_user_slots by done.
  assert (Hg' := good_order c rs Hg).
  assert (Hlen' : length (sorted_slots c rs) = cfg_n c) by (apply user_slots_length, Hg').
  assert (Hr' := user_slots_range c (order c rs) Hwf Hg'). fold (sorted_slots c rs) in Hr'.
  rewrite <- Hlen' at 1.
  rewrite arrange_spec.
  2:{ apply Hwf. }
  2:{ rewrite Hlen'. apply Hwf. }
  2:{ rewrite <- bykey_user_slots by done. apply bykey_asc. }
  2:{ eapply Forall_impl; [exact Hr'|]. cbn. intros; lia. }
  2:{ rewrite Hlen'. unfold wf_config in Hwf. lia. }
  cbn [rbind]. reflexivity.
Qed.

Lemma boot_full c tmp0 rs ir : wf_config c -> cfg_lite c = false -> regs_typed rs ->
  idle_reg c = Some ir ->
  boot c tmp0 rs = if decide (good_regs c rs) then Ok (boot_state c ir rs) else Fatal.
Proof.
  intros Hwf Hl Ht Hir. unfold boot. rewrite (reg_state_nil c ir) by done. cbn [rbind].
  rewrite add_tasks_full by (done || cbn; lia). cbn [app].
  destruct (decide _) as [H|H]; destruct (decide (good_regs c rs)) as [H'|H']; cbn [rbind].
  - apply start_full; done.
  - exfalso. apply H'. destruct H as [H1 H2]. split; [|done].
    unfold regs_typed in Ht. rewrite Forall_forall in *. intros r Hr. specialize (H1 r Hr). specialize (Ht r Hr). lia.
  - exfalso. apply H. destruct H' as [H1 H2]. split; [|done].
    eapply Forall_impl; [exact H1|]. cbn. intros; lia.
  - done.
Qed.
