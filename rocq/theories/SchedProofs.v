(** SchedProofs.v - invariant of the single-core schedulers and characterisation of one event. *)
From Verif Require Import Base SchedModel SchedSpec SortProofs BootProofs.
From Coq Require Import ZifyBool ZifyNat.

(** * Lite registration *)
Definition lite_slots (c : config) (rs : list reg) : list task :=
  map (fun p => match head (with_prio (Z.of_nat p) rs) with
                | Some r => fill_slot c (T0 c) r | None => T0 c end) (seq 0 (cfg_n c)).

Definition lite_state (c : config) (ir : reg) (rs : list reg) : core :=
  mkCore false false (Z.of_nat (cfg_n c)) (2 ^ cfg_tbits c - 1) 0
    (lite_slots c rs ++ [fill_slot c (T0 c) ir]) (replicate (S (cfg_n c)) 1) [].

Definition good_lite (c : config) (rs : list reg) : Prop :=
  Forall (fun r => 0 <= rg_prio r < Z.of_nat (cfg_n c)) rs /\ NoDup (map rg_prio rs).
#[global] Instance good_lite_dec c rs : Decision (good_lite c rs).
Proof. unfold good_lite. apply _. Defined.

Lemma lite_slots_lookup c rs p : lite_slots c rs !! p =
  if decide (p < cfg_n c)%nat then
    Some (match head (with_prio (Z.of_nat p) rs) with
          | Some r => fill_slot c (T0 c) r | None => T0 c end)
  else None.
Proof.
  unfold lite_slots. rewrite list_lookup_fmap. destruct (decide _) as [H|H].
  - rewrite lookup_seq_lt by lia. done.
  - rewrite lookup_seq_ge by lia. done.
Qed.
Lemma lite_slots_length c rs : length (lite_slots c rs) = cfg_n c.
Proof. unfold lite_slots. rewrite map_length, seq_length. done. Qed.

Lemma with_prio_app p rs1 rs2 : with_prio p (rs1 ++ rs2) = with_prio p rs1 ++ with_prio p rs2.
Proof. apply filter_app. Qed.
Lemma with_prio_nil_iff p rs : with_prio p rs = [] <-> p ∉ map rg_prio rs.
Proof.
  unfold with_prio. induction rs as [|r rs IH]; cbn [map].
  - split; [intros _ H; inversion H|done].
  - rewrite filter_cons. destruct (decide (rg_prio r = p)) as [E|E].
    + split; [done|]. intros H. exfalso. apply H. rewrite E. left.
    + rewrite IH. rewrite elem_of_cons. split; [intros H [?|?]; [lia|done]|tauto].
Qed.

Lemma add_task_lite_step c ir rs r : wf_config c -> 0 <= rg_prio r ->
  add_task_lite c (lite_state c ir rs) r =
  if (rg_prio r <? Z.of_nat (cfg_n c)) && bool_decide (rg_prio r ∉ map rg_prio rs)
  then Ok (lite_state c ir (rs ++ [r])) else Fatal.
Proof.
  intros Hwf Hr. unfold add_task_lite, assert_fatal. rewrite wf_prio by done.
  destruct (Z.ltb_spec (rg_prio r) (Z.of_nat (cfg_n c))) as [E1|E1]; cbn [andb]; [|done].
  unfold get_task, put_task, lite_state. cbn [c_task].
  set (p := Z.to_nat (rg_prio r)). assert (Hp : rg_prio r = Z.of_nat p) by lia.
  rewrite Hp.
  assert (Hl := lite_slots_lookup c rs p). rewrite decide_True in Hl by lia.
  assert (Hl2 : (lite_slots c rs ++ [fill_slot c (T0 c) ir]) !! p =
     Some (match head (with_prio (Z.of_nat p) rs) with
           | Some r => fill_slot c (T0 c) r | None => T0 c end)).
  { rewrite lookup_app_l by (rewrite lite_slots_length; lia). done. }
  rewrite (aget_ok _ _ _ Hl2). cbn [rbind].
  destruct (with_prio (Z.of_nat p) rs) as [|x l] eqn:Ew.
  - assert (Z.of_nat p ∉ map rg_prio rs) by (apply with_prio_nil_iff; done).
    rewrite (bool_decide_eq_true_2 (_ ∉ _)) by done. cbn [head].
    rewrite bool_decide_eq_true_2 by done.
    rewrite aset_ok by (rewrite app_length, lite_slots_length; lia). cbn [rbind].
    unfold with_task. cbn [c_running c_postponed c_index c_tick c_pidcount c_task c_sub c_stray].
    f_equal. f_equal. rewrite insert_app_l by (rewrite lite_slots_length; lia). f_equal.
    apply list_eq. intros q. destruct (decide (q = p)) as [->|Hq].
    + rewrite list_lookup_insert by (rewrite lite_slots_length; lia).
      rewrite lite_slots_lookup, decide_True by lia. rewrite with_prio_app, Ew. cbn [app].
      unfold with_prio. rewrite filter_cons_True by done. done.
    + rewrite list_lookup_insert_ne by done. rewrite !lite_slots_lookup.
      destruct (decide _); [|done]. rewrite with_prio_app. unfold with_prio at 3.
      rewrite filter_cons_False by lia. rewrite app_nil_r. done.
  - rewrite (bool_decide_eq_false_2 (_ ∉ _)).
    + cbn [head]. rewrite bool_decide_eq_false_2 by done. done.
    + intros H. apply with_prio_nil_iff in H. congruence.
Qed.

Lemma add_tasks_lite c ir rs2 : forall rs1,
  wf_config c -> cfg_lite c = true -> regs_typed rs2 -> good_lite c rs1 ->
  add_tasks c (lite_state c ir rs1) rs2 =
  if decide (good_lite c (rs1 ++ rs2)) then Ok (lite_state c ir (rs1 ++ rs2)) else Fatal.
Proof.
  induction rs2 as [|r rs2 IH]; intros rs1 Hwf Hl Ht Hg; cbn [add_tasks].
  - rewrite app_nil_r. rewrite decide_True by done. done.
  - inversion Ht as [|? ? Hr Ht']; subst. unfold add_task. rewrite Hl, add_task_lite_step by done.
    destruct (Z.ltb_spec (rg_prio r) (Z.of_nat (cfg_n c))) as [E1|E1]; cbn [andb].
    + destruct (bool_decide (rg_prio r ∉ map rg_prio rs1)) eqn:E2; cbn [rbind].
      * apply bool_decide_eq_true in E2. rewrite IH; try done.
        -- rewrite <- app_assoc. done.
        -- destruct Hg as [H1 H2]. split.
           ++ apply Forall_app. split; [done|]. repeat constructor; lia.
           ++ rewrite map_app. apply NoDup_app. split; [done|]. split.
              ** intros x Hx Hx'. apply elem_of_list_singleton in Hx' as ->. done.
              ** apply NoDup_singleton.
      * apply bool_decide_eq_false in E2. rewrite decide_False; [done|].
        intros [_ H]. rewrite map_app in H. apply NoDup_app in H as (_ & H & _).
        apply E2. intros Hx. apply (H _ Hx). cbn [map]. left.
    + cbn [rbind]. rewrite decide_False; [done|]. intros [H _]. apply Forall_app in H as [_ H].
      inversion H; subst. lia.
Qed.

Definition lite_boot_state c ir rs := with_running (lite_state c ir rs) true.

Lemma boot_lite c tmp0 rs ir : wf_config c -> cfg_lite c = true -> regs_typed rs ->
  idle_reg c = Some ir ->
  boot c tmp0 rs = if decide (good_lite c rs) then Ok (lite_boot_state c ir rs) else Fatal.
Proof.
  intros Hwf Hl Ht Hir. unfold boot. rewrite (init_ok c ir) by done. cbn [rbind].
  replace (mkCore _ _ _ _ _ _ _ _) with (lite_state c ir []).
  - rewrite add_tasks_lite; try done.
    + cbn [app]. destruct (decide _); [|done]. cbn [rbind]. unfold start. rewrite Hl. done.
    + split; constructor.
  - unfold lite_state. f_equal. f_equal. apply list_eq. intros p. rewrite lite_slots_lookup. cbn.
    destruct (decide _).
    + rewrite lookup_replicate_2 by done. done.
    + symmetry. apply lookup_replicate_None. lia.
Qed.

(** * Invariant *)
Definition slot_ok (c : config) (rs : list reg) (sub : list Z) (pid : nat) (t : task) : Prop :=
  (t_state t = EMPTY \/ t_state t = READY \/ t_state t = SLEEP)
  /\ (forall b e, stack_bounds c rs pid = Some (b, e) -> t_bot t = b /\ t_top t = e)
  /\ (pid = cfg_n c -> t_state t = READY)
  /\ (pid <> cfg_n c -> task_of c rs pid = None -> t_state t = EMPTY)
  /\ (cfg_lite c = false ->
      if decide (pid = cfg_n c) then
        t_prio t = Z.of_nat pid /\ t_sub t = 0 /\ sub !! pid = Some 1
      else forall r, order c rs !! pid = Some r ->
        t_prio t = rg_prio r /\ 0 <= rg_prio r
        /\ t_sub t = rank c rs (rg_prio r) pid
        /\ sub !! Z.to_nat (rg_prio r) = Some (group_size rs (rg_prio r))
        /\ 0 < group_size rs (rg_prio r)).

Definition good (c : config) (rs : list reg) : Prop :=
  if cfg_lite c then good_lite c rs else good_regs c rs.

Record Inv (c : config) (rs : list reg) (s : core) : Prop := {
  inv_good : good c rs;
  inv_len  : length (c_task s) = S (cfg_n c);
  inv_run  : c_running s = true;
  inv_idx  : 0 <= c_index s <= Z.of_nat (cfg_n c);
  inv_tick : 0 <= c_tick s < 2 ^ cfg_tbits c;
  inv_slot : forall pid t, c_task s !! pid = Some t -> slot_ok c rs (c_sub s) pid t;
  inv_cur  : state_of s (cur s) = Some READY
}.

Lemma good_order_short c rs : good c rs -> cfg_lite c = false -> (length (order c rs) <= cfg_n c)%nat.
Proof.
  intros Hg Hl. unfold good in Hg. rewrite Hl in Hg.
  rewrite order_length by done. apply Hg.
Qed.

Lemma stack_bounds_idle c rs ir : idle_reg c = Some ir ->
  stack_bounds c rs (cfg_n c) = Some (rg_stack ir, rg_stack ir + cfg_ssize c * rg_count ir).
Proof.
  unfold stack_bounds, idle_reg. rewrite Nat.eqb_refl.
  destruct (task_init_idle c) as (b & n & ->). intros [= <-]. done.
Qed.

Lemma group_size_pos rs r : r ∈ rs -> 0 < group_size rs (rg_prio r).
Proof.
  intros H. unfold group_size, with_prio.
  assert (r ∈ filter (fun r0 => rg_prio r0 = rg_prio r) rs) as H1 by (apply elem_of_list_filter; done).
  destruct (filter _ rs); [inversion H1|cbn; lia].
Qed.

Lemma cnt_map_fill c p l : cnt p (map (fill_slot c (T0 c)) l) = length (with_prio p l).
Proof. unfold cnt. rewrite filter_map_fill, map_length. done. Qed.

Lemma cnt_replicate_T0 c p k : wf_config c -> p <> Z.of_nat (cfg_n c) + 1 -> cnt p (replicate k (T0 c)) = 0%nat.
Proof.
  intros Hwf Hp. apply cnt_zero. intros t [-> _]%elem_of_replicate. rewrite T0_prio by done. lia.
Qed.

Lemma idle_reg_prio c ir : idle_reg c = Some ir -> rg_prio ir = Z.of_nat (cfg_n c).
Proof. unfold idle_reg. destruct (task_init_idle c) as (b & n & ->). intros [= <-]. done. Qed.

Lemma inv_boot_full c rs ir : wf_config c -> cfg_lite c = false -> good_regs c rs ->
  idle_reg c = Some ir -> Inv c rs (boot_state c ir rs).
Proof.
  intros Hwf Hl Hg Hir.
  assert (Hg' := good_order c rs Hg).
  assert (Hlen : length (sorted_slots c rs) = cfg_n c) by (apply user_slots_length, Hg').
  assert (Hol := order_length c rs Hg).
  constructor.
  - unfold good. rewrite Hl. done.
  - cbn. rewrite app_length, arr_length, Hlen. cbn. lia.
  - done.
  - cbn. lia.
  - cbn. assert (0 < 2 ^ cfg_tbits c) by (apply Z.pow_pos_nonneg; unfold wf_config in Hwf; lia). lia.
  - intros pid t Ht. cbn in Ht. cbn [boot_state c_sub].
    destruct (decide (pid = cfg_n c)) as [->|Hn].
    + rewrite lookup_app_r in Ht by (rewrite arr_length; lia).
      rewrite arr_length, Hlen, Nat.sub_diag in Ht. injection Ht as <-.
      split; [right; left; done|]. split.
      { intros b e Hb. rewrite (stack_bounds_idle c rs ir Hir) in Hb. injection Hb as <- <-. done. }
      split; [done|]. split; [done|]. intros _. rewrite decide_True by done.
      split; [apply idle_reg_prio; done|]. split; [done|].
      rewrite subs_of_lookup, decide_True by lia. f_equal.
      unfold sorted_slots, user_slots. rewrite cnt_app, cnt_replicate_T0 by (done || lia).
      rewrite cnt_map_fill. rewrite order_with_prio by done.
      assert (with_prio (Z.of_nat (cfg_n c)) rs = []) as ->.
      { apply with_prio_nil_iff. intros Hin. apply elem_of_list_fmap in Hin as (r & Hr & Hin).
        destruct Hg as [Hg _]. rewrite Forall_forall in Hg. specialize (Hg r Hin). lia. }
      done.
    + assert (Hlt := lookup_lt_Some _ _ _ Ht). rewrite app_length, arr_length, Hlen in Hlt. cbn in Hlt.
      rewrite lookup_app_l in Ht by (rewrite arr_length; lia).
      rewrite arr_lookup in Ht.
      destruct (sorted_slots c rs !! pid) as [t0|] eqn:E0; [|done]. cbn in Ht. injection Ht as <-.
      assert (E1 := E0). unfold sorted_slots, user_slots in E1.
      destruct (order c rs !! pid) as [r|] eqn:Er.
      * assert (Hor := lookup_lt_Some _ _ _ Er).
        rewrite lookup_app_l in E1 by (rewrite map_length; lia).
        rewrite list_lookup_fmap, Er in E1. cbn in E1. injection E1 as <-.
        split; [right; left; done|]. split.
        { intros b e. unfold stack_bounds. destruct (Nat.eqb_spec pid (cfg_n c)); [lia|].
          unfold task_of. rewrite Hl, Er. intros [= <- <-]. done. }
        split; [lia|]. split.
        { unfold task_of. rewrite Hl, Er. done. }
        intros _. rewrite decide_False by done. intros r' Hr'. rewrite Er in Hr'. injection Hr' as <-.
        assert (Hrin : r ∈ rs).
        { rewrite <- (order_perm c rs Hg). eapply elem_of_list_lookup_2. exact Er. }
        assert (Hpr : 0 <= rg_prio r < Z.of_nat (cfg_n c)).
        { destruct Hg as [Hg _]. rewrite Forall_forall in Hg. apply Hg. done. }
        split; [done|]. split; [lia|]. split.
        { change (t_sub (set_sub (fill_slot c (T0 c) r) ?x)) with x. rewrite fill_prio.
          unfold rank. f_equal. unfold sorted_slots, user_slots.
          cbn. rewrite take_app_le by (rewrite map_length; lia).
          rewrite firstn_map, cnt_map_fill. done. }
        split.
        { rewrite subs_of_lookup, decide_True by lia. rewrite Z2Nat.id by lia. f_equal.
          unfold sorted_slots, user_slots. rewrite cnt_app, cnt_replicate_T0 by (done || lia).
          rewrite cnt_map_fill, order_with_prio by done.
          assert (H0 := group_size_pos rs r Hrin). unfold group_size in *. lia. }
        apply group_size_pos. done.
      * apply lookup_ge_None in Er. rewrite lookup_app_r in E1 by (rewrite map_length; lia).
        apply lookup_replicate in E1 as [-> _].
        split; [left; done|]. split.
        { intros b e. unfold stack_bounds. destruct (Nat.eqb_spec pid (cfg_n c)); [lia|].
          unfold task_of. rewrite Hl. rewrite (lookup_ge_None_2 _ _ Er). done. }
        split; [lia|]. split; [done|]. intros _. rewrite decide_False by done.
        intros r Hr. rewrite (lookup_ge_None_2 _ _ Er) in Hr. done.
  - unfold state_of, cur. cbn. rewrite Nat2Z.id.
    rewrite lookup_app_r by (rewrite arr_length; lia). rewrite arr_length, Hlen, Nat.sub_diag. done.
Qed.

Lemma inv_boot_lite c rs ir : wf_config c -> cfg_lite c = true -> good_lite c rs ->
  idle_reg c = Some ir -> Inv c rs (lite_boot_state c ir rs).
Proof.
  intros Hwf Hl Hg Hir. assert (Hlen := lite_slots_length c rs). constructor.
  - unfold good. rewrite Hl. done.
  - cbn. rewrite app_length, Hlen. cbn. lia.
  - done.
  - cbn. lia.
  - cbn. assert (0 < 2 ^ cfg_tbits c) by (apply Z.pow_pos_nonneg; unfold wf_config in Hwf; lia). lia.
  - intros pid t Ht. cbn in Ht.
    destruct (decide (pid = cfg_n c)) as [->|Hn].
    + rewrite lookup_app_r in Ht by lia. rewrite Hlen, Nat.sub_diag in Ht. injection Ht as <-.
      split; [right; left; done|]. split.
      { intros b e Hb. rewrite (stack_bounds_idle c rs ir Hir) in Hb. injection Hb as <- <-. done. }
      split; [done|]. split; [done|]. intros. congruence.
    + assert (Hlt := lookup_lt_Some _ _ _ Ht). rewrite app_length, Hlen in Hlt. cbn in Hlt.
      rewrite lookup_app_l in Ht by lia. rewrite lite_slots_lookup, decide_True in Ht by lia.
      injection Ht as <-.
      split; [destruct (head _); [right; left|left]; done|]. split.
      { intros b e. unfold stack_bounds. destruct (Nat.eqb_spec pid (cfg_n c)); [lia|].
        unfold task_of. rewrite Hl. destruct (head _); [|done]. intros [= <- <-]. done. }
      split; [lia|]. split.
      { intros _. unfold task_of. rewrite Hl. intros ->. done. }
      intros. congruence.
  - unfold state_of, cur. cbn. rewrite Nat2Z.id.
    rewrite lookup_app_r by lia. rewrite Hlen, Nat.sub_diag. done.
Qed.

Lemma inv_boot c tmp0 rs s : wf_config c -> regs_typed rs -> boot c tmp0 rs = Ok s -> Inv c rs s.
Proof.
  intros Hwf Ht Hb. destruct (idle_reg_some c) as [ir Hir]. destruct (cfg_lite c) eqn:Hl.
  - rewrite (boot_lite c tmp0 rs ir) in Hb by done. destruct (decide _); [|done]. injection Hb as <-.
    apply inv_boot_lite; done.
  - rewrite (boot_full c tmp0 rs ir) in Hb by done. destruct (decide _); [|done]. injection Hb as <-.
    apply inv_boot_full; done.
Qed.

(** * Availability *)
Lemma is_available_ok c rs s pid t : good c rs ->
  slot_ok c rs (c_sub s) pid t ->
  is_available c s t = Ok (bool_decide (t_state t = READY /\ turn c rs (c_tick s) pid)).
Proof.
  intros Hi Hs. unfold is_available.
  destruct (bool_decide (t_state t = READY)) eqn:Er; cbn [negb].
  2:{ apply bool_decide_eq_false in Er. rewrite bool_decide_eq_false_2 by tauto. done. }
  apply bool_decide_eq_true in Er.
  destruct (cfg_lite c) eqn:Hl.
  { rewrite bool_decide_eq_true_2; [done|]. unfold turn. rewrite Hl. done. }
  destruct Hs as (_ & _ & Hi1 & Hi2 & Hs). specialize (Hs Hl).
  assert (Hsh := good_order_short _ _ Hi Hl).
  destruct (decide (pid = cfg_n c)) as [->|Hn].
  - destruct Hs as (Hp & Hsub & Hc). rewrite Hp, (aget_ok _ _ _ Hc). cbn [rbind].
    cbn [Z.eqb]. rewrite Hsub, Z.mod_1_r.
    rewrite bool_decide_eq_true_2; [done|]. unfold turn. rewrite Hl.
    rewrite lookup_ge_None_2 by lia. done.
  - unfold task_of in Hi2. rewrite Hl in Hi2.
    destruct (order c rs !! pid) as [r|] eqn:Eo; [|exfalso; specialize (Hi2 Hn eq_refl); congruence].
    destruct (Hs r eq_refl) as (Hp & Hpos & Hsub & Hc & Hgs).
    rewrite Hp. replace (rg_prio r) with (Z.of_nat (Z.to_nat (rg_prio r))) at 1 by lia.
    rewrite (aget_ok _ _ _ Hc). cbn [rbind].
    destruct (Z.eqb_spec (group_size rs (rg_prio r)) 0); [lia|]. f_equal.
    rewrite Hsub.
    assert (Ht : turn c rs (c_tick s) pid <->
      wrap (cfg_pbits c) (c_tick s) mod group_size rs (rg_prio r) = rank c rs (rg_prio r) pid).
    { unfold turn. rewrite Hl, Eo. done. }
    destruct (Z.eqb_spec (wrap (cfg_pbits c) (c_tick s) mod group_size rs (rg_prio r)) (rank c rs (rg_prio r) pid)) as [E|E].
    + rewrite bool_decide_eq_true_2 by tauto. done.
    + rewrite bool_decide_eq_false_2 by tauto. done.
Qed.
