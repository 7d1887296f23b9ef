(** PrioThms.v - picoRTOS_get_next/last_available_priority (C20, C21). *)
From Verif Require Import Base SchedModel SchedSpec SortProofs BootProofs SchedProofs StepProofs.
From Coq Require Import ZifyBool ZifyNat.

(** Slots of priority [p] from index [k] on. *)
Definition hit (c : config) (s : core) (k : nat) (p : Z) : Prop :=
  exists i t, (k <= i < cfg_n c)%nat /\ c_task s !! i = Some t /\ t_prio t = p.
Definition hitb (c : config) (s : core) (k : nat) (p : Z) : bool :=
  existsb (fun t => t_prio t =? p) (drop k (take (cfg_n c) (c_task s))).

Lemma hitb_spec c s k p : hitb c s k p = true <-> hit c s k p.
Proof.
  unfold hitb, hit. rewrite existsb_exists. split.
  - intros (t & Hin & He). apply elem_of_list_In, elem_of_list_lookup in Hin as [i Hi].
    rewrite lookup_drop in Hi. apply lookup_take_Some in Hi as [Hi Hlt].
    exists (k + i)%nat, t. split; [lia|]. split; [done|lia].
  - intros (i & t & Hi & Ht & He). exists t. split; [|lia].
    apply elem_of_list_In, elem_of_list_lookup. exists (i - k)%nat.
    rewrite lookup_drop. replace (k + (i - k))%nat with i by lia. apply lookup_take_Some. split; [done|lia].
Qed.

Section loops.
  Context (c : config) (s : core).
  Hypothesis Hwf : wf_config c.
  Hypothesis Hlen : length (c_task s) = S (cfg_n c).

  Lemma one_small : wrap (cfg_pidbits c) (0 + 1) = 1.
  Proof. apply wrap_small. unfold wf_config in Hwf. lia. Qed.

  (** One round of the search over the slots. *)
  Lemma next_round p : forall m k fuel, (k + m = cfg_n c)%nat -> (m < fuel)%nat ->
    (hitb c s k p = false -> next_loop fuel c s (Z.of_nat k) p = Ok p)
    /\ (hitb c s k p = true -> exists fuel', (fuel <= fuel' + m)%nat /\ (fuel' < fuel)%nat /\
          next_loop fuel c s (Z.of_nat k) p = next_loop fuel' c s 1 (wrap (cfg_pbits c) (p + 1))).
  Proof.
    induction m as [|m IH]; intros k fuel Hk Hf; (destruct fuel as [|fuel]; [lia|]); cbn [next_loop].
    - destruct (Z.ltb_spec (Z.of_nat k) (Z.of_nat (cfg_n c))); [lia|]. split; [done|].
      intros H'. apply hitb_spec in H' as (i & t & Hi & _). lia.
    - destruct (Z.ltb_spec (Z.of_nat k) (Z.of_nat (cfg_n c))); [|lia].
      destruct (lookup_lt_is_Some_2 (c_task s) k) as [t Ht]; [lia|].
      rewrite (get_task_ok _ _ _ Ht). cbn [rbind].
      assert (Hh : hitb c s k p = (t_prio t =? p) || hitb c s (S k) p).
      { apply eq_true_iff_eq. rewrite orb_true_iff, !hitb_spec. split.
        - intros (i & t' & Hi & Ht' & He). destruct (decide (i = k)) as [->|].
          + left. rewrite Ht in Ht'. injection Ht' as <-. lia.
          + right. exists i, t'. split; [lia|done].
        - intros [He|(i & t' & Hi & Ht' & He)].
          + exists k, t. split; [lia|]. split; [done|lia].
          + exists i, t'. split; [lia|done]. }
      rewrite Hh. destruct (t_prio t =? p); cbn [orb].
      + split; [done|]. intros _. exists fuel. rewrite one_small. split; [lia|]. split; [lia|done].
      + rewrite wrap_small by (unfold wf_config in Hwf; lia).
        replace (Z.of_nat k + 1) with (Z.of_nat (S k)) by lia.
        destruct (IH (S k) fuel ltac:(lia) ltac:(lia)) as [H1 H2]. split; [done|].
        intros H'. destruct (H2 H') as (f' & Hf1 & Hf2 & He). exists f'. split; [lia|]. split; [lia|done].
  Qed.

  Lemma next_rounds q : forall d p fuel, (p + d = q)%nat -> (q <= cfg_n c)%nat -> (1 <= cfg_n c)%nat ->
    (d * cfg_n c + cfg_n c < fuel)%nat ->
    hitb c s 1 (Z.of_nat q) = false -> (forall j, (p <= j < q)%nat -> hitb c s 1 (Z.of_nat j) = true) ->
    next_loop fuel c s 1 (Z.of_nat p) = Ok (Z.of_nat q).
  Proof.
    induction d as [|d IH]; intros p fuel Hp Hq Hn Hf Hfree Hused.
    - replace p with q by lia. apply (next_round (Z.of_nat q) (cfg_n c - 1) 1 fuel); [lia|lia|done].
    - destruct (next_round (Z.of_nat p) (cfg_n c - 1) 1 fuel ltac:(lia) ltac:(lia)) as [_ H].
      destruct (H (Hused p ltac:(lia))) as (f' & H1 & H2 & H3). change (Z.of_nat 1) with 1 in H3. rewrite H3.
      rewrite wrap_small by (unfold wf_config in Hwf; lia).
      replace (Z.of_nat p + 1) with (Z.of_nat (S p)) by lia.
      apply IH; [lia|lia|lia| |done|].
      + cbn in Hf. lia.
      + intros j Hj. apply Hused. lia.
  Qed.

  Lemma last_round p : forall m k fuel, (k + m = cfg_n c)%nat -> (m < fuel)%nat ->
    (hitb c s k p = false -> last_loop fuel c s (Z.of_nat k) p = Ok p)
    /\ (hitb c s k p = true -> exists fuel', (fuel <= fuel' + m)%nat /\ (fuel' < fuel)%nat /\
          last_loop fuel c s (Z.of_nat k) p = last_loop fuel' c s 1 (wrap (cfg_pbits c) (p - 1))).
  Proof.
    induction m as [|m IH]; intros k fuel Hk Hf; (destruct fuel as [|fuel]; [lia|]); cbn [last_loop].
    - destruct (Z.ltb_spec (Z.of_nat k) (Z.of_nat (cfg_n c))); [lia|]. split; [done|].
      intros H'. apply hitb_spec in H' as (i & t & Hi & _). lia.
    - destruct (Z.ltb_spec (Z.of_nat k) (Z.of_nat (cfg_n c))); [|lia].
      destruct (lookup_lt_is_Some_2 (c_task s) k) as [t Ht]; [lia|].
      rewrite (get_task_ok _ _ _ Ht). cbn [rbind].
      assert (Hh : hitb c s k p = (t_prio t =? p) || hitb c s (S k) p).
      { apply eq_true_iff_eq. rewrite orb_true_iff, !hitb_spec. split.
        - intros (i & t' & Hi & Ht' & He). destruct (decide (i = k)) as [->|].
          + left. rewrite Ht in Ht'. injection Ht' as <-. lia.
          + right. exists i, t'. split; [lia|done].
        - intros [He|(i & t' & Hi & Ht' & He)].
          + exists k, t. split; [lia|]. split; [done|lia].
          + exists i, t'. split; [lia|done]. }
      rewrite Hh. destruct (t_prio t =? p); cbn [orb].
      + split; [done|]. intros _. exists fuel. rewrite one_small. split; [lia|]. split; [lia|done].
      + rewrite wrap_small by (unfold wf_config in Hwf; lia).
        replace (Z.of_nat k + 1) with (Z.of_nat (S k)) by lia.
        destruct (IH (S k) fuel ltac:(lia) ltac:(lia)) as [H1 H2]. split; [done|].
        intros H'. destruct (H2 H') as (f' & Hf1 & Hf2 & He). exists f'. split; [lia|]. split; [lia|done].
  Qed.

  Lemma last_rounds q : forall d p fuel, (q + d = p)%nat -> (p <= cfg_n c)%nat -> (1 <= cfg_n c)%nat ->
    (d * cfg_n c + cfg_n c < fuel)%nat ->
    hitb c s 1 (Z.of_nat q) = false -> (forall j, (q < j <= p)%nat -> hitb c s 1 (Z.of_nat j) = true) ->
    last_loop fuel c s 1 (Z.of_nat p) = Ok (Z.of_nat q).
  Proof.
    induction d as [|d IH]; intros p fuel Hp Hq Hn Hf Hfree Hused.
    - replace p with q by lia. apply (last_round (Z.of_nat q) (cfg_n c - 1) 1 fuel); [lia|lia|done].
    - destruct (last_round (Z.of_nat p) (cfg_n c - 1) 1 fuel ltac:(lia) ltac:(lia)) as [_ H].
      destruct (H (Hused p ltac:(lia))) as (f' & H1 & H2 & H3). change (Z.of_nat 1) with 1 in H3. rewrite H3.
      rewrite wrap_small by (unfold wf_config in Hwf; lia).
      replace (Z.of_nat p - 1) with (Z.of_nat (p - 1)) by lia.
      apply IH; [lia|lia|lia| |done|].
      + cbn in Hf. lia.
      + intros j Hj. apply Hused. lia.
  Qed.

  (** All priorities 0..p used: the counter wraps below 0 and the search stops there. *)
  Lemma last_rounds_all : forall p fuel, (p <= cfg_n c)%nat -> (1 <= cfg_n c)%nat ->
    (S p * cfg_n c + cfg_n c < fuel)%nat ->
    hitb c s 1 (2 ^ cfg_pbits c - 1) = false -> (forall j, (j <= p)%nat -> hitb c s 1 (Z.of_nat j) = true) ->
    last_loop fuel c s 1 (Z.of_nat p) = Ok (2 ^ cfg_pbits c - 1).
  Proof.
    induction p as [|p IH]; intros fuel Hp Hn Hf Hfree Hused;
      destruct (last_round (Z.of_nat 0) (cfg_n c - 1) 1 fuel ltac:(lia) ltac:(lia)) as [_ H0].
    - destruct (H0 (Hused 0%nat ltac:(lia))) as (f' & H1 & H2 & H3). change (Z.of_nat 1) with 1 in H3. rewrite H3.
      change (Z.of_nat 0 - 1) with (-1). rewrite wrap_m1 by apply Hwf.
      apply (last_round (2 ^ cfg_pbits c - 1) (cfg_n c - 1) 1 f'); [lia|lia|done].
    - destruct (last_round (Z.of_nat (S p)) (cfg_n c - 1) 1 fuel ltac:(lia) ltac:(lia)) as [_ H].
      destruct (H (Hused (S p) ltac:(lia))) as (f' & H1 & H2 & H3). change (Z.of_nat 1) with 1 in H3. rewrite H3.
      rewrite wrap_small by (unfold wf_config in Hwf; lia).
      replace (Z.of_nat (S p) - 1) with (Z.of_nat p) by lia.
      apply IH; [lia|lia| |done|].
      + cbn in Hf |- *. lia.
      + intros j Hj. apply Hused. lia.
  Qed.

  (** Pigeonhole: [cfg_n c - k] slots cannot hold one more priority than they are. *)
  Lemma pigeon k a : (k <= cfg_n c)%nat ->
    exists q, (a <= q <= a + (cfg_n c - k))%nat /\ hitb c s k (Z.of_nat q) = false.
  Proof.
    intros Hk. destruct (decide (Exists (fun q => hitb c s k (Z.of_nat q) = false) (seq a (S (cfg_n c - k))))) as [He|Hne].
    - apply Exists_exists in He as (q & Hin & Hq). apply elem_of_seq in Hin. exists q. split; [lia|done].
    - exfalso. apply not_Exists_Forall in Hne; [|apply _].
      assert (Hsub : map Z.of_nat (seq a (S (cfg_n c - k))) ⊆+ map t_prio (drop k (take (cfg_n c) (c_task s)))).
      { apply NoDup_submseteq.
        - apply (NoDup_fmap_2 Z.of_nat). apply NoDup_seq.
        - intros x Hx. apply elem_of_list_fmap in Hx as (q & -> & Hq).
          rewrite Forall_forall in Hne. specialize (Hne q Hq). cbn in Hne.
          destruct (hitb c s k (Z.of_nat q)) eqn:E; [|done]. unfold hitb in E.
          apply existsb_exists in E as (t & Hin & He). apply elem_of_list_fmap. exists t. split; [lia|].
          apply elem_of_list_In. done. }
      apply submseteq_length in Hsub. rewrite !map_length, seq_length, drop_length, take_length, Hlen in Hsub. lia.
  Qed.
End loops.

(** * Pre-start states *)
Lemma reg_state_len c ir rs : (length rs <= cfg_n c)%nat -> length (c_task (reg_state c ir rs)) = S (cfg_n c).
Proof. intros H. cbn. rewrite !app_length, map_length, replicate_length. cbn. lia. Qed.

Lemma hit_reg_state c ir rs k p : wf_config c -> (length rs <= cfg_n c)%nat -> p < Z.of_nat (cfg_n c) + 1 ->
  hitb c (reg_state c ir rs) k p = true <-> p ∈ prios (drop k rs).
Proof.
  intros Hwf Hl Hp. rewrite hitb_spec. unfold hit, prios. cbn [reg_state c_task]. rewrite app_assoc.
  split.
  - intros (i & t & Hi & Ht & He).
    rewrite lookup_app_l in Ht by (rewrite app_length, map_length, replicate_length; lia).
    apply lookup_app_Some in Ht as [Ht|[_ Ht]].
    + rewrite list_lookup_fmap in Ht. destruct (rs !! i) as [r|] eqn:Er; [|done]. cbn in Ht. injection Ht as <-.
      apply elem_of_list_fmap. exists r. split; [done|]. apply elem_of_list_lookup. exists (i - k)%nat.
      rewrite lookup_drop. replace (k + (i - k))%nat with i by lia. done.
    + apply lookup_replicate in Ht as [-> _]. rewrite T0_prio in He by done. lia.
  - intros Hin. apply elem_of_list_fmap in Hin as (r & -> & Hin). apply elem_of_list_lookup in Hin as [i Hi].
    rewrite lookup_drop in Hi. assert (Hlt := lookup_lt_Some _ _ _ Hi).
    exists (k + i)%nat, (fill_slot c (T0 c) r). split; [lia|]. split; [|done].
    rewrite lookup_app_l by (rewrite app_length, map_length, replicate_length; lia).
    rewrite lookup_app_l by (rewrite map_length; lia). rewrite list_lookup_fmap, Hi. done.
Qed.

Lemma not_hit c ir rs k p : wf_config c -> (length rs <= cfg_n c)%nat -> p < Z.of_nat (cfg_n c) + 1 ->
  hitb c (reg_state c ir rs) k p = false <-> p ∉ prios (drop k rs).
Proof.
  intros Hwf Hl Hp. rewrite <- (hit_reg_state c ir rs k p Hwf Hl Hp). destruct (hitb _ _ _ _); split; done.
Qed.

Lemma pre_start c rs s : wf_config c -> cfg_lite c = false -> (let! s := init c in add_tasks c s rs) = Ok s ->
  exists ir, s = reg_state c ir rs /\ (length rs <= cfg_n c)%nat.
Proof.
  intros Hwf Hl Hs. destruct (idle_reg_some c) as [ir Hir]. rewrite (reg_state_nil c ir) in Hs by done. cbn [rbind] in Hs.
  rewrite add_tasks_full in Hs by (done || cbn; lia). cbn [app] in Hs. destruct (decide _) as [[_ H]|]; [|done].
  injection Hs as <-. eauto.
Qed.

Lemma get_next_exact c rs s : wf_config c -> cfg_lite c = false ->
  (let! s := init c in add_tasks c s rs) = Ok s ->
  exists q : nat, (q <= cfg_n c)%nat
    /\ (if decide (0 ∉ prios rs) then q = 0%nat
        else (1 <= q)%nat /\ Z.of_nat q ∉ prios (drop 1 rs)
             /\ forall j, (1 <= j < q)%nat -> Z.of_nat j ∈ prios (drop 1 rs))
    /\ get_next c s = if (q <? cfg_n c)%nat then Ok (Z.of_nat q) else Fatal.
Proof.
  intros Hwf Hl Hs. destruct (pre_start c rs s Hwf Hl Hs) as (ir & -> & Hlen).
  set (s := reg_state c ir rs). assert (Hls := reg_state_len c ir rs Hlen). fold s in Hls.
  assert (Hn : (1 <= cfg_n c)%nat) by apply Hwf.
  assert (Hfin : forall q : nat, (q <= cfg_n c)%nat -> next_loop (prio_fuel c) c s 0 0 = Ok (Z.of_nat q) ->
    get_next c s = if (q <? cfg_n c)%nat then Ok (Z.of_nat q) else Fatal).
  { intros q Hq E. unfold get_next. rewrite Hl. unfold get_next_full. rewrite E. cbn [rbind].
    unfold assert_fatal. rewrite idle_pid_n, wf_prio by done.
    destruct (Z.ltb_spec (Z.of_nat q) (Z.of_nat (cfg_n c))), (Nat.ltb_spec q (cfg_n c)); try done; lia. }
  destruct (next_round c s Hwf Hls 0 (cfg_n c) 0 (prio_fuel c)) as [R1 R2]; [lia|unfold prio_fuel; nia|].
  change (Z.of_nat 0) with 0 in R1, R2.
  destruct (decide (0 ∉ prios rs)) as [H0|H0].
  - exists 0%nat. split; [lia|]. split; [done|]. apply Hfin; [lia|]. apply R1.
    apply not_hit; [done|done|lia|]. done.
  - assert (Hh : hitb c s 0 0 = true).
    { destruct (hitb c s 0 0) eqn:E; [done|]. apply not_hit in E; [|done|done|lia]. done. }
    destruct (R2 Hh) as (f' & Hf1 & Hf2 & Hf3). rewrite (wrap_small _ (0 + 1)) in Hf3 by (unfold wf_config in Hwf; lia).
    destruct (pigeon c s Hls 1 1 Hn) as (q0 & Hq0 & Hq0').
    assert (Hex : exists r, (1 <= r < 1 + cfg_n c)%nat /\ negb (hitb c s 1 (Z.of_nat r)) = true).
    { exists q0. split; [lia|]. rewrite Hq0'. done. }
    destruct (find_from_spec (fun j => negb (hitb c s 1 (Z.of_nat j))) (cfg_n c) 1 Hex) as (Hb & Hq & Hmin & Hbb).
    set (q := find_from _ _ _) in *.
    apply negb_true_iff in Hq.
    exists q. split; [lia|]. split.
    + split; [lia|]. split; [apply (not_hit c ir) in Hq; [done|done|done|lia]|].
      intros j Hj. specialize (Hmin j Hj). apply negb_false_iff in Hmin. apply (hit_reg_state c ir) in Hmin; [done|done|done|lia].
    + apply Hfin; [lia|]. rewrite Hf3.
      apply (next_rounds c s Hwf Hls q (q - 1) 1); [lia|lia|lia| |done|].
      * unfold prio_fuel in Hf1. nia.
      * intros j Hj. specialize (Hmin j Hj). apply negb_false_iff in Hmin. done.
Qed.

(** The order of registration used by the documentation's examples: the first task has priority 0
    (or shares its priority with another one). *)
Lemma drop1_prios p0 rs p : first_shared_or p0 rs -> p <> p0 -> p ∈ prios (drop 1 rs) <-> p ∈ prios rs.
Proof.
  intros Hf Hp. destruct rs as [|r rs]; [done|]. cbn [drop]. unfold prios in *. cbn [map].
  rewrite elem_of_cons. split; [tauto|]. intros [->|]; [|done]. cbn in Hf. destruct Hf; [done|]. done.
Qed.

Lemma get_next_ok c rs s : wf_config c -> cfg_lite c = false ->
  (let! s := init c in add_tasks c s rs) = Ok s -> first_shared_or 0 rs ->
  match get_next c s with
  | Ok p => free_prio c (prios rs) p /\ forall p', free_prio c (prios rs) p' -> p <= p'
  | Fatal => forall p', ~ free_prio c (prios rs) p'
  | _ => False
  end.
Proof.
  intros Hwf Hl Hs Hf. destruct (get_next_exact c rs s Hwf Hl Hs) as (q & Hq & Hc & ->).
  assert (Hmin : forall p', free_prio c (prios rs) p' -> Z.of_nat q <= p').
  { intros p' [Hr Hp']. destruct (decide (0 ∉ prios rs)) as [H0|H0]; [lia|].
    destruct Hc as (H1 & H2 & H3). destruct (Z_lt_le_dec p' (Z.of_nat q)) as [Hlt|]; [|lia]. exfalso.
    destruct (Z.eq_dec p' 0) as [->|Hne]; [tauto|].
    specialize (H3 (Z.to_nat p') ltac:(lia)). rewrite Z2Nat.id in H3 by lia.
    apply (proj1 (drop1_prios 0 rs p' Hf Hne)) in H3. done. }
  destruct (Nat.ltb_spec q (cfg_n c)).
  - split; [|done]. split; [lia|]. destruct (decide (0 ∉ prios rs)) as [H0|H0].
    + rewrite Hc. exact H0.
    + destruct Hc as (H1 & H2 & _). intros Hin. apply H2. apply (drop1_prios 0); [done|lia|done].
  - intros p' Hp'. specialize (Hmin p' Hp'). destruct Hp' as [Hp' _]. lia.
Qed.

(** Descending search. *)
Lemma get_last_exact c rs s : wf_config c -> cfg_lite c = false ->
  (let! s := init c in add_tasks c s rs) = Ok s ->
  let top := Z.of_nat (cfg_n c) - 1 in
  if decide (top ∉ prios rs) then get_last c s = Ok top
  else (exists p, 0 <= p < top /\ p ∉ prios (drop 1 rs)
         /\ (forall j, p < j < top -> j ∈ prios (drop 1 rs)) /\ get_last c s = Ok p)
       \/ ((forall j, 0 <= j < top -> j ∈ prios (drop 1 rs)) /\ get_last c s = Fatal).
Proof.
  intros Hwf Hl Hs top. destruct (pre_start c rs s Hwf Hl Hs) as (ir & -> & Hlen).
  set (s := reg_state c ir rs). assert (Hls := reg_state_len c ir rs Hlen). fold s in Hls.
  assert (Hn : (1 <= cfg_n c)%nat) by apply Hwf.
  assert (Htop : wrap (cfg_pbits c) (idle_pid c - 1) = top).
  { rewrite idle_pid_n. apply wrap_small. unfold wf_config in Hwf. subst top. lia. }
  assert (Hget : get_last c s = let! prio := last_loop (prio_fuel c) c s 0 top in
     if prio <? Z.of_nat (cfg_n c) then Ok prio else Fatal).
  { unfold get_last. rewrite Hl. unfold get_last_full. rewrite Htop, idle_pid_n, wf_prio by done. done. }
  destruct (last_round c s Hwf Hls top (cfg_n c) 0 (prio_fuel c)) as [R1 R2]; [lia|unfold prio_fuel; nia|].
  change (Z.of_nat 0) with 0 in R1, R2. rewrite Hget.
  destruct (decide (top ∉ prios rs)) as [H0|H0].
  - rewrite R1 by (apply not_hit; [done|done|lia|done]). cbn [rbind].
    destruct (Z.ltb_spec top (Z.of_nat (cfg_n c))); [done|lia].
  - assert (Hh : hitb c s 0 top = true).
    { destruct (hitb c s 0 top) eqn:E; [done|]. apply not_hit in E; [|done|done|lia]. done. }
    destruct (R2 Hh) as (f' & Hf1 & Hf2 & Hf3). rewrite Hf3. clear R1 R2 Hf3.
    destruct (decide (Exists (fun j => hitb c s 1 (Z.of_nat j) = false) (seq 0 (cfg_n c - 1)))) as [He|Hne].
    + left.
      assert (Hex : exists r, (0 <= r < 0 + (cfg_n c - 1))%nat /\ negb (hitb c s 1 (Z.of_nat (cfg_n c - 2 - r))) = true).
      { apply Exists_exists in He as (q & Hin & Hq). apply elem_of_seq in Hin. exists (cfg_n c - 2 - q)%nat.
        split; [lia|]. replace (cfg_n c - 2 - (cfg_n c - 2 - q))%nat with q by lia. rewrite Hq. done. }
      destruct (find_from_spec (fun j => negb (hitb c s 1 (Z.of_nat (cfg_n c - 2 - j)))) (cfg_n c - 1) 0 Hex) as (Hb & Hq & Hmin & Hbb).
      set (d := find_from _ _ _) in *. apply negb_true_iff in Hq. set (q := (cfg_n c - 2 - d)%nat) in *.
      exists (Z.of_nat q). split; [lia|]. split; [apply (not_hit c ir) in Hq; [done|done|done|lia]|].
      assert (Hup : forall j, (q < j <= cfg_n c - 2)%nat -> hitb c s 1 (Z.of_nat j) = true).
      { intros j Hj. specialize (Hmin (cfg_n c - 2 - j)%nat ltac:(lia)). apply negb_false_iff in Hmin.
        replace (cfg_n c - 2 - (cfg_n c - 2 - j))%nat with j in Hmin by lia. done. }
      split.
      * intros j Hj. specialize (Hup (Z.to_nat j) ltac:(lia)). rewrite Z2Nat.id in Hup by lia.
        apply (hit_reg_state c ir) in Hup; [done|done|done|lia].
      * rewrite wrap_small by (unfold wf_config in Hwf; lia).
        replace (top - 1) with (Z.of_nat (cfg_n c - 2)) by lia.
        rewrite (last_rounds c s Hwf Hls q (cfg_n c - 2 - q) (cfg_n c - 2)); [|lia|lia|lia| |done|done].
        -- cbn [rbind]. destruct (Z.ltb_spec (Z.of_nat q) (Z.of_nat (cfg_n c))); [done|lia].
        -- unfold prio_fuel in Hf1. nia.
    + right. apply not_Exists_Forall in Hne; [|apply _]. rewrite Forall_forall in Hne.
      assert (Hall : forall j, (j < cfg_n c - 1)%nat -> hitb c s 1 (Z.of_nat j) = true).
      { intros j Hj. destruct (hitb c s 1 (Z.of_nat j)) eqn:E; [done|]. exfalso. apply (Hne j); [apply elem_of_seq; lia|done]. }
      assert (Hinall : forall j, 0 <= j < top -> j ∈ prios (drop 1 rs)).
      { intros j Hj. specialize (Hall (Z.to_nat j) ltac:(lia)). rewrite Z2Nat.id in Hall by lia.
        apply (hit_reg_state c ir) in Hall; [done|done|done|lia]. }
      split; [done|].
      (* the remaining slots hold exactly 0..top-1: none holds the wrapped value *)
      assert (Hm1 : hitb c s 1 (2 ^ cfg_pbits c - 1) = false).
      { destruct (hitb c s 1 (2 ^ cfg_pbits c - 1)) eqn:E; [|done]. exfalso.
        assert (Hsub : (2 ^ cfg_pbits c - 1) :: map Z.of_nat (seq 0 (cfg_n c - 1)) ⊆+ map t_prio (drop 1 (take (cfg_n c) (c_task s)))).
        { apply NoDup_submseteq.
          - constructor.
            + intros Hin. apply elem_of_list_fmap in Hin as (x & Hx & Hin). apply elem_of_seq in Hin. unfold wf_config in Hwf. lia.
            + apply (NoDup_fmap_2 Z.of_nat). apply NoDup_seq.
          - intros x [->|Hx]%elem_of_cons.
            + unfold hitb in E. apply existsb_exists in E as (t & Hin & He). apply elem_of_list_fmap. exists t. split; [lia|].
              apply elem_of_list_In. done.
            + apply elem_of_list_fmap in Hx as (q & -> & Hq). apply elem_of_seq in Hq. specialize (Hall q ltac:(lia)).
              unfold hitb in Hall. apply existsb_exists in Hall as (t & Hin & He). apply elem_of_list_fmap. exists t. split; [lia|].
              apply elem_of_list_In. done. }
        apply submseteq_length in Hsub. cbn [length] in Hsub.
        rewrite !map_length, seq_length, drop_length, take_length, Hls in Hsub. lia. }
      assert (HF : last_loop f' c s 1 (wrap (cfg_pbits c) (top - 1)) = Ok (2 ^ cfg_pbits c - 1)).
      { destruct (decide (cfg_n c = 1%nat)) as [E1|E1].
        - replace (top - 1) with (-1) by lia. rewrite wrap_m1 by apply Hwf.
          apply (last_round c s Hwf Hls (2 ^ cfg_pbits c - 1) (cfg_n c - 1) 1 f'); [lia| |done]. unfold prio_fuel in Hf1. nia.
        - rewrite wrap_small by (unfold wf_config in Hwf; lia).
          replace (top - 1) with (Z.of_nat (cfg_n c - 2)) by lia.
          apply last_rounds_all; try done; [lia| |].
          + unfold prio_fuel in Hf1. nia.
          + intros j Hj. apply Hall. lia. }
      rewrite HF. cbn [rbind]. destruct (Z.ltb_spec (2 ^ cfg_pbits c - 1) (Z.of_nat (cfg_n c))); [|done].
      unfold wf_config in Hwf. lia.
Qed.

Lemma get_last_ok c rs s : wf_config c -> cfg_lite c = false ->
  (let! s := init c in add_tasks c s rs) = Ok s -> first_shared_or (Z.of_nat (cfg_n c) - 1) rs ->
  match get_last c s with
  | Ok p => free_prio c (prios rs) p /\ forall p', free_prio c (prios rs) p' -> p' <= p
  | Fatal => forall p', ~ free_prio c (prios rs) p'
  | _ => False
  end.
Proof.
  intros Hwf Hl Hs Hf. assert (Hx := get_last_exact c rs s Hwf Hl Hs). cbn zeta in Hx.
  set (top := Z.of_nat (cfg_n c) - 1) in *. assert (Hn : (1 <= cfg_n c)%nat) by apply Hwf.
  destruct (decide (top ∉ prios rs)) as [H0|H0].
  - rewrite Hx. split; [split; [lia|done]|]. intros p' [Hp' _]. lia.
  - destruct Hx as [(p & H1 & H2 & H3 & ->)|[H1 ->]].
    + split.
      * split; [lia|]. intros Hin. apply H2. apply (drop1_prios top); [done|lia|done].
      * intros p' [Hp' Hni]. destruct (Z_lt_le_dec p p') as [Hlt|]; [|done]. exfalso.
        destruct (Z.eq_dec p' top) as [->|]; [tauto|]. apply Hni. apply (drop1_prios top); [done|done|]. apply H3. lia.
    + intros p' [Hp' Hni]. destruct (Z.eq_dec p' top) as [->|]; [tauto|]. apply Hni.
      apply (drop1_prios top); [done|done|]. apply H1. lia.
Qed.

(** * picoRTOS-lite *)
Lemma pre_start_lite c rs s : wf_config c -> regs_typed rs -> cfg_lite c = true -> (let! s := init c in add_tasks c s rs) = Ok s ->
  exists ir, s = lite_state c ir rs /\ good_lite c rs.
Proof.
  intros Hwf Ht Hl Hs. destruct (idle_reg_some c) as [ir Hir]. exists ir.
  rewrite (init_ok c ir) in Hs by done. cbn [rbind] in Hs.
  replace (mkCore _ _ _ _ _ _ _ _) with (lite_state c ir []) in Hs.
  - rewrite add_tasks_lite in Hs; try done; [|split; constructor].
    destruct (decide _); [|done]. injection Hs as <-. done.
  - unfold lite_state. do 2 f_equal. unfold lite_slots.
    apply list_eq. intros i. rewrite list_lookup_fmap. destruct (decide (i < cfg_n c)%nat).
    + rewrite lookup_seq_lt by lia. rewrite lookup_replicate_2 by done. done.
    + rewrite lookup_seq_ge by lia. symmetry. apply lookup_replicate_None. lia.
Qed.

Lemma lite_slot c ir rs p : (p < cfg_n c)%nat ->
  exists t, get_task (lite_state c ir rs) (Z.of_nat p) = Ok t
    /\ bool_decide (t_state t = EMPTY) = bool_decide (Z.of_nat p ∉ prios rs).
Proof.
  intros Hp. assert (Hl := lite_slots_lookup c rs p). rewrite decide_True in Hl by done.
  eexists. split.
  - apply get_task_ok. cbn [lite_state c_task]. rewrite lookup_app_l by (rewrite lite_slots_length; lia). exact Hl.
  - apply bool_decide_ext. unfold prios. rewrite <- with_prio_nil_iff. destruct (with_prio (Z.of_nat p) rs); cbn; done.
Qed.

Lemma next_lite_spec c ir rs : wf_config c -> forall m k fuel, (k + m = cfg_n c)%nat -> (m < fuel)%nat ->
  match next_lite_loop fuel c (lite_state c ir rs) (Z.of_nat k) with
  | Ok p => Z.of_nat k <= p < Z.of_nat (cfg_n c) /\ p ∉ prios rs /\ forall j, Z.of_nat k <= j < p -> j ∈ prios rs
  | Fatal => forall j, Z.of_nat k <= j < Z.of_nat (cfg_n c) -> j ∈ prios rs
  | _ => False
  end.
Proof.
  intros Hwf. induction m as [|m IH]; intros k fuel Hk Hf; (destruct fuel as [|fuel]; [lia|]); cbn [next_lite_loop].
  - destruct (Z.ltb_spec (Z.of_nat k) (Z.of_nat (cfg_n c))); [lia|]. unfold assert_fatal. rewrite idle_pid_n.
    destruct (Z.ltb_spec (Z.of_nat k) (Z.of_nat (cfg_n c))); [lia|]. intros; lia.
  - destruct (Z.ltb_spec (Z.of_nat k) (Z.of_nat (cfg_n c))); [|lia].
    destruct (lite_slot c ir rs k) as (t & Eg & Eb); [lia|]. rewrite Eg. cbn [rbind]. rewrite Eb.
    destruct (bool_decide (Z.of_nat k ∉ prios rs)) eqn:E.
    + apply bool_decide_eq_true in E. split; [lia|]. split; [done|]. intros; lia.
    + apply bool_decide_eq_false in E. assert (Hin : Z.of_nat k ∈ prios rs) by (destruct (decide (Z.of_nat k ∈ prios rs)); tauto).
      rewrite wrap_small by (unfold wf_config in Hwf; lia). replace (Z.of_nat k + 1) with (Z.of_nat (S k)) by lia.
      specialize (IH (S k) fuel ltac:(lia) ltac:(lia)).
      destruct (next_lite_loop fuel c (lite_state c ir rs) (Z.of_nat (S k))) as [p| | |]; try done.
      * destruct IH as (H1 & H2 & H3). split; [lia|]. split; [done|]. intros j Hj.
        destruct (Z.eq_dec j (Z.of_nat k)) as [->|]; [done|]. apply H3. lia.
      * intros j Hj. destruct (Z.eq_dec j (Z.of_nat k)) as [->|]; [done|]. apply IH. lia.
Qed.

Lemma get_next_lite_ok c rs s : wf_config c -> regs_typed rs -> cfg_lite c = true ->
  (let! s := init c in add_tasks c s rs) = Ok s ->
  match get_next c s with
  | Ok p => free_prio c (prios rs) p /\ forall p', free_prio c (prios rs) p' -> p <= p'
  | Fatal => forall p', ~ free_prio c (prios rs) p'
  | _ => False
  end.
Proof.
  intros Hwf Ht Hl Hs. destruct (pre_start_lite c rs s Hwf Ht Hl Hs) as (ir & -> & _).
  unfold get_next. rewrite Hl.
  assert (H := next_lite_spec c ir rs Hwf (cfg_n c) 0 (prio_fuel c) ltac:(lia) ltac:(unfold prio_fuel; nia)).
  change (Z.of_nat 0) with 0 in H.
  destruct (next_lite_loop _ _ _ _) as [p| | |]; try done.
  - destruct H as (H1 & H2 & H3). split; [split; done|]. intros p' [Hp' Hn].
    destruct (Z_lt_le_dec p' p); [|done]. exfalso. apply Hn, H3. lia.
  - intros p' [Hp' Hn]. apply Hn, H. lia.
Qed.

Lemma last_lite_spec c ir rs : wf_config c -> forall k fuel, (k < cfg_n c)%nat -> (k < fuel)%nat ->
  match last_lite_loop fuel c (lite_state c ir rs) (Z.of_nat k) with
  | Ok p => (1 <= p <= Z.of_nat k /\ p ∉ prios rs /\ forall j, p < j <= Z.of_nat k -> j ∈ prios rs)
            \/ (p = 2 ^ cfg_pbits c - 1 /\ forall j, 1 <= j <= Z.of_nat k -> j ∈ prios rs)
  | _ => False
  end.
Proof.
  intros Hwf. induction k as [|k IH]; intros fuel Hk Hf; (destruct fuel as [|fuel]; [lia|]); cbn [last_lite_loop].
  - change (Z.of_nat 0) with 0. change (0 =? 0) with true. cbn [negb]. unfold assert_fatal. rewrite wrap_m1 by apply Hwf.
    destruct (Z.eqb_spec 0 (2 ^ cfg_pbits c - 1)); [unfold wf_config in Hwf; lia|]. cbn [negb]. cbv iota beta. right. split; [done|]. intros; lia.
  - destruct (Z.eqb_spec (Z.of_nat (S k)) 0); [lia|]. cbn [negb].
    destruct (lite_slot c ir rs (S k)) as (t & Eg & Eb); [lia|]. rewrite Eg. cbn [rbind]. rewrite Eb.
    destruct (bool_decide (Z.of_nat (S k) ∉ prios rs)) eqn:E.
    + apply bool_decide_eq_true in E. left. split; [lia|]. split; [done|]. intros; lia.
    + apply bool_decide_eq_false in E.
      assert (Hin : Z.of_nat (S k) ∈ prios rs) by (destruct (decide (Z.of_nat (S k) ∈ prios rs)); tauto).
      rewrite wrap_small by (unfold wf_config in Hwf; lia). replace (Z.of_nat (S k) - 1) with (Z.of_nat k) by lia.
      specialize (IH fuel ltac:(lia) ltac:(lia)).
      destruct (last_lite_loop fuel c (lite_state c ir rs) (Z.of_nat k)) as [p| | |]; try done.
      destruct IH as [(H1 & H2 & H3)|[H1 H2]].
      * left. split; [lia|]. split; [done|]. intros j Hj. destruct (Z.eq_dec j (Z.of_nat (S k))) as [->|]; [done|]. apply H3. lia.
      * right. split; [done|]. intros j Hj. destruct (Z.eq_dec j (Z.of_nat (S k))) as [->|]; [done|]. apply H2. lia.
Qed.

(** picoRTOS-lite: correct whenever a priority other than 0 is available. *)
Lemma get_last_lite_ok c rs s p0 : wf_config c -> regs_typed rs -> cfg_lite c = true ->
  (let! s := init c in add_tasks c s rs) = Ok s ->
  free_prio c (prios rs) p0 -> p0 <> 0 ->
  exists p, get_last c s = Ok p /\ free_prio c (prios rs) p /\ forall p', free_prio c (prios rs) p' -> p' <= p.
Proof.
  intros Hwf Ht Hl Hs [Hp0 Hf0] Hne. destruct (pre_start_lite c rs s Hwf Ht Hl Hs) as (ir & -> & _).
  unfold get_last. rewrite Hl. assert (Hn : (1 <= cfg_n c)%nat) by apply Hwf.
  rewrite idle_pid_n, wrap_small by (unfold wf_config in Hwf; lia).
  replace (Z.of_nat (cfg_n c) - 1) with (Z.of_nat (cfg_n c - 1)) by lia.
  assert (H := last_lite_spec c ir rs Hwf (cfg_n c - 1) (prio_fuel c) ltac:(lia) ltac:(unfold prio_fuel; nia)).
  destruct (last_lite_loop _ _ _ _) as [p| | |]; try done. exists p. split; [done|].
  destruct H as [(H1 & H2 & H3)|[H1 H2]].
  - split; [split; [lia|done]|]. intros p' [Hp' Hn']. destruct (Z_lt_le_dec p p'); [|lia]. exfalso. apply Hn', H3. lia.
  - exfalso. apply Hf0, H2. lia.
Qed.
