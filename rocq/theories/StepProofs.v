(** StepProofs.v - exact effect of one tick or syscall on a state satisfying the invariant. *)
From Verif Require Import Base SchedModel SchedSpec SortProofs BootProofs SchedProofs.
From Coq Require Import ZifyBool ZifyNat.

Lemma get_task_ok s i t : c_task s !! i = Some t -> get_task s (Z.of_nat i) = Ok t.
Proof. apply aget_ok. Qed.
Lemma put_task_ok s i t : (i < length (c_task s))%nat ->
  put_task s (Z.of_nat i) t = Ok (with_task s (<[i := t]> (c_task s))).
Proof. intros H. unfold put_task. rewrite aset_ok by done. done. Qed.

(** Effect of the tick's pass on one slot. *)
Definition wake (tk : Z) (t : task) : task :=
  if bool_decide (t_state t = SLEEP) && (t_tick t =? tk) then set_state t READY else t.
Definition tickupd (c : config) (tk : Z) (t : task) : task :=
  if cfg_lite c then wake tk t else set_counter (wake tk t) 0.

Lemma is_available_ext c s s' t :
  c_sub s = c_sub s' -> c_tick s = c_tick s' -> is_available c s t = is_available c s' t.
Proof. intros H1 H2. unfold is_available. rewrite H1, H2. done. Qed.

Lemma tick_pass_spec c (Pd : nat -> bool) n : forall s,
  (n <= length (c_task s))%nat ->
  (forall i t, (i < n)%nat -> c_task s !! i = Some t -> is_available c s (wake (c_tick s) t) = Ok (Pd i)) ->
  exists l idx, tick_pass n c s = Ok (with_index (with_task s l) idx)
    /\ length l = length (c_task s)
    /\ (forall i, l !! i = if decide (i < n)%nat then tickupd c (c_tick s) <$> c_task s !! i else c_task s !! i)
    /\ ((exists r, idx = Z.of_nat r /\ (r < n)%nat /\ Pd r = true /\ forall j, (j < r)%nat -> Pd j = false)
        \/ (idx = c_index s /\ forall j, (j < n)%nat -> Pd j = false)).
Proof.
  induction n as [|m IH]; intros s Hlen Hav; cbn [tick_pass].
  - exists (c_task s), (c_index s). destruct s; cbn. repeat split; try done.
    right. split; [done|]. lia.
  - destruct (lookup_lt_is_Some_2 (c_task s) m) as [t Ht]; [lia|].
    rewrite (get_task_ok _ _ _ Ht). cbn [rbind].
    fold (wake (c_tick s) t).
    rewrite put_task_ok by lia. cbn [rbind].
    rewrite (is_available_ext c _ s) by done.
    rewrite (Hav m t) by (done || lia). cbn [rbind].
    set (s2 := if Pd m then _ else _).
    assert (Hs2 : c_task s2 = <[m := wake (c_tick s) t]> (c_task s) /\ c_tick s2 = c_tick s /\ c_sub s2 = c_sub s
                  /\ c_index s2 = (if Pd m then Z.of_nat m else c_index s)).
    { unfold s2. destruct (Pd m); done. }
    destruct Hs2 as (Hs2t & Hs2k & Hs2s & Hs2i).
    rewrite put_task_ok by (rewrite Hs2t, insert_length; lia). cbn [rbind].
    set (t' := if cfg_lite c then _ else _). rewrite Hs2t, list_insert_insert.
    set (s3 := with_task s2 _).
    assert (Ht' : t' = tickupd c (c_tick s) t) by done.
    destruct (IH s3) as (l & idx & Hr & Hl & Hlk & Hidx).
    + cbn. rewrite insert_length. lia.
    + intros i u Hi Hu. cbn in Hu. rewrite list_lookup_insert_ne in Hu by lia.
      change (c_tick s3) with (c_tick s2). rewrite Hs2k.
      rewrite (is_available_ext c s3 s); [apply Hav; [lia|done]|done|done].
    + exists l, idx. rewrite Hr. split; [|split; [|split]].
      * f_equal. unfold s3, s2. destruct (Pd m); done.
      * rewrite Hl. cbn. rewrite insert_length. done.
      * intros i. rewrite Hlk. change (c_tick s3) with (c_tick s2). rewrite Hs2k. cbn [c_task s3 with_task].
        destruct (decide (i < m)%nat).
        -- rewrite decide_True by lia. rewrite list_lookup_insert_ne by lia. done.
        -- destruct (decide (i = m)) as [->|].
           ++ rewrite decide_True by lia. rewrite list_lookup_insert by lia. rewrite Ht. done.
           ++ rewrite decide_False by lia. rewrite list_lookup_insert_ne by lia. done.
      * destruct Hidx as [(r & -> & Hr1 & Hr2 & Hr3)|[-> Hno]].
        -- left. exists r. repeat split; try done. lia.
        -- change (c_index s3) with (c_index s2). rewrite Hs2i. destruct (Pd m) eqn:Em.
           ++ left. exists m. repeat split; try done. lia.
           ++ right. split; [done|]. intros j Hj. destruct (decide (j = m)) as [->|]; [done|]. apply Hno. lia.
Qed.

Lemma scan_spec c (Pd : nat -> bool) r : forall fuel k s,
  wf_config c ->
  wrap (cfg_pidbits c) (c_index s + 1) = Z.of_nat k ->
  (k <= r <= cfg_n c)%nat -> (r - k < fuel)%nat ->
  length (c_task s) = S (cfg_n c) ->
  (forall i t, c_task s !! i = Some t -> is_available c s t = Ok (Pd i)) ->
  Pd r = true -> (forall j, (k <= j < r)%nat -> Pd j = false) ->
  scan fuel c s = Ok (with_index s (Z.of_nat r)).
Proof.
  induction fuel as [|f IH]; intros k s Hwf Hk Hkr Hf Hlen Hav Hr Hj; [lia|].
  cbn [scan]. rewrite Hk. cbn [c_index with_index]. unfold assert_fatal, task_count.
  destruct (Z.ltb_spec (Z.of_nat k) (Z.of_nat (cfg_n c) + 1)); [|lia].
  destruct (lookup_lt_is_Some_2 (c_task s) k) as [t Ht]; [lia|].
  rewrite (get_task_ok (with_index s (Z.of_nat k)) k t Ht). cbn [rbind].
  rewrite (is_available_ext c _ s) by done. rewrite (Hav k t Ht). cbn [rbind].
  destruct (Pd k) eqn:Ek.
  - destruct (decide (k = r)) as [->|]; [done|]. rewrite Hj in Ek by lia. done.
  - destruct (decide (k = r)) as [->|]; [congruence|].
    rewrite (IH (S k)); try done; try lia.
    + cbn [c_index with_index]. rewrite wrap_small; [lia|]. unfold wf_config in Hwf. lia.
    + intros j Hjj. apply Hj. lia.
Qed.

(** Least eligible identifier, computed. *)
Fixpoint find_from (Pd : nat -> bool) (fuel k : nat) : nat :=
  match fuel with O => k | S f => if Pd k then k else find_from Pd f (S k) end.

Lemma find_from_spec Pd fuel : forall k, (exists r, (k <= r < k + fuel)%nat /\ Pd r = true) ->
  (k <= find_from Pd fuel k)%nat /\ Pd (find_from Pd fuel k) = true /\
  (forall j, (k <= j < find_from Pd fuel k)%nat -> Pd j = false) /\ (find_from Pd fuel k < k + fuel)%nat.
Proof.
  induction fuel as [|f IH]; intros k (r & Hr & Hp); [lia|]. cbn [find_from].
  destruct (Pd k) eqn:E.
  - repeat split; try done; lia.
  - destruct (decide (r = k)) as [->|]; [congruence|].
    destruct (IH (S k)) as (H1 & H2 & H3 & H4); [exists r; split; [lia|done]|].
    repeat split; try done; try lia. intros j Hj. destruct (decide (j = k)) as [->|]; [done|]. apply H3. lia.
Qed.

Lemma switch_loop_spec c (Pd : nat -> bool) k s :
  wf_config c -> c_index s = Z.of_nat k -> (k < cfg_n c)%nat ->
  length (c_task s) = S (cfg_n c) ->
  (forall i t, c_task s !! i = Some t -> is_available c s t = Ok (Pd i)) ->
  Pd (cfg_n c) = true ->
  exists r1 r, (S k <= r1 <= cfg_n c)%nat /\ Pd r1 = true /\ (forall j, (S k <= j < r1)%nat -> Pd j = false) /\
    switch_loop 2 c s = Ok (with_index (with_postponed s (if Nat.eqb r1 (cfg_n c) then false else c_postponed s)) (Z.of_nat r))
    /\ (if Nat.eqb r1 (cfg_n c) && c_postponed s
        then (r <= cfg_n c)%nat /\ Pd r = true /\ (forall j, (j < r)%nat -> Pd j = false)
        else r = r1).
Proof.
  intros Hwf Hk Hkn Hlen Hav Hid.
  destruct (find_from_spec Pd (cfg_n c - k) (S k)) as (H1 & H2 & H3 & H4).
  { exists (cfg_n c). split; [lia|done]. }
  set (r1 := find_from Pd (cfg_n c - k) (S k)) in *.
  assert (Hb : 2 ^ cfg_pidbits c > Z.of_nat (cfg_n c) + 1) by (unfold wf_config in Hwf; lia).
  cbn [switch_loop].
  rewrite (scan_spec c Pd r1 _ (S k)); try done; try lia.
  2:{ rewrite Hk. rewrite wrap_small; lia. }
  cbn [rbind c_index with_index c_postponed]. rewrite idle_pid_n.
  exists r1.
  destruct (Nat.eqb_spec r1 (cfg_n c)) as [E|E].
  - destruct (Z.eqb_spec (Z.of_nat r1) (Z.of_nat (cfg_n c))); [|lia]. cbn [andb].
    destruct (c_postponed s) eqn:Ep.
    + destruct (find_from_spec Pd (S (cfg_n c)) 0) as (G1 & G2 & G3 & G4).
      { exists (cfg_n c). split; [lia|done]. }
      set (r := find_from Pd (S (cfg_n c)) 0) in *.
      rewrite (scan_spec c Pd r _ 0%nat); try done; try lia.
      2:{ cbn [c_index with_index]. rewrite wrap_m1 by apply Hwf.
          replace (2 ^ cfg_pidbits c - 1 + 1) with (2 ^ cfg_pidbits c) by lia.
          unfold wrap. rewrite Z.mod_same by lia. done. }
      cbn [rbind c_index with_index c_postponed with_postponed]. rewrite andb_false_r.
      exists r. split; [lia|]. split; [done|]. split; [done|]. split; [done|].
      split; [lia|]. split; [done|]. intros j Hj. apply G3. lia.
    + exists r1. split; [lia|]. split; [done|]. split; [done|]. split; [|done].
      destruct s; cbn in *. subst. done.
  - destruct (Z.eqb_spec (Z.of_nat r1) (Z.of_nat (cfg_n c))); [lia|]. cbn [andb].
    exists r1. split; [lia|]. split; [done|]. split; [done|]. split; [|done].
    destruct s; done.
Qed.

(** * One event *)

(** Effect on the interrupted task. *)
Definition cur_upd (c : config) (s : core) (o : op) (e : entry) (t : task) : task :=
  match o with
  | Tick => set_sp (stat_finish c (e_since e) t) (e_sp e)
  | Sleep d => stat_finish c (e_since e) (syscall_sleep c s (set_sp t (e_sp e)) (wrap (cfg_tbits c) d))
  | SleepUntil r p => stat_finish c (e_since e)
      (fst (syscall_sleep_until c s (set_sp t (e_sp e)) (wrap (cfg_tbits c) r) (wrap (cfg_tbits c) p)))
  | Kill => stat_finish c (e_since e) (syscall_kill (set_sp t (e_sp e)))
  | Postpone => stat_finish c (e_since e) (set_sp t (e_sp e))
  end.

Definition all_upd (c : config) (s : core) (o : op) (t : task) : task :=
  match o with Tick => tickupd c (wrap (cfg_tbits c) (c_tick s + 1)) t | _ => t end.

Definition ev_upd (c : config) (s : core) (o : op) (e : entry) (r : nat) (i : nat) (t : task) : task :=
  let t := if decide (i = cur s) then cur_upd c s o e t else t in
  let t := all_upd c s o t in
  if decide (i = r) then stat_start c (e_now e) t else t.

(** Postpone request pending when the caller gives the CPU away. *)
Definition pending (s : core) (o : op) : bool :=
  match o with Postpone => true | _ => c_postponed s end.

Definition ref_out (c : config) (s : core) (o : op) : Z :=
  match o with
  | SleepUntil r p =>
      match c_task s !! cur s with
      | Some t => snd (syscall_sleep_until c s t (wrap (cfg_tbits c) r) (wrap (cfg_tbits c) p))
      | None => 0
      end
  | _ => 0
  end.

Definition valid_op (c : config) (s : core) (o : op) : Prop :=
  match o with
  | Tick => True
  | SleepUntil _ p => (cur s < cfg_n c)%nat /\ 0 < wrap (cfg_tbits c) p
  | _ => (cur s < cfg_n c)%nat
  end.

Record post (c : config) (rs : list reg) (s : core) (o : op) (e : entry) (s' : core) (sp' ref' : Z) : Prop := {
  po_tick  : c_tick s' = match o with Tick => wrap (cfg_tbits c) (c_tick s + 1) | _ => c_tick s end;
  po_task  : forall i, c_task s' !! i = ev_upd c s o e (cur s') i <$> c_task s !! i;
  po_len   : length (c_task s') = length (c_task s);
  po_sub   : c_sub s' = c_sub s;
  po_stray : c_stray s' = c_stray s;
  po_pidc  : c_pidcount s' = c_pidcount s;
  po_run   : c_running s' = c_running s;
  po_idx   : 0 <= c_index s' <= Z.of_nat (cfg_n c);
  po_sp    : exists t, c_task s' !! cur s' = Some t /\ sp' = t_sp t;
  po_ref   : ref' = ref_out c s o;
  po_disp  :
    match o with
    | Tick => c_postponed s' = false /\ least_from (eligible c rs s') 0 (cur s')
    | _ => exists r1, (r1 <= cfg_n c)%nat /\ least_from (eligible c rs s') (S (cur s)) r1
        /\ (if decide (r1 = cfg_n c /\ pending s o = true)
            then c_postponed s' = false /\ least_from (eligible c rs s') 0 (cur s')
            else c_postponed s' = (if decide (r1 = cfg_n c) then false else pending s o) /\ cur s' = r1)
    end;
  po_bnd   : exists t, c_task s !! cur s = Some t /\ t_bot t <= e_sp e < t_top t
}.

Lemma slot_ok_upd c rs sub pid t t' :
  slot_ok c rs sub pid t ->
  t_bot t' = t_bot t -> t_top t' = t_top t -> t_prio t' = t_prio t -> t_sub t' = t_sub t ->
  t_state t' = t_state t \/ (pid <> cfg_n c /\ t_state t = READY /\ (t_state t' = EMPTY \/ t_state t' = SLEEP))
    \/ (t_state t = SLEEP /\ t_state t' = READY) ->
  slot_ok c rs sub pid t'.
Proof.
  intros (H1 & H2 & H3 & H4 & H5) E1 E2 E3 E4 Hs. unfold slot_ok. rewrite E1, E2, E3, E4.
  split; [|split; [done|split; [|split; [|done]]]].
  - destruct Hs as [->|[(_ & _ & [->| ->])|[_ ->]]]; tauto.
  - intros Hp. destruct Hs as [->|[(Hn & _)|[_ ->]]]; [auto|done|done].
  - intros Hp Ht. specialize (H4 Hp Ht). destruct Hs as [->|[(_ & He & _)|[He _]]]; [done|congruence|congruence].
Qed.

(** Static fields are preserved by the elementary updates. *)
Definition same_static (t t' : task) : Prop :=
  t_bot t' = t_bot t /\ t_top t' = t_top t /\ t_count t' = t_count t /\ t_prio t' = t_prio t
  /\ t_sub t' = t_sub t /\ t_mask t' = t_mask t.

Lemma stat_finish_static c x t : same_static t (stat_finish c x t).
Proof. unfold stat_finish. destruct (cfg_lite c); done. Qed.
Lemma stat_finish_state c x t : t_state (stat_finish c x t) = t_state t.
Proof. unfold stat_finish. destruct (cfg_lite c); done. Qed.
Lemma stat_finish_sp c x t : t_sp (stat_finish c x t) = t_sp t.
Proof. unfold stat_finish. destruct (cfg_lite c); done. Qed.
Lemma stat_finish_tick c x t : t_tick (stat_finish c x t) = t_tick t.
Proof. unfold stat_finish. destruct (cfg_lite c); done. Qed.
Lemma stat_finish_miss c x t : t_miss (stat_finish c x t) = t_miss t.
Proof. unfold stat_finish. destruct (cfg_lite c); done. Qed.
Lemma stat_start_static c x t : same_static t (stat_start c x t).
Proof. unfold stat_start. destruct (cfg_lite c); done. Qed.
Lemma stat_start_state c x t : t_state (stat_start c x t) = t_state t.
Proof. unfold stat_start. destruct (cfg_lite c); done. Qed.
Lemma stat_start_sp c x t : t_sp (stat_start c x t) = t_sp t.
Proof. unfold stat_start. destruct (cfg_lite c); done. Qed.
Lemma stat_start_tick c x t : t_tick (stat_start c x t) = t_tick t.
Proof. unfold stat_start. destruct (cfg_lite c); done. Qed.
Lemma stat_start_miss c x t : t_miss (stat_start c x t) = t_miss t.
Proof. unfold stat_start. destruct (cfg_lite c); done. Qed.
Lemma tickupd_static c tk t : same_static t (tickupd c tk t).
Proof. unfold tickupd, wake. destruct (cfg_lite c), (_ && _); done. Qed.
Lemma tickupd_sp c tk t : t_sp (tickupd c tk t) = t_sp t.
Proof. unfold tickupd, wake. destruct (cfg_lite c), (_ && _); done. Qed.
Lemma tickupd_state c tk t : t_state (tickupd c tk t) = t_state (wake tk t).
Proof. unfold tickupd. destruct (cfg_lite c); done. Qed.
Lemma tickupd_tick c tk t : t_tick (tickupd c tk t) = t_tick t.
Proof. unfold tickupd, wake. destruct (cfg_lite c), (_ && _); done. Qed.
Lemma tickupd_miss c tk t : t_miss (tickupd c tk t) = t_miss t.
Proof. unfold tickupd, wake. destruct (cfg_lite c), (_ && _); done. Qed.
Lemma same_static_trans t1 t2 t3 : same_static t1 t2 -> same_static t2 t3 -> same_static t1 t3.
Proof. unfold same_static. intuition congruence. Qed.
Lemma syscall_sleep_until_static c s t r p : same_static t (fst (syscall_sleep_until c s t r p)).
Proof. unfold syscall_sleep_until. destruct (_ <? _); [done|]. cbn. destruct (cfg_lite c); done. Qed.
Lemma cur_upd_static c s o e t : same_static t (cur_upd c s o e t).
Proof.
  destruct o; cbn [cur_upd].
  - exact (stat_finish_static c (e_since e) t).
  - eapply same_static_trans; [|apply stat_finish_static]. unfold syscall_sleep. destruct (_ >? _); done.
  - eapply same_static_trans; [|apply stat_finish_static].
    eapply same_static_trans; [|apply syscall_sleep_until_static]. done.
  - eapply same_static_trans; [|apply stat_finish_static]. done.
  - eapply same_static_trans; [|apply stat_finish_static]. done.
Qed.
Lemma ev_upd_static c s o e r i t : same_static t (ev_upd c s o e r i t).
Proof.
  unfold ev_upd.
  assert (H1 : same_static t (if decide (i = cur s) then cur_upd c s o e t else t)).
  { destruct (decide _); [apply cur_upd_static|done]. }
  set (t1 := if decide (i = cur s) then _ else _) in *.
  assert (H2 : same_static t (all_upd c s o t1)).
  { eapply same_static_trans; [exact H1|]. destruct o; cbn; try done. apply tickupd_static. }
  destruct (decide (i = r)); [|done]. eapply same_static_trans; [exact H2|apply stat_start_static].
Qed.

(** Availability predicate of a state. *)
Definition Pd_of c rs s (i : nat) : bool := bool_decide (eligible c rs s i).

Lemma slot_avail c rs s : good c rs ->
  (forall pid t, c_task s !! pid = Some t -> slot_ok c rs (c_sub s) pid t) ->
  forall i t, c_task s !! i = Some t -> is_available c s t = Ok (Pd_of c rs s i).
Proof.
  intros Hg Hs i t Ht. rewrite (is_available_ok c rs s i t) by auto. f_equal.
  apply bool_decide_ext. unfold eligible, ready, state_of. rewrite Ht. cbn. split.
  - intros [-> ?]. done.
  - intros [[= ->] ?]. done.
Qed.

Lemma eligible_ext c rs s s' i :
  c_tick s = c_tick s' -> state_of s i = state_of s' i -> eligible c rs s i <-> eligible c rs s' i.
Proof. intros H1 H2. unfold eligible, ready. rewrite H1, H2. done. Qed.

Lemma idle_eligible c rs s : good c rs -> length (c_task s) = S (cfg_n c) ->
  (forall pid t, c_task s !! pid = Some t -> slot_ok c rs (c_sub s) pid t) ->
  eligible c rs s (cfg_n c).
Proof.
  intros Hg Hl Hs. destruct (lookup_lt_is_Some_2 (c_task s) (cfg_n c)) as [t Ht]; [lia|].
  destruct (Hs _ _ Ht) as (_ & _ & H3 & _). split.
  - unfold ready, state_of. rewrite Ht. cbn. rewrite H3 by done. done.
  - unfold turn. destruct (cfg_lite c) eqn:E; [done|].
    rewrite lookup_ge_None_2; [done|]. apply good_order_short; done.
Qed.

Lemma bool_decide_Pd c rs s i : Pd_of c rs s i = true <-> eligible c rs s i.
Proof. apply bool_decide_eq_true. Qed.
Lemma bool_decide_Pd_false c rs s i : Pd_of c rs s i = false <-> ~ eligible c rs s i.
Proof. apply bool_decide_eq_false. Qed.

(** Tick. *)
Lemma tick_progress c rs s e : wf_config c -> Inv c rs s ->
  (exists t, c_task s !! cur s = Some t /\ t_bot t <= e_sp e < t_top t) ->
  exists s' sp', do_tick c s e = Ok (s', sp') /\ post c rs s Tick e s' sp' 0.
Proof.
  intros Hwf Hi (t & Ht & Hsp). destruct Hi as [Hg Hlen Hrun Hidx Htk Hslot Hcur].
  assert (Hc : c_index s = Z.of_nat (cur s)) by (unfold cur; lia).
  unfold do_tick. rewrite Hc. rewrite (get_task_ok _ _ _ Ht). cbn [rbind].
  unfold assert_fatal. destruct (e_sp e >=? t_bot t) eqn:E1; [|lia].
  destruct (Z.ltb_spec (e_sp e) (t_top t)); [|lia].
  rewrite put_task_ok by (apply lookup_lt_Some in Ht; done). cbn [rbind].
  set (t1 := set_sp (stat_finish c (e_since e) t) (e_sp e)).
  set (s1 := with_postponed _ false).
  assert (Hslot1 : forall pid u, c_task s1 !! pid = Some u -> slot_ok c rs (c_sub s1) pid u).
  { intros pid u Hu. cbn in Hu. change (c_sub s1) with (c_sub s).
    destruct (decide (pid = cur s)) as [->|].
    - rewrite list_lookup_insert in Hu by (apply lookup_lt_Some in Ht; done). injection Hu as <-.
      destruct (stat_finish_static c (e_since e) t) as (S1 & S2 & S3 & S4 & S5 & S6).
      eapply slot_ok_upd; [apply Hslot; exact Ht|done..|]. left. cbn. apply stat_finish_state.
    - rewrite list_lookup_insert_ne in Hu by done. apply Hslot. done. }
  assert (Hlen1 : length (c_task s1) = S (cfg_n c)) by (cbn; rewrite insert_length; done).
  (* state after waking *)
  set (s2 := with_task s1 (map (wake (c_tick s1)) (c_task s1))).
  assert (Hslot2 : forall pid u, c_task s2 !! pid = Some u -> slot_ok c rs (c_sub s2) pid u).
  { intros pid u Hu. cbn [c_task s2 with_task] in Hu. rewrite list_lookup_fmap in Hu.
    destruct (c_task s1 !! pid) as [v|] eqn:Ev; [|done]. cbn in Hu. injection Hu as <-.
    assert (Hv := Hslot1 _ _ Ev). change (c_sub s2) with (c_sub s1).
    unfold wake. destruct (bool_decide (t_state v = SLEEP)) eqn:Es; cbn [andb]; [|done].
    destruct (_ =? _); [|done]. apply bool_decide_eq_true in Es.
    eapply slot_ok_upd; [exact Hv|done..|]. right. right. done. }
  set (Pd := Pd_of c rs s2).
  destruct (tick_pass_spec c Pd (S (cfg_n c)) s1) as (l & idx & Hr & Hl & Hlk & Hix).
  { lia. }
  { intros i u Hiu Hu.
    assert (Hu2 : c_task s2 !! i = Some (wake (c_tick s1) u)).
    { cbn [c_task s2 with_task]. rewrite list_lookup_fmap, Hu. done. }
    rewrite (is_available_ext c s1 s2) by done. apply slot_avail; done. }
  rewrite Hr. cbn [rbind].
  assert (Hidle : Pd (cfg_n c) = true).
  { apply bool_decide_Pd. apply idle_eligible; try done. cbn. rewrite map_length, insert_length. done. }
  destruct Hix as [(r & -> & Hrn & Hrp & Hrl)|[_ Hno]].
  2:{ rewrite Hno in Hidle by lia. done. }
  cbn [c_index with_index c_task with_task].
  assert (Hlr : l !! r = tickupd c (c_tick s1) <$> c_task s1 !! r).
  { rewrite Hlk, decide_True by lia. done. }
  destruct (lookup_lt_is_Some_2 (c_task s1) r) as [u Hu]; [lia|].
  rewrite Hu in Hlr. cbn in Hlr.
  set (s3 := with_index (with_task s1 l) (Z.of_nat r)).
  rewrite (get_task_ok s3 r _ Hlr). cbn [rbind].
  rewrite put_task_ok by (cbn; lia). cbn [rbind]. cbn [c_task with_task with_index s3].
  set (tf := stat_start c (e_now e) _).
  set (s4 := with_task _ _).
  assert (Hg4 : get_task s4 (Z.of_nat r) = Ok tf).
  { apply get_task_ok. cbn. rewrite list_lookup_insert by lia. done. }
  change (c_index s4) with (Z.of_nat r). rewrite Hg4. cbn [rbind].
  exists s4, (t_sp tf). split; [done|].
  assert (Hcur4 : cur s4 = r) by (unfold cur; cbn; lia).
  assert (Htask4 : forall i, c_task s4 !! i = ev_upd c s Tick e r i <$> c_task s !! i).
  { intros i. cbn [c_task s4 with_task]. unfold ev_upd. cbn [all_upd cur_upd].
    change (wrap (cfg_tbits c) (c_tick s + 1)) with (c_tick s1).
    destruct (decide (i = r)) as [->|Hir].
    - rewrite list_lookup_insert by lia. cbn in Hu.
      destruct (decide (r = cur s)) as [->|Hrc].
      + rewrite list_lookup_insert in Hu by (apply lookup_lt_Some in Ht; done). injection Hu as <-.
        rewrite Ht. done.
      + rewrite list_lookup_insert_ne in Hu by done. rewrite Hu. done.
    - rewrite list_lookup_insert_ne by done. rewrite Hlk.
      destruct (decide (i < S (cfg_n c))%nat) as [Hin|Hin].
      + cbn [c_task s1 with_postponed with_tick with_task].
        destruct (decide (i = cur s)) as [->|Hic].
        * rewrite list_lookup_insert by (apply lookup_lt_Some in Ht; done). rewrite Ht. done.
        * rewrite list_lookup_insert_ne by done. destruct (c_task s !! i); done.
      + rewrite (lookup_ge_None_2 (c_task s) i) by lia.
        rewrite lookup_ge_None_2; [done|]. lia. }
  constructor; rewrite ?Hcur4; try done.
  - cbn. rewrite insert_length, Hl. cbn. rewrite insert_length. done.
  - cbn. lia.
  - exists tf. split; [|done]. cbn. rewrite list_lookup_insert by lia. done.
  - split; [done|].
    assert (Hext : forall i, eligible c rs s2 i <-> eligible c rs s4 i).
    { intros i. apply eligible_ext; [done|]. unfold state_of. rewrite Htask4.
      cbn [c_task s2 with_task]. rewrite list_lookup_fmap.
      cbn [c_task s1 with_postponed with_tick with_task].
      unfold ev_upd. cbn [all_upd cur_upd].
      change (wrap (cfg_tbits c) (c_tick s + 1)) with (c_tick s1).
      destruct (decide (i = cur s)) as [->|Hic].
      - rewrite list_lookup_insert by (apply lookup_lt_Some in Ht; done). rewrite Ht. cbn.
        f_equal. destruct (decide _); rewrite ?stat_start_state, tickupd_state; done.
      - rewrite list_lookup_insert_ne by done. destruct (c_task s !! i) as [v|]; [|done]. cbn.
        f_equal. destruct (decide _); rewrite ?stat_start_state, tickupd_state; done. }
    split; [lia|]. split.
    + apply Hext. apply bool_decide_Pd. done.
    + intros j Hj. rewrite <- Hext. apply bool_decide_Pd_false. apply Hrl. lia.
  - exists t. done.
Qed.

(** Common part of all syscalls: the caller's slot becomes [t1] (before statistics), the postpone
    flag [f], then the switch. *)
Lemma switch_progress c rs s e t t1 f :
  wf_config c -> Inv c rs s -> (cur s < cfg_n c)%nat ->
  c_task s !! cur s = Some t ->
  same_static t t1 -> (t_state t1 = READY \/ t_state t1 = EMPTY \/ t_state t1 = SLEEP) ->
  let s1 := with_postponed (with_task s (<[cur s := t1]> (c_task s))) f in
  exists s' r1 tf, switch_context c s1 e = Ok s'
    /\ c_tick s' = c_tick s /\ c_sub s' = c_sub s /\ c_stray s' = c_stray s
    /\ c_pidcount s' = c_pidcount s /\ c_running s' = c_running s
    /\ (0 <= c_index s' <= Z.of_nat (cfg_n c))
    /\ length (c_task s') = length (c_task s)
    /\ (forall i, c_task s' !! i =
          (fun u => let u := if decide (i = cur s) then stat_finish c (e_since e) t1 else u in
                    if decide (i = cur s') then stat_start c (e_now e) u else u) <$> c_task s !! i)
    /\ c_task s' !! cur s' = Some tf /\ get_task s' (c_index s') = Ok tf
    /\ (r1 <= cfg_n c)%nat /\ least_from (eligible c rs s') (S (cur s)) r1
    /\ (if decide (r1 = cfg_n c /\ f = true)
        then c_postponed s' = false /\ least_from (eligible c rs s') 0 (cur s')
        else c_postponed s' = (if decide (r1 = cfg_n c) then false else f) /\ cur s' = r1).
Proof.
  intros Hwf Hi Hcn Ht Hst Hs1 s1. destruct Hi as [Hg Hlen Hrun Hidx Htk Hslot Hcur].
  assert (Htr : t_state t = READY).
  { unfold state_of in Hcur. rewrite Ht in Hcur. cbn in Hcur. congruence. }
  assert (Hlt := lookup_lt_Some _ _ _ Ht).
  unfold switch_context.
  assert (Hc1 : c_index s1 = Z.of_nat (cur s)) by (unfold cur; cbn; lia).
  rewrite Hc1. assert (Hg1 : get_task s1 (Z.of_nat (cur s)) = Ok t1).
  { apply get_task_ok. cbn. rewrite list_lookup_insert by done. done. }
  rewrite Hg1. cbn [rbind].
  rewrite put_task_ok by (cbn; rewrite insert_length; done). cbn [rbind].
  set (t2 := stat_finish c (e_since e) t1).
  set (s2 := with_task s1 (<[cur s := t2]> (c_task s1))).
  assert (Ht2 : forall i, c_task s2 !! i = (fun u => if decide (i = cur s) then t2 else u) <$> c_task s !! i).
  { intros i. cbn. rewrite list_insert_insert. destruct (decide (i = cur s)) as [->|].
    - rewrite list_lookup_insert by done. rewrite Ht. done.
    - rewrite list_lookup_insert_ne by done. destruct (c_task s !! i); done. }
  assert (Hlen2 : length (c_task s2) = S (cfg_n c)) by (cbn; rewrite !insert_length; done).
  assert (Hslot2 : forall pid u, c_task s2 !! pid = Some u -> slot_ok c rs (c_sub s2) pid u).
  { intros pid u Hu. rewrite Ht2 in Hu. change (c_sub s2) with (c_sub s).
    destruct (c_task s !! pid) as [v|] eqn:Ev; [|done]. cbn in Hu. injection Hu as <-.
    destruct (decide (pid = cur s)) as [->|]; [|apply Hslot; done].
    rewrite Ht in Ev. injection Ev as <-.
    destruct (same_static_trans _ _ _ Hst (stat_finish_static c (e_since e) t1)) as (S1 & S2 & S3 & S4 & S5 & S6).
    eapply slot_ok_upd; [apply Hslot; exact Ht|done..|].
    unfold t2. rewrite stat_finish_state, Htr. destruct Hs1 as [->|[->| ->]].
    - left. done.
    - right. left. repeat split; try done; [lia|left; done].
    - right. left. repeat split; try done; [lia|right; done]. }
  set (Pd := Pd_of c rs s2).
  destruct (switch_loop_spec c Pd (cur s) s2) as (r1 & r & Hr1 & Hr1p & Hr1l & Hsw & Hr); try done.
  { apply slot_avail; done. }
  { apply bool_decide_Pd. apply idle_eligible; done. }
  rewrite Hsw. cbn [rbind].
  set (s3 := with_index _ _).
  assert (Hrn : (r <= cfg_n c)%nat).
  { destruct (_ && _); [lia|]. subst. lia. }
  change (c_index s3) with (Z.of_nat r).
  destruct (lookup_lt_is_Some_2 (c_task s3) r) as [u Hu]; [cbn; rewrite !insert_length; lia|].
  rewrite (get_task_ok _ _ _ Hu). cbn [rbind].
  rewrite put_task_ok by (cbn; rewrite !insert_length; lia).
  set (tf := stat_start c (e_now e) u). set (s4 := with_task s3 _).
  assert (Hcur4 : cur s4 = r) by (unfold cur; cbn; lia).
  assert (Ht4r : c_task s4 !! r = Some tf).
  { cbn. rewrite list_lookup_insert by (rewrite !insert_length; lia). done. }
  exists s4, r1, tf. rewrite Hcur4.
  assert (Ht4 : forall i, c_task s4 !! i =
          (fun u => let u := if decide (i = cur s) then t2 else u in
                    if decide (i = r) then stat_start c (e_now e) u else u) <$> c_task s !! i).
  { intros i. destruct (decide (i = r)) as [->|Hir].
    - rewrite Ht4r. change (c_task s3) with (c_task s2) in Hu. rewrite Ht2 in Hu.
      destruct (c_task s !! r); [|done]. cbn in Hu. injection Hu as <-. done.
    - cbn [c_task s4 with_task]. rewrite list_lookup_insert_ne by done.
      change (c_task s3) with (c_task s2). rewrite Ht2. done. }
  assert (Hext : forall i, eligible c rs s2 i <-> eligible c rs s4 i).
  { intros i. apply eligible_ext; [done|]. unfold state_of. rewrite Ht2, Ht4.
    destruct (c_task s !! i) as [v|]; [|done]. cbn. f_equal.
    destruct (decide (i = r)); rewrite ?stat_start_state; done. }
  split; [done|]. do 5 (split; [done|]). split; [cbn; lia|].
  split; [cbn; rewrite !insert_length; done|]. split; [exact Ht4|].
  split; [done|]. split; [apply get_task_ok; done|].
  split; [lia|]. split.
  { split; [lia|]. split; [apply Hext, bool_decide_Pd; done|].
    intros j Hj. rewrite <- Hext. apply bool_decide_Pd_false. apply Hr1l. lia. }
  change (c_postponed s2) with f in Hr.
  change (c_postponed s4) with (if Nat.eqb r1 (cfg_n c) then false else f).
  destruct (Nat.eqb_spec r1 (cfg_n c)) as [E|E]; cbn [andb] in Hr.
  - destruct f.
    + rewrite decide_True by done. split; [done|]. destruct Hr as (Hra & Hrb & Hrc).
      split; [lia|]. split; [apply Hext, bool_decide_Pd; done|].
      intros j Hj. rewrite <- Hext. apply bool_decide_Pd_false. apply Hrc. lia.
    + rewrite decide_False by (intros [_ ?]; done). rewrite decide_True by done. done.
  - rewrite decide_False by tauto. rewrite decide_False by done. done.
Qed.

#[global] Instance op_eq_dec : EqDecision op.
Proof. solve_decision. Defined.

Definition sc_of (c : config) (o : op) : option syscall :=
  match o with
  | Tick => None
  | Sleep d => Some (SC_SLEEP (wrap (cfg_tbits c) d))
  | SleepUntil r p => Some (SC_SLEEP_UNTIL (wrap (cfg_tbits c) r) (wrap (cfg_tbits c) p))
  | Kill => Some SC_KILL
  | Postpone => Some SC_SWITCH_CONTEXT
  end.

(** Caller's slot after the syscall-specific part. *)
Definition sc_upd (c : config) (s : core) (o : op) (t : task) : task :=
  match o with
  | Tick => t
  | Sleep d => syscall_sleep c s t (wrap (cfg_tbits c) d)
  | SleepUntil r p => fst (syscall_sleep_until c s t (wrap (cfg_tbits c) r) (wrap (cfg_tbits c) p))
  | Kill => syscall_kill t
  | Postpone => t
  end.

Lemma sc_upd_static c s o t : same_static t (sc_upd c s o t).
Proof.
  destruct o; cbn [sc_upd]; try done.
  - unfold syscall_sleep. destruct (_ >? _); done.
  - apply syscall_sleep_until_static.
Qed.
Lemma sc_upd_state c s o t : t_state t = READY ->
  t_state (sc_upd c s o t) = READY \/ t_state (sc_upd c s o t) = EMPTY \/ t_state (sc_upd c s o t) = SLEEP.
Proof.
  intros H. destruct o; cbn [sc_upd]; try (left; done).
  - unfold syscall_sleep. destruct (_ >? _); [right; right; done|left; done].
  - unfold syscall_sleep_until. destruct (_ <? _); [right; right; done|left]. cbn. destruct (cfg_lite c); done.
  - right; left; done.
Qed.

Lemma syscall_progress c rs s e o : wf_config c -> Inv c rs s -> o <> Tick -> valid_op c s o ->
  (exists t, c_task s !! cur s = Some t /\ t_bot t <= e_sp e < t_top t) ->
  exists s' sp' ref', step c s (o, e) = Ok (s', sp', ref') /\ post c rs s o e s' sp' ref'.
Proof.
  intros Hwf Hi Ho Hv (t & Ht & Hsp).
  assert (Hcn : (cur s < cfg_n c)%nat) by (destruct o; cbn in Hv; try tauto; done).
  assert (Hc : c_index s = Z.of_nat (cur s)) by (assert (H := inv_idx _ _ _ Hi); unfold cur; lia).
  assert (Hrun := inv_run _ _ _ Hi).
  assert (Htr : t_state t = READY).
  { assert (Hcur := inv_cur _ _ _ Hi). unfold state_of in Hcur. rewrite Ht in Hcur. cbn in Hcur. congruence. }
  set (ts := set_sp t (e_sp e)).
  assert (Hst : same_static t (sc_upd c s o ts)).
  { eapply same_static_trans; [|apply sc_upd_static]. done. }
  assert (Hss := sc_upd_state c s o ts Htr).
  set (f := pending s o).
  destruct (switch_progress c rs s e t (sc_upd c s o ts) f Hwf Hi Hcn Ht Hst Hss)
    as (s' & r1 & tf & Hsw & K1 & K2 & K3 & K4 & K5 & K6 & K7 & K8 & K9 & K10 & K11 & K12 & K13).
  exists s', (t_sp tf), (ref_out c s o).
  assert (Hlt := lookup_lt_Some _ _ _ Ht).
  split.
  - assert (Hdo : forall sc, sc_of c o = Some sc -> do_syscall c s e sc = Ok (s', t_sp tf, ref_out c s o)).
    { intros sc Hsc. unfold do_syscall. rewrite Hc, (get_task_ok _ _ _ Ht). cbn [rbind].
      unfold assert_fatal. destruct (e_sp e >=? t_bot t) eqn:E1; [|lia].
      destruct (Z.ltb_spec (e_sp e) (t_top t)); [|lia].
      assert (Hwp : forall l, with_postponed (with_task s l) (c_postponed s) = with_task s l) by (destruct s; done).
      destruct o; cbn in Hsc; try done; injection Hsc as <-; cbn [sc_upd ref_out pending f] in *;
        fold ts.
      - rewrite put_task_ok by done. cbn [rbind]. rewrite <- Hwp, Hsw. cbn [rbind]. rewrite K10. done.
      - destruct (syscall_sleep_until c s ts _ _) as [t' r'] eqn:Eu. cbn [fst] in Hsw.
        rewrite put_task_ok by done. cbn [rbind]. rewrite <- Hwp, Hsw. cbn [rbind]. rewrite K10. cbn [rbind].
        rewrite Ht. f_equal. f_equal.
        assert (Hsnd : snd (syscall_sleep_until c s ts (wrap (cfg_tbits c) ref) (wrap (cfg_tbits c) period))
                = snd (syscall_sleep_until c s t (wrap (cfg_tbits c) ref) (wrap (cfg_tbits c) period))).
        { unfold syscall_sleep_until. destruct (_ <? _); done. }
        rewrite Eu in Hsnd. exact Hsnd.
      - rewrite put_task_ok by done. cbn [rbind]. rewrite <- Hwp, Hsw. cbn [rbind]. rewrite K10. done.
      - rewrite put_task_ok by done. cbn [rbind]. rewrite Hsw. cbn [rbind]. rewrite K10. done. }
    destruct o; cbn [step sc_of] in *; unfold assert_fatal; rewrite ?Hrun; try (apply Hdo; done); try done.
    destruct (_ >? 0) eqn:E; [apply Hdo; done|]. cbn in Hv. lia.
  - constructor; try done.
    + rewrite K1. destruct o; done.
    + intros i. rewrite K8. destruct (c_task s !! i) as [u|] eqn:Eu; [|done]. cbn. f_equal.
      unfold ev_upd. assert (Hau : forall x, all_upd c s o x = x) by (destruct o; done). rewrite Hau.
      destruct (decide (i = cur s)) as [->|]; [|done].
      rewrite Ht in Eu. injection Eu as <-. destruct o; done.
    + exists tf. done.
    + destruct o; try done; exists r1; done.
    + exists t. done.
Qed.

(** An event that does not stall was valid. *)
Lemma step_ok_valid c rs s o e x : wf_config c -> Inv c rs s -> step c s (o, e) = Ok x ->
  valid_op c s o /\ exists t, c_task s !! cur s = Some t /\ t_bot t <= e_sp e < t_top t.
Proof.
  intros Hwf Hi Hst. assert (Hi' := Hi). destruct Hi as [Hg Hlen Hrun Hidx Htk Hslot Hcur].
  destruct (lookup_lt_is_Some_2 (c_task s) (cur s)) as [t Ht]; [unfold cur; lia|].
  assert (Hc : c_index s = Z.of_nat (cur s)) by (unfold cur; lia).
  assert (Hbnd : t_bot t <= e_sp e < t_top t).
  { destruct (Z.geb_spec (e_sp e) (t_bot t)) as [E1|E1].
    2:{ exfalso. assert (e_sp e >=? t_bot t = false) as G by lia.
        destruct o; cbn [step] in Hst; unfold assert_fatal in Hst; rewrite ?Hrun in Hst;
          unfold do_tick, do_syscall in Hst; rewrite Hc, (get_task_ok _ _ _ Ht) in Hst; cbn [rbind] in Hst;
          unfold assert_fatal in Hst; rewrite G in Hst; try done.
        destruct (_ >? 0); done. }
    destruct (Z.ltb_spec (e_sp e) (t_top t)) as [E2|E2]; [lia|].
    exfalso. assert (e_sp e >=? t_bot t = true) as G by lia.
    assert (e_sp e <? t_top t = false) as G2 by lia.
    destruct o; cbn [step] in Hst; unfold assert_fatal in Hst; rewrite ?Hrun in Hst;
      unfold do_tick, do_syscall in Hst; rewrite Hc, (get_task_ok _ _ _ Ht) in Hst; cbn [rbind] in Hst;
      unfold assert_fatal in Hst; rewrite G, G2 in Hst; try done.
    destruct (_ >? 0); done. }
  split; [|exists t; done].
  (* the idle task cannot issue a syscall *)
  assert (Hidle : o <> Tick -> (cur s < cfg_n c)%nat).
  { intros Ho. destruct (decide (cur s < cfg_n c)%nat) as [|Hn]; [done|exfalso].
    assert (Hcn : cur s = cfg_n c) by (unfold cur in *; lia).
    assert (Hlt := lookup_lt_Some _ _ _ Ht).
    assert (Hsc : forall s1 e, c_index s1 = Z.of_nat (cfg_n c) -> (cfg_n c < length (c_task s1))%nat ->
              switch_context c s1 e = Fatal).
    { intros s1 e1 Hix Hl1. unfold switch_context. rewrite Hix.
      destruct (lookup_lt_is_Some_2 (c_task s1) (cfg_n c)) as [u Hu]; [done|].
      rewrite (get_task_ok _ _ _ Hu). cbn [rbind]. rewrite put_task_ok by done. cbn [rbind].
      cbn [switch_loop]. set (s2 := with_task s1 _).
      assert (scan (S (S (cfg_n c))) c s2 = Fatal) as ->; [|done].
      cbn [scan]. change (c_index s2) with (c_index s1). rewrite Hix.
      rewrite wrap_small by (unfold wf_config in Hwf; lia).
      cbn [c_index with_index]. unfold assert_fatal, task_count.
      destruct (Z.ltb_spec (Z.of_nat (cfg_n c) + 1) (Z.of_nat (cfg_n c) + 1)); [lia|done]. }
    assert (Hdo : forall sc, do_syscall c s e sc = Fatal).
    { intros sc. unfold do_syscall. rewrite Hc, (get_task_ok _ _ _ Ht). cbn [rbind].
      unfold assert_fatal. destruct (e_sp e >=? t_bot t) eqn:E1; [|lia].
      destruct (Z.ltb_spec (e_sp e) (t_top t)); [|lia].
      destruct sc as [d|r p| |]; try (destruct (syscall_sleep_until _ _ _ _ _));
        rewrite put_task_ok by done; cbn [rbind]; rewrite Hsc; try done; cbn; rewrite ?insert_length; lia. }
    destruct o; cbn [step] in Hst; try done; unfold assert_fatal in Hst; rewrite Hrun, Hdo in Hst; try done.
    destruct (_ >? 0); done. }
  destruct o; cbn [valid_op]; try done; try (apply Hidle; done).
  split; [apply Hidle; done|]. cbn [step] in Hst. unfold assert_fatal in Hst.
  destruct (Z.gtb_spec (wrap (cfg_tbits c) period) 0); [lia|]. done.
Qed.

Lemma step_progress c rs s o e : wf_config c -> Inv c rs s -> valid_op c s o ->
  (exists t, c_task s !! cur s = Some t /\ t_bot t <= e_sp e < t_top t) ->
  exists s' sp' ref', step c s (o, e) = Ok (s', sp', ref') /\ post c rs s o e s' sp' ref'.
Proof.
  intros Hwf Hi Hv Hsp. destruct (decide (o = Tick)) as [->|Ho].
  - destruct (tick_progress c rs s e Hwf Hi Hsp) as (s' & sp' & H & Hp).
    exists s', sp', 0. cbn [step]. rewrite H. done.
  - apply syscall_progress; done.
Qed.

Lemma step_post c rs s o e s' sp' ref' : wf_config c -> Inv c rs s ->
  step c s (o, e) = Ok (s', sp', ref') -> post c rs s o e s' sp' ref'.
Proof.
  intros Hwf Hi Hst. destruct (step_ok_valid _ _ _ _ _ _ Hwf Hi Hst) as [Hv Hsp].
  destruct (step_progress c rs s o e Hwf Hi Hv Hsp) as (s2 & sp2 & ref2 & H & Hp).
  rewrite Hst in H. injection H as -> -> ->. done.
Qed.

Lemma step_inv c rs s o e s' sp' ref' : wf_config c -> Inv c rs s ->
  step c s (o, e) = Ok (s', sp', ref') -> Inv c rs s'.
Proof.
  intros Hwf Hi Hst. destruct (step_ok_valid _ _ _ _ _ _ Hwf Hi Hst) as [Hv Hsp].
  assert (Hp := step_post _ _ _ _ _ _ _ _ Hwf Hi Hst). destruct Hi as [Hg Hlen Hrun Hidx Htk Hslot Hcur].
  destruct Hp. constructor; try done; try congruence.
  - rewrite po_tick0. destruct o; try done.
    apply Z.mod_pos_bound. apply Z.pow_pos_nonneg; unfold wf_config in Hwf; lia.
  - intros pid t Ht. rewrite po_task0 in Ht. rewrite po_sub0.
    destruct (c_task s !! pid) as [u|] eqn:Eu; [|done]. cbn in Ht. injection Ht as <-.
    assert (Hu := Hslot _ _ Eu).
    destruct (ev_upd_static c s o e (cur s') pid u) as (S1 & S2 & S3 & S4 & S5 & S6).
    eapply slot_ok_upd; [exact Hu|done..|].
    set (st' := t_state (ev_upd c s o e (cur s') pid u)).
    assert (Hs' : st' = t_state (all_upd c s o (if decide (pid = cur s) then cur_upd c s o e u else u))).
    { unfold st', ev_upd. destruct (decide (pid = cur s')); rewrite ?stat_start_state; done. }
    rewrite Hs'.
    destruct (decide (pid = cur s)) as [->|Hpc].
    + assert (Hur : t_state u = READY).
      { unfold state_of in Hcur. rewrite Eu in Hcur. cbn in Hcur. congruence. }
      destruct (decide (o = Tick)) as [->|Ho].
      * left. cbn [all_upd cur_upd]. rewrite tickupd_state. unfold wake. cbn.
        rewrite stat_finish_state, Hur. rewrite bool_decide_eq_false_2 by done. cbn.
        rewrite stat_finish_state. done.
      * assert (Hau : forall x, all_upd c s o x = x) by (destruct o; done). rewrite Hau.
        assert (Hcu : t_state (cur_upd c s o e u) = t_state (sc_upd c s o (set_sp u (e_sp e)))).
        { destruct o; try done; cbn [cur_upd sc_upd]; rewrite stat_finish_state; done. }
        rewrite Hcu. assert (Hcn : (cur s < cfg_n c)%nat) by (destruct o; cbn in Hv; try tauto; done).
        destruct (sc_upd_state c s o (set_sp u (e_sp e)) Hur) as [->|[->| ->]].
        -- left. done.
        -- right. left. split; [lia|]. split; [done|]. left; done.
        -- right. left. split; [lia|]. split; [done|]. right; done.
    + destruct o; cbn [all_upd]; try (left; done).
      rewrite tickupd_state. unfold wake. destruct (bool_decide (t_state u = SLEEP)) eqn:E; cbn [andb]; [|left; done].
      apply bool_decide_eq_true in E. destruct (_ =? _); [right; right; done|left; done].
  - assert (Hel : exists k, least_from (eligible c rs s') k (cur s')).
    { destruct o; [exists 0%nat; tauto|..];
        destruct po_disp0 as (r1 & Hr1 & Hl1 & Hd); destruct (decide _); destruct Hd as [_ Hd];
        try (exists 0%nat; done); exists (S (cur s)); rewrite Hd; done. }
    destruct Hel as (k & _ & [Hr _] & _). exact Hr.
Qed.

Lemma run_inv c rs evs : forall s s', wf_config c -> Inv c rs s -> run c s evs = Ok s' -> Inv c rs s'.
Proof.
  induction evs as [|[o e] evs IH]; intros s s' Hwf Hi Hr; cbn [run] in Hr.
  - injection Hr as <-. done.
  - destruct (step c s (o, e)) as [[[s1 sp1] r1]| | |] eqn:E; cbn [rbind] in Hr; try done.
    eapply IH; [done| |exact Hr]. eapply step_inv; [| |exact E]; done.
Qed.

Lemma reachable_inv c rs s : wf_config c -> regs_typed rs -> reachable c rs s -> Inv c rs s.
Proof.
  intros Hwf Ht (tmp0 & s0 & evs & Hb & Hr). eapply run_inv; [done| |exact Hr].
  eapply inv_boot; done.
Qed.

Lemma run_app c evs1 : forall evs2 s, run c s (evs1 ++ evs2) = let! s1 := run c s evs1 in run c s1 evs2.
Proof.
  induction evs1 as [|ev evs1 IH]; intros evs2 s; cbn [app run]; [done|].
  destruct (step c s ev) as [x| | |]; cbn [rbind]; [apply IH|done..].
Qed.

Lemma reachable_step c rs s ev s' sp' r' : reachable c rs s -> step c s ev = Ok (s', sp', r') -> reachable c rs s'.
Proof.
  intros (tmp0 & s0 & evs & Hb & Hr) Hst. exists tmp0, s0, (evs ++ [ev]). split; [done|].
  rewrite run_app, Hr. cbn [rbind run]. rewrite Hst. done.
Qed.

Lemma reachable_run c rs s evs s' : reachable c rs s -> run c s evs = Ok s' -> reachable c rs s'.
Proof.
  intros (tmp0 & s0 & evs0 & Hb & Hr) Hst. exists tmp0, s0, (evs0 ++ evs). split; [done|].
  rewrite run_app, Hr. done.
Qed.
