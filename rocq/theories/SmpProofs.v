(** SmpProofs.v - invariant of picoRTOS-SMP and exact effect of one event. *)
From Verif Require Import Base SchedModel SchedSpec SortProofs BootProofs SchedProofs StepProofs
  SmpModel SmpSpec SmpBoot.
From Coq Require Import ZifyBool ZifyNat.

Definition mslot (g : smpcfg) (rs : list reg) (sub : list Z) (pid : nat) (t : task) : Prop :=
  let c := m_base g in
  (forall b e, m_bounds g rs pid = Some (b, e) -> t_bot t = b /\ t_top t = e)
  /\ (forall k, (k < m_cores g)%nat -> Z.testbit (t_mask t) (Z.of_nat k) = true <-> allowed g rs k pid)
  /\ ((cfg_n c <= pid)%nat -> t_state t = READY \/ t_state t = BUSY)
  /\ ((pid < cfg_n c)%nat -> order c rs !! pid = None -> t_state t = EMPTY)
  /\ (if decide (pid < cfg_n c)%nat then
        forall r, order c rs !! pid = Some r ->
          t_prio t = rg_prio r /\ 0 <= rg_prio r
          /\ t_sub t = rank c rs (rg_prio r) pid
          /\ sub !! Z.to_nat (rg_prio r) = Some (group_size rs (rg_prio r))
          /\ 0 < group_size rs (rg_prio r)
      else t_prio t = Z.of_nat (cfg_n c) /\ t_sub t = 0 /\ sub !! cfg_n c = Some 1).

Record MInv (g : smpcfg) (rs : list reg) (s : smp) : Prop := {
  mi_good : m_good g rs;
  mi_len  : length (m_task s) = (cfg_n (m_base g) + m_cores g)%nat;
  mi_ilen : length (m_index s) = m_cores g;
  mi_idx  : forall k z, m_index s !! k = Some z -> 0 <= z < m_taskcount g;
  mi_tick : 0 <= m_tick s < 2 ^ cfg_tbits (m_base g);
  mi_cnt  : 0 <= m_counter s < Z.of_nat (m_cores g);
  mi_slot : forall pid t, m_task s !! pid = Some t -> mslot g rs (m_sub s) pid t;
  mi_cur  : forall k, (k < m_cores g)%nat -> allowed g rs k (on_core s k)
              /\ (mstate s (on_core s k) = Some BUSY
                  \/ (on_core s k = idle_of g k /\ mstate s (on_core s k) = Some READY));
  mi_busy : forall pid, mstate s pid = Some BUSY -> exists k, (k < m_cores g)%nat /\ on_core s k = pid;
  mi_dup  : forall k k', (k < m_cores g)%nat -> (k' < m_cores g)%nat -> on_core s k = on_core s k' -> k = k'
}.

Lemma land_pow2 m k : (Z.land m (2 ^ Z.of_nat k) =? 0) = negb (Z.testbit m (Z.of_nat k)).
Proof.
  destruct (Z.testbit m (Z.of_nat k)) eqn:E; cbn.
  - apply Z.eqb_neq. intros H.
    assert (Z.testbit (Z.land m (2 ^ Z.of_nat k)) (Z.of_nat k) = true) as G.
    { rewrite Z.land_spec, E, Z.pow2_bits_true by lia. done. }
    rewrite H, Z.bits_0 in G. done.
  - apply Z.eqb_eq. apply Z.bits_inj'. intros n Hn. rewrite Z.land_spec, Z.bits_0.
    destruct (decide (n = Z.of_nat k)) as [->|Hne]; [rewrite E; done|].
    rewrite Z.pow2_bits_false by lia. apply andb_false_r.
Qed.

Lemma m_order_short g rs : m_good g rs -> (length (order (m_base g) rs) <= cfg_n (m_base g))%nat.
Proof. intros Hg. rewrite order_length by (apply m_good_regs; done). apply Hg. Qed.

Lemma m_available_ok g rs s k pid t : wf_smp g -> m_good g rs -> (k < m_cores g)%nat ->
  mslot g rs (m_sub s) pid t ->
  m_available g s (core_bit g (Z.of_nat k)) t
  = Ok (bool_decide (t_state t = READY /\ turn (m_base g) rs (m_tick s) pid /\ allowed g rs k pid)).
Proof.
  intros Hw Hg Hk (_ & Hm & _ & _ & Hs). unfold m_available.
  rewrite core_bit_pow by (done || lia). rewrite land_pow2.
  specialize (Hm k Hk).
  destruct (Z.testbit (t_mask t) (Z.of_nat k)) eqn:Em; cbn [negb].
  2:{ rewrite bool_decide_eq_false_2; [done|]. intros (_ & _ & Ha). apply Hm in Ha. done. }
  assert (Ha : allowed g rs k pid) by (apply Hm; done). clear Hm.
  destruct (bool_decide (t_state t = READY)) eqn:Er; cbn [negb].
  2:{ apply bool_decide_eq_false in Er. rewrite bool_decide_eq_false_2 by tauto. done. }
  apply bool_decide_eq_true in Er.
  assert (Hl : cfg_lite (m_base g) = false) by apply Hw.
  assert (Hsh := m_order_short g rs Hg).
  destruct (decide (pid < cfg_n (m_base g))%nat) as [Hp|Hp].
  - unfold allowed in Ha. rewrite decide_True in Ha by done.
    destruct (order (m_base g) rs !! pid) as [r|] eqn:Eo; [|done].
    destruct (Hs r eq_refl) as (Hpr & Hpos & Hsub & Hc & Hgs).
    rewrite Hpr. replace (rg_prio r) with (Z.of_nat (Z.to_nat (rg_prio r))) at 1 by lia.
    rewrite (aget_ok _ _ _ Hc). cbn [rbind].
    destruct (Z.eqb_spec (group_size rs (rg_prio r)) 0); [lia|]. f_equal.
    rewrite Hsub.
    assert (Ht : turn (m_base g) rs (m_tick s) pid <->
      wrap (cfg_pbits (m_base g)) (m_tick s) mod group_size rs (rg_prio r) = rank (m_base g) rs (rg_prio r) pid).
    { unfold turn. rewrite Hl, Eo. done. }
    assert (Ha' : allowed g rs k pid).
    { unfold allowed. rewrite decide_True by done. rewrite Eo. done. }
    destruct (Z.eqb_spec (wrap (cfg_pbits (m_base g)) (m_tick s) mod group_size rs (rg_prio r)) (rank (m_base g) rs (rg_prio r) pid)) as [E|E].
    + rewrite bool_decide_eq_true_2 by tauto. done.
    + rewrite bool_decide_eq_false_2 by tauto. done.
  - destruct Hs as (Hpr & Hsub & Hc). rewrite Hpr, (aget_ok _ _ _ Hc). cbn [rbind].
    cbn [Z.eqb]. rewrite Hsub, Z.mod_1_r.
    rewrite bool_decide_eq_true_2; [done|]. split; [done|]. split; [|done]. unfold turn. rewrite Hl.
    rewrite lookup_ge_None_2 by lia. done.
Qed.

(** * Loops *)
Definition m_wake (tk : Z) (t : task) : task :=
  let t := if bool_decide (t_state t = SLEEP) && (t_tick t =? tk) then set_state t READY else t in
  let t := if bool_decide (t_state t = DONE) then set_state t READY else t in
  set_counter t 0.

Lemma m_available_counter g s mask t v : m_available g s mask (set_counter t v) = m_available g s mask t.
Proof. done. Qed.

Lemma m_available_ext g s s' mask t :
  m_sub s = m_sub s' -> m_tick s = m_tick s' -> m_available g s mask t = m_available g s' mask t.
Proof. intros H1 H2. unfold m_available. rewrite H1, H2. done. Qed.

Lemma m_pass_spec g (Pd : nat -> bool) mask n : forall s idx,
  (n <= length (m_task s))%nat ->
  (forall i t, (i < n)%nat -> m_task s !! i = Some t -> m_available g s mask (m_wake (m_tick s) t) = Ok (Pd i)) ->
  exists l idx', m_pass n g s mask idx = Ok (mw_task s l, idx')
    /\ l = map (m_wake (m_tick s)) (take n (m_task s)) ++ drop n (m_task s)
    /\ ((exists r, idx' = Z.of_nat r /\ (r < n)%nat /\ Pd r = true /\ forall j, (j < r)%nat -> Pd j = false)
        \/ (idx' = idx /\ forall j, (j < n)%nat -> Pd j = false)).
Proof.
  induction n as [|m IH]; intros s idx Hlen Hav; cbn [m_pass].
  - exists (m_task s), idx. destruct s; cbn. repeat split; try done. right. split; [done|]. lia.
  - destruct (lookup_lt_is_Some_2 (m_task s) m) as [t Ht]; [lia|].
    rewrite (mget_ok _ _ _ Ht). cbn [rbind].
    set (t1 := if bool_decide (t_state t = SLEEP) && (t_tick t =? m_tick s) then set_state t READY else t).
    set (t2 := if bool_decide (t_state t1 = DONE) then set_state t1 READY else t1).
    rewrite <- (m_available_counter g s mask t2 0).
    change (set_counter t2 0) with (m_wake (m_tick s) t).
    rewrite (Hav m t) by (done || lia). cbn [rbind].
    rewrite mput_ok by lia. cbn [rbind].
    set (s3 := mw_task s _).
    destruct (IH s3 (if Pd m then Z.of_nat m else idx)) as (l & idx' & Hr & Hl & Hidx).
    + cbn. rewrite insert_length. lia.
    + intros i u Hi Hu. cbn in Hu. rewrite list_lookup_insert_ne in Hu by lia.
      change (m_tick s3) with (m_tick s). rewrite (m_available_ext g s3 s) by done. apply Hav; [lia|done].
    + exists l, idx'. rewrite Hr. split; [done|]. split.
      * rewrite Hl. cbn. rewrite take_insert by lia. rewrite drop_insert_le by lia.
        rewrite Nat.sub_diag.
        rewrite (drop_S (m_task s) t m Ht). cbn [list_insert].
        change (<[0%nat := ?x]> (?y :: ?l)) with (x :: l).
        rewrite (take_S_r _ _ _ Ht), map_app, <- app_assoc. done.
      * destruct Hidx as [(r & -> & Hr1 & Hr2 & Hr3)|[-> Hno]].
        -- left. exists r. repeat split; try done. lia.
        -- destruct (Pd m) eqn:Em.
           ++ left. exists m. repeat split; try done. lia.
           ++ right. split; [done|]. intros j Hj. destruct (decide (j = m)) as [->|]; [done|]. apply Hno. lia.
Qed.

Lemma m_scan_spec g (Pd : nat -> bool) mask r s : forall fuel k idx,
  wf_smp g ->
  wrap (cfg_pidbits (m_base g)) (idx + 1) = Z.of_nat k ->
  (k <= r < cfg_n (m_base g) + m_cores g)%nat -> (r - k < fuel)%nat ->
  length (m_task s) = (cfg_n (m_base g) + m_cores g)%nat ->
  (forall i t, m_task s !! i = Some t -> m_available g s mask t = Ok (Pd i)) ->
  Pd r = true -> (forall j, (k <= j < r)%nat -> Pd j = false) ->
  m_scan fuel g s mask idx = Ok (Z.of_nat r).
Proof.
  induction fuel as [|f IH]; intros k idx Hw Hk Hkr Hf Hlen Hav Hr Hj; [lia|].
  cbn [m_scan]. rewrite Hk. unfold assert_fatal, m_taskcount.
  destruct (Z.ltb_spec (Z.of_nat k) (Z.of_nat (cfg_n (m_base g)) + Z.of_nat (m_cores g))); [|lia].
  destruct (lookup_lt_is_Some_2 (m_task s) k) as [t Ht]; [lia|].
  rewrite (mget_ok s k t Ht). cbn [rbind].
  rewrite (Hav k t Ht). cbn [rbind].
  destruct (Pd k) eqn:Ek.
  - destruct (decide (k = r)) as [->|]; [done|]. rewrite Hj in Ek by lia. done.
  - destruct (decide (k = r)) as [->|]; [congruence|].
    apply (IH (S k)); try done; try lia.
    + rewrite wfm_pid; [lia|done|]. unfold m_taskcount. lia.
    + intros j Hjj. apply Hj. lia.
Qed.

Definition set_busy (t : task) : task := set_state t BUSY.

Lemma m_switch_loop_spec g (Pd : nat -> bool) mask k kid s :
  wf_smp g -> (k < cfg_n (m_base g))%nat -> (cfg_n (m_base g) <= kid < cfg_n (m_base g) + m_cores g)%nat ->
  length (m_task s) = (cfg_n (m_base g) + m_cores g)%nat ->
  (forall i t, m_task s !! i = Some t -> m_available g s mask t = Ok (Pd i)) ->
  Pd kid = true ->
  exists r1 r f, least_from (fun i => Pd i = true) (S k) r1 /\ (r1 <= kid)%nat /\ (r <= kid)%nat /\
    m_switch_loop 2 g s mask (Z.of_nat k)
      = Ok (mw_task (mw_postponed s f) (alter set_busy r (m_task s)), Z.of_nat r)
    /\ (if decide ((cfg_n (m_base g) <= r1)%nat /\ m_postponed s = true)
        then f = false /\ least_from (fun i => Pd i = true) 0 r
        else f = m_postponed s /\ r = r1).
Proof.
  intros Hw Hkn Hkid Hlen Hav Hid.
  destruct (find_from_spec Pd (kid - k) (S k)) as (H1 & H2 & H3 & H4).
  { exists kid. split; [lia|done]. }
  set (r1 := find_from Pd (kid - k) (S k)) in *.
  assert (Hl1 : least_from (fun i => Pd i = true) (S k) r1).
  { split; [lia|]. split; [done|]. intros j Hj. rewrite H3 by lia. done. }
  assert (Hput : forall f r, (r < cfg_n (m_base g) + m_cores g)%nat ->
    (let! t := mget (mw_postponed s f) (Z.of_nat r) in
     let! s0 := mput (mw_postponed s f) (Z.of_nat r) (set_state t BUSY) in Ok (s0, Z.of_nat r))
    = Ok (mw_task (mw_postponed s f) (alter set_busy r (m_task s)), Z.of_nat r)).
  { intros f r Hr. destruct (lookup_lt_is_Some_2 (m_task s) r) as [t Ht]; [lia|].
    rewrite (mget_ok (mw_postponed s f) r t Ht). cbn [rbind].
    rewrite mput_ok by (cbn; lia). cbn [rbind]. cbn [m_task mw_postponed].
    do 3 f_equal. apply list_eq. intros i. destruct (decide (i = r)) as [->|Hne].
    - rewrite list_lookup_insert by lia. rewrite list_lookup_alter, Ht. done.
    - rewrite list_lookup_insert_ne by done. rewrite list_lookup_alter_ne by done. done. }
  assert (Hs : mw_postponed s (m_postponed s) = s) by (destruct s; done).
  cbn [m_switch_loop].
  rewrite (m_scan_spec g Pd mask r1 s _ (S k)); try done; try lia.
  2:{ rewrite wfm_pid; [lia|done|unfold m_taskcount; lia]. }
  cbn [rbind]. unfold m_idlepid. exists r1.
  destruct (decide (_ /\ _)) as [[E1 E2]|E].
  - destruct (Z.of_nat r1 >=? Z.of_nat (cfg_n (m_base g))) eqn:Eb; [|lia]. rewrite E2. cbn [andb].
    destruct (find_from_spec Pd (S kid) 0) as (G1 & G2 & G3 & G4).
    { exists kid. split; [lia|done]. }
    set (r := find_from Pd (S kid) 0) in *.
    rewrite (m_scan_spec g Pd mask r _ _ 0%nat); try done; try lia.
    2:{ rewrite wrap_m1 by (unfold wf_smp in Hw; lia).
        assert (0 < 2 ^ cfg_pidbits (m_base g)) by (apply Z.pow_pos_nonneg; unfold wf_smp in Hw; lia).
        replace (2 ^ cfg_pidbits (m_base g) - 1 + 1) with (2 ^ cfg_pidbits (m_base g)) by lia.
        unfold wrap. rewrite Z.mod_same by lia. done. }
    cbn [rbind m_postponed mw_postponed]. rewrite andb_false_r.
    exists r, false. split; [done|]. split; [lia|]. split; [lia|]. split; [apply Hput; lia|].
    split; [done|]. split; [lia|]. split; [done|]. intros j Hj. rewrite G3 by lia. done.
  - assert ((Z.of_nat r1 >=? Z.of_nat (cfg_n (m_base g))) && m_postponed s = false) as ->.
    { destruct (m_postponed s); [|apply andb_false_r].
      destruct (Z.of_nat r1 >=? Z.of_nat (cfg_n (m_base g))) eqn:Eb; [|done].
      exfalso. apply E. split; [lia|done]. }
    exists r1, (m_postponed s). split; [done|]. split; [lia|]. split; [lia|]. split; [|done].
    rewrite <- Hs at 1. rewrite <- Hs at 2. apply Hput. lia.
Qed.

(** * One event, before the selection of the next task *)
Definition m_cur_upd (g : smpcfg) (s : smp) (o : op) (e : entry) (t : task) : task :=
  let c := m_base g in let w := wrap (cfg_tbits c) in
  let done (t : task) := let t := stat_finish c (e_since e) t in
                if bool_decide (t_state t = BUSY) then set_state t DONE else t in
  match o with
  | Tick => stat_finish c (e_since e) (set_state (set_sp t (e_sp e)) READY)
  | Sleep d => done (m_sleep g s (set_sp t (e_sp e)) (w d))
  | SleepUntil r p => done (fst (m_sleep_until g s (set_sp t (e_sp e)) (w r) (w p)))
  | Kill => done (m_kill (set_sp t (e_sp e)))
  | Postpone => done (set_state (set_sp t (e_sp e)) READY)
  end.

Definition m_newtick (g : smpcfg) (s : smp) (o : op) : Z :=
  match o with
  | Tick => if m_counter s =? 0 then wrap (cfg_tbits (m_base g)) (m_tick s + 1) else m_tick s
  | _ => m_tick s
  end.
Definition m_newcnt (g : smpcfg) (s : smp) (o : op) : Z :=
  match o with
  | Tick => if m_counter s + 1 =? Z.of_nat (m_cores g) then 0 else m_counter s + 1
  | _ => m_counter s
  end.
Definition m_pending (s : smp) (o : op) : bool :=
  match o with
  | Tick => if m_counter s =? 0 then false else m_postponed s
  | Postpone => true
  | _ => m_postponed s
  end.
Definition m_all_upd (g : smpcfg) (s : smp) (o : op) (t : task) : task :=
  match o with Tick => m_wake (m_newtick g s Tick) t | _ => t end.

Definition m_mid (g : smpcfg) (s : smp) (k : nat) (o : op) (e : entry) : smp :=
  mkSmp (m_running s) (m_pending s o) (m_index s) (m_newtick g s o) (m_pidcount s) (m_newcnt g s o)
    (map (m_all_upd g s o) (alter (m_cur_upd g s o e) (on_core s k) (m_task s))) (m_sub s) (m_stray s).

Definition m_fin (g : smpcfg) (s : smp) (k : nat) (e : entry) (r : nat) (f : bool) : smp :=
  mkSmp (m_running s) f (<[k := Z.of_nat r]> (m_index s)) (m_tick s) (m_pidcount s) (m_counter s)
    (alter (fun t => stat_start (m_base g) (e_now e) (set_busy t)) r (m_task s)) (m_sub s) (m_stray s).

Definition m_refout (g : smpcfg) (s : smp) (k : nat) (o : op) : Z :=
  match o with
  | SleepUntil r p =>
      match m_task s !! on_core s k with
      | Some t => snd (m_sleep_until g s t (wrap (cfg_tbits (m_base g)) r) (wrap (cfg_tbits (m_base g)) p))
      | None => 0
      end
  | _ => 0
  end.

(** Selection rule. *)
Definition m_select (g : smpcfg) (rs : list reg) (s : smp) (k : nat) (o : op) (e : entry) (r : nat) (f : bool) : Prop :=
  let m := m_mid g s k o e in
  match o with
  | Tick => f = m_postponed m /\ least_from (eligible_on g rs m k) 0 r
  | _ => exists r1, least_from (eligible_on g rs m k) (S (on_core s k)) r1 /\ (r1 <= idle_of g k)%nat /\
      if decide ((cfg_n (m_base g) <= r1)%nat /\ m_postponed m = true)
      then f = false /\ least_from (eligible_on g rs m k) 0 r
      else f = m_postponed m /\ r = r1
  end.

Definition m_valid (g : smpcfg) (s : smp) (k : nat) (o : op) : Prop :=
  (k < m_cores g)%nat /\
  match o with
  | Tick => True
  | SleepUntil _ p => (on_core s k < cfg_n (m_base g))%nat /\ 0 < wrap (cfg_tbits (m_base g)) p
  | _ => (on_core s k < cfg_n (m_base g))%nat
  end.

Definition m_spin (s : smp) (k : nat) (e : entry) : Prop :=
  exists t, m_task s !! on_core s k = Some t /\ t_bot t <= e_sp e < t_top t.

Lemma m_cur_static g s o e t : same_static t (m_cur_upd g s o e t).
Proof.
  assert (Hd : forall t', same_static t t' -> same_static t
    (let u := stat_finish (m_base g) (e_since e) t' in if bool_decide (t_state u = BUSY) then set_state u DONE else u)).
  { intros t' H. assert (H2 := same_static_trans _ _ _ H (stat_finish_static (m_base g) (e_since e) t')).
    cbv zeta. destruct (bool_decide _); done. }
  destruct o; cbn [m_cur_upd].
  - eapply same_static_trans; [|apply stat_finish_static]. done.
  - apply Hd. unfold m_sleep. destruct (_ >? _); done.
  - apply Hd. unfold m_sleep_until. destruct (_ <? _); done.
  - apply Hd. done.
  - apply Hd. done.
Qed.
Lemma m_wake_static tk t : same_static t (m_wake tk t).
Proof.
  unfold m_wake. cbv zeta. destruct (_ && _); destruct (bool_decide _); done.
Qed.
Lemma m_all_static g s o t : same_static t (m_all_upd g s o t).
Proof. destruct o; try done. apply m_wake_static. Qed.

Lemma mslot_upd g rs sub pid t t' :
  mslot g rs sub pid t -> same_static t t' ->
  t_state t' = t_state t
   \/ (t_state t <> EMPTY /\ ((cfg_n (m_base g) <= pid)%nat -> t_state t' = READY \/ t_state t' = BUSY)) ->
  mslot g rs sub pid t'.
Proof.
  intros (H1 & H2 & H3 & H4 & H5) (E1 & E2 & E3 & E4 & E5 & E6) Hs. unfold mslot. rewrite E1, E2, E4, E5, E6.
  split; [done|]. split; [done|]. split; [|split; [|done]].
  - intros Hp. destruct Hs as [->|[_ Hs]]; auto.
  - intros Hp Ho. specialize (H4 Hp Ho). destruct Hs as [->|[Hs _]]; [done|congruence].
Qed.

Lemma on_core_lookup s k : (k < length (m_index s))%nat -> (forall z, m_index s !! k = Some z -> 0 <= z) ->
  m_index s !! k = Some (Z.of_nat (on_core s k)).
Proof.
  intros Hk Hz. destruct (lookup_lt_is_Some_2 _ _ Hk) as [z E]. unfold on_core. rewrite E.
  specialize (Hz z E). f_equal. lia.
Qed.

Lemma inv_on_core g rs s k : MInv g rs s -> (k < m_cores g)%nat ->
  m_index s !! k = Some (Z.of_nat (on_core s k)) /\ (on_core s k < cfg_n (m_base g) + m_cores g)%nat.
Proof.
  intros Hi Hk. destruct (lookup_lt_is_Some_2 (m_index s) k) as [z E]; [rewrite (mi_ilen _ _ _ Hi); done|].
  assert (H := mi_idx _ _ _ Hi k z E). unfold m_taskcount in H.
  unfold on_core. rewrite E. split; [f_equal|]; lia.
Qed.

(** State of the interrupted task after the first part of an event. *)
Lemma m_cur_state g s o e t : t_state t = BUSY \/ (o = Tick) ->
  match o with
  | Tick => t_state (m_cur_upd g s o e t) = READY
  | Postpone => t_state (m_cur_upd g s o e t) = READY
  | Kill => t_state (m_cur_upd g s o e t) = EMPTY
  | _ => t_state (m_cur_upd g s o e t) = SLEEP \/ t_state (m_cur_upd g s o e t) = DONE
  end.
Proof.
  intros [H|H]; [|subst; cbn [m_cur_upd]; rewrite stat_finish_state; done].
  destruct o; cbn [m_cur_upd]; rewrite ?stat_finish_state; try done.
  - unfold m_sleep. destruct (_ >? _).
    + left. rewrite bool_decide_eq_false_2 by (rewrite ?stat_finish_state; done). rewrite stat_finish_state. done.
    + right. rewrite bool_decide_eq_true_2 by (rewrite ?stat_finish_state; done). done.
  - unfold m_sleep_until. destruct (_ <? _); cbn [fst].
    + left. rewrite bool_decide_eq_false_2 by (rewrite ?stat_finish_state; done). rewrite stat_finish_state. done.
    + right. rewrite bool_decide_eq_true_2 by (rewrite ?stat_finish_state; done). done.
  - rewrite bool_decide_eq_false_2 by (cbn; rewrite ?stat_finish_state; done). rewrite ?stat_finish_state. done.
  - rewrite bool_decide_eq_false_2 by (cbn; rewrite ?stat_finish_state; done). rewrite ?stat_finish_state. done.
Qed.

Lemma m_wake_state tk t : t_state (m_wake tk t) =
  if (bool_decide (t_state t = SLEEP) && (t_tick t =? tk)) || bool_decide (t_state t = DONE) then READY else t_state t.
Proof.
  unfold m_wake. cbn. destruct (bool_decide (t_state t = SLEEP)) eqn:E1; cbn [andb orb].
  - apply bool_decide_eq_true in E1. rewrite E1. destruct (_ =? _); cbn; rewrite ?E1; done.
  - destruct (bool_decide (t_state t = DONE)) eqn:E2; done.
Qed.

Lemma m_mid_lookup g s k o e i : m_task (m_mid g s k o e) !! i =
  (fun t => m_all_upd g s o (if decide (i = on_core s k) then m_cur_upd g s o e t else t)) <$> m_task s !! i.
Proof.
  cbn. rewrite list_lookup_fmap. destruct (decide (i = on_core s k)) as [->|Hne].
  - rewrite list_lookup_alter. destruct (m_task s !! on_core s k); done.
  - rewrite list_lookup_alter_ne by done. destruct (m_task s !! i); done.
Qed.

Lemma m_mid_slot g rs s k o e : wf_smp g -> MInv g rs s -> m_valid g s k o ->
  forall pid t, m_task (m_mid g s k o e) !! pid = Some t -> mslot g rs (m_sub s) pid t.
Proof.
  intros Hw Hi [Hk Hv] pid t Ht. rewrite m_mid_lookup in Ht.
  destruct (m_task s !! pid) as [u|] eqn:Eu; [|done]. cbn in Ht. injection Ht as <-.
  assert (Hu := mi_slot _ _ _ Hi _ _ Eu).
  destruct (mi_cur _ _ _ Hi k Hk) as [Hal Hcs].
  assert (H1 : mslot g rs (m_sub s) pid (if decide (pid = on_core s k) then m_cur_upd g s o e u else u)).
  { destruct (decide (pid = on_core s k)) as [->|]; [|done].
    eapply mslot_upd; [exact Hu|apply m_cur_static|]. right.
    unfold mstate in Hcs. rewrite Eu in Hcs. cbn in Hcs.
    split; [destruct Hcs as [[= ->]|[_ [= ->]]]; done|].
    intros Hn. destruct (decide (o = Tick)) as [->|Ho].
    - left. assert (G := m_cur_state g s Tick e u (or_intror eq_refl)). done.
    - exfalso. destruct o; lia || done. }
  set (u1 := if decide (pid = on_core s k) then _ else _) in *.
  destruct o; cbn [m_all_upd]; try done.
  eapply mslot_upd; [exact H1|apply m_wake_static|]. rewrite m_wake_state.
  destruct (bool_decide (t_state u1 = SLEEP)) eqn:E1; cbn [andb orb].
  - apply bool_decide_eq_true in E1. destruct (_ =? _); cbn [orb].
    + right. rewrite E1. split; [done|]. intros _. left. done.
    + rewrite E1. rewrite bool_decide_eq_false_2 by done. left. done.
  - destruct (bool_decide (t_state u1 = DONE)) eqn:E2; [|left; done].
    apply bool_decide_eq_true in E2. right. rewrite E2. split; [done|]. intros _. left. done.
Qed.

Definition m_Pd (g : smpcfg) rs (s : smp) (k : nat) (i : nat) : bool := bool_decide (eligible_on g rs s k i).
Lemma m_Pd_true g rs s k i : m_Pd g rs s k i = true <-> eligible_on g rs s k i.
Proof. apply bool_decide_eq_true. Qed.

Lemma m_slot_avail g rs s k : wf_smp g -> m_good g rs -> (k < m_cores g)%nat ->
  (forall pid t, m_task s !! pid = Some t -> mslot g rs (m_sub s) pid t) ->
  forall i t, m_task s !! i = Some t -> m_available g s (core_bit g (Z.of_nat k)) t = Ok (m_Pd g rs s k i).
Proof.
  intros Hw Hg Hk Hs i t Ht. rewrite (m_available_ok g rs s k i t) by auto. f_equal.
  apply bool_decide_ext. unfold eligible_on, mstate. rewrite Ht. cbn. split.
  - intros (-> & ?). done.
  - intros ([= ->] & ?). done.
Qed.

(** The idle task of core [k] can always be selected in the intermediate state. *)
Lemma m_mid_idle g rs s k o e : wf_smp g -> MInv g rs s -> m_valid g s k o ->
  eligible_on g rs (m_mid g s k o e) k (idle_of g k).
Proof.
  intros Hw Hi Hv. assert (Hv' := Hv). destruct Hv as [Hk Hv].
  assert (Hal : allowed g rs k (idle_of g k)).
  { unfold allowed. rewrite decide_False by (unfold idle_of; lia). done. }
  split; [|split; [|done]].
  - unfold mstate. rewrite m_mid_lookup.
    destruct (lookup_lt_is_Some_2 (m_task s) (idle_of g k)) as [t Ht].
    { rewrite (mi_len _ _ _ Hi). unfold idle_of. lia. }
    rewrite Ht. cbn. f_equal.
    destruct (decide (idle_of g k = on_core s k)) as [E|E].
    + destruct (decide (o = Tick)) as [->|Ho].
      * cbn [m_all_upd]. rewrite m_wake_state.
        assert (G := m_cur_state g s Tick e t (or_intror eq_refl)). cbn beta iota in G. rewrite G. done.
      * exfalso. unfold idle_of in E. destruct o; lia || done.
    + assert (Hr : t_state t = READY).
      { destruct (mi_slot _ _ _ Hi _ _ Ht) as (_ & _ & H & _).
        destruct H as [H|H]; [unfold idle_of; lia|done|].
        destruct (mi_busy _ _ _ Hi (idle_of g k)) as (k' & Hk' & Hon).
        { unfold mstate. rewrite Ht. cbn. congruence. }
        destruct (mi_cur _ _ _ Hi k' Hk') as [Ha _]. rewrite Hon in Ha. unfold allowed in Ha.
        rewrite decide_False in Ha by (unfold idle_of; lia). unfold idle_of in Ha.
        assert (k = k') by lia. subst. congruence. }
      destruct o; cbn [m_all_upd]; try done. rewrite m_wake_state, Hr. done.
  - unfold turn. rewrite (proj1 Hw). rewrite lookup_ge_None_2; [done|].
    assert (H := m_order_short g rs (mi_good _ _ _ Hi)). unfold idle_of. lia.
Qed.

Lemma insert_alter {A} (f : A -> A) (l : list A) (i : nat) x : l !! i = Some x -> <[i := f x]> l = alter f i l.
Proof.
  intros H. apply list_eq. intros j. destruct (decide (j = i)) as [->|Hne].
  - rewrite list_lookup_insert by (apply lookup_lt_Some in H; done). rewrite list_lookup_alter, H. done.
  - rewrite list_lookup_insert_ne by done. rewrite list_lookup_alter_ne by done. done.
Qed.

Lemma least_ext (P Q : nat -> Prop) k r : (forall i, P i <-> Q i) -> least_from P k r -> least_from Q k r.
Proof. intros H (H1 & H2 & H3). split; [done|]. split; [apply H; done|]. intros j Hj. rewrite <- H. auto. Qed.

Lemma m_tick_progress g rs s k e : wf_smp g -> MInv g rs s -> m_valid g s k Tick -> m_spin s k e ->
  exists r f t, m_select g rs s k Tick e r f /\ (r <= idle_of g k)%nat
    /\ m_task (m_fin g (m_mid g s k Tick e) k e r f) !! r = Some t
    /\ m_step g s (k, (Tick, e)) = Ok (m_fin g (m_mid g s k Tick e) k e r f, t_sp t, 0).
Proof.
  intros Hw Hi Hv (t & Ht & Hsp). assert (Hk : (k < m_cores g)%nat) by apply Hv.
  destruct (inv_on_core g rs s k Hi Hk) as [Hix Hlt].
  set (m := m_mid g s k Tick e).
  assert (Hidle := m_mid_idle g rs s k Tick e Hw Hi Hv). fold m in Hidle.
  assert (Hslot := m_mid_slot g rs s k Tick e Hw Hi Hv). fold m in Hslot.
  assert (Hcnt := mi_cnt _ _ _ Hi).
  cbn [m_step]. unfold m_dotick. rewrite (aget_ok _ _ _ Hix). cbn [rbind].
  rewrite (mget_ok _ _ _ Ht). cbn [rbind].
  unfold assert_fatal. destruct (e_sp e >=? t_bot t) eqn:E1; [|lia].
  destruct (Z.ltb_spec (e_sp e) (t_top t)); [|lia].
  rewrite mput_ok by (apply lookup_lt_Some in Ht; done). cbn [rbind].
  change (stat_finish (m_base g) (e_since e) (set_state (set_sp t (e_sp e)) READY)) with (m_cur_upd g s Tick e t).
  rewrite (insert_alter (m_cur_upd g s Tick e) _ _ _ Ht).
  set (la := alter (m_cur_upd g s Tick e) (on_core s k) (m_task s)).
  set (sa := if m_counter (mw_task s la) =? 0 then _ else _).
  assert (Hsa : sa = mkSmp (m_running s) (m_pending s Tick) (m_index s) (m_newtick g s Tick) (m_pidcount s)
                      (m_counter s + 1) la (m_sub s) (m_stray s)).
  { unfold sa. cbn. rewrite (wrap_small (m_corebits g)) by (unfold wf_smp in Hw; lia).
    destruct (m_counter s =? 0); done. }
  assert (Hla : length la = (cfg_n (m_base g) + m_cores g)%nat).
  { unfold la. rewrite alter_length. apply (mi_len _ _ _ Hi). }
  destruct (m_pass_spec g (m_Pd g rs m k) (core_bit g (Z.of_nat k)) (cfg_n (m_base g) + m_cores g) sa (Z.of_nat (on_core s k)))
    as (l & idx & Hr & Hl & Hix').
  { rewrite Hsa. cbn. lia. }
  { intros i u Hiu Hu. rewrite Hsa in Hu |- *. cbn [m_tick m_task] in *.
    assert (Hu2 : m_task m !! i = Some (m_wake (m_newtick g s Tick) u)).
    { cbn [m m_mid m_task]. fold la. rewrite list_lookup_fmap, Hu. done. }
    rewrite (m_available_ext g _ m) by done.
    apply m_slot_avail; try done. apply (mi_good _ _ _ Hi). }
  rewrite Hr. cbn [rbind].
  assert (Hl' : l = m_task m).
  { rewrite Hl, Hsa. cbn [m_task m_tick]. rewrite take_ge, drop_ge by lia. rewrite app_nil_r. done. }
  destruct Hix' as [(r & -> & Hrn & Hrp & Hrl)|[_ Hno]].
  2:{ assert (m_Pd g rs m k (idle_of g k) = true) as G by (apply m_Pd_true; done).
      rewrite Hno in G by (unfold idle_of; lia). done. }
  assert (Hri : (r <= idle_of g k)%nat).
  { destruct (decide (r <= idle_of g k)%nat) as [|Hgt]; [done|].
    assert (m_Pd g rs m k (idle_of g k) = true) as G by (apply m_Pd_true; done).
    rewrite Hrl in G by lia. done. }
  rewrite Hsa. cbn [m_index mw_task].
  rewrite aset_ok by (rewrite (mi_ilen _ _ _ Hi); done). cbn [rbind].
  destruct (lookup_lt_is_Some_2 (m_task m) r) as [u Hu].
  { cbn. rewrite map_length, alter_length, (mi_len _ _ _ Hi). unfold idle_of in Hri. lia. }
  rewrite <- Hl' in Hu.
  erewrite (mget_ok _ r u) by exact Hu. cbn [rbind].
  rewrite mput_ok by (cbn; apply lookup_lt_Some in Hu; done). cbn [rbind].
  cbn [m_task mw_index mw_task m_counter].
  rewrite (wrap_small (m_corebits g) (Z.of_nat (m_cores g))) by (unfold wf_smp in Hw; lia).
  assert (Hia := insert_alter (fun t => stat_start (m_base g) (e_now e) (set_busy t)) _ _ _ Hu).
  unfold set_busy in Hia at 1. cbv beta in Hia. rewrite Hia.
  exists r, (m_pending s Tick), (stat_start (m_base g) (e_now e) (set_busy u)).
  split; [|split; [done|split]].
  - split; [done|]. split; [lia|]. split; [apply m_Pd_true; done|].
    intros j Hj. rewrite <- m_Pd_true, Hrl by lia. done.
  - cbn [m_fin m_task]. rewrite list_lookup_alter. rewrite <- Hl', Hu. done.
  - cbn [fst snd]. f_equal. f_equal. f_equal. unfold m_fin. cbn [m m_mid m_running m_postponed m_index m_tick m_pidcount m_counter m_task m_sub m_stray m_newcnt].
    rewrite Hl'. destruct (m_counter s + 1 =? Z.of_nat (m_cores g)); reflexivity.
Qed.

Definition m_scof (g : smpcfg) (o : op) : option syscall :=
  let w := wrap (cfg_tbits (m_base g)) in
  match o with
  | Tick => None
  | Sleep d => Some (SC_SLEEP (w d))
  | SleepUntil r p => Some (SC_SLEEP_UNTIL (w r) (w p))
  | Kill => Some SC_KILL
  | Postpone => Some SC_SWITCH_CONTEXT
  end.

Definition m_scupd (g : smpcfg) (s : smp) (o : op) (t : task) : task :=
  let w := wrap (cfg_tbits (m_base g)) in
  match o with
  | Tick => t
  | Sleep d => m_sleep g s t (w d)
  | SleepUntil r p => fst (m_sleep_until g s t (w r) (w p))
  | Kill => m_kill t
  | Postpone => set_state t READY
  end.

Lemma map_id_all {A} (f : A -> A) l : (forall x, f x = x) -> map f l = l.
Proof. intros H. induction l as [|x l IH]; cbn; [done|]. rewrite H, IH. done. Qed.

Lemma m_switch_progress g rs s k o e t : wf_smp g -> MInv g rs s -> o <> Tick -> m_valid g s k o ->
  m_task s !! on_core s k = Some t ->
  let s1 := mw_postponed (mw_task s (<[on_core s k := m_scupd g s o (set_sp t (e_sp e))]> (m_task s))) (m_pending s o) in
  exists r f, m_select g rs s k o e r f /\ (r <= idle_of g k)%nat
    /\ m_switch g s1 (Z.of_nat k) (Z.of_nat (on_core s k)) e = Ok (m_fin g (m_mid g s k o e) k e r f).
Proof.
  intros Hw Hi Ho Hv Ht s1. assert (Hk : (k < m_cores g)%nat) by apply Hv.
  assert (Hcn : (on_core s k < cfg_n (m_base g))%nat) by (destruct Hv as [_ Hv]; destruct o; tauto || done).
  destruct (inv_on_core g rs s k Hi Hk) as [Hix Hlt].
  assert (Hltt := lookup_lt_Some _ _ _ Ht).
  set (m := m_mid g s k o e).
  assert (Hidle := m_mid_idle g rs s k o e Hw Hi Hv). fold m in Hidle.
  assert (Hslot := m_mid_slot g rs s k o e Hw Hi Hv). fold m in Hslot.
  unfold m_switch. set (t1 := m_scupd g s o (set_sp t (e_sp e))) in *.
  assert (Hg1 : mget s1 (Z.of_nat (on_core s k)) = Ok t1).
  { apply mget_ok. cbn. rewrite list_lookup_insert by done. done. }
  rewrite Hg1. cbn [rbind].
  rewrite mput_ok by (cbn; rewrite insert_length; done). cbn [rbind].
  set (t2 := if bool_decide _ then _ else _).
  assert (Ht2 : t2 = m_cur_upd g s o e t).
  { unfold t2, t1. destruct o; done. }
  set (s2 := mw_task s1 _).
  assert (Hs2 : s2 = m).
  { unfold s2, m, m_mid, s1, mw_task, mw_postponed. cbn. f_equal.
    - destruct o; done.
    - destruct o; done.
    - rewrite list_insert_insert, Ht2. rewrite (insert_alter (m_cur_upd g s o e) _ _ _ Ht).
      rewrite map_id_all; [done|]. destruct o; done. }
  clearbody s2. subst s2.
  destruct (m_switch_loop_spec g (m_Pd g rs m k) (core_bit g (Z.of_nat k)) (on_core s k) (idle_of g k) m)
    as (r1 & r & f & Hl1 & Hr1 & Hrk & Hsw & Hd).
  - done.
  - done.
  - unfold idle_of. lia.
  - cbn. rewrite map_length, alter_length. apply (mi_len _ _ _ Hi).
  - apply m_slot_avail; try done. apply (mi_good _ _ _ Hi).
  - apply m_Pd_true. done.
  - rewrite Hsw. cbn [rbind]. cbn [m_index mw_task mw_postponed].
    rewrite aset_ok by (cbn; rewrite (mi_ilen _ _ _ Hi); done). cbn [rbind].
    destruct (lookup_lt_is_Some_2 (m_task m) r) as [u Hu].
    { cbn. rewrite map_length, alter_length, (mi_len _ _ _ Hi). unfold idle_of in Hrk. lia. }
    set (s3 := mw_index _ _).
    assert (Hu3 : m_task s3 !! r = Some (set_busy u)).
    { cbn [s3 m_task mw_index mw_task]. rewrite list_lookup_alter, Hu. done. }
    rewrite (mget_ok _ _ _ Hu3). cbn [rbind].
    rewrite mput_ok by (apply lookup_lt_Some in Hu3; done).
    rewrite (insert_alter (stat_start (m_base g) (e_now e)) _ _ _ Hu3).
    exists r, f. split; [|split; [done|]].
    + assert (HP : forall i, m_Pd g rs m k i = true <-> eligible_on g rs m k i) by (intros; apply m_Pd_true).
      assert (G : exists r1, least_from (eligible_on g rs m k) (S (on_core s k)) r1 /\ (r1 <= idle_of g k)%nat /\
        if decide ((cfg_n (m_base g) <= r1)%nat /\ m_postponed m = true)
        then f = false /\ least_from (eligible_on g rs m k) 0 r
        else f = m_postponed m /\ r = r1).
      { exists r1. split; [eapply least_ext; [apply HP|done]|]. split; [done|].
        destruct (decide _); [|done]. destruct Hd as [-> Hd]. split; [done|]. eapply least_ext; [apply HP|done]. }
      unfold m_select. fold m. destruct o; try exact G. done.
    + f_equal. unfold mw_task, m_fin, s3. cbn. f_equal.
      apply list_eq. intros j. destruct (decide (j = r)) as [->|Hne].
      * rewrite !list_lookup_alter. cbn in Hu. rewrite Hu. done.
      * rewrite !list_lookup_alter_ne by done. done.
Qed.

Lemma m_syscall_progress g rs s k o e : wf_smp g -> MInv g rs s -> o <> Tick -> m_valid g s k o -> m_spin s k e ->
  exists r f t, m_select g rs s k o e r f /\ (r <= idle_of g k)%nat
    /\ m_task (m_fin g (m_mid g s k o e) k e r f) !! r = Some t
    /\ m_step g s (k, (o, e)) = Ok (m_fin g (m_mid g s k o e) k e r f, t_sp t, m_refout g s k o).
Proof.
  intros Hw Hi Ho Hv (t & Ht & Hsp). assert (Hk : (k < m_cores g)%nat) by apply Hv.
  assert (Hcn : (on_core s k < cfg_n (m_base g))%nat) by (destruct Hv as [_ Hv]; destruct o; tauto || done).
  destruct (inv_on_core g rs s k Hi Hk) as [Hix Hlt].
  assert (Hltt := lookup_lt_Some _ _ _ Ht).
  destruct (m_switch_progress g rs s k o e t Hw Hi Ho Hv Ht) as (r & f & Hsel & Hr & Hsw).
  set (m := m_mid g s k o e) in *.
  destruct (lookup_lt_is_Some_2 (m_task m) r) as [u Hu].
  { cbn. rewrite map_length, alter_length, (mi_len _ _ _ Hi). unfold idle_of in Hr. lia. }
  exists r, f, (stat_start (m_base g) (e_now e) (set_busy u)).
  assert (Hf : m_task (m_fin g m k e r f) !! r = Some (stat_start (m_base g) (e_now e) (set_busy u))).
  { cbn [m_fin m_task]. rewrite list_lookup_alter, Hu. done. }
  split; [done|]. split; [done|]. split; [done|].
  assert (Hbusy : t_state t = BUSY).
  { destruct (mi_cur _ _ _ Hi k Hk) as [_ [H|[H _]]].
    - unfold mstate in H. rewrite Ht in H. cbn in H. congruence.
    - unfold idle_of in H. lia. }
  assert (Hfi : aget (m_index (m_fin g m k e r f)) (Z.of_nat k) = Ok (Z.of_nat r)).
  { apply aget_ok. cbn. rewrite list_lookup_insert by (rewrite (mi_ilen _ _ _ Hi); done). done. }
  assert (Hdo : forall sc, m_scof g o = Some sc ->
    m_api g s (Z.of_nat k) e sc = Ok (m_fin g m k e r f, t_sp (stat_start (m_base g) (e_now e) (set_busy u)), m_refout g s k o)).
  { intros sc Hsc. unfold m_api, m_guard. rewrite (aget_ok _ _ _ Hix). cbn [rbind].
    rewrite (mget_ok _ _ _ Ht). cbn [rbind]. rewrite bool_decide_eq_true_2 by done.
    unfold assert_fatal. unfold m_syscall. rewrite (aget_ok _ _ _ Hix). cbn [rbind].
    rewrite (mget_ok _ _ _ Ht). cbn [rbind]. unfold assert_fatal.
    destruct (e_sp e >=? t_bot t) eqn:E1; [|lia].
    destruct (Z.ltb_spec (e_sp e) (t_top t)); [|lia].
    assert (Hwp : forall l, mw_postponed (mw_task s l) (m_postponed s) = mw_task s l) by (destruct s; done).
    destruct o; cbn in Hsc; try done; injection Hsc as <-; cbn [m_scupd m_pending] in Hsw; cbn [m_refout].
    - rewrite mput_ok by done. cbn [rbind]. rewrite Hwp in Hsw. rewrite Hsw. cbn [rbind].
      rewrite Hfi. cbn [rbind]. rewrite (mget_ok _ _ _ Hf). done.
    - destruct (m_sleep_until g s (set_sp t (e_sp e)) _ _) as [t' r'] eqn:Eu. cbn [fst] in Hsw.
      rewrite mput_ok by done. cbn [rbind]. rewrite Hwp in Hsw. rewrite Hsw. cbn [rbind].
      rewrite Hfi. cbn [rbind]. rewrite (mget_ok _ _ _ Hf). cbn [rbind]. rewrite Ht. f_equal. f_equal.
      assert (Hsnd : snd (m_sleep_until g s (set_sp t (e_sp e)) (wrap (cfg_tbits (m_base g)) ref) (wrap (cfg_tbits (m_base g)) period))
                = snd (m_sleep_until g s t (wrap (cfg_tbits (m_base g)) ref) (wrap (cfg_tbits (m_base g)) period))).
      { unfold m_sleep_until. destruct (_ <? _); done. }
      rewrite Eu in Hsnd. exact Hsnd.
    - rewrite mput_ok by done. cbn [rbind]. rewrite Hwp in Hsw. rewrite Hsw. cbn [rbind].
      rewrite Hfi. cbn [rbind]. rewrite (mget_ok _ _ _ Hf). done.
    - rewrite mput_ok by done. cbn [rbind]. rewrite Hsw. cbn [rbind].
      rewrite Hfi. cbn [rbind]. rewrite (mget_ok _ _ _ Hf). done. }
  destruct o; cbn [m_step m_scof] in *; try (apply Hdo; done); try done.
  unfold assert_fatal. destruct (_ >? 0) eqn:E; [apply Hdo; done|]. destruct Hv as [_ [_ Hv]]. lia.
Qed.

Lemma m_step_progress g rs s k o e : wf_smp g -> MInv g rs s -> m_valid g s k o -> m_spin s k e ->
  exists r f t, m_select g rs s k o e r f /\ (r <= idle_of g k)%nat
    /\ m_task (m_fin g (m_mid g s k o e) k e r f) !! r = Some t
    /\ m_step g s (k, (o, e)) = Ok (m_fin g (m_mid g s k o e) k e r f, t_sp t, m_refout g s k o).
Proof.
  intros Hw Hi Hv Hs. destruct (decide (o = Tick)) as [->|Ho].
  - apply m_tick_progress; done.
  - apply m_syscall_progress; done.
Qed.
