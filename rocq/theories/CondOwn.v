(** CondOwn.v - the mutex while a task waits and when the wait returns; states in which a waiter
    has been forgotten. *)
From Verif Require Import Base IpcModel IpcSpec IpcLogic IpcAvoid MutexProofs MutexThms CondSilent CondSignal CondWake.
From Coq Require Import ZifyBool ZifyNat.

(** No event of task [i]. *)
Definition silent_of (i : nat) (h : list hev) : Prop := Forall (fun e => ev_task e <> i) h.

Lemma mheld_silent m i h : silent_of i h -> mheld m i h = 0.
Proof.
  induction 1 as [|e h He Hh IH]; [done|]. change (e :: h) with ([e] ++ h). rewrite mheld_app, IH.
  unfold mheld. cbn [foldr]. rewrite mdelta_other; [lia|done].
Qed.

(** A task inside a call: its last event is the call. *)
Lemma call_open g M evs s i c :
  sys_run g (sys0 M) evs = Ok s -> in_call s i c ->
  exists h1 h2, y_hist s = h1 ++ HCall i c :: h2 /\ silent_of i h2.
Proof.
  assert (G : forall evs s0 s, sys_run g s0 evs = Ok s ->
    (in_call s0 i c -> exists h1 h2, y_hist s0 = h1 ++ HCall i c :: h2 /\ silent_of i h2) ->
    in_call s i c -> exists h1 h2, y_hist s = h1 ++ HCall i c :: h2 /\ silent_of i h2).
  { clear. induction evs as [|e evs IH]; intros s0 s; cbn [sys_run].
    - by intros [= <-].
    - destruct (sys_step g s0 e) as [s1| | |] eqn:E; cbn [rbind]; try done. intros Hr H0.
      apply (IH s1 s Hr). clear IH Hr. intros [p Hp]. destruct e as [j d|j]; cbn [sys_step] in E.
      + destruct (y_thr s0 j) eqn:Ej; injection E as <-; [|apply H0; by exists p].
        cbn in *. unfold tupd in Hp. case_decide as D.
        * injection Hp as <- _. subst j. exists (y_hist s0), []. split; [done|constructor].
        * destruct H0 as (h1 & h2 & Hh & Hs); [by exists p|]. exists h1, (h2 ++ [HCall j d]).
          rewrite Hh, <- app_assoc. split; [done|]. apply Forall_app. split; [done|]. constructor; [cbn; congruence|constructor].
      + destruct (y_thr s0 j) as [|d [[r v]| | |o k]] eqn:Ej; try done; try (injection E as <-; apply H0; by exists p).
        * injection E as <-. cbn in *. unfold tupd in Hp. case_decide as D; [done|].
          destruct H0 as (h1 & h2 & Hh & Hs); [by exists p|]. exists h1, (h2 ++ [HRet j d r v]).
          rewrite Hh, <- app_assoc. split; [done|]. apply Forall_app. split; [done|]. constructor; [cbn; congruence|constructor].
        * destruct (exec o (y_mem s0)) as [M' v]. injection E as <-. cbn in *. unfold tupd in Hp. case_decide as D.
          -- subst j. injection Hp as <- _. apply H0. by eexists.
          -- apply H0. by exists p. }
  intros Hr. apply (G evs (sys0 M) s Hr). intros [p Hp]. done.
Qed.

(** A return matches the last event of the task, which is the call. *)
Lemma ret_matches g M evs s h i c r v :
  sys_run g (sys0 M) evs = Ok s -> y_hist s = h ++ [HRet i c r v] ->
  exists h1 h2, h = h1 ++ HCall i c :: h2 /\ silent_of i h2.
Proof.
  revert s h. induction evs as [|e evs IH] using rev_ind; intros s h; cbn [sys_run].
  - intros [= <-] E. cbn in E. by destruct h.
  - rewrite sys_run_app. destruct (sys_run g (sys0 M) evs) as [s1| | |] eqn:E1; cbn [rbind sys_run]; try done.
    intros Hs Hh. destruct (sys_step g s1 e) as [s2| | |] eqn:E; cbn [rbind] in Hs; try done. injection Hs as ->.
    destruct e as [j d|j]; cbn [sys_step] in E.
    + destruct (y_thr s1 j) eqn:Ej; injection E as <-; [|by eapply IH].
      cbn in Hh. by apply app_inj_tail in Hh as [_ Hh].
    + destruct (y_thr s1 j) as [|d [[r' v']| | |o k]] eqn:Ej; try done; try (injection E as <-; by eapply IH).
      * injection E as <-. cbn in Hh. apply app_inj_tail in Hh as [<- Hh]. injection Hh as -> -> -> ->.
        eapply call_open; [exact E1|by eexists].
      * destruct (exec o (y_mem s1)) as [M' x]. injection E as <-. by eapply IH.
Qed.

Section own.
  Context (g : icfg) (c m : nat).
  Hypothesis Hwf : wf_icfg g.
  Notation good M s :=
    (ready_mem g M /\ reach g M s /\ pids_ok g (y_hist s) /\ depth_ok g m (y_hist s)).

  Lemma waiter_quiet M s w :
    reach g M s -> cond_discipline c m (y_hist s) -> in_call s w (CondWait c m) -> about_to_sleep s w ->
    mquiet m s w.
  Proof.
    intros [evs Hr] Hd Hc Hs. split; [|by right; left].
    destruct (call_open _ _ _ _ _ _ Hr Hc) as (h1 & h2 & E & Hq).
    destruct (Hd _ _ _ _ E) as [_ H1]. rewrite E, mheld_app. change (?x :: h2) with ([x] ++ h2).
    rewrite mheld_app, (mheld_silent _ _ h2) by done. unfold mheld at 2. cbn [foldr mdelta].
    rewrite bool_decide_eq_true_2 by done. lia.
  Qed.

  Lemma released M s w i :
    good M s -> cond_discipline c m (y_hist s) ->
    in_call s w (CondWait c m) -> about_to_sleep s w ->
    i <> w -> Z.of_nat i < 2 ^ ic_abits g - 1 -> y_thr s i = Out ->
    (forall j, j <> i -> j <> w -> mquiet m s j) ->
    exists n s', sys_run g s (alone i (MutexTrylock m) n) = Ok s' /\
      y_hist s' = y_hist s ++ [HCall i (MutexTrylock m); HRet i (MutexTrylock m) 0 0].
  Proof.
    intros Hg Hd Hc Hs Hi Hp Ho Hq. eapply mutex_available; [done|exact Hg|done|done|].
    intros j Hj. destruct (decide (j = w)) as [->|]; [|by apply Hq].
    destruct Hg as (_ & Hr & _). by eapply waiter_quiet.
  Qed.

  Lemma owns_again M s w h r v :
    good M s -> cond_discipline c m (y_hist s) ->
    y_hist s = h ++ [HRet w (CondWait c m) r v] ->
    mheld m w (y_hist s) = 1 /\ (forall j, j <> w -> mheld m j (y_hist s) <= 0).
  Proof.
    intros Hg Hd Hh. pose proof Hg as (_ & [evs Hr] & _).
    destruct (ret_matches _ _ _ _ _ _ _ _ _ Hr Hh) as (h1 & h2 & E & Hq).
    assert (H1 : mheld m w (y_hist s) = 1).
    { destruct (Hd h1 w m (h2 ++ [HRet w (CondWait c m) r v])) as [_ H1].
      { rewrite Hh, E, <- app_assoc. done. }
      rewrite Hh, E, !mheld_app. change (?x :: h2) with ([x] ++ h2).
      rewrite mheld_app, (mheld_silent _ _ h2) by done. unfold mheld at 2 3. cbn [foldr mdelta].
      rewrite bool_decide_eq_true_2 by done. lia. }
    split; [done|]. intros j Hj. destruct (decide (0 < mheld m j (y_hist s))) as [Hp|]; [|lia].
    exfalso. apply Hj. eapply mutex_exclusion; [done|exact Hg|done|lia].
  Qed.
End own.

(** ** Forgotten waiters *)

Lemma out_fresh g M evs s i :
  sys_run g (sys0 M) evs = Ok s -> (forall c, Enter i c ∉ evs) -> y_thr s i = Out.
Proof.
  revert s. induction evs as [|e evs IH] using rev_ind; intros s; cbn [sys_run].
  - by intros [= <-].
  - rewrite sys_run_app. destruct (sys_run g (sys0 M) evs) as [s1| | |] eqn:E1; cbn [rbind sys_run]; try done.
    intros Hs Hn. destruct (sys_step g s1 e) as [s2| | |] eqn:E; cbn [rbind] in Hs; try done. injection Hs as ->.
    assert (H1 : y_thr s1 i = Out).
    { apply IH; [done|]. intros c X. apply (Hn c). apply elem_of_app. by left. }
    destruct e as [j d|j]; cbn [sys_step] in E.
    + destruct (y_thr s1 j) eqn:Ej; injection E as <-; [|done]. cbn. unfold tupd. case_decide; [|done].
      subst. exfalso. apply (Hn d). apply elem_of_app. right. by apply elem_of_list_singleton.
    + destruct (y_thr s1 j) as [|d [[r v]| | |o k]] eqn:Ej; try done; try (injection E as <-; done).
      * injection E as <-. cbn. unfold tupd. by case_decide.
      * destruct (exec o (y_mem s1)) as [M' x]. injection E as <-. cbn. unfold tupd. case_decide; [congruence|done].
Qed.

Section forgotten.
  Context (g : icfg) (c : nat).

  (** Nothing raised, everybody outside or asleep in a wait. *)
  Lemma asleep_SInv M evs s :
    sys_run g (sys0 M) evs = Ok s -> y_mem s (LAct c) = 0 ->
    (forall i, y_thr s i = Out \/ exists m, in_call s i (CondWait c m) /\ about_to_sleep s i) ->
    SInv c s.
  Proof.
    intros Hr Ha Hi. exists (fun _ => tt). split; [exact Ha|]. intros i. destruct (Hi i) as [->|(m & [p Hp] & (c' & n & k & Hs))]; [done|].
    rewrite Hs in Hp. injection Hp as -> <-.
    destruct (reach_trace _ _ _ _ _ _ _ Hr Hs) as (tr & Ht & _). cbn [body] in Ht.
    destruct (wait_sleep _ _ _ _ _ _ _ Ht) as (loop & f & _ & Hk).
    rewrite Hs. cbn [thr_ok wp nstep]. split; [done|]. split; [done|]. intros v. rewrite Hk.
    apply wp_bind; [apply nstep_mono|]. apply wp_bind; [apply nstep_mono|]. apply wp_bind; [apply nstep_mono|].
    eapply (within_wp _ (fun l => l <> LAct c)); [by intros; apply nframe|by apply within_mutex_lock|done..|].
    intros _. by apply silent_loop.
  Qed.

  Lemma forgotten M evs s :
    sys_run g (sys0 M) evs = Ok s -> y_mem s (LAct c) = 0 ->
    (forall i, y_thr s i = Out \/ exists m, in_call s i (CondWait c m) /\ about_to_sleep s i) ->
    forall evs' s' h, sys_run g s evs' = Ok s' -> y_hist s' = y_hist s ++ h ->
      count_ev (is_signal c) h = 0%nat -> count_ev (is_broadcast c) h = 0%nat -> count_ev (is_woken c) h = 0%nat.
  Proof.
    intros Hr Ha Hi evs' s' h Hr' Hh H1 H2.
    destruct (silent_run g c s evs' s' (y_hist s)) as [_ (h' & E & Hw)].
    - by eapply asleep_SInv.
    - exists []. by rewrite app_nil_r.
    - done.
    - intros a x b E. rewrite Hh in E. apply app_inv_head in E. subst h.
      rewrite !count_ev_app in H1, H2. unfold count_ev in H1, H2. rewrite filter_cons in H1, H2.
      split; [destruct (is_signal c x)|destruct (is_broadcast c x)]; try done;
        rewrite decide_True in * by done; cbn in *; lia.
    - rewrite Hh in E. apply app_inv_head in E. by subst.
  Qed.
End forgotten.
