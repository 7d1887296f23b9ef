(** PropCond.v - condition variables: C40-C43. *)
From Verif Require Import Base IpcModel IpcSpec IpcLogic MutexProofs MutexThms CondSilent CondSignal CondLogic CondThms CondWake CondOwn ExIpc.

(** Task [i] locks mutex 0 and waits on condition 0: asleep, mutex released. *)
Definition waits_for (i : nat) : list sev := alone i (MutexLock 0) 4 ++ Enter i (CondWait 0 0) :: gos i 9.
(** Task [i] locks mutex 0, signals / broadcasts condition 0, unlocks. *)
Definition signals (i : nat) : list sev :=
  alone i (MutexLock 0) 4 ++ alone i (CondSignal 0) 2 ++ alone i (MutexUnlock 0) 6.
Definition broadcasts (i : nat) : list sev :=
  alone i (MutexLock 0) 4 ++ alone i (CondBroadcast 0) 2 ++ alone i (MutexUnlock 0) 6.
Definition xc := waits_for 0 ++ waits_for 1.

(** C40 (1): while a task that called picoRTOS_cond_wait holding the mutex once is asleep in it,
    the mutex is available to another task. *)
Theorem C40_released : forall g c m M s w i,
  wf_icfg g ->
  ready_mem g M /\ reach g M s /\ pids_ok g (y_hist s) /\ depth_ok g m (y_hist s) ->
  cond_discipline c m (y_hist s) ->
  in_call s w (CondWait c m) -> about_to_sleep s w ->
  i <> w -> Z.of_nat i < 2 ^ ic_abits g - 1 -> y_thr s i = Out ->
  (forall j, j <> i -> j <> w -> mquiet m s j) ->
  exists n s', sys_run g s (alone i (MutexTrylock m) n) = Ok s' /\
    y_hist s' = y_hist s ++ [HCall i (MutexTrylock m); HRet i (MutexTrylock m) 0 0].
Proof. intros g c m M s w i Hwf. exact (released g c m Hwf M s w i). Qed.
Print Assumptions C40_released.

(** C40 (2): when the call returns, the task holds the mutex, once, and nobody else does. *)
Theorem C40_owns_again : forall g c m M s w h r v,
  wf_icfg g ->
  ready_mem g M /\ reach g M s /\ pids_ok g (y_hist s) /\ depth_ok g m (y_hist s) ->
  cond_discipline c m (y_hist s) ->
  y_hist s = h ++ [HRet w (CondWait c m) r v] ->
  mheld m w (y_hist s) = 1 /\ (forall j, j <> w -> mheld m j (y_hist s) <= 0).
Proof. intros g c m M s w h r v Hwf. exact (owns_again g c m Hwf M s w h r v). Qed.
Print Assumptions C40_owns_again.

Example C40_case : let s := exst xc in
  reach exi exM s /\ pids_ok exi (y_hist s) /\ depth_ok exi 0 (y_hist s) /\ cond_discipline 0 0 (y_hist s) /\
  in_call s 0 (CondWait 0 0) /\ about_to_sleep s 0 /\ y_thr s 2 = Out /\
  (forall j, j <> 2%nat -> mquiet 0 s j).
Proof. cbv zeta. ipc. Qed.
Example C40_case_return : let s := exst (xc ++ signals 2 ++ gos 0 10) in
  reach exi exM s /\ cond_discipline 0 0 (y_hist s) /\
  y_hist s = y_hist (exst (xc ++ signals 2)) ++ [HRet 0 (CondWait 0 0) 0 0].
Proof. cbv zeta. ipc. Qed.

(** C41 (1): without signal or broadcast nobody returns from a wait. *)
Theorem C41_no_early_partial : forall g c M evs s,
  ready_mem g M -> sys_run g (sys0 M) evs = Ok s ->
  count_ev (is_signal c) (y_hist s) = 0%nat -> count_ev (is_broadcast c) (y_hist s) = 0%nat ->
  count_ev (is_woken c) (y_hist s) = 0%nat.
Proof. exact silent_reach. Qed.
Print Assumptions C41_no_early_partial.

(** C41 (2): without broadcasts, for tasks that hold the mutex when they call wait, there are at
    most as many returns as signals. *)
Theorem C41_signals_partial : forall g c m M s,
  wf_icfg g ->
  ready_mem g M -> reach g M s -> pids_ok g (y_hist s) -> depth_ok g m (y_hist s) ->
  (forall h1 i m' h2, y_hist s = h1 ++ HCall i (CondWait c m') :: h2 -> m' = m /\ 0 < mheld m i h1) ->
  count_ev (is_broadcast c) (y_hist s) = 0%nat ->
  (count_ev (is_woken c) (y_hist s) <= count_ev (is_signal c) (y_hist s))%nat.
Proof. intros g c m M s Hwf. exact (signal_bound g c m Hwf M s). Qed.
Print Assumptions C41_signals_partial.

(** C41 (3): with broadcasts the bound fails.  Tasks 0 and 1 wait; task 2 broadcasts once (two
    returns allowed); task 0 returns and, before task 1 runs, waits twice more: it is not put to
    sleep, and there are three returns. *)
Definition xc_over := xc ++ broadcasts 2 ++ gos 0 9 ++ alone 0 (CondWait 0 0) 8 ++ alone 0 (CondWait 0 0) 8.
Theorem C41_refuted : exists g c m M s,
  wf_icfg g /\ ready_mem g M /\ reach g M s /\ pids_ok g (y_hist s) /\ depth_ok g m (y_hist s) /\
  cond_discipline c m (y_hist s) /\
  count_ev (is_signal c) (y_hist s) = 0%nat /\
  wake_budget c 0 (y_hist s) = 2%nat /\ count_ev (is_woken c) (y_hist s) = 3%nat.
Proof. exists exi, 0%nat, 0%nat, exM, (exst xc_over). ipc. Qed.
Print Assumptions C41_refuted.

(* A run that meets the hypotheses of C41_signals_partial with equality. *)
Example C41_case : let s := exst (xc ++ signals 2 ++ gos 0 10) in
  reach exi exM s /\ pids_ok exi (y_hist s) /\ depth_ok exi 0 (y_hist s) /\ cond_discipline 0 0 (y_hist s) /\
  count_ev (is_broadcast 0) (y_hist s) = 0%nat /\ count_ev (is_signal 0) (y_hist s) = 1%nat /\
  count_ev (is_woken 0) (y_hist s) = 1%nat.
Proof. cbv zeta. ipc. Qed.
Example C41_case_silent : let s := exst (xc ++ gos 0 13) in
  reach exi exM s /\ count_ev (is_signal 0) (y_hist s) = 0%nat /\ count_ev (is_wait 0) (y_hist s) = 2%nat.
Proof. cbv zeta. ipc. Qed.

(** C42 (1): after a signal, as long as nobody has returned from a wait, a task asleep in a wait
    returns if it gets to run (the others being quiet). *)
Theorem C42_one_signal_partial : forall g c m M s0 s s' b w evs0 evs h1,
  wf_icfg g -> ic_tasks g < 2 ^ ic_szbits g ->
  ready_mem g M -> sys_run g (sys0 M) evs0 = Ok s0 ->
  about_to_write s0 b -> sys_step g s0 (Go b) = Ok s -> sys_run g s evs = Ok s' ->
  y_hist s' = y_hist s ++ h1 ->
  pids_ok g (y_hist s') -> depth_ok g m (y_hist s') -> cond_discipline c m (y_hist s') ->
  in_call s0 b (CondSignal c) ->
  count_ev (is_woken c) h1 = 0%nat ->
  in_call s' w (CondWait c m) -> about_to_sleep s' w ->
  (forall j, j <> w -> mquiet m s' j) -> (length (evs0 ++ Go b :: evs) < ic_fuel g)%nat ->
  exists n s'', sys_run g s' (replicate n (Go w)) = Ok s'' /\
    y_hist s'' = y_hist s' ++ [HRet w (CondWait c m) 0 0].
Proof. intros g c m M s0 s s' b w evs0 evs h1 Hwf Ht. exact (signal_seen g c m Hwf Ht M s0 s s' b w evs0 evs h1). Qed.
Print Assumptions C42_one_signal_partial.

(** C42 (2): signals are not counted.  Tasks 0 and 1 wait, task 2 signals twice, task 0 returns; task
    1 is left waiting and no continuation without a new signal or broadcast makes it return. *)
Definition xc_two := xc ++ signals 2 ++ signals 2 ++ gos 0 10 ++ alone 0 (MutexUnlock 0) 6.
Theorem C42_refuted : exists g c m M s w,
  wf_icfg g /\ ready_mem g M /\ reach g M s /\ pids_ok g (y_hist s) /\ depth_ok g m (y_hist s) /\
  cond_discipline c m (y_hist s) /\
  (exists h0 h, y_hist s = h0 ++ h /\ count_ev (is_wait c) h0 = 2%nat /\ count_ev (is_woken c) h0 = 0%nat /\
     count_ev (is_signal c) h = 2%nat /\ count_ev (is_woken c) h = 1%nat) /\
  in_call s w (CondWait c m) /\
  (forall evs' s' h, sys_run g s evs' = Ok s' -> y_hist s' = y_hist s ++ h ->
     count_ev (is_signal c) h = 0%nat -> count_ev (is_broadcast c) h = 0%nat -> count_ev (is_woken c) h = 0%nat).
Proof.
  exists exi, 0%nat, 0%nat, exM, (exst xc_two), 1%nat. ipc.
  - exists (y_hist (exst xc)). eexists. split; [vm_compute; reflexivity|]. ipc.
  - eapply (forgotten exi 0 exM xc_two); [apply exst_run; vm_compute; reflexivity|vm_compute; reflexivity|].
    intros i. destruct i as [|[|[|i]]].
    + left. ipc.
    + right. exists 0%nat. ipc.
    + left. ipc.
    + left. apply exst_out_max; [vm_compute; reflexivity|]. vm_compute. lia.
Qed.
Print Assumptions C42_refuted.

(* Signal by task 2 while 0 and 1 wait. *)
Example C42_case :
  let e0 := xc ++ alone 2 (MutexLock 0) 4 ++ [Enter 2 (CondSignal 0)] in
  let e1 := Go 2 :: alone 2 (MutexUnlock 0) 6 in
  about_to_write (exst e0) 2 /\ in_call (exst e0) 2 (CondSignal 0) /\
  okb (exrun (e0 ++ Go 2 :: e1)) = true /\
  (let s' := exst (e0 ++ Go 2 :: e1) in
   cond_discipline 0 0 (y_hist s') /\ in_call s' 1 (CondWait 0 0) /\ about_to_sleep s' 1 /\
   (forall j, j <> 1%nat -> mquiet 0 s' j)) /\
  (length (e0 ++ Go 2 :: e1) < ic_fuel exi)%nat.
Proof. cbv zeta. ipc. vm_compute. lia. Qed.

(** C43 (1): a task that was waiting when a task holding the mutex broadcasts, as long as nobody
    signals: until it returns it never releases the mutex again, and if it is asleep while the
    others are quiet, it returns when it gets to run. *)
Theorem C43_broadcast_partial : forall g c m M s0 s s' b w evs0 evs h1,
  wf_icfg g -> ic_tasks g < 2 ^ ic_szbits g ->
  ready_mem g M -> sys_run g (sys0 M) evs0 = Ok s0 ->
  about_to_write s0 b -> 0 < mheld m b (y_hist s0) ->
  sys_step g s0 (Go b) = Ok s -> sys_run g s evs = Ok s' ->
  y_hist s' = y_hist s ++ h1 ->
  pids_ok g (y_hist s') -> depth_ok g m (y_hist s') -> cond_discipline c m (y_hist s') ->
  in_call s0 b (CondBroadcast c) -> in_call s w (CondWait c m) ->
  (forall i, ~ in_call s i (CondSignal c)) -> count_ev (is_signal c) h1 = 0%nat ->
  no_return w h1 ->
  in_call s' w (CondWait c m) /\ ~ about_to_set s' w (LOwner m) /\
  (about_to_sleep s' w -> (forall j, j <> w -> mquiet m s' j) ->
   (length (evs0 ++ Go b :: evs) < ic_fuel g)%nat ->
   exists n s'', sys_run g s' (replicate n (Go w)) = Ok s'' /\
     y_hist s'' = y_hist s' ++ [HRet w (CondWait c m) 0 0]).
Proof. intros g c m M s0 s s' b w evs0 evs h1 Hwf Ht. exact (broadcast_seen g c m Hwf Ht M s0 s s' b w evs0 evs h1). Qed.
Print Assumptions C43_broadcast_partial.

(** C43 (2): a later signal cancels the broadcast.  Tasks 0 and 1 wait, task 2 broadcasts then
    signals, task 0 returns: task 1 is left waiting. *)
Definition xc_lost := xc ++ broadcasts 2 ++ signals 2 ++ gos 0 10 ++ alone 0 (MutexUnlock 0) 6.
Theorem C43_refuted : exists g c m M s w,
  wf_icfg g /\ ready_mem g M /\ reach g M s /\ pids_ok g (y_hist s) /\ depth_ok g m (y_hist s) /\
  cond_discipline c m (y_hist s) /\
  (exists h0 h, y_hist s = h0 ++ HCall w (CondWait c m) :: h /\ no_return w h /\
     count_ev (is_broadcast c) h = 1%nat) /\
  in_call s w (CondWait c m) /\
  (forall evs' s' h, sys_run g s evs' = Ok s' -> y_hist s' = y_hist s ++ h ->
     count_ev (is_signal c) h = 0%nat -> count_ev (is_broadcast c) h = 0%nat -> count_ev (is_woken c) h = 0%nat).
Proof.
  exists exi, 0%nat, 0%nat, exM, (exst xc_lost), 1%nat. ipc.
  - exists (y_hist (exst (waits_for 0 ++ alone 1 (MutexLock 0) 4))). eexists.
    split; [vm_compute; reflexivity|]. ipc.
    intros c r v X. repeat (apply elem_of_cons in X as [X|X]; [discriminate|]). by apply elem_of_nil in X.
  - eapply (forgotten exi 0 exM xc_lost); [apply exst_run; vm_compute; reflexivity|vm_compute; reflexivity|].
    intros i. destruct i as [|[|[|i]]].
    + left. ipc.
    + right. exists 0%nat. ipc.
    + left. ipc.
    + left. apply exst_out_max; [vm_compute; reflexivity|]. vm_compute. lia.
Qed.
Print Assumptions C43_refuted.

Example C43_case :
  let e0 := xc ++ alone 2 (MutexLock 0) 4 ++ [Enter 2 (CondBroadcast 0)] in
  let e1 := Go 2 :: alone 2 (MutexUnlock 0) 6 in
  about_to_write (exst e0) 2 /\ in_call (exst e0) 2 (CondBroadcast 0) /\ mheld 0 2 (y_hist (exst e0)) = 1 /\
  okb (exrun (e0 ++ Go 2 :: e1)) = true /\
  in_call (exst (e0 ++ [Go 2])) 1 (CondWait 0 0) /\
  (let s' := exst (e0 ++ Go 2 :: e1) in
   cond_discipline 0 0 (y_hist s') /\ count_ev (is_signal 0) (y_hist s') = 0%nat /\
   in_call s' 1 (CondWait 0 0) /\ about_to_sleep s' 1 /\
   (forall j, j <> 1%nat -> mquiet 0 s' j)) /\
  (length (e0 ++ Go 2 :: e1) < ic_fuel exi)%nat.
Proof. cbv zeta. ipc. vm_compute. lia. Qed.
