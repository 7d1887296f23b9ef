(** PropLock.v - futexes and mutexes: C35-C39.

    A system is any number of tasks making IPC calls, interleaved between any two memory accesses
    ([reach]).  [fheld] / [mheld] count, from the calls and returns alone, how many times a task
    holds a futex / mutex. *)
From Verif Require Import Base IpcModel IpcSpec IpcLogic MutexProofs MutexThms FutexProofs ExIpc.

(** Task 0 took futex 0 and mutex 0, task 1 is inside the lock calls. *)
Definition xf := alone 0 (FutexLock 0) 2 ++ [Enter 1 (FutexLock 0); Go 1].
Definition xm := alone 0 (MutexLock 0) 4 ++ [Enter 1 (MutexLock 0); Go 1; Go 1].

(** C35 (1): two tasks never hold the same futex. *)
Theorem C35_exclusion : forall g f M s i j,
  ready_mem g M -> reach g M s -> futex_discipline f (y_hist s) ->
  0 < fheld f i (y_hist s) -> 0 < fheld f j (y_hist s) -> i = j.
Proof. exact futex_exclusion. Qed.
Print Assumptions C35_exclusion.

(** C35 (2): nor does one task hold it twice. *)
Theorem C35_once : forall g f M s i,
  ready_mem g M -> reach g M s -> futex_discipline f (y_hist s) -> y_thr s i = Out ->
  fheld f i (y_hist s) = 0 \/ fheld f i (y_hist s) = 1.
Proof. exact futex_once. Qed.
Print Assumptions C35_once.

(** C35 (3): a futex nobody holds is available. *)
Theorem C35_available : forall g f M s i,
  ready_mem g M -> reach g M s -> futex_discipline f (y_hist s) -> y_thr s i = Out ->
  fheld f i (y_hist s) = 0 -> (forall j, j <> i -> fquiet f s j) ->
  exists n s', sys_run g s (alone i (FutexTrylock f) n) = Ok s' /\
    y_hist s' = y_hist s ++ [HCall i (FutexTrylock f); HRet i (FutexTrylock f) 0 0].
Proof. exact futex_available. Qed.
Print Assumptions C35_available.

Example C35_case : ready_mem exi exM /\ reach exi exM (exst xf) /\ futex_discipline 0 (y_hist (exst xf)) /\
  0 < fheld 0 0 (y_hist (exst xf)) /\ y_thr (exst xf) 0 = Out.
Proof. ipc. Qed.
(* Task 0 gives it back; task 1, asleep in its lock call, leaves it available to task 2. *)
Example C35_case_available :
  let s := exst (xf ++ alone 0 (FutexUnlock 0) 3) in
  reach exi exM s /\ futex_discipline 0 (y_hist s) /\ y_thr s 2 = Out /\ fheld 0 2 (y_hist s) = 0 /\
  (forall j, j <> 2%nat -> fquiet 0 s j).
Proof.
  cbv zeta. ipc. intros j Hj. destruct j as [|[|[|j]]]; [| |done|].
  - split; [vm_compute; reflexivity|]. left. vm_compute. reflexivity.
  - split; [vm_compute; reflexivity|]. right. left. eexists _, _, _. vm_compute. reflexivity.
  - split.
    + vm_compute. reflexivity.
    + left. apply exst_out_max; [vm_compute; reflexivity|]. vm_compute. lia.
Qed.

(** C36: however the other tasks behave ([tr] holds whatever the memory answered), a lock call
    stalls only after deadlock+1 failed attempts separated by deadlock one-tick sleeps, and returns
    only 0, right after an attempt that found the lock free (or, for a mutex, owned by the
    caller). *)
Theorem C36_futex_lock : forall g l tr p,
  trace (futex_lock g l) tr p ->
  (p = Stall -> gives_up (futex_fail l) (ic_deadlock g) tr) /\
  (forall r, p = Ret r -> r = 0 /\ exists n, (n <= ic_deadlock g)%nat /\ gets_it (futex_fail l) (futex_win l) n tr) /\
  p <> OutOfFuel.
Proof. intros g l. exact (futex_lock_trace l (ic_deadlock g)). Qed.
Print Assumptions C36_futex_lock.

Theorem C36_mutex_lock : forall g pid m tr p,
  trace (mutex_lock g pid m) tr p ->
  (p = Stall -> gives_up (mutex_fail g pid m) (ic_deadlock g) tr) /\
  (forall r, p = Ret r ->
     r = 0 /\ exists n, (n <= ic_deadlock g)%nat /\ gets_it (mutex_fail g pid m) (mutex_win g pid m) n tr) /\
  p <> OutOfFuel.
Proof. intros g pid m. exact (mutex_lock_trace g pid m (ic_deadlock g)). Qed.
Print Assumptions C36_mutex_lock.

(* Four failed attempts, three sleeps, stall; and success at the second attempt. *)
Example C36_case : exists tr tr',
  trace (futex_lock exi (LFutex 0)) tr Stall /\ length tr = 7%nat /\
  trace (mutex_lock exi 1 0) tr' (Ret 0) /\ length tr' = 6%nat.
Proof.
  exists [(MTas (LFutex 0), 1); (MSleep 1, 0); (MTas (LFutex 0), 1); (MSleep 1, 0);
          (MTas (LFutex 0), 1); (MSleep 1, 0); (MTas (LFutex 0), 1)].
  exists [(MCas (LOwner 0) (nobody exi) 1, 0); (MRead (LOwner 0), 0); (MSleep 1, 0);
          (MCas (LOwner 0) (nobody exi) 1, nobody exi); (MRead (LCount 0), 0); (MWrite (LCount 0) 1, 0)].
  split; [|split; [done|split; [|done]]]; repeat (constructor; cbn); exact (trace_nil _).
Qed.

(** C37: two tasks never hold the same mutex. *)
Theorem C37_exclusion : forall g m M s i j,
  wf_icfg g ->
  ready_mem g M /\ reach g M s /\ pids_ok g (y_hist s) /\ depth_ok g m (y_hist s) ->
  0 < mheld m i (y_hist s) -> 0 < mheld m j (y_hist s) -> i = j.
Proof. intros g m M s i j Hwf. exact (mutex_exclusion g m Hwf M s i j). Qed.
Print Assumptions C37_exclusion.

Example C37_case : let s := exst xm in
  ready_mem exi exM /\ reach exi exM s /\ pids_ok exi (y_hist s) /\ depth_ok exi 0 (y_hist s) /\
  0 < mheld 0 0 (y_hist s) /\ y_mem s (LOwner 0) = 0.
Proof. cbv zeta. ipc. Qed.

(** C38 (1): a task that holds a mutex locks it again without sleeping, stalling or failing. *)
Theorem C38_reentrant : forall g m M s i c,
  wf_icfg g ->
  ready_mem g M /\ reach g M s /\ pids_ok g (y_hist s) /\ depth_ok g m (y_hist s) ->
  c = MutexLock m \/ c = MutexTrylock m -> in_call s i c -> 0 < mheld m i (y_hist s) ->
  ~ about_to_sleep s i /\ ~ about_to_stall s i /\ forall r v, about_to_return s i c r v -> r = 0.
Proof. intros g m M s i c Hwf. exact (mutex_reentrant g m Hwf M s i c). Qed.
Print Assumptions C38_reentrant.

(** C38 (2): once every lock has been matched by an unlock (nobody holds it nor is busy with it),
    it is available to anyone. *)
Theorem C38_available : forall g m M s i,
  wf_icfg g ->
  ready_mem g M /\ reach g M s /\ pids_ok g (y_hist s) /\ depth_ok g m (y_hist s) ->
  Z.of_nat i < 2 ^ ic_abits g - 1 -> y_thr s i = Out ->
  (forall j, j <> i -> mquiet m s j) ->
  exists n s', sys_run g s (alone i (MutexTrylock m) n) = Ok s' /\
    y_hist s' = y_hist s ++ [HCall i (MutexTrylock m); HRet i (MutexTrylock m) 0 0].
Proof. intros g m M s i Hwf. exact (mutex_available g m Hwf M s i). Qed.
Print Assumptions C38_available.

(** C38 (3): a task that holds it unlocks it without stalling. *)
Theorem C38_unlock : forall g m M s i,
  wf_icfg g ->
  ready_mem g M /\ reach g M s /\ pids_ok g (y_hist s) /\ depth_ok g m (y_hist s) ->
  y_thr s i = Out -> 0 < mheld m i (y_hist s) ->
  exists n s', sys_run g s (alone i (MutexUnlock m) n) = Ok s' /\
    y_hist s' = y_hist s ++ [HCall i (MutexUnlock m); HRet i (MutexUnlock m) 0 0].
Proof. intros g m M s i Hwf. exact (mutex_unlock_owner g m Hwf M s i). Qed.
Print Assumptions C38_unlock.

(* Task 0 in its third nested lock while task 1 waits; then after three unlocks. *)
Definition xm3 := xm ++ alone 0 (MutexLock 0) 5 ++ [Enter 0 (MutexLock 0); Go 0; Go 0].
Example C38_case : let s := exst xm3 in
  reach exi exM s /\ pids_ok exi (y_hist s) /\ depth_ok exi 0 (y_hist s) /\
  in_call s 0 (MutexLock 0) /\ mheld 0 0 (y_hist s) = 2.
Proof. cbv zeta. ipc. Qed.
Definition xm0 := xm3 ++ gos 0 3 ++ alone 0 (MutexUnlock 0) 6 ++ alone 0 (MutexUnlock 0) 6 ++ alone 0 (MutexUnlock 0) 6.
Example C38_case_available : let s := exst xm0 in
  reach exi exM s /\ pids_ok exi (y_hist s) /\ depth_ok exi 0 (y_hist s) /\
  mheld 0 0 (y_hist s) = 0 /\ length (y_hist s) = 13%nat /\
  (forall j, j <> 2%nat -> mquiet 0 s j).
Proof. cbv zeta. ipc. Qed.
Example C38_case_unlock : let s := exst xm in
  y_thr s 0 = Out /\ mheld 0 0 (y_hist s) = 1 /\ reach exi exM s.
Proof. cbv zeta. ipc. Qed.

(** C39: a task that calls unlock on a mutex it does not hold never returns from the call, never
    writes, changes nothing, and stalls the system at its second step at the latest, whatever the
    other tasks do meanwhile. *)
Theorem C39_stranger : forall g m M s i evs s',
  wf_icfg g ->
  ready_mem g M /\ reach g M s /\ pids_ok g (y_hist s) /\ depth_ok g m (y_hist s) ->
  Z.of_nat i < 2 ^ ic_abits g - 1 -> y_thr s i = Out -> mheld m i (y_hist s) <= 0 ->
  sys_run g s (Enter i (MutexUnlock m) :: evs) = Ok s' ->
  pids_ok g (y_hist s') -> depth_ok g m (y_hist s') ->
  (exists p, y_thr s' i = In (MutexUnlock m) p /\ forall a, p <> Ret a) /\
  ~ about_to_write s' i /\
  sys_run g s' [Go i; Go i] = Fatal /\
  (forall s'' l, sys_step g s' (Go i) = Ok s'' -> y_mem s'' l = y_mem s' l).
Proof. intros g m M s i evs s' Hwf. exact (mutex_unlock_stranger g m Hwf M s i evs s'). Qed.
Print Assumptions C39_stranger.

(* Task 2 unlocks the mutex of task 0; then one nobody holds. *)
Example C39_case : let s := exst xm in
  reach exi exM s /\ pids_ok exi (y_hist s) /\ depth_ok exi 0 (y_hist s) /\ y_thr s 2 = Out /\
  mheld 0 2 (y_hist s) <= 0 /\ mheld 1 2 (y_hist s) <= 0 /\
  okb (sys_run exi s [Enter 2 (MutexUnlock 0); Go 0]) = true /\
  sys_run exi s (alone 2 (MutexUnlock 0) 2) = Fatal /\
  sys_run exi s (alone 2 (MutexUnlock 1) 2) = Fatal.
Proof. cbv zeta. ipc. Qed.
