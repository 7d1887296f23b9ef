(** PropOs.v - locks under the scheduler: C105-C108. *)
From Verif Require Import Base SchedModel SchedSpec IpcModel IpcSpec IpcLogic MutexProofs MutexThms FutexProofs ExSched ExIpc OsModel OsSpec OsProofs.

(** Three tasks: high (0), middle (1) and low (2); CONFIG_DEADLOCK_COUNT is 3. *)
Definition xrs : list reg := [taskB; taskA; mkReg 16384 64 16500 3 0].
Definition xk0 : core := get_core (boot exc junk xrs).
Definition xos (evs : list oev) : res os := os_run exc exi (mkOs xk0 (sys0 exM)) evs.
Definition xst (evs : list oev) : os := match xos evs with Ok s => s | _ => mkOs nocore (sys0 exM) end.
Definition en (pid : nat) : entry := mkEntry (spof pid) 5 7.
Lemma xst_reach evs : is_ok (xos evs) = true -> os_reach exc xrs exi (xst evs).
Proof.
  intros H. exists junk, xk0, exM, evs. split; [vm_compute; reflexivity|]. split; [exact exM_ready|]. unfold xst, xos in *. destruct (os_run exc exi (mkOs xk0 (sys0 exM)) evs); try discriminate H. reflexivity.
Qed.
Lemma xrs_typed : regs_typed xrs.
Proof. repeat constructor; cbn; lia. Qed.

(** The low task has taken futex 0 (mutex 0), the high one is in the lock call, about to sleep. *)
Definition x_low (cl : call) (n : nat) : list oev := [OTick (en 4); OApp (Sleep 2) (en 0); OApp (Sleep 1) (en 1); OCall cl] ++ replicate n (OGo (en 2)).
Definition x_high (cl : call) (n : nat) : list oev := [OTick (en 2); OTick (en 1); OCall cl] ++ replicate n (OGo (en 0)).
Definition xwait := x_low (FutexLock 0) 2 ++ x_high (FutexLock 0) 1.
Definition xwaitm := x_low (MutexLock 0) 4 ++ x_high (MutexLock 0) 2.

(** * C105: under the scheduler, a lock has one holder *)
Theorem C105_futex : forall c rs g s f i j, os_reach c rs g s -> futex_discipline f (y_hist (o_y s)) ->
  0 < fheld f i (y_hist (o_y s)) -> 0 < fheld f j (y_hist (o_y s)) -> i = j.
Proof. intros c rs g s f i j R D. destruct (os_reach_split _ _ _ _ R) as [_ (M & A & B)]. exact (futex_exclusion g f M (o_y s) i j A B D). Qed.
Print Assumptions C105_futex.
(** For mutexes, the identifiers need not be assumed to fit picoRTOS_atomic_t: those of the scheduler do. *)
Theorem C105_mutex : forall c rs g s m i j, wf_config c -> regs_typed rs -> wf_icfg g -> Z.of_nat (cfg_n c) < 2 ^ ic_abits g ->
  os_reach c rs g s -> depth_ok g m (y_hist (o_y s)) -> 0 < mheld m i (y_hist (o_y s)) -> 0 < mheld m j (y_hist (o_y s)) -> i = j.
Proof.
  intros c rs g s m i j Hc Hr Hg Hn R D. destruct (os_reach_split _ _ _ _ R) as [_ (M & A & B)]. refine (mutex_exclusion g m Hg M (o_y s) i j _).
  split; [exact A|]. split; [exact B|]. split; [|exact D]. intros k cl X. pose proof (os_calls _ _ _ _ _ _ Hc Hr R X). lia.
Qed.
Print Assumptions C105_mutex.
(** The scheduler's own properties, C01-C28, are those of its part of the system. *)
Theorem C105_scheduler : forall c rs g s, os_reach c rs g s -> reachable c rs (o_k s).
Proof. intros c rs g s R. exact (proj1 (os_reach_split _ _ _ _ R)). Qed.
Print Assumptions C105_scheduler.
Example C105_case : let s := xst xwait in let sm := xst xwaitm in os_reach exc xrs exi s /\ os_reach exc xrs exi sm /\
  0 < fheld 0 2 (y_hist (o_y s)) /\ 0 < mheld 0 2 (y_hist (o_y sm)) /\ Z.of_nat (cfg_n exc) < 2 ^ ic_abits exi.
Proof. split; [apply xst_reach; vm_compute; reflexivity|]. split; [apply xst_reach; vm_compute; reflexivity|]. split; [|split]; vm_compute; reflexivity. Qed.

(** * C106: a lock call declares deadlock only after CONFIG_DEADLOCK_COUNT ticks *)
(** From the call of any IPC function on: [evs] is whatever happens until the task is in a lock call and about to stall. *)
Theorem C106_patience : forall c rs g s cl s1 evs s2 cl', wf_config c -> regs_typed rs -> os_reach c rs g s ->
  y_thr (o_y s) (cur (o_k s)) = Out -> os_step c g s (OCall cl) = Ok s1 -> os_run c g s1 evs = Ok s2 ->
  is_lock cl' -> y_thr (o_y s2) (cur (o_k s)) = In cl' Stall -> Z.of_nat (ic_deadlock g) <= oticks evs.
Proof. intros c rs g s cl s1 evs s2 cl' Hc Hr. exact (patient c rs g Hc Hr s cl s1 evs s2 cl'). Qed.
Print Assumptions C106_patience.

(** * C107: a free lock goes to the waiting task as soon as it runs *)
(** A task that waits for a lock is ready at the next tick, and runs at that tick if it is its turn and no more urgent task can; *)
Theorem C107_wakes : forall c rs g s cl e s1 evs s2 e' s3, wf_config c -> regs_typed rs -> os_reach c rs g s ->
  is_lock cl -> waits s cl -> os_step c g s (OGo e) = Ok s1 -> os_run c g s1 evs = Ok s2 -> oticks evs = 0 -> os_step c g s2 (OTick e') = Ok s3 ->
  ready (o_k s3) (cur (o_k s)) /\
  (turn c rs (c_tick (o_k s3)) (cur (o_k s)) -> (forall j, (j < cur (o_k s))%nat -> ~ eligible c rs (o_k s3) j) -> cur (o_k s3) = cur (o_k s)).
Proof. intros c rs g s cl e s1 evs s2 e' s3 Hc Hr. exact (wakes c rs g Hc Hr s cl e s1 evs s2 e' s3). Qed.
Print Assumptions C107_wakes.
(** and when it runs, if the lock is free, it has it after a few instructions, without having slept or let any other task run. *)
Theorem C107_takes : forall c rs g s cl e s1 evs s2, wf_config c -> regs_typed rs -> os_reach c rs g s ->
  is_lock cl -> waits s cl -> os_step c g s (OGo e) = Ok s1 -> os_run c g s1 evs = Ok s2 ->
  not_run c g (cur (o_k s)) s1 evs -> cur (o_k s2) = cur (o_k s) -> free g s2 cl ->
  exists n, forall es, length es = n -> exists s3, os_run c g s2 (map OGo es) = Ok s3 /\ o_k s3 = o_k s2 /\
    y_hist (o_y s3) = y_hist (o_y s2) ++ [HRet (cur (o_k s)) cl 0 0] /\ y_thr (o_y s3) (cur (o_k s)) = Out.
Proof. intros c rs g s cl e s1 evs s2 Hc Hr. exact (takes c rs g Hc Hr s cl e s1 evs s2). Qed.
Print Assumptions C107_takes.
(** The middle task sleeps, the low one gives the lock back, the tick comes. *)
Definition xrelease cl n : list oev := [OApp (Sleep 9) (en 1); OCall cl] ++ replicate n (OGo (en 2)).
Example C107_case : let s := xst xwait in let evs := xrelease (FutexUnlock 0) 3 ++ [OTick (en 2)] in
  os_reach exc xrs exi s /\ waits s (FutexLock 0) /\ exists s1 s2, os_step exc exi s (OGo (en 0)) = Ok s1 /\ os_run exc exi s1 evs = Ok s2 /\
  not_run exc exi (cur (o_k s)) s1 evs /\ cur (o_k s2) = cur (o_k s) /\ free exi s2 (FutexLock 0).
Proof.
  cbv zeta. split; [apply xst_reach; vm_compute; reflexivity|]. split; [split; [eexists; vm_compute; reflexivity|eexists _, _, _; vm_compute; reflexivity]|].
  exists (xst (xwait ++ [OGo (en 0)])), (xst (xwait ++ OGo (en 0) :: xrelease (FutexUnlock 0) 3 ++ [OTick (en 2)])).
  split; [vm_compute; reflexivity|]. split; [vm_compute; reflexivity|]. split; [|split; vm_compute; reflexivity]. vm_compute. repeat split; discriminate.
Qed.

(** * C108: a task that can run and holds a lock does not make others fail *)
(** False: nothing keeps the middle task from running for ever; the high one declares deadlock while the low one, which has the lock, is ready. *)
Definition xinvert : list oev := xwait ++ [OGo (en 0)] ++ concat (replicate 2 [OTick (en 1); OGo (en 0); OGo (en 0)]) ++ [OTick (en 1); OGo (en 0)].
Theorem C108_refuted : ~ (forall c rs g s f i j, wf_config c -> regs_typed rs -> os_reach c rs g s -> futex_discipline f (y_hist (o_y s)) ->
  0 < fheld f j (y_hist (o_y s)) -> ready (o_k s) j -> y_thr (o_y s) i <> In (FutexLock f) Stall).
Proof.
  intros H. apply (H exc xrs exi (xst xinvert) 0%nat 0%nat 2%nat exc_wf xrs_typed).
  - apply xst_reach. vm_compute. reflexivity.
  - apply futex_disc_b. vm_compute. reflexivity.
  - vm_compute. reflexivity.
  - vm_compute. reflexivity.
  - vm_compute. reflexivity.
Qed.
Print Assumptions C108_refuted.
(** This is also a case for C106: 3 ticks. *)
Example C106_case : let s := xst (x_low (FutexLock 0) 2 ++ [OTick (en 2); OTick (en 1)]) in
  os_reach exc xrs exi s /\ y_thr (o_y s) (cur (o_k s)) = Out /\ exists s1 evs s2, os_step exc exi s (OCall (FutexLock 0)) = Ok s1 /\
  os_run exc exi s1 evs = Ok s2 /\ y_thr (o_y s2) (cur (o_k s)) = In (FutexLock 0) Stall /\ oticks evs = 3.
Proof.
  cbv zeta. split; [apply xst_reach; vm_compute; reflexivity|]. split; [vm_compute; reflexivity|].
  exists (xst (x_low (FutexLock 0) 2 ++ [OTick (en 2); OTick (en 1); OCall (FutexLock 0)])), ([OGo (en 0); OGo (en 0)] ++ concat (replicate 2 [OTick (en 1); OGo (en 0); OGo (en 0)]) ++ [OTick (en 1); OGo (en 0)]), (xst xinvert).
  split; [vm_compute; reflexivity|]. split; [vm_compute; reflexivity|]. split; vm_compute; reflexivity.
Qed.
