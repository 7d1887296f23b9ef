(** PropBoot.v - registration, priorities, start-up: C01, C19-C25, C27, C28. *)
From Verif Require Import Base SchedModel SchedSpec SchedThms BootThms PrioThms InitThms ExSched.

(** C01: after init, any successful registrations and start, identifiers 0.. are the registered
    tasks in ascending priority, registration order inside one priority, nothing lost or
    duplicated, each slot with that task's own stack, context and priority; the rest is empty. *)
Theorem C01_start_order : forall c tmp0 rs s,
  wf_config c -> regs_typed rs -> cfg_lite c = false ->
  boot c tmp0 rs = Ok s ->
  exists l, Permutation l rs
    /\ StronglySorted (fun a b => rg_prio a <= rg_prio b) l
    /\ (forall p, with_prio p l = with_prio p rs)
    /\ (forall pid r, l !! pid = Some r -> task_of c rs pid = Some r)
    /\ forall pid, (pid < cfg_n c)%nat ->
    match l !! pid with
    | Some r => exists t, c_task s !! pid = Some t /\ t_state t = READY /\ t_sp t = rg_sp r
        /\ t_bot t = rg_stack r /\ t_top t = rg_stack r + cfg_ssize c * rg_count r
        /\ t_count t = rg_count r /\ t_prio t = rg_prio r
    | None => state_of s pid = Some EMPTY
    end.
Proof. exact boot_order. Qed.
Print Assumptions C01_start_order.

Example C01_case : wf_config exc /\ regs_typed exrs /\ boot exc junk exrs = Ok (st exc exrs [])
  /\ order exc exrs = [taskB; taskA; taskC]
  /\ map t_bot (take 3 (c_task (st exc exrs []))) = [12288; 8192; 16384].
Proof. excase; vmr. Qed.

(** C19 (1): the registrations succeed exactly when all priorities are below CONFIG_TASK_COUNT and
    there are at most CONFIG_TASK_COUNT of them; otherwise the system stalls. *)
Theorem C19_registration : forall c rs,
  wf_config c -> regs_typed rs -> cfg_lite c = false ->
  (exists s, (let! s := init c in add_tasks c s rs) = Ok s)
  <-> (Forall (fun r => rg_prio r < Z.of_nat (cfg_n c)) rs /\ (length rs <= cfg_n c)%nat).
Proof. exact add_tasks_iff. Qed.
Print Assumptions C19_registration.

Theorem C19_otherwise_stalls : forall c rs,
  wf_config c -> regs_typed rs -> cfg_lite c = false ->
  (exists s, (let! s := init c in add_tasks c s rs) = Ok s) \/ (let! s := init c in add_tasks c s rs) = Fatal.
Proof. exact add_tasks_total. Qed.
Print Assumptions C19_otherwise_stalls.

(** C19 (2): one more registration fills one slot and changes nothing else, or stalls. *)
Theorem C19_one_more : forall c rs r s,
  wf_config c -> regs_typed rs -> cfg_lite c = false ->
  (let! s := init c in add_tasks c s rs) = Ok s ->
  (rg_prio r < Z.of_nat (cfg_n c) /\ (length rs < cfg_n c)%nat ->
     exists s' t, add_task c s r = Ok s'
       /\ c_task s' = <[length rs := t]> (c_task s)
       /\ t_state t = READY /\ t_sp t = rg_sp r /\ t_bot t = rg_stack r
       /\ t_top t = rg_stack r + cfg_ssize c * rg_count r /\ t_count t = rg_count r /\ t_prio t = rg_prio r
       /\ c_sub s' = c_sub s /\ c_tick s' = c_tick s /\ c_index s' = c_index s /\ c_running s' = c_running s
       /\ c_postponed s' = c_postponed s /\ c_stray s' = c_stray s)
  /\ (~ (rg_prio r < Z.of_nat (cfg_n c) /\ (length rs < cfg_n c)%nat) -> add_task c s r = Fatal).
Proof. exact add_one. Qed.
Print Assumptions C19_one_more.

Example C19_case : exists s, (let! s := init exc in add_tasks exc s exrs) = Ok s
  /\ is_ok (add_task exc s taskD) = true
  /\ add_task exc s (mkReg 24576 64 24600 4 0) = Fatal
  /\ (let! s := add_task exc s taskD in add_task exc s taskD) = Fatal.
Proof. eexists. excase; vmr. Qed.

(** C20 (partial): when the priority of the first registered task is 0 or is shared,
    picoRTOS_get_next_available_priority returns the least unused priority, and stalls exactly when
    there is none.  Missing: the other registrations, where it can return a priority in use. *)
Theorem C20_next_partial : forall c rs s,
  wf_config c -> cfg_lite c = false ->
  (let! s := init c in add_tasks c s rs) = Ok s -> first_shared_or 0 rs ->
  match get_next c s with
  | Ok p => free_prio c (prios rs) p /\ forall p', free_prio c (prios rs) p' -> p <= p'
  | Fatal => forall p', ~ free_prio c (prios rs) p'
  | _ => False
  end.
Proof. exact get_next_ok. Qed.
Print Assumptions C20_next_partial.

(** C20 on picoRTOS-lite: the full claim. *)
Theorem C20_next_lite : forall c rs s,
  wf_config c -> regs_typed rs -> cfg_lite c = true ->
  (let! s := init c in add_tasks c s rs) = Ok s ->
  match get_next c s with
  | Ok p => free_prio c (prios rs) p /\ forall p', free_prio c (prios rs) p' -> p <= p'
  | Fatal => forall p', ~ free_prio c (prios rs) p'
  | _ => False
  end.
Proof. exact get_next_lite_ok. Qed.
Print Assumptions C20_next_lite.

Example C20_case : exists s, (let! s := init exc in add_tasks exc s [taskB; taskA]) = Ok s
  /\ first_shared_or 0 [taskB; taskA] /\ get_next exc s = Ok 2.
Proof. eexists. excase; try vmr. left. reflexivity. Qed.
Example C20_case_lite : exists s, (let! s := init exlite in add_tasks exlite s exlrs) = Ok s
  /\ get_next exlite s = Ok 2.
Proof. eexists. excase; vmr. Qed.

(** C20 is false in general: with priorities 1 then 0 registered, it returns 1, which is in use. *)
Theorem C20_next_refuted : exists c rs s p,
  wf_config c /\ regs_typed rs /\ cfg_lite c = false
  /\ (let! s := init c in add_tasks c s rs) = Ok s
  /\ get_next c s = Ok p /\ ~ free_prio c (prios rs) p /\ free_prio c (prios rs) 2.
Proof.
  exists exc, [taskA; taskB]. do 2 eexists. excase; try vmr.
  - repeat constructor; cbn; lia.
  - intros [_ H]. apply H. apply elem_of_list_In. cbn. tauto.
  - split; [cbn; lia|]. rewrite elem_of_list_In. cbn. lia.
Qed.
Print Assumptions C20_next_refuted.

(** C21 (partial): when the priority of the first registered task is CONFIG_TASK_COUNT-1 or is
    shared, picoRTOS_get_last_available_priority returns the greatest unused priority, and stalls
    exactly when there is none. *)
Theorem C21_last_partial : forall c rs s,
  wf_config c -> cfg_lite c = false ->
  (let! s := init c in add_tasks c s rs) = Ok s -> first_shared_or (Z.of_nat (cfg_n c) - 1) rs ->
  match get_last c s with
  | Ok p => free_prio c (prios rs) p /\ forall p', free_prio c (prios rs) p' -> p' <= p
  | Fatal => forall p', ~ free_prio c (prios rs) p'
  | _ => False
  end.
Proof. exact get_last_ok. Qed.
Print Assumptions C21_last_partial.

(** C21 on picoRTOS-lite (partial): when some priority other than 0 is unused. *)
Theorem C21_last_lite_partial : forall c rs s p0,
  wf_config c -> regs_typed rs -> cfg_lite c = true ->
  (let! s := init c in add_tasks c s rs) = Ok s ->
  free_prio c (prios rs) p0 -> p0 <> 0 ->
  exists p, get_last c s = Ok p /\ free_prio c (prios rs) p /\ forall p', free_prio c (prios rs) p' -> p' <= p.
Proof. exact get_last_lite_ok. Qed.
Print Assumptions C21_last_lite_partial.

Example C21_case : exists s, (let! s := init exc in add_tasks exc s [taskD; taskA]) = Ok s
  /\ first_shared_or (Z.of_nat (cfg_n exc) - 1) [taskD; taskA] /\ get_last exc s = Ok 2.
Proof. eexists. excase; try vmr. left. reflexivity. Qed.
Example C21_case_lite : exists s, (let! s := init exlite in add_tasks exlite s exlrs) = Ok s
  /\ free_prio exlite (prios exlrs) 2 /\ get_last exlite s = Ok 2.
Proof. eexists. excase; try vmr. split; [cbn; lia|]. rewrite elem_of_list_In. cbn. lia. Qed.

(** C21 is false in general: with priorities 1 and 3 registered (of 0..3), in this order,
    then 2, the call returns 1, which is in use. *)
Theorem C21_last_refuted : exists c rs s p,
  wf_config c /\ regs_typed rs /\ cfg_lite c = false
  /\ (let! s := init c in add_tasks c s rs) = Ok s
  /\ get_last c s = Ok p /\ ~ free_prio c (prios rs) p /\ free_prio c (prios rs) 0.
Proof.
  exists exc, [taskA; taskD; mkReg 24576 64 24600 2 0]. do 2 eexists. excase; try vmr.
  - repeat constructor; cbn; lia.
  - intros [_ H]. apply H. apply elem_of_list_In. cbn. tauto.
  - split; [cbn; lia|]. rewrite elem_of_list_In. cbn. lia.
Qed.
Print Assumptions C21_last_refuted.

(** C21 is false on picoRTOS-lite too: with only priority 0 left, or with none, it neither returns
    an available priority nor stalls: it returns the all-ones value. *)
Theorem C21_last_lite_refuted : exists c rs1 rs2 s1 s2,
  wf_config c /\ cfg_lite c = true /\ regs_typed rs1 /\ regs_typed rs2
  /\ (let! s := init c in add_tasks c s rs1) = Ok s1 /\ free_prio c (prios rs1) 0
  /\ get_last c s1 = Ok (2 ^ cfg_pbits c - 1)
  /\ (let! s := init c in add_tasks c s rs2) = Ok s2 /\ (forall p, ~ free_prio c (prios rs2) p)
  /\ get_last c s2 = Ok (2 ^ cfg_pbits c - 1).
Proof.
  exists exlite, [taskA; mkReg 24576 64 24600 2 0; taskD], [taskA; mkReg 24576 64 24600 2 0; taskD; taskB].
  do 2 eexists. excase; try vmr; try (repeat constructor; cbn; lia).
  - split; [cbn; lia|]. rewrite elem_of_list_In. cbn. lia.
  - intros p [H1 H2]. apply H2. apply elem_of_list_In. cbn in *. lia.
Qed.
Print Assumptions C21_last_lite_refuted.

(** C22 (partial): starting writes only inside the scheduler's tables exactly when at most one slot
    is left unused ([c_stray] logs the writes made beyond the end of picoRTOS.sub). *)
Theorem C22_start_writes_partial : forall c tmp0 rs s,
  wf_config c -> regs_typed rs -> cfg_lite c = false ->
  boot c tmp0 rs = Ok s -> (c_stray s = [] <-> (cfg_n c <= S (length rs))%nat).
Proof. exact start_no_stray. Qed.
Print Assumptions C22_start_writes_partial.

Example C22_case : boot exc junk exrs = Ok (st exc exrs []) /\ (cfg_n exc <= S (length exrs))%nat.
Proof. split; [excase|]. cbn. lia. Qed.

(** C22 is false in general: with two unused slots picoRTOS_start writes picoRTOS.sub[TASK_COUNT]. *)
Theorem C22_start_writes_refuted : exists c rs s,
  wf_config c /\ regs_typed rs /\ cfg_lite c = false
  /\ boot c junk rs = Ok s /\ c_stray s = [(Z.of_nat (cfg_n c) + 1, 2)].
Proof.
  exists exc, [taskA; taskB]. eexists. excase; try vmr. repeat constructor; cbn; lia.
Qed.
Print Assumptions C22_start_writes_refuted.

(** C23: for any suitably typed buffer and any size accepted, the recorded stack is aligned on cache
    lines at both ends and lies inside the caller's buffer. *)
Theorem C23_task_init_aligned : forall c stack count b n,
  wf_config c -> cfg_lite c = false -> line_geometry c ->
  stack mod cfg_ssize c = 0 -> count < 2 ^ cfg_szbits c ->
  task_init c stack count = Ok (b, n) ->
  b mod cfg_line c = 0 /\ (b + cfg_ssize c * n) mod cfg_line c = 0
  /\ stack <= b /\ 0 <= n /\ b + cfg_ssize c * n <= stack + cfg_ssize c * count.
Proof.
  exact (fun c stack count b n H1 H2 H3 H4 H5 H6 =>
    match task_init_spec c stack count b n H1 H2 H3 H4 H5 H6 with
    | conj A (conj B (conj C (conj D (conj E _)))) => conj A (conj B (conj C (conj D E)))
    end).
Qed.
Print Assumptions C23_task_init_aligned.

Example C23_case : wf_config exc /\ line_geometry exc /\ 1004 mod cfg_ssize exc = 0
  /\ task_init exc 1004 70 = Ok (1024, 64).
Proof. excase; try vmr. exists 5, 2. cbn. lia. Qed.

(** C24 (partial): at most two lines minus two elements are lost by the alignment, and nothing is
    lost for an aligned buffer holding a whole number of lines, so the recorded size is then at
    least ARCH_MIN_STACK_COUNT.  Missing: the same for any buffer, false (next theorem). *)
Theorem C24_min_size_partial : forall c stack count b n,
  wf_config c -> cfg_lite c = false -> line_geometry c ->
  stack mod cfg_ssize c = 0 -> count < 2 ^ cfg_szbits c ->
  task_init c stack count = Ok (b, n) ->
  count - 2 * (cfg_line c / cfg_ssize c - 1) <= n <= count
  /\ (stack mod cfg_line c = 0 -> count mod (cfg_line c / cfg_ssize c) = 0 ->
      b = stack /\ n = count /\ cfg_minstack c <= n).
Proof. exact task_init_size. Qed.
Print Assumptions C24_min_size_partial.

Example C24_case : 1024 mod cfg_line exc = 0 /\ 72 mod (cfg_line exc / cfg_ssize exc) = 0
  /\ task_init exc 1024 72 = Ok (1024, 72).
Proof. excase; vmr. Qed.

Theorem C24_min_size_refuted : exists c stack count b n,
  wf_config c /\ cfg_lite c = false /\ line_geometry c
  /\ stack mod cfg_ssize c = 0 /\ count < 2 ^ cfg_szbits c
  /\ task_init c stack count = Ok (b, n) /\ n < cfg_minstack c.
Proof.
  exists exc, 1028, 64. do 2 eexists. excase; try vmr. exists 5, 2. cbn. lia.
Qed.
Print Assumptions C24_min_size_refuted.

(** C25 (partial): the first task registered after start with a priority greater than all others is
    ready and, whenever a later tick finds it ready and no task of higher priority eligible, it gets
    the CPU.  Missing: other priorities, or a second late registration; false there. *)
Theorem C25_late_add_partial : forall c rs s r s' evs s1 e s2 sp2 r2,
  wf_config c -> regs_typed rs -> cfg_lite c = false -> reachable c rs s ->
  0 <= rg_prio r -> Forall (fun x => rg_prio x < rg_prio r) rs ->
  add_task c s r = Ok s' -> run c s' evs = Ok s1 -> step c s1 (Tick, e) = Ok (s2, sp2, r2) ->
  ready s' (length rs)
  /\ (ready s2 (length rs) -> (forall pid, (pid < length rs)%nat -> ~ eligible c rs s2 pid) -> cur s2 = length rs).
Proof. exact late_add_dispatch. Qed.
Print Assumptions C25_late_add_partial.

Example C25_case : exists s s' s1 s2 sp2 r2, reachable exc exrs s
  /\ Forall (fun x => rg_prio x < rg_prio taskD) exrs
  /\ add_task exc s taskD = Ok s' /\ run exc s' [ev (Sleep 5) 0; ev (Sleep 5) 1; ev Tick 3; ev (Sleep 4) 2] = Ok s1
  /\ step exc s1 (ev Tick 3) = Ok (s2, sp2, r2) /\ cur s2 = 3%nat.
Proof.
  exists (st exc exrs [ev Tick 4]). do 5 eexists. excase; try vmr. repeat constructor.
Qed.

(** C25 is false in general: the second task registered after start (with an unused priority) is
    never dispatched, although it is the only user task left: at each tick idle runs instead. *)
Definition exl1 := mkReg 24576 64 24600 1 0.
Definition exl2 := mkReg 28672 64 28700 2 0.
Theorem C25_late_add_refuted : exists c rs r1 r2 s sa sb s1,
  wf_config c /\ regs_typed rs /\ cfg_lite c = false /\ reachable c rs s
  /\ rg_prio r1 ∉ prios rs /\ rg_prio r2 ∉ prios (r1 :: rs)
  /\ add_task c s r1 = Ok sa /\ add_task c sa r2 = Ok sb
  /\ run c sb [ev Kill 0; (Kill, mkEntry 24580 0 0); ev Tick 4; ev Tick 4; ev Tick 4] = Ok s1
  /\ state_of s1 0 = Some EMPTY /\ state_of s1 1 = Some EMPTY /\ ready s1 2
  /\ c_task s1 !! 2%nat <> None /\ cur s1 = cfg_n c.
Proof.
  exists exc, [taskB], exl1, exl2, (st exc [taskB] [ev Tick 4]). do 3 eexists.
  excase; try vmr; try (repeat constructor; cbn; lia);
  rewrite elem_of_list_In; cbn; lia.
Qed.
Print Assumptions C25_late_add_refuted.

(** C27: before start every API call that needs a running scheduler stalls ([Fatal] has no state:
    nothing is changed). *)
Theorem C27_before_start : forall c rs s,
  wf_config c -> regs_typed rs ->
  (let! s := init c in add_tasks c s rs) = Ok s ->
  (forall o e, o <> Tick -> step c s (o, e) = Fatal)
  /\ self s = Fatal /\ get_tick s = Fatal /\ suspend s = Fatal /\ resume s = Fatal.
Proof. exact api_before_start. Qed.
Print Assumptions C27_before_start.

Example C27_case : is_ok (let! s := init exc in add_tasks exc s exrs) = true
  /\ is_ok (let! s := init exlite in add_tasks exlite s exlrs) = true.
Proof. split; vmr. Qed.

(** C28 (1): picoRTOS-lite boots exactly when priorities are valid and pairwise different, and
    stalls otherwise. *)
Theorem C28_lite_boot : forall c tmp0 rs,
  wf_config c -> regs_typed rs -> cfg_lite c = true ->
  (if decide (Forall (fun r => rg_prio r < Z.of_nat (cfg_n c)) rs /\ NoDup (map rg_prio rs))
   then exists s, boot c tmp0 rs = Ok s else boot c tmp0 rs = Fatal).
Proof. exact lite_boot_iff. Qed.
Print Assumptions C28_lite_boot.

(** C28 (2): the running task is one of the registered ones, on its own stack, and picoRTOS_self()
    is its priority. *)
Theorem C28_lite_self : forall c rs s,
  wf_config c -> regs_typed rs -> cfg_lite c = true -> reachable c rs s ->
  cur s <> cfg_n c ->
  exists r, r ∈ rs /\ task_of c rs (cur s) = Some r /\ self s = Ok (rg_prio r)
   /\ stack_bounds c rs (cur s) = Some (rg_stack r, rg_stack r + cfg_ssize c * rg_count r).
Proof. exact lite_self. Qed.
Print Assumptions C28_lite_self.

Example C28_case : wf_config exlite /\ regs_typed exlrs
  /\ reachable exlite exlrs (st exlite exlrs [ev Tick 4; ev (Sleep 3) 0; ev (Sleep 3) 1])
  /\ cur (st exlite exlrs [ev Tick 4; ev (Sleep 3) 0; ev (Sleep 3) 1]) = 3%nat
  /\ boot exlite junk [taskA; taskC] = Fatal.
Proof. excase; vmr. Qed.
