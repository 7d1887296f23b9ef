(** SchedSpec.v - vocabulary of the single-core scheduler properties.

    Everything here is phrased with the list of registrations (what the application passed to
    picoRTOS_add_task, in call order), the current tick, and the ready/asleep/dead status of the
    tasks; none of the scheduler's own tables for shared priorities is used. *)
From Verif Require Import Base SchedModel.

(** Assumptions on a configuration: at least one user task slot, and TASK_COUNT =
    CONFIG_TASK_COUNT+1 fits (strictly) in the pid and priority types. *)
Definition wf_config (c : config) : Prop :=
  (1 <= cfg_n c)%nat
  /\ 0 < cfg_tbits c /\ 0 < cfg_pbits c /\ 0 < cfg_pidbits c /\ 0 < cfg_cbits c /\ 0 < cfg_szbits c
  /\ 0 <= cfg_deadlock c < 2 ^ cfg_szbits c - 1
  /\ Z.of_nat (cfg_n c) + 1 < 2 ^ cfg_pbits c
  /\ Z.of_nat (cfg_n c) + 1 < 2 ^ cfg_pidbits c.

(** Priorities are unsigned. *)
Definition regs_typed (rs : list reg) : Prop := Forall (fun r => 0 <= rg_prio r) rs.

(** Registrations of priority [p], in registration order. *)
Definition with_prio (p : Z) (rs : list reg) : list reg :=
  filter (fun r => rg_prio r = p) rs.

(** Order in which tasks must appear once started: by ascending priority value, registration
    order inside one priority. *)
Definition order (c : config) (rs : list reg) : list reg :=
  concat (map (fun p => with_prio (Z.of_nat p) rs) (seq 0 (cfg_n c))).

(** The registration behind identifier [pid] (picoRTOS_self()).  On picoRTOS-lite the identifier
    is the priority. *)
Definition task_of (c : config) (rs : list reg) (pid : nat) : option reg :=
  if cfg_lite c then head (with_prio (Z.of_nat pid) rs)
  else order c rs !! pid.

(** Number of tasks registered with priority [p]. *)
Definition group_size (rs : list reg) (p : Z) : Z := Z.of_nat (length (with_prio p rs)).

(** Rank of task [pid] among those of its priority [p], counting from 0. *)
Definition rank (c : config) (rs : list reg) (p : Z) (pid : nat) : Z :=
  Z.of_nat (length (with_prio p (take pid (order c rs)))).

(** It is [pid]'s turn at tick value [tk] (README "shared priorities": tasks of one priority are
    executed alternatively on a tick modulo basis; the tick is first converted to
    picoRTOS_priority_t).  The idle task and, on picoRTOS-lite, any task always has its turn. *)
Definition turn (c : config) (rs : list reg) (tk : Z) (pid : nat) : Prop :=
  if cfg_lite c then True else
  match order c rs !! pid with
  | Some r => wrap (cfg_pbits c) tk mod group_size rs (rg_prio r) = rank c rs (rg_prio r) pid
  | None => True
  end.

#[global] Instance turn_dec c rs tk pid : Decision (turn c rs tk pid).
Proof. unfold turn. destruct (cfg_lite c); [apply _|]. destruct (order c rs !! pid); apply _. Defined.

(** Status of the tasks of a state. *)
Definition state_of (s : core) (pid : nat) : option tstate := t_state <$> (c_task s !! pid).
Definition ready (s : core) (pid : nat) : Prop := state_of s pid = Some READY.
#[global] Instance ready_dec s pid : Decision (ready s pid).
Proof. unfold ready. apply _. Defined.

(** A task may be dispatched: it is ready and it has its turn. *)
Definition eligible (c : config) (rs : list reg) (s : core) (pid : nat) : Prop :=
  ready s pid /\ turn c rs (c_tick s) pid.
#[global] Instance eligible_dec c rs s pid : Decision (eligible c rs s pid).
Proof. unfold eligible. apply _. Defined.

(** The running task. *)
Definition cur (s : core) : nat := Z.to_nat (c_index s).

(** Executions: any finite sequence of events that does not stall the system. *)
Fixpoint run (c : config) (s : core) (evs : list (op * entry)) : res core :=
  match evs with
  | [] => Ok s
  | ev :: evs => let! x := step c s ev in run c (fst (fst x)) evs
  end.

Definition reachable (c : config) (rs : list reg) (s : core) : Prop :=
  exists tmp0 s0 evs, boot c tmp0 rs = Ok s0 /\ run c s0 evs = Ok s.

Definition is_tick (ev : op * entry) : bool := match fst ev with Tick => true | _ => false end.
Definition is_postpone (ev : op * entry) : bool := match fst ev with Postpone => true | _ => false end.

(** Number of system ticks in a history. *)
Definition ticks (evs : list (op * entry)) : Z :=
  Z.of_nat (length (filter (fun ev => is_tick ev = true) evs)).

(** Stack bounds the application gave for identifier [pid] (bottom included, top excluded), in
    bytes; for the idle task they are those of the scheduler's own stack. *)
Definition stack_bounds (c : config) (rs : list reg) (pid : nat) : option (Z * Z) :=
  if Nat.eqb pid (cfg_n c) then
    match task_init c (cfg_idlestk c) (cfg_minstack c) with
    | Ok (b, n) => Some (b, b + cfg_ssize c * n)
    | _ => None
    end
  else match task_of c rs pid with
       | Some r => Some (rg_stack r, rg_stack r + cfg_ssize c * rg_count r)
       | None => None
       end.

Definition sp_ok (c : config) (rs : list reg) (s : core) (sp : Z) : Prop :=
  exists b e, stack_bounds c rs (cur s) = Some (b, e) /\ b <= sp < e.

(** [r] is the least number >= [k] satisfying [P]. *)
Definition least_from (P : nat -> Prop) (k r : nat) : Prop :=
  (k <= r)%nat /\ P r /\ forall j, (k <= j < r)%nat -> ~ P j.

(** Events a correct application and hardware can produce in state [s]: the tick interrupt at any
    time, system calls from user tasks (the idle task issues none), a non-zero period that fits
    picoRTOS_tick_t for picoRTOS_sleep_until. *)
Definition may_issue (c : config) (s : core) (o : op) : Prop :=
  match o with
  | Tick => True
  | SleepUntil _ p => cur s <> cfg_n c /\ 0 < p < 2 ^ cfg_tbits c
  | _ => cur s <> cfg_n c
  end.

(** No tick / no postpone in a history. *)
Definition tick_free (evs : list (op * entry)) : Prop := Forall (fun ev => is_tick ev = false) evs.
Definition postpone_free (evs : list (op * entry)) : Prop := Forall (fun ev => is_postpone ev = false) evs.

(** Stack pointer a task must be resumed with: its initial context, replaced by the stack pointer
    at which it was last interrupted. *)
Definition initial_sp (c : config) (rs : list reg) (pid : nat) : option Z :=
  if Nat.eqb pid (cfg_n c) then Some (cfg_idlesp c) else rg_sp <$> task_of c rs pid.

Fixpoint saved_sp (c : config) (s : core) (evs : list (op * entry)) (m : nat -> option Z) : nat -> option Z :=
  match evs with
  | [] => m
  | ev :: evs =>
    match step c s ev with
    | Ok (s', _, _) =>
        saved_sp c s' evs (fun pid => if Nat.eqb pid (cur s) then Some (e_sp (snd ev)) else m pid)
    | _ => m
    end
  end.

(** Execution times measured for [pid] in a history (value of arch_counter(SINCE) at the end of
    each of its slices). *)
Fixpoint slices (c : config) (s : core) (evs : list (op * entry)) (pid : nat) : list Z :=
  match evs with
  | [] => []
  | ev :: evs =>
    match step c s ev with
    | Ok (s', _, _) => (if Nat.eqb pid (cur s) then [e_since (snd ev)] else []) ++ slices c s' evs pid
    | _ => []
    end
  end.

(** The state was dispatched at some point of a history: some prefix leads to a state where
    [pid] runs. *)
Definition dispatched_in (c : config) (s : core) (evs : list (op * entry)) (pid : nat) : Prop :=
  exists evs1 evs2 s', evs = evs1 ++ evs2 /\ run c s evs1 = Ok s' /\ cur s' = pid.

(** A chain of on-time picoRTOS_sleep_until calls, each taking the previous *ref. *)
Inductive on_time (c : config) (rs : list reg) (period : Z) : Z -> nat -> Z -> Prop :=
| ot_nil ref : on_time c rs period ref 0 ref
| ot_cons ref k refk s e s' sp' refk' :
    on_time c rs period ref k refk ->
    reachable c rs s ->
    (c_tick s - refk) mod 2 ^ cfg_tbits c < period ->
    step c s (SleepUntil refk period, e) = Ok (s', sp', refk') ->
    on_time c rs period ref (S k) refk'.

(** [sp] points inside the stack given at registration. *)
Definition in_stack (c : config) (r : reg) (sp : Z) : Prop :=
  rg_stack r <= sp < rg_stack r + cfg_ssize c * rg_count r.

(** Priorities in use. *)
Definition prios (rs : list reg) : list Z := map rg_prio rs.

(** [p] is a valid priority nobody uses. *)
Definition free_prio (c : config) (used : list Z) (p : Z) : Prop := 0 <= p < Z.of_nat (cfg_n c) /\ p ∉ used.

(** The priority of the first registered task is [p0], or is shared with a later one. *)
Definition first_shared_or (p0 : Z) (rs : list reg) : Prop :=
  match rs with [] => True | r :: rs' => rg_prio r = p0 \/ rg_prio r ∈ prios rs' end.

(** Geometry of a port: line and element sizes are powers of two, a line holds whole elements, and
    a stack of the minimum size covers at least a line (true of every port but the 64-bit
    simulators, whose "line" is smaller than an element). *)
Definition line_geometry (c : config) : Prop :=
  exists k m, 0 <= m <= k /\ cfg_line c = 2 ^ k /\ cfg_ssize c = 2 ^ m
    /\ cfg_line c <= cfg_minstack c * cfg_ssize c.
