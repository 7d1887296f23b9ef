(** SmpSpec.v - vocabulary of the multi-core properties (picoRTOS-SMP.c). *)
From Verif Require Import Base SchedModel SchedSpec SmpModel.

(** Assumptions on a configuration: at least one task slot and one core; TASK_COUNT fits in the pid
    and priority types, CONFIG_SMP_CORES in picoRTOS_core_t, and the core mask has a bit to spare. *)
Definition wf_smp (g : smpcfg) : Prop :=
  let c := m_base g in
  cfg_lite c = false /\ (1 <= cfg_n c)%nat /\ (1 <= m_cores g)%nat
  /\ 0 < cfg_tbits c /\ 0 < cfg_pbits c /\ 0 < cfg_pidbits c /\ 0 < cfg_cbits c /\ 0 < cfg_szbits c
  /\ 0 <= cfg_deadlock c < 2 ^ cfg_szbits c - 1
  /\ Z.of_nat (cfg_n c) + Z.of_nat (m_cores g) < 2 ^ cfg_pbits c
  /\ Z.of_nat (cfg_n c) + Z.of_nat (m_cores g) < 2 ^ cfg_pidbits c
  /\ Z.of_nat (m_cores g) < 2 ^ m_corebits g /\ 0 < m_corebits g
  /\ Z.of_nat (m_cores g) < m_maskbits g.

(** Priorities and masks are unsigned. *)
Definition smp_typed (rs : list reg) : Prop := Forall (fun r => 0 <= rg_prio r /\ 0 <= rg_mask r) rs.

(** Identifier of the task running on core [k] (picoRTOS_self() there). *)
Definition on_core (s : smp) (k : nat) : nat :=
  match m_index s !! k with Some z => Z.to_nat z | None => 0%nat end.

Definition mstate (s : smp) (pid : nat) : option tstate := t_state <$> (m_task s !! pid).

(** Identifier of the idle task of core [k]. *)
Definition idle_of (g : smpcfg) (k : nat) : nat := (cfg_n (m_base g) + k)%nat.

(** Task [pid] may run on core [k]: the mask given at registration says so; an idle task only runs
    on its own core. *)
Definition allowed (g : smpcfg) (rs : list reg) (k pid : nat) : Prop :=
  if decide (pid < cfg_n (m_base g))%nat then
    match order (m_base g) rs !! pid with
    | Some r => Z.testbit (rg_mask r) (Z.of_nat k) = true
    | None => False
    end
  else pid = idle_of g k.
#[global] Instance allowed_dec g rs k pid : Decision (allowed g rs k pid).
Proof.
  unfold allowed. destruct (decide _); [|apply _]. destruct (order _ _ !! pid); apply _.
Defined.

(** Ready, in turn and allowed on core [k]. *)
Definition eligible_on (g : smpcfg) (rs : list reg) (s : smp) (k pid : nat) : Prop :=
  mstate s pid = Some READY /\ turn (m_base g) rs (m_tick s) pid /\ allowed g rs k pid.
#[global] Instance eligible_on_dec g rs s k pid : Decision (eligible_on g rs s k pid).
Proof. unfold eligible_on. apply _. Defined.

(** Executions of all cores: an event is a core, what happens on it, and its environment. *)
Fixpoint m_run (g : smpcfg) (s : smp) (evs : list (nat * (op * entry))) : res smp :=
  match evs with
  | [] => Ok s
  | ev :: evs => let! x := m_step g s ev in m_run g (fst (fst x)) evs
  end.

Definition m_reachable (g : smpcfg) (rs : list reg) (s : smp) : Prop :=
  exists tmp0 s0 evs, m_boot g tmp0 rs = Ok s0 /\ m_run g s0 evs = Ok s.

(** Number of tick interrupts (all cores together) in a history. *)
Definition m_irqs (evs : list (nat * (op * entry))) : Z :=
  Z.of_nat (length (filter (fun ev => is_tick (snd ev) = true) evs)).

(** Stack bounds of identifier [pid], in bytes. *)
Definition m_bounds (g : smpcfg) (rs : list reg) (pid : nat) : option (Z * Z) :=
  if decide (pid < cfg_n (m_base g))%nat then
    match order (m_base g) rs !! pid with
    | Some r => Some (rg_stack r, rg_stack r + cfg_ssize (m_base g) * rg_count r)
    | None => None
    end
  else
    match task_init (m_base g) (m_idlestk g (pid - cfg_n (m_base g))) (cfg_minstack (m_base g)) with
    | Ok (b, n) => Some (b, b + cfg_ssize (m_base g) * n)
    | _ => None
    end.

Definition m_sp_ok (g : smpcfg) (rs : list reg) (s : smp) (k : nat) (sp : Z) : Prop :=
  exists b e, m_bounds g rs (on_core s k) = Some (b, e) /\ b <= sp < e.

(** Events that can occur on core [k]: the tick, and system calls of user tasks. *)
Definition m_may_issue (g : smpcfg) (s : smp) (k : nat) (o : op) : Prop :=
  (k < m_cores g)%nat /\
  match o with
  | Tick => True
  | SleepUntil _ p => (on_core s k < cfg_n (m_base g))%nat /\ 0 < p < 2 ^ cfg_tbits (m_base g)
  | _ => (on_core s k < cfg_n (m_base g))%nat
  end.

(** Stack pointers: initial ones, then those at which each task was last interrupted. *)
Definition m_initial_sp (g : smpcfg) (rs : list reg) (pid : nat) : option Z :=
  if decide (pid < cfg_n (m_base g))%nat then rg_sp <$> (order (m_base g) rs !! pid)
  else Some (m_idlesp g (pid - cfg_n (m_base g))).

Fixpoint m_saved_sp (g : smpcfg) (s : smp) (evs : list (nat * (op * entry))) (m : nat -> option Z)
  : nat -> option Z :=
  match evs with
  | [] => m
  | ev :: evs =>
    match m_step g s ev with
    | Ok (s', _, _) =>
        m_saved_sp g s' evs
          (fun pid => if Nat.eqb pid (on_core s (fst ev)) then Some (e_sp (snd (snd ev))) else m pid)
    | _ => m
    end
  end.

(** Number of times the system tick advanced between two points of a history. *)
Fixpoint m_advances (g : smpcfg) (s : smp) (evs : list (nat * (op * entry))) : Z :=
  match evs with
  | [] => 0
  | ev :: evs =>
    match m_step g s ev with
    | Ok (s', _, _) => (if m_tick s' =? m_tick s then 0 else 1) + m_advances g s' evs
    | _ => 0
    end
  end.

(** [pid] runs on some core at some point of a history. *)
Definition m_dispatched_in (g : smpcfg) (s : smp) (evs : list (nat * (op * entry))) (pid : nat) : Prop :=
  exists evs1 evs2 s' k, evs = evs1 ++ evs2 /\ m_run g s evs1 = Ok s'
    /\ (k < m_cores g)%nat /\ on_core s' k = pid.

(** Number of rounds of tick interrupts begun after [n] interrupts, with [k] cores. *)
Definition rounds_begun (k : nat) (n : Z) : Z := (n + Z.of_nat k - 1) / Z.of_nat k.

(** History without tick, in which no core but [k] uses up a pending postpone request. *)
Fixpoint m_only_core_resets (g : smpcfg) (k : nat) (s : smp) (evs : list (nat * (op * entry))) : Prop :=
  match evs with
  | [] => True
  | ev :: evs =>
    is_tick (snd ev) = false /\
    match m_step g s ev with
    | Ok (s', _, _) => (fst ev = k \/ m_postponed s = false \/ m_postponed s' = true) /\ m_only_core_resets g k s' evs
    | _ => True
    end
  end.

(** A history without tick. *)
Definition m_tick_free (evs : list (nat * (op * entry))) : Prop := Forall (fun ev => is_tick (snd ev) = false) evs.
