(** SpinModel.v - the spin locks of the multi-core ports, one transition per access to the lock:
    Sema: arch/powerpc/e200z4/mach-mpc574x/spinlock-sema42.c and, same code,
          arch/powerpc/e200z7/mach-mpc577x/spinlock-sema4.c;
    Sio:  arch/arm/armv6-m/mach-rp2040/picoRTOS-SMP_port.c:246-261;
    and the critical sections of scheduler/picoRTOS-SMP.c (picoRTOS_syscall 564-609, picoRTOS_tick
    613-677) around which they are taken and released. *)
From Verif Require Import Base SchedModel SmpModel.

(** ** The lock hardware (reference manuals of the parts, trusted)
    The lock is a number: 0 when free, else 1 + the core that owns it.  Sio hardware stores one bit;
    the owner is bookkeeping of the model, no answer depends on it. *)
Inductive lock_hw := Sema | Sio.

(** SEMA4/SEMA42: core [k] writes [v] to the gate.  A free gate takes the writer's number, an owned
    one only accepts 0, from its owner. *)
Definition sema_write (k : nat) (v gate : Z) : Z :=
  let me := Z.of_nat k + 1 in
  if gate =? 0 then (if v =? me then me else 0)
  else if (v =? 0) && (gate =? me) then 0 else gate.
(** SIO: core [k] reads SIO_SPINLOCK0: non-zero if it was free, and then it is taken.  Value, lock. *)
Definition sio_read (k : nat) (gate : Z) : Z * Z :=
  if gate =? 0 then (1, Z.of_nat k + 1) else (0, gate).
(** Any write to SIO_SPINLOCK0 frees it. *)
Definition sio_write (gate : Z) : Z := 0.

(** ** Cores
    [Sh]: what the lock protects; [C]: calls.  A call executes its body, a list of accesses to [Sh],
    between arch_spin_lock and arch_spin_unlock.
    - [Out]: outside;
    - [Wr d] / [Rd d]: in arch_spin_lock, about to write the gate (Sema) / to read it; [d] is the
      value of the variable [deadlock] (Sema) or [loop] (Sio);
    - [Inside b rest]: inside, with [rest] of the body to execute; [b]: the lock was acquired;
    - [Broken]: stopped by arch_break. *)
Inductive pc (Sh : Type) :=
| Out
| Wr (d : nat)
| Rd (d : nat)
| Inside (b : bool) (rest : list (Sh -> Sh))
| Broken.
Arguments Out {Sh}.
Arguments Wr {Sh} d.
Arguments Rd {Sh} d.
Arguments Inside {Sh} b rest.
Arguments Broken {Sh}.

(** [w_log]: calls in the order in which they got past arch_spin_lock: core, call, lock acquired. *)
Record world (Sh C : Type) := mkWorld {
  w_gate   : Z;
  w_shared : Sh;
  w_pc     : nat -> pc Sh;
  w_todo   : nat -> list C;
  w_log    : list (nat * C * bool)
}.
Arguments mkWorld {Sh C}.
Arguments w_gate {Sh C}.
Arguments w_shared {Sh C}.
Arguments w_pc {Sh C}.
Arguments w_todo {Sh C}.
Arguments w_log {Sh C}.

Definition setk {A} (f : nat -> A) (k : nat) (a : A) : nat -> A := fun j => if Nat.eqb j k then a else f j.

(** CONFIG_DEADLOCK_COUNT, whether NDEBUG is defined, the hardware. *)
Record lockcfg := mkLockCfg { l_count : nat; l_ndebug : bool; l_hw : lock_hw }.

Section steps.
  Context {Sh C : Type} (cfg : lockcfg) (body : C -> list (Sh -> Sh)).

  Definition with_pc (w : world Sh C) (k : nat) (p : pc Sh) : world Sh C :=
    mkWorld (w_gate w) (w_shared w) (setk (w_pc w) k p) (w_todo w) (w_log w).
  Definition with_gate (w : world Sh C) (g : Z) : world Sh C :=
    mkWorld g (w_shared w) (w_pc w) (w_todo w) (w_log w).

  (** arch_spin_lock returns: the critical section begins. *)
  Definition enter (w : world Sh C) (k : nat) (b : bool) : world Sh C :=
    match w_todo w k with
    | [] => w
    | c :: _ =>
        mkWorld (w_gate w) (w_shared w) (setk (w_pc w) k (Inside b (body c))) (w_todo w) (w_log w ++ [(k, c, b)])
    end.
  (** arch_assert_void(deadlock != -1) fails, sema42.c:40, SMP_port.c:255 (arch/include/picoRTOS_port.h:96-105):
      arch_break() in a debug build, nothing with NDEBUG. *)
  Definition give_up (w : world Sh C) (k : nat) : world Sh C :=
    if l_ndebug cfg then enter w k false else with_pc w k Broken.

  (** One access of core [k]. *)
  Definition spin_step (w : world Sh C) (k : nat) : world Sh C :=
    match w_pc w k with
    | Broken => w
    | Out =>
        match w_todo w k with
        | [] => w
        | _ :: _ =>
            (* arch_spin_lock is called: sema42.c:30-33, SMP_port.c:248 *)
            match l_hw cfg with
            | Sema => match l_count cfg with O => give_up w k | S d => with_pc w k (Wr d) end
            | Sio => with_pc w k (Rd (l_count cfg))
            end
        end
    | Wr d => (* sema42.c:34 *)
        with_pc (with_gate w (sema_write k (Z.of_nat k + 1) (w_gate w))) k (Rd d)
    | Rd d =>
        match l_hw cfg with
        | Sema => (* sema42.c:35-37, and 33 again *)
            if w_gate w =? Z.of_nat k + 1 then enter w k true
            else match d with O => give_up w k | S d' => with_pc w k (Wr d') end
        | Sio => (* SMP_port.c:251 *)
            let '(v, g) := sio_read k (w_gate w) in
            let w := with_gate w g in
            if negb (v =? 0) then enter w k true
            else match d with O => give_up w k | S d' => with_pc w k (Rd d') end
        end
    | Inside b (f :: rest) =>
        mkWorld (w_gate w) (f (w_shared w)) (setk (w_pc w) k (Inside b rest)) (w_todo w) (w_log w)
    | Inside b [] => (* arch_spin_unlock, sema42.c:45, SMP_port.c:260 *)
        let g := match l_hw cfg with Sema => sema_write k 0 (w_gate w) | Sio => sio_write (w_gate w) end in
        mkWorld g (w_shared w) (setk (w_pc w) k Out) (setk (w_todo w) k (tail (w_todo w k))) (w_log w)
    end.

  (** All cores outside, the lock free (arch_spinlock_init), [todo k] the calls core [k] will make. *)
  Definition spin_init (s : Sh) (todo : nat -> list C) : world Sh C :=
    mkWorld 0 s (fun _ => Out) todo [].
  (** An interleaving is the list of the cores that make the successive accesses. *)
  Definition spin_run (sched : list nat) (w : world Sh C) : world Sh C := fold_left spin_step sched w.
End steps.

(** ** The critical sections of the scheduler
    What a call of picoRTOS_tick or picoRTOS_syscall does while it holds the lock (the functions of
    SmpModel), on the data structure or on the outcome of an earlier failed assertion. *)
Definition smp_critical (g : smpcfg) (ev : nat * (op * entry)) (s : res smp) : res smp :=
  let! s := s in
  let '(k, (o, e)) := ev in
  let core := Z.of_nat k in
  let w := wrap (cfg_tbits (m_base g)) in
  match o with
  | Tick => let! x := m_dotick g s core e in Ok (fst x)
  | Sleep d => let! x := m_syscall g s core e (SC_SLEEP (w d)) in Ok (fst (fst x))
  | SleepUntil r p => let! x := m_syscall g s core e (SC_SLEEP_UNTIL (w r) (w p)) in Ok (fst (fst x))
  | Kill => let! x := m_syscall g s core e SC_KILL in Ok (fst (fst x))
  | Postpone => let! x := m_syscall g s core e SC_SWITCH_CONTEXT in Ok (fst (fst x))
  end.
