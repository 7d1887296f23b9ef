(** IpcModel.v - model of the inter-process communication objects:
    ipc/picoRTOS_futex.c, ipc/picoRTOS_mutex.c, ipc/picoRTOS_cond.c, ipc/picoRTOS_queue.c and the
    macros of ipc/picoRTOS_queue.h (paths under /repo).

    Each C function is transcribed access by access: a [prog] performs one shared-memory access
    (or one call to the scheduler) at a time, so that a system of tasks can be interleaved between
    any two accesses.

    Simplifications, for the whole file:
    - memory is sequentially consistent; picoRTOS_flush_dcache / picoRTOS_invalidate_dcache have no
      effect (single core, or cores with coherent memory);
    - arch_test_and_set and arch_compare_and_swap are single atomic steps that honour the contract
      of arch/include/picoRTOS_port.h:188-214 (what each port does is in PortModel.v);
    - objects of different kinds never overlap in memory;
    - picoRTOS_self() is the number of the running task (SchedModel.v, property C17). *)
From Verif Require Import Base.

(** Shared memory cells.  [LFutex f]: a picoRTOS_futex_t (picoRTOS_futex.h:7).  [LOwner], [LCount]:
    struct picoRTOS_mutex (picoRTOS_mutex.h:8-11).  [LAct], [LWait]: act and count of struct
    picoRTOS_cond (picoRTOS_cond.h:13-16).  [LQ...]: struct picoRTOS_queue_head and the buffer
    that follows it (picoRTOS_queue.h:11-17, 39-43). *)
Inductive loc :=
| LFutex (f : nat)
| LOwner (m : nat) | LCount (m : nat)
| LAct (c : nat) | LWait (c : nat)
| LQlock (q : nat) | LQmask (q : nat) | LQr (q : nat) | LQw (q : nat) | LQi (q : nat)
| LQbuf (q : nat) (i : Z).

Global Instance loc_eq_dec : EqDecision loc.
Proof. solve_decision. Defined.

Definition mem := loc -> Z.
Definition upd (M : mem) (l : loc) (v : Z) : mem := fun x => if decide (x = l) then v else M x.

(** One observable action of a task.
    [MTas l] : arch_test_and_set(l); [MCas l o n] : arch_compare_and_swap(l, o, n);
    [MSleep n] : picoRTOS_sleep(n). *)
Inductive memop :=
| MRead (l : loc)
| MWrite (l : loc) (v : Z)
| MTas (l : loc)
| MCas (l : loc) (old new : Z)
| MSleep (ticks : Z).

(** Effect of an action on memory, and the value it gives back. *)
Definition exec (o : memop) (M : mem) : mem * Z :=
  match o with
  | MRead l => (M, M l)
  | MWrite l v => (upd M l v, 0)
  | MTas l => (upd M l 1, M l)
  | MCas l old new => (if M l =? old then upd M l new else M, M l)
  | MSleep _ => (M, 0)
  end.

(** The rest of a C function: it returns ([Ret]), reaches picoRTOS_fatal() ([Stall]), exhausts the
    loop bound of the model ([OutOfFuel]) or performs an action and goes on. *)
Inductive prog (A : Type) :=
| Ret (a : A)
| Stall
| OutOfFuel
| Op (o : memop) (k : Z -> prog A).
Arguments Ret {A} a.
Arguments Stall {A}.
Arguments OutOfFuel {A}.
Arguments Op {A} o k.

Fixpoint pbind {A B} (p : prog A) (f : A -> prog B) : prog B :=
  match p with
  | Ret a => f a
  | Stall => Stall
  | OutOfFuel => OutOfFuel
  | Op o k => Op o (fun v => pbind (k v) f)
  end.

Notation "x <~ p ; k" := (pbind p (fun x => k)) (at level 100, p at next level, right associativity).

Definition act (o : memop) : prog Z := Op o (fun v => Ret v).

(** picoRTOS_assert_fatal (picoRTOS.h:141-157). *)
Definition passert {A} (b : bool) (p : prog A) : prog A := if b then p else Stall.

(** Configuration: bits of picoRTOS_atomic_t and size_t, CONFIG_DEADLOCK_COUNT,
    CONFIG_TASK_COUNT, and the number of iterations the model gives to the endless loop of
    picoRTOS_cond_wait (the theorems hold for any). *)
Record icfg := mkIcfg {
  ic_abits : Z;
  ic_szbits : Z;
  ic_deadlock : nat;
  ic_tasks : Z;
  ic_fuel : nat
}.

Definition wf_icfg (g : icfg) : Prop := 1 < ic_abits g /\ 1 < ic_szbits g.

(** EAGAIN (errno.h; any positive value). *)
Definition EAGAIN : Z := 11.

(** [nobody], picoRTOS_mutex.c:8: (picoRTOS_atomic_t)-1. *)
Definition nobody (g : icfg) : Z := wrap (ic_abits g) (-1).

(** picoRTOS_schedule(), picoRTOS.h:57-60: picoRTOS_sleep(1). *)
Definition schedule : prog Z := act (MSleep 1).

(** ** picoRTOS_futex.c *)

(** picoRTOS_futex_trylock, lines 37-43. *)
Definition futex_trylock (l : loc) : prog Z :=
  v <~ act (MTas l);
  if negb (v =? 0) then Ret (- EAGAIN) else Ret 0.

(** picoRTOS_futex_lock, lines 55-64: [while (trylock() != 0 && loop-- != 0) schedule();] followed
    by assert(loop != -1), which fails exactly when an attempt failed with loop = 0.
    [loop] is the local variable. *)
Fixpoint futex_lock_loop (loop : nat) (l : loc) : prog Z :=
  r <~ futex_trylock l;
  if r =? 0 then Ret 0
  else match loop with
       | O => Stall
       | S loop' => _ <~ schedule; futex_lock_loop loop' l
       end.
Definition futex_lock (g : icfg) (l : loc) : prog Z := futex_lock_loop (ic_deadlock g) l.

(** picoRTOS_futex_unlock, lines 77-81. *)
Definition futex_unlock (l : loc) : prog Z :=
  v <~ act (MRead l);
  passert (negb (v =? 0))
    (_ <~ act (MWrite l 0); Ret 0).

(** ** picoRTOS_mutex.c.  [pid] is picoRTOS_self() as a picoRTOS_atomic_t. *)

(** picoRTOS_mutex_trylock, lines 43-58. *)
Definition mutex_trylock (g : icfg) (pid : Z) (m : nat) : prog Z :=
  v <~ act (MCas (LOwner m) (nobody g) pid);
  owned <~ (if v =? nobody g then Ret true
            else (o <~ act (MRead (LOwner m)); Ret (o =? pid)));
  if owned : bool then
    (c <~ act (MRead (LCount m));
     _ <~ act (MWrite (LCount m) (wrap (ic_szbits g) (c + 1)));
     Ret 0)
  else Ret (- EAGAIN).

(** picoRTOS_mutex_lock, lines 70-79. *)
Fixpoint mutex_lock_loop (g : icfg) (loop : nat) (pid : Z) (m : nat) : prog Z :=
  r <~ mutex_trylock g pid m;
  if r =? 0 then Ret 0
  else match loop with
       | O => Stall
       | S loop' => _ <~ schedule; mutex_lock_loop g loop' pid m
       end.
Definition mutex_lock (g : icfg) (pid : Z) (m : nat) : prog Z :=
  mutex_lock_loop g (ic_deadlock g) pid m.

(** picoRTOS_mutex_unlock, lines 91-103. *)
Definition mutex_unlock (g : icfg) (pid : Z) (m : nat) : prog Z :=
  o <~ act (MRead (LOwner m));
  passert (o =? pid)
    (c <~ act (MRead (LCount m));
     passert (c >? 0)
       (c <~ act (MRead (LCount m));
        let c' := wrap (ic_szbits g) (c - 1) in
        _ <~ act (MWrite (LCount m) c');
        if c' =? 0 then (_ <~ act (MWrite (LOwner m) (nobody g)); Ret 0) else Ret 0)).

(** ** picoRTOS_cond.c *)

(** enum picoRTOS_cond_act, picoRTOS_cond.h:7-11. *)
Definition C_NONE : Z := 0.
Definition C_SIGNAL : Z := 1.
Definition C_BROADCAST : Z := 2.

(** picoRTOS_cond_signal, lines 31-36. *)
Definition cond_signal (c : nat) : prog Z := _ <~ act (MWrite (LAct c) C_SIGNAL); Ret 0.

(** picoRTOS_cond_broadcast, lines 44-49. *)
Definition cond_broadcast (c : nat) : prog Z := _ <~ act (MWrite (LAct c) C_BROADCAST); Ret 0.

(** picoRTOS_cond_wait, lines 91-99: the endless loop. *)
Fixpoint cond_loop (g : icfg) (fuel : nat) (pid : Z) (c m : nat) : prog Z :=
  match fuel with
  | O => OutOfFuel
  | S f =>
    a <~ act (MRead (LAct c));
    if negb (a =? C_NONE) then Ret 0
    else
      (_ <~ mutex_unlock g pid m;
       _ <~ schedule;
       _ <~ mutex_lock g pid m;
       cond_loop g f pid c m)
  end.

(** picoRTOS_cond_wait, lines 101-106: the reset. *)
Definition cond_reset (g : icfg) (c : nat) : prog Z :=
  n <~ act (MRead (LWait c));
  let n' := wrap (ic_szbits g) (n - 1) in
  _ <~ act (MWrite (LWait c) n');
  if n' =? 0 then (_ <~ act (MWrite (LAct c) C_NONE); Ret 0)
  else
    (a <~ act (MRead (LAct c));
     if a =? C_SIGNAL then (_ <~ act (MWrite (LAct c) C_NONE); Ret 0) else Ret 0).

(** picoRTOS_cond_wait, lines 82-107. *)
Definition cond_wait (g : icfg) (pid : Z) (c m : nat) : prog Z :=
  n <~ act (MRead (LWait c));
  passert (n <? ic_tasks g)
    (n <~ act (MRead (LWait c));
     _ <~ act (MWrite (LWait c) (wrap (ic_szbits g) (n + 1)));
     _ <~ cond_loop g (ic_fuel g) pid c m;
     cond_reset g c).

(** ** picoRTOS_queue.c and picoRTOS_queue.h *)

(** picoRTOS_queue_head_pop, queue.c:20-41. *)
Definition head_pop (g : icfg) (q : nat) : prog Z :=
  _ <~ futex_lock g (LQlock q);
  r <~ act (MRead (LQr q));
  k <~ act (MRead (LQmask q));
  let next := Z.land (wrap (ic_szbits g) (r + 1)) k in
  w <~ act (MRead (LQw q));
  if next =? w then (_ <~ futex_unlock (LQlock q); Ret (- EAGAIN))
  else
    (_ <~ act (MWrite (LQr q) next);
     _ <~ act (MWrite (LQi q) next);
     _ <~ futex_unlock (LQlock q);
     Ret 0).

(** picoRTOS_queue_head_push, queue.c:43-64. *)
Definition head_push (g : icfg) (q : nat) : prog Z :=
  _ <~ futex_lock g (LQlock q);
  w <~ act (MRead (LQw q));
  k <~ act (MRead (LQmask q));
  let next := Z.land (wrap (ic_szbits g) (w + 1)) k in
  r <~ act (MRead (LQr q));
  if next =? r then (_ <~ futex_unlock (LQlock q); Ret (- EAGAIN))
  else
    (w' <~ act (MRead (LQw q));
     _ <~ act (MWrite (LQi q) w');
     _ <~ act (MWrite (LQw q) next);
     _ <~ futex_unlock (LQlock q);
     Ret 0).

(** PICORTOS_QUEUE_READ, queue.h:67-69.  Result: (status, value read or 0). *)
Definition queue_read (g : icfg) (q : nat) : prog (Z * Z) :=
  r <~ head_pop g q;
  if negb (r =? - EAGAIN) then
    (i <~ act (MRead (LQi q));
     v <~ act (MRead (LQbuf q i));
     Ret (0, v))
  else Ret (- EAGAIN, 0).

(** PICORTOS_QUEUE_WRITE, queue.h:83-85. *)
Definition queue_write (g : icfg) (q : nat) (value : Z) : prog (Z * Z) :=
  r <~ head_push g q;
  if negb (r =? - EAGAIN) then
    (i <~ act (MRead (LQi q));
     _ <~ act (MWrite (LQbuf q i) value);
     Ret (0, 0))
  else Ret (- EAGAIN, 0).

(** picoRTOS_queue_head_init, queue.c:6-18, on its own memory: executed before the tasks start. *)
Definition queue_head_init (g : icfg) (q : nat) (count : Z) : prog Z :=
  passert (Z.land count (wrap (ic_szbits g) (count - 1)) =? 0)
    (_ <~ act (MWrite (LQlock q) 0);
     _ <~ act (MWrite (LQmask q) (wrap (ic_szbits g) (count - 1)));
     _ <~ act (MWrite (LQw q) 0);
     k <~ act (MRead (LQmask q));
     _ <~ act (MWrite (LQr q) k);
     _ <~ act (MWrite (LQi q) 0);
     Ret 0).

(** PICORTOS_QUEUE_INIT, queue.h:52-54 ([count] is the number of elements of buf). *)
Definition queue_init (g : icfg) (q : nat) (count : Z) : prog Z :=
  _ <~ queue_head_init g q count;
  _ <~ act (MWrite (LQbuf q 0) 0);
  Ret 0.

(** picoRTOS_futex_init (futex.c:23-26), picoRTOS_mutex_init (mutex.c:25-30), picoRTOS_cond_init
    (cond.c:18-23) and the static initialisers. *)
Definition futex_init (f : nat) : prog Z := _ <~ act (MWrite (LFutex f) 0); Ret 0.
Definition mutex_init (g : icfg) (m : nat) : prog Z :=
  _ <~ act (MWrite (LOwner m) (nobody g)); _ <~ act (MWrite (LCount m) 0); Ret 0.
Definition cond_init (c : nat) : prog Z :=
  _ <~ act (MWrite (LAct c) C_NONE); _ <~ act (MWrite (LWait c) 0); Ret 0.

(** ** Tasks calling these functions *)

Inductive call :=
| FutexTrylock (f : nat) | FutexLock (f : nat) | FutexUnlock (f : nat)
| MutexTrylock (m : nat) | MutexLock (m : nat) | MutexUnlock (m : nat)
| CondWait (c m : nat) | CondSignal (c : nat) | CondBroadcast (c : nat)
| QueueRead (q : nat) | QueueWrite (q : nat) (v : Z).

Definition pair0 (p : prog Z) : prog (Z * Z) := r <~ p; Ret (r, 0).

(** Body of a call made by task [i]; the result is (returned value, value read). *)
Definition body (g : icfg) (i : nat) (c : call) : prog (Z * Z) :=
  let pid := Z.of_nat i in
  match c with
  | FutexTrylock f => pair0 (futex_trylock (LFutex f))
  | FutexLock f => pair0 (futex_lock g (LFutex f))
  | FutexUnlock f => pair0 (futex_unlock (LFutex f))
  | MutexTrylock m => pair0 (mutex_trylock g pid m)
  | MutexLock m => pair0 (mutex_lock g pid m)
  | MutexUnlock m => pair0 (mutex_unlock g pid m)
  | CondWait c m => pair0 (cond_wait g pid c m)
  | CondSignal c => pair0 (cond_signal c)
  | CondBroadcast c => pair0 (cond_broadcast c)
  | QueueRead q => queue_read g q
  | QueueWrite q v => queue_write g q v
  end.

(** What the tasks can be seen doing: calls, and returns with their result. *)
Inductive hev :=
| HCall (i : nat) (c : call)
| HRet (i : nat) (c : call) (r v : Z).

(** A task is out of any IPC call, or inside one with the rest of it to do. *)
Inductive thread :=
| Out
| In (c : call) (p : prog (Z * Z)).

Record sys := mkSys {
  y_mem : mem;
  y_thr : nat -> thread;
  y_hist : list hev
}.

Definition tupd (T : nat -> thread) (i : nat) (t : thread) : nat -> thread :=
  fun j => if decide (j = i) then t else T j.

(** Memory once every object has been initialised; [qsize q] is the size of queue [q] and [junk]
    the contents of cells nobody initialises. *)
Definition mem0 (g : icfg) (qsize : nat -> Z) (junk : nat -> Z -> Z) : mem := fun l =>
  match l with
  | LFutex _ => 0
  | LOwner _ => nobody g
  | LCount _ => 0
  | LAct _ => C_NONE
  | LWait _ => 0
  | LQlock _ => 0
  | LQmask q => wrap (ic_szbits g) (qsize q - 1)
  | LQr q => wrap (ic_szbits g) (qsize q - 1)
  | LQw _ => 0
  | LQi _ => 0
  | LQbuf q i => junk q i
  end.

Definition sys0 (M : mem) : sys := mkSys M (fun _ => Out) [].

(** Schedules: task [i] enters a call, or performs its next action (the last one being to
    return). *)
Inductive sev :=
| Enter (i : nat) (c : call)
| Go (i : nat).

(** One step of the system.  A task that reaches picoRTOS_fatal stalls the whole system.  [Enter]
    by a task already inside a call, and [Go] by a task outside any call or out of fuel, change
    nothing. *)
Definition sys_step (g : icfg) (s : sys) (e : sev) : res sys :=
  match e with
  | Enter i c =>
      match y_thr s i with
      | Out => Ok (mkSys (y_mem s) (tupd (y_thr s) i (In c (body g i c))) (y_hist s ++ [HCall i c]))
      | In _ _ => Ok s
      end
  | Go i =>
      match y_thr s i with
      | Out => Ok s
      | In c (Ret (r, v)) => Ok (mkSys (y_mem s) (tupd (y_thr s) i Out) (y_hist s ++ [HRet i c r v]))
      | In c Stall => Fatal
      | In c OutOfFuel => Ok s
      | In c (Op o k) =>
          let '(M, v) := exec o (y_mem s) in
          Ok (mkSys M (tupd (y_thr s) i (In c (k v))) (y_hist s))
      end
  end.

Fixpoint sys_run (g : icfg) (s : sys) (evs : list sev) : res sys :=
  match evs with
  | [] => Ok s
  | e :: evs => let! s := sys_step g s e in sys_run g s evs
  end.
