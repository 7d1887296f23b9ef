(** IpcSpec.v - vocabulary of the IPC properties: what a task holds, computed from the calls and
    returns alone, and well-behaved uses.  Nothing here looks inside the objects. *)
From Verif Require Import Base IpcModel.

(** Reachable: the system went from its initial state to [s] by the schedule [evs], without
    stalling. *)
Definition reach (g : icfg) (M : mem) (s : sys) : Prop :=
  exists evs, sys_run g (sys0 M) evs = Ok s.

(** Memory in which every object has been initialised. *)
Definition ready_mem (g : icfg) (M : mem) : Prop :=
  exists qsize junk, M = mem0 g qsize junk.

(** ** Mutexes *)

(** How event [e] changes the number of times task [i] holds mutex [m]: a successful lock adds
    one when it returns; an unlock removes one as soon as it is called; picoRTOS_cond_wait removes
    one when called and gives it back when it returns. *)
Definition mdelta (m i : nat) (e : hev) : Z :=
  match e with
  | HRet j (MutexLock m') _ _ => if bool_decide (j = i /\ m' = m) then 1 else 0
  | HRet j (MutexTrylock m') r _ => if bool_decide (j = i /\ m' = m) && (r =? 0) then 1 else 0
  | HRet j (CondWait _ m') _ _ => if bool_decide (j = i /\ m' = m) then 1 else 0
  | HCall j (MutexUnlock m') => if bool_decide (j = i /\ m' = m) then -1 else 0
  | HCall j (CondWait _ m') => if bool_decide (j = i /\ m' = m) then -1 else 0
  | _ => 0
  end.

(** Number of times task [i] holds mutex [m] after history [h]. *)
Definition mheld (m i : nat) (h : list hev) : Z := foldr (fun e n => mdelta m i e + n) 0 h.

(** Nesting stays below what a size_t can count. *)
Definition depth_ok (g : icfg) (m : nat) (h : list hev) : Prop :=
  forall h' i, h' `prefix_of` h -> mheld m i h' < 2 ^ ic_szbits g.

(** Task numbers are below (picoRTOS_atomic_t)-1 (guaranteed by picoRTOS_init: property C17). *)
Definition pids_ok (g : icfg) (h : list hev) : Prop :=
  forall i c, HCall i c ∈ h -> Z.of_nat i < 2 ^ ic_abits g - 1.

(** ** Futexes *)

Definition fdelta (f i : nat) (e : hev) : Z :=
  match e with
  | HRet j (FutexLock f') _ _ => if bool_decide (j = i /\ f' = f) then 1 else 0
  | HRet j (FutexTrylock f') r _ => if bool_decide (j = i /\ f' = f) && (r =? 0) then 1 else 0
  | HCall j (FutexUnlock f') => if bool_decide (j = i /\ f' = f) then -1 else 0
  | _ => 0
  end.

Definition fheld (f i : nat) (h : list hev) : Z := foldr (fun e n => fdelta f i e + n) 0 h.

(** Tasks only unlock a futex they hold. *)
Definition futex_discipline (f : nat) (h : list hev) : Prop :=
  forall h1 i h2, h = h1 ++ HCall i (FutexUnlock f) :: h2 -> 0 < fheld f i h1.

(** ** Conditions *)

(** Condition [c] is always waited for with mutex [m], by tasks that hold it exactly once. *)
Definition cond_discipline (c m : nat) (h : list hev) : Prop :=
  forall h1 i m' h2, h = h1 ++ HCall i (CondWait c m') :: h2 -> m' = m /\ mheld m i h1 = 1.

Definition count_ev (P : hev -> bool) (h : list hev) : nat := length (filter (fun e => P e = true) h).

Definition is_signal (c : nat) (e : hev) : bool :=
  match e with HCall _ (CondSignal c') => bool_decide (c' = c) | _ => false end.
Definition is_broadcast (c : nat) (e : hev) : bool :=
  match e with HCall _ (CondBroadcast c') => bool_decide (c' = c) | _ => false end.
Definition is_woken (c : nat) (e : hev) : bool :=
  match e with HRet _ (CondWait c' _) _ _ => bool_decide (c' = c) | _ => false end.
Definition is_wait (c : nat) (e : hev) : bool :=
  match e with HCall _ (CondWait c' _) => bool_decide (c' = c) | _ => false end.

(** Number of returns from waits on [c] that the signals (one each) and broadcasts (one per task
    waiting at that time) of [h] allow, when [n] tasks wait to begin with. *)
Fixpoint wake_budget (c : nat) (n : nat) (h : list hev) : nat :=
  match h with
  | [] => 0
  | e :: h =>
      (if is_signal c e then 1 else 0) + (if is_broadcast c e then n else 0) +
      wake_budget c (if is_wait c e then S n else if is_woken c e then n - 1 else n) h
  end%nat.

(** ** One task alone *)

(** Task [i] is about to sleep (picoRTOS_sleep) / to reach picoRTOS_fatal / to write to memory. *)
Definition about_to_sleep (s : sys) (i : nat) : Prop :=
  exists c n k, y_thr s i = In c (Op (MSleep n) k).
Definition about_to_stall (s : sys) (i : nat) : Prop :=
  exists c, y_thr s i = In c Stall.
Definition about_to_write (s : sys) (i : nat) : Prop :=
  exists c k, (exists l v, y_thr s i = In c (Op (MWrite l v) k)) \/
              (exists l, y_thr s i = In c (Op (MTas l) k)) \/
              (exists l o n, y_thr s i = In c (Op (MCas l o n) k)).
Definition about_to_return (s : sys) (i : nat) (c : call) (r v : Z) : Prop :=
  y_thr s i = In c (Ret (r, v)).

(** Does call [c] concern mutex [m] / futex [f]? *)
Definition on_mutex (m : nat) (c : call) : bool :=
  match c with
  | MutexTrylock m' | MutexLock m' | MutexUnlock m' | CondWait _ m' => bool_decide (m' = m)
  | _ => false
  end.
Definition on_futex (f : nat) (c : call) : bool :=
  match c with
  | FutexTrylock f' | FutexLock f' | FutexUnlock f' => bool_decide (f' = f)
  | _ => false
  end.

(** Task [j] does not hold the mutex / futex and is not in the middle of an operation on it: it is
    outside any call, about to sleep, or in a call that does not concern it. *)
Definition mquiet (m : nat) (s : sys) (j : nat) : Prop :=
  mheld m j (y_hist s) = 0 /\
  (y_thr s j = Out \/ about_to_sleep s j \/ exists c p, y_thr s j = In c p /\ on_mutex m c = false).
Definition fquiet (f : nat) (s : sys) (j : nat) : Prop :=
  fheld f j (y_hist s) = 0 /\
  (y_thr s j = Out \/ about_to_sleep s j \/ exists c p, y_thr s j = In c p /\ on_futex f c = false).

(** Task [i] alone performs [n] actions after entering call [c]. *)
Definition alone (i : nat) (c : call) (n : nat) : list sev := Enter i c :: replicate n (Go i).

(** ** Traces of a single call *)

(** [trace p tr p']: answered by the memory as in [tr] (anything the other tasks may cause), the
    function [p] performs the actions of [tr] and is left with [p'] to do. *)
Inductive trace {A} : prog A -> list (memop * Z) -> prog A -> Prop :=
| trace_nil p : trace p [] p
| trace_cons o k v tr p' : trace (k v) tr p' -> trace (Op o k) ((o, v) :: tr) p'.

(** [runs M p M' a n]: executed alone from memory [M], [p] returns [a] after [n] actions and leaves
    memory [M']. *)
Inductive runs {A} : mem -> prog A -> mem -> A -> nat -> Prop :=
| runs_ret M a : runs M (Ret a) M a 0
| runs_op M o k M' a n :
    runs (fst (exec o M)) (k (snd (exec o M))) M' a n -> runs M (Op o k) M' a (S n).

(** Shape of a lock call that gives up: [n + 1] failed attempts separated by [n] one-tick sleeps;
    and of one that succeeds after [n] failed attempts, each followed by a one-tick sleep. *)
Inductive gives_up (fail : list (memop * Z) -> Prop) : nat -> list (memop * Z) -> Prop :=
| gu_last tr : fail tr -> gives_up fail 0 tr
| gu_more n tr v rest :
    fail tr -> gives_up fail n rest -> gives_up fail (S n) (tr ++ (MSleep 1, v) :: rest).

Inductive gets_it (fail win : list (memop * Z) -> Prop) : nat -> list (memop * Z) -> Prop :=
| gi_last tr : win tr -> gets_it fail win 0 tr
| gi_more n tr v rest :
    fail tr -> gets_it fail win n rest -> gets_it fail win (S n) (tr ++ (MSleep 1, v) :: rest).

(** A failed / successful attempt on a futex: test-and-set found it taken / free. *)
Definition futex_fail (l : loc) (tr : list (memop * Z)) : Prop := exists v, v <> 0 /\ tr = [(MTas l, v)].
Definition futex_win (l : loc) (tr : list (memop * Z)) : Prop := tr = [(MTas l, 0)].

(** A failed attempt on a mutex: compare-and-swap found an owner, and it is someone else.
    A successful one: it found none, or the owner is the caller; the count goes up by one. *)
Definition mutex_fail (g : icfg) (pid : Z) (m : nat) (tr : list (memop * Z)) : Prop :=
  exists v o, v <> nobody g /\ o <> pid /\
    tr = [(MCas (LOwner m) (nobody g) pid, v); (MRead (LOwner m), o)].
Definition mutex_win (g : icfg) (pid : Z) (m : nat) (tr : list (memop * Z)) : Prop :=
  exists n x,
    tr = [(MCas (LOwner m) (nobody g) pid, nobody g);
          (MRead (LCount m), n); (MWrite (LCount m) (wrap (ic_szbits g) (n + 1)), x)] \/
    exists v, v <> nobody g /\
    tr = [(MCas (LOwner m) (nobody g) pid, v); (MRead (LOwner m), pid);
          (MRead (LCount m), n); (MWrite (LCount m) (wrap (ic_szbits g) (n + 1)), x)].

(** Task [i] is inside call [c]. *)
Definition in_call (s : sys) (i : nat) (c : call) : Prop := exists p, y_thr s i = In c p.

(** Task [i] is about to write [v] in the cell [l]. *)
Definition about_to_set (s : sys) (i : nat) (l : loc) : Prop :=
  exists c v k, y_thr s i = In c (Op (MWrite l v) k).

(** No event of [h] is a return of task [i]. *)
Definition no_return (i : nat) (h : list hev) : Prop := forall c r v, HRet i c r v ∉ h.

(** ** Queues *)

Definition on_queue (q : nat) (c : call) : bool :=
  match c with QueueRead q' | QueueWrite q' _ => bool_decide (q' = q) | _ => false end.

(** Calls on queue [q] that have not returned yet. *)
Definition qpend (q : nat) (h : list hev) : Z :=
  foldr (fun e n => match e with
                    | HCall _ c => if on_queue q c then 1 + n else n
                    | HRet _ c _ _ => if on_queue q c then n - 1 else n
                    end) 0 h.

(** Reads and writes of queue [q] never overlap. *)
Definition queue_serial (q : nat) (h : list hev) : Prop :=
  forall h1 i c h2, h = h1 ++ HCall i c :: h2 -> on_queue q c = true -> qpend q h1 = 0.

(** A bounded first-in first-out queue of capacity [cap]: effect and result of a call. *)
Definition fifo_call (cap : Z) (c : call) (l : list Z) : list Z * (Z * Z) :=
  match c with
  | QueueWrite _ v => if Z.of_nat (length l) <? cap then (l ++ [v], (0, 0)) else (l, (- EAGAIN, 0))
  | QueueRead _ => match l with [] => (l, (- EAGAIN, 0)) | v :: l' => (l', (0, v)) end
  | _ => (l, (0, 0))
  end.

(** [fifo_replay cap q l h]: the returns of [h] that concern queue [q] are those of a bounded FIFO
    that holds [l] to begin with; the result is its final content. *)
Fixpoint fifo_replay (cap : Z) (q : nat) (l : list Z) (h : list hev) : option (list Z) :=
  match h with
  | [] => Some l
  | HRet _ c r v :: h =>
      if on_queue q c then
        if decide (snd (fifo_call cap c l) = (r, v)) then fifo_replay cap q (fst (fifo_call cap c l)) h else None
      else fifo_replay cap q l h
  | HCall _ _ :: h => fifo_replay cap q l h
  end.

(** Successful reads and writes of queue [q], rejected ones, and write calls. *)
Definition is_read (q : nat) (e : hev) : bool :=
  match e with HRet _ (QueueRead q') r _ => bool_decide (q' = q) && (r =? 0) | _ => false end.
Definition is_written (q : nat) (e : hev) : bool :=
  match e with HRet _ (QueueWrite q' _) r _ => bool_decide (q' = q) && (r =? 0) | _ => false end.
Definition is_rejected (q : nat) (e : hev) : bool :=
  match e with HRet _ (QueueWrite q' _) r _ => bool_decide (q' = q) && negb (r =? 0) | _ => false end.
Definition is_write_call (q : nat) (e : hev) : bool :=
  match e with HCall _ (QueueWrite q' _) => bool_decide (q' = q) | _ => false end.

(** Successful reads that gave value [v], and write calls with value [v]. *)
Definition is_read_of (q : nat) (v : Z) (e : hev) : bool :=
  match e with HRet _ (QueueRead q') r x => bool_decide (q' = q) && (r =? 0) && (x =? v) | _ => false end.
Definition is_write_of (q : nat) (v : Z) (e : hev) : bool :=
  match e with HCall _ (QueueWrite q' x) => bool_decide (q' = q) && (x =? v) | _ => false end.

(** Results of the writes to queue [q], in order. *)
Definition write_results (q : nat) (h : list hev) : list Z :=
  omap (fun e => match e with HRet _ (QueueWrite q' _) r _ => if bool_decide (q' = q) then Some r else None | _ => None end) h.

Definition is_read_call (q : nat) (e : hev) : bool :=
  match e with HCall _ (QueueRead q') => bool_decide (q' = q) | _ => false end.

(** Task [i] is about to read or write element [a] of the buffer of queue [q]. *)
Definition about_to_access (s : sys) (i q : nat) (a : Z) : Prop :=
  exists c k, y_thr s i = In c (Op (MRead (LQbuf q a)) k) \/ exists v, y_thr s i = In c (Op (MWrite (LQbuf q a) v) k).
