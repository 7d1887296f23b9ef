(** OsModel.v - the IPC objects (IpcModel) used by tasks the scheduler runs (SchedModel), on one core.

    Only the running task acts: it enters an IPC function, performs the next memory access of the one it is in, or calls the
    scheduler. picoRTOS_sleep called by an IPC function (picoRTOS_schedule, picoRTOS.h:57-60) is the scheduler's. The timer
    interrupts anywhere. Simplifications: those of IpcModel and SchedModel; the IPC functions take no time of their own. *)
From Verif Require Import Base SchedModel SchedSpec IpcModel IpcSpec.

Record os := mkOs { o_k : core; o_y : sys }.

Inductive oev :=
| OTick (e : entry)            (* the timer interrupts the running task *)
| OCall (cl : call)            (* the running task calls an IPC function *)
| OGo (e : entry)              (* the running task goes on with it *)
| OApp (o : op) (e : entry).   (* the running task, outside of any IPC function, calls the scheduler *)

(** scheduler/picoRTOS.c:171-180: the idle task calls nothing. *)
Definition is_idle (c : config) (s : os) : bool := Nat.eqb (cur (o_k s)) (cfg_n c).

(** One event; those that cannot be (a call by a task that is in one, by idle) change nothing. ipc/picoRTOS_futex.c:55-64,
    picoRTOS_mutex.c:70-79, picoRTOS_cond.c:82-107 call picoRTOS_schedule. *)
Definition os_step (c : config) (g : icfg) (s : os) (e : oev) : res os :=
  let i := cur (o_k s) in
  match e with
  | OTick e => let! x := step c (o_k s) (Tick, e) in Ok (mkOs (fst (fst x)) (o_y s))
  | OCall cl => if is_idle c s then Ok s else let! y := sys_step g (o_y s) (Enter i cl) in Ok (mkOs (o_k s) y)
  | OGo e => if is_idle c s then Ok s else
      match y_thr (o_y s) i with
      | In _ (Op (MSleep n) _) =>
          let! x := step c (o_k s) (Sleep n, e) in
          let! y := sys_step g (o_y s) (Go i) in Ok (mkOs (fst (fst x)) y)
      | _ => let! y := sys_step g (o_y s) (Go i) in Ok (mkOs (o_k s) y)
      end
  | OApp o e => if is_idle c s || is_tick (o, e) then Ok s else
      match y_thr (o_y s) i with
      | Out => let! x := step c (o_k s) (o, e) in Ok (mkOs (fst (fst x)) (o_y s))
      | In _ _ => Ok s
      end
  end.

Fixpoint os_run (c : config) (g : icfg) (s : os) (evs : list oev) : res os :=
  match evs with
  | [] => Ok s
  | e :: evs => let! s := os_step c g s e in os_run c g s evs
  end.
