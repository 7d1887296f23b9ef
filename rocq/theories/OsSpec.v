(** OsSpec.v - vocabulary for locks under the scheduler. *)
From Verif Require Import Base SchedModel SchedSpec IpcModel IpcSpec OsModel.

(** Reachable from the start of the scheduler, with all objects initialised. *)
Definition os_reach (c : config) (rs : list reg) (g : icfg) (s : os) : Prop :=
  exists tmp0 k0 M evs, boot c tmp0 rs = Ok k0 /\ ready_mem g M /\ os_run c g (mkOs k0 (sys0 M)) evs = Ok s.

(** Ticks of a history. *)
Definition is_otick (e : oev) : bool := match e with OTick _ => true | _ => false end.
Definition oticks (evs : list oev) : Z := Z.of_nat (length (filter (fun e => is_otick e = true) evs)).

(** Lock calls, and when the lock they want is free. *)
Definition is_lock (cl : call) : Prop := match cl with FutexLock _ | MutexLock _ => True | _ => False end.
Definition free (g : icfg) (s : os) (cl : call) : Prop :=
  match cl with
  | FutexLock f => y_mem (o_y s) (LFutex f) = 0
  | MutexLock m => y_mem (o_y s) (LOwner m) = nobody g
  | _ => False
  end.

(** Task [i] does not run before the end of [evs]. *)
Fixpoint not_run (c : config) (g : icfg) (i : nat) (s : os) (evs : list oev) : Prop :=
  match evs with
  | [] => True
  | e :: evs => cur (o_k s) <> i /\ match os_step c g s e with Ok s' => not_run c g i s' evs | _ => True end
  end.

(** The running task waits: it is in [cl], about to sleep until the next attempt. *)
Definition waits (s : os) (cl : call) : Prop := in_call (o_y s) (cur (o_k s)) cl /\ about_to_sleep (o_y s) (cur (o_k s)).
