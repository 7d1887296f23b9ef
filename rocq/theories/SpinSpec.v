(** SpinSpec.v - vocabulary of the spin-lock properties. *)
From Verif Require Import Base SchedModel SchedSpec SmpModel SmpSpec SpinModel.

(** Core [k] is between arch_spin_lock and arch_spin_unlock. *)
Definition inside {Sh C} (w : world Sh C) (k : nat) : Prop := exists b rest, w_pc w k = Inside b rest.
(** No call of arch_spin_lock returned without the lock. *)
Definition never_gave_up {Sh C} (w : world Sh C) : Prop := Forall (fun x => snd x = true) (w_log w).
(** The calls that got past arch_spin_lock, in order. *)
Definition entered {Sh C} (w : world Sh C) : list C := map (fun x => snd (fst x)) (w_log w).
(** Those of core [k]. *)
Definition entered_on {Sh C} (w : world Sh C) (k : nat) : list C :=
  map (fun x => snd (fst x)) (filter (fun x => fst (fst x) = k) (w_log w)).
(** The body of a call, executed alone. *)
Definition alone {Sh} (fs : list (Sh -> Sh)) (s : Sh) : Sh := fold_left (fun s f => f s) fs s.
(** Calls executed one after the other. *)
Definition in_sequence {Sh C} (body : C -> list (Sh -> Sh)) (cs : list C) (s : Sh) : Sh :=
  fold_left (fun s c => alone (body c) s) cs s.

(** In a history of calls of the SMP scheduler, system calls are made by user tasks (not by idle). *)
Definition tasks_only (g : smpcfg) (s0 : smp) (evs : list (nat * (op * entry))) : Prop :=
  forall evs1 k o e evs2 s, evs = evs1 ++ (k, (o, e)) :: evs2 -> m_run g s0 evs1 = Ok s -> m_may_issue g s k o.
