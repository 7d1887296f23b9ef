(** RaceSpec.v - vocabulary of the properties of RaceModel.v. *)
From Verif Require Import Base SchedModel SchedSpec SmpModel SmpSpec RaceModel.

(** Task [pid] executes picoRTOS_self: it makes its accesses on the core it runs on, and meanwhile
    makes no system call. *)
Fixpoint calls_self (g : smpcfg) (pid : nat) (s : smp) (p : self_pc) (es : list race_ev) : Prop :=
  match es with
  | [] => True
  | e :: es =>
      match e with
      | Access k => (k < m_cores g)%nat /\ on_core s k = pid
      | Other ev => (fst ev < m_cores g)%nat /\ (on_core s (fst ev) = pid -> is_tick (snd ev) = true)
      end /\
      match race_step g s p e with Ok (s', p') => calls_self g pid s' p' es | _ => True end
  end.

(** Task [pid] may run on core [k0] only. *)
Definition pinned (g : smpcfg) (rs : list reg) (pid k0 : nat) : Prop :=
  forall k, (k < m_cores g)%nat -> allowed g rs k pid -> k = k0.

(** States at successive instants of an execution. *)
Inductive instants (c : config) : list core -> Prop :=
| instants_one s : instants c [s]
| instants_cons s s' ss evs : run c s evs = Ok s' -> instants c (s' :: ss) -> instants c (s :: s' :: ss).
