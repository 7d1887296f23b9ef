(** RaceModel.v - the read-only calls, which take no lock and mask no interrupt, one memory access at
    a time: picoRTOS_self of scheduler/picoRTOS-SMP.c, and picoRTOS_get_tick on machines that load
    picoRTOS.tick in several instructions. *)
From Verif Require Import Base SchedModel SmpModel.

(** ** picoRTOS_self, scheduler/picoRTOS-SMP.c:463-469, with TASK_CURRENT() of line 60
    Its accesses in program order; the argument is what has been read so far. *)
Inductive self_pc :=
| SelfStart                  (* about to evaluate arch_core() of TASK_CURRENT(), line 465 *)
| SelfIndex (core : Z)       (* about to read picoRTOS.index[core], line 465 *)
| SelfState (pid : Z)        (* about to read picoRTOS.task[pid].state, line 465 *)
| SelfCore                   (* about to evaluate arch_core(), line 468 *)
| SelfRead (core : Z)        (* about to read picoRTOS.index[core], line 468 *)
| SelfDone (v : Z)           (* returned v *)
| SelfFatal.                 (* picoRTOS_assert_fatal failed, line 465 *)

(** One access by the caller, which runs on core [k]. *)
Definition self_access (s : smp) (k : nat) (p : self_pc) : res self_pc :=
  match p with
  | SelfStart => Ok (SelfIndex (Z.of_nat k))
  | SelfIndex c => let! i := aget (m_index s) c in Ok (SelfState i)
  | SelfState i =>
      let! t := mget s i in
      Ok (if bool_decide (t_state t = BUSY) then SelfCore else SelfFatal)
  | SelfCore => Ok (SelfRead (Z.of_nat k))
  | SelfRead c => let! i := aget (m_index s) c in Ok (SelfDone i)
  | _ => Ok p
  end.

(** Executions: [Other ev], an event of the scheduler on some core, atomic (it holds the spin lock,
    see SpinModel.v); [Access k], the caller, running on core [k], makes its next access. *)
Inductive race_ev := Other (ev : nat * (op * entry)) | Access (k : nat).
Definition race_step (g : smpcfg) (s : smp) (p : self_pc) (e : race_ev) : res (smp * self_pc) :=
  match e with
  | Other ev => let! x := m_step g s ev in Ok (fst (fst x), p)
  | Access k => let! p := self_access s k p in Ok (s, p)
  end.
Fixpoint race_run (g : smpcfg) (s : smp) (p : self_pc) (es : list race_ev) : res (smp * self_pc) :=
  match es with
  | [] => Ok (s, p)
  | e :: es => let! (s, p) := race_step g s p e in race_run g s p es
  end.

(** ** picoRTOS_get_tick, scheduler/picoRTOS.c:512-516 (lite:227-231): [return picoRTOS.tick;]
    picoRTOS_tick_t has 16 bits on avr and 8051 (arch/avr/picoRTOS_types.h:9, arch/8051/picoRTOS_types.h:9),
    whose loads have 8: the result is put together from two loads.  [ss] are the states of the
    scheduler at the successive loads of [b] bits each, least significant first; load [i] is the
    first of them. *)
Fixpoint tick_loads (b : Z) (i : Z) (ss : list core) : Z :=
  match ss with
  | [] => 0
  | s :: ss => (c_tick s / 2 ^ (b * i)) mod 2 ^ b * 2 ^ (b * i) + tick_loads b (i + 1) ss
  end.
