(** PropAsm.v - properties C63 to C66: what a context switch preserves, on the ports. *)
From Verif Require Import Base SchedModel SchedSpec ExSched AsmModel AsmSpec SysModel AsmProofs SysProofs.
Local Open Scope string_scope.
Local Open Scope Z_scope.

(** C63 (1): on ARMv6-M, ARMv7-M, ARMv7E-M (whatever the alignment), rv32ec, rv32imac, e200 (no
    reservation held on return), AVR (2 or 3-byte program counter), STM8 and HCS08, a task interrupted by
    the tick finds all its registers again. *)
Theorem C63_tick_partial : forall p, p ∈ al_ports -> tick_ok p (p_regs p).
Proof. exact ports_tick. Qed.
Print Assumptions C63_tick_partial.

(** C63 (2): the same for a system call. *)
Theorem C63_syscall_partial : forall p, p ∈ al_ports -> call_ok p (p_regs p).
Proof. exact ports_call. Qed.
Print Assumptions C63_syscall_partial.

(** C63 (3): on MIPS, all but s6 and at. *)
Theorem C63_mips_partial : forall p, p ∈ mips_ports ->
  tick_ok p (mips_kept p) /\ call_ok p (mips_kept p) /\
  forall x, x ∈ p_regs p -> x <> "s6" -> x <> "at" -> x ∈ mips_kept p.
Proof. exact (fun p Hp => conj (mips_tick p Hp) (conj (mips_call p Hp) (mips_kept_ok p))). Qed.
Print Assumptions C63_mips_partial.

(** C63 (4): and neither of those. *)
Theorem C63_mips_refuted : forall p x, p ∈ mips_ports -> x = "s6" \/ x = "at" -> ~ tick_ok p [x].
Proof. exact mips_lost. Qed.
Print Assumptions C63_mips_refuted.

(** C63 (5): on e200, a reservation held on return loses the program counter of the task. *)
Theorem C63_e200_refuted : ~ tick_ok (e200 true) ["pc"].
Proof. exact e200_lost. Qed.
Print Assumptions C63_e200_refuted.

(** The hypotheses can be met: a machine, and one about to resume it after everything else changed. *)
Example C63_case : let p := armv7m false in
  let m := mkMach (fun x => if String.eqb x "psp" then 8000 else if String.eqb x "r7" then 77 else 1) (fun a => a) in
  let s := exec (fun _ => 3) (p_tick p) m in
  let m' := mkMach (fun x => if String.eqb x "r0" then reg s "r0" else 4) (fun a => if (reg s "r0" <=? a) && (a <? 8000) then mem s a else 6) in
  reg s "r0" = 7936 /\ kept p (reg s (p_arg p)) s m' /\ reg (exec (fun _ => 5) (p_resume p) m') "r7" = 77
  /\ reg (exec (fun _ => 5) (p_resume p) m') "psp" = 8000.
Proof.
  cbv zeta. split_and!; [vm_compute; reflexivity| |vm_compute; reflexivity|vm_compute; reflexivity].
  set (s := exec _ _ _). assert (reg s "r0" = 7936) as E by (vm_compute; reflexivity).
  change (p_arg (armv7m false)) with "r0". split_and!.
  - cbn [reg]. reflexivity.
  - change (p_lo (armv7m false)) with 0. change (p_hi (armv7m false)) with 64. cbn [mem]. rewrite E. intros a Ha.
    replace (7936 <=? a) with true by lia. replace (a <? 8000) with true by lia. reflexivity.
  - change (p_kstk (armv7m false)) with ("msp", -36, 0). change (p_lo (armv7m false)) with 0. change (p_hi (armv7m false)) with 64.
    cbv beta iota. intros k j Hk Hj. cbn [reg p_ret armv7m]. change (String.eqb "r0" "r0") with true.
    change (String.eqb "msp" "r0") with false. cbv iota. rewrite E. lia.
Qed.

(** C64: the scheduler receives the arguments of the system call, but on STM8, where it receives an
    address that depends only on the stack pointer of the task. *)
Theorem C64_args_partial : forall p, p ∈ al_ports -> p <> stm8 -> args_ok p.
Proof. exact ports_args. Qed.
Print Assumptions C64_args_partial.
Theorem C64_mips_partial : forall p, p ∈ mips_ports -> args_ok p.
Proof. exact mips_args. Qed.
Print Assumptions C64_mips_partial.
Theorem C64_args_refuted : ~ args_ok stm8 /\ forall h m, reg (exec h (p_call stm8) m) "y" = reg m "sp" + 3.
Proof. exact (conj stm8_args_bad stm8_args). Qed.
Print Assumptions C64_args_refuted.
Example C64_case : let m := mkMach (fun x => if String.eqb x "a0" then 2 else if String.eqb x "a1" then 5000 else 8000) (fun a => a) in
  rv32imac ∈ al_ports /\ rv32imac <> stm8 /\ reg (exec (fun _ => 0) (p_call rv32imac) m) "a2" = 5000.
Proof. split_and!; [unfold al_ports; set_solver|discriminate|vm_compute; reflexivity]. Qed.

(** C65: a new task starts at its function, with its argument. *)
Theorem C65_first_context : forall p, p ∈ new_ports -> first_ok p.
Proof. exact ports_first. Qed.
Print Assumptions C65_first_context.
Example C65_case : let p := m51xx true false true in
  let m := mkMach (fun x => if String.eqb x "a0" then 8192 else if String.eqb x "a1" then 1234 else if String.eqb x "a2" then 5678 else 30000) (fun a => a) in
  let s := exec (fun _ => 0) (p_first p) m in let sp := reg s (p_fret p) in
  p ∈ new_ports /\ sp = 7812 /\ apart m "a0" (-8000) 0 "sp" 0 0 /\
  let m' := mkMach (fun x => if String.eqb x "v0" then sp else 3) (mem s) in
  reg (exec (fun _ => 1) (p_start p) m') "pc" = 1234 /\ reg (exec (fun _ => 1) (p_resume p) m') "a0" = 5678.
Proof. cbv zeta. split_and!; [unfold new_ports, mips_ports; set_solver|vm_compute; reflexivity|intros k j Hk Hj; lia|vm_compute; reflexivity|vm_compute; reflexivity]. Qed.

(** C66: the whole system.  Whatever the tasks execute, whatever the ticks and the system calls, a task that is
    resumed finds its registers and its stack as they were when it was interrupted (after a system call,
    it continues at the next instruction), and finds its function and its argument the first time; its
    identity is what the scheduler believes it to be. *)
Theorem C66_system : forall P c rs born k0 evs k m left ev k' m' left',
  wf_config c -> regs_typed rs -> P ∈ families -> stacks_ok (P false) (stack_bounds c rs) ->
  sysrun P c rs born k0 evs k m left -> switch P c (stack_bounds c rs) k m left ev k' m' left' ->
  finds P (stack_bounds c rs) born left' (cur k') m'.
Proof. exact (fun P c rs born k0 evs k m left ev k' m' left' Hw Ht HP Hs => sys_finds P c rs born Hw Ht (families_ok P HP) Hs k0 evs k m left ev k' m' left'). Qed.
Print Assumptions C66_system.

(** An application with one task on ARMv7-M: it is prepared, started, and the first tick gives it the
    processor. *)
Definition sysc : config := mkConfig 1 32 32 32 32 32 2 21 4 4 4096 4116 false.
Definition systask : SchedModel.reg := mkReg 8192 32 8256 0 0.
Definition asmregs (r0 : Z) : string -> Z := fun x =>
  if String.eqb x "r0" then r0 else if String.eqb x "r1" then 1111 else if String.eqb x "r2" then 2222
  else if String.eqb x "msp" then 1000 else 5.
Definition mI : mach := mkMach (asmregs 4180) (fun _ => 0).
Definition hz : nat -> Z := fun _ => 0.
Definition mI1 : mach := exec hz (p_first (armv7m false)) mI.
Definition mT : mach := mkMach (asmregs 8320) (mem mI1).
Definition mT1 : mach := exec hz (p_first (armv7m false)) mT.
Definition mS : mach := mkMach (asmregs 4116) (mem mT1).
Definition mrun : mach := exec hz (p_start (armv7m false)) mS.
Definition borns : nat -> option mach := upd (upd (fun _ => None) 1%nat mI) 0%nat mT.
Definition sev : op * entry := (Tick, mkEntry 4116 5 7).
Definition ms1 : mach := exec hz (p_tick (armv7m false)) mrun.
Definition ms2 : mach := mkMach (asmregs 8256) (mem ms1).

Lemma sys_bounds j b e : stack_bounds sysc [systask] j = Some (b, e) ->
  (j = 0%nat /\ b = 8192 /\ e = 8320) \/ (j = 1%nat /\ b = 4096 /\ e = 4180).
Proof.
  destruct j as [|[|j]].
  - vm_compute. intros [= <- <-]. auto.
  - vm_compute. intros [= <- <-]. auto.
  - change (stack_bounds sysc [systask] (S (S j))) with
      (match task_of sysc [systask] (S (S j)) with
       | Some r => Some (rg_stack r, rg_stack r + cfg_ssize sysc * rg_count r) | None => None end).
    change (task_of sysc [systask] (S (S j))) with (order sysc [systask] !! S (S j)).
    replace (order sysc [systask]) with [systask] by (vm_compute; reflexivity). cbn [lookup list_lookup]. discriminate.
Qed.
Lemma sys_else r0 f : elsewhere (armv7m false) (stack_bounds sysc [systask]) (mkMach (asmregs r0) f).
Proof.
  unfold elsewhere. change (p_kstk (armv7m false)) with ("msp", -36, 0). cbv beta iota. intros j b e a Hj Ha.
  change (reg (mkMach (asmregs r0) f) "msp") with 1000. apply sys_bounds in Hj. lia.
Qed.
Lemma step_ok_2 c s x sp r : is_ok (step c s x) && (res_sp (step c s x) =? sp) && (res_ref (step c s x) =? r) = true ->
  step c s x = Ok (res_core (step c s x), sp, r).
Proof.
  intros H. apply andb_true_iff in H as [H H3]. apply andb_true_iff in H as [H1 H2].
  apply Z.eqb_eq in H2, H3. rewrite <- H2, <- H3. by apply step_ok.
Qed.
Lemma same_mem bs ex m r : same_stacks bs ex m (mkMach r (mem m)).
Proof. intros j b e a _ _ _. reflexivity. Qed.
Lemma same_mem2 m r a : mem (mkMach r (mem m)) a = mem m a.
Proof. reflexivity. Qed.
Lemma sys_prepared : prepared (armv7m false) (stack_bounds sysc [systask]) borns (upd (upd (fun _ => None) 1%nat 4116) 0%nat 8256) mT1.
Proof.
  replace 8256 with (reg (exec hz (p_first (armv7m false)) mT) (p_fret (armv7m false))) by (vm_compute; reflexivity).
  replace 4116 with (reg (exec hz (p_first (armv7m false)) mI) (p_fret (armv7m false))) by (vm_compute; reflexivity).
  unfold mT1, borns.
  apply (pr_task _ _ _ _ mT hz 0%nat 8192 8320); [|vm_compute; reflexivity..|apply sys_else].
  apply (pr_main _ _ _ _ mI1); [|apply same_mem].
  unfold mI1. apply (pr_task _ _ _ _ mI hz 1%nat 4096 4180); [|vm_compute; reflexivity..|apply sys_else].
  apply pr_reset.
Qed.
Lemma sys_run : sysrun armv7m sysc [systask] borns (st sysc [systask] []) [] (st sysc [systask] []) mrun (fun _ => None).
Proof.
  unfold mrun. apply (sr_start armv7m sysc [systask] borns junk (st sysc [systask] [])
      (upd (upd (fun _ => None) 1%nat 4116) 0%nat 8256) mT1 mS hz 4116).
  - exact sys_prepared.
  - apply boot_ok. vm_compute. reflexivity.
  - intros [|[|j]]; [vm_compute; reflexivity|vm_compute; reflexivity|].
    change (initial_sp sysc [systask] (S (S j))) with (rg_sp <$> (order sysc [systask] !! S (S j))).
    replace (order sysc [systask]) with [systask] by (vm_compute; reflexivity). reflexivity.
  - vm_compute. reflexivity.
  - apply same_mem.
  - apply sys_else.
  - vm_compute. reflexivity.
Qed.
Lemma sys_switch : switch armv7m sysc (stack_bounds sysc [systask]) (st sysc [systask] []) mrun (fun _ => None) sev
  (res_core (step sysc (st sysc [systask] []) sev)) (exec hz (p_resume (armv7m false)) ms2) (upd (fun _ => None) 1%nat (false, Tick, mrun)).
Proof.
  exists false, hz, hz, ms2, 8256, 0, 4096, 4180. cbv zeta. cbn [fst snd sev entry_code]. fold ms1.
  split_and!.
  - vm_compute. reflexivity.
  - vm_compute. discriminate.
  - vm_compute. reflexivity.
  - apply step_ok_2. vm_compute. reflexivity.
  - intros j b e a _ _. left. apply same_mem2.
  - vm_compute. reflexivity.
  - apply sys_else.
  - replace (cur (st sysc [systask] [])) with 1%nat by (vm_compute; reflexivity). reflexivity.
  - replace (cur (res_core _)) with 0%nat by (vm_compute; reflexivity). reflexivity.
Qed.
Example C66_case : exists k0 k' m' left',
  wf_config sysc /\ regs_typed [systask] /\ armv7m ∈ families /\ stacks_ok (armv7m false) (stack_bounds sysc [systask]) /\
  sysrun armv7m sysc [systask] borns k0 [] k0 mrun (fun _ => None) /\
  switch armv7m sysc (stack_bounds sysc [systask]) k0 mrun (fun _ => None) sev k' m' left' /\
  cur k' = 0%nat /\ reg m' "pc" = 1111 /\ reg m' "r0" = 2222.
Proof.
  do 4 eexists. split_and!; [| | | |exact sys_run|exact sys_switch|vm_compute; reflexivity..].
  - unfold wf_config. cbn. lia.
  - repeat constructor; cbn; lia.
  - unfold families. set_solver.
  - split.
    + intros j b e Hj. apply sys_bounds in Hj. change (p_min (armv7m false)) with 21. change (p_unit (armv7m false)) with 4. lia.
    + intros i j b e b' e' a Hn Hi Hj. apply sys_bounds in Hi, Hj. lia.
Qed.
