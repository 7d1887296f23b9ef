(** ExSmp.v - a concrete dual-core application used by the examples of PropSmp.v. *)
From Verif Require Import Base SchedModel SchedSpec SmpModel SmpSpec ExSched.

(** Two cores (e200z4 geometry), 4 task slots, the idle stacks at 4096 and 6144. *)
Definition exg : smpcfg :=
  mkSmpCfg exc 2 32 32 (fun i => 4096 + 2048 * Z.of_nat i) (fun i => 4200 + 2048 * Z.of_nat i).

(** A: priority 1, core 0 only.  B: priority 0, core 1 only.  C: priority 2, core 0 only.
    D: priority 3, both cores.  Identifiers: B = 0, A = 1, C = 2, D = 3, idle = 4 and 5. *)
Definition mA := mkReg 8192 64 8300 1 1.
Definition mB := mkReg 12288 64 12400 0 2.
Definition mC := mkReg 16384 64 16500 2 1.
Definition mD := mkReg 20480 64 20600 3 3.
Definition exgs : list reg := [mA; mB; mC; mD].
(** Without D. *)
Definition exgs3 : list reg := [mA; mB; mC].

Definition mspof (pid : nat) : Z := match pid with 5%nat => 6200 | _ => spof pid end.
Definition mev (k : nat) (o : op) (pid : nat) : nat * (op * entry) := (k, (o, mkEntry (mspof pid) 5 7)).

Definition nosmp : smp := mkSmp false false [] 0 0 0 [] [] [].
Definition get_smp (r : res smp) : smp := match r with Ok s => s | _ => nosmp end.
Definition mst (g : smpcfg) (rs : list reg) evs : smp := get_smp (let! s := m_boot g junk rs in m_run g s evs).
Definition mres_s (r : res (smp * Z * Z)) : smp := match r with Ok (s, _, _) => s | _ => nosmp end.
Definition mres_sp (r : res (smp * Z * Z)) : Z := match r with Ok (_, sp, _) => sp | _ => -1 end.
Definition mres_ref (r : res (smp * Z * Z)) : Z := match r with Ok (_, _, x) => x | _ => -1 end.

Lemma mst_reach g rs evs : is_ok (let! s := m_boot g junk rs in m_run g s evs) = true -> m_reachable g rs (mst g rs evs).
Proof.
  unfold mst. destruct (m_boot g junk rs) as [s0| | |] eqn:E; cbn; try done.
  destruct (m_run g s0 evs) as [s1| | |] eqn:E1; cbn; try done.
  intros _. exists junk, s0, evs. split; done.
Qed.
Lemma exg_wf : wf_smp exg.
Proof. unfold wf_smp. cbn. lia. Qed.
Lemma exgs_typed : smp_typed exgs.
Proof. repeat constructor; cbn; lia. Qed.
Lemma exgs3_typed : smp_typed exgs3.
Proof. repeat constructor; cbn; lia. Qed.
Lemma mstep_ok g s x : is_ok (m_step g s x) = true ->
  m_step g s x = Ok (mres_s (m_step g s x), mres_sp (m_step g s x), mres_ref (m_step g s x)).
Proof. destruct (m_step g s x) as [[[a b] d]| | |]; done. Qed.
Lemma mrun_ok g s x : is_ok (m_run g s x) = true -> m_run g s x = Ok (get_smp (m_run g s x)).
Proof. destruct (m_run g s x); done. Qed.
Lemma mboot_ok g rs : is_ok (m_boot g junk rs) = true -> m_boot g junk rs = Ok (mst g rs []).
Proof. unfold mst. destruct (m_boot g junk rs); done. Qed.

Ltac mcase :=
  repeat match goal with
  | |- _ /\ _ => split
  | |- wf_smp exg => exact exg_wf
  | |- smp_typed exgs => exact exgs_typed
  | |- smp_typed exgs3 => exact exgs3_typed
  | |- m_reachable _ _ (mst _ _ _) => apply mst_reach; vm_compute; reflexivity
  | |- m_step _ _ _ = Ok (mres_s _, mres_sp _, mres_ref _) => apply mstep_ok; vm_compute; reflexivity
  | |- m_step _ _ _ = Ok _ => apply mstep_ok; vm_compute; reflexivity
  | |- m_run _ _ _ = Ok _ => apply mrun_ok; vm_compute; reflexivity
  | |- m_boot _ _ _ = Ok _ => apply mboot_ok; vm_compute; reflexivity
  end.

(** Decides that a task is on no core all along a history. *)
Fixpoint never_on (g : smpcfg) (pid : nat) (s : smp) (evs : list (nat * (op * entry))) : bool :=
  forallb (fun k => negb (Nat.eqb (on_core s k) pid)) (seq 0 (m_cores g))
  && match evs with
     | [] => true
     | ev :: evs => match m_step g s ev with Ok (s', _, _) => never_on g pid s' evs | _ => true end
     end.
Lemma never_on_ok g pid evs : forall s, never_on g pid s evs = true -> ~ m_dispatched_in g s evs pid.
Proof.
  induction evs as [|ev evs IH]; intros s H (evs1 & evs2 & s' & k & Hev & Hrun & Hk & Hon);
    cbn [never_on] in H; apply andb_true_iff in H as [H1 H2]; rewrite forallb_forall in H1.
  - symmetry in Hev. apply app_nil in Hev as [-> ->]. cbn in Hrun. injection Hrun as <-.
    specialize (H1 k ltac:(apply in_seq; lia)). rewrite Hon, Nat.eqb_refl in H1. done.
  - destruct evs1 as [|ev1 evs1].
    + cbn in Hrun. injection Hrun as <-.
      specialize (H1 k ltac:(apply in_seq; lia)). rewrite Hon, Nat.eqb_refl in H1. done.
    + cbn [app] in Hev. injection Hev as <- ->. cbn [m_run] in Hrun.
      destruct (m_step g s ev) as [[[s1 ?] ?]| | |]; cbn [rbind fst] in Hrun; try done.
      apply (IH s1 H2). exists evs1, evs2, s', k. done.
Qed.
