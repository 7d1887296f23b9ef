(** ExSched.v - a concrete application used by the examples that accompany the theorems. *)
From Verif Require Import Base SchedModel SchedSpec.

(** A 32-bit port with 4 task slots (the e200z4 geometry: 32-byte lines, 4-byte stack cells). *)
Definition exc : config := mkConfig 4 32 32 32 32 32 2 64 32 4 4096 4200 false.
(** Same, with 8-bit priorities and a 16-bit tick (the avr geometry). *)
Definition exc8 : config := mkConfig 4 16 8 8 16 16 2 64 1 1 4096 4100 false.
(** Same on picoRTOS-lite. *)
Definition exlite : config := mkConfig 4 32 32 32 32 32 2 64 32 4 4096 4200 true.

(** Tasks A (priority 1), B (priority 0), C (priority 1), D (priority 3), in this order. *)
Definition taskA := mkReg 8192 64 8300 1 0.
Definition taskB := mkReg 12288 64 12400 0 0.
Definition taskC := mkReg 16384 64 16500 1 0.
Definition taskD := mkReg 20480 64 20600 3 0.
Definition exrs : list reg := [taskA; taskB; taskC].
Definition exlrs : list reg := [taskA; taskB; taskD].

(** Any stack pointer inside the stack of the given identifier of [exc]/[exrs]. *)
Definition spof (pid : nat) : Z :=
  match pid with O => 12300 | S O => 8200 | S (S O) => 16400 | S (S (S O)) => 20500 | _ => 4100 end.
Definition ev (o : op) (pid : nat) : op * entry := (o, mkEntry (spof pid) 5 7).

(** Uninitialised contents of a stack variable. *)
Definition junk : task := mkTask 1 SLEEP 2 3 4 5 6 7 8 9 10 11 12 13.
Definition nocore : core := mkCore false false 0 0 0 [] [] [].
Definition get_core (r : res core) : core := match r with Ok s => s | _ => nocore end.

(** State after boot and a history; state, resumed sp and ref after one more event. *)
Definition st (c : config) (rs : list reg) evs : core :=
  get_core (let! s := boot c junk rs in run c s evs).
Definition res_sp (r : res (core * Z * Z)) : Z := match r with Ok (_, sp, _) => sp | _ => -1 end.
Definition res_ref (r : res (core * Z * Z)) : Z := match r with Ok (_, _, x) => x | _ => -1 end.
Definition res_core (r : res (core * Z * Z)) : core := match r with Ok (s, _, _) => s | _ => nocore end.

Definition is_ok {A} (r : res A) : bool := match r with Ok _ => true | _ => false end.

Lemma st_reach c rs evs : is_ok (let! s := boot c junk rs in run c s evs) = true ->
  reachable c rs (st c rs evs).
Proof.
  unfold st. destruct (boot c junk rs) as [s0| | |] eqn:E; cbn; try done.
  destruct (run c s0 evs) as [s1| | |] eqn:E1; cbn; try done.
  intros _. exists junk, s0, evs. split; done.
Qed.

Lemma exc_wf : wf_config exc.
Proof. unfold wf_config. cbn. lia. Qed.
Lemma exc8_wf : wf_config exc8.
Proof. unfold wf_config. cbn. lia. Qed.
Lemma exlite_wf : wf_config exlite.
Proof. unfold wf_config. cbn. lia. Qed.
Lemma exrs_typed : regs_typed exrs.
Proof. repeat constructor; cbn; lia. Qed.
Lemma exlrs_typed : regs_typed exlrs.
Proof. repeat constructor; cbn; lia. Qed.

Lemma step_ok c s x : is_ok (step c s x) = true ->
  step c s x = Ok (res_core (step c s x), res_sp (step c s x), res_ref (step c s x)).
Proof. destruct (step c s x) as [[[a b] d]| | |]; done. Qed.
Lemma run_ok c s x : is_ok (run c s x) = true -> run c s x = Ok (get_core (run c s x)).
Proof. destruct (run c s x); done. Qed.
Lemma boot_ok c rs : is_ok (boot c junk rs) = true -> boot c junk rs = Ok (st c rs []).
Proof. unfold st. destruct (boot c junk rs); done. Qed.

(** Closes the hypotheses of a theorem on a concrete case. *)
Ltac excase :=
  repeat match goal with
  | |- _ /\ _ => split
  | |- wf_config exc => exact exc_wf
  | |- wf_config exc8 => exact exc8_wf
  | |- wf_config exlite => exact exlite_wf
  | |- regs_typed exrs => exact exrs_typed
  | |- regs_typed exlrs => exact exlrs_typed
  | |- reachable _ _ (st _ _ _) => apply st_reach; vm_compute; reflexivity
  | |- step _ _ _ = Ok (res_core _, res_sp _, res_ref _) => apply step_ok; vm_compute; reflexivity
  | |- run _ _ _ = Ok (get_core _) => apply run_ok; vm_compute; reflexivity
  | |- boot _ _ _ = Ok (st _ _ []) => apply boot_ok; vm_compute; reflexivity
  | |- tick_free _ => repeat constructor
  | |- postpone_free _ => repeat constructor
  end.
Ltac vmr := solve [vm_compute; reflexivity | vm_compute; discriminate].
