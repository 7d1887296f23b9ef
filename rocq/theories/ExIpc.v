(** ExIpc.v - concrete systems used by the examples of PropLock.v, PropCond.v and PropQueue.v, and
    boolean checks of the hypotheses of the theorems. *)
From Verif Require Import Base IpcModel IpcSpec IpcLogic MutexProofs CondOwn.
From Coq Require Import ZifyBool ZifyNat.

(** 32-bit atomics and sizes, CONFIG_DEADLOCK_COUNT = 3, 8 tasks; every queue has 4 elements whose
    initial content is 99. *)
Definition exi : icfg := mkIcfg 32 32 3 8 60.
Definition exM : mem := mem0 exi (fun _ => 4) (fun _ _ => 99).
Definition exrun (evs : list sev) : res sys := sys_run exi (sys0 exM) evs.
Definition exst (evs : list sev) : sys := match exrun evs with Ok s => s | _ => sys0 exM end.
Definition okb {A} (r : res A) : bool := match r with Ok _ => true | _ => false end.
Definition gos (i n : nat) : list sev := replicate n (Go i).

Lemma exi_wf : wf_icfg exi.
Proof. split; done. Qed.
Lemma exM_ready : ready_mem exi exM.
Proof. by eexists _, _. Qed.
Lemma exst_run evs : okb (exrun evs) = true -> sys_run exi (sys0 exM) evs = Ok (exst evs).
Proof. unfold exst, exrun. by destruct (sys_run exi (sys0 exM) evs). Qed.
Lemma exst_reach evs : okb (exrun evs) = true -> reach exi exM (exst evs).
Proof. intros H. exists evs. by apply exst_run. Qed.

(** [P] holds of every event of [h] and what came before it. *)
Fixpoint all_at (P : list hev -> hev -> bool) (pre h : list hev) : bool :=
  match h with
  | [] => true
  | e :: h => P pre e && all_at P (pre ++ [e]) h
  end.
Lemma all_at_spec P h : forall pre, all_at P pre h = true ->
  forall h1 e h2, h = h1 ++ e :: h2 -> P (pre ++ h1) e = true.
Proof.
  induction h as [|x h IH]; intros pre; cbn.
  - intros _ h1 e h2 E. by destruct h1.
  - intros H h1 e h2 E. apply andb_prop in H as [H1 H2]. destruct h1 as [|y h1]; injection E as -> ->.
    + by rewrite app_nil_r.
    + specialize (IH _ H2 h1 e h2 eq_refl). by rewrite <- app_assoc in IH.
Qed.

Lemma pids_ok_b g h :
  all_at (fun _ e => match e with HCall i _ => Z.of_nat i <? 2 ^ ic_abits g - 1 | _ => true end) [] h = true ->
  pids_ok g h.
Proof.
  intros H i c Hin. apply elem_of_list_split in Hin as (h1 & h2 & E).
  pose proof (all_at_spec _ _ _ H _ _ _ E) as X. cbn in X. lia.
Qed.

Lemma mdelta_le m i e : mdelta m i e <= 1.
Proof. destruct e as [j []|j [] r v]; cbn; repeat case_bool_decide; try lia; destruct (r =? 0); cbn; lia. Qed.
Lemma mheld_len m i h : mheld m i h <= Z.of_nat (length h).
Proof.
  induction h as [|e h IH]; [done|]. change (e :: h) with ([e] ++ h). rewrite mheld_app.
  unfold mheld at 1. cbn [foldr app length]. pose proof (mdelta_le m i e). lia.
Qed.
Lemma depth_ok_b g m h : Z.of_nat (length h) <? 2 ^ ic_szbits g = true -> depth_ok g m h.
Proof.
  intros H h' i [z ->]. rewrite app_length in H. pose proof (mheld_len m i h'). lia.
Qed.

Lemma cond_disc_b c m h :
  all_at (fun pre e => match e with
    | HCall i (CondWait c' m') => negb (bool_decide (c' = c)) || (bool_decide (m' = m) && (mheld m i pre =? 1))
    | _ => true end) [] h = true ->
  cond_discipline c m h.
Proof.
  intros H h1 i m' h2 E. pose proof (all_at_spec _ _ _ H _ _ _ E) as X. cbn in X.
  rewrite bool_decide_eq_true_2 in X by done. cbn in X. apply andb_prop in X as [X1 X2].
  apply bool_decide_eq_true in X1. split; [done|]. by apply Z.eqb_eq in X2.
Qed.
Lemma futex_disc_b f h :
  all_at (fun pre e => match e with
    | HCall i (FutexUnlock f') => negb (bool_decide (f' = f)) || (0 <? fheld f i pre)
    | _ => true end) [] h = true ->
  futex_discipline f h.
Proof.
  intros H h1 i h2 E. pose proof (all_at_spec _ _ _ H _ _ _ E) as X. cbn in X.
  rewrite bool_decide_eq_true_2 in X by done. cbn in X. by apply Z.ltb_lt in X.
Qed.
Lemma serial_b q h :
  all_at (fun pre e => match e with HCall i c => negb (on_queue q c) || (qpend q pre =? 0) | _ => true end) [] h = true ->
  queue_serial q h.
Proof.
  intros H h1 i c h2 E Hc. pose proof (all_at_spec _ _ _ H _ _ _ E) as X. cbn in X. rewrite Hc in X. cbn in X. by apply Z.eqb_eq in X.
Qed.

(** Task [i] is not one of those that entered a call. *)
Definition enters (i : nat) (evs : list sev) : bool :=
  existsb (fun e => match e with Enter j _ => bool_decide (j = i) | _ => false end) evs.
Lemma exst_out evs i : okb (exrun evs) = true -> enters i evs = false -> y_thr (exst evs) i = Out.
Proof.
  intros H He. eapply out_fresh; [by apply exst_run|]. intros c X.
  assert (enters i evs = true); [|congruence]. unfold enters. apply existsb_exists.
  exists (Enter i c). split; [by apply elem_of_list_In|]. by apply bool_decide_eq_true_2.
Qed.
Definition max_task (evs : list sev) : nat :=
  foldr (fun e n => match e with Enter i _ => Nat.max (S i) n | _ => n end) 0%nat evs.
Lemma enters_max evs i : (max_task evs <= i)%nat -> enters i evs = false.
Proof.
  induction evs as [|e evs IH]; cbn [max_task foldr enters existsb]; [done|]. intros H.
  fold (max_task evs) in H. destruct e as [j c|j]; [|by apply IH].
  apply orb_false_intro; [apply bool_decide_eq_false_2|apply IH]; lia.
Qed.
Lemma exst_out_max evs i : okb (exrun evs) = true -> (max_task evs <= i)%nat -> y_thr (exst evs) i = Out.
Proof. intros H1 H2. apply exst_out; [done|]. by apply enters_max. Qed.

Global Instance call_eq_dec : EqDecision call.
Proof. solve_decision. Defined.
Lemma in_call_b s i c :
  match y_thr s i with In c' _ => bool_decide (c' = c) | Out => false end = true -> in_call s i c.
Proof.
  destruct (y_thr s i) as [|c' p] eqn:E; [done|]. intros H. apply bool_decide_eq_true in H as ->. by exists p.
Qed.
Lemma sleep_b s i :
  match y_thr s i with In _ (Op (MSleep _) _) => true | _ => false end = true -> about_to_sleep s i.
Proof.
  destruct (y_thr s i) as [|c' [| | |[] k]] eqn:E; try done. intros _. by eexists _, _, _.
Qed.
Lemma write_b s i :
  match y_thr s i with In _ (Op (MWrite _ _) _) => true | _ => false end = true -> about_to_write s i.
Proof.
  destruct (y_thr s i) as [|c' [| | |[] k]] eqn:E; try done. intros _. exists c', k. left. by eexists _, _.
Qed.
Lemma out_b s i : match y_thr s i with Out => true | _ => false end = true -> y_thr s i = Out.
Proof. by destruct (y_thr s i). Qed.
(** Everyone but those of [l] is quiet: tasks below [max_task evs] are checked one by one. *)
Definition mquiet_b (m : nat) (s : sys) (j : nat) : bool :=
  (mheld m j (y_hist s) =? 0) &&
  match y_thr s j with Out => true | In _ (Op (MSleep _) _) => true | In c _ => negb (on_mutex m c) end.
Lemma mquiet_b_spec m s j : mquiet_b m s j = true -> mquiet m s j.
Proof.
  unfold mquiet_b, mquiet. intros H. apply andb_prop in H as [H1 H2]. apply Z.eqb_eq in H1. split; [done|].
  destruct (y_thr s j) as [|c p] eqn:E; [by left|]. right.
  destruct (on_mutex m c) eqn:Ec; [|right; by exists c, p].
  left. destruct p as [| | |[] k]; try done. by eexists _, _, _.
Qed.
Lemma mheld_nobody m i h : forallb (fun e => negb (bool_decide (ev_task e = i))) h = true -> mheld m i h = 0.
Proof.
  induction h as [|e h IH]; cbn [forallb]; [done|]. intros H. apply andb_prop in H as [H1 H2].
  change (e :: h) with ([e] ++ h). rewrite mheld_app, IH by done. unfold mheld. cbn [foldr].
  rewrite mdelta_other; [lia|]. apply negb_true_iff, bool_decide_eq_false in H1. congruence.
Qed.
Definition ev_max (h : list hev) : nat := foldr (fun e n => Nat.max (S (ev_task e)) n) 0%nat h.
Lemma ev_max_held m i h : (ev_max h <= i)%nat -> mheld m i h = 0.
Proof.
  intros H. apply mheld_nobody. induction h as [|e h IH]; cbn [forallb ev_max foldr] in *; [done|].
  fold (ev_max h) in H. apply andb_true_intro. split; [apply negb_true_iff, bool_decide_eq_false_2|apply IH]; lia.
Qed.
Lemma mquiet_all m evs k :
  okb (exrun evs) = true ->
  forallb (fun j => bool_decide (j = k) || mquiet_b m (exst evs) j) (seq 0 (Nat.max (max_task evs) (ev_max (y_hist (exst evs))))) = true ->
  forall j, j <> k -> mquiet m (exst evs) j.
Proof.
  intros H1 H2 j Hj.
  destruct (decide (j < Nat.max (max_task evs) (ev_max (y_hist (exst evs))))%nat) as [Hl|Hl].
  - rewrite forallb_forall in H2. specialize (H2 j). apply orb_prop in H2 as [H2|H2].
    + by apply bool_decide_eq_true in H2.
    + by apply mquiet_b_spec.
    + apply in_seq. lia.
  - split; [apply ev_max_held; lia|]. left. apply exst_out_max; [done|lia].
Qed.

Ltac ipc := repeat match goal with
  | |- _ /\ _ => split
  | |- ready_mem _ _ => exact exM_ready
  | |- wf_icfg _ => exact exi_wf
  | |- reach _ _ (exst _) => apply exst_reach; vm_compute; reflexivity
  | |- pids_ok _ _ => apply pids_ok_b; vm_compute; reflexivity
  | |- depth_ok _ _ _ => apply depth_ok_b; vm_compute; reflexivity
  | |- cond_discipline _ _ _ => apply cond_disc_b; vm_compute; reflexivity
  | |- futex_discipline _ _ => apply futex_disc_b; vm_compute; reflexivity
  | |- queue_serial _ _ => apply serial_b; vm_compute; reflexivity
  | |- (_ < _)%Z => vm_compute; reflexivity
  | |- (_ <= _)%Z => vm_compute; discriminate
  | |- in_call _ _ _ => apply in_call_b; vm_compute; reflexivity
  | |- about_to_sleep _ _ => apply sleep_b; vm_compute; reflexivity
  | |- about_to_write _ _ => apply write_b; vm_compute; reflexivity
  | |- y_thr _ _ = Out => apply out_b; vm_compute; reflexivity
  | |- forall j, j <> _ -> mquiet _ (exst _) j => apply mquiet_all; vm_compute; reflexivity
  | |- _ = _ => vm_compute; reflexivity
  end.
