(** CondWake.v - what a broadcast and a signal guarantee to the tasks waiting when they are sent. *)
From Verif Require Import Base IpcModel IpcSpec IpcLogic IpcAvoid MutexProofs MutexThms CondSilent CondSignal CondLogic CondThms.
From Coq Require Import ZifyBool ZifyNat.

(** ** Programs of the tasks of a reachable state *)

Lemma trace_snoc {A} (p : prog A) tr o k v : trace p tr (Op o k) -> trace p (tr ++ [(o, v)]) (k v).
Proof.
  intros H. remember (Op o k) as q eqn:Eq. induction H; subst; cbn; constructor; [constructor|auto].
Qed.

Lemma trace_act {A} o (f : Z -> prog A) tr q :
  trace (pbind (act o) f) tr q ->
  (tr = [] /\ q = Op o f) \/ exists v tr', tr = (o, v) :: tr' /\ trace (f v) tr' q.
Proof.
  unfold act. cbn [pbind]. intros H. inversion H as [|? ? v tr' q' H']; subst; [by left|]. right. by exists v, tr'.
Qed.

Lemma step_trace g s e s' i cl p n :
  sys_step g s e = Ok s' ->
  (forall cl p, y_thr s i = In cl p -> exists tr, trace (body g i cl) tr p /\ (length tr <= n)%nat) ->
  y_thr s' i = In cl p -> exists tr, trace (body g i cl) tr p /\ (length tr <= S n)%nat.
Proof.
  intros Hs HI Hp.
  assert (Hold : y_thr s i = In cl p -> exists tr, trace (body g i cl) tr p /\ (length tr <= S n)%nat).
  { intros E. destruct (HI _ _ E) as (tr & ? & ?). exists tr. split; [done|lia]. }
  destruct e as [j c|j]; cbn [sys_step] in Hs.
  - destruct (y_thr s j) eqn:Ej; injection Hs as <-; [|auto]. cbn in Hp. unfold tupd in Hp.
    destruct (decide (i = j)) as [->|]; [|auto]. injection Hp as <- <-. exists []. split; [constructor|cbn; lia].
  - destruct (y_thr s j) as [|c [[r v]| | |o k]] eqn:Ej; try done; try (injection Hs as <-; auto; fail).
    + injection Hs as <-. cbn in Hp. unfold tupd in Hp. destruct (decide (i = j)) as [->|]; [done|auto].
    + destruct (exec o (y_mem s)) as [M v]. injection Hs as <-. cbn in Hp. unfold tupd in Hp.
      destruct (decide (i = j)) as [->|]; [|auto]. injection Hp as <- <-.
      destruct (HI _ _ Ej) as (tr & Ht & Hl). exists (tr ++ [(o, v)]). split; [by apply trace_snoc|].
      rewrite app_length. cbn. lia.
Qed.

Lemma run_trace g s evs s' i n :
  sys_run g s evs = Ok s' ->
  (forall cl p, y_thr s i = In cl p -> exists tr, trace (body g i cl) tr p /\ (length tr <= n)%nat) ->
  forall cl p, y_thr s' i = In cl p -> exists tr, trace (body g i cl) tr p /\ (length tr <= n + length evs)%nat.
Proof.
  revert s n. induction evs as [|e evs IH]; intros s n; cbn [sys_run].
  - intros [= <-] H cl p Hp. destruct (H _ _ Hp) as (tr & ? & ?). exists tr. split; [done|lia].
  - destruct (sys_step g s e) as [s1| | |] eqn:E; cbn [rbind]; try done.
    intros Hr H cl p Hp. cbn [length]. rewrite Nat.add_succ_r. change (S (n + length evs))%nat with (S n + length evs)%nat.
    eapply IH; [done| |done]. intros cl' p' Hp'. by eapply step_trace.
Qed.

Lemma reach_trace g M evs s i cl p :
  sys_run g (sys0 M) evs = Ok s -> y_thr s i = In cl p ->
  exists tr, trace (body g i cl) tr p /\ (length tr <= length evs)%nat.
Proof. intros Hr Hp. by eapply (run_trace g (sys0 M) evs s i 0) in Hr. Qed.

(** A task stays in its call until it returns. *)
Lemma in_call_run g s evs s' i cl h1 :
  sys_run g s evs = Ok s' -> in_call s i cl -> y_hist s' = y_hist s ++ h1 -> no_return i h1 -> in_call s' i cl.
Proof.
  revert s h1. induction evs as [|e evs IH]; intros s h1; cbn [sys_run].
  - by intros [= <-].
  - destruct (sys_step g s e) as [s1| | |] eqn:E; cbn [rbind]; try done.
    intros Hr [p Hp] Hh Hn. pose proof (sys_step_hist _ _ _ _ E) as [ha Ha].
    pose proof (sys_run_hist _ _ _ _ Hr) as [hb Hb].
    assert (h1 = ha ++ hb) as ->. { rewrite Hb, Ha, <- app_assoc in Hh. by apply app_inv_head in Hh. }
    eapply IH; [done| |exact Hb|].
    2:{ intros c r v X. apply (Hn c r v). apply elem_of_app. by right. }
    destruct e as [j c|j]; cbn [sys_step] in E.
    + destruct (y_thr s j) eqn:Ej; injection E as <-; [|by exists p]. exists p. cbn. unfold tupd.
      rewrite decide_False; [done|]. intros ->. congruence.
    + destruct (y_thr s j) as [|c [[r v]| | |o k]] eqn:Ej; try done; try (injection E as <-; by exists p).
      * injection E as <-. cbn in Ha. apply app_inv_head in Ha as <-.
        destruct (decide (i = j)) as [->|Hij].
        { exfalso. apply (Hn c r v). apply elem_of_app. left. by apply elem_of_list_singleton. }
        exists p. cbn. unfold tupd. by rewrite decide_False.
      * destruct (exec o (y_mem s)) as [M v]. injection E as <-. cbn.
        destruct (decide (i = j)) as [->|Hij].
        -- rewrite Ej in Hp. injection Hp as <- <-. exists (k v). cbn. unfold tupd. by destruct (decide (j = j)).
        -- exists p. cbn. unfold tupd. by rewrite decide_False.
Qed.

Section wake.
  Context (g : icfg) (c m : nat).
  Hypothesis Hwf : wf_icfg g.
  Hypothesis Htasks : ic_tasks g < 2 ^ ic_szbits g.

  (** ** Where picoRTOS_cond_wait sleeps *)

  Lemma trylock_nosleep pid tr o k : trace (mutex_trylock g pid m) tr (Op o k) -> forall n, o <> MSleep n.
  Proof.
    unfold mutex_trylock. cbn. intros H. inversion H as [|o' k' v tr1 q H1]; subst; [done|]. clear H.
    destruct (v =? nobody g) eqn:E; cbn in H1.
    - inversion H1 as [|? ? v1 tr2 q H2]; subst; [done|]. cbn in H2.
      inversion H2 as [|? ? v2 tr3 q H3]; subst; [done|]. inversion H3.
    - inversion H1 as [|? ? v1 tr2 q H2]; subst; [done|]. cbn in H2.
      destruct (v1 =? pid) eqn:E1; cbn in H2; [|inversion H2].
      inversion H2 as [|? ? v2 tr3 q H3]; subst; [done|]. cbn in H3.
      inversion H3 as [|? ? v3 tr4 q H4]; subst; [done|]. inversion H4.
  Qed.

  Lemma unlock_nosleep pid tr o k : trace (mutex_unlock g pid m) tr (Op o k) -> forall n, o <> MSleep n.
  Proof.
    unfold mutex_unlock. cbn. intros H.
    inversion H as [|? ? v tr1 q H1]; subst; [done|]. clear H. destruct (v =? pid); cbn in H1; [|inversion H1].
    inversion H1 as [|? ? v1 tr2 q H2]; subst; [done|]. destruct (v1 >? 0); cbn in H2; [|inversion H2].
    inversion H2 as [|? ? v2 tr3 q H3]; subst; [done|]. cbn in H3.
    inversion H3 as [|? ? v3 tr4 q H4]; subst; [done|]. destruct (_ =? 0); cbn in H4; [|inversion H4].
    inversion H4 as [|? ? v4 tr5 q H5]; subst; [done|]. inversion H5.
  Qed.

  Lemma lock_sleep pid loop tr n k :
    trace (mutex_lock_loop g loop pid m) tr (Op (MSleep n) k) ->
    exists loop', forall v, k v = mutex_lock_loop g loop' pid m.
  Proof.
    revert tr. induction loop as [|loop IH]; intros tr H; cbn [mutex_lock_loop] in H;
      apply trace_bind in H as [(p' & H1 & E)|(a & t1 & t2 & H1 & H2 & ->)].
    - destruct p' as [r| | |o k']; cbn [pbind] in E; try done.
      + destruct (r =? 0); done.
      + injection E as <- _. by apply trylock_nosleep with (n := n) in H1.
    - destruct (a =? 0); inversion H2.
    - destruct p' as [r| | |o k']; cbn [pbind] in E; try done.
      + destruct (r =? 0); [done|]. cbn in E. injection E as -> ->. exists loop. done.
      + injection E as <- _. by apply trylock_nosleep with (n := n) in H1.
    - destruct (a =? 0); [inversion H2|]. cbn in H2. inversion H2 as [|? ? v t3 q H3]; subst.
      + exists loop. done.
      + by eapply IH.
  Qed.

  Lemma loop_sleep pid fuel tr n k :
    trace (cond_loop g fuel pid c m) tr (Op (MSleep n) k) ->
    exists loop f, (fuel <= f + length tr)%nat /\
      forall v, k v = pbind (mutex_lock_loop g loop pid m) (fun _ => cond_loop g f pid c m).
  Proof.
    revert tr. induction fuel as [|f IH]; intros tr H; cbn [cond_loop] in H; [inversion H|].
    apply trace_act in H as [[_ H]|(a & t0 & -> & H0)]; [done|]. cbn [length].
    destruct (a =? C_NONE); cbn [negb] in H0; [|inversion H0].
    apply trace_bind in H0 as [(p' & H1 & E)|(r & t1 & t2 & H1 & H2 & ->)].
    { destruct p' as [r| | |o k']; cbn [pbind] in E; try done.
      - cbn in E. injection E as -> ->. exists (ic_deadlock g), f. split; [lia|done].
      - injection E as <- _. by apply unlock_nosleep with (n := n) in H1. }
    unfold schedule in H2. apply trace_act in H2 as [[-> H2]|(v & t3 & -> & H3)].
    { injection H2 as -> ->. exists (ic_deadlock g), f. split; [lia|done]. }
    apply trace_bind in H3 as [(p' & H3 & E)|(r2 & t4 & t5 & H3 & H4 & ->)].
    - destruct p' as [r'| | |o k']; cbn [pbind] in E; try done.
      + destruct (mutex_lock_trace g pid m (ic_deadlock g) t3 (Ret r') H3) as (_ & _ & _).
        destruct f as [|f']; cbn in E; done.
      + injection E as <- ->. destruct (lock_sleep _ _ _ _ _ H3) as [loop' Hl].
        exists loop', f. split; [lia|]. intros v'. by rewrite Hl.
    - destruct (IH _ H4) as (loop' & f' & Hf & Hk). exists loop', f'. split; [|done].
      rewrite !app_length. cbn [length]. rewrite app_length. lia.
  Qed.

  Lemma wait_sleep pid tr n k :
    trace (pair0 (cond_wait g pid c m)) tr (Op (MSleep n) k) ->
    exists loop f, (ic_fuel g <= f + length tr)%nat /\
      forall v, k v = pbind (pbind (pbind (mutex_lock_loop g loop pid m) (fun _ => cond_loop g f pid c m))
        (fun _ => cond_reset g c)) (fun r => Ret (r, 0)).
  Proof.
    unfold pair0. intros H.
    apply trace_bind in H as [(p' & H & E)|(r2 & t4 & t5 & H3 & H4 & ->)]; [|inversion H4].
    unfold cond_wait in H. destruct p' as [r'| | |o' k']; try done. cbn [pbind] in E. injection E as <- ->.
    apply trace_act in H as [[_ H]|(a & t0 & -> & H0)]; [done|].
    unfold passert in H0. destruct (a <? ic_tasks g); [|inversion H0].
    apply trace_act in H0 as [[_ H]|(b & t1 & -> & H1)]; [done|].
    apply trace_act in H1 as [[_ H]|(d & t2 & -> & H2)]; [done|]. cbn [length].
    apply trace_bind in H2 as [(p2 & H3 & E)|(r2 & t4 & t5 & H3 & H4 & ->)].
    - destruct p2 as [r'| | |o2 k2]; try done. cbn [pbind] in E. injection E as <- ->.
      destruct (loop_sleep _ _ _ _ _ H3) as (loop' & f' & Hf & Hk).
      exists loop', f'. split; [lia|]. intros v. by rewrite Hk.
    - exfalso. unfold cond_reset in H4. cbn in H4.
      inversion H4 as [|? ? x1 t6 q H5]; subst. inversion H5 as [|? ? x2 t7 q H6]; subst.
      destruct (_ =? 0); cbn in H6.
      + inversion H6 as [|? ? x3 t8 q H7]; subst. inversion H7.
      + inversion H6 as [|? ? x3 t8 q H7]; subst. destruct (x3 =? _); cbn in H7; [|inversion H7].
        inversion H7 as [|? ? x4 t9 q H8]; subst. inversion H8.
  Qed.

  (** ** With the mutex free and the condition raised, a sleeping waiter returns. *)
  Lemma runs_wake M loop f pid :
    M (LOwner m) = nobody g -> M (LAct c) <> 0 ->
    exists M' n, runs M (pbind (pbind (pbind (mutex_lock_loop g loop pid m) (fun _ => cond_loop g (S f) pid c m))
        (fun _ => cond_reset g c)) (fun r => Ret (r, 0))) M' (0, 0) n.
  Proof.
    intros Ho Ha.
    assert (exists M1, runs M (mutex_trylock g pid m) M1 0 3 /\ M1 (LAct c) = M (LAct c)) as (M1 & R1 & E1).
    { eexists. split.
      - unfold mutex_trylock. apply runs_act. cbn [exec fst snd]. rewrite Ho, Z.eqb_refl. cbn [pbind].
        apply runs_act. apply runs_act. constructor.
      - cbn [exec fst snd]. by rewrite !upd_other. }
    assert (R2 : runs M (mutex_lock_loop g loop pid m) M1 0 3).
    { destruct loop; cbn [mutex_lock_loop]; (eapply (runs_bind _ _ _ _ _ 3 _ _ 0); [exact R1|]); cbn; constructor. }
    assert (R3 : runs M1 (cond_loop g (S f) pid c m) M1 0 1).
    { cbn [cond_loop]. apply runs_act. cbn [exec fst snd]. rewrite E1. unfold C_NONE.
      rewrite (proj2 (Z.eqb_neq _ _)) by done. cbn [negb]. constructor. }
    assert (R4 : exists M' n, runs M1 (cond_reset g c) M' 0 n).
    { unfold cond_reset.
      destruct (wrap (ic_szbits g) (M1 (LWait c) - 1) =? 0) eqn:Ez.
      - eexists _, _. apply runs_act. cbn [exec fst snd]. cbv zeta. rewrite Ez. apply runs_act. apply runs_act. constructor.
      - destruct (M (LAct c) =? C_SIGNAL) eqn:Es.
        + eexists _, _. apply runs_act. cbn [exec fst snd]. cbv zeta. rewrite Ez. apply runs_act. apply runs_act.
          cbn [exec fst snd]. rewrite upd_other by done. rewrite E1, Es. apply runs_act. constructor.
        + eexists _, _. apply runs_act. cbn [exec fst snd]. cbv zeta. rewrite Ez. apply runs_act. apply runs_act.
          cbn [exec fst snd]. rewrite upd_other by done. rewrite E1, Es. constructor. }
    destruct R4 as (M' & n & R4). eexists M', _.
    eapply runs_bind; [|constructor]. eapply runs_bind; [|exact R4]. eapply runs_bind; [exact R2|exact R3].
  Qed.

  Lemma tuniq (s : sys) tks j x :
    bbase g c m tks (y_mem s) (y_hist s) -> b_own (tks j) <> None -> b_own (tks x) <> None -> x = j.
  Proof. intros Hb Hj Hx. eapply bown_unique; [exact Hb|done|done]. Qed.

  Lemma waits_true m' : waits c (CondWait c m') = true.
  Proof. cbn. by apply bool_decide_eq_true_2. Qed.

  (** A task that does not hold the mutex and is not in the middle of an operation has no token. *)
  Lemma bquiet s tks j :
    MInv g m s -> bbase g c m tks (y_mem s) (y_hist s) -> mquiet m s j -> b_own (tks j) = None.
  Proof.
    intros HM (Hm & _) Hq. destruct (inv_tokens g m s HM) as (tk & Hc & Ht).
    pose proof (quiet_token g m s j (tk j) (Ht j) Hq) as E.
    destruct Hm as (ow & H1 & H2 & H3 & H4). destruct Hc as (ow' & H1' & H2' & H3' & H4').
    cbv beta in *. rewrite H4. rewrite H4' in E. destruct (decide (ow = Some j)) as [D|D]; [|done]. subst ow. exfalso.
    rewrite H1 in H1'. destruct ow' as [k|]; cbn [enc] in H1'; [|specialize (H3 j eq_refl); lia].
    assert (k = j) by lia. subst. by rewrite decide_True in E.
  Qed.

  (** A task that is asleep in a wait returns as soon as it runs alone with the condition raised. *)
  Lemma wake_alone md M evs s w :
    ready_mem g M -> sys_run g (sys0 M) evs = Ok s -> (length evs < ic_fuel g)%nat ->
    pids_ok g (y_hist s) -> depth_ok g m (y_hist s) -> BInv g c m md s ->
    in_call s w (CondWait c m) -> about_to_sleep s w ->
    (forall j, j <> w -> mquiet m s j) ->
    y_mem s (LAct c) <> 0 ->
    exists n s', sys_run g s (replicate n (Go w)) = Ok s' /\
      y_hist s' = y_hist s ++ [HRet w (CondWait c m) 0 0].
  Proof.
    intros Hrm Hr Hfuel Hp Hd (tks & [Hb _] & Ht) [p Hin] (cl & n & k & Hsl) Hq Ha.
    assert (HM : MInv g m s) by (eapply (MInv_reach g m); [done|exact Hrm|by eexists|done|done]).
    rewrite Hin in Hsl. injection Hsl as <- ->.
    destruct (reach_trace _ _ _ _ _ _ _ Hr Hin) as (tr & Htr & Hlen). cbn [body] in Htr.
    destruct (wait_sleep _ _ _ _ Htr) as (loop & f & Hf & Hk).
    destruct f as [|f]; [lia|].
    assert (Hw : b_own (tks w) = None).
    { specialize (Ht w). rewrite Hin in Ht. cbn [thr_ok wp] in Ht. destruct Ht as (_ & Ht & _).
      apply (Ht (ex_intro _ n eq_refl)). apply waits_true. }
    assert (Hown : y_mem s (LOwner m) = nobody g).
    { pose proof Hb as ((ow & H1 & H2 & H3 & H4) & _). rewrite H1. destruct ow as [j|]; [|done]. exfalso.
      destruct (decide (j = w)) as [->|Hj].
      - by rewrite H4, decide_True in Hw.
      - pose proof (bquiet s tks j HM Hb (Hq j Hj)) as E. by rewrite H4, decide_True in E. }
    destruct (runs_wake (y_mem s) loop f (Z.of_nat w) Hown Ha) as (M' & n' & R).
    rewrite <- (Hk 0) in R.
    destruct (runs_go g s w (CondWait c m) (Op (MSleep n) k) M' 0 0 (S n') Hin) as (s' & Hs' & _ & Hh' & _).
    - constructor. cbn. exact R.
    - eauto.
  Qed.

  (** The write of a signal or of a broadcast. *)
  Lemma send_step s0 b s cl v :
    (cl = CondSignal c /\ v = 1) \/ (cl = CondBroadcast c /\ v = 2) ->
    (exists M evs, sys_run g (sys0 M) evs = Ok s0) ->
    in_call s0 b cl -> about_to_write s0 b -> sys_step g s0 (Go b) = Ok s ->
    s = mkSys (upd (y_mem s0) (LAct c) v) (tupd (y_thr s0) b (In cl (Ret (0, 0)))) (y_hist s0).
  Proof.
    intros Hcl (M & evs & Hr) [p Hp] Hw Hs. destruct (reach_trace _ _ _ _ _ _ _ Hr Hp) as (tr & Htr & _).
    assert (E : p = Op (MWrite (LAct c) v) (fun _ => Ret (0, 0)) \/ p = Ret (0, 0)).
    { destruct Hcl as [[-> ->]|[-> ->]]; cbn in Htr;
        (inversion Htr as [|? ? x t q H]; subst; [by left|]; inversion H; subst; by right). }
    destruct E as [->| ->].
    - cbn [sys_step] in Hs. rewrite Hp in Hs. cbn in Hs. by injection Hs as <-.
    - exfalso. destruct Hw as (cl' & k & [(l & x & E)|[(l & E)|(l & x & y & E)]]); congruence.
  Qed.

  Lemma BInv_reach M s :
    ready_mem g M -> reach g M s -> pids_ok g (y_hist s) -> depth_ok g m (y_hist s) ->
    cond_discipline c m (y_hist s) -> BInv g c m MA s.
  Proof.
    intros HM [evs Hr] Hp Hd Hc. eapply BInv_run; [done|done|by apply BInv_init|exact Hr|done|done|done|done].
  Qed.

  Lemma prefix_pids h h' : h `prefix_of` h' -> pids_ok g h' -> pids_ok g h.
  Proof. intros [z ->] H i cl Hi. apply (H i cl). apply elem_of_app. by left. Qed.
  Lemma prefix_depth h h' : h `prefix_of` h' -> depth_ok g m h' -> depth_ok g m h.
  Proof. intros Hpre H h'' i Hp. apply H. by etrans. Qed.
  Lemma prefix_disc h h' : h `prefix_of` h' -> cond_discipline c m h' -> cond_discipline c m h.
  Proof. intros [z ->] H h1 i m' h2 ->. apply (H h1 i m' (h2 ++ z)). by rewrite <- app_assoc. Qed.

  (** The holder of the mutex has its token. *)
  Lemma bheld s tks b :
    MInv g m s -> bbase g c m tks (y_mem s) (y_hist s) -> 0 < mheld m b (y_hist s) -> b_own (tks b) <> None.
  Proof.
    intros HM (Hm & _) Hh. destruct (inv_tokens g m s HM) as (tk & Hc & Ht).
    pose proof (held_token g m s b (tk b) (Ht b) Hh) as E.
    destruct Hm as (ow & H1 & H2 & H3 & H4). destruct Hc as (ow' & H1' & H2' & H3' & H4').
    cbv beta in *. rewrite H4. rewrite H4' in E. destruct (decide (ow' = Some b)) as [D|D]; [|done]. subst ow'.
    rewrite H1 in H1'. destruct ow as [k|]; cbn [enc] in H1'; [|specialize (H3' b eq_refl); lia].
    assert (k = b) by lia. subst. by rewrite decide_True.
  Qed.

  Section sent.
    Context (M : mem) (s0 s s' : sys) (b w : nat) (evs0 evs : list sev) (h1 : list hev).
    Hypothesis Hrm : ready_mem g M.
    Hypothesis Hr0 : sys_run g (sys0 M) evs0 = Ok s0.
    Hypothesis Hbw : about_to_write s0 b.
    Hypothesis Hbh : 0 < mheld m b (y_hist s0).
    Hypothesis Hst : sys_step g s0 (Go b) = Ok s.
    Hypothesis Hrun : sys_run g s evs = Ok s'.
    Hypothesis Hh1 : y_hist s' = y_hist s ++ h1.
    Hypothesis Hpids : pids_ok g (y_hist s').
    Hypothesis Hdep : depth_ok g m (y_hist s').
    Hypothesis Hdis : cond_discipline c m (y_hist s').

    Lemma full_run : sys_run g (sys0 M) (evs0 ++ Go b :: evs) = Ok s'.
    Proof. rewrite sys_run_app, Hr0. cbn [rbind sys_run]. by rewrite Hst. Qed.

    Lemma pre_s : y_hist s `prefix_of` y_hist s'.
    Proof. rewrite Hh1. by apply prefix_app_r. Qed.

    Lemma BInv_s : BInv g c m MA s /\ MInv g m s.
    Proof.
      pose proof pre_s as Hpre.
      assert (Hre : reach g M s).
      { exists (evs0 ++ [Go b]). rewrite sys_run_app, Hr0. cbn [rbind sys_run]. by rewrite Hst. }
      split.
      - eapply BInv_reach; [done|done|by eapply prefix_pids|by eapply prefix_depth|by eapply prefix_disc].
      - eapply (MInv_reach g m); [done|exact Hrm|done|by eapply prefix_pids|by eapply prefix_depth].
    Qed.

    (** A waiter of a mutex held by another task is counted and does not own it. *)
    Lemma waiter_counted tks :
      bbase g c m tks (y_mem s) (y_hist s) -> MInv g m s ->
      (forall i, thr_ok (bstep g c m) bidle (bpost g c m) (bJ c) bstl (bslp c)
                   (mview m (y_hist s) i) i (tks i) (y_thr s i)) ->
      0 < mheld m b (y_hist s) -> w <> b -> in_call s w (CondWait c m) ->
      b_cs (tks w) = CS1 /\ b_ph (tks w) = P0.
    Proof.
      intros Hb HM Ht Hh Hwb [p Hp].
      assert (Hown : b_own (tks w) = None).
      { destruct (b_own (tks w)) eqn:E; [|done]. destruct Hwb.
        eapply bown_unique; [exact Hb|by rewrite E|]. by eapply bheld. }
      pose proof Hb as (_ & Hno & _). destruct (Hno w Hown) as [Hph Hcs2]. split; [|done].
      specialize (Ht w). rewrite Hp in Ht. apply wp_J in Ht. destruct Ht as (_ & _ & HJ).
      destruct (b_cs (tks w)) eqn:E; [|done|done]. exfalso. apply HJ; [apply waits_true|done|done].
    Qed.

    Theorem broadcast_seen :
      in_call s0 b (CondBroadcast c) ->
      in_call s w (CondWait c m) ->
      (forall i, ~ in_call s i (CondSignal c)) ->
      count_ev (is_signal c) h1 = 0%nat -> no_return w h1 ->
      in_call s' w (CondWait c m) /\ ~ about_to_set s' w (LOwner m) /\
      (about_to_sleep s' w -> (forall j, j <> w -> mquiet m s' j) ->
       (length (evs0 ++ Go b :: evs) < ic_fuel g)%nat ->
       exists n s'', sys_run g s' (replicate n (Go w)) = Ok s'' /\
         y_hist s'' = y_hist s' ++ [HRet w (CondWait c m) 0 0]).
    Proof.
      intros Hbc Hwc Hnos Hns Hnr.
      assert (Hin' : in_call s' w (CondWait c m)) by (by eapply in_call_run).
      pose proof (send_step s0 b s (CondBroadcast c) 2 ltac:(auto) ltac:(eauto) Hbc Hbw Hst) as Es.
      destruct BInv_s as [(tks & [Hb _] & Ht) HMs].
      assert (Hbs : 0 < mheld m b (y_hist s)) by (by rewrite Es).
      assert (Hbthr : y_thr s b = In (CondBroadcast c) (Ret (0, 0))).
      { rewrite Es. cbn. unfold tupd. by rewrite decide_True. }
      assert (Hwb : w <> b).
      { intros ->. destruct Hwc as [p Hp]. congruence. }
      destruct (waiter_counted tks Hb HMs Ht Hbs Hwb Hwc) as [Hcs Hph].
      assert (HB : BInv g c m (MB w (y_hist s)) s).
      { exists tks. split; [|exact Ht]. split; [done|]. exists []. split; [by rewrite app_nil_r|].
        split; [|split; [|split]].
        - intros i. specialize (Ht i). destruct (b_sg (tks i)) eqn:Esg; [|done]. exfalso.
          destruct (y_thr s i) as [|cl p] eqn:Ei; cbn [thr_ok] in Ht.
          + destruct Ht as (_ & _ & _ & X). congruence.
          + apply wp_J in Ht. destruct Ht as [X _]. apply (Hnos i). exists p. by rewrite Ei, X.
        - right. split; [|done]. rewrite Es. cbn. unfold upd. by rewrite decide_True.
        - intros x Hx. exfalso.
          assert (Hxo : b_own (tks x) <> None).
          { intros X. destruct Hb as (_ & Hno & _). apply Hno in X as [X _]. congruence. }
          assert (x = b) as ->. { eapply bown_unique; [exact Hb|done|]. by eapply bheld. }
          specialize (Ht b). rewrite Hbthr in Ht. apply wp_J in Ht. destruct Ht as (_ & X & _).
          destruct (X eq_refl) as [_ Y]. congruence.
        - congruence. }
      assert (HB' : BInv g c m (MB w (y_hist s)) s').
      { eapply BInv_run; [done|done|exact HB|exact Hrun|done|done|done|].
        intros w' h0 h1' [= <- <-] Hh. rewrite Hh1 in Hh. apply app_inv_head in Hh as <-. done. }
      pose proof HB' as (tks' & [Hb' Hext] & Ht'). destruct Hext as (h1' & Hh' & Hsg & Ha & Hps & Hpz).
      rewrite Hh1 in Hh'. apply app_inv_head in Hh' as <-.
      assert (Hfin : fin c w tks' h1 -> b_cs (tks' w) = CS2).
      { intros [(e & He1 & He2 & He3)|X]; [|done]. exfalso. destruct e as [|i cl r v]; [done|].
        cbn in He3. subst i. by apply (Hnr cl r v). }
      split; [done|]. split.
      - intros (cl & v & k & Hk). pose proof (Ht' w) as Hw. rewrite Hk in Hw. cbn [thr_ok wp] in Hw.
        destruct Hw as (_ & _ & Hw). destruct (tks' w) as [ow phw csw sgw] eqn:Ew. cbn [bstep op_loc] in Hw.
        rewrite !(decide_False (P := Some (LOwner m) = _)) in Hw by done. cbn [is_owrite] in Hw.
        rewrite bool_decide_eq_true_2 in Hw by done. destruct Hw as [Hw _]. cbn [b_cs b_ph] in *.
        destruct Hw as [[-> _]|[-> ->]].
        + destruct Ha as [Ha|[_ Ha]]; [|done]. apply Hfin in Ha. done.
        + specialize (Hfin (Hpz eq_refl)). done.
      - intros Hsl Hq Hfuel.
        eapply (wake_alone (MB w (y_hist s))); [exact Hrm|exact full_run|done|done|done|exact HB'|done|done|done|].
        destruct Ha as [Ha|[Ha _]]; [|rewrite Ha; done]. exfalso. apply Hfin in Ha.
        destruct Hsl as (cl & n & k & Hk). destruct Hin' as [p Hp]. rewrite Hp in Hk. injection Hk as <- ->.
        specialize (Ht' w). rewrite Hp in Ht'. cbn [thr_ok wp] in Ht'. destruct Ht' as (_ & Ht' & _).
        destruct (Ht' (ex_intro _ n eq_refl)) as [_ X]; [apply waits_true|]. congruence.
    Qed.

    Theorem signal_seen :
      in_call s0 b (CondSignal c) ->
      count_ev (is_woken c) h1 = 0%nat ->
      in_call s' w (CondWait c m) ->
      about_to_sleep s' w -> (forall j, j <> w -> mquiet m s' j) ->
      (length (evs0 ++ Go b :: evs) < ic_fuel g)%nat ->
      exists n s'', sys_run g s' (replicate n (Go w)) = Ok s'' /\
        y_hist s'' = y_hist s' ++ [HRet w (CondWait c m) 0 0].
    Proof.
      intros Hbc Hnw Hin' Hsl Hq Hfuel.
      pose proof (send_step s0 b s (CondSignal c) 1 ltac:(auto) ltac:(eauto) Hbc Hbw Hst) as Es.
      destruct BInv_s as [(tks & [Hb _] & Ht) HMs].
      assert (HB : BInv g c m (MS (y_hist s)) s).
      { exists tks. split; [|exact Ht]. split; [done|]. exists []. split; [by rewrite app_nil_r|].
        right. rewrite Es. cbn. unfold upd. by rewrite decide_True. }
      assert (HB' : BInv g c m (MS (y_hist s)) s').
      { eapply BInv_run; [done|done|exact HB|exact Hrun|done|done|done|done]. }
      pose proof HB' as (tks' & [Hb' Hext] & Ht'). destruct Hext as (h1' & Hh' & Ha).
      rewrite Hh1 in Hh'. apply app_inv_head in Hh' as <-.
      assert (HMs' : MInv g m s') by (eapply (MInv_reach g m); [done|exact Hrm|eexists; exact full_run|done|done]).
      eapply (wake_alone (MS (y_hist s))); [exact Hrm|exact full_run|done|done|done|exact HB'|done|done|done|].
      destruct Ha as [[(e & He1 & He2)|[x Hx]]|Ha]; [exfalso..|done].
      - unfold count_ev in Hnw. apply nil_length_inv in Hnw.
        assert (e ∈ filter (fun e => is_woken c e = true) h1) as X by (by apply elem_of_list_filter).
        rewrite Hnw in X. by apply elem_of_nil in X.
      - assert (Hxo : b_own (tks' x) <> None).
        { intros X. destruct Hb' as (_ & Hno & _). by apply Hno in X as [_ X]. }
        destruct (decide (x = w)) as [->|Hxw].
        + destruct Hsl as (cl & n & k & Hk). destruct Hin' as [p Hp]. rewrite Hp in Hk. injection Hk as <- ->.
          specialize (Ht' w). rewrite Hp in Ht'. cbn [thr_ok wp] in Ht'. destruct Ht' as (_ & Ht' & _).
          destruct (Ht' (ex_intro _ n eq_refl)) as [X _]; [apply waits_true|]. congruence.
        + apply Hxo. eapply bquiet; [done|done|]. by apply Hq.
    Qed.
  End sent.
End wake.
