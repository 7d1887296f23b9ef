(** MutexThms.v - consequences of the mutex invariant. *)
From Verif Require Import Base IpcModel IpcSpec IpcLogic MutexProofs.
From Coq Require Import ZifyBool ZifyNat.

(** ** Running alone *)

Lemma runs_bind {A B} M (p : prog A) (f : A -> prog B) M1 a n1 M2 b n2 :
  runs M p M1 a n1 -> runs M1 (f a) M2 b n2 -> runs M (pbind p f) M2 b (n1 + n2).
Proof. induction 1; cbn [pbind Nat.add]; [done|]. intros H'. constructor. auto. Qed.

Lemma runs_act {A} M o (f : Z -> prog A) M' a n :
  runs (fst (exec o M)) (f (snd (exec o M))) M' a n -> runs M (pbind (act o) f) M' a (S n).
Proof. intros H. cbn. by constructor. Qed.

Lemma runs_go g s i c p M' r v n :
  y_thr s i = In c p -> runs (y_mem s) p M' (r, v) n ->
  exists s', sys_run g s (replicate (S n) (Go i)) = Ok s' /\ y_mem s' = M' /\
    y_hist s' = y_hist s ++ [HRet i c r v] /\ y_thr s' i = Out /\
    forall j, j <> i -> y_thr s' j = y_thr s j.
Proof.
  intros Hi Hr. remember (y_mem s) as M eqn:EM. remember (r, v) as a eqn:Ea.
  revert s Hi EM. induction Hr as [M a|M o k M' a n Hr IH]; intros s Hi EM; subst.
  - eexists. cbn [replicate sys_run sys_step]. rewrite Hi. cbn [rbind]. split; [done|]. cbn.
    repeat split; [unfold tupd; by rewrite decide_True|].
    intros j Hj. unfold tupd. by rewrite decide_False.
  - specialize (IH eq_refl (mkSys (fst (exec o (y_mem s))) (tupd (y_thr s) i (In c (k (snd (exec o (y_mem s)))))) (y_hist s))).
    cbn [y_thr y_mem y_hist] in IH. destruct IH as (s' & R & E1 & E2 & E3 & E4); [|done|].
    { unfold tupd. by rewrite decide_True. }
    exists s'. change (replicate (S (S n)) (Go i)) with (Go i :: replicate (S n) (Go i)).
    cbn [sys_run sys_step]. rewrite Hi. destruct (exec o (y_mem s)) as [M1 v1] eqn:Ex.
    cbn [fst snd rbind] in *. repeat split; try done.
    intros j Hj. rewrite E4 by done. unfold tupd. by rewrite decide_False.
Qed.

Lemma runs_alone g s i c M' r v n :
  y_thr s i = Out -> runs (y_mem s) (body g i c) M' (r, v) n ->
  exists s', sys_run g s (alone i c (S n)) = Ok s' /\ y_mem s' = M' /\
    y_hist s' = y_hist s ++ [HCall i c; HRet i c r v] /\ y_thr s' i = Out /\
    forall j, j <> i -> y_thr s' j = y_thr s j.
Proof.
  intros Hi Hr. unfold alone.
  set (s1 := mkSys (y_mem s) (tupd (y_thr s) i (In c (body g i c))) (y_hist s ++ [HCall i c])).
  destruct (runs_go g s1 i c (body g i c) M' r v n) as (s' & R & E1 & E2 & E3 & E4).
  - cbn. unfold tupd. by rewrite decide_True.
  - done.
  - exists s'. cbn [sys_run]. cbn [sys_step]. rewrite Hi. cbn [rbind]. fold s1.
    repeat split; try done.
    + rewrite E2. cbn. by rewrite <- app_assoc.
    + intros j Hj. rewrite E4 by done. cbn. unfold tupd. by rewrite decide_False.
Qed.

Section thms.
  Context (g : icfg) (m : nat).
  Hypothesis Hwf : wf_icfg g.

  Notation good M s :=
    (ready_mem g M /\ reach g M s /\ pids_ok g (y_hist s) /\ depth_ok g m (y_hist s)).

  Lemma good_inv M s : good M s -> MInv g m s.
  Proof. intros (? & ? & ? & ?). by eapply MInv_reach. Qed.

  Lemma tok_pos n : 0 < n -> tok n = Some n.
  Proof. intros. unfold tok. by replace (n <=? 0) with false by lia. Qed.

  (** ** What the invariant says of a task *)

  Definition TOK (s : sys) (i : nat) (tk : option Z) : Prop :=
    thr_ok (mstep g m) midle (mpost g m) (mcJ m) (mcstl m) (mcslp m)
      (mheld m i (y_hist s)) i tk (y_thr s i).

  Lemma inv_tokens s : MInv g m s ->
    exists tks, mcoh g m tks (y_mem s) (y_hist s) /\ forall i, TOK s i (tks i).
  Proof. done. Qed.

  Lemma held_token s i tk : TOK s i tk -> 0 < mheld m i (y_hist s) -> tk <> None.
  Proof.
    unfold TOK. destruct (y_thr s i) as [|c p]; cbn [thr_ok].
    - intros [_ ->] H. by rewrite tok_pos.
    - intros H Hv. apply wp_J in H. unfold mcJ in H. destruct (on_mutex m c); [destruct H; auto|].
      destruct H as [_ ->]. by rewrite tok_pos.
  Qed.

  Lemma tokens_unique tks M h i j :
    mcoh g m tks M h -> tks i <> None -> tks j <> None -> i = j.
  Proof.
    intros (ow & _ & _ & _ & H4). rewrite !H4. repeat case_decide; congruence.
  Qed.

  (** ** Exclusion *)
  Lemma mutex_exclusion M s i j :
    good M s -> 0 < mheld m i (y_hist s) -> 0 < mheld m j (y_hist s) -> i = j.
  Proof.
    intros HG Hi Hj. destruct (inv_tokens _ (good_inv _ _ HG)) as (tks & Hc & Ht).
    eapply tokens_unique; [done|by eapply held_token|by eapply held_token].
  Qed.

  (** ** Re-entrancy *)
  Lemma mutex_reentrant M s i c :
    good M s -> c = MutexLock m \/ c = MutexTrylock m ->
    (exists p, y_thr s i = In c p) -> 0 < mheld m i (y_hist s) ->
    ~ about_to_sleep s i /\ ~ about_to_stall s i /\
    forall r v, about_to_return s i c r v -> r = 0.
  Proof.
    intros HG Hcall [p Hp] Hi. destruct (inv_tokens _ (good_inv _ _ HG)) as (tks & Hc & Ht).
    specialize (Ht i). unfold TOK in Ht. rewrite Hp in Ht. cbn [thr_ok] in Ht.
    assert (Eo : on_mutex m c = true) by (destruct Hcall as [->| ->]; cbn; by rewrite bool_decide_eq_true_2).
    split; [|split].
    - intros (c' & n & k & E). rewrite Hp in E. injection E as -> ->. cbn [wp] in Ht.
      destruct Ht as (_ & H & _). specialize (H (ex_intro _ n eq_refl)). unfold mcslp in H.
      rewrite Eo in H. destruct H as (_ & _ & H). destruct Hcall as [->| ->]; cbn in H; lia.
    - intros (c' & E). rewrite Hp in E. injection E as -> ->. cbn [wp] in Ht.
      destruct Ht as (_ & H). unfold mcstl in H. rewrite Eo in H. destruct Hcall as [->| ->]; cbn in H; lia.
    - intros r v E. unfold about_to_return in E. rewrite Hp in E. injection E as ->. cbn [wp] in Ht.
      destruct Ht as (_ & H). unfold mpost in H. rewrite Eo in H. destruct Hcall as [->| ->]; cbn in H.
      + by destruct H as (_ & -> & _).
      + destruct H as (_ & [[-> _]|(_ & H & _)]); [done|lia].
  Qed.

  (** ** Availability *)
  Lemma quiet_token s j tk : TOK s j tk -> mquiet m s j -> tk = None.
  Proof.
    intros Ht [Hh [Ho|[(c & n & k & Ho)|(c & p & Ho & Hc)]]]; unfold TOK in Ht; rewrite Ho, Hh in Ht;
      cbn [thr_ok wp] in Ht.
    - by destruct Ht as [_ ->].
    - destruct Ht as (_ & H & _). destruct (H (ex_intro _ n eq_refl)) as [-> _]. done.
    - apply wp_J in Ht. unfold mcJ in Ht. rewrite Hc in Ht. by destruct Ht as [_ ->].
  Qed.

  Lemma mutex_available M s i :
    good M s -> Z.of_nat i < 2 ^ ic_abits g - 1 -> y_thr s i = Out -> (forall j, j <> i -> mquiet m s j) ->
    exists n s', sys_run g s (alone i (MutexTrylock m) n) = Ok s' /\
      y_hist s' = y_hist s ++ [HCall i (MutexTrylock m); HRet i (MutexTrylock m) 0 0].
  Proof.
    intros HG Hi Ho Hq. destruct (inv_tokens _ (good_inv _ _ HG)) as (tks & Hc & Ht).
    destruct Hc as (ow & H1 & H2 & H3 & H4). rewrite <- nobody_val in Hi by done.
    assert (How : ow = None \/ ow = Some i).
    { destruct ow as [j|]; [|auto]. destruct (decide (j = i)) as [->|Hj]; [auto|].
      pose proof (quiet_token _ _ _ (Ht j) (Hq j Hj)) as E. rewrite H4, decide_True in E by done. done. }
    assert (exists M' n, runs (y_mem s) (body g i (MutexTrylock m)) M' (0, 0) n) as (M' & n & R).
    { cbn [body]. unfold pair0, mutex_trylock. destruct How as [->| ->]; cbn [enc] in H1.
      - eexists _, _. eapply runs_bind; [|constructor]. apply runs_act. cbn [exec fst snd].
        rewrite H1, Z.eqb_refl. cbn [pbind]. apply runs_act. apply runs_act. constructor.
      - eexists _, _. eapply runs_bind; [|constructor]. apply runs_act. cbn [exec fst snd].
        rewrite H1. rewrite (proj2 (Z.eqb_neq _ _)) by lia. eapply runs_bind.
        { apply runs_act. cbn [exec fst snd]. rewrite H1, Z.eqb_refl. constructor. }
        apply runs_act. apply runs_act. constructor. }
    destruct (runs_alone g s i _ _ _ _ _ Ho R) as (s' & Hr & _ & Hh & _). eauto.
  Qed.

  (** ** Unlocking *)
  Lemma mutex_unlock_owner M s i :
    good M s -> y_thr s i = Out -> 0 < mheld m i (y_hist s) ->
    exists n s', sys_run g s (alone i (MutexUnlock m) n) = Ok s' /\
      y_hist s' = y_hist s ++ [HCall i (MutexUnlock m); HRet i (MutexUnlock m) 0 0].
  Proof.
    intros HG Ho Hh. destruct (inv_tokens _ (good_inv _ _ HG)) as (tks & Hc & Ht).
    destruct Hc as (ow & H1 & H2 & H3 & H4).
    specialize (Ht i). unfold TOK in Ht. rewrite Ho in Ht. cbn [thr_ok] in Ht.
    destruct Ht as [_ Ht]. rewrite tok_pos in Ht by done. rewrite H4 in Ht.
    case_decide as D; [|done]. subst ow. injection Ht as Ht. cbn [enc] in H1.
    assert (Hlt : mheld m i (y_hist s) < 2 ^ ic_szbits g) by (apply HG; done).
    assert (exists M' n, runs (y_mem s) (body g i (MutexUnlock m)) M' (0, 0) n) as (M' & n & R).
    { cbn [body]. unfold pair0, mutex_unlock.
      assert (E0 : (mheld m i (y_hist s) >? 0) = true) by lia.
      destruct (wrap (ic_szbits g) (mheld m i (y_hist s) - 1) =? 0) eqn:Ew.
      - eexists _, _. eapply runs_bind; [|constructor]. apply runs_act. cbn [exec fst snd].
        rewrite H1, Z.eqb_refl. cbn [passert]. apply runs_act. cbn [exec fst snd]. rewrite Ht, E0.
        cbn [passert]. apply runs_act. cbn [exec fst snd]. rewrite Ht. cbv zeta. apply runs_act.
        rewrite Ew. apply runs_act. constructor.
      - eexists _, _. eapply runs_bind; [|constructor]. apply runs_act. cbn [exec fst snd].
        rewrite H1, Z.eqb_refl. cbn [passert]. apply runs_act. cbn [exec fst snd]. rewrite Ht, E0.
        cbn [passert]. apply runs_act. cbn [exec fst snd]. rewrite Ht. cbv zeta. apply runs_act.
        rewrite Ew. constructor. }
    destruct (runs_alone g s i _ _ _ _ _ Ho R) as (s' & Hr & _ & Hh' & _). eauto.
  Qed.

  (** A task that does not hold the mutex and calls unlock is at its first access, or about to
      stall. *)
  Definition doomed (s : sys) (i : nat) : Prop :=
    y_thr s i = In (MutexUnlock m) (body g i (MutexUnlock m)) \/ y_thr s i = In (MutexUnlock m) Stall.

  Lemma doomed_step s e s' i :
    MInv g m s -> mheld m i (y_hist s) < 0 -> doomed s i -> sys_step g s e = Ok s' ->
    doomed s' i /\ mheld m i (y_hist s') < 0 /\
    (forall l, e = Go i -> y_mem s' l = y_mem s l).
  Proof.
    intros HI Hh Hd. destruct e as [j c|j]; cbn [sys_step].
    - destruct (y_thr s j) eqn:Ej; intros [= <-]; [|by split; [done|]].
      assert (i <> j) by (destruct Hd as [Hd|Hd]; congruence).
      split; [unfold doomed in *; cbn; unfold tupd; by rewrite decide_False|]. cbn [y_hist y_mem].
      rewrite mheld_snoc, mdelta_other by done. split; [lia|done].
    - destruct (decide (j = i)) as [->|Hj].
      + destruct Hd as [Hd|Hd]; rewrite Hd; [|done].
        cbn [body pair0 mutex_unlock pbind act exec]. intros [= <-]. cbn [y_hist y_mem].
        split; [|done]. right. cbn. unfold tupd. rewrite decide_True by done. f_equal.
        rewrite (proj2 (Z.eqb_neq _ _)); [done|]. intros Ho.
        destruct (inv_tokens _ HI) as (tks & (ow & H1 & H2 & H3 & H4) & Ht).
        specialize (Ht i). unfold TOK in Ht. rewrite Hd in Ht. cbn [thr_ok] in Ht.
        pose proof (wp_J _ _ _ _ _ _ _ _ Ht) as HJ. unfold mcJ in HJ. cbn [on_mutex] in HJ.
        rewrite bool_decide_eq_true_2 in HJ by done. destruct HJ as [_ HJ]. specialize (HJ Hh).
        rewrite HJ in Ht. cbn -[mstep] in Ht. destruct Ht as (_ & _ & Hi & Ht).
        rewrite H4 in HJ. case_decide as D; [done|].
        destruct ow as [k|]; cbn [enc] in H1; [|lia]. destruct D. f_equal. lia.
      + destruct (y_thr s j) as [|c [[r v]| | |o k]] eqn:Ej; try done; try (intros [= <-]; split; [done|]; split; [done|]; congruence).
        * intros [= <-]. split; [unfold doomed in *; cbn; unfold tupd; by rewrite decide_False|]. cbn [y_hist y_mem].
          rewrite mheld_snoc, mdelta_other by done. split; [lia|congruence].
        * destruct (exec o (y_mem s)) as [M v]. intros [= <-].
          split; [unfold doomed in *; cbn; unfold tupd; by rewrite decide_False|]. cbn [y_hist y_mem].
          split; [lia|congruence].
  Qed.

  Lemma doomed_run s evs s' i :
    MInv g m s -> mheld m i (y_hist s) < 0 -> doomed s i -> sys_run g s evs = Ok s' ->
    pids_ok g (y_hist s') -> depth_ok g m (y_hist s') ->
    doomed s' i /\ mheld m i (y_hist s') < 0 /\ MInv g m s'.
  Proof.
    revert s; induction evs as [|e evs IH]; intros s HI Hh Hd; cbn [sys_run].
    { by intros [= <-] _ _. }
    destruct (sys_step g s e) as [s1| | |] eqn:E; cbn [rbind]; try done. intros Hr Hp Hdp.
    assert (HI1 : MInv g m s1).
    { destruct (sys_run_hist _ _ _ _ Hr) as [z Hz].
      eapply (MInv_run g m Hwf s [e]); [done|cbn; by rewrite E|..].
      - intros k c Hk. eapply Hp. rewrite Hz. apply elem_of_app. by left.
      - intros h' k Hh'. apply Hdp. etrans; [done|]. rewrite Hz. by apply prefix_app_r. }
    destruct (doomed_step _ _ _ _ HI Hh Hd E) as (Hd1 & Hh1 & _). by eapply IH.
  Qed.

  (** The caller of unlock that does not hold the mutex never returns and never writes; when it is
      its turn the system stalls. *)
  Lemma mutex_unlock_stranger M s i evs s' :
    good M s -> Z.of_nat i < 2 ^ ic_abits g - 1 ->
    y_thr s i = Out -> mheld m i (y_hist s) <= 0 ->
    sys_run g s (Enter i (MutexUnlock m) :: evs) = Ok s' ->
    pids_ok g (y_hist s') -> depth_ok g m (y_hist s') ->
    (exists p, y_thr s' i = In (MutexUnlock m) p /\ forall a, p <> Ret a) /\ ~ about_to_write s' i /\
    sys_run g s' [Go i; Go i] = Fatal /\
    (forall s'' l, sys_step g s' (Go i) = Ok s'' -> y_mem s'' l = y_mem s' l).
  Proof.
    intros HG Hi Ho Hh Hr Hp Hd.
    assert (HM : MInv g m s') .
    { eapply (MInv_run g m Hwf s); [by eapply good_inv|done..]. }
    cbn [sys_run] in Hr. cbn [sys_step] in Hr. rewrite Ho in Hr. cbn [rbind] in Hr.
    set (s1 := mkSys _ _ _) in Hr.
    assert (HI1 : MInv g m s1).
    { destruct (sys_run_hist _ _ _ _ Hr) as [z Hz].
      eapply (MInv_run g m Hwf s [Enter i (MutexUnlock m)]); [by eapply good_inv|..].
      - cbn [sys_run sys_step]. rewrite Ho. done.
      - intros k c Hk. eapply Hp. rewrite Hz. apply elem_of_app. by left.
      - intros h' k Hh'. apply Hd. etrans; [done|]. rewrite Hz. by apply prefix_app_r. }
    destruct (doomed_run s1 evs s' i HI1) as (Hd' & Hh' & HI'); [| |done..|].
    { unfold s1; cbn [y_hist]. rewrite mheld_snoc. cbn [mdelta]. rewrite bool_decide_eq_true_2 by done. lia. }
    { left. cbn. unfold tupd. by rewrite decide_True. }
    split; [|split; [|split]].
    - destruct Hd' as [E|E]; rewrite E; eexists; (split; [done|]); done.
    - intros (c & k & [(l & v & X)|[(l & X)|(l & o & n & X)]]); destruct Hd' as [E|E]; (rewrite E in X; cbn in X; congruence).
    - destruct (sys_step g s' (Go i)) as [s2| | |] eqn:E2; cbn [sys_run]; rewrite E2; cbn [rbind].
      + destruct (doomed_step _ _ _ _ HI' Hh' Hd' E2) as (Hd2 & _ & _).
        assert (y_thr s2 i = In (MutexUnlock m) Stall) as E3.
        { destruct Hd2 as [E3|E3]; [|done]. exfalso. destruct Hd' as [E|E]; cbn [sys_step] in E2; rewrite E in E2.
          - cbn [body pair0 mutex_unlock pbind act exec] in E2. injection E2 as <-.
            cbn in E3. unfold tupd in E3. rewrite decide_True in E3 by done. injection E3 as E3.
            destruct (y_mem s' (LOwner m) =? Z.of_nat i); cbn in E3; [|done]. injection E3 as E3. done.
          - done. }
        cbn [sys_step]. by rewrite E3.
      + done.
      + exfalso. cbn [sys_step] in E2. destruct Hd' as [E|E]; rewrite E in E2; done.
      + exfalso. cbn [sys_step] in E2. destruct Hd' as [E|E]; rewrite E in E2; done.
    - intros s2 l E2. destruct (doomed_step _ _ _ _ HI' Hh' Hd' E2) as (_ & _ & X). by apply X.
  Qed.
End thms.

(** ** Traces of lock calls *)

Lemma trace_bind {A B} (p : prog A) (f : A -> prog B) tr q :
  trace (pbind p f) tr q ->
  (exists p', trace p tr p' /\ q = pbind p' f) \/
  exists a tr1 tr2, trace p tr1 (Ret a) /\ trace (f a) tr2 q /\ tr = tr1 ++ tr2.
Proof.
  revert tr. induction p as [a| | |o k IH]; intros tr H; cbn [pbind] in H.
  - right. exists a, [], tr. repeat split; [constructor|done].
  - left. inversion H; subst. exists Stall. split; [constructor|done].
  - left. inversion H; subst. exists OutOfFuel. split; [constructor|done].
  - inversion H as [|o' k' v tr' q' Hk]; subst.
    + left. exists (Op o k). split; [constructor|done].
    + destruct (IH v _ Hk) as [(p' & H1 & H2)|(a & t1 & t2 & H1 & H2 & ->)].
      * left. exists p'. split; [by constructor|done].
      * right. exists a, ((o, v) :: t1), t2. repeat split; [by constructor|done].
Qed.

Lemma trace_futex_trylock l tr p :
  trace (futex_trylock l) tr p ->
  (forall r, p = Ret r -> (r = 0 /\ futex_win l tr) \/ (r = - EAGAIN /\ futex_fail l tr)) /\
  p <> Stall /\ p <> OutOfFuel.
Proof.
  unfold futex_trylock. cbn. intros H. inversion H as [|o k v tr' q Hk]; subst; [done|].
  destruct (v =? 0) eqn:E; cbn in Hk; inversion Hk; subst.
  - split; [|done]. intros r [= <-]. left. assert (v = 0) as -> by lia. done.
  - split; [|done]. intros r [= <-]. right. split; [done|]. exists v. split; [lia|done].
Qed.

Lemma futex_lock_trace l loop tr p :
  trace (futex_lock_loop loop l) tr p ->
  (p = Stall -> gives_up (futex_fail l) loop tr) /\
  (forall r, p = Ret r -> r = 0 /\ exists n, (n <= loop)%nat /\ gets_it (futex_fail l) (futex_win l) n tr) /\
  p <> OutOfFuel.
Proof.
  revert tr. induction loop as [|loop IH]; intros tr H; cbn [futex_lock_loop] in H;
    apply trace_bind in H as [(p' & H1 & ->)|(a & t1 & t2 & H1 & H2 & ->)];
    apply trace_futex_trylock in H1 as (X1 & X2 & X3).
  - destruct p'; cbn [pbind]; try done.
    destruct (X1 _ eq_refl) as [[-> W]|[-> W]]; cbn.
    + split; [done|]. split; [|done]. intros r [= <-]. split; [done|]. exists 0%nat. split; [lia|]. by constructor.
    + split; [|done]. intros _. by constructor.
  - destruct (X1 _ eq_refl) as [[-> W]|[-> W]]; cbn in H2; inversion H2; subst; rewrite app_nil_r.
    + split; [done|]. split; [|done]. intros r [= <-]. split; [done|]. exists 0%nat. split; [lia|]. by constructor.
    + split; [|done]. intros _. by constructor.
  - destruct p'; cbn [pbind]; try done.
    destruct (X1 _ eq_refl) as [[-> W]|[-> W]]; cbn; [|done].
    split; [done|]. split; [|done]. intros r [= <-]. split; [done|]. exists 0%nat. split; [lia|]. by constructor.
  - destruct (X1 _ eq_refl) as [[-> W]|[-> W]]; cbn -[futex_lock_loop] in H2.
    + inversion H2; subst. rewrite app_nil_r.
      split; [done|]. split; [|done]. intros r [= <-]. split; [done|]. exists 0%nat. split; [lia|]. by constructor.
    + inversion H2 as [|o k v t3 q H3]; subst; [done|].
      destruct (IH _ H3) as (Y1 & Y2 & Y3). split; [|split].
      * intros E. constructor; auto.
      * intros r E. destruct (Y2 r E) as (-> & n & Hn & Hg). split; [done|].
        exists (S n). split; [lia|]. by constructor.
      * done.
Qed.

Lemma trace_mutex_trylock g pid m tr p :
  trace (mutex_trylock g pid m) tr p ->
  (forall r, p = Ret r -> (r = 0 /\ mutex_win g pid m tr) \/ (r = - EAGAIN /\ mutex_fail g pid m tr)) /\
  p <> Stall /\ p <> OutOfFuel.
Proof.
  unfold mutex_trylock. cbn. intros H. inversion H as [|o k v tr1 q H1]; subst; [done|]. clear H.
  destruct (v =? nobody g) eqn:E; cbn in H1.
  - assert (v = nobody g) as -> by lia.
    inversion H1 as [|o k v1 tr2 q H2]; subst; [done|]. cbn in H2.
    inversion H2 as [|o k v2 tr3 q H3]; subst; [done|]. inversion H3; subst.
    split; [|done]. intros r [= <-]. left. split; [done|]. exists v1, v2. by left.
  - inversion H1 as [|o k v1 tr2 q H2]; subst; [done|]. cbn in H2.
    destruct (v1 =? pid) eqn:E1; cbn in H2.
    + assert (v1 = pid) as -> by lia.
      inversion H2 as [|o k v2 tr3 q H3]; subst; [done|]. cbn in H3.
      inversion H3 as [|o k v3 tr4 q H4]; subst; [done|]. inversion H4; subst.
      split; [|done]. intros r [= <-]. left. split; [done|]. exists v2, v3. right. exists v.
      split; [lia|done].
    + inversion H2; subst. split; [|done]. intros r [= <-]. right. split; [done|].
      exists v, v1. repeat split; lia.
Qed.

Lemma mutex_lock_trace g pid m loop tr p :
  trace (mutex_lock_loop g loop pid m) tr p ->
  (p = Stall -> gives_up (mutex_fail g pid m) loop tr) /\
  (forall r, p = Ret r -> r = 0 /\ exists n, (n <= loop)%nat /\ gets_it (mutex_fail g pid m) (mutex_win g pid m) n tr) /\
  p <> OutOfFuel.
Proof.
  revert tr. induction loop as [|loop IH]; intros tr H; cbn [mutex_lock_loop] in H;
    apply trace_bind in H as [(p' & H1 & ->)|(a & t1 & t2 & H1 & H2 & ->)];
    apply trace_mutex_trylock in H1 as (X1 & X2 & X3).
  - destruct p'; cbn [pbind]; try done.
    destruct (X1 _ eq_refl) as [[-> W]|[-> W]]; cbn.
    + split; [done|]. split; [|done]. intros r [= <-]. split; [done|]. exists 0%nat. split; [lia|]. by constructor.
    + split; [|done]. intros _. by constructor.
  - destruct (X1 _ eq_refl) as [[-> W]|[-> W]]; cbn in H2; inversion H2; subst; rewrite app_nil_r.
    + split; [done|]. split; [|done]. intros r [= <-]. split; [done|]. exists 0%nat. split; [lia|]. by constructor.
    + split; [|done]. intros _. by constructor.
  - destruct p'; cbn [pbind]; try done.
    destruct (X1 _ eq_refl) as [[-> W]|[-> W]]; cbn; [|done].
    split; [done|]. split; [|done]. intros r [= <-]. split; [done|]. exists 0%nat. split; [lia|]. by constructor.
  - destruct (X1 _ eq_refl) as [[-> W]|[-> W]]; cbn -[mutex_lock_loop] in H2.
    + inversion H2; subst. rewrite app_nil_r.
      split; [done|]. split; [|done]. intros r [= <-]. split; [done|]. exists 0%nat. split; [lia|]. by constructor.
    + inversion H2 as [|o k v t3 q H3]; subst; [done|].
      destruct (IH _ H3) as (Y1 & Y2 & Y3). split; [|split].
      * intros E. constructor; auto.
      * intros r E. destruct (Y2 r E) as (-> & n & Hn & Hg). split; [done|].
        exists (S n). split; [lia|]. by constructor.
      * done.
Qed.
