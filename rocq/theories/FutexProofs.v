(** FutexProofs.v - the logic instantiated for one futex. *)
From Verif Require Import Base IpcModel IpcSpec IpcLogic MutexProofs MutexThms.
From Coq Require Import ZifyBool ZifyNat.

Lemma fheld_snoc f i h e : fheld f i (h ++ [e]) = fheld f i h + fdelta f i e.
Proof. induction h as [|x h IH]; unfold fheld in *; cbn in *; lia. Qed.

Lemma fdelta_other f i e : i <> ev_task e -> fdelta f i e = 0.
Proof.
  intros H. destruct e as [j c|j c r v]; cbn in H |- *; destruct c; try done;
    rewrite ?bool_decide_eq_false_2; try done; intros [? ?]; congruence.
Qed.

Section futexlogic.
  Context (l : loc).

  (** Token: does the task hold the lock? *)
  Definition fstep (i : nat) (o : memop) (tk : bool) (Phi : Z -> bool -> Prop) : Prop :=
    match o with
    | MRead l' => if decide (l' = l) then forall v, (tk = true -> v <> 0) -> Phi v tk else forall v, Phi v tk
    | MWrite l' v => if decide (l' = l) then v = 0 /\ tk = true /\ Phi 0 false else Phi 0 tk
    | MTas l' =>
        if decide (l' = l) then
          (forall v, v <> 0 -> Phi v tk) /\ (tk = false -> Phi 0 true)
        else forall v, Phi v tk
    | MCas l' _ _ => if decide (l' = l) then False else forall v, Phi v tk
    | MSleep _ => forall v, Phi v tk
    end.

  Lemma fstep_mono i o tk (P Q : Z -> bool -> Prop) :
    (forall v tk', P v tk' -> Q v tk') -> fstep i o tk P -> fstep i o tk Q.
  Proof.
    intros HPQ H. destruct o as [l'|l' v|l'|l' o n|n]; cbn [fstep] in *; repeat case_decide; naive_solver.
  Qed.

  Definition fcoh (tks : nat -> bool) (M : mem) (h : list hev) : Prop :=
    exists ow : option nat, (M l = 0 <-> ow = None) /\ forall i, tks i = bool_decide (ow = Some i).

  Lemma fcoh_irrel tks M M' h h' i :
    M' l = M l -> fcoh tks M h -> fcoh (set_tk tks i (tks i)) M' h'.
  Proof.
    intros E (ow & H1 & H2). exists ow. rewrite E. split; [done|].
    intros j. unfold set_tk. destruct (decide (j = i)) as [->|]; apply H2.
  Qed.

  Lemma fstep_sound tks M h i o Phi :
    fcoh tks M h -> fstep i o (tks i) Phi ->
    exists tk', fcoh (set_tk tks i tk') (fst (exec o M)) h /\ Phi (snd (exec o M)) tk'.
  Proof.
    intros Hc H. pose proof Hc as (ow & H1 & H2).
    destruct o as [l'|l' v|l'|l' o n|n]; cbn [exec fst snd fstep] in *.
    - exists (tks i). split; [by eapply fcoh_irrel|]. case_decide; subst; apply H.
      rewrite H2. intros E%bool_decide_eq_true. subst. intros Z. apply H1 in Z. done.
    - case_decide; subst.
      + destruct H as (-> & Ht & HP). exists false. split; [|done]. exists None. rewrite upd_same.
        split; [done|]. intros j. unfold set_tk. case_decide as D; [done|].
        rewrite H2 in Ht. apply bool_decide_eq_true in Ht. rewrite H2.
        rewrite !bool_decide_eq_false_2; [done|congruence..].
      + exists (tks i). split; [|done]. eapply fcoh_irrel; [|done]. by rewrite upd_other.
    - case_decide; subst.
      + destruct H as [Hn H0]. destruct (decide (M l = 0)) as [E|E].
        * rewrite E. pose proof (proj1 H1 E) as ->. exists true. split.
          -- exists (Some i). rewrite upd_same. split; [done|]. intros j. unfold set_tk.
             case_decide; subst; [by rewrite bool_decide_eq_true_2|].
             rewrite H2. rewrite !bool_decide_eq_false_2; [done|congruence..].
          -- apply H0. rewrite H2. by rewrite bool_decide_eq_false_2.
        * exists (tks i). split; [|by apply Hn]. exists ow. rewrite upd_same. split.
          -- split; [done|]. intros ->. destruct E. by apply H1.
          -- intros j. unfold set_tk. case_decide; subst; apply H2.
      + exists (tks i). split; [|done]. eapply fcoh_irrel; [|done]. by rewrite upd_other.
    - case_decide; subst; [done|]. exists (tks i). split; [|done].
      destruct (M l' =? o); eapply fcoh_irrel; [|done| |done]; [by rewrite upd_other|done].
    - exists (tks i). split; [by eapply fcoh_irrel|done].
  Qed.

  Definition ftouches (o : memop) : bool :=
    match o with
    | MRead l' | MWrite l' _ | MTas l' | MCas l' _ _ => bool_decide (l' = l)
    | MSleep _ => false
    end.

  Fixpoint favoids {A} (p : prog A) : Prop :=
    match p with
    | Op o k => ftouches o = false /\ forall v, favoids (k v)
    | _ => True
    end.

  Lemma favoids_bind {A B} (p : prog A) (f : A -> prog B) :
    favoids p -> (forall a, favoids (f a)) -> favoids (pbind p f).
  Proof.
    induction p as [a| | |o k IH]; cbn; auto.
    intros [H1 H2] Hf. split; [done|]. intros v. by apply IH.
  Qed.

  Lemma favoids_wp {A} i (J stl slp : bool -> Prop) (p : prog A) tk (Q : bool -> A -> Prop) :
    favoids p -> J tk -> stl tk -> slp tk -> (forall a, Q tk a) -> wp fstep i J stl slp p tk Q.
  Proof.
    induction p as [a| | |o k IH]; cbn [favoids wp]; auto.
    intros [H1 H2] HJ Hs Hl HQ. split; [done|]. split; [done|].
    destruct o as [l'|l' v|l'|l' o n|n]; cbn [ftouches fstep] in *; auto;
      apply bool_decide_eq_false in H1; rewrite decide_False by done; auto.
  Qed.

  Lemma wp_futex_trylock i (J stl slp : bool -> Prop) tk (Q : bool -> Z -> Prop) :
    J tk -> J true -> Q tk (- EAGAIN) -> (tk = false -> Q true 0) ->
    wp fstep i J stl slp (futex_trylock l) tk Q.
  Proof.
    intros HJ HJ1 HF HS. unfold futex_trylock. apply wp_act; [apply fstep_mono|done|by intros [? ?]|].
    cbn [fstep]. rewrite decide_True by done. split.
    - intros v Hv. rewrite (proj2 (Z.eqb_neq _ _)) by done. cbn. done.
    - intros ->. cbn. auto.
  Qed.

  Lemma wp_futex_lock i (J stl slp : bool -> Prop) loop tk (Q : bool -> Z -> Prop) :
    J tk -> J true -> stl tk -> slp tk -> (tk = false -> Q true 0) ->
    wp fstep i J stl slp (futex_lock_loop loop l) tk Q.
  Proof.
    intros HJ HJ1 Hs Hl HQ. induction loop as [|loop IH]; cbn [futex_lock_loop];
      (apply wp_bind; [apply fstep_mono|]; apply wp_futex_trylock; [done|done|..]); try (cbn; by auto).
    cbn -[futex_lock_loop fstep]. split; [done|]. split; [done|]. cbn [fstep]. done.
  Qed.

  Lemma wp_futex_unlock i (J stl slp : bool -> Prop) (Q : bool -> Z -> Prop) :
    J true -> J false -> Q false 0 ->
    wp fstep i J stl slp (futex_unlock l) true Q.
  Proof.
    intros HJ HJ1 HQ. unfold futex_unlock. apply wp_act; [apply fstep_mono|done|by intros [? ?]|].
    cbn [fstep]. rewrite decide_True by done. intros v Hv.
    rewrite (proj2 (Z.eqb_neq _ _)) by auto. cbn [negb passert].
    apply wp_act; [apply fstep_mono|done|by intros [? ?]|]. cbn [fstep]. rewrite decide_True by done.
    repeat split; done.
  Qed.

  Lemma favoids_futex_trylock l' : l' <> l -> favoids (futex_trylock l').
  Proof.
    intros H. unfold futex_trylock. cbn. split; [by rewrite bool_decide_eq_false_2|].
    intros v. by destruct (negb (v =? 0)).
  Qed.

  Lemma favoids_futex_lock l' loop : l' <> l -> favoids (futex_lock_loop loop l').
  Proof.
    intros H. induction loop as [|loop IH]; cbn [futex_lock_loop];
      (apply favoids_bind; [by apply favoids_futex_trylock|]);
      intros r; destruct (r =? 0); try done.
  Qed.

  Lemma favoids_futex_unlock l' : l' <> l -> favoids (futex_unlock l').
  Proof.
    intros H. unfold futex_unlock. cbn. split; [by rewrite bool_decide_eq_false_2|].
    intros v. destruct (negb (v =? 0)); cbn; [|done]. split; [by rewrite bool_decide_eq_false_2|done].
  Qed.
End futexlogic.

Section futex.
  Context (g : icfg) (f : nat).
  Notation l := (LFutex f).

  Ltac fav := repeat first [apply favoids_bind; [|intros ?] | progress cbn [favoids act passert pair0]
    | split; [by cbn|intros ?] | match goal with |- context[if ?b then _ else _] => destruct b end
    | match goal with |- context[passert ?b _] => destruct b; cbn [passert] end | done].

  Lemma favoids_mutex_trylock pid m : favoids l (mutex_trylock g pid m).
  Proof. unfold mutex_trylock. fav. Qed.
  Lemma favoids_mutex_lock pid m loop : favoids l (mutex_lock_loop g loop pid m).
  Proof.
    induction loop as [|loop IH]; cbn [mutex_lock_loop]; (apply favoids_bind; [apply favoids_mutex_trylock|]);
      intros r; destruct (r =? 0); done.
  Qed.
  Lemma favoids_mutex_unlock pid m : favoids l (mutex_unlock g pid m).
  Proof. unfold mutex_unlock. fav. Qed.
  Lemma favoids_cond_loop fuel pid c m : favoids l (cond_loop g fuel pid c m).
  Proof.
    induction fuel as [|n IH]; cbn [cond_loop]; [done|]. apply favoids_bind; [by cbn|]. intros a.
    destruct (negb (a =? C_NONE)); [done|]. apply favoids_bind; [apply favoids_mutex_unlock|]. intros _.
    apply favoids_bind; [by cbn|]. intros _. apply favoids_bind; [apply favoids_mutex_lock|done].
  Qed.

  Lemma favoids_body i c : on_futex f c = false -> favoids l (body g i c).
  Proof.
    destruct c; cbn [on_futex body]; intros H; try apply bool_decide_eq_false in H.
    - apply favoids_bind; [apply favoids_futex_trylock; congruence|done].
    - apply favoids_bind; [apply favoids_futex_lock; congruence|done].
    - apply favoids_bind; [apply favoids_futex_unlock; congruence|done].
    - apply favoids_bind; [apply favoids_mutex_trylock|done].
    - apply favoids_bind; [apply favoids_mutex_lock|done].
    - apply favoids_bind; [apply favoids_mutex_unlock|done].
    - apply favoids_bind; [|done]. unfold cond_wait. apply favoids_bind; [by cbn|]. intros n.
      destruct (n <? ic_tasks g); [|done]. cbn [passert]. apply favoids_bind; [by cbn|]. intros n'.
      apply favoids_bind; [by cbn|]. intros _. apply favoids_bind; [apply favoids_cond_loop|].
      intros _. unfold cond_reset. fav.
    - by cbn.
    - by cbn.
    - unfold queue_read, head_pop.
      apply favoids_bind; [apply favoids_bind; [by apply favoids_futex_lock|intros _]|intros r; fav].
      apply favoids_bind; [by cbn|]. intros r. apply favoids_bind; [by cbn|]. intros k. cbv zeta.
      apply favoids_bind; [by cbn|]. intros w. destruct (_ =? w).
      + apply favoids_bind; [by apply favoids_futex_unlock|done].
      + apply favoids_bind; [by cbn|]. intros _. apply favoids_bind; [by cbn|]. intros _.
        apply favoids_bind; [by apply favoids_futex_unlock|done].
    - unfold queue_write, head_push.
      apply favoids_bind; [apply favoids_bind; [by apply favoids_futex_lock|intros _]|intros r; fav].
      apply favoids_bind; [by cbn|]. intros r. apply favoids_bind; [by cbn|]. intros k. cbv zeta.
      apply favoids_bind; [by cbn|]. intros w. destruct (_ =? w).
      + apply favoids_bind; [by apply favoids_futex_unlock|done].
      + apply favoids_bind; [by cbn|]. intros w'. apply favoids_bind; [by cbn|]. intros _.
        apply favoids_bind; [by cbn|]. intros _. apply favoids_bind; [by apply favoids_futex_unlock|done].
  Qed.

  Definition fidle (v : Z) (i : nat) (tk : bool) : Prop := (v = 0 /\ tk = false) \/ (v = 1 /\ tk = true).

  Definition fpost (v : Z) (i : nat) (c : call) (tk : bool) (r : Z * Z) : Prop :=
    if on_futex f c then
      match c with
      | FutexLock _ => v = 0 /\ tk = true /\ fst r = 0
      | FutexTrylock _ => (fst r = 0 /\ v = 0 /\ tk = true) \/ (fst r = - EAGAIN /\ fidle v i tk)
      | _ => fidle v i tk
      end
    else fidle v i tk.

  Definition fcJ (v : Z) (i : nat) (c : call) (tk : bool) : Prop :=
    (0 < v -> tk = true) /\ (on_futex f c = false -> fidle v i tk).
  Definition fcstl (v : Z) (i : nat) (c : call) (tk : bool) : Prop := True.
  Definition fcslp (v : Z) (i : nat) (c : call) (tk : bool) : Prop :=
    fidle v i tk.

  Definition flegal (h : list hev) (e : hev) : Prop :=
    forall i, e = HCall i (FutexUnlock f) -> 0 < fheld f i h.
  Definition fview (h : list hev) (i : nat) : Z := fheld f i h.

  Lemma fenter tks M h i c :
    flegal h (HCall i c) -> fcoh l tks M h -> fidle (fview h i) i (tks i) ->
    exists tk', fcoh l (set_tk tks i tk') M (h ++ [HCall i c]) /\
      let v := fview (h ++ [HCall i c]) i in
      wp (fstep l) i (fcJ v i c) (fcstl v i c) (fcslp v i c) (body g i c) tk' (fpost v i c).
  Proof.
    intros Hl Hc Ht. exists (tks i). split; [by eapply fcoh_irrel|]. cbv zeta.
    unfold fview in *. rewrite fheld_snoc. set (n := fheld f i h) in *.
    assert (HJ : forall n, fidle n i (tks i) -> fcJ n i c (tks i)).
    { unfold fcJ. intros k Hk. split; [|done]. destruct Hk as [[-> ?]|[-> ?]]; [lia|done]. }
    destruct (on_futex f c) eqn:Eo.
    2:{ assert (E : fdelta f i (HCall i c) = 0).
        { destruct c; cbn in *; try done; apply bool_decide_eq_false in Eo;
            rewrite bool_decide_eq_false_2; naive_solver. }
        rewrite E, Z.add_0_r. apply favoids_wp; [by apply favoids_body|by auto|done|done|].
        intros a. unfold fpost. by rewrite Eo. }
    assert (HJ1 : forall n, fcJ n i c true) by (unfold fcJ; rewrite Eo; done).
    assert (HJ2 : fcJ 0 i c false) by (unfold fcJ; rewrite Eo; split; [lia|done]).
    destruct c as [f'|f'|f'| | | | | | | | ]; cbn [on_futex] in Eo; try done;
      apply bool_decide_eq_true in Eo as ->.
    - cbn [fdelta body]. rewrite Z.add_0_r. apply wp_bind; [apply fstep_mono|].
      apply wp_futex_trylock; [by auto|done|..].
      + cbn [wp]. split; [by auto|]. unfold fpost. cbn [on_futex]. rewrite bool_decide_eq_true_2 by done.
        by right.
      + intros E. cbn [wp]. split; [done|]. unfold fpost. cbn [on_futex]. rewrite bool_decide_eq_true_2 by done.
        left. destruct Ht as [[? ?]|[? ?]]; [done|congruence].
    - cbn [fdelta body]. rewrite Z.add_0_r. apply wp_bind; [apply fstep_mono|].
      apply wp_futex_lock; [by auto|done|done|done|].
      intros E. cbn [wp]. split; [done|]. unfold fpost. cbn [on_futex]. rewrite bool_decide_eq_true_2 by done.
      destruct Ht as [[? ?]|[? ?]]; [done|congruence].
    - specialize (Hl i eq_refl). fold n in Hl. destruct Ht as [[? ?]|[Hn Ht]]; [lia|].
      cbn [fdelta body]. rewrite bool_decide_eq_true_2 by done. rewrite Hn, Ht.
      apply wp_bind; [apply fstep_mono|]. apply wp_futex_unlock; [done|done|].
      cbn [wp]. split; [done|]. unfold fpost. cbn [on_futex]. rewrite bool_decide_eq_true_2 by done. by left.
  Qed.

  Lemma fret tks M h i c r x :
    flegal h (HRet i c r x) -> fcoh l tks M h -> fpost (fview h i) i c (tks i) (r, x) ->
    exists tk', fcoh l (set_tk tks i tk') M (h ++ [HRet i c r x]) /\
      fidle (fview (h ++ [HRet i c r x]) i) i tk'.
  Proof.
    intros _ Hc Hp. exists (tks i). split; [by eapply fcoh_irrel|].
    unfold fview in *. rewrite fheld_snoc. set (n := fheld f i h) in *. unfold fpost in Hp.
    destruct (on_futex f c) eqn:Eo.
    2:{ assert (E : fdelta f i (HRet i c r x) = 0).
        { destruct c; cbn in *; try done; apply bool_decide_eq_false in Eo;
            rewrite bool_decide_eq_false_2; naive_solver. }
        by rewrite E, Z.add_0_r. }
    destruct c as [f'|f'|f'| | | | | | | | ]; cbn [on_futex] in Eo; try done;
      apply bool_decide_eq_true in Eo as ->; cbn [fdelta fst] in *;
      rewrite ?bool_decide_eq_true_2 by done; cbn [andb].
    - destruct Hp as [(-> & -> & ->)|[-> Hp]].
      + cbn. by right.
      + cbn -[Z.add]. by rewrite Z.add_0_r.
    - destruct Hp as (-> & -> & ->). by right.
    - by rewrite Z.add_0_r.
  Qed.

  Definition FInv := Inv (fstep l) fview (fcoh l) fidle fpost fcJ fcstl fcslp.

  Lemma FInv_run s evs s' :
    FInv s -> sys_run g s evs = Ok s' -> futex_discipline f (y_hist s') -> FInv s'.
  Proof.
    intros HI Hr Hd. eapply Inv_run; [..|done|done|].
    - intros h e j Hj. unfold fview. rewrite fheld_snoc, fdelta_other by done. lia.
    - apply fstep_sound.
    - apply fenter.
    - apply fret.
    - intros h x h' Hh i ->. by eapply Hd.
  Qed.

  Lemma FInv_reach M s :
    ready_mem g M -> reach g M s -> futex_discipline f (y_hist s) -> FInv s.
  Proof.
    intros (qs & jk & ->) [evs Hr] Hd. eapply FInv_run; [|done|done].
    exists (fun _ => false). split.
    - exists None. done.
    - intros i. cbn. by left.
  Qed.

  Lemma futex_exclusion M s i j :
    ready_mem g M -> reach g M s -> futex_discipline f (y_hist s) ->
    0 < fheld f i (y_hist s) -> 0 < fheld f j (y_hist s) -> i = j.
  Proof.
    intros HM Hr Hd Hi Hj. destruct (FInv_reach _ _ HM Hr Hd) as (tks & (ow & _ & H2) & Ht).
    assert (HT : forall k, 0 < fheld f k (y_hist s) -> tks k = true).
    { intros k Hk. specialize (Ht k). unfold fview in Ht.
      destruct (y_thr s k) as [|c p]; cbn [thr_ok] in Ht.
      - destruct Ht as [[? ?]|[? ?]]; [lia|done].
      - apply wp_J in Ht. by apply Ht. }
    pose proof (HT _ Hi) as Ei. pose proof (HT _ Hj) as Ej. rewrite H2 in Ei, Ej.
    apply bool_decide_eq_true in Ei, Ej. congruence.
  Qed.

  (** A task never holds a futex twice. *)
  Lemma futex_once M s i :
    ready_mem g M -> reach g M s -> futex_discipline f (y_hist s) -> y_thr s i = Out ->
    fheld f i (y_hist s) = 0 \/ fheld f i (y_hist s) = 1.
  Proof.
    intros HM Hr Hd Ho. destruct (FInv_reach _ _ HM Hr Hd) as (tks & _ & Ht).
    specialize (Ht i). rewrite Ho in Ht. destruct Ht as [[? ?]|[? ?]]; auto.
  Qed.

  Lemma futex_available M s i :
    ready_mem g M -> reach g M s -> futex_discipline f (y_hist s) ->
    y_thr s i = Out -> fheld f i (y_hist s) = 0 -> (forall j, j <> i -> fquiet f s j) ->
    exists n s', sys_run g s (alone i (FutexTrylock f) n) = Ok s' /\
      y_hist s' = y_hist s ++ [HCall i (FutexTrylock f); HRet i (FutexTrylock f) 0 0].
  Proof.
    intros HM Hr Hd Ho Hi Hq. destruct (FInv_reach _ _ HM Hr Hd) as (tks & (ow & H1 & H2) & Ht).
    assert (HT : forall k, tks k = false).
    { intros k. specialize (Ht k). unfold fview in Ht.
      assert (Hk : fquiet f s k) by (destruct (decide (k = i)) as [->|]; [split; auto|auto]).
      destruct Hk as [Hk [Hk2|[(c & n & p & Hk2)|(c & p & Hk2 & Hk3)]]]; rewrite Hk2, Hk in Ht; cbn [thr_ok wp] in Ht.
      - destruct Ht as [[? ?]|[? ?]]; [done|lia].
      - destruct Ht as (_ & Ht & _). destruct (Ht (ex_intro _ n eq_refl)) as [[? ?]|[? ?]]; [done|lia].
      - apply wp_J in Ht. destruct (proj2 Ht Hk3) as [[? ?]|[? ?]]; [done|lia]. }
    assert (E : y_mem s l = 0).
    { apply H1. destruct ow as [k|]; [|done]. specialize (HT k). rewrite H2 in HT.
      apply bool_decide_eq_false in HT. done. }
    assert (exists M' n, runs (y_mem s) (body g i (FutexTrylock f)) M' (0, 0) n) as (M' & n & R).
    { cbn [body]. unfold pair0, futex_trylock. eexists _, _. eapply runs_bind; [|constructor].
      apply runs_act. cbn [exec fst snd]. rewrite E. constructor. }
    destruct (runs_alone g s i _ _ _ _ _ Ho R) as (s' & Hr' & _ & Hh & _). eauto.
  Qed.
End futex.
