(** MutexProofs.v - the logic instantiated for one mutex. *)
From Verif Require Import Base IpcModel IpcSpec IpcLogic.
From Coq Require Import ZifyBool ZifyNat.

Lemma wrap_small w x : 0 <= x < 2 ^ w -> wrap w x = x.
Proof. intros. unfold wrap. apply Z.mod_small. lia. Qed.

Lemma nobody_val g : wf_icfg g -> nobody g = 2 ^ ic_abits g - 1.
Proof.
  intros [H _]. unfold nobody, wrap.
  assert (0 < 2 ^ ic_abits g) by (apply Z.pow_pos_nonneg; lia).
  rewrite <- (Z_mod_plus_full (-1) 1). rewrite Z.mod_small by lia. lia.
Qed.

Lemma mheld_app m i h h' : mheld m i (h ++ h') = mheld m i h + mheld m i h'.
Proof. induction h as [|e h IH]; [done|]. cbn [app mheld foldr]. unfold mheld in *. cbn. lia. Qed.

Lemma mheld_snoc m i h e : mheld m i (h ++ [e]) = mheld m i h + mdelta m i e.
Proof. rewrite mheld_app. unfold mheld. cbn. lia. Qed.

Lemma mdelta_other m i e : i <> ev_task e -> mdelta m i e = 0.
Proof.
  intros H. destruct e as [j c|j c r v]; cbn in H |- *; destruct c; try done;
    rewrite ?bool_decide_eq_false_2; try done; intros [? ?]; congruence.
Qed.

(** Token of a task: [None] it does not own the mutex, [Some c] it owns it and count is [c]. *)
Definition tok (n : Z) : option Z := if n <=? 0 then None else Some n.

Section mutex.
  Context (g : icfg) (m : nat).
  Hypothesis Hwf : wf_icfg g.
  Notation nb := (2 ^ ic_abits g - 1).

  Definition mstep (i : nat) (o : memop) (tk : option Z) (Phi : Z -> option Z -> Prop) : Prop :=
    Z.of_nat i < nobody g /\
    match o with
    | MRead l =>
        if decide (l = LOwner m) then forall v, (v = Z.of_nat i <-> tk <> None) -> Phi v tk
        else if decide (l = LCount m) then forall v, (forall c, tk = Some c -> v = c) -> Phi v tk
        else forall v, Phi v tk
    | MWrite l v =>
        if decide (l = LOwner m) then v = nobody g /\ tk = Some 0 /\ Phi 0 None
        else if decide (l = LCount m) then tk <> None /\ Phi 0 (Some v)
        else Phi 0 tk
    | MTas l =>
        if decide (l = LOwner m) then False
        else if decide (l = LCount m) then False
        else forall v, Phi v tk
    | MCas l old new =>
        if decide (l = LOwner m) then
          old = nobody g /\ new = Z.of_nat i /\
          match tk with
          | None => Phi (nobody g) (Some 0) /\ forall v, v <> nobody g -> v <> Z.of_nat i -> Phi v None
          | Some c => Phi (Z.of_nat i) (Some c)
          end
        else if decide (l = LCount m) then False
        else forall v, Phi v tk
    | MSleep _ => forall v, Phi v tk
    end.

  Lemma mstep_mono i o tk (P Q : Z -> option Z -> Prop) :
    (forall v tk', P v tk' -> Q v tk') -> mstep i o tk P -> mstep i o tk Q.
  Proof.
    intros HPQ [H0 H]. split; [done|].
    destruct o as [l|l v|l|l o n|n]; repeat case_decide; try naive_solver.
    destruct H as (? & ? & H). repeat split; try done. destruct tk; [naive_solver|].
    destruct H; split; naive_solver.
  Qed.

  Definition enc (o : option nat) : Z := match o with None => nobody g | Some i => Z.of_nat i end.

  Definition mcoh (tks : nat -> option Z) (M : mem) (h : list hev) : Prop :=
    exists ow, M (LOwner m) = enc ow /\ (ow = None -> M (LCount m) = 0) /\
      (forall i, ow = Some i -> Z.of_nat i < nobody g) /\
      (forall i, tks i = if decide (ow = Some i) then Some (M (LCount m)) else None).

  Lemma upd_same M l v : upd M l v l = v.
  Proof. unfold upd. by rewrite decide_True. Qed.
  Lemma upd_other M l v l' : l' <> l -> upd M l v l' = M l'.
  Proof. intros. unfold upd. by rewrite decide_False. Qed.

  Lemma mcoh_irrel tks M M' h h' i :
    M' (LOwner m) = M (LOwner m) -> M' (LCount m) = M (LCount m) ->
    mcoh tks M h -> mcoh (set_tk tks i (tks i)) M' h'.
  Proof.
    intros E1 E2 (ow & H1 & H2 & H3 & H4). exists ow. rewrite E1, E2.
    repeat split; try done. intros j. unfold set_tk. destruct (decide (j = i)) as [->|]; apply H4.
  Qed.

  Lemma mstep_sound tks M h i o Phi :
    mcoh tks M h -> mstep i o (tks i) Phi ->
    exists tk', mcoh (set_tk tks i tk') (fst (exec o M)) h /\ Phi (snd (exec o M)) tk'.
  Proof.
    intros Hc [Hi H]. pose proof Hc as (ow & H1 & H2 & H3 & H4).
    destruct o as [l|l v|l|l o n|n]; cbn [exec fst snd].
    - exists (tks i). split; [by eapply mcoh_irrel|].
      repeat case_decide; subst; apply H.
      + rewrite H1, H4. case_decide as D; [subst ow; cbn; split; done|].
        split; [|done]. destruct ow as [j|]; cbn; [|lia]. intros E.
        destruct D. f_equal. lia.
      + intros c. rewrite H4. case_decide; congruence.
    - repeat case_decide; subst.
      + destruct H as (-> & Ht & HP). exists None. split; [|done].
        exists None. rewrite upd_same, upd_other by done. repeat split; try done.
        * intros _. rewrite H4 in Ht. case_decide; congruence.
        * intros j. rewrite (decide_False (P := None = Some j)) by done. unfold set_tk.
          case_decide; [done|]. rewrite H4. rewrite decide_False; [done|].
          rewrite H4 in Ht. case_decide as D; [|done]. congruence.
      + destruct H as [Ht HP]. exists (Some v). split; [|done].
        rewrite H4 in Ht. case_decide as D; [|done]. subst ow.
        exists (Some i). rewrite upd_same, upd_other by done. repeat split; try done.
        intros j. unfold set_tk. rewrite H4. repeat case_decide; congruence.
      + exists (tks i). split; [|done]. eapply mcoh_irrel; [..|done]; by rewrite upd_other.
    - repeat case_decide; [done..|]. exists (tks i). split; [|done].
      eapply mcoh_irrel; [..|done]; by rewrite upd_other.
    - repeat case_decide; subst; [|done|].
      + destruct H as (-> & -> & H). rewrite H1. destruct ow as [j|]; cbn [enc].
        * assert (Z.of_nat j <> nobody g) by (pose proof (H3 j eq_refl); lia).
          rewrite (proj2 (Z.eqb_neq _ _)) by done.
          exists (tks i). split; [by eapply mcoh_irrel|].
          rewrite H4 in H |- *. case_decide as D; [injection D as ->; done|].
          destruct H as [_ H]. apply H; [done|]. intros E. destruct D. f_equal. lia.
        * rewrite Z.eqb_refl. rewrite H4 in H. rewrite decide_False in H by done.
          destruct H as [H _]. exists (Some 0). split; [|done].
          exists (Some i). rewrite upd_same, upd_other by done. repeat split; try done.
          -- by intros j [= ->].
          -- intros j. unfold set_tk. destruct (decide (j = i)) as [->|].
             ++ rewrite decide_True by done. by rewrite H2.
             ++ rewrite decide_False by congruence. rewrite H4. by rewrite decide_False.
      + exists (tks i). split; [|apply H].
        destruct (M l =? o); eapply mcoh_irrel; [..|done| | |done]; try done; by rewrite upd_other.
    - exists (tks i). split; [by eapply mcoh_irrel|apply H].
  Qed.

  (** ** Programs that do not touch the mutex *)
  Definition touches (o : memop) : bool :=
    match o with
    | MRead l | MWrite l _ | MTas l | MCas l _ _ => bool_decide (l = LOwner m) || bool_decide (l = LCount m)
    | MSleep _ => false
    end.

  Fixpoint avoids {A} (p : prog A) : Prop :=
    match p with
    | Op o k => touches o = false /\ forall v, avoids (k v)
    | _ => True
    end.

  Lemma avoids_bind {A B} (p : prog A) (f : A -> prog B) :
    avoids p -> (forall a, avoids (f a)) -> avoids (pbind p f).
  Proof.
    induction p as [a| | |o k IH]; cbn; auto.
    intros [H1 H2] Hf. split; [done|]. intros v. by apply IH.
  Qed.

  Notation mwp := (wp mstep).

  Lemma avoids_wp {A} i (J stl slp : option Z -> Prop) (p : prog A) tk (Q : option Z -> A -> Prop) :
    Z.of_nat i < nobody g -> avoids p -> J tk -> stl tk -> slp tk -> (forall a, Q tk a) -> mwp i J stl slp p tk Q.
  Proof.
    intros Hi. induction p as [a| | |o k IH]; cbn [avoids wp]; auto.
    intros [H1 H2] HJ Hs Hl HQ. split; [done|]. split; [done|]. split; [done|].
    destruct o as [l|l v|l|l o n|n]; cbn [touches] in H1.
    all: try (apply orb_false_iff in H1 as [X Y]; apply bool_decide_eq_false in X, Y;
              rewrite !decide_False by done); auto.
  Qed.

  (** ** The mutex functions *)

  Ltac go := apply wp_act; [apply mstep_mono|try done|by intros [? ?]|]; [split; [done|]|..].

  Lemma wp_trylock i (J stl slp : option Z -> Prop) tk (Q : option Z -> Z -> Prop) :
    Z.of_nat i < nobody g ->
    (forall c, J (Some c)) ->
    (tk = None -> J None /\ Q None (- EAGAIN)) ->
    Q (Some (wrap (ic_szbits g) (default 0 tk + 1))) 0 ->
    mwp i J stl slp (mutex_trylock g (Z.of_nat i) m) tk Q.
  Proof.
    intros Hi HJ HF HS. unfold mutex_trylock.
    assert (HJt : J tk) by (destruct tk; [done|by apply HF]).
    assert (Hcnt : forall c, tk = Some c \/ (tk = None /\ c = 0) ->
      mwp i J stl slp
        (c <~ act (MRead (LCount m));
         _ <~ act (MWrite (LCount m) (wrap (ic_szbits g) (c + 1))); Ret 0) (Some c) Q).
    { intros c Hc. go.
      rewrite decide_False by done. rewrite decide_True by done. intros v Hv.
      rewrite (Hv c) by done. go. rewrite decide_False by done. rewrite decide_True by done.
      split; [done|]. cbn [wp]. split; [done|]. destruct Hc as [->|[-> ->]]; done. }
    go. rewrite decide_True by done. split; [done|]. split; [done|].
    destruct tk as [c|].
    - rewrite (proj2 (Z.eqb_neq _ _)) by lia.
      apply wp_bind; [apply mstep_mono|]. go. rewrite decide_True by done. intros v Hv.
      rewrite (proj2 Hv) by done. rewrite Z.eqb_refl. cbn [wp]. split; [done|]. apply Hcnt. auto.
    - split.
      + rewrite Z.eqb_refl. cbn [pbind]. apply Hcnt. auto.
      + intros v Hv1 Hv2. rewrite (proj2 (Z.eqb_neq _ _)) by done.
        apply wp_bind; [apply mstep_mono|]. go. rewrite decide_True by done. intros v' Hv'.
        rewrite (proj2 (Z.eqb_neq _ _)) by naive_solver. cbn [wp]. split; [done|]. split; [done|].
        by apply HF.
  Qed.

  Lemma wp_lock i (J stl slp : option Z -> Prop) loop tk (Q : option Z -> Z -> Prop) :
    Z.of_nat i < nobody g ->
    (forall c, J (Some c)) ->
    (tk = None -> J None /\ stl None /\ slp None) ->
    Q (Some (wrap (ic_szbits g) (default 0 tk + 1))) 0 ->
    mwp i J stl slp (mutex_lock_loop g loop (Z.of_nat i) m) tk Q.
  Proof.
    intros Hi HJ. induction loop as [|loop IH]; intros HF HS; cbn [mutex_lock_loop].
    - apply wp_bind; [apply mstep_mono|]. apply wp_trylock; [done|done|..].
      + intros ->. cbn. destruct HF as (? & ? & ?); done.
      + done.
    - apply wp_bind; [apply mstep_mono|]. apply wp_trylock; [done|done|..].
      + intros ->. destruct HF as (? & ? & ?); [done|]. cbn -[mutex_lock_loop mstep].
        split; [done|]. split; [done|]. split; [intros _; done|].
        split; [done|]. intros _. by apply IH.
      + done.
  Qed.

  Lemma wp_unlock i (J stl slp : option Z -> Prop) tk (Q : option Z -> Z -> Prop) :
    Z.of_nat i < nobody g ->
    (tk <> None -> forall c, J (Some c)) ->
    (tk = None -> J None /\ stl None) ->
    (forall c, tk = Some c -> 0 < c < 2 ^ ic_szbits g /\ J (tok (c - 1)) /\ Q (tok (c - 1)) 0) ->
    mwp i J stl slp (mutex_unlock g (Z.of_nat i) m) tk Q.
  Proof.
    intros Hi HJ HN HS. unfold mutex_unlock.
    assert (HJt : J tk) by (destruct tk; [by apply HJ|by apply HN]).
    go. rewrite decide_True by done. intros v Hv. destruct tk as [c|].
    2:{ rewrite (proj2 (Z.eqb_neq _ _)) by naive_solver. cbn. by apply HN. }
    destruct (HS c eq_refl) as (Hc & HJ' & HQ). specialize (HJ ltac:(done)).
    rewrite (proj2 Hv) by done. rewrite Z.eqb_refl. cbn [passert].
    go. rewrite decide_False by done. rewrite decide_True by done. intros v1 Hv1. rewrite (Hv1 c) by done.
    assert (E : (c >? 0) = true) by lia. rewrite E. cbn [passert].
    go. rewrite decide_False by done. rewrite decide_True by done. intros v2 Hv2. rewrite (Hv2 c) by done.
    rewrite wrap_small by lia. cbv zeta.
    go. rewrite decide_False by done. rewrite decide_True by done. split; [done|].
    unfold tok in HQ, HJ'. destruct (c - 1 =? 0) eqn:E0.
    - assert (E1 : (c - 1 <=? 0) = true) by lia. rewrite E1 in HQ, HJ'.
      go. rewrite decide_True by done. split; [done|]. split; [f_equal; lia|]. done.
    - assert (E1 : (c - 1 <=? 0) = false) by lia. rewrite E1 in HQ, HJ'. cbn [wp]. done.
  Qed.

  Lemma wp_cond_loop i (J stl slp : option Z -> Prop) fuel c n (Q : option Z -> Z -> Prop) :
    Z.of_nat i < nobody g -> 0 <= n < 2 ^ ic_szbits g ->
    (0 < n -> forall c, J (Some c)) -> J (tok n) -> J (tok (n - 1)) ->
    (forall tk, stl tk) -> (0 < n -> slp (tok (n - 1))) -> (forall r, Q (tok n) r) ->
    mwp i J stl slp (cond_loop g fuel (Z.of_nat i) c m) (tok n) Q.
  Proof.
    intros Hi Hn HJ HJn HJn1 Hs Hl HQ. induction fuel as [|f IH]; cbn [cond_loop]; [done|].
    go. rewrite !decide_False by done. intros a. destruct (negb (a =? C_NONE)); [cbn [wp]; done|].
    apply wp_bind; [apply mstep_mono|]. apply wp_unlock; [done| | |].
    { intros HN. apply HJ. unfold tok in HN. destruct (n <=? 0) eqn:E; [done|lia]. }
    { intros E. by rewrite <- E. }
    intros x Hx. unfold tok in Hx. destruct (n <=? 0) eqn:E; [done|]. injection Hx as <-.
    specialize (HJ ltac:(lia)).
    split; [lia|]. split; [done|]. apply wp_bind; [apply mstep_mono|].
    cbn -[mutex_lock mutex_lock_loop mstep cond_loop tok]. split; [done|].
    split; [intros _; apply Hl; lia|]. split; [done|].
    intros _. split; [done|]. apply wp_bind; [apply mstep_mono|]. apply wp_lock; [done|done|..].
    - intros HN. rewrite <- HN. split; [done|]. split; [done|]. apply Hl; lia.
    - assert (Et : Some (wrap (ic_szbits g) (default 0 (tok (n - 1)) + 1)) = tok n).
      { unfold tok. rewrite E. destruct (n - 1 <=? 0) eqn:E1; cbn; rewrite wrap_small by lia; f_equal; lia. }
      rewrite Et. apply IH.
  Qed.

  Ltac av := repeat first [apply avoids_bind; [|intros ?] | progress cbn [avoids act passert pair0]
    | split; [by cbn|intros ?] | match goal with |- context[if ?b then _ else _] => destruct b end
    | match goal with |- context[passert ?b _] => destruct b; cbn [passert] end | done].

  Lemma avoids_futex_lock l loop : l <> LOwner m -> l <> LCount m -> avoids (futex_lock_loop loop l).
  Proof.
    intros H1 H2. induction loop as [|loop IH]; cbn [futex_lock_loop];
      (apply avoids_bind; [unfold futex_trylock; apply avoids_bind;
        [cbn; split; [by rewrite !bool_decide_eq_false_2|done]|intros v; by destruct (negb (v =? 0))]|]);
      intros r; destruct (r =? 0); try done.
  Qed.

  Lemma avoids_futex_unlock l : l <> LOwner m -> l <> LCount m -> avoids (futex_unlock l).
  Proof.
    intros H1 H2. unfold futex_unlock. cbn. split; [by rewrite !bool_decide_eq_false_2|].
    intros v. destruct (negb (v =? 0)); cbn; [|done]. split; [by rewrite !bool_decide_eq_false_2|done].
  Qed.

  Lemma avoids_mutex_trylock pid m' : m' <> m -> avoids (mutex_trylock g pid m').
  Proof.
    intros H. assert (LOwner m' <> LOwner m /\ LCount m' <> LCount m) as [E1 E2] by (split; congruence).
    unfold mutex_trylock. cbn. split; [by rewrite !bool_decide_eq_false_2|]. intros v.
    destruct (v =? nobody g); cbn.
    all: split; [by rewrite !bool_decide_eq_false_2|]; intros v1; cbn.
    1: split; [by rewrite !bool_decide_eq_false_2|done].
    destruct (v1 =? pid); cbn; [|done].
    split; [by rewrite !bool_decide_eq_false_2|]. intros v2. cbn.
    split; [by rewrite !bool_decide_eq_false_2|done].
  Qed.

  Lemma avoids_mutex_lock pid m' loop : m' <> m -> avoids (mutex_lock_loop g loop pid m').
  Proof.
    intros H. induction loop as [|loop IH]; cbn [mutex_lock_loop];
      (apply avoids_bind; [by apply avoids_mutex_trylock|]); intros r; destruct (r =? 0); try done.
  Qed.

  Lemma avoids_mutex_unlock pid m' : m' <> m -> avoids (mutex_unlock g pid m').
  Proof.
    intros H. assert (LOwner m' <> LOwner m /\ LCount m' <> LCount m) as [E1 E2] by (split; congruence).
    unfold mutex_unlock. cbn. split; [by rewrite !bool_decide_eq_false_2|]. intros v.
    destruct (v =? pid); cbn; [|done].
    split; [by rewrite !bool_decide_eq_false_2|]. intros v1. destruct (v1 >? 0); cbn; [|done].
    split; [by rewrite !bool_decide_eq_false_2|]. intros v2.
    split; [by rewrite !bool_decide_eq_false_2|]. intros v3.
    destruct (wrap (ic_szbits g) (v2 - 1) =? 0); cbn; [|done].
    split; [by rewrite !bool_decide_eq_false_2|done].
  Qed.

  Lemma avoids_cond_loop pid fuel c m' : m' <> m -> avoids (cond_loop g fuel pid c m').
  Proof.
    intros H. induction fuel as [|f IH]; cbn [cond_loop]; [done|].
    apply avoids_bind; [by cbn|]. intros a. destruct (negb (a =? C_NONE)); [done|].
    apply avoids_bind; [by apply avoids_mutex_unlock|]. intros _.
    apply avoids_bind; [by cbn|]. intros _.
    apply avoids_bind; [by apply avoids_mutex_lock|]. auto.
  Qed.

  Lemma avoids_cond_reset c : avoids (cond_reset g c).
  Proof. unfold cond_reset. av. Qed.

  Lemma avoids_body i c : on_mutex m c = false -> avoids (body g i c).
  Proof.
    destruct c; cbn [on_mutex body]; intros H; try apply bool_decide_eq_false in H.
    - unfold futex_trylock. av.
    - apply avoids_bind; [by apply avoids_futex_lock|done].
    - apply avoids_bind; [by apply avoids_futex_unlock|done].
    - apply avoids_bind; [by apply avoids_mutex_trylock|done].
    - apply avoids_bind; [by apply avoids_mutex_lock|done].
    - apply avoids_bind; [by apply avoids_mutex_unlock|done].
    - apply avoids_bind; [|done]. unfold cond_wait.
      apply avoids_bind; [by cbn|]. intros n. destruct (n <? ic_tasks g); [|done]. cbn [passert].
      apply avoids_bind; [by cbn|]. intros n'.
      apply avoids_bind; [by cbn|]. intros _.
      apply avoids_bind; [by apply avoids_cond_loop|]. intros _. apply avoids_cond_reset.
    - by cbn.
    - by cbn.
    - unfold queue_read, head_pop.
      apply avoids_bind; [apply avoids_bind; [by apply avoids_futex_lock|intros _]|intros r; av].
      apply avoids_bind; [by cbn|]. intros r. apply avoids_bind; [by cbn|]. intros k. cbv zeta.
      apply avoids_bind; [by cbn|]. intros w. destruct (_ =? w).
      + apply avoids_bind; [by apply avoids_futex_unlock|done].
      + apply avoids_bind; [by cbn|]. intros _. apply avoids_bind; [by cbn|]. intros _.
        apply avoids_bind; [by apply avoids_futex_unlock|done].
    - unfold queue_write, head_push.
      apply avoids_bind; [apply avoids_bind; [by apply avoids_futex_lock|intros _]|intros r; av].
      apply avoids_bind; [by cbn|]. intros r. apply avoids_bind; [by cbn|]. intros k. cbv zeta.
      apply avoids_bind; [by cbn|]. intros w. destruct (_ =? w).
      + apply avoids_bind; [by apply avoids_futex_unlock|done].
      + apply avoids_bind; [by cbn|]. intros w'. apply avoids_bind; [by cbn|]. intros _.
        apply avoids_bind; [by cbn|]. intros _. apply avoids_bind; [by apply avoids_futex_unlock|done].
  Qed.

  (** ** The system invariant *)

  Definition midle (v : Z) (i : nat) (tk : option Z) : Prop := 0 <= v /\ tk = tok v.

  Definition mpost (v : Z) (i : nat) (c : call) (tk : option Z) (r : Z * Z) : Prop :=
    if on_mutex m c then
      match c with
      | MutexLock _ => 0 <= v /\ fst r = 0 /\ tk = Some (wrap (ic_szbits g) (v + 1))
      | MutexTrylock _ => 0 <= v /\ ((fst r = 0 /\ tk = Some (wrap (ic_szbits g) (v + 1))) \/
                                     (fst r = - EAGAIN /\ v = 0 /\ tk = tok v))
      | CondWait _ _ => 0 <= v + 1 /\ tk = tok (v + 1)
      | _ => 0 <= v /\ tk = tok v
      end
    else 0 <= v /\ tk = tok v.

  Definition mcJ (v : Z) (i : nat) (c : call) (tk : option Z) : Prop :=
    if on_mutex m c then (0 < v -> tk <> None) /\ (v < 0 -> tk = None) else 0 <= v /\ tk = tok v.

  Definition mcstl (v : Z) (i : nat) (c : call) (tk : option Z) : Prop :=
    if on_mutex m c then
      match c with
      | MutexLock _ => v = 0
      | MutexTrylock _ => False
      | MutexUnlock _ => v < 0
      | _ => True
      end
    else tk = tok v.

  Definition mcslp (v : Z) (i : nat) (c : call) (tk : option Z) : Prop :=
    tk = tok v /\ 0 <= v /\
    if on_mutex m c then
      match c with
      | MutexLock _ => v = 0
      | CondWait _ _ => True
      | _ => False
      end
    else True.

  Definition mlegal (h : list hev) (e : hev) : Prop :=
    (forall i c, e = HCall i c -> Z.of_nat i < nobody g) /\
    forall i, mheld m i h < 2 ^ ic_szbits g /\ mheld m i (h ++ [e]) < 2 ^ ic_szbits g.

  Definition mview (h : list hev) (i : nat) : Z := mheld m i h.

  Lemma menter tks M h i c :
    mlegal h (HCall i c) -> mcoh tks M h -> midle (mview h i) i (tks i) ->
    exists tk', mcoh (set_tk tks i tk') M (h ++ [HCall i c]) /\
      let v := mview (h ++ [HCall i c]) i in
      mwp i (mcJ v i c) (mcstl v i c) (mcslp v i c) (body g i c) tk' (mpost v i c).
  Proof.
    intros [Hp Hd] Hc [Hv0 Ht]. exists (tks i). split; [by eapply mcoh_irrel|]. cbv zeta.
    specialize (Hp i c eq_refl). unfold mview in *. rewrite mheld_snoc.
    destruct (Hd i) as [Hd1 Hd2]. rewrite mheld_snoc in Hd2.
    set (n := mheld m i h) in *. rewrite Ht.
    destruct (on_mutex m c) eqn:Eo.
    2:{ assert (E : mdelta m i (HCall i c) = 0).
        { destruct c; cbn in *; try done; apply bool_decide_eq_false in Eo;
            rewrite bool_decide_eq_false_2; naive_solver. }
        rewrite E, Z.add_0_r. apply avoids_wp; [done|by apply avoids_body|..].
        - unfold mcJ. by rewrite Eo.
        - unfold mcstl. by rewrite Eo.
        - unfold mcslp. by rewrite Eo.
        - intros a. unfold mpost. by rewrite Eo. }
    assert (HJS : forall v x, 0 <= v -> mcJ v i c (Some x)) by (intros; unfold mcJ; rewrite Eo; split; [done|lia]).
    destruct c as [ | | |m'|m'|m'|c' m'| | | | ]; cbn [on_mutex] in Eo; try done;
      apply bool_decide_eq_true in Eo as ->.
    - (* trylock *)
      cbn [mdelta body]. rewrite Z.add_0_r. apply wp_bind; [apply mstep_mono|].
      apply wp_trylock; [done|by auto|..].
      + intros HN. cbn [wp]. unfold mpost, mcJ. cbn [on_mutex]. rewrite bool_decide_eq_true_2 by done.
        unfold tok in *. destruct (n <=? 0) eqn:E; [|done].
        split; [lia|]. split; [lia|]. split; [done|]. right. cbn. repeat split; lia.
      + cbn [wp]. split; [by auto|]. unfold mpost. cbn [on_mutex]. rewrite bool_decide_eq_true_2 by done.
        split; [done|]. left. split; [done|]. do 2 f_equal. unfold tok. destruct (n <=? 0) eqn:E; cbn; lia.
    - (* lock *)
      cbn [mdelta body]. rewrite Z.add_0_r. apply wp_bind; [apply mstep_mono|].
      apply wp_lock; [done|by auto|..].
      + intros HN. unfold mcstl, mcslp, mcJ. cbn [on_mutex]. rewrite bool_decide_eq_true_2 by done.
        rewrite HN. unfold tok in HN. destruct (n <=? 0) eqn:E; [|done]. repeat split; lia.
      + cbn [wp]. split; [by auto|]. unfold mpost. cbn [on_mutex]. rewrite bool_decide_eq_true_2 by done.
        repeat split; [done|]. do 2 f_equal. unfold tok. destruct (n <=? 0) eqn:E; cbn; lia.
    - (* unlock *)
      cbn [mdelta body] in *. rewrite bool_decide_eq_true_2 in * by done.
      apply wp_bind; [apply mstep_mono|]. apply wp_unlock; [done|..].
      + intros HN x. apply HJS. unfold tok in HN. destruct (n <=? 0) eqn:E; [done|lia].
      + intros HN. unfold mcstl, mcJ. cbn [on_mutex]. rewrite bool_decide_eq_true_2 by done.
        unfold tok in HN. destruct (n <=? 0) eqn:E; [|done]. repeat split; try done; lia.
      + intros c Hc'. unfold tok in Hc'. destruct (n <=? 0) eqn:E; [done|]. injection Hc' as <-.
        split; [lia|]. assert (HJ1 : mcJ (n + -1) i (MutexUnlock m) (tok (n - 1))).
        { unfold mcJ. cbn [on_mutex]. rewrite bool_decide_eq_true_2 by done.
          unfold tok. split; [|lia]. intros ?. by replace (n - 1 <=? 0) with false by lia. }
        split; [done|]. cbn [wp]. split; [done|].
        unfold mpost. cbn [on_mutex]. rewrite bool_decide_eq_true_2 by done.
        split; [lia|]. f_equal.
    - (* cond_wait *)
      cbn [mdelta body] in *. rewrite bool_decide_eq_true_2 in * by done.
      assert (HJn : mcJ (n + -1) i (CondWait c' m) (tok n)).
      { unfold mcJ. cbn [on_mutex]. rewrite bool_decide_eq_true_2 by done.
        unfold tok. split; intros ?; [by replace (n <=? 0) with false by lia|by replace (n <=? 0) with true by lia]. }
      assert (HJ1 : mcJ (n + -1) i (CondWait c' m) (tok (n - 1))).
      { unfold mcJ. cbn [on_mutex]. rewrite bool_decide_eq_true_2 by done.
        unfold tok. split; intros ?; [by replace (n - 1 <=? 0) with false by lia|by replace (n - 1 <=? 0) with true by lia]. }
      apply wp_bind; [apply mstep_mono|]. unfold cond_wait.
      go. rewrite !decide_False by done. intros x. unfold passert. destruct (x <? ic_tasks g).
      2:{ cbn [wp]. split; [done|]. unfold mcstl. cbn [on_mutex]. by rewrite bool_decide_eq_true_2. }
      go. rewrite !decide_False by done. intros y.
      go. rewrite !decide_False by done.
      apply wp_bind; [apply mstep_mono|]. apply wp_cond_loop; [done|lia|intros ? ?; apply HJS; lia|done|done|..].
      + intros tk. unfold mcstl. cbn [on_mutex]. by rewrite bool_decide_eq_true_2.
      + intros Hn. unfold mcslp. cbn [on_mutex]. rewrite bool_decide_eq_true_2 by done.
        repeat split. lia.
      + intros _. assert (HQ : forall r, mpost (n + -1) i (CondWait c' m) (tok n) r).
        { intros r. unfold mpost. cbn [on_mutex]. rewrite bool_decide_eq_true_2 by done.
          replace (n + -1 + 1) with n by lia. done. }
        unfold cond_reset.
        go. rewrite !decide_False by done. intros k. cbv zeta.
        go. rewrite !decide_False by done.
        destruct (_ =? 0).
        * go. rewrite !decide_False by done. cbn [wp]. auto.
        * go. rewrite !decide_False by done. intros a.
          destruct (_ =? _); [|cbn [wp]; auto].
          go. rewrite !decide_False by done. cbn [wp]. auto.
  Qed.

  Lemma mret tks M h i c r x :
    mlegal h (HRet i c r x) -> mcoh tks M h -> mpost (mview h i) i c (tks i) (r, x) ->
    exists tk', mcoh (set_tk tks i tk') M (h ++ [HRet i c r x]) /\
      midle (mview (h ++ [HRet i c r x]) i) i tk'.
  Proof.
    intros [_ Hd] Hc Hp. exists (tks i). split; [by eapply mcoh_irrel|].
    unfold mview in *. destruct (Hd i) as [Hd1 Hd2]. rewrite mheld_snoc in *.
    set (n := mheld m i h) in *. unfold mpost in Hp. unfold midle.
    destruct (on_mutex m c) eqn:Eo.
    2:{ assert (E : mdelta m i (HRet i c r x) = 0).
        { destruct c; cbn in *; try done; apply bool_decide_eq_false in Eo;
            rewrite bool_decide_eq_false_2; naive_solver. }
        by rewrite E, Z.add_0_r. }
    destruct c as [ | | |m'|m'|m'|c' m'| | | | ]; cbn [on_mutex] in Eo; try done;
      apply bool_decide_eq_true in Eo as ->; cbn [mdelta fst] in *;
      rewrite ?bool_decide_eq_true_2 in * by done; cbn [andb] in *.
    - destruct Hp as (H0 & [[-> ->]|(-> & Hn & ->)]).
      + cbn [Z.eqb] in *. split; [lia|]. rewrite wrap_small by lia. unfold tok.
        by replace (n + 1 <=? 0) with false by lia.
      + cbn -[tok]. rewrite Z.add_0_r. done.
    - destruct Hp as (H0 & -> & ->). split; [lia|]. rewrite wrap_small by lia. unfold tok.
      by replace (n + 1 <=? 0) with false by lia.
    - rewrite Z.add_0_r. done.
    - done.
  Qed.

  Definition MInv := Inv mstep mview mcoh midle mpost mcJ mcstl mcslp.

  Lemma MInv_run s evs s' :
    MInv s -> sys_run g s evs = Ok s' ->
    pids_ok g (y_hist s') -> depth_ok g m (y_hist s') -> MInv s'.
  Proof.
    intros HI Hr Hp Hd. eapply Inv_run; [..|done|done|].
    - intros h e j Hj. unfold mview. rewrite mheld_snoc, mdelta_other by done. lia.
    - apply mstep_sound.
    - apply menter.
    - apply mret.
    - intros h x h' Hh. split.
      + intros i c ->. rewrite nobody_val by done. apply (Hp i c). rewrite Hh. apply elem_of_app. right. left.
      + intros i. rewrite Hh in Hd. split; apply Hd.
        * apply prefix_app_r. done.
        * replace (x :: h') with ([x] ++ h') by done. rewrite app_assoc. by apply prefix_app_r.
  Qed.

  Lemma MInv_init M : ready_mem g M -> MInv (sys0 M).
  Proof.
    intros (qs & jk & ->). exists (fun _ => None). split.
    - exists None. cbn. repeat split; try done.
    - intros i. cbn. unfold mview, midle. cbn. done.
  Qed.

  Lemma MInv_reach M s :
    ready_mem g M -> reach g M s -> pids_ok g (y_hist s) -> depth_ok g m (y_hist s) -> MInv s.
  Proof. intros HM [evs Hr]. eapply MInv_run; [by apply MInv_init|done]. Qed.
End mutex.
