(** IpcAvoid.v - which memory cells each call may touch. *)
From Verif Require Import Base IpcModel IpcSpec IpcLogic.

Definition op_loc (o : memop) : option loc :=
  match o with
  | MRead l | MWrite l _ | MTas l | MCas l _ _ => Some l
  | MSleep _ => None
  end.

(** Every cell accessed by [p] satisfies [S]. *)
Fixpoint within {A} (S : loc -> Prop) (p : prog A) : Prop :=
  match p with
  | Op o k => (forall l, op_loc o = Some l -> S l) /\ forall v, within S (k v)
  | _ => True
  end.

Lemma within_bind {A B} S (p : prog A) (f : A -> prog B) :
  within S p -> (forall a, within S (f a)) -> within S (pbind p f).
Proof.
  induction p as [a| | |o k IH]; cbn; auto.
  intros [H1 H2] Hf. split; [done|]. intros v. by apply IH.
Qed.

Definition uses (c : call) (l : loc) : Prop :=
  match c with
  | FutexTrylock f | FutexLock f | FutexUnlock f => l = LFutex f
  | MutexTrylock m | MutexLock m | MutexUnlock m => l = LOwner m \/ l = LCount m
  | CondWait c m => l = LAct c \/ l = LWait c \/ l = LOwner m \/ l = LCount m
  | CondSignal c | CondBroadcast c => l = LAct c
  | QueueRead q | QueueWrite q _ =>
      l = LQlock q \/ l = LQmask q \/ l = LQr q \/ l = LQw q \/ l = LQi q \/ exists i, l = LQbuf q i
  end.

Ltac wi := repeat first [apply within_bind; [|intros ?] | progress cbn [within act passert pair0]
    | split; [intros ? [= <-]; cbn; by eauto 10|intros ?] | split; [intros ? [=]|intros ?]
    | match goal with |- context[if ?b then _ else _] => destruct b end
    | match goal with |- context[passert ?b _] => destruct b; cbn [passert] end | done].

Section within.
  Context (S : loc -> Prop) (g : icfg).

  Lemma within_futex_trylock l : S l -> within S (futex_trylock l).
  Proof. intros H. unfold futex_trylock. wi. Qed.
  Lemma within_futex_lock l loop : S l -> within S (futex_lock_loop loop l).
  Proof.
    intros H. induction loop as [|loop IH]; cbn [futex_lock_loop];
      (apply within_bind; [by apply within_futex_trylock|]); intros r; destruct (r =? 0); try done.
  Qed.
  Lemma within_futex_unlock l : S l -> within S (futex_unlock l).
  Proof. intros H. unfold futex_unlock. wi. Qed.
  Lemma within_mutex_trylock pid m : S (LOwner m) -> S (LCount m) -> within S (mutex_trylock g pid m).
  Proof. intros H1 H2. unfold mutex_trylock. wi. Qed.
  Lemma within_mutex_lock pid m loop : S (LOwner m) -> S (LCount m) -> within S (mutex_lock_loop g loop pid m).
  Proof.
    intros H1 H2. induction loop as [|loop IH]; cbn [mutex_lock_loop];
      (apply within_bind; [by apply within_mutex_trylock|]); intros r; destruct (r =? 0); try done.
  Qed.
  Lemma within_mutex_unlock pid m : S (LOwner m) -> S (LCount m) -> within S (mutex_unlock g pid m).
  Proof. intros H1 H2. unfold mutex_unlock. wi. Qed.
  Lemma within_cond_loop pid fuel c m :
    S (LAct c) -> S (LOwner m) -> S (LCount m) -> within S (cond_loop g fuel pid c m).
  Proof.
    intros H0 H1 H2. induction fuel as [|n IH]; cbn [cond_loop]; [done|].
    apply within_bind; [wi|]. intros a. destruct (negb (a =? C_NONE)); [done|].
    apply within_bind; [by apply within_mutex_unlock|]. intros _.
    apply within_bind; [wi|]. intros _. apply within_bind; [by apply within_mutex_lock|]. done.
  Qed.
End within.

Lemma within_body g i c : within (uses c) (body g i c).
Proof.
  destruct c; cbn [body].
  - apply within_bind; [by apply within_futex_trylock|done].
  - apply within_bind; [by apply within_futex_lock|done].
  - apply within_bind; [by apply within_futex_unlock|done].
  - apply within_bind; [apply within_mutex_trylock; cbn; auto|done].
  - apply within_bind; [apply within_mutex_lock; cbn; auto|done].
  - apply within_bind; [apply within_mutex_unlock; cbn; auto|done].
  - apply within_bind; [|done]. unfold cond_wait. apply within_bind; [wi|]. intros n.
    destruct (n <? ic_tasks g); [|done]. cbn [passert]. apply within_bind; [wi|]. intros n'.
    apply within_bind; [wi|]. intros _. apply within_bind; [apply within_cond_loop; cbn; auto|].
    intros _. unfold cond_reset. wi.
  - unfold cond_signal. wi.
  - unfold cond_broadcast. wi.
  - unfold queue_read, head_pop.
    apply within_bind; [apply within_bind; [apply within_futex_lock; cbn; auto|intros _]|intros r; wi].
    apply within_bind; [wi|]. intros r. apply within_bind; [wi|]. intros k. cbv zeta.
    apply within_bind; [wi|]. intros w. destruct (_ =? w).
    + apply within_bind; [apply within_futex_unlock; cbn; auto|done].
    + apply within_bind; [wi|]. intros _. apply within_bind; [wi|]. intros _.
      apply within_bind; [apply within_futex_unlock; cbn; auto|done].
  - unfold queue_write, head_push.
    apply within_bind; [apply within_bind; [apply within_futex_lock; cbn; auto|intros _]|intros r; wi].
    apply within_bind; [wi|]. intros r. apply within_bind; [wi|]. intros k. cbv zeta.
    apply within_bind; [wi|]. intros w. destruct (_ =? w).
    + apply within_bind; [apply within_futex_unlock; cbn; auto|done].
    + apply within_bind; [wi|]. intros w'. apply within_bind; [wi|]. intros _.
      apply within_bind; [wi|]. intros _. apply within_bind; [apply within_futex_unlock; cbn; auto|done].
Qed.

(** A protocol [stepok] that says nothing about the cells of [S] lets programs that stay within [S]
    keep their token. *)
Lemma within_wp {T A} (stepok : nat -> memop -> T -> (Z -> T -> Prop) -> Prop) (S : loc -> Prop) i
    (J stl slp : T -> Prop) (p : prog A) tk (Q : T -> A -> Prop) :
  (forall o (Phi : Z -> T -> Prop), (forall l, op_loc o = Some l -> S l) ->
     (forall v, Phi v tk) -> stepok i o tk Phi) ->
  within S p -> J tk -> stl tk -> slp tk -> (forall a, Q tk a) -> wp stepok i J stl slp p tk Q.
Proof.
  intros Hf. induction p as [a| | |o k IH]; cbn [within wp]; auto.
  intros [H1 H2] HJ Hs Hl HQ. split; [done|]. split; [done|]. apply Hf; [done|]. auto.
Qed.
