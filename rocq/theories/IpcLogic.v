(** IpcLogic.v - a small program logic for [prog] and its soundness for systems of tasks. *)
From Verif Require Import Base IpcModel IpcSpec.

Lemma sys_run_app g s evs1 evs2 :
  sys_run g s (evs1 ++ evs2) = (let! s1 := sys_run g s evs1 in sys_run g s1 evs2).
Proof.
  revert s; induction evs1 as [|e evs1 IH]; intros s; [done|].
  cbn [sys_run app rbind]. destruct (sys_step g s e); cbn [rbind]; auto.
Qed.

Lemma sys_step_hist g s e s' :
  sys_step g s e = Ok s' -> y_hist s `prefix_of` y_hist s'.
Proof.
  destruct e as [i c|i]; cbn [sys_step].
  - destruct (y_thr s i); intros [= <-]; cbn; [by apply prefix_app_r|done].
  - destruct (y_thr s i) as [|c [[r v]| | |o k]]; try (intros [= <-]; cbn; done); try done.
    + intros [= <-]; cbn. by apply prefix_app_r.
    + destruct (exec o (y_mem s)) as [M v]. intros [= <-]; done.
Qed.

Lemma sys_run_hist g s evs s' :
  sys_run g s evs = Ok s' -> y_hist s `prefix_of` y_hist s'.
Proof.
  revert s; induction evs as [|e evs IH]; intros s; cbn [sys_run].
  - intros [= <-]; done.
  - destruct (sys_step g s e) as [s1| | |] eqn:E; cbn [rbind]; try done.
    intros H. etrans; [by eapply sys_step_hist|by apply IH].
Qed.

Section logic.
  Context {T : Type}.
  Context (stepok : nat -> memop -> T -> (Z -> T -> Prop) -> Prop).

  (** [wp i J stl slp p tk Q]: started with token [tk], task [i] executing [p] keeps to the protocol
      [stepok], returns only with [Q], stalls only with [stl], sleeps only with [slp], and its token
      satisfies [J] all along. *)
  Fixpoint wp {A} (i : nat) (J stl slp : T -> Prop) (p : prog A) (tk : T) (Q : T -> A -> Prop) : Prop :=
    J tk /\
    match p with
    | Ret a => Q tk a
    | Stall => stl tk
    | OutOfFuel => True
    | Op o k => ((exists n, o = MSleep n) -> slp tk) /\
                stepok i o tk (fun v tk' => wp i J stl slp (k v) tk' Q)
    end.

  Hypothesis stepok_mono : forall i o tk (P Q : Z -> T -> Prop),
    (forall v tk', P v tk' -> Q v tk') -> stepok i o tk P -> stepok i o tk Q.

  Lemma wp_J {A} i (J stl slp : T -> Prop) (p : prog A) tk Q : wp i J stl slp p tk Q -> J tk.
  Proof. destruct p; intros []; done. Qed.

  Lemma wp_bind {A B} i (J stl slp : T -> Prop) (p : prog A) (f : A -> prog B) tk (Q : T -> B -> Prop) :
    wp i J stl slp p tk (fun t a => wp i J stl slp (f a) t Q) -> wp i J stl slp (pbind p f) tk Q.
  Proof.
    revert tk. induction p as [a| | |o k IH]; intros tk; cbn [wp pbind]; try (intros []; auto; done).
    intros (H0 & H1 & H2). split; [done|]. split; [auto|]. eapply stepok_mono, H2. cbn. auto.
  Qed.

  Lemma wp_act {A} i (J stl slp : T -> Prop) o (f : Z -> prog A) tk (Q : T -> A -> Prop) :
    J tk ->
    ((exists n, o = MSleep n) -> slp tk) ->
    stepok i o tk (fun v t => wp i J stl slp (f v) t Q) ->
    wp i J stl slp (pbind (act o) f) tk Q.
  Proof.
    intros H0 H1 H2. apply wp_bind. cbn [act wp]. split; [done|]. split; [done|].
    eapply stepok_mono, H2. cbn. intros v tk' H. split; [by eapply wp_J|done].
  Qed.

  (** ** Systems *)
  Context {V : Type} (g : icfg).
  Context (view : list hev -> nat -> V).
  Context (coh : (nat -> T) -> mem -> list hev -> Prop).
  Context (idle : V -> nat -> T -> Prop).
  Context (post : V -> nat -> call -> T -> Z * Z -> Prop).
  Context (cJ cstl cslp : V -> nat -> call -> T -> Prop).
  Context (legal : list hev -> hev -> Prop).

  Definition set_tk (tks : nat -> T) (i : nat) (t : T) : nat -> T :=
    fun j => if decide (j = i) then t else tks j.

  Definition thr_ok (v : V) (i : nat) (tk : T) (t : thread) : Prop :=
    match t with
    | Out => idle v i tk
    | In c p => wp i (cJ v i c) (cstl v i c) (cslp v i c) p tk (post v i c)
    end.

  Definition Inv (s : sys) : Prop :=
    exists tks, coh tks (y_mem s) (y_hist s) /\
      forall i, thr_ok (view (y_hist s) i) i (tks i) (y_thr s i).

  Definition ev_task (e : hev) : nat := match e with HCall i _ => i | HRet i _ _ _ => i end.

  Hypothesis view_local : forall h e j, j <> ev_task e -> view (h ++ [e]) j = view h j.
  Hypothesis step_sound : forall tks M h i o Phi,
    coh tks M h -> stepok i o (tks i) Phi ->
    exists tk', coh (set_tk tks i tk') (fst (exec o M)) h /\ Phi (snd (exec o M)) tk'.
  Hypothesis enter_sound : forall tks M h i c,
    legal h (HCall i c) -> coh tks M h -> idle (view h i) i (tks i) ->
    exists tk', coh (set_tk tks i tk') M (h ++ [HCall i c]) /\
      let v := view (h ++ [HCall i c]) i in
      wp i (cJ v i c) (cstl v i c) (cslp v i c) (body g i c) tk' (post v i c).
  Hypothesis ret_sound : forall tks M h i c r x,
    legal h (HRet i c r x) -> coh tks M h -> post (view h i) i c (tks i) (r, x) ->
    exists tk', coh (set_tk tks i tk') M (h ++ [HRet i c r x]) /\
      idle (view (h ++ [HRet i c r x]) i) i tk'.

  Lemma Inv_step s e s' :
    Inv s -> sys_step g s e = Ok s' ->
    (forall h x h', y_hist s' = h ++ x :: h' -> legal h x) ->
    Inv s'.
  Proof.
    intros (tks & Hc & Ht) Hs Hl. destruct e as [i c|i]; cbn [sys_step] in Hs.
    - destruct (y_thr s i) eqn:Ei; injection Hs as <-; [|by exists tks].
      assert (L : legal (y_hist s) (HCall i c)) by (eapply Hl; done).
      pose proof (Ht i) as Hti. rewrite Ei in Hti. cbn [thr_ok] in Hti.
      destruct (enter_sound tks (y_mem s) (y_hist s) i c L Hc Hti) as (tk' & Hc' & Hw).
      exists (set_tk tks i tk'). cbn [y_mem y_hist y_thr]. split; [done|].
      intros j. unfold set_tk, tupd. destruct (decide (j = i)) as [->|Hj]; [done|].
      rewrite view_local by done. apply Ht.
    - destruct (y_thr s i) as [|c [[r v]| | |o k]] eqn:Ei; try done.
      + injection Hs as <-. by exists tks.
      + injection Hs as <-.
        assert (L : legal (y_hist s) (HRet i c r v)) by (eapply Hl; done).
        pose proof (Ht i) as Hti. rewrite Ei in Hti. cbn [thr_ok wp] in Hti.
        destruct Hti as [_ Hti].
        destruct (ret_sound tks (y_mem s) (y_hist s) i c r v L Hc Hti) as (tk' & Hc' & Hw).
        exists (set_tk tks i tk'). cbn [y_mem y_hist y_thr]. split; [done|].
        intros j. unfold set_tk, tupd. destruct (decide (j = i)) as [->|Hj]; [done|].
        rewrite view_local by done. apply Ht.
      + injection Hs as <-. by exists tks.
      + pose proof (Ht i) as Hti. rewrite Ei in Hti. cbn [thr_ok wp] in Hti.
        destruct Hti as [_ [_ Hti]].
        destruct (step_sound tks (y_mem s) (y_hist s) i o _ Hc Hti) as (tk' & Hc' & Hw).
        destruct (exec o (y_mem s)) as [M v] eqn:Ex. injection Hs as <-. cbn [fst snd] in *.
        exists (set_tk tks i tk'). cbn [y_mem y_hist y_thr]. split; [done|].
        intros j. unfold set_tk, tupd. destruct (decide (j = i)) as [->|Hj]; [done|]. apply Ht.
  Qed.

  Lemma Inv_run s evs s' :
    Inv s -> sys_run g s evs = Ok s' ->
    (forall h x h', y_hist s' = h ++ x :: h' -> legal h x) ->
    Inv s'.
  Proof.
    revert s; induction evs as [|e evs IH]; intros s HI; cbn [sys_run].
    - intros [= <-] _; done.
    - destruct (sys_step g s e) as [s1| | |] eqn:E; cbn [rbind]; try done.
      intros H Hl. eapply IH; [|done|done].
      eapply Inv_step; [done|done|].
      intros h x h' Hh. destruct (sys_run_hist _ _ _ _ H) as [z Hz].
      eapply (Hl h x (h' ++ z)). rewrite Hz, Hh, <- app_assoc. done.
  Qed.
End logic.
