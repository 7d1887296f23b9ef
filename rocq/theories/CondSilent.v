(** CondSilent.v - without any signal or broadcast nobody returns from picoRTOS_cond_wait. *)
From Verif Require Import Base IpcModel IpcSpec IpcLogic IpcAvoid MutexProofs.

Section silent.
  Context (g : icfg) (c : nat).

  Definition nstep (i : nat) (o : memop) (tk : unit) (Phi : Z -> unit -> Prop) : Prop :=
    match o with
    | MRead l => if decide (l = LAct c) then Phi 0 tt else forall v, Phi v tt
    | MWrite l v => if decide (l = LAct c) then v = 0 /\ Phi 0 tt else Phi 0 tt
    | MTas l | MCas l _ _ => if decide (l = LAct c) then False else forall v, Phi v tt
    | MSleep _ => forall v, Phi v tt
    end.

  Lemma nstep_mono i o tk (P Q : Z -> unit -> Prop) :
    (forall v tk', P v tk' -> Q v tk') -> nstep i o tk P -> nstep i o tk Q.
  Proof. intros HPQ H. destruct o; cbn [nstep] in *; repeat case_decide; naive_solver. Qed.

  Definition ncoh (tks : nat -> unit) (M : mem) (h : list hev) : Prop := M (LAct c) = 0.

  Lemma nstep_sound tks M h i o Phi :
    ncoh tks M h -> nstep i o (tks i) Phi ->
    exists tk', ncoh (set_tk tks i tk') (fst (exec o M)) h /\ Phi (snd (exec o M)) tk'.
  Proof.
    unfold ncoh. intros Hc H. exists tt. destruct o as [l|l v|l|l o n|n]; cbn [exec fst snd nstep] in *.
    - case_decide; subst; [by rewrite Hc|auto].
    - case_decide; subst; [rewrite upd_same; naive_solver|]. rewrite upd_other by done. done.
    - case_decide; subst; [done|]. rewrite upd_other by done. auto.
    - case_decide; subst; [done|]. split; [|auto]. destruct (M l =? o); [by rewrite upd_other|done].
    - auto.
  Qed.

  Definition nidle (v : unit) (i : nat) (tk : unit) : Prop := True.
  (** A wait on [c] never returns. *)
  Definition npost (v : unit) (i : nat) (cl : call) (tk : unit) (r : Z * Z) : Prop :=
    match cl with CondWait c' _ => c' <> c | _ => True end.
  Definition ntrue (v : unit) (i : nat) (cl : call) (tk : unit) : Prop := True.

  Definition nlegal (h : list hev) (e : hev) : Prop := is_signal c e = false /\ is_broadcast c e = false.

  Lemma nframe i o (tk : unit) (Phi : Z -> unit -> Prop) :
    (forall l, op_loc o = Some l -> l <> LAct c) -> (forall v, Phi v tk) -> nstep i o tk Phi.
  Proof.
    destruct tk. intros H1 H2. destruct o as [l|l v|l|l o n|n]; cbn [op_loc nstep] in *; auto;
      specialize (H1 l eq_refl); rewrite decide_False by done; auto.
  Qed.

  Lemma within_weaken {A} (S S' : loc -> Prop) (p : prog A) :
    (forall l, S l -> S' l) -> within S p -> within S' p.
  Proof. intros HS. induction p; cbn; auto. intros [? ?]. split; auto. Qed.

  Lemma silent_loop i (J stl slp : unit -> Prop) fuel pid m (Q : unit -> Z -> Prop) :
    (forall t, J t) -> (forall t, stl t) -> (forall t, slp t) ->
    wp nstep i J stl slp (cond_loop g fuel pid c m) tt Q.
  Proof.
    intros HJ Hs Hl. induction fuel as [|f IH]; cbn [cond_loop]; [cbn; auto|].
    apply wp_act; [apply nstep_mono|auto|by intros [? ?]|]. cbn [nstep]. rewrite decide_True by done.
    change (negb (0 =? C_NONE)) with false. cbn [negb].
    apply wp_bind; [apply nstep_mono|].
    eapply (within_wp _ (fun l => l <> LAct c)); [by intros; apply nframe|by apply within_mutex_unlock|auto..].
    intros _. apply wp_bind; [apply nstep_mono|].
    eapply (within_wp _ (fun l => l <> LAct c)); [by intros; apply nframe|wi|auto..].
    intros _. apply wp_bind; [apply nstep_mono|].
    eapply (within_wp _ (fun l => l <> LAct c)); [by intros; apply nframe|by apply within_mutex_lock|auto..].
  Qed.

  Lemma nenter tks M h i cl :
    nlegal h (HCall i cl) -> ncoh tks M h -> nidle tt i (tks i) ->
    exists tk', ncoh (set_tk tks i tk') M (h ++ [HCall i cl]) /\
      wp nstep i (ntrue tt i cl) (ntrue tt i cl) (ntrue tt i cl) (body g i cl) tk' (npost tt i cl).
  Proof.
    intros [Hl1 Hl2] Hc _. exists tt. split; [done|].
    assert (Hav : (forall l, uses cl l -> l <> LAct c) -> npost tt i cl tt (0, 0) ->
      wp nstep i (ntrue tt i cl) (ntrue tt i cl) (ntrue tt i cl) (body g i cl) tt (npost tt i cl)).
    { intros HS Hp. eapply (within_wp _ (fun l => l <> LAct c)); [by intros; apply nframe| |done..].
      eapply within_weaken; [|apply within_body]. auto. }
    destruct cl as [ | | | | | |c' m|c'|c'| | ]; try (apply Hav; [cbn; intros l; naive_solver|done]).
    - destruct (decide (c' = c)) as [->|Hne].
      2:{ apply Hav; [cbn; intros l; naive_solver|done]. }
      clear Hav. cbn [body]. apply wp_bind; [apply nstep_mono|]. unfold cond_wait.
      apply wp_act; [apply nstep_mono|done|by intros [? ?]|]. cbn [nstep]. rewrite decide_False by done.
      intros n. unfold passert. destruct (n <? ic_tasks g); [|done].
      apply wp_act; [apply nstep_mono|done|by intros [? ?]|]. cbn [nstep]. rewrite decide_False by done.
      intros n'. apply wp_act; [apply nstep_mono|done|by intros [? ?]|]. cbn [nstep]. rewrite decide_False by done.
      apply wp_bind; [apply nstep_mono|]. by apply silent_loop.
    - cbn in Hl1. apply bool_decide_eq_false in Hl1. apply Hav; [cbn; intros l; naive_solver|done].
    - cbn in Hl2. apply bool_decide_eq_false in Hl2. apply Hav; [cbn; intros l; naive_solver|done].
  Qed.

  Definition SInv := Inv nstep (fun _ _ => tt) ncoh nidle npost ntrue ntrue ntrue.
  (** Nobody returned from a wait in the part of the history after [h0]. *)
  Definition none_woken (h0 : list hev) (s : sys) : Prop :=
    exists h, y_hist s = h0 ++ h /\ count_ev (is_woken c) h = 0%nat.

  Lemma count_ev_app P h h' : count_ev P (h ++ h') = (count_ev P h + count_ev P h')%nat.
  Proof. unfold count_ev. by rewrite filter_app, app_length. Qed.

  Lemma silent_step s e s' h0 :
    SInv s -> none_woken h0 s -> sys_step g s e = Ok s' ->
    (forall h1 x h2, y_hist s' = y_hist s ++ h1 ++ x :: h2 -> is_signal c x = false /\ is_broadcast c x = false) ->
    SInv s' /\ none_woken h0 s'.
  Proof.
    intros HI Hn Hs Hl. assert (HI' : SInv s').
    { destruct HI as (tks & Hc & Ht). destruct e as [i cl|i]; cbn [sys_step] in Hs.
      - destruct (y_thr s i) eqn:Ei; injection Hs as <-; [|by exists tks].
        destruct (nenter tks (y_mem s) (y_hist s) i cl) as (tk' & H1 & H2); [|done|done|].
        { apply (Hl [] (HCall i cl) []). done. }
        exists (set_tk tks i tk'). split; [done|]. intros j. cbn. unfold set_tk, tupd. case_decide; [subst; exact H2|apply Ht].
      - destruct (y_thr s i) as [|cl [[r v]| | |o k]] eqn:Ei; try done; try (injection Hs as <-; by exists tks).
        + injection Hs as <-. exists tks. split; [done|]. intros j. cbn. unfold tupd. case_decide; [done|apply Ht].
        + pose proof (Ht i) as Hti. rewrite Ei in Hti. cbn [thr_ok wp] in Hti. destruct Hti as [_ [_ Hti]].
          destruct (nstep_sound tks (y_mem s) (y_hist s) i o _ Hc Hti) as (tk' & H1 & H2).
          destruct (exec o (y_mem s)) as [M v]. injection Hs as <-.
          exists (set_tk tks i tk'). split; [done|]. intros j. cbn. unfold set_tk, tupd.
          case_decide; [subst; exact H2|apply Ht]. }
    split; [done|]. destruct Hn as (h & E & Hn). destruct HI as (tks & Hc & Ht).
    destruct e as [i cl|i]; cbn [sys_step] in Hs.
    - destruct (y_thr s i) eqn:Ei; injection Hs as <-; [|by exists h].
      exists (h ++ [HCall i cl]). cbn. rewrite E, <- app_assoc. split; [done|]. rewrite count_ev_app, Hn. done.
    - destruct (y_thr s i) as [|cl [[r v]| | |o k]] eqn:Ei; try done; try (injection Hs as <-; by exists h).
      + injection Hs as <-. exists (h ++ [HRet i cl r v]). cbn. rewrite E, <- app_assoc. split; [done|].
        rewrite count_ev_app, Hn. specialize (Ht i). rewrite Ei in Ht. cbn in Ht. destruct Ht as [_ Ht].
        assert (Ew : is_woken c (HRet i cl r v) = false).
        { destruct cl; try done. cbn. by apply bool_decide_eq_false_2. }
        unfold count_ev. rewrite filter_cons, decide_False; [done|]. by rewrite Ew.
      + destruct (exec o (y_mem s)) as [M v]. injection Hs as <-. by exists h.
  Qed.

  Lemma silent_run s evs s' h0 :
    SInv s -> none_woken h0 s -> sys_run g s evs = Ok s' ->
    (forall h1 x h2, y_hist s' = y_hist s ++ h1 ++ x :: h2 -> is_signal c x = false /\ is_broadcast c x = false) ->
    SInv s' /\ none_woken h0 s'.
  Proof.
    revert s; induction evs as [|e evs IH]; intros s HI Hn; cbn [sys_run].
    - by intros [= <-] _.
    - destruct (sys_step g s e) as [s1| | |] eqn:E; cbn [rbind]; try done. intros Hr Hl.
      destruct (sys_run_hist _ _ _ _ Hr) as [z2 Hz2]. destruct (sys_step_hist _ _ _ _ E) as [z1 Hz1].
      destruct (silent_step s e s1 h0) as [HI1 Hn1]; [done|done|done| |].
      + intros h1 x h2 Hh. apply (Hl h1 x (h2 ++ z2)). rewrite Hz2, Hh, <- !app_assoc. done.
      + eapply IH; [done|done|done|]. intros h1 x h2 Hh. apply (Hl (z1 ++ h1) x h2).
        rewrite Hh, Hz1, <- !app_assoc. done.
  Qed.

  Lemma silent_init M : ready_mem g M -> SInv (sys0 M) /\ none_woken [] (sys0 M).
  Proof.
    intros (qs & jk & ->). split.
    - exists (fun _ => tt). split; [done|]. intros i. done.
    - by exists [].
  Qed.

  (** As long as nobody signals or broadcasts, nobody returns. *)
  Lemma silent_reach M evs s :
    ready_mem g M -> sys_run g (sys0 M) evs = Ok s ->
    count_ev (is_signal c) (y_hist s) = 0%nat -> count_ev (is_broadcast c) (y_hist s) = 0%nat ->
    count_ev (is_woken c) (y_hist s) = 0%nat.
  Proof.
    intros HM Hr H1 H2. destruct (silent_init M HM) as [HI Hn].
    destruct (silent_run _ _ _ _ HI Hn Hr) as [_ (h & E & Hh)].
    - intros h1 x h2 E. cbn in E. rewrite E in H1, H2. rewrite !count_ev_app in H1, H2.
      unfold count_ev in H1, H2. rewrite filter_cons in H1, H2.
      split; [destruct (is_signal c x)|destruct (is_broadcast c x)]; try done;
        rewrite decide_True in * by done; cbn in *; lia.
    - rewrite E. done.
  Qed.
End silent.
