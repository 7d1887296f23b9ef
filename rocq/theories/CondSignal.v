(** CondSignal.v - with signals only, picoRTOS_cond_wait returns at most once per signal. *)
From Verif Require Import Base IpcModel IpcSpec IpcLogic IpcAvoid MutexProofs CondSilent.
From Coq Require Import ZifyBool ZifyNat.

(** Where a task stands in picoRTOS_cond_wait: nowhere special, has seen a signal, has consumed it. *)
Inductive phase := PN | PB | PP.
Record ctk := mkC { k_own : option Z; k_ph : phase; k_sg : bool }.

Section signal.
  Context (g : icfg) (c m : nat).
  Hypothesis Hwf : wf_icfg g.

  Definition cstep (i : nat) (o : memop) (tk : ctk) (Phi : Z -> ctk -> Prop) : Prop :=
    if decide (op_loc o = Some (LAct c)) then
      match o with
      | MRead _ =>
          k_own tk <> None /\ k_ph tk <> PP /\
          (k_ph tk = PN -> Phi 0 tk) /\ Phi 1 (mkC (k_own tk) PB (k_sg tk))
      | MWrite _ v =>
          (v = 1 /\ k_sg tk = true /\ Phi 0 (mkC (k_own tk) (k_ph tk) false)) \/
          (v = 0 /\ k_own tk <> None /\ k_ph tk = PB /\ Phi 0 (mkC (k_own tk) PP (k_sg tk)))
      | _ => False
      end
    else (op_loc o = Some (LOwner m) -> k_ph tk = PN) /\
         mstep g m i o (k_own tk) (fun v own => Phi v (mkC own (k_ph tk) (k_sg tk))).

  Lemma cstep_mono i o tk (P Q : Z -> ctk -> Prop) :
    (forall v tk', P v tk' -> Q v tk') -> cstep i o tk P -> cstep i o tk Q.
  Proof.
    intros HPQ HH. unfold cstep in *. case_decide as D.
    - destruct o; naive_solver.
    - destruct HH as [HH0 HH]. split; [done|]. eapply mstep_mono, HH. cbn. auto.
  Qed.

  Definition b2n (b : bool) : nat := if b then 1%nat else 0%nat.

  Definition ccoh (tks : nat -> ctk) (M : mem) (h : list hev) : Prop :=
    mcoh g m (fun i => k_own (tks i)) M h /\
    (forall i, k_own (tks i) = None -> k_ph (tks i) = PN) /\
    (M (LAct c) = 0 \/ M (LAct c) = 1) /\
    (forall i, k_ph (tks i) = PB -> M (LAct c) = 1) /\
    exists (pend : list nat) (pp : nat),
      NoDup pend /\ (forall i, i ∈ pend <-> k_sg (tks i) = true) /\
      (forall i, k_ph (tks i) = PP -> (1 <= pp)%nat) /\
      (count_ev (is_woken c) h + pp + Z.to_nat (M (LAct c)) + length pend
         <= count_ev (is_signal c) h)%nat.

  Lemma mcoh_ext tks tks' M M' h h' :
    (forall i, tks i = tks' i) -> M (LOwner m) = M' (LOwner m) -> M (LCount m) = M' (LCount m) ->
    mcoh g m tks M h -> mcoh g m tks' M' h'.
  Proof.
    intros E E1 E2 (ow & H1 & H2 & H3 & H4). exists ow. rewrite <- E1, <- E2.
    repeat split; try done. intros i. by rewrite <- E.
  Qed.

  Lemma own_unique tks M h i j :
    mcoh g m tks M h -> tks i <> None -> tks j <> None -> i = j.
  Proof. intros (ow & _ & _ & _ & H4). rewrite !H4. repeat case_decide; congruence. Qed.

  Lemma exec_other o M l : op_loc o <> Some l -> fst (exec o M) l = M l.
  Proof.
    destruct o as [x|x v|x|x o n|n]; cbn; intros H; try done; try (apply upd_other; congruence).
    destruct (M x =? o); [apply upd_other; congruence|done].
  Qed.

  Lemma set_tk_same {T} (tks : nat -> T) i t : set_tk tks i t i = t.
  Proof. unfold set_tk. by rewrite decide_True. Qed.
  Lemma set_tk_other {T} (tks : nat -> T) i j t : j <> i -> set_tk tks i t j = tks j.
  Proof. intros. unfold set_tk. by rewrite decide_False. Qed.

  Lemma cstep_sound tks M h i o Phi :
    ccoh tks M h -> cstep i o (tks i) Phi ->
    exists tk', ccoh (set_tk tks i tk') (fst (exec o M)) h /\ Phi (snd (exec o M)) tk'.
  Proof.
    intros (Hm & Hno & Ha & Hb & pend & pp & Hnd & Hp & Hpp & Hle) H. unfold cstep in H.
    case_decide as D.
    - destruct o as [l|l v|l|l o n|n]; cbn [op_loc] in D; try done; injection D as ->; cbn [exec fst snd].
      + destruct H as (Ho & Hph & H0 & H1).
        destruct Ha as [Ea|Ea]; rewrite Ea.
        * assert (Hn : k_ph (tks i) = PN).
          { destruct (k_ph (tks i)) eqn:E; [done| |done]. specialize (Hb i E). lia. }
          exists (tks i). split; [|by apply H0].
          assert (X : forall j, set_tk tks i (tks i) j = tks j).
          { intros j. unfold set_tk. case_decide; by subst. }
          refine (conj _ (conj _ (conj _ (conj _ _)))); [|intros j; rewrite X; apply Hno|auto|intros j; rewrite X; apply Hb|].
          -- eapply mcoh_ext; [|done|done|done]. intros j. cbn. by rewrite X.
          -- exists pend, pp. rewrite Ea in Hle. repeat split; try done; try (rewrite X; apply Hp).
             ++ intros j. rewrite X. apply Hpp.
             ++ by rewrite Ea.
        * exists (mkC (k_own (tks i)) PB (k_sg (tks i))). split; [|done].
          repeat split.
          -- eapply mcoh_ext; [|done|done|done]. intros j. cbn. unfold set_tk. case_decide; by subst.
          -- intros j. unfold set_tk. case_decide; cbn; [done|apply Hno].
          -- auto.
          -- intros j _. done.
          -- exists pend, pp. repeat split; try done.
             ++ intros Hj. unfold set_tk. case_decide; cbn; [subst|]; by apply Hp.
             ++ unfold set_tk. intros Hj. apply Hp. case_decide; cbn in *; by subst.
             ++ intros j. unfold set_tk. case_decide; cbn; [done|]. apply Hpp.
      + destruct H as [(-> & Hs & HP)|(-> & Ho & Hph & HP)].
        * exists (mkC (k_own (tks i)) (k_ph (tks i)) false). split; [|done]. repeat split.
          -- eapply mcoh_ext; [..|done]; [|by rewrite upd_other..]. intros j. cbn. unfold set_tk. case_decide; by subst.
          -- intros j. unfold set_tk. case_decide; cbn; [subst|]; apply Hno.
          -- rewrite upd_same. auto.
          -- intros j _. by rewrite upd_same.
          -- rewrite upd_same. exists (filter (fun x => x <> i) pend), pp. repeat split.
             ++ by apply NoDup_filter.
             ++ rewrite elem_of_list_filter. intros [X1 X2]. rewrite set_tk_other by done. by apply Hp.
             ++ rewrite elem_of_list_filter. unfold set_tk. case_decide; cbn; [done|]. intros. split; [done|]. by apply Hp.
             ++ intros j. unfold set_tk. case_decide; cbn; [subst|]; apply Hpp.
             ++ assert (Hi : i ∈ pend) by (by apply Hp).
                assert (length (filter (fun x => x <> i) pend) < length pend)%nat.
                { clear -Hi. induction pend as [|x pend IH]; [by apply elem_of_nil in Hi|].
                  rewrite filter_cons. apply elem_of_cons in Hi as [->|Hi].
                  - rewrite decide_False by naive_solver. cbn.
                    pose proof (filter_length (fun y => y <> x) pend). lia.
                  - case_decide; cbn; specialize (IH Hi); lia. }
                change (Z.to_nat 1) with 1%nat. lia.
        * exists (mkC (k_own (tks i)) PP (k_sg (tks i))). split; [|done].
          specialize (Hb i Hph) as Ea. repeat split.
          -- eapply mcoh_ext; [..|done]; [|by rewrite upd_other..]. intros j. cbn. unfold set_tk. case_decide; by subst.
          -- intros j. unfold set_tk. case_decide; cbn; [done|]. apply Hno.
          -- rewrite upd_same. auto.
          -- intros j. rewrite upd_same. unfold set_tk. case_decide as Dj; cbn; [done|]. intros Hj.
             destruct Dj. eapply own_unique; [done| |done]. cbn. intros X. apply Hno in X. congruence.
          -- rewrite upd_same. exists pend, (S pp). repeat split; try done.
             ++ intros Hj. unfold set_tk. case_decide; cbn; [subst|]; by apply Hp.
             ++ unfold set_tk. intros Hj. apply Hp. case_decide; cbn in *; by subst.
             ++ lia.
             ++ rewrite Ea in Hle. change (Z.to_nat 1) with 1%nat in Hle. change (Z.to_nat 0) with 0%nat. lia.
    - destruct H as [Hown H].
      destruct (mstep_sound g m (fun j => k_own (tks j)) M h i o _ Hm H) as (own' & Hm' & HP).
      exists (mkC own' (k_ph (tks i)) (k_sg (tks i))). split; [|done].
      assert (Ea : fst (exec o M) (LAct c) = M (LAct c)) by (by apply exec_other).
      repeat split.
      + eapply mcoh_ext; [|done|done|done]. intros j. cbn. unfold set_tk. by case_decide.
      + intros j. unfold set_tk. case_decide; cbn; [|apply Hno]. subst. intros ->.
        destruct (k_own (tks i)) eqn:Eo; [|by apply Hno].
        (* ownership can only be given up by a write to the owner cell *)
        destruct (decide (op_loc o = Some (LOwner m))) as [E|E]; [by apply Hown|].
        exfalso. destruct Hm as (ow & H1 & H2 & H3 & H4). destruct Hm' as (ow' & H1' & H2' & H3' & H4').
        specialize (H4 i). cbn in H4. rewrite Eo in H4. case_decide as D1; [|done]. subst ow.
        specialize (H4' i). rewrite set_tk_same in H4'. case_decide as D2; [done|].
        rewrite exec_other in H1' by done. rewrite H1 in H1'. cbn [enc] in H1'.
        specialize (H3 i eq_refl). destruct ow' as [k|]; cbn [enc] in H1'; [|lia].
        assert (k = i) by lia. subst. done.
      + by rewrite Ea.
      + intros j. rewrite Ea. unfold set_tk. case_decide; cbn; [subst|]; apply Hb.
      + rewrite Ea. exists pend, pp. repeat split; try done.
        * intros Hj. unfold set_tk. case_decide; cbn; [subst|]; by apply Hp.
        * unfold set_tk. intros Hj. apply Hp. case_decide; cbn in *; by subst.
        * intros j. unfold set_tk. case_decide; cbn; [subst|]; apply Hpp.
  Qed.

  (** A program that does not look at the condition and is correct for the mutex is correct here. *)
  Lemma lift_wp {A} i (J stl slp : option Z -> Prop) (p : prog A) own sg (Q : option Z -> A -> Prop)
      (J' stl' slp' : ctk -> Prop) (Q' : ctk -> A -> Prop) :
    within (fun l => l <> LAct c) p ->
    wp (mstep g m) i J stl slp p own Q ->
    (forall t, J' t) -> (forall t, stl' t) -> (forall t, slp' t) ->
    (forall own a, Q own a -> Q' (mkC own PN sg) a) ->
    wp cstep i J' stl' slp' p (mkC own PN sg) Q'.
  Proof.
    intros Hw Hp HJ Hs Hl HQ. revert own Hp. induction p as [a| | |o k IH]; intros own; cbn [wp within] in *.
    - intros [? ?]; auto.
    - auto.
    - auto.
    - intros (H0 & H1 & H2). destruct Hw as [Hw1 Hw2]. split; [auto|]. split; [auto|].
      unfold cstep. rewrite decide_False.
      2:{ intros E. by apply (Hw1 _ E). }
      split; [done|]. cbn [k_own]. eapply mstep_mono, H2. cbn [k_ph k_sg]. intros v tk' Hk. by apply IH.
  Qed.

  Definition cidle (v : Z) (i : nat) (tk : ctk) : Prop :=
    midle v i (k_own tk) /\ k_ph tk = PN /\ k_sg tk = false.
  Definition waits (cl : call) : bool := match cl with CondWait c' _ => bool_decide (c' = c) | _ => false end.
  Definition cpost (v : Z) (i : nat) (cl : call) (tk : ctk) (r : Z * Z) : Prop :=
    mpost g m v i cl (k_own tk) r /\ k_sg tk = false /\ k_ph tk = (if waits cl then PP else PN) /\
    (waits cl = true -> k_own tk <> None).
  Definition ctrue (v : Z) (i : nat) (cl : call) (tk : ctk) : Prop := True.

  Definition clegal (h : list hev) (e : hev) : Prop :=
    mlegal g m h e /\ is_broadcast c e = false /\
    (forall i m', e = HCall i (CondWait c m') -> m' = m /\ 0 < mheld m i h).

  Lemma count_ev_snoc P h e : count_ev P (h ++ [e]) = (count_ev P h + b2n (P e))%nat.
  Proof.
    rewrite count_ev_app. f_equal. unfold count_ev. rewrite filter_cons. destruct (P e) eqn:E.
    - by rewrite decide_True.
    - by rewrite decide_False.
  Qed.

  (** Cases of [cstep] in the order the code meets them. *)
  Lemma cwp_act {A} i (J stl slp : ctk -> Prop) o (f : Z -> prog A) tk (Q : ctk -> A -> Prop) :
    J tk -> ((exists n, o = MSleep n) -> slp tk) ->
    cstep i o tk (fun v t => wp cstep i J stl slp (f v) t Q) ->
    wp cstep i J stl slp (pbind (act o) f) tk Q.
  Proof. apply wp_act. apply cstep_mono. Qed.

  Lemma cstep_plain i o tk (Phi : Z -> ctk -> Prop) :
    Z.of_nat i < nobody g -> op_loc o <> Some (LAct c) -> op_loc o <> Some (LOwner m) ->
    op_loc o <> Some (LCount m) -> (forall v, Phi v tk) -> cstep i o tk Phi.
  Proof.
    intros Hi H1 H2 H3 HP. unfold cstep. rewrite decide_False by done. split; [done|].
    split; [done|]. destruct tk as [o1 p1 s1]. cbn.
    destruct o as [l|l v|l|l o n|n]; cbn [op_loc] in *;
      try rewrite !decide_False by congruence; auto.
  Qed.

  Lemma wp_sig_loop i (J stl slp : ctk -> Prop) fuel n (Q : ctk -> Z -> Prop) :
    Z.of_nat i < nobody g -> 0 < n < 2 ^ ic_szbits g ->
    (forall t, J t) -> (forall t, stl t) -> (forall t, slp t) ->
    (forall r, Q (mkC (tok n) PB false) r) ->
    wp cstep i J stl slp (cond_loop g fuel (Z.of_nat i) c m) (mkC (tok n) PN false) Q.
  Proof.
    intros Hi Hn HJ Hs Hl HQ. induction fuel as [|f IH]; cbn [cond_loop]; [cbn; auto|].
    assert (Et : tok n = Some n) by (unfold tok; by replace (n <=? 0) with false by lia).
    apply cwp_act; [auto|auto|]. unfold cstep. rewrite decide_True by done. cbn [k_own k_ph k_sg].
    rewrite Et in *. split; [done|]. split; [done|]. split.
    - intros _. change (negb (0 =? C_NONE)) with false. cbv iota.
      apply wp_bind; [apply cstep_mono|].
      eapply (lift_wp i (fun _ => True) (fun _ => True) (fun _ => True) _ _ _ (fun own _ => own = tok (n - 1)));
        [by apply within_mutex_unlock| |auto..].
      { apply wp_unlock; [done..|]. intros x [= <-]. done. }
      intros own _ ->. apply wp_bind; [apply cstep_mono|].
      eapply (lift_wp i (fun _ => True) (fun _ => True) (fun _ => True) _ _ _ (fun own _ => own = tok (n - 1)));
        [wi| |auto..].
      { cbn [schedule act wp mstep]. split; [done|]. split; [done|]. split; [done|]. auto. }
      intros own _ ->. apply wp_bind; [apply cstep_mono|].
      eapply (lift_wp i (fun _ => True) (fun _ => True) (fun _ => True) _ _ _ (fun own _ => own = Some n));
        [by apply within_mutex_lock| |auto..].
      { apply wp_lock; [done..|].
        unfold tok. destruct (n - 1 <=? 0) eqn:E1; cbn; rewrite wrap_small by lia; f_equal; lia. }
      intros own _ ->. apply IH.
    - cbn. auto.
  Qed.

  Lemma wp_sig_reset i (J stl slp : ctk -> Prop) n (Q : ctk -> Z -> Prop) :
    Z.of_nat i < nobody g -> (forall t, J t) -> (forall t, stl t) -> (forall t, slp t) ->
    (forall r, Q (mkC (Some n) PP false) r) ->
    wp cstep i J stl slp (cond_reset g c) (mkC (Some n) PB false) Q.
  Proof.
    intros Hi HJ Hs Hl HQ. unfold cond_reset.
    apply cwp_act; [auto|auto|]. apply cstep_plain; [done..|]. intros k. cbv zeta.
    apply cwp_act; [auto|auto|]. apply cstep_plain; [done..|]. intros _.
    destruct (_ =? 0).
    - apply cwp_act; [auto|auto|]. unfold cstep. rewrite decide_True by done. right. cbn. repeat split; auto.
    - apply cwp_act; [auto|auto|]. unfold cstep. rewrite decide_True by done. cbn [k_own k_ph k_sg].
      split; [done|]. split; [done|]. split; [done|]. change (1 =? C_SIGNAL) with true. cbv iota.
      apply cwp_act; [auto|auto|]. unfold cstep. rewrite decide_True by done. right. cbn. repeat split; auto.
  Qed.

  Lemma ccoh_idle_hist tks M h e i :
    ccoh tks M h -> is_signal c e = false -> is_woken c e = false ->
    ccoh (set_tk tks i (tks i)) M (h ++ [e]).
  Proof.
    intros (Hm & Hno & Ha & Hb & pend & pp & Hnd & Hp & Hpp & Hle) E1 E2.
    assert (X : forall j, set_tk tks i (tks i) j = tks j).
    { intros j. unfold set_tk. case_decide; by subst. }
    refine (conj _ (conj _ (conj _ (conj _ _)))); [|intros j; rewrite X; apply Hno|auto|intros j; rewrite X; apply Hb|].
    - eapply mcoh_ext; [|done|done|done]. intros j. cbn. by rewrite X.
    - exists pend, pp. repeat split; try done; try (rewrite X; apply Hp).
      + intros j. rewrite X. apply Hpp.
      + rewrite !count_ev_snoc, E1, E2. cbn. lia.
  Qed.

  Lemma uses_act cl :
    match cl with CondWait c' _ | CondSignal c' | CondBroadcast c' => c' <> c | _ => True end ->
    forall l, uses cl l -> l <> LAct c.
  Proof. destruct cl; cbn; intros H l; naive_solver. Qed.

  Lemma center tks M h i cl :
    clegal h (HCall i cl) -> ccoh tks M h -> cidle (mview m h i) i (tks i) ->
    exists tk', ccoh (set_tk tks i tk') M (h ++ [HCall i cl]) /\
      let v := mview m (h ++ [HCall i cl]) i in
      wp cstep i (ctrue v i cl) (ctrue v i cl) (ctrue v i cl) (body g i cl) tk' (cpost v i cl).
  Proof.
    intros (Hml & Hbr & Hw) Hc (Hid & Hph & Hsg).
    pose proof Hc as (Hm & Hno & Ha & Hb & pend & pp & Hnd & Hp & Hpp & Hle).
    destruct (menter g m (fun j => k_own (tks j)) M h i cl Hml Hm Hid) as (own' & Hm' & Hwp).
    assert (Hi : Z.of_nat i < nobody g) by (eapply Hml; done).
    assert (Eown : own' = k_own (tks i)).
    { destruct Hm as (ow & H1 & H2 & H3 & H4), Hm' as (ow' & H1' & H2' & H3' & H4').
      specialize (H4 i). specialize (H4' i). rewrite set_tk_same in H4'. cbn in H4. rewrite H4, H4'.
      assert (ow = ow'); [|by subst].
      rewrite H1 in H1'. destruct ow as [a|], ow' as [b|]; cbn [enc] in H1'; try done.
      - f_equal. lia.
      - specialize (H3 a eq_refl). lia.
      - specialize (H3' b eq_refl). lia. }
    subst own'. cbv zeta in Hwp |- *.
    assert (Hplain : (forall l, uses cl l -> l <> LAct c) ->
      exists tk', ccoh (set_tk tks i tk') M (h ++ [HCall i cl]) /\
      wp cstep i (ctrue (mview m (h ++ [HCall i cl]) i) i cl) (ctrue (mview m (h ++ [HCall i cl]) i) i cl)
        (ctrue (mview m (h ++ [HCall i cl]) i) i cl) (body g i cl) tk' (cpost (mview m (h ++ [HCall i cl]) i) i cl)).
    { intros HS. exists (tks i). split.
      - apply ccoh_idle_hist; [done| |done]. destruct cl as [ | | | | | | |c'|c'| | ]; try done.
        cbn. apply bool_decide_eq_false_2. intros ->. by apply (HS (LAct c)).
      - destruct (tks i) as [o1 p1 s1]. cbn in Hph, Hsg. subst p1 s1.
        eapply lift_wp; [|exact Hwp|done..|].
        + eapply within_weaken; [|apply within_body]. auto.
        + intros own a HQ. split; [done|]. split; [done|].
          assert (waits cl = false) as ->.
          { destruct cl as [ | | | | | |c' m'| | | | ]; try done. cbn. apply bool_decide_eq_false_2.
            intros ->. apply (HS (LAct c)); [cbn; auto|done]. }
          done. }
    destruct cl as [ | | | | | |c' m'|c'|c'| | ]; try (apply Hplain, uses_act; done).
    - destruct (decide (c' = c)) as [->|Hne]; [|apply Hplain, uses_act; done].
      clear Hplain. destruct (Hw i m' eq_refl) as [-> Hh].
      exists (tks i). split; [by apply ccoh_idle_hist|].
      destruct (tks i) as [o1 p1 s1]. cbn in Hph, Hsg, Hid. subst p1 s1. destruct Hid as [_ Ho].
      unfold mview in *. rewrite mheld_snoc. cbn [mdelta]. rewrite bool_decide_eq_true_2 by done.
      set (n := mheld m i h) in *. destruct Hml as [_ Hd]. destruct (Hd i) as [Hd1 _]. fold n in Hd1.
      assert (Et : tok n = Some n) by (unfold tok; by replace (n <=? 0) with false by lia).
      rewrite Ho. cbn [body]. apply wp_bind; [apply cstep_mono|]. unfold cond_wait.
      apply cwp_act; [done|done|]. apply cstep_plain; [done..|]. intros x. unfold passert.
      destruct (x <? ic_tasks g); [|done].
      apply cwp_act; [done|done|]. apply cstep_plain; [done..|]. intros y.
      apply cwp_act; [done|done|]. apply cstep_plain; [done..|]. intros _.
      apply wp_bind; [apply cstep_mono|]. apply wp_sig_loop; [done|lia|done..|]. intros _.
      rewrite Et. apply wp_sig_reset; [done..|]. intros r. cbn. split; [done|].
      unfold cpost. cbn [k_own k_ph k_sg waits]. rewrite bool_decide_eq_true_2 by done.
      split; [|done]. unfold mpost. cbn [on_mutex]. rewrite bool_decide_eq_true_2 by done.
      replace (n + -1 + 1) with n by lia. split; [lia|]. done.
    - destruct (decide (c' = c)) as [->|Hne]; [|apply Hplain, uses_act; done].
      clear Hplain. exists (mkC (k_own (tks i)) PN true). split.
      + repeat split.
        * eapply mcoh_ext; [|done|done|done]. intros j. cbn. unfold set_tk. case_decide; by subst.
        * intros j. unfold set_tk. case_decide; cbn; [done|apply Hno].
        * done.
        * intros j. unfold set_tk. case_decide; cbn; [done|apply Hb].
        * exists (i :: pend), pp. repeat split.
          -- constructor; [|done]. rewrite Hp, Hsg. done.
          -- rewrite elem_of_cons. unfold set_tk. case_decide; cbn; [done|]. intros [?|?]; [done|by apply Hp].
          -- rewrite elem_of_cons. unfold set_tk. case_decide; cbn; [auto|]. intros ?. right. by apply Hp.
          -- intros j. unfold set_tk. case_decide; cbn; [done|apply Hpp].
          -- rewrite !count_ev_snoc. cbn. rewrite bool_decide_eq_true_2 by done. cbn. lia.
      + cbn [body]. unfold pair0, cond_signal. apply wp_bind; [apply cstep_mono|].
        apply cwp_act; [done|done|]. unfold cstep. rewrite decide_True by done. left. cbn.
        split; [done|]. split; [done|]. unfold cpost. split; [done|]. split; [done|]. cbn. unfold mpost. cbn.
        split; [|done].
        unfold mview. rewrite mheld_snoc. cbn [mdelta]. rewrite Z.add_0_r.
        destruct Hid as [? ?]. done.
    - cbn in Hbr. apply bool_decide_eq_false in Hbr. apply Hplain, uses_act; done.
  Qed.

  Lemma cret tks M h i cl r x :
    clegal h (HRet i cl r x) -> ccoh tks M h -> cpost (mview m h i) i cl (tks i) (r, x) ->
    exists tk', ccoh (set_tk tks i tk') M (h ++ [HRet i cl r x]) /\
      cidle (mview m (h ++ [HRet i cl r x]) i) i tk'.
  Proof.
    intros (Hml & _ & _) Hc (Hpost & Hsg & Hph & Hown).
    pose proof Hc as (Hm & Hno & Ha & Hb & pend & pp & Hnd & Hp & Hpp & Hle).
    destruct (mret g m (fun j => k_own (tks j)) M h i cl r x Hml Hm Hpost) as (own' & Hm' & Hid').
    assert (Eown : own' = k_own (tks i)).
    { destruct Hm as (ow & H1 & H2 & H3 & H4), Hm' as (ow' & H1' & H2' & H3' & H4').
      specialize (H4 i). specialize (H4' i). rewrite set_tk_same in H4'. cbn in H4. rewrite H4, H4'.
      assert (ow = ow'); [|by subst].
      rewrite H1 in H1'. destruct ow as [a|], ow' as [b|]; cbn [enc] in H1'; try done.
      - f_equal. lia.
      - specialize (H3 a eq_refl). lia.
      - specialize (H3' b eq_refl). lia. }
    subst own'. destruct (waits cl) eqn:Ew.
    2:{ exists (tks i). split; [|done]. apply ccoh_idle_hist; [done|done|]. destruct cl; done. }
    exists (mkC (k_own (tks i)) PN false). split; [|done]. specialize (Hown eq_refl).
    repeat split.
    - eapply mcoh_ext; [|done|done|done]. intros j. cbn. unfold set_tk. case_decide; by subst.
    - intros j. unfold set_tk. case_decide; cbn; [done|apply Hno].
    - done.
    - intros j. unfold set_tk. case_decide; cbn; [done|apply Hb].
    - exists pend, 0%nat. repeat split; try done.
      + intros Hj. unfold set_tk. case_decide; cbn; [subst|by apply Hp]. apply Hp in Hj. congruence.
      + unfold set_tk. case_decide; cbn; [done|]. apply Hp.
      + intros j. unfold set_tk. case_decide as Dj; cbn; [done|]. intros Hj. destruct Dj.
        eapply own_unique; [exact Hm| |exact Hown]. cbn. intros X. apply Hno in X. congruence.
      + rewrite !count_ev_snoc. specialize (Hpp i Hph).
        assert (is_woken c (HRet i cl r x) = true) as -> by (destruct cl; done).
        change (is_signal c (HRet i cl r x)) with false. cbn. lia.
  Qed.

  Definition CInv := Inv cstep (mview m) ccoh cidle cpost ctrue ctrue ctrue.

  Lemma signal_bound M s :
    ready_mem g M -> reach g M s -> pids_ok g (y_hist s) -> depth_ok g m (y_hist s) ->
    (forall h1 i m' h2, y_hist s = h1 ++ HCall i (CondWait c m') :: h2 -> m' = m /\ 0 < mheld m i h1) ->
    count_ev (is_broadcast c) (y_hist s) = 0%nat ->
    (count_ev (is_woken c) (y_hist s) <= count_ev (is_signal c) (y_hist s))%nat.
  Proof.
    intros (qs & jk & ->) [evs Hr] Hp Hd Hw Hb.
    assert (HI : CInv s).
    { eapply Inv_run; [..|done|].
      - intros h e j Hj. unfold mview. rewrite mheld_snoc, mdelta_other by done. lia.
      - apply cstep_sound.
      - apply center.
      - apply cret.
      - exists (fun _ => mkC None PN false). split.
        + refine (conj _ (conj _ (conj _ (conj _ _)))); [by exists None|done|by left|done|].
          exists [], 0%nat. split; [constructor|]. split; [|split; [done|exact (le_n 0)]].
          intros i. cbn. split; [by intros ?%elem_of_nil|done].
        + intros i. cbn. unfold mview. cbn. done.
      - intros h x h' Hh. split; [|split].
        + split.
          * intros i cl ->. rewrite nobody_val by done. apply (Hp i cl). rewrite Hh. apply elem_of_app. right. left.
          * intros i. rewrite Hh in Hd. split; apply Hd.
            -- by apply prefix_app_r.
            -- replace (x :: h') with ([x] ++ h') by done. rewrite app_assoc. by apply prefix_app_r.
        + rewrite Hh, count_ev_app in Hb. destruct (is_broadcast c x) eqn:E; [|done].
          unfold count_ev in Hb. rewrite filter_cons, decide_True in Hb by done. cbn in Hb. lia.
        + intros i m' ->. by eapply Hw. }
    destruct HI as (tks & (_ & _ & _ & _ & pend & pp & _ & _ & _ & Hle) & _). lia.
  Qed.
End signal.
