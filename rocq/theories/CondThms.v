(** CondThms.v - the bodies of the IPC calls keep the invariants of CondLogic.v. *)
From Verif Require Import Base IpcModel IpcSpec IpcLogic IpcAvoid MutexProofs CondSilent CondSignal CondLogic.
From Coq Require Import ZifyBool ZifyNat.

Section cthms.
  Context (g : icfg) (c m : nat).
  Hypothesis Hwf : wf_icfg g.
  Hypothesis Htasks : ic_tasks g < 2 ^ ic_szbits g.

  Notation bst := (bstep g c m).
  Definition away (l : loc) : Prop := l <> LAct c /\ l <> LWait c.

  (** The program never writes the owner cell. *)
  Fixpoint nowr {A} (p : prog A) : Prop :=
    match p with
    | Op o k => is_owrite m o = false /\ forall v, nowr (k v)
    | _ => True
    end.
  Lemma nowr_bind {A B} (p : prog A) (f : A -> prog B) :
    nowr p -> (forall a, nowr (f a)) -> nowr (pbind p f).
  Proof. intros H1 H2. induction p; cbn in *; naive_solver. Qed.

  Lemma nowr_trylock pid m' : nowr (mutex_trylock g pid m').
  Proof.
    unfold mutex_trylock. apply nowr_bind; [cbn; done|]. intros v. apply nowr_bind; [destruct (v =? nobody g); cbn; done|].
    intros [|]; cbn; done.
  Qed.
  Lemma nowr_lock loop pid m' : nowr (mutex_lock_loop g loop pid m').
  Proof.
    induction loop as [|loop IH]; cbn [mutex_lock_loop]; (apply nowr_bind; [apply nowr_trylock|]); intros r;
      destruct (r =? 0); done.
  Qed.

  (** Programs correct for the mutex that do not look at the condition. *)
  Lemma blift {A} i (J stl slp : option Z -> Prop) (p : prog A) own ph cs sg (Q : option Z -> A -> Prop)
      (J' stl' slp' : btk -> Prop) (Q' : btk -> A -> Prop) :
    within away p ->
    (nowr p \/ (cs = CS0 /\ ph = P0)) ->
    wp (mstep g m) i J stl slp p own Q ->
    (forall own, J' (mkB own ph cs sg)) -> (forall t, stl' t) ->
    (forall own, slp own -> slp' (mkB own ph cs sg)) ->
    (forall own a, Q own a -> Q' (mkB own ph cs sg) a) ->
    wp bst i J' stl' slp' p (mkB own ph cs sg) Q'.
  Proof.
    intros Hw Hn Hp HJ Hs Hl HQ. revert own Hp. induction p as [a| | |o k IH]; intros own; cbn [wp within nowr] in *.
    - intros [? ?]; auto.
    - auto.
    - auto.
    - intros (H0 & H1 & H2). destruct Hw as [Hw1 Hw2]. split; [auto|]. split; [auto|].
      unfold bstep. rewrite decide_False.
      2:{ intros E. by destruct (Hw1 _ E). }
      rewrite decide_False.
      2:{ intros E. by destruct (Hw1 _ E). }
      destruct (is_owrite m o) eqn:Eo.
      + destruct Hn as [[? _]|[-> ->]]; [done|]. split; [by left|].
        eapply mstep_mono, H2. cbn. intros v tk' Hk. apply IH; auto.
      + eapply mstep_mono, H2. cbn. intros v tk' Hk. apply IH; [done| |done].
        destruct Hn as [[_ Hn]|Hn]; [left; done|by right].
  Qed.

  Lemma bwp_act {A} i (J stl slp : btk -> Prop) o (f : Z -> prog A) tk (Q : btk -> A -> Prop) :
    J tk -> ((exists n, o = MSleep n) -> slp tk) ->
    bst i o tk (fun v t => wp bst i J stl slp (f v) t Q) ->
    wp bst i J stl slp (pbind (act o) f) tk Q.
  Proof. apply wp_act. apply bstep_mono. Qed.

  Definition asleep (t : btk) : Prop := b_own t = None /\ b_cs t = CS1.

  (** The release inside picoRTOS_cond_wait. *)
  Lemma bwp_unlock i (J stl : btk -> Prop) (Q : btk -> Z -> Prop) sg :
    Z.of_nat i < nobody g -> (forall o p, J (mkB o p CS1 sg)) ->
    Q (mkB None P0 CS1 sg) 0 ->
    wp bst i J stl asleep (mutex_unlock g (Z.of_nat i) m) (mkB (Some 1) PZ CS1 sg) Q.
  Proof.
    intros Hi HJ HQ. unfold mutex_unlock.
    apply bwp_act; [done|by intros [? ?]|]. cbn [bstep op_loc is_owrite].
    rewrite !decide_False by done. split; [done|]. rewrite decide_True by done. intros v Hv.
    rewrite (proj2 Hv) by done. rewrite Z.eqb_refl. cbn [passert].
    apply bwp_act; [done|by intros [? ?]|]. cbn [bstep op_loc is_owrite].
    rewrite !(decide_False (P := Some (LCount m) = _)) by done. split; [done|]. rewrite decide_False by done. rewrite decide_True by done.
    intros v1 Hv1. rewrite (Hv1 1) by done. change (1 >? 0) with true. cbn [passert].
    apply bwp_act; [done|by intros [? ?]|]. cbn [bstep op_loc is_owrite].
    rewrite !(decide_False (P := Some (LCount m) = _)) by done. split; [done|]. rewrite decide_False by done. rewrite decide_True by done.
    intros v2 Hv2. rewrite (Hv2 1) by done. destruct Hwf as [_ Hsz].
    assert (1 < 2 ^ ic_szbits g) by (apply Z.pow_gt_1; lia).
    rewrite wrap_small by lia. cbv zeta. change (1 - 1) with 0.
    apply bwp_act; [done|by intros [? ?]|]. cbn [bstep op_loc is_owrite].
    rewrite !(decide_False (P := Some (LCount m) = _)) by done.
    rewrite bool_decide_eq_false_2 by done. split; [done|]. rewrite decide_False by done. rewrite decide_True by done.
    split; [done|]. change (0 =? 0) with true. cbv iota.
    apply bwp_act; [done|by intros [? ?]|]. cbn [bstep op_loc is_owrite].
    rewrite !(decide_False (P := Some (LOwner m) = _)) by done.
    rewrite bool_decide_eq_true_2 by done. split; [by right|]. split; [done|]. rewrite decide_True by done.
    split; [done|]. split; [done|]. cbn. auto.
  Qed.

  Lemma bwp_loop i (J stl : btk -> Prop) fuel sg (Q : btk -> Z -> Prop) ph :
    Z.of_nat i < nobody g -> (forall o p, J (mkB o p CS1 sg)) -> (forall t, stl t) ->
    (forall p r, Q (mkB (Some 1) p CS1 sg) r) ->
    wp bst i J stl asleep (cond_loop g fuel (Z.of_nat i) c m) (mkB (Some 1) ph CS1 sg) Q.
  Proof.
    intros Hi HJ Hs HQ. revert ph. induction fuel as [|f IH]; intros ph; cbn [cond_loop]; [cbn; auto|].
    apply bwp_act; [auto|by intros [? ?]|]. cbn [bstep op_loc]. rewrite decide_True by done.
    split; [done|]. intros v. unfold C_NONE. destruct (v =? 0) eqn:E0; cbn [negb].
    2:{ cbn. auto. }
    apply wp_bind; [apply bstep_mono|]. apply bwp_unlock; [done|auto|].
    apply wp_bind; [apply bstep_mono|].
    eapply (blift i (fun _ => True) (fun _ => True) (fun own => own = None) _ _ _ _ _ (fun own _ => own = None)).
    - by cbn.
    - left. cbn. done.
    - cbn [schedule act wp mstep]. split; [done|]. split; [done|]. split; [done|]. auto.
    - auto.
    - auto.
    - intros own ->. done.
    - intros own _ ->. apply wp_bind; [apply bstep_mono|].
      eapply (blift i (fun _ => True) (fun _ => True) (fun own => own = None) _ _ _ _ _ (fun own _ => own = Some 1)).
      + by apply within_mutex_lock.
      + left. apply nowr_lock.
      + apply wp_lock; [done..|]. cbn. destruct Hwf as [_ Hsz].
        assert (1 < 2 ^ ic_szbits g) by (apply Z.pow_gt_1; lia). rewrite wrap_small by lia. done.
      + auto.
      + auto.
      + intros own ->. done.
      + intros own _ ->. apply IH.
  Qed.

  Lemma bwp_reset i (J stl : btk -> Prop) sg (Q : btk -> Z -> Prop) ph :
    (forall o p, J (mkB o p CS1 sg)) -> (forall o p, J (mkB o p CS2 sg)) -> (forall t, stl t) ->
    (forall p r, Q (mkB (Some 1) p CS2 sg) r) ->
    wp bst i J stl asleep (cond_reset g c) (mkB (Some 1) ph CS1 sg) Q.
  Proof.
    intros HJ HJ2 Hs HQ. unfold cond_reset.
    apply bwp_act; [auto|by intros [? ?]|]. cbn [bstep op_loc]. rewrite decide_False by done. rewrite decide_True by done.
    split; [done|]. intros n _. cbv zeta.
    apply bwp_act; [auto|by intros [? ?]|]. cbn [bstep op_loc]. rewrite decide_False by done. rewrite decide_True by done.
    split; [done|]. exists n. split; [done|]. right. split; [done|]. split; [done|].
    destruct (_ =? 0) eqn:E.
    - apply bwp_act; [auto|by intros [? ?]|]. cbn [bstep op_loc]. rewrite decide_True by done.
      right. right. split; [done|]. split; [done|]. split; [done|]. split; [right; f_equal; lia|]. cbn. auto.
    - apply bwp_act; [auto|by intros [? ?]|]. cbn [bstep op_loc]. rewrite decide_True by done.
      split; [done|]. intros a. unfold C_SIGNAL. destruct (a =? 1) eqn:Ea; [|cbn; auto].
      apply bwp_act; [auto|by intros [? ?]|]. cbn [bstep op_loc]. rewrite decide_True by done.
      right. right. split; [done|]. split; [done|]. split; [done|].
      destruct (a =? 0) eqn:Ea0; [lia|]. split; [by left|]. cbn. auto.
  Qed.

  Definition bidle (v : Z) (i : nat) (tk : btk) : Prop :=
    midle v i (b_own tk) /\ b_ph tk = P0 /\ b_cs tk = CS0 /\ b_sg tk = false.
  Definition bpost (v : Z) (i : nat) (cl : call) (tk : btk) (r : Z * Z) : Prop :=
    mpost g m v i cl (b_own tk) r /\ b_sg tk = false /\
    (if waits c cl then b_cs tk = CS2 /\ b_own tk <> None else b_cs tk = CS0 /\ b_ph tk = P0).
  Definition bJ (v : Z) (i : nat) (cl : call) (tk : btk) : Prop :=
    (b_sg tk = true -> cl = CondSignal c) /\
    (waits c cl = false -> b_cs tk = CS0 /\ b_ph tk = P0) /\
    (waits c cl = true -> b_cs tk = CS0 -> b_own tk <> None).
  Definition bstl (v : Z) (i : nat) (cl : call) (tk : btk) : Prop := True.
  Definition bslp (v : Z) (i : nat) (cl : call) (tk : btk) : Prop := waits c cl = true -> asleep tk.

  Definition blegal (md : mode) (h : list hev) (e : hev) : Prop :=
    mlegal g m h e /\
    (forall i m', e = HCall i (CondWait c m') -> m' = m /\ mheld m i h = 1) /\
    (forall w h0, md = MB w h0 -> h0 `prefix_of` h -> is_signal c e = false).

  Lemma wp_weaken {A} i (J stl slp J' stl' slp' : btk -> Prop) (p : prog A) tk (Q : btk -> A -> Prop) :
    (forall t, J t -> J' t) -> (forall t, stl t -> stl' t) -> (forall t, slp t -> slp' t) ->
    wp bst i J stl slp p tk Q -> wp bst i J' stl' slp' p tk Q.
  Proof.
    intros H1 H2 H3. revert tk. induction p as [a| | |o k IH]; intros tk; cbn [wp].
    - intros [? ?]; auto.
    - intros [? ?]; auto.
    - intros [? ?]; auto.
    - intros (? & ? & Hs). split; [auto|]. split; [auto|]. eapply bstep_mono, Hs. cbn. auto.
  Qed.

  (** Extending the history by an event that sends and wakes nothing. *)
  Lemma bcoh_hist md tks M h e :
    bcoh g c m md tks M h -> bcoh g c m md tks M (h ++ [e]).
  Proof.
    intros [Hb He]. split.
    - destruct Hb as (Hm & Hr). split; [|done]. eapply mcoh_ext; [|done..]. done.
    - destruct md as [|w h0|h0]; cbn [ext] in *; [done|..].
      + destruct He as (h1 & -> & Hs' & Ha & Hps & Hpz). exists (h1 ++ [e]).
        assert (Hf : fin c w tks h1 -> fin c w tks (h1 ++ [e])).
        { intros [(x & Hx & Hy)|X]; [left|by right]. exists x. split; [|done]. apply elem_of_app. by left. }
        split; [by rewrite app_assoc|]. split; [done|]. split; [naive_solver|]. split; [eauto|auto].
      + destruct He as (h1 & -> & Ha). exists (h1 ++ [e]). split; [by rewrite app_assoc|].
        destruct Ha as [[(x & Hx & Hy)|Hx]|Ha]; [left; left|left; by right|by right].
        exists x. split; [|done]. apply elem_of_app. by left.
  Qed.

  Lemma bcoh_same md tks M h i : bcoh g c m md tks M h -> bcoh g c m md (set_tk tks i (tks i)) M h.
  Proof.
    assert (Y : forall j, set_tk tks i (tks i) j = tks j).
    { intros j. unfold set_tk. case_decide; by subst. }
    intros [Hb He]. split.
    - destruct Hb as (Hm & Hno & Hk & L & Hnd & HL & Hr). refine (conj _ (conj _ (conj _ _))).
      + eapply mcoh_ext; [|done..]. intros j. cbn. by rewrite Y.
      + intros j. rewrite Y. apply Hno.
      + intros j n. rewrite Y. apply Hk.
      + exists L. split; [done|]. split; [|done]. intros j. rewrite Y. apply HL.
    - destruct md as [|w h0|h0]; cbn [ext] in *; [done|..].
      + destruct He as (h1 & E & Hs' & Ha & Hps & Hpz). exists h1. split; [done|]. unfold fin in *.
        rewrite !Y. split; [intros j; rewrite Y; apply Hs'|]. split; [done|]. split; [|done].
        intros x. rewrite Y. apply Hps.
      + destruct He as (h1 & E & Ha). exists h1. split; [done|].
        destruct Ha as [[Ha|[x Hx]]|Ha]; [left; by left|left; right|by right]. exists x. by rewrite Y.
  Qed.

  Lemma own_after tks M h M' h' i own' :
    mcoh g m (fun j => b_own (tks j)) M h -> M' (LOwner m) = M (LOwner m) -> M' (LCount m) = M (LCount m) ->
    mcoh g m (set_tk (fun j => b_own (tks j)) i own') M' h' -> own' = b_own (tks i).
  Proof.
    intros (ow & H1 & H2 & H3 & H4) E1 E2 (ow' & H1' & H2' & H3' & H4').
    specialize (H4 i). specialize (H4' i). rewrite set_tk_same in H4'. cbn in H4. rewrite H4, H4', E2.
    assert (ow = ow'); [|by subst]. rewrite E1, H1 in H1'.
    destruct ow as [a|], ow' as [b|]; cbn [enc] in H1'; try done.
    - f_equal. lia.
    - specialize (H3 a eq_refl). lia.
    - specialize (H3' b eq_refl). lia.
  Qed.

  Lemma benter md tks M h i cl :
    blegal md h (HCall i cl) -> bcoh g c m md tks M h -> bidle (mview m h i) i (tks i) ->
    exists tk', bcoh g c m md (set_tk tks i tk') M (h ++ [HCall i cl]) /\
      let v := mview m (h ++ [HCall i cl]) i in
      wp bst i (bJ v i cl) (bstl v i cl) (bslp v i cl) (body g i cl) tk' (bpost v i cl).
  Proof.
    intros (Hml & Hw & Hns) Hc (Hid & Hph & Hcs & Hsg). cbv zeta.
    destruct (menter g m (fun j => b_own (tks j)) M h i cl Hml (proj1 (proj1 Hc)) Hid) as (own' & Hm' & Hwp).
    assert (Hi : Z.of_nat i < nobody g) by (eapply Hml; done).
    assert (Eown : own' = b_own (tks i)) by (eapply own_after; [apply (proj1 (proj1 Hc))|done..]).
    subst own'. cbv zeta in Hwp.
    destruct (tks i) as [o1 p1 c1 s1] eqn:Ei. cbn [b_own b_ph b_cs b_sg] in *. subst p1 c1 s1.
    set (v := mview m (h ++ [HCall i cl]) i) in *.
    assert (Hplain : (forall l, uses cl l -> away l) -> waits c cl = false ->
      exists tk', bcoh g c m md (set_tk tks i tk') M (h ++ [HCall i cl]) /\
      wp bst i (bJ v i cl) (bstl v i cl) (bslp v i cl) (body g i cl) tk' (bpost v i cl)).
    { intros HS Hwt. exists (mkB o1 P0 CS0 false). split.
      - rewrite <- Ei. apply bcoh_same. by apply bcoh_hist.
      - eapply blift; [|by right|exact Hwp|..].
        + eapply within_weaken; [|apply within_body]. auto.
        + intros own. split; [done|]. rewrite Hwt. done.
        + done.
        + intros own _. unfold bslp. by rewrite Hwt.
        + intros own a HQ. split; [done|]. split; [done|]. rewrite Hwt. done. }
    destruct cl as [ | | | | | |c' m'|c'|c'| | ]; try (apply Hplain; [cbn; intros l; clear; unfold away; naive_solver|done]).
    - destruct (decide (c' = c)) as [->|Hne].
      2:{ apply Hplain; [cbn; intros l; clear -Hne; unfold away; naive_solver|cbn; by apply bool_decide_eq_false_2]. }
      clear Hplain. destruct (Hw i m' eq_refl) as [-> Hh].
      exists (mkB o1 P0 CS0 false). split; [rewrite <- Ei; apply bcoh_same; by apply bcoh_hist|].
      assert (Ho1 : o1 = Some 1).
      { destruct Hid as [_ Ho]. rewrite Ho. unfold mview. rewrite Hh. done. }
      subst o1.
      assert (Ev : v = 0).
      { unfold v, mview. rewrite mheld_snoc. cbn [mdelta]. rewrite bool_decide_eq_true_2 by done. lia. }
      rewrite Ev. assert (Hwt : waits c (CondWait c m) = true) by (cbn; by apply bool_decide_eq_true_2).
      assert (HJ1 : forall o p s, s <> CS0 -> bJ 0 i (CondWait c m) (mkB o p s false)).
      { intros o p s Hs. split; [done|]. rewrite Hwt. cbn. split; [done|]. done. }
      assert (HJ0 : forall p, bJ 0 i (CondWait c m) (mkB (Some 1) p CS0 false)).
      { intros p. split; [done|]. rewrite Hwt. cbn. done. }
      cbn [body]. apply wp_bind; [apply bstep_mono|]. unfold cond_wait.
      apply bwp_act; [auto|by intros [? ?]|]. cbn [bstep op_loc]. rewrite decide_False by done. rewrite decide_True by done.
      split; [done|]. intros x _. unfold passert. destruct (x <? ic_tasks g) eqn:Ex; [|cbn [wp]; split; [apply HJ0|done]].
      apply bwp_act; [auto|by intros [? ?]|]. cbn [bstep op_loc]. rewrite decide_False by done. rewrite decide_True by done.
      split; [done|]. intros y Hy. rewrite (Hy x eq_refl) in *. clear Hy.
      apply bwp_act; [auto|by intros [? ?]|]. cbn [bstep op_loc]. rewrite decide_False by done. rewrite decide_True by done.
      split; [done|]. exists x. split; [done|]. left. split; [done|]. split; [lia|]. split; [done|].
      apply wp_bind; [apply bstep_mono|].
      assert (Hsl : forall t, asleep t -> bslp 0 i (CondWait c m) t) by (intros t Ht _; exact Ht).
      apply (wp_weaken i (bJ 0 i (CondWait c m)) (bstl 0 i (CondWait c m)) asleep _ _ _ _ _ _ (fun _ X => X) (fun _ X => X) Hsl).
      apply bwp_loop; [done|by intros; apply HJ1|done|]. intros p r.
      apply (wp_weaken i (bJ 0 i (CondWait c m)) (bstl 0 i (CondWait c m)) asleep _ _ _ _ _ _ (fun _ X => X) (fun _ X => X) Hsl).
      apply bwp_reset; [by intros; apply HJ1|by intros; apply HJ1|done|]. intros p' r'.
      cbn [pair0 wp]. split; [by apply HJ1|]. split; [|split; [done|]].
      + unfold mpost. cbn [on_mutex]. rewrite bool_decide_eq_true_2 by done. done.
      + rewrite Hwt. done.
    - destruct (decide (c' = c)) as [->|Hne].
      2:{ apply Hplain; [cbn; intros l; clear -Hne; unfold away; naive_solver|done]. }
      clear Hplain. exists (mkB o1 P0 CS0 true). split.
      + pose proof (bcoh_hist _ _ _ _ (HCall i (CondSignal c)) Hc) as [Hb He].
        destruct Hb as (Hm & Hno & Hk & L & Hnd & HL & Hr).
        assert (Hcs' : forall j, b_cs (set_tk tks i (mkB o1 P0 CS0 true) j) = b_cs (tks j)).
        { intros j. unfold set_tk. case_decide; [by subst; rewrite Ei|done]. }
        split.
        * refine (conj _ (conj _ (conj _ _))).
          -- eapply mcoh_ext; [|done..|exact Hm]. intros j. cbn. unfold set_tk. case_decide; [by subst; rewrite Ei|done].
          -- intros j. rewrite Hcs'. unfold set_tk. case_decide; [subst; rewrite Ei; done|apply Hno].
          -- intros j n. unfold set_tk. case_decide; cbn; [by intros [?|?]|apply Hk].
          -- exists L. split; [done|]. split; [|done]. intros j. rewrite Hcs'. apply HL.
        * destruct md as [|w h0|h0]; cbn [ext] in *; [done|..].
          -- exfalso. destruct Hc as [_ (h1 & -> & _)].
             assert (is_signal c (HCall i (CondSignal c)) = false); [|cbn in *; by rewrite bool_decide_eq_true_2 in *].
             eapply Hns; [done|]. by apply prefix_app_r.
          -- destruct He as (h1 & E & Ha). exists h1. split; [done|].
             destruct Ha as [[Ha|[x Hx]]|Ha]; [left; by left|left; right|by right]. exists x. by rewrite Hcs'.
      + cbn [body]. unfold pair0, cond_signal. apply wp_bind; [apply bstep_mono|].
        apply bwp_act; [by split|by intros [? ?]|]. cbn [bstep op_loc]. rewrite decide_True by done.
        left. split; [done|]. split; [done|].
        assert (HJ : bJ v i (CondSignal c) (mkB o1 P0 CS0 false)) by (split; done).
        cbn [wp]. split; [done|]. split; [done|]. split; [|done].
        unfold mpost. cbn [on_mutex]. destruct Hid as [Hid1 Hid2].
        assert (v = mview m h i) as -> by (unfold v, mview; rewrite mheld_snoc; cbn [mdelta]; lia). done.
    - clear Hplain. exists (mkB o1 P0 CS0 false). split; [rewrite <- Ei; apply bcoh_same; by apply bcoh_hist|].
      assert (HJ : bJ v i (CondBroadcast c') (mkB o1 P0 CS0 false)) by (split; done).
      cbn [body]. unfold pair0, cond_broadcast. apply wp_bind; [apply bstep_mono|].
      assert (HQ : bpost v i (CondBroadcast c') (mkB o1 P0 CS0 false) (0, 0)).
      { split; [|done]. unfold mpost. cbn [on_mutex]. destruct Hid as [Hid1 Hid2].
        assert (v = mview m h i) as -> by (unfold v, mview; rewrite mheld_snoc; cbn [mdelta]; lia). done. }
      apply bwp_act; [done|by intros [? ?]|]. cbn [bstep op_loc].
      destruct (decide (c' = c)) as [->|Hne].
      + rewrite decide_True by done. right. left. split; [done|]. cbn [wp]. done.
      + rewrite decide_False by congruence. rewrite decide_False by done. cbn [is_owrite].
        rewrite bool_decide_eq_false_2 by done. split; [done|]. rewrite !decide_False by done. cbn [wp]. done.
  Qed.

  Lemma bret md tks M h i cl r x :
    blegal md h (HRet i cl r x) -> bcoh g c m md tks M h -> bpost (mview m h i) i cl (tks i) (r, x) ->
    exists tk', bcoh g c m md (set_tk tks i tk') M (h ++ [HRet i cl r x]) /\
      bidle (mview m (h ++ [HRet i cl r x]) i) i tk'.
  Proof.
    intros (Hml & _ & _) Hc (Hpost & Hsg & Hst).
    destruct (mret g m (fun j => b_own (tks j)) M h i cl r x Hml (proj1 (proj1 Hc)) Hpost) as (own' & Hm' & Hid').
    assert (Eown : own' = b_own (tks i)) by (eapply own_after; [apply (proj1 (proj1 Hc))|done..]).
    subst own'. destruct (waits c cl) eqn:Ew.
    2:{ exists (tks i). split; [apply bcoh_same; by apply bcoh_hist|]. destruct Hst. done. }
    destruct Hst as [Hcs Hown].
    exists (mkB (b_own (tks i)) P0 CS0 false). split; [|done].
    pose proof (bcoh_hist _ _ _ _ (HRet i cl r x) Hc) as [Hb He].
    assert (Hwk : is_woken c (HRet i cl r x) = true) by (destruct cl; done).
    split.
    - destruct Hb as (Hm & Hno & Hk & L & Hnd & HL & Hr). refine (conj _ (conj _ (conj _ _))).
      + eapply mcoh_ext; [|done..|exact Hm]. intros j. cbn. unfold set_tk. case_decide; by subst.
      + intros j. unfold set_tk. case_decide; cbn; [done|apply Hno].
      + intros j n. unfold set_tk. case_decide; cbn; [by intros [?|?]|apply Hk].
      + exists L. split; [done|]. split; [|done]. intros j. rewrite HL. unfold set_tk. case_decide; cbn; [|done].
        subst. rewrite Hcs. done.
    - destruct md as [|w h0|h0]; cbn [ext] in *; [done|..].
      + destruct Hc as [_ (h1 & -> & Hs' & Ha & Hps & Hpz)]. exists (h1 ++ [HRet i cl r x]).
        assert (Hf : fin c w tks h1 -> fin c w (set_tk tks i (mkB (b_own (tks i)) P0 CS0 false)) (h1 ++ [HRet i cl r x])).
        { intros [(e & He1 & He2)|X].
          - left. exists e. split; [|done]. apply elem_of_app. by left.
          - destruct (decide (w = i)) as [->|Hwi]; [left|right; by rewrite set_tk_other].
            exists (HRet i cl r x). split; [|done]. apply elem_of_app. right. by apply elem_of_list_singleton. }
        split; [by rewrite app_assoc|]. split; [|split; [|split]].
        * intros j. unfold set_tk. case_decide; cbn; auto.
        * destruct Ha as [Ha|[Ha Hw]]; [left; auto|right]. split; [done|]. rewrite set_tk_other; [done|]. congruence.
        * intros y. unfold set_tk at 1. case_decide; cbn; [done|]. eauto.
        * unfold set_tk at 1. case_decide; cbn; [done|]. auto.
      + destruct He as (h1 & E & Ha). destruct Hc as [_ (h2 & -> & _)].
        exists (h2 ++ [HRet i cl r x]). split; [by rewrite app_assoc|]. left. left. exists (HRet i cl r x).
        split; [|done]. apply elem_of_app. right. by apply elem_of_list_singleton.
  Qed.

  Definition BInv (md : mode) := Inv bst (mview m) (bcoh g c m md) bidle bpost bJ bstl bslp.

  Lemma BInv_run md s evs s' :
    BInv md s -> sys_run g s evs = Ok s' -> pids_ok g (y_hist s') -> depth_ok g m (y_hist s') ->
    cond_discipline c m (y_hist s') ->
    (forall w h0 h1, md = MB w h0 -> y_hist s' = h0 ++ h1 -> count_ev (is_signal c) h1 = 0%nat) ->
    BInv md s'.
  Proof.
    intros HI Hr Hp Hd Hw Hb. eapply Inv_run; [..|exact HI|exact Hr|].
    - intros h e j Hj. unfold mview. rewrite mheld_snoc, mdelta_other by done. lia.
    - by apply bstep_sound.
    - apply benter.
    - apply bret.
    - intros h x h' Hh. split; [|split].
      + split.
        * intros i cl ->. rewrite nobody_val by done. apply (Hp i cl). rewrite Hh. apply elem_of_app. right. left.
        * intros i. rewrite Hh in Hd. split; apply Hd.
          -- by apply prefix_app_r.
          -- replace (x :: h') with ([x] ++ h') by done. rewrite app_assoc. by apply prefix_app_r.
      + intros i m' ->. by eapply Hw.
      + intros w h0 -> [h1 ->]. rewrite <- app_assoc in Hh. specialize (Hb w h0 _ eq_refl Hh).
        rewrite count_ev_app in Hb. destruct (is_signal c x) eqn:E; [|done].
        unfold count_ev in Hb. rewrite filter_cons, decide_True in Hb by done. cbn in Hb. lia.
  Qed.

  Lemma BInv_init M : ready_mem g M -> BInv MA (sys0 M).
  Proof.
    intros (qs & jk & ->). exists (fun _ => mkB None P0 CS0 false). split.
    - split; [|done]. refine (conj _ (conj _ (conj _ _))).
      + by exists None.
      + done.
      + by intros i n [?|?].
      + exists []. split; [constructor|]. split; [|cbn; split; [done|]].
        * intros i. cbn. split; [by intros ?%elem_of_nil|done].
        * apply Z.pow_pos_nonneg; [lia|]. destruct Hwf. lia.
    - intros i. cbn. done.
  Qed.
End cthms.
