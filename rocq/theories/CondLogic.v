(** CondLogic.v - invariants of picoRTOS_cond_wait for tasks that hold the mutex exactly once when
    they call it: the waiter count is exact, a broadcast stays visible to every task that was
    waiting when it was sent, a signal stays visible until somebody takes it. *)
From Verif Require Import Base IpcModel IpcSpec IpcLogic IpcAvoid MutexProofs CondSilent CondSignal.
From Coq Require Import ZifyBool ZifyNat.

(** What a task knows: nothing; it read act = NONE; it read act = SIGNAL; the waiter count is n;
    the waiter count is n and it has just decremented it. *)
Inductive bphase := P0 | PZ | PS | PK (n : Z) | PD (n : Z).
(** Not counted, counted, no longer counted but still inside the call. *)
Inductive cstat := CS0 | CS1 | CS2.
Record btk := mkB { b_own : option Z; b_ph : bphase; b_cs : cstat; b_sg : bool }.

Global Instance cstat_eq_dec : EqDecision cstat.
Proof. solve_decision. Defined.

(** [MA]: no promise.  [MB w h0]: a broadcast was sent after [h0] while [w] waited.
    [MS h0]: a signal was sent after [h0]. *)
Inductive mode := MA | MB (w : nat) (h0 : list hev) | MS (h0 : list hev).

Section clogic.
  Context (g : icfg) (c m : nat).
  Hypothesis Hwf : wf_icfg g.
  Hypothesis Htasks : ic_tasks g < 2 ^ ic_szbits g.

  Definition is_owrite (o : memop) : bool :=
    match o with MWrite l _ => bool_decide (l = LOwner m) | _ => false end.

  Definition bstep (i : nat) (o : memop) (tk : btk) (Phi : Z -> btk -> Prop) : Prop :=
    let '(mkB own ph cs sg) := tk in
    if decide (op_loc o = Some (LAct c)) then
      match o with
      | MRead _ => own <> None /\
          forall v, Phi v (mkB own (if v =? 0 then PZ else if v =? 1 then PS else P0) cs sg)
      | MWrite _ v =>
          (v = 1 /\ sg = true /\ Phi 0 (mkB own ph cs false)) \/
          (v = 2 /\ Phi 0 tk) \/
          (v = 0 /\ own <> None /\ cs = CS2 /\ (ph = PS \/ ph = PD 0) /\ Phi 0 (mkB own P0 cs sg))
      | _ => False
      end
    else if decide (op_loc o = Some (LWait c)) then
      match o with
      | MRead _ => own <> None /\ forall v, (forall n, ph = PK n -> v = n) -> Phi v (mkB own (PK v) cs sg)
      | MWrite _ v => own <> None /\ exists n, ph = PK n /\
          ((cs = CS0 /\ n < ic_tasks g /\ v = wrap (ic_szbits g) (n + 1) /\ Phi 0 (mkB own P0 CS1 sg)) \/
           (cs = CS1 /\ v = wrap (ic_szbits g) (n - 1) /\ Phi 0 (mkB own (PD v) CS2 sg)))
      | _ => False
      end
    else
      if is_owrite o then
        ((cs = CS0 /\ ph = P0) \/ (cs = CS1 /\ ph = PZ)) /\
        mstep g m i o own (fun v own' => Phi v (mkB own' P0 cs sg))
      else mstep g m i o own (fun v own' => Phi v (mkB own' ph cs sg)).

  Lemma bstep_mono i o tk (P Q : Z -> btk -> Prop) :
    (forall v tk', P v tk' -> Q v tk') -> bstep i o tk P -> bstep i o tk Q.
  Proof.
    destruct tk as [own ph cs sg]. intros HPQ HH. unfold bstep in *. case_decide as D1; [|case_decide as D2].
    - destruct o; naive_solver.
    - destruct o; naive_solver.
    - destruct (is_owrite o).
      + destruct HH as [HH0 HH]. split; [done|]. eapply mstep_mono, HH. cbn. auto.
      + eapply mstep_mono, HH. cbn. auto.
  Qed.

  (** [w] has returned since [h0], or is about to. *)
  Definition fin (w : nat) (tks : nat -> btk) (h1 : list hev) : Prop :=
    (exists e, e ∈ h1 /\ is_woken c e = true /\ ev_task e = w) \/ b_cs (tks w) = CS2.
  Definition someone (tks : nat -> btk) (h1 : list hev) : Prop :=
    (exists e, e ∈ h1 /\ is_woken c e = true) \/ (exists x, b_cs (tks x) = CS2).

  Definition ext (md : mode) (tks : nat -> btk) (a : Z) (h : list hev) : Prop :=
    match md with
    | MA => True
    | MB w h0 => exists h1, h = h0 ++ h1 /\ (forall i, b_sg (tks i) = false) /\
        (fin w tks h1 \/ (a = 2 /\ b_cs (tks w) = CS1)) /\
        (forall x, b_ph (tks x) = PS -> fin w tks h1) /\ (b_ph (tks w) = PZ -> fin w tks h1)
    | MS h0 => exists h1, h = h0 ++ h1 /\ (someone tks h1 \/ a <> 0)
    end.

  Definition bbase (tks : nat -> btk) (M : mem) (h : list hev) : Prop :=
    mcoh g m (fun i => b_own (tks i)) M h /\
    (forall i, b_own (tks i) = None -> b_ph (tks i) = P0 /\ b_cs (tks i) <> CS2) /\
    (forall i n, b_ph (tks i) = PK n \/ b_ph (tks i) = PD n -> M (LWait c) = n) /\
    (exists L, NoDup L /\ (forall i, i ∈ L <-> b_cs (tks i) = CS1) /\ M (LWait c) = Z.of_nat (length L) /\
       M (LWait c) < 2 ^ ic_szbits g).

  Definition bcoh (md : mode) (tks : nat -> btk) (M : mem) (h : list hev) : Prop :=
    bbase tks M h /\ ext md tks (M (LAct c)) h.

  Lemma bown_unique tks M h i j :
    bbase tks M h -> b_own (tks i) <> None -> b_own (tks j) <> None -> i = j.
  Proof. intros [Hm _] Hi Hj. eapply (own_unique g m); [exact Hm|done..]. Qed.

  (** Changing only the phase of the owner. *)
  Lemma bbase_ph tks M h i p :
    bbase tks M h -> b_own (tks i) <> None ->
    (forall n, p = PK n \/ p = PD n -> M (LWait c) = n) ->
    bbase (set_tk tks i (mkB (b_own (tks i)) p (b_cs (tks i)) (b_sg (tks i)))) M h.
  Proof.
    intros (Hm & Hno & Hk & L & Hnd & HL & Hlen & Hlt) Ho Hp.
    refine (conj _ (conj _ (conj _ _))).
    - eapply mcoh_ext; [|done|done|done]. intros j. cbn. unfold set_tk. case_decide; by subst.
    - intros j. unfold set_tk. case_decide; cbn; [done|]. apply Hno.
    - intros j n. unfold set_tk. case_decide; cbn; [apply Hp|apply Hk].
    - exists L. split; [done|]. split; [|done]. intros j. rewrite HL. unfold set_tk. case_decide; cbn; by subst.
  Qed.

  Lemma ext_ph md tks a h i p :
    ext md tks a h ->
    (forall w h0, md = MB w h0 -> (p = PS \/ (p = PZ /\ w = i)) -> a <> 2) ->
    ext md (set_tk tks i (mkB (b_own (tks i)) p (b_cs (tks i)) (b_sg (tks i)))) a h.
  Proof.
    destruct md as [|w h0|h0]; cbn [ext]; [done|..].
    - intros (h1 & E & Hs & Ha & Hps & Hpz) Hp.
      set (tks' := set_tk _ _ _).
      assert (Hcs : forall x, b_cs (tks' x) = b_cs (tks x)).
      { intros x. unfold tks', set_tk. case_decide; by subst. }
      assert (Hf : fin w tks h1 <-> fin w tks' h1) by (unfold fin; by rewrite Hcs).
      exists h1. split; [done|]. rewrite <- Hf, Hcs. split; [|split; [|split]].
      + intros j. unfold tks', set_tk. case_decide; cbn; subst; apply Hs.
      + done.
      + intros x. rewrite <- Hf. unfold tks', set_tk. case_decide; cbn; [|apply Hps].
        intros ->. destruct Ha as [Ha|[Ha _]]; [done|]. exfalso. by apply (Hp w h0); auto.
      + unfold tks', set_tk. case_decide; cbn; [|apply Hpz].
        intros ->. destruct Ha as [Ha|[Ha _]]; [done|]. exfalso. apply (Hp w h0); auto.
    - intros (h1 & E & Ha) _. exists h1. split; [done|]. destruct Ha as [Ha|Ha]; [left|by right].
      destruct Ha as [Ha|[x Hx]]; [by left|right]. exists x. unfold set_tk. case_decide; cbn; by subst.
  Qed.

  Lemma bstep_sound md tks M h i o Phi :
    bcoh md tks M h -> bstep i o (tks i) Phi ->
    exists tk', bcoh md (set_tk tks i tk') (fst (exec o M)) h /\ Phi (snd (exec o M)) tk'.
  Proof.
    intros [Hb He] H. unfold bstep in H.
    destruct (tks i) as [own ph cs sg] eqn:Ei.
    assert (Eown : b_own (tks i) = own) by (by rewrite Ei).
    assert (Ecs : b_cs (tks i) = cs) by (by rewrite Ei).
    assert (Eph : b_ph (tks i) = ph) by (by rewrite Ei).
    assert (Esg : b_sg (tks i) = sg) by (by rewrite Ei).
    case_decide as D1; [|case_decide as D2].
    - destruct o as [l|l v|l|l o n|n]; cbn [op_loc] in D1; try done; injection D1 as ->; cbn [exec fst snd].
      + destruct H as [Ho H]. eexists. split; [|apply H].
        rewrite <- Eown, <- Ecs, <- Esg. split.
        * apply bbase_ph; [done|congruence|]. intros n. repeat case_match; naive_solver.
        * apply ext_ph; [done|]. intros w h0 _ Hx E2. rewrite E2 in Hx. cbn in Hx. destruct Hx as [Hx|[Hx _]]; done.
      + destruct H as [(-> & Hs & HP)|[(-> & HP)|(-> & Ho & Hcs & Hph & HP)]].
        * exists (mkB own ph cs false). split; [|done].
          destruct Hb as (Hm & Hno & Hk & L & Hnd & HL & Hlen & Hlt).
          split.
          -- refine (conj _ (conj _ (conj _ _))).
             ++ eapply (mcoh_ext g m _ _ M); [|by rewrite upd_other..|exact Hm]. intros j. cbn. unfold set_tk. case_decide; by subst.
             ++ intros j. unfold set_tk. case_decide; cbn; [|apply Hno]. subst. intros Hn. specialize (Hno i).
                rewrite Ei in Hno. apply Hno. done.
             ++ intros j n. rewrite upd_other by done. unfold set_tk. case_decide; cbn; [|apply Hk].
                subst. specialize (Hk i n). by rewrite Ei in Hk.
             ++ exists L. rewrite upd_other by done. split; [done|]. split; [|done]. intros j. rewrite HL.
                unfold set_tk. case_decide; cbn; by subst.
          -- rewrite upd_same. destruct md as [|w h0|h0]; cbn [ext] in *; [done|..].
             ++ destruct He as (h1 & E & Hs' & _). specialize (Hs' i). congruence.
             ++ destruct He as (h1 & E & Ha). exists h1. split; [done|]. right. lia.
        * exists (tks i). split; [|by rewrite Ei].
          assert (X : forall j, set_tk tks i (tks i) j = tks j).
          { intros j. unfold set_tk. case_decide; by subst. }
          destruct Hb as (Hm & Hno & Hk & L & Hnd & HL & Hlen & Hlt).
          split.
          -- refine (conj _ (conj _ (conj _ _))).
             ++ eapply (mcoh_ext g m _ _ M); [|by rewrite upd_other..|exact Hm]. intros j. cbn. by rewrite X.
             ++ intros j. rewrite X. apply Hno.
             ++ intros j n. rewrite upd_other by done. rewrite X. apply Hk.
             ++ exists L. rewrite upd_other by done. split; [done|]. split; [|done]. intros j. by rewrite HL, X.
          -- rewrite upd_same. destruct md as [|w h0|h0]; cbn [ext] in *; [done|..].
             ++ destruct He as (h1 & E & Hs' & Ha & Hps & Hpz). exists h1. split; [done|].
                assert (Hf : fin w tks h1 <-> fin w (set_tk tks i (tks i)) h1) by (unfold fin; by rewrite X).
                rewrite !X, <- Hf. split; [intros j; rewrite X; apply Hs'|]. split; [naive_solver|].
                split; [|done]. intros x. rewrite X, <- Hf. apply Hps.
             ++ destruct He as (h1 & E & Ha). exists h1. split; [done|]. right. lia.
        * exists (mkB own P0 cs sg). split; [|done]. rewrite <- Eown, <- Ecs, <- Esg.
          assert (Hb' : bbase (set_tk tks i (mkB (b_own (tks i)) P0 (b_cs (tks i)) (b_sg (tks i)))) M h).
          { apply bbase_ph; [done|congruence|]. naive_solver. }
          split.
          -- destruct Hb' as (Hm & Hno & Hk & L & Hnd & HL & Hlen & Hlt).
             refine (conj _ (conj _ (conj _ _))).
             ++ eapply (mcoh_ext g m _ _ M); [|by rewrite upd_other..|exact Hm]. done.
             ++ done.
             ++ rewrite upd_other by done. done.
             ++ exists L. rewrite upd_other by done. done.
          -- rewrite upd_same. set (tks' := set_tk _ _ _).
             assert (Hcs' : forall x, b_cs (tks' x) = b_cs (tks x)).
             { intros x. unfold tks', set_tk. case_decide; by subst. }
             destruct md as [|w h0|h0]; cbn [ext] in *; [done|..].
             ++ destruct He as (h1 & E & Hs' & Ha & Hps & Hpz). exists h1. split; [done|].
                assert (Hf : fin w tks h1 <-> fin w tks' h1) by (unfold fin; by rewrite Hcs').
                assert (Hfin : fin w tks h1).
                { destruct Ha as [Ha|[Ha Hw]]; [done|]. destruct Hph as [Hph|Hph]; [by apply (Hps i); congruence|].
                  exfalso. destruct Hb as (_ & _ & Hk & L & _ & HL & Hlen & _).
                  assert (HwL : w ∈ L) by (by apply HL). rewrite (Hk i 0) in Hlen by (right; congruence).
                  destruct L; [by apply elem_of_nil in HwL|]. cbn in Hlen. lia. }
                apply Hf in Hfin. split; [|split; [by left|split; done]].
                intros j. unfold tks', set_tk. case_decide; cbn; subst; auto.
             ++ destruct He as (h1 & E & Ha). exists h1. split; [done|]. left. right. exists i. by rewrite Hcs', Ecs.
    - destruct o as [l|l v|l|l o n|n]; cbn [op_loc] in D2; try done; injection D2 as ->; cbn [exec fst snd].
      + destruct H as [Ho H]. eexists. split; [|apply H].
        2:{ intros n Hn. destruct Hb as (_ & _ & Hk & _). apply (Hk i). left. congruence. }
        rewrite <- Eown, <- Ecs, <- Esg. split.
        * apply bbase_ph; [done|congruence|]. intros n [[= <-]|]; [|done]. done.
        * apply ext_ph; [done|]. naive_solver.
      + destruct H as (Ho & n & Hph & H).
        assert (Hoi : b_own (tks i) <> None) by congruence.
        pose proof Hb as (Hm & Hno & Hk & L & Hnd & HL & Hlen & Hlt).
        assert (En : M (LWait c) = n) by (apply (Hk i); left; congruence).
        assert (Hoth : forall j k, j <> i -> b_ph (tks j) = PK k \/ b_ph (tks j) = PD k -> False).
        { intros j k Hj Hjk. destruct Hj. eapply bown_unique; [exact Hb| |exact Hoi].
          intros X. apply Hno in X as [X _]. rewrite X in Hjk. by destruct Hjk. }
        destruct H as [(Hcs & Hn & -> & HP)|(Hcs & -> & HP)].
        * exists (mkB own P0 CS1 sg). split; [|done].
          assert (Ew : wrap (ic_szbits g) (n + 1) = n + 1) by (apply wrap_small; lia).
          rewrite Ew. split.
          -- refine (conj _ (conj _ (conj _ _))).
             ++ eapply (mcoh_ext g m _ _ M); [|by rewrite upd_other..|exact Hm]. intros j. cbn. unfold set_tk. case_decide; by subst.
             ++ intros j. unfold set_tk. case_decide; cbn; [done|apply Hno].
             ++ intros j k. unfold set_tk. case_decide as Dj; cbn; [by intros [?|?]|]. intros X. exfalso. eauto.
             ++ exists (i :: L). rewrite upd_same. split; [|split; [|split]].
                ** constructor; [|done]. rewrite HL. congruence.
                ** intros j. rewrite elem_of_cons, HL. unfold set_tk. case_decide; cbn; naive_solver.
                ** cbn. lia.
                ** lia.
          -- rewrite upd_other by done. destruct md as [|w h0|h0]; cbn [ext] in *; [done|..].
             ++ destruct He as (h1 & E & Hs' & Ha & Hps & Hpz). exists h1. split; [done|].
                assert (Hf : fin w tks h1 -> fin w (set_tk tks i (mkB own P0 CS1 sg)) h1).
                { intros [X|X]; [by left|right]. unfold set_tk. case_decide; [subst; congruence|done]. }
                split; [|split; [|split]].
                ** intros j. unfold set_tk. case_decide; cbn; [|auto]. subst. apply Hs'.
                ** destruct Ha as [Ha|[Ha Hw]]; [auto|right]. split; [done|]. unfold set_tk. by case_decide.
                ** intros x. unfold set_tk at 1. case_decide; cbn; [done|]. eauto.
                ** unfold set_tk at 1. case_decide; cbn; [done|]. eauto.
             ++ destruct He as (h1 & E & Ha). exists h1. split; [done|]. destruct Ha as [Ha|Ha]; [left|by right].
                destruct Ha as [Ha|[x Hx]]; [by left|right]. exists x. unfold set_tk. case_decide; cbn; [congruence|done].
        * set (v := wrap (ic_szbits g) (n - 1)) in *.
          exists (mkB own (PD v) CS2 sg). split; [|done].
          assert (HiL : i ∈ L) by (by apply HL; congruence).
          assert (Hpos : (0 < length L)%nat).
          { destruct L; [by apply elem_of_nil in HiL|cbn; lia]. }
          assert (Ew : v = n - 1) by (apply wrap_small; lia).
          split.
          -- refine (conj _ (conj _ (conj _ _))).
             ++ eapply (mcoh_ext g m _ _ M); [|by rewrite upd_other..|exact Hm]. intros j. cbn. unfold set_tk. case_decide; by subst.
             ++ intros j. unfold set_tk. case_decide; cbn; [done|apply Hno].
             ++ intros j k. rewrite upd_same. unfold set_tk. case_decide as Dj; cbn.
                ** intros [?|[= ->]]; done.
                ** intros X. exfalso. eauto.
             ++ exists (filter (fun x => x <> i) L). rewrite upd_same. split; [by apply NoDup_filter|]. split; [|].
                ** intros j. rewrite elem_of_list_filter, HL. unfold set_tk. case_decide; cbn; naive_solver.
                ** assert (length (filter (fun x => x <> i) L) = (length L - 1)%nat); [|lia].
                   clear -HiL Hnd. induction Hnd as [|x L Hx Hnd IH]; [by apply elem_of_nil in HiL|].
                   rewrite filter_cons. apply elem_of_cons in HiL as [->|HiL].
                   --- rewrite decide_False by naive_solver. cbn. rewrite Nat.sub_0_r. f_equal.
                       clear -Hx. induction L as [|y L IH]; [done|]. rewrite filter_cons.
                       rewrite not_elem_of_cons in Hx. destruct Hx. rewrite decide_True by done. f_equal. auto.
                   --- assert (x <> i) by (intros ->; done). rewrite decide_True by done. cbn. rewrite IH by done.
                       destruct L; [by apply elem_of_nil in HiL|]. cbn. lia.
          -- rewrite upd_other by done. destruct md as [|w h0|h0]; cbn [ext] in *; [done|..].
             ++ destruct He as (h1 & E & Hs' & Ha & Hps & Hpz). exists h1. split; [done|].
                assert (Hf : fin w tks h1 -> fin w (set_tk tks i (mkB own (PD v) CS2 sg)) h1).
                { intros [X|X]; [by left|right]. unfold set_tk. by case_decide. }
                split; [|split; [|split]].
                ** intros j. unfold set_tk. case_decide; cbn; [|auto]. subst. apply Hs'.
                ** destruct (decide (w = i)) as [->|Hwi].
                   { left. right. by rewrite set_tk_same. }
                   destruct Ha as [Ha|[Ha Hw]]; [auto|right]. split; [done|]. by rewrite set_tk_other.
                ** intros x. unfold set_tk at 1. case_decide; cbn; [done|]. eauto.
                ** unfold set_tk at 1. case_decide; cbn; [done|]. eauto.
             ++ destruct He as (h1 & E & Ha). exists h1. split; [done|]. left. right. exists i. by rewrite set_tk_same.
    - set (ph' := if is_owrite o then P0 else ph).
      assert (Hst : mstep g m i o own (fun v own' => Phi v (mkB own' ph' cs sg)) /\
                    (is_owrite o = true -> (cs = CS0 /\ ph = P0) \/ (cs = CS1 /\ ph = PZ))).
      { unfold ph'. destruct (is_owrite o); [by destruct H|done]. }
      clear H. destruct Hst as [H How]. destruct Hb as (Hm & Hno & Hk & L & Hnd & HL & Hlen & Hlt).
      pose proof Hm as Hm0. rewrite <- Eown in H.
      destruct (mstep_sound g m (fun j => b_own (tks j)) M h i o _ Hm H) as (own' & Hm' & HP).
      exists (mkB own' ph' cs sg). split; [|done].
      assert (Ea : fst (exec o M) (LAct c) = M (LAct c)) by (by apply exec_other).
      assert (Ew : fst (exec o M) (LWait c) = M (LWait c)) by (by apply exec_other).
      split.
      + refine (conj _ (conj _ (conj _ _))).
        * eapply mcoh_ext; [|done|done|done]. intros j. cbn. unfold set_tk. by case_decide.
        * intros j. unfold set_tk. case_decide; cbn; [|apply Hno]. subst j. intros ->.
          destruct (is_owrite o) eqn:Eo.
          { unfold ph'. destruct (How eq_refl) as [[-> _]|[-> _]]; done. }
          unfold ph'. rewrite <- Eph, <- Ecs. apply Hno. destruct (b_own (tks i)) eqn:Eoo; [|done]. exfalso.
          destruct Hm as (ow & H1 & H2 & H3 & H4). destruct Hm' as (ow' & H1' & H2' & H3' & H4').
          specialize (H4 i). cbn in H4. rewrite Eoo in H4. case_decide as D3; [|done]. subst ow.
          specialize (H4' i). rewrite set_tk_same in H4'. case_decide as D4; [done|].
          specialize (H3 i eq_refl).
          assert (Eow : fst (exec o M) (LOwner m) = M (LOwner m)).
          { destruct o as [l|l v|l|l old new|k]; cbn [exec fst]; try done.
            - cbn in Eo. apply bool_decide_eq_false in Eo. rewrite upd_other by congruence. done.
            - destruct H as [_ H]. rewrite upd_other; [done|]. intros <-. rewrite decide_True in H by done. done.
            - destruct H as [_ H]. destruct (M l =? old) eqn:El; [|done]. rewrite upd_other; [done|]. intros <-.
              rewrite decide_True in H by done. destruct H as [-> _]. rewrite H1 in El. cbn [enc] in El. lia. }
          rewrite Eow, H1 in H1'. destruct ow' as [k|]; cbn [enc] in H1'; [|lia].
          assert (k = i) by lia. subst. done.
        * intros j k. rewrite Ew. unfold set_tk. case_decide; cbn; [|apply Hk]. subst j. unfold ph'.
          destruct (is_owrite o); [by intros [?|?]|]. rewrite <- Eph. apply Hk.
        * exists L. rewrite Ew. split; [done|]. split; [|done]. intros j. rewrite HL. unfold set_tk.
          case_decide; cbn; by subst.
      + rewrite Ea.
        assert (X : ext md (set_tk tks i (mkB (b_own (tks i)) ph' (b_cs (tks i)) (b_sg (tks i)))) (M (LAct c)) h).
        { unfold ph'. destruct (is_owrite o).
          - apply ext_ph; [done|]. naive_solver.
          - rewrite <- Eph. replace (mkB _ _ _ _) with (tks i) by (by rewrite Ei).
            assert (Y : forall j, set_tk tks i (tks i) j = tks j).
            { intros j. unfold set_tk. case_decide; by subst. }
            destruct md as [|w h0|h0]; cbn [ext] in *; [done|..].
            + destruct He as (h1 & E & Hs' & Ha & Hps & Hpz). exists h1. split; [done|]. unfold fin in *.
              rewrite !Y. split; [intros j; rewrite Y; apply Hs'|]. split; [done|]. split; [|done].
              intros x. rewrite Y. apply Hps.
            + destruct He as (h1 & E & Ha). exists h1. split; [done|]. destruct Ha as [[Ha|[x Hx]]|Ha]; [left; by left|left; right|by right].
              exists x. by rewrite Y. }
        rewrite Ecs, Esg in X. clear -X.
        set (t1 := set_tk _ _ _) in X. set (t2 := set_tk _ _ _).
        assert (Hcs : forall j, b_cs (t2 j) = b_cs (t1 j)) by (intros j; unfold t1, t2, set_tk; by case_decide).
        assert (Hph : forall j, b_ph (t2 j) = b_ph (t1 j)) by (intros j; unfold t1, t2, set_tk; by case_decide).
        assert (Hsg : forall j, b_sg (t2 j) = b_sg (t1 j)) by (intros j; unfold t1, t2, set_tk; by case_decide).
        destruct md as [|w h0|h0]; cbn [ext] in *; [done|..].
        * destruct X as (h1 & E & Hs' & Ha & Hps & Hpz). exists h1. split; [done|].
          unfold fin in *. rewrite Hcs, Hph. split; [intros j; rewrite Hsg; apply Hs'|]. split; [done|].
          split; [|done]. intros x. rewrite Hph. apply Hps.
        * destruct X as (h1 & E & Ha). exists h1. split; [done|]. destruct Ha as [[Ha|[x Hx]]|Ha]; [left; by left|left; right|by right].
          exists x. by rewrite Hcs.
  Qed.
End clogic.
