(** QueueRace.v - what a queue still guarantees when its reads and writes overlap in any way. *)
From Verif Require Import Base IpcModel IpcSpec IpcLogic IpcAvoid MutexProofs MutexThms CondSilent CondSignal QueueProofs.
From Coq Require Import ZifyBool ZifyNat.

(** Phases of a queue call. [d]: has it moved the index yet? *)
Inductive rph := PBegin | PLk (r w : Z) (d : bool) | POut (d : bool) | PVal (v : Z).
Inductive rtk := RNo | RIn (x : option Z) (ph : rph).

Definition com (ph : rph) : Z := match ph with PLk _ _ true | POut true | PVal _ => 1 | _ => 0 end.
Definition tpush (t : rtk) : Z := match t with RIn (Some _) ph => com ph | _ => 0 end.
Definition tpop (t : rtk) : Z := match t with RIn None ph => com ph | _ => 0 end.
Definition twr (t : rtk) : Z := match t with RIn (Some _) _ => 1 | _ => 0 end.
Definition trd (t : rtk) : Z := match t with RIn None _ => 1 | _ => 0 end.

Fixpoint tsum (n : nat) (f : rtk -> Z) (tks : nat -> rtk) : Z :=
  match n with O => 0 | S n => f (tks n) + tsum n f tks end.
Lemma tsum_set n f tks i t : (i < n)%nat -> tsum n f (set_tk tks i t) = tsum n f tks + f t - f (tks i).
Proof.
  assert (H : forall n, (n <= i)%nat -> tsum n f (set_tk tks i t) = tsum n f tks).
  { clear n. induction n as [|n IH]; intros H; [done|]. cbn [tsum]. rewrite IH by lia.
    unfold set_tk. rewrite decide_False by lia. done. }
  induction n as [|n IH]; intros Hi; [lia|]. cbn [tsum]. destruct (decide (n = i)) as [->|Hn].
  - rewrite H by done. unfold set_tk at 1. rewrite decide_True by done. lia.
  - rewrite IH by lia. unfold set_tk at 1. rewrite decide_False by done. lia.
Qed.
Lemma tsum_ext n f tks tks' : (forall i, tks' i = tks i) -> tsum n f tks' = tsum n f tks.
Proof. intros E. induction n as [|n IH]; cbn [tsum]; [done|]. by rewrite E, IH. Qed.
Lemma tsum_grow n m f tks : f RNo = 0 -> (forall i, (n <= i)%nat -> tks i = RNo) -> (n <= m)%nat -> tsum m f tks = tsum n f tks.
Proof.
  intros H0 H Hm. induction Hm as [|m Hm IH]; [done|]. cbn [tsum]. rewrite H by done. lia.
Qed.
Lemma tsum_le n f f' tks : (forall t, f t <= f' t) -> tsum n f tks <= tsum n f' tks.
Proof. intros H. induction n as [|n IH]; cbn [tsum]; [lia|]. specialize (H (tks n)). lia. Qed.
Lemma tsum_nonneg n f tks : (forall t, 0 <= f t) -> 0 <= tsum n f tks.
Proof. intros H. induction n as [|n IH]; cbn [tsum]; [lia|]. specialize (H (tks n)). lia. Qed.

Definition is_write_ret (q : nat) (e : hev) : bool :=
  match e with HRet _ (QueueWrite q' _) _ _ => bool_decide (q' = q) | _ => false end.
Definition is_read_ret (q : nat) (e : hev) : bool :=
  match e with HRet _ (QueueRead q') _ _ => bool_decide (q' = q) | _ => false end.
Definition cnt (P : hev -> bool) (h : list hev) : Z := Z.of_nat (count_ev P h).
Lemma cnt_snoc P h e : cnt P (h ++ [e]) = cnt P h + (if P e then 1 else 0).
Proof.
  unfold cnt, count_ev. rewrite filter_app, app_length. rewrite filter_cons. destruct (P e) eqn:E.
  - rewrite decide_True by done. cbn. lia.
  - rewrite decide_False by done. cbn. lia.
Qed.

Section race.
  Context (g : icfg) (q : nat) (k : Z) (junk : nat -> Z -> Z).
  Hypothesis Hk : 0 <= k < ic_szbits g.
  Notation N := (2 ^ k).
  Notation cap := (qcap k).

  Definition rstep (i : nat) (o : memop) (tk : rtk) (Phi : Z -> rtk -> Prop) : Prop :=
    match o with
    | MTas l =>
        if is_qcell q l then
          l = LQlock q /\ exists x, tk = RIn x PBegin /\ (forall v, v <> 0 -> Phi v tk) /\
            (forall r w, 0 <= r < N -> 0 <= w < N -> Phi 0 (RIn x (PLk r w false)))
        else forall v, Phi v tk
    | MCas l _ _ => if is_qcell q l then False else forall v, Phi v tk
    | MSleep _ => forall v, Phi v tk
    | MRead l =>
        if is_qcell q l then
          match l with
          | LQlock _ => exists x r w d, tk = RIn x (PLk r w d) /\ forall v, v <> 0 -> Phi v tk
          | LQmask _ => Phi (N - 1) tk
          | LQr _ => exists x r w d, tk = RIn x (PLk r w d) /\ Phi r tk
          | LQw _ => exists x r w d, tk = RIn x (PLk r w d) /\ Phi w tk
          | LQi _ => forall v, 0 <= v < N -> Phi v tk
          | LQbuf _ a => 0 <= a < N /\ tk = RIn None (POut true) /\ forall v, Phi v (RIn None (PVal v))
          | _ => False
          end
        else forall v, Phi v tk
    | MWrite l y =>
        if is_qcell q l then
          match l with
          | LQlock _ => y = 0 /\ exists x r w d, tk = RIn x (PLk r w d) /\ Phi 0 (RIn x (POut d))
          | LQr _ => exists r w, tk = RIn None (PLk r w false) /\ y = (r + 1) mod N /\ y <> w /\ Phi 0 (RIn None (PLk y w true))
          | LQw _ => exists v r w, tk = RIn (Some v) (PLk r w false) /\ y = (w + 1) mod N /\ y <> r /\ Phi 0 (RIn (Some v) (PLk r y true))
          | LQi _ => 0 <= y < N /\ Phi 0 tk
          | LQbuf _ a => 0 <= a < N /\ tk = RIn (Some y) (POut true) /\ Phi 0 tk
          | _ => False
          end
        else Phi 0 tk
    end.

  Lemma rstep_mono i o tk (P Q : Z -> rtk -> Prop) :
    (forall v tk', P v tk' -> Q v tk') -> rstep i o tk P -> rstep i o tk Q.
  Proof.
    intros HPQ. unfold rstep. destruct o as [l|l y|l|l a b|n]; try destruct (is_qcell q l); try done; try (intros; apply HPQ; auto; fail).
    - destruct l; try done; try (intros H; apply HPQ; exact H).
      + intros (x & r & w & d & H1 & H2). exists x, r, w, d. auto.
      + intros (x & r & w & d & H1 & H2). exists x, r, w, d. auto.
      + intros (x & r & w & d & H1 & H2). exists x, r, w, d. auto.
      + auto.
      + intros (H1 & H2 & H3). auto.
    - destruct l; try done.
      + intros (H0 & x & r & w & d & H1 & H2). split; [done|]. exists x, r, w, d. auto.
      + intros (r & w & H1 & H2 & H3 & H4). exists r, w. auto.
      + intros (v & r & w & H1 & H2 & H3 & H4). exists v, r, w. auto.
      + intros [H1 H2]. auto.
      + intros (H1 & H2 & H3). auto.
    - intros (H0 & x & H1 & H2 & H3). split; [done|]. exists x. auto.
  Qed.

  (** Values that may come out. *)
  Definition vals (h : list hev) (v : Z) : Prop :=
    (exists i, HCall i (QueueWrite q v) ∈ h) \/ (exists j, 0 <= j < N /\ v = junk q j).
  Lemma vals_app h h' v : vals h v -> vals (h ++ h') v.
  Proof. intros [[i H]|H]; [left; exists i; apply elem_of_app; auto|by right]. Qed.

  Definition tok (h : list hev) (i : nat) (t : rtk) : Prop :=
    match t with
    | RIn (Some v) _ => HCall i (QueueWrite q v) ∈ h
    | RIn None (PVal v) => vals h v
    | _ => True
    end.
  Definition holds (t : rtk) : bool := match t with RIn _ (PLk _ _ _) => true | _ => false end.

  Record rcoh (tks : nat -> rtk) (M : mem) (h : list hev) : Prop := {
    rc_n : exists n, (forall i, (n <= i)%nat -> tks i = RNo) /\
      cnt (is_write_call q) h = cnt (is_write_ret q) h + tsum n twr tks /\
      cnt (is_read_call q) h = cnt (is_read_ret q) h + tsum n trd tks /\
      0 <= cnt (is_written q) h + tsum n tpush tks - (cnt (is_read q) h + tsum n tpop tks) <= cap /\
      M (LQw q) = (M (LQr q) + 1 + (cnt (is_written q) h + tsum n tpush tks - (cnt (is_read q) h + tsum n tpop tks))) mod N;
    rc_r : 0 <= M (LQr q) < N;
    rc_mask : M (LQmask q) = N - 1;
    rc_i : 0 <= M (LQi q) < N;
    rc_buf : forall a, 0 <= a < N -> vals h (M (LQbuf q a));
    rc_tok : forall i, tok h i (tks i);
    rc_cnt : cnt (is_written q) h <= cnt (is_write_ret q) h /\ cnt (is_read q) h <= cnt (is_read_ret q) h;
    rc_out : forall i v, HRet i (QueueRead q) 0 v ∈ h -> vals h v;
    rc_lock : exists ow : option nat, (M (LQlock q) = 0 <-> ow = None) /\
      (forall i, holds (tks i) = bool_decide (ow = Some i)) /\
      forall i x r w d, tks i = RIn x (PLk r w d) -> M (LQr q) = r /\ M (LQw q) = w
  }.

  Lemma Np : 0 < N.
  Proof. apply Z.pow_pos_nonneg; lia. Qed.
  Lemma rc_w tks M h : rcoh tks M h -> 0 <= M (LQw q) < N.
  Proof. intros []. destruct rc_n0 as (n & _ & _ & _ & _ & ->). apply Z.mod_pos_bound, Np. Qed.

  (** A step that changes neither indices nor lock, and the token of [i] only in harmless ways. *)
  Lemma rcoh_quiet tks M M' h i t :
    rcoh tks M h ->
    M' (LQlock q) = M (LQlock q) -> M' (LQr q) = M (LQr q) -> M' (LQw q) = M (LQw q) -> M' (LQmask q) = M (LQmask q) ->
    0 <= M' (LQi q) < N -> (forall a, 0 <= a < N -> vals h (M' (LQbuf q a))) ->
    tok h i t -> twr t = twr (tks i) -> trd t = trd (tks i) -> tpush t = tpush (tks i) -> tpop t = tpop (tks i) ->
    (t = tks i \/ (holds t = false /\ holds (tks i) = false /\ tks i <> RNo)) ->
    rcoh (set_tk tks i t) M' h.
  Proof.
    intros [] E1 E2 E3 E4 Hi Hb Ht W1 W2 W3 W4 Hh.
    assert (S : forall n f, f t = f (tks i) -> tsum n f (set_tk tks i t) = tsum n f tks).
    { intros n f Hf. induction n as [|n IH]; [done|]. cbn [tsum]. rewrite IH. unfold set_tk. case_decide; [subst; lia|done]. }
    constructor; rewrite ?E1, ?E2, ?E3, ?E4; try done.
    - destruct rc_n0 as (n & H1 & H2). exists n. rewrite !S by done. split; [|done].
      intros j Hj. unfold set_tk. case_decide; [subst|auto]. destruct Hh as [->|(_ & _ & Hn)]; [auto|]. destruct Hn. auto.
    - intros j. unfold set_tk. case_decide; [by subst|auto].
    - destruct rc_lock0 as (ow & H1 & H2 & H3). exists ow. split; [done|]. split.
      + intros j. unfold set_tk. case_decide; [subst|auto]. rewrite <- H2. destruct Hh as [->|(A & B & _)]; [done|]. by rewrite A, B.
      + intros j x r w d. unfold set_tk. case_decide; [subst|by apply H3].
        destruct Hh as [->|(A & B & _)]; [by apply H3|]. intros ->. done.
  Qed.

  Lemma rcoh_frame tks M M' h i : rcoh tks M h -> (forall x, is_qcell q x = true -> M' x = M x) -> rcoh (set_tk tks i (tks i)) M' h.
  Proof.
    intros Hc E.
    assert (B : bool_decide (q = q) = true) by (by rewrite bool_decide_eq_true_2).
    pose proof Hc as [].
    eapply rcoh_quiet; try done; try (apply E; cbn; exact B).
    all: try apply rc_tok0; try (by left).
    - rewrite E by (cbn; exact B). done.
    - intros a Ha. rewrite E by (cbn; exact B). auto.
  Qed.

  Lemma exec_off o M l : op_loc o = Some l -> is_qcell q l = false -> forall x, is_qcell q x = true -> fst (exec o M) x = M x.
  Proof. intros H1 H2 x Hx. apply exec_other. rewrite H1. intros [= ->]. congruence. Qed.

  Lemma d_small d : 0 <= d <= cap -> 0 <= d < N.
  Proof. unfold qcap. pose proof Np. lia. Qed.

  Ltac sm := cbn [exec fst snd].
  Lemma rstep_sound tks M h i o Phi :
    rcoh tks M h -> rstep i o (tks i) Phi ->
    exists tk', rcoh (set_tk tks i tk') (fst (exec o M)) h /\ Phi (snd (exec o M)) tk'.
  Proof.
    intros Hc H. pose proof Np as HN. pose proof Hc as [].
    destruct o as [l|l y|l|l a b|n]; cbn [rstep] in H.
    - destruct (is_qcell q l) eqn:El.
      2: { exists (tks i). split; [|apply H]. eapply rcoh_frame; [done|]. by sm. }
      destruct l; try done; cbn in El; apply bool_decide_eq_true in El as ->; sm.
      + destruct H as (x & r & w & d & Ht & HP). exists (tks i). split; [by eapply rcoh_frame|]. apply HP.
        destruct rc_lock0 as (ow & H1 & H2 & _). specialize (H2 i). rewrite Ht in H2. cbn in H2. symmetry in H2. apply bool_decide_eq_true in H2.
        intros E. apply H1 in E. congruence.
      + rewrite rc_mask0. exists (tks i). split; [by eapply rcoh_frame|done].
      + destruct H as (x & r & w & d & Ht & HP). exists (tks i). split; [by eapply rcoh_frame|].
        destruct rc_lock0 as (ow & _ & _ & H3). by destruct (H3 _ _ _ _ _ Ht) as [-> _].
      + destruct H as (x & r & w & d & Ht & HP). exists (tks i). split; [by eapply rcoh_frame|].
        destruct rc_lock0 as (ow & _ & _ & H3). by destruct (H3 _ _ _ _ _ Ht) as [_ ->].
      + exists (tks i). split; [by eapply rcoh_frame|auto].
      + destruct H as (Ha & Ht & HP). eexists. split; [|apply HP].
        eapply rcoh_quiet; try done; rewrite ?Ht; try done.
        * cbn [tok]. auto.
        * right. done.
    - destruct (is_qcell q l) eqn:El.
      2: { exists (tks i). split; [|apply H]. eapply rcoh_frame; [done|]. eapply (exec_off (MWrite l y)); done. }
      destruct l; try done; cbn in El; apply bool_decide_eq_true in El as ->; sm.
      + (* unlock *)
        destruct H as (-> & x & r & w & d & Ht & HP). eexists. split; [|apply HP].
        pose proof rc_lock0 as (ow & H1 & H2 & H3).
        assert (Eow : ow = Some i).
        { specialize (H2 i). rewrite Ht in H2. cbn in H2. symmetry in H2. by apply bool_decide_eq_true in H2. }
        assert (X : forall (f : rtk -> Z), f (RIn x (POut d)) = f (tks i) -> forall n, tsum n f (set_tk tks i (RIn x (POut d))) = tsum n f tks).
        { intros f Hf n. induction n as [|n IH]; [done|]. cbn [tsum]. rewrite IH. unfold set_tk. case_decide; [subst; lia|done]. }
        constructor; repeat first [rewrite upd_same | rewrite upd_other by done]; try done.
        * destruct rc_n0 as (n & A1 & A2). exists n.
          rewrite !X by (rewrite Ht; destruct x, d; done). split; [|done].
          intros j Hj. unfold set_tk. case_decide; [subst j|auto]. rewrite A1 in Ht by done. done.
        * intros j. unfold set_tk. case_decide; [subst j|auto]. specialize (rc_tok0 i). rewrite Ht in rc_tok0. by destruct x.
        * exists None. split; [done|]. split.
          -- intros j. unfold set_tk. case_decide; [done|]. rewrite H2, Eow. rewrite !bool_decide_eq_false_2; [done|congruence..].
          -- intros j x' r' w' d'. unfold set_tk. case_decide; [done|]. repeat rewrite upd_other by done. apply H3.
      + (* r *)
        destruct H as (r & w & Ht & Hy & Hne & HP). eexists. split; [|apply HP].
        pose proof rc_lock0 as (ow & H1 & H2 & H3). destruct (H3 _ _ _ _ _ Ht) as [Er Ew].
        assert (Eow : ow = Some i).
        { specialize (H2 i). rewrite Ht in H2. cbn in H2. symmetry in H2. by apply bool_decide_eq_true in H2. }
        assert (Hy' : 0 <= y < N) by (subst y; apply Z.mod_pos_bound; lia).
        constructor; repeat first [rewrite upd_same | rewrite upd_other by done]; try done.
        * destruct rc_n0 as (n & A1 & A2 & A3 & A4 & A5).
          assert (Hin : (i < n)%nat). { destruct (decide (i < n)%nat); [done|]. rewrite A1 in Ht by lia. done. }
          exists n. rewrite !tsum_set by done. rewrite Ht. cbn [twr trd tpush tpop com].
          set (d := cnt (is_written q) h + tsum n tpush tks - (cnt (is_read q) h + tsum n tpop tks)) in *.
          assert (Hd : d <> 0).
          { intros E0. apply Hne. rewrite <- Ew, A5, E0, Er, Hy. f_equal. lia. }
          split; [|split; [lia|split; [lia|split; [lia|]]]].
          -- intros j Hj. unfold set_tk. rewrite decide_False by lia. auto.
          -- rewrite A5, Er, Hy.
             match goal with |- _ = (_ mod N + 1 + ?z) mod N => replace z with (d - 1) by (unfold d; lia) end.
             replace ((r + 1) mod N + 1 + (d - 1)) with ((r + 1) mod N + d) by lia.
             rewrite Zplus_mod_idemp_l. f_equal.
        * intros j. unfold set_tk. case_decide; [subst j|auto]. done.
        * exists ow. split; [done|]. split.
          -- intros j. unfold set_tk. case_decide; [subst j|auto]. rewrite Eow. cbn. by rewrite bool_decide_eq_true_2.
          -- intros j x' r' w' d'. unfold set_tk. case_decide as D.
             ++ intros [= <- <- <- <-]. split; first [done | by rewrite upd_same | by rewrite upd_other by done].
             ++ intros Hj. exfalso. specialize (H2 j). rewrite Hj in H2. cbn in H2. symmetry in H2. apply bool_decide_eq_true in H2. congruence.
      + (* w *)
        destruct H as (v & r & w & Ht & Hy & Hne & HP). eexists. split; [|apply HP].
        pose proof rc_lock0 as (ow & H1 & H2 & H3). destruct (H3 _ _ _ _ _ Ht) as [Er Ew].
        assert (Eow : ow = Some i).
        { specialize (H2 i). rewrite Ht in H2. cbn in H2. symmetry in H2. by apply bool_decide_eq_true in H2. }
        constructor; repeat first [rewrite upd_same | rewrite upd_other by done]; try done.
        * destruct rc_n0 as (n & A1 & A2 & A3 & A4 & A5).
          assert (Hin : (i < n)%nat). { destruct (decide (i < n)%nat); [done|]. rewrite A1 in Ht by lia. done. }
          exists n. rewrite !tsum_set by done. rewrite Ht. cbn [twr trd tpush tpop com].
          set (d := cnt (is_written q) h + tsum n tpush tks - (cnt (is_read q) h + tsum n tpop tks)) in *.
          assert (Ew' : y = (r + (d + 2)) mod N).
          { rewrite Hy, <- Ew, A5, Er, Zplus_mod_idemp_l. f_equal. lia. }
          assert (Hd : d <> cap).
          { intros E0. apply Hne. rewrite Ew', E0. unfold qcap.
            destruct (decide (N = 1)) as [E1|N1].
            - rewrite E1 in *. rewrite Z.mod_1_r. lia.
            - replace (Z.max 0 (N - 2) + 2) with N by lia.
              rewrite Zplus_mod, Z_mod_same_full, Z.add_0_r, Zmod_mod, Z.mod_small; lia. }
          split; [|split; [lia|split; [lia|split; [lia|]]]].
          -- intros j Hj. unfold set_tk. rewrite decide_False by lia. auto.
          -- rewrite Ew', Er. f_equal. unfold d. lia.
        * intros j. unfold set_tk. case_decide; [subst j|auto]. specialize (rc_tok0 i). by rewrite Ht in rc_tok0.
        * exists ow. split; [done|]. split.
          -- intros j. unfold set_tk. case_decide; [subst j|auto]. rewrite Eow. cbn. by rewrite bool_decide_eq_true_2.
          -- intros j x' r' w' d'. unfold set_tk. case_decide as D.
             ++ intros [= <- <- <- <-]. split; first [done | by rewrite upd_same | by rewrite upd_other by done].
             ++ intros Hj. exfalso. specialize (H2 j). rewrite Hj in H2. cbn in H2. symmetry in H2. apply bool_decide_eq_true in H2. congruence.
      + destruct H as [Hy HP]. exists (tks i). split; [|done].
        eapply rcoh_quiet; try done; repeat first [rewrite upd_same | rewrite upd_other by done]; try done.
        all: try apply rc_tok0; try (by left).
        all: intros a Ha; rewrite upd_other by done; auto.
      + destruct H as (Ha & Ht & HP). exists (tks i). split; [|done].
        eapply rcoh_quiet; try done; repeat first [rewrite upd_same | rewrite upd_other by done]; try done.
        all: try apply rc_tok0; try (by left).
        all: intros a Ha'; destruct (decide (a = i0)) as [->|Hne]; [|rewrite upd_other by congruence; auto].
        all: rewrite upd_same; specialize (rc_tok0 i); rewrite Ht in rc_tok0; left; by exists i.
    - destruct (is_qcell q l) eqn:El.
      2: { exists (tks i). split; [|apply H]. eapply rcoh_frame; [done|]. eapply (exec_off (MTas l)); done. }
      destruct H as (-> & x & Ht & Hn & H0). sm.
      pose proof rc_lock0 as (ow & H1 & H2 & H3).
      destruct (decide (M (LQlock q) = 0)) as [E0|E0].
      + rewrite E0. exists (RIn x (PLk (M (LQr q)) (M (LQw q)) false)). split.
        2: { apply H0; [done|]. by eapply rc_w. }
        pose proof (proj1 H1 E0) as ->.
        constructor; repeat first [rewrite upd_same | rewrite upd_other by done]; try done.
        * destruct rc_n0 as (n & A1 & A2). exists n.
          assert (Hin : (i < n)%nat). { destruct (decide (i < n)%nat); [done|]. rewrite A1 in Ht by lia. done. }
          rewrite !tsum_set by done. rewrite Ht. split; [intros j Hj; unfold set_tk; rewrite decide_False by lia; auto|].
          destruct A2 as (A2 & A3 & A4 & A5). destruct x; cbn [twr trd tpush tpop com]; rewrite ?Z.add_0_r, ?Z.sub_0_r.
          -- split; [lia|]. done.
          -- split; [done|]. split; [lia|]. done.
        * intros j. unfold set_tk. case_decide; [subst j|auto]. specialize (rc_tok0 i). rewrite Ht in rc_tok0. by destruct x.
        * exists (Some i). split; [done|]. split.
          -- intros j. unfold set_tk. case_decide; [subst j; cbn; by rewrite bool_decide_eq_true_2|].
             rewrite H2. rewrite !bool_decide_eq_false_2; [done|congruence..].
          -- intros j x' r' w' d'. unfold set_tk. case_decide as D.
             ++ intros [= <- <- <- <-]. repeat rewrite upd_other by done. done.
             ++ intros Hj. exfalso. specialize (H2 j). rewrite Hj in H2. cbn in H2. done.
      + exists (tks i). split; [|by apply Hn].
        pose proof (rcoh_frame tks M M h i Hc (fun _ _ => eq_refl)) as Hc'. destruct Hc'.
        constructor; repeat first [rewrite upd_same | rewrite upd_other by done]; try done.
        * destruct rc_lock1 as (ow' & B1 & B2 & B3). exists ow'. split; [|split; [done|]].
          -- split; [done|]. intros ->. destruct E0. by apply B1.
          -- intros j x' r' w' d' Hj. repeat rewrite upd_other by done. by eapply B3.
    - destruct (is_qcell q l) eqn:El; [done|].
      exists (tks i). split; [|apply H]. eapply rcoh_frame; [done|]. eapply (exec_off (MCas l a b)); done.
    - exists (tks i). split; [|apply H]. by eapply rcoh_frame.
  Qed.

  Definition ridle (v : unit) (i : nat) (tk : rtk) : Prop := tk = RNo.
  Definition rpost (v : unit) (i : nat) (cl : call) (tk : rtk) (r : Z * Z) : Prop :=
    match cl with
    | QueueRead q' => if bool_decide (q' = q) then
        (fst r = 0 /\ tk = RIn None (PVal (snd r))) \/ (fst r = - EAGAIN /\ tk = RIn None (POut false)) else tk = RNo
    | QueueWrite q' x => if bool_decide (q' = q) then
        (fst r = 0 /\ tk = RIn (Some x) (POut true)) \/ (fst r = - EAGAIN /\ tk = RIn (Some x) (POut false)) else tk = RNo
    | _ => tk = RNo
    end.
  Definition rT (v : unit) (i : nat) (cl : call) (tk : rtk) : Prop := True.

  Ltac rd := apply wp_act; [apply rstep_mono|done|by intros [? ?]|]; cbn [rstep is_qcell]; rewrite bool_decide_eq_true_2 by done.

  Lemma wp_rlock {A} i (J stl slp : rtk -> Prop) loop x (f : Z -> prog A) (Q : rtk -> A -> Prop) :
    (forall t, J t) -> (forall t, stl t) -> (forall t, slp t) ->
    (forall r w, 0 <= r < N -> 0 <= w < N -> wp rstep i J stl slp (f 0) (RIn x (PLk r w false)) Q) ->
    wp rstep i J stl slp (pbind (futex_lock_loop loop (LQlock q)) f) (RIn x PBegin) Q.
  Proof.
    intros HJ Hs Hl HQ. apply wp_bind; [apply rstep_mono|].
    induction loop as [|loop IH]; cbn [futex_lock_loop]; (apply wp_bind; [apply rstep_mono|]); unfold futex_trylock; rd;
      (split; [done|]; exists x; split; [done|]; split).
    - intros v Hv. rewrite (proj2 (Z.eqb_neq _ _)) by done. cbn. repeat split; auto.
    - intros r w Hr Hw. cbn. repeat split; auto.
    - intros v Hv. rewrite (proj2 (Z.eqb_neq _ _)) by done. cbn -[futex_lock_loop rstep].
      split; [done|]. split; [done|]. split; [done|]. cbn [rstep]. done.
    - intros r w Hr Hw. cbn -[futex_lock_loop rstep]. repeat split; auto.
  Qed.
  Lemma wp_runlock {A} i (J stl slp : rtk -> Prop) x r w d (f : Z -> prog A) (Q : rtk -> A -> Prop) :
    (forall t, J t) ->
    wp rstep i J stl slp (f 0) (RIn x (POut d)) Q ->
    wp rstep i J stl slp (pbind (futex_unlock (LQlock q)) f) (RIn x (PLk r w d)) Q.
  Proof.
    intros HJ HQ. apply wp_bind; [apply rstep_mono|]. unfold futex_unlock. rd.
    exists x, r, w, d. split; [done|]. intros v Hv. rewrite (proj2 (Z.eqb_neq _ _)) by done. cbn [negb passert].
    rd. split; [done|]. exists x, r, w, d. split; [done|]. cbn [wp]. auto.
  Qed.

  Lemma wp_read i :
    wp rstep i (rT tt i (QueueRead q)) (rT tt i (QueueRead q)) (rT tt i (QueueRead q)) (queue_read g q) (RIn None PBegin) (rpost tt i (QueueRead q)).
  Proof.
    pose proof Np as HN. unfold queue_read, head_pop. apply wp_bind; [apply rstep_mono|]. apply wp_rlock; [done..|]. intros r w Hr Hw.
    rd. exists None, r, w, false. split; [done|]. rd.
    rewrite (next_idx g k Hk) by done. cbv zeta. rd. exists None, r, w, false. split; [done|].
    destruct ((r + 1) mod N =? w) eqn:E.
    - apply wp_runlock; [done|]. cbn [wp]. split; [done|]. change (negb (- EAGAIN =? - EAGAIN)) with false. cbn [wp].
      split; [done|]. unfold rpost. rewrite bool_decide_eq_true_2 by done. auto.
    - assert (Hn : 0 <= (r + 1) mod N < N) by (apply Z.mod_pos_bound; lia).
      rd. exists r, w. split; [done|]. split; [done|]. split; [lia|].
      rd. split; [done|]. apply wp_runlock; [done|]. cbn [wp]. split; [done|].
      cbn [Z.eqb negb Z.opp EAGAIN]. rd. intros a Ha. rd. split; [done|]. split; [done|]. intros v. cbn [wp]. split; [done|]. unfold rpost. rewrite bool_decide_eq_true_2 by done. auto.
  Qed.
  Lemma wp_write i x :
    wp rstep i (rT tt i (QueueWrite q x)) (rT tt i (QueueWrite q x)) (rT tt i (QueueWrite q x)) (queue_write g q x) (RIn (Some x) PBegin) (rpost tt i (QueueWrite q x)).
  Proof.
    pose proof Np as HN. unfold queue_write, head_push. apply wp_bind; [apply rstep_mono|]. apply wp_rlock; [done..|]. intros r w Hr Hw.
    rd. exists (Some x), r, w, false. split; [done|]. rd.
    rewrite (next_idx g k Hk) by done. cbv zeta. rd. exists (Some x), r, w, false. split; [done|].
    destruct ((w + 1) mod N =? r) eqn:E.
    - apply wp_runlock; [done|]. cbn [wp]. split; [done|]. change (negb (- EAGAIN =? - EAGAIN)) with false. cbn [wp].
      split; [done|]. unfold rpost. rewrite bool_decide_eq_true_2 by done. auto.
    - rd. exists (Some x), r, w, false. split; [done|]. rd. split; [done|].
      rd. exists x, r, w. split; [done|]. split; [done|]. split; [lia|].
      apply wp_runlock; [done|]. cbn [wp]. split; [done|].
      cbn [Z.eqb negb Z.opp EAGAIN]. rd. intros a Ha. rd. split; [done|]. split; [done|]. cbn [wp]. split; [done|]. unfold rpost. rewrite bool_decide_eq_true_2 by done. auto.
  Qed.

  Lemma tok_app h h' i t : tok h i t -> tok (h ++ h') i t.
  Proof. destruct t as [|[x|] [| | |v]]; cbn; try done; try (intros; apply elem_of_app; auto; fail). apply vals_app. Qed.

  Lemma renter tks M h i cl :
    True -> rcoh tks M h -> ridle tt i (tks i) ->
    exists tk', rcoh (set_tk tks i tk') M (h ++ [HCall i cl]) /\
      wp rstep i (rT tt i cl) (rT tt i cl) (rT tt i cl) (body g i cl) tk' (rpost tt i cl).
  Proof.
    intros _ Hc Hi. unfold ridle in Hi. pose proof Hc as [].
    set (tk' := if on_queue q cl then RIn (match cl with QueueWrite _ v => Some v | _ => None end) PBegin else RNo).
    exists tk'. split.
    - destruct rc_n0 as (n & A1 & A2 & A3 & A4 & A5).
      assert (Htok : tok (h ++ [HCall i cl]) i tk').
      { unfold tk'. destruct (on_queue q cl) eqn:Eq; [|done]. destruct cl; try done. cbn in Eq. apply bool_decide_eq_true in Eq as ->.
        cbn. apply elem_of_app. right. by apply elem_of_list_singleton. }
      set (m := Nat.max n (S i)).
      assert (G : forall f, f RNo = 0 -> tsum m f (set_tk tks i tk') = tsum n f tks + f tk').
      { intros f Hf. rewrite tsum_set by lia. rewrite (tsum_grow n m f tks) by (done || lia). rewrite Hi. lia. }
      assert (F0 : twr tk' = (if is_write_call q (HCall i cl) then 1 else 0) /\ trd tk' = (if is_read_call q (HCall i cl) then 1 else 0) /\ tpush tk' = 0 /\ tpop tk' = 0).
      { unfold tk'. destruct cl; cbn [on_queue is_write_call is_read_call]; try done; destruct (bool_decide _); done. }
      destruct F0 as (F1 & F2 & F3 & F4).
      constructor; try done.
      + exists m. split.
        * intros j Hj. unfold set_tk. rewrite decide_False by lia. apply A1. lia.
        * rewrite !G by done. rewrite F1, F2, F3, F4, !Z.add_0_r.
          rewrite !cnt_snoc. change (is_write_ret q (HCall i cl)) with false. change (is_read_ret q (HCall i cl)) with false.
          change (is_written q (HCall i cl)) with false. change (is_read q (HCall i cl)) with false. rewrite !Z.add_0_r.
          split; [lia|]. split; [lia|]. done.
      + intros a Ha. apply vals_app. auto.
      + intros j. unfold set_tk. case_decide; [by subst|]. apply tok_app, rc_tok0.
      + rewrite !cnt_snoc. change (is_write_ret q (HCall i cl)) with false. change (is_read_ret q (HCall i cl)) with false.
          change (is_written q (HCall i cl)) with false. change (is_read q (HCall i cl)) with false. lia.
      + intros j v [Hj|Hj]%elem_of_app; [|by apply elem_of_list_singleton in Hj]. apply vals_app. eauto.
      + destruct rc_lock0 as (ow & H1 & H2 & H3). exists ow. split; [done|]. split.
        * intros j. unfold set_tk. case_decide; [subst j|auto]. rewrite <- H2, Hi. unfold tk'. by destruct (on_queue q cl).
        * intros j x r w d. unfold set_tk. case_decide; [|apply H3]. unfold tk'. by destruct (on_queue q cl).
    - unfold tk'. destruct (on_queue q cl) eqn:Eq.
      + destruct cl; try done; cbn in Eq; apply bool_decide_eq_true in Eq as ->; cbn [body]; [apply wp_read|apply wp_write].
      + eapply (within_wp rstep (fun l => is_qcell q l = false)).
        * intros o Phi H1 H2. destruct o as [l|l y|l|l a b|?]; cbn [rstep op_loc] in *; try rewrite (H1 _ eq_refl); auto.
        * eapply within_weaken; [|apply within_body]. intros x Hx. by eapply uses_no_qcell.
        * done.
        * done.
        * done.
        * intros a. unfold rpost. destruct cl; try done; cbn in Eq; by rewrite Eq.
  Qed.

  Lemma rret tks M h i cl r x :
    True -> rcoh tks M h -> rpost tt i cl (tks i) (r, x) ->
    exists tk', rcoh (set_tk tks i tk') M (h ++ [HRet i cl r x]) /\ ridle tt i tk'.
  Proof.
    intros _ Hc Hp. exists RNo. split; [|done]. pose proof Hc as [].
    destruct rc_n0 as (n & A1 & A2 & A3 & A4 & A5).
    set (m := Nat.max n (S i)).
    assert (G : forall f, f RNo = 0 -> tsum m f (set_tk tks i RNo) = tsum n f tks - f (tks i)).
    { intros f Hf. rewrite tsum_set by lia. rewrite (tsum_grow n m f tks) by (done || lia). lia. }
    assert (F0 : twr (tks i) = (if is_write_ret q (HRet i cl r x) then 1 else 0) /\ trd (tks i) = (if is_read_ret q (HRet i cl r x) then 1 else 0)
        /\ tpush (tks i) = (if is_written q (HRet i cl r x) then 1 else 0) /\ tpop (tks i) = (if is_read q (HRet i cl r x) then 1 else 0) /\ holds (tks i) = false
        /\ (is_written q (HRet i cl r x) = true -> is_write_ret q (HRet i cl r x) = true) /\ (is_read q (HRet i cl r x) = true -> is_read_ret q (HRet i cl r x) = true)
        /\ (cl = QueueRead q -> r = 0 -> vals h x)).
    { unfold rpost in Hp. specialize (rc_tok0 i). destruct cl; cbn [is_write_ret is_read_ret is_written is_read]; try (rewrite Hp; naive_solver).
      - destruct (bool_decide (q0 = q)) eqn:Eq.
        + cbn [fst snd] in Hp. destruct Hp as [[-> Hp]|[-> Hp]]; rewrite Hp in *; cbn in *; naive_solver.
        + rewrite Hp. repeat split; try done. intros [= ->]. by rewrite bool_decide_eq_true_2 in Eq.
      - destruct (bool_decide (q0 = q)) eqn:Eq.
        + cbn [fst snd] in Hp. destruct Hp as [[-> Hp]|[-> Hp]]; rewrite Hp in *; cbn; naive_solver.
        + rewrite Hp. done. }
    destruct F0 as (F1 & F2 & F3 & F4 & F5 & F6 & F7 & F8).
    constructor; try done.
    - exists m. split; [|rewrite !G by done; rewrite F1, F2, F3, F4, !cnt_snoc;
        change (is_write_call q (HRet i cl r x)) with false; change (is_read_call q (HRet i cl r x)) with false; split; [lia|]; split; [lia|]; split; [lia|]].
      + intros j Hj. unfold set_tk. rewrite decide_False by lia. apply A1. lia.
      + rewrite A5. f_equal. lia.
    - intros a Ha. apply vals_app. auto.
    - intros j. unfold set_tk. case_decide; [done|]. apply tok_app, rc_tok0.
    - rewrite !cnt_snoc. destruct (is_written q (HRet i cl r x)); [rewrite F6 by done|]; destruct (is_read q (HRet i cl r x)); try rewrite F7 by done;
        destruct (is_write_ret q (HRet i cl r x)), (is_read_ret q (HRet i cl r x)); lia.
    - intros j v [Hj|Hj]%elem_of_app; apply vals_app; [eauto|].
      apply elem_of_list_singleton in Hj. injection Hj as -> <- <- ->. auto.
    - destruct rc_lock0 as (ow & H1 & H2 & H3). exists ow. split; [done|]. split.
      + intros j. unfold set_tk. case_decide; [subst j|auto]. by rewrite <- H2, F5.
      + intros j y r' w d. unfold set_tk. case_decide; [done|apply H3].
  Qed.

  Definition RInv := Inv rstep (fun _ _ => tt) rcoh ridle rpost rT rT rT.

  Lemma RInv_reach qsize evs s :
    qsize q = N -> sys_run g (sys0 (mem0 g qsize junk)) evs = Ok s -> RInv s.
  Proof.
    intros Hq Hr.
    eapply (Inv_run rstep g (fun _ _ => tt) rcoh ridle rpost rT rT rT (fun _ _ => True)); try exact Hr; try done.
    - apply rstep_sound.
    - apply renter.
    - apply rret.
    - pose proof Np. pose proof (Nsz g k Hk).
      assert (Em : wrap (ic_szbits g) (qsize q - 1) = N - 1) by (rewrite Hq; apply wrap_small; lia).
      exists (fun _ => RNo). split; [|done].
      constructor; cbn [sys0 y_mem y_hist mem0]; rewrite ?Em; try done; try lia.
      + exists 0%nat. split; [done|]. split; [done|]. split; [done|].
        change (cnt (is_written q) [] + tsum 0 tpush (fun _ => RNo) - (cnt (is_read q) [] + tsum 0 tpop (fun _ => RNo))) with 0.
        split; [unfold qcap; lia|]. replace (N - 1 + 1 + 0) with (1 * N) by lia. by rewrite Z_mod_mult.
      + intros a Ha. right. eauto.
      + intros i v H'. by apply elem_of_nil in H'.
      + exists None. split; [done|]. split; [done|]. done.
  Qed.

  Lemma queue_any_interleaving qsize evs s :
    qsize q = N -> sys_run g (sys0 (mem0 g qsize junk)) evs = Ok s ->
    (forall i v, HRet i (QueueRead q) 0 v ∈ y_hist s -> vals (y_hist s) v) /\
    cnt (is_read q) (y_hist s) <= cnt (is_write_call q) (y_hist s) /\
    cnt (is_written q) (y_hist s) <= cap + cnt (is_read_call q) (y_hist s) /\
    (forall i c o f a, y_thr s i = In c (Op o f) -> op_loc o = Some (LQbuf q a) -> 0 <= a < N).
  Proof.
    intros Hq Hr. destruct (RInv_reach _ _ _ Hq Hr) as (tks & [] & Ht). destruct rc_n0 as (n & A1 & A2 & A3 & A4 & A5).
    assert (L1 : tsum n tpush tks <= tsum n twr tks) by (apply tsum_le; intros [|[?|] [| ? ? []|[]|]]; done).
    assert (L2 : tsum n tpop tks <= tsum n trd tks) by (apply tsum_le; intros [|[?|] [| ? ? []|[]|]]; done).
    assert (L3 : 0 <= tsum n tpush tks) by (apply tsum_nonneg; intros [|[?|] [| ? ? []|[]|]]; done).
    assert (L4 : 0 <= tsum n tpop tks) by (apply tsum_nonneg; intros [|[?|] [| ? ? []|[]|]]; done).
    split; [done|]. split; [lia|]. split; [lia|].
    intros i c o f a Hi Ho. specialize (Ht i). rewrite Hi in Ht. cbn [thr_ok wp] in Ht. destruct Ht as (_ & _ & Ht).
    assert (B : is_qcell q (LQbuf q a) = true) by (cbn; by rewrite bool_decide_eq_true_2).
    destruct o as [l|l y|l|l u v|?]; cbn [op_loc] in Ho; try done; injection Ho as ->; cbn [rstep] in Ht; rewrite B in Ht.
    - by destruct Ht.
    - by destruct Ht.
    - by destruct Ht.
    - done.
  Qed.
End race.
