(** AdcProofs5.v - lemmas about AdcModel: histories of one converter cut in two, progress, the read that never ends. *)
From Verif Require Import Base AdcModel AdcSpec AdcProofs AdcProofs2 AdcProofs4.

Lemma trace1_cut d sig evs : forall n s pre e o post, trace1 d sig n evs s = pre ++ (e, o) :: post ->
  exists e1 e2, evs = e1 ++ e :: e2 /\ pre = trace1 d sig n e1 s /\ length e1 = length pre /\ snd (step1 d sig (n + length e1) e (run1 d sig n e1 s)) = o.
Proof.
  induction evs as [|x evs IH]; intros n s pre e o post E; [destruct pre; discriminate E|]. cbn [trace1] in E. destruct (step1 d sig n x s) as (s1, o1) eqn:Es.
  destruct pre as [|y pre].
  - cbn [app] in E. injection E as -> -> _. exists [], evs. split; [reflexivity|]. split; [reflexivity|]. split; [reflexivity|]. cbn [length run1]. rewrite Nat.add_0_r, Es. reflexivity.
  - cbn [app] in E. injection E as <- E. destruct (IH (S n) s1 pre e o post E) as (e1 & e2 & -> & -> & L & R). exists (x :: e1), e2. split; [reflexivity|]. cbn [trace1 run1 length]. rewrite Es. cbn [fst].
    split; [reflexivity|]. split; [rewrite L; reflexivity|]. rewrite Nat.add_succ_r. exact R.
Qed.
Lemma seq1 d sig hi mux muxb l evs pre i o post cur : sig_ok (bits1 d) hi sig -> ctxs_ok1 d hi l -> (d = Avr -> Z.testbit mux 4 = false) ->
  calls_ok l evs ->
  trace1 d sig 0 evs (init1 mux muxb false l) = pre ++ (ERead i, o) :: post -> one_at_a_time 0 None pre = Some cur -> (cur = None \/ exists t, cur = Some (i, t)) ->
  o = ARet (- A_EAGAIN) \/ exists v t p, o = AData v /\ l !! i = Some p /\ ((match cur with Some (_, t0) => t0 | None => length pre end) <= t <= length pre)%nat /\ scaled (sig (fst p) t) (snd p) v.
Proof.
  intros Hs Hk Hm Hv E Ho Hc. destruct (trace1_cut d sig evs 0 _ pre (ERead i) o post E) as (e1 & e2 & -> & P & L & R).
  apply Forall_app in Hv. destruct Hv as (Hv1 & Hv2). apply Forall_cons in Hv2. destruct Hv2 as (Hv2 & _). destruct (l !! i) as [p|] eqn:Hp; [|discriminate Hv2].
  rewrite P in Ho. pose proof (run1_inv d sig hi l Hs Hk e1 0 None _ cur (inv1_init d sig mux muxb l Hm) Hv1 Ho) as HI.
  destruct (read1_ok d sig hi l _ cur _ i p Hs Hk HI Hp Hc) as (s' & o' & Es & HH & _). rewrite Es in R. cbn [snd] in R. subst o'.
  destruct HH as [(-> & _)|(v & t & -> & T & S & _)]; [left; reflexivity|]. right. exists v, t, p. split; [reflexivity|]. split; [reflexivity|]. split; [|exact S].
  rewrite <- L. exact T.
Qed.
Lemma progress1 d sig hi l n s i p cur : sig_ok (bits1 d) hi sig -> ctxs_ok1 d hi l -> inv1 d sig l n cur s -> l !! i = Some p -> (cur = None \/ exists t, cur = Some (i, t)) ->
  exists v, In (ERead i, AData v) (trace1 d sig n [ERead i; EDone; ERead i] s).
Proof.
  intros Hs Hk HI Hp Hc. cbn [trace1].
  destruct (read1_ok d sig hi l n cur s i p Hs Hk HI Hp Hc) as (s1 & o1 & E1 & [(-> & I1)|(v & t & -> & _)] & _); rewrite E1; [|exists v; left; reflexivity].
  pose proof (done1_ok d sig l (S n) _ s1 I1) as I2. destruct (step1 d sig (S n) EDone s1) as (s2, o2) eqn:E2. cbn [fst] in I2.
  destruct (read1_ok d sig hi l _ _ s2 i p Hs Hk I2 Hp (or_intror (ex_intro _ _ eq_refl))) as (s3 & o3 & E3 & _ & K).
  assert (R : k_run s2 = None). { cbn [step1] in E2. unfold hw_done1 in E2. destruct (k_run s1) as [(c0, t0)|] eqn:R1; injection E2 as <- _; [reflexivity|exact R1]. }
  destruct (K _ eq_refl R) as (v & ->). rewrite E3. exists v. right. right. left. reflexivity.
Qed.
Lemma same_stuck sig i evs : forall n s c, k_ctx s !! i = Some c -> x_acq c = true -> k_run s = None -> k_flag s = false -> k_auto s = false ->
  Forall (fun e => match e with ERead j => j = i | _ => True end) evs -> forall v, ~ In (ERead i, AData v) (trace1 SamE5 sig n evs s).
Proof.
  induction evs as [|e evs IH]; intros n s c Hc Ha Hr Hf Hau Hv v K; [exact K|]. apply Forall_cons in Hv. destruct Hv as (Hv1 & Hv). cbn [trace1] in K.
  destruct e as [j| |]; cbn [step1] in K.
  - subst j. rewrite Hc in K. cbn [read1] in K. rewrite Ha in K. unfold sam_acq in K. rewrite Hr, Hf in K. cbn [is_some negb orb] in K. destruct K as [K|K]; [discriminate K|]. exact (IH _ _ c Hc Ha Hr Hf Hau Hv v K).
  - unfold hw_done1 in K. rewrite Hr in K. destruct K as [K|K]; [discriminate K|]. exact (IH _ _ c Hc Ha Hr Hf Hau Hv v K).
  - rewrite Hau in K. destruct K as [K|K]; [discriminate K|]. exact (IH _ _ c Hc Ha Hr Hf Hau Hv v K).
Qed.
(** Continuous conversions (ADATE): what is read was converted for this input if no other context is read. *)
Lemma inv4_init sig l ch : inv4 sig 0 ch None (init2 Ra4 false false l).
Proof. split; [reflexivity|]. split; [intros K; discriminate K|intros b K; discriminate K]. Qed.
Lemma run2_ctx d sig evs : forall n s, m_ctx (run2 d sig n evs s) = m_ctx s.
Proof. induction evs as [|e evs IH]; intros n s; [reflexivity|]. cbn [run2]. rewrite IH. apply ctx_stays. Qed.
Lemma run2_inv d sig hi l ch : d <> Sam3x -> sig_ok 32 hi sig -> cut_ok d hi -> ctxs_ok2 hi l -> forall evs n s, m_ctx s = l -> inv2 d sig n ch None s ->
  inv2 d sig (n + length evs)%nat ch None (run2 d sig n evs s).
Proof.
  intros Hd Hs Hcut Hok. induction evs as [|e evs IH]; intros n s Hl HI; [cbn [length run2]; rewrite Nat.add_0_r; exact HI|].
  cbn [length run2]. rewrite Nat.add_succ_r. apply (IH (S n)); [rewrite ctx_stays; exact Hl|].
  destruct e as [i| |]; cbn [step2].
  - rewrite Hl. destruct (l !! i) as [(ch', c)|] eqn:Hi; [|cbn [fst]; apply inv2_later; exact HI].
    destruct (Z.eq_dec ch ch') as [<-|N]; [|apply read2_other; assumption].
    assert (Hc : cal_ok 32 hi c). { unfold ctxs_ok2 in Hok. rewrite Forall_forall in Hok. apply (Hok (ch, c)). apply elem_of_list_lookup_2 in Hi. exact Hi. }
    destruct (read2_own d sig hi n ch c None s Hd Hs Hcut Hc HI) as [(_ & X)|(v & t & _ & _ & _ & _ & X)]; [exact X|]. apply inv2_weaken in X. exact X.
  - cbn [fst]. apply inv2_done. exact HI.
  - cbn [fst]. apply inv2_later. exact HI.
Qed.
Lemma step2_cfg d sig n e s : m_soft (fst (step2 d sig n e s)) = m_soft s /\ m_cont (fst (step2 d sig n e s)) = m_cont s.
Proof.
  destruct e as [i| |]; cbn [step2]; [|unfold fst, hw_done2; destruct (m_run s); split; reflexivity|split; reflexivity].
  destruct (m_ctx s !! i) as [(ch, c)|]; [|split; reflexivity].
  destruct d; cbn [read2].
  - unfold nxp_read, hw_start2. destruct (m_flag s ch), (m_cont s) eqn:?, (m_run s); cbn [negb fst m_set_run m_set_flag m_soft m_cont]; split; congruence || reflexivity.
  - unfold afec_read, hw_start2. destruct (m_flag s ch), (m_run s); split; reflexivity.
  - unfold pic_read, hw_start2. destruct (m_flag s ch), (m_soft s) eqn:?, (m_run s); cbn [negb fst m_set_run m_set_flag m_soft m_cont]; split; congruence || reflexivity.
  - unfold ra4_read, hw_start2. destruct (m_run s) eqn:R; [split; reflexivity|]. cbn [is_some]. destruct (m_status s ch); cbn [negb fst m_set_status m_run]; [split; reflexivity|rewrite R; split; reflexivity].
  - split; reflexivity.
Qed.
Lemma run2_cfg d sig evs : forall n s, m_soft (run2 d sig n evs s) = m_soft s /\ m_cont (run2 d sig n evs s) = m_cont s.
Proof.
  induction evs as [|e evs IH]; intros n s; [split; reflexivity|]. cbn [run2]. destruct (IH (S n) (fst (step2 d sig n e s))) as (A & B). destruct (step2_cfg d sig n e s) as (C & D). rewrite A, B. split; assumption.
Qed.
Lemma run3_inv sig hi cs : sig_ok 32 hi sig -> (forall c, In c cs -> cal_ok 32 hi (s_cal c)) -> forall evs n s, inv3 sig n cs s -> inv3 sig (n + length evs)%nat cs (run3 sig n evs cs s).
Proof.
  intros Hs Hc. induction evs as [|e evs IH]; intros n s HI; [cbn [length run3]; rewrite Nat.add_0_r; exact HI|]. cbn [length run3]. rewrite Nat.add_succ_r. apply (IH (S n)).
  destruct e as [j| |]; cbn [step3].
  - destruct (cs !! j) as [cj|] eqn:Hj; [|cbn [fst]; apply inv3_later; exact HI]. pose proof (elem_of_list_lookup_2 _ _ _ Hj) as Ij. apply elem_of_list_In in Ij.
    apply (read3_ok sig hi n cs s cj Hs Ij (Hc cj Ij) HI).
  - cbn [fst]. apply inv3_done. exact HI.
  - cbn [fst]. apply inv3_later. exact HI.
Qed.
