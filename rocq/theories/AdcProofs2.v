(** AdcProofs2.v - lemmas about AdcModel: converters with one data register per channel. *)
From Verif Require Import Base AdcModel AdcSpec AdcProofs.

(** The history of one context i with channel ch; last: the time of the conversion it returned last. *)
Definition after (last : option nat) (t : nat) : Prop := match last with Some u => (u < t)%nat | None => True end.
Definition inv2 (d : drv2) (sig : Z -> nat -> Z) (n : nat) (ch : Z) (last : option nat) (s : st2) : Prop :=
  (forall r, m_run s = Some r -> (r < n)%nat /\ after last r) /\
  (forall u, last = Some u -> (u < n)%nat) /\
  match d with
  | Ra4 => (m_status s ch = true -> m_run s = None -> exists t, m_data s ch = sig ch t /\ (t < n)%nat /\ after last t)
  | _ => (m_flag s ch = true -> exists t, m_data s ch = sig ch t /\ (t < n)%nat /\ after last t /\ (forall r, m_run s = Some r -> (t < r)%nat))
  end.
Lemma inv2_later d sig n ch last s : inv2 d sig n ch last s -> inv2 d sig (S n) ch last s.
Proof.
  intros (A & B & C). split; [intros r E; destruct (A r E); split; [lia|assumption]|]. split; [intros u E; specialize (B u E); lia|].
  destruct d; try exact I; try (intros F; destruct (C F) as (t & T1 & T2 & T3 & T4); exists t; split; [exact T1|]; split; [lia|]; split; assumption).
  intros F R. destruct (C F R) as (t & T1 & T2 & T3). exists t. split; [exact T1|]. split; [lia|exact T3].
Qed.
Lemma inv2_init d sig cont soft l ch : d <> Sam3x -> inv2 d sig 0 ch None (init2 d cont soft l).
Proof.
  intros Hd. split; [|split; [intros u E; discriminate E|]].
  - intros r E. destruct d; try discriminate E. congruence.
  - destruct d; try (intros F; discriminate F).
Qed.
Lemma inv2_done d sig n ch last s : inv2 d sig n ch last s -> inv2 d sig (S n) ch last (hw_done2 sig n s).
Proof.
  intros H. unfold hw_done2. destruct (m_run s) as [t|] eqn:Hr; [|apply inv2_later; exact H].
  destruct H as (A & B & C). destruct (A t Hr) as (A1 & A2).
  split; [|split; [intros u E; specialize (B u E); lia|]].
  - cbn [m_run]. intros r E. destruct (m_cont s); [|discriminate E]. injection E as <-. split; [lia|]. destruct last as [u|]; [|exact I]. exact (B u eq_refl).
  - destruct d; cbn [m_flag m_data m_run m_status].
    5: { intros _. exists t. split; [reflexivity|]. split; [lia|]. split; [exact A2|]. intros r E. destruct (m_cont s); [|discriminate E]. injection E as <-. exact A1. }
    4: { intros _ _. exists t. split; [reflexivity|]. split; [lia|exact A2]. }
    all: intros _; exists t; split; [reflexivity|]; split; [lia|]; split; [exact A2|]; intros r E; destruct (m_cont s); [|discriminate E]; injection E as <-; exact A1.
Qed.
Lemma inv2_start d sig n ch last s : inv2 d sig n ch last s -> d <> Ra4 -> inv2 d sig (S n) ch last (hw_start2 n s).
Proof.
  intros H Hd. unfold hw_start2. destruct (m_run s) as [t|] eqn:Hr; [apply inv2_later; exact H|].
  destruct H as (A & B & C). split; [|split; [intros u E; specialize (B u E); lia|]].
  - cbn [m_run m_set_run]. intros r E. injection E as <-. split; [lia|]. destruct last as [u|]; [|exact I]. exact (B u eq_refl).
  - destruct d; try congruence; cbn [m_flag m_data m_run m_set_run]; intros F; destruct (C F) as (t & T1 & T2 & T3 & _); exists t; (split; [exact T1|]); (split; [lia|]); (split; [exact T3|]); intros r E; injection E as <-; exact T2.
Qed.
Lemma inv2_run d sig n ch last s : inv2 d sig n ch last s -> forall r, m_run s = Some r -> (r < n)%nat.
Proof. intros (A & _) r E. apply A. exact E. Qed.
(** A read of channel ch' with data: the flag of ch' is cleared. *)
Lemma inv2_take d sig n ch ch' last s : inv2 d sig n ch last s -> d <> Ra4 -> d <> Sam3x -> ch <> ch' ->
  inv2 d sig (S n) ch last (m_set_flag s (set_at (m_flag s) ch' false)).
Proof.
  intros H H1 H2 N. apply inv2_later in H. destruct H as (A & B & C). split; [exact A|]. split; [exact B|].
  assert (E : set_at (m_flag s) ch' false ch = m_flag s ch) by (unfold set_at; rewrite (proj2 (Z.eqb_neq _ _) N); reflexivity).
  destruct d; try congruence; cbn [m_flag m_set_flag m_data m_run]; rewrite E; exact C.
Qed.
Lemma inv2_take_own d sig n ch last s : inv2 d sig n ch last s -> d <> Ra4 -> d <> Sam3x -> m_flag s ch = true ->
  exists t, m_data s ch = sig ch t /\ (t < n)%nat /\ after last t /\ inv2 d sig (S n) ch (Some t) (m_set_flag s (set_at (m_flag s) ch false)).
Proof.
  intros (A & B & C) H1 H2 F. assert (exists t, m_data s ch = sig ch t /\ (t < n)%nat /\ after last t /\ (forall r, m_run s = Some r -> (t < r)%nat)) as (t & T1 & T2 & T3 & T4)
    by (destruct d; try congruence; exact (C F)).
  exists t. split; [exact T1|]. split; [exact T2|]. split; [exact T3|]. split; [|split; [intros u E; injection E as <-; lia|]].
  - cbn [m_run m_set_flag]. intros r E. destruct (A r E). split; [lia|]. exact (T4 r E).
  - assert (E : set_at (m_flag s) ch false ch = false) by (unfold set_at; rewrite Z.eqb_refl; reflexivity).
    destruct d; try congruence; cbn [m_flag m_set_flag]; rewrite E; intros K; discriminate K.
Qed.
Lemma inv2_weaken d sig n ch last s : inv2 d sig n ch last s -> inv2 d sig n ch None s.
Proof.
  intros (A & B & C). split; [intros r E; destruct (A r E); split; [assumption|exact I]|]. split; [intros u E; discriminate E|].
  destruct d; [| | |intros F R; destruct (C F R) as (t & T1 & T2 & T3); exists t; split; [exact T1|]; split; [lia|exact I]|].
  all: intros F; destruct (C F) as (t & T1 & T2 & T3 & T4); exists t; (split; [exact T1|]); (split; [exact T2|]); split; [exact I|exact T4].
Qed.
(** A read of any channel, as seen by a context with channel ch. *)
Lemma read2_other d sig n ch ch' c last s : d <> Sam3x -> inv2 d sig n ch last s -> ch <> ch' -> inv2 d sig (S n) ch last (fst (read2 d n ch' c s)).
Proof.
  intros Hd H N. destruct d; try congruence; cbn [read2].
  - unfold nxp_read. destruct (m_flag s ch'); cbn [negb fst]; [apply inv2_take; [exact H|discriminate|discriminate|exact N]|]. destruct (m_cont s); [apply inv2_later; exact H|apply inv2_start; [exact H|discriminate]].
  - unfold afec_read. destruct (m_flag s ch'); cbn [negb fst]; [apply inv2_take; [exact H|discriminate|discriminate|exact N]|]. apply inv2_start; [exact H|discriminate].
  - unfold pic_read. destruct (m_flag s ch'); cbn [negb fst]; [apply inv2_take; [exact H|discriminate|discriminate|exact N]|]. destruct (m_soft s); [apply inv2_start; [exact H|discriminate]|apply inv2_later; exact H].
  - unfold ra4_read. destruct (m_run s) as [r|] eqn:Hr; cbn [is_some fst]; [apply inv2_later; exact H|].
    destruct H as (A & B & C).
    assert (E : forall b, set_at (m_status s) ch' b ch = m_status s ch) by (intros b; unfold set_at; rewrite (proj2 (Z.eqb_neq _ _) N); reflexivity).
    destruct (m_status s ch'); cbn [negb fst].
    + split; [cbn [m_run m_set_status]; intros r K; congruence|]. split; [intros u K; specialize (B u K); lia|].
      cbn [m_status m_set_status m_data m_run]. rewrite E. intros F R. destruct (C F R) as (t & T1 & T2 & T3). exists t. split; [exact T1|]. split; [lia|exact T3].
    + unfold hw_start2. cbn [m_run m_set_status]. rewrite Hr. split; [|split; [intros u K; specialize (B u K); lia|]].
      * cbn [m_run m_set_run]. intros r K. injection K as <-. split; [lia|]. destruct last as [u|]; [|exact I]. exact (B u eq_refl).
      * cbn [m_run m_set_run]. intros _ K. discriminate K.
Qed.
Lemma read2_own d sig hi n ch c last s : d <> Sam3x -> sig_ok 32 hi sig -> cut_ok d hi -> cal_ok 32 hi c -> inv2 d sig n ch last s ->
  (snd (read2 d n ch c s) = ARet (- A_EAGAIN) /\ inv2 d sig (S n) ch last (fst (read2 d n ch c s))) \/
  (exists v t, snd (read2 d n ch c s) = AData v /\ (t < n)%nat /\ after last t /\ scaled (sig ch t) c v /\ inv2 d sig (S n) ch (Some t) (fst (read2 d n ch c s))).
Proof.
  intros Hd (Hhi & Hsig) Hcut Hc H.
  assert (Cut : hi < 65536 -> forall x t, x = sig ch t -> Z.land x 65535 = sig ch t).
  { intros L x t ->. change 65535 with (Z.ones 16). apply land_ones_small; [lia|]. specialize (Hsig ch t). change (2 ^ 16) with 65536. lia. }
  assert (G : forall x t, x = sig ch t -> exists v, give 32 x c = AData v /\ scaled (sig ch t) c v).
  { intros x t ->. apply (give_ok 32 hi); [lia|assumption|apply Hsig|assumption]. }
  destruct d; try congruence; cbn [read2].
  - unfold nxp_read. destruct (m_flag s ch) eqn:F; cbn [negb fst snd].
    + destruct (inv2_take_own Nxp sig n ch last s H ltac:(discriminate) ltac:(discriminate) F) as (t & T1 & T2 & T3 & T4).
      destruct (G _ _ (Cut Hcut _ _ T1)) as (v & V1 & V2). right. exists v, t. split; [exact V1|]. split; [exact T2|]. split; [exact T3|]. split; assumption.
    + left. split; [reflexivity|]. destruct (m_cont s); [apply inv2_later; exact H|apply inv2_start; [exact H|discriminate]].
  - unfold afec_read. destruct (m_flag s ch) eqn:F; cbn [negb fst snd].
    + destruct (inv2_take_own Afec sig n ch last s H ltac:(discriminate) ltac:(discriminate) F) as (t & T1 & T2 & T3 & T4).
      destruct (G _ _ (Cut Hcut _ _ T1)) as (v & V1 & V2). right. exists v, t. split; [exact V1|]. split; [exact T2|]. split; [exact T3|]. split; assumption.
    + left. split; [reflexivity|]. apply inv2_start; [exact H|discriminate].
  - unfold pic_read. destruct (m_flag s ch) eqn:F; cbn [negb fst snd].
    + destruct (inv2_take_own Pic32 sig n ch last s H ltac:(discriminate) ltac:(discriminate) F) as (t & T1 & T2 & T3 & T4).
      destruct (G _ _ T1) as (v & V1 & V2). right. exists v, t. split; [exact V1|]. split; [exact T2|]. split; [exact T3|]. split; assumption.
    + left. split; [reflexivity|]. destruct (m_soft s); [apply inv2_start; [exact H|discriminate]|apply inv2_later; exact H].
  - unfold ra4_read. destruct (m_run s) as [r|] eqn:Hr; cbn [is_some fst snd]; [left; split; [reflexivity|apply inv2_later; exact H]|].
    destruct H as (A & B & C). destruct (m_status s ch) eqn:F; cbn [negb fst snd].
    + destruct (C eq_refl Hr) as (t & T1 & T2 & T3). destruct (G _ _ T1) as (v & V1 & V2). right. exists v, t. split; [exact V1|]. split; [exact T2|]. split; [exact T3|]. split; [exact V2|].
      split; [cbn [m_run m_set_status]; intros r K; congruence|]. split; [intros u K; injection K as <-; lia|].
      cbn [m_status m_set_status]. unfold set_at. rewrite Z.eqb_refl. intros K; discriminate K.
    + left. split; [reflexivity|]. unfold hw_start2. cbn [m_run m_set_status]. rewrite Hr. split; [|split; [intros u K; specialize (B u K); lia|]].
      * cbn [m_run m_set_run]. intros r K. injection K as <-. split; [lia|]. destruct last as [u|]; [|exact I]. exact (B u eq_refl).
      * cbn [m_run m_set_run]. intros _ K. discriminate K.
Qed.
Lemma ctx_stays d sig n e s : m_ctx (fst (step2 d sig n e s)) = m_ctx s.
Proof.
  destruct e as [i| |]; cbn [step2]; [|unfold fst, hw_done2; destruct (m_run s); reflexivity|reflexivity].
  destruct (m_ctx s !! i) as [(ch, c)|]; [|reflexivity].
  destruct d; cbn [read2 nxp_read afec_read pic_read ra4_read sam3x_read].
  - unfold nxp_read, hw_start2. destruct (m_flag s ch), (m_cont s), (m_run s); reflexivity.
  - unfold afec_read, hw_start2. destruct (m_flag s ch), (m_run s); reflexivity.
  - unfold pic_read, hw_start2. destruct (m_flag s ch), (m_soft s), (m_run s); reflexivity.
  - unfold ra4_read, hw_start2. destruct (m_run s) eqn:R; [reflexivity|]. cbn [is_some]. destruct (m_status s ch); cbn [negb fst m_set_status m_run]; [reflexivity|rewrite R; reflexivity].
  - reflexivity.
Qed.

(** Every value is of the own channel, from a conversion later than that of the value before. *)
Lemma trace2_own d sig hi i ch c : d <> Sam3x -> sig_ok 32 hi sig -> cut_ok d hi -> cal_ok 32 hi c -> forall evs n last s,
  m_ctx s !! i = Some (ch, c) -> inv2 d sig n ch last s ->
  exists ts, increasing ts /\ Forall (fun t => after last t /\ (t < n + length evs)%nat) ts /\
    Forall2 (fun t v => scaled (sig ch t) c v) ts (datas i (trace2 d sig n evs s)) /\
    (forall o, In (ERead i, o) (trace2 d sig n evs s) -> o = ARet (- A_EAGAIN) \/ exists v, o = AData v).
Proof.
  intros Hd Hs Hcut Hc. induction evs as [|e evs IH]; intros n last s Hi HI.
  - exists []. split; [exact I|]. split; [constructor|]. split; [constructor|]. intros o [].
  - cbn [trace2]. pose proof (ctx_stays d sig n e s) as Hst. destruct (step2 d sig n e s) as (s1, o) eqn:Es. cbn [fst] in Hst.
    assert (Hi1 : m_ctx s1 !! i = Some (ch, c)) by (rewrite Hst; exact Hi).
    assert (Nx : forall last1, inv2 d sig (S n) ch last1 s1 -> (forall t, after last1 t -> after last t) -> (forall v, o = AData v -> e <> ERead i) ->
      (e = ERead i -> o = ARet (- A_EAGAIN)) ->
      exists ts, increasing ts /\ Forall (fun t => after last t /\ (t < n + length (e :: evs))%nat) ts /\
        Forall2 (fun t v => scaled (sig ch t) c v) ts (datas i ((e, o) :: trace2 d sig (S n) evs s1)) /\
        (forall o', In (ERead i, o') ((e, o) :: trace2 d sig (S n) evs s1) -> o' = ARet (- A_EAGAIN) \/ exists v, o' = AData v)).
    { intros last1 HI1 Haf Hno Hea. destruct (IH (S n) last1 s1 Hi1 HI1) as (ts & T1 & T2 & T3 & T4). exists ts. split; [exact T1|].
      split; [eapply Forall_impl; [exact T2|]; intros t (X & Y); split; [apply Haf; exact X|cbn [length]; lia]|].
      split; [|intros o' [K|K]; [injection K as -> ->; left; apply Hea; reflexivity|exact (T4 o' K)]].
      cbn [datas]. destruct e as [j| |]; [|exact T3|exact T3]. destruct o; try exact T3. destruct (Nat.eqb_spec j i) as [->|]; [exfalso; exact (Hno v eq_refl eq_refl)|exact T3]. }
    destruct e as [j| |]; cbn [step2] in Es.
    + destruct (m_ctx s !! j) as [(ch', c')|] eqn:Hj.
      * destruct (decide (j = i)) as [->|Nji].
        -- rewrite Hi in Hj. injection Hj as <- <-.
           destruct (read2_own d sig hi n ch c last s Hd Hs Hcut Hc HI) as [(E & HI1)|(v & t & E & T1 & T2 & T3 & HI1)]; rewrite Es in E, HI1; cbn [fst snd] in E, HI1; subst o.
           ++ apply (Nx last HI1); [trivial|intros v K; discriminate K|reflexivity].
           ++ destruct (IH (S n) (Some t) s1 Hi1 HI1) as (ts & U1 & U2 & U3 & U4). exists (t :: ts).
              split; [split; [eapply Forall_impl; [exact U2|]; intros u (X & _); exact X|exact U1]|].
              split; [constructor; [split; [exact T2|cbn [length]; lia]|]|].
              { eapply Forall_impl; [exact U2|]. intros u (X & Y). cbn [after] in X. split; [|cbn [length]; lia]. destruct last as [w|]; [|exact I]. cbn [after] in *. lia. }
              split; [cbn [datas]; rewrite Nat.eqb_refl; constructor; [exact T3|exact U3]|].
              intros o' [K|K]; [injection K as <-; right; eauto|exact (U4 o' K)].
        -- assert (Hoth : inv2 d sig (S n) ch last s1 \/ exists last1, inv2 d sig (S n) ch last1 s1 /\ forall t, after last1 t -> after last t).
           { destruct (Z.eq_dec ch ch') as [->|N].
             - (* another context of the same channel *)
               assert (X : fst (read2 d n ch' c' s) = fst (read2 d n ch' c s)).
               { destruct d; cbn [read2]; unfold nxp_read, afec_read, pic_read, ra4_read, sam3x_read; try (destruct (m_flag s ch'); reflexivity). destruct (m_run s), (m_status s ch'); reflexivity. }
               destruct (read2_own d sig hi n ch' c last s Hd Hs Hcut Hc HI) as [(E & HI1)|(v & t & E & T1 & T2 & T3 & HI1)]; rewrite <- X, Es in HI1; cbn [fst] in HI1.
               + left. exact HI1.
               + right. exists (Some t). split; [exact HI1|]. intros u U. cbn [after] in U. destruct last as [w|]; [|exact I]. cbn [after] in *. lia.
             - left. pose proof (read2_other d sig n ch ch' c' last s Hd HI N) as HI1. rewrite Es in HI1. exact HI1. }
           destruct Hoth as [HI1|(last1 & HI1 & Haf)].
           ++ apply (Nx last HI1); [trivial|intros v _ K; congruence|intros K; congruence].
           ++ apply (Nx last1 HI1 Haf); [intros v _ K; congruence|intros K; congruence].
      * injection Es as <- <-. apply (Nx last (inv2_later _ _ _ _ _ _ HI)); [trivial|intros v K; discriminate K|]. intros K. injection K as ->. congruence.
    + injection Es as <- <-. apply (Nx last (inv2_done _ _ _ _ _ _ HI)); [trivial|intros v K; discriminate K|intros K; discriminate K].
    + injection Es as <- <-. apply (Nx last (inv2_later _ _ _ _ _ _ HI)); [trivial|intros v K; discriminate K|intros K; discriminate K].
Qed.

(** * Progress *)
Definition after_all (l : list aev) : list (aev * aout) -> nat -> Prop := fun tr i => exists v, In (ERead i, AData v) tr.
Lemma done_flags sig n s r : m_run s = Some r -> m_flag (hw_done2 sig n s) = (fun _ => true).
Proof. intros E. unfold hw_done2. rewrite E. reflexivity. Qed.
Lemma ctx_done sig n s : m_ctx (hw_done2 sig n s) = m_ctx s.
Proof. unfold hw_done2. destruct (m_run s); reflexivity. Qed.
Lemma data_range d sig hi n i ch c s : d <> Sam3x -> d <> Ra4 -> sig_ok 32 hi sig -> cut_ok d hi -> cal_ok 32 hi c -> inv2 d sig n ch None s -> m_flag s ch = true ->
  m_ctx s !! i = Some (ch, c) -> exists v s', step2 d sig n (ERead i) s = (s', AData v).
Proof.
  intros Hd Hr Hs Hcut Hc HI F Hi. destruct (read2_own d sig hi n ch c None s Hd Hs Hcut Hc HI) as [(E & _)|(v & t & E & _)].
  - exfalso. destruct d; try congruence; cbn [read2] in E; unfold nxp_read, afec_read, pic_read in E; rewrite F in E; cbn [negb snd] in E; unfold give in E; destruct (scale _ _ _); discriminate E.
  - exists v, (fst (read2 d n ch c s)). cbn [step2]. rewrite Hi. rewrite <- E. destruct (read2 d n ch c s); reflexivity.
Qed.
Lemma read2_run d n ch c s : (d = Nxp /\ m_cont s = false) \/ d = Afec \/ (d = Pic32 /\ m_soft s = true) -> m_flag s ch = false ->
  exists r, m_run (fst (read2 d n ch c s)) = Some r.
Proof.
  intros [(-> & H)|[->|(-> & H)]] F; cbn [read2]; unfold nxp_read, afec_read, pic_read; rewrite F; cbn [negb fst]; rewrite ?H; unfold hw_start2; destruct (m_run s) eqn:R; eauto; cbn [m_run m_set_run]; eauto.
Qed.
Lemma progress2 d sig hi n i ch c s : d <> Sam3x -> sig_ok 32 hi sig -> cut_ok d hi -> cal_ok 32 hi c -> inv2 d sig n ch None s -> m_ctx s !! i = Some (ch, c) ->
  match d with Nxp | Ra4 => m_cont s = false | Pic32 => m_soft s = true | _ => True end ->
  exists v, In (ERead i, AData v) (trace2 d sig n [ERead i; EDone; ERead i; EDone; ERead i] s).
Proof.
  intros Hd Hs Hcut Hc HI Hi Hm.
  assert (d = Ra4 \/ d <> Ra4) as [->|N4] by (destruct d; (left; reflexivity) || (right; discriminate)).
  - (* Ra4 *)
    assert (G : forall m x r, m_run x = None -> inv2 Ra4 sig m ch None x -> m_status x ch = true -> m_ctx x !! i = Some (ch, c) -> r = step2 Ra4 sig m (ERead i) x -> exists v, snd r = AData v).
    { intros m x r R I1 F Ci ->. cbn [step2]. rewrite Ci. destruct (read2_own Ra4 sig hi m ch c None x Hd Hs Hcut Hc I1) as [(E & _)|(v & t & E & _)]; [|eauto].
      exfalso. cbn [read2] in E. unfold ra4_read in E. rewrite R, F in E. cbn [is_some negb snd] in E. unfold give in E. destruct (scale _ _ _); discriminate E. }
    (* from an idle converter with the status clear: start, done, read *)
    assert (P : forall m x, m_run x = None -> m_cont x = false -> inv2 Ra4 sig m ch None x -> m_ctx x !! i = Some (ch, c) ->
      exists v, In (ERead i, AData v) (trace2 Ra4 sig m [ERead i; EDone; ERead i] x)).
    { intros m x R Hmc I1 Ci. destruct (m_status x ch) eqn:F.
      - destruct (G m x _ R I1 F Ci eq_refl) as (v & E). exists v. cbn [trace2]. destruct (step2 Ra4 sig m (ERead i) x) as (y, o). cbn [snd] in E. subst o. left. reflexivity.
      - cbn [trace2 step2]. rewrite Ci. pose proof (read2_own Ra4 sig hi m ch c None x Hd Hs Hcut Hc I1) as O. cbn [read2] in O |- *. unfold ra4_read in O |- *. rewrite R, F in O |- *. cbn [is_some negb fst snd] in O |- *.
        set (y := hw_start2 m (m_set_status x (set_at (m_status x) ch true))) in *.
        assert (Y : y = m_set_run (m_set_status x (set_at (m_status x) ch true)) (Some m)) by (unfold y, hw_start2; cbn [m_run m_set_status]; rewrite R; reflexivity).
        destruct O as [(_ & I2)|(v & t & K & _)]; [|discriminate K].
        assert (D1 : m_run (hw_done2 sig (S m) y) = None) by (rewrite Y; cbn [hw_done2 m_run m_set_run m_cont m_set_status]; rewrite Hmc; reflexivity).
        assert (D2 : m_status (hw_done2 sig (S m) y) ch = true) by (rewrite Y; cbn [hw_done2 m_run m_set_run m_status m_set_status]; unfold set_at; rewrite Z.eqb_refl; reflexivity).
        assert (D3 : m_ctx (hw_done2 sig (S m) y) !! i = Some (ch, c)) by (rewrite ctx_done, Y; exact Ci).
        destruct (G (S (S m)) (hw_done2 sig (S m) y) _ D1 (inv2_done _ _ _ _ _ _ I2) D2 D3 eq_refl) as (v & E). cbn [step2] in E. rewrite D3 in E. cbn [read2] in E.
        exists v. rewrite D3. unfold ra4_read in E |- *. rewrite D1, D2 in E |- *. cbn [is_some negb snd] in E |- *. rewrite E. right. right. left. reflexivity. }
    destruct (m_run s) as [r|] eqn:R.
    + cbn [trace2 step2]. rewrite Hi. cbn [read2]. unfold ra4_read at 1. rewrite R. cbn [is_some].
      assert (D1 : m_run (hw_done2 sig (S n) s) = None) by (unfold hw_done2; rewrite R; cbn [m_run]; rewrite Hm; reflexivity).
      assert (D2 : m_cont (hw_done2 sig (S n) s) = false) by (unfold hw_done2; rewrite R; exact Hm).
      assert (D3 : m_ctx (hw_done2 sig (S n) s) !! i = Some (ch, c)) by (rewrite ctx_done; exact Hi).
      destruct (P (S (S n)) _ D1 D2 (inv2_done _ _ _ _ _ _ (inv2_later _ _ _ _ _ _ HI)) D3) as (v & E). exists v. right. right. exact E.
    + destruct (P n s R Hm HI Hi) as (v & E). exists v. cbn [trace2] in E |- *.
      destruct (step2 Ra4 sig n (ERead i) s) as (s1, o1). destruct (step2 Ra4 sig (S n) EDone s1) as (s2, o2). destruct (step2 Ra4 sig (S (S n)) (ERead i) s2) as (s3, o3).
      destruct E as [E|[E|[E|[]]]]; [left; exact E|right; left; exact E|right; right; left; exact E].
  - destruct (m_flag s ch) eqn:F.
    + destruct (data_range d sig hi n i ch c s Hd N4 Hs Hcut Hc HI F Hi) as (v & s' & E). exists v. cbn [trace2]. rewrite E. left. reflexivity.
    + cbn [trace2]. pose proof (ctx_stays d sig n (ERead i) s) as Cs.
      assert (Hr : exists r, m_run (fst (read2 d n ch c s)) = Some r) by (apply read2_run; [|exact F]; destruct d; try congruence; tauto).
      pose proof (read2_own d sig hi n ch c None s Hd Hs Hcut Hc HI) as O.
      cbn [step2] in Cs |- *. rewrite Hi in Cs |- *. destruct (read2 d n ch c s) as (s1, o1). cbn [fst snd] in *.
      assert (I1 : inv2 d sig (S n) ch None s1) by (destruct O as [(_ & I1)|(v & t & _ & _ & _ & _ & I1)]; [exact I1|exact (inv2_weaken _ _ _ _ _ _ I1)]).
      destruct Hr as (r & Hr).
      assert (F2 : m_flag (hw_done2 sig (S n) s1) ch = true) by (rewrite (done_flags sig (S n) s1 r Hr); reflexivity).
      assert (C2 : m_ctx (hw_done2 sig (S n) s1) !! i = Some (ch, c)) by (rewrite ctx_done, Cs; exact Hi).
      destruct (data_range d sig hi (S (S n)) i ch c _ Hd N4 Hs Hcut Hc (inv2_done _ _ _ _ _ _ I1) F2 C2) as (v & s3 & E). cbn [step2] in E. rewrite E.
      exists v. right. right. left. reflexivity.
Qed.

(** * Modes in which nothing is ever read *)
Lemma ra4_cont_never sig evs : forall n s, m_cont s = true -> ((exists r, m_run s = Some r) \/ (forall c, m_status s c = false)) ->
  forall i v, ~ In (ERead i, AData v) (trace2 Ra4 sig n evs s).
Proof.
  induction evs as [|e evs IH]; intros n s Hm Hs i v K; [exact K|]. cbn [trace2] in K.
  destruct e as [j| |]; cbn [step2] in K.
  - destruct (m_ctx s !! j) as [(ch, c)|]; [|destruct K as [K|K]; [discriminate K|exact (IH _ _ Hm Hs i v K)]].
    cbn [read2] in K. unfold ra4_read in K. destruct (m_run s) as [r|] eqn:R; cbn [is_some] in K.
    + destruct K as [K|K]; [discriminate K|]. refine (IH _ _ Hm _ i v K). left. eauto.
    + destruct Hs as [(r & E)|Hs]; [discriminate E|]. rewrite Hs in K. cbn [negb] in K. destruct K as [K|K]; [discriminate K|].
      refine (IH _ _ _ _ i v K); unfold hw_start2; cbn [m_run m_set_status]; rewrite R; [exact Hm|left; cbn [m_run m_set_run]; eauto].
  - destruct K as [K|K]; [discriminate K|]. refine (IH _ _ _ _ i v K); unfold hw_done2; destruct (m_run s) as [r|] eqn:R; cbn [m_cont m_run]; try exact Hm.
    + rewrite Hm. left. eauto.
    + rewrite R. exact Hs.
  - destruct K as [K|K]; [discriminate K|]. exact (IH _ _ Hm Hs i v K).
Qed.
Lemma nxp_scan_never sig evs : forall n s, m_cont s = true -> m_run s = None -> (forall c, m_flag s c = false) ->
  forall i v, ~ In (ERead i, AData v) (trace2 Nxp sig n evs s).
Proof.
  induction evs as [|e evs IH]; intros n s Hm Hr Hf i v K; [exact K|]. cbn [trace2] in K.
  destruct e as [j| |]; cbn [step2] in K.
  - destruct (m_ctx s !! j) as [(ch, c)|]; [|destruct K as [K|K]; [discriminate K|exact (IH _ _ Hm Hr Hf i v K)]].
    cbn [read2] in K. unfold nxp_read in K. rewrite Hf, Hm in K. cbn [negb] in K. destruct K as [K|K]; [discriminate K|exact (IH _ _ Hm Hr Hf i v K)].
  - destruct K as [K|K]; [discriminate K|]. unfold hw_done2 in K. rewrite Hr in K. exact (IH _ _ Hm Hr Hf i v K).
  - destruct K as [K|K]; [discriminate K|]. exact (IH _ _ Hm Hr Hf i v K).
Qed.

(** * Ra4: the conversion was begun after the read was *)
Definition inv4 (sig : Z -> nat -> Z) (n : nat) (ch : Z) (cur : option nat) (s : st2) : Prop :=
  m_cont s = false /\
  (m_status s ch = true -> exists b, cur = Some b /\ match m_run s with Some r => (b <= r < n)%nat | None => exists t, (b <= t < n)%nat /\ m_data s ch = sig ch t end) /\
  (forall b, cur = Some b -> (b < n)%nat).
Lemma ra4_read_other n ch ch' c s s1 o sig cur : inv4 sig n ch cur s -> ch <> ch' -> ra4_read n ch' c s = (s1, o) -> inv4 sig (S n) ch cur s1.
Proof.
  intros (H0 & H1 & H2) N E. unfold ra4_read in E.
  assert (Q : forall b, set_at (m_status s) ch' b ch = m_status s ch) by (intros b; unfold set_at; rewrite (proj2 (Z.eqb_neq _ _) N); reflexivity).
  assert (H2' : forall b, cur = Some b -> (b < S n)%nat) by (intros b B; specialize (H2 b B); lia).
  destruct (m_run s) as [r|] eqn:R; cbn [is_some] in E.
  - injection E as <- <-. split; [exact H0|]. split; [|exact H2']. intros F. destruct (H1 F) as (b & B & L). exists b. split; [exact B|]. rewrite R. lia.
  - destruct (m_status s ch'); cbn [negb] in E; injection E as <- <-.
    + split; [exact H0|]. split; [|exact H2']. cbn [m_status m_set_status m_run m_data]. rewrite Q, R. intros F. destruct (H1 F) as (b & B & t & T & D). exists b. split; [exact B|]. exists t. split; [lia|exact D].
    + unfold hw_start2. cbn [m_run m_set_status]. rewrite R. split; [exact H0|]. split; [|exact H2']. cbn [m_status m_set_status m_run m_set_run]. rewrite Q. intros F. destruct (H1 F) as (b & B & _). exists b. split; [exact B|]. specialize (H2 b B). lia.
Qed.
Lemma ra4_fresh sig hi i ch c cs : sig_ok 32 hi sig -> cal_ok 32 hi c -> NoDup (map fst cs) -> cs !! i = Some (ch, c) ->
  forall evs n cur s, m_ctx s = cs -> inv4 sig n ch cur s ->
  forall pre v post, trace2 Ra4 sig n evs s = pre ++ (ERead i, AData v) :: post ->
  exists t, (match begun i n cur pre with Some b => b | None => n + length pre end <= t < n + length pre)%nat /\ scaled (sig ch t) c v.
Proof.
  intros (Hhi & Hsig) Hc Hnd Hi. induction evs as [|e evs IH]; intros n cur s Hs HI pre v post E; [destruct pre; discriminate E|].
  cbn [trace2] in E. pose proof (ctx_stays Ra4 sig n e s) as Hst. destruct (step2 Ra4 sig n e s) as (s1, o) eqn:Es. cbn [fst] in Hst. rewrite Hs in Hst.
  assert (Later : forall x, inv4 sig n ch cur x -> inv4 sig (S n) ch cur x).
  { intros x (A & B & C). split; [exact A|]. split; [|intros b K; specialize (C b K); lia]. intros F. destruct (B F) as (b & B1 & B2). exists b. split; [exact B1|].
    destruct (m_run x); [lia|]. destruct B2 as (t & T & D). exists t. split; [lia|exact D]. }
  destruct e as [j| |]; cbn [step2] in Es.
  - rewrite Hs in Es. destruct (cs !! j) as [(ch', c')|] eqn:Hj.
    + cbn [read2] in Es. destruct (decide (j = i)) as [->|Nj].
      * rewrite Hi in Hj. injection Hj as <- <-. destruct HI as (H0 & H1 & H2). unfold ra4_read in Es. destruct (m_run s) as [r|] eqn:R; cbn [is_some] in Es.
        -- injection Es as <- <-. destruct pre as [|x pre]; [discriminate E|]. injection E as <- E. cbn [begun length]. rewrite Nat.eqb_refl, Nat.add_succ_r.
           refine (IH (S n) _ s Hs _ pre v post E). split; [exact H0|]. rewrite R. split; [|intros b K; injection K as <-; destruct cur as [b|]; [specialize (H2 b eq_refl)|]; lia].
           intros F. destruct (H1 F) as (b & -> & L). exists b. split; [reflexivity|lia].
        -- destruct (m_status s ch) eqn:F; cbn [negb] in Es.
           ++ destruct (H1 eq_refl) as (b & -> & t & T & D).
              destruct (give_ok 32 hi (m_data s ch) c ltac:(lia) Hhi ltac:(rewrite D; apply Hsig) Hc) as (v' & V1 & V2). rewrite V1 in Es. injection Es as <- <-.
              destruct pre as [|x pre].
              ** injection E as <- _. cbn [begun length]. rewrite Nat.add_0_r. exists t. split; [lia|]. rewrite D in V2. exact V2.
              ** injection E as <- E. cbn [begun length]. rewrite Nat.eqb_refl, Nat.add_succ_r. refine (IH (S n) None _ Hst _ pre v post E).
                 split; [exact H0|]. split; [|intros b' K; discriminate K]. cbn [m_status m_set_status]. unfold set_at. rewrite Z.eqb_refl. intros K; discriminate K.
           ++ injection Es as <- <-. destruct pre as [|x pre]; [discriminate E|]. injection E as <- E. cbn [begun length]. rewrite Nat.eqb_refl, Nat.add_succ_r.
              refine (IH (S n) _ _ Hst _ pre v post E). unfold hw_start2. cbn [m_run m_set_status]. rewrite R. split; [exact H0|]. cbn [m_run m_set_run].
              assert (L : (match cur with Some t => t | None => n end <= n)%nat) by (destruct cur as [b|]; [specialize (H2 b eq_refl); lia|lia]).
              split; [|intros b K; injection K as <-; lia]. intros _. eexists. split; [reflexivity|]. lia.
      * assert (N : ch <> ch').
        { intros <-. apply Nj. assert (A : map fst cs !! j = Some ch) by (rewrite list_lookup_fmap, Hj; reflexivity). assert (B : map fst cs !! i = Some ch) by (rewrite list_lookup_fmap, Hi; reflexivity).
          exact (NoDup_lookup _ _ _ _ Hnd A B). }
        pose proof (ra4_read_other n ch ch' c' s s1 o sig cur HI N Es) as HI1.
        destruct pre as [|x pre]; [injection E; intros; congruence|]. injection E as <- E. cbn [begun length]. rewrite (proj2 (Nat.eqb_neq j i) Nj), Nat.add_succ_r. exact (IH (S n) cur s1 Hst HI1 pre v post E).
    + injection Es as <- <-. destruct pre as [|x pre]; [discriminate E|]. injection E as <- E. cbn [begun length]. rewrite Nat.add_succ_r.
      destruct (Nat.eqb_spec j i) as [->|]; [congruence|]. exact (IH (S n) cur s Hs (Later s HI) pre v post E).
  - injection Es as <- <-. destruct pre as [|x pre]; [discriminate E|]. injection E as <- E. cbn [begun length]. rewrite Nat.add_succ_r.
    refine (IH (S n) cur _ Hst _ pre v post E). unfold hw_done2. destruct (m_run s) as [r|] eqn:R; [|exact (Later s HI)].
    destruct HI as (H0 & H1 & H2). split; [exact H0|]. split; [|intros b K; specialize (H2 b K); lia]. cbn [m_status m_run m_data]. rewrite H0. intros F. destruct (H1 F) as (b & B & L). rewrite R in L. exists b. split; [exact B|]. exists r. split; [lia|reflexivity].
  - injection Es as <- <-. destruct pre as [|x pre]; [discriminate E|]. injection E as <- E. cbn [begun length]. rewrite Nat.add_succ_r. exact (IH (S n) cur s Hs (Later s HI) pre v post E).
Qed.
