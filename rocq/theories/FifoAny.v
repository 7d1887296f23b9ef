(** FifoAny.v - the interrupt-driven UART write, for messages of any size. *)
From Verif Require Import Base FifoModel FifoSpec FifoProofs FifoThms.
From Coq Require Import ZifyBool ZifyNat.

Section any.
  Context (g : fcfg) (k : Z) (junk : Z -> Z) (B : Z).
  Hypothesis Hk : 2 <= k <= fc_bits g.
  Notation M0 := (fmem0 (2 ^ k - 1) junk).
  Notation coh := (coh k).
  Notation cap := (cap k).
  Notation N := (2 ^ k).

  Lemma Hk0 : 0 <= k <= fc_bits g. Proof. lia. Qed.
  Lemma cap_pos : 0 < cap.
  Proof.
    unfold FifoProofs.cap. assert (2 ^ 2 <= 2 ^ k) by (apply Z.pow_le_mono_r; lia).
    change (2 ^ 2) with 4 in H. lia.
  Qed.

  Definition gpost (a b : list Z) (tk : ptok) (r : Z) : Prop :=
    p_st tk = None /\ exists x, p_vs tk = a ++ x /\ fifo_part cap b x /\
    ((r = - EAGAIN /\ p_state tk = 1 /\ p_sent tk = Z.of_nat (length b)) \/
     (r = Z.of_nat (length b) /\ p_state tk = 0 /\ p_room tk = cap)).

  Lemma start_loop_any a b0 bytes n tk (Q : ptok -> Z -> Prop) :
    p_st tk = None -> p_vs tk = a ++ b0 -> cap - Z.of_nat (length b0) <= p_room tk ->
    n = Z.of_nat (length b0) ->
    (forall t x, p_st t = None -> p_vs t = a ++ x -> fifo_part cap (b0 ++ bytes) x -> Q t (Z.of_nat (length x))) ->
    fwp (pstep k) (wJ a (b0 ++ bytes)) (start_loop g bytes n) tk Q.
  Proof.
    revert b0 n tk. induction bytes as [|x bytes IH]; intros b0 n tk Hst Hv Hr -> HQ; cbn [start_loop].
    - cbn [fwp]. split; [exists b0; by rewrite app_nil_r|]. apply HQ; [done..|].
      rewrite app_nil_r. split; [done|lia].
    - apply fwp_bind; [apply pstep_mono|].
      replace (b0 ++ x :: bytes) with ((b0 ++ [x]) ++ bytes) in * by (by rewrite <- app_assoc).
      apply (fput_wp g k Hk0); [| |done| |].
      + intros t E. exists b0. split; [congruence|]. rewrite <- app_assoc. by apply prefix_app_r.
      + intros t E. exists (b0 ++ [x]). split; [rewrite E, Hv; by rewrite <- app_assoc|]. by apply prefix_app_r.
      + intros t E Er Es _ _. apply IH; [done|rewrite E, Hv; by rewrite <- app_assoc|..].
        * rewrite app_length. cbn [length]. lia.
        * rewrite app_length. cbn [length]. lia.
        * done.
      + intros H0. cbn [fwp]. split; [exists b0; split; [done|]; rewrite <- app_assoc; by apply prefix_app_r|].
        apply HQ; [done..|]. split; [rewrite <- app_assoc; by apply prefix_app_r|]. lia.
  Qed.

  Lemma start_any a b tk :
    b <> [] -> p_st tk = None -> p_vs tk = a -> p_room tk = cap -> p_state tk = 0 ->
    fwp (pstep k) (wJ a b) (pbody g (PWrite b)) tk (gpost a b).
  Proof.
    intros Hb Hst Hv Hr Hs. cbn [pbody]. unfold uart_write. rewrite bool_decide_eq_false_2 by done.
    assert (HJ : wJ a b tk) by (exists []; rewrite app_nil_r; split; [done|apply prefix_nil]).
    apply fwp_act; [apply pstep_mono|done|]. apply pread_state. rewrite Hs. cbn [Z.eqb].
    unfold write_start. apply fwp_bind; [apply pstep_mono|].
    apply (start_loop_any a [] b); [done|by rewrite app_nil_r|cbn [length]; lia|done|].
    intros t x Ht Hvt [Hx Hl]. cbn [app] in Hx, Hl.
    pose proof cap_pos.
    destruct (Z.of_nat (length x) =? 0) eqn:E.
    { exfalso. destruct b; [done|]. cbn [length] in Hl. lia. }
    assert (HJ' : forall t', p_vs t' = a ++ x -> wJ a b t') by (intros t' ?; by exists x).
    apply fwp_act; [apply pstep_mono|by apply HJ'|]. apply pread_any. intros _.
    apply fwp_act; [apply pstep_mono|by apply HJ'|]. apply (pwrite_cell _ _ _ _ t); [done..|by auto 10|].
    apply fwp_act; [apply pstep_mono|by apply HJ'|].
    apply (pwrite_cell _ _ _ _ (mkP (p_vs t) (p_room t) (p_st t) 1 (p_sent t))); [done..|by auto 10|].
    apply fwp_act; [apply pstep_mono|by apply HJ'|].
    apply (pwrite_cell _ _ _ _ (mkP (p_vs t) (p_room t) (p_st t) 1 (Z.of_nat (length b)))); [done..|by auto 10|].
    cbn [fwp]. split; [by apply HJ'|]. split; [done|]. exists x. split; [done|]. split; [done|]. by left.
  Qed.

  (** What write_xfer does depends only on what is in the FIFO. *)
  Lemma xfer_any a b x tk :
    b <> [] -> fifo_part cap b x -> p_st tk = None -> p_vs tk = a ++ x -> p_state tk = 1 ->
    p_sent tk = Z.of_nat (length b) ->
    fwp (pstep k) (wJ a b) (pbody g (PWrite b)) tk (gpost a b).
  Proof.
    intros Hb Hx Hst Hv Hs Hn. cbn [pbody]. unfold uart_write. rewrite bool_decide_eq_false_2 by done.
    pose proof (fNpos g k Hk0) as HN.
    assert (HJ : forall t', p_vs t' = a ++ x -> wJ a b t') by (intros t' ?; exists x; split; [done|apply Hx]).
    apply fwp_act; [apply pstep_mono|by apply HJ|]. apply pread_state. rewrite Hs. cbn [Z.eqb].
    unfold write_xfer. apply fwp_bind; [apply pstep_mono|]. unfold is_readable.
    apply fwp_act; [apply pstep_mono|by apply HJ|].
    split; [done|]. intros hw M c Hc. cbn [fexec fst snd]. rewrite (ch_r _ _ _ _ Hc).
    pose proof (coh_len _ _ _ _ Hc) as Hle. pose proof (ch_cap _ _ _ _ Hc) as Hcap. unfold FifoProofs.cap in Hcap.
    destruct (decide (length (c_ds c) = length (p_vs tk))) as [E|E].
    - exists (mkP (p_vs tk) cap (p_st tk) (p_state tk) (p_sent tk)). split.
      { destruct Hc. constructor; try done. cbn. lia. }
      rewrite E. clear M c Hc Hle Hcap E hw.
      apply fwp_act; [apply pstep_mono|by apply HJ|]. apply pread_m. rewrite (fnext g k Hk0).
      replace (Z.of_nat (length (p_vs tk)) - 1 + 1) with (Z.of_nat (length (p_vs tk))) by lia.
      apply fwp_act; [apply pstep_mono|by apply HJ|]. apply pread_w. cbn [p_vs]. rewrite Z.eqb_refl.
      cbn [negb fwp]. split; [by apply HJ|].
      apply fwp_act; [apply pstep_mono|by apply HJ|].
      apply (pwrite_cell _ _ _ _ (mkP (p_vs tk) cap (p_st tk) 0 (p_sent tk))); [done..|by auto 10|].
      apply fwp_act; [apply pstep_mono|by apply HJ|]. apply pread_sent. cbn [fwp p_sent].
      split; [by apply HJ|]. split; [done|]. exists x. split; [done|]. split; [done|]. right. done.
    - exists tk. split; [done|].
      assert (Hne : (Z.of_nat (length (c_ds c)) - 1 + 1) mod N <> Z.of_nat (length (p_vs tk)) mod N).
      { intros D. apply E. apply Nat2Z.inj. symmetry. apply (fmod_eq g k Hk0); [lia|].
        rewrite <- D. f_equal. lia. }
      apply fwp_act; [apply pstep_mono|by apply HJ|]. apply pread_m. rewrite (fnext g k Hk0).
      apply fwp_act; [apply pstep_mono|by apply HJ|]. apply pread_w.
      rewrite (proj2 (Z.eqb_neq _ _)) by done. cbn [negb fwp]. split; [by apply HJ|]. split; [by apply HJ|].
      split; [done|]. exists x. split; [done|]. split; [done|]. by left.
  Qed.

  Lemma msgs_app_any d c l1 l2 :
    msgs B d c (l1 ++ l2) = match msgs B d c l1 with Some (d', c') => msgs B d' c' l2 | None => None end.
  Proof.
    revert d c. induction l1 as [|e l1 IH]; intros d c; [done|]. cbn [app msgs].
    destruct e as [[v|b]|[v|b] r| | |]; try apply IH; [done| |].
    - destruct c as [b'|].
      + case_bool_decide; [apply IH|done].
      + destruct (_ && _); [apply IH|done].
    - destruct (r =? - EAGAIN); apply IH.
  Qed.
  Lemma msgs_c_any d c es : Forall (fun x => p_event x = false) es -> msgs B d c es = Some (d, c).
  Proof. induction 1 as [|x es Hx F IH]; [done|]. destruct x; try done. Qed.

  Definition gok (s : fsys) (p : ptok) (parts : list (list Z)) : Prop :=
    match f_p s with
    | None => exists d cur, msgs B [] None (f_log s) = Some (d, cur) /\ Forall2 (fifo_part cap) d parts /\ p_st p = None /\
        match cur with
        | None => p_state p = 0 /\ p_vs p = concat parts /\ p_room p = cap
        | Some b => b <> [] /\ p_state p = 1 /\ p_sent p = Z.of_nat (length b) /\
            exists x, p_vs p = concat parts ++ x /\ fifo_part cap b x
        end
    | Some (PPut _, _) => False
    | Some (PWrite b, pr) => exists d, msgs B [] None (f_log s) = Some (d, Some b) /\ Forall2 (fifo_part cap) d parts /\ b <> [] /\
        fwp (pstep k) (wJ (concat parts) b) pr p (gpost (concat parts) b)
    end.
  Definition ghist (l : list gev) : Prop :=
    forall l0 b r l1, l = l0 ++ GPRet (PWrite b) r :: l1 -> r <> - EAGAIN ->
      r = Z.of_nat (length b) /\
      exists d parts, msgs B [] None l0 = Some (d, Some b) /\ Forall2 (fifo_part cap) (d ++ [b]) parts /\
        sent l0 = concat parts.
  Lemma ghist_snoc l e : (forall b r, e <> GPRet (PWrite b) r) -> ghist l -> ghist (l ++ [e]).
  Proof.
    intros He H l0 b r l1 E Hr. destruct l1 as [|x l1 _] using rev_ind.
    - apply app_inj_tail in E as [_ ->]. by destruct (He b r).
    - rewrite app_comm_cons, app_assoc in E. apply app_inj_tail in E as [-> _]. by eapply H.
  Qed.
  Lemma ghist_es l es : Forall (fun x => p_event x = false) es -> ghist l -> ghist (l ++ es).
  Proof.
    revert l. induction es as [|x es IH]; intros l F H; [by rewrite app_nil_r|].
    apply Forall_cons in F as [Hx F]. rewrite cons_middle, app_assoc. apply IH; [done|].
    apply ghist_snoc; [|done]. by intros ? ? ->.
  Qed.

  Definition ginv (s : fsys) : Prop :=
    exists p c parts, coh (f_mem s) p c /\ cok k s c /\ cisr s /\ crets (f_log s) /\ gok s p parts /\ ghist (f_log s).

  Lemma ginv_step s e :
    (exists r, msgs B [] None (f_log (fstep g s e)) = Some r) -> only_isr (f_log (fstep g s e)) ->
    (task_step e = true -> f_c s = None) -> ginv s -> ginv (fstep g s e).
  Proof.
    intros [res Hm] Hisr Hat (p & c & parts & Hc & Hcok & Hci & Hcr & Hu & Huh).
    destruct (task_step e) eqn:Et.
    - specialize (Hat eq_refl).
      assert (Hdel : c_ds c = sent (f_log s)).
      { destruct Hcok as [Ho Hcok]. rewrite Hat in Hcok. rewrite <- (crets_sent g k junk Hk0) by done. congruence. }
      destruct e as [cl|hw|cl|hw]; cbn in Et; try done; cbn [fstep] in *.
      + destruct (f_p s) as [[cl' pr]|] eqn:Ep; [by exists p, c, parts|].
        cbn [f_log] in Hm. rewrite msgs_app_any in Hm. unfold gok in Hu. rewrite Ep in Hu.
        destruct Hu as (d & cur & Hmd & HF & Hst & Hcur). rewrite Hmd in Hm.
        destruct cl as [v|b]; [done|].
        exists p, c, parts. cbn [f_mem f_log]. split; [done|].
        split. { eapply cok_p, Hcok; [done|]. exists [GP (PWrite b)]. split; [done|]. split; [by repeat constructor|done]. }
        split; [done|]. split. { intros cl r [Hl|Hl]%elem_of_app; [by eapply Hcr|set_solver]. }
        split; [|by apply ghist_snoc].
        unfold gok. cbn [f_p f_log]. exists d. rewrite msgs_app_any, Hmd. cbn [msgs] in *.
        destruct cur as [b'|].
        * case_bool_decide as Eb; [|done]. subst b'. split; [done|]. destruct Hcur as (H0 & H1 & H2 & x & H3 & H4).
          split; [done|]. split; [done|]. by apply (xfer_any _ _ x).
        * destruct ((0 <? Z.of_nat (length b)) && (Z.of_nat (length b) <=? B)) eqn:Eb; [|done].
          assert (Hb : b <> []) by (intros ->; done).
          split; [done|]. split; [done|]. split; [done|]. destruct Hcur as (H1 & H2 & H3). by apply start_any.
      + destruct (f_p s) as [[cl pr]|] eqn:Ep; [|by exists p, c, parts].
        unfold gok in Hu. rewrite Ep in Hu. destruct cl as [v|b]; [done|].
        destruct Hu as (d & Hmd & HF & Hb & W). destruct pr as [r| |o h].
        * destruct W as [_ (Hst & x & Hv & Hx & W)].
          assert (Hroom : r <> - EAGAIN -> r = Z.of_nat (length b) /\ p_state p = 0 /\ p_room p = cap).
          { intros Hr. by destruct W as [[? _]|?]. }
          assert (HF' : Forall2 (fifo_part cap) (d ++ [b]) (parts ++ [x])) by (apply Forall2_app; [done|]; by constructor).
          exists p, c, (if r =? - EAGAIN then parts else parts ++ [x]). cbn [f_mem f_log]. split; [done|].
          split. { eapply cok_p, Hcok; [done|]. eexists. split; [done|]. split; [by repeat constructor|done]. }
          split; [done|]. split. { intros cl r' [Hl|Hl]%elem_of_app; [by eapply Hcr|set_solver]. }
          split.
          -- unfold gok. cbn [f_p f_log]. rewrite msgs_app_any, Hmd. cbn [msgs].
             destruct (r =? - EAGAIN) eqn:Er.
             ++ exists d, (Some b). split; [done|]. split; [done|]. split; [done|]. apply Z.eqb_eq in Er. subst r.
                destruct W as [(_ & ? & ?)|[E _]]; [by eauto 10|]. exfalso. unfold EAGAIN in E. lia.
             ++ apply Z.eqb_neq in Er. destruct (Hroom Er) as (? & ? & ?). exists (d ++ [b]), None.
                split; [done|]. split; [done|]. split; [done|]. rewrite concat_app. cbn. rewrite app_nil_r. done.
          -- intros l0 b' r' l1 E Hr. destruct l1 as [|y l1 _] using rev_ind.
             ++ apply app_inj_tail in E as [<- [= <- <-]]. destruct (Hroom Hr) as (? & ? & Hrm). split; [done|].
                exists d, (parts ++ [x]). split; [done|]. split; [done|]. rewrite concat_app. cbn. rewrite app_nil_r, <- Hdel, <- Hv.
                pose proof (ch_room _ _ _ _ Hc) as Hcr'. pose proof (ch_pre _ _ _ _ Hc) as [z Hz].
                rewrite Hz, app_length in Hcr'. rewrite Hrm in Hcr'. destruct z; [by rewrite app_nil_r in Hz|].
                cbn [length] in Hcr'. lia.
             ++ rewrite app_comm_cons, app_assoc in E. apply app_inj_tail in E as [E _]. by eapply Huh.
        * exists p, c, parts. split; [done|]. split; [done|]. split; [done|]. split; [done|]. split; [|done]. unfold gok. rewrite Ep. eauto 10.
        * destruct W as [_ [Hout W]]. destruct (W hw _ _ Hc) as (p' & Hc' & W').
          assert (Eo : outs o = []) by (by destruct o).
          exists p', c, parts. cbn [f_mem f_log]. rewrite Eo, app_nil_r. split; [done|].
          split. { eapply cok_p, Hcok; [done|]. exists []. cbn [f_log]. rewrite app_nil_r. split; [done|]. split; [constructor|done]. }
          split; [done|]. split; [done|]. split; [|done]. unfold gok. cbn [f_p f_log]. eauto 10.
    - destruct (c_step_u g k junk Hk0 s e p c) as (c' & Hc' & Hcok' & Hci' & Hcr'); [|done..|].
      { destruct e; try done; eauto. }
      exists p, c', parts. destruct (c_log g s e Et) as (Ep & es & El & Fe & Ae).
      split; [done|]. split; [done|]. split; [done|]. split; [done|]. split.
      + unfold gok in *. rewrite Ep, El, msgs_app_any.
        destruct (f_p s) as [[[v|b] pr]|]; [done| |].
        * destruct Hu as (d & Hmd & W). exists d. rewrite Hmd, msgs_c_any by done. done.
        * destruct Hu as (d & cur & Hmd & W). exists d, cur. rewrite Hmd, msgs_c_any by done. done.
      + rewrite El. by apply ghist_es.
  Qed.

  Lemma ginv_reach evs s : s = frun g (fsys0 M0) evs -> isr_atomic g M0 evs ->
    (exists r, msgs B [] None (f_log s) = Some r) -> only_isr (f_log s) -> ginv s.
  Proof.
    intros ->. induction evs as [|e evs IH] using rev_ind; intros Ha Hm Hi.
    - exists (mkP [] cap None 0 0), (mkC [] [] false 0), []. split; [apply (coh0 g k junk Hk0)|]. split; [done|]. split; [done|].
      split. { intros cl r H. by apply elem_of_nil in H. }
      split; [|intros [|? ?] ? ? ? [=]]. exists [], None. split; [done|]. split; [constructor|done].
    - rewrite frun_app in *. cbn in *.
      destruct (log_mono g (frun g (fsys0 M0) evs) e) as [es Es].
      apply ginv_step; [done|done| |].
      + intros Et. by apply (Ha evs e []).
      + apply IH.
        * intros e1 x e2 E Hx. apply (Ha e1 x (e2 ++ [e])); [|done]. by rewrite E, <- app_assoc.
        * destruct Hm as [r Hm]. rewrite Es, msgs_app_any in Hm. destruct (msgs B [] None _) as [[d c]|]; [eauto|done].
        * intros n. destruct (Hi n) as [H1 H2]. rewrite Es in H1, H2. split; intros Hn; [apply H1|apply H2]; set_solver.
  Qed.

  Lemma uart_any evs s d cur : s = frun g (fsys0 M0) evs -> isr_atomic g M0 evs ->
    msgs B [] None (f_log s) = Some (d, cur) -> only_isr (f_log s) ->
    (exists parts last, Forall2 (fifo_part cap) d parts /\ last `prefix_of` default [] cur /\
      sent (f_log s) `prefix_of` concat parts ++ last) /\ ghist (f_log s).
  Proof.
    intros E Ha Hm Hi. destruct (ginv_reach evs s E Ha (ex_intro _ _ Hm) Hi) as (p & c & parts & Hc & [Ho Hcok] & Hci & Hcr & Hu & Huh).
    split; [|done].
    assert (H : sent (f_log s) `prefix_of` p_vs p).
    { rewrite <- (crets_sent g k junk Hk0) by done. transitivity (c_ds c); [|apply (ch_pre _ _ _ _ Hc)].
      rewrite <- Ho. destruct (f_c s) as [[cl pr]|]; [|by rewrite Hcok].
      destruct Hcok as (l0 & l1 & _ & _ & W). destruct (fwp_J _ _ _ _ _ W) as [x ->]. by exists x. }
    exists parts.
    unfold gok in Hu. destruct (f_p s) as [[[v|b] pr]|]; [done| |].
    - destruct Hu as (d' & Hm' & HF & _ & W). rewrite Hm in Hm'. injection Hm' as <- ->.
      destruct (fwp_J _ _ _ _ _ W) as (x & E1 & Hx). exists x. rewrite E1 in H. done.
    - destruct Hu as (d' & cur' & Hm' & HF & _ & W). rewrite Hm in Hm'. injection Hm' as <- <-.
      destruct cur as [b|]; cbn.
      + destruct W as (_ & _ & _ & x & E1 & Hx & _). exists x. rewrite E1 in H. done.
      + destruct W as (_ & E1 & _). exists []. rewrite E1 in H. by rewrite app_nil_r.
  Qed.
End any.
