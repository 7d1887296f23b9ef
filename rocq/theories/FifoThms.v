(** FifoThms.v - the interrupt FIFO and the interrupt-driven UART, in every interleaving. *)
From Verif Require Import Base FifoModel FifoSpec FifoProofs.
From Coq Require Import ZifyBool ZifyNat.

Lemma frun_app g s e1 e2 : frun g s (e1 ++ e2) = frun g (frun g s e1) e2.
Proof. apply fold_left_app. Qed.

(** Events of one side. *)
Notation cside := c_event.
Notation pside := p_event.

Lemma last_split (f : gev -> bool) l0 l0' l1 l1' a b :
  f a = true -> f b = true -> Forall (fun e => f e = false) l1 -> Forall (fun e => f e = false) l1' ->
  l0 ++ a :: l1 = l0' ++ b :: l1' -> l0 = l0' /\ a = b /\ l1 = l1'.
Proof.
  intros Ha Hb. revert l1'. induction l1 as [|x l1 IH] using rev_ind; intros l1' F1 F2 E.
  - destruct l1' as [|y l1' _] using rev_ind.
    + apply app_inj_tail in E as [-> ->]. done.
    + exfalso. rewrite app_comm_cons, app_assoc in E. apply app_inj_tail in E as [_ ->].
      apply Forall_app in F2 as [_ F2]. inversion F2. congruence.
  - destruct l1' as [|y l1' _] using rev_ind.
    + exfalso. rewrite app_comm_cons, app_assoc in E. apply app_inj_tail in E as [_ ->].
      apply Forall_app in F1 as [_ F1]. inversion F1. congruence.
    + rewrite !app_comm_cons, !app_assoc in E. apply app_inj_tail in E as [E ->].
      apply Forall_app in F1 as [F1 _]. apply Forall_app in F2 as [F2 _].
      destruct (IH l1' F1 F2 E) as (-> & -> & ->). done.
Qed.

Lemma accepted_app l1 l2 : accepted (l1 ++ l2) = accepted l1 ++ accepted l2.
Proof. apply omap_app. Qed.
Lemma sent_app l1 l2 : sent (l1 ++ l2) = sent l1 ++ sent l2.
Proof. apply omap_app. Qed.
Lemma delivered_app l1 l2 : delivered (l1 ++ l2) = delivered l1 ++ delivered l2.
Proof.
  unfold delivered. rewrite map_app. induction (map ev_values l1) as [|x l IH]; [done|].
  cbn. rewrite <- app_assoc. f_equal. done.
Qed.
Lemma delivered_one e : delivered [e] = ev_values e.
Proof. unfold delivered. cbn. by rewrite app_nil_r. Qed.

Section thms.
  Context (g : fcfg) (k : Z) (junk : Z -> Z).
  Hypothesis Hk : 0 <= k <= fc_bits g.
  Notation M0 := (fmem0 (2 ^ k - 1) junk).
  Notation coh := (coh k).
  Notation cap := (cap k).

  Lemma coh0 : coh M0 (mkP [] cap None 0 0) (mkC [] [] false 0).
  Proof.
    assert (0 < 2 ^ k) by (apply Z.pow_pos_nonneg; lia).
    constructor; cbn [p_vs p_room p_st p_state p_sent c_ds c_out c_av c_seen length fmem0]; try done; try lia.
    - unfold FifoProofs.cap. lia.
    - change (Z.of_nat 0 - 1) with (-1). rewrite <- (Z_mod_plus_full (-1) 1). rewrite Z.mod_small; lia.
  Qed.

  (** ** The consumer *)
  (** What a finished call of the consumer guarantees ([l0]: before the call, [r]: its result). *)
  Definition cfact (cl : ccall) (l0 : list gev) (r : list Z) : Prop :=
    match cl with
    | CGet => (length r <= 1 /\ Nat.min 1 (length (accepted l0) - length (delivered l0)) <= length r)%nat
    | CRead n => (length r <= n /\ Nat.min n (length (accepted l0) - length (delivered l0)) <= length r)%nat
    | CIsr => r = []
    end.
  Definition cok (s : fsys) (c : ctok) : Prop :=
    c_out c = delivered (f_log s) /\
    match f_c s with
    | None => c_ds c = c_out c
    | Some (cl, pr) =>
        exists l0 l1, f_log s = l0 ++ GC cl :: l1 /\ Forall (fun e => cside e = false) l1 /\
          fwp (cstep k) cJ pr c (cpost cl (length (accepted l0)) (delivered l0))
    end.
  Definition chist (l : list gev) : Prop :=
    forall l0 cl l1 r l2, l = l0 ++ GC cl :: l1 ++ GCRet cl r :: l2 -> Forall (fun e => cside e = false) l1 ->
      cfact cl l0 r.

  Lemma hist_snoc_inv (l : list gev) e l0 cl l1 r l2 :
    l ++ [e] = l0 ++ GC cl :: l1 ++ GCRet cl r :: l2 ->
    (exists l2', l = l0 ++ GC cl :: l1 ++ GCRet cl r :: l2') \/ (e = GCRet cl r /\ l = l0 ++ GC cl :: l1).
  Proof.
    intros E. destruct l2 as [|x l2 _] using rev_ind.
    - right. rewrite app_comm_cons, app_assoc in E. apply app_inj_tail in E as [-> ->]. done.
    - left. exists l2.
      assert (E' : l0 ++ GC cl :: l1 ++ GCRet cl r :: l2 ++ [x] = (l0 ++ GC cl :: l1 ++ GCRet cl r :: l2) ++ [x]).
      { rewrite <- app_assoc. cbn. rewrite <- app_assoc. done. }
      rewrite E' in E. by apply app_inj_tail in E as [-> _].
  Qed.
  Lemma chist_other l e : (forall cl r, e <> GCRet cl r) -> chist l -> chist (l ++ [e]).
  Proof.
    intros He H l0 cl l1 r l2 E F. destruct (hist_snoc_inv _ _ _ _ _ _ _ E) as [(l2' & E')|[E' _]].
    - by eapply H.
    - by destruct (He cl r).
  Qed.
  Lemma chist_out l o : chist l -> chist (l ++ outs o).
  Proof. destruct o; cbn; rewrite ?app_nil_r; try done. apply chist_other. done. Qed.

  (** A step of the consumer. *)
  Lemma c_step s e p c :
    (exists cl, e = CStart cl) \/ (exists hw, e = CGo hw) ->
    coh (f_mem s) p c -> cok s c -> chist (f_log s) -> (length (accepted (f_log s)) <= length (p_vs p))%nat ->
    exists c', coh (f_mem (fstep g s e)) p c' /\ cok (fstep g s e) c' /\ chist (f_log (fstep g s e)).
  Proof.
    intros He Hc [Ho Hok] Hh Hacc. destruct He as [[cl ->]|[hw ->]]; cbn [fstep].
    - destruct (f_c s) as [[cl' pr]|] eqn:Ec.
      { exists c. split; [done|]. split; [|done]. split; [done|]. by rewrite Ec. }
      exists (mkC (c_ds c) (c_out c) false (length (accepted (f_log s)))). cbn [f_mem f_log].
      split; [destruct Hc; by constructor|]. split; [|by apply chist_other].
      split; [cbn [f_log c_out]; by rewrite delivered_app, Ho, app_nil_r|]. cbn [f_c f_log].
      exists (f_log s), []. split; [done|]. split; [constructor|].
      rewrite <- Ho. apply (cbody_wp g k Hk cl (mkC (c_ds c) (c_out c) false (length (accepted (f_log s))))). done.
    - destruct (f_c s) as [[cl pr]|] eqn:Ec; [|by exists c; split; [done|]; split; [split; [done|]; by rewrite Ec|]].
      destruct Hok as (l0 & l1 & El & Fl & W). destruct pr as [r| |o h].
      + destruct W as [_ [W1 W2]].
        exists (mkC (c_ds c) (c_out c ++ r) (c_av c) (c_seen c)). cbn [f_mem f_log].
        split; [destruct Hc; by constructor|]. split.
        * split; [cbn [f_log c_out]; by rewrite delivered_app, Ho, delivered_one|]. done.
        * intros m0 cl' m1 r' m2 E F.
          destruct (hist_snoc_inv _ _ _ _ _ _ _ E) as [(m2' & E')|[E' E2]]; [by eapply Hh|].
          injection E' as -> ->. rewrite El in E2.
          apply (last_split cside) in E2 as (<- & E3 & <-); [|done..].
          destruct cl'; cbn; [tauto|tauto|done].
      + exists c. split; [done|]. split; [|done]. split; [done|]. rewrite Ec. eauto.
      + destruct W as [_ W]. destruct (W hw _ _ Hc) as (c' & Hc' & Ho' & W').
        exists c'. cbn [f_mem f_log]. split; [done|]. split; [|by apply chist_out].
        split. { cbn [f_log c_out]. rewrite Ho', Ho, delivered_app. f_equal. by destruct o. }
        cbn [f_c f_log]. exists l0, (l1 ++ outs o). split; [by rewrite El, <- app_assoc|].
        split; [|done]. apply Forall_app. split; [done|]. destruct o; cbn; repeat constructor.
  Qed.

  (** A step of the producer keeps the consumer's part. *)
  Lemma cok_p s s' c :
    f_c s' = f_c s -> (exists es, f_log s' = f_log s ++ es /\ Forall (fun e => cside e = false) es /\ delivered es = []) ->
    cok s c -> cok s' c.
  Proof.
    intros Ec (es & El & F & D) [Ho Hok]. split; [by rewrite El, delivered_app, D, app_nil_r|].
    rewrite Ec. destruct (f_c s) as [[cl pr]|]; [|done].
    destruct Hok as (l0 & l1 & E1 & F1 & W). exists l0, (l1 ++ es). split; [by rewrite El, E1, <- app_assoc|].
    split; [by apply Forall_app|done].
  Qed.

  (** ** Puts *)
  Definition pok (s : fsys) (p : ptok) : Prop :=
    match f_p s with
    | None => p_vs p = accepted (f_log s) /\ p_st p = None
    | Some (PPut v, pr) =>
        exists l0 l1 room, f_log s = l0 ++ GP (PPut v) :: l1 /\ Forall (fun e => pside e = false) l1 /\
          cap - (Z.of_nat (length (accepted l0)) - Z.of_nat (length (delivered l0))) <= room /\
          fwp (pstep k) (pJ (accepted (f_log s)) v) pr p (ppost (accepted (f_log s)) v room)
    | Some (PWrite _, _) => False
    end.
  Definition pfact (l0 : list gev) (r : Z) : Prop :=
    (r = 0 \/ r = 1) /\
    (r = 0 -> cap <= Z.of_nat (length (accepted l0)) - Z.of_nat (length (delivered l0))).
  Definition phist (l : list gev) : Prop :=
    forall l0 v l1 r l2, l = l0 ++ GP (PPut v) :: l1 ++ GPRet (PPut v) r :: l2 ->
      Forall (fun e => pside e = false) l1 -> pfact l0 r.
  Lemma phist_snoc_inv (l : list gev) e l0 cl l1 r l2 :
    l ++ [e] = l0 ++ GP cl :: l1 ++ GPRet cl r :: l2 ->
    (exists l2', l = l0 ++ GP cl :: l1 ++ GPRet cl r :: l2') \/ (e = GPRet cl r /\ l = l0 ++ GP cl :: l1).
  Proof.
    intros E. destruct l2 as [|x l2 _] using rev_ind.
    - right. rewrite app_comm_cons, app_assoc in E. apply app_inj_tail in E as [-> ->]. done.
    - left. exists l2.
      assert (E' : l0 ++ GP cl :: l1 ++ GPRet cl r :: l2 ++ [x] = (l0 ++ GP cl :: l1 ++ GPRet cl r :: l2) ++ [x]).
      { rewrite <- app_assoc. cbn. rewrite <- app_assoc. done. }
      rewrite E' in E. by apply app_inj_tail in E as [-> _].
  Qed.
  Lemma phist_other l e : (forall cl r, e <> GPRet cl r) -> phist l -> phist (l ++ [e]).
  Proof.
    intros He H l0 v l1 r l2 E F. destruct (phist_snoc_inv _ _ _ _ _ _ _ E) as [(l2' & E')|[E' _]].
    - by eapply H.
    - by destruct (He (PPut v) r).
  Qed.
  Lemma phist_c l e : Forall (fun x => pside x = false) e -> phist l -> phist (l ++ e).
  Proof.
    revert l. induction e as [|x e IH]; intros l F H; [by rewrite app_nil_r|].
    apply Forall_cons in F as [Hx F]. rewrite cons_middle, app_assoc. apply IH; [done|].
    apply phist_other; [|done]. by intros ? ? ->.
  Qed.

  Lemma pok_acc s p : pok s p -> (length (accepted (f_log s)) <= length (p_vs p))%nat.
  Proof.
    unfold pok. destruct (f_p s) as [[[v|b] pr]|]; [|done|].
    - intros (l0 & l1 & room & _ & _ & _ & W). destruct (fwp_J _ _ _ _ _ W) as [->| ->]; rewrite ?app_length; lia.
    - intros [-> _]. done.
  Qed.

  Definition pinv (s : fsys) : Prop :=
    exists p c, coh (f_mem s) p c /\ cok s c /\ chist (f_log s) /\ pok s p /\ phist (f_log s).

  Lemma c_log s e : task_step e = false ->
    f_p (fstep g s e) = f_p s /\
    exists es, f_log (fstep g s e) = f_log s ++ es /\ Forall (fun x => pside x = false) es /\ accepted es = [].
  Proof.
    intros He. destruct e as [|hw|cl|hw]; cbn in He; [done|done| |]; cbn [fstep].
    - destruct (f_c s); cbn [f_p f_log]; (split; [done|]).
      + exists []. by rewrite app_nil_r.
      + exists [GC cl]. split; [done|]. split; [by repeat constructor|done].
    - destruct (f_c s) as [[cl [r| |o h]]|]; cbn [f_p f_log]; (split; [done|]).
      + exists [GCRet cl r]. split; [done|]. split; [by repeat constructor|done].
      + exists []. by rewrite app_nil_r.
      + exists (outs o). split; [done|]. destruct o; (split; [by repeat constructor|done]).
      + exists []. by rewrite app_nil_r.
  Qed.

  Lemma pinv_step s e : only_puts (f_log (fstep g s e)) -> pinv s -> pinv (fstep g s e).
  Proof.
    intros Hp (p & c & Hc & Hcok & Hch & Hpok & Hph).
    destruct (task_step e) eqn:Et.
    - destruct e as [cl|hw|cl|hw]; cbn in Et; try done; cbn [fstep] in *.
      + destruct (f_p s) as [[cl' pr]|] eqn:Ep; [by exists p, c|].
        cbn [f_log] in Hp. destruct cl as [v|b]; [|exfalso; apply (Hp b); set_solver].
        unfold pok in Hpok. rewrite Ep in Hpok. destruct Hpok as [Hv Hst].
        set (room := cap - (Z.of_nat (length (p_vs p)) - Z.of_nat (length (c_ds c)))).
        exists (mkP (p_vs p) room None (p_state p) (p_sent p)), c. cbn [f_mem f_log].
        split. { destruct Hc. constructor; try done. }
        split. { eapply cok_p, Hcok; [done|]. exists [GP (PPut v)]. split; [done|]. split; [by repeat constructor|done]. }
        split; [by apply chist_other|]. split; [|by apply phist_other].
        unfold pok. cbn [f_p f_log]. exists (f_log s), [], room. split; [done|]. split; [constructor|]. split.
        * unfold room. rewrite Hv. destruct Hcok as [Ho Hcok].
          assert (length (delivered (f_log s)) <= length (c_ds c))%nat; [|lia].
          rewrite <- Ho. destruct (f_c s) as [[cl pr]|]; [|by rewrite Hcok].
          destruct Hcok as (l0 & l1 & _ & _ & W). destruct (fwp_J _ _ _ _ _ W) as [x ->]. rewrite app_length. lia.
        * assert (E : accepted (f_log s ++ [GP (PPut v)]) = p_vs p) by (by rewrite accepted_app, app_nil_r, Hv).
          rewrite E.
          apply (pput_wp g k Hk v (mkP (p_vs p) room None (p_state p) (p_sent p))). done.
      + destruct (f_p s) as [[cl pr]|] eqn:Ep; [|by exists p, c].
        unfold pok in Hpok. rewrite Ep in Hpok. destruct cl as [v|b]; [|done].
        destruct Hpok as (l0 & l1 & room & El & Fl & Hr & W). destruct pr as [r| |o h].
        * destruct W as [_ [Hst W]]. exists p, c. cbn [f_mem f_log]. split; [done|].
          split. { eapply cok_p, Hcok; [done|]. eexists. split; [done|]. split; [by repeat constructor|done]. }
          split; [by apply chist_other|]. split.
          -- unfold pok. cbn [f_p f_log]. rewrite accepted_app. split; [|done].
             destruct W as [[-> ->]|[-> [-> _]]]; cbn; [done|by rewrite app_nil_r].
          -- intros m0 v' m1 r' m2 E F. destruct (phist_snoc_inv _ _ _ _ _ _ _ E) as [(m2' & E')|[E' E2]].
             { by eapply Hph. }
             injection E' as -> ->. rewrite El in E2.
             apply (last_split pside) in E2 as (<- & E3 & <-); [|done..].
             unfold pfact. destruct W as [[-> _]|[-> [_ W]]]; [split; [by right|done]|]. split; [by left|]. lia.
        * exists p, c. split; [done|]. split; [done|]. split; [done|]. split; [|done]. unfold pok. rewrite Ep. eauto 10.
        * destruct W as [_ [Hout W]]. destruct (W hw _ _ Hc) as (p' & Hc' & W').
          assert (Eo : outs o = []) by (by destruct o).
          exists p', c. cbn [f_mem f_log]. rewrite Eo, app_nil_r. split; [done|].
          split. { eapply cok_p, Hcok; [done|]. exists []. cbn [f_log]. rewrite app_nil_r. split; [done|]. split; [constructor|done]. }
          split; [done|]. split; [|done]. unfold pok. cbn [f_p f_log]. eauto 10.
    - destruct (c_step s e p c) as (c' & Hc' & Hcok' & Hch'); [|done..|by apply pok_acc|].
      { destruct e; try done; eauto. }
      exists p, c'. destruct (c_log s e Et) as (Ep & es & El & Fe & Ae).
      split; [done|]. split; [done|]. split; [done|]. split.
      + unfold pok in *. rewrite Ep. rewrite El, accepted_app, Ae, app_nil_r.
        destruct (f_p s) as [[[v|b] pr]|]; [|done..].
        destruct Hpok as (l0 & l1 & room & E1 & F1 & Hr & W). exists l0, (l1 ++ es), room.
        split; [by rewrite E1, <- app_assoc|]. split; [by apply Forall_app|done].
      + rewrite El. by apply phist_c.
  Qed.

  Lemma log_mono s e : exists es, f_log (fstep g s e) = f_log s ++ es.
  Proof.
    destruct e as [cl|hw|cl|hw]; cbn [fstep].
    - destruct (f_p s) as [[? ?]|]; cbn; [exists []; by rewrite app_nil_r|eauto].
    - destruct (f_p s) as [[? [?| |? ?]]|]; cbn; eauto; exists []; by rewrite app_nil_r.
    - destruct (f_c s) as [[? ?]|]; cbn; [exists []; by rewrite app_nil_r|eauto].
    - destruct (f_c s) as [[? [?| |? ?]]|]; cbn; eauto; exists []; by rewrite app_nil_r.
  Qed.

  Lemma pinv_reach s : freach g M0 s -> only_puts (f_log s) -> pinv s.
  Proof.
    intros [evs ->]. induction evs as [|e evs IH] using rev_ind; intros Hp.
    - exists (mkP [] cap None 0 0), (mkC [] [] false 0). split; [apply coh0|]. split; [done|].
      split. { intros [|? ?] ? ? ? ? [=]. }
      split; [done|]. intros [|? ?] ? ? ? ? [=].
    - rewrite frun_app in *. cbn in *. apply pinv_step; [done|]. apply IH. intros b Hb. apply (Hp b).
      destruct (log_mono (frun g (fsys0 M0) evs) e) as [es Es]. rewrite Es. set_solver.
  Qed.

  Lemma cap_fifo : cap = fifo_cap (2 ^ k - 1).
  Proof. unfold FifoProofs.cap, fifo_cap. lia. Qed.

  Lemma fifo_in_order s : freach g M0 s -> only_puts (f_log s) ->
    delivered (f_log s) `prefix_of` accepted (f_log s) ++ putting s.
  Proof.
    intros Hr Hp. destruct (pinv_reach s Hr Hp) as (p & c & Hc & [Ho Hcok] & _ & Hpok & _).
    transitivity (c_ds c).
    { rewrite <- Ho. destruct (f_c s) as [[cl pr]|]; [|by rewrite Hcok].
      destruct Hcok as (l0 & l1 & _ & _ & W). destruct (fwp_J _ _ _ _ _ W) as [x ->]. by exists x. }
    transitivity (p_vs p); [apply (ch_pre _ _ _ _ Hc)|].
    unfold pok, putting in *. destruct (f_p s) as [[[v|b] pr]|]; [|done|].
    - destruct Hpok as (l0 & l1 & room & _ & _ & _ & W). destruct (fwp_J _ _ _ _ _ W) as [-> | ->]; [|done].
      by exists [v].
    - destruct Hpok as [-> _]. by rewrite app_nil_r.
  Qed.

  Lemma fifo_calls s : freach g M0 s -> only_puts (f_log s) -> chist (f_log s) /\ phist (f_log s).
  Proof. intros Hr Hp. by destruct (pinv_reach s Hr Hp) as (p & c & _ & _ & ? & _ & ?). Qed.

  (** ** The UART *)
  Lemma msgs_app d c l1 l2 :
    msgs cap d c (l1 ++ l2) = match msgs cap d c l1 with Some (d', c') => msgs cap d' c' l2 | None => None end.
  Proof.
    revert d c. induction l1 as [|e l1 IH]; intros d c; [done|]. cbn [app msgs].
    destruct e as [[v|b]|[v|b] r| | |]; try apply IH; [done| |].
    - destruct c as [b'|].
      + case_bool_decide; [apply IH|done].
      + destruct (_ && _); [apply IH|done].
    - destruct (r =? - EAGAIN); apply IH.
  Qed.

  Definition uok (s : fsys) (p : ptok) : Prop :=
    match f_p s with
    | None => exists d cur, msgs cap [] None (f_log s) = Some (d, cur) /\ p_st p = None /\
        match cur with
        | None => p_state p = 0 /\ p_vs p = concat d /\ p_room p = cap
        | Some b => b <> [] /\ p_state p = 1 /\ p_sent p = Z.of_nat (length b) /\ p_vs p = concat d ++ b
        end
    | Some (PPut _, _) => False
    | Some (PWrite b, pr) => exists d, msgs cap [] None (f_log s) = Some (d, Some b) /\ b <> [] /\
        fwp (pstep k) (wJ (concat d) b) pr p (wpost k (concat d) b)
    end.
  (** Every non-EAGAIN return reports the whole message, and by then everything was sent. *)
  Definition uhist (l : list gev) : Prop :=
    forall l0 b r l1, l = l0 ++ GPRet (PWrite b) r :: l1 -> r <> - EAGAIN ->
      r = Z.of_nat (length b) /\
      exists d, msgs cap [] None l0 = Some (d, Some b) /\ sent l0 = concat d ++ b.
  Lemma uhist_snoc l e : (forall b r, e <> GPRet (PWrite b) r) -> uhist l -> uhist (l ++ [e]).
  Proof.
    intros He H l0 b r l1 E Hr. destruct l1 as [|x l1 _] using rev_ind.
    - apply app_inj_tail in E as [_ ->]. by destruct (He b r).
    - rewrite app_comm_cons, app_assoc in E. apply app_inj_tail in E as [-> _]. by eapply H.
  Qed.
  Lemma uhist_es l es : Forall (fun x => pside x = false) es -> uhist l -> uhist (l ++ es).
  Proof.
    revert l. induction es as [|x es IH]; intros l F H; [by rewrite app_nil_r|].
    apply Forall_cons in F as [Hx F]. rewrite cons_middle, app_assoc. apply IH; [done|].
    apply uhist_snoc; [|done]. by intros ? ? ->.
  Qed.

  (** With the ISR as the only consumer, what is delivered is what is sent. *)
  Definition crets (l : list gev) : Prop := forall cl r, GCRet cl r ∈ l -> r = [].
  Lemma crets_sent l : crets l -> delivered l = sent l.
  Proof.
    intros H. induction l as [|e l IH]; [done|].
    change (e :: l) with ([e] ++ l). rewrite delivered_app, sent_app, IH.
    - f_equal. rewrite delivered_one. destruct e as [| | |cl r|]; cbn; try done. by rewrite (H cl r) by set_solver.
    - intros cl r Hr. apply (H cl r). set_solver.
  Qed.
  Definition cisr (s : fsys) : Prop := match f_c s with Some (CIsr, _) | None => True | _ => False end.

  Definition uinv (s : fsys) : Prop :=
    exists p c, coh (f_mem s) p c /\ cok s c /\ cisr s /\ crets (f_log s) /\ uok s p /\ uhist (f_log s).

  Lemma c_step_u s e p c :
    (exists cl, e = CStart cl) \/ (exists hw, e = CGo hw) ->
    only_isr (f_log (fstep g s e)) ->
    coh (f_mem s) p c -> cok s c -> cisr s -> crets (f_log s) ->
    exists c', coh (f_mem (fstep g s e)) p c' /\ cok (fstep g s e) c' /\ cisr (fstep g s e) /\ crets (f_log (fstep g s e)).
  Proof.
    intros He Hisr Hc [Ho Hok] Hci Hcr.
    assert (Hes : forall es, (forall cl r, GCRet cl r ∈ es -> r = []) -> crets (f_log s ++ es)).
    { intros es H cl r [Hl|Hl]%elem_of_app; eauto. }
    destruct He as [[cl ->]|[hw ->]]; cbn [fstep] in *.
    - destruct (f_c s) as [[cl' pr]|] eqn:Ec.
      { exists c. split; [done|]. split; [|done]. split; [done|]. by rewrite Ec. }
      cbn [f_log] in Hisr. assert (cl = CIsr) as ->.
      { destruct cl as [|n|]; [exfalso; destruct (Hisr 0%nat); set_solver|exfalso; destruct (Hisr n); set_solver|done]. }
      exists (mkC (c_ds c) (c_out c) false 0). cbn [f_mem f_log].
      split; [destruct Hc; constructor; try done; cbn; lia|]. split; [|split; [done|apply Hes; set_solver]].
      split; [cbn [f_log c_out]; by rewrite delivered_app, Ho, app_nil_r|]. cbn [f_c f_log].
      exists (f_log s), []. split; [done|]. split; [constructor|].
      eapply fwp_mono; [|apply (cbody_wp g k Hk CIsr (mkC (c_ds c) (c_out c) false 0)); done].
      intros t r [H1 H2]. by split.
    - destruct (f_c s) as [[cl pr]|] eqn:Ec; [|by exists c; split; [done|]; split; [split; [done|]; by rewrite Ec|]].
      unfold cisr in Hci. rewrite Ec in Hci.
      destruct cl; try done.
      destruct Hok as (l0 & l1 & El & Fl & W). destruct pr as [r| |o h].
      + destruct W as [_ [W1 W2]]. cbn in W2. subst r.
        exists c. cbn [f_mem f_log]. split; [done|]. rewrite app_nil_r in W1. split.
        * split; [cbn [f_log c_out]; by rewrite delivered_app, Ho, delivered_one, app_nil_r|]. done.
        * split; [done|]. apply Hes. intros cl r [= -> ->]%elem_of_list_singleton. done.
      + exists c. split; [done|]. split; [|split; [|done]]. { split; [done|]. rewrite Ec. eauto. } by unfold cisr; rewrite Ec.
      + destruct W as [_ W]. destruct (W hw _ _ Hc) as (c' & Hc' & Ho' & W').
        exists c'. cbn [f_mem f_log]. split; [done|]. split; [|split; [done|apply Hes; destruct o; set_solver]].
        split. { cbn [f_log c_out]. rewrite Ho', Ho, delivered_app. f_equal. by destruct o. }
        cbn [f_c f_log]. exists l0, (l1 ++ outs o). split; [by rewrite El, <- app_assoc|].
        split; [|done]. apply Forall_app. split; [done|]. destruct o; cbn; repeat constructor.
  Qed.

  Lemma msgs_c d c es : Forall (fun x => pside x = false) es -> msgs cap d c es = Some (d, c).
  Proof. induction 1 as [|x es Hx F IH]; [done|]. destruct x; try done. Qed.

  Lemma uinv_step s e :
    (exists r, msgs cap [] None (f_log (fstep g s e)) = Some r) -> only_isr (f_log (fstep g s e)) ->
    (task_step e = true -> f_c s = None) -> uinv s -> uinv (fstep g s e).
  Proof.
    intros [res Hm] Hisr Hat (p & c & Hc & Hcok & Hci & Hcr & Hu & Huh).
    destruct (task_step e) eqn:Et.
    - specialize (Hat eq_refl).
      assert (Hdel : c_ds c = sent (f_log s)).
      { destruct Hcok as [Ho Hcok]. rewrite Hat in Hcok. rewrite <- crets_sent by done. congruence. }
      destruct e as [cl|hw|cl|hw]; cbn in Et; try done; cbn [fstep] in *.
      + destruct (f_p s) as [[cl' pr]|] eqn:Ep; [by exists p, c|].
        cbn [f_log] in Hm. rewrite msgs_app in Hm. unfold uok in Hu. rewrite Ep in Hu.
        destruct Hu as (d & cur & Hmd & Hst & Hcur). rewrite Hmd in Hm.
        destruct cl as [v|b]; [done|].
        exists p, c. cbn [f_mem f_log]. split; [done|].
        split. { eapply cok_p, Hcok; [done|]. exists [GP (PWrite b)]. split; [done|]. split; [by repeat constructor|done]. }
        split; [done|]. split. { intros cl r [Hl|Hl]%elem_of_app; [by eapply Hcr|set_solver]. }
        split; [|by apply uhist_snoc].
        unfold uok. cbn [f_p f_log]. exists d. rewrite msgs_app, Hmd. cbn [msgs] in *.
        destruct cur as [b'|].
        * case_bool_decide as Eb; [|done]. subst b'. split; [done|]. destruct Hcur as (H0 & H1 & H2 & H3). split; [done|].
          by apply (pwrite_xfer_wp g k Hk).
        * destruct ((0 <? Z.of_nat (length b)) && (Z.of_nat (length b) <=? cap)) eqn:Eb; [|done].
          assert (Hb : b <> []) by (intros ->; done).
          split; [done|]. split; [done|]. destruct Hcur as (H1 & H2 & H3). apply (pwrite_start_wp g k Hk); try done. lia.
      + destruct (f_p s) as [[cl pr]|] eqn:Ep; [|by exists p, c].
        unfold uok in Hu. rewrite Ep in Hu. destruct cl as [v|b]; [done|].
        destruct Hu as (d & Hmd & Hb & W). destruct pr as [r| |o h].
        * destruct W as [_ (Hst & Hv & W)]. exists p, c. cbn [f_mem f_log]. split; [done|].
          split. { eapply cok_p, Hcok; [done|]. eexists. split; [done|]. split; [by repeat constructor|done]. }
          split; [done|]. split. { intros cl r' [Hl|Hl]%elem_of_app; [by eapply Hcr|set_solver]. }
          assert (Hroom : r <> - EAGAIN -> r = Z.of_nat (length b) /\ p_state p = 0 /\ p_room p = cap).
          { intros Hr. by destruct W as [[? _]|?]. }
          split.
          -- unfold uok. cbn [f_p f_log]. rewrite msgs_app, Hmd. cbn [msgs].
             destruct (r =? - EAGAIN) eqn:Er.
             ++ exists d, (Some b). split; [done|]. split; [done|]. apply Z.eqb_eq in Er. subst r.
                destruct W as [(_ & ? & ?)|[E _]]; [done|]. exfalso. unfold EAGAIN in E. lia.
             ++ apply Z.eqb_neq in Er. destruct (Hroom Er) as (? & ? & ?). exists (d ++ [b]), None.
                split; [done|]. split; [done|]. rewrite concat_app. cbn. rewrite app_nil_r. done.
          -- intros l0 b' r' l1 E Hr. destruct l1 as [|x l1 _] using rev_ind.
             ++ apply app_inj_tail in E as [<- [= <- <-]]. destruct (Hroom Hr) as (? & ? & Hrm). split; [done|].
                exists d. split; [done|]. rewrite <- Hdel, <- Hv.
                pose proof (ch_room _ _ _ _ Hc) as Hcr'. pose proof (ch_pre _ _ _ _ Hc) as [z Hz].
                rewrite Hz, app_length in Hcr'. rewrite Hrm in Hcr'. destruct z; [by rewrite app_nil_r in Hz|].
                cbn [length] in Hcr'. lia.
             ++ rewrite app_comm_cons, app_assoc in E. apply app_inj_tail in E as [E _]. by eapply Huh.
        * exists p, c. split; [done|]. split; [done|]. split; [done|]. split; [done|]. split; [|done]. unfold uok. rewrite Ep. eauto 10.
        * destruct W as [_ [Hout W]]. destruct (W hw _ _ Hc) as (p' & Hc' & W').
          assert (Eo : outs o = []) by (by destruct o).
          exists p', c. cbn [f_mem f_log]. rewrite Eo, app_nil_r. split; [done|].
          split. { eapply cok_p, Hcok; [done|]. exists []. cbn [f_log]. rewrite app_nil_r. split; [done|]. split; [constructor|done]. }
          split; [done|]. split; [done|]. split; [|done]. unfold uok. cbn [f_p f_log]. eauto 10.
    - destruct (c_step_u s e p c) as (c' & Hc' & Hcok' & Hci' & Hcr'); [|done..|].
      { destruct e; try done; eauto. }
      exists p, c'. destruct (c_log s e Et) as (Ep & es & El & Fe & Ae).
      split; [done|]. split; [done|]. split; [done|]. split; [done|]. split.
      + unfold uok in *. rewrite Ep, El, msgs_app.
        destruct (f_p s) as [[[v|b] pr]|]; [done| |].
        * destruct Hu as (d & Hmd & W). exists d. rewrite Hmd, msgs_c by done. done.
        * destruct Hu as (d & cur & Hmd & W). exists d, cur. rewrite Hmd, msgs_c by done. done.
      + rewrite El. by apply uhist_es.
  Qed.

  Lemma uinv_reach evs s : s = frun g (fsys0 M0) evs -> isr_atomic g M0 evs ->
    (exists r, msgs cap [] None (f_log s) = Some r) -> only_isr (f_log s) -> uinv s.
  Proof.
    intros ->. induction evs as [|e evs IH] using rev_ind; intros Ha Hm Hi.
    - exists (mkP [] cap None 0 0), (mkC [] [] false 0). split; [apply coh0|]. split; [done|]. split; [done|].
      split. { intros cl r H. by apply elem_of_nil in H. }
      split; [|intros [|? ?] ? ? ? [=]]. exists [], None. done.
    - rewrite frun_app in *. cbn in *.
      destruct (log_mono (frun g (fsys0 M0) evs) e) as [es Es].
      apply uinv_step; [done|done| |].
      + intros Et. by apply (Ha evs e []).
      + apply IH.
        * intros e1 x e2 E Hx. apply (Ha e1 x (e2 ++ [e])); [|done]. by rewrite E, <- app_assoc.
        * destruct Hm as [r Hm]. rewrite Es, msgs_app in Hm. destruct (msgs cap [] None _) as [[d c]|]; [eauto|done].
        * intros n. destruct (Hi n) as [H1 H2]. rewrite Es in H1, H2. split; intros Hn; [apply H1|apply H2]; set_solver.
  Qed.

  Lemma uart_sent evs s d cur : s = frun g (fsys0 M0) evs -> isr_atomic g M0 evs ->
    msgs cap [] None (f_log s) = Some (d, cur) -> only_isr (f_log s) ->
    sent (f_log s) `prefix_of` concat d ++ default [] cur /\ uhist (f_log s).
  Proof.
    intros E Ha Hm Hi. destruct (uinv_reach evs s E Ha (ex_intro _ _ Hm) Hi) as (p & c & Hc & [Ho Hcok] & Hci & Hcr & Hu & Huh).
    split; [|done]. rewrite <- crets_sent by done. transitivity (c_ds c).
    { rewrite <- Ho. destruct (f_c s) as [[cl pr]|]; [|by rewrite Hcok].
      destruct Hcok as (l0 & l1 & _ & _ & W). destruct (fwp_J _ _ _ _ _ W) as [x ->]. by exists x. }
    transitivity (p_vs p); [apply (ch_pre _ _ _ _ Hc)|].
    unfold uok in Hu. destruct (f_p s) as [[[v|b] pr]|]; [done| |].
    - destruct Hu as (d' & Hm' & _ & W). rewrite Hm in Hm'. injection Hm' as <- ->.
      destruct (fwp_J _ _ _ _ _ W) as (x & -> & Hx). cbn. by apply prefix_app.
    - destruct Hu as (d' & cur' & Hm' & _ & W). rewrite Hm in Hm'. injection Hm' as <- <-.
      destruct cur as [b|]; cbn.
      + destruct W as (_ & _ & _ & ->). done.
      + destruct W as (_ & -> & _). by rewrite app_nil_r.
  Qed.
End thms.
