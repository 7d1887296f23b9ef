(** FifoProofs.v - the single-producer single-consumer invariant of the interrupt FIFO. *)
From Verif Require Import Base FifoModel FifoSpec.
From Coq Require Import ZifyBool ZifyNat.

Lemma fupd_same M l v : fupd M l v l = v.
Proof. unfold fupd. by rewrite decide_True. Qed.
Lemma fupd_other M l v x : x <> l -> fupd M l v x = M x.
Proof. intros H. unfold fupd. by rewrite decide_False. Qed.

Record ptok := mkP { p_vs : list Z; p_room : Z; p_st : option Z; p_state : Z; p_sent : Z }.
Record ctok := mkC { c_ds : list Z; c_out : list Z; c_av : bool; c_seen : nat }.

Section fifo.
  Context (g : fcfg) (k : Z).
  Hypothesis Hk : 0 <= k <= fc_bits g.
  Notation N := (2 ^ k).
  Definition cap : Z := Z.max 0 (N - 2).

  Record coh (M : fmem) (p : ptok) (c : ctok) : Prop := {
    ch_pre : c_ds c `prefix_of` p_vs p;
    ch_cap : Z.of_nat (length (p_vs p)) - Z.of_nat (length (c_ds c)) <= cap;
    ch_m : M Fm = N - 1;
    ch_w : M Fw = Z.of_nat (length (p_vs p)) mod N;
    ch_r : M Fr = (Z.of_nat (length (c_ds c)) - 1) mod N;
    ch_buf : forall j v, (length (c_ds c) <= S j)%nat -> p_vs p !! j = Some v -> M (Fbuf (Z.of_nat j mod N)) = v;
    ch_room : p_room p <= cap - (Z.of_nat (length (p_vs p)) - Z.of_nat (length (c_ds c)));
    ch_st : forall v, p_st p = Some v -> M (Fbuf (Z.of_nat (length (p_vs p)) mod N)) = v;
    ch_av : c_av c = true -> (length (c_ds c) < length (p_vs p))%nat;
    ch_seen : (c_seen c <= length (p_vs p))%nat;
    ch_state : M Fstate = p_state p;
    ch_sent : M Fsent = p_sent p
  }.

  Lemma fNpos : 0 < N.
  Proof. apply Z.pow_pos_nonneg; lia. Qed.

  Lemma coh_len M p c : coh M p c -> (length (c_ds c) <= length (p_vs p))%nat.
  Proof. intros []. by apply prefix_length. Qed.

  Lemma fnext x : Z.land (wrap (fc_bits g) (x mod N + 1)) (N - 1) = (x + 1) mod N.
  Proof.
    pose proof fNpos. replace (N - 1) with (Z.ones k) by (rewrite Z.ones_equiv; lia).
    unfold wrap. rewrite Z.land_ones by lia.
    assert (D : exists z, 2 ^ fc_bits g = z * N).
    { exists (2 ^ (fc_bits g - k)). rewrite <- Z.pow_add_r by lia. f_equal. lia. }
    destruct D as [z Hz]. rewrite Hz.
    assert (0 < z).
    { assert (0 < 2 ^ fc_bits g) by (apply Z.pow_pos_nonneg; lia). nia. }
    rewrite Z.mul_comm. rewrite Z.rem_mul_r by lia.
    rewrite Z.mul_comm, Z_mod_plus_full, Zmod_mod. apply Zplus_mod_idemp_l.
  Qed.

  Lemma fmod_eq a b : 0 <= a - b < N -> a mod N = b mod N -> a = b.
  Proof.
    intros H E. pose proof fNpos.
    assert (E' : (a - b) mod N = 0) by (rewrite Zminus_mod, E, Z.sub_diag; apply Zmod_0_l).
    rewrite Z.mod_small in E' by lia. lia.
  Qed.

  (** ** Steps of each side, as seen by that side *)
  Definition out_vals (o : fop) : list Z := match o with FOut v => [v] | _ => [] end.
  Definition pstep (o : fop) (tk : ptok) (Phi : Z -> ptok -> Prop) : Prop :=
    out_vals o = [] /\
    forall hw M c, coh M tk c -> exists tk', coh (fst (fexec hw o M)) tk' c /\ Phi (snd (fexec hw o M)) tk'.
  Definition cstep (o : fop) (tk : ctok) (Phi : Z -> ctok -> Prop) : Prop :=
    forall hw M p, coh M p tk -> exists tk', coh (fst (fexec hw o M)) p tk' /\
      c_out tk' = c_out tk ++ out_vals o /\ Phi (snd (fexec hw o M)) tk'.

  Fixpoint fwp {T A} (step : fop -> T -> (Z -> T -> Prop) -> Prop) (J : T -> Prop) (p : fprog A) (tk : T)
      (Q : T -> A -> Prop) : Prop :=
    J tk /\
    match p with
    | FRet a => Q tk a
    | FFuel => True
    | FOp o f => step o tk (fun v tk' => fwp step J (f v) tk' Q)
    end.

  Lemma pstep_mono o tk (P Q : Z -> ptok -> Prop) :
    (forall v t, P v t -> Q v t) -> pstep o tk P -> pstep o tk Q.
  Proof. intros H [H0 H1]. split; [done|]. intros hw M c Hc. destruct (H1 hw M c Hc) as (tk' & ? & ?). eauto. Qed.
  Lemma cstep_mono o tk (P Q : Z -> ctok -> Prop) :
    (forall v t, P v t -> Q v t) -> cstep o tk P -> cstep o tk Q.
  Proof. intros H H1 hw M p Hc. destruct (H1 hw M p Hc) as (tk' & ? & ? & ?). eauto 10. Qed.

  Lemma fwp_J {T A} step J (p : fprog A) (tk : T) Q : fwp step J p tk Q -> J tk.
  Proof. destruct p; by intros []. Qed.
  Lemma fwp_bind {T A B} (step : fop -> T -> (Z -> T -> Prop) -> Prop) J (p : fprog A) (f : A -> fprog B) tk Q :
    (forall o tk (P Q : Z -> T -> Prop), (forall v t, P v t -> Q v t) -> step o tk P -> step o tk Q) ->
    fwp step J p tk (fun t a => fwp step J (f a) t Q) -> fwp step J (fbind p f) tk Q.
  Proof.
    intros Hm. revert tk. induction p as [a| |o h IH]; intros tk; cbn [fwp fbind].
    - by intros [_ H].
    - done.
    - intros [H1 H2]. split; [done|]. eapply Hm, H2. cbn. auto.
  Qed.
  Lemma fwp_act {T A} (step : fop -> T -> (Z -> T -> Prop) -> Prop) (J : T -> Prop) o (f : Z -> fprog A) tk Q :
    (forall o tk (P Q : Z -> T -> Prop), (forall v t, P v t -> Q v t) -> step o tk P -> step o tk Q) ->
    J tk -> step o tk (fun v t => fwp step J (f v) t Q) -> fwp step J (fbind (fact o) f) tk Q.
  Proof. intros Hm HJ H. cbn [fact fbind fwp]. done. Qed.

  Lemma fwp_mono {A} (J : ctok -> Prop) (p : fprog A) tk (Q Q' : ctok -> A -> Prop) :
    (forall t a, Q t a -> Q' t a) -> fwp cstep J p tk Q -> fwp cstep J p tk Q'.
  Proof.
    intros H. revert tk. induction p as [a| |o h IH]; intros tk; cbn [fwp].
    - intros [? ?]. auto.
    - done.
    - intros [? W]. split; [done|]. eapply cstep_mono, W. cbn. auto.
  Qed.

  (** ** The producer's idiom *)
  (** Reads by the producer. *)
  Lemma pread_w tk (Phi : Z -> ptok -> Prop) :
    Phi (Z.of_nat (length (p_vs tk)) mod N) tk -> pstep (FRead Fw) tk Phi.
  Proof. intros H. split; [done|]. intros hw M c Hc. exists tk. cbn. rewrite (ch_w _ _ _ Hc). done. Qed.
  Lemma pread_m tk (Phi : Z -> ptok -> Prop) : Phi (N - 1) tk -> pstep (FRead Fm) tk Phi.
  Proof. intros H. split; [done|]. intros hw M c Hc. exists tk. cbn. rewrite (ch_m _ _ _ Hc). done. Qed.

  Ltac fev := cbn [fexec fst snd]; repeat first [rewrite fupd_same | rewrite fupd_other by done].

  Lemma fput_wp v (J : ptok -> Prop) tk (Q : ptok -> bool -> Prop) :
    (forall t, p_vs t = p_vs tk -> J t) ->
    (forall t, p_vs t = p_vs tk ++ [v] -> J t) ->
    p_st tk = None ->
    (forall t, p_vs t = p_vs tk ++ [v] -> p_room t = p_room tk - 1 -> p_st t = None ->
       p_state t = p_state tk -> p_sent t = p_sent tk -> Q t true) ->
    (p_room tk <= 0 -> Q tk false) ->
    fwp pstep J (fput g v) tk Q.
  Proof.
    intros HJ1 HJ2 Hst HQ1 HQ0. pose proof fNpos as HN.
    set (a := length (p_vs tk)).
    assert (HJ : J tk) by (apply HJ1; done).
    unfold fput. apply fwp_bind; [apply pstep_mono|]. unfold is_writable.
    apply fwp_act; [apply pstep_mono|done|]. apply pread_w.
    apply fwp_act; [apply pstep_mono|done|]. apply pread_m. fold a.
    apply fwp_act; [apply pstep_mono|done|]. rewrite fnext.
    (* the read of r decides *)
    split; [done|]. intros hw M c Hc. cbn [fexec fst snd].
    pose proof (coh_len _ _ _ Hc) as Hle. rewrite (ch_r _ _ _ Hc). fold a in Hle.
    pose proof (ch_cap _ _ _ Hc) as Hcap. fold a in Hcap. unfold cap in Hcap.
    set (b := length (c_ds c)) in *.
    destruct ((Z.of_nat a + 1) mod N =? (Z.of_nat b - 1) mod N) eqn:E.
    - (* full *)
      exists tk. split; [done|]. cbn [negb fwp]. split; [done|]. split; [done|]. apply HQ0.
      apply Z.eqb_eq in E. pose proof (ch_room _ _ _ Hc) as Hr. fold a b in Hr. unfold cap in Hr.
      destruct (decide (Z.of_nat a - Z.of_nat b = N - 2)) as [|Hne]; [lia|].
      destruct (decide (N = 1)) as [E1|N1]; [lia|].
      assert (X : Z.of_nat a + 1 = Z.of_nat b - 1) by (apply fmod_eq; [lia|done]). lia.
    - (* room *)
      assert (Hroom : 1 <= cap - (Z.of_nat a - Z.of_nat b)).
      { unfold cap. destruct (decide (N = 1)) as [E1|N1].
        { rewrite E1, !Z.mod_1_r in E. done. }
        destruct (decide (Z.of_nat a - Z.of_nat b = N - 2)) as [E2|]; [|lia].
        exfalso. apply Z.eqb_neq in E. apply E.
        replace (Z.of_nat a + 1) with (Z.of_nat b - 1 + 1 * N) by lia. apply Z_mod_plus_full. }
      exists (mkP (p_vs tk) (Z.max 1 (p_room tk)) None (p_state tk) (p_sent tk)). split.
      { destruct Hc. constructor; try done. cbn. fold a b in ch_room0 |- *. lia. }
      clear M c Hc Hle Hcap b E Hroom hw.
      cbn [negb fwp]. split; [by apply HJ1|].
      apply fwp_act; [apply pstep_mono|by apply HJ1|]. apply pread_w. cbn [p_vs]. fold a.
      apply fwp_act; [apply pstep_mono|by apply HJ1|].
      split; [done|]. intros hw M c Hc. cbn [fexec fst snd].
      exists (mkP (p_vs tk) (Z.max 1 (p_room tk)) (Some v) (p_state tk) (p_sent tk)). split.
      { pose proof (coh_len _ _ _ Hc) as Hle. destruct Hc. cbn [p_vs p_room p_st p_state p_sent] in *.
        constructor; cbn [p_vs p_room p_st p_state p_sent]; fev; try done.
        - intros j x Hj Hx. rewrite fupd_other; [by apply ch_buf0|].
          intros [= D]. unfold cap in *. apply lookup_lt_Some in Hx as Hlt. unfold a in *.
          assert (Z.of_nat a = Z.of_nat j); [|lia]. apply fmod_eq; [|done]. lia.
        - by intros x [= <-]. }
      clear M c Hc hw.
      apply fwp_bind; [apply pstep_mono|]. unfold fpush.
      apply fwp_act; [apply pstep_mono|by apply HJ1|]. apply pread_w. cbn [p_vs]. fold a.
      apply fwp_act; [apply pstep_mono|by apply HJ1|]. apply pread_m. rewrite fnext.
      apply fwp_act; [apply pstep_mono|by apply HJ1|].
      split; [done|]. intros hw M c Hc. cbn [fexec fst snd].
      exists (mkP (p_vs tk ++ [v]) (p_room tk - 1) None (p_state tk) (p_sent tk)). split.
      { pose proof (coh_len _ _ _ Hc) as Hle. destruct Hc. cbn [p_vs p_room p_st p_state p_sent] in *.
        constructor; cbn [p_vs p_room p_st p_state p_sent]; rewrite ?app_length; cbn [length]; fev; try done.
        - by apply prefix_app_r.
        - unfold a in *. lia.
        - fold a. f_equal. lia.
        - intros j x Hj Hx. rewrite fupd_other by done. rewrite lookup_app in Hx.
          destruct (p_vs tk !! j) as [y|] eqn:Ey.
          + injection Hx as <-. by apply ch_buf0.
          + apply lookup_ge_None in Ey. destruct (decide (j = length (p_vs tk))) as [->|Hne].
            * rewrite Nat.sub_diag in Hx. injection Hx as <-. by apply ch_st0.
            * rewrite lookup_ge_None_2 in Hx; [done|]. cbn. lia.
        - unfold a in *. lia.
        - intros Hav. specialize (ch_av0 Hav). lia.
        - lia. }
      cbn [fwp]. repeat (split; [by apply HJ2|]). by apply HQ1.
  Qed.

  (** ** The consumer's idiom *)
  Lemma cread_r tk (Phi : Z -> ctok -> Prop) :
    Phi ((Z.of_nat (length (c_ds tk)) - 1) mod N) tk -> cstep (FRead Fr) tk Phi.
  Proof.
    intros H hw M p Hc. exists tk. cbn. rewrite (ch_r _ _ _ Hc). split; [done|]. by rewrite app_nil_r.
  Qed.
  Lemma cread_m tk (Phi : Z -> ctok -> Prop) : Phi (N - 1) tk -> cstep (FRead Fm) tk Phi.
  Proof.
    intros H hw M p Hc. exists tk. cbn. rewrite (ch_m _ _ _ Hc). split; [done|]. by rewrite app_nil_r.
  Qed.

  Lemma prefix_snoc_lookup (l1 l2 : list Z) v :
    l1 `prefix_of` l2 -> l2 !! length l1 = Some v -> (l1 ++ [v]) `prefix_of` l2.
  Proof.
    intros [z ->] H. rewrite lookup_app_r, Nat.sub_diag in H by lia. destruct z as [|x z]; [done|].
    injection H as ->. exists z. by rewrite <- app_assoc.
  Qed.

  Lemma fget_wp (J : ctok -> Prop) tk (Q : ctok -> option Z -> Prop) :
    (forall t, c_out t = c_out tk -> c_ds t = c_ds tk \/ (exists v, c_ds t = c_ds tk ++ [v]) -> J t) ->
    ((c_seen tk <= length (c_ds tk))%nat -> Q tk None) ->
    (forall t v, c_out t = c_out tk -> c_ds t = c_ds tk ++ [v] -> c_seen t = c_seen tk -> Q t (Some v)) ->
    fwp cstep J (fget g) tk Q.
  Proof.
    intros HJ HQ0 HQ1. pose proof fNpos as HN. set (b := length (c_ds tk)).
    assert (HJ0 : forall x, J (mkC (c_ds tk) (c_out tk) x (c_seen tk))) by (intros x; apply HJ; cbn; auto).
    assert (HJ1 : forall v x, J (mkC (c_ds tk ++ [v]) (c_out tk) x (c_seen tk))) by (intros v x; apply HJ; cbn; eauto).
    assert (HJtk : J tk) by (apply HJ; auto).
    unfold fget. apply fwp_bind; [apply cstep_mono|]. unfold is_readable.
    apply fwp_act; [apply cstep_mono|done|]. apply cread_r.
    apply fwp_act; [apply cstep_mono|done|]. apply cread_m. fold b. rewrite fnext.
    replace (Z.of_nat b - 1 + 1) with (Z.of_nat b) by lia.
    apply fwp_act; [apply cstep_mono|done|].
    intros hw M p Hc. cbn [fexec fst snd out_vals]. rewrite app_nil_r. rewrite (ch_w _ _ _ Hc).
    pose proof (coh_len _ _ _ Hc) as Hle. fold b in Hle.
    set (a := length (p_vs p)) in *.
    destruct (Z.of_nat b mod N =? Z.of_nat a mod N) eqn:E.
    - assert (b = a).
      { apply Z.eqb_eq in E. apply Nat2Z.inj. symmetry. apply fmod_eq; [|done].
        pose proof (ch_cap _ _ _ Hc) as Hcap. fold a b in Hcap. unfold cap in Hcap. lia. }
      pose proof (ch_seen _ _ _ Hc) as Hs. fold a in Hs.
      exists tk. split; [done|]. split; [done|]. cbn [negb fwp]. split; [done|]. split; [done|]. apply HQ0. fold b. lia.
    - assert (b < a)%nat.
      { destruct (decide (b = a)) as [->|]; [|lia]. by rewrite Z.eqb_refl in E. }
      exists (mkC (c_ds tk) (c_out tk) true (c_seen tk)). split.
      { destruct Hc. by constructor. }
      split; [done|]. clear M p Hc Hle a E H hw. cbn [negb fwp].
      split; [done|].
      apply fwp_bind; [apply cstep_mono|]. unfold fpop.
      apply fwp_act; [apply cstep_mono|done|]. apply cread_r. cbn [c_ds]. fold b.
      apply fwp_act; [apply cstep_mono|done|]. apply cread_m. rewrite fnext.
      replace (Z.of_nat b - 1 + 1) with (Z.of_nat b) by lia.
      apply fwp_act; [apply cstep_mono|done|].
      intros hw M p Hc. cbn [fexec fst snd out_vals]. rewrite app_nil_r.
      pose proof (ch_av _ _ _ Hc eq_refl) as Hav. cbn [c_ds] in Hav. fold b in Hav.
      destruct (lookup_lt_is_Some_2 (p_vs p) b) as [v Hv]; [done|].
      exists (mkC (c_ds tk ++ [v]) (c_out tk) false (c_seen tk)). split.
      { destruct Hc. cbn [c_ds c_out c_av] in *.
        constructor; cbn [c_ds c_out c_av]; rewrite ?app_length; cbn [length]; fev; try done.
        - by apply prefix_snoc_lookup.
        - lia.
        - fold b. f_equal. lia.
        - intros j x Hj Hx. rewrite fupd_other by done. apply ch_buf0; [lia|done].
        - lia. }
      split; [done|]. clear M p Hc Hav Hv hw. cbn [fwp]. split; [done|].
      apply fwp_act; [apply cstep_mono|done|]. apply cread_r. cbn [c_ds].
      apply fwp_act; [apply cstep_mono|done|].
      intros hw M p Hc. cbn [fexec fst snd out_vals]. rewrite app_nil_r.
      exists (mkC (c_ds tk ++ [v]) (c_out tk) false (c_seen tk)). split; [done|]. split; [done|].
      assert (X : M (Fbuf ((Z.of_nat (length (c_ds tk ++ [v])) - 1) mod N)) = v).
      { pose proof (ch_pre _ _ _ Hc) as [z Hz]. cbn [c_ds] in Hz.
        replace (Z.of_nat (length (c_ds tk ++ [v])) - 1) with (Z.of_nat b) by (rewrite app_length; cbn [length]; unfold b; lia).
        apply (ch_buf _ _ _ Hc).
        - cbn [c_ds]. rewrite app_length. cbn [length]. unfold b. lia.
        - rewrite Hz, <- app_assoc. unfold b. rewrite lookup_app_r, Nat.sub_diag by lia. done. }
      rewrite X. cbn [fwp]. split; [done|]. by apply HQ1.
  Qed.

  (** ** The consumer's calls *)
  Definition cJ (tk : ctok) : Prop := exists x, c_ds tk = c_out tk ++ x.
  (** [n]: number of values known to be accepted when the call began; [o0]: what was delivered then. *)
  Definition cpost (cl : ccall) (n : nat) (o0 : list Z) (tk : ctok) (r : list Z) : Prop :=
    c_ds tk = c_out tk ++ r /\
    match cl with
    | CGet => c_out tk = o0 /\ (length r <= 1 /\ Nat.min 1 (n - length o0) <= length r)%nat
    | CRead k => c_out tk = o0 /\ (length r <= k /\ Nat.min k (n - length o0) <= length r)%nat
    | CIsr => r = []
    end.

  Lemma read_loop_wp n tk (Q : ctok -> list Z -> Prop) :
    cJ tk ->
    (forall t r, c_out t = c_out tk -> c_ds t = c_ds tk ++ r -> (length r <= n)%nat ->
       (Nat.min n (c_seen tk - length (c_ds tk)) <= length r)%nat -> Q t r) ->
    fwp cstep cJ (read_loop g n) tk Q.
  Proof.
    revert tk Q. induction n as [|n IH]; intros tk Q [x Hx] HQ; cbn [read_loop].
    - cbn. split; [by exists x|]. apply HQ; [done|by rewrite app_nil_r|cbn; lia|cbn; lia].
    - apply fwp_bind; [apply cstep_mono|]. apply fget_wp.
      + intros t Ho [Hd|[v Hd]]; [exists x|exists (x ++ [v])]; rewrite Hd, Hx, Ho, <- ?app_assoc; done.
      + intros Hs. cbn. split; [by exists x|]. apply HQ; [done|by rewrite app_nil_r|cbn [length]; lia|lia].
      + intros t v Ho Hd Hs. apply fwp_bind; [apply cstep_mono|]. apply IH.
        * exists (x ++ [v]). by rewrite Hd, Hx, Ho, <- app_assoc.
        * intros t' r Ho' Hd' Hm' Hl'. cbn. split; [exists (x ++ v :: r); rewrite Hd', Hd, Hx, Ho', Ho, <- !app_assoc; done|].
          apply HQ; [congruence| | |].
          -- rewrite Hd', Hd, <- app_assoc. done.
          -- cbn [length]. lia.
          -- rewrite Hd, Hs, app_length in Hl'. cbn [length] in *. lia.
  Qed.

  Lemma udre_wp fuel tk (Q : ctok -> unit -> Prop) :
    c_ds tk = c_out tk -> (forall t, c_ds t = c_out t -> Q t tt) ->
    fwp cstep cJ (udre_loop g fuel) tk Q.
  Proof.
    revert tk. induction fuel as [|n IH]; intros tk Hx HQ; cbn [udre_loop].
    - cbn. split; [|done]. exists []. by rewrite app_nil_r.
    - assert (HJ : forall t, c_ds t = c_out t -> cJ t) by (intros t E; exists []; by rewrite app_nil_r).
      apply fwp_bind; [apply cstep_mono|]. apply fget_wp.
      + intros t Ho [Hd|[v Hd]]; [exists []|exists [v]]; rewrite Hd, Hx, Ho, ?app_nil_r; done.
      + intros _. apply fwp_act; [apply cstep_mono|by apply HJ|].
        intros hw M p Hc. cbn [fexec fst snd out_vals]. rewrite app_nil_r. exists tk. split; [done|]. split; [done|].
        apply fwp_act; [apply cstep_mono|by apply HJ|].
        clear M p Hc hw. intros hw M p Hc. cbn [fexec fst snd out_vals]. rewrite app_nil_r. exists tk. split.
        { destruct Hc. constructor; fev; try done; intros; rewrite fupd_other by done; auto. }
        split; [done|]. cbn. auto.
      + intros t v Ho Hd _.
        assert (HJt : cJ t) by (exists [v]; by rewrite Hd, Ho, Hx).
        apply fwp_act; [apply cstep_mono|done|].
        intros hw M p Hc. cbn [fexec fst snd out_vals].
        set (t' := mkC (c_ds t) (c_out t ++ [v]) (c_av t) (c_seen t)).
        assert (E' : c_ds t' = c_out t') by (cbn; by rewrite Hd, Ho, Hx).
        exists t'. split; [destruct Hc; by constructor|]. split; [done|].
        apply fwp_act; [apply cstep_mono|by apply HJ|].
        clear M p Hc hw. intros hw M p Hc. cbn [fexec fst snd out_vals]. rewrite app_nil_r. exists t'.
        split; [done|]. split; [done|]. destruct (negb (hw =? 0)); [by apply IH|]. cbn. auto.
  Qed.

  Lemma cbody_wp cl tk : c_ds tk = c_out tk -> fwp cstep cJ (cbody g cl) tk (cpost cl (c_seen tk) (c_out tk)).
  Proof.
    intros Hx. assert (HJ : cJ tk) by (exists []; by rewrite app_nil_r).
    destruct cl as [|n|]; cbn [cbody].
    - apply fwp_bind; [apply cstep_mono|]. apply fget_wp.
      + intros t Ho [Hd|[v Hd]]; [exists []|exists [v]]; rewrite Hd, Hx, Ho, ?app_nil_r; done.
      + intros Hs. cbn [fwp]. split; [done|]. unfold cpost. cbn [option_list length]. rewrite app_nil_r.
        rewrite Hx in Hs. split; [done|]. split; [done|]. change (option_list None) with (@nil Z). cbn [length]. lia.
      + intros t v Ho Hd Hs. cbn [fwp]. split; [exists [v]; congruence|]. unfold cpost. change (option_list (Some v)) with [v].
        split; [congruence|]. split; [done|]. cbn [length]. lia.
    - apply read_loop_wp; [done|]. intros t r Ho Hd Hm Hl. unfold cpost. split; [congruence|]. split; [done|].
      rewrite Hx in Hl. lia.
    - apply fwp_bind; [apply cstep_mono|]. unfold udre_isr. apply udre_wp; [done|].
      intros t E. cbn [fwp]. split; [exists []; by rewrite app_nil_r|]. split; [by rewrite app_nil_r|done].
  Qed.

  (** ** The producer's calls *)
  Definition pJ (a : list Z) (v : Z) (tk : ptok) : Prop := p_vs tk = a \/ p_vs tk = a ++ [v].
  Definition ppost (a : list Z) (v : Z) (room : Z) (tk : ptok) (r : Z) : Prop :=
    p_st tk = None /\
    ((r = 1 /\ p_vs tk = a ++ [v]) \/ (r = 0 /\ p_vs tk = a /\ room <= 0)).

  Lemma pput_wp v tk : p_st tk = None ->
    fwp pstep (pJ (p_vs tk) v) (pbody g (PPut v)) tk (ppost (p_vs tk) v (p_room tk)).
  Proof.
    intros Hst. cbn [pbody]. apply fwp_bind; [apply pstep_mono|]. apply fput_wp; [by left|by right|done| |].
    - intros t Hv Hr Hs _ _. cbn [fwp]. split; [by right|]. split; [done|]. by left.
    - intros Hr. cbn [fwp]. split; [by left|]. split; [done|]. by right.
  Qed.

  Lemma pwrite_cell l v tk tk' (Phi : Z -> ptok -> Prop) :
    p_vs tk' = p_vs tk -> p_room tk' = p_room tk -> p_st tk' = p_st tk ->
    (l = Fstate /\ p_state tk' = v /\ p_sent tk' = p_sent tk \/
     l = Fsent /\ p_sent tk' = v /\ p_state tk' = p_state tk \/
     l = Fudrie /\ p_state tk' = p_state tk /\ p_sent tk' = p_sent tk) ->
    Phi 0 tk' -> pstep (FWrite l v) tk Phi.
  Proof.
    intros E1 E2 E3 El HP. split; [done|]. intros hw M c Hc. exists tk'. cbn [fexec fst snd]. split; [|done].
    assert (Hl : l <> Fm /\ l <> Fw /\ l <> Fr /\ (forall i, l <> Fbuf i)).
    { destruct El as [(-> & _)|[(-> & _)|(-> & _)]]; repeat split; by intros. }
    destruct Hl as (L1 & L2 & L3 & L4). destruct Hc.
    constructor; rewrite ?E1, ?E2, ?E3; rewrite ?(fupd_other M l v Fm), ?(fupd_other M l v Fw), ?(fupd_other M l v Fr) by done; try done.
    - intros j x Hj Hx. rewrite fupd_other by (intros ?; by apply (L4 (Z.of_nat j mod N))). by apply ch_buf0.
    - intros x Hx. rewrite fupd_other by (intros ?; by eapply L4). by apply ch_st0.
    - destruct El as [(-> & E4 & E5)|[(-> & E4 & E5)|(-> & E4 & E5)]]; fev; congruence.
    - destruct El as [(-> & E4 & E5)|[(-> & E4 & E5)|(-> & E4 & E5)]]; fev; congruence.
  Qed.

  Lemma pread_any l tk (Phi : Z -> ptok -> Prop) : (forall v, Phi v tk) -> pstep (FRead l) tk Phi.
  Proof. intros H. split; [done|]. intros hw M c Hc. exists tk. cbn. done. Qed.
  Lemma pread_state tk (Phi : Z -> ptok -> Prop) : Phi (p_state tk) tk -> pstep (FRead Fstate) tk Phi.
  Proof. intros H. split; [done|]. intros hw M c Hc. exists tk. cbn. by rewrite (ch_state _ _ _ Hc). Qed.
  Lemma pread_sent tk (Phi : Z -> ptok -> Prop) : Phi (p_sent tk) tk -> pstep (FRead Fsent) tk Phi.
  Proof. intros H. split; [done|]. intros hw M c Hc. exists tk. cbn. by rewrite (ch_sent _ _ _ Hc). Qed.

  Definition wJ (a b : list Z) (tk : ptok) : Prop := exists x, p_vs tk = a ++ x /\ x `prefix_of` b.
  Definition wpost (a b : list Z) (tk : ptok) (r : Z) : Prop :=
    p_st tk = None /\ p_vs tk = a ++ b /\
    ((r = - EAGAIN /\ p_state tk = 1 /\ p_sent tk = Z.of_nat (length b)) \/
     (r = Z.of_nat (length b) /\ p_state tk = 0 /\ p_room tk = cap)).

  Lemma start_loop_wp a b0 bytes n tk (Q : ptok -> Z -> Prop) :
    p_st tk = None -> p_vs tk = a ++ b0 -> Z.of_nat (length bytes) <= p_room tk ->
    (forall t, p_st t = None -> p_vs t = a ++ b0 ++ bytes -> Q t (n + Z.of_nat (length bytes))) ->
    fwp pstep (wJ a (b0 ++ bytes)) (start_loop g bytes n) tk Q.
  Proof.
    revert b0 n tk. induction bytes as [|x bytes IH]; intros b0 n tk Hst Hv Hr HQ; cbn [start_loop].
    - cbn [fwp]. split; [exists b0; by rewrite app_nil_r|].
      replace n with (n + Z.of_nat (@length Z [])) by (cbn; lia). apply HQ; [done|]. by rewrite app_nil_r.
    - apply fwp_bind; [apply pstep_mono|]. cbn [length] in Hr.
      replace (b0 ++ x :: bytes) with ((b0 ++ [x]) ++ bytes) by (by rewrite <- app_assoc).
      apply fput_wp; [| |done| |].
      + intros t E. exists b0. split; [congruence|]. rewrite <- app_assoc. by apply prefix_app_r.
      + intros t E. exists (b0 ++ [x]). split; [rewrite E, Hv; by rewrite <- app_assoc|]. by apply prefix_app_r.
      + intros t E Er Es _ _. apply IH; [done|rewrite E, Hv; by rewrite <- app_assoc|lia|].
        intros t' Ht' Hv'. replace (n + 1 + Z.of_nat (length bytes)) with (n + Z.of_nat (length (x :: bytes))) by (cbn [length]; lia).
        apply HQ; [done|]. rewrite Hv'. by rewrite <- app_assoc.
      + intros. lia.
  Qed.

  Lemma pwrite_start_wp a b tk :
    b <> [] -> Z.of_nat (length b) <= cap -> p_st tk = None -> p_vs tk = a -> p_room tk = cap -> p_state tk = 0 ->
    fwp pstep (wJ a b) (pbody g (PWrite b)) tk (wpost a b).
  Proof.
    intros Hb Hn Hst Hv Hr Hs. cbn [pbody]. unfold uart_write. rewrite bool_decide_eq_false_2 by done.
    assert (HJ : wJ a b tk) by (exists []; rewrite app_nil_r; split; [done|apply prefix_nil]).
    apply fwp_act; [apply pstep_mono|done|]. apply pread_state. rewrite Hs. cbn [Z.eqb].
    unfold write_start. apply fwp_bind; [apply pstep_mono|].
    apply (start_loop_wp a [] b); [done|by rewrite app_nil_r|lia|].
    intros t Ht Hvt. cbn [app] in Hvt.
    destruct (0 + Z.of_nat (length b) =? 0) eqn:E; [destruct b; [done|cbn in E; lia]|].
    assert (HJ' : forall t', p_vs t' = a ++ b -> wJ a b t') by (intros t' ?; by exists b).
    apply fwp_act; [apply pstep_mono|by apply HJ'|]. apply pread_any. intros _.
    apply fwp_act; [apply pstep_mono|by apply HJ'|]. apply (pwrite_cell _ _ _ t); [done..|by auto 10|].
    apply fwp_act; [apply pstep_mono|by apply HJ'|].
    apply (pwrite_cell _ _ _ (mkP (p_vs t) (p_room t) (p_st t) 1 (p_sent t))); [done..|by auto 10|].
    apply fwp_act; [apply pstep_mono|by apply HJ'|].
    apply (pwrite_cell _ _ _ (mkP (p_vs t) (p_room t) (p_st t) 1 (Z.of_nat (length b)))); [done..|by auto 10|].
    cbn [fwp]. split; [by apply HJ'|]. split; [done|]. split; [done|]. by left.
  Qed.

  Lemma pwrite_xfer_wp a b tk :
    b <> [] -> p_st tk = None -> p_vs tk = a ++ b -> p_state tk = 1 -> p_sent tk = Z.of_nat (length b) ->
    fwp pstep (wJ a b) (pbody g (PWrite b)) tk (wpost a b).
  Proof.
    intros Hb Hst Hv Hs Hn. cbn [pbody]. unfold uart_write. rewrite bool_decide_eq_false_2 by done.
    pose proof fNpos as HN.
    assert (HJ : forall t', p_vs t' = a ++ b -> wJ a b t') by (intros t' ?; by exists b).
    apply fwp_act; [apply pstep_mono|by apply HJ|]. apply pread_state. rewrite Hs. cbn [Z.eqb].
    unfold write_xfer. apply fwp_bind; [apply pstep_mono|]. unfold is_readable.
    apply fwp_act; [apply pstep_mono|by apply HJ|].
    split; [done|]. intros hw M c Hc. cbn [fexec fst snd]. rewrite (ch_r _ _ _ Hc).
    pose proof (coh_len _ _ _ Hc) as Hle. pose proof (ch_cap _ _ _ Hc) as Hcap. unfold cap in Hcap.
    destruct (decide (length (c_ds c) = length (p_vs tk))) as [E|E].
    - exists (mkP (p_vs tk) cap (p_st tk) (p_state tk) (p_sent tk)). split.
      { destruct Hc. constructor; try done. cbn. lia. }
      rewrite E. clear M c Hc Hle Hcap E hw.
      apply fwp_act; [apply pstep_mono|by apply HJ|]. apply pread_m. rewrite fnext.
      replace (Z.of_nat (length (p_vs tk)) - 1 + 1) with (Z.of_nat (length (p_vs tk))) by lia.
      apply fwp_act; [apply pstep_mono|by apply HJ|]. apply pread_w. cbn [p_vs]. rewrite Z.eqb_refl.
      cbn [negb fwp]. split; [by apply HJ|].
      apply fwp_act; [apply pstep_mono|by apply HJ|].
      apply (pwrite_cell _ _ _ (mkP (p_vs tk) cap (p_st tk) 0 (p_sent tk))); [done..|by auto 10|].
      apply fwp_act; [apply pstep_mono|by apply HJ|]. apply pread_sent. cbn [fwp p_sent].
      split; [by apply HJ|]. split; [done|]. split; [done|]. right. done.
    - exists tk. split; [done|].
      assert (Hne : (Z.of_nat (length (c_ds c)) - 1 + 1) mod N <> Z.of_nat (length (p_vs tk)) mod N).
      { intros D. apply E. apply Nat2Z.inj. symmetry. apply fmod_eq; [lia|].
        rewrite <- D. f_equal. lia. }
      apply fwp_act; [apply pstep_mono|by apply HJ|]. apply pread_m. rewrite fnext.
      apply fwp_act; [apply pstep_mono|by apply HJ|]. apply pread_w.
      rewrite (proj2 (Z.eqb_neq _ _)) by done. cbn [negb fwp]. split; [by apply HJ|]. split; [by apply HJ|].
      split; [done|]. split; [done|]. by left.
  Qed.
End fifo.
