(** NuClockProofs.v - lemmas for the Nuvoton part of C134 and C135. *)
From Verif Require Import Base ClockModel ClockSpec ClockProofs SiuClockProofs NuClockModel NuClockSpec.

Lemma nu_init_inv ml st s0 s : nu_init ml st s0 = KOk s -> nu_makes ml st /\ exists s1 s2, nu_fhirc ml (ws_fhirc st) s0 = KOk s1 /\ nu_ckswt (ws_fosc st) (ws_feclk st) s1 = KOk s2 /\
  s = mkNu (w_trim0 s2) (w_trim1 s2) (w_pcon s2) (w_cken s2) (w_ckswt s2) (kf (ws_div st / 2) 8) (wc_fosc s2 / ws_div st) (wc_fosc s2) (ws_feclk st) (wc_fhirc s2).
Proof.
  intros H. unfold nu_init in H. destruct st as [fo fh hz d]. cbn [ws_fosc ws_fhirc ws_feclk ws_div] in *.
  destruct (Z.ltb_spec 0 d) as [D|D]; cbn [negb] in H; [|discriminate H].
  destruct ((d =? 1) || (d mod 2 =? 0)) eqn:E; cbn [negb] in H; [|discriminate H].
  destruct (Z.leb_spec d 510) as [D'|D']; cbn [negb] in H; [|discriminate H].
  destruct ((0 <=? fo) && (fo <? 3)) eqn:F; cbn [negb] in H; [|discriminate H]. apply andb_true_iff in F as [F F']. apply Z.leb_le in F. apply Z.ltb_lt in F'.
  destruct (nu_fhirc ml fh s0) as [s1| |] eqn:A; try discriminate H. destruct (nu_ckswt fo hz s1) as [s2| |] eqn:B; try discriminate H.
  destruct s2. injection H as <-. cbn. split; [|exists s1; eexists; split; [reflexivity|]; split; [exact B|reflexivity]].
  unfold nu_makes. cbn. split; [lia|]. split; [|split].
  - unfold nu_fhirc in A. destruct (Z.leb_spec 0 fh); cbn [negb andb] in A; [|discriminate A]. destruct (Z.ltb_spec fh (if ml then 3 else 2)); cbn [negb] in A; [|discriminate A].
    destruct ml; lia.
  - intros ->. unfold nu_ckswt in B. destruct s1. cbn in B. destruct (0 <? hz) eqn:P; [apply Z.ltb_lt in P; lia|discriminate B].
  - apply orb_true_iff in E as [E|E]; apply Z.eqb_eq in E; [left; exact E|right]. exists (d / 2). pose proof (Z.div_mod d 2 ltac:(lia)). lia.
Qed.

Lemma nu_accepts ml st s0 : (exists s, nu_init ml st s0 = KOk s) <-> nu_makes ml st.
Proof.
  split; [intros [s H]; exact (proj1 (nu_init_inv ml st s0 s H))|]. destruct st as [fo fh hz d]. unfold nu_makes, nu_init. cbn [ws_fosc ws_fhirc ws_feclk ws_div]. intros (F & H & P & D).
  assert (D1 : 0 < d <= 510) by (destruct D as [->|(n & N & ->)]; lia).
  assert (D2 : (d =? 1) || (d mod 2 =? 0) = true).
  { destruct D as [->|(n & N & ->)]; [reflexivity|]. rewrite Z.mul_comm, Z.mod_mul by lia. apply orb_true_r. }
  destruct (Z.ltb_spec 0 d); [|lia]. cbn [negb]. rewrite D2. cbn [negb]. destruct (Z.leb_spec d 510); [|lia]. cbn [negb].
  destruct (Z.leb_spec 0 fo); [|lia]. destruct (Z.ltb_spec fo 3); [|lia]. cbn [negb andb].
  assert (A : exists s1, nu_fhirc ml fh s0 = KOk s1).
  { unfold nu_fhirc. destruct (Z.leb_spec 0 fh); [|lia]. cbn [andb]. destruct (Z.ltb_spec fh (if ml then 3 else 2)); [|destruct ml; lia]. cbn [negb]. destruct s0.
    destruct (fh =? 0); [eauto|]. destruct (fh =? 1); eauto. }
  destruct A as [s1 ->]. unfold nu_ckswt. destruct s1. destruct (Z.eqb_spec fo 0); [eauto|]. destruct (Z.eqb_spec fo 1); [|eauto].
  destruct (Z.ltb_spec 0 hz); [|specialize (P e); lia]. cbn [negb]. eauto.
Qed.

Lemma truthful_self f : truthful f (f, 1).
Proof. unfold truthful. cbn. lia. Qed.

Lemma nu_div d : 0 < d -> d = 1 \/ (exists n, 1 <= n <= 255 /\ d = 2 * n) -> (if kf (d / 2) 8 =? 0 then 1 else 2 * kf (d / 2) 8) = d.
Proof.
  intros _ [->|(n & N & ->)]; [reflexivity|]. rewrite (Z.mul_comm 2 n), Z.div_mul by lia. unfold kf. rewrite Z.mod_small by lia.
  destruct (Z.eqb_spec n 0); lia.
Qed.

Lemma nu_ok ml factory st s0 s : nu_reset factory s0 -> ws_fhirc st <> 1 -> nu_init ml st s0 = KOk s ->
  forall id, (id = NFhirc -> ws_fosc st <> 1) -> (id = NFeclk -> ws_fosc st = 1 \/ ws_feclk st = 0) ->
  exists q, nu_hw factory (ws_feclk st) s id = Some q /\ truthful (nu_get s id) q.
Proof.
  intros (T & R0 & R1 & C) N1 H id I1 I2. apply nu_init_inv in H as ((Fo & Fh & Pz & D) & s1 & s2 & A & B & ->).
  destruct st as [fo fh hz d]. cbn [ws_fosc ws_fhirc ws_feclk ws_div] in *. destruct s0 as [t0 t1 pc en sw dv a b c e]. cbn in R0, R1, C. subst t0 t1 en.
  assert (P0 : 0 < d) by (destruct D as [->|(n & N & ->)]; lia). pose proof (nu_div d P0 D) as Dv.
  assert (M2 : 0 <= factory mod 2 < 2) by (apply Z.mod_pos_bound; lia).
  assert (E1 : nu_fhirc ml fh (mkNu (factory / 2) (factory mod 2) pc 32 sw dv a b c e) = if fh =? 0 then KOk (mkNu (factory / 2) (factory mod 2) pc 32 sw dv a b c 16000000)
     else KOk (mkNu (factory / 2) (Z.lor (factory mod 2) 16) pc 32 sw dv a b c 24000000)).
  { unfold nu_fhirc. destruct (Z.leb_spec 0 fh); [|lia]. destruct (Z.ltb_spec fh (if ml then 3 else 2)); [|destruct ml; lia]. cbn [andb negb].
    destruct (Z.eqb_spec fh 0); [reflexivity|]. destruct (Z.eqb_spec fh 1); [lia|reflexivity]. }
  rewrite E1 in A. clear E1.
  assert (S1 : exists t1 f, s1 = mkNu (factory / 2) t1 pc 32 sw dv a b c f /\ (factory / 2 * 2 + t1 mod 2 =? factory) = true /\ f = if t1 / 16 mod 2 =? 1 then 24000000 else 16000000).
  { pose proof (Z.div_mod factory 2 ltac:(lia)). destruct (Z.eqb_spec fh 0); injection A as <-.
    - eexists. eexists. split; [reflexivity|]. split; [apply Z.eqb_eq; rewrite Z.mod_mod by lia; lia|]. rewrite (Z.div_small (factory mod 2) 16) by lia. reflexivity.
    - eexists. eexists. split; [reflexivity|]. assert (V : factory mod 2 = 0 \/ factory mod 2 = 1) by lia. split.
      + apply Z.eqb_eq. clear - H V; generalize dependent (factory mod 2); intros m ? [-> | ->]; [change (Z.lor 0 16 mod 2) with 0|change (Z.lor 1 16 mod 2) with 1]; lia.
      + destruct V as [V|V]; rewrite V; reflexivity. }
  destruct S1 as (t1 & f & -> & Tr & Ef). unfold nu_ckswt in B.
  destruct (Z.eqb_spec fo 0) as [->|F0].
  - injection B as <-. destruct id; cbn -[Z.div Z.modulo kf Z.mul Z.add] in *; unfold nu_hw, nu_hw_hirc, nu_hw_eclk, nu_trim, nu_get; cbn [w_trim0 w_trim1 w_cken w_ckswt w_ckdiv wc_fsys wc_fosc wc_feclk wc_fhirc].
    + change (nu_osc 0 / 2 mod 4 =? 0) with true. change (32 / 32 mod 2 =? 0) with false. cbv iota. rewrite Tr. cbv iota. rewrite <- Ef, Dv. eexists. split; [reflexivity|].
      apply truthful_hdiv; cbn; [lia|lia|apply truthful_self].
    + change (nu_osc 0 / 2 mod 4 =? 0) with true. change (32 / 32 mod 2 =? 0) with false. cbv iota. rewrite Tr. cbv iota. rewrite <- Ef. eexists. split; [reflexivity|]. apply truthful_self.
    + change (32 / 64 mod 4 =? 3) with false. cbv iota. eexists. split; [reflexivity|]. destruct (I2 eq_refl) as [X|X]; [discriminate X|]. rewrite X. apply truthful_self.
    + change (32 / 32 mod 2 =? 0) with false. cbv iota. rewrite Tr. cbv iota. rewrite <- Ef. eexists. split; [reflexivity|]. apply truthful_self.
    + eexists. split; [reflexivity|]. apply truthful_self.
  - destruct (Z.eqb_spec fo 1) as [->|F1].
    + specialize (Pz eq_refl). destruct (Z.ltb_spec 0 hz); [|lia]. cbn [negb] in B. injection B as <-.
      destruct id; unfold nu_hw, nu_hw_hirc, nu_hw_eclk, nu_trim, nu_get; cbn [w_trim0 w_trim1 w_cken w_ckswt w_ckdiv wc_fsys wc_fosc wc_feclk wc_fhirc].
      * change (nu_osc 1 / 2 mod 4 =? 0) with false. change (nu_osc 1 / 2 mod 4 =? 1) with true. change (192 / 64 mod 4 =? 3) with true. cbv iota. rewrite Dv. eexists. split; [reflexivity|].
        apply truthful_hdiv; cbn; [lia|lia|apply truthful_self].
      * change (nu_osc 1 / 2 mod 4 =? 0) with false. change (nu_osc 1 / 2 mod 4 =? 1) with true. change (192 / 64 mod 4 =? 3) with true. cbv iota. eexists. split; [reflexivity|]. apply truthful_self.
      * change (192 / 64 mod 4 =? 3) with true. cbv iota. eexists. split; [reflexivity|]. apply truthful_self.
      * destruct (I1 eq_refl eq_refl).
      * eexists. split; [reflexivity|]. apply truthful_self.
    + injection B as <-.
      destruct id; unfold nu_hw, nu_hw_hirc, nu_hw_eclk, nu_trim, nu_get; cbn [w_trim0 w_trim1 w_cken w_ckswt w_ckdiv wc_fsys wc_fosc wc_feclk wc_fhirc].
      * change (nu_osc 2 / 2 mod 4 =? 0) with false. change (nu_osc 2 / 2 mod 4 =? 1) with false. cbv iota. rewrite Dv. eexists. split; [reflexivity|].
        apply truthful_hdiv; cbn; [lia|lia|apply truthful_self].
      * change (nu_osc 2 / 2 mod 4 =? 0) with false. change (nu_osc 2 / 2 mod 4 =? 1) with false. cbv iota. eexists. split; [reflexivity|]. apply truthful_self.
      * change (32 / 64 mod 4 =? 3) with false. cbv iota. eexists. split; [reflexivity|]. destruct (I2 eq_refl) as [X|X]; [congruence|]. rewrite X. apply truthful_self.
      * change (32 / 32 mod 2 =? 0) with false. cbv iota. rewrite Tr. cbv iota. rewrite <- Ef. eexists. split; [reflexivity|]. apply truthful_self.
      * eexists. split; [reflexivity|]. apply truthful_self.
Qed.

Lemma nu_trim_wrong ml factory st s0 s : nu_reset factory s0 -> ws_fhirc st = 1 -> nu_init ml st s0 = KOk s ->
  nu_trim s <> factory - 15 /\ 496 <= nu_trim s /\ factory - 1 <= nu_trim s /\ nu_get s NFhirc = 16600000.
Proof.
  intros (T & R0 & R1 & C) N1 H. apply nu_init_inv in H as ((Fo & Fh & Pz & D) & s1 & s2 & A & B & ->).
  destruct st as [fo fh hz d]. cbn [ws_fosc ws_fhirc ws_feclk ws_div] in *. subst fh. destruct s0 as [t0 t1 pc en sw dv a b c e]. cbn in R0, R1, C. subst t0 t1 en.
  assert (A' : s1 = mkNu (nu_rctrim (mkNu (factory / 2) (factory mod 2) pc 32 sw dv a b c e) / 2 mod 2 ^ 8) (nu_rctrim (mkNu (factory / 2) (factory mod 2) pc 32 sw dv a b c e) mod 2) (Z.ldiff pc 1) 32 sw dv a b c 16600000).
  { unfold nu_fhirc in A. destruct ml; cbn -[Z.div Z.modulo nu_rctrim Z.ldiff] in A; injection A as <-; reflexivity. }
  clear A. subst s1. unfold nu_rctrim in B. cbn [w_trim0 w_trim1] in B. rewrite Z.mod_mod in B by lia.
  assert (G : forall r, r = Z.lor (factory / 2 * 2) ((factory mod 2 - 15) mod 2 ^ 16) -> let w := r / 2 mod 2 ^ 8 * 2 + r mod 2 mod 2 in w <> factory - 15 /\ 496 <= w /\ factory - 1 <= w).
  { intros r ->. cbv zeta.
    assert (K : forallb (fun n => let f := Z.of_nat n in let r := Z.lor (f / 2 * 2) ((f mod 2 - 15) mod 2 ^ 16) in let w := r / 2 mod 2 ^ 8 * 2 + r mod 2 mod 2 in
       negb (w =? f - 15) && (496 <=? w) && (f - 1 <=? w)) (seq 0 512) = true) by (vm_compute; reflexivity).
    rewrite forallb_forall in K. specialize (K (Z.to_nat factory)). cbv zeta in K. rewrite Z2Nat.id in K by lia.
    assert (I : In (Z.to_nat factory) (seq 0 512)) by (apply in_seq; lia). specialize (K I). apply andb_true_iff in K as [K K3]. apply andb_true_iff in K as [K1 K2].
    apply negb_true_iff, Z.eqb_neq in K1. apply Z.leb_le in K2, K3. auto. }
  specialize (G _ eq_refl). cbv zeta in G. unfold nu_trim, nu_get, nu_ckswt in *.
  destruct (Z.eqb_spec fo 0); [injection B as <-; cbn [w_trim0 w_trim1 wc_fhirc]; tauto|]. destruct (Z.eqb_spec fo 1); [|injection B as <-; cbn [w_trim0 w_trim1 wc_fhirc]; tauto].
  destruct (negb (0 <? hz)); [discriminate B|]. injection B as <-; cbn [w_trim0 w_trim1 wc_fhirc]; tauto.
Qed.

Lemma nu_pof ml st s0 s : nu_init ml st s0 = KOk s -> Z.testbit (w_pcon s) 4 = Z.testbit (w_pcon s0) 4.
Proof.
  intros H. apply nu_init_inv in H as (_ & s1 & s2 & A & B & ->). cbn [w_pcon].
  assert (E1 : Z.testbit (w_pcon s1) 4 = Z.testbit (w_pcon s0) 4).
  { unfold nu_fhirc in A. destruct (negb _); [discriminate A|]. destruct s0 as [q0 q1 q2 q3 q4 q5 q6 q7 q8 q9]. destruct (_ =? 0); [injection A as <-; reflexivity|]. destruct (_ =? 1); injection A as <-; cbn [w_pcon]; [|reflexivity].
    rewrite Z.ldiff_spec. change (Z.testbit 1 4) with false. apply andb_true_r. }
  rewrite <- E1. unfold nu_ckswt in B. destruct s1 as [q0 q1 q2 q3 q4 q5 q6 q7 q8 q9]. destruct (_ =? 0); [injection B as <-; reflexivity|]. destruct (_ =? 1); [|injection B as <-; reflexivity].
  destruct (negb _); [discriminate B|]. injection B as <-. reflexivity.
Qed.

Lemma nu_eclk ml st s0 s : nu_init ml st s0 = KOk s -> ws_fosc st = 1 -> forall factory, nu_hw_hirc factory s = Some (0, 1) /\ 16000000 <= nu_get s NFhirc.
Proof.
  intros H F factory. apply nu_init_inv in H as (_ & s1 & s2 & A & B & ->). rewrite F in B. unfold nu_ckswt in B. destruct s1 as [t0 t1 pc en sw dv a b c f]. cbn -[Z.ltb] in B.
  destruct (negb _); [discriminate B|]. injection B as <-. cbn. split; [reflexivity|].
  unfold nu_fhirc in A. destruct (negb _); [discriminate A|]. destruct s0. destruct (_ =? 0); [injection A; intros; subst; lia|]. destruct (_ =? 1); injection A; intros; subst; lia.
Qed.
