(** IrqCtlProofs.v - proofs about the interrupt controllers of IrqModel. *)
From Verif Require Import Base IrqModel IrqSpec IrqProofs.
Local Open Scope Z_scope.

Lemma setw_same : forall r i v, setw r i v i = v.
Proof. intros r i v. unfold setw. by rewrite Z.eqb_refl. Qed.
Lemma setw_other : forall r i v j, j <> i -> setw r i v j = r j.
Proof. intros r i v j H. unfold setw. by rewrite (proj2 (Z.eqb_neq _ _) H). Qed.

(** Histories from single calls. *)
Lemma control_steps : forall irqs (ok : regs -> Prop) C,
  (forall r i, ok r -> irqs i = true -> ok (ic_enable C i r) /\ ok (ic_disable C i r)) ->
  (forall r i j, ok r -> irqs i = true -> irqs j = true ->
     ic_on C (ic_enable C i r) j = (if i =? j then true else ic_on C r j) /\
     ic_on C (ic_disable C i r) j = (if i =? j then false else ic_on C r j)) -> control_ok irqs ok C.
Proof.
  intros irqs ok C Hk Hs h. induction h as [|[x i] h IH]; intros r irq Hr Hh Hi; [done|].
  assert (Hi0 : irqs i = true) by (apply (Hh x i); constructor). unfold requested. cbn [fold_left wanted fst snd].
  destruct (Hs r i irq Hr Hi0 Hi) as [H1 H2]. destruct (Hk r i Hr Hi0) as [K1 K2].
  assert (Hh' : forall x i, (x, i) ∈ h -> irqs i = true) by (intros y j Hj; apply (Hh y j); by constructor).
  destruct x.
  - pose proof (IH (ic_enable C i r) irq K1 Hh' Hi) as E. unfold requested in E. rewrite E, H1. by destruct (i =? irq).
  - pose proof (IH (ic_disable C i r) irq K2 Hh' Hi) as E. unfold requested in E. rewrite E, H2. by destruct (i =? irq).
Qed.
Lemma enable_steps : forall irqs (ok : regs -> Prop) C,
  (forall r i, ok r -> irqs i = true -> ok (ic_enable C i r)) ->
  (forall r i j, ok r -> irqs i = true -> irqs j = true -> ic_on C (ic_enable C i r) j = (if i =? j then true else ic_on C r j)) -> enable_ok irqs ok C.
Proof.
  intros irqs ok C Hk Hs h. induction h as [|[x i] h IH]; intros r irq Hr Hh Hi; [done|].
  destruct (Hh x i ltac:(constructor)) as [Hi0 ->]. unfold requested. cbn [fold_left wanted fst snd].
  assert (Hh' : forall x i, (x, i) ∈ h -> irqs i = true /\ x = true) by (intros y j Hj; apply (Hh y j); by constructor).
  pose proof (IH (ic_enable C i r) irq (Hk r i Hr Hi0) Hh' Hi) as E. unfold requested in E. rewrite E, (Hs r i irq Hr Hi0 Hi). by destruct (i =? irq).
Qed.

(** Bits *)
Lemma bit_test : forall k l, 0 <= k -> Z.testbit (bit k) l = (k =? l).
Proof. intros k l Hk. unfold bit. rewrite Z.shiftl_1_l. by apply Z.pow2_bits_eqb. Qed.
Lemma inv_test : forall w k l, 0 <= k < w -> 0 <= l < w -> Z.testbit (2 ^ w - 1 - bit k) l = negb (k =? l).
Proof.
  intros w k l Hk Hl. unfold bit. rewrite Z.shiftl_1_l.
  assert (E : Z.ldiff (2 ^ k) (Z.ones w) = 0).
  { apply Z.bits_inj'. intros i Hi. rewrite Z.ldiff_spec, Z.bits_0, Z.pow2_bits_eqb by lia. destruct (k =? i) eqn:E; [|done].
    apply Z.eqb_eq in E as <-. by rewrite Z.ones_spec_low by lia. }
  replace (2 ^ w - 1 - 2 ^ k) with (Z.ones w - 2 ^ k) by (rewrite Z.ones_equiv; lia).
  rewrite Z.sub_nocarry_ldiff by done. rewrite Z.ldiff_spec, Z.ones_spec_low, Z.pow2_bits_eqb by lia. done.
Qed.
Lemma sh5 : forall i, Z.shiftr i 5 = i / 32.
Proof. intros i. by rewrite Z.shiftr_div_pow2 by lia. Qed.
Lemma low5 : forall i, Z.land 31 i = i mod 32.
Proof. intros i. rewrite Z.land_comm. change 31 with (Z.ones 5). by rewrite Z.land_ones by lia. Qed.
Lemma same_bit : forall i j, i / 32 = j / 32 -> (i mod 32 =? j mod 32) = (i =? j).
Proof.
  intros i j H. pose proof (Z.div_mod i 32 ltac:(lia)). pose proof (Z.div_mod j 32 ltac:(lia)).
  destruct (i =? j) eqn:E; [apply Z.eqb_eq in E as ->; by rewrite Z.eqb_refl|]. apply Z.eqb_neq in E. apply Z.eqb_neq. lia.
Qed.
Lemma word_neq : forall i j, i / 32 <> j / 32 -> (i =? j) = false.
Proof. intros i j H. apply Z.eqb_neq. intros ->. done. Qed.

(** NVIC *)
Lemma nvic_enable : forall n, enable_ok (below n) (fun _ => True) (nvic n).
Proof.
  intros n. apply enable_steps; [done|]. intros r i j _ Hi Hj. cbn [ic_enable ic_on nvic]. rewrite Hi. irqs. rewrite sh5, low5. unfold wr_set.
  destruct (Z.eq_dec (i / 32) (j / 32)) as [E|E].
  - rewrite <- E, setw_same, !Z.lor_spec. pose proof (Z.mod_pos_bound i 32 ltac:(lia)). rewrite bit_test by lia. rewrite same_bit by done.
    destruct (i =? j); [by rewrite !orb_true_r|]. rewrite orb_false_r. by destruct (Z.testbit _ _).
  - rewrite setw_other by done. by rewrite word_neq.
Qed.
Lemma lor_land : forall a b, Z.lor a (Z.land a b) = a.
Proof. intros a b. apply Z.bits_inj'. intros i Hi. rewrite Z.lor_spec, Z.land_spec. by destruct (Z.testbit a i), (Z.testbit b i). Qed.
Lemma setw_id : forall r i j, setw r i (r i) j = r j.
Proof. intros r i j. unfold setw. destruct (j =? i) eqn:E; [|done]. by apply Z.eqb_eq in E as ->. Qed.
Lemma nvic_disable : forall n r i j, ic_disable (nvic n) i r j = r j.
Proof. intros n r i j. cbn [ic_disable nvic]. unfold wr_set. case_match; [|done]. rewrite lor_land. apply setw_id. Qed.

(** PFIC *)
Lemma pfic_bit : forall n i (f : Z -> Z -> Z -> regs -> regs) r, 0 <= i < n -> n <= 48 ->
  (if i <? 16 then wr_set 0 (Z.lor (r 0) (bit (i + 16))) r else wr_set 1 (Z.lor (r 1) (bit (i - 16))) r) =
  wr_set ((i + 16) / 32) (Z.lor (r ((i + 16) / 32)) (bit ((i + 16) mod 32))) r.
Proof.
  intros n i _ r Hi Hn. destruct (i <? 16) eqn:E; [apply Z.ltb_lt in E|apply Z.ltb_ge in E].
  - by rewrite Z.div_small, Z.mod_small by lia.
  - replace (i + 16) with (i - 16 + 1 * 32) by lia. by rewrite Z.div_add, Z.mod_add, Z.div_small, Z.mod_small by lia.
Qed.
Lemma pfic_enable : forall n, n <= 48 -> enable_ok (below n) (fun _ => True) (pfic n).
Proof.
  intros n Hn. apply enable_steps; [done|]. intros r i j _ Hi Hj. cbn [ic_enable ic_on pfic]. rewrite Hi. irqs.
  rewrite (pfic_bit n i (fun _ _ _ r => r)) by done. unfold wr_set.
  assert (Hij : (i =? j) = (i + 16 =? j + 16)) by (destruct (i =? j) eqn:E; [apply Z.eqb_eq in E as ->; by rewrite Z.eqb_refl|apply Z.eqb_neq in E; symmetry; apply Z.eqb_neq; lia]).
  rewrite Hij. destruct (Z.eq_dec ((i + 16) / 32) ((j + 16) / 32)) as [E|E].
  - rewrite <- E, setw_same, !Z.lor_spec. pose proof (Z.mod_pos_bound (i + 16) 32 ltac:(lia)). rewrite bit_test by lia. rewrite same_bit by done.
    destruct (i + 16 =? j + 16); [by rewrite !orb_true_r|]. rewrite orb_false_r. by destruct (Z.testbit _ _).
  - rewrite setw_other by done. by rewrite word_neq.
Qed.
Lemma pfic_disable : forall n r i j, ic_disable (pfic n) i r j = r j.
Proof. intros n r i j. cbn [ic_disable pfic]. unfold wr_set. repeat case_match; try done; rewrite lor_land; apply setw_id. Qed.

(** ECLIC *)
Lemma eclic_ok : forall n, control_ok (below n) (fun _ => True) (eclic n).
Proof.
  intros n. apply control_steps; [done|]. intros r i j _ Hi Hj. cbn [ic_enable ic_disable ic_on eclic]. rewrite Hi. unfold setw.
  rewrite (Z.eqb_sym j i). by destruct (i =? j).
Qed.

(** PIC32 *)
Lemma pic32_disable : forall n r i j, n <= 256 -> 0 <= i < n -> 0 <= j < n -> ic_on (pic32 n) (ic_disable (pic32 n) i r) j = (if i =? j then false else ic_on (pic32 n) r j).
Proof.
  intros n r i j Hn Hi Hj. cbn [ic_disable ic_on pic32]. rewrite (proj2 (below_iff n i)) by done. rewrite sh5, low5.
  assert (i / 32 < 8 /\ 0 <= i / 32) by (split; [apply Z.div_lt_upper_bound; lia|apply Z.div_pos; lia]).
  assert (Hp : ipri (setw r (i / 32) (Z.land (r (i / 32)) (inv32 (bit (i mod 32))))) j = ipri r j).
  { unfold ipri. assert (0 <= j / 4) by (apply Z.div_pos; lia). rewrite setw_other; [done|]. unfold ipc0. lia. }
  rewrite Hp. destruct (Z.eq_dec (i / 32) (j / 32)) as [E|E].
  - rewrite <- E, setw_same, Z.land_spec. pose proof (Z.mod_pos_bound i 32 ltac:(lia)). pose proof (Z.mod_pos_bound j 32 ltac:(lia)).
    unfold inv32. rewrite inv_test by lia. rewrite same_bit by done. destruct (i =? j); [by rewrite andb_false_r|by rewrite andb_true_r].
  - rewrite setw_other by done. rewrite (word_neq i j) by done. reflexivity.
Qed.
(** The priorities that enabling can set: those of interrupts 0, 2, 4, ... 14. *)
Definition few (r : regs) : Prop := forall k, 0 <= k -> (3 < k -> r (ipc0 + k) = 0) /\ Z.ldiff (r (ipc0 + k)) 327685 = 0.
Lemma few_enable : forall n i r, n <= 256 -> few r -> few (ic_enable (pic32 n) i r).
Proof.
  intros n i r Hn Hf k Hk. destruct (Hf k Hk) as [F1 F2]. cbn [ic_enable pic32]. destruct (below n i) eqn:E; [|done]. irqs. cbv zeta.
  rewrite sh5. assert (i / 32 < 8 /\ 0 <= i / 32) by (split; [apply Z.div_lt_upper_bound; lia|apply Z.div_pos; lia]).
  rewrite setw_other by (unfold ipc0; lia). rewrite Z.shiftr_div_pow2 by lia. change (2 ^ 6) with 64.
  assert (i / 64 < 4 /\ 0 <= i / 64) by (split; [apply Z.div_lt_upper_bound; lia|apply Z.div_pos; lia]).
  destruct (Z.eq_dec k (i / 64)) as [->|Hne].
  - rewrite setw_same. split; [lia|]. apply Z.bits_inj'. intros b Hb. apply (f_equal (fun x => Z.testbit x b)) in F2.
    rewrite Z.ldiff_spec, Z.bits_0 in *. rewrite Z.lor_spec, andb_orb_distrib_l, F2. cbn [orb]. rewrite <- Z.ldiff_spec.
    assert (Hc : Z.land 1 i = 0 \/ Z.land 1 i = 1).
    { rewrite Z.land_comm. pose proof (Z.land_ones i 1 ltac:(lia)) as E0. change (Z.ones 1) with 1 in E0. change (2 ^ 1) with 2 in E0. rewrite E0. pose proof (Z.mod_pos_bound i 2 ltac:(lia)). lia. }
    destruct Hc as [-> | ->]; [change (Z.ldiff (Z.shiftl 5 (Z.shiftl 0 4)) 327685) with 0|change (Z.ldiff (Z.shiftl 5 (Z.shiftl 1 4)) 327685) with 0]; apply Z.bits_0.
  - rewrite setw_other by (unfold ipc0; lia). done.
Qed.
Lemma few_disable : forall n i r, n <= 256 -> few r -> few (ic_disable (pic32 n) i r).
Proof.
  intros n i r Hn Hf k Hk. destruct (Hf k Hk) as [F1 F2]. cbn [ic_disable pic32]. destruct (below n i) eqn:E; [|done]. irqs.
  rewrite sh5. assert (i / 32 < 8 /\ 0 <= i / 32) by (split; [apply Z.div_lt_upper_bound; lia|apply Z.div_pos; lia]).
  rewrite setw_other by (unfold ipc0; lia). done.
Qed.
Lemma few_off : forall n r i, few r -> 0 <= i -> (Z.odd i = true \/ 16 <= i) -> ic_on (pic32 n) r i = false.
Proof.
  intros n r i Hf Hi Ho. cbn [ic_on pic32]. assert (E : ipri r i = 0); [|rewrite E; cbn; apply andb_false_r].
  assert (0 <= i / 4) by (apply Z.div_pos; lia). destruct (Hf (i / 4) ltac:(lia)) as [F1 F2]. unfold ipri.
  destruct (Z.lt_ge_cases 3 (i / 4)) as [H3|H3]; [rewrite F1 by done; by rewrite Z.shiftr_0_l|].
  assert (i < 16). { pose proof (Z.div_mod i 4 ltac:(lia)). pose proof (Z.mod_pos_bound i 4 ltac:(lia)). lia. }
  destruct Ho as [Ho|?]; [|lia]. set (v := r (ipc0 + i / 4)) in *. clearbody v.
  assert (Hm : i mod 4 = 1 \/ i mod 4 = 3).
  { pose proof (Z.mod_pos_bound i 4 ltac:(lia)). pose proof (Z.div_mod i 4 ltac:(lia)) as D. rewrite D in Ho. rewrite Z.odd_add in Ho. rewrite Z.odd_mul in Ho. cbn [Z.odd xorb andb] in Ho.
    assert (A : i mod 4 = 0 \/ i mod 4 = 1 \/ i mod 4 = 2 \/ i mod 4 = 3) by lia. destruct A as [A|[A|[A|A]]]; rewrite A in Ho; try done; lia. }
  apply Z.bits_inj'. intros b Hb. rewrite Z.land_spec, Z.bits_0, Z.shiftr_spec by lia.
  destruct (Z.lt_ge_cases b 3) as [Hb3|Hb3].
  - assert (T : Z.testbit v (b + (8 * (i mod 4) + 2)) = false); [|by rewrite T].
    apply (f_equal (fun x => Z.testbit x (b + (8 * (i mod 4) + 2)))) in F2. rewrite Z.ldiff_spec, Z.bits_0 in F2.
    assert (A : b = 0 \/ b = 1 \/ b = 2) by lia. revert F2. destruct Hm as [-> | ->]; destruct A as [-> |[-> | ->]]; intros F2; match type of F2 with _ && negb (Z.testbit ?a ?b) = _ => assert (Z.testbit a b = false) as E0 by reflexivity end; rewrite E0, andb_true_r in F2; exact F2.
  - change 7 with (Z.ones 3). rewrite Z.ones_spec_high by lia. apply andb_false_r.
Qed.
Lemma pic32_few : forall n h r, n <= 256 -> few r -> few (requested (pic32 n) h r).
Proof.
  intros n h. induction h as [|[x i] h IH]; intros r Hn Hf; [done|]. unfold requested. cbn [fold_left fst snd].
  apply (IH (if x then ic_enable (pic32 n) i r else ic_disable (pic32 n) i r) Hn). destruct x; [by apply few_enable|by apply few_disable].
Qed.
Lemma pic32_never_on : forall n h r i, n <= 256 -> reset r -> 0 <= i < n -> Z.odd i = true \/ 16 <= i -> ic_on (pic32 n) (requested (pic32 n) h r) i = false.
Proof.
  intros n h r i Hn Hr Hi Ho. apply few_off; [|lia|done]. apply pic32_few; [done|]. intros k Hk. rewrite Hr. done.
Qed.

(** e200 *)
Lemma z4_ok : forall n core, 0 <= core < 3 -> control_ok (below n) (fun _ => True) (intc_z4 n core).
Proof.
  intros n core Hc. apply control_steps; [done|]. intros r i j _ Hi Hj. cbn [ic_enable ic_disable ic_on intc_z4]. rewrite Hi. unfold z4_on.
  destruct (i =? j) eqn:E.
  - apply Z.eqb_eq in E as <-. rewrite !setw_same. assert (A : core = 0 \/ core = 1 \/ core = 2) by lia. split; [by destruct A as [-> |[-> | ->]]|].
    rewrite Z.land_spec. assert (B : Z.testbit (Z.lnot (Z.shiftr 32768 core)) (15 - core) = false) by (by destruct A as [-> |[-> | ->]]).
    by rewrite B, andb_false_r.
  - apply Z.eqb_neq in E. rewrite !setw_other by congruence. done.
Qed.
Lemma z7_ok : forall n core, 0 <= core < 2 -> control_ok (below n) (fun _ => True) (intc_z7 n core).
Proof.
  intros n core Hc. apply control_steps; [done|]. intros r i j _ Hi Hj. cbn [ic_enable ic_disable ic_on intc_z7]. rewrite Hi. unfold z7_on.
  destruct (i =? j) eqn:E.
  - apply Z.eqb_eq in E as <-. rewrite !setw_same. split.
    + assert (A : core = 0 \/ core = 1) by lia. by destruct A as [-> | ->].
    + rewrite <- Z.land_assoc. change (Z.land (wrap 8 (Z.lnot 15)) 15) with 0. by rewrite Z.land_0_r.
  - apply Z.eqb_neq in E. rewrite !setw_other by congruence. done.
Qed.

(** PIE *)
Lemma pie_high : forall i, 128 <= i <= 223 -> pie_at i = ((i - 128) / 8, (i - 128) mod 8 + 8).
Proof.
  intros i Hi. unfold pie_at. rewrite (proj2 (Z.ltb_ge _ _)) by lia. rewrite Z.shiftr_div_pow2 by lia. rewrite !(Z.land_comm _ i).
  change 127 with (Z.ones 7). change 7 with (Z.ones 3) at 2. rewrite !Z.land_ones by lia. change (2 ^ 7) with 128. change (2 ^ 3) with 8.
  replace i with (i - 128 + 1 * 128) at 1 by lia. rewrite Z.mod_add by lia. rewrite (Z.mod_small (i - 128)) by lia.
  replace i with (i - 128 + 16 * 8) at 2 by lia. by rewrite Z.mod_add by lia.
Qed.
Lemma pie_ok : control_ok (fun irq => (128 <=? irq) && (irq <=? 223)) (fun _ => True) pie.
Proof.
  apply control_steps; [done|]. intros r i j _ Hi Hj. apply andb_true_iff in Hi as [B1 B2], Hj as [B3 B4]. apply Z.leb_le in B1, B2, B3, B4.
  cbn [ic_enable ic_disable ic_on pie]. rewrite (proj2 (Z.leb_le 32 i)), (proj2 (Z.leb_le i 223)), (proj2 (Z.ltb_ge j 128)) by lia. cbn [andb]. cbv zeta.
  rewrite !pie_high by lia. cbn [fst snd]. pose proof (Z.mod_pos_bound (i - 128) 8 ltac:(lia)). pose proof (Z.mod_pos_bound (j - 128) 8 ltac:(lia)).
  pose proof (Z.div_mod (i - 128) 8 ltac:(lia)). pose proof (Z.div_mod (j - 128) 8 ltac:(lia)).
  destruct (Z.eq_dec ((i - 128) / 8) ((j - 128) / 8)) as [E|E].
  - rewrite <- E, !setw_same, Z.lor_spec, Z.land_spec. rewrite bit_test by lia. unfold inv16. rewrite inv_test by lia.
    assert (Hij : ((i - 128) mod 8 + 8 =? (j - 128) mod 8 + 8) = (i =? j)).
    { destruct (i =? j) eqn:E1; [apply Z.eqb_eq in E1 as ->; apply Z.eqb_refl|apply Z.eqb_neq in E1; apply Z.eqb_neq; lia]. }
    rewrite Hij. destruct (i =? j); [by rewrite orb_true_r, andb_false_r|by rewrite orb_false_r, andb_true_r].
  - rewrite !setw_other by done. assert (Hij : (i =? j) = false) by (apply Z.eqb_neq; intros ->; done). by rewrite Hij.
Qed.
Lemma pie_low : forall i, 32 <= i <= 127 -> 8176 <= fst (pie_at i).
Proof.
  intros i Hi. unfold pie_at. rewrite (proj2 (Z.ltb_lt _ _)) by lia. cbn [fst]. unfold wrap. change (2 ^ 16) with 65536.
  replace (i - 128) with (i + 65408 + (-1) * 65536) by lia. rewrite Z.mod_add by lia. rewrite Z.mod_small by lia.
  rewrite Z.shiftr_div_pow2 by lia. apply Z.div_le_lower_bound; lia.
Qed.
Lemma pie_lost : forall i j r, 32 <= i <= 127 -> 32 <= j <= 223 ->
  ic_on pie (ic_enable pie i r) j = ic_on pie r j /\ ic_on pie (ic_disable pie i r) j = ic_on pie r j.
Proof.
  intros i j r Hi Hj. cbn [ic_enable ic_disable ic_on pie]. rewrite (proj2 (Z.leb_le 32 i)), (proj2 (Z.leb_le i 223)) by lia. cbn [andb]. cbv zeta.
  pose proof (pie_low i Hi). assert ((j - 32) / 8 < 8176) by (apply Z.div_lt_upper_bound; lia). assert ((j - 128) / 8 < 8176) by (apply Z.div_lt_upper_bound; lia).
  rewrite !setw_other by lia. done.
Qed.
Lemma pie_stray : forall i r, 32 <= i <= 127 -> r (fst (pie_at i)) = 0 -> exists k, 12 <= k /\ ic_enable pie i r k <> r k.
Proof.
  intros i r Hi Hr. exists (fst (pie_at i)). pose proof (pie_low i Hi). split; [lia|]. cbn [ic_enable pie].
  rewrite (proj2 (Z.leb_le 32 i)), (proj2 (Z.leb_le i 223)) by lia. cbn [andb]. cbv zeta. rewrite setw_same, Hr, Z.lor_0_l. unfold bit.
  rewrite Z.shiftl_1_l. unfold pie_at. rewrite (proj2 (Z.ltb_lt _ _)) by lia. cbn [snd]. apply Z.pow_nonzero; [lia|].
  apply Z.land_nonneg. by left.
Qed.

(** 8051 *)
Definition sheet_ok (tab : Z -> option (Z * Z)) (sheet : list (Z * (Z * Z))) : bool :=
  forallb (fun e => match tab (fst e) with Some (i, k) => (i =? fst (snd e)) && (k =? snd (snd e)) | None => false end && (0 <=? snd (snd e)) && (snd (snd e) <? 8)) sheet &&
  forallb (fun e => forallb (fun e' => (fst e =? fst e') || negb ((fst (snd e) =? fst (snd e')) && (snd (snd e) =? snd (snd e')))) sheet) sheet.
Lemma find_in : forall sheet irq p, find_bit sheet irq = Some p -> In (irq, p) sheet.
Proof.
  induction sheet as [|[i q] l IH]; intros irq p; [done|]. cbn [find_bit]. destruct (i =? irq) eqn:E; [apply Z.eqb_eq in E as ->; intros [= ->]; by left|].
  intros H. right. by apply IH.
Qed.
Lemma sheet_tab : forall tab sheet, sheet_ok tab sheet = true ->
  (forall irq i k, find_bit sheet irq = Some (i, k) -> tab irq = Some (i, k) /\ 0 <= k < 8) /\
  (forall irq irq' p, find_bit sheet irq = Some p -> find_bit sheet irq' = Some p -> irq = irq').
Proof.
  intros tab sheet H. apply andb_true_iff in H as [H1 H2]. rewrite forallb_forall in H1, H2. split.
  - intros irq i k Hf. apply find_in in Hf. specialize (H1 _ Hf). cbn [fst snd] in H1. apply andb_true_iff in H1 as [H1 A3]. apply andb_true_iff in H1 as [H1 A2].
    destruct (tab irq) as [[i' k']|]; [|done]. apply andb_true_iff in H1 as [A4 A5]. apply Z.eqb_eq in A4, A5. subst. split; [done|]. apply Z.leb_le in A2. apply Z.ltb_lt in A3. lia.
  - intros irq irq' [i k] Hf Hf'. apply find_in in Hf, Hf'. specialize (H2 _ Hf). rewrite forallb_forall in H2. specialize (H2 _ Hf'). cbn [fst snd] in H2.
    rewrite !Z.eqb_refl in H2. cbn [andb negb] in H2. rewrite orb_false_r in H2. by apply Z.eqb_eq.
Qed.
Lemma sfr_ok : forall tab sheet, sheet_ok tab sheet = true -> control_ok (has_bit sheet) (fun _ => True) (sfr_ctl tab sheet).
Proof.
  intros tab sheet Hs. destruct (sheet_tab _ _ Hs) as [T1 T2]. apply control_steps; [done|]. intros r a b _ Ha Hb. unfold has_bit in Ha, Hb.
  cbn [ic_enable ic_disable ic_on sfr_ctl]. unfold sfr_enable, sfr_disable.
  destruct (find_bit sheet a) as [[i k]|] eqn:Ea; [|done]. destruct (find_bit sheet b) as [[i' k']|] eqn:Eb; [|done].
  destruct (T1 _ _ _ Ea) as [-> K1]. destruct (T1 _ _ _ Eb) as [_ K2]. destruct (Z.eq_dec i' i) as [->|Hn].
  - rewrite !setw_same, Z.lor_spec, Z.land_spec. rewrite bit_test by lia. unfold inv8. rewrite inv_test by lia.
    assert (E : (k =? k') = (a =? b)).
    { destruct (a =? b) eqn:E1.
      - apply Z.eqb_eq in E1 as ->. rewrite Ea in Eb. injection Eb as ->. apply Z.eqb_refl.
      - apply Z.eqb_neq in E1. apply Z.eqb_neq. intros ->. apply E1. apply (T2 a b (i, k')); done. }
    rewrite E. destruct (a =? b); [by rewrite orb_true_r, andb_false_r|by rewrite orb_false_r, andb_true_r].
  - rewrite !setw_other by done. assert (E : (a =? b) = false); [|by rewrite E]. apply Z.eqb_neq. intros ->. rewrite Ea in Eb. injection Eb as -> ->. done.
Qed.
Definition tab_ok (l : list (option (Z * Z))) (sheet : list (Z * (Z * Z))) : bool :=
  forallb (fun o => match o with Some (i, k) => existsb (fun e => match find_bit sheet (fst e) with Some (i', k') => (i =? i') && (k =? k') | None => false end) sheet && (0 <=? k) && (k <? 8) | None => true end) l.
Lemma sfr_rest_ok : forall l sheet, tab_ok l sheet = true -> sfr_rest (fun irq => nth (Z.to_nat irq) l None) sheet.
Proof.
  intros l sheet Hl h. induction h as [|[x q] h IH]; intros r i k Hk Hf; [done|]. unfold requested. cbn [fold_left fst snd].
  set (C := sfr_ctl _ sheet) in *. pose proof (IH (if x then ic_enable C q r else ic_disable C q r) i k Hk Hf) as E. unfold requested in E. rewrite E. clear E IH.
  assert (Hn : forall i' k', nth (Z.to_nat q) l None = Some (i', k') -> (i' <> i \/ k' <> k) /\ 0 <= k' < 8).
  { intros i' k' Hq. unfold tab_ok in Hl. rewrite forallb_forall in Hl. assert (Hin : In (Some (i', k')) l).
    { rewrite <- Hq. apply nth_In. destruct (Nat.lt_ge_cases (Z.to_nat q) (length l)); [done|]. by rewrite nth_overflow in Hq. }
    specialize (Hl _ Hin). cbn beta iota in Hl. apply andb_true_iff in Hl as [Hl A3]. apply andb_true_iff in Hl as [Hl A2]. apply Z.leb_le in A2. apply Z.ltb_lt in A3. split; [|lia].
    apply existsb_exists in Hl as ([irq p] & _ & Hl). cbn [fst] in Hl. pose proof (Hf irq) as Hf0. destruct (find_bit sheet irq) as [[i2 k2]|]; [|done].
    apply andb_true_iff in Hl as [B1 B2]. apply Z.eqb_eq in B1, B2. subst. destruct (Z.eq_dec i2 i) as [->|]; [|by left]. right. intros ->. done. }
  unfold C. cbn [ic_enable ic_disable sfr_ctl]. destruct x; unfold sfr_enable, sfr_disable.
  all: destruct (nth (Z.to_nat q) l None) as [[i' k']|]; [|done]; destruct (Hn i' k' eq_refl) as [Hd Hk'].
  all: destruct (Z.eq_dec i i') as [<-|Hne]; [|by rewrite setw_other].
  all: rewrite setw_same; destruct Hd as [?|Hd]; [done|].
  - rewrite Z.lor_spec, bit_test by lia. by rewrite (proj2 (Z.eqb_neq _ _) Hd), orb_false_r.
  - rewrite Z.land_spec. unfold inv8. rewrite inv_test by lia. by rewrite (proj2 (Z.eqb_neq _ _) Hd), andb_true_r.
Qed.

(** * SMP *)
Lemma smp_steps : forall n cores (P : bool -> Prop) on en dis (ok : regs -> Prop),
  (forall r, reset r -> ok r) ->
  (forall core irq r, reset r -> on core r irq = false) ->
  (forall r i mask, ok r -> 0 <= i < n -> 0 < mask < 2 ^ cores -> P true -> ok (en i mask r) /\
     forall core j, 0 <= core < cores -> 0 <= j < n -> on core (en i mask r) j = if (i =? j) && Z.testbit mask core then true else on core r j) ->
  (forall r i mask, ok r -> 0 <= i < n -> 0 < mask < 2 ^ cores -> P false -> ok (dis i mask r) /\
     forall core j, 0 <= core < cores -> 0 <= j < n -> on core (dis i mask r) j = if (i =? j) && Z.testbit mask core then false else on core r j) ->
  smp_ok n cores P on en dis.
Proof.
  intros n cores P on en dis ok H0 Hoff He Hd h r irq core Hr Hh Hi Hc.
  assert (G : forall h r, ok r -> (forall x i mask, (x, i, mask) ∈ h -> P x /\ 0 <= i < n /\ 0 < mask < 2 ^ cores) ->
    on core (smp_requested en dis h r) irq = smp_wanted h irq core (on core r irq)).
  { clear h r Hr Hh. induction h as [|[[x i] mask] h IH]; intros r Hr Hh; [done|]. destruct (Hh x i mask ltac:(constructor)) as (Hp & Hi0 & Hm).
    assert (Hh' : forall x i mask, (x, i, mask) ∈ h -> P x /\ 0 <= i < n /\ 0 < mask < 2 ^ cores) by (intros y j k Hj; apply (Hh y j k); by constructor).
    unfold smp_requested. cbn [fold_left smp_wanted fst snd]. destruct x.
    - destruct (He r i mask Hr Hi0 Hm Hp) as [K1 K2]. pose proof (IH (en i mask r) K1 Hh') as E. unfold smp_requested in E. rewrite E, K2 by done. done.
    - destruct (Hd r i mask Hr Hi0 Hm Hp) as [K1 K2]. pose proof (IH (dis i mask r) K1 Hh') as E. unfold smp_requested in E. rewrite E, K2 by done. done. }
  rewrite (G h r (H0 r Hr) Hh). by rewrite Hoff.
Qed.

Lemma mask_cases : forall mask, 0 < mask < 8 -> mask = 1 \/ mask = 2 \/ mask = 3 \/ mask = 4 \/ mask = 5 \/ mask = 6 \/ mask = 7.
Proof. lia. Qed.
Lemma z4_each : forall n i mask r core j, 0 <= i < n -> 0 < mask < 8 -> 0 <= core < 3 ->
  z4_on core (z4_smp_enable n i mask r) j = (if i =? j then Z.testbit mask core else z4_on core r j) /\
  z4_on core (z4_smp_disable n i mask r) j = (if i =? j then z4_on core r j && negb (Z.testbit mask core) else z4_on core r j).
Proof.
  intros n i mask r core j Hi Hm Hc. unfold z4_smp_enable, z4_smp_disable. rewrite (proj2 (below_iff n i)) by done. rewrite (proj2 (Z.eqb_neq mask 0)) by lia.
  cbn [andb negb]. unfold z4_on. destruct (i =? j) eqn:E.
  - apply Z.eqb_eq in E as <-. rewrite !setw_same, Z.land_spec, <- Z.land_assoc.
    assert (A : core = 0 \/ core = 1 \/ core = 2) by lia. apply mask_cases in Hm. split.
    + destruct A as [-> |[-> | ->]]; repeat (destruct Hm as [-> | Hm]; [reflexivity|]); by rewrite Hm.
    + assert (B : Z.land (inv16 (prc_sel mask)) 15 = 15) by (repeat (destruct Hm as [-> | Hm]; [reflexivity|]); by rewrite Hm).
      assert (D : Z.testbit (inv16 (prc_sel mask)) (15 - core) = negb (Z.testbit mask core)).
      { destruct A as [-> |[-> | ->]]; repeat (destruct Hm as [-> | Hm]; [reflexivity|]); by rewrite Hm. }
      rewrite B, D. by destruct (Z.testbit (r i) _), (negb (Z.testbit mask core)), (negb (Z.land (r i) 15 =? 0)).
  - apply Z.eqb_neq in E. rewrite !setw_other by congruence. done.
Qed.

(** The states the calls of e200z7 lead to: off, core 0, both, core 1. *)
Definition z7_states (r : regs) (irq : Z) : Prop := r irq = 0 \/ r irq = 1 \/ r irq = 65 \/ r irq = 193.
Lemma z7_enable_step : forall n r i mask, (forall j, z7_states r j) -> 0 <= i < n -> 0 < mask < 2 ^ 2 ->
  (forall j, z7_states (z7_smp_enable n i mask r) j) /\
  forall core j, 0 <= core < 2 -> 0 <= j < n -> z7_on core (z7_smp_enable n i mask r) j = if (i =? j) && Z.testbit mask core then true else z7_on core r j.
Proof.
  intros n r i mask Hr Hi Hm. assert (Hk : mask = 1 \/ mask = 2 \/ mask = 3) by lia.
  assert (E : exists v, (forall j, z7_smp_enable n i mask r j = if j =? i then v else r j) /\ (v = 1 \/ v = 65 \/ v = 193) /\
    forall core, 0 <= core < 2 -> z7_on core (fun _ => v) 0 = if Z.testbit mask core then true else z7_on core (fun _ => r i) 0).
  { unfold z7_smp_enable. rewrite (proj2 (below_iff n i)) by done. rewrite (proj2 (Z.eqb_neq mask 0)) by lia. cbn [andb negb]. cbv zeta. eexists. split; [reflexivity|].
    pose proof (Hr i) as H. unfold z7_states in H. split.
    - destruct H as [-> |[-> |[-> | ->]]]; destruct Hk as [-> |[-> | ->]]; vm_compute; tauto.
    - intros core Hc. assert (A : core = 0 \/ core = 1) by lia. destruct H as [-> |[-> |[-> | ->]]]; destruct Hk as [-> |[-> | ->]]; by destruct A as [-> | ->]. }
  destruct E as (v & E1 & E2 & E3). split.
  - intros j. unfold z7_states. rewrite E1. destruct (j =? i); [tauto|apply Hr].
  - intros core j Hc Hj. specialize (E3 core Hc). destruct (i =? j) eqn:E.
    + apply Z.eqb_eq in E as <-. cbn [andb]. unfold z7_on in *. rewrite E1, Z.eqb_refl. exact E3.
    + cbn [andb]. apply Z.eqb_neq in E. unfold z7_on. rewrite E1. by rewrite (proj2 (Z.eqb_neq j i)) by congruence.
Qed.
Lemma z7_enable_ok : forall n, smp_ok n 2 (fun x => x = true) z7_on (z7_smp_enable n) (z7_smp_disable n).
Proof.
  intros n. apply smp_steps with (ok := fun r => forall j, z7_states r j).
  - intros r Hr j. left. apply Hr.
  - intros core irq r Hr. unfold z7_on. by rewrite Hr.
  - intros r i mask Hr Hi Hm _. by apply z7_enable_step.
  - intros r i mask _ _ _ H. discriminate H.
Qed.
Lemma z7_stuck : forall n r i mask, z7_states r i -> 0 <= i < n -> 0 < mask < 4 -> exists core, 0 <= core < 2 /\ z7_on core (z7_smp_disable n i mask r) i = (negb (r i =? 0) || negb (mask =? 1) && negb (mask =? 3)).
Proof.
  intros n r i mask Hr Hi Hm. assert (Hk : mask = 1 \/ mask = 2 \/ mask = 3) by lia.
  assert (P : forall c : Z * Z, (let '(p, q) := c in setw r i (Z.lor p q)) i = Z.lor (fst c) (snd c)) by (intros [p q]; apply setw_same).
  unfold z7_smp_disable, z7_on. rewrite (proj2 (below_iff n i)) by done. rewrite (proj2 (Z.eqb_neq mask 0)) by lia. cbn [andb negb]. cbv zeta. rewrite P. clear P.
  destruct Hr as [-> |[-> |[-> | ->]]]; destruct Hk as [-> |[-> | ->]]; first [exists 0; split; [lia|reflexivity] | exists 1; split; [lia|reflexivity]].
Qed.
