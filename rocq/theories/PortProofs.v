(** PortProofs.v - proofs about the ports. *)
From Verif Require Import Base PortModel PortSpec.
From Coq Require Import ZifyBool ZifyNat.

Lemma env_keep_off e s : m_ie s = false ->
  m_var (fold_left penv_step e s) = m_var s /\ m_ie (fold_left penv_step e s) = false.
Proof.
  revert s. induction e as [|x e IH]; intros s H; [done|]. cbn [fold_left].
  assert (E : m_var (penv_step s x) = m_var s /\ m_ie (penv_step s x) = false).
  { destruct x; cbn; rewrite ?H; cbn; try done.
    - destruct (m_lock s) as [[]|]; done.
    - destruct (m_lock s) as [[]|]; done. }
  destruct (IH (penv_step s x)) as [H1 H2]; [tauto|]. rewrite H1. tauto.
Qed.
Lemma env_keep_mine e s : m_lock s = Some true ->
  m_var (fold_left penv_step e s) = m_var s /\ m_lock (fold_left penv_step e s) = Some true.
Proof.
  revert s. induction e as [|x e IH]; intros s H; [done|]. cbn [fold_left].
  assert (E : m_var (penv_step s x) = m_var s /\ m_lock (penv_step s x) = Some true).
  { destruct x; cbn; rewrite ?H; cbn; try done. rewrite andb_false_r. done. }
  destruct (IH (penv_step s x)) as [H1 H2]; [tauto|]. rewrite H1. tauto.
Qed.
(** As long as the reservation is there, nobody wrote. *)
Lemma env_resv e s : m_resv (fold_left penv_step e s) = true ->
  m_resv s = true /\ m_var (fold_left penv_step e s) = m_var s.
Proof.
  revert s. induction e as [|x e IH]; intros s H; [done|]. cbn [fold_left] in *.
  destruct (IH _ H) as [H1 H2]. rewrite H2. destruct x; cbn in *.
  - destruct (m_ie s && negb (bool_decide (m_lock s = Some true))); [done|]. done.
  - done.
  - destruct (m_lock s) as [[]|]; done.
  - destruct (m_lock s) as [[]|]; done.
Qed.
(** The interrupt flag is not changed by others. *)
Lemma env_ie e s : m_ie (fold_left penv_step e s) = m_ie s.
Proof.
  revert s. induction e as [|x e IH]; intros s; [done|]. cbn [fold_left]. rewrite IH.
  destruct x; cbn; try done; [|by destruct (m_lock s) as [[]|]..].
  by destruct (m_ie s && negb (bool_decide (m_lock s = Some true))).
Qed.

Ltac none_written := right; split; [congruence|]; intros ? ? Hin; by apply elem_of_nil in Hin.

Lemma cas_armv7m_ok : cas_contract cas_armv7m.
Proof.
  intros old val env s Hne. unfold cas_armv7m. cbn [prun pexec].
  set (s0 := fold_left penv_step (env 0%nat) s).
  destruct (m_var s0 =? old) eqn:E; cbn [prun pexec].
  - set (s1 := mkPst (m_var s0) true (m_ie s0) (m_lock s0)).
    set (s2 := fold_left penv_step (env 1%nat) s1).
    destruct (m_resv s2) eqn:R; cbn.
    + left. destruct (env_resv _ _ R) as [_ V]. fold s2 in V. rewrite V. cbn. split; [done|].
      apply Z.eqb_eq in E. by rewrite E.
    + none_written.
  - none_written.
Qed.
Lemma cas_e200_ok : cas_contract cas_e200.
Proof.
  intros old val env s Hne. unfold cas_e200. cbn [prun pexec].
  set (s0 := fold_left penv_step (env 0%nat) s).
  set (s1 := mkPst (m_var s0) true (m_ie s0) (m_lock s0)).
  destruct (m_var s0 =? old) eqn:E; cbn [prun pexec].
  - set (s2 := fold_left penv_step (env 1%nat) s1).
    destruct (m_resv s2) eqn:R; cbn.
    + left. destruct (env_resv _ _ R) as [_ V]. fold s2 in V. rewrite V. cbn. split; [done|].
      apply Z.eqb_eq in E. by rewrite E.
    + none_written.
  - set (s2 := fold_left penv_step (env 1%nat) s1).
    destruct (m_resv s2) eqn:R; cbn.
    + right. split; [congruence|]. intros b a Hin. destruct (env_resv _ _ R) as [_ V]. fold s2 in V.
      rewrite V in Hin. cbn in Hin. apply elem_of_list_singleton in Hin. congruence.
    + none_written.
Qed.
Lemma cas_masked_ok : cas_contract cas_masked.
Proof.
  intros old val env s Hne. unfold cas_masked. cbn [prun pexec].
  set (s0 := fold_left penv_step (env 0%nat) s).
  set (s1 := mkPst (m_var s0) (m_resv s0) false (m_lock s0)).
  set (s2 := fold_left penv_step (env 1%nat) s1).
  destruct (env_keep_off (env 1%nat) s1 eq_refl) as [_ I2]. fold s2 in I2.
  destruct (m_var s2 =? old) eqn:E; cbn [prun pexec].
  - left. set (s3 := fold_left penv_step (env 2%nat) s2).
    destruct (env_keep_off (env 2%nat) s2 I2) as [V3 _]. fold s3 in V3.
    split; [done|]. cbn. rewrite V3. apply Z.eqb_eq in E. by rewrite E.
  - none_written.
Qed.
Lemma cas_locked_ok : cas_contract cas_locked.
Proof.
  intros old val env s Hne. unfold cas_locked. cbn [prun pexec].
  set (s0 := fold_left penv_step (env 0%nat) s).
  destruct (m_lock s0) as [b|] eqn:L; cbn [prun pexec].
  - cbn. none_written.
  - set (s1 := mkPst (m_var s0) (m_resv s0) (m_ie s0) (Some true)). cbn [Z.eqb prun pexec].
    set (s2 := fold_left penv_step (env 1%nat) s1).
    destruct (env_keep_mine (env 1%nat) s1 eq_refl) as [_ L2]. fold s2 in L2.
    destruct (m_var s2 =? old) eqn:E; cbn [prun pexec].
    + left. set (s3 := fold_left penv_step (env 2%nat) s2).
      destruct (env_keep_mine (env 2%nat) s2 L2) as [V3 _]. fold s3 in V3.
      apply Z.eqb_eq in E. split; [done|]. cbn. rewrite V3. by rewrite E.
    + apply Z.eqb_neq in E. none_written.
Qed.

Lemma cas_solo_all p : p <> RV32IMAC -> cas_solo (port_cas p).
Proof.
  intros Hp old val s Hne Hl.
  destruct p; try done; cbn; rewrite ?Hl; cbn; destruct (m_var s =? old) eqn:E; cbn;
    rewrite ?Hl; apply Z.eqb_eq in E || apply Z.eqb_neq in E; repeat split; intros; try congruence; done.
Qed.

(** ** Critical sections *)
Definition no_flag_op (o : pop) : bool := match o with Mask | Unmask => false | _ => true end.
Fixpoint no_flag (pr : pprog) : Prop :=
  match pr with PRet _ => True | POp o k => no_flag_op o = true /\ forall v, no_flag (k v) end.
Lemma no_flag_exec o s : no_flag_op o = true -> m_ie (fst (fst (pexec o s))) = m_ie s.
Proof. destruct o; cbn; try done; intros _; [by destruct (m_resv s)|by destruct (m_lock s)]. Qed.
Lemma no_flag_run pr env s : no_flag pr ->
  Forall (fun b => b = m_ie s) (flags pr env s) /\ m_ie (fst (fst (prun pr env s))) = m_ie s.
Proof.
  revert env s. induction pr as [r|o k IH]; intros env s; cbn [no_flag flags prun]; [done|].
  intros [Ho Hk]. set (s0 := fold_left penv_step (env 0%nat) s).
  pose proof (no_flag_exec o s0 Ho) as He. pose proof (env_ie (env 0%nat) s) as Hs0. fold s0 in Hs0.
  destruct (pexec o s0) as [[s1 v] w]. cbn in He.
  destruct (IH v (fun i => env (S i)) s1 (Hk v)) as [H1 H2].
  destruct (prun (k v) (fun i => env (S i)) s1) as [[s2 r] w'] eqn:E. cbn in *.
  split; [|congruence]. constructor; [congruence|].
  eapply Forall_impl; [exact H1|]. cbn. congruence.
Qed.
Definition llsc_port (p : port) : Prop :=
  match p with ARMv7M | ARMv7EM | E200Z4 | E200Z7 | RV32IMAC | M51XX | C28X | RP2040 => True | _ => False end.
Lemma llsc_no_flag p c : llsc_port p -> no_flag (crit_body p c).
Proof.
  intros Hp. destruct p; try done; destruct c; cbn; repeat split; intros;
    repeat match goal with |- context [if ?b then _ else _] => destruct b; cbn end; repeat split; intros;
    repeat match goal with |- context [if ?b then _ else _] => destruct b; cbn end; repeat split.
Qed.
Lemma crit_masked p cs env s : llsc_port p -> m_ie s = false ->
  Forall (fun b => b = false) (crit_flags p cs env s).
Proof.
  intros Hp. revert env s. induction cs as [|c cs IH]; intros env s Hs; cbn [crit_flags]; [constructor|].
  destruct (no_flag_run (crit_body p c) (env 0%nat) s (llsc_no_flag p c Hp)) as [H1 H2].
  apply Forall_app. split.
  - eapply Forall_impl; [exact H1|]. cbn. congruence.
  - apply IH. congruence.
Qed.

(** ** Interrupt controllers *)
Lemma clr_bit_spec w v b i : 0 <= b < w -> 0 <= i < w -> Z.testbit (clr_bit w v b) i = Z.testbit v i && negb (i =? b).
Proof.
  intros Hb Hi. unfold clr_bit. rewrite Z.land_spec, Z.ldiff_spec, Z.ones_spec_low by lia.
  rewrite Z.shiftl_1_l, Z.pow2_bits_eqb by lia. by rewrite (Z.eqb_sym b i).
Qed.
Lemma set_bit_spec v b i : 0 <= b -> Z.testbit (set_bit v b) i = Z.testbit v i || (i =? b).
Proof.
  intros Hb. unfold set_bit. rewrite Z.lor_spec, Z.shiftl_1_l, Z.pow2_bits_eqb by lia. by rewrite (Z.eqb_sym b i).
Qed.
Lemma rupd_same r i v : rupd r i v i = v.
Proof. unfold rupd. by rewrite Z.eqb_refl. Qed.
Lemma rupd_other r i v j : j <> i -> rupd r i v j = r j.
Proof. intros H. unfold rupd. by rewrite (proj2 (Z.eqb_neq _ _)). Qed.
Lemma low5 irq : 0 <= irq -> Z.land 31 irq = irq mod 32 /\ Z.shiftr irq 5 = irq / 32.
Proof.
  intros H. rewrite Z.land_comm. change 31 with (Z.ones 5). rewrite Z.land_ones by lia.
  rewrite Z.shiftr_div_pow2 by lia. done.
Qed.
Lemma same_bit32 i irq : 0 <= i -> 0 <= irq -> i <> irq -> i / 32 = irq / 32 -> i mod 32 <> irq mod 32.
Proof. intros. pose proof (Z.div_mod i 32 ltac:(lia)). pose proof (Z.div_mod irq 32 ltac:(lia)). lia. Qed.

Lemma iec_enable_ok : enable_ok 213 iec_enable iec_enabled.
Proof.
  intros r irq H. unfold iec_enable, iec_enabled. destruct (low5 irq) as [-> ->]; [lia|].
  rewrite Z.shiftl_mul_pow2 by lia. change (2 ^ 2) with 4. rewrite (Z.mul_comm (irq / 32)).
  pose proof (Z.mod_pos_bound irq 32 ltac:(lia)).
  split.
  - rewrite rupd_same, set_bit_spec by lia. by rewrite Z.eqb_refl, orb_true_r.
  - intros i Hi Hne. destruct (decide (i / 32 = irq / 32)) as [E|E].
    + rewrite E, rupd_same, set_bit_spec by lia.
      rewrite (proj2 (Z.eqb_neq _ _)); [by rewrite orb_false_r|]. apply same_bit32; lia.
    + rewrite rupd_other by lia. done.
Qed.
Lemma iec_disable_ok : disable_ok 213 iec_disable iec_enabled.
Proof.
  intros r irq H. unfold iec_disable, iec_enabled. destruct (low5 irq) as [-> ->]; [lia|].
  rewrite Z.shiftl_mul_pow2 by lia. change (2 ^ 2) with 4. rewrite (Z.mul_comm (irq / 32)).
  pose proof (Z.mod_pos_bound irq 32 ltac:(lia)).
  split.
  - rewrite rupd_same, clr_bit_spec by lia. by rewrite Z.eqb_refl, andb_false_r.
  - intros i Hi Hne. pose proof (Z.mod_pos_bound i 32 ltac:(lia)). destruct (decide (i / 32 = irq / 32)) as [E|E].
    + rewrite E, rupd_same, clr_bit_spec by lia.
      rewrite (proj2 (Z.eqb_neq _ _)); [by rewrite andb_true_r|]. apply same_bit32; lia.
    + rewrite rupd_other by lia. done.
Qed.
Lemma eclic_enable_ok n : enable_ok n eclic_enable eclic_enabled.
Proof.
  intros r irq H. unfold eclic_enable, eclic_enabled. split; [by rewrite rupd_same|].
  intros i _ Hne. by rewrite rupd_other.
Qed.
Lemma eclic_disable_ok n : disable_ok n eclic_disable eclic_enabled.
Proof.
  intros r irq H. unfold eclic_disable, eclic_enabled. split; [by rewrite rupd_same|].
  intros i _ Hne. by rewrite rupd_other.
Qed.
Lemma psr4_enable_ok n core : 0 <= core <= 2 -> enable_ok n (psr4_enable core) (psr4_enabled core).
Proof.
  intros Hc r irq H. unfold psr4_enable, psr4_enabled. split.
  - rewrite rupd_same. assert (core = 0 \/ core = 1 \/ core = 2) as [->|[->| ->]] by lia; reflexivity.
  - intros i _ Hne. by rewrite rupd_other.
Qed.
Lemma psr4_disable_ok n core : 0 <= core <= 2 -> disable_ok n (psr4_disable core) (psr4_enabled core).
Proof.
  intros Hc r irq H. unfold psr4_disable, psr4_enabled. split.
  - rewrite rupd_same, Z.land_spec.
    assert (E : Z.testbit (Z.ldiff (Z.ones 16) (Z.shiftr (2 ^ 15) core)) (15 - core) = false).
    { assert (core = 0 \/ core = 1 \/ core = 2) as [->|[->| ->]] by lia; reflexivity. }
    by rewrite E, andb_false_r.
  - intros i _ Hne. by rewrite rupd_other.
Qed.
Lemma psr7_enable_ok n core : 0 <= core <= 1 -> enable_ok n (psr7_enable core) (psr7_enabled core).
Proof.
  intros Hc r irq H. unfold psr7_enable, psr7_enabled. split.
  - rewrite rupd_same. assert (core = 0 \/ core = 1) as [->| ->] by lia; reflexivity.
  - intros i _ Hne. by rewrite rupd_other.
Qed.
Lemma psr7_disable_ok n core : disable_ok n psr7_disable (psr7_enabled core).
Proof.
  intros r irq H. unfold psr7_disable, psr7_enabled. split.
  - rewrite rupd_same. rewrite <- Z.land_assoc. change (Z.land (Z.ldiff (Z.ones 8) 15) 15) with 0.
    by rewrite Z.land_0_r.
  - intros i _ Hne. by rewrite rupd_other.
Qed.

(** Write-1-to-set registers: a disable that writes a part of what is already there changes nothing. *)
Lemma w1s_disable r i b : w1s_write r i (clr_bit 32 (r i) b) i = r i.
Proof.
  unfold w1s_write. rewrite rupd_same. unfold clr_bit. apply Z.bits_inj'. intros j Hj.
  rewrite Z.lor_spec, Z.land_spec. by destruct (Z.testbit (r i) j).
Qed.
Lemma w1s_disable_all r i b j : w1s_write r i (clr_bit 32 (r i) b) j = r j.
Proof.
  destruct (decide (j = i)) as [->|]; [apply w1s_disable|]. unfold w1s_write. by rewrite rupd_other.
Qed.
Lemma nvic_disable_noop r irq i : nvic_enabled (nvic_disable r irq) i = nvic_enabled r i.
Proof. unfold nvic_enabled, nvic_disable. by rewrite w1s_disable_all. Qed.
Lemma nvic6_disable_noop r irq i : nvic6_enabled (nvic6_disable r irq) i = nvic6_enabled r i.
Proof. unfold nvic6_enabled, nvic6_disable. by rewrite w1s_disable_all. Qed.
Lemma pfic_disable_noop r irq i : pfic_enabled (pfic_disable r irq) i = pfic_enabled r i.
Proof. unfold pfic_enabled, pfic_disable. by rewrite w1s_disable_all. Qed.

Lemma w1s_set r i v j : w1s_write r i v j = if j =? i then Z.lor (r i) v else r j.
Proof. unfold w1s_write, rupd. done. Qed.
Lemma w1s_enable_bit r i b j c : 0 <= b ->
  Z.testbit (w1s_write r i (set_bit (r i) b) j) c = Z.testbit (r j) c || ((j =? i) && (c =? b)).
Proof.
  intros Hb. rewrite w1s_set. destruct (j =? i) eqn:E; [|by rewrite orb_false_r].
  apply Z.eqb_eq in E. subst j. rewrite Z.lor_spec, set_bit_spec by lia.
  by destruct (Z.testbit (r i) c).
Qed.
Lemma nvic_enable_ok n : enable_ok n nvic_enable nvic_enabled.
Proof.
  intros r irq H. unfold nvic_enable, nvic_enabled. destruct (low5 irq) as [-> ->]; [lia|].
  pose proof (Z.mod_pos_bound irq 32 ltac:(lia)). split.
  - rewrite w1s_enable_bit by lia. by rewrite !Z.eqb_refl, orb_true_r.
  - intros i Hi Hne. destruct (low5 i) as [-> ->]; [lia|]. rewrite w1s_enable_bit by lia.
    destruct (i / 32 =? irq / 32) eqn:E; [|by rewrite orb_false_r].
    rewrite (proj2 (Z.eqb_neq _ _)); [by rewrite orb_false_r|]. apply same_bit32; lia.
Qed.
Lemma nvic6_enable_ok n : enable_ok n nvic6_enable nvic6_enabled.
Proof.
  intros r irq H. unfold nvic6_enable, nvic6_enabled. split.
  - rewrite w1s_enable_bit by lia. by rewrite !Z.eqb_refl, orb_true_r.
  - intros i Hi Hne. rewrite w1s_enable_bit by lia. rewrite (proj2 (Z.eqb_neq i irq)) by done. by rewrite orb_false_r.
Qed.
Lemma pfic_enable_ok n : enable_ok n pfic_enable pfic_enabled.
Proof.
  intros r irq H. unfold pfic_enable, pfic_enabled.
  assert (0 <= pfic_bit irq) by (unfold pfic_bit; destruct (irq <? 16) eqn:E; lia). split.
  - rewrite w1s_enable_bit by lia. by rewrite !Z.eqb_refl, orb_true_r.
  - intros i Hi Hne. rewrite w1s_enable_bit by lia.
    assert (E : (pfic_reg i =? pfic_reg irq) && (pfic_bit i =? pfic_bit irq) = false); [|by rewrite E, orb_false_r].
    unfold pfic_reg, pfic_bit. destruct (i <? 16) eqn:E1, (irq <? 16) eqn:E2; cbn; lia.
Qed.

(** c28x *)
Lemma pie_low_ub en r irq : length r = 12%nat -> 32 <= irq < 128 -> pie_set en r irq = UB.
Proof.
  intros Hl H. unfold pie_set, pie_index. rewrite (proj2 (Z.ltb_lt irq 128)) by lia.
  unfold wrap. replace ((irq - 128) mod 2 ^ 16) with (irq - 128 + 2 ^ 16)
    by (rewrite <- (Z_mod_plus_full (irq - 128) 1), Z.mod_small; lia).
  rewrite Z.shiftr_div_pow2 by lia. unfold aget.
  assert (B : 12 <= (irq - 128 + 2 ^ 16) / 2 ^ 3) by (apply Z.div_le_lower_bound; lia).
  destruct (_ <? 0); [done|]. rewrite lookup_ge_None_2; [done|]. lia.
Qed.
Lemma pie_high_ok en r irq : length r = 12%nat -> 128 <= irq < 224 ->
  exists r', pie_set en r irq = Ok r' /\ length r' = 12%nat /\ pie_enabled r' irq = en /\
    forall i, 32 <= i < 224 -> i <> irq -> pie_enabled r' i = pie_enabled r i.
Proof.
  intros Hl H. unfold pie_set, pie_index, pie_bit. rewrite (proj2 (Z.ltb_ge irq 128)) by lia.
  assert (E7 : Z.land 7 irq = irq mod 8) by (rewrite Z.land_comm; change 7 with (Z.ones 3); by rewrite Z.land_ones by lia).
  assert (E127 : Z.shiftr (Z.land 127 irq) 3 = (irq - 128) / 8).
  { rewrite Z.land_comm. change 127 with (Z.ones 7). rewrite Z.land_ones by lia.
    rewrite Z.shiftr_div_pow2 by lia. change (2 ^ 7) with 128. change (2 ^ 3) with 8.
    f_equal. rewrite <- (Z_mod_plus_full irq (-1)). rewrite Z.mod_small; lia. }
  rewrite E7, E127. set (k := (irq - 128) / 8).
  assert (Hk : 0 <= k < 12) by (unfold k; split; [apply Z.div_pos; lia|apply Z.div_lt_upper_bound; lia]).
  unfold aget. rewrite (proj2 (Z.ltb_ge k 0)) by lia.
  destruct (lookup_lt_is_Some_2 r (Z.to_nat k)) as [v Hv]; [lia|]. rewrite Hv. cbn [rbind].
  unfold aset. rewrite (proj2 (Z.leb_le 0 k)), (proj2 (Z.ltb_lt k _)) by lia. cbn [andb].
  eexists. split; [done|]. split; [by rewrite insert_length|].
  pose proof (Z.mod_pos_bound irq 8 ltac:(lia)).
  split.
  - unfold pie_enabled. rewrite (proj2 (Z.ltb_ge irq 128)) by lia. fold k.
    rewrite list_lookup_insert by lia. destruct en.
    + rewrite set_bit_spec by lia. by rewrite Z.eqb_refl, orb_true_r.
    + rewrite clr_bit_spec by lia. by rewrite Z.eqb_refl, andb_false_r.
  - intros i Hi Hne. unfold pie_enabled. pose proof (Z.mod_pos_bound i 8 ltac:(lia)).
    set (j := if i <? 128 then (i - 32) / 8 else (i - 128) / 8).
    destruct (decide (Z.to_nat j = Z.to_nat k)) as [E|E].
    + rewrite E, list_lookup_insert by lia. rewrite Hv.
      assert (Hb : (if i <? 128 then i mod 8 else i mod 8 + 8) <> irq mod 8 + 8).
      { destruct (i <? 128) eqn:Ei; [lia|]. intros D. apply Hne.
        assert (0 <= j) by (unfold j; apply Z.div_pos; lia).
        assert (Ej : j = k) by lia. unfold j, k in Ej.
        assert (X1 : i = 8 * (i / 8) + i mod 8) by (apply Z.div_mod; lia).
        assert (X2 : irq = 8 * (irq / 8) + irq mod 8) by (apply Z.div_mod; lia).
        assert (X3 : (i - 128) / 8 = i / 8 - 16) by (replace (i - 128) with (i + (-16) * 8) by lia; rewrite Z_div_plus_full; lia).
        assert (X4 : (irq - 128) / 8 = irq / 8 - 16) by (replace (irq - 128) with (irq + (-16) * 8) by lia; rewrite Z_div_plus_full; lia).
        lia. }
      assert (0 <= (if i <? 128 then i mod 8 else i mod 8 + 8) < 16) by (destruct (i <? 128); lia).
      destruct en.
      * rewrite set_bit_spec by lia. rewrite (proj2 (Z.eqb_neq _ _)) by done. by rewrite orb_false_r.
      * rewrite clr_bit_spec by lia. rewrite (proj2 (Z.eqb_neq _ _)) by done. by rewrite andb_true_r.
    + rewrite list_lookup_insert_ne by done. done.
Qed.

(** ** Delays *)
Lemma ceil_spec n d : 0 < d -> 0 <= n ->
  let t := (n + (d - 1)) / d in n <= t * d /\ forall t', n <= t' * d -> t <= t'.
Proof.
  intros Hd Hn t. unfold t. pose proof (Z.div_mod (n + (d - 1)) d ltac:(lia)).
  pose proof (Z.mod_pos_bound (n + (d - 1)) d ltac:(lia)). split; [lia|]. intros t' Ht'. nia.
Qed.
Lemma wrap_small w x : 0 <= x < 2 ^ w -> wrap w x = x.
Proof. intros. by apply Z.mod_small. Qed.

Lemma delay_elapsed_ok w n0 e x : 0 <= w -> 0 <= e < 2 ^ w ->
  delay_elapsed w (wrap w (n0 + e)) (wrap w n0) x = true <-> x <= e.
Proof.
  intros Hw He. unfold delay_elapsed, wrap. rewrite <- Zminus_mod.
  replace (n0 + e - n0) with e by lia. rewrite Z.mod_small by done. rewrite negb_true_iff. lia.
Qed.

(** ** xorshift32 *)
Definition shl (k x : Z) : Z := wrap 32 (Z.shiftl x k).
Definition w32 (x : Z) : Prop := 0 <= x < 2 ^ 32.
Lemma testbit_shl k x i : 0 <= k -> 0 <= i ->
  Z.testbit (shl k x) i = (i <? 32) && (k <=? i) && Z.testbit x (i - k).
Proof.
  intros Hk Hi. unfold shl, wrap. rewrite Z.testbit_mod_pow2 by lia.
  destruct (i <? 32) eqn:E; [|done]. rewrite Z.shiftl_spec by lia.
  destruct (k <=? i) eqn:E2; [done|]. cbn. apply Z.testbit_neg_r. lia.
Qed.
Lemma w32_bits x : w32 x <-> (0 <= x /\ forall i, 32 <= i -> Z.testbit x i = false).
Proof.
  unfold w32. split.
  - intros H. split; [lia|]. intros i Hi. destruct (decide (x = 0)) as [->|]; [apply Z.bits_0|].
    apply Z.bits_above_log2; [lia|]. assert (Z.log2 x < 32) by (apply Z.log2_lt_pow2; lia). lia.
  - intros [H0 H]. split; [done|]. destruct (decide (x = 0)) as [->|]; [done|].
    apply Z.log2_lt_pow2; [lia|]. destruct (decide (Z.log2 x < 32)) as [|Hn]; [done|].
    exfalso. assert (T : Z.testbit x (Z.log2 x) = true) by (apply Z.bit_log2; lia).
    rewrite H in T by lia. done.
Qed.
Lemma lxor_w32 x y : w32 x -> w32 y -> w32 (Z.lxor x y).
Proof.
  rewrite !w32_bits. intros [H0 H1] [H2 H3]. split.
  - apply Z.lxor_nonneg. lia.
  - intros i Hi. by rewrite Z.lxor_spec, H1, H3.
Qed.
Lemma shl_w32 k x : w32 (shl k x).
Proof. unfold shl, wrap, w32. apply Z.mod_pos_bound. lia. Qed.
Lemma shr_w32 k x : 0 <= k -> w32 x -> w32 (Z.shiftr x k).
Proof.
  intros Hk. rewrite !w32_bits. intros [H0 H1]. split; [by apply Z.shiftr_nonneg|].
  intros i Hi. rewrite Z.shiftr_spec by lia. apply H1. lia.
Qed.
Lemma shl_lxor k x y : 0 <= k -> shl k (Z.lxor x y) = Z.lxor (shl k x) (shl k y).
Proof.
  intros Hk. apply Z.bits_inj'. intros i Hi. rewrite Z.lxor_spec, !testbit_shl by lia. rewrite Z.lxor_spec.
  by destruct ((i <? 32) && (k <=? i)), (Z.testbit x (i - k)), (Z.testbit y (i - k)).
Qed.
Lemma shl_shl a b x : 0 <= a -> 0 <= b -> shl a (shl b x) = shl (a + b) x.
Proof.
  intros Ha Hb. apply Z.bits_inj'. intros i Hi. rewrite testbit_shl by lia.
  destruct ((i <? 32) && (a <=? i)) eqn:E.
  - rewrite !testbit_shl by lia. replace (i - a - b) with (i - (a + b)) by lia.
    replace ((i - a <? 32) && (b <=? i - a)) with ((i <? 32) && (a + b <=? i)) by lia. done.
  - cbn [andb]. rewrite (testbit_shl (a + b)) by lia. replace ((i <? 32) && (a + b <=? i)) with false by lia. done.
Qed.
Lemma shl_big k x : 32 <= k -> shl k x = 0.
Proof.
  intros Hk. apply Z.bits_inj'. intros i Hi. rewrite testbit_shl, Z.bits_0 by lia.
  replace ((i <? 32) && (k <=? i)) with false by lia. done.
Qed.

(** Inverses of the three steps. *)
Definition inv13 (y : Z) : Z := Z.lxor y (Z.lxor (shl 13 y) (shl 26 y)).
Definition inv17 (y : Z) : Z := Z.lxor y (Z.shiftr y 17).
Definition inv5 (y : Z) : Z :=
  Z.lxor y (Z.lxor (shl 5 y) (Z.lxor (shl 10 y) (Z.lxor (shl 15 y) (Z.lxor (shl 20 y) (Z.lxor (shl 25 y) (shl 30 y)))))).
Ltac xor_bits := apply Z.bits_inj'; intros i Hi; rewrite ?Z.lxor_spec, ?Z.bits_0;
  repeat match goal with |- context [Z.testbit ?x i] => destruct (Z.testbit x i) end; reflexivity.
Lemma step13_inv x : Z.lxor (inv13 x) (shl 13 (inv13 x)) = x /\ inv13 (Z.lxor x (shl 13 x)) = x.
Proof.
  unfold inv13. rewrite !shl_lxor, !shl_shl by lia.
  change (13 + 13) with 26. change (13 + 26) with 39. change (26 + 13) with 39. rewrite !(shl_big 39) by lia. split; xor_bits.
Qed.
Lemma step5_inv x : Z.lxor (inv5 x) (shl 5 (inv5 x)) = x /\ inv5 (Z.lxor x (shl 5 x)) = x.
Proof.
  unfold inv5. rewrite !shl_lxor, !shl_shl by lia.
  change (5 + 5) with 10. change (5 + 5) with 10.
  change (5 + 10) with 15. change (10 + 5) with 15.
  change (5 + 15) with 20. change (15 + 5) with 20.
  change (5 + 20) with 25. change (20 + 5) with 25.
  change (5 + 25) with 30. change (25 + 5) with 30.
  change (5 + 30) with 35. change (30 + 5) with 35.
  rewrite !(shl_big 35) by lia. split; xor_bits.
Qed.
Lemma shr_lxor k x y : Z.shiftr (Z.lxor x y) k = Z.lxor (Z.shiftr x k) (Z.shiftr y k).
Proof. apply Z.shiftr_lxor. Qed.
Lemma step17_inv x : w32 x -> Z.lxor (inv17 x) (Z.shiftr (inv17 x) 17) = x.
Proof.
  intros Hx. unfold inv17. rewrite shr_lxor, Z.shiftr_shiftr by lia.
  assert (E : Z.shiftr x (17 + 17) = 0).
  { apply Z.bits_inj'. intros i Hi. rewrite Z.shiftr_spec, Z.bits_0 by lia. apply w32_bits in Hx as [_ Hx]. apply Hx. lia. }
  rewrite E. xor_bits.
Qed.

Definition xorshift_inv (y : Z) : Z := inv13 (inv17 (inv5 y)).
Lemma inv13_w32 y : w32 y -> w32 (inv13 y).
Proof. intros. unfold inv13. auto using lxor_w32, shl_w32. Qed.
Lemma inv17_w32 y : w32 y -> w32 (inv17 y).
Proof. intros. unfold inv17. apply lxor_w32; [done|]. apply shr_w32; [lia|done]. Qed.
Lemma inv5_w32 y : w32 y -> w32 (inv5 y).
Proof. intros. unfold inv5. repeat apply lxor_w32; auto using shl_w32. Qed.
Lemma xorshift_w32 x : w32 x -> w32 (xorshift32 x).
Proof.
  intros H. unfold xorshift32. fold (shl 13 x).
  set (v1 := Z.lxor x (shl 13 x)). assert (H1 : w32 v1) by (apply lxor_w32; auto using shl_w32).
  set (v2 := Z.lxor v1 (Z.shiftr v1 17)). assert (H2 : w32 v2) by (apply lxor_w32; [done|]; apply shr_w32; [lia|done]).
  apply lxor_w32; [done|]. apply shl_w32.
Qed.
Lemma xorshift_right y : w32 y -> xorshift32 (xorshift_inv y) = y.
Proof.
  intros Hy. unfold xorshift32, xorshift_inv.
  set (b := inv5 y). assert (Hb : w32 b) by (by apply inv5_w32).
  set (a := inv17 b). change (wrap 32 (Z.shiftl (inv13 a) 13)) with (shl 13 (inv13 a)).
  rewrite (proj1 (step13_inv a)). unfold a. rewrite step17_inv by done.
  change (wrap 32 (Z.shiftl b 5)) with (shl 5 b). unfold b. apply step5_inv.
Qed.
Lemma xorshift_left x : w32 x -> xorshift_inv (xorshift32 x) = x.
Proof.
  intros Hx. unfold xorshift32, xorshift_inv.
  change (wrap 32 (Z.shiftl x 13)) with (shl 13 x).
  set (v1 := Z.lxor x (shl 13 x)). assert (H1 : w32 v1) by (apply lxor_w32; auto using shl_w32).
  set (v2 := Z.lxor v1 (Z.shiftr v1 17)).
  change (wrap 32 (Z.shiftl v2 5)) with (shl 5 v2). rewrite (proj2 (step5_inv v2)).
  assert (E : inv17 v2 = v1).
  { unfold v2. pose proof (step17_inv v1 H1) as E. unfold inv17 in *. exact E. }
  rewrite E. apply step13_inv.
Qed.
Lemma xorshift_inj x y : w32 x -> w32 y -> xorshift32 x = xorshift32 y -> x = y.
Proof. intros Hx Hy E. rewrite <- (xorshift_left x), <- (xorshift_left y) by done. by rewrite E. Qed.
Lemma xorshift_0 : xorshift32 0 = 0.
Proof. reflexivity. Qed.
Lemma xorshift_nonzero x : w32 x -> x <> 0 -> xorshift32 x <> 0.
Proof. intros Hx Hn E. apply Hn. apply xorshift_inj; [done|done|]. by rewrite E. Qed.

(** ** rng_read *)
Lemma rng_chunk_spec c pool : let '(bs, c') := rng_chunk c pool in
  c = (length bs + c')%nat /\ Forall (fun b => 0 <= b < 256) bs /\ (c' < c \/ c = 0)%nat.
Proof.
  assert (B : forall k, 0 <= wrap 8 (Z.shiftr pool k) < 256).
  { intros k. unfold wrap. change 256 with (2 ^ 8). apply Z.mod_pos_bound. lia. }
  destruct c as [|[|[|[|c]]]]; cbn; (split; [lia|]); (split; [repeat constructor; apply B|]); lia.
Qed.
Lemma rng_loop_spec fuel c pool : (0 < c <= fuel)%nat -> w32 pool ->
  exists bs pool', rng_loop fuel c pool = Ok (bs, 0%nat, pool') /\ length bs = c /\
    Forall (fun b => 0 <= b < 256) bs /\ w32 pool' /\ (pool <> 0 -> pool' <> 0) /\
    (pool = 0 -> pool' = 0 /\ Forall (fun b => b = 0) bs).
Proof.
  revert c pool. induction fuel as [|f IH]; intros c pool Hc Hp; [lia|]. cbn [rng_loop].
  pose proof (rng_chunk_spec c pool) as Hs. 
  assert (Hz : pool = 0 -> Forall (fun b => b = 0) (rng_chunk c pool).1).
  { intros ->. destruct c as [|[|[|[|c]]]]; cbn; repeat constructor. }
  destruct (rng_chunk c pool) as [bs c'] eqn:Ec.
  destruct Hs as (H1 & H2 & H3). destruct (0 <? c')%nat eqn:E.
  - destruct (IH c' (xorshift32 pool)) as (bs' & pool' & E' & L & F & W & N & Zr); [lia|by apply xorshift_w32|].
    rewrite E'. cbn [rbind]. eexists _, _. split; [done|]. rewrite app_length. split; [lia|].
    split; [by apply Forall_app|]. split; [done|]. split.
    + intros Hn. apply N. by apply xorshift_nonzero.
    + intros Hn. destruct Zr as [Z1 Z2]; [by rewrite Hn|]. split; [done|]. apply Forall_app. split; [by apply Hz|done].
  - assert (c' = 0%nat) as -> by lia. eexists _, _. split; [done|]. split; [lia|]. split; [done|].
    split; [by apply xorshift_w32|]. split.
    + by apply xorshift_nonzero.
    + intros ->. split; [done|]. by apply Hz.
Qed.

Lemma rng_read_spec n pool : w32 pool -> (0 < n)%nat ->
  exists bs pool', rng_read n pool = Ok (Z.of_nat n, bs, pool') /\ length bs = n /\
    Forall (fun b => 0 <= b < 256) bs /\ w32 pool' /\ (pool <> 0 -> pool' <> 0) /\
    (pool = 0 -> pool' = 0 /\ Forall (fun b => b = 0) bs).
Proof.
  intros Hp Hn. destruct (rng_loop_spec n n pool) as (bs & pool' & E & H); [lia|done|].
  unfold rng_read. destruct n as [|n]; [lia|]. rewrite E. cbn [rbind]. rewrite Z.sub_0_r. eauto.
Qed.
Lemma rng_history_spec ns pool : w32 pool ->
  exists bs pool', rng_history ns pool = Ok (pool', bs) /\ w32 pool' /\ (pool <> 0 -> pool' <> 0) /\
    length bs = sum_list ns /\ (pool = 0 -> pool' = 0 /\ Forall (fun b => b = 0) bs).
Proof.
  revert pool. induction ns as [|n ns IH]; intros pool Hp; cbn [rng_history].
  { eexists [], pool. split; [done|]. split; [exact Hp|]. split; [done|]. split; [done|]. intros ->. by split. }
  assert (R : exists r bs pool', rng_read n pool = Ok (r, bs, pool') /\ length bs = n /\ w32 pool' /\
    (pool <> 0 -> pool' <> 0) /\ (pool = 0 -> pool' = 0 /\ Forall (fun b => b = 0) bs)).
  { destruct n as [|n].
    - eexists _, [], pool. split; [reflexivity|]. split; [done|]. split; [exact Hp|]. split; [done|]. intros ->. by split.
    - destruct (rng_read_spec (S n) pool Hp) as (bs & pool' & H1 & H2 & H3 & H4 & H5 & H6); [lia|].
      eexists _, _, _. split; [exact H1|]. done. }
  destruct R as (r & bs & pool' & E & L & W & N & Z0). rewrite E. cbn [rbind].
  destruct (IH pool' W) as (bs' & pool'' & E' & W' & N' & L' & Z'). rewrite E'. cbn [rbind].
  eexists _, _. split; [done|]. split; [done|]. split; [auto|]. split; [rewrite app_length; cbn; lia|].
  intros H0. destruct (Z0 H0) as [Hp' F1]. destruct (Z' Hp') as [? F2]. split; [done|]. by apply Forall_app.
Qed.

(** ** SMP interrupt masks *)
Lemma psr4_smp_disable_ok n : smp_disable_ok 3 n psr4_smp_disable psr4_enabled.
Proof.
  intros m r irq Hm _. unfold psr4_smp_disable, psr4_enabled. split.
  - intros c Hc. rewrite rupd_same. rewrite <- Z.land_assoc.
    assert (E : Z.land (Z.ldiff (Z.ones 16) (psr4_mask m)) 15 = 15 /\
                Z.testbit (Z.ldiff (Z.ones 16) (psr4_mask m)) (15 - c) = negb (core_in m c)).
    { assert (m = 1 \/ m = 2 \/ m = 3 \/ m = 4 \/ m = 5 \/ m = 6 \/ m = 7) as Hm' by lia.
      assert (c = 0 \/ c = 1 \/ c = 2) as Hc' by lia.
      destruct Hm' as [->|[->|[->|[->|[->|[->| ->]]]]]], Hc' as [->|[->| ->]]; split; reflexivity. }
    destruct E as [E1 E2]. rewrite E1, Z.land_spec, E2.
    by destruct (Z.testbit (r irq) (15 - c)), (negb (Z.land (r irq) 15 =? 0)), (negb (core_in m c)).
  - intros c i _ Hne. by rewrite rupd_other.
Qed.
Definition psr7_valid (x : Z) : Prop := 0 <= x < 256 /\ Z.shiftr x 6 <> 2.
Lemma psr7_valid_cases x : psr7_valid x ->
  (Z.shiftr x 6 = 0 \/ Z.shiftr x 6 = 1 \/ Z.shiftr x 6 = 3).
Proof.
  intros [H1 H2]. rewrite Z.shiftr_div_pow2 in * by lia. change (2 ^ 6) with 64 in *.
  assert (0 <= x / 64 < 4) by (split; [apply Z.div_pos; lia|apply Z.div_lt_upper_bound; lia]). lia.
Qed.
Lemma lor1_prio x : (Z.land (Z.lor x 1) 15 =? 0) = false.
Proof.
  apply Z.eqb_neq. intros E. assert (B : Z.testbit (Z.land (Z.lor x 1) 15) 0 = false) by (by rewrite E).
  rewrite Z.land_spec, Z.lor_spec in B. change (Z.testbit 1 0) with true in B. change (Z.testbit 15 0) with true in B.
  by rewrite orb_true_r in B.
Qed.
Lemma lor1_sel x : Z.shiftr (Z.lor x 1) 6 = Z.shiftr x 6.
Proof. rewrite Z.shiftr_lor. change (Z.shiftr 1 6) with 0. apply Z.lor_0_r. Qed.
Lemma psr7_smp_enable_ok n : smp_enable_ok 2 n psr7_valid psr7_smp_enable psr7_enabled.
Proof.
  intros m r irq Hm _ Hv. unfold psr7_smp_enable, psr7_enabled. split.
  - intros c Hc. rewrite rupd_same. change (Z.land 1 15) with 1. rewrite lor1_prio, lor1_sel.
    assert (m = 1 \/ m = 2 \/ m = 3) as Hm' by lia. assert (c = 0 \/ c = 1) as Hc' by lia.
    destruct (Z.land (r irq) 15 =? 0) eqn:E.
    + destruct Hm' as [->|[->| ->]], Hc' as [->| ->]; reflexivity.
    + destruct (psr7_valid_cases _ Hv) as [E6|[E6|E6]]; rewrite E6;
        destruct Hm' as [->|[->| ->]], Hc' as [->| ->]; 
        try change (Z.land 1 2) with 0; try change (Z.land 2 2) with 2; try change (Z.land 3 2) with 2;
        try change (Z.land 1 1) with 1; try change (Z.land 2 1) with 0; try change (Z.land 3 1) with 1;
        cbn; rewrite ?E6; reflexivity.
  - intros c i _ Hne. by rewrite rupd_other.
Qed.
