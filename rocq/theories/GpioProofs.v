(** GpioProofs.v - gpio drivers under any interleaving. *)
From Verif Require Import Base GpioModel GpioSpec.

Lemma pin_eq a b c a' b' c' : a = a' -> b = b' -> c = c' -> mkPin a b c = mkPin a' b' c'.
Proof. congruence. Qed.
Lemma testbit_pow2 b b' : 0 <= b -> Z.testbit (2 ^ b) b' = bool_decide (b' = b).
Proof.
  intros H. destruct (decide (b' = b)) as [->|Hne].
  - rewrite Z.pow2_bits_true by done. by rewrite bool_decide_true.
  - rewrite Z.pow2_bits_false by congruence. by rewrite bool_decide_false.
Qed.
Lemma land_pow2 x b : 0 <= b -> (Z.land x (2 ^ b) =? 0) = negb (Z.testbit x b).
Proof.
  intros H. destruct (Z.testbit x b) eqn:E; cbn.
  - apply Z.eqb_neq. intros E2. assert (Z.testbit (Z.land x (2 ^ b)) b = true).
    { rewrite Z.land_spec, E, Z.pow2_bits_true by done. done. }
    rewrite E2, Z.bits_0 in H0. done.
  - apply Z.eqb_eq. apply Z.bits_inj'. intros n Hn. rewrite Z.land_spec, Z.bits_0, testbit_pow2 by done.
    case_bool_decide; [subst; by rewrite E|]. apply andb_false_r.
Qed.

(** A write, seen from a pin. *)
Definition wr_pin (r : greg) (v b : Z) (n : pin) : pin :=
  match r with
  | OUT => mkPin (Z.testbit v b) (n_dir n) (n_ext n)
  | IN => n
  | SET => mkPin (n_out n || Z.testbit v b) (n_dir n) (n_ext n)
  | CLR => mkPin (n_out n && negb (Z.testbit v b)) (n_dir n) (n_ext n)
  | XOR => mkPin (xorb (n_out n) (Z.testbit v b)) (n_dir n) (n_ext n)
  | BSRR => mkPin (n_out n && negb (Z.testbit (Z.shiftr v 16) b) || Z.testbit (Z.land v 65535) b) (n_dir n) (n_ext n)
  | DIRSET => mkPin (n_out n) (n_dir n || Z.testbit v b) (n_ext n)
  | DIRCLR => mkPin (n_out n) (n_dir n && negb (Z.testbit v b)) (n_ext n)
  end.
Lemma wr_pin_ok r v b p : pin_of b (wr_reg r v p) = wr_pin r v b (pin_of b p).
Proof.
  destruct r; unfold pin_of; cbn [wr_reg wr_pin p_out p_dir p_ext n_out n_dir n_ext]; try done;
    apply pin_eq; try done; rewrite ?Z.lor_spec, ?Z.ldiff_spec, ?Z.lxor_spec; done.
Qed.
Definition canon (r : greg) (b : Z) (n : pin) : Z :=
  if match r with IN => level n | _ => n_out n end then 2 ^ b else 0.
Lemma canon_ok r b p : 0 <= b -> Z.testbit (rd_reg r p) b = Z.testbit (canon r b (pin_of b p)) b.
Proof.
  intros H. unfold canon.
  assert (E : forall x, Z.testbit (if x : bool then 2 ^ b else 0) b = x).
  { intros []; [by apply Z.pow2_bits_true|apply Z.bits_0]. }
  rewrite E. destruct r; try done. cbn [rd_reg]. rewrite Z.lor_spec, Z.land_spec, Z.ldiff_spec.
  unfold level, pin_of. cbn [n_dir n_out n_ext]. destruct (Z.testbit (p_dir p) b), (Z.testbit (p_out p) b), (Z.testbit (p_ext p) b); done.
Qed.

(** Code that only uses its pin. *)
Inductive local (b : Z) : gcode -> Prop :=
| L_ret r : local b (Ret r)
| L_rd r k : (forall x y, Z.testbit x b = Z.testbit y b -> k x = k y) -> (forall x, local b (k x)) -> local b (Rd r k)
| L_wr r v k : (forall b' n, 0 <= b' -> b' <> b -> wr_pin r v b' n = n) -> local b k -> local b (Wr r v k).

(** What it does with it: the output goes from what it is to [new] at once, [n'] is left, [res] returned. *)
Fixpoint does (b : Z) (new : bool) (n' : pin) (res : bool) (n : pin) (c : gcode) : Prop :=
  match c with
  | Ret r => n = n' /\ r = res /\ n_out n = new
  | Rd r k => does b new n' res n (k (canon r b n))
  | Wr r v k => (n_out (wr_pin r v b n) = n_out n \/ n_out (wr_pin r v b n) = new) /\ does b new n' res (wr_pin r v b n) k
  end.

Lemma set_local r b : 0 <= b -> In r [SET; CLR; XOR; DIRSET; DIRCLR] ->
  forall b' n, 0 <= b' -> b' <> b -> wr_pin r (2 ^ b) b' n = n.
Proof.
  intros Hb Hr b' n Hb' Hne. assert (E : Z.testbit (2 ^ b) b' = false) by (rewrite testbit_pow2 by done; by rewrite bool_decide_false).
  cbn in Hr. destruct n as [o d e].
  destruct Hr as [<-|[<-|[<-|[<-|[<-|[]]]]]]; cbn [wr_pin n_out n_dir n_ext]; rewrite E; cbn [negb];
    rewrite ?orb_false_r, ?andb_true_r, ?xorb_false_r; done.
Qed.
Lemma bsrr_low b b' : 0 <= b < 16 -> 0 <= b' -> Z.testbit (Z.shiftr (2 ^ b) 16) b' = false /\ Z.testbit (Z.land (2 ^ b) 65535) b' = bool_decide (b' = b).
Proof.
  intros Hb Hb'. split.
  - rewrite Z.shiftr_spec by done. rewrite testbit_pow2 by lia. apply bool_decide_false. lia.
  - rewrite Z.land_spec, testbit_pow2 by lia. case_bool_decide as H; [|done]. subst b'.
    change 65535 with (Z.ones 16). rewrite Z.ones_spec_low by lia. done.
Qed.
Lemma bsrr_high b b' : 0 <= b < 16 -> 0 <= b' ->
  Z.testbit (Z.shiftr (Z.shiftl (2 ^ b) 16) 16) b' = bool_decide (b' = b) /\ Z.testbit (Z.land (Z.shiftl (2 ^ b) 16) 65535) b' = false.
Proof.
  intros Hb Hb'. split.
  - rewrite Z.shiftr_shiftl_l by lia. replace (16 - 16) with 0 by lia. rewrite Z.shiftl_0_r. apply testbit_pow2; lia.
  - rewrite Z.land_spec, Z.shiftl_spec by done. rewrite testbit_pow2 by lia. case_bool_decide as H; [|done].
    change 65535 with (Z.ones 16). rewrite Z.ones_spec_high by lia. done.
Qed.
Lemma bsrr_local b v : 0 <= b < 16 -> v = 2 ^ b \/ v = Z.shiftl (2 ^ b) 16 ->
  forall b' n, 0 <= b' -> b' <> b -> wr_pin BSRR v b' n = n.
Proof.
  intros Hb Hv b' n Hb' Hne. destruct n as [o d e]. cbn [wr_pin n_out n_dir n_ext].
  destruct Hv as [->| ->].
  - destruct (bsrr_low b b') as [-> ->]; [done|done|]. rewrite bool_decide_false by done. cbn. by rewrite andb_true_r, orb_false_r.
  - destruct (bsrr_high b b') as [-> ->]; [done|done|]. rewrite bool_decide_false by done. cbn. by rewrite andb_true_r, orb_false_r.
Qed.

Lemma pin_range_0 d b : pin_range d b -> 0 <= b.
Proof. unfold pin_range. destruct d; lia. Qed.
Lemma code_local d c o : pin_only d -> pin_range d (g_bit c) -> local (g_bit c) (op_code d c o).
Proof.
  intros Hd Hr. pose proof (pin_range_0 _ _ Hr) as H0.
  assert (S1 : forall r k, In r [SET; CLR; XOR; DIRSET; DIRCLR] -> local (g_bit c) k -> local (g_bit c) (Wr r (g_mask c) k)).
  { intros r k Hin Hk. constructor; [by apply set_local|done]. }
  assert (SV : forall (v : bool) k, local (g_bit c) k -> local (g_bit c) (Wr (if v then SET else CLR) (g_mask c) k)).
  { intros [] k Hk; apply S1; cbn; auto. }
  assert (SB : pin_range d (g_bit c) -> (d = Ra4 \/ d = Stm32h7xx) -> forall v : bool, local (g_bit c) (Wr BSRR (if v then g_mask c else Z.shiftl (g_mask c) 16) (Ret false))).
  { intros Hr' Hd' v. constructor; [|constructor]. apply bsrr_local.
    - unfold pin_range in Hr'. destruct Hd' as [-> | ->]; lia.
    - destruct v; [by left|by right]. }
  assert (SR : local (g_bit c) (Rd IN (fun x => Ret (xorb (negb (Z.land x (g_mask c) =? 0)) (g_inv c))))).
  { constructor; [|constructor]. intros x y E. unfold g_mask. rewrite !land_pow2 by done. by rewrite E. }
  destruct o as [v| |].
  - destruct d; try done; unfold op_code, gpio_write; cbv zeta iota beta; try solve [apply SV; constructor].
    + apply SV. apply S1; [cbn; auto 10|constructor].
    + apply SB; auto.
  - destruct d; try done; unfold op_code, gpio_read; cbv zeta iota beta; try exact SR. apply S1; [cbn; auto 10|exact SR].
  - destruct d; try done; unfold op_code, gpio_toggle; cbv zeta iota beta.
    + apply S1; [cbn; auto 10|constructor].
    + apply S1; [cbn; auto 10|constructor].
    + apply S1; [cbn; auto 10|constructor].
    + apply S1; [cbn; auto 10|]. apply S1; [cbn; auto 10|constructor].
    + constructor.
      * intros x y E. unfold g_mask. rewrite !land_pow2 by done. by rewrite E.
      * intros x. unfold gpio_write. cbv zeta iota beta. apply SB; auto.
    + apply S1; [cbn; auto 10|constructor].
    + constructor.
      * intros x y E. unfold g_mask. rewrite !land_pow2 by done. by rewrite E.
      * intros x. destruct (negb _); apply S1; cbn; auto 10 using L_ret.
    + constructor.
      * intros x y E. unfold g_mask. rewrite !land_pow2 by done. by rewrite E.
      * intros x. destruct (negb _); apply S1; cbn; auto 10 using L_ret.
Qed.

(** What each call does to its pin. *)
Definition spec_pin (d : gdrv) (c : gctx) (o : gop) (n : pin) : pin :=
  mkPin (spec_out (g_inv c) o (n_out n))
        (match d, o with TinyAvr, OpRead => false | TinyAvr, _ => true | _, _ => n_dir n end) (n_ext n).
Definition spec_res (d : gdrv) (c : gctx) (o : gop) (n : pin) : bool :=
  match o with OpRead => xorb (match d with TinyAvr => n_ext n | _ => level n end) (g_inv c) | _ => false end.
Lemma land_canon c r n : 0 <= g_bit c ->
  (Z.land (canon r (g_bit c) n) (g_mask c) =? 0) = negb (match r with IN => level n | _ => n_out n end).
Proof.
  intros H. unfold g_mask. rewrite land_pow2 by done. f_equal. unfold canon.
  destruct (match r with IN => level n | _ => n_out n end); [by apply Z.pow2_bits_true|apply Z.bits_0].
Qed.
Lemma mask_self c : 0 <= g_bit c -> Z.testbit (g_mask c) (g_bit c) = true.
Proof. intros H. by apply Z.pow2_bits_true. Qed.
Lemma code_does d c o n : pin_range d (g_bit c) -> (d = Ra4 -> o = OpToggle -> g_inv c = false) ->
  does (g_bit c) (spec_out (g_inv c) o (n_out n)) (spec_pin d c o n) (spec_res d c o n) n (op_code d c o).
Proof.
  intros Hr Hinv. pose proof (pin_range_0 _ _ Hr) as H0. pose proof (mask_self c H0) as Hm.
  destruct n as [ob db eb]. 
  assert (L1 : 0 <= g_bit c < 16 -> Z.testbit (Z.shiftr (g_mask c) 16) (g_bit c) = false /\ Z.testbit (Z.land (g_mask c) 65535) (g_bit c) = true).
  { intros Hb. destruct (bsrr_low (g_bit c) (g_bit c)) as [A B]; [done|lia|]. unfold g_mask. rewrite A, B. by rewrite bool_decide_true. }
  assert (L2 : 0 <= g_bit c < 16 -> Z.testbit (Z.shiftr (Z.shiftl (g_mask c) 16) 16) (g_bit c) = true /\ Z.testbit (Z.land (Z.shiftl (g_mask c) 16) 65535) (g_bit c) = false).
  { intros Hb. destruct (bsrr_high (g_bit c) (g_bit c)) as [A B]; [done|lia|]. unfold g_mask. rewrite A, B. by rewrite bool_decide_true. }
  assert (CT : forall r b, Z.testbit (canon r (g_bit c) b) (g_bit c) = match r with IN => level b | _ => n_out b end).
  { intros r b. unfold canon. destruct (match r with IN => level b | _ => n_out b end); [by apply Z.pow2_bits_true|apply Z.bits_0]. }
  destruct o as [v| |].
  - destruct d; unfold op_code, gpio_write; cbv zeta iota beta; cbn [spec_out spec_pin spec_res does n_out]; destruct (xorb v (g_inv c)) eqn:Ev;
      cbn [wr_pin n_out n_dir n_ext];
      rewrite ?Z.lor_spec, ?Z.ldiff_spec, ?Hm, ?CT; cbn [n_out negb];
      try (destruct L1 as [-> ->]; [unfold pin_range in Hr; lia|]); try (destruct L2 as [-> ->]; [unfold pin_range in Hr; lia|]);
      unfold spec_pin, spec_out; cbn [n_out n_dir n_ext negb]; rewrite ?Ev, ?orb_true_r, ?andb_false_r; cbn [orb andb]; auto.
  - destruct d; unfold op_code, gpio_read; cbv zeta iota beta; cbn [spec_out spec_pin spec_res does n_out wr_pin n_dir n_ext];
      rewrite ?land_canon by done; unfold level; cbn [n_out n_dir n_ext]; rewrite ?negb_involutive, ?Hm; cbn [negb];
      rewrite ?andb_false_r; auto.
  - destruct d; unfold op_code, gpio_toggle; cbv zeta iota beta; cbn [spec_out spec_pin spec_res does n_out wr_pin n_dir n_ext];
      rewrite ?land_canon by done; cbn [n_out]; rewrite ?negb_involutive, ?Z.lxor_spec, ?Hm, ?CT; cbn [n_out n_dir n_ext];
      rewrite ?xorb_true_r, ?orb_true_r; auto.
    + (* ra4 *) unfold gpio_write; cbv zeta iota beta. rewrite (Hinv eq_refl eq_refl), xorb_false_r.
      destruct ob; cbn [negb does wr_pin n_out n_dir n_ext];
      try (destruct L1 as [-> ->]; [unfold pin_range in Hr; lia|]); try (destruct L2 as [-> ->]; [unfold pin_range in Hr; lia|]); cbn; auto.
    + destruct ob; cbn [does wr_pin n_out n_dir n_ext negb]; rewrite Hm; cbn; auto.
    + destruct ob; cbn [does wr_pin n_out n_dir n_ext negb]; rewrite Hm; cbn; auto.
Qed.

(** ** Interleavings *)
Fixpoint spec_pins (d : gdrv) (c : gctx) (l : list gop) (n : pin) : pin :=
  match l with [] => n | o :: l => spec_pins d c l (spec_pin d c o n) end.
Fixpoint spec_results (d : gdrv) (c : gctx) (l : list gop) (n : pin) : list bool :=
  match l with [] => [] | o :: l => spec_res d c o n :: spec_results d c l (spec_pin d c o n) end.
Lemma spec_pins_app d c l l' n : spec_pins d c (l ++ l') n = spec_pins d c l' (spec_pins d c l n).
Proof. revert n. induction l as [|o l IH]; intros n; cbn; [done|apply IH]. Qed.
Lemma spec_results_app d c l l' n : spec_results d c (l ++ l') n = spec_results d c l n ++ spec_results d c l' (spec_pins d c l n).
Proof. revert n. induction l as [|o l IH]; intros n; cbn; [done|by rewrite IH]. Qed.
Lemma spec_results_length d c l n : length (spec_results d c l n) = length l.
Proof. revert n. induction l as [|o l IH]; intros n; cbn; [done|by rewrite IH]. Qed.

Definition ginv (d : gdrv) (p0 p : port) (t0 t : gtask) : Prop :=
  t_ctx t = t_ctx t0 /\ exists l,
    let n := spec_pins d (t_ctx t0) l (pin_of (g_bit (t_ctx t0)) p0) in
    t_seen t = spec_results d (t_ctx t0) l (pin_of (g_bit (t_ctx t0)) p0) /\
    match t_now t with
    | None => t_todo t0 = l ++ t_todo t /\ pin_of (g_bit (t_ctx t0)) p = n
    | Some c => exists o, t_todo t0 = l ++ o :: t_todo t /\ local (g_bit (t_ctx t0)) c /\
        (n_out (pin_of (g_bit (t_ctx t0)) p) = n_out n \/ n_out (pin_of (g_bit (t_ctx t0)) p) = spec_out (g_inv (t_ctx t0)) o (n_out n)) /\
        does (g_bit (t_ctx t0)) (spec_out (g_inv (t_ctx t0)) o (n_out n)) (spec_pin d (t_ctx t0) o n) (spec_res d (t_ctx t0) o n) (pin_of (g_bit (t_ctx t0)) p) c
    end.

Lemma ginv_init d p t : fresh t -> ginv d p p t t.
Proof.
  intros [Hn Hs]. split; [done|]. exists []. cbn. rewrite Hn, Hs. done.
Qed.

Lemma ginv_own d p0 p t0 t p' t' : pin_only d -> pin_range d (g_bit (t_ctx t0)) -> no_ra4 d t0 ->
  ginv d p0 p t0 t -> gtask_step d p t = (p', t') -> ginv d p0 p' t0 t'.
Proof.
  intros Hd Hr Hno [Hc [l Hl]] Hst. cbn zeta in Hl. destruct Hl as [Hs Hm]. pose proof (pin_range_0 _ _ Hr) as H0.
  unfold gtask_step in Hst. destruct (t_now t) as [[r|r k|r v k]|] eqn:En.
  - injection Hst as <- <-. destruct Hm as (o & Ht & Hloc & Hout & Hdo). cbn [does] in Hdo. destruct Hdo as (Hp & Hres & Hnew).
    split; [exact Hc|]. exists (l ++ [o]). cbn zeta. cbn [t_now t_todo t_seen t_ctx].
    rewrite spec_results_app, spec_pins_app. cbn [spec_results spec_pins]. rewrite Hs, Hres. split; [done|].
    split; [|exact Hp]. rewrite <- app_assoc. exact Ht.
  - injection Hst as <- <-. destruct Hm as (o & Ht & Hloc & Hout & Hdo). cbn [does] in Hdo.
    split; [exact Hc|]. exists l. cbn zeta. cbn [t_now t_todo t_seen t_ctx]. split; [done|]. exists o. split; [done|].
    inversion Hloc as [|r' k' Hk1 Hk2|]; subst. split; [apply Hk2|]. split; [done|].
    rewrite (Hk1 (rd_reg r p) (canon r (g_bit (t_ctx t0)) (pin_of (g_bit (t_ctx t0)) p))); [done|]. by apply canon_ok.
  - injection Hst as <- <-. destruct Hm as (o & Ht & Hloc & Hout & Hdo). cbn [does] in Hdo. destruct Hdo as [Hw Hdo].
    split; [exact Hc|]. exists l. cbn zeta. cbn [t_now t_todo t_seen t_ctx]. split; [done|]. exists o. split; [done|].
    inversion Hloc as [| |r' v' k' Hk1 Hk2]; subst. split; [done|]. rewrite wr_pin_ok. split; [|done].
    destruct Hw as [->| ->]; auto.
  - destruct (t_todo t) as [|o todo] eqn:Et.
    + injection Hst as <- <-. split; [done|]. exists l. cbn zeta. rewrite En, Et. done.
    + injection Hst as <- <-. destruct Hm as [Ht Hp]. split; [exact Hc|]. exists l. cbn zeta. cbn [t_now t_todo t_seen t_ctx].
      split; [done|]. exists o. split; [done|]. rewrite Hc, Hp. split; [by apply code_local|]. split; [by left|].
      apply code_does; [done|]. intros Hra Ho. destruct (g_inv (t_ctx t0)) eqn:Ei; [|done]. exfalso. apply (Hno Hra Ei).
      rewrite Ht, Ho. apply in_or_app. right. left. done.
Qed.

(** The other pins are left alone. *)
Lemma step_other d p0 p t0 t p' t' b : 0 <= b -> b <> g_bit (t_ctx t0) -> ginv d p0 p t0 t ->
  gtask_step d p t = (p', t') -> pin_of b p' = pin_of b p.
Proof.
  intros Hb Hne [Hc [l [_ Hm]]] Hst. unfold gtask_step in Hst. destruct (t_now t) as [[r|r k|r v k]|].
  - injection Hst as <- _. done.
  - injection Hst as <- _. done.
  - injection Hst as <- _. destruct Hm as (o & _ & Hloc & _). inversion Hloc as [| |r' v' k' Hk1 Hk2]; subst.
    rewrite wr_pin_ok. by apply Hk1.
  - destruct (t_todo t); injection Hst as <- _; done.
Qed.
Lemma ginv_other d p0 p p' t0 t : pin_of (g_bit (t_ctx t0)) p' = pin_of (g_bit (t_ctx t0)) p -> ginv d p0 p t0 t -> ginv d p0 p' t0 t.
Proof. intros E (Hc & l & Hl). split; [done|]. exists l. cbn zeta in *. rewrite E. done. Qed.

Definition all_inv (d : gdrv) (p0 : port) (ts0 : list gtask) (s : port * list gtask) : Prop :=
  length s.2 = length ts0 /\ (forall i t0 t, ts0 !! i = Some t0 -> s.2 !! i = Some t -> ginv d p0 s.1 t0 t) /\
  (forall b, 0 <= b -> (forall i t0, ts0 !! i = Some t0 -> g_bit (t_ctx t0) <> b) -> pin_of b s.1 = pin_of b p0).
Lemma all_step d p0 ts0 s i : pin_only d -> own_pins ts0 ->
  (forall j t, ts0 !! j = Some t -> pin_range d (g_bit (t_ctx t)) /\ no_ra4 d t) ->
  all_inv d p0 ts0 s -> all_inv d p0 ts0 (gstep d s i).
Proof.
  intros Hd Hown Hts Hall. pose proof Hall as (Hlen & Hi & Hfree). unfold gstep. destruct (s.2 !! i) as [t|] eqn:Et; [|done].
  destruct (ts0 !! i) as [t0|] eqn:Et0.
  2: { apply lookup_ge_None in Et0. apply lookup_lt_Some in Et. lia. }
  pose proof (Hi _ _ _ Et0 Et) as Hinv. destruct (Hts _ _ Et0) as [Hr Hno].
  destruct (gtask_step d s.1 t) as [p' t'] eqn:Est. split; [|split]; cbn [fst snd].
  - by rewrite insert_length.
  - intros j u0 u Hu0 Hu. destruct (decide (j = i)) as [->|Hne].
    + rewrite list_lookup_insert in Hu by (by eapply lookup_lt_Some). injection Hu as <-.
      assert (u0 = t0) as -> by congruence. by eapply ginv_own.
    + rewrite list_lookup_insert_ne in Hu by done. destruct (Hts _ _ Hu0) as [Hr' _]. eapply ginv_other.
      * eapply step_other; [by eapply pin_range_0| |exact Hinv|exact Est]. intros E. apply Hne. by eapply Hown.
      * by eapply Hi.
  - intros b Hb Hb'. rewrite <- (Hfree b Hb Hb'). eapply step_other; [done| |exact Hinv|exact Est].
    intros E. by eapply (Hb' _ _ Et0).
Qed.
Lemma all_run d p0 ts0 sched s : pin_only d -> own_pins ts0 ->
  (forall j t, ts0 !! j = Some t -> pin_range d (g_bit (t_ctx t)) /\ no_ra4 d t) ->
  all_inv d p0 ts0 s -> all_inv d p0 ts0 (grun d sched s).
Proof.
  intros Hd Hown Hts. revert s. induction sched as [|i sched IH]; intros s Hs; cbn; [done|]. apply IH. by apply all_step.
Qed.

Lemma pins_out d c l n : n_out (spec_pins d c l n) = spec_outs (g_inv c) l (n_out n).
Proof. revert n. induction l as [|o l IH]; intros n; cbn; [done|]. by rewrite IH. Qed.
Lemma pins_dir d c l n : d <> TinyAvr -> n_dir (spec_pins d c l n) = n_dir n.
Proof.
  intros Hd. revert n. induction l as [|o l IH]; intros n; cbn; [done|]. rewrite IH. unfold spec_pin. cbn.
  destruct d; try done.
Qed.
Lemma results_seen d c l n : d <> TinyAvr -> n_dir n = true -> spec_results d c l n = spec_seen (g_inv c) l (n_out n).
Proof.
  intros Hd. revert n. induction l as [|o l IH]; intros n Hn; cbn; [done|]. f_equal.
  - destruct o; try done. cbn. destruct d; try done; unfold level; by rewrite Hn.
  - rewrite IH; [done|]. unfold spec_pin. cbn. destruct d; done.
Qed.

(** What is left of it all, in the words of GpioSpec. *)
Lemma all_seen d p ts sched i t t' p' ts' : pin_only d -> own_pins ts -> (forall j t, ts !! j = Some t -> fresh t /\ pin_range d (g_bit (t_ctx t)) /\ no_ra4 d t) ->
  grun d sched (p, ts) = (p', ts') -> ts !! i = Some t -> ts' !! i = Some t' ->
  pin_calls t (p_out p) t' (p_out p') /\
  (d <> TinyAvr -> Z.testbit (p_dir p) (g_bit (t_ctx t)) = true ->
   t_seen t' = spec_seen (g_inv (t_ctx t)) (take (length (t_seen t')) (t_todo t)) (Z.testbit (p_out p) (g_bit (t_ctx t)))).
Proof.
  intros Hd Hown Hts Hrun Hi Hi'.
  assert (Hall : all_inv d p ts (grun d sched (p, ts))).
  { apply all_run; [done|done|intros j u Hu; destruct (Hts _ _ Hu) as (_ & A & B); done|]. split; [done|]. cbn [fst snd]. split; [|done].
    intros j u0 u Hu0 Hu. assert (u0 = u) as -> by congruence. apply ginv_init. by apply (Hts j). }
  rewrite Hrun in Hall. destruct Hall as (_ & Hinv & _). cbn [fst snd] in Hinv. destruct (Hinv _ _ _ Hi Hi') as (Hc & l & Hl).
  cbn zeta in Hl. destruct Hl as [Hs Hm]. assert (Hk : length (t_seen t') = length l) by (rewrite Hs; apply spec_results_length).
  unfold pin_calls. rewrite Hk. split.
  - destruct (t_now t').
    + destruct Hm as (o & Ht & _ & Hout & _). rewrite pins_out in Hout. rewrite Ht. 
      rewrite take_app. rewrite (cons_middle o l). replace (S (length l)) with (length (l ++ [o])) by (rewrite app_length; cbn; lia).
      rewrite app_assoc, drop_app, take_app.
      replace (spec_outs (g_inv (t_ctx t)) (l ++ [o]) (Z.testbit (p_out p) (g_bit (t_ctx t)))) with
        (spec_out (g_inv (t_ctx t)) o (spec_outs (g_inv (t_ctx t)) l (Z.testbit (p_out p) (g_bit (t_ctx t))))).
      2: { clear. generalize (Z.testbit (p_out p) (g_bit (t_ctx t))). induction l as [|o' l IH]; intros b; cbn; [done|]. apply IH. }
      split; [done|exact Hout].
    + destruct Hm as [Ht Hp]. rewrite Ht, take_app, drop_app. split; [done|]. apply (f_equal n_out) in Hp. rewrite pins_out in Hp. exact Hp.
  - intros Hta Hdir. rewrite Hs. assert (E : take (length l) (t_todo t) = l).
    { destruct (t_now t'); [destruct Hm as (o & -> & _)|destruct Hm as [-> _]]; apply take_app. }
    rewrite E. by apply results_seen.
Qed.
Lemma all_free d p ts sched p' ts' b : pin_only d -> own_pins ts -> (forall j t, ts !! j = Some t -> fresh t /\ pin_range d (g_bit (t_ctx t)) /\ no_ra4 d t) ->
  grun d sched (p, ts) = (p', ts') -> 0 <= b -> (forall t, In t ts -> g_bit (t_ctx t) <> b) -> pin_of b p' = pin_of b p.
Proof.
  intros Hd Hown Hts Hrun Hb Hno.
  assert (Hall : all_inv d p ts (grun d sched (p, ts))).
  { apply all_run; [done|done|intros j u Hu; destruct (Hts _ _ Hu) as (_ & A & B); done|]. split; [done|]. cbn [fst snd]. split; [|done].
    intros j u0 u Hu0 Hu. assert (u0 = u) as -> by congruence. apply ginv_init. by apply (Hts j). }
  rewrite Hrun in Hall. destruct Hall as (_ & _ & Hf). cbn [fst snd] in Hf. apply Hf; [done|]. intros i t0 Ht0. apply Hno.
  apply elem_of_list_In. by eapply elem_of_list_lookup_2.
Qed.

(** ** One task alone *)
Lemma other_bit b b' : 0 <= b -> b' <> b -> Z.testbit (2 ^ b) b' = false.
Proof. intros. rewrite testbit_pow2 by done. by apply bool_decide_false. Qed.
Lemma solo_other d c o p b' : pin_range d (g_bit c) -> 0 <= b' -> b' <> g_bit c ->
  pin_of b' (solo (op_code d c o) p).1 = pin_of b' p.
Proof.
  intros Hr Hb' Hne. pose proof (pin_range_0 _ _ Hr) as H0. pose proof (other_bit _ _ H0 Hne) as Hm. fold (g_mask c) in Hm.
  assert (SL : forall r q, In r [SET; CLR; XOR; DIRSET; DIRCLR] -> pin_of b' (wr_reg r (g_mask c) q) = pin_of b' q).
  { intros r q Hin. rewrite wr_pin_ok. by apply (set_local r (g_bit c)). }
  assert (SB : 0 <= g_bit c < 16 -> forall (v : bool) q, pin_of b' (wr_reg BSRR (if v then g_mask c else Z.shiftl (g_mask c) 16) q) = pin_of b' q).
  { intros Hb v q. rewrite wr_pin_ok. apply (bsrr_local (g_bit c)); try done. destruct v; auto. }
  assert (SO : forall v q, Z.testbit v b' = Z.testbit (p_out q) b' -> pin_of b' (wr_reg OUT v q) = pin_of b' q).
  { intros v q E. rewrite wr_pin_ok. cbn [wr_pin]. rewrite E. done. }
  destruct o as [v| |].
  - destruct d; unfold op_code, gpio_write; cbv zeta iota beta; cbn [solo fst rd_reg];
      try (apply SB; unfold pin_range in Hr; lia);
      try (apply SO; destruct (xorb v (g_inv c)); rewrite ?Z.lor_spec, ?Z.ldiff_spec, Hm; cbn [negb]; rewrite ?orb_false_r, ?andb_true_r; done);
      rewrite ?(SL DIRSET) by (cbn; auto 10); apply SL; destruct (xorb v (g_inv c)); cbn; auto.
  - destruct d; unfold op_code, gpio_read; cbv zeta iota beta; cbn [solo fst rd_reg]; try done. apply SL. cbn. auto 10.
  - destruct d; unfold op_code, gpio_toggle; cbv zeta iota beta; cbn [solo fst rd_reg];
      try (apply SO; rewrite Z.lxor_spec, Hm, xorb_false_r; done);
      rewrite ?(SL DIRSET) by (cbn; auto 10); try (apply SL; cbn; auto; fail).
    + unfold gpio_write. cbv zeta iota beta. cbn [solo fst]. apply SB. unfold pin_range in Hr. lia.
    + destruct (negb _); cbn [solo fst]; apply SL; cbn; auto.
    + destruct (negb _); cbn [solo fst]; apply SL; cbn; auto.
Qed.
Lemma solo_does b new n' res c p : local b c -> 0 <= b -> does b new n' res (pin_of b p) c ->
  pin_of b (solo c p).1 = n' /\ (solo c p).2 = res.
Proof.
  intros Hl Hb. revert p. induction Hl as [r|r k Hk1 Hk2 IH|r v k Hk1 Hk2 IH]; intros p; cbn [does solo fst snd].
  - intros (E & -> & _). done.
  - intros Hdo. apply IH. rewrite (Hk1 _ (canon r b (pin_of b p))); [done|]. by apply canon_ok.
  - intros [_ Hdo]. apply IH. by rewrite wr_pin_ok.
Qed.
Lemma solo_own d c o p : pin_range d (g_bit c) -> (d = Ra4 -> o = OpToggle -> g_inv c = false) ->
  pin_of (g_bit c) (solo (op_code d c o) p).1 = spec_pin d c o (pin_of (g_bit c) p) /\
  (solo (op_code d c o) p).2 = spec_res d c o (pin_of (g_bit c) p).
Proof.
  intros Hr Hinv. pose proof (pin_range_0 _ _ Hr) as H0. pose proof (mask_self c H0) as Hm.
  assert (SO : forall v q x, Z.testbit v (g_bit c) = x -> pin_of (g_bit c) (wr_reg OUT v q) = mkPin x (n_dir (pin_of (g_bit c) q)) (n_ext (pin_of (g_bit c) q))).
  { intros v q x <-. rewrite wr_pin_ok. done. }
  assert (X : pin_only d -> pin_of (g_bit c) (solo (op_code d c o) p).1 = spec_pin d c o (pin_of (g_bit c) p) /\
    (solo (op_code d c o) p).2 = spec_res d c o (pin_of (g_bit c) p)).
  { intros Hd. eapply solo_does; [by apply code_local|done|by apply code_does]. }
  assert (Y : does (g_bit c) (spec_out (g_inv c) o (n_out (pin_of (g_bit c) p))) (spec_pin d c o (pin_of (g_bit c) p)) (spec_res d c o (pin_of (g_bit c) p)) (pin_of (g_bit c) p) (op_code d c o)).
  { by apply code_does. }
  assert (R : local (g_bit c) (gpio_read Avr c)).
  { unfold gpio_read. cbv zeta iota beta. constructor; [|constructor]. intros x y E. unfold g_mask. rewrite !land_pow2 by done. by rewrite E. }
  destruct d; try (apply X; exact I); destruct o as [v| |];
    try (eapply solo_does; [exact R|done|exact Y]);
    try (unfold op_code, gpio_write, gpio_toggle; cbv zeta iota beta; cbn [solo fst snd rd_reg]; split; [|done];
         unfold spec_pin; cbn [spec_out]; apply SO; try destruct (xorb v (g_inv c));
         rewrite ?Z.lor_spec, ?Z.ldiff_spec, ?Z.lxor_spec, Hm; cbn [negb]; rewrite ?orb_true_r, ?andb_false_r, ?xorb_true_r; done).
  all: eapply solo_does; [|done|exact Y]; unfold op_code, gpio_write; cbv zeta iota beta; constructor; [|constructor].
  - intros b' n Hb' Hne. destruct (xorb v (g_inv c)); (apply (set_local _ (g_bit c)); [done|cbn; auto|done|done]).
  - apply bsrr_local; [unfold pin_range in Hr; lia|]. destruct (xorb v (g_inv c)); auto.
Qed.

(** ** What goes wrong *)
Lemma lost_write d b c p : ~ pin_only d -> pin_range d b -> pin_range d c -> b <> c ->
  let v := negb (Z.testbit (p_out p) c) in
  let ts := [mkGt (mkCtx b false) None [OpToggle] []; mkGt (mkCtx c false) None [OpWrite v] []] in
  let s := grun d [0; 0; 1; 1; 1; 1; 0; 0]%nat (p, ts) in
  s.2 = [mkGt (mkCtx b false) None [] [false]; mkGt (mkCtx c false) None [] [false]] /\
  Z.testbit (p_out s.1) c = negb v.
Proof.
  intros Hd Hb Hc Hne. pose proof (pin_range_0 _ _ Hb) as Hb0. cbn zeta.
  assert (E : Z.testbit (Z.lxor (p_out p) (2 ^ b)) c = negb (negb (Z.testbit (p_out p) c))).
  { rewrite Z.lxor_spec, other_bit by congruence. rewrite negb_involutive. apply xorb_false_r. }
  destruct d; cbn in Hd; try (exfalso; apply Hd; exact I); clear Hd; (split; [reflexivity|]);
    (etransitivity; [|exact E]); f_equal; destruct (negb (Z.testbit (p_out p) c)); reflexivity.
Qed.
Lemma ra4_toggle b p : 0 <= b < 16 -> pin_of b (solo (gpio_toggle Ra4 (mkCtx b true)) p).1 = pin_of b p.
Proof.
  intros Hb. unfold gpio_toggle, gpio_write. cbv zeta iota beta. cbn [solo fst g_inv rd_reg]. rewrite wr_pin_ok.
  unfold g_mask. cbn [g_bit]. rewrite land_pow2 by lia. unfold pin_of. cbn [wr_pin n_out n_dir n_ext].
  destruct (bsrr_low b b) as [L1 L2]; [done|lia|]. destruct (bsrr_high b b) as [H1 H2]; [done|lia|].
  rewrite bool_decide_true in L2, H1 by done.
  destruct (Z.testbit (p_out p) b) eqn:E; cbn [negb xorb].
  - rewrite L1, L2. done.
  - rewrite H1, H2. done.
Qed.
