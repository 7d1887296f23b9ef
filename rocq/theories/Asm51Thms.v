(** Asm51Thms.v - the context switch of the 8051 port: the statements of C81 and C82. *)
From Verif Require Import Base Asm51Model Asm51Spec Asm51Proofs.
From Coq Require Import ZifyBool ZifyNat.


Lemma pushes_onstack S0 m l l' : 8 <= S0 -> S0 + Z.of_nat (length l + length l') <= 256 ->
  onstack S0 m l -> onstack S0 (pushes l' m) (l ++ l').
Proof.
  intros HS Hr [H1 H2].
  destruct (pushes_spec l' m) as (_ & _ & _ & _ & _ & _ & _ & _ & E9 & E10 & E11); [lia|lia|].
  split; [rewrite app_length; lia|]. intros i v Hv. destruct (decide (i < length l)%nat) as [Hlt|Hge].
  - rewrite lookup_app_l in Hv by done. rewrite E11 by lia. by apply H2.
  - rewrite lookup_app_r in Hv by lia. rewrite <- (E10 _ _ Hv). f_equal. lia.
Qed.

Lemma context_length t : length (tr t) = 8%nat -> length (context t) = (length (tstk t) + 15)%nat.
Proof. intros H. unfold context. rewrite !app_length, H. cbn [length]. lia. Qed.

Lemma onstack_psw S0 v m l : onstack S0 m l -> onstack S0 (set_psw v m) l.
Proof. intros H. exact H. Qed.
Lemma xram_psw v m : xram (set_psw v m) = xram m.
Proof. done. Qed.
Lemma rdpl_psw v m : rdpl (set_psw v m) = rdpl m.
Proof. done. Qed.

(** After the interrupt or the call, and SAVE_CONTEXT_STEP1. *)
Lemma step1_onstack S0 extra m t : fits S0 extra t -> 15 <= extra -> runs S0 m t ->
  onstack S0 (step1 (intr m)) (context t) /\ xram (step1 (intr m)) = xram m /\ rdpl (step1 (intr m)) = rdpl m.
Proof.
  intros [F1 F2 F3 F4 F5 F6] He [R1 R2 R3 R4 R5 R6 R7 R8 R9 R10].
  assert (I : intr m = pushes [rpcl m; rpch m] m) by done.
  assert (O1 : onstack S0 (intr m) (tstk t ++ [rpcl m; rpch m])).
  { rewrite I. apply pushes_onstack; [done|cbn [length]; lia|done]. }
  assert (L : forall k, 0 <= k < 8 -> iram (intr m) k = iram m k).
  { intros k Hk. change (intr m) with (push (rpch m) (push (rpcl m) m)). rewrite push_low; [apply push_low|done|]; [done|lia|]. rewrite rsp_push, b8_small; lia. }
  destruct (pushes_spec [rpcl m; rpch m] m) as (E1 & E2 & E3 & E4 & E5 & E6 & E7 & E8 & E9 & _ & _); [lia|cbn [length]; lia|].
  rewrite <- I in *. cbn [length] in E9.
  rewrite step1_pushes by lia.
  assert (Es : save_list (intr m) = [ta t; tdpl t; tdph t; tb t] ++ tr t ++ [tpsw t]).
  { destruct t as [a b dl dh ps pl ph r st]. cbn [ta tb tdpl tdph tpsw tpcl tpch tr tstk length] in *.
    destruct r as [|r0 [|r1 [|r2 [|r3 [|r4 [|r5 [|r6 [|r7 [|]]]]]]]]]; try discriminate. cbn [app].
    unfold save_list. rewrite E1, E2, E3, E4, E5, R1, R2, R3, R4, R5.
    rewrite !L by lia.
    rewrite <- (R8 0%nat r0), <- (R8 1%nat r1), <- (R8 2%nat r2), <- (R8 3%nat r3),
      <- (R8 4%nat r4), <- (R8 5%nat r5), <- (R8 6%nat r6), <- (R8 7%nat r7) by done. reflexivity. }
  assert (O2 : onstack S0 (pushes (save_list (intr m)) (intr m)) (context t)).
  { unfold context. rewrite <- R6, <- R7.
    replace (tstk t ++ [rpcl m; rpch m; ta t; tdpl t; tdph t; tb t] ++ tr t ++ [tpsw t])
      with ((tstk t ++ [rpcl m; rpch m]) ++ save_list (intr m)) by (rewrite Es, <- app_assoc; done).
    apply pushes_onstack; [done| |done]. rewrite app_length. unfold save_list. cbn [length]. lia. }
  split; [apply onstack_psw; exact O2|]. rewrite xram_psw, rdpl_psw.
  destruct (pushes_spec (save_list (intr m)) (intr m)) as (_ & _ & D & _ & _ & _ & _ & D8 & _).
  { lia. } { unfold save_list. cbn [length]. lia. }
  pose proof (eq_trans D8 E8) as Q8. pose proof (eq_trans D E3) as Q. split; [exact Q8|exact Q].
Qed.

Lemma context_base t : (2 <= length (tstk t))%nat -> nth 0 (context t) 0 + 256 * nth 1 (context t) 0 = tbase t.
Proof. intros H. unfold context, tbase. rewrite !app_nth1 by lia. done. Qed.
Lemma context_bytes t : (2 <= length (tstk t))%nat -> Forall byte (tstk t) -> Forall byte (take 2 (context t)).
Proof. intros H F. unfold context. rewrite take_app_le by lia. by apply Forall_take. Qed.

(** STEP2 with the context of [t] on the stack. *)
Lemma step2_parks S0 fuel m t :
  fits S0 15 t -> onstack S0 m (context t) -> (length (context t) <= fuel)%nat ->
  exists m', step2 S0 fuel m = Some m' /\
    rsp m' = S0 - 1 /\ byte (rdpl m') /\ byte (rdph m') /\ (forall a, a <> 0 -> iram m' a = iram m a) /\
    parked (xram m') (dptr m') t /\
    (forall a, ~ (tbase t <= a < tbase t + Z.of_nat (length (context t))) -> xram m' a = xram m a).
Proof.
  intros [F1 F2 F3 F4 F5 F6] [O1 O2] Hf.
  pose proof (context_length t F1) as Hc.
  destruct (step2_spec S0 (context t) m fuel) as (m' & E & E1 & E2 & E3 & E4 & E5 & E6 & E7); try done; try lia.
  - by apply context_bytes.
  - rewrite context_base by done. lia.
  - rewrite context_base in * by done. exists m'. split; [done|]. repeat (split; [done|]).
    rewrite <- E5. done.
Qed.

(** The tick: the task that was running is on its own stack. *)
Lemma tick_parks S0 fuel m t m1 :
  fits S0 15 t -> runs S0 m t -> c_code S0 (tick_in m) m1 -> (length (context t) <= fuel)%nat ->
  exists m2, tick_save S0 fuel m1 = Some m2 /\
    rsp m2 = S0 - 1 /\ byte (rdpl m2) /\ byte (rdph m2) /\
    parked (xram m2) (dptr m2) t /\
    (forall a, ~ (tbase t <= a < tbase t + Z.of_nat (length (context t))) -> xram m2 a = xram m1 a).
Proof.
  intros Hfit Hr [C1 C2] Hf.
  destruct (step1_onstack S0 15 m t Hfit ltac:(lia) Hr) as ((O1 & O2) & _ & _).
  destruct (step2_parks S0 fuel m1 t) as (m2 & E & E1 & E2 & E3 & _ & E4 & E5); try done.
  - split; [by rewrite C1|]. intros i v Hv. rewrite C2; [by apply O2|].
    apply lookup_lt_Some in Hv. unfold tick_in. lia.
  - by exists m2.
Qed.

(** The way back. *)
Lemma lookup_ctx t k v : tr t !! k = Some v -> context t !! (length (tstk t) + 6 + k)%nat = Some v.
Proof.
  intros H. unfold context. rewrite lookup_app_r by lia.
  rewrite lookup_app_r by (cbn [length]; lia).
  rewrite lookup_app_l.
  - rewrite <- H. f_equal. cbn [length]. lia.
  - apply lookup_lt_Some in H. cbn [length]. lia.
Qed.
Lemma unstack_runs S0 m1 t : fits S0 15 t -> onstack S0 m1 (context t) ->
  runs S0 (ret (restore2 m1)) t /\ xram (ret (restore2 m1)) = xram m1.
Proof.
  intros [F1 F2 F3 F4 F5 F6] [E1 E3]. pose proof (context_length t F1) as Hc.
  rewrite restore2_spec by lia. cbv zeta. rewrite ret_val by lia.
  assert (Hs : forall i v, (0 <= i < 16)%nat -> context t !! (length (tstk t) + i)%nat = Some v ->
                 iram m1 (rsp m1 - (14 - Z.of_nat i)) = v).
  { intros i v Hi Hv. rewrite <- (E3 _ _ Hv). f_equal. lia. }
  assert (Hk : forall i v, ([tpcl t; tpch t; ta t; tdpl t; tdph t; tb t] ++ tr t ++ [tpsw t]) !! i = Some v ->
                 iram m1 (rsp m1 - (14 - Z.of_nat i)) = v).
  { intros i v Hv. apply Hs.
    - apply lookup_lt_Some in Hv. rewrite !app_length, F1 in Hv. cbn [length] in Hv. lia.
    - unfold context. rewrite lookup_app_r by lia. rewrite <- Hv. f_equal. lia. }
  destruct t as [a b dl dh ps pl ph r st]. cbn in *.
  destruct r as [|r0 [|r1 [|r2 [|r3 [|r4 [|r5 [|r6 [|r7 [|]]]]]]]]]; try discriminate. cbn [app] in *.
  split; [|done].
  pose proof (Hk 0%nat _ eq_refl) as K0; pose proof (Hk 1%nat _ eq_refl) as K1; pose proof (Hk 2%nat _ eq_refl) as K2;
  pose proof (Hk 3%nat _ eq_refl) as K3; pose proof (Hk 4%nat _ eq_refl) as K4; pose proof (Hk 5%nat _ eq_refl) as K5;
  pose proof (Hk 6%nat _ eq_refl) as K6; pose proof (Hk 7%nat _ eq_refl) as K7; pose proof (Hk 8%nat _ eq_refl) as K8;
  pose proof (Hk 9%nat _ eq_refl) as K9; pose proof (Hk 10%nat _ eq_refl) as K10; pose proof (Hk 11%nat _ eq_refl) as K11;
  pose proof (Hk 12%nat _ eq_refl) as K12; pose proof (Hk 13%nat _ eq_refl) as K13; pose proof (Hk 14%nat _ eq_refl) as K14.
  clear Hk Hs. cbn in K0, K1, K2, K3, K4, K5, K6, K7, K8, K9, K10, K11, K12, K13, K14.
  assert (K14' : iram m1 (rsp m1) = ps) by (rewrite <- K14; f_equal; lia).
  split; cbn [ra rb rdpl rdph rpsw rsp rpcl rpch iram xram ta tb tdpl tdph tpsw tpcl tpch tr tstk]; try done.
  - subs. upds. done.
  - upds. done.
  - intros [|[|[|[|[|[|[|[|]]]]]]]] v Hv; try done; injection Hv as <-; cbn [Z.of_nat Pos.of_succ_nat Pos.succ];
      upds; done.
  - lia.
  - intros i v Hv. assert (0 <= Z.of_nat i) by lia. upds.
    apply E3. unfold context. rewrite lookup_app_l; [done|]. by apply lookup_lt_Some in Hv.
Qed.

Lemma resume_runs S0 fuel m t :
  fits S0 15 t -> byte (rdpl m) -> byte (rdph m) -> parked (xram m) (dptr m) t ->
  (length (context t) <= fuel)%nat ->
  exists m', resume S0 fuel m = Some m' /\ runs S0 m' t /\ xram m' = xram m.
Proof.
  intros [F1 F2 F3 F4 F5 F6] Bl Bh [P1 P2] Hf. pose proof (context_length t F1) as Hc.
  destruct (restore1_spec S0 (context t) m fuel) as (m1 & E & E1 & E2 & E3); try done; try lia.
  { by apply context_bytes. } { rewrite context_base by done. done. }
  destruct (unstack_runs S0 m1 t) as [U1 U2]; [by split|by split|].
  unfold resume. rewrite E. eexists. split; [reflexivity|]. split; [done|]. by rewrite U2.
Qed.

(** An interrupt of the user: nothing of the task changes. *)
Lemma isr_transparent S0 m t m1 :
  fits S0 15 t -> runs S0 m t -> c_code S0 (isr_in m) m1 ->
  runs S0 (isr_out m1) t /\ xram (isr_out m1) = xram m1.
Proof.
  intros Hfit Hr [C1 C2].
  destruct (step1_onstack S0 15 m t Hfit ltac:(lia) Hr) as ((O1 & O2) & _ & _).
  apply unstack_runs; [done|]. split; [by rewrite C1|]. intros i v Hv. rewrite C2; [by apply O2|].
  apply lookup_lt_Some in Hv. unfold isr_in. lia.
Qed.

(** The whole tick. *)
Lemma tick_switches S0 fuel m t u m1 m3 :
  fits S0 15 t -> fits S0 15 u -> runs S0 m t ->
  c_code S0 (tick_in m) m1 ->
  parked (xram m1) (tbase u + Z.of_nat (length (context u))) u ->
  (tbase t + Z.of_nat (length (context t)) <= tbase u \/ tbase u + Z.of_nat (length (context u)) <= tbase t) ->
  (length (context t) <= fuel)%nat -> (length (context u) <= fuel)%nat ->
  exists m2, tick_save S0 fuel m1 = Some m2 /\ dptr m2 = tbase t + Z.of_nat (length (context t)) /\
    (same (tbase t) (dptr m2) (xram m3) (xram m2) ->
     same (tbase u) (tbase u + Z.of_nat (length (context u))) (xram m3) (xram m2) ->
     byte (rdpl m3) -> byte (rdph m3) -> dptr m3 = tbase u + Z.of_nat (length (context u)) ->
     exists m', resume S0 fuel m3 = Some m' /\ runs S0 m' u /\ parked (xram m') (dptr m2) t).
Proof.
  intros Ft Fu Hr Hc [_ Hu] Hd Hft Hfu.
  destruct (tick_parks S0 fuel m t m1) as (m2 & E & E1 & E2 & E3 & E4 & E5); try done.
  exists m2. split; [done|]. split; [apply E4|]. intros St Su Bl Bh Ed.
  destruct E4 as [E41 E42].
  destruct (resume_runs S0 fuel m3 u) as (m' & G & G1 & G2); try done.
  - split; [done|]. intros i v Hv. pose proof (lookup_lt_Some _ _ _ Hv). rewrite Su by lia.
    rewrite E5 by lia. rewrite Ed. by apply Hu.
  - exists m'. split; [done|]. split; [done|]. rewrite G2. split; [done|].
    intros i v Hv. pose proof (lookup_lt_Some _ _ _ Hv). rewrite St by lia. by apply E42.
Qed.

(** ** The system call *)
Lemma add_dptr_val n a b dl dh ps sp pl ph ir xr :
  add_dptr n (mk51 a b dl dh ps sp pl ph ir xr) =
  mk51 (b8 (dh + (dl + n) / 256)) b (b8 (dl + n)) (b8 (dh + (dl + n) / 256)) ps sp pl ph ir xr.
Proof. done. Qed.
Lemma sub17 sp : 17 <= sp < 256 -> b8 (sp + 239) = sp - 17.
Proof. intros H. unfold b8. replace (sp + 239) with (sp - 17 + 1 * 256) by lia. rewrite Z.mod_add by lia. apply Z.mod_small. lia. Qed.
Lemma sub4 sp : 4 <= sp < 256 -> b8 (sp + 252) = sp - 4.
Proof. intros H. unfold b8. replace (sp + 252) with (sp - 4 + 1 * 256) by lia. rewrite Z.mod_add by lia. apply Z.mod_small. lia. Qed.

Lemma call_args_val S0 a b dl dh ps sp pl ph ir xr :
  8 <= S0 -> S0 + 19 <= sp < 252 ->
  exists i', call_args S0 (mk51 a b dl dh ps sp pl ph ir xr) =
    mk51 (ir (sp - 11)) 0 (b8 (ir S0 + (sp - (S0 - 1)))) (b8 (ir (S0 + 1) + (ir S0 + (sp - (S0 - 1))) / 256)) ps
      (sp + 4) pl ph i' xr /\
    i' (sp + 1) = ir (sp - 17) /\ i' (sp + 2) = ir (sp - 16) /\ i' (sp + 3) = ir (sp - 15) /\ i' (sp + 4) = ir (sp - 11) /\
    forall x, 8 <= x <= sp -> i' x = ir x.
Proof.
  intros H1 H2. unfold call_args. ex dptr_from_sp_val. ex1. rewrite exec_cons. cbv beta. unfold set_a. cbn [ra rb rdpl rdph rpsw rsp rpcl rpch iram xram].
  rewrite (b8_small (sp - (S0 - 1))) by lia. ex1. rewrite exec_cons. cbv beta. regs. upds. rewrite add_dptr_val.
  ex1. ex1. rewrite sub17 by lia. ex1. ex1. ex pushr_val. ex1.
  rewrite (b8_small (sp - 17 + 1)) by lia. replace (sp - 17 + 1) with (sp - 16) by lia. ex1. ex pushr_val. ex1.
  rewrite (b8_small (sp - 16 + 1)) by lia. replace (sp - 16 + 1) with (sp - 15) by lia. ex1. ex pushr_val.
  ex1. ex1. rewrite (b8_small (sp - 15 + 4)) by lia. replace (sp - 15 + 4) with (sp - 11) by lia. ex1. ex1. ex pushr_val.
  rewrite exec_nil. eexists. split; [reflexivity|].
  split; [upds; done|]. split; [upds; done|]. split; [upds; done|]. split; [upds; done|].
  intros x Hx. upds. done.
Qed.

(** What picoRTOS_syscall is given: the address where the context of the caller will be, and the
    arguments of the caller, above its context. *)
Lemma call_in_spec S0 m t u p0 p1 p2 :
  fits S0 19 t -> runs S0 m t -> tstk t = u ++ [p0; p1; p2] -> (2 <= length u)%nat ->
  let m' := call_in S0 (intr m) in
  dptr m' = tbase t + Z.of_nat (length (context t)) /\ xram m' = xram m /\
  onstack S0 m' (context t ++ [p0; p1; p2; tdpl t]).
Proof.
  intros Hfit Hr Hu Hl.
  destruct (step1_onstack S0 19 m t Hfit ltac:(lia) Hr) as ((O1 & O2) & OX & OD).
  destruct Hfit as [F1 F2 F3 F4 F5 F6].
  pose proof (context_length t F1) as Hc.
  assert (Hlen : length (tstk t) = (length u + 3)%nat) by (rewrite Hu, app_length; done).
  unfold call_in. revert O1 O2 OX OD. generalize (step1 (intr m)). intros [a b dl dh ps sp pl ph ir xr]. cbn [rsp iram xram rdpl].
  intros O1 O2 OX OD.
  destruct (call_args_val S0 a b dl dh ps sp pl ph ir xr) as (i' & E & I1 & I2 & I3 & I4 & I5); [done|lia|].
  rewrite E. cbv zeta. cbn [rsp iram xram]. rewrite OX. split; [|split; [done|]].
  - unfold dptr. cbn [rdpl rdph].
    assert (B0 : byte (nth 0 (tstk t) 0)) by (rewrite Forall_nth in F3; apply F3; lia).
    assert (B1 : byte (nth 1 (tstk t) 0)) by (rewrite Forall_nth in F3; apply F3; lia).
    assert (N0 : ir S0 = nth 0 (tstk t) 0).
    { replace S0 with (S0 + Z.of_nat 0) by lia. apply O2. unfold context. rewrite lookup_app_l by lia.
      rewrite nth_lookup. destruct (lookup_lt_is_Some_2 (tstk t) 0) as [v Hv]; [lia|]. by rewrite Hv. }
    assert (N1 : ir (S0 + 1) = nth 1 (tstk t) 0).
    { replace (S0 + 1) with (S0 + Z.of_nat 1) by lia. apply O2. unfold context. rewrite lookup_app_l by lia.
      rewrite nth_lookup. destruct (lookup_lt_is_Some_2 (tstk t) 1) as [v Hv]; [lia|]. by rewrite Hv. }
    rewrite N0, N1. unfold tbase in *. unfold byte in *. set (x := nth 0 _ _) in *. set (y := nth 1 _ _) in *.
    set (n := sp - (S0 - 1)). assert (Hn : n = Z.of_nat (length (context t))) by lia.
    pose proof (Z.div_mod (x + n) 256 ltac:(lia)). pose proof (Z.mod_pos_bound (x + n) 256 ltac:(lia)).
    assert (0 <= (x + n) / 256) by (apply Z.div_pos; lia).
    clearbody n x y. clear -F6 Hc Hlen Hn H H0 H1 B0 B1. rewrite Hn in *.
    assert (y + (x + Z.of_nat (length (context t))) / 256 < 256) by lia.
    rewrite (b8_small (y + (x + Z.of_nat (length (context t))) / 256)) by lia.
    unfold b8. lia.
  - split; cbn [rsp iram]; [rewrite app_length; cbn [length]; lia|]. intros i v Hv.
    assert (Hp : forall k w, [p0; p1; p2] !! k = Some w -> ir (sp - 17 + Z.of_nat k) = w).
    { intros k w Hw. rewrite <- (O2 (length u + k)%nat w).
      - f_equal. lia.
      - unfold context. rewrite Hu, <- app_assoc. rewrite lookup_app_r by lia.
        replace (length u + k - length u)%nat with k by lia.
        rewrite lookup_app_l; [done|]. by apply lookup_lt_Some in Hw. }
    assert (Hd : ir (sp - 11) = tdpl t).
    { rewrite <- (O2 (length (tstk t) + 3)%nat (tdpl t)).
      - f_equal. lia.
      - unfold context. rewrite lookup_app_r by lia. replace (length (tstk t) + 3 - length (tstk t))%nat with 3%nat by lia. done. }
    destruct (decide (i < length (context t))%nat) as [Hlt|Hge].
    + rewrite lookup_app_l in Hv by done. rewrite I5 by lia. by apply O2.
    + rewrite lookup_app_r in Hv by lia.
      remember (i - length (context t))%nat as k eqn:Hk.
      replace (S0 + Z.of_nat i) with (sp + 1 + Z.of_nat k) by lia.
      pose proof (Hp 0%nat p0 eq_refl) as P0. pose proof (Hp 1%nat p1 eq_refl) as P1. pose proof (Hp 2%nat p2 eq_refl) as P2.
      destruct k as [|[|[|[|k]]]]; try done; injection Hv as <-.
      * rewrite <- P0. replace (sp - 17 + Z.of_nat 0) with (sp - 17) by lia. rewrite <- I1. f_equal; lia.
      * rewrite <- P1. replace (sp - 17 + Z.of_nat 1) with (sp - 16) by lia. rewrite <- I2. f_equal; lia.
      * rewrite <- P2. replace (sp - 17 + Z.of_nat 2) with (sp - 15) by lia. rewrite <- I3. f_equal; lia.
      * rewrite <- Hd, <- I4. f_equal; lia.
Qed.

Lemma call_save_spec S0 fuel m t extra :
  fits S0 19 t -> onstack S0 m (context t ++ extra) -> length extra = 4%nat ->
  (length (context t) <= fuel)%nat ->
  exists m', call_save S0 fuel m = Some m' /\ rdpl m' = rdpl m /\ rdph m' = rdph m /\ rsp m' = S0 - 1 /\
    parked (xram m') (tbase t + Z.of_nat (length (context t))) t /\
    (forall a, ~ (tbase t <= a < tbase t + Z.of_nat (length (context t))) -> xram m' a = xram m a).
Proof.
  intros Hfit [O1 O2] He Hf. rewrite app_length, He in O1. pose proof Hfit as [F1 F2 F3 F4 F5 F6].
  pose proof (context_length t F1) as Hc.
  assert (Hfit' : fits S0 15 t) by (split; try done; lia).
  unfold call_save.
  assert (Ee : exec [mov_a rsp; add_a 252; mov_sp ra; mov_r 5 rdpl; mov_r 6 rdph] m =
     mk51 (rsp m - 4) (rb m) (rdpl m) (rdph m) (rpsw m) (rsp m - 4) (rpcl m) (rpch m)
       (upd (upd (iram m) 5 (rdpl m)) 6 (rdph m)) (xram m)).
  { destruct m as [a b dl dh ps sp pl ph ir xr]. cbn [rsp] in O1. do 2 ex1. rewrite sub4 by lia. do 3 ex1. rewrite exec_nil.
    cbn [rsp rb rdpl rdph rpsw rpcl rpch iram xram]. done. }
  rewrite Ee. clear Ee.
  edestruct (step2_parks S0 fuel) as (m' & E & E1 & E2 & E3 & E4 & E5 & E6); [exact Hfit'| |exact Hf|].
  2:{ rewrite E. eexists. split; [reflexivity|]. rewrite !exec_cons, exec_nil.
      unfold mov_dpl, mov_dph, ar. cbn [rdpl rdph rsp xram iram set_dpl set_dph]. cbn [xram iram] in E4, E6.
      split; [rewrite E4 by lia; upds; done|]. split; [rewrite E4 by lia; upds; done|]. split; [done|]. split; [|done].
      destruct E5 as [E51 E52]. split; [done|]. intros i v Hv. rewrite <- E51. by apply E52. }
  split; cbn [rsp iram]; [lia|]. intros i v Hv. pose proof (lookup_lt_Some _ _ _ Hv).
  rewrite !upd_other by lia. apply O2. by rewrite lookup_app_l.
Qed.

(** ** A new task *)
Lemma movx_spec r m : byte (rdpl m) -> byte (rdph m) -> dptr m + 1 < 65536 ->
  let m' := movx r m in
  rb m' = rb m /\ rpsw m' = rpsw m /\ rsp m' = rsp m /\ rpcl m' = rpcl m /\ rpch m' = rpch m /\ iram m' = iram m /\
  byte (rdpl m') /\ byte (rdph m') /\ dptr m' = dptr m + 1 /\ xram m' = upd (xram m) (dptr m) (r m).
Proof.
  intros Bl Bh Hd. destruct m as [a b dl dh ps sp pl ph ir xr]. unfold dptr in *. cbn [rdpl rdph] in *.
  unfold movx. ex1. rewrite !exec_cons, exec_nil. unfold set_x, inc_dptr, set_dpl, set_dph, dptr.
  cbn [ra rb rdpl rdph rpsw rsp rpcl rpch iram xram].
  rewrite !(Z.mod_small _ 65536) by (unfold byte in *; lia).
  pose proof (Z.div_mod (dl + 256 * dh + 1) 256 ltac:(lia)). pose proof (Z.mod_pos_bound (dl + 256 * dh + 1) 256 ltac:(lia)).
  unfold byte in *.
  assert (0 <= (dl + 256 * dh + 1) / 256) by (apply Z.div_pos; lia).
  split_and!; try done; lia.
Qed.
Lemma movx_list l : forall m, byte (rdpl m) -> byte (rdph m) -> dptr m + Z.of_nat (length l) < 65536 ->
  (forall r, In r l -> forall m', iram m' = iram m -> r m' = r m) ->
  let m' := exec (map movx l) m in
  rsp m' = rsp m /\ iram m' = iram m /\
  byte (rdpl m') /\ byte (rdph m') /\ dptr m' = dptr m + Z.of_nat (length l) /\
  (forall i v, map (fun r => r m) l !! i = Some v -> xram m' (dptr m + Z.of_nat i) = v) /\
  (forall a, ~ (dptr m <= a < dptr m + Z.of_nat (length l)) -> xram m' a = xram m a).
Proof.
  induction l as [|r l IH]; intros m Bl Bh Hd Hr; cbn [length map] in *.
  - rewrite exec_nil. cbv zeta. do 4 (split; [done|]). split; [lia|]. done.
  - rewrite exec_cons.
    destruct (movx_spec r m) as (_ & _ & E3 & _ & _ & E6 & E7 & E8 & E9 & E10); [done|done|lia|].
    revert E3 E6 E7 E8 E9 E10. generalize (movx r m). intros m1 E3 E6 E7 E8 E9 E10.
    assert (Hm : map (fun r => r m1) l = map (fun r => r m) l).
    { apply map_ext_in. intros r' Hin. apply Hr; [by right|done]. }
    destruct (IH m1) as (F1 & F2 & F3 & F4 & F5 & F6 & F7); [done|done|lia| |].
    { intros r' Hin m' Hm'. rewrite (Hr r') by (try (by right); congruence). rewrite <- (Hr r') with (m' := m1) by (try (by right); done). done. }
    revert F1 F2 F3 F4 F5 F6 F7. generalize (exec (map movx l) m1). intros m' F1 F2 F3 F4 F5 F6 F7. cbv zeta.
    split; [congruence|]. split; [congruence|]. split; [done|]. split; [done|]. split; [lia|]. split.
    + intros [|i] v Hv.
      * injection Hv as <-. rewrite F7 by lia. rewrite E10. replace (dptr m + Z.of_nat 0) with (dptr m) by lia. apply upd_same.
      * cbn in Hv. rewrite <- Hm in Hv. rewrite <- (F6 i v Hv). f_equal. lia.
    + intros a Ha. rewrite F7 by lia. rewrite E10. apply upd_other. lia.
Qed.

Lemma save_first_gen m base fn priv :
  14 <= rsp m < 256 -> byte (rdpl m) -> byte (rdph m) -> dptr m = base -> base + 17 < 65536 ->
  0 <= fn < 65536 -> 0 <= priv < 65536 ->
  iram m (rsp m - 2) = fn / 256 -> iram m (rsp m - 3) = fn mod 256 ->
  iram m (rsp m - 5) = priv / 256 -> iram m (rsp m - 6) = priv mod 256 ->
  let m' := save_first m in
  rsp m' = rsp m - 2 /\ rpcl m' = iram m (rsp m - 1) /\ rpch m' = iram m (rsp m) /\
  dptr m' = base + 17 /\
  (forall i v, context (mkT51 65 0 (priv mod 256) (priv / 256) 0 (fn mod 256) (fn / 256) [0; 1; 2; 3; 4; 5; 6; 7] [iram m 5; iram m 6]) !! i = Some v ->
     xram m' (base + 16 - Z.of_nat i) = v) /\
  (forall a, 8 <= a -> iram m' a = iram m a) /\
  (forall a, ~ (base <= a < base + 17) -> xram m' a = xram m a).
Proof.
  intros Hs Bl Bh Hb Hx Hfn Hpr I2 I3 I5 I6. unfold save_first.
  assert (E : first_in m = mk51 (ra m) (rb m) (rdpl m) (rdph m) (rpsw m) (rsp m - 7) (rpcl m) (rpch m)
     (upd (upd (upd (upd (iram m) 4 (fn / 256)) 3 (fn mod 256)) 2 (priv / 256)) 1 (priv mod 256)) (xram m)).
  { destruct m as [a b dl dh ps sp pl ph ir xr]. cbn [rsp iram] in *. unfold first_in.
    ex dec_sp_val. ex dec_sp_val. ex pop_ar_val. ex pop_ar_val. ex dec_sp_val. ex pop_ar_val. ex pop_ar_val.
    rewrite exec_nil. cbn [ra rb rdpl rdph rpsw rpcl rpch xram]. by rewrite I2, I3, I5, I6. }
  rewrite E. clear E.
  set (m0 := mk51 _ _ _ _ _ _ _ _ _ _).
  unfold first_out.
  pose (l := [imm 0; imm 7; imm 6; imm 5; imm 4; imm 3; imm 2; imm 1; imm 0; imm 0; ar 2; ar 1; imm 65; ar 4; ar 3; ar 6; ar 5]).
  match goal with |- context [exec ?L m0] => assert (EL : L = map movx l ++ [mov_a rsp; add_a 7; mov_sp ra; ret]) by done; rewrite EL; clear EL end.
  rewrite exec_app.
  assert (Ed0 : dptr m0 = base) by done.
  destruct (movx_list l m0) as (F1 & F2 & F3 & F4 & F5 & F6 & F7); [done|done|rewrite Ed0; cbn [length l]; lia| |].
  { intros r Hin m' Hm'. subst l. cbn in Hin. unfold ar, imm in Hin.
    repeat (destruct Hin as [<-|Hin]; [by rewrite ?Hm'|]). done. }
  assert (V : map (fun r : m51 -> Z => r m0) l =
    [0; 7; 6; 5; 4; 3; 2; 1; 0; 0; priv / 256; priv mod 256; 65; fn / 256; fn mod 256; iram m 6; iram m 5]).
  { unfold l, m0, ar, imm. cbn [map iram]. upds. done. }
  rewrite V in F6. rewrite Ed0 in *. change (length l) with 17%nat in *.
  assert (Es0 : rsp m0 = rsp m - 7) by done.
  assert (Ei0 : iram m0 = upd (upd (upd (upd (iram m) 4 (fn / 256)) 3 (fn mod 256)) 2 (priv / 256)) 1 (priv mod 256)) by done.
  assert (Ex0 : xram m0 = xram m) by done.
  rewrite Es0, Ei0, Ex0 in *. clear V Es0 Ei0 Ex0 Ed0. revert F1 F2 F3 F4 F5 F6 F7. generalize (exec (map movx l) m0).
  clear m0 l. intros [a b dl dh ps sp pl ph ir xr]. unfold dptr at 1 2. cbn [rdpl rdph rsp iram xram].
  intros F1 F2 F3 F4 F5 F6 F7. subst sp.
  ex1. ex1. rewrite (b8_small (rsp m - 7 + 7)) by lia. replace (rsp m - 7 + 7) with (rsp m) by lia. ex1. ex ret_val.
  rewrite exec_nil. cbn [rsp rpcl rpch iram xram rdpl rdph]. unfold dptr. cbn [rdpl rdph]. rewrite F5, F2.
  split; [done|]. split; [by upds|]. split; [by upds|]. split; [done|]. split; [|split; [|exact F7]].
  - intros i v Hv.
    assert (Hi : (i < 17)%nat) by (apply lookup_lt_Some in Hv; cbn in Hv; lia).
    replace (base + 16 - Z.of_nat i) with (base + Z.of_nat (16 - i)) by lia. apply F6. rewrite <- Hv. clear -Hi.
    unfold context. cbn [tstk tpcl tpch ta tdpl tdph tb tr tpsw app].
    do 17 (destruct i as [|i]; [reflexivity|]). lia.
  - intros x Hx8. upds. done.
Qed.

Lemma base_bytes dl dh : byte dl -> byte dh -> (dl + 256 * dh) mod 256 = dl /\ (dl + 256 * dh) / 256 = dh.
Proof.
  unfold byte. intros H1 H2. split; symmetry.
  - apply Z.mod_unique with (q := dh); lia.
  - apply Z.div_unique with (r := dl); lia.
Qed.
Lemma hi_small x : 0 <= x < 65536 -> x / 256 mod 256 = x / 256.
Proof. intros H. apply Z.mod_small. split; [apply Z.div_pos; lia|apply Z.div_lt_upper_bound; lia]. Qed.
Lemma save_first_spec m base fn priv :
  14 <= rsp m < 256 -> byte (rdpl m) -> byte (rdph m) -> dptr m = base -> base + 17 < 65536 ->
  0 <= fn < 65536 -> 0 <= priv < 65536 ->
  iram m (rsp m - 2) = fn / 256 -> iram m (rsp m - 3) = fn mod 256 ->
  iram m (rsp m - 5) = priv / 256 -> iram m (rsp m - 6) = priv mod 256 ->
  iram m 5 = rdpl m -> iram m 6 = rdph m ->
  let m' := save_first m in
  rsp m' = rsp m - 2 /\ rpcl m' = iram m (rsp m - 1) /\ rpch m' = iram m (rsp m) /\
  dptr m' = base + 17 /\ parked (xram m') (dptr m') (new_task base fn priv) /\
  (forall a, 8 <= a -> iram m' a = iram m a) /\
  (forall a, ~ (base <= a < base + 17) -> xram m' a = xram m a).
Proof.
  intros Hs Bl Bh Hb Hx Hfn Hpr I2 I3 I5 I6 R5 R6.
  destruct (save_first_gen m base fn priv) as (E1 & E2 & E3 & E4 & E5 & E6 & E7); try done.
  cbv zeta in *. repeat (split; [done|]). split; [|done].
  rewrite R5, R6 in E5. destruct (base_bytes (rdpl m) (rdph m) Bl Bh) as [Q1 Q2].
  unfold dptr in Hb at 1. rewrite Hb in Q1, Q2. unfold parked, new_task. rewrite Q1, Q2, !hi_small by done. rewrite E4. split.
  - unfold tbase, context. cbn [tstk nth length app]. rewrite Hb. done.
  - intros i v Hv. replace (base + 17 - 1 - Z.of_nat i) with (base + 16 - Z.of_nat i) by lia. by apply E5.
Qed.

Lemma call_switches : forall S0 fuel m t l p0 p1 p2,
  fits S0 19 t -> runs S0 m t -> tstk t = l ++ [p0; p1; p2] -> (2 <= length l)%nat ->
  let m1 := call_in S0 (intr m) in
  dptr m1 = tbase t + Z.of_nat (length (context t)) /\ xram m1 = xram m /\
  onstack S0 m1 (context t ++ [p0; p1; p2; tdpl t]) /\
  forall m2 t' u e, fits S0 19 t' -> onstack S0 m2 (context t' ++ e) -> length e = 4%nat ->
    (length (context t') <= fuel)%nat -> (length (context u) <= fuel)%nat ->
    fits S0 15 u -> byte (rdpl m2) -> byte (rdph m2) -> parked (xram m2) (dptr m2) u ->
    (tbase t' + Z.of_nat (length (context t')) <= tbase u \/ tbase u + Z.of_nat (length (context u)) <= tbase t') ->
    exists m3 m', call_save S0 fuel m2 = Some m3 /\ resume S0 fuel m3 = Some m' /\ runs S0 m' u /\
      parked (xram m') (tbase t' + Z.of_nat (length (context t'))) t'.
Proof.
  intros S0 fuel m t l p0 p1 p2 Ft Hr Hl Hlen.
  destruct (call_in_spec S0 m t l p0 p1 p2 Ft Hr Hl Hlen) as (A1 & A2 & A3).
  split; [exact A1|]. split; [exact A2|]. split; [exact A3|]. clear A1 A2 A3.
  intros m2 t' u e Ft' Ho He Hf1 Hf2 Fu Bl Bh [Hp1 Hp2] Hd.
  destruct (call_save_spec S0 fuel m2 t' e) as (m3 & E & E1 & E2 & E3 & E4 & E5); try done.
  assert (Ed : dptr m3 = dptr m2) by (unfold dptr; congruence).
  destruct (resume_runs S0 fuel m3 u) as (m' & G & G1 & G2); try done.
  - by rewrite E1.
  - by rewrite E2.
  - rewrite Ed. split; [done|]. intros i v Hv. pose proof (lookup_lt_Some _ _ _ Hv). rewrite E5 by lia. by apply Hp2.
  - exists m3, m'. split; [done|]. split; [done|]. split; [done|]. by rewrite G2.
Qed.

Lemma new_fits S0 base fn priv : 8 <= S0 <= 239 -> 0 <= base -> base + 17 < 65536 -> fits S0 15 (new_task base fn priv).
Proof.
  intros H1 H2 H3. pose proof (Z.div_mod base 256 ltac:(lia)). pose proof (Z.mod_pos_bound base 256 ltac:(lia)).
  assert (0 <= base / 256 < 256) by (split; [apply Z.div_pos; lia|apply Z.div_lt_upper_bound; lia]).
  split; cbn [tr tstk new_task length]; try done; try lia.
  - repeat constructor; unfold byte; lia.
  - unfold tbase. cbn [tstk new_task nth]. lia.
Qed.
Lemma new_starts : forall S0 fuel m base fn priv,
  8 <= S0 <= 239 -> 0 <= base -> base + 17 < 65536 -> 0 <= fn < 65536 -> 0 <= priv < 65536 ->
  byte (rdpl m) -> byte (rdph m) -> parked (xram m) (dptr m) (new_task base fn priv) -> (17 <= fuel)%nat ->
  exists m', resume S0 fuel m = Some m' /\ rpcl m' + 256 * rpch m' = fn /\ dptr m' = priv /\ rb m' = 0 /\
    rsp m' = S0 + 1 /\ iram m' S0 + 256 * iram m' (S0 + 1) = base /\ xram m' = xram m.
Proof.
  intros S0 fuel m base fn priv H1 H2 H3 H4 H5 Bl Bh Hp Hf.
  destruct (resume_runs S0 fuel m (new_task base fn priv)) as (m' & E & R & X); try done.
  { by apply new_fits. }
  destruct R as [R1 R2 R3 R4 R5 R6 R7 R8 R9 R10]. cbn [ta tb tdpl tdph tpsw tpcl tpch tr tstk new_task length] in *.
  exists m'. split; [done|]. unfold dptr. rewrite R3, R4, R6, R7, !hi_small by done.
  pose proof (Z.div_mod fn 256 ltac:(lia)). pose proof (Z.div_mod priv 256 ltac:(lia)). pose proof (Z.div_mod base 256 ltac:(lia)).
  split; [lia|]. split; [lia|]. split; [done|]. split; [lia|]. split; [|done].
  pose proof (R10 0%nat _ eq_refl) as Q0. pose proof (R10 1%nat _ eq_refl) as Q1.
  replace (S0 + Z.of_nat 0) with S0 in Q0 by lia. replace (S0 + Z.of_nat 1) with (S0 + 1) in Q1 by lia. lia.
Qed.
Lemma new_needs_r5 : forall m base fn priv,
  14 <= rsp m < 256 -> byte (rdpl m) -> byte (rdph m) -> dptr m = base -> base + 17 < 65536 ->
  0 <= fn < 65536 -> 0 <= priv < 65536 ->
  iram m (rsp m - 2) = fn / 256 -> iram m (rsp m - 3) = fn mod 256 ->
  iram m (rsp m - 5) = priv / 256 -> iram m (rsp m - 6) = priv mod 256 ->
  iram m 5 <> rdpl m \/ iram m 6 <> rdph m ->
  ~ parked (xram (save_first m)) (dptr (save_first m)) (new_task base fn priv).
Proof.
  intros m base fn priv Hs Bl Bh Hb Hx Hfn Hpr I2 I3 I5 I6 Hne [P1 P2].
  destruct (save_first_gen m base fn priv) as (E1 & E2 & E3 & E4 & E5 & E6 & E7); try done.
  destruct (base_bytes (rdpl m) (rdph m) Bl Bh) as [Q1 Q2].
  unfold dptr in Hb at 1. rewrite Hb in Q1, Q2.
  pose proof (P2 0%nat _ eq_refl) as A0. pose proof (P2 1%nat _ eq_refl) as A1.
  pose proof (E5 0%nat _ eq_refl) as B0. pose proof (E5 1%nat _ eq_refl) as B1.
  rewrite E4 in A0, A1.
  replace (base + 17 - 1 - Z.of_nat 0) with (base + 16 - Z.of_nat 0) in A0 by lia.
  replace (base + 17 - 1 - Z.of_nat 1) with (base + 16 - Z.of_nat 1) in A1 by lia.
  rewrite A0 in B0. rewrite A1 in B1. destruct Hne as [Hne|Hne]; apply Hne; congruence.
Qed.
