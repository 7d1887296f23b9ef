(** Asm51Proofs.v - the context switch of the 8051 port. *)
From Verif Require Import Base Asm51Model Asm51Spec.
From Coq Require Import ZifyBool ZifyNat.

Lemma b8_small v : 0 <= v < 256 -> b8 v = v.
Proof. apply Z.mod_small. Qed.
Lemma b8_byte v : byte (b8 v).
Proof. apply Z.mod_pos_bound. lia. Qed.
Lemma upd_same f a v : upd f a v a = v.
Proof. unfold upd. by rewrite Z.eqb_refl. Qed.
Lemma upd_other f a v x : x <> a -> upd f a v x = f x.
Proof. intros H. unfold upd. by rewrite (proj2 (Z.eqb_neq _ _) H). Qed.

Ltac b8s := repeat match goal with
  | |- context [b8 ?x] => lazymatch x with context [b8 _] => fail | _ => rewrite (b8_small x) by lia end
  end.
Ltac upds := repeat match goal with
  | |- context [upd ?f ?a ?v ?x] =>
      first [ rewrite (upd_other f a v x) by lia
            | replace x with a by lia; rewrite (upd_same f a v) ]
  end.

(** ** Pushes *)
Lemma exec_cons f l m : exec (f :: l) m = exec l (f m).
Proof. done. Qed.
Lemma exec_app l l' m : exec (l ++ l') m = exec l' (exec l m).
Proof. revert m. induction l as [|f l IH]; intros m; [done|]. apply IH. Qed.
Lemma exec_nil m : exec [] m = m.
Proof. done. Qed.
Definition pushes (l : list Z) (m : m51) : m51 := fold_left (fun m v => push v m) l m.
Lemma pushes_spec l m : 0 <= rsp m -> rsp m + Z.of_nat (length l) < 256 ->
  let m' := pushes l m in
  ra m' = ra m /\ rb m' = rb m /\ rdpl m' = rdpl m /\ rdph m' = rdph m /\ rpsw m' = rpsw m /\
  rpcl m' = rpcl m /\ rpch m' = rpch m /\ xram m' = xram m /\
  rsp m' = rsp m + Z.of_nat (length l) /\
  (forall i v, l !! i = Some v -> iram m' (rsp m + 1 + Z.of_nat i) = v) /\
  (forall a, a <= rsp m \/ rsp m + Z.of_nat (length l) < a -> iram m' a = iram m a).
Proof.
  revert m. induction l as [|x l IH]; intros m H0 H1; cbn [length] in *.
  - cbn. repeat split; try done; lia.
  - cbn [pushes fold_left]. fold (pushes l (push x m)).
    assert (E : rsp (push x m) = rsp m + 1) by (cbn; rewrite b8_small by lia; done).
    destruct (IH (push x m)) as (E1 & E2 & E3 & E4 & E5 & E6 & E7 & E8 & E9 & E10 & E11); [lia|lia|].
    repeat (split; [done|]). split; [lia|]. split.
    + intros [|i] v Hv; cbn [lookup list_lookup] in Hv.
      * injection Hv as ->. rewrite E11 by lia. cbn. rewrite b8_small by lia.
        replace (rsp m + 1 + Z.of_nat 0) with (rsp m + 1) by lia. apply upd_same.
      * replace (rsp m + 1 + Z.of_nat (S i)) with (rsp (push x m) + 1 + Z.of_nat i) by lia. by apply E10.
    + intros a Ha. rewrite E11 by lia. cbn. rewrite b8_small by lia. apply upd_other. lia.
Qed.

Definition save_list (m : m51) : list Z :=
  [ra m; rdpl m; rdph m; rb m; iram m 0; iram m 1; iram m 2; iram m 3; iram m 4; iram m 5; iram m 6; iram m 7; rpsw m].
Lemma push_low v m k : 0 <= k < 8 -> 7 <= rsp m < 255 -> iram (push v m) k = iram m k.
Proof. intros. cbn. rewrite b8_small by lia. apply upd_other. lia. Qed.
Lemma rsp_push v m : rsp (push v m) = b8 (rsp m + 1).
Proof. done. Qed.
Lemma push_val v a b dl dh ps sp pl ph ir xr : 0 <= sp < 255 ->
  push v (mk51 a b dl dh ps sp pl ph ir xr) = mk51 a b dl dh ps (sp + 1) pl ph (upd ir (sp + 1) v) xr.
Proof. intros H. unfold push. cbn. by rewrite b8_small by lia. Qed.
Lemma pushr_val r a b dl dh ps sp pl ph ir xr : 0 <= sp < 255 ->
  pushr r (mk51 a b dl dh ps sp pl ph ir xr) =
  mk51 a b dl dh ps (sp + 1) pl ph (upd ir (sp + 1) (r (mk51 a b dl dh ps sp pl ph ir xr))) xr.
Proof. apply push_val. Qed.
Section vals.
  Context (a b dl dh ps sp pl ph : Z) (ir xr : Z -> Z) (r : m51 -> Z) (k v : Z).
  Let M := mk51 a b dl dh ps sp pl ph ir xr.
  Lemma mov_a_val : mov_a r M = mk51 (r M) b dl dh ps sp pl ph ir xr.
  Proof. done. Qed.
  Lemma mov_b_val : mov_b r M = mk51 a (r M) dl dh ps sp pl ph ir xr.
  Proof. done. Qed.
  Lemma mov_dpl_val : mov_dpl r M = mk51 a b (r M) dh ps sp pl ph ir xr.
  Proof. done. Qed.
  Lemma mov_dph_val : mov_dph r M = mk51 a b dl (r M) ps sp pl ph ir xr.
  Proof. done. Qed.
  Lemma mov_psw_val : mov_psw r M = mk51 a b dl dh (r M) sp pl ph ir xr.
  Proof. done. Qed.
  Lemma mov_sp_val : mov_sp r M = mk51 a b dl dh ps (r M) pl ph ir xr.
  Proof. done. Qed.
  Lemma mov_r_val : mov_r k r M = mk51 a b dl dh ps sp pl ph (upd ir k (r M)) xr.
  Proof. done. Qed.
  Lemma inc_r_val : inc_r k M = mk51 a b dl dh ps sp pl ph (upd ir k (b8 (ir k + 1))) xr.
  Proof. done. Qed.
  Lemma add_a_val : add_a v M = mk51 (b8 (a + v)) b dl dh ps sp pl ph ir xr.
  Proof. done. Qed.
  Lemma imm_val : imm v M = v.
  Proof. done. Qed.
End vals.
Ltac regs := rewrite ?imm_val; cbn [ra rb rdpl rdph rpsw rsp rpcl rpch iram xram ar at_r0].
Ltac subs := repeat match goal with
  | |- context [?x - ?p - ?q] => lazymatch p with Zpos _ => lazymatch q with Zpos _ =>
      let k := eval vm_compute in (p + q) in replace (x - p - q) with (x - k) by lia end end
  | |- context [?x + ?p + ?q] => lazymatch p with Zpos _ => lazymatch q with Zpos _ =>
      let k := eval vm_compute in (p + q) in replace (x + p + q) with (x + k) by lia end end end.
Ltac ex L := rewrite exec_cons, L by lia; subs; regs; upds.
Ltac ex1 := rewrite exec_cons; first [rewrite mov_a_val|rewrite mov_b_val|rewrite mov_dpl_val|rewrite mov_dph_val|rewrite mov_psw_val
  |rewrite mov_sp_val|rewrite mov_r_val|rewrite inc_r_val|rewrite add_a_val]; regs; upds.
Lemma step1_pushes m : 7 <= rsp m <= 242 -> step1 m = set_psw 0 (pushes (save_list m) m).
Proof.
  intros H. destruct m as [a b dl dh ps sp pl ph ir xr]. cbn [rsp] in H.
  transitivity (exec [mov_psw (imm 0)] (pushes (save_list (mk51 a b dl dh ps sp pl ph ir xr)) (mk51 a b dl dh ps sp pl ph ir xr))); [|done].
  unfold step1. do 12 ex pushr_val. ex pushr_val.
  unfold pushes, save_list. cbn [fold_left ra rb rdpl rdph rpsw iram].
  do 13 (rewrite push_val by lia; subs). reflexivity.
Qed.

(** ** The save loop *)
Lemma save_loop_spec S0 l : forall m fuel,
  8 <= S0 -> l <> [] -> S0 + Z.of_nat (length l) <= 256 ->
  rsp m = S0 - 1 + Z.of_nat (length l) ->
  (forall i v, l !! i = Some v -> iram m (S0 + Z.of_nat i) = v) ->
  byte (rdpl m) -> byte (rdph m) -> dptr m + Z.of_nat (length l) < 65536 -> (length l <= fuel)%nat ->
  exists m', save_loop S0 fuel m = Some m' /\
    rb m' = rb m /\ rpsw m' = rpsw m /\ rsp m' = S0 - 1 /\ iram m' = iram m /\
    byte (rdpl m') /\ byte (rdph m') /\
    dptr m' = dptr m + Z.of_nat (length l) /\
    (forall i v, l !! i = Some v -> xram m' (dptr m' - 1 - Z.of_nat i) = v) /\
    (forall a, ~ (dptr m <= a < dptr m') -> xram m' a = xram m a).
Proof.
  induction l as [|x l IH] using rev_ind; [done|].
  intros m fuel HS _ Hi Hsp Hstk Hl Hh Hx Hf. rewrite app_length in *. cbn [length] in *.
  destruct fuel as [|fuel]; [lia|]. cbn [save_loop].
  set (m1 := save_one m).
  assert (Et : top m = x).
  { unfold top. rewrite Hsp. specialize (Hstk (length l) x).
    rewrite lookup_app_r, Nat.sub_diag in Hstk by lia. rewrite <- Hstk by done. f_equal. lia. }
  assert (Ed : dptr m1 = dptr m + 1 /\ byte (rdpl m1) /\ byte (rdph m1)).
  { unfold m1, save_one, inc_dptr. cbn. unfold dptr in *. cbn. rewrite !(Z.mod_small _ 65536) by (unfold byte in *; lia).
    pose proof (Z.div_mod (rdpl m + 256 * rdph m + 1) 256). unfold byte in *. split; [lia|].
    split; [apply Z.mod_pos_bound; lia|]. split; [apply Z.div_pos; lia|apply Z.div_lt_upper_bound; lia]. }
  destruct Ed as (Ed & Bl & Bh).
  assert (Esp : rsp m1 = S0 - 1 + Z.of_nat (length l)).
  { unfold m1. cbn. rewrite b8_small by lia. lia. }
  assert (Ex : xram m1 = upd (xram m) (dptr m) x).
  { unfold m1. cbn. rewrite Et. done. }
  assert (Ei : iram m1 = iram m) by done.
  assert (Ea : ra m1 = rsp m1) by done.
  assert (Eb : rb m1 = rb m /\ rpsw m1 = rpsw m) by done.
  clearbody m1. rewrite Ea, Esp, (b8_small (S0 - 1)) by lia.
  destruct l as [|y l].
  - cbn [length]. replace (S0 - 1 + Z.of_nat 0) with (S0 - 1) by lia. rewrite Z.eqb_refl.
    exists m1. split; [done|]. destruct Eb as [-> ->]. rewrite Esp, Ei, Ex. cbn [length app] in *.
    repeat (split; [done||lia|]). split.
    + intros [|i] v Hv; [|done]. injection Hv as ->. rewrite Ed.
      replace (dptr m + 1 - 1 - Z.of_nat 0) with (dptr m) by lia. apply upd_same.
    + intros a Ha. apply upd_other. lia.
  - rewrite (proj2 (Z.eqb_neq _ _)) by (cbn [length]; lia).
    destruct (IH m1 fuel) as (m' & E & E1 & E2 & E3 & E4 & E5 & E6 & E7 & E8 & E9); try done; try lia.
    { intros i v Hv. rewrite Ei. apply Hstk. rewrite lookup_app_l; [done|]. by apply lookup_lt_Some in Hv. }
    exists m'. split; [done|]. destruct Eb as [<- <-]. repeat (split; [congruence||lia|]). split.
    + intros i v Hv. destruct (decide (i < length (y :: l))%nat) as [Hlt|Hge].
      * apply E8. by rewrite lookup_app_l in Hv.
      * rewrite lookup_app_r in Hv by lia.
        apply lookup_lt_Some in Hv as Hl'. cbn [length] in Hl', Hge |- *.
        assert (i = length (y :: l)) as -> by (cbn [length]; lia). rewrite Nat.sub_diag in Hv. injection Hv as ->.
        rewrite E9 by (cbn [length] in *; lia). rewrite Ex, E7, Ed.
        replace (dptr m + 1 + Z.of_nat (length (y :: l)) - 1 - Z.of_nat (length (y :: l))) with (dptr m) by lia.
        apply upd_same.
    + intros a Ha. rewrite E9 by lia. rewrite Ex. apply upd_other. lia.
Qed.

Lemma dptr_from_sp_val S0 a b dl dh ps sp pl ph ir xr : 8 <= S0 < 255 ->
  dptr_from_sp S0 (mk51 a b dl dh ps sp pl ph ir xr) =
  mk51 a 0 (ir S0) (ir (S0 + 1)) ps sp pl ph (upd (upd ir 0 S0) 0 (S0 + 1)) xr.
Proof.
  intros H. unfold dptr_from_sp. do 2 ex1. ex1. rewrite (b8_small (S0 + 1)) by lia. ex1. ex1. done.
Qed.
Lemma dptr_from_sp_spec S0 m : 8 <= S0 < 255 ->
  let m' := dptr_from_sp S0 m in
  rb m' = 0 /\ rpsw m' = rpsw m /\ rsp m' = rsp m /\ xram m' = xram m /\
  rdpl m' = iram m S0 /\ rdph m' = iram m (S0 + 1) /\
  (forall a, a <> 0 -> iram m' a = iram m a) /\ iram m' 0 = S0 + 1.
Proof.
  intros H. destruct m as [a b dl dh ps sp pl ph ir xr]. rewrite dptr_from_sp_val by done.
  repeat (split; [done|]). cbn [iram]. split; [|apply upd_same].
  intros x Hx. by rewrite !upd_other.
Qed.

Lemma step2_spec S0 l m fuel :
  8 <= S0 -> (2 <= length l)%nat -> S0 + Z.of_nat (length l) <= 256 ->
  rsp m = S0 - 1 + Z.of_nat (length l) ->
  (forall i v, l !! i = Some v -> iram m (S0 + Z.of_nat i) = v) ->
  Forall byte (take 2 l) ->
  let base := nth 0 l 0 + 256 * nth 1 l 0 in
  base + Z.of_nat (length l) < 65536 -> (length l <= fuel)%nat ->
  exists m', step2 S0 fuel m = Some m' /\
    rsp m' = S0 - 1 /\ byte (rdpl m') /\ byte (rdph m') /\ (forall a, a <> 0 -> iram m' a = iram m a) /\
    dptr m' = base + Z.of_nat (length l) /\
    (forall i v, l !! i = Some v -> xram m' (dptr m' - 1 - Z.of_nat i) = v) /\
    (forall a, ~ (base <= a < dptr m') -> xram m' a = xram m a).
Proof.
  intros HS Hl Hi Hsp Hstk Hb base Hx Hf. unfold step2.
  destruct (dptr_from_sp_spec S0 m) as (E1 & E2 & E3 & E4 & E5 & E6 & E7 & E8); [lia|].
  destruct l as [|x0 [|x1 l]]; cbn [length] in Hl; [lia|lia|].
  cbn [take] in Hb. apply Forall_cons in Hb as [B0 Hb]. apply Forall_cons in Hb as [B1 _].
  assert (X0 : iram m S0 = x0) by (rewrite <- (Hstk 0%nat x0) by done; f_equal; lia).
  assert (X1 : iram m (S0 + 1) = x1) by (by apply (Hstk 1%nat x1)).
  rewrite X0 in E5. rewrite X1 in E6.
  assert (Ed : dptr (dptr_from_sp S0 m) = base) by (unfold dptr; rewrite E5, E6; done).
  destruct (save_loop_spec S0 (x0 :: x1 :: l) (dptr_from_sp S0 m) fuel)
    as (m' & F & F1 & F2 & F3 & F4 & F5 & F6 & F7 & F8 & F9); try done.
  - intros i v Hv. rewrite E7 by (apply lookup_lt_Some in Hv; lia). by apply Hstk.
  - by rewrite E5.
  - by rewrite E6.
  - by rewrite Ed.
  - rewrite Ed in *. exists m'. split; [done|]. repeat (split; [done|]). split.
    { intros a Ha. rewrite F4. by apply E7. }
    split; [done|]. split; [done|]. intros a Ha. rewrite F9 by done. by rewrite E4.
Qed.

(** ** The restore loop *)
Lemma dec_dptr_spec m : byte (rdpl m) -> byte (rdph m) -> 0 < dptr m ->
  let m' := dec_dptr m in
  rb m' = rb m /\ rpsw m' = rpsw m /\ rsp m' = rsp m /\ xram m' = xram m /\ iram m' = iram m /\
  byte (rdpl m') /\ byte (rdph m') /\ dptr m' = dptr m - 1.
Proof.
  unfold byte, dptr, dec_dptr, b8. intros H1 H2 H3.
  change (ra (set_a ?x ?y)) with x. change (rdpl (set_dpl ?x ?y)) with x.
  destruct (decide (rdpl m = 0)) as [E|E].
  - rewrite E. change ((0 - 1) mod 256) with 255. rewrite Z.eqb_refl. cbn.
    rewrite (Z.mod_small (rdph m - 1)) by lia. repeat (split; [done|]). lia.
  - rewrite (Z.mod_small (rdpl m - 1)) by lia.
    destruct (rdpl m - 1 =? 255) eqn:E2; [lia|]. cbn. repeat (split; [done|]). lia.
Qed.

Lemma push_xx_spec m : byte (rdpl m) -> byte (rdph m) -> 0 < dptr m -> 7 <= rsp m < 255 ->
  let m' := push_xx m in let v := xram m (dptr m - 1) in
  rsp m' = rsp m + 1 /\ xram m' = xram m /\ iram m' = upd (iram m) (rsp m + 1) v /\ ra m' = v /\
  byte (rdpl m') /\ byte (rdph m') /\ dptr m' = dptr m - 1.
Proof.
  intros H1 H2 H3 H4. unfold push_xx. rewrite !exec_cons, exec_nil. destruct (dec_dptr_spec m) as (E1 & E2 & E3 & E4 & E5 & E6 & E7 & E8); try done.
  cbn. rewrite E3, E4, E5, E8. rewrite b8_small by lia. done.
Qed.

Lemma rest_loop_S fuel m : rest_loop (S fuel) m =
  (let m1 := push_xx m in
   if negb (iram m1 6 =? rdpl m1) then rest_loop fuel (set_a (iram m1 6) m1) else
   if negb (iram m1 7 =? rdph m1) then rest_loop fuel (set_a (iram m1 7) (set_a (iram m1 6) m1)) else
   Some (set_a (iram m1 7) (set_a (iram m1 6) m1))).
Proof. reflexivity. Qed.
Lemma rest_loop_spec base l : forall m fuel,
  l <> [] -> 7 <= rsp m -> rsp m + Z.of_nat (length l) < 256 ->
  byte (rdpl m) -> byte (rdph m) -> 0 <= base -> dptr m = base + Z.of_nat (length l) ->
  byte (iram m 6) -> byte (iram m 7) -> iram m 6 + 256 * iram m 7 = base ->
  (forall i v, l !! i = Some v -> xram m (dptr m - 1 - Z.of_nat i) = v) ->
  (length l <= fuel)%nat ->
  exists m', rest_loop fuel m = Some m' /\
    rsp m' = rsp m + Z.of_nat (length l) /\ xram m' = xram m /\
    (forall i v, l !! i = Some v -> iram m' (rsp m + 1 + Z.of_nat i) = v) /\
    (forall a, a <= rsp m -> iram m' a = iram m a).
Proof.
  induction l as [|x l IH]; [done|].
  intros m fuel _ Hs1 Hs2 Hl Hh Hb0 Hd B6 B7 Eb Hx Hf. cbn [length] in *.
  destruct fuel as [|fuel]; [lia|]. rewrite rest_loop_S.
  destruct (push_xx_spec m) as (E1 & E2 & E3 & E4 & E5 & E6 & E7); [done|done|lia|lia|].
  revert E1 E2 E3 E4 E5 E6 E7. generalize (push_xx m). intros m1 E1 E2 E3 E4 E5 E6 E7. cbv zeta.
  assert (Ev : xram m (dptr m - 1) = x) by (rewrite <- (Hx 0%nat x) by done; f_equal; lia).
  rewrite Ev in E3, E4.
  assert (I6 : iram m1 6 = iram m 6) by (rewrite E3; apply upd_other; lia).
  assert (I7 : iram m1 7 = iram m 7) by (rewrite E3; apply upd_other; lia).
  rewrite I6, I7.
  assert (Htail : forall i v, l !! i = Some v -> xram m1 (dptr m1 - 1 - Z.of_nat i) = v).
  { intros i v Hv. rewrite E2, E7. rewrite <- (Hx (S i) v) by done. f_equal. lia. }
  assert (Hgo : l <> [] -> forall m2, iram m2 = iram m1 -> xram m2 = xram m1 -> rsp m2 = rsp m1 -> rdpl m2 = rdpl m1 -> rdph m2 = rdph m1 ->
    exists m', rest_loop fuel m2 = Some m' /\
    rsp m' = rsp m + Z.of_nat (S (length l)) /\ xram m' = xram m /\
    (forall i v, (x :: l) !! i = Some v -> iram m' (rsp m + 1 + Z.of_nat i) = v) /\
    (forall a, a <= rsp m -> iram m' a = iram m a)).
  { intros Hne m2 G1 G2 G3 G4 G5.
    assert (G6 : dptr m2 = dptr m1) by (unfold dptr; congruence).
    destruct (IH m2 fuel) as (m' & F & F1 & F2 & F3 & F4); try done; rewrite ?G1, ?G2, ?G3, ?G4, ?G5, ?G6, ?I6, ?I7; try done; try lia.
    exists m'. split; [done|]. split; [lia|]. split; [congruence|]. split.
    - intros [|i] v Hv.
      + injection Hv as ->. rewrite F4 by lia. rewrite G1, E3. replace (rsp m + 1 + Z.of_nat 0) with (rsp m + 1) by lia. apply upd_same.
      + rewrite <- (F3 i v) by done. f_equal. lia.
    - intros a Ha. rewrite F4 by lia. rewrite G1, E3. apply upd_other. lia. }
  destruct l as [|y l].
  - assert (Hz : rdpl m1 = iram m 6 /\ rdph m1 = iram m 7).
    { unfold dptr in E7, Hd. cbn [length] in Hd. unfold byte in *. lia. }
    destruct Hz as [-> ->]. rewrite !Z.eqb_refl. cbn [negb].
    eexists. split; [reflexivity|]. cbn. split; [lia|]. split; [done|]. rewrite E3. split.
    + intros [|i] v Hv; [|done]. injection Hv as ->. replace (rsp m + 1 + Z.of_nat 0) with (rsp m + 1) by lia. apply upd_same.
    + intros a Ha. apply upd_other. lia.
  - assert (Hne : ~ (iram m 6 = rdpl m1 /\ iram m 7 = rdph m1)).
    { intros [A B]. rewrite A, B in Eb. unfold dptr in E7, Hd. cbn [length] in Hd. lia. }
    destruct (iram m 6 =? rdpl m1) eqn:Q6; cbn [negb].
    + destruct (iram m 7 =? rdph m1) eqn:Q7; cbn [negb]; [lia|]. by apply Hgo.
    + by apply Hgo.
Qed.

Lemma restore1_eq S0 fuel m : restore1 S0 fuel m =
  (let m1 := push_xx (set_sp (b8 (S0 - 1)) m) in
   let m3 := push_xx (set_i 6 (ra m1) m1) in rest_loop fuel (set_i 7 (ra m3) m3)).
Proof. reflexivity. Qed.
Lemma restore1_spec S0 l m fuel :
  8 <= S0 -> (3 <= length l)%nat -> S0 + Z.of_nat (length l) <= 256 ->
  byte (rdpl m) -> byte (rdph m) -> Forall byte (take 2 l) ->
  let base := nth 0 l 0 + 256 * nth 1 l 0 in
  dptr m = base + Z.of_nat (length l) ->
  (forall i v, l !! i = Some v -> xram m (dptr m - 1 - Z.of_nat i) = v) ->
  (length l <= fuel)%nat ->
  exists m', restore1 S0 fuel m = Some m' /\
    rsp m' = S0 - 1 + Z.of_nat (length l) /\ xram m' = xram m /\
    (forall i v, l !! i = Some v -> iram m' (S0 + Z.of_nat i) = v).
Proof.
  intros HS Hl Hi Bl Bh HB base Hd Hx Hf. rewrite restore1_eq.
  destruct l as [|x0 [|x1 l]]; cbn [length] in Hl; [lia|lia|]. cbn [take length] in *.
  apply Forall_cons in HB as [B0 HB]. apply Forall_cons in HB as [B1 _].
  cbn [nth] in base.
  assert (Hbase : 0 <= base) by (unfold base, byte in *; lia).
  set (m0 := set_sp (b8 (S0 - 1)) m).
  assert (Es0 : rsp m0 = S0 - 1) by (cbn; apply b8_small; lia).
  assert (Ed0 : dptr m0 = dptr m) by done.
  destruct (push_xx_spec m0) as (E1 & E2 & E3 & E4 & E5 & E6 & E7); [done|done|lia|lia|].
  assert (Ev : xram m0 (dptr m0 - 1) = x0) by (rewrite <- (Hx 0%nat x0) by done; rewrite Ed0; cbn; f_equal; lia).
  rewrite Ev in E3, E4. revert E1 E2 E3 E4 E5 E6 E7. generalize (push_xx m0). intros m1 E1 E2 E3 E4 E5 E6 E7. cbv zeta.
  rewrite E4.
  assert (Ex1 : xram m1 = xram m) by (rewrite E2; done). rewrite Es0 in *. rewrite Ed0 in *. clear Ev.
  set (m2 := set_i 6 x0 m1).
  assert (F : rsp m2 = rsp m1 /\ dptr m2 = dptr m1 /\ rdpl m2 = rdpl m1 /\ rdph m2 = rdph m1 /\ xram m2 = xram m1) by done.
  destruct F as (F1 & F2 & F3 & F4 & F5).
  destruct (push_xx_spec m2) as (G1 & G2 & G3 & G4 & G5 & G6 & G7); [by rewrite F3|by rewrite F4|lia|lia|].
  assert (Ev : xram m2 (dptr m2 - 1) = x1).
  { rewrite F5, Ex1, F2, E7. rewrite <- (Hx 1%nat x1) by done. f_equal; lia. }
  rewrite Ev in G3, G4. clear Ev. revert G1 G2 G3 G4 G5 G6 G7. generalize (push_xx m2). intros m3 G1 G2 G3 G4 G5 G6 G7.
  rewrite G4.
  rewrite F1, F2, F5, E1, E7, Ex1 in *. assert (I2 : iram m2 = upd (iram m1) 6 x0) by done. rewrite I2, E3 in *.
  clear I2 F1 F2 F3 F4 F5.
  set (m4 := set_i 7 x1 m3).
  destruct (rest_loop_spec base l m4 fuel) as (m' & K & K1 & K2 & K3 & K4).
  - destruct l; [cbn in Hl; lia|done].
  - cbn. lia.
  - cbn. lia.
  - done.
  - done.
  - done.
  - change (dptr m4) with (dptr m3). lia.
  - cbn [iram m4 set_i]. rewrite G3. upds. done.
  - cbn [iram m4 set_i]. by rewrite upd_same.
  - cbn [iram m4 set_i]. rewrite G3. upds. done.
  - intros i v Hv. change (dptr m4) with (dptr m3). change (xram m4) with (xram m3). rewrite G2, G7.
    rewrite <- (Hx (S (S i)) v) by done. f_equal. lia.
  - lia.
  - change (rsp m4) with (rsp m3) in *. change (xram m4) with (xram m3) in *.
    exists m'. split; [done|]. split; [lia|]. split; [congruence|].
    assert (I4 : iram m4 = upd (iram m3) 7 x1) by done.
    intros [|[|i]] v Hv.
    + injection Hv as <-. rewrite K4 by lia. rewrite I4, G3. upds. done.
    + injection Hv as <-. rewrite K4 by lia. rewrite I4, G3. upds. done.
    + cbn in Hv. rewrite <- (K3 i v) by done. f_equal. lia.
Qed.

(** ** The pops *)
Section pops.
  Context (a b dl dh ps sp pl ph : Z) (ir xr : Z -> Z) (Hsp : 8 <= sp < 256).
  Let M := mk51 a b dl dh ps sp pl ph ir xr.
  Lemma pop_psw_val : pop_psw M = mk51 a b dl dh (ir sp) (sp - 1) pl ph ir xr.
  Proof. unfold pop_psw, drop1. cbn. by rewrite b8_small by lia. Qed.
  Lemma pop_ar_val k : pop_ar k M = mk51 a b dl dh ps (sp - 1) pl ph (upd ir k (ir sp)) xr.
  Proof. unfold pop_ar, drop1. cbn. by rewrite b8_small by lia. Qed.
  Lemma pop_b_val : pop_b M = mk51 a (ir sp) dl dh ps (sp - 1) pl ph ir xr.
  Proof. unfold pop_b, drop1. cbn. by rewrite b8_small by lia. Qed.
  Lemma pop_dph_val : pop_dph M = mk51 a b dl (ir sp) ps (sp - 1) pl ph ir xr.
  Proof. unfold pop_dph, drop1. cbn. by rewrite b8_small by lia. Qed.
  Lemma pop_dpl_val : pop_dpl M = mk51 a b (ir sp) dh ps (sp - 1) pl ph ir xr.
  Proof. unfold pop_dpl, drop1. cbn. by rewrite b8_small by lia. Qed.
  Lemma pop_a_val : pop_a M = mk51 (ir sp) b dl dh ps (sp - 1) pl ph ir xr.
  Proof. unfold pop_a, drop1. cbn. by rewrite b8_small by lia. Qed.
  Lemma dec_sp_val : dec_sp M = mk51 a b dl dh ps (sp - 1) pl ph ir xr.
  Proof. unfold dec_sp. cbn. by rewrite b8_small by lia. Qed.
  Lemma ret_val : ret M = mk51 a b dl dh ps (sp - 2) (ir (sp - 1)) (ir sp) ir xr.
  Proof. unfold ret, drop1. cbn. rewrite (b8_small (sp - 1)) by lia. rewrite (b8_small (sp - 1 - 1)) by lia. replace (sp - 1 - 1) with (sp - 2) by lia. done. Qed.
End pops.
Lemma restore2_spec m : 21 <= rsp m < 256 ->
  let s := rsp m in let i := iram m in
  restore2 m = mk51 (i (s - 12)) (i (s - 9)) (i (s - 11)) (i (s - 10)) (i s) (s - 13) (rpcl m) (rpch m)
    (upd (upd (upd (upd (upd (upd (upd (upd i 7 (i (s - 1))) 6 (i (s - 2))) 5 (i (s - 3))) 4 (i (s - 4)))
       3 (i (s - 5))) 2 (i (s - 6))) 1 (i (s - 7))) 0 (i (s - 8))) (xram m).
Proof.
  intros H s i. destruct m as [a b dl dh ps sp pl ph ir xr]. cbn in s, i, H. subst s i.
  unfold restore2. cbn [rpcl rpch xram].
  ex pop_psw_val. do 8 ex pop_ar_val. ex pop_b_val. ex pop_dph_val. ex pop_dpl_val. ex pop_a_val. reflexivity.
Qed.
