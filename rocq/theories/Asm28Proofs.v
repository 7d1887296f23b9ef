(** Asm28Proofs.v - the context switch of c28x. *)
From Verif Require Import Base Asm28Model Asm28Spec.
From Coq Require Import Ascii.
Local Open Scope string_scope.
Local Open Scope list_scope.
Local Open Scope Z_scope.

Lemma even_spec a : even a = a \/ even a = a - 1.
Proof. unfold even. pose proof (Z.div_mod a 2 ltac:(lia)). pose proof (Z.mod_pos_bound a 2 ltac:(lia)). lia. Qed.
Lemma even_add a k : even (a + 2 * k) = even a + 2 * k.
Proof. unfold even. replace (a + 2 * k) with (a + k * 2) by lia. rewrite Z.div_add by lia. lia. Qed.
Lemma even_odd a : Z.odd a = true -> even a = a - 1.
Proof. intros H. apply Z.odd_spec in H as [k ->]. unfold even. replace (2 * k + 1) with (1 + k * 2) by lia. rewrite Z.div_add by lia. change (1 / 2) with 0. lia. Qed.
Lemma even_even a : Z.odd a = false -> even a = a.
Proof.
  intros H. rewrite <- Z.negb_even in H. apply negb_false_iff, Z.even_spec in H as [k ->].
  unfold even. replace (2 * k) with (k * 2) by lia. rewrite Z.div_mul by lia. lia.
Qed.

Lemma exec_app stk l l' m : exec stk (l ++ l') m = exec stk l' (exec stk l m).
Proof. revert m. induction l as [|i l IH]; intros m; cbn [exec app]; [done|]. apply IH. Qed.

Fixpoint names (l : pairs) : list string := match l with [] => [] | p :: l => p.1 :: p.2 :: names l end.
Lemma names_len l : List.length (names l) = (2 * List.length l)%nat.
Proof. induction l as [|p l IH]; cbn [names List.length]; lia. Qed.
Lemma names_app l l' : names (l ++ l') = names l ++ names l'.
Proof. induction l as [|p l IH]; cbn [names app]; [done|]. by rewrite IH. Qed.

Lemma push32s_ok stk l m :
  let r := exec stk (push32s l) m in let n := Z.of_nat (List.length l) in
  rg r = rg m /\ sp r = sp m + 2 * n /\
  (forall i x, names l !! i = Some x -> mm r (even (sp m) + Z.of_nat i) = rg m x) /\
  (forall a, ~ (even (sp m) <= a < even (sp m) + 2 * n) -> mm r a = mm m a).
Proof.
  cbv zeta. revert m. induction l as [|[lo hi] l IH]; intros m.
  - cbn [push32s List.map exec List.length names]. split_and!; [done|lia|intros i x; rewrite lookup_nil; discriminate|done].
  - change (exec stk (push32s ((lo, hi) :: l)) m) with (exec stk (push32s l) (exec1 stk (Push32 lo hi) m)).
    set (m1 := exec1 stk (Push32 lo hi) m). destruct (IH m1) as (R1 & R2 & R3 & R4).
    assert (rg m1 = rg m) as E1 by done.
    assert (sp m1 = sp m + 2) as E2 by done.
    assert (even (sp m1) = even (sp m) + 2) as E3 by (rewrite E2; exact (even_add (sp m) 1)).
    assert (forall a, mm m1 a = if a =? even (sp m) + 1 then rg m hi else if a =? even (sp m) then rg m lo else mm m a) as E4 by done.
    cbn [List.length]. rewrite E3 in *. split_and!.
    + congruence.
    + lia.
    + intros i x Hi. destruct i as [|[|i]]; cbn [names fst snd lookup list_lookup] in Hi.
      * injection Hi as <-. rewrite R4 by lia. rewrite E4. rewrite (proj2 (Z.eqb_neq _ _)) by lia. by rewrite (proj2 (Z.eqb_eq _ _)) by lia.
      * injection Hi as <-. rewrite R4 by lia. rewrite E4. by rewrite (proj2 (Z.eqb_eq _ _)) by lia.
      * specialize (R3 _ _ Hi). rewrite E1 in R3. rewrite <- R3. f_equal. lia.
    + intros a Ha. rewrite R4 by lia. rewrite E4. rewrite (proj2 (Z.eqb_neq _ _)) by lia. by rewrite (proj2 (Z.eqb_neq _ _)) by lia.
Qed.

Lemma pop32s_ok stk l m : NoDup (names l) ->
  let r := exec stk (pop32s l) m in let n := Z.of_nat (List.length l) in
  mm r = mm m /\ sp r = sp m - 2 * n /\
  (forall i x, names l !! i = Some x -> rg r x = mm m (even (sp m) - 2 * n + Z.of_nat i)) /\
  (forall x, x ∉ names l -> rg r x = rg m x).
Proof.
  cbv zeta. revert m. induction l as [|[lo hi] l IH]; intros m Hd.
  - cbn [pop32s List.map rev exec List.length names]. split_and!; [done|lia|intros i x; rewrite lookup_nil; discriminate|done].
  - cbn [names fst snd] in Hd. apply NoDup_cons in Hd as [Hlo Hd]. apply NoDup_cons in Hd as [Hhi Hd].
    assert (exec stk (pop32s ((lo, hi) :: l)) m = exec1 stk (Pop32 lo hi) (exec stk (pop32s l) m)) as ->.
    { unfold pop32s. cbn [rev]. rewrite List.map_app, exec_app. reflexivity. }
    destruct (IH m Hd) as (R1 & R2 & R3 & R4). set (m1 := exec stk (pop32s l) m) in *.
    assert (even (sp m1 - 2) = even (sp m) - 2 * Z.of_nat (List.length ((lo, hi) :: l))) as E1.
    { rewrite R2. cbn [List.length]. replace (sp m - 2 * Z.of_nat (List.length l) - 2) with (sp m + 2 * (- Z.of_nat (List.length l) - 1)) by lia.
      rewrite even_add. lia. }
    assert (forall x, rg (exec1 stk (Pop32 lo hi) m1) x =
      if String.eqb x hi then mm m1 (even (sp m1 - 2) + 1) else if String.eqb x lo then mm m1 (even (sp m1 - 2)) else rg m1 x) as E2 by done.
    split_and!.
    + exact R1.
    + change (sp (exec1 stk (Pop32 lo hi) m1)) with (sp m1 - 2). cbn [List.length]. lia.
    + intros i x Hi. rewrite E2, E1, R1. destruct i as [|[|i]]; cbn [names fst snd lookup list_lookup] in Hi.
      * injection Hi as <-. replace (String.eqb lo hi) with false; [|symmetry; apply String.eqb_neq; intros ->; apply Hlo; left].
        rewrite String.eqb_refl. f_equal. lia.
      * injection Hi as <-. rewrite String.eqb_refl. f_equal.
      * assert (x ∈ names l) as Hx by (by eapply elem_of_list_lookup_2).
        replace (String.eqb x hi) with false; [|symmetry; apply String.eqb_neq; intros ->; contradiction].
        replace (String.eqb x lo) with false; [|symmetry; apply String.eqb_neq; intros ->; apply Hlo; by right].
        rewrite (R3 _ _ Hi). f_equal. cbn [List.length]. lia.
    + intros x Hx. cbn [names fst snd] in Hx. rewrite E2.
      replace (String.eqb x hi) with false; [|symmetry; apply String.eqb_neq; intros ->; apply Hx; right; left].
      replace (String.eqb x lo) with false; [|symmetry; apply String.eqb_neq; intros ->; apply Hx; left].
      apply R4. intros H. apply Hx. by do 2 right.
Qed.

(** The swap of the stack pointers. *)
Lemma stk_addr stk : stk / 64 * 64 + stk mod 64 = stk.
Proof. pose proof (Z.div_mod stk 64 ltac:(lia)). lia. Qed.
Lemma swap_ok stk m : let r := exec stk swap_stack m in
  sp r = mm m stk /\ (forall a, mm r a = if a =? stk then sp m else mm m a) /\ rg r "dp" = stk / 64 /\
  (forall x, x <> "dp" -> x <> "al" -> x <> "ah" -> rg r x = rg m x).
Proof.
  cbv zeta. unfold swap_stack. cbn [exec exec1 setr setm setsp rg sp mm String.eqb Ascii.eqb Bool.eqb].
  rewrite stk_addr. split_and!; [done|done|done|].
  intros x H1 H2 H3. apply String.eqb_neq in H1, H2, H3. by rewrite H1, H2, H3.
Qed.

Lemma addsp_ok stk k m : let r := exec stk [AddSP k] m in rg r = rg m /\ sp r = sp m + k /\ mm r = mm m.
Proof. done. Qed.
Lemma intst1_ok stk m : let r := exec stk [IntSt1] m in sp r = sp m /\ mm r = mm m /\ forall x, x <> "st1" -> rg r x = rg m x.
Proof. cbv zeta. split_and!; [done|done|]. intros x Hx. cbn [exec exec1 setr rg]. apply String.eqb_neq in Hx. by rewrite Hx. Qed.
Lemma asp_ok stk m : let r := exec stk [Asp] m in
  sp r = (if Z.odd (sp m) then sp m + 1 else sp m) /\ mm r = mm m /\ (forall x, x <> "st1" -> rg r x = rg m x) /\
  Z.testbit (rg r "st1") 4 = Z.odd (sp m).
Proof.
  cbv zeta. cbn [exec exec1]. destruct (Z.odd (sp m)); (split_and!; [done|done|..]).
  - intros x Hx. cbn [setr setsp rg]. apply String.eqb_neq in Hx. by rewrite Hx.
  - cbn [setr setsp rg]. change (String.eqb "st1" "st1") with true. cbv iota. rewrite Z.lor_spec. change (Z.testbit 16 4) with true. apply orb_true_r.
  - intros x Hx. cbn [setr rg]. apply String.eqb_neq in Hx. by rewrite Hx.
  - cbn [setr rg]. change (String.eqb "st1" "st1") with true. cbv iota. rewrite Z.ldiff_spec. change (Z.testbit 16 4) with true. apply andb_false_r.
Qed.

Lemma in_auto x : existsb (String.eqb x) (names auto) = true -> x ∈ names auto.
Proof. intros H. apply existsb_exists in H as (y & Hy & ->%String.eqb_eq). by apply elem_of_list_In. Qed.
Lemma st1_auto : "st1" ∈ names auto.
Proof. by apply in_auto. Qed.
Lemma ar4_auto x : x = "ar4" \/ x = "ar4h" -> x ∉ names auto.
Proof. intros Hx H. apply elem_of_list_In in H. destruct Hx as [-> | ->]; cbn in H; repeat destruct H as [H|H]; try discriminate H; destruct H. Qed.

(** What is on the stack: the automatic context, then the pairs of the handler, [L]. *)
Section frame.
  Context (stk : Z) (L : pairs).
  Definition base (m : m28) : Z := even (sp m + 1).
  Definition ctx (m : m28) : Z := even (sp m + 16).
  Definition top (m : m28) : Z := ctx m + 2 + 2 * Z.of_nat (List.length L).
  (** SPA as the handler finds it. *)
  Record framed (m : m28) (mem : Z -> Z) : Prop := {
    fr_auto : forall i x, names auto !! i = Some x -> mem (base m + Z.of_nat i) = rg m x;
    fr_spa : Z.testbit (mem (ctx m)) 4 = Z.odd (sp m + 15);
    fr_core : forall i x, names L !! i = Some x -> x ∉ names auto -> mem (ctx m + 2 + Z.of_nat i) = rg m x
  }.
  Lemma frame_pos m : base m = sp m + 1 /\ ctx m = sp m + 15 /\ Z.odd (sp m + 15) = false \/
                      base m = sp m /\ ctx m = sp m + 16 /\ Z.odd (sp m + 15) = true.
  Proof.
    unfold base, ctx. assert (forall k, Z.odd (sp m + (1 + 2 * k)) = Z.odd (sp m + 1)) as E.
    { intros k. rewrite (Z.add_comm 1), Z.add_assoc. rewrite <- Z.add_assoc, (Z.add_comm (2 * k)), Z.add_assoc. rewrite Z.odd_add_mul_2. done. }
    specialize (E 7) as E7. change (1 + 2 * 7) with 15 in E7. rewrite E7.
    replace (sp m + 16) with (sp m + 2 * 8) by lia. rewrite even_add.
    destruct (Z.odd (sp m + 1)) eqn:Eo.
    - right. rewrite (even_odd _ Eo). assert (Z.odd (sp m) = false) as Eo2.
      { replace (sp m + 1) with (Z.succ (sp m)) in Eo by lia. rewrite Z.odd_succ in Eo. rewrite <- Z.negb_even. by rewrite Eo. }
      rewrite (even_even _ Eo2). split_and!; [lia|lia|done].
    - left. rewrite (even_even _ Eo). assert (Z.odd (sp m) = true) as Eo2.
      { replace (sp m + 1) with (Z.succ (sp m)) in Eo by lia. rewrite Z.odd_succ in Eo. rewrite <- Z.negb_even. by rewrite Eo. }
      rewrite (even_odd _ Eo2). split_and!; [lia|lia|done].
  Qed.
  Lemma framed_kept m mem mem' : framed m mem -> (forall a, sp m <= a < top m -> mem' a = mem a) -> framed m mem'.
  Proof.
    intros [F1 F2 F3] Hk. pose proof (frame_pos m) as Hp. unfold top in Hk. split.
    - intros i x Hi. rewrite Hk; [by apply F1|]. apply lookup_lt_Some in Hi.
      change (List.length (names auto)) with 14%nat in Hi. lia.
    - rewrite Hk; [done|]. lia.
    - intros i x Hi Hx. rewrite Hk; [by apply F3|]. apply lookup_lt_Some in Hi. rewrite names_len in Hi. lia.
  Qed.
  (** Saving. *)
  Lemma save_frame m : let s := exec stk (int_entry ++ Asp :: push32s (status :: L)) m in
    framed m (mm s) /\ sp s = top m /\ (forall x, x <> "st1" -> rg s x = rg m x) /\
    (forall a, ~ (sp m <= a < top m) -> mm s a = mm m a).
  Proof.
    cbv zeta. unfold int_entry.
    assert ((AddSP 1 :: push32s auto ++ [IntSt1]) ++ Asp :: push32s (status :: L)
      = [AddSP 1] ++ (push32s auto ++ [IntSt1]) ++ [Asp] ++ push32s (status :: L)) as -> by reflexivity.
    rewrite !exec_app. destruct (addsp_ok stk 1 m) as (A1 & A2 & A3). set (m0 := exec stk [AddSP 1] m) in *. clearbody m0.
    destruct (push32s_ok stk auto m0) as (B1 & B2 & B3 & B4). set (m1 := exec stk (push32s auto) m0) in *. clearbody m1.
    destruct (intst1_ok stk m1) as (C1 & C2 & C3). set (m2 := exec stk [IntSt1] m1) in *. clearbody m2.
    destruct (asp_ok stk m2) as (D1' & D2 & D3 & D4). set (m3 := exec stk [Asp] m2) in *.
    change (Z.of_nat (List.length auto)) with 7 in *. rewrite A1, A2, A3 in *.
    assert (sp m2 = sp m + 15) as E2 by lia. rewrite E2 in *.
    assert (sp m3 = ctx m) as D1. { destruct (frame_pos m) as [(P1 & P2 & P3)|(P1 & P2 & P3)]; rewrite P3 in D1'; lia. }
    clearbody m3. destruct (push32s_ok stk (status :: L) m3) as (F1 & F2 & F3 & F4). set (s := exec stk (push32s (status :: L)) m3) in *. clearbody s.
    cbn [List.length] in F2, F4. rewrite D1 in *.
    assert (even (ctx m) = ctx m) as Ev.
    { unfold ctx, even. rewrite (Z.mul_comm 2 ((sp m + 16) / 2)) at 1. rewrite Z.div_mul by lia. lia. }
    rewrite Ev in *.
    assert (forall x, x <> "st1" -> rg m3 x = rg m x) as R3. { intros x Hx. rewrite D3, C3, B1 by done. done. }
    pose proof (frame_pos m) as Hp.
    split_and!.
    - split.
      + intros i x Hi. rewrite F4; [rewrite D2, C2; by apply B3|]. apply lookup_lt_Some in Hi.
        change (List.length (names auto)) with 14%nat in Hi. lia.
      + rewrite <- D4. replace (ctx m) with (ctx m + Z.of_nat 0) by lia. by rewrite (F3 0%nat "st1").
      + intros i x Hi Hx. replace (ctx m + 2 + Z.of_nat i) with (ctx m + Z.of_nat (S (S i))) by lia.
        rewrite (F3 _ x); [apply R3; intros ->; apply Hx; apply st1_auto|]. exact Hi.
    - unfold top. lia.
    - intros x Hx. rewrite F1. by apply R3.
    - intros a Ha. unfold top in Ha. rewrite F4 by lia. rewrite D2, C2. apply B4. unfold base in Hp. lia.
  Qed.
End frame.

(** Restoring, with pairs [L'] in the place of [L]. *)
Lemma restore_frame stk L L' m m1 : NoDup (names (status :: L')) -> NoDup (names auto) -> List.length L' = List.length L ->
  framed L m (mm m1) -> sp m1 = top L m ->
  let r := exec stk (pop32s (status :: L') ++ Nasp :: iret) m1 in
  mm r = mm m1 /\ sp r = sp m /\ (forall x, x ∈ names auto -> rg r x = rg m x) /\
  (forall i x y, names L' !! i = Some x -> names L !! i = Some y -> y ∉ names auto -> x ∉ names auto -> rg r x = rg m y).
Proof.
  intros Hd Hda Hl [G1 G2 G3] Hs. cbv zeta. unfold iret.
  assert (pop32s (status :: L') ++ Nasp :: pop32s auto ++ [AddSP (-1)]
    = pop32s (status :: L') ++ [Nasp] ++ pop32s auto ++ [AddSP (-1)]) as -> by reflexivity. rewrite !exec_app.
  destruct (pop32s_ok stk (status :: L') m1 Hd) as (A1 & A2 & A3 & A4). set (m2 := exec stk (pop32s (status :: L')) m1) in *. clearbody m2.
  cbn [List.length] in A2, A3. rewrite Hl, Hs in *.
  assert (even (top L m) = top L m) as Ev.
  { unfold top, ctx, even. replace (2 * ((sp m + 16) / 2) + 2 + 2 * Z.of_nat (List.length L)) with (((sp m + 16) / 2 + 1 + Z.of_nat (List.length L)) * 2) by lia.
    rewrite Z.div_mul by lia. lia. }
  rewrite Ev in *.
  assert (rg m2 "st1" = mm m1 (ctx m)) as E1. { rewrite (A3 0%nat "st1" eq_refl). f_equal. unfold top. lia. }
  set (m3 := exec stk [Nasp] m2). pose proof (frame_pos m) as Hp.
  assert (sp m2 = ctx m) as E2 by (rewrite A2; unfold top; lia).
  assert (sp m3 = sp m + 15 /\ mm m3 = mm m1 /\ rg m3 = rg m2) as (B1 & B2 & B3).
  { unfold m3. cbn [exec exec1]. rewrite E1, G2. destruct Hp as [(P1 & P2 & P3)|(P1 & P2 & P3)]; rewrite P3; cbn [setsp sp mm rg]; split_and!; try done; lia. }
  clearbody m3. destruct (pop32s_ok stk auto m3 Hda) as (C1 & C2 & C3 & C4). set (m4 := exec stk (pop32s auto) m3) in *. clearbody m4.
  change (Z.of_nat (List.length auto)) with 7 in *. rewrite B1, B2, B3 in *.
  assert (even (sp m + 15) - 2 * 7 = base m) as E3.
  { unfold base. replace (sp m + 15) with (sp m + 1 + 2 * 7) by lia. rewrite even_add. lia. }
  rewrite E3 in *. cbn [exec exec1 setsp sp mm rg]. split_and!.
  - exact C1.
  - lia.
  - intros x Hx. apply elem_of_list_lookup in Hx as [i Hi]. rewrite (C3 _ _ Hi). by apply G1.
  - intros i x y Hx Hy Hn Ha. rewrite (C4 x Ha). rewrite (A3 (S (S i)) x); [|exact Hx].
    rewrite <- (G3 _ _ Hy Hn). f_equal. unfold top. lia.
Qed.

(** *** The port *)
Definition cpairs (fpu : bool) : pairs := core ++ (if fpu then fstat ++ fregs else []).
Definition rpairs (fpu : bool) : pairs := core ++ (if fpu then fstat ++ frest else []).
Definition kept_regs (fpu : bool) : list string := cpu_regs ++ (if fpu then fpu_status else []).

Fixpoint nodupb (l : list string) : bool := match l with [] => true | x :: l => negb (existsb (String.eqb x) l) && nodupb l end.
Lemma nodupb_ok l : nodupb l = true -> NoDup l.
Proof.
  induction l as [|x l IH]; cbn [nodupb]; [constructor|]. intros [H1 H2]%andb_true_iff. constructor; [|by apply IH].
  intros Hx. apply negb_true_iff in H1. assert (existsb (String.eqb x) l = true) as K; [|congruence].
  apply existsb_exists. exists x. split; [by apply elem_of_list_In|apply String.eqb_refl].
Qed.
Lemma nd_auto : NoDup (names auto). Proof. apply nodupb_ok. vm_compute. reflexivity. Qed.
Lemma nd_rest fpu : NoDup (names (status :: rpairs fpu)).
Proof. apply nodupb_ok. destruct fpu; vm_compute; reflexivity. Qed.
Lemma len_rest fpu : List.length (rpairs fpu) = List.length (cpairs fpu).
Proof. by destruct fpu. Qed.
Lemma top_bound fpu m : sp m < top (cpairs fpu) m <= sp m + init_count fpu.
Proof.
  pose proof (frame_pos m) as Hp. unfold top. destruct fpu; cbn [init_count].
  - change (Z.of_nat (List.length (cpairs true))) with 27. lia.
  - change (Z.of_nat (List.length (cpairs false))) with 9. lia.
Qed.

(** Every register of [kept_regs] is in the automatic context, or at the same place in both lists. *)
Fixpoint same_place (l l' : list string) (x : string) : bool :=
  match l, l' with
  | a :: l, b :: l' => (String.eqb a x && String.eqb b x) || same_place l l' x
  | _, _ => false
  end.
Lemma same_place_ok l l' x : same_place l l' x = true -> exists i, l !! i = Some x /\ l' !! i = Some x.
Proof.
  revert l'. induction l as [|a l IH]; intros [|b l']; cbn [same_place]; try discriminate.
  intros [[H1%String.eqb_eq H2%String.eqb_eq]%andb_true_iff|H]%orb_true_iff.
  - exists 0%nat. by subst.
  - destruct (IH _ H) as [i Hi]. by exists (S i).
Qed.
Definition placed (fpu : bool) (x : string) : bool :=
  existsb (String.eqb x) (names auto) || same_place (names (rpairs fpu)) (names (cpairs fpu)) x.
Lemma placed_ok fpu x : x ∈ kept_regs fpu -> placed fpu x = true.
Proof.
  assert (forallb (placed fpu) (kept_regs fpu) = true) as E by (destruct fpu; vm_compute; reflexivity).
  rewrite forallb_forall in E. intros Hx. apply E. by apply elem_of_list_In.
Qed.
Lemma placed_found fpu m r x :
  (forall x, x ∈ names auto -> rg r x = rg m x) ->
  (forall i x y, names (rpairs fpu) !! i = Some x -> names (cpairs fpu) !! i = Some y -> y ∉ names auto -> x ∉ names auto -> rg r x = rg m y) ->
  placed fpu x = true -> rg r x = rg m x.
Proof.
  intros H1 H2 Hp. unfold placed in Hp. destruct (existsb (String.eqb x) (names auto)) eqn:Ea.
  - apply existsb_exists in Ea as (y & Hy & ->%String.eqb_eq). apply H1. by apply elem_of_list_In.
  - cbn [orb] in Hp. apply same_place_ok in Hp as (i & I1 & I2).
    assert (x ∉ names auto) as Hna; [|by apply (H2 i)].
    intros Hx. apply elem_of_list_In in Hx. assert (existsb (String.eqb x) (names auto) = true) as K; [|congruence].
    apply existsb_exists. exists x. split; [done|apply String.eqb_refl].
Qed.

(** From a machine whose kernel stack variable holds the end of the frame of [m]. *)
Lemma out_frame fpu stk m m' : framed (cpairs fpu) m (mm m') -> mm m' stk = top (cpairs fpu) m -> ~ (sp m <= stk < top (cpairs fpu) m) ->
  let r := exec stk (isr_out fpu) m' in
  sp r = sp m /\ (forall a, mm r a = if a =? stk then sp m' else mm m' a) /\
  (forall x, x ∈ names auto -> rg r x = rg m x) /\
  (forall i x y, names (rpairs fpu) !! i = Some x -> names (cpairs fpu) !! i = Some y -> y ∉ names auto -> x ∉ names auto -> rg r x = rg m y).
Proof.
  intros Hf Hs Hk. cbv zeta. unfold isr_out, restore_context. rewrite <- !app_assoc, exec_app.
  destruct (swap_ok stk m') as (A1 & A2 & A3 & A4). set (m1 := exec stk swap_stack m') in *. clearbody m1.
  assert (framed (cpairs fpu) m (mm m1)) as Hf1.
  { apply (framed_kept _ m (mm m')); [done|]. intros a Ha. rewrite A2. rewrite (proj2 (Z.eqb_neq _ _)); [done|]. intros ->. contradiction. }
  destruct (restore_frame stk (cpairs fpu) (rpairs fpu) m m1 (nd_rest fpu) nd_auto (len_rest fpu) Hf1) as (B1 & B2 & B3 & B4); [congruence|].
  assert (pop32s ((status :: core) ++ (if fpu then fstat ++ frest else [])) ++ [Nasp] ++ iret = pop32s (status :: rpairs fpu) ++ Nasp :: iret) as -> by reflexivity.
  split_and!; [done| |done|done]. intros a. rewrite B1. apply A2.
Qed.

Lemma resume_isr fpu stk m' : exec stk (resume fpu) m' = exec stk (isr_out fpu) (exec stk [DpStk; StStk "ar4"] m').
Proof. unfold resume, isr_out. by rewrite exec_app. Qed.
Lemma dpstk_ok stk m' x : let m1 := exec stk [DpStk; StStk x] m' in x <> "dp" ->
  sp m1 = sp m' /\ forall a, mm m1 a = if a =? stk then rg m' x else mm m' a.
Proof.
  cbv zeta. intros Hx%String.eqb_neq. cbn [exec exec1 setr setm rg sp mm]. change (String.eqb "dp" "dp") with true. cbv iota.
  rewrite stk_addr, Hx. done.
Qed.

Lemma resume_found fpu stk m mem c m' : framed (cpairs fpu) m mem -> c = top (cpairs fpu) m -> ~ (sp m <= stk < top (cpairs fpu) m) ->
  rg m' "ar4" = c -> (forall a, sp m <= a < c -> mm m' a = mem a) ->
  let r := exec stk (resume fpu) m' in
  sp r = sp m /\ mm r stk = sp m' /\ (forall a, a <> stk -> mm r a = mm m' a) /\
  (forall x, x ∈ names auto -> rg r x = rg m x) /\
  (forall i x y, names (rpairs fpu) !! i = Some x -> names (cpairs fpu) !! i = Some y -> y ∉ names auto -> x ∉ names auto -> rg r x = rg m y).
Proof.
  intros Hf -> Hk H4 Hm. cbv zeta. rewrite resume_isr.
  destruct (dpstk_ok stk m' "ar4" ltac:(discriminate)) as (A1 & A2). set (m1 := exec stk [DpStk; StStk "ar4"] m') in *. clearbody m1.
  assert (framed (cpairs fpu) m (mm m1)) as Hf1.
  { apply (framed_kept _ m mem); [done|]. intros a Ha. rewrite A2. rewrite (proj2 (Z.eqb_neq _ _)); [by apply Hm|]. intros ->. contradiction. }
  destruct (out_frame fpu stk m m1 Hf1) as (B1 & B2 & B3 & B4); [|done|].
  { rewrite A2, Z.eqb_refl. done. }
  split_and!; [done| | |done|done].
  - rewrite B2, Z.eqb_refl. done.
  - intros a Ha. rewrite B2. rewrite (proj2 (Z.eqb_neq _ _)) by done. rewrite A2. by rewrite (proj2 (Z.eqb_neq _ _)) by done.
Qed.

Lemma isr_in_eq fpu : isr_in fpu = (int_entry ++ Asp :: push32s (status :: cpairs fpu)) ++ swap_stack.
Proof. unfold isr_in, save_context, save_noswap, cpairs. by rewrite <- app_assoc. Qed.
Lemma isr_in_ok fpu stk m : ~ (sp m <= stk < sp m + init_count fpu) ->
  let s := exec stk (isr_in fpu) m in
  framed (cpairs fpu) m (mm s) /\ sp s = mm m stk /\ mm s stk = top (cpairs fpu) m /\ rg s "dp" = stk / 64 /\
  (forall a, ~ (sp m <= a < top (cpairs fpu) m) -> a <> stk -> mm s a = mm m a).
Proof.
  intros Hk. cbv zeta. rewrite isr_in_eq, exec_app. pose proof (top_bound fpu m) as Hb.
  destruct (save_frame stk (cpairs fpu) m) as (A1 & A2 & A3 & A4). set (s := exec stk (int_entry ++ _) m) in *. clearbody s.
  destruct (swap_ok stk s) as (B1 & B2 & B3 & B4). split_and!.
  - apply (framed_kept _ m (mm s)); [done|]. intros a Ha. rewrite B2. rewrite (proj2 (Z.eqb_neq _ _)); [done|]. intros ->. lia.
  - rewrite B1. apply A4. lia.
  - rewrite B2, Z.eqb_refl. done.
  - done.
  - intros a Ha Hn. rewrite B2. rewrite (proj2 (Z.eqb_neq _ _)) by done. by apply A4.
Qed.

Lemma tick_in_ok fpu stk m : ~ (sp m <= stk < sp m + init_count fpu) ->
  let s := exec stk (tick_in fpu) m in
  framed (cpairs fpu) m (mm s) /\ rg s "ar4" = top (cpairs fpu) m /\ saved stk (init_count fpu) m s.
Proof.
  intros Hk. cbv zeta. unfold tick_in. rewrite (app_assoc int_entry).
  assert (int_entry ++ save_context fpu = isr_in fpu) as -> by reflexivity. rewrite exec_app.
  destruct (isr_in_ok fpu stk m Hk) as (A1 & A2 & A3 & A4 & A5). set (s := exec stk (isr_in fpu) m) in *. clearbody s.
  set (r := exec stk [LdStk "ar4"; MovI "ar4h" 0] s).
  assert (rg r "ar4" = top (cpairs fpu) m) as E.
  { unfold r. cbn [exec exec1 setr rg String.eqb Ascii.eqb Bool.eqb]. by rewrite A4, stk_addr. }
  split_and!; [done|done|]. unfold saved. rewrite E. split_and!; try done; apply top_bound.
Qed.

Lemma switch_from fpu code : (forall stk m, ~ (sp m <= stk < sp m + init_count fpu) -> let s := exec stk code m in
    framed (cpairs fpu) m (mm s) /\ rg s "ar4" = top (cpairs fpu) m /\ saved stk (init_count fpu) m s) ->
  switch_ok fpu code (kept_regs fpu).
Proof.
  intros H stk m Hk. cbv zeta. destruct (H stk m Hk) as (A1 & A2 & A3). split; [done|].
  intros m' [K1 K2]. pose proof (top_bound fpu m) as Hb.
  destruct (resume_found fpu stk m _ _ m' A1 A2 ltac:(lia) K1 K2) as (B1 & B2 & B3 & B4 & B5).
  split_and!; try done. intros x Hx. apply (placed_found fpu); [done|done|by apply placed_ok].
Qed.
Lemma tick_switch fpu : switch_ok fpu (tick_in fpu) (kept_regs fpu).
Proof. apply switch_from. intros stk m. apply tick_in_ok. Qed.

Lemma call_in_ok fpu stk m : ~ (sp m <= stk < sp m + init_count fpu) ->
  let s := exec stk (call_in fpu) m in
  framed (cpairs fpu) m (mm s) /\ rg s "ar4" = top (cpairs fpu) m /\ saved stk (init_count fpu) m s.
Proof.
  intros Hk. cbv zeta. unfold call_in, save_noswap. rewrite (app_assoc int_entry).
  assert (int_entry ++ Asp :: push32s ((status :: core) ++ (if fpu then fstat ++ fregs else [])) =
    int_entry ++ Asp :: push32s (status :: cpairs fpu)) as -> by reflexivity. rewrite exec_app. pose proof (top_bound fpu m) as Hb.
  destruct (save_frame stk (cpairs fpu) m) as (A1 & A2 & A3 & A4). set (s := exec stk (int_entry ++ _) m) in *. clearbody s.
  rewrite (app_assoc _ _ [Mov "al" "ar6"]), !app_assoc, exec_app. rewrite exec_app.
  set (s1 := exec stk ((_ ++ _) ++ _) s).
  assert (mm s1 = mm s /\ rg s1 "ar4" = sp s /\ rg s1 "ar4h" = 0) as (B1 & B2 & B3).
  { unfold s1. destruct fpu; cbn [app exec exec1 setr setsp rg sp mm String.eqb Ascii.eqb Bool.eqb]; done. }
  destruct (swap_ok stk s1) as (C1 & C2 & C3 & C4). set (s2 := exec stk swap_stack s1) in *. clearbody s1 s2.
  set (r := exec stk [Mov "al" "ar6"] s2).
  assert (sp r = sp s2 /\ mm r = mm s2 /\ rg r "ar4" = rg s2 "ar4" /\ rg r "ar4h" = rg s2 "ar4h") as (D1 & D2 & D3 & D4) by done.
  assert (rg r "ar4" = top (cpairs fpu) m) as E. { rewrite D3, C4 by discriminate. congruence. }
  split_and!; [|done|].
  - apply (framed_kept _ m (mm s)); [done|]. intros a Ha. rewrite D2, C2, B1. rewrite (proj2 (Z.eqb_neq _ _)); [done|]. intros ->. lia.
  - unfold saved. rewrite E. split_and!; [lia|lia| | |].
    + rewrite D4, C4 by discriminate. done.
    + rewrite D1, C1, B1. apply A4. lia.
    + intros a Ha Hn. rewrite D2, C2, B1. rewrite (proj2 (Z.eqb_neq _ _)) by done. by apply A4.
Qed.
Lemma call_switch fpu : switch_ok fpu (call_in fpu) (kept_regs fpu).
Proof. apply switch_from. intros stk m. apply call_in_ok. Qed.

Lemma isr_back fpu : isr_ok fpu (kept_regs fpu).
Proof.
  intros stk m Hk. cbv zeta. destruct (isr_in_ok fpu stk m Hk) as (A1 & A2 & A3 & A4 & A5). pose proof (top_bound fpu m) as Hb.
  rewrite A3. split_and!; [done|lia|lia|]. intros m' K1 K2.
  assert (framed (cpairs fpu) m (mm m')) as Hf by (by apply (framed_kept _ m (mm (exec stk (isr_in fpu) m)))).
  destruct (out_frame fpu stk m m' Hf K1 ltac:(lia)) as (B1 & B2 & B3 & B4).
  split_and!; [|done| |].
  - intros x Hx. apply (placed_found fpu); [done|done|by apply placed_ok].
  - rewrite B2, Z.eqb_refl. done.
  - intros a Ha. rewrite B2. by rewrite (proj2 (Z.eqb_neq _ _)) by done.
Qed.

Lemma call_args fpu : args_ok fpu.
Proof.
  intros stk m He Hk. cbv zeta. unfold call_in, save_noswap. rewrite (app_assoc int_entry).
  assert (int_entry ++ Asp :: push32s ((status :: core) ++ (if fpu then fstat ++ fregs else [])) =
    int_entry ++ Asp :: push32s (status :: cpairs fpu)) as -> by reflexivity. rewrite exec_app.
  destruct (save_frame stk (cpairs fpu) m) as ([A1 _ A2] & A3 & _ & _). set (s := exec stk (int_entry ++ _) m) in *. clearbody s.
  assert (base m = sp m /\ ctx m = sp m + 16) as [P1 P2].
  { destruct (frame_pos m) as [(P1 & P2 & P3)|(P1 & P2 & P3)]; [|done].
    replace (sp m + 15) with (sp m + (1 + 2 * 7)) in P3 by lia. rewrite Z.add_assoc, Z.odd_add_mul_2, Z.add_1_r, Z.odd_succ in P3. congruence. }
  assert (mm s (sp m + 2) = rg m "al") as E1. { rewrite <- P1. exact (A1 2%nat "al" eq_refl). }
  assert (mm s (sp m + 28) = rg m "ar4") as E2.
  { replace (sp m + 28) with (ctx m + 2 + Z.of_nat 10) by lia. apply A2; [by destruct fpu|apply ar4_auto; auto]. }
  assert (mm s (sp m + 29) = rg m "ar4h") as E3.
  { replace (sp m + 29) with (ctx m + 2 + Z.of_nat 11) by lia. apply A2; [by destruct fpu|apply ar4_auto; auto]. }
  assert (even (sp m + 28) = sp m + 28) as E4.
  { apply even_even. replace (sp m + 28) with (sp m + 2 * 14) by lia. rewrite Z.odd_add_mul_2. rewrite <- Z.negb_even. by rewrite He. }
  rewrite (app_assoc _ _ [Mov "al" "ar6"]), !app_assoc, exec_app. rewrite exec_app.
  set (s1 := exec stk ((_ ++ _) ++ _) s).
  assert (rg s1 "ar6" = rg m "al" /\ rg s1 "ar5" = rg m "ar4" /\ rg s1 "ar5h" = rg m "ar4h") as (B1 & B2 & B3).
  { assert (sp s - (if fpu then 36 else 0) = sp m + 36) as E5.
    { rewrite A3. unfold top. destruct fpu; [change (Z.of_nat (List.length (cpairs true))) with 27|change (Z.of_nat (List.length (cpairs false))) with 9]; lia. }
    unfold s1. destruct fpu; cbn [app exec exec1 setr setsp rg sp mm String.eqb Ascii.eqb Bool.eqb].
    - replace (sp s - 36 - 34) with (sp m + 2) by lia. replace (sp s - 36 - 8) with (sp m + 28) by lia. rewrite E4.
      replace (sp m + 28 + 1) with (sp m + 29) by lia. done.
    - replace (sp s - 34) with (sp m + 2) by lia. replace (sp s - 8) with (sp m + 28) by lia. rewrite E4.
      replace (sp m + 28 + 1) with (sp m + 29) by lia. done. }
  destruct (swap_ok stk s1) as (C1 & C2 & C3 & C4). set (s2 := exec stk swap_stack s1) in *. clearbody s1 s2.
  cbn [exec exec1 setr rg String.eqb Ascii.eqb Bool.eqb]. rewrite !C4 by discriminate. done.
Qed.

(** *** New tasks *)
(** The task as if it had been interrupted just before its first instruction. *)
Definition unborn (m k : m28) : m28 := mk28 (fun x =>
  if String.eqb x "st0" then 128 else if String.eqb x "st1" then 35336 else if String.eqb x "ier" then 40960 else
  if String.eqb x "pcl" then rg m "ar5" else if String.eqb x "pch" then rg m "ar5h" else
  if existsb (String.eqb x) (names auto) then 0 else rg k x) (rg m "ar4") (mm m).
Definition hand : list i28 :=
  [PushI 128; PushI 0; PushI 0; PushI 0; PushI 0; PushI 0; PushI 0; PushI 0; PushI 35336; PushI 0; PushI 40960; PushI 0;
   Push32 "ar5" "ar5h"; PushI 0].
Definition handmem (b : Z) (m : m28) : list Z :=
  [128; 0; 0; 0; 0; 0; 0; 0; 35336; 0; 40960; 0; rg m "ar5"; rg m "ar5h"; 0].
Fixpoint pushis (l : list Z) : list i28 := match l with [] => [] | v :: l => PushI v :: pushis l end.
Lemma pushis_ok stk l m : let r := exec stk (pushis l) m in let n := Z.of_nat (List.length l) in
  rg r = rg m /\ sp r = sp m + n /\
  (forall i v, l !! i = Some v -> mm r (sp m + Z.of_nat i) = v) /\ (forall a, ~ (sp m <= a < sp m + n) -> mm r a = mm m a).
Proof.
  cbv zeta. revert m. induction l as [|v l IH]; intros m.
  - cbn [pushis exec List.length]. split_and!; [done|lia|intros i x; rewrite lookup_nil; discriminate|done].
  - change (exec stk (pushis (v :: l)) m) with (exec stk (pushis l) (exec1 stk (PushI v) m)).
    set (m1 := exec1 stk (PushI v) m). destruct (IH m1) as (R1 & R2 & R3 & R4).
    assert (rg m1 = rg m) as E1 by done. assert (sp m1 = sp m + 1) as E2 by done.
    assert (forall a, mm m1 a = if a =? sp m then v else mm m a) as E3 by done.
    clearbody m1. cbn [List.length]. rewrite E2 in *. split_and!.
    + congruence.
    + lia.
    + intros [|i] w Hi; cbn [lookup list_lookup] in Hi.
      * injection Hi as <-. rewrite R4 by lia. rewrite E3. by rewrite (proj2 (Z.eqb_eq _ _)) by lia.
      * rewrite <- (R3 _ _ Hi). f_equal. lia.
    + intros a Ha. rewrite R4 by lia. rewrite E3. by rewrite (proj2 (Z.eqb_neq _ _)) by lia.
Qed.
Lemma hand_ok stk m : Z.odd (sp m) = false -> let r := exec stk hand m in
  rg r = rg m /\ sp r = sp m + 15 /\
  (forall i v, handmem (sp m) m !! i = Some v -> mm r (sp m + Z.of_nat i) = v) /\
  (forall a, ~ (sp m <= a < sp m + 15) -> mm r a = mm m a).
Proof.
  intros He. cbv zeta.
  assert (hand = pushis [128; 0; 0; 0; 0; 0; 0; 0; 35336; 0; 40960; 0] ++ push32s [("ar5", "ar5h")] ++ pushis [0]) as -> by reflexivity.
  rewrite !exec_app.
  destruct (pushis_ok stk [128; 0; 0; 0; 0; 0; 0; 0; 35336; 0; 40960; 0] m) as (A1 & A2 & A3 & A4).
  set (m1 := exec stk (pushis _) m) in *. clearbody m1.
  destruct (push32s_ok stk [("ar5", "ar5h")] m1) as (B1 & B2 & B3 & B4). set (m2 := exec stk (push32s _) m1) in *. clearbody m2.
  destruct (pushis_ok stk [0] m2) as (C1 & C2 & C3 & C4). set (m3 := exec stk (pushis [0]) m2) in *. clearbody m3.
  cbn [List.length] in *. change (Z.of_nat 12) with 12 in *. change (Z.of_nat 1) with 1 in *.
  assert (even (sp m1) = sp m + 12) as Ev.
  { rewrite A2. replace (sp m + 12) with (sp m + 2 * 6) by lia. rewrite even_add, even_even by done. lia. }
  rewrite Ev, A1 in *. split_and!.
  - congruence.
  - lia.
  - intros i v Hi. destruct (decide (i < 12)%nat) as [Hl|Hl].
    + rewrite C4, B4 by lia. apply A3. rewrite <- Hi. clear Hi. do 12 (destruct i as [|i]; [reflexivity|]). lia.
    + destruct (decide (i < 14)%nat) as [Hl2|Hl2].
      * rewrite C4 by lia. replace (sp m + Z.of_nat i) with (sp m + 12 + Z.of_nat (i - 12)) by lia.
        assert (i = 12%nat \/ i = 13%nat) as [-> | ->] by lia.
        -- change (12 - 12)%nat with 0%nat. rewrite (B3 0%nat "ar5" eq_refl). by injection Hi.
        -- change (13 - 12)%nat with 1%nat. rewrite (B3 1%nat "ar5h" eq_refl). by injection Hi.
      * assert (i = 14%nat) as ->. { apply lookup_lt_Some in Hi. cbn [handmem List.length] in Hi. lia. }
        replace (sp m + Z.of_nat 14) with (sp m2 + Z.of_nat 0) by lia. rewrite (C3 0%nat 0 eq_refl). by injection Hi.
  - intros a Ha. rewrite C4, B4 by lia. apply A4. lia.
Qed.

Definition pre : list i28 := [Mov "ar6" "al"; Mov "ar6h" "ah"; DpStk; StStk "ar4"].
Definition mid : list i28 := [Disable; Mov "ar4" "ar6"; Mov "ar4h" "ar6h"; MovI "ar5" 0; MovI "ar5h" 0; MovI "ar6" 0; MovI "ar6h" 0].
Definition post : list i28 := [LdStk "ar4"; MovI "ar4h" 0].
Lemma pre_ok stk m : sp (exec stk pre m) = sp m /\ (forall a, mm (exec stk pre m) a = if a =? stk then rg m "ar4" else mm m a) /\
    rg (exec stk pre m) "ar6" = rg m "al" /\ rg (exec stk pre m) "ar6h" = rg m "ah" /\
    rg (exec stk pre m) "ar5" = rg m "ar5" /\ rg (exec stk pre m) "ar5h" = rg m "ar5h".
Proof. unfold pre. cbn [exec exec1 setr setm rg sp mm String.eqb Ascii.eqb Bool.eqb]. rewrite stk_addr. done. Qed.
Lemma mid_ok stk m3 : sp (exec stk mid m3) = sp m3 /\ mm (exec stk mid m3) = mm m3 /\
    rg (exec stk mid m3) "ar4" = rg m3 "ar6" /\ rg (exec stk mid m3) "ar4h" = rg m3 "ar6h".
Proof. done. Qed.
Lemma post_ok stk m7 : rg m7 "dp" = stk / 64 -> sp (exec stk post m7) = sp m7 /\ mm (exec stk post m7) = mm m7 /\ rg (exec stk post m7) "ar4" = mm m7 stk.
Proof. intros G3. unfold post. cbn [exec exec1 setr rg sp mm String.eqb Ascii.eqb Bool.eqb]. rewrite G3, stk_addr. done. Qed.
Lemma first_eq fpu : first_in fpu = pre ++ swap_stack ++ (hand ++ mid) ++ (([Asp] ++ push32s (status :: cpairs fpu)) ++ swap_stack) ++ post.
Proof. reflexivity. Qed.

Lemma first_new fpu : first_ok fpu.
Proof.
  intros stk m He Hk. cbv zeta.
  rewrite first_eq, !exec_app. set (b := rg m "ar4") in *.
  destruct (pre_ok stk m) as (A1 & A2 & A3 & A4 & A5 & A6). fold b in A2.
  set (m1 := exec stk pre m) in *. clearbody m1.
  destruct (swap_ok stk m1) as (B1 & B2 & B3 & B4). set (m2 := exec stk swap_stack m1) in *. clearbody m2.
  rewrite A2, Z.eqb_refl in B1. rewrite <- Z.negb_odd in He. apply negb_true_iff in He.
  assert (Z.odd (sp m2) = false) as He2 by (by rewrite B1).
  destruct (hand_ok stk m2 He2) as (C1 & C2 & C3 & C4). set (m3 := exec stk hand m2) in *. clearbody m3.
  destruct (mid_ok stk m3) as (D1 & D2 & D3 & D4).
  set (m4 := exec stk mid m3) in *. clearbody m4.
  destruct (asp_ok stk m4) as (E1 & E2 & E3 & E4). set (m5 := exec stk [Asp] m4) in *. clearbody m5.
  destruct (push32s_ok stk (status :: cpairs fpu) m5) as (F1 & F2 & F3 & F4). set (m6 := exec stk (push32s _) m5) in *. clearbody m6.
  destruct (swap_ok stk m6) as (G1 & G2 & G3 & G4). set (m7 := exec stk swap_stack m6) in *. clearbody m7.
  destruct (post_ok stk m7 G3) as (H1 & H2 & H3). set (s := exec stk post m7) in *.
  clearbody s. set (M := unborn m m5).
  assert (sp M = b) as EM by done.
  rewrite C2, B1 in D1. rewrite D1 in *.
  destruct (frame_pos M) as [(P1 & P2 & P3)|(P1 & P2 & P3)].
  { exfalso. rewrite EM in P3. replace (b + 15) with (b + (1 + 2 * 7)) in P3 by lia.
    rewrite Z.add_assoc, Z.odd_add_mul_2, Z.add_1_r, Z.odd_succ, <- Z.negb_odd, He in P3. discriminate P3. }
  rewrite EM in *. rewrite P3 in *.
  assert (even (sp m5) = b + 16) as Ev. { rewrite E1. rewrite even_even; [lia|]. replace (b + 15 + 1) with (b + 2 * 8) by lia. by rewrite Z.odd_add_mul_2. }
  rewrite Ev in *. cbn [List.length] in F2, F4.
  assert (top (cpairs fpu) M = b + 18 + 2 * Z.of_nat (List.length (cpairs fpu))) as Et by (unfold top; rewrite P2; lia).
  pose proof (top_bound fpu M) as Hb. rewrite EM in Hb. unfold min_count in *.
  assert (forall a, b <= a < top (cpairs fpu) M -> mm s a = mm m6 a) as Es.
  { intros a Ha. rewrite H2, G2. rewrite (proj2 (Z.eqb_neq _ _)); [done|]. intros ->. lia. }
  assert (framed (cpairs fpu) M (mm m6)) as Hf.
  { split.
    - intros i x Hi. rewrite P1, ?EM. rewrite F4; [|apply lookup_lt_Some in Hi; change (List.length (names auto)) with 14%nat in Hi; lia].
      rewrite E2, D2. rewrite <- B1.
      do 14 (destruct i as [|i]; [cbn [names auto fst snd lookup list_lookup] in Hi; injection Hi as <-;
        match goal with |- mm m3 (_ + Z.of_nat ?k) = _ => rewrite (C3 k _ eq_refl) end;
        try rewrite !B4 by discriminate; rewrite ?A5, ?A6; reflexivity|]).
      cbn [names auto fst snd lookup list_lookup] in Hi. discriminate.
    - rewrite P2, ?EM. rewrite P3. replace (b + 16) with (b + 16 + Z.of_nat 0) by lia. rewrite (F3 0%nat "st1" eq_refl). exact E4.
    - intros i x Hi Hx. rewrite P2, ?EM. replace (b + 16 + 2 + Z.of_nat i) with (b + 16 + Z.of_nat (S (S i))) by lia.
      rewrite (F3 (S (S i)) x); [|exact Hi]. unfold M, unborn. cbn [rg].
      assert (forall y, y ∈ names auto -> String.eqb x y = false) as Hn. { intros y Hy. apply String.eqb_neq. intros ->. contradiction. }
      rewrite (Hn "st0"), (Hn "st1"), (Hn "ier"), (Hn "pcl"), (Hn "pch") by (by apply in_auto).
      replace (existsb (String.eqb x) (names auto)) with false; [done|]. symmetry. apply not_true_is_false. intros K.
      apply existsb_exists in K as (y & Hy & Hxy%String.eqb_eq). subst y. apply Hx. by apply elem_of_list_In. }
  assert (rg s "ar4" = top (cpairs fpu) M) as Ec. { rewrite H3, G2, Z.eqb_refl. lia. }
  rewrite Ec. split_and!; [|lia|lia| |].
  - rewrite H1, G1. rewrite F4 by lia. rewrite E2, D2. rewrite C4 by lia. rewrite B2, Z.eqb_refl. done.
  - intros a Ha Hn. rewrite H2, G2. rewrite (proj2 (Z.eqb_neq _ _)) by done.
    rewrite F4 by lia. rewrite E2, D2. rewrite C4 by lia. rewrite B2, A2. rewrite (proj2 (Z.eqb_neq _ _)) by done. reflexivity.
  - intros m' K1 K2.
    destruct (resume_found fpu stk M (mm m6) _ m' Hf eq_refl ltac:(rewrite EM; lia) K1) as (R1 & R2 & R3 & R4 & R5).
    { intros a Ha. rewrite EM in Ha. rewrite K2 by done. by apply Es. }
    assert (forall x, x = "ar4" \/ x = "ar4h" -> rg (exec stk (resume fpu) m') x = rg m5 x) as R6.
    { intros x Hx. pose proof (ar4_auto x Hx) as Hna.
      rewrite (placed_found fpu M); [|done|done|].
      - unfold M, unborn. destruct Hx as [-> | ->]; reflexivity.
      - destruct Hx as [-> | ->], fpu; reflexivity. }
    assert (forall x, x ∈ names auto -> rg (exec stk (resume fpu) m') x = rg M x) as R7 by exact R4.
    split_and!.
    + rewrite R7 by (by apply in_auto). reflexivity.
    + rewrite R7 by (by apply in_auto). reflexivity.
    + rewrite R6 by auto. rewrite E3 by discriminate. rewrite D3, C1, B4 by discriminate. done.
    + rewrite R6 by auto. rewrite E3 by discriminate. rewrite D4, C1, B4 by discriminate. done.
    + exact R1.
    + rewrite R7 by apply st1_auto. reflexivity.
    + rewrite R7 by (by apply in_auto). reflexivity.
    + exact R2.
    + exact R3.
Qed.

(** *** The FPU registers are swapped *)
Fixpoint idx (l : list string) (x : string) : option nat :=
  match l with [] => None | a :: l => if String.eqb a x then Some 0%nat else S <$> idx l x end.
Lemma idx_ok l x i : idx l x = Some i -> l !! i = Some x.
Proof.
  revert i. induction l as [|a l IH]; intros i; cbn [idx]; [discriminate|].
  destruct (String.eqb a x) eqn:E; [apply String.eqb_eq in E; intros [= <-]; by subst|].
  intros H. apply fmap_Some in H as (j & Hj & ->). by apply IH.
Qed.
Definition swap_at (x : string) : bool :=
  match idx (names (rpairs true)) x with
  | Some i => match names (cpairs true) !! i with Some y => String.eqb y (swapped x) | None => false end
  | None => false
  end && negb (existsb (String.eqb x) (names auto)) && negb (existsb (String.eqb (swapped x)) (names auto)).
Lemma not_auto x : negb (existsb (String.eqb x) (names auto)) = true -> x ∉ names auto.
Proof.
  intros H%negb_true_iff Hx%elem_of_list_In. assert (existsb (String.eqb x) (names auto) = true) as K; [|congruence].
  apply existsb_exists. exists x. split; [done|apply String.eqb_refl].
Qed.
Lemma fpu_swapped code : (forall stk m, ~ (sp m <= stk < sp m + init_count true) -> let s := exec stk code m in
    framed (cpairs true) m (mm s) /\ rg s "ar4" = top (cpairs true) m /\ saved stk (init_count true) m s) ->
  forall stk m m', ~ (sp m <= stk < sp m + init_count true) -> kept (rg (exec stk code m) "ar4") m (exec stk code m) m' ->
    forall x, x ∈ fpu_regs -> rg (exec stk (resume true) m') x = rg m (swapped x).
Proof.
  intros H stk m m' Hk [K1 K2] x Hx. destruct (H stk m Hk) as (A1 & A2 & A3). pose proof (top_bound true m) as Hb.
  destruct (resume_found true stk m _ _ m' A1 A2 ltac:(lia) K1 K2) as (B1 & B2 & B3 & B4 & B5).
  assert (forallb swap_at fpu_regs = true) as E by (vm_compute; reflexivity).
  rewrite forallb_forall in E. specialize (E x ltac:(by apply elem_of_list_In)). unfold swap_at in E.
  apply andb_true_iff in E as [E E3]. apply andb_true_iff in E as [E E2].
  destruct (idx _ x) as [i|] eqn:Ei; [|discriminate]. apply idx_ok in Ei.
  destruct (names (cpairs true) !! i) as [y|] eqn:Ey; [|discriminate]. apply String.eqb_eq in E. subst y.
  apply (B5 i); [done|done|by apply not_auto|by apply not_auto].
Qed.
