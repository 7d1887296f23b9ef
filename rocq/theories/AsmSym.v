(** AsmSym.v - a symbolic executor for straight-line code, proved sound, and checkers for AsmSpec. *)
From Verif Require Import Base AsmModel AsmSpec.

Inductive sbase := BZero | BReg (x : string) | BMem (b : sbase) (k : Z) | BAny (i : nat).
Definition sval : Type := sbase * Z.

Section ev.
  Context (h : nat -> Z) (m : mach).
  Fixpoint evb (b : sbase) : Z :=
    match b with BZero => 0 | BReg x => reg m x | BMem b k => mem m (evb b + k) | BAny i => h i end.
  Definition ev (v : sval) : Z := evb v.1 + v.2.
End ev.

Fixpoint beqb (a b : sbase) : bool :=
  match a, b with
  | BZero, BZero => true
  | BReg x, BReg y => String.eqb x y
  | BMem b k, BMem b' k' => beqb b b' && (k =? k')
  | BAny i, BAny j => Nat.eqb i j
  | _, _ => false
  end.
Lemma beqb_eq a b : beqb a b = true -> a = b.
Proof.
  revert b. induction a as [|x|a IH k|i]; intros [|y|b k'|j]; cbn [beqb]; try discriminate; try done; intros E.
  - apply String.eqb_eq in E. by subst.
  - apply andb_true_iff in E as [E1 E2]. apply IH in E1. apply Z.eqb_eq in E2. by subst.
  - apply Nat.eqb_eq in E. by subst.
Qed.
Definition veqb (a b : sval) : bool := beqb a.1 b.1 && (a.2 =? b.2).
Lemma veqb_eq a b : veqb a b = true -> a = b.
Proof.
  destruct a as [a k], b as [b j]. unfold veqb. cbn [fst snd]. intros [E1 E2]%andb_true_iff.
  apply beqb_eq in E1. apply Z.eqb_eq in E2. by subst.
Qed.

(** Registers (default: unchanged), stores (newest first), and pairs of addresses assumed different. *)
Record sst := mkSst { sr : list (string * sval); sm : list (sval * sval); so : list (sval * sval) }.
Fixpoint rget (r : list (string * sval)) (x : string) : sval :=
  match r with [] => (BReg x, 0) | (y, v) :: r => if String.eqb x y then v else rget r x end.
(** Value at an address, given the stores, and what must be different for that. *)
Fixpoint mget (l : list (sval * sval)) (a : sval) : sval * list (sval * sval) :=
  match l with
  | [] => ((BMem a.1 a.2, 0), [])
  | (a', v) :: l =>
      if beqb a.1 a'.1 then if a.2 =? a'.2 then (v, []) else mget l a
      else let (w, o) := mget l a in (w, (a, a') :: o)
  end.
Definition sadd (v : sval) (k : Z) : sval := (v.1, v.2 + k).
Definition sexec1 (i : ins) (s : sst) : sst :=
  let r := sr s in
  match i with
  | Mov d x => mkSst ((d, rget r x) :: r) (sm s) (so s)
  | Imm d v => mkSst ((d, (BZero, v)) :: r) (sm s) (so s)
  | Add d x k => mkSst ((d, sadd (rget r x) k) :: r) (sm s) (so s)
  | St x b k => mkSst r ((sadd (rget r b) k, rget r x) :: sm s) (so s)
  | Ld d b k => let (v, o) := mget (sm s) (sadd (rget r b) k) in mkSst ((d, v) :: r) (sm s) (o ++ so s)
  | Swp a b => mkSst ((b, rget r a) :: (a, rget r b) :: r) (sm s) (so s)
  | Any d n => mkSst ((d, (BAny n, 0)) :: r) (sm s) (so s)
  end.
Fixpoint sexec (is : list ins) (s : sst) : sst :=
  match is with [] => s | i :: is => sexec is (sexec1 i s) end.

Section sound.
  Context (h : nat -> Z) (m : mach).
  Fixpoint mlook (l : list (sval * sval)) (a : Z) : Z :=
    match l with [] => mem m a | (b, v) :: l => if a =? ev h m b then ev h m v else mlook l a end.
  Definition rel (s : sst) (c : mach) : Prop :=
    (forall x, reg c x = ev h m (rget (sr s) x)) /\ (forall a, mem c a = mlook (sm s) a).
  Definition obls (l : list (sval * sval)) : Prop := forall a b, (a, b) ∈ l -> ev h m a <> ev h m b.

  Lemma ev_sadd v k : ev h m (sadd v k) = ev h m v + k.
  Proof. unfold ev, sadd. cbn [fst snd]. lia. Qed.
  Lemma mget_ok l a : obls (mget l a).2 -> ev h m (mget l a).1 = mlook l (ev h m a).
  Proof.
    induction l as [|[b v] l IH]; cbn [mget mlook].
    - intros _. unfold ev. cbn [fst snd evb]. rewrite Z.add_0_r. reflexivity.
    - destruct (beqb a.1 b.1) eqn:E.
      + apply beqb_eq in E. destruct (a.2 =? b.2) eqn:E2.
        * apply Z.eqb_eq in E2. intros _. cbn [fst].
          replace (ev h m a =? ev h m b) with true; [done|]. symmetry. apply Z.eqb_eq. unfold ev. congruence.
        * apply Z.eqb_neq in E2. intros Ho. rewrite IH by done.
          replace (ev h m a =? ev h m b) with false; [done|]. symmetry. apply Z.eqb_neq. unfold ev. rewrite E. lia.
      + destruct (mget l a) as [w o] eqn:Eg. cbn [fst snd] in *. intros Ho.
        rewrite IH by (intros c d Hc; apply Ho; by right).
        replace (ev h m a =? ev h m b) with false; [done|]. symmetry. apply Z.eqb_neq. apply Ho. left.
  Qed.
  Lemma rget_cons d v r x : rget ((d, v) :: r) x = if String.eqb x d then v else rget r x.
  Proof. reflexivity. Qed.
  Lemma so_mono1 i s : forall e, e ∈ so s -> e ∈ so (sexec1 i s).
  Proof. intros e He. destruct i; cbn [sexec1 so]; try done. destruct (mget _ _) as [v o]. cbn [so]. apply elem_of_app. by right. Qed.
  Lemma so_mono is s : forall e, e ∈ so s -> e ∈ so (sexec is s).
  Proof. revert s. induction is as [|i is IH]; intros s e He; cbn [sexec]; [done|]. apply IH, so_mono1, He. Qed.
  Lemma sexec1_ok i s c : rel s c -> obls (so (sexec1 i s)) -> rel (sexec1 i s) (exec1 h i c).
  Proof.
    intros [Hr Hm] Ho. destruct i as [d x|d v|d x k|x b k|d b k|a b|d n]; cbn [sexec1 exec1] in *.
    - split; [|done]. intros y. cbn [reg sr]. rewrite rget_cons. unfold rset. destruct (String.eqb y d); apply Hr.
    - split; [|done]. intros y. cbn [reg sr]. rewrite rget_cons. unfold rset. destruct (String.eqb y d); [done|apply Hr].
    - split; [|done]. intros y. cbn [reg sr]. rewrite rget_cons. unfold rset.
      destruct (String.eqb y d); [rewrite ev_sadd, Hr; done|apply Hr].
    - split; [done|]. intros a. cbn [mem sm mlook]. unfold mset. rewrite ev_sadd, <- Hr.
      destruct (a =? _); [apply Hr|apply Hm].
    - destruct (mget _ _) as [v o] eqn:Eg. cbn [so] in Ho. split; [|done]. intros y. cbn [reg sr]. rewrite rget_cons.
      unfold rset. destruct (String.eqb y d); [|apply Hr]. rewrite Hm, Hr, <- ev_sadd.
      rewrite <- mget_ok; rewrite Eg; [done|]. intros e e' He. apply Ho, elem_of_app. by left.
    - split; [|done]. intros y. cbn [reg sr]. rewrite !rget_cons. unfold rset.
      destruct (String.eqb y b); [apply Hr|]. destruct (String.eqb y a); apply Hr.
    - split; [|done]. intros y. cbn [reg sr]. rewrite rget_cons. unfold rset.
      destruct (String.eqb y d); [unfold ev; cbn [fst snd evb]; lia|apply Hr].
  Qed.
  Lemma sexec_ok is s c : rel s c -> obls (so (sexec is s)) -> rel (sexec is s) (exec h is c).
  Proof.
    revert s c. induction is as [|i is IH]; intros s c Hr Ho; cbn [sexec exec]; [done|].
    apply IH; [|done]. apply sexec1_ok; [done|]. intros a b Hab. apply Ho. cbn [sexec]. apply (so_mono is), Hab.
  Qed.
End sound.
Definition srun (is : list ins) : sst := sexec is (mkSst [] [] []).
Lemma srun_ok h m is : obls h m (so (srun is)) -> rel h m (srun is) (exec h is m).
Proof.
  intros Ho. apply sexec_ok; [|done]. split; [|done]. intros x. unfold ev. cbn [sr rget fst snd evb]. lia.
Qed.

(** *** Checkers *)
Definition is_nil {A} (l : list A) : bool := match l with [] => true | _ => false end.
Definition inr (lo hi k : Z) : bool := (lo <=? k) && (k <? hi).
Lemma inr_ok lo hi k : inr lo hi k = true -> lo <= k < hi.
Proof. unfold inr. lia. Qed.

Definition check_save (p : aport) (code : list ins) : bool :=
  let s := srun code in
  is_nil (so s) && veqb (rget (sr s) (p_arg p)) (BReg (p_sp p), - p_size p) &&
  forallb (fun e => beqb e.1.1 (BReg (p_sp p)) && inr (- p_size p - p_below p) (- p_size p + p_hi p) e.1.2) (sm s).
Lemma mlook_out h m l a : (forall e, e ∈ l -> a <> ev h m e.1) -> mlook h m l a = mem m a.
Proof.
  induction l as [|[b v] l IH]; cbn [mlook]; intros Hn; [done|].
  replace (a =? ev h m b) with false; [apply IH; intros e He; apply Hn; by right|].
  symmetry. apply Z.eqb_neq. apply (Hn (b, v)). left.
Qed.
Lemma check_save_rel p code h m : check_save p code = true -> rel h m (srun code) (exec h code m).
Proof.
  intros Hc. apply srun_ok. unfold check_save in Hc. apply andb_true_iff in Hc as [Hc _].
  apply andb_true_iff in Hc as [Hc _]. destruct (so (srun code)); [|done]. intros a b Hab. set_solver.
Qed.
Lemma check_save_arg p code h m : check_save p code = true ->
  reg (exec h code m) (p_arg p) = reg m (p_sp p) - p_size p.
Proof.
  intros Hc. rewrite (proj1 (check_save_rel _ _ h m Hc)). unfold check_save in Hc.
  apply andb_true_iff in Hc as [Hc _]. apply andb_true_iff in Hc as [_ Hc]. apply veqb_eq in Hc. rewrite Hc.
  unfold ev. cbn [fst snd evb]. lia.
Qed.
Lemma check_save_base p code : check_save p code = true -> forall e, e ∈ sm (srun code) ->
  e.1.1 = BReg (p_sp p) /\ - p_size p - p_below p <= e.1.2 < - p_size p + p_hi p.
Proof.
  intros Hc e He. unfold check_save in Hc. apply andb_true_iff in Hc as [_ Hc].
  rewrite forallb_forall in Hc. specialize (Hc e ltac:(by apply elem_of_list_In)).
  apply andb_true_iff in Hc as [H1 H2]. apply beqb_eq in H1. apply inr_ok in H2. done.
Qed.
Lemma check_save_ok p code : check_save p code = true -> save_ok p code.
Proof.
  intros Hc h m. cbv zeta. rewrite (check_save_arg _ _ _ _ Hc). split; [lia|]. intros a Ha.
  rewrite (proj2 (check_save_rel _ _ h m Hc)). apply mlook_out. intros e He.
  destruct (check_save_base _ _ Hc e He) as [Hb Hr]. destruct e as [[eb ek] ev']. cbn [fst snd] in *. subst eb. unfold ev. cbn [fst snd evb]. lia.
Qed.

(** The obligations of a resumption follow from [kept]. *)
Definition obl_ok (p : aport) (base : string) (lo' hi' : Z) (o : sval * sval) : bool :=
  let '(x, lo, hi) := p_kstk p in
  let one (a b : sval) := beqb a.1 (BReg base) && inr lo' hi' a.2 && beqb b.1 (BReg x) && inr lo hi b.2 in
  one o.1 o.2 || one o.2 o.1.
Lemma obl_ok_ne p base lo' hi' h m o : obl_ok p base lo' hi' o = true ->
  (let '(x, lo, hi) := p_kstk p in apart m base lo' hi' x lo hi) -> ev h m o.1 <> ev h m o.2.
Proof.
  unfold obl_ok. destruct (p_kstk p) as [[x lo] hi]. intros Hc Ha.
  assert (forall a b : sval, beqb a.1 (BReg base) && inr lo' hi' a.2 && beqb b.1 (BReg x) && inr lo hi b.2 = true ->
    ev h m a <> ev h m b) as K.
  { intros a b Hab. apply andb_true_iff in Hab as [Hab H4]. apply andb_true_iff in Hab as [Hab H3].
    apply andb_true_iff in Hab as [H1 H2]. apply beqb_eq in H1, H3. apply inr_ok in H2, H4.
    destruct a, b. cbn [fst snd] in *. subst. unfold ev. cbn [fst snd evb]. apply Ha; done. }
  apply orb_true_iff in Hc as [Hc|Hc]; apply K in Hc; congruence.
Qed.
Definition check_obls (p : aport) (base : string) (lo hi : Z) (code : list ins) : bool :=
  forallb (obl_ok p base lo hi) (so (srun code)).
Lemma check_obls_rel p base lo' hi' code h m : check_obls p base lo' hi' code = true ->
  (let '(x, lo, hi) := p_kstk p in apart m base lo' hi' x lo hi) -> rel h m (srun code) (exec h code m).
Proof.
  intros Hc Ha. apply srun_ok. intros a b Hab. unfold check_obls in Hc. rewrite forallb_forall in Hc.
  specialize (Hc (a, b) ltac:(by apply elem_of_list_In)). by apply (obl_ok_ne _ _ _ _ h m) in Hc.
Qed.

(** A value of the resumed machine in terms of the machine before saving: [st] are the stores of the
    saving code, [base + d] the saved stack pointer. *)
Definition trans (p : aport) (st : list (sval * sval)) (base : string) (d : Z) (v : sval) : option (sval * list (sval * sval)) :=
  match v.1 with
  | BReg x => if String.eqb x (p_ret p) then Some ((BReg base, d + v.2), []) else None
  | BMem (BReg x) j =>
      if String.eqb x (p_ret p) && inr (p_lo p) (p_hi p) j then
        let (w, o) := mget st (BReg base, d + j) in Some (sadd w v.2, o) else None
  | _ => None
  end.
Lemma trans_ok p code base d v w o h m h' m' :
  rel h m (srun code) (exec h code m) ->
  kept p (reg m base + d) (exec h code m) m' ->
  trans p (sm (srun code)) base d v = Some (w, o) -> obls h m o -> ev h' m' v = ev h m w.
Proof.
  intros [_ Hm] (Hr & Hk & _) Ht Ho. destruct v as [[|x|b j|i] k]; cbn [trans fst snd] in Ht; try discriminate.
  - destruct (String.eqb x (p_ret p)) eqn:E; [|discriminate]. apply String.eqb_eq in E. injection Ht as <- _.
    unfold ev. cbn [fst snd evb]. subst x. lia.
  - destruct b as [|x|b j'|i]; try discriminate.
    destruct (String.eqb x (p_ret p)) eqn:E; [|discriminate]. apply String.eqb_eq in E. cbn [andb] in Ht.
    destruct (inr _ _ j) eqn:Ej; [|discriminate]. apply inr_ok in Ej.
    destruct (mget _ _) as [u o'] eqn:Eg. injection Ht as <- <-.
    rewrite ev_sadd. unfold ev at 1. cbn [fst snd evb]. subst x. rewrite Hr, Hk by lia. rewrite Hm.
    pose proof (mget_ok h m (sm (srun code)) (BReg base, d + j)) as K. rewrite Eg in K. cbn [fst snd] in K.
    rewrite K by done. unfold ev. cbn [fst snd evb]. rewrite Z.add_assoc. reflexivity.
Qed.

Definition check_back (p : aport) (regs : list string) (code : list ins) (want : string -> sval) : bool :=
  check_save p code && check_obls p (p_ret p) (p_lo p) (p_hi p) (p_resume p) &&
  let st := sm (srun code) in let r := sr (srun (p_resume p)) in
  forallb (fun x => match trans p st (p_sp p) (- p_size p) (rget r x) with
                    | Some (w, o) => is_nil o && veqb w (want x) | None => false end) regs.
Lemma check_back_ok p regs code want : check_back p regs code want = true ->
  forall h m h' m', let s := exec h code m in kept p (reg s (p_arg p)) s m' ->
    forall x, x ∈ regs -> reg (exec h' (p_resume p) m') x = ev h m (want x).
Proof.
  intros Hc h m h' m'. cbv zeta. intros Hk x Hx. unfold check_back in Hc. cbv zeta in Hc.
  apply andb_true_iff in Hc as [Hc Hb]. apply andb_true_iff in Hc as [Hs Ho].
  rewrite (check_save_arg _ _ _ _ Hs) in Hk.
  pose proof (check_obls_rel _ _ _ _ _ h' m' Ho (proj2 (proj2 Hk))) as [Hr _]. rewrite Hr.
  rewrite forallb_forall in Hb. specialize (Hb x ltac:(by apply elem_of_list_In)).
  destruct (trans _ _ _ _ _) as [[w o]|] eqn:Et; [|discriminate].
  apply andb_true_iff in Hb as [Hb Hw]. apply veqb_eq in Hw. subst w.
  refine (trans_ok _ _ _ _ _ _ _ h m h' m' (check_save_rel _ _ h m Hs) _ Et _).
  - replace (reg m (p_sp p) + - p_size p) with (reg m (p_sp p) - p_size p) by lia. exact Hk.
  - destruct o; [|done]. intros a b Hab. set_solver.
Qed.
Definition check_tick (p : aport) (regs : list string) : bool := check_back p regs (p_tick p) (fun x => (BReg x, 0)).
Definition check_call (p : aport) (regs : list string) : bool :=
  check_back p regs (p_call p) (fun x => (BReg x, if String.eqb x (p_pc p) then p_npc p else 0)).
Lemma check_back_save p regs code want : check_back p regs code want = true -> check_save p code = true.
Proof. unfold check_back. cbv zeta. intros Hc. apply andb_true_iff in Hc as [Hc _]. by apply andb_true_iff in Hc as [Hc _]. Qed.
Lemma check_tick_ok p regs : check_tick p regs = true -> tick_ok p regs.
Proof.
  intros Hc. split; [apply check_save_ok; eapply check_back_save, Hc|]. intros h m h' m'. cbv zeta. intros Hk x Hx.
  rewrite (check_back_ok _ _ _ _ Hc h m h' m' Hk x Hx). unfold ev. cbn [fst snd evb]. lia.
Qed.
Lemma check_call_ok p regs : check_call p regs = true -> call_ok p regs.
Proof.
  intros Hc. split; [apply check_save_ok; eapply check_back_save, Hc|]. intros h m h' m'. cbv zeta. intros Hk x Hx.
  rewrite (check_back_ok _ _ _ _ Hc h m h' m' Hk x Hx). unfold ev. cbn [fst snd evb]. destruct (String.eqb _ _); lia.
Qed.
Definition check_args (p : aport) : bool :=
  let s := srun (p_call p) in check_save p (p_call p) &&
  forallb (fun e => veqb (rget (sr s) e.1) (BReg e.2, 0)) (p_cmap p) &&
  forallb (fun e => veqb (rget (sr s) e.1) (BMem (BReg (p_sp p)) e.2, 0)) (p_cmem p).
Lemma check_args_ok p : check_args p = true -> args_ok p.
Proof.
  intros Hc h m. cbv zeta. unfold check_args in Hc. cbv zeta in Hc.
  apply andb_true_iff in Hc as [Hc H2]. apply andb_true_iff in Hc as [Hs H1]. rewrite forallb_forall in H1, H2.
  pose proof (proj1 (check_save_rel _ _ h m Hs)) as Hr.
  split; intros x y Hxy; rewrite Hr; apply elem_of_list_In in Hxy; [specialize (H1 _ Hxy)|specialize (H2 _ Hxy)];
    [apply veqb_eq in H1; cbn [fst snd] in H1; rewrite H1|apply veqb_eq in H2; cbn [fst snd] in H2; rewrite H2];
    unfold ev; cbn [fst snd evb]; lia.
Qed.

Definition flow (p : aport) : Z := - p_fadj p - p_min p * p_unit p.
Definition fhigh (p : aport) : Z := - p_fadj p.
Definition check_start (p : aport) (d : Z) (code : list ins) : bool :=
  let st := sm (srun (p_first p)) in let r := sr (srun code) in
  check_obls p (p_ret p) (p_lo p) (p_hi p) code &&
  forallb (fun e => match trans p st (p_top p) d (rget r e.1) with
                    | Some (w, o) => forallb (obl_ok p (p_top p) (flow p) (fhigh p)) o && veqb w (BReg e.2, 0)
                    | None => false end) (p_fmap p) &&
  match trans p st (p_top p) d (rget r (p_sp p)) with
  | Some ((b, k), o) => is_nil o && beqb b (BReg (p_top p)) && (d + p_lo p <? k) && (k <=? fhigh p)
  | None => false end.
Definition check_first (p : aport) : bool :=
  let s := srun (p_first p) in
  let '(x, lo, hi) := p_kstk p in
  let (b, d) := rget (sr s) (p_fret p) in
  check_obls p (p_top p) (flow p) (fhigh p) (p_first p) &&
  forallb (fun e => beqb e.1.1 (BReg (p_top p)) && inr (flow p) (fhigh p) e.1.2
                    || beqb e.1.1 (BReg x) && inr lo hi e.1.2) (sm s) &&
  forallb (fun y => veqb (rget (sr s) y) (BReg y, 0)) (p_fkeep p) &&
  beqb b (BReg (p_top p)) && (flow p <=? d + p_lo p) && (d + p_hi p <=? fhigh p) &&
  check_start p d (p_start p) && check_start p d (p_resume p).
Lemma check_start_ok p d code : check_start p d code = true ->
  forall h m, (let '(x, lo, hi) := p_kstk p in apart m (p_top p) (flow p) (fhigh p) x lo hi) ->
  rel h m (srun (p_first p)) (exec h (p_first p) m) ->
  forall h' m', kept p (reg m (p_top p) + d) (exec h (p_first p) m) m' ->
      (forall y z, (y, z) ∈ p_fmap p -> reg (exec h' code m') y = reg m z) /\
      reg m (p_top p) + d + p_lo p < reg (exec h' code m') (p_sp p) <= reg m (p_top p) + fhigh p.
Proof.
  intros Hc h m Ha Hf h' m' Hk. unfold check_start in Hc. cbv zeta in Hc.
  apply andb_true_iff in Hc as [Hc Hsp]. apply andb_true_iff in Hc as [Ho Hmap].
  pose proof (check_obls_rel _ _ _ _ _ h' m' Ho (proj2 (proj2 Hk))) as [Hr _]. split.
  - intros y z Hyz. rewrite Hr. rewrite forallb_forall in Hmap. apply elem_of_list_In in Hyz. specialize (Hmap _ Hyz).
    cbn [fst snd] in Hmap. destruct (trans _ _ _ _ _) as [[w o]|] eqn:Et; [|discriminate].
    apply andb_true_iff in Hmap as [Hoo Hw]. apply veqb_eq in Hw. subst w.
    rewrite (trans_ok _ _ _ _ _ _ _ _ _ h' m' Hf Hk Et).
    + unfold ev. cbn [fst snd evb]. lia.
    + intros a b Hab. rewrite forallb_forall in Hoo. apply elem_of_list_In in Hab. specialize (Hoo _ Hab).
      by apply (obl_ok_ne _ _ _ _ h m) in Hoo.
  - rewrite Hr. destruct (trans _ _ _ _ (rget _ (p_sp p))) as [[[b k] o]|] eqn:Et; [|discriminate].
    apply andb_true_iff in Hsp as [Hsp H4]. apply andb_true_iff in Hsp as [Hsp H3].
    apply andb_true_iff in Hsp as [H1 H2]. apply beqb_eq in H2. subst b.
    rewrite (trans_ok _ _ _ _ _ _ _ _ _ h' m' Hf Hk Et).
    + unfold ev. cbn [fst snd evb]. lia.
    + destruct o; [|done]. intros a b Hab. set_solver.
Qed.
Lemma check_first_ok p : check_first p = true -> first_ok p.
Proof.
  intros Hc h m. cbv zeta. unfold check_first in Hc. cbv zeta in Hc.
  pose proof (check_obls_rel p (p_top p) (flow p) (fhigh p) (p_first p) h m) as Hrel.
  pose proof (fun d code Hs => check_start_ok p d code Hs h m) as Hst.
  destruct (p_kstk p) as [[x lo] hi]. destruct (rget _ _) as [b d] eqn:Eb.
  repeat (apply andb_true_iff in Hc as [Hc ?]). rename H into Hs2, H0 into Hs1, H1 into Hhi, H2 into Hlo, H3 into Hb, H4 into Hkeep, H5 into Hmem.
  intros Ha. specialize (Hrel Hc Ha). destruct Hrel as [Hr Hm]. apply beqb_eq in Hb. subst b.
  assert (reg (exec h (p_first p) m) (p_fret p) = reg m (p_top p) + d) as Hsp.
  { rewrite Hr, Eb. reflexivity. }
  rewrite Hsp. unfold flow, fhigh in *. split_and!.
  - intros a Hna Hnb. rewrite Hm. apply mlook_out. intros e He. rewrite forallb_forall in Hmem.
    apply elem_of_list_In in He. specialize (Hmem _ He). unfold ev.
    apply orb_true_iff in Hmem as [Hmem|Hmem]; apply andb_true_iff in Hmem as [Hb Hi]; apply beqb_eq in Hb;
      apply inr_ok in Hi; destruct e as [[eb ek] ev']; cbn [fst snd] in *; subst eb; cbn [evb]; lia.
  - intros y Hy. rewrite Hr. rewrite forallb_forall in Hkeep. apply elem_of_list_In in Hy. specialize (Hkeep _ Hy).
    apply veqb_eq in Hkeep. rewrite Hkeep. unfold ev. cbn [fst snd evb]. lia.
  - lia.
  - lia.
  - intros h' m' code Hcode Hk.
    destruct (fun Hs => Hst d code Hs Ha (conj Hr Hm) h' m' Hk) as [K1 K2]; [destruct Hcode; subst; done|].
    split; [done|]. lia.
Qed.

Definition check_quiet (p : aport) (code : list ins) : bool :=
  let '(x, lo, hi) := p_kstk p in
  check_obls p (p_ret p) (p_lo p) (p_hi p) code && forallb (fun e => beqb e.1.1 (BReg x) && inr lo hi e.1.2) (sm (srun code)).
Lemma check_quiet_ok p code : check_quiet p code = true -> quiet_ok p code.
Proof.
  unfold check_quiet, quiet_ok. pose proof (check_obls_rel p (p_ret p) (p_lo p) (p_hi p) code) as Hrel.
  destruct (p_kstk p) as [[x lo] hi]. intros Hc h m Ha a Hn. apply andb_true_iff in Hc as [Ho Hm].
  rewrite (proj2 (Hrel h m Ho Ha)). apply mlook_out. intros e He. rewrite forallb_forall in Hm.
  apply elem_of_list_In in He. specialize (Hm _ He). apply andb_true_iff in Hm as [Hb Hi]. apply beqb_eq in Hb.
  apply inr_ok in Hi. destruct e as [[eb ek] ev']. cbn [fst snd] in *. subst eb. unfold ev. cbn [fst snd evb]. lia.
Qed.
