(** SortProofs.v - correctness of core_sort_tasks and core_arrange_shared_priorities. *)
From Verif Require Import Base SchedModel SchedSpec.
From Coq Require Import ZifyBool ZifyNat.

(** * Generic facts on outcomes and arrays *)
Lemma aget_ok {A} (l : list A) (i : nat) a : l !! i = Some a -> aget l (Z.of_nat i) = Ok a.
Proof.
  intros H. unfold aget. destruct (Z.ltb_spec (Z.of_nat i) 0); [lia|].
  rewrite Nat2Z.id, H. done.
Qed.

Lemma aget_inv {A} (l : list A) (i : Z) a : aget l i = Ok a -> 0 <= i /\ l !! Z.to_nat i = Some a.
Proof.
  unfold aget. destruct (Z.ltb_spec i 0); [done|].
  destruct (l !! Z.to_nat i) eqn:E; [|done]. intros [= ->]. done.
Qed.

Lemma aset_ok {A} (l : list A) (i : nat) a :
  (i < length l)%nat -> aset l (Z.of_nat i) a = Ok (<[i := a]> l).
Proof.
  intros H. unfold aset.
  destruct (Z.leb_spec 0 (Z.of_nat i)); [|lia].
  destruct (Z.ltb_spec (Z.of_nat i) (Z.of_nat (length l))); [|lia].
  cbn [andb]. rewrite Nat2Z.id. done.
Qed.

Lemma aset_inv {A} (l l' : list A) (i : Z) a :
  aset l i a = Ok l' -> 0 <= i < Z.of_nat (length l) /\ l' = <[Z.to_nat i := a]> l.
Proof.
  unfold aset. destruct ((0 <=? i) && (i <? Z.of_nat (length l))) eqn:E; [|done].
  intros [= <-]. split; [lia|done].
Qed.

(** * Insertion sort *)

(** Fields not exchanged by quickswap are the same in both tasks. *)
Definition same_rest (t1 t2 : task) : Prop := quickcpy t1 t2 = t2.

Lemma quickswap_swap tmp0 t1 t2 :
  same_rest t1 t2 -> same_rest t2 t1 -> quickswap tmp0 t1 t2 = (t2, t1).
Proof.
  unfold same_rest, quickswap. intros H1 H2.
  assert (quickcpy t2 (quickcpy tmp0 t1) = quickcpy t2 t1) as -> by done.
  rewrite H1, H2. done.
Qed.

Definition uniform (l : list task) : Prop := forall a b, a ∈ l -> b ∈ l -> same_rest a b.

(** Insertion of [x] in a list sorted in descending order (the reversed prefix). *)
Fixpoint insR (x : task) (r : list task) : list task :=
  match r with
  | [] => [x]
  | a :: r' => if t_prio a >? t_prio x then a :: insR x r' else x :: a :: r'
  end.

Lemma insR_length x r : length (insR x r) = S (length r).
Proof. induction r as [|a r IH]; cbn; [done|]. destruct (_ >? _); cbn; lia. Qed.

Lemma insR_perm x r : insR x r ≡ₚ x :: r.
Proof.
  induction r as [|a r IH]; cbn; [done|]. destruct (_ >? _); [|done].
  rewrite IH. apply Permutation_swap.
Qed.

Lemma sift_insR tmp0 x r : forall suf,
  uniform (rev r ++ x :: suf) ->
  sift tmp0 (length r) (rev r ++ x :: suf) = Ok (rev (insR x r) ++ suf).
Proof.
  induction r as [|a r IH]; intros suf Hu; cbn [length sift insR]; [done|].
  assert (La : (rev (a :: r) ++ x :: suf) !! length r = Some a).
  { cbn. rewrite <- app_assoc. rewrite lookup_app_r by (rewrite rev_length; lia).
    rewrite rev_length, Nat.sub_diag. done. }
  assert (Lx : (rev (a :: r) ++ x :: suf) !! S (length r) = Some x).
  { rewrite lookup_app_r by (rewrite rev_length; cbn; lia).
    rewrite rev_length. cbn [length]. rewrite Nat.sub_diag. done. }
  rewrite (aget_ok _ _ _ La). cbn [rbind].
  rewrite (aget_ok _ _ _ Lx). cbn [rbind].
  destruct (t_prio a >? t_prio x) eqn:Hgt; [|cbn [rev]; rewrite <- !app_assoc; done].
  assert (Ha : a ∈ rev (a :: r) ++ x :: suf) by (eapply elem_of_list_lookup_2; exact La).
  assert (Hx : x ∈ rev (a :: r) ++ x :: suf) by (eapply elem_of_list_lookup_2; exact Lx).
  rewrite quickswap_swap by (apply Hu; done). cbv beta iota.
  assert (Len : length (rev (a :: r) ++ x :: suf) = (S (S (length r)) + length suf)%nat).
  { rewrite app_length, rev_length. cbn. lia. }
  rewrite aset_ok by (rewrite Len; lia). cbn [rbind].
  rewrite aset_ok by (rewrite insert_length, Len; lia). cbn [rbind].
  assert (Hl : <[length r := x]> (<[S (length r) := a]> (rev (a :: r) ++ x :: suf))
               = rev r ++ x :: a :: suf).
  { cbn [rev]. rewrite <- app_assoc. cbn [app].
    rewrite insert_app_r_alt by (rewrite rev_length; lia).
    rewrite insert_app_r_alt by (rewrite rev_length; lia).
    rewrite rev_length. rewrite Nat.sub_diag.
    replace (S (length r) - length r)%nat with 1%nat by lia. done. }
  rewrite Hl. rewrite IH.
  - cbn [rev]. rewrite <- app_assoc. done.
  - intros u v Hu1 Hv1. apply Hu.
    + cbn [rev]. rewrite <- app_assoc. cbn. set_solver.
    + cbn [rev]. rewrite <- app_assoc. cbn. set_solver.
Qed.

(** Descending order for reversed prefixes. *)
Definition desc (r : list task) : Prop := StronglySorted (fun a b => t_prio b <= t_prio a) r.

Lemma insR_desc x r : desc r -> desc (insR x r).
Proof.
  unfold desc. induction r as [|a r IH]; intros H; cbn.
  - repeat constructor.
  - inversion H as [|a' r' Hs Hf]; subst. destruct (t_prio a >? t_prio x) eqn:E.
    + constructor; [auto|]. apply Forall_forall. intros y Hy.
      rewrite insR_perm in Hy. apply elem_of_cons in Hy as [->|Hy]; [lia|].
      rewrite Forall_forall in Hf. apply Hf. done.
    + constructor; [done|]. constructor; [lia|].
      eapply Forall_impl; [exact Hf|]. cbn. intros. lia.
Qed.

Lemma insR_filter x r p : desc r ->
  filter (fun t => t_prio t = p) (rev (insR x r)) = filter (fun t => t_prio t = p) (rev r ++ [x]).
Proof.
  induction r as [|a r IH]; intros H; cbn [insR]; [done|].
  inversion H as [|a' r' Hs Hf]; subst. destruct (t_prio a >? t_prio x) eqn:E; [|done].
  cbn [rev]. rewrite filter_app, IH by done. rewrite !filter_app.
  destruct (decide (t_prio a = p)) as [Hap|Hap], (decide (t_prio x = p)) as [Hxp|Hxp]; try lia.
  - rewrite (filter_cons_False _ x), filter_nil by lia. rewrite !app_nil_r. done.
  - rewrite (filter_cons_False _ a), filter_nil by lia. rewrite !app_nil_r. done.
  - rewrite (filter_cons_False _ x), (filter_cons_False _ a), filter_nil by lia.
    rewrite !app_nil_r. done.
Qed.

Lemma sort_loop_spec tmp0 mid : forall r suf,
  uniform (rev r ++ mid ++ suf) -> desc r ->
  exists r', sort_loop tmp0 (length mid) (length r) (rev r ++ mid ++ suf) = Ok (rev r' ++ suf)
    /\ desc r' /\ length r' = (length r + length mid)%nat
    /\ rev r' ≡ₚ rev r ++ mid
    /\ forall p, filter (fun t => t_prio t = p) (rev r') = filter (fun t => t_prio t = p) (rev r ++ mid).
Proof.
  induction mid as [|x mid IH]; intros r suf Hu Hd; cbn [length sort_loop].
  - exists r. rewrite !app_nil_r. cbn. repeat split; (done || lia).
  - cbn [app]. rewrite sift_insR by done. cbn [rbind].
    rewrite <- (insR_length x r).
    destruct (IH (insR x r) suf) as (r' & Hr & Hd' & Hl & Hp & Hf).
    + intros a b Ha Hb. apply Hu.
      * rewrite elem_of_app in Ha |- *. destruct Ha as [Ha|Ha]; [|set_solver].
        rewrite rev_alt, <- rev_alt in Ha. apply elem_of_list_In, in_rev, elem_of_list_In in Ha.
        rewrite insR_perm in Ha. apply elem_of_cons in Ha as [->|Ha]; [set_solver|].
        left. apply elem_of_list_In, in_rev. rewrite rev_involutive. apply elem_of_list_In. done.
      * rewrite elem_of_app in Hb |- *. destruct Hb as [Hb|Hb]; [|set_solver].
        apply elem_of_list_In, in_rev, elem_of_list_In in Hb.
        rewrite insR_perm in Hb. apply elem_of_cons in Hb as [->|Hb]; [set_solver|].
        left. apply elem_of_list_In, in_rev. rewrite rev_involutive. apply elem_of_list_In. done.
    + apply insR_desc. done.
    + exists r'. split; [exact Hr|]. split; [done|]. split; [rewrite Hl, insR_length; lia|]. split.
      * rewrite Hp. rewrite <- !Permutation_rev, insR_perm. cbn. apply Permutation_middle.
      * intros p. rewrite Hf, filter_app, insR_filter by done.
        rewrite <- filter_app, <- app_assoc. done.
Qed.

(** A list sorted by a key in [0, m) is the concatenation of its sublists of equal key. *)
Section bykey.
  Context {A : Type} (key : A -> Z).
  Definition bykey (m : nat) (l : list A) : list A :=
    concat (map (fun p => filter (fun a => key a = Z.of_nat p) l) (seq 0 m)).
  Definition asc (l : list A) : Prop := StronglySorted (fun a b => key a <= key b) l.

  Lemma bykey_S m l : bykey (S m) l = bykey m l ++ filter (fun a => key a = Z.of_nat m) l.
  Proof.
    unfold bykey. rewrite seq_S, map_app, concat_app. cbn. rewrite app_nil_r. done.
  Qed.

  Lemma bykey_elem m l a : a ∈ bykey m l <-> a ∈ l /\ 0 <= key a < Z.of_nat m.
  Proof.
    induction m as [|m IH].
    - cbn. split; [intros H; inversion H|lia].
    - rewrite bykey_S, elem_of_app, IH, elem_of_list_filter. split.
      + intros [[? ?]|[? ?]]; split; try done; lia.
      + intros [? ?]. destruct (decide (key a = Z.of_nat m)); [right|left]; split; try done; lia.
  Qed.

  Lemma asc_split l m : asc l -> Forall (fun a => 0 <= key a < Z.of_nat (S m)) l ->
    l = filter (fun a => key a < Z.of_nat m) l ++ filter (fun a => key a = Z.of_nat m) l.
  Proof.
    unfold asc. induction l as [|x l IH]; intros Hs Hf; [done|].
    inversion Hs as [|x' l' Hs' Hx]; subst. inversion Hf as [|x' l' Hx2 Hf']; subst.
    destruct (decide (key x = Z.of_nat m)) as [E|E].
    - (* all the rest is equal to m *)
      rewrite (filter_cons_False _ x) by lia.
      assert (filter (fun a => key a < Z.of_nat m) l = []) as ->.
      { clear IH. induction l as [|y l IHl]; [done|].
        inversion Hx; subst. inversion Hf'; subst. inversion Hs'; subst. inversion Hs; subst.
        rewrite filter_cons_False by lia. apply IHl; try done. 
        - constructor; [|done]. inversion Hx; subst. done.
        - constructor; done. }
      cbn [app]. rewrite filter_cons_True by done. f_equal.
      clear IH. induction l as [|y l IHl]; [done|].
      inversion Hx; subst. inversion Hf'; subst. inversion Hs'; subst.
      rewrite filter_cons_True by lia. f_equal. apply IHl; try done.
      + constructor; done.
      + constructor; done.
    - rewrite (filter_cons_True _ x) by lia. rewrite (filter_cons_False _ x) by done.
      cbn [app]. f_equal. apply IH; done.
  Qed.

  Lemma filter_filter_lt (l : list A) m p : (p < m)%nat ->
    filter (fun a => key a = Z.of_nat p) (filter (fun a => key a < Z.of_nat m) l)
    = filter (fun a => key a = Z.of_nat p) l.
  Proof.
    intros H. rewrite list_filter_filter. apply list_filter_iff. intros x. lia.
  Qed.

  Lemma asc_filter (P : A -> Prop) `{!forall x, Decision (P x)} l : asc l -> asc (filter P l).
  Proof.
    unfold asc. induction 1 as [|x l Hs IH Hf]; [constructor|].
    rewrite filter_cons. destruct (decide (P x)); [|done].
    constructor; [done|]. rewrite Forall_forall in *. intros y Hy.
    apply elem_of_list_filter in Hy as [_ Hy]. auto.
  Qed.

  Lemma asc_bykey m : forall l, asc l -> Forall (fun a => 0 <= key a < Z.of_nat m) l -> l = bykey m l.
  Proof.
    induction m as [|m IH]; intros l Hs Hf.
    - destruct l as [|x l]; [done|]. inversion Hf; subst. lia.
    - rewrite bykey_S. rewrite (asc_split l m) at 1 by done. f_equal.
      rewrite (IH (filter _ l)) at 1.
      + unfold bykey. f_equal. apply map_ext_in. intros p Hp%in_seq.
        apply filter_filter_lt. lia.
      + apply asc_filter. done.
      + rewrite Forall_forall in *. intros x Hx. apply elem_of_list_filter in Hx as [Hx1 Hx2].
        specialize (Hf x Hx2). cbn in Hf. lia.
  Qed.

  Lemma bykey_asc m l : asc (bykey m l).
  Proof.
    induction m as [|m IH]; [constructor|].
    rewrite bykey_S.
    assert (H : forall l1 l2, asc l1 -> asc l2 -> (forall a b, a ∈ l1 -> b ∈ l2 -> key a <= key b) -> asc (l1 ++ l2)).
    { clear. unfold asc. intros l1 l2 H1 H2 H. induction H1 as [|x l1 Hs IH Hf]; [done|].
      cbn. constructor.
      - apply IH. intros a b Ha Hb. apply H; [right|]; done.
      - apply Forall_app. split; [done|]. apply Forall_forall. intros y Hy. apply H; [left|done]. }
    apply H; [done| |].
    - clear. induction l as [|x l IHl]; [constructor|]. rewrite filter_cons.
      destruct (decide _) as [E|E]; [|done]. constructor; [done|].
      apply Forall_forall. intros y [Hy _]%elem_of_list_filter. lia.
    - intros a b Ha%bykey_elem [Hb _]%elem_of_list_filter. lia.
  Qed.

  Lemma bykey_perm m l : Forall (fun a => 0 <= key a < Z.of_nat m) l -> bykey m l ≡ₚ l.
  Proof.
    revert l. induction m as [|m IH]; intros l Hf.
    - destruct l as [|x l]; [done|]. inversion Hf; subst. lia.
    - rewrite bykey_S.
      assert (E : bykey m l = bykey m (filter (fun a => key a < Z.of_nat m) l)).
      { unfold bykey. f_equal. apply map_ext_in. intros p Hp%in_seq.
        rewrite filter_filter_lt by lia. done. }
      rewrite E, IH.
      + clear E IH. induction l as [|x l IHl]; [done|]. inversion Hf; subst.
        rewrite !filter_cons.
        destruct (decide (key x < Z.of_nat m)), (decide (key x = Z.of_nat m)); try lia; cbn.
        * f_equiv. auto.
        * rewrite <- Permutation_middle. f_equiv. auto.
      + rewrite Forall_forall in *. intros x Hx. apply elem_of_list_filter in Hx as [Hx1 Hx2].
        specialize (Hf x Hx2). cbn in Hf. lia.
  Qed.
End bykey.

Lemma SS_app_one {A} (R : A -> A -> Prop) l x :
  StronglySorted R l -> Forall (fun a => R a x) l -> StronglySorted R (l ++ [x]).
Proof.
  induction 1 as [|y l Hs IH Hf]; intros H; cbn; [repeat constructor|].
  inversion H; subst. constructor; [auto|]. apply Forall_app. split; [done|]. repeat constructor. done.
Qed.

Lemma desc_asc_rev r : desc r -> asc t_prio (rev r).
Proof.
  unfold desc, asc. induction 1 as [|x r Hs IH Hf]; [constructor|]. cbn.
  apply SS_app_one; [done|]. apply Forall_rev. done.
Qed.

(** Main result on core_sort_tasks. *)
Lemma sort_tasks_spec tmp0 us idle m :
  (1 <= length us)%nat ->
  uniform (us ++ [idle]) ->
  Forall (fun t => 0 <= t_prio t < Z.of_nat m) us ->
  sort_tasks (length us) tmp0 (us ++ [idle]) = Ok (bykey t_prio m us ++ [idle]).
Proof.
  intros Hn Hu Hf. destruct us as [|x us]; [cbn in Hn; lia|].
  unfold sort_tasks. cbn [length]. replace (S (length us) - 1)%nat with (length us) by lia.
  destruct (sort_loop_spec tmp0 us [x] [idle]) as (r' & Hr & Hd & Hl & Hp & Hfl).
  - cbn. cbn in Hu. done.
  - repeat constructor.
  - cbn [length rev app] in *. rewrite Hr. f_equal. f_equal.
    rewrite (asc_bykey t_prio m (rev r')).
    + unfold bykey. f_equal. apply map_ext. intros p. apply Hfl.
    + apply desc_asc_rev. done.
    + rewrite Hp. done.
Qed.

(** * Shared priorities *)
Definition cnt (p : Z) (u : list task) : nat := length (filter (fun t => t_prio t = p) u).

Lemma cnt_app p u v : cnt p (u ++ v) = (cnt p u + cnt p v)%nat.
Proof. unfold cnt. rewrite filter_app, app_length. done. Qed.
Lemma cnt_nil p : cnt p [] = 0%nat.
Proof. done. Qed.
Lemma cnt_cons p t u : cnt p (t :: u) = ((if decide (t_prio t = p) then 1 else 0) + cnt p u)%nat.
Proof. unfold cnt. rewrite filter_cons. destruct (decide _); done. Qed.
Lemma cnt_le p u : (cnt p u <= length u)%nat.
Proof. unfold cnt. apply filter_length. Qed.
Lemma cnt_zero p u : (forall t, t ∈ u -> t_prio t <> p) -> cnt p u = 0%nat.
Proof.
  induction u as [|t u IH]; intros H; [done|]. rewrite cnt_cons.
  rewrite decide_False by (apply H; left). rewrite IH; [done|]. intros t' Ht. apply H. right. done.
Qed.

Definition arr (u : list task) : list task :=
  imap (fun i t => set_sub t (Z.of_nat (cnt (t_prio t) (take i u)))) u.

Lemma arr_length u : length (arr u) = length u.
Proof. apply imap_length. Qed.

Lemma arr_snoc u t : arr (u ++ [t]) = arr u ++ [set_sub t (Z.of_nat (cnt (t_prio t) u))].
Proof.
  unfold arr. rewrite imap_app. f_equal.
  - apply list_eq. intros i. rewrite !list_lookup_imap.
    destruct (u !! i) as [x|] eqn:E; cbn; [|done].
    rewrite take_app_le; [done|]. apply lookup_lt_Some in E. lia.
  - cbn. rewrite Nat.add_0_r, take_app. done.
Qed.

Lemma arr_lookup u i : arr u !! i =
  (fun t => set_sub t (Z.of_nat (cnt (t_prio t) (take i u)))) <$> u !! i.
Proof. unfold arr. apply list_lookup_imap. Qed.

Definition subs_of (L : nat) (u : list task) : list Z :=
  map (fun p => Z.max 1 (Z.of_nat (cnt (Z.of_nat p) u))) (seq 0 L).

Lemma subs_of_lookup L u p : subs_of L u !! p =
  if decide (p < L)%nat then Some (Z.max 1 (Z.of_nat (cnt (Z.of_nat p) u))) else None.
Proof.
  unfold subs_of. rewrite list_lookup_fmap. destruct (decide _) as [H|H].
  - rewrite lookup_seq_lt by lia. done.
  - rewrite lookup_seq_ge by lia. done.
Qed.
Lemma subs_of_length L u : length (subs_of L u) = L.
Proof. unfold subs_of. rewrite map_length, seq_length. done. Qed.

Definition strays (L : nat) (u : list task) : list (Z * Z) :=
  concat (imap (fun i t =>
    if (0 <? Z.of_nat (cnt (t_prio t) (take i u))) && (Z.of_nat L <=? t_prio t)
    then [(t_prio t, Z.of_nat (cnt (t_prio t) (take i u)) + 1)] else []) u).

Lemma strays_snoc L u t : strays L (u ++ [t]) = strays L u ++
  (if (0 <? Z.of_nat (cnt (t_prio t) u)) && (Z.of_nat L <=? t_prio t)
   then [(t_prio t, Z.of_nat (cnt (t_prio t) u) + 1)] else []).
Proof.
  unfold strays. rewrite imap_app, concat_app. f_equal.
  - f_equal. apply list_eq. intros i. rewrite !list_lookup_imap.
    destruct (u !! i) as [x|] eqn:E; cbn; [|done].
    rewrite take_app_le; [done|]. apply lookup_lt_Some in E. lia.
  - cbn. rewrite app_nil_r, Nat.add_0_r, take_app. done.
Qed.

Lemma wrap_small w x : 0 <= x < 2 ^ w -> wrap w x = x.
Proof. intros. unfold wrap. apply Z.mod_small. done. Qed.

Lemma set_sub_same t : t_sub t = 0 -> set_sub t 0 = t.
Proof. destruct t; cbn. intros ->. done. Qed.

Lemma subs_of_update L u t :
  0 <= t_prio t -> (0 < cnt (t_prio t) u)%nat ->
  sub_write (subs_of L u) (strays L u) (t_prio t) (Z.of_nat (cnt (t_prio t) u) + 1)
  = (subs_of L (u ++ [t]), strays L (u ++ [t])).
Proof.
  intros Hp Hc. unfold sub_write. rewrite subs_of_length, strays_snoc.
  destruct (Z.leb_spec 0 (t_prio t)); [|lia].
  destruct (Z.ltb_spec (t_prio t) (Z.of_nat L)) as [H1|H1]; cbn [andb].
  - destruct (Z.leb_spec (Z.of_nat L) (t_prio t)); [lia|]. rewrite andb_false_r, app_nil_r. f_equal.
    apply list_eq. intros q. 
    destruct (decide (q = Z.to_nat (t_prio t))) as [->|Hq].
    + rewrite list_lookup_insert by (rewrite subs_of_length; lia).
      rewrite subs_of_lookup. rewrite decide_True by lia. rewrite Z2Nat.id by lia.
      rewrite cnt_app, cnt_cons, decide_True by done. rewrite cnt_nil. f_equal. lia.
    + rewrite list_lookup_insert_ne by done. rewrite !subs_of_lookup.
      destruct (decide (q < L)%nat); [|done]. rewrite cnt_app, cnt_cons.
      rewrite decide_False by lia. rewrite cnt_nil. f_equal. lia.
  - destruct (Z.leb_spec (Z.of_nat L) (t_prio t)); [|lia].
    destruct (Z.ltb_spec 0 (Z.of_nat (cnt (t_prio t) u))); [|lia]. cbn [andb]. f_equal.
    apply list_eq. intros q. rewrite !subs_of_lookup. destruct (decide _); [|done].
    rewrite cnt_app, cnt_cons. rewrite decide_False by lia. rewrite cnt_nil. f_equal. lia.
Qed.

Lemma subs_of_noupdate L u t :
  cnt (t_prio t) u = 0%nat ->
  (subs_of L u, strays L u) = (subs_of L (u ++ [t]), strays L (u ++ [t])).
Proof.
  intros Hc. rewrite strays_snoc, Hc. cbn [Z.of_nat Z.ltb Z.compare andb]. rewrite app_nil_r. f_equal.
  apply list_eq. intros q. rewrite !subs_of_lookup. destruct (decide _); [|done].
  rewrite cnt_app, cnt_cons. destruct (decide (t_prio t = Z.of_nat q)) as [E|E]; f_equal.
  - rewrite E in Hc. rewrite Hc. done.
  - rewrite cnt_nil. lia.
Qed.

Lemma arrange_loop_spec pbits L suf u2 : forall u1 tl,
  0 < pbits ->
  asc t_prio (u1 ++ [tl] ++ u2) ->
  Forall (fun t => 0 <= t_prio t /\ t_sub t = 0) (u1 ++ [tl] ++ u2) ->
  Z.of_nat (length (u1 ++ [tl] ++ u2)) < 2 ^ pbits ->
  arrange_loop pbits (length u2) (S (length u1)) (Z.of_nat (cnt (t_prio tl) u1))
    (arr (u1 ++ [tl]) ++ u2 ++ suf) (subs_of L (u1 ++ [tl])) (strays L (u1 ++ [tl]))
  = Ok (arr (u1 ++ [tl] ++ u2) ++ suf, subs_of L (u1 ++ [tl] ++ u2), strays L (u1 ++ [tl] ++ u2)).
Proof.
  induction u2 as [|t u2 IH]; intros u1 tl Hb Hs Hf Hlen; cbn [length arrange_loop].
  - rewrite !app_nil_r. done.
  - assert (L1 : (arr (u1 ++ [tl]) ++ (t :: u2) ++ suf) !! S (length u1) = Some t).
    { rewrite lookup_app_r by (rewrite arr_length, app_length; cbn; lia).
      rewrite arr_length, app_length. cbn [length].
      replace (S (length u1) - (length u1 + 1))%nat with 0%nat by lia. done. }
    rewrite (aget_ok _ _ _ L1). cbn [rbind].
    replace (Z.of_nat (S (length u1)) - 1) with (Z.of_nat (length u1)) by lia.
    assert (L2 : (arr (u1 ++ [tl]) ++ (t :: u2) ++ suf) !! length u1
                 = Some (set_sub tl (Z.of_nat (cnt (t_prio tl) u1)))).
    { rewrite lookup_app_l by (rewrite arr_length, app_length; cbn; lia).
      rewrite arr_snoc. rewrite lookup_app_r by (rewrite arr_length; lia).
      rewrite arr_length, Nat.sub_diag. done. }
    rewrite (aget_ok _ _ _ L2). cbn [rbind].
    change (t_prio (set_sub tl (Z.of_nat (cnt (t_prio tl) u1)))) with (t_prio tl).
    assert (Hcle := cnt_le (t_prio t) (u1 ++ [tl])).
    rewrite !app_length in Hlen. cbn [length] in Hlen.
    rewrite app_length in Hcle. cbn [length] in Hcle.
    assert (Hpt : 0 <= t_prio t /\ t_sub t = 0).
    { rewrite Forall_forall in Hf. apply Hf. set_solver. }
    assert (Heq : u1 ++ [tl] ++ t :: u2 = (u1 ++ [tl]) ++ [t] ++ u2) by (rewrite <- !app_assoc; done).
    assert (Hlast : arr (u1 ++ [tl]) ++ [set_sub t (Z.of_nat (cnt (t_prio t) (u1 ++ [tl])))] ++ u2 ++ suf
                    = arr ((u1 ++ [tl]) ++ [t]) ++ u2 ++ suf).
    { rewrite (arr_snoc (u1 ++ [tl])). rewrite <- !app_assoc. done. }
    assert (Hih := IH (u1 ++ [tl]) t).
    rewrite <- Heq in Hih. rewrite !app_length in Hih. cbn [length] in Hih.
    replace (S (length u1 + 1)) with (S (S (length u1))) in Hih by lia.
    destruct (Z.eqb_spec (t_prio t) (t_prio tl)) as [E|E].
    + assert (Hcn : cnt (t_prio t) (u1 ++ [tl]) = S (cnt (t_prio tl) u1)).
      { rewrite cnt_app, cnt_cons, E, decide_True by done. rewrite cnt_nil. lia. }
      rewrite (wrap_small pbits (_ + 1)) by lia.
      replace (Z.of_nat (cnt (t_prio tl) u1) + 1) with (Z.of_nat (cnt (t_prio t) (u1 ++ [tl]))) by lia.
      rewrite aset_ok by (apply lookup_lt_Some in L1; done). cbn [rbind].
      rewrite (wrap_small pbits) by lia.
      rewrite subs_of_update by lia. cbv beta iota.
      assert (<[S (length u1) := set_sub t (Z.of_nat (cnt (t_prio t) (u1 ++ [tl])))]>
               (arr (u1 ++ [tl]) ++ (t :: u2) ++ suf)
              = arr ((u1 ++ [tl]) ++ [t]) ++ u2 ++ suf) as ->.
      { rewrite insert_app_r_alt by (rewrite arr_length, app_length; cbn; lia).
        rewrite arr_length, app_length. cbn [length].
        replace (S (length u1) - (length u1 + 1))%nat with 0%nat by lia.
        rewrite <- Hlast. done. }
      apply Hih; (done || lia).
    + assert (Hc0 : cnt (t_prio t) (u1 ++ [tl]) = 0%nat).
      { apply cnt_zero. intros x Hx Hxt.
        assert (Htt : t_prio tl <= t_prio t).
        { clear -Hs. induction u1 as [|y u1 IHu]; cbn in Hs; inversion Hs as [|? ? Hs' Hf']; subst.
          - inversion Hf'; subst. done.
          - apply IHu. done. }
        assert (Hxl : t_prio x <= t_prio tl).
        { apply elem_of_app in Hx as [Hx|Hx]; [|apply elem_of_list_singleton in Hx as ->; lia].
          clear -Hs Hx. induction u1 as [|y u1 IHu]; [inversion Hx|].
          cbn in Hs; inversion Hs as [|? ? Hs' Hf']; subst.
          apply elem_of_cons in Hx as [->|Hx].
          - rewrite Forall_forall in Hf'. apply Hf'. set_solver.
          - apply IHu; done. }
        lia. }
      rewrite Hc0 in Hlast, Hih. rewrite set_sub_same in Hlast by apply Hpt.
      cbn [app] in Hlast |- *. cbn [Z.of_nat] in Hih.
      assert (HS := subs_of_noupdate L (u1 ++ [tl]) t Hc0). injection HS as HS1 HS2.
      rewrite HS1, HS2, Hlast. apply Hih; (done || lia).
Qed.

(** Main result on core_arrange_shared_priorities. *)
Lemma arrange_spec pbits L us suf :
  0 < pbits -> (1 <= length us)%nat ->
  asc t_prio us ->
  Forall (fun t => 0 <= t_prio t /\ t_sub t = 0) us ->
  Z.of_nat (length us) < 2 ^ pbits ->
  arrange pbits (length us) (us ++ suf) (replicate L 1) []
  = Ok (arr us ++ suf, subs_of L us, strays L us).
Proof.
  intros Hb Hn Hs Hf Hl. destruct us as [|x us]; [cbn in Hn; lia|].
  unfold arrange. cbn [length]. replace (S (length us) - 1)%nat with (length us) by lia.
  assert (H := arrange_loop_spec pbits L suf us [] x Hb Hs Hf Hl).
  cbn [length app] in H.
  assert (Hx : arr [x] = [x]).
  { unfold arr. cbn. f_equal. apply set_sub_same. inversion Hf; subst. tauto. }
  assert (Hsub : subs_of L [x] = replicate L 1).
  { apply list_eq. intros i. rewrite subs_of_lookup. destruct (decide (i < L)%nat).
    - rewrite lookup_replicate_2 by done. f_equal. assert (Hc := cnt_le (Z.of_nat i) [x]). cbn [length] in Hc. lia.
    - symmetry. apply lookup_replicate_None. lia. }
  assert (Hst : strays L [x] = []) by done.
  rewrite Hx, Hsub, Hst in H. cbn in H. exact H.
Qed.
