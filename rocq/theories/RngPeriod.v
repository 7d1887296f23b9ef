(** RngPeriod.v - the period of xorshift32: the generator is linear over GF(2), its 32x32 matrix T has
    T^(2^32-1) = 1, and T^((2^32-1)/p) + 1 is invertible for each prime p dividing 2^32-1. *)
From Verif Require Import Base PortModel PortSpec PortProofs.
From Coq Require Import ZifyBool ZifyNat Znumtheory.

(** A matrix is the list of its columns. *)
Fixpoint mv (m : list Z) (x : Z) : Z :=
  match m with
  | [] => 0
  | c :: m => Z.lxor (if Z.odd x then c else 0) (mv m (Z.div2 x))
  end.
Definition mmul (a b : list Z) : list Z := map (mv a) b.
Fixpoint cols (n : nat) (f : Z -> Z) : list Z :=
  match n with O => [] | S n => f 1 :: cols n (fun x => f (2 * x)) end.

Lemma odd_lxor x y : Z.odd (Z.lxor x y) = xorb (Z.odd x) (Z.odd y).
Proof. rewrite <- !Z.bit0_odd. apply Z.lxor_spec. Qed.
Lemma div2_lxor x y : Z.div2 (Z.lxor x y) = Z.lxor (Z.div2 x) (Z.div2 y).
Proof. rewrite !Z.div2_spec. apply Z.shiftr_lxor. Qed.
Lemma lxor_swap4 a b c d : Z.lxor (Z.lxor a b) (Z.lxor c d) = Z.lxor (Z.lxor a c) (Z.lxor b d).
Proof. rewrite !Z.lxor_assoc. f_equal. rewrite <- !Z.lxor_assoc. f_equal. apply Z.lxor_comm. Qed.
Lemma mv_lin m : forall x y, mv m (Z.lxor x y) = Z.lxor (mv m x) (mv m y).
Proof.
  induction m as [|c m IH]; intros x y; cbn [mv]; [done|].
  rewrite odd_lxor, div2_lxor, IH, lxor_swap4. f_equal.
  destruct (Z.odd x), (Z.odd y); cbn [xorb]; rewrite ?Z.lxor_nilpotent, ?Z.lxor_0_l, ?Z.lxor_0_r; done.
Qed.
Lemma mv_0 m : mv m 0 = 0.
Proof. induction m as [|c m IH]; cbn [mv]; [done|]. change (Z.odd 0) with false. change (Z.div2 0) with 0. by rewrite IH. Qed.
Lemma mv_mmul a b : forall x, mv (mmul a b) x = mv a (mv b x).
Proof.
  induction b as [|c b IH]; intros x; cbn [mmul map mv]; [by rewrite mv_0|].
  rewrite mv_lin. fold (mmul a b). rewrite IH. f_equal. destruct (Z.odd x); [done|]. by rewrite mv_0.
Qed.

Definition lin (f : Z -> Z) : Prop := forall x y, f (Z.lxor x y) = Z.lxor (f x) (f y).
Lemma lin_0 f : lin f -> f 0 = 0.
Proof. intros H. rewrite <- (Z.lxor_nilpotent 0) at 1. rewrite H. apply Z.lxor_nilpotent. Qed.
Lemma split_odd x : x = Z.lxor (if Z.odd x then 1 else 0) (2 * Z.div2 x).
Proof.
  apply Z.bits_inj'. intros i Hi. rewrite Z.lxor_spec.
  destruct (Z.eq_dec i 0) as [->|].
  - rewrite Z.testbit_even_0, Z.bit0_odd. destruct (Z.odd x); reflexivity.
  - replace i with (Z.succ (Z.pred i)) by lia. rewrite Z.testbit_even_succ by lia. rewrite Z.div2_spec, Z.shiftr_spec by lia.
    replace (Z.pred i + 1) with (Z.succ (Z.pred i)) by lia.
    destruct (Z.odd x); [|by rewrite Z.bits_0, xorb_false_l].
    change 1 with (2 * 0 + 1). rewrite Z.testbit_odd_succ by lia. by rewrite Z.bits_0, xorb_false_l.
Qed.
Lemma cols_spec n : forall f x, lin f -> 0 <= x < 2 ^ Z.of_nat n -> mv (cols n f) x = f x.
Proof.
  induction n as [|n IH]; intros f x Hf Hx.
  - change (2 ^ Z.of_nat 0) with 1 in Hx. replace x with 0 by lia. cbn [cols mv]. by rewrite lin_0.
  - cbn [cols mv]. rewrite IH.
    + rewrite (split_odd x) at 3. rewrite Hf. f_equal. destruct (Z.odd x); [done|]. by rewrite lin_0.
    + intros a b. rewrite <- Hf. f_equal. assert (D : forall z, 2 * z = Z.shiftl z 1) by (intros; rewrite Z.shiftl_mul_pow2 by lia; change (2 ^ 1) with 2; lia). rewrite !D. apply Z.shiftl_lxor.
    + rewrite Nat2Z.inj_succ, Z.pow_succ_r in Hx by lia. pose proof (Z.div2_odd x) as E. destruct (Z.odd x); cbn [Z.b2z] in E; lia.
Qed.

Lemma shl_lin k : 0 <= k -> lin (shl k).
Proof.
  intros Hk x y. unfold shl, wrap. rewrite Z.shiftl_lxor. apply Z.bits_inj'. intros i Hi. rewrite Z.lxor_spec.
  destruct (Z.lt_ge_cases i 32).
  - rewrite !Z.mod_pow2_bits_low, Z.lxor_spec by lia. done.
  - rewrite !Z.mod_pow2_bits_high by lia. done.
Qed.
Lemma xorshift_lin : lin xorshift32.
Proof.
  intros x y. unfold xorshift32. cbv zeta. repeat match goal with |- context [wrap 32 (Z.shiftl ?v ?k)] => fold (shl k v) end.
  rewrite (shl_lin 13) by lia. rewrite (lxor_swap4 x y).
  set (a := Z.lxor x _). set (b := Z.lxor y _).
  rewrite Z.shiftr_lxor, (lxor_swap4 a b).
  set (a' := Z.lxor a _). set (b' := Z.lxor b _).
  rewrite (shl_lin 5) by lia. apply lxor_swap4.
Qed.

(** The matrix of the generator, its powers. *)
Definition T : list Z := Eval vm_compute in cols 32 xorshift32.
Fixpoint mpow (p : positive) : list Z :=
  match p with
  | xH => T
  | xO p => let q := mpow p in mmul q q
  | xI p => let q := mpow p in mmul T (mmul q q)
  end.
Notation iterx n x := (Nat.iter n xorshift32 x).
Lemma T_spec x : w32 x -> mv T x = xorshift32 x.
Proof. intros Hx. change T with (cols 32 xorshift32). apply cols_spec; [apply xorshift_lin|exact Hx]. Qed.
Lemma iterx_w32 n x : w32 x -> w32 (iterx n x).
Proof. intros. induction n as [|n IH]; [done|]. cbn [Nat.iter nat_rect]. by apply xorshift_w32. Qed.
Lemma iterx_add a b x : iterx (a + b) x = iterx a (iterx b x).
Proof. apply Nat.iter_add. Qed.
Lemma mpow_spec p : forall x, w32 x -> mv (mpow p) x = iterx (Pos.to_nat p) x.
Proof.
  induction p as [p IH|p IH|]; intros x Hx; cbn [mpow].
  - cbv zeta. rewrite !mv_mmul, (IH x Hx), IH, T_spec by auto using iterx_w32.
    rewrite <- iterx_add. replace (Pos.to_nat p~1) with (S (Pos.to_nat p + Pos.to_nat p)) by lia. done.
  - cbv zeta. rewrite mv_mmul, (IH x Hx), IH by auto using iterx_w32.
    rewrite <- iterx_add. f_equal. lia.
  - by rewrite T_spec.
Qed.

Definition I32 : list Z := map (fun i => 2 ^ Z.of_nat i) (seq 0 32).
Lemma I32_cols : I32 = cols 32 (fun x => x).
Proof. vm_compute. reflexivity. Qed.
Lemma I32_spec x : w32 x -> mv I32 x = x.
Proof. intros Hx. rewrite I32_cols. apply (cols_spec 32 (fun x => x)); [intros ??; done|exact Hx]. Qed.
Definition madd (a b : list Z) : list Z := map (fun '(x, y) => Z.lxor x y) (combine a b).
Lemma madd_spec a : forall b x, length a = length b -> mv (madd a b) x = Z.lxor (mv a x) (mv b x).
Proof.
  induction a as [|c a IH]; intros [|d b] x E; try done. cbn [madd combine map mv]. fold (madd a b). rewrite IH by (cbn in E; lia).
  rewrite lxor_swap4. f_equal. by destruct (Z.odd x).
Qed.
Definition period : Z := 2 ^ 32 - 1.
(** Equality of matrices as a boolean: cheap to check, for the kernel and for coqchk. *)
Fixpoint leqb (a b : list Z) : bool :=
  match a, b with
  | [], [] => true
  | x :: a, y :: b => (x =? y) && leqb a b
  | _, _ => false
  end.
Lemma leqb_ok a : forall b, leqb a b = true -> a = b.
Proof.
  induction a as [|x a IH]; intros [|y b] H; try done. cbn [leqb] in H. apply andb_true_iff in H as [H1 H2].
  apply Z.eqb_eq in H1. by rewrite H1, (IH b H2).
Qed.
Lemma mpow_length p : length (mpow p) = 32%nat.
Proof. induction p as [p IH|p IH|]; cbn [mpow]; unfold mmul; rewrite ?map_length; done. Qed.
Lemma pow_period x n : w32 x -> Z.of_nat n = period -> iterx n x = x.
Proof.
  intros Hx Hn. replace n with (Pos.to_nat 4294967295) by (unfold period in Hn; lia).
  rewrite <- mpow_spec by done. transitivity (mv I32 x); [|by apply I32_spec].
  assert (E : mpow 4294967295 = I32) by (apply leqb_ok; vm_compute; reflexivity). by rewrite E.
Qed.
Lemma no_fix p inv x n : leqb (mmul inv (madd (mpow p) I32)) I32 = true -> Pos.to_nat p = n ->
  w32 x -> iterx n x = x -> x = 0.
Proof.
  intros Hi%leqb_ok <- Hx E. rewrite <- mpow_spec in E by done.
  rewrite <- (I32_spec x) by done. rewrite <- Hi, mv_mmul, madd_spec by (by rewrite mpow_length).
  rewrite E, I32_spec, Z.lxor_nilpotent by done. apply mv_0.
Qed.
Definition inv3 : list Z := [3335786257; 3906425407; 341432259; 3494094572; 1287699228; 2747661528; 2150333198; 1082698387; 2611265886; 3557500517; 3637289613; 2868896625; 410369362; 1269330915; 4088754115; 154103209; 1548993245; 1491119919; 2404261344; 3419380581; 2808848906; 551830956; 2331709170; 188466835; 3017353089; 1526152647; 441219537; 2121271239; 792014187; 2569338613; 2655281178; 105270877].
Definition inv5 : list Z := [3037765269; 3182012677; 1669387622; 2344659563; 370929321; 3901211764; 1380852402; 4210098316; 2969553326; 2348631362; 1854761326; 1663573681; 1840518332; 1230994099; 4206056119; 2280264177; 2761711817; 2141840559; 1783100198; 2364816481; 1110627307; 3500024705; 2915665707; 311039995; 1912523766; 1756755554; 3294084956; 326808620; 2100464665; 1580234416; 2287416289; 4045495915].
Definition inv17 : list Z := [2080738118; 4098161938; 4167003272; 262081113; 4280086534; 4185094329; 2355677745; 3596925114; 3587069701; 2535039379; 1691659854; 3661366594; 3081963516; 2254921635; 205510780; 2576529806; 3889960224; 3965609850; 1675181996; 1663335326; 464242227; 164803375; 1135727768; 3702832275; 733074617; 3475373130; 3364815054; 2204756806; 2769922784; 2141131413; 4189123440; 1776631044].
Definition inv257 : list Z := [1940479401; 668616311; 607776604; 3685168204; 1129029766; 648810898; 3303171155; 235886680; 3828553010; 2674952864; 3259775758; 1952802776; 3122666590; 807405955; 2074935119; 10541013; 2953885123; 3744595128; 1051926783; 353530678; 151549380; 394224902; 2319156462; 238374970; 180587326; 3341967654; 1264618217; 3233456239; 2630374898; 2982569044; 4209708186; 2989590033].
Definition inv65537 : list Z := [331728430; 2488218541; 1209385696; 682878283; 839817293; 1408035726; 4013029473; 4095696576; 1033618122; 2301755989; 769798078; 4185028050; 2663489015; 2683529367; 4136185144; 2950586883; 1578865829; 2816851372; 349201241; 3096975940; 3937016935; 2625434786; 2636012314; 211073125; 3311055944; 1920044434; 2025742764; 2060168078; 4064662879; 1177042686; 3953608156; 586778632].
Lemma no_fix3 x n : w32 x -> Z.of_nat n = 1431655765 -> iterx n x = x -> x = 0.
Proof. intros Hx Hn. eapply (no_fix 1431655765 inv3); [vm_compute; reflexivity|lia|done]. Qed.
Lemma no_fix5 x n : w32 x -> Z.of_nat n = 858993459 -> iterx n x = x -> x = 0.
Proof. intros Hx Hn. eapply (no_fix 858993459 inv5); [vm_compute; reflexivity|lia|done]. Qed.
Lemma no_fix17 x n : w32 x -> Z.of_nat n = 252645135 -> iterx n x = x -> x = 0.
Proof. intros Hx Hn. eapply (no_fix 252645135 inv17); [vm_compute; reflexivity|lia|done]. Qed.
Lemma no_fix257 x n : w32 x -> Z.of_nat n = 16711935 -> iterx n x = x -> x = 0.
Proof. intros Hx Hn. eapply (no_fix 16711935 inv257); [vm_compute; reflexivity|lia|done]. Qed.
Lemma no_fix65537 x n : w32 x -> Z.of_nat n = 65535 -> iterx n x = x -> x = 0.
Proof. intros Hx Hn. eapply (no_fix 65535 inv65537); [vm_compute; reflexivity|lia|done]. Qed.

(** Returning after [a] and [b] steps, one returns after gcd a b. *)
Lemma iterx_mul a q x : iterx a x = x -> iterx (a * q) x = x.
Proof. intros H. induction q as [|q IH]; [by rewrite Nat.mul_0_r|]. rewrite Nat.mul_succ_r, iterx_add, H. done. Qed.
Lemma iterx_mod a b x : a <> 0%nat -> iterx a x = x -> iterx b x = x -> iterx (b mod a) x = x.
Proof.
  intros Ha H1 H2. rewrite (Nat.div_mod b a) in H2 by done. rewrite Nat.add_comm, iterx_add, iterx_mul in H2 by done. done.
Qed.
Lemma iterx_gcd x : forall a b, iterx a x = x -> iterx b x = x -> iterx (Nat.gcd a b) x = x.
Proof.
  intros a. induction a as [a IH] using lt_wf_ind. intros b Ha Hb. destruct a as [|a]; [done|].
  change (Nat.gcd (S a) b) with (Nat.gcd (b mod S a) (S a)). apply IH; [|by apply iterx_mod|done].
  apply Nat.mod_upper_bound. lia.
Qed.

(** No divisor up to 256: prime, below 257^2. *)
Fixpoint nodiv (k : nat) (i p : Z) : bool :=
  match k with O => true | S k => negb (p mod i =? 0) && nodiv k (i + 1) p end.
Lemma nodiv_ok k : forall i p j, 1 < i -> nodiv k i p = true -> i <= j < i + Z.of_nat k -> ~ (j | p).
Proof.
  induction k as [|k IH]; intros i p j Hi H Hj; [lia|]. cbn [nodiv] in H. apply andb_true_iff in H as [H1 H2].
  destruct (Z.eq_dec j i) as [->|].
  - intros D. apply Z.mod_divide in D; [|lia]. rewrite D in H1. done.
  - apply (IH (i + 1) p j); [lia|done|lia].
Qed.
Lemma prime_check_ok p k : 1 < p -> p < (Z.of_nat k + 2) * (Z.of_nat k + 2) -> nodiv k 2 p = true -> prime p.
Proof.
  intros Hp Hk H. apply prime_alt. split; [done|]. intros n Hn [m Hm].
  destruct (Z.lt_ge_cases n (Z.of_nat k + 2)).
  - apply (nodiv_ok k 2 p n) in H; [|lia|lia]. apply H. by exists m.
  - apply (nodiv_ok k 2 p m) in H; [|lia|nia]. apply H. exists n. lia.
Qed.
Lemma prime_257 : prime 257. Proof. apply (prime_check_ok 257 15); [lia|lia|]. vm_compute. reflexivity. Qed.
Lemma prime_5 : prime 5. Proof. apply (prime_check_ok 5 1); [lia|lia|]. vm_compute. reflexivity. Qed.
Lemma prime_17 : prime 17. Proof. apply (prime_check_ok 17 3); [lia|lia|]. vm_compute. reflexivity. Qed.
Lemma prime_65537 : prime 65537. Proof. apply (prime_check_ok 65537 255); [lia|lia|]. vm_compute. reflexivity. Qed.

Lemma period_factors d k : 0 < d -> period = d * k -> 1 < k ->
  exists p, In p [3; 5; 17; 257; 65537] /\ (d | period / p).
Proof.
  intros Hd E Hk.
  assert (H : forall p, prime p -> In p [3; 5; 17; 257; 65537] -> (p | k) -> exists p, In p [3; 5; 17; 257; 65537] /\ (d | period / p)).
  { intros p Hp Hin [j Hj]. exists p. split; [done|]. exists j. rewrite E, Hj.
    replace (d * (j * p)) with (j * d * p) by ring. apply Z.div_mul. destruct Hp; lia. }
  destruct (Zdivide_dec 3 k) as [?|N3]; [apply (H 3); [apply prime_3|cbn; tauto|done]|].
  destruct (Zdivide_dec 5 k) as [?|N5]; [apply (H 5); [apply prime_5|cbn; tauto|done]|].
  destruct (Zdivide_dec 17 k) as [?|N17]; [apply (H 17); [apply prime_17|cbn; tauto|done]|].
  destruct (Zdivide_dec 257 k) as [?|N257]; [apply (H 257); [apply prime_257|cbn; tauto|done]|].
  destruct (Zdivide_dec 65537 k) as [?|N6]; [apply (H 65537); [apply prime_65537|cbn; tauto|done]|].
  exfalso.
  assert (R : rel_prime k period).
  { change period with (3 * (5 * (17 * (257 * 65537)))).
    repeat apply rel_prime_mult; apply rel_prime_sym, prime_rel_prime; auto using prime_3, prime_5, prime_17, prime_257, prime_65537. }
  assert (K : (k | period)) by (exists d; done).
  destruct R as [_ _ R]. specialize (R k (Z.divide_refl k) K). apply Z.divide_1_r_nonneg in R; lia.
Qed.

Lemma min_period x n : w32 x -> x <> 0 -> 0 < Z.of_nat n < period -> iterx n x <> x.
Proof.
  intros Hx H0 Hn E. apply H0.
  assert (exists N, Z.of_nat N = period) as [N HN] by (exists (Z.to_nat period); unfold period; lia).
  pose proof (iterx_gcd x n N E (pow_period x N Hx HN)) as G.
  destruct (Nat.gcd_divide_l n N) as [a Ha]. destruct (Nat.gcd_divide_r n N) as [b Hb].
  set (d := Nat.gcd n N) in *.
  assert (Hd : (0 < d)%nat) by (destruct d; lia).
  assert (Hb' : (1 < b)%nat) by (destruct b as [|[|b]]; [lia| |lia]; destruct a; nia).
  destruct (period_factors (Z.of_nat d) (Z.of_nat b)) as (p & Hp & [j Hj]); [lia|lia|lia|].
  assert (F : forall m, Z.of_nat m = period / p -> iterx m x = x).
  { intros m Hm. assert (0 <= j) by (assert (0 <= period / p) by (rewrite <- Hm; lia); nia).
    replace m with (d * Z.to_nat j)%nat by nia. by apply iterx_mul. }
  clear Hj E G. unfold period in F.
  cbn [In] in Hp. destruct Hp as [<-|[<-|[<-|[<-|[<-|[]]]]]].
  - eapply no_fix3 with (n := Z.to_nat 1431655765); [done|lia|apply F]. rewrite Z2Nat.id by lia. reflexivity.
  - eapply no_fix5 with (n := Z.to_nat 858993459); [done|lia|apply F]. rewrite Z2Nat.id by lia. reflexivity.
  - eapply no_fix17 with (n := Z.to_nat 252645135); [done|lia|apply F]. rewrite Z2Nat.id by lia. reflexivity.
  - eapply no_fix257 with (n := Z.to_nat 16711935); [done|lia|apply F]. rewrite Z2Nat.id by lia. reflexivity.
  - eapply no_fix65537 with (n := Z.to_nat 65535); [done|lia|apply F]. rewrite Z2Nat.id by lia. reflexivity.
Qed.

Lemma iterx_inj n x y : w32 x -> w32 y -> iterx n x = iterx n y -> x = y.
Proof.
  intros Hx Hy. induction n as [|n IH]; [done|]. cbn [Nat.iter nat_rect]. intros E. apply IH.
  apply xorshift_inj; [by apply iterx_w32|by apply iterx_w32|done].
Qed.
Lemma iterx_nonzero n x : w32 x -> x <> 0 -> iterx n x <> 0.
Proof. intros Hx H0. induction n as [|n IH]; [done|]. cbn [Nat.iter nat_rect]. apply xorshift_nonzero; [by apply iterx_w32|done]. Qed.
Lemma iterx_distinct x i j : w32 x -> x <> 0 -> (i < j)%nat -> Z.of_nat j < period -> iterx i x <> iterx j x.
Proof.
  intros Hx H0 Hij Hj E. replace j with (i + (j - i))%nat in E by lia. rewrite iterx_add in E.
  apply iterx_inj in E; [|done|by apply iterx_w32]. symmetry in E. revert E. apply min_period; [done|done|lia].
Qed.
Lemma nodup_map_seq (f : nat -> Z) n : forall a, (forall i j, (a <= i < j)%nat -> (j < a + n)%nat -> f i <> f j) ->
  List.NoDup (map f (seq a n)).
Proof.
  induction n as [|n IH]; intros a H; cbn [seq map]; constructor.
  - intros Hin. apply in_map_iff in Hin as (j & E & Hj). apply in_seq in Hj. apply (H a j); [lia|lia|done].
  - apply IH. intros i j Hij Hj. apply H; lia.
Qed.
Lemma all_reached x y : w32 x -> x <> 0 -> w32 y -> y <> 0 -> exists n, Z.of_nat n < period /\ iterx n x = y.
Proof.
  intros Hx H0 Hy Hy0.
  assert (exists N, Z.of_nat N = period) as [N HN] by (exists (Z.to_nat period); unfold period; lia).
  assert (I : incl (map Z.of_nat (seq 1 N)) (map (fun i => iterx i x) (seq 0 N))).
  { apply NoDup_length_incl.
    - apply nodup_map_seq. intros i j Hij Hj. apply iterx_distinct; [done|done|lia|lia].
    - rewrite !map_length, !seq_length. lia.
    - intros z Hz. apply in_map_iff in Hz as (i & <- & Hi).
      pose proof (iterx_w32 i x Hx) as W. pose proof (iterx_nonzero i x Hx H0) as NZ. unfold w32, period in *.
      apply in_map_iff. exists (Z.to_nat (iterx i x)). split; [lia|]. apply in_seq. lia. }
  assert (Hin : In y (map Z.of_nat (seq 1 N))).
  { apply in_map_iff. exists (Z.to_nat y). unfold w32, period in *. split; [lia|]. apply in_seq. lia. }
  apply I, in_map_iff in Hin as (n & E & Hn). apply in_seq in Hn. exists n. split; [lia|done].
Qed.

Lemma full_period x : 0 < x < 2 ^ 32 ->
  (forall n, Z.of_nat n = 2 ^ 32 - 1 -> iterx n x = x) /\
  (forall n, 0 < Z.of_nat n < 2 ^ 32 - 1 -> iterx n x <> x) /\
  (forall y, 0 < y < 2 ^ 32 -> exists n, Z.of_nat n < 2 ^ 32 - 1 /\ iterx n x = y).
Proof.
  intros Hx. assert (W : w32 x) by (unfold w32; lia). split; [intros; by apply pow_period|]. split; [intros; apply min_period; [done|lia|done]|].
  intros y Hy. apply all_reached; unfold w32; lia.
Qed.

(** ** The bytes delivered *)
Lemma byte_shift k m v : k = 8 * Z.of_nat m -> wrap 8 (Z.shiftr v k) = v / 256 ^ Z.of_nat m mod 256.
Proof. intros ->. unfold wrap. change (2 ^ 8) with 256. f_equal. rewrite Z.shiftr_div_pow2 by lia. f_equal. rewrite Z.pow_mul_r by lia. done. Qed.
Lemma rng_byte_step n pool j : (4 <= n)%nat -> rng_byte n pool (4 + j) = rng_byte (n - 4) (xorshift32 pool) j.
Proof.
  intros Hn. unfold rng_byte. replace ((4 + j) / 4)%nat with (S (j / 4)) by (replace (4 + j)%nat with (j + 1 * 4)%nat by lia; rewrite Nat.div_add by lia; lia).
  replace ((4 + j) mod 4)%nat with (j mod 4)%nat by (replace (4 + j)%nat with (j + 1 * 4)%nat by lia; by rewrite Nat.mod_add by lia).
  replace (n - 4 * S (j / 4))%nat with (n - 4 - 4 * (j / 4))%nat by lia.
  f_equal. f_equal. rewrite Nat.iter_succ_r. done.
Qed.
Lemma shift_seq4 n : seq 4 n = map (fun j => (4 + j)%nat) (seq 0 n).
Proof. rewrite <- (seq_shift n 3), <- (seq_shift n 2), <- (seq_shift n 1), <- (seq_shift n 0), !map_map. done. Qed.
Lemma rng_loop_bytes fuel : forall c pool, (0 < c <= fuel)%nat -> w32 pool ->
  exists bs, rng_loop fuel c pool = Ok (bs, O, iterx ((c + 3) / 4) pool) /\ bs = map (rng_byte c pool) (seq 0 c).
Proof.
  induction fuel as [|fuel IH]; intros c pool Hc Hp; [lia|]. cbn [rng_loop].
  assert (B : forall k m, k = 8 * Z.of_nat m -> wrap 8 (Z.shiftr pool k) = pool / 256 ^ Z.of_nat m mod 256) by (intros; by apply byte_shift).
  destruct c as [|[|[|[|c]]]]; [lia|..].
  1-3: eexists; split; [reflexivity|]; cbn [seq map rng_byte]; unfold rng_byte; cbn [Nat.div Nat.modulo Nat.divmod fst snd Nat.sub Nat.mul Nat.add Nat.min Nat.iter nat_rect];
    rewrite ?(B 0 0%nat), ?(B 8 1%nat), ?(B 16 2%nat) by done; reflexivity.
  cbn [rng_chunk]. destruct c as [|c].
  { eexists; split; [reflexivity|]. cbn [seq map]. unfold rng_byte. cbn [Nat.div Nat.modulo Nat.divmod fst snd Nat.sub Nat.mul Nat.add Nat.min Nat.iter nat_rect].
    rewrite (B 0 0%nat), (B 8 1%nat), (B 16 2%nat), (B 24 3%nat) by done. reflexivity. }
  cbn [Nat.ltb Nat.leb]. destruct (IH (S c) (xorshift32 pool)) as (bs & E & ->); [lia|by apply xorshift_w32|].
  rewrite E. cbn [rbind]. eexists. split.
  - do 2 f_equal. rewrite <- Nat.iter_succ_r. f_equal.
    replace (S (S (S (S (S c)))) + 3)%nat with (S c + 3 + 1 * 4)%nat by lia. rewrite Nat.div_add by lia. lia.
  - change (S (S (S (S (S c))))) with (4 + S c)%nat. rewrite seq_app, map_app. change (0 + 4)%nat with 4%nat. f_equal.
    + cbn [seq map]. unfold rng_byte. cbn [Nat.div Nat.modulo Nat.divmod fst snd Nat.mul Nat.add Nat.iter nat_rect].
      rewrite !(Nat.min_l 4) by lia. cbn [Nat.sub].
      rewrite (B 0 0%nat), (B 8 1%nat), (B 16 2%nat), (B 24 3%nat) by done. reflexivity.
    + rewrite shift_seq4, map_map. apply map_ext. intros j. symmetry. apply (rng_byte_step (4 + S c)). lia.
Qed.
Lemma rng_read_bytes n pool : w32 pool -> (0 < n)%nat ->
  rng_read n pool = Ok (Z.of_nat n, map (rng_byte n pool) (seq 0 n), iterx ((n + 3) / 4) pool).
Proof.
  intros Hp Hn. destruct n as [|n]; [lia|]. unfold rng_read. destruct (rng_loop_bytes (S n) (S n) pool) as (bs & E & ->); [lia|done|].
  rewrite E. cbn [rbind]. by rewrite Z.sub_0_r.
Qed.
