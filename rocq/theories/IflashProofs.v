(** IflashProofs.v - proofs about IflashModel.v. *)
From Verif Require Import Base IflashModel IflashSpec.

Lemma drop_0' {A} (l : list A) : drop 0 l = l. Proof. reflexivity. Qed.
Lemma load_buf_spec data : forall buf off i, 0 <= off -> off mod 512 + Z.of_nat (length data) <= 512 -> 0 <= i < 512 ->
  load_buf buf off data i = if (off mod 512 <=? i) && (i <? off mod 512 + Z.of_nat (length data)) then nth (Z.to_nat (i - off mod 512)) data 255 else buf i.
Proof.
  induction data as [|b data IH]; intros buf off i Ho Hl Hi.
  - cbn [load_buf length]. destruct (Z.leb_spec (off mod 512) i), (Z.ltb_spec i (off mod 512 + Z.of_nat 0)); try reflexivity. lia.
  - cbn [load_buf]. cbn [length] in *. rewrite Nat2Z.inj_succ in *. pose proof (Z.mod_pos_bound off 512 ltac:(lia)) as Hm.
    destruct data as [|b2 data].
    + cbn [load_buf length]. destruct (Z.eqb_spec i (off mod 512)) as [->|E].
      * rewrite Z.leb_refl. destruct (Z.ltb_spec (off mod 512) (off mod 512 + Z.succ (Z.of_nat 0))); [|lia]. cbn [andb]. rewrite Z.sub_diag. reflexivity.
      * destruct (Z.leb_spec (off mod 512) i), (Z.ltb_spec i (off mod 512 + Z.succ (Z.of_nat 0))); try reflexivity. lia.
    + assert (E : (off + 1) mod 512 = off mod 512 + 1).
      { cbn [length] in Hl. rewrite Z.add_mod by lia. change (1 mod 512) with 1. apply Z.mod_small. lia. }
      rewrite IH by (rewrite ?E; lia). rewrite E.
      destruct (Z.eqb_spec i (off mod 512)) as [->|En].
      * destruct (Z.leb_spec (off mod 512 + 1) (off mod 512)); [lia|]. rewrite Z.leb_refl. cbn [andb].
        destruct (Z.ltb_spec (off mod 512) (off mod 512 + Z.succ (Z.of_nat (length (b2 :: data))))); [|lia]. rewrite Z.sub_diag. reflexivity.
      * destruct (Z.leb_spec (off mod 512 + 1) i), (Z.leb_spec (off mod 512) i); try lia; cbn [andb]; try reflexivity.
        destruct (Z.ltb_spec i (off mod 512 + 1 + Z.of_nat (length (b2 :: data)))), (Z.ltb_spec i (off mod 512 + Z.succ (Z.of_nat (length (b2 :: data))))); try lia; try reflexivity.
        replace (Z.to_nat (i - off mod 512)) with (S (Z.to_nat (i - (off mod 512 + 1)))) by lia. reflexivity.
Qed.
Lemma unit_div len off a : 0 < len -> off mod len = 0 -> (a / len =? off / len) = (off <=? a) && (a <? off + len).
Proof.
  intros Hl Ho. pose proof (Z.div_mod off len ltac:(lia)) as E. rewrite Ho, Z.add_0_r in E.
  destruct (Z.eqb_spec (a / len) (off / len)) as [Q|Q].
  - pose proof (Z.div_mod a len ltac:(lia)). pose proof (Z.mod_pos_bound a len Hl). rewrite Q in *.
    destruct (Z.leb_spec off a), (Z.ltb_spec a (off + len)); try reflexivity; lia.
  - destruct (Z.leb_spec off a), (Z.ltb_spec a (off + len)); try reflexivity. exfalso. apply Q.
    symmetry. apply (Z.div_unique_pos _ _ _ (a - off)); lia.
Qed.
(** One program command does what [prog] says. *)
Lemma program_prog m buf len off data : is_bytes m -> same buf empty_buf -> 0 <= off -> (len = 16 \/ len = 512) -> off mod len = 0 -> Z.of_nat (length data) = len ->
  same (program_unit m (load_buf buf off data) len off) (prog m off data).
Proof.
  intros Hm Hb Ho Hl Hmod Hn a. unfold program_unit, prog. rewrite unit_div by lia. rewrite Hn.
  destruct (Z.leb_spec off a), (Z.ltb_spec a (off + len)); cbn [andb]; try reflexivity.
  f_equal.
  assert (Hd : exists q, 512 = len * q /\ 0 < q). { destruct Hl as [-> | ->]; [exists 32|exists 1]; lia. }
  destruct Hd as (q & Hq & Hq0).
  assert (Hr : off mod 512 + len <= 512).
  { pose proof (Z.mod_pos_bound off 512 ltac:(lia)). assert (K : (off mod 512) mod len = 0).
    { rewrite Hq. rewrite Z.rem_mul_r by lia. rewrite Hmod. rewrite Z.add_0_l, Z.mul_comm, Z.mod_mul by lia. reflexivity. }
    pose proof (Z.div_mod (off mod 512) len ltac:(lia)). nia. }
  pose proof (Z.mod_pos_bound off 512 ltac:(lia)) as Hp. 
  assert (Ea : a mod 512 = off mod 512 + (a - off)).
  { rewrite <- (Z.mod_small (off mod 512 + (a - off)) 512) by lia. rewrite Z.add_mod_idemp_l by lia. f_equal. lia. }
  pose proof (Z.mod_pos_bound a 512 ltac:(lia)).
  rewrite load_buf_spec by lia. rewrite Ea, Hn.
  destruct (Z.leb_spec (off mod 512) (off mod 512 + (a - off))); [|lia]. destruct (Z.ltb_spec (off mod 512 + (a - off)) (off mod 512 + len)); [|lia]. cbn [andb].
  f_equal. f_equal. lia.
Qed.
Lemma nth_take {A} (d : A) l n i : (i < n)%nat -> nth i (take n l) d = nth i l d.
Proof. revert n i. induction l as [|x l IH]; intros [|n] [|i] H; try reflexivity; try lia. cbn. apply IH. lia. Qed.
Lemma nth_drop {A} (d : A) l n i : nth i (drop n l) d = nth (n + i) l d.
Proof. revert n. induction l as [|x l IH]; intros [|n]; try reflexivity. { destruct i; reflexivity. } cbn. apply IH. Qed.
Lemma prog_split m off data k : (k <= length data)%nat -> same (prog (prog m off (take k data)) (off + Z.of_nat k) (drop k data)) (prog m off data).
Proof.
  intros Hk a. unfold prog. rewrite take_length, drop_length. replace (k `min` length data)%nat with k by lia.
  destruct (Z.leb_spec (off + Z.of_nat k) a), (Z.ltb_spec a (off + Z.of_nat k + Z.of_nat (length data - k))), (Z.leb_spec off a), (Z.ltb_spec a (off + Z.of_nat k)), (Z.ltb_spec a (off + Z.of_nat (length data))); cbn [andb]; try reflexivity; try lia.
  - f_equal. rewrite nth_drop. f_equal. lia.
  - f_equal. apply nth_take. lia.
Qed.
Lemma prog_bytes m off data : is_bytes m -> Forall (fun b => 0 <= b < 256) data -> is_bytes (prog m off data).
Proof.
  intros Hm Hd a. unfold prog. specialize (Hm a). destruct (Z.leb_spec off a), (Z.ltb_spec a (off + Z.of_nat (length data))); cbn [andb]; try exact Hm.
  assert (Hx : 0 <= nth (Z.to_nat (a - off)) data 255 < 256).
  { rewrite Forall_forall in Hd. apply Hd. apply elem_of_list_In. apply nth_In. lia. }
  split; [apply Z.land_nonneg; lia|].
  rewrite <- (Z.land_ones_low (nth (Z.to_nat (a - off)) data 255) 8).
  - rewrite Z.land_assoc. rewrite Z.land_ones by lia. apply Z.mod_pos_bound. lia.
  - lia.
  - destruct (Z.eq_dec (nth (Z.to_nat (a - off)) data 255) 0) as [->|]; [rewrite Z.log2_nonpos; lia|]. apply Z.log2_lt_pow2; lia.
Qed.
Lemma prog_ext m m' off data : same m m' -> same (prog m off data) (prog m' off data).
Proof. intros H a. unfold prog. rewrite (H a). reflexivity. Qed.

Lemma prog_nil m off : same m (prog m off []).
Proof. intros a. unfold prog. cbn [length]. destruct (Z.leb_spec off a), (Z.ltb_spec a (off + Z.of_nat 0)); try reflexivity. lia. Qed.
(** ** SAME5x, write *)
Definition chunk (off n : Z) : Z := if (off mod 512 =? 0) && (512 <=? n) then 512 else if (off mod 16 =? 0) && (16 <=? n) then 16 else 0.
(** The states a write goes through. *)
Definition s_inv (size : Z) (m : mem) (off : Z) (data : list Z) (s : sctx * nvm) : Prop :=
  seul s.1 = 512 /\ nsize s.2 = size /\ same (nbuf s.2) empty_buf /\ (forall i, nlocked s.2 i = false) /\ nerr s.2 = false /\
  same (nmem s.2) (if sbusy s.1 then prog m off (take (Z.to_nat (chunk off (Z.of_nat (length data)))) data) else m).
Definition fits (off n : Z) : Prop := off mod 16 = 0 /\ n mod 16 = 0 /\ (off mod 512 = 0 \/ n < 1024 - off mod 512).
Lemma chunk_pos off n : fits off n -> 0 < n -> chunk off n = 16 \/ chunk off n = 512.
Proof.
  intros (H1 & H2 & H3) Hn. unfold chunk. destruct ((off mod 512 =? 0) && (512 <=? n)); [right; reflexivity|]. left.
  rewrite (proj2 (Z.eqb_eq _ _) H1). cbn [andb]. destruct (Z.leb_spec 16 n) as [|C]; [reflexivity|]. rewrite Z.mod_small in H2 by lia. lia.
Qed.
Lemma chunk_le off n : 0 <= n -> chunk off n <= n.
Proof. intros Hn. unfold chunk. destruct (off mod 512 =? 0), (Z.leb_spec 512 n), (off mod 16 =? 0), (Z.leb_spec 16 n); cbn [andb]; lia. Qed.
Lemma mod16 off : (off mod 512) mod 16 = off mod 16.
Proof. change 512 with (16 * 32). rewrite Z.rem_mul_r by lia. rewrite Z.add_mod by lia. rewrite (Z.mul_comm 16), Z.mod_mul by lia. rewrite Z.add_0_r. rewrite !Z.mod_mod by lia. reflexivity. Qed.
Lemma fits_next off n : 0 <= off -> fits off n -> 0 < n -> fits (off + chunk off n) (n - chunk off n) /\
  (0 < n - chunk off n -> chunk off (n - chunk off n) = chunk (off + chunk off n) (n - chunk off n)).
Proof.
  intros Ho F Hn. pose proof (chunk_pos off n F Hn) as Hc. pose proof (chunk_le off n ltac:(lia)) as Hle. destruct F as (F1 & F2 & F3).
  assert (G1 : (off + chunk off n) mod 16 = 0 /\ (n - chunk off n) mod 16 = 0).
  { destruct Hc as [-> | ->].
    - change 16 with (1 * 16) at 1 3. rewrite Z.mod_add by lia. rewrite <- (Z.mod_add (n - 1 * 16) 1) by lia. replace (n - 1 * 16 + 1 * 16) with n by lia. split; assumption.
    - change 512 with (32 * 16). rewrite Z.mod_add by lia. rewrite <- (Z.mod_add (n - 32 * 16) 32) by lia. replace (n - 32 * 16 + 32 * 16) with n by lia. split; assumption. }
  destruct G1 as [G1 G2].
  destruct (Z.eq_dec (off mod 512) 0) as [E0|E0].
  - destruct (Z.leb_spec 512 n) as [H512|H512].
    + assert (Ec : chunk off n = 512) by (unfold chunk; rewrite E0; destruct (Z.leb_spec 512 n); [reflexivity|lia]). rewrite Ec in *.
      assert (E1 : (off + 512) mod 512 = 0) by (change 512 with (1 * 512) at 1; rewrite Z.mod_add by lia; exact E0).
      split; [split; [exact G1|split; [exact G2|left; exact E1]]|]. intros _. unfold chunk. rewrite E0, E1, F1, G1. reflexivity.
    + assert (Ec : chunk off n = 16). { destruct Hc as [Hc|Hc]; [exact Hc|]. lia. } rewrite Ec in *.
      assert (E1 : (off + 16) mod 512 = 16). { rewrite Z.add_mod by lia. rewrite E0. reflexivity. }
      split; [split; [exact G1|split; [exact G2|right; lia]]|]. intros Hp. unfold chunk. rewrite E0, E1, F1, G1. destruct (Z.leb_spec 512 (n - 16)); [lia|]. reflexivity.
  - destruct F3 as [F3|F3]; [lia|].
    assert (Ec : chunk off n = 16). { destruct Hc as [Hc|Hc]; [exact Hc|]. unfold chunk in Hc. rewrite (proj2 (Z.eqb_neq _ _) E0) in Hc. cbn [andb] in Hc. destruct ((off mod 16 =? 0) && (16 <=? n)); lia. }
    rewrite Ec in *. pose proof (Z.mod_pos_bound off 512 ltac:(lia)). pose proof (mod16 off) as M. rewrite F1 in M.
    assert (K : off mod 512 <= 496). { pose proof (Z.div_mod (off mod 512) 16 ltac:(lia)). lia. }
    destruct (Z.eq_dec (off mod 512) 496) as [Ex|Ex].
    + assert (E1 : (off + 16) mod 512 = 0) by (rewrite Z.add_mod by lia; rewrite Ex; reflexivity).
      split; [split; [exact G1|split; [exact G2|left; exact E1]]|]. intros Hp. unfold chunk. rewrite E1, F1, G1. rewrite (proj2 (Z.eqb_neq _ _) E0). cbn [andb Z.eqb]. destruct (Z.leb_spec 512 (n - 16)); [lia|]. reflexivity.
    + assert (E1 : (off + 16) mod 512 = off mod 512 + 16). { rewrite Z.add_mod by lia. change (16 mod 512) with 16. apply Z.mod_small. pose proof (Z.div_mod (off mod 512) 16 ltac:(lia)). lia. }
      split; [split; [exact G1|split; [exact G2|right; lia]]|]. intros Hp. unfold chunk. rewrite E1, F1, G1. rewrite (proj2 (Z.eqb_neq _ _) E0). rewrite (proj2 (Z.eqb_neq (off mod 512 + 16) 0)) by lia. reflexivity.
Qed.
(** A command on an idle controller. *)
Lemma s_idle size m k off data n c h cmd : is_bytes m -> 0 <= off + k -> off + k < size -> (n = 16 /\ cmd = WQW \/ n = 512 /\ cmd = WP) -> (off + k) mod n = 0 -> n <= Z.of_nat (length (drop (Z.to_nat k) data)) ->
  nsize h = size -> same (nbuf h) empty_buf -> (forall i, nlocked h i = false) -> nerr h = false -> same (nmem h) m ->
  exists c1 h1, same5x_write_idle cmd (off + k) (drop (Z.to_nat k) data) (Z.to_nat n) c h = (c1, h1, FEAGAIN) /\ sbusy c1 = true /\ seul c1 = seul c /\
    nsize h1 = size /\ same (nbuf h1) empty_buf /\ (forall i, nlocked h1 i = false) /\ nerr h1 = false /\ same (nmem h1) (prog m (off + k) (take (Z.to_nat n) (drop (Z.to_nat k) data))).
Proof.
  intros Hm H0 Hs Hn Hmod Hl Es Hb Hk He Hmm. unfold same5x_write_idle. cbv zeta. eexists _, _. split; [reflexivity|]. unfold ncommand. cbn [nsize nlocked]. rewrite Es, (proj2 (Z.ltb_lt _ _) Hs). cbn [negb]. rewrite Hk.
  assert (E4 : (Z.to_nat n / 4 * 4)%nat = Z.to_nat n) by (destruct Hn as [[-> _]|[-> _]]; reflexivity).
  assert (Hlen : Z.of_nat (length (take (Z.to_nat n) (drop (Z.to_nat k) data))) = n) by (rewrite take_length; lia).
  rewrite E4. split; [reflexivity|]. split; [reflexivity|].
  destruct Hn as [[-> ->]|[-> ->]]; cbn [nsize nbuf nlocked nerr nmem];
  (split; [reflexivity|split; [intros i; reflexivity|split; [exact Hk|split; [exact He|]]]]).
  - intros a. rewrite <- (program_prog m (nbuf h) 16 (off + k) _ Hm Hb H0 (or_introl eq_refl) Hmod Hlen a). unfold program_unit. rewrite (Hmm a). reflexivity.
  - intros a. rewrite <- (program_prog m (nbuf h) 512 (off + k) _ Hm Hb H0 (or_intror eq_refl) Hmod Hlen a). unfold program_unit. rewrite (Hmm a). reflexivity.
Qed.
Lemma chunk_cases off n : fits off n -> 0 < n -> (chunk off n = 16 /\ (off mod 512 =? 0) && (512 <=? n) = false /\ (off mod 16 =? 0) && (16 <=? n) = true \/ chunk off n = 512 /\ (off mod 512 =? 0) && (512 <=? n) = true).
Proof.
  intros F Hn. pose proof (chunk_pos off n F Hn) as Hc. unfold chunk in *. destruct ((off mod 512 =? 0) && (512 <=? n)); [right; split; reflexivity|].
  destruct ((off mod 16 =? 0) && (16 <=? n)); [left; repeat split; reflexivity|]. lia.
Qed.
Lemma chunk_mod off n : fits off n -> 0 < n -> off mod chunk off n = 0.
Proof.
  intros F Hn. destruct (chunk_cases off n F Hn) as [(-> & _)|[-> E]]; [exact (proj1 F)|]. apply andb_true_iff in E. apply Z.eqb_eq, E.
Qed.
(** The first iteration of the loop on an idle controller. *)
Lemma s_loop_idle size m fuel off data k n c h : is_bytes m -> 0 <= k -> 0 <= off -> off + k + n <= size -> 0 < n -> n = Z.of_nat (length data) - k ->
  fits off n -> (off + k) mod (chunk off n) = 0 ->
  seul c = 512 -> sbusy c = false -> nsize h = size -> same (nbuf h) empty_buf -> (forall i, nlocked h i = false) -> nerr h = false -> same (nmem h) m ->
  exists c1 h1, same5x_loop (S fuel) off data k n c h = (c1, h1, if k =? 0 then FEAGAIN else k) /\ sbusy c1 = true /\ seul c1 = 512 /\
    nsize h1 = size /\ same (nbuf h1) empty_buf /\ (forall i, nlocked h1 i = false) /\ nerr h1 = false /\ same (nmem h1) (prog m (off + k) (take (Z.to_nat (chunk off n)) (drop (Z.to_nat k) data))).
Proof.
  intros Hm Hk Ho Hs Hn En F Hmod Eu Eb Es Hb Hl He Hmm. pose proof (chunk_le off n ltac:(lia)) as Hle.
  cbn [same5x_loop]. rewrite (proj2 (Z.eqb_neq n 0)) by lia. rewrite Eu.
  assert (Hd : Z.of_nat (length (drop (Z.to_nat k) data)) = n) by (rewrite drop_length; lia).
  destruct (chunk_cases off n F Hn) as [(E1 & E2 & E3)|[E1 E2]].
  - rewrite E2, E3. unfold same5x_write_data. rewrite Eb. change (16 <=? 0) with false. cbv iota.
    destruct (s_idle size m k off data 16 c h WQW Hm ltac:(lia) ltac:(lia) ltac:(left; split; reflexivity) ltac:(rewrite <- E1; exact Hmod) ltac:(lia) Es Hb Hl He Hmm) as (c1 & h1 & R & A & B & C).
    rewrite R. change (FEAGAIN <? 0) with true. cbv iota. exists c1, h1. rewrite E1. split; [reflexivity|]. split; [exact A|]. split; [congruence|exact C].
  - rewrite E2. unfold same5x_write_data. rewrite Eb. change (512 <=? 0) with false. cbv iota.
    destruct (s_idle size m k off data 512 c h WP Hm ltac:(lia) ltac:(lia) ltac:(right; split; reflexivity) ltac:(rewrite <- E1; exact Hmod) ltac:(lia) Es Hb Hl He Hmm) as (c1 & h1 & R & A & B & C).
    rewrite R. change (FEAGAIN <? 0) with true. cbv iota. exists c1, h1. rewrite E1. split; [reflexivity|]. split; [exact A|]. split; [congruence|exact C].
Qed.
(** One call of flash_write. *)
Lemma s_write_step size m off data s s' r : is_bytes m -> 0 <= off -> off + Z.of_nat (length data) <= size -> data <> [] ->
  Forall (fun b => 0 <= b < 256) data -> fits off (Z.of_nat (length data)) -> s_inv size m off data s -> s_write off data s = (s', r) ->
  (r = FEAGAIN /\ s_inv size m off data s') \/
  (r = chunk off (Z.of_nat (length data)) /\ s_inv size (prog m off (take (Z.to_nat r) data)) (off + r) (drop (Z.to_nat r) data) s').
Proof.
  intros Hm Ho Hs Hd HF F (Eu & Es & Hb & Hl & He & Hmm) H. destruct s as [c h]. cbn [fst snd] in *.
  unfold s_write, same5x_write in H. cbn [fst snd] in H. set (n := Z.of_nat (length data)) in *.
  assert (Hn : 0 < n) by (destruct data; [contradiction|subst n; cbn [length]; lia]).
  destruct (Z.leb_spec n 0); [lia|].
  assert (H4 : n mod 4 = 0). { destruct F as (_ & F2 & _). pose proof (Z.div_mod n 16 ltac:(lia)) as E. rewrite F2, Z.add_0_r in E. rewrite E. replace (16 * (n / 16)) with (4 * (n / 16) * 4) by lia. apply Z.mod_mul. lia. }
  rewrite H4 in H. change (negb (0 =? 0)) with false in H. cbv iota in H.
  destruct (sbusy c) eqn:Eb.
  - (* busy *)
    cbn [same5x_loop] in H. rewrite (proj2 (Z.eqb_neq n 0)) in H by lia. rewrite Eu in H. rewrite Z.add_0_r in H. change (Z.to_nat 0) with 0%nat in H. rewrite drop_0' in H.
    assert (HW : forall cmd, same5x_write_data cmd off data (chunk off n) c h = run_cmd_busy (chunk off n) c h).
    { intros cmd. unfold same5x_write_data. rewrite Eb. destruct (chunk_pos off n F Hn) as [-> | ->]; reflexivity. }
    assert (H' : (let '(c1, h1, res) := run_cmd_busy (chunk off n) c h in if res <? 0 then (c1, h1, if 0 =? 0 then res else 0) else same5x_loop (length data) off data (0 + res) (n - res) c1 h1) = (s', r)).
    { rewrite <- H. destruct (chunk_cases off n F Hn) as [(E1 & E2 & E3)|[E1 E2]].
      - rewrite E2, E3. rewrite E1 in *. rewrite (HW WQW). reflexivity.
      - rewrite E2. rewrite E1 in *. rewrite (HW WP). reflexivity. }
    clear H HW. unfold run_cmd_busy in H'. cbv zeta in H'. cbn [nerr npolls] in H'.
    destruct (match npolls h with [] => true | b :: _ => b end).
    + cbn [negb] in H'. rewrite He in H'. pose proof (chunk_pos off n F Hn) as Hc. pose proof (chunk_le off n ltac:(lia)) as Hle.
      destruct (Z.ltb_spec (chunk off n) 0); [lia|]. rewrite Z.add_0_l in H'.
      right. assert (Hm' : is_bytes (prog m off (take (Z.to_nat (chunk off n)) data))) by (apply prog_bytes; [exact Hm|apply Forall_take; exact HF]).
      destruct (fits_next off n Ho F Hn) as [F' Ec].
      assert (Hlen : Z.of_nat (length (drop (Z.to_nat (chunk off n)) data)) = n - chunk off n) by (rewrite drop_length; lia).
      destruct (length data) as [|fuel] eqn:Ef; [subst n; cbn in Hn; lia|].
      destruct (Z.eq_dec (n - chunk off n) 0) as [E0|E0].
      * cbn [same5x_loop] in H'. rewrite (proj2 (Z.eqb_eq _ _) E0) in H'. injection H' as <- <-.
        split; [reflexivity|]. unfold s_inv. cbn [fst snd seul sbusy nsize nbuf nlocked nerr nmem]. split; [exact Eu|]. split; [exact Es|]. split; [exact Hb|]. split; [exact Hl|]. split; [reflexivity|]. exact Hmm.
      * assert (Hp : 0 < n - chunk off n) by lia. specialize (Ec Hp).
        edestruct (s_loop_idle size (prog m off (take (Z.to_nat (chunk off n)) data)) fuel off data (chunk off n) (n - chunk off n)) as (c1 & h1 & R & A & B & C & D & G & I & J); cycle -1.
        { rewrite H' in R. injection R as -> ->. rewrite (proj2 (Z.eqb_neq (chunk off n) 0)) in * by lia.
          split; [reflexivity|]. unfold s_inv. cbn [fst snd]. split; [exact B|]. split; [exact C|]. split; [exact D|]. split; [exact G|]. split; [exact I|]. rewrite A. rewrite Hlen. rewrite <- Ec. exact J. }
        1: exact Hm'. 1: lia. 1: exact Ho. 1: lia. 1: exact Hp. 1: (subst n; lia).
        { destruct F' as (_ & Fa & _). destruct F as (Fb & _ & Fc). split; [exact Fb|]. split; [exact Fa|]. destruct Fc; [left; assumption|right; lia]. }
        { rewrite Ec. apply chunk_mod; assumption. }
        all: cbn [seul sbusy nsize nbuf nlocked nerr nmem]; try assumption; try reflexivity.
    + cbn [negb] in H'. change (FEAGAIN <? 0) with true in H'. cbv iota in H'. injection H' as <- <-. left. split; [reflexivity|].
      unfold s_inv. cbn [fst snd nsize nbuf nlocked nerr nmem]. rewrite Eb. split; [exact Eu|]. split; [exact Es|]. split; [exact Hb|]. split; [exact Hl|]. split; [exact He|]. exact Hmm.
  - edestruct (s_loop_idle size m (length data) off data 0 n c h) as (c1 & h1 & R & A & B & C & D & G & I & J); cycle -1.
    { rewrite R in H. injection H as <- <-. left. split; [reflexivity|]. unfold s_inv. cbn [fst snd]. rewrite A. rewrite Z.add_0_r in J. change (Z.to_nat 0) with 0%nat in J. rewrite drop_0' in J. 
      split; [exact B|]. split; [exact C|]. split; [exact D|]. split; [exact G|]. split; [exact I|]. exact J. }
    all: try assumption; try lia. rewrite Z.add_0_r. apply chunk_mod; assumption.
Qed.
Lemma s_write_all size : forall fuel m off data s s' r, is_bytes m -> 0 <= off -> off + Z.of_nat (length data) <= size -> Forall (fun b => 0 <= b < 256) data ->
  fits off (Z.of_nat (length data)) -> s_inv size m off data s -> (data = [] -> sbusy s.1 = false) -> write_all s_write fuel off data s = (s', Some r) -> r = 0 /\ same (nmem s'.2) (prog m off data).
Proof.
  induction fuel as [|fuel IH]; intros m off data s s' r Hm Ho Hs HF F I0 Hnil H.
  - cbn [write_all] in H. destruct data as [|b data]; [|discriminate H]. injection H as <- <-. split; [reflexivity|]. destruct I0 as (_ & _ & _ & _ & _ & I0). rewrite (Hnil eq_refl) in I0.
    intros a. rewrite (I0 a). unfold prog. cbn [length]. destruct (Z.leb_spec off a), (Z.ltb_spec a (off + Z.of_nat 0)); try reflexivity. lia.
  - destruct data as [|b data].
    + cbn [write_all] in H. injection H as <- <-. split; [reflexivity|]. destruct I0 as (_ & _ & _ & _ & _ & I0). rewrite (Hnil eq_refl) in I0.
      intros a. rewrite (I0 a). unfold prog. cbn [length]. destruct (Z.leb_spec off a), (Z.ltb_spec a (off + Z.of_nat 0)); try reflexivity. lia.
    + cbn [write_all] in H. set (data' := b :: data) in *. destruct (s_write off data' s) as [s1 r1] eqn:E.
      assert (Hn : 0 < Z.of_nat (length data')) by (subst data'; cbn [length]; lia).
      destruct (s_write_step size m off data' s s1 r1 Hm Ho Hs ltac:(discriminate) HF F I0 E) as [[-> I1]|[-> I1]].
      * change (FEAGAIN =? FEAGAIN) with true in H. cbv iota in H. apply (IH m off data' s1 s' r Hm Ho Hs HF F I1); [discriminate|exact H].
      * pose proof (chunk_pos off _ F Hn) as Hc. pose proof (chunk_le off (Z.of_nat (length data')) ltac:(lia)) as Hle. set (k := chunk off (Z.of_nat (length data'))) in *.
        rewrite (proj2 (Z.eqb_neq k FEAGAIN)) in H by (unfold FEAGAIN; lia). destruct (Z.ltb_spec k 0); [lia|].
        assert (Hlen : Z.of_nat (length (drop (Z.to_nat k) data')) = Z.of_nat (length data') - k) by (rewrite drop_length; lia).
        apply (IH (prog m off (take (Z.to_nat k) data'))) in H.
        -- destruct H as [-> H]. split; [reflexivity|]. intros a. rewrite (H a). replace k with (Z.of_nat (Z.to_nat k)) at 2 by lia. apply prog_split. lia.
        -- apply prog_bytes; [exact Hm|apply Forall_take; exact HF].
        -- lia.
        -- lia.
        -- apply Forall_drop, HF.
        -- rewrite Hlen. apply fits_next; assumption.
        -- exact I1.
        -- (* nothing left: the driver is idle *)
           intros Enil. clear IH H I1. assert (Ek : k = Z.of_nat (length data')) by (rewrite Enil in Hlen; cbn [length] in Hlen; lia).
           clear - E Ek I0 Hn F Ho. unfold s_write, same5x_write in E. destruct s as [c h]. cbn [fst snd] in *. destruct I0 as (Eu & _ & _ & _ & He & _). cbn [fst snd] in *.
           set (n := Z.of_nat (length data')) in *. destruct (Z.leb_spec n 0); [lia|].
           destruct (negb (n mod 4 =? 0)); [apply (f_equal snd) in E; cbn [snd] in E; exfalso; unfold FEINVAL in E; lia|].
           cbn [same5x_loop] in E. rewrite (proj2 (Z.eqb_neq n 0)) in E by lia. rewrite Eu in E. rewrite Z.add_0_r in E. change (Z.to_nat 0) with 0%nat in E. rewrite drop_0' in E.
           assert (HW : exists cmd, (let '(c1, h1, res) := same5x_write_data cmd off data' k c h in if res <? 0 then (c1, h1, if 0 =? 0 then res else 0) else same5x_loop (length data') off data' (0 + res) (n - res) c1 h1) = (s1, k)).
           { destruct (chunk_cases off n F Hn) as [(E1 & E2 & E3)|[E1 E2]]; fold k in E1; rewrite E1 in *.
             - exists WQW. rewrite E2, E3 in E. exact E.
             - exists WP. rewrite E2 in E. exact E. }
           clear E. destruct HW as [cmd E]. unfold same5x_write_data in E. destruct (Z.leb_spec k 0); [lia|].
           destruct (sbusy c).
           ++ unfold run_cmd_busy in E. cbv zeta in E. cbn [nerr npolls] in E. destruct (match npolls h with [] => true | b0 :: _ => b0 end); cbn [negb] in E.
              ** rewrite He in E. destruct (Z.ltb_spec k 0); [lia|]. rewrite <- Ek in E. rewrite Z.sub_diag in E. destruct (length data'); cbn [same5x_loop] in E; [injection E as <-; reflexivity|]. change (0 =? 0) with true in E. cbv iota in E. injection E as <-. reflexivity.
              ** change (FEAGAIN <? 0) with true in E. cbv iota in E. apply (f_equal snd) in E. cbn [snd] in E. exfalso. change (if 0 =? 0 then FEAGAIN else 0) with FEAGAIN in E. unfold FEAGAIN in E. lia.
           ++ unfold same5x_write_idle in E. cbv zeta in E. change (FEAGAIN <? 0) with true in E. cbv iota in E. apply (f_equal snd) in E. cbn [snd] in E. exfalso. change (if 0 =? 0 then FEAGAIN else 0) with FEAGAIN in E. unfold FEAGAIN in E. lia.
Qed.
Lemma s_write_ok : forall fuel off data s s' r, s_ready s -> 0 <= off -> off mod 16 = 0 -> Z.of_nat (length data) mod 16 = 0 -> Forall (fun b => 0 <= b < 256) data ->
  off + Z.of_nat (length data) <= stotal s.1 -> off mod 512 = 0 \/ Z.of_nat (length data) < 1024 - off mod 512 ->
  write_all s_write fuel off data s = (s', Some r) -> r = 0 /\ same (nmem s'.2) (prog (nmem s.2) off data).
Proof.
  intros fuel off data s s' r (R1 & R2 & R3 & R4 & R5 & R6 & R7) Ho M1 M2 HF Hs HC H. rewrite R3 in Hs.
  refine (s_write_all (nsize s.2) fuel (nmem s.2) off data s s' r R7 Ho Hs HF (conj M1 (conj M2 HC)) _ (fun _ => R1) H).
  unfold s_inv. rewrite R1. split; [exact R2|]. split; [reflexivity|]. split; [exact R4|]. split; [exact R5|]. split; [exact R6|]. intros a. reflexivity.
Qed.

(** ** SAME5x, erase *)
Lemma s_erase_ok fuel off s s' r : s_ready s -> 0 <= off -> until (s_erase off) fuel s = (s', Some r) ->
  r = 0 /\ off < stotal s.1 /\ off mod 512 = 0 /\ same (nmem s'.2) (erase_range (nmem s.2) (off / 8192 * 8192) 8192) \/
  r = FEINVAL /\ same (nmem s'.2) (nmem s.2).
Proof.
  intros (R1 & R2 & R3 & R4 & R5 & R6 & R7) Ho H. destruct s as [c h]. cbn [fst snd] in *.
  destruct (off <? stotal c) eqn:E1; [destruct (off mod seul c =? 0) eqn:E2|].
  - left. set (m := erase_range (nmem h) (off / 8192 * 8192) 8192).
    assert (K : forall fuel s1, sbusy s1.1 = true -> seul s1.1 = seul c -> stotal s1.1 = stotal c -> nerr s1.2 = false -> nmem s1.2 = m ->
      until (s_erase off) fuel s1 = (s', Some r) -> r = 0 /\ nmem s'.2 = m).
    { clear H fuel. induction fuel as [|fuel IH]; intros s1 B1 B2 B3 B4 B5 H; [discriminate H|]. cbn [until] in H. destruct (s_erase off s1) as [s2 r2] eqn:E.
      unfold s_erase, same5x_erase in E. rewrite B3, E1 in E. cbn [negb] in E. rewrite B2, E2 in E. cbn [negb] in E. unfold run_cmd in E. rewrite B1 in E. unfold run_cmd_busy in E. cbv zeta in E. cbn [nerr npolls] in E.
      destruct (match npolls s1.2 with [] => true | b :: _ => b end); cbn [negb] in E.
      - rewrite B4 in E. injection E as <- <-. change (0 =? FEAGAIN) with false in H. cbv iota in H. injection H as <- <-. split; [reflexivity|exact B5].
      - injection E as <- <-. change (FEAGAIN =? FEAGAIN) with true in H. cbv iota in H. apply IH in H; cbn [fst snd nerr nmem]; assumption. }
    destruct fuel as [|fuel]; [discriminate H|]. cbn [until] in H. destruct (s_erase off (c, h)) as [s2 r2] eqn:E.
    unfold s_erase, same5x_erase in E. cbn [fst snd] in E. rewrite E1, E2 in E. cbn [negb] in E. unfold run_cmd in E. rewrite R1 in E. injection E as <- <-.
    change (FEAGAIN =? FEAGAIN) with true in H. cbv iota in H. unfold ncommand in H. rewrite <- R3, E1 in H. cbn [negb] in H. rewrite R5 in H.
    apply K in H; cbn [fst snd sbusy seul stotal nerr nmem]; try reflexivity; try assumption. destruct H as [-> H]. split; [reflexivity|]. apply Z.ltb_lt in E1. apply Z.eqb_eq in E2. rewrite R2 in E2. split; [exact E1|]. split; [exact E2|]. intros a. rewrite H. reflexivity.
  - right. destruct fuel as [|fuel]; [discriminate H|]. cbn [until] in H. unfold s_erase, same5x_erase in H. cbn [fst snd] in H. rewrite E1, E2 in H. cbn [negb] in H. change (FEINVAL =? FEAGAIN) with false in H. cbv iota in H. injection H as <- <-. split; [reflexivity|]. intros a; reflexivity.
  - right. destruct fuel as [|fuel]; [discriminate H|]. cbn [until] in H. unfold s_erase, same5x_erase in H. cbn [fst snd] in H. rewrite E1 in H. cbn [negb] in H. change (FEINVAL =? FEAGAIN) with false in H. cbv iota in H. injection H as <- <-. split; [reflexivity|]. intros a; reflexivity.
Qed.

(** ** EEFC *)
Lemma farg_page off : 0 <= off -> off mod 8192 = 0 -> (Z.lor off 2 mod 65536) / 16 * 16 = off mod 65536.
Proof.
  intros Ho Hm. pose proof (Z.div_mod off 8192 ltac:(lia)) as E. rewrite Hm, Z.add_0_r in E.
  assert (EL : Z.lor off 2 = off + 2).
  { assert (L : Z.land off 2 = 0).
    { apply Z.bits_inj'. intros i Hi. rewrite Z.land_spec, Z.bits_0. destruct (Z.eq_dec i 1) as [->|Hne].
      - rewrite E. change 8192 with (2 ^ 13). rewrite Z.mul_comm. rewrite Z.mul_pow2_bits_low by lia. reflexivity.
      - change 2 with (2 ^ 1). rewrite Z.pow2_bits_false by lia. apply andb_false_r. }
    symmetry. apply Z.add_nocarry_lor, L. }
  rewrite EL. assert (E2 : off mod 65536 = 8192 * ((off / 8192) mod 8)). { rewrite E at 1. change 65536 with (8192 * 8). apply Z.mul_mod_distr_l; lia. }
  pose proof (Z.mod_pos_bound (off / 8192) 8 ltac:(lia)).
  assert (E3 : (off + 2) mod 65536 = off mod 65536 + 2). { rewrite Z.add_mod by lia. change (2 mod 65536) with 2. apply Z.mod_small. lia. }
  rewrite E3, E2. replace (8192 * ((off / 8192) mod 8) + 2) with (2 + 512 * ((off / 8192) mod 8) * 16) by lia. rewrite Z.div_add by lia. change (2 / 16) with 0. lia.
Qed.
Lemma e_run (call : bool * eefc -> (bool * eefc) * Z) m : (forall s, s.1 = true -> call s = (let '(h, r) := eefc_status s.2 in (false, h, r))) ->
  (forall s, s.1 = false -> ebusy s.2 = true -> exists h, call s = (true, h, FEAGAIN) /\ ebusy h = true /\ ecmde h = ecmde s.2 /\ eflocke h = eflocke s.2 /\ emem h = emem s.2) ->
  forall fuel s s' r, ebusy s.2 = true -> ecmde s.2 = false -> eflocke s.2 = false -> emem s.2 = m -> until call fuel s = (s', Some r) -> r = 0 /\ emem s'.2 = m.
Proof.
  intros Hp Hi. induction fuel as [|fuel IH]; intros s s' r B1 B2 B3 B4 H; [discriminate H|]. cbn [until] in H. destruct s as [[|] h]; cbn [fst snd] in *.
  - rewrite (Hp (true, h) eq_refl) in H. cbn [snd] in H. unfold eefc_status in H. cbv zeta in H. rewrite B1, B2, B3 in H.
    destruct (match epolls h with [] => true | b :: _ => b end).
    + cbn [orb] in H. change (0 =? FEAGAIN) with false in H. cbv iota in H. injection H as <- <-. split; [reflexivity|exact B4].
    + cbn [orb negb] in H. change (FEAGAIN =? FEAGAIN) with true in H. cbv iota in H. apply IH in H; cbn [snd ebusy ecmde eflocke emem]; try reflexivity; assumption.
  - destruct (Hi (false, h) eq_refl B1) as (h1 & E & C1 & C2 & C3 & C4). cbn [snd] in *. rewrite E in H. change (FEAGAIN =? FEAGAIN) with true in H. cbv iota in H. apply IH in H; cbn [snd]; congruence.
Qed.
Lemma e_status_err h h' r : eefc_status h = (h', r) -> ecmde h = true \/ eflocke h = true -> r < 0 /\ r <> FEAGAIN.
Proof. unfold eefc_status. cbv zeta. intros H. injection H as _ <-. intros [E|E]; rewrite E; destruct (eflocke h); unfold FEPERM, FEINVAL, FEAGAIN; lia. Qed.
Lemma e_erase_ok fuel total off s s' : e_ready s -> 0 <= off -> 0 < epages s.2 <= 8192 -> until (e_erase total off) fuel s = (s', Some 0) ->
  off mod 65536 = 0 /\ same (emem s'.2) (erase_range (emem s.2) 0 8192).
Proof.
  intros (R1 & R2 & R3 & R4 & R5 & R6) Ho Hp H. destruct s as [p h]. cbn [fst snd] in *. subst p.
  destruct (off mod 8192 =? 0) eqn:E1.
  2: { destruct fuel as [|fuel]; [discriminate H|]. cbn [until] in H. unfold e_erase, eefc_erase in H. rewrite E1 in H. cbn in H. discriminate H. }
  destruct (off <? total) eqn:E2.
  2: { destruct fuel as [|fuel]; [discriminate H|]. cbn [until] in H. unfold e_erase, eefc_erase in H. rewrite E1, E2 in H. cbn in H. discriminate H. }
  assert (A1 : forall s, s.1 = true -> e_erase total off s = (let '(h, r) := eefc_status s.2 in (false, h, r))).
  { intros [b h1] Hb. cbn [fst] in Hb. subst b. unfold e_erase, eefc_erase. rewrite E1, E2. cbn [fst snd negb]. destruct (eefc_status h1); reflexivity. }
  assert (A2 : forall s, s.1 = false -> e_erase total off s = (true, ecommand EPA (Z.lor off 2 mod 65536) s.2, FEAGAIN)).
  { intros [b h1] Hb. cbn [fst] in Hb. subst b. unfold e_erase, eefc_erase. rewrite E1, E2. reflexivity. }
  destruct fuel as [|fuel]; [discriminate H|]. cbn [until] in H. rewrite (A2 (false, h) eq_refl) in H. cbn [snd] in H. change (FEAGAIN =? FEAGAIN) with true in H. cbv iota in H.
  unfold ecommand in H. rewrite R2 in H. apply Z.eqb_eq in E1. rewrite (farg_page off Ho E1) in H. cbv zeta in H.
  assert (Bad : forall s1, s1.1 = true -> ecmde s1.2 = true \/ eflocke s1.2 = true -> until (e_erase total off) fuel s1 = (s', Some 0) -> False).
  { intros s1 B1 B2 HH. destruct fuel as [|fuel']; [discriminate HH|]. cbn [until] in HH. rewrite (A1 s1 B1) in HH. destruct (eefc_status s1.2) as [h2 r2] eqn:ES. destruct (e_status_err _ _ _ ES B2) as [N1 N2].
    rewrite (proj2 (Z.eqb_neq _ _) N2) in HH. injection HH as _ HH. lia. }
  destruct (Z.ltb_spec (off mod 65536) (epages h)) as [L|L]; cbn [negb] in H.
  2: { exfalso. refine (Bad _ _ _ H); [reflexivity|left; reflexivity]. }
  destruct (elocked h (off mod 65536)).
  { exfalso. refine (Bad _ _ _ H); [reflexivity|right; reflexivity]. }
  assert (E0 : off mod 65536 = 0).
  { pose proof (Z.div_mod off 8192 ltac:(lia)) as E. rewrite E1, Z.add_0_r in E. assert (Ex : off mod 65536 = 8192 * ((off / 8192) mod 8)) by (rewrite E at 1; change 65536 with (8192 * 8); apply Z.mul_mod_distr_l; lia).
    pose proof (Z.mod_pos_bound (off / 8192) 8 ltac:(lia)). lia. }
  rewrite E0 in H. apply (e_run (e_erase total off) (erase_range (emem h) 0 8192) A1) in H; cbn [snd eset ebusy ecmde eflocke emem]; try reflexivity; try assumption.
  - destruct H as [_ H]. split; [exact E0|]. intros a. rewrite H. reflexivity.
  - intros s1 B1 B2. exists s1.2. rewrite (A2 s1 B1). unfold ecommand. rewrite B2. repeat split; try exact B2.
Qed.
Lemma e_write_ok fuel total off data s s' : e_ready s -> 0 <= off -> 0 < epages s.2 -> until (e_write total off data) fuel s = (s', Some 0) ->
  exists buf, same (emem s'.2) (program_unit (emem s.2) buf 512 0) /\ (length data = 512%nat -> Forall (fun b => 0 <= b < 256) data -> same (emem s'.2) (prog (emem s.2) 0 data)).
Proof.
  intros (R1 & R2 & R3 & R4 & R5 & R6) Ho Hp H. destruct s as [p h]. cbn [fst snd] in *. subst p.
  set (n := Z.of_nat (length data)) in *.
  destruct (n <=? 0) eqn:E0.
  { destruct fuel as [|fuel]; [discriminate H|]. cbn [until] in H. unfold e_write, eefc_write in H. fold n in H. rewrite E0 in H. cbn in H. discriminate H. }
  destruct (off mod 512 =? 0) eqn:E1.
  2: { destruct fuel as [|fuel]; [discriminate H|]. cbn [until] in H. unfold e_write, eefc_write in H. fold n in H. rewrite E0, E1 in H. cbn in H. discriminate H. }
  destruct (off + n <? total) eqn:E2.
  2: { destruct fuel as [|fuel]; [discriminate H|]. cbn [until] in H. unfold e_write, eefc_write in H. fold n in H. rewrite E0, E1, E2 in H. cbn in H. discriminate H. }
  set (ld := fun h => mkEefc (epages h) (emem h) (load_buf (ebuf h) off (take 512 data)) (elocked h) (ecmde h) (eflocke h) (ebusy h) (epolls h)).
  assert (A1 : forall s, s.1 = true -> e_write total off data s = (let '(h, r) := eefc_status s.2 in (false, h, r))).
  { intros [b h1] Hb. cbn [fst] in Hb. subst b. unfold e_write, eefc_write. fold n. rewrite E0, E1, E2. cbn [fst snd negb]. destruct (eefc_status h1); reflexivity. }
  assert (A2 : forall s, s.1 = false -> e_write total off data s = (true, ecommand EWP 0 (ld s.2), FEAGAIN)).
  { intros [b h1] Hb. cbn [fst] in Hb. subst b. unfold e_write, eefc_write. fold n. rewrite E0, E1, E2. reflexivity. }
  destruct fuel as [|fuel]; [discriminate H|]. cbn [until] in H. rewrite (A2 (false, h) eq_refl) in H. cbn [snd] in H. change (FEAGAIN =? FEAGAIN) with true in H. cbv iota in H.
  unfold ecommand in H. cbn [ld ebusy epages elocked emem ebuf ecmde eflocke] in H. rewrite R2 in H. cbv zeta in H.
  assert (Bad : forall s1, s1.1 = true -> ecmde s1.2 = true \/ eflocke s1.2 = true -> until (e_write total off data) fuel s1 = (s', Some 0) -> False).
  { intros s1 B1 B2 HH. destruct fuel as [|fuel']; [discriminate HH|]. cbn [until] in HH. rewrite (A1 s1 B1) in HH. destruct (eefc_status s1.2) as [h2 r2] eqn:ES. destruct (e_status_err _ _ _ ES B2) as [N1 N2].
    rewrite (proj2 (Z.eqb_neq _ _) N2) in HH. injection HH as _ HH. lia. }
  destruct (Z.ltb_spec 0 (epages h)) as [L|L]; [|lia]. cbn [negb] in H.
  destruct (elocked h 0).
  { exfalso. refine (Bad _ _ _ H); [reflexivity|right; reflexivity]. }
  exists (load_buf (ebuf h) off (take 512 data)).
  apply (e_run (e_write total off data) (program_unit (emem h) (load_buf (ebuf h) off (take 512 data)) 512 (0 * 512)) A1) in H; cbn [snd eset ebusy ecmde eflocke emem]; try reflexivity; try assumption.
  - destruct H as [_ H]. split; [intros a; rewrite H; reflexivity|]. intros Hlen HF a. rewrite H.
    assert (Et : take 512 data = data) by (apply take_ge; lia). rewrite Et. apply Z.eqb_eq in E1.
    assert (Eb : forall i, 0 <= i < 512 -> load_buf (ebuf h) off data i = load_buf (ebuf h) 0 data i).
    { intros i Hi. rewrite (load_buf_spec data (ebuf h) off i Ho) by (try exact Hi; rewrite E1, Hlen; lia). rewrite (load_buf_spec data (ebuf h) 0 i) by (try exact Hi; rewrite ?Hlen; change (0 mod 512) with 0; lia). rewrite E1. change (0 mod 512) with 0. reflexivity. }
    rewrite <- (program_prog (emem h) (ebuf h) 512 0 data R6 R5 ltac:(lia) ltac:(right; reflexivity) ltac:(reflexivity) ltac:(rewrite Hlen; reflexivity) a).
    unfold program_unit. change (0 * 512) with 0. destruct (a / 512 =? 0 / 512); [|reflexivity]. f_equal. apply Eb. apply Z.mod_pos_bound. lia.
  - intros s1 B1 B2. exists (ld s1.2). rewrite (A2 s1 B1). unfold ecommand. cbn [ld ebusy]. rewrite B2. repeat split.
Qed.

(** ** GD32 *)
Lemma g_erase_ok fuel off b h s' r : b = false -> gpg h = false -> until (g_erase off) fuel (Some (b, h)) = (s', Some r) ->
  exists h', s' = Some (false, h') /\ gpg h' = false /\ gsize h' = gsize h /\ (r = 0 /\ same (gmem h') (erase_range (gmem h) off 1024) \/ r = FEINVAL /\ same (gmem h') (gmem h)).
Proof.
  intros -> Hg H.
  destruct (off <? gsize h) eqn:E1; [destruct (off mod 1024 =? 0) eqn:E2|].
  - assert (K : forall fuel h1, gpg h1 = false -> gsize h1 = gsize h -> gmem h1 = erase_range (gmem h) off 1024 -> until (g_erase off) fuel (Some (true, h1)) = (s', Some r) ->
      exists h', s' = Some (false, h') /\ gpg h' = false /\ gsize h' = gsize h /\ r = 0 /\ gmem h' = erase_range (gmem h) off 1024).
    { clear H fuel. induction fuel as [|fuel IH]; intros h1 B1 B2 B3 H; [discriminate H|]. cbn [until] in H. unfold g_erase at 1, gd32_erase in H. rewrite B2, E1, E2 in H. cbn [negb] in H. unfold gd32_erase_busy, gpoll in H.
      destruct (match gpolls h1 with [] => false | b :: _ => b end); cbn [g_lift] in H.
      - change (FEAGAIN =? FEAGAIN) with true in H. cbv iota in H. apply IH in H; cbn [gpg gsize gmem]; assumption.
      - change (0 =? FEAGAIN) with false in H. cbv iota in H. injection H as <- <-. eexists. split; [reflexivity|]. cbn [gpg gsize gmem]. split; [exact B1|]. split; [exact B2|]. split; [reflexivity|exact B3]. }
    assert (K0 : forall fuel h1, gpg h1 = false -> gsize h1 = gsize h -> gmem h1 = gmem h -> until (g_erase off) fuel (Some (false, h1)) = (s', Some r) ->
      exists h', s' = Some (false, h') /\ gpg h' = false /\ gsize h' = gsize h /\ r = 0 /\ gmem h' = erase_range (gmem h) off 1024).
    { clear H fuel. induction fuel as [|fuel IH]; intros h1 B1 B2 B3 H; [discriminate H|]. cbn [until] in H. unfold g_erase at 1, gd32_erase in H. rewrite B2, E1, E2 in H. cbn [negb] in H. unfold gd32_erase_idle, gpoll in H.
      destruct (match gpolls h1 with [] => false | b :: _ => b end); cbn [g_lift] in H.
      - change (FEAGAIN =? FEAGAIN) with true in H. cbv iota in H. apply IH in H; cbn [gpg gsize gmem]; assumption.
      - cbn [gpg] in H. rewrite B1 in H. cbn [g_lift] in H. change (FEAGAIN =? FEAGAIN) with true in H. cbv iota in H. apply K in H; cbn [gpg gsize gmem]; try assumption; try reflexivity. rewrite B3. reflexivity. }
    apply K0 in H; try assumption; try reflexivity. destruct H as (h' & -> & H1 & H2 & -> & H4). exists h'. split; [reflexivity|]. split; [exact H1|]. split; [exact H2|]. left. split; [reflexivity|]. intros a. rewrite H4. reflexivity.
  - destruct fuel as [|fuel]; [discriminate H|]. cbn [until] in H. unfold g_erase at 1, gd32_erase in H. rewrite E1, E2 in H. cbn in H. injection H as <- <-. exists h. repeat split; try assumption. right. split; [reflexivity|]. intros a; reflexivity.
  - destruct fuel as [|fuel]; [discriminate H|]. cbn [until] in H. unfold g_erase at 1, gd32_erase in H. rewrite E1 in H. cbn in H. injection H as <- <-. exists h. repeat split; try assumption. right. split; [reflexivity|]. intros a; reflexivity.
Qed.
(** After an erase that succeeded PER stays set, and no write gets anywhere. *)
Lemma g_erase_per fuel off b h s' : b = false -> until (g_erase off) fuel (Some (b, h)) = (s', Some 0) -> exists h', s' = Some (false, h') /\ gper h' = true.
Proof.
  intros -> H.
  assert (E1 : (off <? gsize h) = true). { destruct fuel as [|fuel]; [discriminate H|]. cbn [until] in H. unfold g_erase at 1, gd32_erase in H. destruct (off <? gsize h); [reflexivity|]. cbn in H. discriminate H. }
  assert (E2 : (off mod 1024 =? 0) = true). { destruct fuel as [|fuel]; [discriminate H|]. cbn [until] in H. unfold g_erase at 1, gd32_erase in H. rewrite E1 in H. destruct (off mod 1024 =? 0); [reflexivity|]. cbn in H. discriminate H. }
  assert (KN : forall fuel, until (g_erase off) fuel None = (s', Some 0) -> False).
  { intros [|f] HH; [discriminate HH|]. cbn in HH. discriminate HH. }
  assert (K : forall fuel h1, gper h1 = true -> gsize h1 = gsize h -> until (g_erase off) fuel (Some (true, h1)) = (s', Some 0) -> exists h', s' = Some (false, h') /\ gper h' = true).
  { clear H fuel. induction fuel as [|fuel IH]; intros h1 B1 B2 H; [discriminate H|]. cbn [until] in H. unfold g_erase at 1, gd32_erase in H. rewrite B2, E1, E2 in H. cbn [negb] in H. unfold gd32_erase_busy, gpoll in H.
    destruct (match gpolls h1 with [] => false | b :: _ => b end); cbn [g_lift] in H.
    - change (FEAGAIN =? FEAGAIN) with true in H. cbv iota in H. apply IH in H; cbn [gper gsize]; assumption.
    - change (0 =? FEAGAIN) with false in H. cbv iota in H. injection H as <-. eexists. split; [reflexivity|]. exact B1. }
  assert (K0 : forall fuel h1, gsize h1 = gsize h -> until (g_erase off) fuel (Some (false, h1)) = (s', Some 0) -> exists h', s' = Some (false, h') /\ gper h' = true).
  { clear H fuel. induction fuel as [|fuel IH]; intros h1 B2 H; [discriminate H|]. cbn [until] in H. unfold g_erase at 1, gd32_erase in H. rewrite B2, E1, E2 in H. cbn [negb] in H. unfold gd32_erase_idle, gpoll in H.
    destruct (match gpolls h1 with [] => false | b :: _ => b end); cbn [g_lift] in H.
    - change (FEAGAIN =? FEAGAIN) with true in H. cbv iota in H. apply IH in H; cbn [gsize]; assumption.
    - cbn [gpg] in H. destruct (gpg h1); cbn [g_lift] in H; [change (-5 =? FEAGAIN) with false in H; cbv iota in H; discriminate H|].
      change (FEAGAIN =? FEAGAIN) with true in H. cbv iota in H. apply K in H; cbn [gper gsize]; try assumption; reflexivity. }
  apply K0 in H; [exact H|reflexivity].
Qed.
Lemma g_write_per off data b h : gper h = true -> 0 < Z.of_nat (length data) < gsize h -> Z.of_nat (length data) mod 4 = 0 ->
  gd32_write off data b h = GUnspec \/ exists h', gd32_write off data b h = GRet b h' FEAGAIN /\ gmem h' = gmem h /\ gper h' = true /\ gsize h' = gsize h.
Proof.
  intros Hp Hn H4. unfold gd32_write. destruct (Z.leb_spec (Z.of_nat (length data)) 0); [lia|]. rewrite (proj2 (Z.ltb_lt _ _)) by lia. rewrite H4. cbn [negb Z.eqb]. unfold gpoll.
  destruct (match gpolls h with [] => false | b :: _ => b end).
  - right. eexists. split; [reflexivity|]. cbn [gmem gper gsize]. repeat split. exact Hp.
  - cbn [same5x_loop gd32_loop gsize galias gmem gper gpolls]. rewrite (proj2 (Z.eqb_neq _ _)) by lia. unfold gpoll. cbn [gpolls gsize galias gmem gpg gper].
    destruct (match tl (gpolls h) with [] => false | b :: _ => b end).
    + right. eexists. split; [reflexivity|]. cbn [gmem gper gsize]. repeat split. exact Hp.
    + left. unfold gstore. cbn [gper]. rewrite Hp. reflexivity.
Qed.
Lemma g_write_all_per : forall fuel off data b h s', gper h = true -> 0 < Z.of_nat (length data) < gsize h -> Z.of_nat (length data) mod 4 = 0 ->
  write_all g_write fuel off data (Some (b, h)) = (s', Some 0) -> False.
Proof.
  induction fuel as [|fuel IH]; intros off data b h s' Hp Hn H4 H.
  - destruct data; [cbn in Hn; lia|discriminate H].
  - destruct data as [|x data]; [cbn in Hn; lia|]. cbn [write_all] in H. unfold g_write at 1 in H.
    destruct (g_write_per off (x :: data) b h Hp Hn H4) as [E|(h' & E & _ & P & Q)]; rewrite E in H; cbn [g_lift] in H.
    + change (-5 =? FEAGAIN) with false in H. change (-5 <? 0) with true in H. cbv iota in H. discriminate H.
    + change (FEAGAIN =? FEAGAIN) with true in H. cbv iota in H. apply IH in H; [exact H|exact P|rewrite Q; exact Hn|exact H4].
Qed.
(** Writes alone, if addresses from 0 reach the flash. *)
Lemma g_store_ok off k data h : gper h = false -> galias h = true -> 0 <= off + k < gbase -> 0 <= k -> off + k + 4 <= gsize h -> k + 4 <= Z.of_nat (length data) ->
  exists h', gstore (off + k) (take 4 (drop (Z.to_nat k) data)) h = Some h' /\ gper h' = false /\ galias h' = true /\ gsize h' = gsize h /\ gpg h' = gpg h /\
    same (gmem h') (prog (gmem h) (off + k) (take 4 (drop (Z.to_nat k) data))).
Proof.
  intros Hp Ha Ho Hk Hs Hl. unfold gstore. rewrite Hp, Ha. destruct (Z.leb_spec gbase (off + k)); [lia|]. rewrite (proj2 (Z.leb_le _ _) Hs). cbn [andb orb].
  eexists. split; [reflexivity|]. cbn [gper galias gsize gpg gmem]. repeat split; try assumption.
  intros a. unfold prog. rewrite take_length, drop_length. replace (Z.of_nat (4 `min` (length data - Z.to_nat k))) with 4 by lia. reflexivity.
Qed.
Lemma g_loop_ok : forall fuel off data k b h, gper h = false -> galias h = true -> 0 <= off -> off + Z.of_nat (length data) <= gsize h -> gsize h <= gbase -> 0 <= k <= Z.of_nat (length data) -> k mod 4 = 0 -> Z.of_nat (length data) mod 4 = 0 ->
  (length data - Z.to_nat k < fuel)%nat ->
  exists h' k', gd32_loop fuel off data k b h = GRet b h' (if k' =? 0 then (if Z.of_nat (length data) =? 0 then 0 else FEAGAIN) else k') /\ k <= k' <= Z.of_nat (length data) /\ k' mod 4 = 0 /\
    gper h' = false /\ galias h' = true /\ gsize h' = gsize h /\ same (gmem h') (prog (gmem h) (off + k) (take (Z.to_nat (k' - k)) (drop (Z.to_nat k) data))).
Proof.
  induction fuel as [|fuel IH]; intros off data k b h Hp Ha Ho Hs Hg Hk K4 N4 Hf; [lia|]. cbn [gd32_loop].
  assert (Nil : same (gmem h) (prog (gmem h) (off + k) (take (Z.to_nat (k - k)) (drop (Z.to_nat k) data)))).
  { rewrite Z.sub_diag. exact (prog_nil _ _). }
  destruct (Z.eqb_spec k (Z.of_nat (length data))) as [->|En].
  - exists h, (Z.of_nat (length data)). split.
    { destruct (Z.of_nat (length data) =? 0) eqn:E; [apply Z.eqb_eq in E; rewrite E; reflexivity|reflexivity]. }
    repeat split; try assumption; lia.
  - unfold gpoll. destruct (match gpolls h with [] => false | b0 :: _ => b0 end).
    + eexists _, k. split; [rewrite (proj2 (Z.eqb_neq (Z.of_nat (length data)) 0)) by lia; reflexivity|]. cbn [gper galias gsize gmem]. repeat split; try assumption; lia.
    + set (h0 := mkFmc _ _ _ _ _ _).
      assert (Hk4 : k + 4 <= Z.of_nat (length data)). { pose proof (Z.div_mod k 4 ltac:(lia)). pose proof (Z.div_mod (Z.of_nat (length data)) 4 ltac:(lia)). lia. }
      destruct (g_store_ok off k data h0 Hp Ha ltac:(lia) ltac:(lia) ltac:(cbn [h0 gsize]; lia) Hk4) as (h1 & E & P1 & P2 & P3 & P4 & P5). rewrite E.
      destruct (IH off data (k + 4) b h1 P1 P2 Ho ltac:(rewrite P3; exact Hs) ltac:(rewrite P3; exact Hg) ltac:(lia) ltac:(rewrite <- (Z.mod_add k 1 4) in K4 by lia; exact K4) N4 ltac:(lia)) as (h2 & k' & R & Q1 & Q2 & Q3 & Q4 & Q5 & Q6).
      exists h2, k'. split; [exact R|]. split; [lia|]. split; [exact Q2|]. split; [exact Q3|]. split; [exact Q4|]. split; [rewrite Q5, P3; reflexivity|].
      intros a. rewrite (Q6 a). rewrite (prog_ext _ _ (off + (k + 4)) (take (Z.to_nat (k' - (k + 4))) (drop (Z.to_nat (k + 4)) data)) P5 a). cbn [h0 gmem].
      pose proof (prog_split (gmem h) (off + k) (take (Z.to_nat (k' - k)) (drop (Z.to_nat k) data)) 4) as PS. rewrite take_length, drop_length in PS. specialize (PS ltac:(lia) a).
      rewrite take_take in PS. replace (4 `min` Z.to_nat (k' - k))%nat with 4%nat in PS by lia.
      rewrite <- PS. replace (off + k + Z.of_nat 4) with (off + (k + 4)) by lia.
      rewrite skipn_firstn_comm. rewrite drop_drop. replace (Z.to_nat k + 4)%nat with (Z.to_nat (k + 4)) by lia. replace (Z.to_nat (k' - k) - 4)%nat with (Z.to_nat (k' - (k + 4))) by lia. reflexivity.
Qed.
Lemma g_write_all_ok : forall fuel off data b h s' r, gper h = false -> galias h = true -> 0 <= off -> off + Z.of_nat (length data) <= gsize h -> gsize h <= gbase -> Z.of_nat (length data) < gsize h -> Z.of_nat (length data) mod 4 = 0 ->
  write_all g_write fuel off data (Some (b, h)) = (s', Some r) ->
  r = 0 /\ exists h', s' = Some (b, h') /\ same (gmem h') (prog (gmem h) off data).
Proof.
  induction fuel as [|fuel IH]; intros off data b h s' r Hp Ha Ho Hs Hg Hn N4 H.
  - destruct data; [|discriminate H]. cbn [write_all] in H. injection H as <- <-. split; [reflexivity|]. exists h. split; [reflexivity|]. intros a. unfold prog. cbn [length]. destruct (Z.leb_spec off a), (Z.ltb_spec a (off + Z.of_nat 0)); try reflexivity. lia.
  - destruct data as [|x data].
    { cbn [write_all] in H. injection H as <- <-. split; [reflexivity|]. exists h. split; [reflexivity|]. intros a. unfold prog. cbn [length]. destruct (Z.leb_spec off a), (Z.ltb_spec a (off + Z.of_nat 0)); try reflexivity. lia. }
    cbn [write_all] in H. set (d := x :: data) in *. assert (Hd : 0 < Z.of_nat (length d)) by (subst d; cbn [length]; lia). unfold g_write at 1, gd32_write in H.
    destruct (Z.leb_spec (Z.of_nat (length d)) 0); [lia|]. rewrite (proj2 (Z.ltb_lt _ _) Hn), N4 in H. cbn [negb Z.eqb] in H. unfold gpoll in H.
    destruct (match gpolls h with [] => false | b0 :: _ => b0 end).
    + cbn [g_lift] in H. change (FEAGAIN =? FEAGAIN) with true in H. cbv iota in H. apply IH in H; cbn [gper galias gsize]; try assumption. 
    + cbn [gsize galias gmem gper gpolls] in H. set (h0 := mkFmc _ _ _ _ _ _) in H.
      destruct (g_loop_ok (S (length d)) off d 0 b h0 Hp Ha Ho Hs Hg ltac:(lia) ltac:(reflexivity) N4 ltac:(lia)) as (h1 & k & R & Q1 & Q2 & Q3 & Q4 & Q5 & Q6).
      rewrite R in H. cbn [g_lift] in H. rewrite (proj2 (Z.eqb_neq (Z.of_nat (length d)) 0)) in H by lia. rewrite Z.add_0_r, Z.sub_0_r in Q6. change (Z.to_nat 0) with 0%nat in Q6. rewrite drop_0' in Q6. cbn [h0 gmem] in Q6. cbn [h0 gsize] in Q5.
      destruct (Z.eqb_spec k 0) as [Ek|Ek]; [rewrite Ek in *; clear Ek|].
      * change (FEAGAIN =? FEAGAIN) with true in H. cbv iota in H. apply IH in H; rewrite ?Q5; try assumption. destruct H as [-> (h' & -> & H)]. split; [reflexivity|]. exists h'. split; [reflexivity|].
        intros a. rewrite (H a). apply prog_ext. intros y. rewrite (Q6 y). symmetry. exact (prog_nil _ _ y).
      * rewrite (proj2 (Z.eqb_neq k FEAGAIN)) in H by (unfold FEAGAIN; lia). destruct (Z.ltb_spec k 0); [lia|].
        assert (El : Z.of_nat (length (drop (Z.to_nat k) d)) = Z.of_nat (length d) - k) by (rewrite drop_length; lia).
        apply IH in H; rewrite ?Q5, ?El; try assumption; try lia.
        -- destruct H as [-> (h' & -> & H)]. split; [reflexivity|]. exists h'. split; [reflexivity|]. intros a. rewrite (H a). rewrite (prog_ext _ _ (off + k) (drop (Z.to_nat k) d) Q6 a). replace k with (Z.of_nat (Z.to_nat k)) at 2 by lia. apply prog_split. lia.
        -- rewrite Zminus_mod, N4, Q2. reflexivity.
Qed.
