(** CanProofs7.v - proofs for PropCan.v: bit timing. *)
From Verif Require Import Base CanModel CanSpec CanProofs.

Fixpoint upto (lo : Z) (n : nat) (g : Z -> bool) : bool := match n with O => true | S k => g lo && upto (lo + 1) k g end.
Lemma upto_spec g : forall n lo, upto lo n g = true -> forall x, lo <= x < lo + Z.of_nat n -> g x = true.
Proof.
  induction n as [|n IH]; intros lo H x Hx; [lia|]. cbn [upto] in H. apply andb_true_iff in H as [A B]. destruct (Z.eq_dec x lo) as [->|N]; [exact A|]. apply (IH (lo + 1) B). lia.
Qed.
(** What a segment function does for all prescalers up to bmax and quanta up to tmax *)
Definition seg_check (seg : Z -> Z -> option Z) (bit sample : Z -> Z) (bmax : Z) (tmin tmax lo hi slo shi : Z) : bool :=
  upto 1 (Z.to_nat bmax) (fun brp => upto tmin (Z.to_nat (tmax - tmin + 1)) (fun tq =>
    match seg brp tq with
    | Some r => (lo <=? tq) && (tq <=? hi) && (bit r =? brp * tq) && (slo * bit r <=? 100 * sample r) && (100 * sample r <=? shi * bit r)
    | None => (tq <? lo) || (hi <? tq)
    end)).
Lemma seg_check_spec seg bit sample bmax tmin tmax lo hi slo shi : seg_check seg bit sample bmax tmin tmax lo hi slo shi = true -> 0 <= bmax -> tmin <= tmax -> forall brp tq, 1 <= brp <= bmax -> tmin <= tq <= tmax ->
  match seg brp tq with
  | Some r => lo <= tq <= hi /\ bit r = brp * tq /\ sample_between slo shi (bit r) (sample r)
  | None => ~ lo <= tq <= hi
  end.
Proof.
  intros H Hb Ht brp tq Hbrp Htq. unfold seg_check in H. pose proof (upto_spec _ _ _ H brp ltac:(lia)) as H1. cbv beta in H1. pose proof (upto_spec _ _ _ H1 tq ltac:(lia)) as H2. cbv beta in H2. destruct (seg brp tq) as [r|].
  - apply andb_true_iff in H2 as [H2 E5]. apply andb_true_iff in H2 as [H2 E4]. apply andb_true_iff in H2 as [H2 E3]. apply andb_true_iff in H2 as [E1 E2]. unfold sample_between. lia.
  - lia.
Qed.
(** The loop finds a prescaler if there is one, and what it finds divides *)
Lemma bit_loop_spec seg tmin tmax freq rate err bmax : 0 < rate -> bmax * rate < 4294967296 -> forall fuel b, 1 <= b -> b + Z.of_nat fuel = bmax + 1 ->
  match bit_loop seg tmin tmax freq rate err fuel b with
  | BSet r => exists brp tq, b <= brp <= bmax /\ tmin <= tq <= tmax /\ brp * tq * rate = freq /\ seg brp tq = Some r /\ (forall b' t', b <= b' < brp -> tmin <= t' <= tmax -> b' * t' * rate = freq -> seg b' t' = None)
  | BErr e => e = err /\ forall brp tq, b <= brp <= bmax -> tmin <= tq <= tmax -> brp * tq * rate = freq -> seg brp tq = None
  | BUb => False
  end.
Proof.
  intros Hr Hm. induction fuel as [|fuel IH]; intros b Hb Hf; cbn [bit_loop]; [split; [reflexivity|]; intros; lia|]. cbv zeta.
  assert (D : u32 (b * rate) = b * rate) by (unfold u32; apply Z.mod_small; nia). rewrite D. replace (b * rate =? 0) with false by (symmetry; apply Z.eqb_neq; nia).
  specialize (IH (b + 1) ltac:(lia) ltac:(lia)).
  assert (Next : (forall tq, tmin <= tq <= tmax -> b * tq * rate = freq -> seg b tq = None) -> match bit_loop seg tmin tmax freq rate err fuel (b + 1) with
     | BSet r => exists brp tq, b <= brp <= bmax /\ tmin <= tq <= tmax /\ brp * tq * rate = freq /\ seg brp tq = Some r /\ (forall b' t', b <= b' < brp -> tmin <= t' <= tmax -> b' * t' * rate = freq -> seg b' t' = None)
     | BErr e => e = err /\ forall brp tq, b <= brp <= bmax -> tmin <= tq <= tmax -> brp * tq * rate = freq -> seg brp tq = None
     | BUb => False end).
  { intros Hn. destruct (bit_loop _ _ _ _ _ _ _ _) as [r|e|]; [|destruct IH as [-> IH]; split; [reflexivity|]|exact IH].
    - destruct IH as (brp & tq & A & B & C & E & F). exists brp, tq. split; [lia|]. split; [exact B|]. split; [exact C|]. split; [exact E|]. intros b' t' X Y Z. destruct (Z.eq_dec b' b) as [->|N]; [apply Hn; assumption|apply (F b' t'); [lia|assumption|assumption]].
    - intros brp tq A B C. destruct (Z.eq_dec brp b) as [->|N]; [apply Hn; assumption|apply IH; [lia|assumption|assumption]]. }
  assert (U : forall tq, b * tq * rate = freq -> freq mod (b * rate) = 0 /\ freq / (b * rate) = tq).
  { intros tq <-. replace (b * tq * rate) with (tq * (b * rate)) by lia. split; [apply Z.mod_mul; nia|apply Z.div_mul; nia]. }
  destruct (Z.eqb_spec (freq mod (b * rate)) 0) as [E0|E0]; cbn [negb]; [|apply Next; intros tq _ C; destruct (U tq C) as [K _]; lia].
  pose proof (Z.div_mod freq (b * rate) ltac:(nia)) as Q. rewrite E0 in Q. set (tq := freq / (b * rate)) in *.
  destruct ((tq <? tmin) || (tmax <? tq)) eqn:R; [apply Next; intros t B C; destruct (U t C) as [_ K]; lia|].
  destruct (seg b tq) as [r|] eqn:Sg; [|apply Next; intros t B C; destruct (U t C) as [_ K]; congruence].
  exists b, tq. split; [lia|]. split; [lia|]. split; [nia|]. split; [exact Sg|]. intros b' t' X. lia.
Qed.
Lemma set_bitrate_spec seg bit sample bmax tmin tmax lo hi slo shi err freq rate :
  seg_check seg bit sample bmax tmin tmax lo hi slo shi = true -> 0 <= bmax -> tmin <= lo /\ hi <= tmax /\ lo <= hi -> 0 < rate -> 0 <= freq -> bmax * rate < 4294967296 ->
  match set_bitrate seg bmax tmin tmax err freq rate with
  | BSet r => rate_ok freq rate (bit r) /\ sample_between slo shi (bit r) (sample r) /\ feasible bmax lo hi freq rate
  | BErr e => (e = err \/ e = C_EIO) /\ ~ feasible bmax lo hi freq rate
  | BUb => False
  end.
Proof.
  intros Hc Hb Hr Hrate Hf Hm. unfold set_bitrate. replace (rate <=? 0) with false by (symmetry; apply Z.leb_gt; lia). replace (freq <? 0) with false by (symmetry; apply Z.ltb_ge; lia).
  destruct (Z.eqb_spec (freq mod rate) 0) as [E0|E0]; cbn [negb].
  - pose proof (bit_loop_spec seg tmin tmax freq rate err bmax Hrate Hm (Z.to_nat bmax) 1 ltac:(lia) ltac:(lia)) as L. destruct (bit_loop _ _ _ _ _ _ _ _) as [r|e|]; [| |exact L].
    + destruct L as (brp & tq & A & B & C & D & _). pose proof (seg_check_spec _ _ _ _ _ _ _ _ _ _ Hc Hb ltac:(lia) brp tq A B) as K. rewrite D in K. destruct K as (K1 & K2 & K3). split; [unfold rate_ok; rewrite K2; exact C|]. split; [exact K3|].
      exists brp, tq. split; [exact A|]. split; [exact K1|exact C].
    + destruct L as [-> L]. split; [left; reflexivity|]. intros (brp & tq & A & B & C). pose proof (seg_check_spec _ _ _ _ _ _ _ _ _ _ Hc Hb ltac:(lia) brp tq A ltac:(lia)) as K. rewrite (L brp tq A ltac:(lia) C) in K. apply K. exact B.
  - split; [right; reflexivity|]. intros (brp & tq & A & B & C). apply E0. rewrite <- C. apply Z.mod_mul. lia.
Qed.

Lemma sam_check : seg_check sam_seg sam_bit sam_sample 128 8 25 11 19 85 93 = true. Proof. vm_compute. reflexivity. Qed.
Lemma flex_check : seg_check flex_seg flex_bit flex_sample 256 16 25 16 19 87 90 = true. Proof. vm_compute. reflexivity. Qed.
Lemma mcan_check : seg_check mcan_seg mcan_bit mcan_sample 32 1 51 14 38 85 91 = true. Proof. vm_compute. reflexivity. Qed.
Lemma dcan_check : seg_check dcan_seg dcan_bit dcan_sample 32 8 25 8 23 50 77 = true. Proof. vm_compute. reflexivity. Qed.
Lemma dcan_bitrate_spec freq rate : 0 < rate -> 0 <= freq -> 1024 * rate < 4294967296 -> feasible 32 8 23 freq rate -> exists r, dcan_bitrate freq rate = BSet r /\ rate_ok freq rate (dcan_bit r) /\ sample_between 50 77 (dcan_bit r) (dcan_sample r).
Proof.
  intros Hr Hf Hm (b0 & t0 & A0 & B0 & C0). unfold dcan_bitrate, set_bitrate. replace (rate <=? 0) with false by (symmetry; apply Z.leb_gt; lia). replace (freq <? 0) with false by (symmetry; apply Z.ltb_ge; lia).
  replace (freq mod rate =? 0) with true by (symmetry; apply Z.eqb_eq; rewrite <- C0; apply Z.mod_mul; lia). cbn [negb].
  pose proof (bit_loop_spec dcan_seg 8 25 freq rate C_EIO 1024 Hr Hm (Z.to_nat 1024) 1 ltac:(lia) ltac:(lia)) as L.
  pose proof (seg_check_spec _ _ _ _ _ _ _ _ _ _ dcan_check ltac:(lia) ltac:(lia)) as K. pose proof (K b0 t0 A0 ltac:(lia)) as K0. destruct (dcan_seg b0 t0) as [r0|] eqn:S0; [|destruct K0; exact B0].
  destruct (bit_loop _ _ _ _ _ _ _ _) as [r|e|]; [| |destruct L].
  - destruct L as (brp & tq & A & B & C & D & F). exists r. split; [reflexivity|]. assert (Hb : brp <= 32). { destruct (Z.le_gt_cases brp 32) as [H|H]; [exact H|]. exfalso. pose proof (F b0 t0 ltac:(lia) ltac:(lia) C0) as N. congruence. }
    pose proof (K brp tq ltac:(lia) B) as Q. rewrite D in Q. destruct Q as (_ & Q2 & Q3). split; [unfold rate_ok; rewrite Q2; exact C|exact Q3].
  - destruct L as [_ L]. rewrite (L b0 t0 ltac:(lia) ltac:(lia) C0) in S0. discriminate S0.
Qed.
Lemma dcan_bitrate_def freq rate : rate <= 0 \/ 1024 * rate < 4294967296 -> dcan_bitrate freq rate <> BUb.
Proof.
  intros Hm. unfold dcan_bitrate, set_bitrate. destruct (Z.leb_spec rate 0); [discriminate|]. destruct (Z.ltb_spec freq 0); [discriminate|]. destruct (negb _); [discriminate|].
  pose proof (bit_loop_spec dcan_seg 8 25 freq rate C_EIO 1024 ltac:(lia) ltac:(lia) (Z.to_nat 1024) 1 ltac:(lia) ltac:(lia)) as L. destruct (bit_loop _ _ _ _ _ _ _ _); [discriminate|discriminate|destruct L].
Qed.
