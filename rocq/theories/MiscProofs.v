(** MiscProofs.v - lemmas for C138. *)
From Verif Require Import Base MiscModel MiscSpec.

Lemma tb1 ss b : 0 <= ss -> 0 <= b -> Z.testbit (Z.shiftl 1 ss) b = (b =? ss).
Proof.
  intros S B. rewrite Z.shiftl_spec by lia. destruct (Z.eqb_spec b ss) as [->|N]; [rewrite Z.sub_diag; reflexivity|].
  destruct (Z_lt_le_dec b ss) as [L|L]; [apply Z.testbit_neg_r; lia|]. rewrite Z.bits_above_log2; [reflexivity|lia|]. change (Z.log2 1) with 0. lia.
Qed.
Lemma rr_set_ok ss r : 0 <= ss -> Z.testbit (rr_set ss r) ss = true /\ same_but ss 1 r (rr_set ss r).
Proof.
  intros S. unfold rr_set. split.
  - rewrite Z.lor_spec, tb1, Z.eqb_refl by lia. apply orb_true_r.
  - intros b B N. rewrite Z.lor_spec, tb1 by lia. destruct (Z.eqb_spec b ss); [lia|]. apply orb_false_r.
Qed.
Lemma rr_clr_ok ss r : 0 <= ss -> Z.testbit (rr_clr ss r) ss = false /\ same_but ss 1 r (rr_clr ss r).
Proof.
  intros S. unfold rr_clr. split.
  - rewrite Z.ldiff_spec, tb1, Z.eqb_refl by lia. apply andb_false_r.
  - intros b B N. rewrite Z.ldiff_spec, tb1 by lia. destruct (Z.eqb_spec b ss); [lia|]. apply andb_true_r.
Qed.
Lemma rr_land ss v : 0 <= ss -> Z.land v (Z.shiftl 1 ss) = 0 <-> Z.testbit v ss = false.
Proof.
  intros S. split; intros H.
  - assert (K : Z.testbit (Z.land v (Z.shiftl 1 ss)) ss = Z.testbit 0 ss) by (rewrite H; reflexivity). rewrite Z.land_spec, tb1, Z.eqb_refl, andb_true_r, Z.bits_0 in K by lia. exact K.
  - apply Z.bits_inj'. intros b B. rewrite Z.land_spec, tb1, Z.bits_0 by lia. destruct (Z.eqb_spec b ss) as [->|N]; [rewrite H; reflexivity|apply andb_false_r].
Qed.
Lemma rr_wait_some d : forall ss done i j, 0 <= ss -> rr_wait d ss done i = Some j -> (i <= j <= i + d)%nat /\ Z.testbit (done j) ss = true.
Proof.
  induction d as [|d IH]; intros ss done i j S H; cbn in H; destruct (Z.eqb_spec (Z.land (done i) (Z.shiftl 1 ss)) 0) as [E|E]; cbn [negb] in H.
  - discriminate H.
  - injection H as <-. split; [lia|]. destruct (Z.testbit (done i) ss) eqn:T; [reflexivity|]. apply rr_land in T; [contradiction|assumption].
  - apply IH in H as (H & T); [|assumption]. split; [lia|exact T].
  - injection H as <-. split; [lia|]. destruct (Z.testbit (done i) ss) eqn:T; [reflexivity|]. apply rr_land in T; [contradiction|assumption].
Qed.
Lemma rr_wait_none d : forall ss done i, 0 <= ss -> rr_wait d ss done i = None -> forall j, (i <= j <= i + d)%nat -> Z.testbit (done j) ss = false.
Proof.
  induction d as [|d IH]; intros ss done i S H j J; cbn in H; destruct (Z.eqb_spec (Z.land (done i) (Z.shiftl 1 ss)) 0) as [E|E]; cbn [negb] in H; try discriminate H.
  - assert (j = i) as -> by lia. apply rr_land; assumption.
  - destruct (Nat.eq_dec j i) as [->|N]; [apply rr_land; assumption|]. eapply IH; [exact S|exact H|lia].
Qed.
Lemma rr_valid_ok ss : rr_valid ss = true <-> 0 <= ss <= 24.
Proof. unfold rr_valid. rewrite andb_true_iff, Z.leb_le, Z.ltb_lt. lia. Qed.

Lemma rr_reset_ok ss r : 0 <= ss <= 24 -> exists r', rr_reset ss r = Some r' /\ Z.testbit r' ss = true /\ same_but ss 1 r r'.
Proof. intros S. unfold rr_reset. rewrite (proj2 (rr_valid_ok ss) S). eexists. split; [reflexivity|]. apply rr_set_ok. lia. Qed.
Lemma rr_unreset_ok d ss r done : 0 <= ss <= 24 ->
  (exists r' i, rr_unreset d ss r done = RDone r' i /\ Z.testbit (done i) ss = true /\ Z.testbit r' ss = false /\ same_but ss 1 r r') \/
  (exists r', rr_unreset d ss r done = RBusy r' /\ (forall i, (i <= d)%nat -> Z.testbit (done i) ss = false) /\ Z.testbit r' ss = false /\ same_but ss 1 r r').
Proof.
  intros S. unfold rr_unreset. rewrite (proj2 (rr_valid_ok ss) S). pose proof (rr_clr_ok ss r ltac:(lia)) as [C1 C2]. destruct (rr_wait d ss done 0) as [i|] eqn:W.
  - left. exists (rr_clr ss r), i. apply rr_wait_some in W as (_ & W); [auto|lia].
  - right. exists (rr_clr ss r). split; [reflexivity|]. split; [|auto]. intros i I. eapply rr_wait_none; [|exact W|]; lia.
Qed.
Lemma rr_refuses ss : ~ 0 <= ss <= 24 -> (forall r, rr_reset ss r = None) /\ forall d r done, rr_unreset d ss r done = RInval.
Proof.
  intros S. assert (V : rr_valid ss = false) by (destruct (rr_valid ss) eqn:V; [apply rr_valid_ok in V; contradiction|reflexivity]). unfold rr_reset, rr_unreset. rewrite V. auto.
Qed.
Lemma rr_init_ok ss : 0 <= ss <= 24 -> Z.testbit rr_init ss = negb (existsb (Z.eqb ss) [6; 9; 12; 13; 18; 24]).
Proof.
  intros S. assert (K : forallb (fun n => let s := Z.of_nat n in eqb (Z.testbit rr_init s) (negb (existsb (Z.eqb s) [6; 9; 12; 13; 18; 24]))) (seq 0 25) = true) by (vm_compute; reflexivity).
  rewrite forallb_forall in K. specialize (K (Z.to_nat ss)). cbv zeta in K. rewrite Z2Nat.id in K by lia. apply eqb_prop, K, in_seq. lia.
Qed.

(** Calls that are not interrupted happen one after another *)
Lemma race_whole fa fb calls : forall r, race_run fa fb (whole calls) r = fold_left (fun v (w : bool) => if w then fa v else fb v) calls r.
Proof. unfold race_run, whole. induction calls as [|w l IH]; intros r; [reflexivity|]. destruct w; cbn; apply IH. Qed.
Lemma race_lost a b r : 0 <= a -> 0 <= b -> a <> b -> Z.testbit (race_run (rr_set a) (rr_set b) [true; false; true; false] r) a = Z.testbit r a.
Proof. intros A B N. unfold race_run. cbn [fold_left race_step q_reg q_a q_b]. apply (proj2 (rr_set_ok b r B)); lia. Qed.
Lemma mx_ok ch id cxcr : 0 <= ch -> 0 <= id -> (ch <= 15 /\ id <= 127 -> exists c', mx_set ch id cxcr = Some c' /\ c' ch = id /\ forall c, c <> ch -> c' c = cxcr c) /\
  (~ (ch <= 15 /\ id <= 127) -> mx_set ch id cxcr = None).
Proof.
  intros C I. unfold mx_set. destruct (Z.ltb_spec ch 16); cbn [negb]; [|split; [lia|reflexivity]]. destruct (Z.leb_spec id 127); cbn [negb]; [|split; [lia|reflexivity]].
  split; [|lia]. intros _. eexists. split; [reflexivity|]. cbv beta. rewrite Z.eqb_refl. split.
  - change 127 with (Z.ones 7). rewrite Z.land_ones by lia. apply Z.mod_small. lia.
  - intros c N. destruct (Z.eqb_spec c ch); [contradiction|reflexivity].
Qed.
Lemma ma_mcfg_ok index ulbt mcfg : 0 <= index -> 0 <= ulbt -> (index <= 11 /\ ulbt <= 7 -> exists c', ma_mcfg index ulbt mcfg = Some c' /\ c' index = ulbt /\ forall c, c <> index -> c' c = mcfg c) /\
  (~ (index <= 11 /\ ulbt <= 7) -> ma_mcfg index ulbt mcfg = None).
Proof.
  intros C I. unfold ma_mcfg. destruct (Z.ltb_spec index 12); cbn [negb]; [|split; [lia|reflexivity]]. destruct (Z.ltb_spec ulbt 8); cbn [negb]; [|split; [lia|reflexivity]].
  split; [|lia]. intros _. eexists. split; [reflexivity|]. cbv beta. rewrite Z.eqb_refl. split.
  - change 7 with (Z.ones 3). rewrite Z.land_ones by lia. apply Z.mod_small. lia.
  - intros c N. destruct (Z.eqb_spec c index); [contradiction|reflexivity].
Qed.
Lemma land_ones_small v n : 0 <= n -> 0 <= v < 2 ^ n -> Z.land v (Z.ones n) = v.
Proof. intros N V. rewrite Z.land_ones by lia. apply Z.mod_small. assumption. Qed.
Lemma bits_spec r lo n v : 0 <= lo -> 0 <= n -> 0 <= v < 2 ^ n -> (forall b, 0 <= b < n -> Z.testbit r (b + lo) = Z.testbit v b) -> bits r lo n = v.
Proof.
  intros L N V H. unfold bits. apply Z.bits_inj'. intros b B. destruct (Z_lt_le_dec b n) as [S|S].
  - rewrite Z.mod_pow2_bits_low by lia. rewrite Z.shiftr_spec by lia. apply H. lia.
  - rewrite Z.mod_pow2_bits_high by lia. symmetry. destruct (Z.eq_dec v 0) as [->|Z0]; [apply Z.bits_0|]. apply Z.bits_above_log2; [lia|].
    apply Z.lt_le_trans with n; [apply Z.log2_lt_pow2; lia|lia].
Qed.
Lemma tb_high v n b : 0 <= v < 2 ^ n -> 0 <= n <= b -> Z.testbit v b = false.
Proof.
  intros V N. destruct (Z.eq_dec v 0) as [->|Z0]; [apply Z.bits_0|]. apply Z.bits_above_log2; [lia|]. apply Z.lt_le_trans with n; [apply Z.log2_lt_pow2; lia|lia].
Qed.
Lemma ma_can_ok msb r : 0 <= msb < 65536 -> bits (ma_can msb r) 16 16 = msb /\ same_but 16 16 r (ma_can msb r).
Proof.
  intros M. unfold ma_can. change 65535 with (Z.ones 16). rewrite land_ones_small by (try lia; exact M). split.
  - apply bits_spec; [lia|lia|exact M|]. intros b B. rewrite Z.lor_spec, Z.ldiff_spec, !Z.shiftl_spec by lia. replace (b + 16 - 16) with b by lia.
    rewrite Z.ones_spec_low by lia. cbn [negb]. rewrite andb_false_r. reflexivity.
  - intros b B N. rewrite Z.lor_spec, Z.ldiff_spec, !Z.shiftl_spec by lia. destruct (Z_lt_le_dec b 16) as [L|L].
    + rewrite (Z.testbit_neg_r (Z.ones 16)), (Z.testbit_neg_r msb) by lia. cbn [negb]. rewrite andb_true_r, orb_false_r. reflexivity.
    + rewrite Z.ones_spec_high by lia. rewrite (tb_high msb 16) by (try lia; exact M). cbn [negb]. rewrite andb_true_r, orb_false_r. reflexivity.
Qed.
Lemma ma_scfg_ok index fixed type slot scfg : 0 <= index -> 0 <= fixed -> 0 <= type -> 0 <= slot ->
  (index <= 7 /\ fixed <= 15 /\ type <= 2 /\ slot <= 511 -> exists c', ma_scfg index fixed type slot scfg = Some c' /\
     (bits (c' index) 18 4 = fixed /\ bits (c' index) 16 2 = type /\ bits (c' index) 1 9 = slot) /\ forall c, c <> index -> c' c = scfg c) /\
  (~ (index <= 7 /\ fixed <= 15 /\ type <= 2 /\ slot <= 511) -> ma_scfg index fixed type slot scfg = None).
Proof.
  intros I F T S. unfold ma_scfg. destruct (Z.ltb_spec index 8); cbn [negb]; [|split; [lia|reflexivity]]. destruct (Z.leb_spec fixed 15); cbn [negb]; [|split; [lia|reflexivity]].
  destruct (Z.ltb_spec type 3); cbn [negb]; [|split; [lia|reflexivity]]. destruct (Z.leb_spec slot 511); cbn [negb]; [|split; [lia|reflexivity]].
  split; [|lia]. intros _. eexists. split; [reflexivity|]. cbv beta. rewrite Z.eqb_refl. split; [|intros c N; destruct (Z.eqb_spec c index); [contradiction|reflexivity]].
  change 15 with (Z.ones 4). change 3 with (Z.ones 2). change 511 with (Z.ones 9).
  rewrite (land_ones_small fixed 4), (land_ones_small type 2), (land_ones_small slot 9) by (change (2 ^ 4) with 16; change (2 ^ 2) with 4; change (2 ^ 9) with 512; lia).
  assert (F' : 0 <= fixed < 2 ^ 4) by (change (2 ^ 4) with 16; lia). assert (T' : 0 <= type < 2 ^ 2) by (change (2 ^ 2) with 4; lia). assert (S' : 0 <= slot < 2 ^ 9) by (change (2 ^ 9) with 512; lia).
  split; [|split]; (apply bits_spec; [lia|lia|assumption|]); intros b B; rewrite !Z.lor_spec, !Z.shiftl_spec by lia.
  - replace (b + 18 - 18) with b by lia. rewrite (tb_high type 2), (tb_high slot 9) by (assumption || lia). rewrite !orb_false_r. reflexivity.
  - rewrite (Z.testbit_neg_r fixed) by lia. replace (b + 16 - 16) with b by lia. rewrite (tb_high slot 9) by (assumption || lia). rewrite orb_false_r. reflexivity.
  - rewrite (Z.testbit_neg_r fixed), (Z.testbit_neg_r type) by lia. replace (b + 1 - 1) with b by lia. reflexivity.
Qed.
