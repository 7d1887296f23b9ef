(** PropAdc.v - C127: scaling; C128: each value is of the own channel; C129: reads end; C130: channels of the PIC32; C131: clocks;
    C132: slots of TI type 4; C133: sequence and results of the STM32H7. *)
From Verif Require Import Base AdcModel AdcSpec AdcProofs AdcProofs2 AdcProofs3 AdcProofs4 AdcProofs5.

Lemma raw_only raw v : scaled raw cal_init v -> v = raw.
Proof.
  intros H. apply (scaled_unique raw cal_init); [exact H|]. exists raw. cbn [c_mul c_div c_off cal_init]. split; [lia|]. split; [lia|]. nia.
Qed.
Lemma const_ok : sig_ok 32 31 sig_const.
Proof. split; [vm_compute; reflexivity|]. intros c t. unfold sig_const. pose proof (Z.land_ones c 5 ltac:(lia)) as E. change (Z.ones 5) with 31 in E. rewrite E. pose proof (Z.mod_pos_bound c (2 ^ 5) ltac:(lia)). change (2 ^ 5) with 32 in *. lia. Qed.
Lemma const_ok16 : sig_ok 16 31 sig_const.
Proof. split; [vm_compute; reflexivity|]. apply const_ok. Qed.
Lemma clock_ok w : 11 <= w -> sig_ok w 1023 sig_clock.
Proof.
  intros Hw. split; [assert (P : 2 ^ 10 <= 2 ^ (w - 1)) by (apply Z.pow_le_mono_r; lia); change (2 ^ 10) with 1024 in P; lia|].
  intros c t. unfold sig_clock. pose proof (Z.land_ones (Z.of_nat t) 10 ltac:(lia)) as E. change (Z.ones 10) with 1023 in E. rewrite E. pose proof (Z.mod_pos_bound (Z.of_nat t) (2 ^ 10) ltac:(lia)). change (2 ^ 10) with 1024 in *. lia.
Qed.

(** * C127: what adc_read puts into data is the raw value times multiplier over divider, rounded towards zero, plus offset *)
Theorem C127_scaling_partial : forall w hi raw c, 0 < w -> hi < 2 ^ (w - 1) -> 0 <= raw <= hi -> cal_ok w hi c ->
  exists v, give w raw c = AData v /\ scaled raw c v /\ forall v', scaled raw c v' -> v' = v.
Proof.
  intros w hi raw c Hw Hh Hr Hc. destruct (give_ok w hi raw c Hw Hh Hr Hc) as (v & E & S). exists v. split; [exact E|]. split; [exact S|]. intros v' S'. exact (scaled_unique raw c v' v S' S).
Qed.
Print Assumptions C127_scaling_partial.
Example C127_runs : cal_ok 32 4095 (mkCal 3300 4095 (-10)) /\ give 32 2048 (mkCal 3300 4095 (-10)) = AData 1640.
Proof. split; [split; vm_compute; congruence|vm_compute; reflexivity]. Qed.
(** Before adc_setup it is the raw value. *)
Theorem C127_identity : forall w raw, 0 < w -> 0 <= raw < 2 ^ (w - 1) -> give w raw cal_init = AData raw.
Proof.
  intros w raw Hw Hr. assert (C : 1 * raw + 0 < 2 ^ (w - 1)) by lia.
  unfold give, scale. cbv zeta. rewrite to_int_id by lia. cbn [c_mul c_div c_off cal_init]. rewrite Z.mul_1_r. rewrite (proj2 (fits_iff w raw)) by lia. cbn [negb Z.eqb]. rewrite Z.quot_1_r. rewrite (proj2 (fits_iff w raw)) by lia. cbn [negb].
  rewrite Z.add_0_r. rewrite (proj2 (fits_iff w raw)) by lia. reflexivity.
Qed.
Print Assumptions C127_identity.
(** A divider of 0 is accepted, and the next reading is undefined. *)
Theorem C127_divider_refuted : fst (adc_setup (mkCal 1 0 0) cal_init) = 0 /\ forall w raw, 0 < w -> give w raw (snd (adc_setup (mkCal 1 0 0) cal_init)) = AUb.
Proof. split; [reflexivity|]. intros w raw _. unfold give, scale. cbn [snd adc_setup c_mul c_div c_off Z.eqb]. destruct (fits w _); reflexivity. Qed.
Print Assumptions C127_divider_refuted.
(** Millivolts on AVR: the result is an int, what is in between is not. *)
Theorem C127_overflow_refuted : scaled 1023 (mkCal 5000 1023 0) 5000 /\ fits 16 5000 = true /\ give 16 1023 (mkCal 5000 1023 0) = AUb.
Proof. split; [exists 5000; cbn [c_mul c_div c_off]; lia|]. split; vm_compute; reflexivity. Qed.
Print Assumptions C127_overflow_refuted.
(** 16-bit converters, 16-bit int. *)
Theorem C127_negative_refuted : give 16 40000 cal_init = AData (-25536) /\ scaled 40000 cal_init 40000.
Proof. split; [vm_compute; reflexivity|exists 40000; cbn [c_mul c_div c_off cal_init]; lia]. Qed.
Print Assumptions C127_negative_refuted.

(** * C128: the data adc_read gives are of the channel of its context, converted after they were asked for *)
(** One converter (AVR, tinyAVR, RP2040, SAME5x), reads one at a time. *)
Theorem C128_seq_partial : forall d sig hi mux muxb l evs pre i o post cur, sig_ok (bits1 d) hi sig -> ctxs_ok1 d hi l -> (d = Avr -> Z.testbit mux 4 = false) -> calls_ok l evs ->
  trace1 d sig 0 evs (init1 mux muxb false l) = pre ++ (ERead i, o) :: post -> one_at_a_time 0 None pre = Some cur -> (cur = None \/ exists t, cur = Some (i, t)) ->
  o = ARet (- A_EAGAIN) \/ exists v t p, o = AData v /\ l !! i = Some p /\ ((match cur with Some (_, t0) => t0 | None => length pre end) <= t <= length pre)%nat /\ scaled (sig (fst p) t) (snd p) v.
Proof. exact seq1. Qed.
Print Assumptions C128_seq_partial.
Example C128_seq_runs : forall d, trace1 d sig_const 0 [ERead 0; EDone; ERead 0; ERead 1; EDone; ERead 1] (init1 0 0 false two) =
  [(ERead 0, ARet (-11)); (EDone, ANone); (ERead 0, AData 1); (ERead 1, ARet (-11)); (EDone, ANone); (ERead 1, AData 2)].
Proof. intros d. destruct d; vm_compute; reflexivity. Qed.
Example C128_seq_hyps : forall d, sig_ok (bits1 d) 31 sig_const /\ ctxs_ok1 d 31 two /\ calls_ok two [ERead 0; EDone; ERead 0; ERead 1; EDone; ERead 1] /\
  one_at_a_time 0 None (trace1 d sig_const 0 [ERead 0; EDone; ERead 0; ERead 1; EDone] (init1 0 0 false two)) = Some (Some (1%nat, 3%nat)).
Proof.
  intros d. split; [destruct d; first [exact const_ok|exact const_ok16]|]. split.
  - apply Forall_cons. split; [|apply Forall_cons; split; [|apply Forall_nil; exact I]]; (split; [destruct d; reflexivity|]; split; [destruct d; split; vm_compute; congruence|intros _; left; reflexivity]).
  - split; [repeat (apply Forall_cons; split; [vm_compute; reflexivity || exact I|]); apply Forall_nil; exact I|destruct d; vm_compute; reflexivity].
Qed.
(** AVR: the channels the multiplexer is set right for: 0..7 and 40..47 of 0..61. *)
Theorem C128_avr_mux_partial : forall m mb ch s, Z.testbit m 4 = false -> 0 <= ch <= 61 -> (input1 Avr (avr_set_mux ch (k_set_mux s m mb)) = ch <-> ch < 8 \/ 40 <= ch < 48).
Proof. exact avr_mux_right. Qed.
Print Assumptions C128_avr_mux_partial.
Theorem C128_avr_mux_refuted : chan_ok1 Avr 30 = true /\ forall s, Z.testbit (k_mux s) 4 = false -> input1 Avr (avr_set_mux 30 s) = 46.
Proof.
  split; [reflexivity|]. intros s H. pose proof (avr_input (k_mux s) (k_muxb s) 30 s H) as E. destruct s; exact E.
Qed.
Print Assumptions C128_avr_mux_refuted.
(** Two tasks, each polling its own channel: one gets the value of the other. *)
Definition mix (d : drv1) : list aev := match d with Avr | TinyAvr => [ERead 0; EDone; ERead 1] | Rp2040 => [ERead 0; ERead 1; EDone; ERead 1] | SamE5 => [ERead 0; EDone; ERead 1; EDone; ERead 0] end.
Theorem C128_two_tasks_refuted : forall d, wrong_channel sig_const two (trace1 d sig_const 0 (mix d) (init1 0 0 false two)).
Proof.
  intros d. destruct d.
  - exists 1%nat, 1, (2, cal_init). split; [vm_compute; tauto|]. split; [reflexivity|]. intros t K. apply raw_only in K. discriminate K.
  - exists 1%nat, 1, (2, cal_init). split; [vm_compute; tauto|]. split; [reflexivity|]. intros t K. apply raw_only in K. discriminate K.
  - exists 1%nat, 1, (2, cal_init). split; [vm_compute; tauto|]. split; [reflexivity|]. intros t K. apply raw_only in K. discriminate K.
  - exists 0%nat, 2, (1, cal_init). split; [vm_compute; tauto|]. split; [reflexivity|]. intros t K. apply raw_only in K. discriminate K.
Qed.
Print Assumptions C128_two_tasks_refuted.
(** AVR, auto trigger: even one at a time, a conversion under way when the multiplexer is switched is taken for the new channel. *)
Theorem C128_auto_refuted : let tr := trace1 Avr sig_const 0 [ERead 0; ETrig; EDone; ERead 0; ETrig; ERead 1; EDone; ERead 1] (init1 0 0 true two) in
  one_at_a_time 0 None tr = Some None /\ wrong_channel sig_const two tr.
Proof. cbv zeta. split; [vm_compute; reflexivity|]. exists 1%nat, 1, (2, cal_init). split; [vm_compute; tauto|]. split; [reflexivity|]. intros t K. apply raw_only in K. discriminate K. Qed.
Print Assumptions C128_auto_refuted.
(** Scanning converters with a register for each channel (NXP SAR, AFEC, PIC32, RA4): any interleaving; every value is of the own
    channel, from a conversion later than the one before. *)
Theorem C128_scan : forall d sig hi cont soft l i ch c evs, d <> Sam3x -> sig_ok 32 hi sig -> cut_ok d hi -> ctxs_ok2 hi l -> l !! i = Some (ch, c) ->
  let tr := trace2 d sig 0 evs (init2 d cont soft l) in
  (exists ts, increasing ts /\ Forall (fun t => (t < length evs)%nat) ts /\ Forall2 (fun t v => scaled (sig ch t) c v) ts (datas i tr)) /\
  forall o, In (ERead i, o) tr -> o = ARet (- A_EAGAIN) \/ exists v, o = AData v.
Proof.
  intros d sig hi cont soft l i ch c evs Hd Hs Hcut Hok Hi. cbv zeta.
  assert (Hc : cal_ok 32 hi c). { unfold ctxs_ok2 in Hok. rewrite Forall_forall in Hok. apply (Hok (ch, c)). apply elem_of_list_lookup_2 in Hi. exact Hi. }
  destruct (trace2_own d sig hi i ch c Hd Hs Hcut Hc evs 0 None (init2 d cont soft l) Hi (inv2_init d sig cont soft l ch Hd)) as (ts & T1 & T2 & T3 & T4).
  split; [|exact T4]. exists ts. split; [exact T1|]. split; [|exact T3]. eapply Forall_impl; [exact T2|]. intros t (_ & H). exact H.
Qed.
Print Assumptions C128_scan.
(** RA4, one context for each channel: the conversion is begun after the data were asked for. *)
Theorem C128_ra4_fresh : forall sig hi l i ch c evs pre v post, sig_ok 32 hi sig -> ctxs_ok2 hi l -> NoDup (map fst l) -> l !! i = Some (ch, c) ->
  trace2 Ra4 sig 0 evs (init2 Ra4 false false l) = pre ++ (ERead i, AData v) :: post ->
  exists t, (match begun i 0 None pre with Some b => b | None => length pre end <= t < length pre)%nat /\ scaled (sig ch t) c v.
Proof.
  intros sig hi l i ch c evs pre v post Hs Hok Hnd Hi E.
  assert (Hc : cal_ok 32 hi c). { unfold ctxs_ok2 in Hok. rewrite Forall_forall in Hok. apply (Hok (ch, c)). apply elem_of_list_lookup_2 in Hi. exact Hi. }
  exact (ra4_fresh sig hi i ch c l Hs Hc Hnd Hi evs 0 None (init2 Ra4 false false l) eq_refl (inv4_init sig l ch) pre v post E).
Qed.
Print Assumptions C128_ra4_fresh.
Lemma two_ok2 : ctxs_ok2 31 two.
Proof. apply Forall_cons. split; [split; [cbn; lia|split; vm_compute; congruence]|]. apply Forall_cons. split; [split; [cbn; lia|split; vm_compute; congruence]|]. apply Forall_nil. exact I. Qed.
Example C128_scan_runs : sig_ok 32 31 sig_const /\ ctxs_ok2 31 two /\ NoDup (map fst two) /\ forall d, d <> Sam3x ->
  exists n, datas 1 (trace2 d sig_const 0 [ERead 0; ERead 1; EDone; ERead 1; ERead 0; EDone; ERead 1; ERead 0; EDone; ERead 1] (init2 d false true two)) = 2 :: repeat 2 n.
Proof.
  split; [exact const_ok|]. split; [exact two_ok2|]. split; [repeat (constructor; [cbn; set_solver|]); constructor|].
  intros d Hd. destruct d; try congruence; first [exists 0%nat; vm_compute; reflexivity|exists 1%nat; vm_compute; reflexivity|exists 2%nat; vm_compute; reflexivity].
Qed.
(** NXP SAR, AFEC, PIC32: a scan is for all; the channel that was not asked for keeps its value until it is. *)
Theorem C128_stale_refuted : forall d, d = Nxp \/ d = Afec \/ d = Pic32 ->
  stale sig_clock two (trace2 d sig_clock 0 [ERead 0; EDone; ERead 0; ETrig; ETrig; ETrig; ERead 1] (init2 d false true two)).
Proof.
  intros d Hd. exists [(ERead 0, ARet (-11)); (EDone, ANone); (ERead 0, AData 0); (ETrig, ANone); (ETrig, ANone); (ETrig, ANone)], 1%nat, 0, [], (2, cal_init).
  split; [destruct Hd as [->|[->| ->]]; vm_compute; reflexivity|]. split; [reflexivity|]. cbn [begun length Nat.eqb]. intros t Ht K. assert (t = 6%nat) as -> by lia. apply raw_only in K. discriminate K.
Qed.
Print Assumptions C128_stale_refuted.
(** SAM3X: there is data before anything was converted. *)
Theorem C128_sam3x_refuted : wrong_channel sig_const two (trace2 Sam3x sig_const 0 [ERead 0] (init2 Sam3x false false two)).
Proof. exists 0%nat, 0, (1, cal_init). split; [vm_compute; tauto|]. split; [reflexivity|]. intros t K. apply raw_only in K. discriminate K. Qed.
Print Assumptions C128_sam3x_refuted.

(** * C129: once the conversions asked for have ended, adc_read gives the data *)
Theorem C129_seq_partial : forall d sig hi mux muxb l evs cur i, sig_ok (bits1 d) hi sig -> ctxs_ok1 d hi l -> (d = Avr -> Z.testbit mux 4 = false) -> calls_ok l evs ->
  one_at_a_time 0 None (trace1 d sig 0 evs (init1 mux muxb false l)) = Some cur -> (cur = None \/ exists t, cur = Some (i, t)) -> is_some (l !! i) = true ->
  exists v, In (ERead i, AData v) (trace1 d sig (length evs) [ERead i; EDone; ERead i] (run1 d sig 0 evs (init1 mux muxb false l))).
Proof.
  intros d sig hi mux muxb l evs cur i Hs Hk Hm Hv Ho Hc Hi. destruct (l !! i) as [p|] eqn:Hp; [|discriminate Hi].
  pose proof (run1_inv d sig hi l Hs Hk evs 0 None _ cur (inv1_init d sig mux muxb l Hm) Hv Ho) as HI. exact (progress1 d sig hi l _ _ i p cur Hs Hk HI Hp Hc).
Qed.
Print Assumptions C129_seq_partial.
Theorem C129_scan_partial : forall d sig hi cont soft l evs i, d <> Sam3x -> sig_ok 32 hi sig -> cut_ok d hi -> ctxs_ok2 hi l -> is_some (l !! i) = true ->
  match d with Nxp | Ra4 => cont = false | Pic32 => soft = true | _ => True end ->
  exists v, In (ERead i, AData v) (trace2 d sig (length evs) [ERead i; EDone; ERead i; EDone; ERead i] (run2 d sig 0 evs (init2 d cont soft l))).
Proof.
  intros d sig hi cont soft l evs i Hd Hs Hcut Hok Hi Hm. destruct (l !! i) as [(ch, c)|] eqn:Hp; [|discriminate Hi].
  assert (Hc : cal_ok 32 hi c). { unfold ctxs_ok2 in Hok. rewrite Forall_forall in Hok. apply (Hok (ch, c)). apply elem_of_list_lookup_2 in Hp. exact Hp. }
  pose proof (run2_inv d sig hi l ch Hd Hs Hcut Hok evs 0 (init2 d cont soft l) eq_refl (inv2_init d sig cont soft l ch Hd)) as HI.
  apply (progress2 d sig hi _ i ch c _ Hd Hs Hcut Hc HI); [rewrite run2_ctx; exact Hp|].
  destruct (run2_cfg d sig evs 0 (init2 d cont soft l)) as (A & B). rewrite A, B. destruct d; exact Hm.
Qed.
Print Assumptions C129_scan_partial.
Example C129_runs : cut_ok Nxp 31 /\ cut_ok Pic32 31. Proof. split; cbn; lia. Qed.
(** RA4 in continuous mode: there is never any data, whatever happens. *)
Theorem C129_ra4_wrong : forall sig soft l evs i v, ~ In (ERead i, AData v) (trace2 Ra4 sig 0 evs (init2 Ra4 true soft l)).
Proof. intros sig soft l evs. apply ra4_cont_never; [reflexivity|]. right. reflexivity. Qed.
Print Assumptions C129_ra4_wrong.
(** NXP SAR in scan mode: nothing starts the scan. *)
Theorem C129_nxp_wrong : forall sig soft l evs i v, ~ In (ERead i, AData v) (trace2 Nxp sig 0 evs (init2 Nxp true soft l)).
Proof. intros sig soft l evs. apply nxp_scan_never; reflexivity. Qed.
Print Assumptions C129_nxp_wrong.
(** SAME5x: two tasks; the one whose conversion the other took waits for ever, whatever inputs and times are. *)
Theorem C129_same5x_refuted : forall sig evs v, Forall (fun e => match e with ERead j => j = 1%nat | _ => True end) evs ->
  ~ In (ERead 1%nat, AData v) (trace1 SamE5 sig 0 ([ERead 0; EDone; ERead 1; EDone; ERead 0] ++ evs) (init1 0 0 false two)).
Proof.
  intros sig evs v H K. cbn [app] in K. 
  set (s0 := init1 0 0 false two) in K.
  assert (C : forall l n s, trace1 SamE5 sig n ([ERead 0; EDone; ERead 1; EDone; ERead 0] ++ l) s = trace1 SamE5 sig n [ERead 0; EDone; ERead 1; EDone; ERead 0] s ++ trace1 SamE5 sig (5 + n) l (run1 SamE5 sig n [ERead 0; EDone; ERead 1; EDone; ERead 0] s)).
  { intros l n s. cbn [app trace1 run1]. destruct (step1 SamE5 sig n (ERead 0) s) as (s1, o1). destruct (step1 SamE5 sig (S n) EDone s1) as (s2, o2) eqn:E2. cbn [fst]. rewrite E2. cbn [fst].
    destruct (step1 SamE5 sig (S (S n)) (ERead 1) s2) as (s3, o3) eqn:E3. cbn [fst]. destruct (step1 SamE5 sig (S (S (S n))) EDone s3) as (s4, o4) eqn:E4. cbn [fst].
    destruct (step1 SamE5 sig (S (S (S (S n)))) (ERead 0) s4) as (s5, o5) eqn:E5. cbn [fst]. reflexivity. }
  change (ERead 0 :: EDone :: ERead 1 :: EDone :: ERead 0 :: evs) with ([ERead 0; EDone; ERead 1; EDone; ERead 0] ++ evs) in K. rewrite C in K. clear C. apply in_app_or in K. destruct K as [K|K].
  - subst s0. assert (X : existsb (fun x => match x with (ERead 1, AData _) => true | _ => false end) (trace1 SamE5 sig 0 [ERead 0; EDone; ERead 1; EDone; ERead 0] (init1 0 0 false two)) = false) by (vm_compute; reflexivity).
    apply not_true_iff_false in X. apply X. apply existsb_exists. eexists. split; [exact K|reflexivity].
  - revert K. apply (same_stuck sig 1 evs _ _ (mkC1 2 true cal_init)); try exact H; try reflexivity.
Qed.
Print Assumptions C129_same5x_refuted.

(** * C130: setup of a channel of the PIC32 sets the trigger, its sensitivity and the input mode of that channel, and of no other *)
Theorem C130_trigger_partial : forall cl2 ch trg lvl s s', 0 <= ch -> pic_trgsrc cl2 ch trg lvl s = Some s' ->
  trg_of s' ch = trg /\ Z.testbit (p_sns s') ch = lvl /\
  (forall ch', 0 <= ch' -> ch' / 4 <> ch / 4 -> trg_of s' ch' = trg_of s ch') /\
  (forall ch', 0 <= ch' -> ch' <> ch -> Z.testbit (p_sns s') ch' = Z.testbit (p_sns s) ch') /\ p_im s' = p_im s /\ p_time s' = p_time s /\
  (forall x, 0 <= x -> Z.testbit (p_css s' (Z.shiftr x 5)) (Z.land x 31) = Z.testbit (p_css s (Z.shiftr x 5)) (Z.land x 31) || ((trg =? 3) && (x =? ch))).
Proof. intros cl2 ch trg lvl s s' H E. destruct (pic_trg_own cl2 ch trg lvl s s' H E) as (_ & _ & A & B & C & _ & D & F & G & K). repeat (split; [assumption|]). exact K. Qed.
Print Assumptions C130_trigger_partial.
(** It is accepted exactly for sources below 13 and channels of class 1 and 2. *)
Theorem C130_accepts : forall cl2 ch trg lvl s, (exists s', pic_trgsrc cl2 ch trg lvl s = Some s') <-> 0 <= trg < 13 /\ ch < cl2.
Proof.
  intros cl2 ch trg lvl s. unfold pic_trgsrc. split.
  - intros (s' & E). destruct (_ && _) eqn:C in E; [|discriminate E]. apply andb_true_iff in C. rewrite Z.leb_le, Z.ltb_lt in C. cbn [negb] in E. destruct (Z.ltb_spec ch cl2); [lia|discriminate E].
  - intros (A & B). rewrite (proj2 (andb_true_iff _ _)) by (rewrite Z.leb_le, Z.ltb_lt; lia). rewrite (proj2 (Z.ltb_lt ch cl2)) by lia. cbn [negb]. eexists. reflexivity.
Qed.
Print Assumptions C130_accepts.
(** The trigger of the other three channels in the same register is cleared, whatever it was. *)
Theorem C130_trigger_refuted : forall cl2 ch trg lvl s s' ch', 0 <= ch -> pic_trgsrc cl2 ch trg lvl s = Some s' -> 0 <= ch' -> ch' / 4 = ch / 4 -> ch' <> ch -> trg_of s' ch' = 0.
Proof. intros cl2 ch trg lvl s s' ch' H E. destruct (pic_trg_own cl2 ch trg lvl s s' H E) as (_ & _ & _ & _ & _ & K & _). apply K. Qed.
Print Assumptions C130_trigger_refuted.
Definition pic0 : pic := mkPic (fun _ => 0) (fun _ => 0) (fun _ => 0) 0 (fun _ => 0).
Definition pic_or (o : option pic) : pic := match o with Some s => s | None => pic0 end.
Example C130_runs : let s1 := pic_or (pic_trgsrc 32 4 1 false pic0) in let s2 := pic_or (pic_trgsrc 32 5 3 true s1) in
  is_some (pic_trgsrc 32 4 1 false pic0) = true /\ is_some (pic_trgsrc 32 5 3 true s1) = true /\ trg_of s1 4 = 1 /\ trg_of s2 5 = 3 /\ trg_of s2 4 = 0.
Proof. cbv zeta. repeat (split; [vm_compute; reflexivity|]). vm_compute; reflexivity. Qed.
(** The input mode: mode 0 on registers that are 0. *)
Theorem C130_mode_partial : forall ch t c n tm, 0 <= ch < 64 -> exists s, pic_input_mode ch 0 (mkPic (fun _ => 0) t c n tm) = Some s /\ forall x, 0 <= x -> mode_is s x 0.
Proof. exact im_zero. Qed.
Print Assumptions C130_mode_partial.
(** No other mode is ever set. *)
Theorem C130_mode_wrong : forall ch im t c n tm s, 0 <= ch < 64 -> 1 <= im <= 3 -> pic_input_mode ch im (mkPic (fun _ => 0) t c n tm) = Some s -> ~ mode_is s ch im.
Proof. exact im_never. Qed.
Print Assumptions C130_mode_wrong.
(** But of other channels: channel 5 differential makes channels 0 and 1 differential. *)
Theorem C130_mode_refuted : let s := pic_or (pic_input_mode 5 2 pic0) in is_some (pic_input_mode 5 2 pic0) = true /\ diff_of s 0 = true /\ diff_of s 1 = true /\ diff_of s 5 = false.
Proof. cbv zeta. repeat (split; [vm_compute; reflexivity|]). vm_compute; reflexivity. Qed.
Print Assumptions C130_mode_refuted.

(** * C131: the clock of the converter *)
(** tinyAVR: less than twice below and less than one and a half times above the one asked for. *)
Theorem C131_tiny_partial : forall f clk p, tiny_presc f clk = Some (Some p) -> f < 257 * clk -> 0 <= p < 8 /\ tiny_div p * clk < 2 * f /\ f < (tiny_div p + 1) * clk.
Proof. exact tiny_ok. Qed.
Print Assumptions C131_tiny_partial.
Theorem C131_tiny_accepts : forall f clk, 0 < f -> 50000 <= clk <= 1500000 -> 2 * clk <= f -> exists p, tiny_presc f clk = Some (Some p).
Proof. exact tiny_accepts. Qed.
Print Assumptions C131_tiny_accepts.
Example C131_tiny_runs : tiny_presc 20000000 1250000 = Some (Some 3) /\ 20000000 < 257 * 1250000 /\ tiny_div 3 = 16.
Proof. split; [vm_compute; reflexivity|]. split; [lia|reflexivity]. Qed.
(** 1.5 MHz is the most the converter takes, and what is checked; it gets 2.2 MHz. *)
Theorem C131_tiny_refuted : tiny_presc 4400000 1500000 = Some (Some 0) /\ 4400000 = 2200000 * tiny_div 0.
Proof. split; vm_compute; reflexivity. Qed.
Print Assumptions C131_tiny_refuted.
(** AFEC: 20 MHz up to 40 MHz. *)
Theorem C131_afec_partial : forall f p, afec_presc f = Some p -> 20000000 <= f < 2 ^ 31 -> 20000000 * (p + 1) <= f < 40000000 * (p + 1).
Proof. exact afec_ok. Qed.
Print Assumptions C131_afec_partial.
Example C131_afec_runs : afec_presc 150000000 = Some 6. Proof. vm_compute; reflexivity. Qed.
(** Below 20 MHz the divider is 256. *)
Theorem C131_afec_refuted : forall f, 0 < f < 20000000 -> afec_presc f = Some 255.
Proof. intros f Hf. unfold afec_presc. rewrite (proj2 (Z.ltb_lt 0 f)) by lia. cbn [negb]. rewrite Z.div_small by lia. reflexivity. Qed.
Print Assumptions C131_afec_refuted.
(** AFEC: write protection is never switched on. *)
Theorem C131_protect_wrong : afec_hw_protected afec_protect = false.
Proof. vm_compute; reflexivity. Qed.
Print Assumptions C131_protect_wrong.

(** * C132: TI type 4: each channel has slots of its own, converts in them, and adc_read_multiple gives their results *)
(** Any history of adc_init and setup. Interrupt flags, if they are all different: that of the last slot. *)
Theorem C132_slots : forall amin l, let cs := fst (ti_run amin l ti_reset) in let s := snd (ti_run amin l ti_reset) in
  (forall i c, cs !! i = Some c -> 0 <= t_start c <= t_end c /\ t_end c < 16 /\ forall k, t_start c <= k <= t_end c -> i_sel s k = t_chan c) /\
  (forall i j a b, cs !! i = Some a -> cs !! j = Some b -> (i < j)%nat -> t_end a < t_start b) /\
  (NoDup (map t_int cs) -> forall i c, cs !! i = Some c -> i_int s (t_int c) = t_end c).
Proof.
  intros amin l. cbv zeta. destruct (tinv_run amin l ti_reset tinv_reset) as (A & B & C & D). split; [|split; [exact C|exact D]].
  intros i c Hc. destruct (B i c Hc) as (B1 & B2 & _ & _ & B5). split; [exact B1|]. split; [lia|exact B5].
Qed.
Print Assumptions C132_slots.
(** Each call that succeeds makes one context, with the channel and the number of slots asked for. *)
Theorem C132_init : forall ch n int s r c s1, 0 <= i_count s <= 16 -> ti_adc_init ch n int s = ((r, c), s1) ->
  (r = 0 /\ exists c', c = Some c' /\ t_chan c' = ch /\ t_end c' - t_start c' + 1 = n /\ t_int c' = int /\ t_start c' = i_count s /\ i_count s1 = i_count s + n) \/ (r < 0 /\ c = None /\ s1 = s).
Proof.
  intros ch n int s r c s1 Hk E. destruct (ti_init_case ch n int s Hk) as [(x & A & B & C & D)|(_ & H2 & _ & _ & F)].
  - rewrite E in *. cbn [fst snd] in *. right. split; [lia|]. split; [exact A|exact D].
  - rewrite F in E. injection E as <- <- <-. left. split; [reflexivity|]. eexists. split; [reflexivity|]. cbn [t_chan t_end t_start t_int i_count]. repeat split; lia.
Qed.
Print Assumptions C132_init.
Theorem C132_read_partial : forall hi n flags res c, hi < 2 ^ 15 -> (forall j, 0 <= res j <= hi) -> cal_ok 16 hi (t_cal c) -> 0 <= t_start c <= t_end c -> 0 < n <= 16 ->
  0 <= t_int c -> Z.testbit flags (t_int c) = true ->
  exists l, ti_read_multiple n flags res c = TRet (t_start c + Z.of_nat (length l)) l None (2 ^ t_int c) /\ Z.of_nat (length l) = Z.min n (t_end c - t_start c + 1) /\
    forall j v, l !! j = Some v -> scaled (res (t_start c + Z.of_nat j)) (t_cal c) v.
Proof. exact ti_read_ok. Qed.
Print Assumptions C132_read_partial.
Definition ti_two : list tctx * ti := ti_run 9 [TInit 3 2 0; TInit 5 2 1; TSetup 0 0 20] ti_reset.
Example C132_runs : map (fun c => (t_chan c, t_start c, t_end c, t_int c)) (fst ti_two) = [(3, 0, 1, 0); (5, 2, 3, 1)] /\
  (c ← head (fst ti_two); Some (ti_read_multiple 2 1 (fun k => 100 + k) c)) = Some (TRet 2 [100; 101] None 1).
Proof. split; vm_compute; reflexivity. Qed.
(** The number returned is right for the first channel only: adc_read of the second, which wrote one value, returns 3. *)
Theorem C132_count_refuted : (c ← fst ti_two !! 1%nat; Some (ti_read 2 (fun k => 100 + k) c)) = Some (TRet 3 [102] None 2).
Proof. vm_compute; reflexivity. Qed.
Print Assumptions C132_count_refuted.
(** No result yet: a software trigger of exactly the own slots, if none is slot 14 or 15; none if triggered otherwise. *)
Theorem C132_trigger_partial : forall n flags res c, 0 < n <= 16 -> 0 <= t_int c -> Z.testbit flags (t_int c) = false -> 0 <= t_start c <= t_end c -> t_end c < 14 ->
  exists f, ti_read_multiple n flags res c = TRet (- A_EAGAIN) [] f 0 /\
    if t_soft c then exists m, f = Some m /\ 0 <= m < 65536 /\ forall k, 0 <= k -> Z.testbit m k = (t_start c <=? k) && (k <=? t_end c) else f = None.
Proof.
  intros n flags res c Hn Hi Hf H1 H2. unfold ti_read_multiple. rewrite (proj2 (Z.ltb_lt 0 n)) by lia. rewrite (proj2 (Z.leb_le n 16)) by lia. cbn [negb]. cbv zeta.
  assert (F : (Z.land flags (Z.shiftl 1 (t_int c)) =? 0) = true).
  { apply Z.eqb_eq. apply Z.bits_inj'. intros i Hp. rewrite Z.testbit_0_l, Z.land_spec, Z.shiftl_1_l, Z.pow2_bits_eqb by lia. destruct (Z.eqb_spec (t_int c) i) as [<-|]; [rewrite Hf; reflexivity|apply andb_false_r]. }
  rewrite F. destruct (t_soft c); [|exists None; split; reflexivity]. destruct (ti_mask_ok c H1 H2) as (m & E & M). rewrite E. exists (Some m). split; [reflexivity|]. exists m. split; [reflexivity|exact M].
Qed.
Print Assumptions C132_trigger_partial.
(** With slot 14 or 15 it is undefined: 1 << 15 in 16 bits. *)
Theorem C132_trigger_refuted : let cs := fst (ti_run 9 [TInit 3 15 0; TInit 5 1 1] ti_reset) in
  map (fun c => ti_read 0 (fun _ => 0) c) cs = [TUb; TUb].
Proof. vm_compute; reflexivity. Qed.
Print Assumptions C132_trigger_refuted.
(** Two channels may be given the same interrupt flag: then that of the first tells when the second is done. *)
Theorem C132_intflg_refuted : let p := ti_run 9 [TInit 3 1 0; TInit 5 1 0] ti_reset in
  map (fun c => (t_end c, i_int (snd p) (t_int c))) (fst p) = [(0, 1); (1, 1)].
Proof. vm_compute; reflexivity. Qed.
Print Assumptions C132_intflg_refuted.

(** * C133: STM32H7: up to 16 channels are converted in the order of adc_init, and adc_read gives each its own result *)
Theorem C133_sequence : forall l mask, Forall (fun ch => 0 <= ch < 20) l -> (length l <= 16)%nat -> let cs := fst (stm_inits l (stm_reset mask)) in let s := snd (stm_inits l (stm_reset mask)) in
  length cs = length l /\ (forall i ch, l !! i = Some ch -> (exists c, cs !! i = Some c /\ s_chan c = ch /\ s_index c = Z.of_nat i) /\ sq s (Z.of_nat i) = ch) /\
  (l <> [] -> seq_len s = Z.of_nat (length l)) /\ (forall x, 0 <= x -> Z.testbit (h_pcsel s) x = true <-> In x l).
Proof.
  intros l mask Hl Hn. cbv zeta.
  assert (Z0 : forall j, 0 <= j < 16 -> sq (stm_reset mask) j = 0).
  { intros j _. unfold sq, stm_reset. cbn [h_sqr1 h_sqr2 h_sqr3 h_sqr4]. unfold afield. rewrite !Z.shiftr_0_l, !Z.land_0_l. destruct (j <? 4), (j <? 9), (j <? 14); reflexivity. }
  destruct (stm_inits_ok l (stm_reset mask) 0 eq_refl ltac:(lia) ltac:(lia) Z0 Hl) as (I1 & I2 & _ & _ & I5 & _ & _ & _ & I9).
  split; [exact I1|]. split; [|split; [intros N; rewrite I5 by exact N; lia|]].
  - intros i ch X. destruct (I2 i ch X) as (J1 & J2). rewrite Z.add_0_l in *. split; [|exact J2]. eexists. split; [exact J1|]. split; reflexivity.
  - intros x Hx. rewrite I9 by exact Hx. cbn [h_pcsel stm_reset]. rewrite Z.testbit_0_l. intuition discriminate.
Qed.
Print Assumptions C133_sequence.
Theorem C133_full : forall ch s, 0 <= ch < 20 -> 16 <= h_count s -> stm_adc_init ch s = ((- A_EIO, None), s).
Proof. exact stm_full. Qed.
Print Assumptions C133_full.
(** cs: the contexts adc_init made, with the settings of adc_setup. *)
Definition made (l : list Z) (cs : list sctx) : Prop := Forall2 (fun c c0 => s_chan c = s_chan c0 /\ s_index c = s_index c0) cs (fst (stm_inits l (stm_reset 0))).
Theorem C133_values_partial : forall sig hi l cs evs pre i o post c, sig_ok 32 hi sig -> Forall (fun ch => 0 <= ch < 20) l -> (length l <= 16)%nat -> made l cs -> Forall (fun c => cal_ok 32 hi (s_cal c)) cs ->
  trace3 sig 0 evs cs (snd (stm_inits l (stm_reset 0))) = pre ++ (ERead i, o) :: post -> cs !! i = Some c ->
  l !! i = Some (s_chan c) /\ (o = ARet (- A_EAGAIN) \/ exists v t, o = AData v /\ (t < length pre)%nat /\ scaled (sig (s_chan c) t) (s_cal c) v).
Proof.
  intros sig hi l cs evs pre i o post c Hs Hl Hn Hm Hc E Hi. split.
  - destruct (C133_sequence l 0 Hl Hn) as (A & B & _). destruct (Forall2_lookup_l _ _ _ _ _ Hm Hi) as (c0 & H0 & Q1 & _).
    assert (L : (i < length l)%nat) by (rewrite <- A; apply lookup_lt_Some in H0; exact H0). destruct (lookup_lt_is_Some_2 l i L) as (ch & Hch). destruct (B i ch Hch) as ((c1 & K1 & K2 & _) & _). rewrite H0 in K1. injection K1 as <-. rewrite Q1, K2. exact Hch.
  - apply (trace3_own sig hi cs Hs) with (n := 0%nat) (evs := evs) (s := snd (stm_inits l (stm_reset 0))) (post := post) (i := i); [|apply (inv3_init sig l cs Hl Hn Hm)|exact E|exact Hi].
    intros x Hx. rewrite Forall_forall in Hc. apply Hc. apply elem_of_list_In. exact Hx.
Qed.
Print Assumptions C133_values_partial.
(** After any history a read, the end of a conversion, a read: there are data. *)
Theorem C133_progress : forall sig hi l cs evs i, sig_ok 32 hi sig -> Forall (fun ch => 0 <= ch < 20) l -> (length l <= 16)%nat -> made l cs -> Forall (fun c => cal_ok 32 hi (s_cal c)) cs -> is_some (cs !! i) = true ->
  exists v, In (ERead i, AData v) (trace3 sig (length evs) [ERead i; EDone; ERead i] cs (run3 sig 0 evs cs (snd (stm_inits l (stm_reset 0))))).
Proof.
  intros sig hi l cs evs i Hs Hl Hn Hm Hc Hi. destruct (cs !! i) as [c|] eqn:E; [|discriminate Hi].
  assert (Hc' : forall c, In c cs -> cal_ok 32 hi (s_cal c)) by (intros x Hx; rewrite Forall_forall in Hc; apply Hc; apply elem_of_list_In; exact Hx).
  apply (progress3 sig hi cs i c _ _ Hs E Hc'). exact (run3_inv sig hi cs Hs Hc' evs 0 _ (inv3_init sig l cs Hl Hn Hm)).
Qed.
Print Assumptions C133_progress.
Definition stm3 : list sctx * stm := stm_inits [4; 17; 9] (stm_reset 0).
Example C133_runs : made [4; 17; 9] (fst stm3) /\ Forall (fun c => cal_ok 32 31 (s_cal c)) (fst stm3) /\
  trace3 sig_const 0 [ERead 1; EDone; ERead 1; ERead 2; ERead 0; ERead 0] (fst stm3) (snd stm3) =
  [(ERead 1, ARet (-11)); (EDone, ANone); (ERead 1, AData 17); (ERead 2, AData 9); (ERead 0, AData 4); (ERead 0, ARet (-11))].
Proof.
  split; [unfold made, stm3; apply Forall2_same_length_lookup_2; [reflexivity|]; intros i x y X Y; rewrite X in Y; injection Y as <-; split; reflexivity|].
  split; [|vm_compute; reflexivity]. repeat (apply Forall_cons; split; [split; vm_compute; congruence|]). apply Forall_nil. exact I.
Qed.
(** A value not read before the next scan ends is the value of that scan, and is given twice. *)
Theorem C133_twice_refuted : datas 1 (trace3 sig_clock 0 [ERead 0; EDone; ERead 0; ERead 0; EDone; ERead 1; ERead 1] (fst stm3) (snd stm3)) = [3; 3].
Proof. vm_compute; reflexivity. Qed.
Print Assumptions C133_twice_refuted.
(** DR_mask is never cleared: if memory was not 0, there are data before the first conversion. *)
Theorem C133_mask_refuted : let p := stm_inits [4; 17; 9] (stm_reset 7) in trace3 sig_const 0 [ERead 1] (fst p) (snd p) = [(ERead 1, AData 0)].
Proof. vm_compute; reflexivity. Qed.
Print Assumptions C133_mask_refuted.
(** After a second init the sequence is or-ed to the old one: channel 1 becomes channel 5. *)
Theorem C133_reinit_refuted : let p := stm_inits [1] (stm_init (snd stm3)) in map s_chan (fst p) = [1] /\ sq (snd p) 0 = 5 /\ trace3 sig_const 0 [ERead 0; EDone; ERead 0] (fst p) (snd p) = [(ERead 0, ARet (-11)); (EDone, ANone); (ERead 0, AData 5)].
Proof. cbv zeta. repeat (split; [vm_compute; reflexivity|]). vm_compute; reflexivity. Qed.
Print Assumptions C133_reinit_refuted.
(** Sample times: channels 0..8. *)
Theorem C133_smp_partial : forall smp c s s', stm_adc_setup smp c s = (0, s') -> 0 <= s_chan c < 9 ->
  0 <= smp < 8 /\ smp_of s' (s_chan c) = smp /\ forall ch, 0 <= ch < 20 -> ch <> s_chan c -> smp_of s' ch = smp_of s ch.
Proof. exact smp_low. Qed.
Print Assumptions C133_smp_partial.
Example C133_smp_runs : let s' := snd (stm_adc_setup 5 (mkSc 4 0 cal_init) (snd stm3)) in fst (stm_adc_setup 5 (mkSc 4 0 cal_init) (snd stm3)) = 0 /\ smp_of s' 4 = 5.
Proof. split; vm_compute; reflexivity. Qed.
(** From 9 on it is that of the next channel. *)
Theorem C133_smp_refuted : (forall smp c s s', stm_adc_setup smp c s = (0, s') -> 9 <= s_chan c < 19 -> smp_of s' (s_chan c + 1) = smp) /\
  smp_of (snd (stm_adc_setup 7 (mkSc 12 0 cal_init) (stm_reset 0))) 12 = 0.
Proof. split; [exact smp_high|vm_compute; reflexivity]. Qed.
Print Assumptions C133_smp_refuted.
(** The resolution: right for codes below 4, wrong for the others (7 is 8 bits, 3 is 10 bits). *)
Theorem C133_res_partial : forall res cfgr r, stm_res res cfgr = Some r -> Z.testbit cfgr 4 = false -> 0 <= res < 8 /\ (res_of r = res <-> res < 4) /\ forall lo n, 0 <= n -> 4 <= lo -> afield r lo n = afield cfgr lo n.
Proof. exact res_ok. Qed.
Print Assumptions C133_res_partial.
Theorem C133_res_refuted : match stm_res 7 0 with Some r => res_of r | None => 0 end = 3.
Proof. vm_compute; reflexivity. Qed.
Print Assumptions C133_res_refuted.
