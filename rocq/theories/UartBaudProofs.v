(** UartBaudProofs.v - proofs about the baud rates of UartCfgModel.v. *)
From Verif Require Import Base UartCfgModel UartCfgSpec.

(** ** From set_baudrate to uart_setup *)
Definition keeps (g : ureg -> sout) : Prop := forall r, match g r with SRet r' _ => rlive r' = rlive r /\ rbaud r' = rbaud r | SUB => True end.
Lemma andthen_ret s k r x : andthen s k = SRet r x -> (exists r1 x1, s = SRet r1 x1 /\ ((x1 < 0 /\ r = r1 /\ x = x1) \/ (0 <= x1 /\ k r1 = SRet r x))).
Proof.
  unfold andthen. destruct s as [r1 x1|]; [|discriminate]. destruct (Z.ltb_spec x1 0); intros E.
  - exists r1, x1. split; [reflexivity|]. left. injection E as -> ->. split; [assumption|]. split; reflexivity.
  - exists r1, x1. split; [reflexivity|]. right. split; assumption.
Qed.
Lemma keeps_andthen g k : keeps g -> keeps k -> keeps (fun r => andthen (g r) k).
Proof.
  intros Hg Hk r. specialize (Hg r). unfold andthen. destruct (g r) as [r1 x1|]; [|exact I]. destruct (x1 <? 0); [exact Hg|].
  specialize (Hk r1). destruct (k r1) as [r2 x2|]; [|exact I]. destruct Hg as [Ha Hb]. rewrite <- Ha, <- Hb. exact Hk.
Qed.
Lemma keeps_ret g x : (forall r, rlive (g r) = rlive r /\ rbaud (g r) = rbaud r) -> keeps (fun r => SRet (g r) x).
Proof. intros H r. apply H. Qed.
Lemma keeps_cs c st : (forall cs, keeps (c cs)) -> keeps (do_cs c st).
Proof. intros H r. unfold do_cs. destruct (s_cs st =? 0); [split; reflexivity|apply H]. Qed.
Lemma keeps_par c st : (forall p, keeps (c p)) -> keeps (do_par c st).
Proof. intros H r. unfold do_par. destruct (s_par st); [split; reflexivity| | |]; apply H. Qed.
Lemma keeps_stop c st : (forall p, keeps (c p)) -> keeps (do_stop c st).
Proof. intros H r. unfold do_stop. destruct (s_stop st); [split; reflexivity| |]; apply H. Qed.
Ltac kp := let p := fresh in let r := fresh in intros p r;
  unfold sercom_cs, samusart_cs, avr_cs, gd32_cs, stm32_cs, ra4_cs, tinyavr_cs, lin_cs,
    sercom_par, sam_par, tinyavr_par, avr_par, st_par, pic32_par, ra4_par, lin_par,
    sercom_stop, samusart_stop, tinyavr_stop, avr_stop, st_stop, pic32_stop, ra4_stop, lin_stop;
  first [is_var p; destruct p; split; reflexivity
   | cbv zeta; repeat match goal with |- context [if ?c then _ else _] => destruct c end; split; reflexivity].
Lemma keeps_samcs : forall cs, keeps (samusart_cs cs).
Proof. kp. Qed.
Ltac kps := repeat first [apply keeps_samcs | apply keeps_andthen | apply keeps_cs | apply keeps_par | apply keeps_stop | (apply keeps_ret; split; reflexivity) | (kp; fail)].
(** The part after set_baudrate changes no baud rate. *)
Lemma lift baud f st r0 k r' : keeps k -> (forall e, baud f (s_baud st) = BErr e -> e < 0) -> s_baud st <> 0 ->
  andthen (do_baud baud true f st r0) k = SRet r' 0 ->
  exists l, baud f (s_baud st) = BOk l /\ rlive r' = l.
Proof.
  intros Hk He Hb. unfold do_baud. rewrite (proj2 (Z.eqb_neq _ _) Hb). destruct (baud f (s_baud st)) as [l|e|]; [| |discriminate].
  - cbn [andthen]. change (0 <? 0) with false. cbv iota. intros E. exists l. split; [reflexivity|]. specialize (Hk (mkUreg (ra r0) (rb r0) (rc r0) l l)). rewrite E in Hk. exact (proj1 Hk).
  - specialize (He e eq_refl). cbn [andthen]. rewrite (proj2 (Z.ltb_lt _ _) He). intros E; injection E as _ E; lia.
Qed.
Ltac errs := unfold C_EINVAL, C_EIO; intros; repeat match goal with H : context [if ?x then _ else _] |- _ => destruct x end;
  repeat match goal with H : BOk _ = BErr _ |- _ => discriminate H | H : BUB = BErr _ |- _ => discriminate H | H : BErr _ = BErr _ |- _ => injection H; intros; subst; clear H end; try lia.
Lemma sam_err f b e : samuart_baud f b = BErr e -> e < 0. Proof. unfold samuart_baud. cbv zeta. errs. Qed.
Lemma samus_err f b e : samusart_baud f b = BErr e -> e < 0. Proof. unfold samusart_baud. cbv zeta. errs. Qed.
Lemma pic32_err f b e : pic32_baud f b = BErr e -> e < 0. Proof. unfold pic32_baud. cbv zeta. errs. Qed.
Lemma avr_err f b e : avr_baud f b = BErr e -> e < 0. Proof. unfold avr_baud. cbv zeta. errs. Qed.
Lemma tinyavr_err f b e : tinyavr_baud f b = BErr e -> e < 0. Proof. unfold tinyavr_baud. cbv zeta. errs. Qed.
Lemma gd32_err f b e : gd32_baud f b = BErr e -> e < 0. Proof. unfold gd32_baud. cbv zeta. errs. Qed.
Lemma lin_err f b e : linflexd_baud f b = BErr e -> e < 0. Proof. unfold linflexd_baud. cbv zeta. errs. Qed.
Lemma pl011_err f b e : pl011_baud f b = BErr e -> e < 0. Proof. unfold pl011_baud. cbv zeta. errs. Qed.
Lemma sercom_err f b e : sercom_baud f b = BErr e -> e < 0. Proof. unfold sercom_baud. cbv zeta. errs. Qed.
Lemma stm32_err f b e : stm32_baud f b = BErr e -> e < 0.
Proof.
  unfold stm32_baud. destruct (b =? 0); [errs|]. generalize 0 at 1. generalize [1; 2; 4; 6; 8; 10; 12; 16; 32; 64; 128; 256].
  induction l as [|x l IH]; intros p; cbn [stm32_loop]; [errs|]. cbv zeta. destruct (f / x / b <=? 65535); [discriminate|apply IH].
Qed.
Lemma ra4_err f b e : ra4_baud f b = BErr e -> e < 0.
Proof.
  unfold ra4_baud. destruct (b =? 0); [errs|]. generalize 0 at 1. generalize [1; 4; 16; 64].
  induction l as [|x l IH]; intros p; cbn [ra4_loop]; [errs|]. cbv zeta. destruct (_ =? 0); [discriminate|]. destruct (_ <=? 255); [discriminate|apply IH].
Qed.

(** ** Arithmetic *)
Lemma u32_small x : 0 <= x < 4294967296 -> u32 x = x. Proof. intros H. apply Z.mod_small, H. Qed.
Lemma field_small m x : 0 <= x <= m -> field m x = x. Proof. intros H. apply Z.mod_small. lia. Qed.
Lemma div_spec f d : 0 < d -> 0 <= f -> 0 <= f - f / d * d < d /\ 0 <= f / d.
Proof. intros Hd Hf. pose proof (Z.div_mod f d ltac:(lia)). pose proof (Z.mod_pos_bound f d Hd). pose proof (Z.div_pos f d Hf Hd). lia. Qed.
Lemma mod_spec f d : 0 < d -> f mod d = f - f / d * d.
Proof. intros Hd. pose proof (Z.div_mod f d ltac:(lia)). lia. Qed.
Lemma div_ge1 f d : 0 < d -> d <= f -> 1 <= f / d.
Proof. intros Hd H. apply Z.div_le_lower_bound; lia. Qed.
Lemma div_lt f d n : 0 < d -> f < d * n -> f / d < n.
Proof. intros Hd H. apply Z.div_lt_upper_bound; lia. Qed.

Lemma samuart_ok f st r r' : 0 < f < 2147483648 -> 16 * s_baud st <= f < 16 * 65536 * s_baud st -> 0 < s_baud st ->
  samuart_setup f st r = SRet r' 0 -> within 1 f (s_baud st) (samuart_bit (rlive r')).
Proof.
  intros Hf Hr Hb H. set (b := s_baud st) in *.
  unfold samuart_setup in H; cbv zeta in H. apply lift in H; [|kps|apply sam_err|fold b; lia]. destruct H as (l & El & ->). fold b in El.
  unfold samuart_baud in El. rewrite (proj2 (Z.eqb_neq b 0)) in El by lia. cbv zeta in El. rewrite (u32_small (b * 16)) in El by lia.
  rewrite (proj2 (Z.eqb_neq (b * 16) 0)) in El by lia. injection El as <-.
  pose proof (div_spec f (b * 16) ltac:(lia) ltac:(lia)) as [H1 H2]. pose proof (div_ge1 f (b * 16) ltac:(lia) ltac:(lia)). pose proof (div_lt f (b * 16) 65536 ltac:(lia) ltac:(lia)).
  rewrite field_small by lia. cbn [samuart_bit]. rewrite (proj2 (Z.eqb_neq (f / (b * 16)) 0)) by lia. unfold within. lia.
Qed.
Lemma samusart_ok f st r r' : 0 < f < 2147483648 -> 8 * s_baud st <= f < 8 * 131071 * s_baud st -> 0 < s_baud st -> 
  samusart_setup f st r = SRet r' 0 -> nearest f (s_baud st) (samuart_bit (rlive r')).
Proof.
  intros Hf Hr Hb H. set (b := s_baud st) in *.
  unfold samusart_setup in H; cbv zeta in H. apply lift in H; [|kps|apply samus_err|fold b; lia]. destruct H as (l & El & ->). fold b in El.
  unfold samusart_baud in El. rewrite (proj2 (Z.eqb_neq b 0)) in El by lia. cbv zeta in El. rewrite (u32_small (b * 16)) in El by lia.
  rewrite (proj2 (Z.eqb_neq (b * 16) 0)) in El by lia. injection El as <-.
  replace (b * 16 / 2) with (8 * b) by (replace (b * 16) with (8 * b * 2) by lia; rewrite Z.div_mul; lia).
  rewrite u32_small by lia.
  pose proof (div_spec (f + 8 * b) (b * 16) ltac:(lia) ltac:(lia)) as [H1 H2]. pose proof (div_ge1 (f + 8 * b) (b * 16) ltac:(lia) ltac:(lia)). pose proof (div_lt (f + 8 * b) (b * 16) 65536 ltac:(lia) ltac:(lia)).
  rewrite field_small by lia. cbn [samuart_bit]. rewrite (proj2 (Z.eqb_neq ((f + 8 * b) / (b * 16)) 0)) by lia. unfold nearest. lia.
Qed.
Lemma pic32_ok f st r r' : 0 < f < 2147483648 -> 16 * s_baud st <= f < 16 * 65537 * s_baud st -> 0 < s_baud st ->
  pic32_setup f st r = SRet r' 0 -> within 1 f (s_baud st) (pic32_bit (rlive r')).
Proof.
  intros Hf Hr Hb H. set (b := s_baud st) in *.
  unfold pic32_setup in H; cbv zeta in H. apply lift in H; [|kps|apply pic32_err|fold b; lia]. destruct H as (l & El & ->). fold b in El.
  unfold pic32_baud in El. rewrite (proj2 (Z.eqb_neq b 0)) in El by lia. cbv zeta in El. rewrite (u32_small (b * 16)) in El by lia.
  rewrite (proj2 (Z.eqb_neq (b * 16) 0)) in El by lia. injection El as <-.
  pose proof (div_spec f (b * 16) ltac:(lia) ltac:(lia)) as [H1 H2]. pose proof (div_ge1 f (b * 16) ltac:(lia) ltac:(lia)). pose proof (div_lt f (b * 16) 65537 ltac:(lia) ltac:(lia)).
  rewrite u32_small by lia. unfold u16. rewrite Z.mod_small by lia. cbn [pic32_bit]. unfold within. lia.
Qed.
Lemma avr_ok f st r r' : 0 < f < 2147483648 -> 8 * s_baud st <= f < 8 * 4097 * s_baud st -> 0 < s_baud st ->
  avr_setup f st r = SRet r' 0 -> within 1 f (s_baud st) (avr_bit (rlive r')).
Proof.
  intros Hf Hr Hb H. set (b := s_baud st) in *.
  unfold avr_setup in H; cbv zeta in H. apply lift in H; [|kps|apply avr_err|fold b; lia]. destruct H as (l & El & ->). fold b in El.
  unfold avr_baud in El. rewrite (proj2 (Z.eqb_neq b 0)) in El by lia. injection El as <-. rewrite Z.div_div by lia.
  pose proof (div_spec f (8 * b) ltac:(lia) ltac:(lia)) as [H1 H2]. pose proof (div_ge1 f (8 * b) ltac:(lia) ltac:(lia)). pose proof (div_lt f (8 * b) 4097 ltac:(lia) ltac:(lia)).
  rewrite u32_small by lia. unfold u16. rewrite Z.mod_small by lia. rewrite field_small by lia. cbn [avr_bit]. unfold within. lia.
Qed.
Lemma tinyavr_ok f st r r' : 0 < f < 2147483648 -> 16 * s_baud st <= f < 16 * 1024 * s_baud st -> 0 < s_baud st ->
  tinyavr_setup f st r = SRet r' 0 -> within 64 f (s_baud st) (tinyavr_bit (rlive r')).
Proof.
  intros Hf Hr Hb H. set (b := s_baud st) in *.
  unfold tinyavr_setup in H; cbv zeta in H. apply lift in H; [|kps|apply tinyavr_err|fold b; lia]. destruct H as (l & El & ->). fold b in El.
  unfold tinyavr_baud in El. rewrite (proj2 (Z.eqb_neq b 0)) in El by lia. injection El as <-. rewrite Z.div_div by lia.
  pose proof (div_spec f (16 * b) ltac:(lia) ltac:(lia)) as [H1 H2]. pose proof (div_ge1 f (16 * b) ltac:(lia) ltac:(lia)). pose proof (div_lt f (16 * b) 1024 ltac:(lia) ltac:(lia)).
  rewrite u32_small by lia. unfold u16. rewrite Z.mod_small by lia. cbn [tinyavr_bit]. destruct (Z.ltb_spec (f / (16 * b) * 64) 64); [lia|]. unfold within. lia.
Qed.
Lemma gd32_ok f st r r' : 0 < f < 2147483648 -> 16 * s_baud st <= f < 16 * 4096 * s_baud st -> 0 < s_baud st ->
  gd32_setup f st r = SRet r' 0 -> within 16 f (s_baud st) (gd32_bit (rlive r')).
Proof.
  intros Hf Hr Hb H. set (b := s_baud st) in *.
  unfold gd32_setup in H; cbv zeta in H. apply lift in H; [|kps|apply gd32_err|fold b; lia]. destruct H as (l & El & ->). fold b in El.
  unfold gd32_baud in El. rewrite (proj2 (Z.eqb_neq b 0)) in El by lia. cbv zeta in El. rewrite (u32_small (16 * b)) in El by lia.
  rewrite (proj2 (Z.eqb_neq (16 * b) 0)) in El by lia.
  pose proof (div_spec f (16 * b) ltac:(lia) ltac:(lia)) as [H1 H2]. pose proof (div_ge1 f (16 * b) ltac:(lia) ltac:(lia)). pose proof (div_lt f (16 * b) 4096 ltac:(lia) ltac:(lia)).
  rewrite (proj2 (Z.eqb_neq (f / (16 * b)) 0)) in El by lia. injection El as <-. rewrite (field_small 4095) by lia.
  set (x := field 15 _). assert (Hx : 0 <= x < 16) by (apply Z.mod_pos_bound; lia).
  cbn [gd32_bit]. destruct (Z.ltb_spec (f / (16 * b) * 16 + x) 16); [lia|]. unfold within. clearbody x. nia.
Qed.
Lemma lin_ok f st r r' : 0 < f < 2147483648 -> 16 * s_baud st <= f < 16 * 65536 * s_baud st -> 0 < s_baud st < 8388608 ->
  2 * (f mod (16 * s_baud st)) < 31 * s_baud st ->
  lin_setup f st r = SRet r' 0 -> nearest f (s_baud st) (lin_bit (rlive r')).
Proof.
  intros Hf Hr Hb Hm H. set (b := s_baud st) in *.
  unfold lin_setup in H; cbv zeta in H. apply lift in H; [|kps|apply lin_err|fold b; lia]. destruct H as (l & El & ->). fold b in El.
  unfold linflexd_baud in El. rewrite (proj2 (Z.eqb_neq b 0)) in El by lia. cbv zeta in El. rewrite (u32_small (16 * b)) in El by lia.
  rewrite (proj2 (Z.eqb_neq (16 * b) 0)) in El by lia.
  pose proof (div_spec f (16 * b) ltac:(lia) ltac:(lia)) as [H1 H2]. pose proof (div_ge1 f (16 * b) ltac:(lia) ltac:(lia)). pose proof (div_lt f (16 * b) 65536 ltac:(lia) ltac:(lia)).
  rewrite (mod_spec f (16 * b)) in * by lia. set (m := f - f / (16 * b) * (16 * b)) in *.
  replace (16 * b / 2) with (8 * b) in El by (replace (16 * b) with (8 * b * 2) by lia; rewrite Z.div_mul; lia).
  rewrite (u32_small (m * 16)) in El by lia. rewrite u32_small in El by lia.
  pose proof (div_spec (m * 16 + 8 * b) (16 * b) ltac:(lia) ltac:(lia)) as [K1 K2]. pose proof (div_lt (m * 16 + 8 * b) (16 * b) 16 ltac:(lia) ltac:(lia)).
  rewrite !field_small in El by lia. injection El as <-. cbn [lin_bit]. rewrite (proj2 (Z.eqb_neq (f / (16 * b)) 0)) by lia. unfold nearest. lia.
Qed.
(** RA4: whatever the clock. *)
Lemma ra4_loop_ok f b : 0 < f < 2147483648 -> 0 < b < 2097152 -> forall cks i, Forall (fun c => 1 <= c <= 64) cks ->
  (forall j c, nth_error cks j = Some c -> 32 * c = 32 * 4 ^ (i + Z.of_nat j)) ->
  match ra4_loop cks i f b with BOk l => within 1 f b (ra4_bit l) | BErr _ => True | BUB => False end.
Proof.
  intros Hf Hb. induction cks as [|c cks IH]; intros i HF Hn; cbn [ra4_loop]; [exact I|].
  inversion HF as [|? ? Hc HF']; subst. replace (64 * c / 2) with (32 * c) by (replace (64 * c) with (32 * c * 2) by lia; rewrite Z.div_mul; lia).
  assert (Hd : 0 < 32 * c * b < 4294967296) by nia. cbv zeta. rewrite (u32_small (32 * c * b)) by lia.
  rewrite (proj2 (Z.eqb_neq (32 * c * b) 0)) by lia.
  pose proof (div_spec f (32 * c * b) ltac:(lia) ltac:(lia)) as [H1 H2].
  destruct (Z.leb_spec (u32 (f / (32 * c * b) - 1)) 255) as [Hle|Hle].
  - assert (Hq : 1 <= f / (32 * c * b)).
    { destruct (Z.eq_dec (f / (32 * c * b)) 0) as [E|E]; [|lia]. rewrite E in Hle. vm_compute in Hle. exfalso. apply Hle. reflexivity. }
    assert (Hq2 : f / (32 * c * b) < 4294967296) by (apply div_lt; nia).
    rewrite u32_small by lia. cbn [ra4_bit]. specialize (Hn 0%nat c eq_refl). rewrite Z.add_0_r in Hn. rewrite <- Hn. unfold within. nia.
  - apply IH; [exact HF'|]. intros j c' Hj. specialize (Hn (S j) c' Hj). rewrite Hn. f_equal. f_equal. lia.
Qed.
Lemma ra4_keeps st : keeps (fun r => andthen (do_cs ra4_cs st r) (fun r => andthen (do_par ra4_par st r) (fun r => andthen (do_stop ra4_stop st r) (fun r => SRet (on_c (fun v => set v 48) r) 0)))).
Proof. kps. Qed.
Lemma ra4_ok f st r : 0 < f < 2147483648 -> 0 < s_baud st < 2097152 ->
  match ra4_setup f st r with SRet r' x => x = 0 -> within 1 f (s_baud st) (ra4_bit (rlive r')) | SUB => False end.
Proof.
  intros Hf Hb. unfold ra4_setup. cbv zeta. generalize (on_c (fun v => clr v 48) r); intros r0. unfold ra4_do_baud, do_baud.
  rewrite (proj2 (Z.eqb_neq (s_baud st) 0)) by lia.
  assert (K := ra4_loop_ok f (s_baud st) Hf Hb [1; 4; 16; 64] 0).
  assert (E : ra4_baud f (s_baud st) = ra4_loop [1; 4; 16; 64] 0 f (s_baud st)) by (unfold ra4_baud; rewrite (proj2 (Z.eqb_neq (s_baud st) 0)) by lia; reflexivity).
  rewrite <- E in K. destruct (ra4_baud f (s_baud st)) as [l|e|] eqn:EB.
  - change (false || (0 <? 0)) with false. cbv iota. unfold andthen at 1. change (0 <? 0) with false. cbv iota.
    set (r1 := on_a _ _). pose proof (ra4_keeps st r1) as Hk. cbv beta in Hk.
    destruct (andthen (do_cs ra4_cs st r1) _) as [r2 x2|] eqn:EK.
    + intros _. rewrite (proj1 Hk). apply K.
      * repeat constructor; lia.
      * intros [|[|[|[|j]]]] c Hj; cbn in Hj; try (injection Hj as <-; reflexivity). destruct j; discriminate Hj.
    + clear - EK. unfold do_cs, do_par, do_stop in EK. unfold ra4_cs, ra4_par, ra4_stop in EK.
      destruct (s_cs st =? 0), (s_par st), (s_stop st); try discriminate EK; cbn [andthen] in EK;
      destruct ((s_cs st <? 7) || (9 <? s_cs st)); cbn [andthen] in EK; try discriminate EK.
  - apply ra4_err in EB. rewrite (proj2 (Z.ltb_lt _ _) EB). cbn [orb]. unfold andthen at 1. rewrite (proj2 (Z.ltb_lt _ _) EB). intros ->. lia.
  - apply K; [repeat constructor; lia|]. intros [|[|[|[|j]]]] c Hj; cbn in Hj; try (injection Hj as <-; reflexivity). destruct j; discriminate Hj.
Qed.
(** STM32 *)
Lemma stm32_loop_ok f b : 0 < f < 2147483648 -> 0 < b -> 16 * b <= f -> forall pre p, Forall (fun c => 1 <= c) pre ->
  (match pre with c :: _ => c = 1 \/ (exists c0, c <= 2 * c0 /\ 1 <= c0 /\ 65535 < f / c0 / b) | [] => True end) ->
  (forall j c c', nth_error pre j = Some c -> nth_error pre (S j) = Some c' -> c' <= 2 * c) ->
  (forall j c, nth_error pre j = Some c -> nth (Z.to_nat (p + Z.of_nat j)) [1; 2; 4; 6; 8; 10; 12; 16; 32; 64; 128; 256] 0 = c) ->
  match stm32_loop pre p f b with BOk l => within 1 f b (stm32_bit l) | BErr _ => True | BUB => False end.
Proof.
  intros Hf Hb H16. induction pre as [|c pre IH]; intros p HF H0 HS Hn; cbn [stm32_loop]; [exact I|]. cbv zeta.
  inversion HF as [|? ? Hc HF']; subst. rewrite Z.div_div by lia.
  pose proof (div_spec f (c * b) ltac:(nia) ltac:(lia)) as [H1 H2].
  destruct (Z.leb_spec (f / (c * b)) 65535) as [Hle|Hle].
  - cbn [stm32_bit]. assert (Hq : 16 <= f / (c * b)).
    { destruct H0 as [-> | (c0 & Hc0 & Hc1 & H0)]; [apply Z.div_le_lower_bound; lia|].
      rewrite Z.div_div in H0 by lia. pose proof (div_spec f (c0 * b) ltac:(nia) ltac:(lia)) as [G1 G2].
      apply Z.div_le_lower_bound; [nia|]. assert (65536 * (c0 * b) <= f) by nia. nia. }
    destruct (Z.ltb_spec (f / (c * b)) 16); [lia|]. specialize (Hn 0%nat c eq_refl). rewrite Z.add_0_r in Hn. rewrite Hn. unfold within. nia.
  - apply IH; [exact HF'| | |].
    + destruct pre as [|c' pre']; [exact I|]. right. exists c. split; [exact (HS 0%nat c c' eq_refl eq_refl)|]. split; [lia|]. rewrite Z.div_div by lia. exact Hle.
    + intros j x x' Hx Hx'. exact (HS (S j) x x' Hx Hx').
    + intros j x Hx. specialize (Hn (S j) x Hx). rewrite <- Hn. f_equal. lia.
Qed.
Lemma stm32_ok f st r r' : 0 < f < 2147483648 -> 0 < s_baud st -> 16 * s_baud st <= f ->
  stm32_setup f st r = SRet r' 0 -> within 1 f (s_baud st) (stm32_bit (rlive r')).
Proof.
  intros Hf Hb H16 H. set (b := s_baud st) in *.
  unfold stm32_setup in H; cbv zeta in H. apply lift in H; [|kps|apply stm32_err|fold b; lia]. destruct H as (l & El & ->). fold b in El.
  unfold stm32_baud in El. rewrite (proj2 (Z.eqb_neq b 0)) in El by lia.
  pose proof (stm32_loop_ok f b Hf Hb H16 [1; 2; 4; 6; 8; 10; 12; 16; 32; 64; 128; 256] 0) as K. rewrite El in K. apply K.
  - repeat constructor; lia.
  - left. reflexivity.
  - intros j c c' E1 E2. do 12 (destruct j as [|j]; [cbn in E1, E2; try discriminate E2; injection E1 as <-; injection E2 as <-; lia|]). destruct j; discriminate E1.
  - intros j c E1. do 12 (destruct j as [|j]; [cbn in E1; injection E1 as <-; reflexivity|]). destruct j; discriminate E1.
Qed.
(** SERCOM *)
Lemma sercom_ok f st r r' : 0 < f < 2147483648 -> 0 < s_baud st < 262144 ->
  sercom_setup f st r = SRet r' 0 -> sercom_within 64 f (s_baud st) (rlive r').
Proof.
  intros Hf Hb H. set (b := s_baud st) in *.
  unfold sercom_setup in H; cbv zeta in H. apply lift in H; [|kps|apply sercom_err|fold b; lia]. destruct H as (l & El & ->). fold b in El.
  unfold sercom_baud in El. rewrite (proj2 (Z.eqb_neq b 0)) in El by lia. cbv zeta in El. rewrite (u32_small (b * 16)) in El by lia.
  destruct (Z.ltb_spec f (b * 16)) as [Hx|Hx]; [discriminate El|]. rewrite (u32_small (b * 16 * 1024)) in El by lia.
  pose proof (div_spec (b * 16 * 1024) f ltac:(lia) ltac:(lia)) as [H1 H2].
  assert (H3 : b * 16 * 1024 / f <= 1024) by (apply Z.div_le_upper_bound; lia).
  set (x := b * 16 * 1024 / f) in *. rewrite (u32_small (1024 - x)) in El by lia. rewrite u32_small in El by lia.
  replace (65536 * (1024 - x)) with (64 * (1024 - x) * 1024) in El by lia. rewrite Z.div_mul in El by lia.
  destruct (Z.ltb_spec (64 * (1024 - x)) 65536) as [Hy|Hy]; [|discriminate El]. injection El as <-.
  unfold u16. rewrite Z.mod_small by lia. cbn [sercom_within]. clearbody x. nia.
Qed.
(** PL011: if something else is set too, so that UARTLCR_H is written. *)
Lemma pl011_ok f st r r' : 0 < f < 2147483648 -> 16 * s_baud st <= f < 16 * 65536 * s_baud st -> 0 < s_baud st ->
  s_cs st <> 0 \/ s_par st <> PIgnore \/ s_stop st <> SIgnore ->
  pl011_setup f st r = SRet r' 0 -> within 64 f (s_baud st) (pl011_bit (rlive r')).
Proof.
  intros Hf Hr Hb Ho H. set (b := s_baud st) in *.
  assert (E : exists l, pl011_baud f b = BOk l /\ rlive r' = l).
  { unfold pl011_setup, do_baud in H. fold b in H. rewrite (proj2 (Z.eqb_neq b 0)) in H by lia.
    destruct (pl011_baud f b) as [l|e|] eqn:EB; [| |discriminate H].
    - exists l. split; [reflexivity|]. cbn [andthen] in H. change (0 <? 0) with false in H. cbv iota in H.
      unfold do_cs, do_par, do_stop, pl011_cs, pl011_par, pl011_stop in H.
      destruct (Z.eqb_spec (s_cs st) 0) as [Ec|Ec].
      + cbn [andthen] in H. change (0 <? 0) with false in H. cbv iota in H.
        destruct (s_par st) eqn:Ep, (s_stop st) eqn:Es; cbn [andthen] in H; change (0 <? 0) with false in H; cbv iota in H; cbn [andthen] in H; change (0 <? 0) with false in H; cbv iota in H;
        try (injection H as <-; reflexivity). destruct Ho as [Ho | [Ho | Ho]]; [contradiction (Ho Ec)|contradiction (Ho eq_refl)|contradiction (Ho eq_refl)].
      + destruct ((s_cs st <? 5) || (8 <? s_cs st)).
        * cbn [andthen] in H. change (- C_EINVAL <? 0) with true in H. cbv iota in H. injection H as _ H. discriminate H.
        * cbn [andthen] in H. change (0 <? 0) with false in H. cbv iota in H.
          destruct (s_par st), (s_stop st); cbn [andthen] in H; change (0 <? 0) with false in H; cbv iota in H; cbn [andthen] in H; change (0 <? 0) with false in H; cbv iota in H;
          injection H as <-; reflexivity.
    - apply pl011_err in EB. cbn [andthen] in H. rewrite (proj2 (Z.ltb_lt _ _) EB) in H. injection H as _ H. lia. }
  destruct E as (l & El & ->).
  unfold pl011_baud in El. rewrite (proj2 (Z.eqb_neq b 0)) in El by lia. cbv zeta in El. rewrite (u32_small (16 * b)) in El by lia.
  rewrite (proj2 (Z.eqb_neq (16 * b) 0)) in El by lia.
  pose proof (div_spec f (16 * b) ltac:(lia) ltac:(lia)) as [H1 H2]. pose proof (div_ge1 f (16 * b) ltac:(lia) ltac:(lia)). pose proof (div_lt f (16 * b) 65536 ltac:(lia) ltac:(lia)).
  rewrite (field_small 65535) in El by lia. set (x := field 63 _) in El. assert (Hx : 0 <= x < 64) by (apply Z.mod_pos_bound; lia). injection El as <-.
  cbn [pl011_bit]. rewrite (proj2 (Z.eqb_neq (f / (16 * b)) 0)) by lia. unfold within. clearbody x. nia.
Qed.
