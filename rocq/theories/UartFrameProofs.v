(** UartFrameProofs.v - proofs about the frame formats of UartCfgModel.v. *)
From Verif Require Import Base UartCfgModel UartCfgSpec UartBaudProofs.

Lemma lift_frame (Q : sout -> Prop) baud live f st r k : (forall e, baud f (s_baud st) = BErr e -> e < 0) ->
  Q SUB -> (forall e, e < 0 -> Q (SRet r e)) -> (forall l l', Q (k (mkUreg (ra r) (rb r) (rc r) l l'))) -> Q (andthen (do_baud baud live f st r) k).
Proof.
  intros He Hu Hr Hk. unfold do_baud. destruct (s_baud st =? 0).
  - cbn [andthen]. change (0 <? 0) with false. cbv iota. specialize (Hk (rbaud r) (rlive r)). destruct r; exact Hk.
  - destruct (baud f (s_baud st)) as [l|e|]; [|specialize (He e eq_refl)|exact Hu].
    + cbn [andthen]. change (0 <? 0) with false. cbv iota. apply Hk.
    + cbn [andthen]. rewrite (proj2 (Z.ltb_lt _ _) He). apply Hr, He.
Qed.
Lemma range_cases lo hi cs : (cs <? lo) || (hi <? cs) = false -> lo <= cs <= hi.
Proof. intros H. apply orb_false_iff in H. destruct H as [A B]. apply Z.ltb_ge in A, B. lia. Qed.
Lemma lin_cases cs : (cs <=? 6) || (9 <=? cs) = false -> 7 <= cs <= 8.
Proof. intros H. apply orb_false_iff in H. destruct H as [A B]. apply Z.leb_gt in A, B. lia. Qed.
Ltac tbits := cbn [ra rb rc on_a on_b on_c lcr]; unfold set, clr; rewrite ?Z.lor_spec, ?Z.land_spec, ?Z.lor_spec, ?Z.land_spec, ?Z.lor_spec, ?Z.land_spec, ?Z.lor_spec, ?Z.land_spec, ?Z.lor_spec, ?Z.land_spec, ?Z.lor_spec, ?Z.land_spec, ?Z.lor_spec, ?Z.land_spec; rewrite ?Z.lnot_spec by lia;
  repeat match goal with |- context [Z.testbit ?c ?i] => let v := eval vm_compute in (Z.testbit c i) in match v with true => change (Z.testbit c i) with true | false => change (Z.testbit c i) with false end end;
  rewrite ?andb_false_r, ?orb_true_r, ?andb_true_r, ?orb_false_r; cbn [negb andb orb]; rewrite ?andb_false_r, ?orb_true_r, ?andb_true_r, ?orb_false_r.
Ltac splitbits := repeat match goal with |- context [Z.testbit ?c ?i] => destruct (Z.testbit c i) end.
Ltac fr_done := unfold bz, sam_parity, avr_parity, st_parity; cbv zeta; cbn [f_bits f_par f_stop]; tbits; first [reflexivity | f_equal; first [reflexivity | splitbits; reflexivity]].
Ltac cs_steps := repeat (cbn [andthen Z.eqb Pos.eqb]; change (0 <? 0) with false; change (- C_EINVAL <? 0) with true; cbv iota).
Lemma pl011_fr : frame_right pl011_setup pl011_frame (fun r => True).
Proof.
  intros f st r Hp Hf Hb Hc. unfold pl011_setup; cbv zeta.
  apply (lift_frame (fun o => match o with SRet r' x => if x =? 0 then pl011_frame r' = want st (pl011_frame r) else x < 0 /\ pl011_frame r' = pl011_frame r | SUB => True end)); [apply pl011_err|exact I| |].
  { intros e He. destruct (Z.eqb_spec e 0); [lia|]. split; [exact He|]. unfold pl011_frame. fr_done. }
  intros l l'. unfold do_cs, do_par, do_stop, pl011_cs, pl011_par, pl011_stop, want; cbv zeta.
  destruct (Z.eqb_spec (s_cs st) 0) as [Ec|Ec].
  - destruct (s_par st), (s_stop st); cs_steps; unfold pl011_frame; fr_done.
  - destruct ((s_cs st <? 5) || (8 <? s_cs st)) eqn:E.
    + cs_steps. split; [reflexivity|]. unfold pl011_frame. fr_done.
    + apply range_cases in E. assert (Hx : s_cs st = 5 \/ s_cs st = 6 \/ s_cs st = 7 \/ s_cs st = 8) by lia.
      destruct Hx as [->|[->|[->| ->]]]; (destruct (s_par st), (s_stop st); cs_steps; unfold pl011_frame; fr_done).
Qed.
Lemma sercom_fr : frame_right sercom_setup sercom_frame (fun r => True).
Proof.
  intros f st r Hp Hf Hb Hc. unfold sercom_setup; cbv zeta.
  apply (lift_frame (fun o => match o with SRet r' x => if x =? 0 then sercom_frame r' = want st (sercom_frame r) else x < 0 /\ sercom_frame r' = sercom_frame r | SUB => True end)); [apply sercom_err|exact I| |].
  { intros e He. destruct (Z.eqb_spec e 0); [lia|]. split; [exact He|]. unfold sercom_frame. fr_done. }
  intros l l'. unfold do_cs, do_par, do_stop, sercom_cs, sercom_par, sercom_stop, want; cbv zeta.
  destruct (Z.eqb_spec (s_cs st) 0) as [Ec|Ec].
  - destruct (s_par st), (s_stop st); cs_steps; unfold sercom_frame; fr_done.
  - destruct ((s_cs st <? 5) || (9 <? s_cs st)) eqn:E.
    + cs_steps. split; [reflexivity|]. unfold sercom_frame. fr_done.
    + apply range_cases in E. assert (Hx : s_cs st = 5 \/ s_cs st = 6 \/ s_cs st = 7 \/ s_cs st = 8 \/ s_cs st = 9) by lia.
      destruct Hx as [->|[->|[->|[->| ->]]]]; (destruct (s_par st), (s_stop st); cs_steps; unfold sercom_frame; fr_done).
Qed.
Lemma avr_fr : frame_right avr_setup avr_frame (fun r => True).
Proof.
  intros f st r Hp Hf Hb Hc. unfold avr_setup; cbv zeta.
  apply (lift_frame (fun o => match o with SRet r' x => if x =? 0 then avr_frame r' = want st (avr_frame r) else x < 0 /\ avr_frame r' = avr_frame r | SUB => True end)); [apply avr_err|exact I| |].
  { intros e He. destruct (Z.eqb_spec e 0); [lia|]. split; [exact He|]. unfold avr_frame. fr_done. }
  intros l l'. unfold do_cs, do_par, do_stop, avr_cs, avr_par, avr_stop, want; cbv zeta.
  destruct (Z.eqb_spec (s_cs st) 0) as [Ec|Ec].
  - destruct (s_par st), (s_stop st); cs_steps; unfold avr_frame; fr_done.
  - destruct ((s_cs st <? 5) || (8 <? s_cs st)) eqn:E.
    + cs_steps. split; [reflexivity|]. unfold avr_frame. fr_done.
    + apply range_cases in E. assert (Hx : s_cs st = 5 \/ s_cs st = 6 \/ s_cs st = 7 \/ s_cs st = 8) by lia.
      destruct Hx as [->|[->|[->| ->]]]; (destruct (s_par st), (s_stop st); cs_steps; unfold avr_frame; fr_done).
Qed.
Lemma tinyavr_fr : frame_right tinyavr_setup tinyavr_frame (fun r => True).
Proof.
  intros f st r Hp Hf Hb Hc. unfold tinyavr_setup; cbv zeta.
  apply (lift_frame (fun o => match o with SRet r' x => if x =? 0 then tinyavr_frame r' = want st (tinyavr_frame r) else x < 0 /\ tinyavr_frame r' = tinyavr_frame r | SUB => True end)); [apply tinyavr_err|exact I| |].
  { intros e He. destruct (Z.eqb_spec e 0); [lia|]. split; [exact He|]. unfold tinyavr_frame. fr_done. }
  intros l l'. unfold do_cs, do_par, do_stop, tinyavr_cs, tinyavr_par, tinyavr_stop, avr_par, avr_stop, want; cbv zeta.
  destruct (Z.eqb_spec (s_cs st) 0) as [Ec|Ec].
  - destruct (s_par st), (s_stop st); cs_steps; unfold tinyavr_frame; fr_done.
  - destruct ((s_cs st <? 5) || (8 <? s_cs st)) eqn:E.
    + cs_steps. split; [reflexivity|]. unfold tinyavr_frame. fr_done.
    + apply range_cases in E. assert (Hx : s_cs st = 5 \/ s_cs st = 6 \/ s_cs st = 7 \/ s_cs st = 8) by lia.
      destruct Hx as [->|[->|[->| ->]]]; (destruct (s_par st), (s_stop st); cs_steps; unfold tinyavr_frame; fr_done).
Qed.
Lemma lin_fr : frame_right lin_setup lin_frame (fun r => True).
Proof.
  intros f st r Hp Hf Hb Hc. unfold lin_setup; cbv zeta.
  apply (lift_frame (fun o => match o with SRet r' x => if x =? 0 then lin_frame r' = want st (lin_frame r) else x < 0 /\ lin_frame r' = lin_frame r | SUB => True end)); [apply lin_err|exact I| |].
  { intros e He. destruct (Z.eqb_spec e 0); [lia|]. split; [exact He|]. unfold lin_frame. fr_done. }
  intros l l'. unfold do_cs, do_par, do_stop, lin_cs, lin_par, lin_stop, want; cbv zeta.
  destruct (Z.eqb_spec (s_cs st) 0) as [Ec|Ec].
  - destruct (s_par st), (s_stop st); cs_steps; unfold lin_frame; fr_done.
  - destruct ((s_cs st <=? 6) || (9 <=? s_cs st)) eqn:E.
    + cs_steps. split; [reflexivity|]. unfold lin_frame. fr_done.
    + apply lin_cases in E. assert (Hx : s_cs st = 7 \/ s_cs st = 8) by lia.
      destruct Hx as [->| ->]; (destruct (s_par st), (s_stop st); cs_steps; unfold lin_frame; fr_done).
Qed.
Ltac sam_done := unfold bz, sam_parity, avr_parity, st_parity; cbv zeta; cbn [f_bits f_par f_stop]; tbits; match goal with H : Z.testbit _ 17 = false |- _ => rewrite ?H end; first [reflexivity | f_equal; first [reflexivity | splitbits; reflexivity]].
Lemma samusart_fr : frame_right samusart_setup samusart_frame (fun r => Z.testbit (ra r) 17 = false).
Proof.
  intros f st r Hp Hf Hb Hc. unfold samusart_setup; cbv zeta.
  apply (lift_frame (fun o => match o with SRet r' x => if x =? 0 then samusart_frame r' = want st (samusart_frame r) else x < 0 /\ samusart_frame r' = samusart_frame r | SUB => True end)); [apply samus_err|exact I| |].
  { intros e He. destruct (Z.eqb_spec e 0); [lia|]. split; [exact He|]. unfold samusart_frame. fr_done. }
  intros l l'. unfold do_cs, do_par, do_stop, samusart_cs, sam_par, samusart_stop, want; cbv zeta.
  destruct ((s_cs st <? 5) || (8 <? s_cs st)) eqn:E.
    + cs_steps. split; [reflexivity|]. unfold samusart_frame. fr_done.
    + apply range_cases in E. assert (Hx : s_cs st = 5 \/ s_cs st = 6 \/ s_cs st = 7 \/ s_cs st = 8) by lia.
      destruct Hx as [->|[->|[->| ->]]]; (destruct (s_par st), (s_stop st); cs_steps; unfold samusart_frame; sam_done).
Qed.

Ltac ra_done := unfold bz; cbv zeta; cbn [f_bits f_par f_stop]; tbits; match goal with H3 : Z.testbit _ 3 = _, H4 : Z.testbit _ 4 = _, H5 : Z.testbit _ 5 = _, H6 : Z.testbit _ 6 = _ |- _ => rewrite ?H3, ?H4, ?H5, ?H6 end; first [reflexivity | f_equal; first [reflexivity | splitbits; reflexivity]].
Ltac st_done := unfold bz, st_parity; cbv zeta; cbn [f_bits f_par f_stop]; tbits; match goal with H : Z.testbit _ 10 = false |- _ => rewrite ?H end; first [reflexivity | f_equal; first [reflexivity | splitbits; reflexivity]].
Lemma lift_ra4 (Q : sout -> Prop) f st r k : Q SUB -> (forall e, e < 0 -> Q (SRet r e)) ->
  (forall l l' v, v = ra r \/ (exists x, v = set (clr (ra r) 3) (Z.land x 3)) -> Q (k (mkUreg v (rb r) (rc r) l l'))) -> Q (andthen (ra4_do_baud f st r) k).
Proof.
  intros Hu Hr Hk. unfold ra4_do_baud, do_baud. destruct (s_baud st =? 0).
  - change (true || (0 <? 0)) with true. cbv iota. cbn [andthen]. change (0 <? 0) with false. cbv iota. specialize (Hk (rbaud r) (rlive r) (ra r) (or_introl eq_refl)). destruct r; exact Hk.
  - destruct (ra4_baud f (s_baud st)) as [l|e|] eqn:E; [| |exact Hu].
    + change (false || (0 <? 0)) with false. cbv iota. cbn [andthen]. change (0 <? 0) with false. cbv iota. apply Hk. right. eexists. reflexivity.
    + apply ra4_err in E. cbn [orb]. rewrite (proj2 (Z.ltb_lt _ _) E). cbn [andthen]. rewrite (proj2 (Z.ltb_lt _ _) E). apply Hr, E.
Qed.
Lemma ra4_fr : frame_right ra4_setup ra4_frame (fun _ => True).
Proof.
  intros f st r Hp Hf Hb Hc. unfold ra4_setup; cbv zeta.
  apply (lift_ra4 (fun o => match o with SRet r' x => if x =? 0 then ra4_frame r' = want st (ra4_frame r) else x < 0 /\ ra4_frame r' = ra4_frame r | SUB => True end)); [exact I| |].
  { intros e He. destruct (Z.eqb_spec e 0); [lia|]. split; [exact He|]. unfold ra4_frame. fr_done. }
  intros l l' v Hv. unfold do_cs, do_par, do_stop, ra4_cs, ra4_par, ra4_stop, want; cbv zeta. cbn [ra on_c] in Hv.
  assert (H3 : Z.testbit v 3 = Z.testbit (ra r) 3) by (destruct Hv as [->|[x ->]]; tbits; reflexivity).
  assert (H4 : Z.testbit v 4 = Z.testbit (ra r) 4) by (destruct Hv as [->|[x ->]]; tbits; reflexivity).
  assert (H5 : Z.testbit v 5 = Z.testbit (ra r) 5) by (destruct Hv as [->|[x ->]]; tbits; reflexivity).
  assert (H6 : Z.testbit v 6 = Z.testbit (ra r) 6) by (destruct Hv as [->|[x ->]]; tbits; reflexivity). clear Hv.
  destruct (Z.eqb_spec (s_cs st) 0) as [Ec|Ec].
  - destruct (s_par st), (s_stop st); cs_steps; unfold ra4_frame; ra_done.
  - destruct ((s_cs st <? 7) || (9 <? s_cs st)) eqn:E.
    + cs_steps. split; [reflexivity|]. unfold ra4_frame; ra_done.
    + apply range_cases in E. assert (Hx : s_cs st = 7 \/ s_cs st = 8 \/ s_cs st = 9) by lia.
      destruct Hx as [->|[->| ->]]; (destruct (s_par st), (s_stop st); cs_steps; unfold ra4_frame; ra_done).
Qed.
(** Drivers with limits. *)
Lemma samuart_fr f st r : s_cs st = 0 \/ s_cs st = 8 -> s_stop st <> S2 ->
  match samuart_setup f st r with SRet r' x => if x =? 0 then samuart_frame r' = want st (samuart_frame r) else x < 0 /\ samuart_frame r' = samuart_frame r | SUB => True end.
Proof.
  intros Hc Hs. unfold samuart_setup.
  apply (lift_frame (fun o => match o with SRet r' x => if x =? 0 then samuart_frame r' = want st (samuart_frame r) else x < 0 /\ samuart_frame r' = samuart_frame r | SUB => True end)); [apply sam_err|exact I| |].
  { intros e He. destruct (Z.eqb_spec e 0); [lia|]. split; [exact He|]. reflexivity. }
  intros l l'. unfold do_par, sam_par, want; cbv zeta.
  destruct Hc as [-> | ->]; (destruct (s_par st), (s_stop st); try contradiction (Hs eq_refl); cs_steps; unfold samuart_frame; fr_done).
Qed.
Lemma pic32_fr f st r : Z.testbit (ra r) 2 && Z.testbit (ra r) 1 = false -> s_cs st = 0 \/ s_cs st = 8 ->
  match pic32_setup f st r with SRet r' x => if x =? 0 then pic32_frame r' = want st (pic32_frame r) else x < 0 /\ pic32_frame r' = pic32_frame r | SUB => True end.
Proof.
  intros H9 Hc. unfold pic32_setup.
  apply (lift_frame (fun o => match o with SRet r' x => if x =? 0 then pic32_frame r' = want st (pic32_frame r) else x < 0 /\ pic32_frame r' = pic32_frame r | SUB => True end)); [apply pic32_err|exact I| |].
  { intros e He. destruct (Z.eqb_spec e 0); [lia|]. split; [exact He|]. reflexivity. }
  intros l l'. unfold do_par, do_stop, pic32_par, pic32_stop, want; cbv zeta.
  destruct Hc as [-> | ->]; (destruct (s_par st), (s_stop st); cs_steps; unfold pic32_frame;
  unfold bz; cbn [f_bits f_par f_stop]; tbits; revert H9; splitbits; intros H9; first [reflexivity|discriminate H9]).
Qed.
Lemma gd32_fr f st r : Z.testbit (ra r) 10 = false -> s_par st = PIgnore \/ s_par st = PNone -> 
  match gd32_setup f st r with SRet r' x => if x =? 0 then gd32_frame r' = want st (gd32_frame r) else x < 0 /\ gd32_frame r' = gd32_frame r | SUB => True end.
Proof.
  intros H9 Hp. unfold gd32_setup.
  apply (lift_frame (fun o => match o with SRet r' x => if x =? 0 then gd32_frame r' = want st (gd32_frame r) else x < 0 /\ gd32_frame r' = gd32_frame r | SUB => True end)); [apply gd32_err|exact I| |].
  { intros e He. destruct (Z.eqb_spec e 0); [lia|]. split; [exact He|]. reflexivity. }
  intros l l'. unfold do_cs, do_par, do_stop, gd32_cs, st_par, st_stop, want; cbv zeta.
  destruct (Z.eqb_spec (s_cs st) 0) as [Ec|Ec].
  - destruct Hp as [-> | ->], (s_stop st); cs_steps; unfold gd32_frame; st_done.
  - destruct ((s_cs st <? 8) || (9 <? s_cs st)) eqn:E.
    + cs_steps. split; [reflexivity|]. unfold gd32_frame; st_done.
    + apply range_cases in E. assert (Hx : s_cs st = 8 \/ s_cs st = 9) by lia.
      destruct Hx as [->| ->]; (destruct Hp as [-> | ->], (s_stop st); cs_steps; unfold gd32_frame; st_done).
Qed.
Lemma stm32_fr f st r : Z.testbit (ra r) 10 = false -> s_par st = PIgnore \/ s_par st = PNone ->
  match stm32_setup f st r with SRet r' x => if x =? 0 then stm32_frame r' = want st (stm32_frame r) else x < 0 /\ stm32_frame r' = stm32_frame r | SUB => True end.
Proof.
  intros H9 Hp. unfold stm32_setup; cbv zeta.
  apply (lift_frame (fun o => match o with SRet r' x => if x =? 0 then stm32_frame r' = want st (stm32_frame r) else x < 0 /\ stm32_frame r' = stm32_frame r | SUB => True end)); [apply stm32_err|exact I| |].
  { intros e He. destruct (Z.eqb_spec e 0); [lia|]. split; [exact He|]. unfold stm32_frame; st_done. }
  intros l l'. unfold do_cs, do_par, do_stop, stm32_cs, st_par, st_stop, want; cbv zeta.
  destruct (Z.eqb_spec (s_cs st) 0) as [Ec|Ec].
  - destruct Hp as [-> | ->], (s_stop st); cs_steps; unfold stm32_frame; st_done.
  - destruct ((s_cs st <? 7) || (8 <? s_cs st)) eqn:E.
    + cs_steps. split; [reflexivity|]. unfold stm32_frame; st_done.
    + apply range_cases in E. assert (Hx : s_cs st = 7 \/ s_cs st = 8) by lia.
      destruct Hx as [->| ->]; (destruct Hp as [-> | ->], (s_stop st); cs_steps; unfold stm32_frame; st_done).
Qed.

(** ** Accepted settings, and the UART on afterwards *)
Ltac acc := match goal with H : s_baud _ = 0 |- _ => unfold do_baud, ra4_do_baud; rewrite H end; cbn [In] in *; 
  unfold ra4_do_baud, do_baud, do_cs, do_par, do_stop, pl011_cs, pl011_par, pl011_stop, sercom_cs, sercom_par, sercom_stop, avr_cs, tinyavr_cs, tinyavr_par, tinyavr_stop, avr_par, avr_stop,
    lin_cs, lin_par, lin_stop, ra4_cs, ra4_par, ra4_stop, gd32_cs, stm32_cs, st_par, st_stop, pic32_par, pic32_stop, sam_par;
  repeat match goal with H : s_baud _ = 0 |- _ => rewrite H; clear H end;
  repeat match goal with H : _ \/ _ |- _ => destruct H as [H|H] | H : False |- _ => contradiction H end;
  repeat match goal with H : _ = s_cs ?st |- _ => rewrite <- H; clear H end;
  match goal with st : uset |- _ => destruct (s_par st), (s_stop st); eexists; reflexivity end.
Lemma pl011_acc : accepts pl011_setup [5; 6; 7; 8]. Proof. intros f st r Hb Hi. unfold pl011_setup. acc. Qed.
Lemma sercom_acc : accepts sercom_setup [5; 6; 7; 8; 9]. Proof. intros f st r Hb Hi. unfold sercom_setup. acc. Qed.
Lemma avr_acc : accepts avr_setup [5; 6; 7; 8]. Proof. intros f st r Hb Hi. unfold avr_setup. acc. Qed.
Lemma tinyavr_acc : accepts tinyavr_setup [5; 6; 7; 8]. Proof. intros f st r Hb Hi. unfold tinyavr_setup. acc. Qed.
Lemma lin_acc : accepts lin_setup [7; 8]. Proof. intros f st r Hb Hi. unfold lin_setup. acc. Qed.
Lemma ra4_acc : accepts ra4_setup [7; 8; 9]. Proof. intros f st r Hb Hi. unfold ra4_setup. acc. Qed.
Lemma gd32_acc : accepts gd32_setup [8; 9]. Proof. intros f st r Hb Hi. unfold gd32_setup. acc. Qed.
Lemma stm32_acc : accepts stm32_setup [7; 8]. Proof. intros f st r Hb Hi. unfold stm32_setup. acc. Qed.
Lemma last4 s k1 k2 k3 g r' : andthen s (fun r => andthen (k1 r) (fun r => andthen (k2 r) (fun r => andthen (k3 r) (fun r => SRet (g r) 0)))) = SRet r' 0 -> exists r0, r' = g r0.
Proof.
  intros H. do 4 (apply andthen_ret in H; destruct H as (? & ? & _ & H); destruct H as [(A & _ & B)|[_ H]]; [lia|]). injection H as <-. eexists. reflexivity.
Qed.
Lemma sercom_back f st r r' : sercom_setup f st r = SRet r' 0 -> sercom_on r' = true.
Proof. unfold sercom_setup. cbv zeta. intros H. apply last4 in H. destruct H as [r0 ->]. unfold sercom_on. tbits. reflexivity. Qed.
Lemma stm32_back f st r r' : stm32_setup f st r = SRet r' 0 -> stm32_on r' = true.
Proof. unfold stm32_setup. cbv zeta. intros H. apply last4 in H. destruct H as [r0 ->]. unfold stm32_on. tbits. reflexivity. Qed.
Lemma ra4_back f st r r' : ra4_setup f st r = SRet r' 0 -> ra4_on r' = true.
Proof. unfold ra4_setup. cbv zeta. intros H. apply last4 in H. destruct H as [r0 ->]. unfold ra4_on. tbits. reflexivity. Qed.
Lemma lin_back f st r r' : lin_setup f st r = SRet r' 0 -> lin_on r' = true.
Proof.
  intros H. assert (K : match lin_setup f st r with SRet r' x => x = 0 -> lin_on r' = true | SUB => True end); [|rewrite H in K; apply K; reflexivity].
  clear H r'. unfold lin_setup; cbv zeta.
  apply (lift_frame (fun o => match o with SRet r' x => x = 0 -> lin_on r' = true | SUB => True end)); [apply lin_err|exact I|intros e He; lia|].
  intros l l'. unfold do_cs, do_par, do_stop, lin_cs, lin_par, lin_stop; cbv zeta.
  destruct (s_cs st =? 0), ((s_cs st <=? 6) || (9 <=? s_cs st)); try (cs_steps; intros; discriminate);
  destruct (s_cs st =? 8), (s_par st), (s_stop st); cs_steps; intros _; unfold lin_on; tbits; reflexivity.
Qed.
