(** PropUartCfg.v - C96, C97: what uart_setup makes of a baud rate and a frame format. *)
From Verif Require Import Base UartCfgModel UartCfgSpec UartBaudProofs UartFrameProofs.

(** * C96 - the baud rate *)
(** ** What holds *)
(** RA4: whatever the clock is, a rate below 2^21 is met up to a step of the generator, or refused. *)
Theorem C96_ra4 : forall f st r, 0 < f < 2147483648 -> 0 < s_baud st < 2097152 ->
  match ra4_setup f st r with SRet r' x => x = 0 -> within 1 f (s_baud st) (ra4_bit (rlive r')) | SUB => False end.
Proof. exact ra4_ok. Qed.
Print Assumptions C96_ra4.
(** STM32H7: if there are 16 clocks in a bit. *)
Theorem C96_stm32_partial : forall f st r r', 0 < f < 2147483648 -> 0 < s_baud st -> 16 * s_baud st <= f ->
  stm32_setup f st r = SRet r' 0 -> within 1 f (s_baud st) (stm32_bit (rlive r')).
Proof. exact stm32_ok. Qed.
Print Assumptions C96_stm32_partial.
(** SAM UART, PIC32, AVR: if the divider fits the register. *)
Theorem C96_samuart_partial : forall f st r r', 0 < f < 2147483648 -> 16 * s_baud st <= f < 16 * 65536 * s_baud st -> 0 < s_baud st ->
  samuart_setup f st r = SRet r' 0 -> within 1 f (s_baud st) (samuart_bit (rlive r')).
Proof. exact samuart_ok. Qed.
Print Assumptions C96_samuart_partial.
Theorem C96_pic32_partial : forall f st r r', 0 < f < 2147483648 -> 16 * s_baud st <= f < 16 * 65537 * s_baud st -> 0 < s_baud st ->
  pic32_setup f st r = SRet r' 0 -> within 1 f (s_baud st) (pic32_bit (rlive r')).
Proof. exact pic32_ok. Qed.
Print Assumptions C96_pic32_partial.
Theorem C96_avr_partial : forall f st r r', 0 < f < 2147483648 -> 8 * s_baud st <= f < 8 * 4097 * s_baud st -> 0 < s_baud st ->
  avr_setup f st r = SRet r' 0 -> within 1 f (s_baud st) (avr_bit (rlive r')).
Proof. exact avr_ok. Qed.
Print Assumptions C96_avr_partial.
(** SAM USART and LINFlexD round: the nearest rate there is; LINFlexD unless the fraction rounds up to 16/16. *)
Theorem C96_samusart_partial : forall f st r r', 0 < f < 2147483648 -> 8 * s_baud st <= f < 8 * 131071 * s_baud st -> 0 < s_baud st ->
  samusart_setup f st r = SRet r' 0 -> nearest f (s_baud st) (samuart_bit (rlive r')).
Proof. exact samusart_ok. Qed.
Print Assumptions C96_samusart_partial.
Theorem C96_linflexd_partial : forall f st r r', 0 < f < 2147483648 -> 16 * s_baud st <= f < 16 * 65536 * s_baud st -> 0 < s_baud st < 8388608 ->
  2 * (f mod (16 * s_baud st)) < 31 * s_baud st ->
  lin_setup f st r = SRet r' 0 -> nearest f (s_baud st) (lin_bit (rlive r')).
Proof. exact lin_ok. Qed.
Print Assumptions C96_linflexd_partial.
(** tinyAVR, GD32 and PL011 have a divider with a fraction that the drivers leave out or get wrong: they are
    right up to a step of the integer part only (64, 16 and 64 steps); PL011 if UARTLCR_H is written too. *)
Theorem C96_tinyavr_partial : forall f st r r', 0 < f < 2147483648 -> 16 * s_baud st <= f < 16 * 1024 * s_baud st -> 0 < s_baud st ->
  tinyavr_setup f st r = SRet r' 0 -> within 64 f (s_baud st) (tinyavr_bit (rlive r')).
Proof. exact tinyavr_ok. Qed.
Print Assumptions C96_tinyavr_partial.
Theorem C96_gd32_partial : forall f st r r', 0 < f < 2147483648 -> 16 * s_baud st <= f < 16 * 4096 * s_baud st -> 0 < s_baud st ->
  gd32_setup f st r = SRet r' 0 -> within 16 f (s_baud st) (gd32_bit (rlive r')).
Proof. exact gd32_ok. Qed.
Print Assumptions C96_gd32_partial.
Theorem C96_pl011_partial : forall f st r r', 0 < f < 2147483648 -> 16 * s_baud st <= f < 16 * 65536 * s_baud st -> 0 < s_baud st ->
  s_cs st <> 0 \/ s_par st <> PIgnore \/ s_stop st <> SIgnore ->
  pl011_setup f st r = SRet r' 0 -> within 64 f (s_baud st) (pl011_bit (rlive r')).
Proof. exact pl011_ok. Qed.
Print Assumptions C96_pl011_partial.
(** SERCOM: up to 64 of the generator's 65536 steps. *)
Theorem C96_sercom_partial : forall f st r r', 0 < f < 2147483648 -> 0 < s_baud st < 262144 ->
  sercom_setup f st r = SRet r' 0 -> sercom_within 64 f (s_baud st) (rlive r').
Proof. exact sercom_ok. Qed.
Print Assumptions C96_sercom_partial.

(** ** What does not *)
Definition r0 : ureg := mkUreg 0 0 0 [] [].
Definition only (b : Z) : uset := mkUset b 8 PNone S1.
(** The set of values the driver leaves, if uart_setup says 0. *)
Definition left_in (s : sout) : list Z := match s with SRet r' x => if x =? 0 then rlive r' else [] | SUB => [] end.
(** SAM UART: 50 baud of 84 MHz: 105000 does not fit 16 bits, 39464 is left: 133 baud. *)
Example C96_samuart_50 : left_in (samuart_setup 84000000 (only 50) r0) = [39464]. Proof. vm_compute. reflexivity. Qed.
Theorem C96_samuart_refuted : ~ baud_right samuart_setup samuart_bit.
Proof. intros H. pose proof (H 84000000 (only 50) r0 ltac:(lia) ltac:(cbn [only s_baud]; lia)) as K. vm_compute in K. discriminate (K eq_refl). Qed.
Print Assumptions C96_samuart_refuted.
Theorem C96_samusart_refuted : ~ baud_right samusart_setup samuart_bit.
Proof. intros H. pose proof (H 84000000 (only 50) r0 ltac:(lia) ltac:(cbn [only s_baud]; lia)) as K. vm_compute in K. discriminate (K eq_refl). Qed.
Print Assumptions C96_samusart_refuted.
(** PIC32: 4 Mbaud of 40 MHz: the divider is 0 - 1: 65535, 38 baud. *)
Example C96_pic32_4M : left_in (pic32_setup 40000000 (only 4000000) r0) = [65535]. Proof. vm_compute. reflexivity. Qed.
Theorem C96_pic32_refuted : ~ baud_right pic32_setup pic32_bit.
Proof. intros H. pose proof (H 40000000 (only 4000000) r0 ltac:(lia) ltac:(cbn [only s_baud]; lia)) as K. vm_compute in K. discriminate (K eq_refl). Qed.
Print Assumptions C96_pic32_refuted.
(** AVR: 300 baud of 16 MHz: 6665 does not fit 12 bits, 2569 is left: 778 baud. *)
Example C96_avr_300 : left_in (avr_setup 16000000 (only 300) r0) = [2569]. Proof. vm_compute. reflexivity. Qed.
Theorem C96_avr_refuted : ~ baud_right avr_setup avr_bit.
Proof. intros H. pose proof (H 16000000 (only 300) r0 ltac:(lia) ltac:(cbn [only s_baud]; lia)) as K. vm_compute in K. discriminate (K eq_refl). Qed.
Print Assumptions C96_avr_refuted.
(** tinyAVR: 115200 baud of 20 MHz: 640 and not 694, 125000 baud, 8.5 % off (more than a UART frame allows). *)
Example C96_tinyavr_115200 : left_in (tinyavr_setup 20000000 (only 115200) r0) = [640]. Proof. vm_compute. reflexivity. Qed.
Theorem C96_tinyavr_refuted : ~ baud_right tinyavr_setup tinyavr_bit.
Proof. intros H. pose proof (H 20000000 (only 115200) r0 ltac:(lia) ltac:(cbn [only s_baud]; lia)) as K. vm_compute in K. discriminate (K eq_refl). Qed.
Print Assumptions C96_tinyavr_refuted.
(** GD32: the fraction is divided by the integer part and not by the divider; above f / 16 that is a division by 0. *)
Example C96_gd32_zero : gd32_setup 8000000 (only 1000000) r0 = SUB. Proof. vm_compute. reflexivity. Qed.
Theorem C96_gd32_refuted : ~ baud_right gd32_setup gd32_bit.
Proof. intros H. pose proof (H 108000000 (only 115200) r0 ltac:(lia) ltac:(cbn [only s_baud]; lia)) as K. vm_compute in K. discriminate (K eq_refl). Qed.
Print Assumptions C96_gd32_refuted.
(** PL011: the fraction counts hundredths where the register has 64ths: 115200 baud of 125 MHz gives 67 and
    81 mod 64 = 17 where 52 is right; and a baud rate alone is never put to use. *)
Example C96_pl011_115200 : left_in (pl011_setup 125000000 (only 115200) r0) = [67; 17]. Proof. vm_compute. reflexivity. Qed.
Theorem C96_pl011_refuted : ~ baud_right pl011_setup pl011_bit.
Proof. intros H. pose proof (H 125000000 (only 115200) r0 ltac:(lia) ltac:(cbn [only s_baud]; lia)) as K. vm_compute in K. discriminate (K eq_refl). Qed.
Print Assumptions C96_pl011_refuted.
Theorem C96_pl011_alone : forall f b r r', pl011_setup f (mkUset b 0 PIgnore SIgnore) r = SRet r' 0 -> rlive r' = rlive r.
Proof. intros f b r r'. unfold pl011_setup, do_baud. cbn [s_baud]. destruct (b =? 0); [intros H; injection H as <-; reflexivity|]. destruct (pl011_baud f b) as [l|e|]; [intros H; injection H as <-; reflexivity| |discriminate].
  unfold andthen at 1. destruct (e <? 0); [intros H; injection H as <- _; reflexivity|intros H; injection H as <-; reflexivity]. Qed.
Print Assumptions C96_pl011_alone.
(** LINFlexD: a fraction that rounds up to 16/16 is written as 0: 1000 baud of 175600 Hz: 10 and not 11. *)
Example C96_linflexd_16 : left_in (lin_setup 175600 (only 1000) r0) = [10; 0]. Proof. vm_compute. reflexivity. Qed.
Theorem C96_linflexd_refuted : ~ baud_right lin_setup lin_bit.
Proof. intros H. pose proof (H 175600 (only 1000) r0 ltac:(lia) ltac:(cbn [only s_baud]; lia)) as K. vm_compute in K. discriminate (K eq_refl). Qed.
Print Assumptions C96_linflexd_refuted.
(** STM32H7: 2 Mbaud of 16 MHz: BRR 8, which the data sheet does not allow. *)
Theorem C96_stm32_refuted : ~ baud_right stm32_setup stm32_bit.
Proof. intros H. pose proof (H 16000000 (only 2000000) r0 ltac:(lia) ltac:(cbn [only s_baud]; lia)) as K. vm_compute in K. contradiction (K eq_refl). Qed.
Print Assumptions C96_stm32_refuted.
(** RA4: at 2^27 baud the divider is 0 modulo 2^32. *)
Theorem C96_ra4_refuted : ~ baud_right ra4_setup ra4_bit.
Proof. intros H. pose proof (H 100000000 (only 134217728) r0 ltac:(lia) ltac:(cbn [only s_baud]; lia)) as K. vm_compute in K. exact K. Qed.
Print Assumptions C96_ra4_refuted.
(** SERCOM: 9600 baud of 48 MHz: 65344 gives 8789 baud, 8.4 % slow. *)
Example C96_sercom_9600 : left_in (sercom_setup 48000000 (only 9600) r0) = [65344]. Proof. vm_compute. reflexivity. Qed.
Theorem C96_sercom_refuted : ~ sercom_right.
Proof. intros H. pose proof (H 48000000 (only 9600) r0 ltac:(lia) ltac:(cbn [only s_baud]; lia)) as K. vm_compute in K. discriminate (K eq_refl). Qed.
Print Assumptions C96_sercom_refuted.
(** ** The hypotheses are met *)
Example C96_runs : left_in (ra4_setup 48000000 (only 9600) r0) = [155; 0] /\ left_in (stm32_setup 100000000 (only 1200) r0) = [1; 41666]
  /\ left_in (samuart_setup 84000000 (only 115200) r0) = [45] /\ left_in (samusart_setup 84000000 (only 115200) r0) = [46]
  /\ left_in (pic32_setup 40000000 (only 115200) r0) = [20] /\ left_in (avr_setup 16000000 (only 9600) r0) = [207]
  /\ left_in (lin_setup 80000000 (only 115200) r0) = [43; 6].
Proof. vm_compute. repeat split. Qed.

(** * C97 - the frame format *)
Theorem C97_frames : frame_right pl011_setup pl011_frame (fun _ => True) /\ frame_right sercom_setup sercom_frame (fun _ => True)
  /\ frame_right avr_setup avr_frame (fun _ => True) /\ frame_right tinyavr_setup tinyavr_frame (fun _ => True)
  /\ frame_right ra4_setup ra4_frame (fun _ => True) /\ frame_right lin_setup lin_frame (fun _ => True)
  /\ frame_right samusart_setup samusart_frame (fun r => Z.testbit (ra r) 17 = false).
Proof. exact (conj pl011_fr (conj sercom_fr (conj avr_fr (conj tinyavr_fr (conj ra4_fr (conj lin_fr samusart_fr)))))). Qed.
Print Assumptions C97_frames.
(** They accept every number of data bits they can send. *)
Theorem C97_accepts : accepts pl011_setup [5; 6; 7; 8] /\ accepts sercom_setup [5; 6; 7; 8; 9] /\ accepts avr_setup [5; 6; 7; 8]
  /\ accepts tinyavr_setup [5; 6; 7; 8] /\ accepts ra4_setup [7; 8; 9] /\ accepts lin_setup [7; 8] /\ accepts gd32_setup [8; 9] /\ accepts stm32_setup [7; 8].
Proof. exact (conj pl011_acc (conj sercom_acc (conj avr_acc (conj tinyavr_acc (conj ra4_acc (conj lin_acc (conj gd32_acc stm32_acc))))))). Qed.
Print Assumptions C97_accepts.
(** SAM USART: settings that leave the number of data bits alone are refused. *)
Theorem C97_samusart_accepts_refuted : ~ accepts samusart_setup [].
Proof. intros H. destruct (H 84000000 (mkUset 0 0 PNone S1) r0 eq_refl (or_introl eq_refl)) as [r' K]. vm_compute in K. discriminate K. Qed.
Print Assumptions C97_samusart_accepts_refuted.
(** GD32 and STM32H7: right without parity ... *)
Theorem C97_gd32_partial : forall f st r, Z.testbit (ra r) 10 = false -> s_par st = PIgnore \/ s_par st = PNone ->
  match gd32_setup f st r with SRet r' x => if x =? 0 then gd32_frame r' = want st (gd32_frame r) else x < 0 /\ gd32_frame r' = gd32_frame r | SUB => True end.
Proof. exact gd32_fr. Qed.
Print Assumptions C97_gd32_partial.
Theorem C97_stm32_partial : forall f st r, Z.testbit (ra r) 10 = false -> s_par st = PIgnore \/ s_par st = PNone ->
  match stm32_setup f st r with SRet r' x => if x =? 0 then stm32_frame r' = want st (stm32_frame r) else x < 0 /\ stm32_frame r' = stm32_frame r | SUB => True end.
Proof. exact stm32_fr. Qed.
Print Assumptions C97_stm32_partial.
(** ... with it the parity bit takes the place of a data bit: 8E1 gives 7E1. *)
Definition s8E1 : uset := mkUset 0 8 PEven S1.
Definition frame_left (s : sout) (fr : ureg -> frame) : option frame := match s with SRet r' x => if x =? 0 then Some (fr r') else None | SUB => None end.
Example C97_8E1 : frame_left (gd32_setup 108000000 s8E1 r0) gd32_frame = Some (mkFrame 7 PEven 1) /\ frame_left (stm32_setup 100000000 s8E1 r0) stm32_frame = Some (mkFrame 7 PEven 1)
  /\ frame_left (pl011_setup 125000000 s8E1 r0) pl011_frame = Some (mkFrame 8 PEven 1) /\ frame_left (sercom_setup 48000000 s8E1 r0) sercom_frame = Some (mkFrame 8 PEven 1)
  /\ frame_left (samusart_setup 84000000 s8E1 r0) samusart_frame = Some (mkFrame 8 PEven 1) /\ frame_left (avr_setup 16000000 s8E1 r0) avr_frame = Some (mkFrame 8 PEven 1)
  /\ frame_left (tinyavr_setup 20000000 s8E1 r0) tinyavr_frame = Some (mkFrame 8 PEven 1) /\ frame_left (ra4_setup 48000000 s8E1 r0) ra4_frame = Some (mkFrame 8 PEven 1)
  /\ frame_left (lin_setup 80000000 s8E1 r0) lin_frame = Some (mkFrame 8 PEven 1).
Proof. vm_compute. repeat split. Qed.
Theorem C97_gd32_refuted : ~ frame_right gd32_setup gd32_frame (fun _ => True).
Proof. intros H. pose proof (H 108000000 s8E1 r0 I ltac:(lia) ltac:(cbn [s8E1 s_baud]; lia) ltac:(cbn [s8E1 s_cs]; lia)) as K. vm_compute in K. discriminate K. Qed.
Print Assumptions C97_gd32_refuted.
Theorem C97_stm32_refuted : ~ frame_right stm32_setup stm32_frame (fun _ => True).
Proof. intros H. pose proof (H 100000000 s8E1 r0 I ltac:(lia) ltac:(cbn [s8E1 s_baud]; lia) ltac:(cbn [s8E1 s_cs]; lia)) as K. vm_compute in K. discriminate K. Qed.
Print Assumptions C97_stm32_refuted.
(** SAM UART and PIC32: right for what they can do ... *)
Theorem C97_samuart_partial : forall f st r, s_cs st = 0 \/ s_cs st = 8 -> s_stop st <> S2 ->
  match samuart_setup f st r with SRet r' x => if x =? 0 then samuart_frame r' = want st (samuart_frame r) else x < 0 /\ samuart_frame r' = samuart_frame r | SUB => True end.
Proof. exact samuart_fr. Qed.
Print Assumptions C97_samuart_partial.
Theorem C97_pic32_partial : forall f st r, Z.testbit (ra r) 2 && Z.testbit (ra r) 1 = false -> s_cs st = 0 \/ s_cs st = 8 ->
  match pic32_setup f st r with SRet r' x => if x =? 0 then pic32_frame r' = want st (pic32_frame r) else x < 0 /\ pic32_frame r' = pic32_frame r | SUB => True end.
Proof. exact pic32_fr. Qed.
Print Assumptions C97_pic32_partial.
(** ... but what they cannot do they say 0 to as well: 7N1, 8N2. *)
Theorem C97_samuart_refuted : ~ frame_right samuart_setup samuart_frame (fun _ => True).
Proof. intros H. pose proof (H 84000000 (mkUset 0 8 PNone S2) r0 I ltac:(lia) ltac:(cbn [s_baud]; lia) ltac:(cbn [s_cs]; lia)) as K. vm_compute in K. discriminate K. Qed.
Print Assumptions C97_samuart_refuted.
Theorem C97_pic32_refuted : ~ frame_right pic32_setup pic32_frame (fun _ => True).
Proof. intros H. pose proof (H 40000000 (mkUset 0 7 PNone S1) r0 I ltac:(lia) ltac:(cbn [s_baud]; lia) ltac:(cbn [s_cs]; lia)) as K. vm_compute in K. discriminate K. Qed.
Print Assumptions C97_pic32_refuted.
(** ** The drivers that switch the UART off to change it *)
Theorem C97_back_on : forall f st r r',
  (sercom_setup f st r = SRet r' 0 -> sercom_on r' = true) /\ (stm32_setup f st r = SRet r' 0 -> stm32_on r' = true)
  /\ (ra4_setup f st r = SRet r' 0 -> ra4_on r' = true) /\ (lin_setup f st r = SRet r' 0 -> lin_on r' = true).
Proof. intros f st r r'. exact (conj (sercom_back f st r r') (conj (stm32_back f st r r') (conj (ra4_back f st r r') (lin_back f st r r')))). Qed.
Print Assumptions C97_back_on.
(** A refused setting leaves it off: nothing is sent or received until a setting is accepted. *)
Theorem C97_off_refuted : ~ keeps_on sercom_setup sercom_on /\ ~ keeps_on stm32_setup stm32_on /\ ~ keeps_on ra4_setup ra4_on /\ ~ keeps_on lin_setup lin_on.
Proof.
  split; [|split; [|split]]; intros H.
  - pose proof (H 48000000 (mkUset 0 4 PNone S1) (mkUreg 2 0 0 [] []) ltac:(lia) eq_refl) as K. vm_compute in K. discriminate K.
  - pose proof (H 48000000 (mkUset 0 4 PNone S1) (mkUreg 1 0 0 [] []) ltac:(lia) eq_refl) as K. vm_compute in K. discriminate K.
  - pose proof (H 48000000 (mkUset 0 4 PNone S1) (mkUreg 0 0 48 [] []) ltac:(lia) eq_refl) as K. vm_compute in K. discriminate K.
  - pose proof (H 48000000 (mkUset 0 4 PNone S1) (mkUreg 0 0 0 [] []) ltac:(lia) eq_refl) as K. vm_compute in K. discriminate K.
Qed.
Print Assumptions C97_off_refuted.
