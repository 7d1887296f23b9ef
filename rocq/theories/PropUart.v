(** PropUart.v - C94, C95: uart_write and uart_read of the polled UART drivers. *)
From Verif Require Import Base UartModel UartSpec UartProofs UartLinProofs.

(** ** C94: uart_write reports what it sends *)
(** All polled drivers but LINFlexD, any program of reads and writes, any behaviour of the line: what went
    out, then what waits in the hardware, is exactly what the returned counts say, in order, nothing lost,
    nothing twice; and every returned value is a count from 1 to n, -EAGAIN, or -EINVAL for n = 0. *)
Theorem C94_write : forall d cs w, In d polled -> Forall call_ok cs ->
  let '(_, h, rs) := urun d cs w uhw0 in
  u_line h ++ u_txq h = concat (told_sent <$> rs) /\
  Forall (fun r => match r with RWrite _ _ => ret_ok r | _ => True end) rs.
Proof. exact write_all. Qed.
Print Assumptions C94_write.
(** -EAGAIN only if there was no room when it looked (samusart: or the line was not idle). *)
Theorem C94_again : forall d buf w h, In d polled -> buf <> [] -> Forall is_byte buf -> (uart_write d buf w h).2 = -11 ->
  let h1 := (utick d w h).2 in
  (d_txdepth d <= length (u_txq h1))%nat \/ (d = samusart /\ (u_txq h1 <> [] \/ u_busy h1 = true)).
Proof. exact write_again. Qed.
Print Assumptions C94_again.
(** With room, and while the line stands still: as many as fit. *)
Theorem C94_room : forall d buf w h, In d polled -> d <> samusart -> quiet w -> buf <> [] -> (length (u_txq h) < d_txdepth d)%nat ->
  (uart_write d buf w h).2 = Z.of_nat (Nat.min (length buf) (d_txdepth d - length (u_txq h))).
Proof. exact write_room. Qed.
Print Assumptions C94_room.
(** Ten bytes to the 8-byte queue of a PIC32MX, one leaves on the way; then the rest. *)
Example C94_runs :
  let '(_, h, rs) := urun pic32 [CWrite [1;2;3;4;5;6;7;8;9;10]; CWrite [10]; CWrite []] [[]; []; []; [Drain]] uhw0 in
  rs = [RWrite [1;2;3;4;5;6;7;8;9;10] 9; RWrite [10] (-11); RWrite [] (-22)] /\ u_line h = [1] /\ u_txq h = [2;3;4;5;6;7;8;9].
Proof. vm_compute. repeat split; reflexivity. Qed.

(** LINFlexD: right for programs that write one byte at a time. *)
Theorem C94_linflexd_partial : forall cs w, Forall call1_byte cs ->
  let '(_, s, rs) := lin_run cs w lin0 in
  l_line (l_hw s) ++ match l_tx (l_hw s) with Some b => [b] | None => [] end = concat (told_sent <$> rs) /\
  Forall (fun r => match r with RWrite _ _ => ret_ok r | _ => True end) rs.
Proof. exact lin_all. Qed.
Print Assumptions C94_linflexd_partial.
(** But two bytes: the first is sent, and -EAGAIN returned (uart-nxp_linflexd.c:244-245), so the usual loop
    sends it again. *)
Theorem C94_linflexd_refuted : ~ (forall cs w, Forall call_ok cs ->
  let '(_, s, rs) := lin_run cs w lin0 in
  l_line (l_hw s) ++ match l_tx (l_hw s) with Some b => [b] | None => [] end = concat (told_sent <$> rs)).
Proof.
  intros H. pose proof (H [CWrite [65; 66]] [] ltac:(repeat constructor; unfold is_byte; lia)) as K. vm_compute in K. discriminate K.
Qed.
Print Assumptions C94_linflexd_refuted.
(** The line after the program repeats its call until it succeeds: A A B. *)
Example C94_linflexd_twice :
  let '(_, s, rs) := lin_run [CWrite [65; 66]; CWrite [65; 66]] [[]; []; [LDone]; []; []; []; [LDone]] lin0 in
  l_line (l_hw s) ++ match l_tx (l_hw s) with Some b => [b] | None => [] end = [65; 65; 66] /\
  rs = [RWrite [65; 66] (-11); RWrite [65; 66] 2].
Proof. vm_compute. split; reflexivity. Qed.

(** ** C95: uart_read delivers what was received *)
(** All polled drivers but LINFlexD, any program, any behaviour of the line: what the reads delivered, then
    what waits in the hardware, is exactly what the receiver took, in order; and the returned values are as
    in C94, for all but the PL011. *)
Theorem C95_read : forall d cs w, In d polled -> Forall call_ok cs ->
  let '(_, h, rs) := urun d cs w uhw0 in
  concat (told_recv <$> rs) ++ (fst <$> u_rxq h) = fst <$> u_acc h /\ (d <> pl011 -> Forall ret_ok rs).
Proof. exact read_all. Qed.
Print Assumptions C95_read.
(** Nothing delivered only if nothing waited; and while the line stands still, as many as wait and fit.
    (For the tinyAVR, see below.) *)
Theorem C95_again_partial : forall d n w h, In d polled -> d <> tinyavr -> n <> 0%nat -> (uart_read d n w h).2 = [] -> u_rxq (utick d w h).2 = [].
Proof. exact read_again. Qed.
Print Assumptions C95_again_partial.
Theorem C95_waiting_partial : forall d n w h, In d polled -> d <> tinyavr -> quiet w -> n <> 0%nat -> u_rxq h <> [] ->
  (uart_read d n w h).1.2 = Z.of_nat (Nat.min n (length (u_rxq h))).
Proof. exact read_waiting. Qed.
Print Assumptions C95_waiting_partial.
Example C95_runs :
  let '(_, h, rs) := urun stm32 [CRead 4; CRead 4] [[Arrive 7 false; Arrive 8 false; Arrive 9 true]; [Arrive 10 false]] uhw0 in
  rs = [RRead 4 4 [7; 8; 9; 10]; RRead 4 (-11) []] /\ u_rxq h = [].
Proof. vm_compute. split; reflexivity. Qed.
(** PL011: 0 when nothing waits, not -EAGAIN (uart-arm_pl011.c:246), so a program that tests for -EAGAIN
    uses a byte it never got. *)
Theorem C95_pl011_refuted : ~ (forall cs w, Forall call_ok cs -> Forall ret_ok (urun pl011 cs w uhw0).2).
Proof.
  intros H. pose proof (H [CRead 1] [] ltac:(repeat constructor)) as K.
  assert (E : (urun pl011 [CRead 1] [] uhw0).2 = [RRead 1 0 []]) by reflexivity. rewrite E in K. apply Forall_inv in K.
  cbn [ret_ok Nat.eqb] in K. destruct K as [[K | K] _]; lia.
Qed.
Print Assumptions C95_pl011_refuted.
(** tinyAVR: once a byte with a framing error is next, no read ever delivers anything again
    (uart-tinyavr_usart.c:204-206 leaves the byte in the receiver). *)
Theorem C95_tinyavr_wedged : forall cs w h b q, u_rxq h = (b, true) :: q ->
  Forall (fun r => match r with RRead n x _ => x = (if (n =? 0)%nat then -22 else -11) | _ => True end) (urun tinyavr cs w h).2.
Proof. intros cs w h b q H. apply run_stuck. unfold stuck, rx_ready, rx_ferr. rewrite H. split; reflexivity. Qed.
Print Assumptions C95_tinyavr_wedged.
Theorem C95_tinyavr_refuted : ~ (forall n w h, n <> 0%nat -> (uart_read tinyavr n w h).2 = [] -> u_rxq (utick tinyavr w h).2 = []).
Proof.
  intros H. pose proof (H 1%nat [[Arrive 0 true; Arrive 65 false]] uhw0 ltac:(discriminate) eq_refl) as K. vm_compute in K. discriminate K.
Qed.
Print Assumptions C95_tinyavr_refuted.
(** PIC32MX and RA4: after an overrun the receiver never takes another byte, whatever the program calls:
    nobody clears UxSTA_OERR or SSR_ORER. *)
Theorem C95_overrun_wedged : forall d cs w h, d = pic32 \/ d = ra4sci -> u_ovr h = true ->
  u_acc (urun d cs w h).1.2 = u_acc h.
Proof.
  intros d cs w h Hd H. assert (HS : d_sticky d = true) by (destruct Hd as [-> | ->]; reflexivity).
  exact (proj2 (run_shut d (u_acc h) HS cs w h (conj H eq_refl))).
Qed.
Print Assumptions C95_overrun_wedged.
(** Reached by two bytes that come in between two reads. *)
Example C95_overrun_runs :
  let '(_, h, rs) := urun ra4sci [CRead 1; CRead 1; CRead 1] [[Arrive 1 false; Arrive 2 false]; []; [Arrive 3 false]; [Arrive 4 false]] uhw0 in
  u_ovr h = true /\ rs = [RRead 1 1 [1]; RRead 1 (-11) []; RRead 1 (-11) []].
Proof. vm_compute. split; reflexivity. Qed.

(** LINFlexD: while nothing comes in during the call, the byte that waits is delivered, once. *)
Theorem C95_linflexd_partial : forall n w s, n <> 0%nat -> Forall (fun l : list lev => l = []) w ->
  let '(_, s', r, data) := lin_read n w s in
  if l_drf (l_hw s) then r = 1 /\ data = [l_bdrm (l_hw s) mod 256] /\ l_drf (l_hw s') = false /\ l_acc (l_hw s') = l_acc (l_hw s)
  else r = -11 /\ l_hw s' = l_hw s.
Proof. exact lin_read_quiet. Qed.
Print Assumptions C95_linflexd_partial.
(** uart_write throws received bytes away: it writes back all the flags it read (uart-nxp_linflexd.c:247). *)
Theorem C95_linflexd_write_refuted : exists w,
  let '(_, s, rs) := lin_run [CWrite [65]; CWrite [66]; CRead 1; CRead 1] w lin0 in
  l_acc (l_hw s) = [90] /\ rs = [RWrite [65] 1; RWrite [66] 1; RRead 1 (-11) []; RRead 1 (-11) []].
Proof. exists [[]; [LDone; LArrive 90]]. vm_compute. split; reflexivity. Qed.
Print Assumptions C95_linflexd_write_refuted.
(** A byte that comes in between the clearing of the flag and the reading of the data is delivered twice. *)
Theorem C95_linflexd_refuted : exists w,
  let '(_, s, rs) := lin_run [CRead 1; CRead 1] w lin0 in
  l_acc (l_hw s) = [90; 91] /\ concat (told_recv <$> rs) = [91; 91].
Proof. exists [[LArrive 90]; []; [LArrive 91]]. vm_compute. split; reflexivity. Qed.
Print Assumptions C95_linflexd_refuted.
