(** UartModel.v - uart_write and uart_read of the polled UART drivers (drivers/uart), on a model of the
    transmitter and receiver.

    Simplifications:
    - a character is a byte, a Z between 0 and 255; the number of bytes fits an int;
    - an assertion that fails takes its error exit (the release behaviour);
    - baud rate and frame format are in UartCfgModel.v. *)
From Verif Require Import Base.

Definition U_EAGAIN : Z := 11.
Definition U_EINVAL : Z := 22.

(** ** The hardware *)
(** What happens outside the program: a byte leaves the transmit queue for the line, the shift register gets
    or stops being busy, a byte comes in (with or without a framing error). *)
Inductive uev := Drain | Busy (b : bool) | Arrive (b : Z) (ferr : bool).
(** The transmit queue (data register or FIFO) with what went out on the line so far, the receive queue,
    all bytes the receiver ever took, the overrun flag. *)
Record uhw := mkUhw { u_txq : list Z; u_busy : bool; u_line : list Z;
                      u_rxq : list (Z * bool); u_acc : list (Z * bool); u_ovr : bool }.
(** What differs from one peripheral (and its driver) to the next. *)
Inductive txflag := NotFull | Empty.
Record udev := mkUdev {
  d_txdepth : nat;          (* bytes in the transmit queue *)
  d_txflag : txflag;        (* what the driver waits for *)
  d_rxdepth : nat;          (* bytes in the receive queue *)
  d_sticky : bool;          (* an overrun stops the receiver until software clears its flag *)
  d_ferr : bool;            (* the driver leaves a byte with a framing error where it is *)
  d_rxnone : Z }.           (* what uart_read returns when there is nothing *)

Definition uev_step (d : udev) (h : uhw) (e : uev) : uhw :=
  match e with
  | Drain => match u_txq h with
             | [] => h
             | b :: q => mkUhw q (u_busy h) (u_line h ++ [b]) (u_rxq h) (u_acc h) (u_ovr h)
             end
  | Busy x => mkUhw (u_txq h) x (u_line h) (u_rxq h) (u_acc h) (u_ovr h)
  | Arrive b f =>
      if d_sticky d && u_ovr h then h
      else if (length (u_rxq h) <? d_rxdepth d)%nat
           then mkUhw (u_txq h) (u_busy h) (u_line h) (u_rxq h ++ [(b mod 256, f)]) (u_acc h ++ [(b mod 256, f)]) (u_ovr h)
           else mkUhw (u_txq h) (u_busy h) (u_line h) (u_rxq h) (u_acc h) true
  end.
(** The world: what happens before each access to a register, any. *)
Definition uenv := list (list uev).
Definition utick (d : udev) (w : uenv) (h : uhw) : uenv * uhw :=
  (tl w, fold_left (uev_step d) (hd [] w) h).
(** The transmit flag of the status register. *)
Definition tx_ready (d : udev) (h : uhw) : bool :=
  match d_txflag d with
  | NotFull => (length (u_txq h) <? d_txdepth d)%nat
  | Empty => match u_txq h with [] => negb (u_busy h) | _ => false end
  end.
Definition rx_ready (h : uhw) : bool := match u_rxq h with [] => false | _ => true end.
Definition rx_ferr (h : uhw) : bool := match u_rxq h with (_, f) :: _ => f | [] => false end.
(** The data register: a write to a full queue is lost; a read takes the oldest byte. *)
Definition wr_data (d : udev) (b : Z) (h : uhw) : uhw :=
  if (length (u_txq h) <? d_txdepth d)%nat
  then mkUhw (u_txq h ++ [b mod 256]) (u_busy h) (u_line h) (u_rxq h) (u_acc h) (u_ovr h) else h.
Definition rd_data (h : uhw) : Z * uhw :=
  match u_rxq h with
  | [] => (0, h)
  | (b, _) :: q => (b, mkUhw (u_txq h) (u_busy h) (u_line h) q (u_acc h) (u_ovr h))
  end.

(** ** The loops. [k]: bytes sent or received so far. *)
(** uart-arm_pl011.c:220-225, and the same loop in uart-atmel_sercom.c:235-240, uart-atsamx7x.c:147-152,
    uart-atsamx7x_usart.c:262-267, uart-avr.c:164-171, uart-avr_irqdriven.c:307-314 (normal mode),
    uart-gd32vf103.c:193-198, uart-pic32mx.c:147-152, uart-renesas_ra4_sci.c:241-248, uart-sam3x.c:129-134,
    uart-stm32h7xx.c:307-312, uart-tinyavr_usart.c:181-188. *)
Fixpoint write_loop (d : udev) (buf : list Z) (k : nat) (w : uenv) (h : uhw) : uenv * uhw * nat :=
  match buf with
  | [] => (w, h, k)
  | b :: buf' =>
      let '(w, h) := utick d w h in
      if negb (tx_ready d h) then (w, h, k)
      else let '(w, h) := utick d w h in
           write_loop d buf' (S k) w (wr_data d b h)
  end.
(** uart_write: the same files, from the assertion on n to the return. *)
Definition uart_write (d : udev) (buf : list Z) (w : uenv) (h : uhw) : uenv * uhw * Z :=
  match buf with
  | [] => (w, h, - U_EINVAL)
  | _ => let '(w, h, k) := write_loop d buf 0 w h in
         (w, h, if (k =? 0)%nat then - U_EAGAIN else Z.of_nat k)
  end.
(** uart-arm_pl011.c:239-244, and the same loop in uart-atmel_sercom.c:254-259, uart-atsamx7x.c:166-171,
    uart-atsamx7x_usart.c:281-286, uart-avr.c:185-192, uart-avr_irqdriven.c:328-335, uart-gd32vf103.c:212-217,
    uart-pic32mx.c:166-171, uart-renesas_ra4_sci.c:262-269, uart-sam3x.c:148-153, uart-stm32h7xx.c:326-331;
    uart-tinyavr_usart.c:202-210 also looks at RXDATAH_FERR, one more access. *)
Fixpoint read_loop (d : udev) (n : nat) (got : list Z) (w : uenv) (h : uhw) : uenv * uhw * list Z :=
  match n with
  | O => (w, h, got)
  | S n' =>
      let '(w, h) := utick d w h in
      if negb (rx_ready h) then (w, h, got)
      else let '(w, h) := if d_ferr d then utick d w h else (w, h) in
           if d_ferr d && rx_ferr h then (w, h, got)
           else let '(w, h) := utick d w h in
                let '(b, h) := rd_data h in
                read_loop d n' (got ++ [b]) w h
  end.
(** uart_read: the same files; uart-arm_pl011.c:246 returns recv as it is. *)
Definition uart_read (d : udev) (n : nat) (w : uenv) (h : uhw) : uenv * uhw * Z * list Z :=
  match n with
  | O => (w, h, - U_EINVAL, [])
  | _ => let '(w, h, got) := read_loop d n [] w h in
         (w, h, if (length got =? 0)%nat then d_rxnone d else Z.of_nat (length got), got)
  end.

(** ** The devices. Depths from the data sheets; only sizes, flags and return values differ. *)
(** PL011: FIFOs on (uart-arm_pl011.c:101), 32 bytes; waits for not UARTFR_TXFF (:221); returns recv (:246). *)
Definition pl011 : udev := mkUdev 32 NotFull 32 false false 0.
(** SERCOM: INTFLAG_DRE (uart-atmel_sercom.c:236), data register; two-byte receive buffer. *)
Definition sercom : udev := mkUdev 1 NotFull 2 false false (- U_EAGAIN).
(** UART_SR_TXRDY (uart-atsamx7x.c:148; uart-sam3x.c:130). *)
Definition samuart : udev := mkUdev 1 NotFull 1 false false (- U_EAGAIN).
(** US_CSR_TXEMPTY (uart-atsamx7x_usart.c:263): register and shift register empty. *)
Definition samusart : udev := mkUdev 1 Empty 1 false false (- U_EAGAIN).
(** UCSRnA_UDRE (uart-avr.c:166, uart-avr_irqdriven.c:309). *)
Definition avr : udev := mkUdev 1 NotFull 2 false false (- U_EAGAIN).
(** USART_STAT_TBE (uart-gd32vf103.c:194). *)
Definition gd32 : udev := mkUdev 1 NotFull 1 false false (- U_EAGAIN).
(** Not UxSTA_UTXBF (uart-pic32mx.c:148); UxSTA_OERR stops the receiver until cleared. *)
Definition pic32 : udev := mkUdev 8 NotFull 8 true false (- U_EAGAIN).
(** SSR_TDRE (uart-renesas_ra4_sci.c:243), FIFO off (:113); SSR_ORER stops the receiver until cleared. *)
Definition ra4sci : udev := mkUdev 1 NotFull 1 true false (- U_EAGAIN).
(** ISR_TXFNF, FIFO on (uart-stm32h7xx.c:308, :175). *)
Definition stm32 : udev := mkUdev 16 NotFull 16 false false (- U_EAGAIN).
(** STATUS_DREIF (uart-tinyavr_usart.c:183); RXDATAH_FERR (:205). *)
Definition tinyavr : udev := mkUdev 1 NotFull 2 false true (- U_EAGAIN).

(** ** Programs: calls one after the other, and what they returned *)
Inductive ucall := CWrite (buf : list Z) | CRead (n : nat).
Inductive ures := RWrite (buf : list Z) (r : Z) | RRead (n : nat) (r : Z) (data : list Z).
Definition ucall1 (d : udev) (c : ucall) (w : uenv) (h : uhw) : uenv * uhw * ures :=
  match c with
  | CWrite buf => let '(w, h, r) := uart_write d buf w h in (w, h, RWrite buf r)
  | CRead n => let '(w, h, r, data) := uart_read d n w h in (w, h, RRead n r data)
  end.
Fixpoint urun (d : udev) (cs : list ucall) (w : uenv) (h : uhw) : uenv * uhw * list ures :=
  match cs with
  | [] => (w, h, [])
  | c :: cs' => let '(w, h, r) := ucall1 d c w h in
                let '(w, h, rs) := urun d cs' w h in (w, h, r :: rs)
  end.
Definition uhw0 : uhw := mkUhw [] false [] [] [] false.

(** ** NXP LINFlexD in UART mode (uart-nxp_linflexd.c:105-116: one-byte buffers) *)
(** The byte on its way, the line; UARTSR flags DTFTFF (end of transmission) and DRFRFE (byte received),
    both write-1-to-clear; BDRM; every byte received. A byte that comes in replaces the one in BDRM. *)
Inductive lev := LDone | LArrive (b : Z).
Record lhw := mkLhw { l_tx : option Z; l_line : list Z; l_dtf : bool; l_drf : bool; l_bdrm : Z; l_acc : list Z }.
Definition lev_step (h : lhw) (e : lev) : lhw :=
  match e with
  | LDone => match l_tx h with
             | Some b => mkLhw None (l_line h ++ [b]) true (l_drf h) (l_bdrm h) (l_acc h)
             | None => h
             end
  | LArrive b => mkLhw (l_tx h) (l_line h) (l_dtf h) true (b mod 256) (l_acc h ++ [b mod 256])
  end.
Definition lenv := list (list lev).
Definition ltick (w : lenv) (h : lhw) : lenv * lhw := (tl w, fold_left lev_step (hd [] w) h).
(** Bits 1 and 2 of UARTSR. *)
Definition rd_uartsr (h : lhw) : Z := (if l_dtf h then 2 else 0) + (if l_drf h then 4 else 0).
Definition wr_uartsr (v : Z) (h : lhw) : lhw :=
  mkLhw (l_tx h) (l_line h) (l_dtf h && negb (Z.testbit v 1)) (l_drf h && negb (Z.testbit v 2)) (l_bdrm h) (l_acc h).
(** Writing BDRL starts a transmission; the byte is lost if one is under way. *)
Definition wr_bdrl (b : Z) (h : lhw) : lhw :=
  match l_tx h with
  | None => mkLhw (Some (b mod 256)) (l_line h) (l_dtf h) (l_drf h) (l_bdrm h) (l_acc h)
  | Some _ => h
  end.
(** ctx->state: true for START. *)
Record lst := mkLst { l_hw : lhw; l_start : bool }.
(** uart-nxp_linflexd.c:236-249; `UARTSR |= DTFTFF` is a read and a write. *)
Fixpoint lin_write_loop (buf : list Z) (k : nat) (w : lenv) (s : lst) : lenv * lst * Z :=
  match buf with
  | [] => (w, s, if (k =? 0)%nat then - U_EAGAIN else Z.of_nat k)
  | b :: buf' =>
      if l_start s then
        let '(w, h) := ltick w (l_hw s) in
        lin_write_loop buf' (S k) w (mkLst (wr_bdrl (Z.land 255 b) h) false)
      else
        let '(w, h) := ltick w (l_hw s) in
        if Z.land (rd_uartsr h) 2 =? 0 then (w, mkLst h false, - U_EAGAIN)
        else
          let '(w, h) := ltick w h in
          let v := rd_uartsr h in
          let '(w, h) := ltick w h in
          let h := wr_uartsr (Z.lor v 2) h in
          let '(w, h) := ltick w h in
          lin_write_loop buf' (S k) w (mkLst (wr_bdrl (Z.land 255 b) h) false)
  end.
(** uart-nxp_linflexd.c:230-255 *)
Definition lin_write (buf : list Z) (w : lenv) (s : lst) : lenv * lst * Z :=
  match buf with [] => (w, s, - U_EINVAL) | _ => lin_write_loop buf 0 w s end.
(** uart-nxp_linflexd.c:263-269 *)
Fixpoint lin_read_loop (n : nat) (got : list Z) (w : lenv) (s : lst) : lenv * lst * list Z :=
  match n with
  | O => (w, s, got)
  | S n' =>
      let '(w, h) := ltick w (l_hw s) in
      if Z.land (rd_uartsr h) 4 =? 0 then (w, mkLst h (l_start s), got)
      else
        let '(w, h) := ltick w h in
        let h := wr_uartsr 4 h in
        let '(w, h) := ltick w h in
        lin_read_loop n' (got ++ [Z.land 255 (l_bdrm h)]) w (mkLst h (l_start s))
  end.
(** uart-nxp_linflexd.c:257-275 *)
Definition lin_read (n : nat) (w : lenv) (s : lst) : lenv * lst * Z * list Z :=
  match n with
  | O => (w, s, - U_EINVAL, [])
  | _ => let '(w, s, got) := lin_read_loop n [] w s in
         (w, s, if (length got =? 0)%nat then - U_EAGAIN else Z.of_nat (length got), got)
  end.
Definition lin_call1 (c : ucall) (w : lenv) (s : lst) : lenv * lst * ures :=
  match c with
  | CWrite buf => let '(w, s, r) := lin_write buf w s in (w, s, RWrite buf r)
  | CRead n => let '(w, s, r, data) := lin_read n w s in (w, s, RRead n r data)
  end.
Fixpoint lin_run (cs : list ucall) (w : lenv) (s : lst) : lenv * lst * list ures :=
  match cs with
  | [] => (w, s, [])
  | c :: cs' => let '(w, s, r) := lin_call1 c w s in
                let '(w, s, rs) := lin_run cs' w s in (w, s, r :: rs)
  end.
(** After uart_nxp_linflexd_init (:93-121). *)
Definition lin0 : lst := mkLst (mkLhw None [] false false 0 []) true.
