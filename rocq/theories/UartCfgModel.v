(** UartCfgModel.v - uart_setup of the UART drivers (drivers/uart): baud rate and frame format.

    Simplifications:
    - unsigned long has 32 bits (all these targets); clock_get_freq returns a frequency f, 0 < f < 2^31;
    - an assertion that fails takes its error exit (the release behaviour);
    - the busy waits of SERCOM (SYNCBUSY) and LINFlexD (LINSR) succeed;
    - the interrupt-driven variants of the AVR and SAM drivers have the same functions and are not repeated. *)
From Verif Require Import Base.

Definition C_EIO : Z := 5.
Definition C_EINVAL : Z := 22.
Definition u32 (x : Z) : Z := x mod 4294967296.
Definition u16 (x : Z) : Z := x mod 65536.

(** ** set_baudrate: the values that go to the registers, an error, or undefined behaviour (division by 0) *)
Inductive bres := BOk (regs : list Z) | BErr (e : Z) | BUB.
Definition field (m x : Z) : Z := x mod (m + 1).       (* x & m, for m = 2^k - 1 *)

(** uart-arm_pl011.c:129-144: UARTIBRD, UARTFBRD *)
Definition pl011_baud (f b : Z) : bres :=
  if b =? 0 then BErr (- C_EINVAL) else
  let divider := u32 (16 * b) in
  if divider =? 0 then BUB else
  let modulo := f mod divider in
  BOk [field 65535 (f / divider); field 63 (u32 (modulo * 100) / divider)].
(** uart-atmel_sercom.c:142-159: BAUD *)
Definition sercom_baud (f b : Z) : bres :=
  if b =? 0 then BErr (- C_EINVAL) else
  let factor1 := u32 (b * 16) in
  if f <? factor1 then BErr (- C_EINVAL) else
  let baud := u32 (65536 * u32 (1024 - u32 (factor1 * 1024) / f)) / 1024 in
  if baud <? 65536 then BOk [u16 baud] else BErr (- C_EINVAL).
(** uart-atsamx7x.c:89-102, uart-sam3x.c:71-84: UART_BRGR *)
Definition samuart_baud (f b : Z) : bres :=
  if b =? 0 then BErr (- C_EINVAL) else
  let divider := u32 (b * 16) in
  if divider =? 0 then BUB else BOk [field 65535 (f / divider)].
(** uart-atsamx7x_usart.c:168-183: US_BRGR *)
Definition samusart_baud (f b : Z) : bres :=
  if b =? 0 then BErr (- C_EINVAL) else
  let divider := u32 (b * 16) in
  if divider =? 0 then BUB else BOk [field 65535 (u32 (f + divider / 2) / divider)].
(** uart-pic32mx.c:76-89: UxBRG, 16 bits of it exist *)
Definition pic32_baud (f b : Z) : bres :=
  if b =? 0 then BErr (- C_EINVAL) else
  let divider := u32 (b * 16) in
  if divider =? 0 then BUB else BOk [u16 (u32 (f / divider - 1))].
(** uart-renesas_ra4_sci.c:117-142: BRR, SMR_CKS *)
Fixpoint ra4_loop (cks : list Z) (i : Z) (f b : Z) : bres :=
  match cks with
  | [] => BErr (- C_EIO)
  | c :: cks' =>
      let divider := u32 (64 * c / 2 * b) in
      if divider =? 0 then BUB else
      let brr := u32 (f / divider - 1) in
      if brr <=? 255 then BOk [brr; i] else ra4_loop cks' (i + 1) f b
  end.
Definition ra4_baud (f b : Z) : bres :=
  if b =? 0 then BErr (- C_EINVAL) else ra4_loop [1; 4; 16; 64] 0 f b.
(** uart-stm32h7xx.c:184-210: PRESC, BRR *)
Fixpoint stm32_loop (pre : list Z) (p : Z) (f b : Z) : bres :=
  match pre with
  | [] => BErr (- C_EINVAL)
  | x :: pre' =>
      let usartdiv := f / x / b in
      if usartdiv <=? 65535 then BOk [p; usartdiv] else stm32_loop pre' (p + 1) f b
  end.
Definition stm32_baud (f b : Z) : bres :=
  if b =? 0 then BErr (- C_EINVAL) else stm32_loop [1; 2; 4; 6; 8; 10; 12; 16; 32; 64; 128; 256] 0 f b.
(** uart-tinyavr_usart.c:85-98: BAUD *)
Definition tinyavr_baud (f b : Z) : bres :=
  if b =? 0 then BErr (- C_EINVAL) else
  let ipart := f / 16 / b in BOk [u16 (u32 (ipart * 64))].
(** uart-gd32vf103.c:100-116: USART_BAUD *)
Definition gd32_baud (f b : Z) : bres :=
  if b =? 0 then BErr (- C_EINVAL) else
  let divider := u32 (16 * b) in
  if divider =? 0 then BUB else
  let intdiv := f / divider in
  let modulo := f mod divider in
  if intdiv =? 0 then BUB else
  BOk [field 4095 intdiv * 16 + field 15 (u32 (modulo * 16) / intdiv)].
(** uart-avr.c:64-77, uart-avr_irqdriven.c: UBRRn, 12 bits of it exist *)
Definition avr_baud (f b : Z) : bres :=
  if b =? 0 then BErr (- C_EINVAL) else
  BOk [field 4095 (u16 (u32 (f / 8 / b - 1)))].
(** uart-nxp_linflexd.c:123-145: LINIBRR, LINFBRR *)
Definition linflexd_baud (f b : Z) : bres :=
  if b =? 0 then BErr (- C_EINVAL) else
  let divider := u32 (16 * b) in
  if divider =? 0 then BUB else
  let ibr := f / divider in
  let fbr := u32 (u32 ((f mod divider) * 16) + divider / 2) / divider in
  BOk [field 65535 ibr; field 15 fbr].

(** ** Registers *)
(** Up to three registers of the frame format, the baud rate registers as written, and those in use. *)
Record ureg := mkUreg { ra : Z; rb : Z; rc : Z; rbaud : list Z; rlive : list Z }.
Definition clr (r m : Z) : Z := Z.land r (Z.lnot m).
Definition set (r m : Z) : Z := Z.lor r m.
Definition on_a (g : Z -> Z) (r : ureg) : ureg := mkUreg (g (ra r)) (rb r) (rc r) (rbaud r) (rlive r).
Definition on_b (g : Z -> Z) (r : ureg) : ureg := mkUreg (ra r) (g (rb r)) (rc r) (rbaud r) (rlive r).
Definition on_c (g : Z -> Z) (r : ureg) : ureg := mkUreg (ra r) (rb r) (g (rc r)) (rbaud r) (rlive r).
(** enum uart_par_t, uart_cstopb_t, struct uart_settings (drivers/include/uart.h:13-43) *)
Inductive upar := PIgnore | PNone | POdd | PEven.
Inductive ustop := SIgnore | S1 | S2.
Record uset := mkUset { s_baud : Z; s_cs : Z; s_par : upar; s_stop : ustop }.
(** The end of a step or call: registers and returned value, or undefined behaviour. *)
Inductive sout := SRet (r : ureg) (x : Z) | SUB.
Definition andthen (s : sout) (k : ureg -> sout) : sout :=
  match s with SRet r x => if x <? 0 then s else k r | SUB => SUB end.
(** `if (settings->baudrate != 0 && (res = set_baudrate(...)) < 0) return res;` [live]: the values take
    effect as they are written. *)
Definition do_baud (baud : Z -> Z -> bres) (live : bool) (f : Z) (st : uset) (r : ureg) : sout :=
  if s_baud st =? 0 then SRet r 0 else
  match baud f (s_baud st) with
  | BOk l => SRet (mkUreg (ra r) (rb r) (rc r) l (if live then l else rlive r)) 0
  | BErr e => SRet r e
  | BUB => SUB
  end.
Definition do_cs (set_cs : Z -> ureg -> sout) (st : uset) (r : ureg) : sout :=
  if s_cs st =? 0 then SRet r 0 else set_cs (s_cs st) r.
Definition do_par (set_parity : upar -> ureg -> sout) (st : uset) (r : ureg) : sout :=
  match s_par st with PIgnore => SRet r 0 | p => set_parity p r end.
Definition do_stop (set_cstopb : ustop -> ureg -> sout) (st : uset) (r : ureg) : sout :=
  match s_stop st with SIgnore => SRet r 0 | s => set_cstopb s r end.

(** *** PL011: a = UARTLCR_H. Its data sheet (3.3.7): UARTIBRD and UARTFBRD are used after the next write to
    UARTLCR_H. *)
Definition lcr (g : Z -> Z) (r : ureg) : ureg := mkUreg (g (ra r)) (rb r) (rc r) (rbaud r) (rbaud r).
(** uart-arm_pl011.c:146-155 *)
Definition pl011_cs (cs : Z) (r : ureg) : sout :=
  if (cs <? 5) || (8 <? cs) then SRet r (- C_EINVAL)
  else SRet (lcr (fun v => set v (Z.shiftl (Z.land (cs - 5) 3) 5)) (lcr (fun v => clr v 96) r)) 0.
(** uart-arm_pl011.c:157-174 *)
Definition pl011_par (p : upar) (r : ureg) : sout :=
  match p with
  | PNone => SRet (lcr (fun v => clr v 2) r) 0
  | POdd => SRet (lcr (fun v => clr v 4) (lcr (fun v => set v 2) r)) 0
  | PEven => SRet (lcr (fun v => set v 4) (lcr (fun v => set v 2) r)) 0
  | PIgnore => SRet r (- C_EINVAL)
  end.
(** uart-arm_pl011.c:176-185 *)
Definition pl011_stop (s : ustop) (r : ureg) : sout :=
  match s with S2 => SRet (lcr (fun v => set v 8) r) 0 | S1 => SRet (lcr (fun v => clr v 8) r) 0 | SIgnore => SRet r (- C_EINVAL) end.
(** uart-arm_pl011.c:187-212 *)
Definition pl011_setup (f : Z) (st : uset) (r : ureg) : sout :=
  andthen (do_baud pl011_baud false f st r) (fun r => andthen (do_cs pl011_cs st r) (fun r =>
  andthen (do_par pl011_par st r) (fun r => andthen (do_stop pl011_stop st r) (fun r => SRet r 0)))).

(** *** SERCOM: a = CTRLA, b = CTRLB *)
(** uart-atmel_sercom.c:161-170 *)
Definition sercom_cs (cs : Z) (r : ureg) : sout :=
  if (cs <? 5) || (9 <? cs) then SRet r (- C_EINVAL)
  else SRet (on_b (fun v => set v (Z.land (cs mod 8) 7)) (on_b (fun v => clr v 7) r)) 0.
(** uart-atmel_sercom.c:172-186 *)
Definition sercom_par (p : upar) (r : ureg) : sout :=
  match p with
  | PIgnore => SRet r (- C_EINVAL)
  | _ =>
      let r := on_a (fun v => clr v (Z.shiftl 15 24)) r in
      match p with
      | PNone => SRet r 0
      | _ =>
        let r := on_a (fun v => set v (Z.shiftl 1 24)) r in
        match p with
        | POdd => SRet (on_b (fun v => set v (Z.shiftl 1 13)) r) 0
        | _ => SRet (on_b (fun v => clr v (Z.shiftl 1 13)) r) 0
        end
      end
  end.
(** uart-atmel_sercom.c:188-197 *)
Definition sercom_stop (s : ustop) (r : ureg) : sout :=
  match s with S2 => SRet (on_b (fun v => set v 64) r) 0 | S1 => SRet (on_b (fun v => clr v 64) r) 0 | SIgnore => SRet r (- C_EINVAL) end.
(** uart-atmel_sercom.c:199-227 *)
Definition sercom_setup (f : Z) (st : uset) (r : ureg) : sout :=
  let r := on_a (fun v => clr v 2) r in
  andthen (do_baud sercom_baud true f st r) (fun r => andthen (do_cs sercom_cs st r) (fun r =>
  andthen (do_par sercom_par st r) (fun r => andthen (do_stop sercom_stop st r) (fun r => SRet (on_a (fun v => set v 2) r) 0)))).

(** *** SAM UART: a = UART_MR *)
(** uart-atsamx7x.c:104-120, uart-sam3x.c:86-102; the same in uart-atsamx7x_usart.c:196-212 for US_MR *)
Definition sam_par (p : upar) (r : ureg) : sout :=
  match p with
  | PIgnore => SRet r (- C_EINVAL)
  | _ =>
      let r := on_a (fun v => clr v (Z.shiftl 7 9)) r in
      match p with
      | PNone => SRet (on_a (fun v => set v (Z.shiftl 4 9)) r) 0
      | POdd => SRet (on_a (fun v => set v (Z.shiftl 1 9)) r) 0
      | _ => SRet (on_a (fun v => set v 0) r) 0
      end
  end.
(** uart-atsamx7x.c:122-139, uart-sam3x.c:104-121 *)
Definition samuart_setup (f : Z) (st : uset) (r : ureg) : sout :=
  andthen (do_baud samuart_baud true f st r) (fun r => andthen (do_par sam_par st r) (fun r => SRet r 0)).
(** *** SAM USART: a = US_MR *)
(** uart-atsamx7x_usart.c:185-194 *)
Definition samusart_cs (cs : Z) (r : ureg) : sout :=
  if (cs <? 5) || (8 <? cs) then SRet r (- C_EINVAL)
  else SRet (on_a (fun v => set v (Z.shiftl (Z.land (cs - 5) 3) 6)) (on_a (fun v => clr v (Z.shiftl 3 6)) r)) 0.
(** uart-atsamx7x_usart.c:214-223 *)
Definition samusart_stop (s : ustop) (r : ureg) : sout :=
  match s with
  | SIgnore => SRet r (- C_EINVAL)
  | _ => let r := on_a (fun v => clr v (Z.shiftl 3 12)) r in
         match s with S2 => SRet (on_a (fun v => set v (Z.shiftl 2 12)) r) 0 | _ => SRet r 0 end
  end.
(** uart-atsamx7x_usart.c:225-254: set_cs whatever settings->cs is; the parity twice *)
Definition samusart_setup (f : Z) (st : uset) (r : ureg) : sout :=
  andthen (do_baud samusart_baud true f st r) (fun r => andthen (samusart_cs (s_cs st) r) (fun r =>
  andthen (do_par sam_par st r) (fun r => andthen (do_par sam_par st r) (fun r =>
  andthen (do_stop samusart_stop st r) (fun r => SRet r 0))))).

(** *** AVR: a = UCSRnC, b = UCSRnB *)
(** uart-avr.c:79-100 *)
Definition avr_cs (cs : Z) (r : ureg) : sout :=
  if (cs <? 5) || (8 <? cs) then SRet r (- C_EINVAL)
  else let r := on_a (fun v => clr v 6) (on_b (fun v => clr v 4) r) in
       SRet (if cs =? 6 then on_a (fun v => set v 2) r else if cs =? 7 then on_a (fun v => set v 4) r
             else if cs =? 8 then on_a (fun v => set v 6) r else r) 0.
(** uart-avr.c:102-116 *)
Definition avr_par (p : upar) (r : ureg) : sout :=
  match p with
  | PIgnore => SRet r (- C_EINVAL)
  | _ => let r := on_a (fun v => clr v 48) r in
         match p with PNone => SRet r 0 | POdd => SRet (on_a (fun v => set v 48) r) 0 | _ => SRet (on_a (fun v => set v 32) r) 0 end
  end.
(** uart-avr.c:118-127 *)
Definition avr_stop (s : ustop) (r : ureg) : sout :=
  match s with S2 => SRet (on_a (fun v => set v 8) r) 0 | S1 => SRet (on_a (fun v => clr v 8) r) 0 | SIgnore => SRet r (- C_EINVAL) end.
(** uart-avr.c:131-156 *)
Definition avr_setup (f : Z) (st : uset) (r : ureg) : sout :=
  andthen (do_baud avr_baud true f st r) (fun r => andthen (do_cs avr_cs st r) (fun r =>
  andthen (do_par avr_par st r) (fun r => andthen (do_stop avr_stop st r) (fun r => SRet r 0)))).

(** *** GD32VF103: a = USART_CTL0, b = USART_CTL1 *)
(** uart-gd32vf103.c:118-127 *)
Definition gd32_cs (cs : Z) (r : ureg) : sout :=
  if (cs <? 8) || (9 <? cs) then SRet r (- C_EINVAL)
  else SRet (if cs =? 9 then on_a (fun v => set v 4096) r else on_a (fun v => clr v 4096) r) 0.
(** uart-gd32vf103.c:129-145; uart-stm32h7xx.c:238-253: the same bits of CR1 *)
Definition st_par (p : upar) (r : ureg) : sout :=
  match p with
  | PIgnore => SRet r (- C_EINVAL)
  | PNone => SRet (on_a (fun v => clr v 1024) r) 0
  | POdd => SRet (on_a (fun v => set v 512) (on_a (fun v => set v 1024) r)) 0
  | PEven => SRet (on_a (fun v => clr v 512) (on_a (fun v => set v 1024) r)) 0
  end.
(** uart-gd32vf103.c:147-158; uart-stm32h7xx.c:255-266: the same bits of CR2 *)
Definition st_stop (s : ustop) (r : ureg) : sout :=
  match s with
  | SIgnore => SRet r (- C_EINVAL)
  | _ => let r := on_b (fun v => clr v (Z.shiftl 3 12)) r in
         match s with S2 => SRet (on_b (fun v => set v (Z.shiftl 2 12)) r) 0 | _ => SRet r 0 end
  end.
(** uart-gd32vf103.c:160-185 *)
Definition gd32_setup (f : Z) (st : uset) (r : ureg) : sout :=
  andthen (do_baud gd32_baud true f st r) (fun r => andthen (do_cs gd32_cs st r) (fun r =>
  andthen (do_par st_par st r) (fun r => andthen (do_stop st_stop st r) (fun r => SRet r 0)))).

(** *** STM32H7: a = CR1, b = CR2 *)
(** uart-stm32h7xx.c:212-236 *)
Definition stm32_cs (cs : Z) (r : ureg) : sout :=
  if (cs <? 7) || (8 <? cs) then SRet r (- C_EINVAL)
  else let r := on_a (fun v => clr v (Z.shiftl 1 28)) r in
       let r := on_a (fun v => clr v 4096) r in
       SRet (if cs =? 7 then on_a (fun v => set v (Z.shiftl 1 28)) r else on_a (fun v => clr v (Z.shiftl 1 28)) r) 0.
(** uart-stm32h7xx.c:268-299 *)
Definition stm32_setup (f : Z) (st : uset) (r : ureg) : sout :=
  let r := on_a (fun v => clr v 1) r in
  andthen (do_baud stm32_baud true f st r) (fun r => andthen (do_cs stm32_cs st r) (fun r =>
  andthen (do_par st_par st r) (fun r => andthen (do_stop st_stop st r) (fun r => SRet (on_a (fun v => set v 1) r) 0)))).

(** *** PIC32MX: a = UxMODE *)
(** uart-pic32mx.c:91-104 *)
Definition pic32_par (p : upar) (r : ureg) : sout :=
  match p with
  | PIgnore => SRet r (- C_EINVAL)
  | _ => let r := on_a (fun v => clr v 6) r in
         match p with PNone => SRet r 0 | POdd => SRet (on_a (fun v => set v 4) r) 0 | _ => SRet (on_a (fun v => set v 2) r) 0 end
  end.
(** uart-pic32mx.c:106-115 *)
Definition pic32_stop (s : ustop) (r : ureg) : sout :=
  match s with S2 => SRet (on_a (fun v => set v 1) r) 0 | S1 => SRet (on_a (fun v => clr v 1) r) 0 | SIgnore => SRet r (- C_EINVAL) end.
(** uart-pic32mx.c:117-139 *)
Definition pic32_setup (f : Z) (st : uset) (r : ureg) : sout :=
  andthen (do_baud pic32_baud true f st r) (fun r => andthen (do_par pic32_par st r) (fun r =>
  andthen (do_stop pic32_stop st r) (fun r => SRet r 0))).

(** *** RA4 SCI: a = SMR, b = SCMR, c = SCR *)
(** uart-renesas_ra4_sci.c:134-135, in set_baudrate: the clock select is in SMR *)
Definition ra4_do_baud (f : Z) (st : uset) (r : ureg) : sout :=
  match do_baud ra4_baud true f st r with
  | SRet r' x =>
      if (s_baud st =? 0) || (x <? 0) then SRet r' x
      else SRet (on_a (fun v => set v (Z.land (nth 1 (rbaud r') 0) 3)) (on_a (fun v => clr v 3) r')) x
  | SUB => SUB
  end.
(** uart-renesas_ra4_sci.c:144-170 *)
Definition ra4_cs (cs : Z) (r : ureg) : sout :=
  if (cs <? 7) || (9 <? cs) then SRet r (- C_EINVAL)
  else SRet (if cs =? 7 then on_b (fun v => set v 16) (on_a (fun v => set v 64) r)
             else if cs =? 8 then on_b (fun v => set v 16) (on_a (fun v => clr v 64) r)
             else on_b (fun v => clr v 16) r) 0.
(** uart-renesas_ra4_sci.c:172-190 *)
Definition ra4_par (p : upar) (r : ureg) : sout :=
  match p with
  | PIgnore => SRet r (- C_EINVAL)
  | PNone => SRet (on_a (fun v => clr v 32) r) 0
  | POdd => SRet (on_a (fun v => set v 16) (on_a (fun v => set v 32) r)) 0
  | PEven => SRet (on_a (fun v => clr v 16) (on_a (fun v => set v 32) r)) 0
  end.
(** uart-renesas_ra4_sci.c:191-200 *)
Definition ra4_stop (s : ustop) (r : ureg) : sout :=
  match s with S2 => SRet (on_a (fun v => set v 8) r) 0 | S1 => SRet (on_a (fun v => clr v 8) r) 0 | SIgnore => SRet r (- C_EINVAL) end.
(** uart-renesas_ra4_sci.c:202-233 *)
Definition ra4_setup (f : Z) (st : uset) (r : ureg) : sout :=
  let r := on_c (fun v => clr v 48) r in
  andthen (ra4_do_baud f st r) (fun r => andthen (do_cs ra4_cs st r) (fun r =>
  andthen (do_par ra4_par st r) (fun r => andthen (do_stop ra4_stop st r) (fun r => SRet (on_c (fun v => set v 48) r) 0)))).

(** *** tinyAVR: a = CTRLC *)
(** uart-tinyavr_usart.c:100-120 *)
Definition tinyavr_cs (cs : Z) (r : ureg) : sout :=
  if (cs <? 5) || (8 <? cs) then SRet r (- C_EINVAL)
  else SRet (on_a (fun v => set v (Z.land (cs - 5) 7)) (on_a (fun v => clr v 7) r)) 0.
(** uart-tinyavr_usart.c:122-135 *)
Definition tinyavr_par : upar -> ureg -> sout := avr_par.
(** uart-tinyavr_usart.c:137-146 *)
Definition tinyavr_stop : ustop -> ureg -> sout := avr_stop.
(** uart-tinyavr_usart.c:148-173 *)
Definition tinyavr_setup (f : Z) (st : uset) (r : ureg) : sout :=
  andthen (do_baud tinyavr_baud true f st r) (fun r => andthen (do_cs tinyavr_cs st r) (fun r =>
  andthen (do_par tinyavr_par st r) (fun r => andthen (do_stop tinyavr_stop st r) (fun r => SRet r 0)))).

(** *** LINFlexD: a = UARTCR, b = LINCR1 *)
(** uart-nxp_linflexd.c:161-184 *)
Definition lin_cs (cs : Z) (r : ureg) : sout :=
  if (cs <=? 6) || (9 <=? cs) then SRet r (- C_EINVAL)
  else let r := on_a (fun v => clr v 128) r in
       SRet (if cs =? 8 then on_a (fun v => set v 2) r else on_a (fun v => clr v 2) r) 0.
(** uart-nxp_linflexd.c:147-159 *)
Definition lin_par (p : upar) (r : ureg) : sout :=
  match p with
  | PIgnore => SRet r (- C_EINVAL)
  | PNone => SRet (on_a (fun v => clr v 8) (on_a (fun v => clr v 4) r)) 0
  | POdd => SRet (on_a (fun v => set v 8) (on_a (fun v => set v 4) r)) 0
  | PEven => SRet (on_a (fun v => clr v 8) (on_a (fun v => set v 4) r)) 0
  end.
(** uart-nxp_linflexd.c:186-197 *)
Definition lin_stop (s : ustop) (r : ureg) : sout :=
  match s with
  | SIgnore => SRet r (- C_EINVAL)
  | _ => let r := on_a (fun v => clr v (Z.shiftl 3 17)) r in
         match s with S2 => SRet (on_a (fun v => set v (Z.shiftl 1 17)) r) 0 | _ => SRet r 0 end
  end.
(** uart-nxp_linflexd.c:199-228; request_init_mode (:66-84) *)
Definition lin_setup (f : Z) (st : uset) (r : ureg) : sout :=
  let r := on_b (fun v => set (clr v 2) 1) r in
  andthen (do_baud linflexd_baud true f st r) (fun r => andthen (do_cs lin_cs st r) (fun r =>
  andthen (do_par lin_par st r) (fun r => andthen (do_stop lin_stop st r) (fun r => SRet (on_b (fun v => clr v 1) r) 0)))).
