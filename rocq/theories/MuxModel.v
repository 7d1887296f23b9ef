(** MuxModel.v - pin multiplexers (drivers/mux): the calls of twelve drivers, and the pins behind their registers.

    Simplifications:
    - a register is a number, named by [mreg]; registers of one bit per pin that are written through set and clear registers are written
      bit by bit; no register write is refused (the drivers unlock PWPR and use EALLOW around theirs);
    - [reg &= ~(m << lo); reg |= (v & m) << lo] is one [put]: what the register holds in between is left out; pin % 8 and pin / 8 are
      written for pin & 7 and pin >> 3;
    - what the drivers assign to a whole register is written field by field;
    - a call the assertions refuse, and a call a driver does not have, is None, and changes nothing;
    - AFIO remapping, IMUX of the SIU, peripheral pin select, alternate pins of the tinyAVR and interrupts are left out. *)
From Verif Require Import Base.

(** The field of n bits at lo, read and written. *)
Definition mf (r lo n : Z) : Z := Z.land (Z.shiftr r lo) (Z.ones n).
Definition put (r lo n v : Z) : Z := Z.lor (Z.ldiff r (Z.shiftl (Z.ones n) lo)) (Z.shiftl (Z.land v (Z.ones n)) lo).
Definition isset (r i : Z) : bool := mf r i 1 =? 1.

(** Registers: STM32H7; GD32; PIO (PSR, OSR, ABCDSR0, ABCDSR1, pull-ups enabled); SAME5x (DIR, OUT, PMUXn, PINCFGn); TI; SIUL2 (MSCR,
    IMCR); RP2040 (CTRL, PADS); RA4 (PFS); AVR (DDR, PORT); tinyAVR (DIR, PINnCTRL); PIC32 (ANSEL, TRIS, CNPU, CNPD); SIU (PCR) *)
Inductive mreg :=
| MODER | OTYPER | PUPDR | AFRL | AFRH
| CTL (i : Z) | OCTL
| PSR | OSR | ABCD0 | ABCD1 | PUEN
| DIR | OUTR | PMUX (i : Z) | PINCFG (i : Z)
| GMUX (i : Z) | MUXR (i : Z) | GPDIR | GPPUD | QSEL (i : Z)
| MSCR (i : Z) | IMCR (i : Z)
| CTRL (i : Z) | PADS (i : Z)
| PFS (i : Z)
| DDR | PORT
| TDIR | PINCTRL (i : Z)
| ANSEL | TRIS | CNPU | CNPD
| PCR (i : Z).
Global Instance mreg_eq : EqDecision mreg.
Proof. solve_decision. Defined.
Definition mst := mreg -> Z.
Definition wr (r : mreg) (v : Z) (s : mst) : mst := fun r' => if decide (r' = r) then v else s r'.
(** field of a register := v *)
Definition wf (r : mreg) (lo n v : Z) (s : mst) : mst := wr r (put (s r) lo n v) s.

Inductive mdrv := MStm | MGd | MAtmel | MSam3x | MSame5x | MTi | MSiul2 | MRp | MRa4 | MAvr | MTiny | MPic | MSiu.
(** Calls: input, output, both, with the function of the pin as the driver's enumeration has it (TI: 4 * gmux + mux; SIUL2's input: also
    the IMCR; AVR's output: the value); analog; alternate function; pulls; output types; GD32's input mode, output mode and afio mode
    with speed; RP2040's drive strength and override; TI's qualification. *)
Inductive mcall :=
| CIn (f : Z) | CInImcr (f j : Z) | COut (f : Z) | CIo (f : Z) | CAnalog | CAlt (k : Z) | CUp | CDown | CPushPull | COpenDrain
| CInMode (m : Z) | COutMode (m sp : Z) | CAfio (m sp : Z) | CDrive (k : Z) | COver (k : Z) | CQsel (k : Z).

Definition below (x n : Z) : bool := (0 <=? x) && (x <? n).
(** mux-stm32h7xx.c: analog :60, output :80, input :101, alt :122, pull_up :156, pull_down :177, push_pull :188, open_drain :196 *)
Definition stm_mux (c : mcall) (p : Z) (s : mst) : option mst :=
  if negb (below p 16) then None else
  match c with
  | CAnalog => Some (wf MODER (2 * p) 2 3 s)
  | COut _ => Some (wf MODER (2 * p) 2 1 s)
  | CIn _ => Some (wf MODER (2 * p) 2 0 s)
  | CAlt k => if negb (below k 16) then None else
      let s1 := wf MODER (2 * p) 2 2 s in
      Some (if p <? 8 then wf AFRL (4 * p) 4 k s1 else wf AFRH (4 * (p - 8)) 4 k s1)
  | CUp => Some (wf PUPDR (2 * p) 2 1 s)
  | CDown => Some (wf PUPDR (2 * p) 2 2 s)
  | CPushPull => Some (wf OTYPER p 1 0 s)
  | COpenDrain => Some (wf OTYPER p 1 1 s)
  | _ => None
  end.
(** speed to MD (mux-gd32vf103.c:155, :199): 10 MHz, 2 MHz, 50 MHz *)
Definition gd_md (sp : Z) : Z := sp + 1.
(** mux-gd32vf103.c: analog :56, input :82, output :132, afio :177; BOP and BC set and clear the bit of OCTL *)
Definition gd_mux (c : mcall) (p : Z) (s : mst) : option mst :=
  if negb (below p 16) then None else
  let r := CTL (p / 8) in let sh := 4 * (p mod 8) in
  match c with
  | CAnalog => Some (wf r sh 4 0 s)
  | CInMode m => if negb (below m 3) then None else
      if m =? 0 then Some (wf r sh 4 4 s)
      else if m =? 1 then Some (wf r sh 4 8 (wf OCTL p 1 0 s))
      else Some (wf r sh 4 8 (wf OCTL p 1 1 s))
  | COutMode m sp => if negb (below m 2 && below sp 3) then None else Some (wf r sh 4 (4 * m + gd_md sp) s)
  | CAfio m sp => if negb (below m 2 && below sp 3) then None else Some (wf r sh 4 ((if m =? 0 then 8 else 12) + gd_md sp) s)
  | _ => None
  end.
(** mux_atmel_pio (mux-atmel_pio.c:80): 0 disable, 1 gpio, 2 .. 5 A .. D; mux_sam3x_pio (mux-sam3x_pio.c:79): 0, 1, 2 A, 3 B *)
Definition pio_sel (sam3x : bool) (f p : Z) (s : mst) : option mst :=
  if negb (below f (if sam3x then 4 else 6)) then None else
  if f =? 0 then Some (wf PSR p 1 0 s)
  else if f =? 1 then Some (wf PSR p 1 1 s)
  else let s1 := wf ABCD0 p 1 ((f - 2) mod 2) (wf PSR p 1 0 s) in
       Some (if sam3x then s1 else wf ABCD1 p 1 ((f - 2) / 2) s1).
(** mux-atmel_pio.c: input :137, output :163, pull_up :188; mux-sam3x_pio.c: :122, :148, :173 *)
Definition pio_mux (sam3x : bool) (c : mcall) (p : Z) (s : mst) : option mst :=
  if negb (below p 32) then None else
  match c with
  | CIn f => match pio_sel sam3x f p s with Some s1 => Some (wf OSR p 1 0 s1) | None => None end
  | COut f => match pio_sel sam3x f p s with Some s1 => Some (wf OSR p 1 1 s1) | None => None end
  | CUp => Some (wf PUEN p 1 1 s)
  | _ => None
  end.
(** set_pmux (mux-same5x.c:51) *)
Definition e5_pmux (p f : Z) (s : mst) : mst := wf (PMUX (p / 2)) (4 * (p mod 2)) 4 f s.
(** mux-same5x.c: input :82, output :107, pull_up :131, pull_down :149; 14 is MUX_PMUX_GPIO *)
Definition e5_mux (c : mcall) (p : Z) (s : mst) : option mst :=
  if negb (below p 32) then None else
  match c with
  | CIn f => if negb (below f 15) then None else
      Some (wf DIR p 1 0 (if f =? 14 then s else wr (PINCFG p) 3 (e5_pmux p f s)))
  | COut f => if negb (below f 15) then None else
      Some (wf DIR p 1 1 (if f =? 14 then s else wr (PINCFG p) 1 (e5_pmux p f s)))
  | CUp => Some (wf (PINCFG p) 2 1 1 s)
  | CDown => Some (wf (PINCFG p) 2 1 1 s)
  | _ => None
  end.
(** set_mux (mux-ti_f28x.c:21), output :77, input :105, pull_up :131, set_qsel :153 *)
Definition ti_set_mux (p gmux mux : Z) (s : mst) : mst :=
  let i := if p <? 16 then 1 else 2 in let sh := if p <? 16 then 2 * p else 2 * (p - 16) in
  wf (MUXR i) sh 2 mux (wf (GMUX i) sh 2 gmux s).
Definition ti_mux (c : mcall) (p : Z) (s : mst) : option mst :=
  if negb (below p 32) then None else
  match c with
  | COut f => if negb (below (f / 4) 4 && below (f mod 4) 4) then None else Some (ti_set_mux p (f / 4) (f mod 4) (wf GPDIR p 1 1 s))
  | CIn f => if negb (below (f / 4) 4 && below (f mod 4) 4) then None else Some (ti_set_mux p (f / 4) (f mod 4) (wf GPDIR p 1 0 s))
  | CUp => Some (wf GPPUD p 1 0 s)
  | CQsel k => if negb (below k 4) then None else
      Some (if p <? 16 then wf (QSEL 1) (2 * p) 2 k s else wf (QSEL 2) (2 * (p - 16)) 2 k s)
  | _ => None
  end.
(** mux-nxp_siul2.c: output :79, input :107, analog :133, pull_up :151, pull_down :170 *)
Definition siul2_mux (c : mcall) (p : Z) (s : mst) : option mst :=
  if negb (below p 264) then None else
  match c with
  | COut f => if negb (below f 6) then None else Some (wf (MSCR p) 28 2 3 (wf (MSCR p) 25 1 1 (wf (MSCR p) 0 4 f s)))
  | CInImcr f j => if negb (below f 6 && below j 512) then None else Some (wr (IMCR j) f (wf (MSCR p) 19 1 1 s))
  | CAnalog => Some (wr (MSCR p) (2 ^ 22 + 2 ^ 19) s)
  | CUp => Some (wf (MSCR p) 16 2 3 s)
  | CDown => Some (wf (MSCR p) 16 2 1 s)
  | _ => None
  end.
(** mux-rp2040.c: io :87, input :116, output :145, pull_up :172, pull_down :193, override :215, set_drive :239; pads: IE 64, OD 128, 4 mA
    16, PDE 4, SCHMITT 2 *)
Definition rp_mux (c : mcall) (p : Z) (s : mst) : option mst :=
  if negb (below p 30) then None else
  match c with
  | CIo f => if negb (below f 10) then None else Some (wr (PADS p) (64 + 16 + 2) (wr (CTRL p) (put 0 0 5 f) s))
  | CIn f => if negb (below f 10) then None else Some (wr (PADS p) (128 + 64 + 16 + 2) (wr (CTRL p) (put 0 0 5 f) s))
  | COut f => if negb (below f 10) then None else Some (wr (PADS p) (16 + 4 + 2) (wr (CTRL p) (put 0 0 5 f) s))
  | CUp => Some (wf (PADS p) 2 1 0 (wf (PADS p) 3 1 1 s))
  | CDown => Some (wf (PADS p) 3 1 0 (wf (PADS p) 2 1 1 s))
  | COver k => if negb (below k 4) then None else Some (wf (CTRL p) 8 2 k s)
  | CDrive k => if negb (below k 4) then None else Some (wf (PADS p) 4 2 k s)
  | _ => None
  end.
(** mux-renesas_ra4.c: output :78, input :101, analog :124, periph :148, pull_up :172; pin 16 * port + pin *)
Definition ra4_mux (c : mcall) (p : Z) (s : mst) : option mst :=
  if negb (below p 160) then None else
  match c with
  | COut _ => Some (wr (PFS p) 4 s)
  | CIn _ => Some (wr (PFS p) 0 s)
  | CAnalog => Some (wr (PFS p) 32768 s)
  | CAlt k => if negb (below k 32) then None else Some (wr (PFS p) (put (put 0 24 5 k) 16 1 1) s)
  | CUp => Some (wf (PFS p) 4 1 1 s)
  | _ => None
  end.
(** mux-avr.c: input :42, output :61 *)
Definition avr_mux (c : mcall) (p : Z) (s : mst) : option mst :=
  if negb (below p 8) then None else
  match c with
  | CIn _ => Some (wf DDR p 1 0 s)
  | COut v => Some (wf PORT p 1 (if v =? 0 then 0 else 1) (wf DDR p 1 1 s))
  | _ => None
  end.
(** mux-tinyavr.c: input :60, output :78, pull_up :96 *)
Definition tiny_mux (c : mcall) (p : Z) (s : mst) : option mst :=
  if negb (below p 8) then None else
  match c with
  | CIn _ => Some (wf TDIR p 1 0 s)
  | COut _ => Some (wf TDIR p 1 1 s)
  | CUp => Some (wr (PINCTRL p) 8 s)
  | _ => None
  end.
(** mux-pic32mx.c: analog :61, input :80, output :99, pull_up :156, pull_down :175 *)
Definition pic_mux (c : mcall) (p : Z) (s : mst) : option mst :=
  if negb (below p 16) then None else
  match c with
  | CAnalog => Some (wf TRIS p 1 1 (wf ANSEL p 1 1 s))
  | CIn _ => Some (wf TRIS p 1 1 (wf ANSEL p 1 0 s))
  | COut _ => Some (wf TRIS p 1 0 (wf ANSEL p 1 0 s))
  | CUp => Some (wf CNPD p 1 0 (wf CNPU p 1 1 s))
  | CDown => Some (wf CNPU p 1 0 (wf CNPD p 1 1 s))
  | _ => None
  end.
(** mux-nxp_siu.c: output :141, input :170, pull_up :221, pull_down :239 *)
Definition siu_mux (c : mcall) (p : Z) (s : mst) : option mst :=
  if negb (below p 512) then None else
  match c with
  | COut f => if negb (below f 4) then None else Some (wf (PCR p) 2 2 3 (wf (PCR p) 6 2 3 (wf (PCR p) 8 1 0 (wf (PCR p) 9 1 1 (wf (PCR p) 10 3 f s)))))
  | CIn f => if negb (below f 4) then None else Some (wf (PCR p) 9 1 0 (wf (PCR p) 8 1 1 (wf (PCR p) 10 3 f s)))
  | CUp => Some (wf (PCR p) 0 2 3 s)
  | CDown => Some (wf (PCR p) 0 1 0 (wf (PCR p) 1 1 1 s))
  | _ => None
  end.
Definition mux_call (d : mdrv) : mcall -> Z -> mst -> option mst :=
  match d with
  | MStm => stm_mux | MGd => gd_mux | MAtmel => pio_mux false | MSam3x => pio_mux true | MSame5x => e5_mux | MTi => ti_mux
  | MSiul2 => siul2_mux | MRp => rp_mux | MRa4 => ra4_mux | MAvr => avr_mux | MTiny => tiny_mux | MPic => pic_mux | MSiu => siu_mux
  end.
(** One call after another *)
Fixpoint mux_calls (d : mdrv) (l : list (mcall * Z)) (s : mst) : option mst :=
  match l with [] => Some s | (c, p) :: l' => match mux_call d c p s with Some s1 => mux_calls d l' s1 | None => None end end.

(** * The pins: what the registers mean in the reference manuals *)
Inductive pfun := Gpio | Analog | Alt (k : Z).
Inductive ppull := NoPull | Up | Down | Both.
(** Function; input buffer on (true where it cannot be turned off); output on (of a gpio, where the function decides otherwise); pull;
    open drain; drive strength, speed, sampling; override, or the value of the output latch *)
Record pin := mkPin { p_fun : pfun; p_in : bool; p_out : bool; p_pull : ppull; p_od : bool; p_x : Z; p_y : Z }.
Definition pulls (up down : bool) : ppull := match up, down with true, true => Both | true, false => Up | false, true => Down | _, _ => NoPull end.
(** How many pins a port has. *)
Definition pins (d : mdrv) : Z :=
  match d with MStm | MGd | MPic => 16 | MAtmel | MSam3x | MSame5x | MTi => 32 | MSiul2 => 264 | MRp => 30 | MRa4 => 160 | MAvr | MTiny => 8 | MSiu => 512 end.
Definition pin_of (d : mdrv) (s : mst) (q : Z) : pin :=
  match d with
  | MStm =>
      let m := mf (s MODER) (2 * q) 2 in let u := mf (s PUPDR) (2 * q) 2 in
      mkPin (if m <? 2 then Gpio else if m =? 2 then Alt (if q <? 8 then mf (s AFRL) (4 * q) 4 else mf (s AFRH) (4 * (q - 8)) 4) else Analog)
        true (m =? 1) (if u =? 1 then Up else if u =? 2 then Down else NoPull) (isset (s OTYPER) q) 0 0
  | MGd =>
      let m := mf (s (CTL (q / 8))) (4 * (q mod 8)) 4 in let md := m mod 4 in let ctl := m / 4 in
      if md =? 0 then
        if ctl =? 0 then mkPin Analog true false NoPull false 0 0
        else mkPin Gpio true false (if ctl =? 2 then if isset (s OCTL) q then Up else Down else NoPull) false 0 0
      else mkPin (if ctl <? 2 then Gpio else Alt 0) true true NoPull (ctl mod 2 =? 1) md 0
  | MAtmel =>
      mkPin (if isset (s PSR) q then Gpio else Alt (mf (s ABCD0) q 1 + 2 * mf (s ABCD1) q 1)) true (isset (s OSR) q) (pulls (isset (s PUEN) q) false) false 0 0
  | MSam3x =>
      mkPin (if isset (s PSR) q then Gpio else Alt (mf (s ABCD0) q 1)) true (isset (s OSR) q) (pulls (isset (s PUEN) q) false) false 0 0
  | MSame5x =>
      let c := s (PINCFG q) in
      mkPin (if isset c 0 then Alt (mf (s (PMUX (q / 2))) (4 * (q mod 2)) 4) else Gpio) (isset c 1) (isset (s DIR) q)
        (if isset c 2 then if isset (s OUTR) q then Up else Down else NoPull) false 0 0
  | MTi =>
      let i := if q <? 16 then 1 else 2 in let sh := if q <? 16 then 2 * q else 2 * (q - 16) in
      let g := mf (s (GMUX i)) sh 2 in let m := mf (s (MUXR i)) sh 2 in
      mkPin (if m =? 0 then Gpio else Alt (4 * g + m)) true (isset (s GPDIR) q) (pulls (negb (isset (s GPPUD) q)) false) false (mf (s (QSEL i)) sh 2) 0
  | MSiul2 =>
      let c := s (MSCR q) in
      mkPin (if isset c 22 then Analog else if mf c 0 4 =? 0 then Gpio else Alt (mf c 0 4)) (isset c 19) (isset c 25)
        (if isset c 16 then if isset c 17 then Up else Down else NoPull) false (mf c 28 2) 0
  | MRp =>
      let c := s (PADS q) in
      mkPin (Alt (mf (s (CTRL q)) 0 5)) (isset c 6) (negb (isset c 7)) (pulls (isset c 3) (isset c 2)) false (mf c 4 2) (mf (s (CTRL q)) 8 2)
  | MRa4 =>
      let c := s (PFS q) in
      mkPin (if isset c 15 then Analog else if isset c 16 then Alt (mf c 24 5) else Gpio) true (isset c 2) (pulls (isset c 4) false) (isset c 6) 0 0
  | MAvr => mkPin Gpio true (isset (s DDR) q) NoPull false 0 (mf (s PORT) q 1)
  | MTiny => mkPin Gpio true (isset (s TDIR) q) (pulls (isset (s (PINCTRL q)) 3) false) false 0 0
  | MPic => mkPin (if isset (s ANSEL) q then Analog else Gpio) true (negb (isset (s TRIS) q)) (pulls (isset (s CNPU) q) (isset (s CNPD) q)) false 0 0
  | MSiu =>
      let c := s (PCR q) in
      mkPin (if mf c 10 3 =? 0 then Gpio else Alt (mf c 10 3)) (isset c 8) (isset c 9)
        (if isset c 1 then if isset c 0 then Up else Down else NoPull) false (mf c 6 2) 0
  end.
