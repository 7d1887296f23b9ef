(** AdcModel.v - the ADC drivers (drivers/adc): adc_setup, adc_read, adc_read_multiple, the init and setup functions that choose
    channels, clocks, sequences and triggers, and the converters behind their registers.

    Simplifications:
    - an analog input is a function [sig] from input code and time to the result of a conversion; a conversion has the value its input
      had when it was started;
    - a call is atomic, time is the number of events so far, a conversion in progress ends at a time of its own choosing; starting a
      conversion while one runs has no effect;
    - assertions that fail take their error exit; busy waits succeed;
    - references, resolutions, sample times, comparators, DMA, oversampling, interrupts and calibration are left out where they are
      not said to be modelled; clock_get_freq returns f. *)
From Verif Require Import Base.

Definition A_EIO : Z := 5.
Definition A_EAGAIN : Z := 11.
Definition A_EFAULT : Z := 14.
Definition A_EINVAL : Z := 22.

(** A field of a register: bits lo .. lo+n-1 *)
Definition afield (x lo n : Z) : Z := Z.land (Z.shiftr x lo) (Z.ones n).

(** * Calibration *)
(** struct adc_settings (drivers/include/adc.h:10) as adc_setup keeps it: multiplier, divider, offset. *)
Record cal := mkCal { c_mul : Z; c_div : Z; c_off : Z }.
(** adc_setup, the same text in all eleven drivers (adc-avr.c:165): the settings are copied, 0 is returned. *)
Definition adc_setup (set : cal) (c : cal) : Z * cal := (0, set).
(** The calibration adc_..._adc_init leaves behind. *)
Definition cal_init : cal := mkCal 1 1 0.
(** int has w bits *)
Definition fits (w x : Z) : bool := (- 2 ^ (w - 1) <=? x) && (x <? 2 ^ (w - 1)).
(** the conversion (int)x of an unsigned value *)
Definition to_int (w x : Z) : Z := (x + 2 ^ (w - 1)) mod 2 ^ w - 2 ^ (w - 1).
(** [*data = ((int)result * ctx->multiplier) / ctx->divider + ctx->offset] (adc-avr.c:156 and the other ten); None: undefined
    behaviour. *)
Definition scale (w raw : Z) (c : cal) : option Z :=
  let p := to_int w raw * c_mul c in
  if negb (fits w p) then None
  else if c_div c =? 0 then None
  else let q := Z.quot p (c_div c) in
  if negb (fits w q) then None
  else if fits w (q + c_off c) then Some (q + c_off c) else None.

(** What adc_read does: 1 and the data, another return value, undefined behaviour; hardware events have no output. *)
Inductive aout := ANone | AData (v : Z) | ARet (r : Z) | AUb.
Definition give (w raw : Z) (c : cal) : aout := match scale w raw c with Some v => AData v | None => AUb end.
(** Events: adc_read of context i, the conversion in progress ends, a trigger of the hardware (auto-triggered modes). *)
Inductive aev := ERead (i : nat) | EDone | ETrig.

(** * One converter, one result register: adc-avr.c, adc-tinyavr.c, adc-rp2040.c, adc-same5x.c *)
Inductive drv1 := Avr | TinyAvr | Rp2040 | SamE5.
(** bits of int *)
Definition bits1 (d : drv1) : Z := match d with Avr | TinyAvr => 16 | _ => 32 end.
(** struct adc: channel or muxpos, state (Rp2040, SamE5), calibration *)
Record ctx1 := mkC1 { x_chan : Z; x_acq : bool; x_cal : cal }.
Record st1 := mkS1 {
  k_mux : Z;                    (* ADMUX, MUXPOS, CS, INPUTCTRL *)
  k_muxb : Z;                   (* ADCSRB (Avr) *)
  k_run : option (Z * nat);     (* a conversion runs: input and time it was started *)
  k_flag : bool;                (* ADIF, RESRDY *)
  k_res : Z;                    (* ADC, RES, RESULT *)
  k_auto : bool;                (* ADATE of ADCSRA (Avr) *)
  k_acq : bool;                 (* parent->state = ..._ACQ (Avr, TinyAvr) *)
  k_ctx : list ctx1
}.
Definition k_set_mux (s : st1) (a b : Z) : st1 := mkS1 a b (k_run s) (k_flag s) (k_res s) (k_auto s) (k_acq s) (k_ctx s).
Definition k_set_run (s : st1) (r : option (Z * nat)) : st1 := mkS1 (k_mux s) (k_muxb s) r (k_flag s) (k_res s) (k_auto s) (k_acq s) (k_ctx s).
Definition k_set_flag (s : st1) (f : bool) : st1 := mkS1 (k_mux s) (k_muxb s) (k_run s) f (k_res s) (k_auto s) (k_acq s) (k_ctx s).
Definition k_set_res (s : st1) (r : Z) : st1 := mkS1 (k_mux s) (k_muxb s) (k_run s) (k_flag s) r (k_auto s) (k_acq s) (k_ctx s).
Definition k_set_acq (s : st1) (a : bool) : st1 := mkS1 (k_mux s) (k_muxb s) (k_run s) (k_flag s) (k_res s) (k_auto s) a (k_ctx s).
Definition k_set_ctx (s : st1) (l : list ctx1) : st1 := mkS1 (k_mux s) (k_muxb s) (k_run s) (k_flag s) (k_res s) (k_auto s) (k_acq s) l.
(** [ctx->state = a] *)
Definition put_acq (s : st1) (i : nat) (c : ctx1) (a : bool) : st1 := k_set_ctx s (<[i := mkC1 (x_chan c) a (x_cal c)]> (k_ctx s)).

(** The input the multiplexer selects: MUX4..0 and MUX5 (bit 3 of ADCSRB, ATmega2560), MUXPOS, AINSEL, MUXPOS. *)
Definition input1 (d : drv1) (s : st1) : Z :=
  match d with
  | Avr => afield (k_mux s) 0 5 + 32 * afield (k_muxb s) 3 1
  | TinyAvr => afield (k_mux s) 0 5
  | Rp2040 => afield (k_mux s) 12 3
  | SamE5 => afield (k_mux s) 0 5
  end.
(** The hardware starts a conversion unless one runs. *)
Definition hw_start1 (d : drv1) (n : nat) (s : st1) : st1 :=
  match k_run s with Some _ => s | None => k_set_run s (Some (input1 d s, n)) end.
(** The conversion in progress ends. *)
Definition hw_done1 (sig : Z -> nat -> Z) (s : st1) : st1 :=
  match k_run s with Some (c, t) => k_set_flag (k_set_res (k_set_run s None) (sig c t)) true | None => s end.
Definition is_some {A} (o : option A) : bool := match o with Some _ => true | None => false end.

(** adc_avr_set_mux (adc-avr.c:90): ADMUX_MUX_M is 0xf, ADCSRB_MUX5 & channel is bit 3 of the channel. *)
Definition avr_set_mux (ch : Z) (s : st1) : st1 :=
  k_set_mux s (Z.lor (Z.ldiff (k_mux s) 15) (Z.land ch 15)) (Z.lor (Z.ldiff (k_muxb s) 8) (Z.land 8 ch)).
(** adc_read_idle (adc-avr.c:130); ADCSRA |= ADSC writes back 1 to ADIF, which clears it. *)
Definition avr_idle (n : nat) (c : ctx1) (s : st1) : st1 * aout :=
  if negb (x_chan c <=? 61) then (s, ARet (- A_EINVAL))
  else let s1 := avr_set_mux (x_chan c) s in
  let s2 := if k_auto s1 then s1 else hw_start1 Avr n (k_set_flag s1 false) in
  (k_set_acq s2 true, ARet (- A_EAGAIN)).
(** adc_read_acq (adc-avr.c:145) *)
Definition avr_acq (c : ctx1) (s : st1) : st1 * aout :=
  if negb (k_flag s) then (s, ARet (- A_EAGAIN))
  else (k_set_acq (k_set_flag s false) false, give 16 (k_res s) (x_cal c)).
(** adc_read_idle (adc-tinyavr.c:152) *)
Definition tiny_idle (n : nat) (c : ctx1) (s : st1) : st1 * aout :=
  if is_some (k_run s) then (s, ARet (- A_EAGAIN))
  else (k_set_acq (hw_start1 TinyAvr n (k_set_mux s (Z.land (x_chan c) 31) (k_muxb s))) true, ARet (- A_EAGAIN)).
(** adc_read_acq (adc-tinyavr.c:170) *)
Definition tiny_acq (c : ctx1) (s : st1) : st1 * aout :=
  if negb (k_flag s) then (s, ARet (- A_EAGAIN))
  else (k_set_acq (k_set_flag s false) false, give 16 (k_res s) (x_cal c)).
(** adc_read_idle (adc-rp2040.c:107): AINSEL, then START_ONCE *)
Definition rp_idle (n : nat) (i : nat) (c : ctx1) (s : st1) : st1 * aout :=
  let s1 := k_set_mux s (Z.lor (Z.ldiff (k_mux s) (Z.shiftl 7 12)) (Z.shiftl (Z.land (x_chan c) 7) 12)) (k_muxb s) in
  (put_acq (hw_start1 Rp2040 n s1) i c true, ARet (- A_EAGAIN)).
(** adc_read_acq (adc-rp2040.c:119): READY is 0 while a conversion runs *)
Definition rp_acq (i : nat) (c : ctx1) (s : st1) : st1 * aout :=
  if is_some (k_run s) then (s, ARet (- A_EAGAIN))
  else (put_acq s i c false, give 32 (k_res s) (x_cal c)).
(** adc_read_idle (adc-same5x.c:150) *)
Definition sam_idle (n : nat) (i : nat) (c : ctx1) (s : st1) : st1 * aout :=
  if is_some (k_run s) then (s, ARet (- A_EAGAIN))
  else (put_acq (hw_start1 SamE5 n (k_set_mux s (Z.land (x_chan c) 31) (k_muxb s))) i c true, ARet (- A_EAGAIN)).
(** adc_read_acq (adc-same5x.c:167): reading RESULT and writing INTFLAG clear RESRDY *)
Definition sam_acq (i : nat) (c : ctx1) (s : st1) : st1 * aout :=
  if is_some (k_run s) || negb (k_flag s) then (s, ARet (- A_EAGAIN))
  else (put_acq (k_set_flag s false) i c false, give 32 (k_res s) (x_cal c)).
(** adc_read (adc-avr.c:174, adc-tinyavr.c:190, adc-rp2040.c:136, adc-same5x.c:185) *)
Definition read1 (d : drv1) (n : nat) (i : nat) (c : ctx1) (s : st1) : st1 * aout :=
  match d with
  | Avr => if k_acq s then avr_acq c s else avr_idle n c s
  | TinyAvr => if k_acq s then tiny_acq c s else tiny_idle n c s
  | Rp2040 => if x_acq c then rp_acq i c s else rp_idle n i c s
  | SamE5 => if x_acq c then sam_acq i c s else sam_idle n i c s
  end.
Definition step1 (d : drv1) (sig : Z -> nat -> Z) (n : nat) (e : aev) (s : st1) : st1 * aout :=
  match e with
  | ERead i => match k_ctx s !! i with Some c => read1 d n i c s | None => (s, ANone) end
  | EDone => (hw_done1 sig s, ANone)
  | ETrig => (if k_auto s then hw_start1 d n s else s, ANone)
  end.
(** From time n: what each event put out. *)
Fixpoint trace1 (d : drv1) (sig : Z -> nat -> Z) (n : nat) (l : list aev) (s : st1) : list (aev * aout) :=
  match l with [] => [] | e :: l' => let '(s1, o) := step1 d sig n e s in (e, o) :: trace1 d sig (S n) l' s1 end.
Fixpoint run1 (d : drv1) (sig : Z -> nat -> Z) (n : nat) (l : list aev) (s : st1) : st1 :=
  match l with [] => s | e :: l' => run1 d sig (S n) l' (fst (step1 d sig n e s)) end.
(** After init and adc_init of the contexts (adc-avr.c:42, 116; adc-tinyavr.c:54, 128; adc-rp2040.c:56, 79; adc-same5x.c:125); the
    multiplexer registers are those of the reset, and hold other fields that setup sets: REFS and ADLAR, CS_EN and TS_EN. *)
Definition init1 (mux muxb : Z) (auto : bool) (l : list (Z * cal)) : st1 :=
  mkS1 mux muxb None false 0 auto false (map (fun p => mkC1 (fst p) false (snd p)) l).
(** The channels adc_..._adc_init takes: up to ADC_AVR_CHANNEL_P13_N10 (61), below ADC_TINYAVR_MUXPOS_COUNT (16),
    ADC_RP2040_CHANNEL_COUNT (5), ADC_SAME5X_CHANNEL_COUNT (at most 32). *)
Definition chan_ok1 (d : drv1) (ch : Z) : bool :=
  (0 <=? ch) && match d with Avr => ch <=? 61 | TinyAvr => ch <? 16 | Rp2040 => ch <? 5 | SamE5 => ch <? 32 end.

(** * A scan of all enabled channels, one data register per channel: adc-nxp_sar.c, adc-atmel_afec.c, adc-pic32mx.c,
    adc-renesas_ra4.c, adc-sam3x.c *)
Inductive drv2 := Nxp | Afec | Pic32 | Ra4 | Sam3x.
Record st2 := mkS2 {
  m_run : option nat;          (* a scan runs: the time it was started *)
  m_flag : Z -> bool;          (* CEOCFR, AFEC_ISR, ADCDSTAT *)
  m_data : Z -> Z;             (* CDR, AFEC_CDR, ADCDATAx, ADDRn, ADC_CDR *)
  m_status : Z -> bool;        (* ctx->status (Ra4) *)
  m_cont : bool;               (* continuous: MCR_MODE (Nxp), ADCS = 2 (Ra4), FREERUN (Sam3x) *)
  m_soft : bool;               (* trgsrc is GSWTRG or GLSWTRG (Pic32) *)
  m_ctx : list (Z * cal)       (* channel and calibration *)
}.
Definition m_set_run (s : st2) (r : option nat) : st2 := mkS2 r (m_flag s) (m_data s) (m_status s) (m_cont s) (m_soft s) (m_ctx s).
Definition m_set_flag (s : st2) (f : Z -> bool) : st2 := mkS2 (m_run s) f (m_data s) (m_status s) (m_cont s) (m_soft s) (m_ctx s).
Definition m_set_status (s : st2) (f : Z -> bool) : st2 := mkS2 (m_run s) (m_flag s) (m_data s) f (m_cont s) (m_soft s) (m_ctx s).
Definition set_at {A} (f : Z -> A) (k : Z) (v : A) : Z -> A := fun x => if x =? k then v else f x.
(** A scan is started, and ends: the data registers of all channels are loaded, their flags set; a continuous scan starts again. *)
Definition hw_start2 (n : nat) (s : st2) : st2 := match m_run s with Some _ => s | None => m_set_run s (Some n) end.
Definition hw_done2 (sig : Z -> nat -> Z) (n : nat) (s : st2) : st2 :=
  match m_run s with
  | Some t => mkS2 (if m_cont s then Some n else None) (fun _ => true) (fun c => sig c t) (m_status s) (m_cont s) (m_soft s) (m_ctx s)
  | None => s
  end.
(** adc_read (adc-nxp_sar.c:137) *)
Definition nxp_read (n : nat) (ch : Z) (c : cal) (s : st2) : st2 * aout :=
  if negb (m_flag s ch) then (if m_cont s then s else hw_start2 n s, ARet (- A_EAGAIN))
  else (m_set_flag s (set_at (m_flag s) ch false), give 32 (Z.land (m_data s ch) 65535) c).
(** adc_read (adc-atmel_afec.c:245): reading AFEC_CDR clears the flag of the channel selected *)
Definition afec_read (n : nat) (ch : Z) (c : cal) (s : st2) : st2 * aout :=
  if negb (m_flag s ch) then (hw_start2 n s, ARet (- A_EAGAIN))
  else (m_set_flag s (set_at (m_flag s) ch false), give 32 (Z.land (m_data s ch) 65535) c).
(** adc_read (adc-pic32mx.c:548): reading ADCDATAx clears its bit in ADCDSTAT *)
Definition pic_read (n : nat) (ch : Z) (c : cal) (s : st2) : st2 * aout :=
  if negb (m_flag s ch) then (if m_soft s then hw_start2 n s else s, ARet (- A_EAGAIN))
  else (m_set_flag s (set_at (m_flag s) ch false), give 32 (m_data s ch) c).
(** adc_read (adc-renesas_ra4.c:234): ADST is 1 while a scan runs *)
Definition ra4_read (n : nat) (ch : Z) (c : cal) (s : st2) : st2 * aout :=
  if is_some (m_run s) then (s, ARet (- A_EAGAIN))
  else if negb (m_status s ch) then (hw_start2 n (m_set_status s (set_at (m_status s) ch true)), ARet (- A_EAGAIN))
  else (m_set_status s (set_at (m_status s) ch false), give 32 (m_data s ch) c).
(** adc_read (adc-sam3x.c:115) *)
Definition sam3x_read (ch : Z) (c : cal) (s : st2) : st2 * aout := (s, give 32 (m_data s ch) c).
Definition read2 (d : drv2) (n : nat) (ch : Z) (c : cal) (s : st2) : st2 * aout :=
  match d with
  | Nxp => nxp_read n ch c s | Afec => afec_read n ch c s | Pic32 => pic_read n ch c s | Ra4 => ra4_read n ch c s
  | Sam3x => sam3x_read ch c s
  end.
Definition step2 (d : drv2) (sig : Z -> nat -> Z) (n : nat) (e : aev) (s : st2) : st2 * aout :=
  match e with
  | ERead i => match m_ctx s !! i with Some (ch, c) => read2 d n ch c s | None => (s, ANone) end
  | EDone => (hw_done2 sig n s, ANone)
  | ETrig => (s, ANone)
  end.
Fixpoint trace2 (d : drv2) (sig : Z -> nat -> Z) (n : nat) (l : list aev) (s : st2) : list (aev * aout) :=
  match l with [] => [] | e :: l' => let '(s1, o) := step2 d sig n e s in (e, o) :: trace2 d sig (S n) l' s1 end.
Fixpoint run2 (d : drv2) (sig : Z -> nat -> Z) (n : nat) (l : list aev) (s : st2) : st2 :=
  match l with [] => s | e :: l' => run2 d sig (S n) l' (fst (step2 d sig n e s)) end.
(** After init, setup and adc_init; adc_sam3x_init (adc-sam3x.c:67) starts the free-running mode, nothing starts the scan mode of Nxp
    (adc_nxp_sar_setup, adc-nxp_sar.c:88, sets MODE only). *)
Definition init2 (d : drv2) (cont soft : bool) (l : list (Z * cal)) : st2 :=
  mkS2 (match d with Sam3x => Some 0%nat | _ => None end) (fun _ => false) (fun _ => 0) (fun _ => false)
    (match d with Sam3x => true | _ => cont end) soft l.

(** * PIC32 MZ: configuration of a channel (adc-pic32mx.c) *)
(** The registers a channel setup writes: ADCIMCON, ADCTRG, ADCCSS by index, ADCTRGSNS, ADCxTIME by SAR. *)
Record pic := mkPic { p_im : Z -> Z; p_trg : Z -> Z; p_css : Z -> Z; p_sns : Z; p_time : Z -> Z }.
Record picset := mkPicset { ps_im : Z; ps_trg : Z; ps_lvl : bool; ps_adcdiv : Z; ps_selres : Z; ps_samc : Z }.
Definition u32 (x : Z) : Z := x mod 2 ^ 32.
Definition upd (f : Z -> Z) (k : Z) (g : Z -> Z) : Z -> Z := set_at f k (g (f k)).
(** set_input_mode (adc-pic32mx.c:361): sign_bit and diff_bit are bit numbers, used as masks. *)
Definition pic_input_mode (ch im : Z) (s : pic) : option pic :=
  let sign := Z.land ch 15 * 2 in let diff := sign + 1 in
  let reg := if im =? 0 then Some (fun r => Z.ldiff (Z.ldiff r sign) diff)
    else if im =? 1 then Some (fun r => Z.ldiff (Z.lor r sign) diff)
    else if im =? 2 then Some (fun r => Z.lor (Z.ldiff r sign) diff)
    else if im =? 3 then Some (fun r => Z.lor (Z.lor r sign) diff) else None in
  match reg with
  | Some g => Some (mkPic (upd (p_im s) (Z.shiftr ch 4) g) (p_trg s) (p_css s) (p_sns s) (p_time s))
  | None => None
  end.
(** add_channel_to_css (adc-pic32mx.c:400) *)
Definition pic_add_css (ch : Z) (s : pic) : pic :=
  mkPic (p_im s) (p_trg s) (upd (p_css s) (Z.shiftr ch 5) (fun r => Z.lor r (Z.shiftl 1 (Z.land ch 31)))) (p_sns s) (p_time s).
(** set_trgsrc_and_lvl (adc-pic32mx.c:411): ADCTRG is assigned *)
Definition pic_trgsrc (cl2 ch trg : Z) (lvl : bool) (s : pic) : option pic :=
  if negb ((0 <=? trg) && (trg <? 13)) then None
  else if negb (ch <? cl2) then None
  else let s1 := mkPic (p_im s) (set_at (p_trg s) (Z.shiftr ch 2) (u32 (Z.shiftl (Z.land trg 31) (Z.land ch 3 * 8)))) (p_css s)
      (if lvl then Z.lor (p_sns s) (Z.shiftl 1 ch) else Z.ldiff (p_sns s) (Z.shiftl 1 ch)) (p_time s) in
  Some (if trg =? 3 then pic_add_css ch s1 else s1).
(** The field of a channel in ADCTRG, ADCIMCON (sign and diff). *)
Definition trg_of (s : pic) (ch : Z) : Z := afield (p_trg s (Z.shiftr ch 2)) (Z.land ch 3 * 8) 5.
Definition sign_of (s : pic) (ch : Z) : bool := Z.testbit (p_im s (Z.shiftr ch 4)) (Z.land ch 15 * 2).
Definition diff_of (s : pic) (ch : Z) : bool := Z.testbit (p_im s (Z.shiftr ch 4)) (Z.land ch 15 * 2 + 1).

(** * Clocks *)
(** adc_tinyavr_setup (adc-tinyavr.c:76), the clock: the checks, then PRESC of CTRLC; clk_freq is unsigned. Some (Some presc): 0 is
    returned; Some None: an error; None: undefined behaviour. *)
Definition tiny_presc (f clk : Z) : option (option Z) :=
  if negb ((50000 <=? clk) && (clk <=? 1500000)) then Some None
  else let pdiv := f / clk in
  if negb (0 <? f) then Some None
  else Some (if 128 <? pdiv then Some 7 else if 64 <? pdiv then Some 6 else if 32 <? pdiv then Some 5 else if 16 <? pdiv then Some 4
    else if 8 <? pdiv then Some 3 else if 4 <? pdiv then Some 2 else if 2 <? pdiv then Some 1 else if 1 <? pdiv then Some 0 else None).
(** The divider PRESC stands for. *)
Definition tiny_div (presc : Z) : Z := 2 ^ (presc + 1).
(** adc_atmel_afec_init (adc-atmel_afec.c:127): PRESCAL of AFEC_MR, 8 bits; None: -EIO. *)
Definition afec_presc (f : Z) : option Z := if negb (0 <? f) then None else Some (Z.land (u32 (f / 20000000 - 1)) 255).
(** The clock of the converter is f / (PRESCAL + 1). *)
(** adc_atmel_afec_protect (adc-atmel_afec.c:171): the register written (WPMR = 0xe4, WPSR = 0xe8) and the value. *)
Definition afec_protect : Z * Z := (232, Z.lor (Z.shiftl (Z.land 71582787 16777215) 8) 1).
(** The hardware: write protection is on after a write of the key "ADC" (0x414443) and WPEN to WPMR. *)
Definition afec_hw_protected (w : Z * Z) : bool := (fst w =? 228) && (Z.shiftr (snd w) 8 =? 4277315) && Z.testbit (snd w) 0.

(** * TI type 4: start-of-conversion slots (adc-ti_type4.c); int and size_t have 16 bits *)
Record tctx := mkT { t_chan : Z; t_start : Z; t_end : Z; t_int : Z; t_soft : bool; t_cal : cal }.
(** parent->sample_count, CHSEL of each slot, the slot whose end sets each interrupt flag *)
Record ti := mkTi { i_count : Z; i_sel : Z -> Z; i_int : Z -> Z }.
(** request_samples (adc-ti_type4.c:104) *)
Definition ti_request (n : Z) (s : ti) : Z * ti :=
  if negb (0 <? n) then (- A_EINVAL, s)
  else if negb (n <=? 16) then (- A_EINVAL, s)
  else if negb (i_count s + n <=? 16) then (- A_EIO, s)
  else (i_count s, mkTi (i_count s + n) (i_sel s) (i_int s)).
(** The loop of adc_ti_type4_adc_init and adc_ti_type4_adc_setup: slots lo .. hi convert the channel (CHSEL has 4 bits). *)
Definition ti_slots (ch lo hi : Z) (s : ti) : ti := mkTi (i_count s) (fun k => if (lo <=? k) && (k <=? hi) then Z.land ch 15 else i_sel s k) (i_int s).
(** adc_ti_type4_adc_init (adc-ti_type4.c:292), request_intflg (adc-ti_type4.c:121) *)
Definition ti_adc_init (ch n int : Z) (s : ti) : (Z * option tctx) * ti :=
  if negb ((0 <=? ch) && (ch <? 16)) then ((- A_EINVAL, None), s)
  else if negb (n <=? 16) then ((- A_EINVAL, None), s)
  else if negb ((0 <=? int) && (int <? 4)) then ((- A_EINVAL, None), s)
  else let '(r, s1) := ti_request n s in
  if r <? 0 then ((r, None), s1)
  else let hi := r + n - 1 in
  let s2 := ti_slots ch r hi s1 in
  ((0, Some (mkT ch r hi int true cal_init)), mkTi (i_count s2) (i_sel s2) (set_at (i_int s2) int hi)).
(** adc_ti_type4_adc_setup (adc-ti_type4.c:344): trig, acqps *)
Definition ti_adc_setup (trig acqps acqps_min : Z) (c : tctx) (s : ti) : (Z * tctx) * ti :=
  if negb ((0 <=? trig) && (trig <? 40)) then ((- A_EINVAL, c), s)
  else if negb (acqps_min <=? acqps) then ((- A_EINVAL, c), s)
  else ((0, mkT (t_chan c) (t_start c) (t_end c) (t_int c) (trig =? 0) (t_cal c)), ti_slots (t_chan c) (t_start c) (t_end c) s).
(** trig_soft (adc-ti_type4.c:365): the mask written to ADCSOCFRC1; 1 << n in a 16-bit int is undefined from n = 15 on. *)
Definition ti_mask (c : tctx) : option Z :=
  if negb (t_end c + 1 <? 15) then None
  else if negb (t_start c <? 15) then None
  else Some (Z.land ((2 ^ (t_end c + 1) - 1) mod 65536) (65535 - (2 ^ t_start c - 1))).
(** Any history of adc_init and setup of the channels of one block; amin is parent->acqps_min. *)
Inductive top := TInit (ch n int : Z) | TSetup (k : nat) (trig acqps : Z).
Definition ti_step (amin : Z) (o : top) (p : list tctx * ti) : list tctx * ti :=
  match o with
  | TInit ch n int => let '((_, c), s1) := ti_adc_init ch n int (snd p) in (match c with Some c => fst p ++ [c] | None => fst p end, s1)
  | TSetup k trig acqps =>
      match fst p !! k with
      | Some c => let '((_, c1), s1) := ti_adc_setup trig acqps amin c (snd p) in (<[k := c1]> (fst p), s1)
      | None => p
      end
  end.
Definition ti_run (amin : Z) (l : list top) (p : list tctx * ti) : list tctx * ti := fold_left (fun p o => ti_step amin o p) l p.
Definition ti_reset : list tctx * ti := ([], mkTi 0 (fun _ => 0) (fun _ => 0)).
Inductive tout := TUb | TRet (r : Z) (data : list Z) (frc : option Z) (clear : Z).
(** The loop of adc_read_multiple: slots i .. i+k-1 *)
Fixpoint ti_collect (res : Z -> Z) (c : cal) (i : Z) (k : nat) : option (list Z) :=
  match k with
  | O => Some []
  | S k' => match scale 16 (res i) c with
            | None => None
            | Some v => match ti_collect res c (i + 1) k' with None => None | Some l => Some (v :: l) end
            end
  end.
(** adc_read_multiple (adc-ti_type4.c:392): flags is ADCINTFLG, res the result registers. What is returned, written to data, written
    to ADCSOCFRC1, written to ADCINTFLGCLR. *)
Definition ti_read_multiple (n : Z) (flags : Z) (res : Z -> Z) (c : tctx) : tout :=
  if negb (0 <? n) then TRet (- A_EINVAL) [] None 0
  else if negb (n <=? 16) then TRet (- A_EINVAL) [] None 0
  else let intmask := Z.shiftl 1 (t_int c) in
  let max := Z.min (t_end c + 1) (t_start c + n) in
  if Z.land flags intmask =? 0 then
    if t_soft c then match ti_mask c with None => TUb | Some m => TRet (- A_EAGAIN) [] (Some m) 0 end
    else TRet (- A_EAGAIN) [] None 0
  else match ti_collect res (t_cal c) (t_start c) (Z.to_nat (max - t_start c)) with
       | None => TUb
       | Some l => TRet (Z.max (t_start c) max) l None intmask
       end.
(** adc_read (adc-ti_type4.c:387) *)
Definition ti_read (flags : Z) (res : Z -> Z) (c : tctx) : tout := ti_read_multiple 1 flags res c.

(** * STM32H7: sequence and results (adc-stm32h7xx_sar.c) *)
(** SQR1..4, SMPR1..2, PCSEL, CFGR; channel_count, DR_mask, DR, the scan in progress, EOS *)
Record stm := mkStm {
  h_sqr1 : Z; h_sqr2 : Z; h_sqr3 : Z; h_sqr4 : Z; h_smpr1 : Z; h_smpr2 : Z; h_pcsel : Z; h_count : Z;
  h_mask : Z; h_dr : Z -> Z; h_run : option nat; h_eos : bool
}.
Record sctx := mkSc { s_chan : Z; s_index : Z; s_cal : cal }.
Definition h_seq (s : stm) (q1 q2 q3 q4 : Z) : stm := mkStm q1 q2 q3 q4 (h_smpr1 s) (h_smpr2 s) (h_pcsel s) (h_count s) (h_mask s) (h_dr s) (h_run s) (h_eos s).
(** A field of the sequence is or-ed in. *)
Definition orf (r v lo : Z) : Z := Z.lor r (Z.shiftl (Z.land v 31) lo).
(** adc_stm32h7xx_sar_adc_init (adc-stm32h7xx_sar.c:439) *)
Definition stm_adc_init (ch : Z) (s : stm) : (Z * option sctx) * stm :=
  if negb ((0 <=? ch) && (ch <? 20)) then ((- A_EINVAL, None), s)
  else let k := h_count s in
  let q1 := h_sqr1 s in let q2 := h_sqr2 s in let q3 := h_sqr3 s in let q4 := h_sqr4 s in
  let r := if k =? 15 then Some (h_seq s q1 q2 q3 (orf q4 ch 6))
    else if k =? 14 then Some (h_seq s q1 q2 q3 (orf q4 ch 0))
    else if k =? 13 then Some (h_seq s q1 q2 (orf q3 ch 24) q4)
    else if k =? 12 then Some (h_seq s q1 q2 (orf q3 ch 18) q4)
    else if k =? 11 then Some (h_seq s q1 q2 (orf q3 ch 12) q4)
    else if k =? 10 then Some (h_seq s q1 q2 (orf q3 ch 6) q4)
    else if k =? 9 then Some (h_seq s q1 q2 (orf q3 ch 0) q4)
    else if k =? 8 then Some (h_seq s q1 (orf q2 ch 24) q3 q4)
    else if k =? 7 then Some (h_seq s q1 (orf q2 ch 18) q3 q4)
    else if k =? 6 then Some (h_seq s q1 (orf q2 ch 12) q3 q4)
    else if k =? 5 then Some (h_seq s q1 (orf q2 ch 6) q3 q4)
    else if k =? 4 then Some (h_seq s q1 (orf q2 ch 0) q3 q4)
    else if k =? 3 then Some (h_seq s (orf q1 ch 24) q2 q3 q4)
    else if k =? 2 then Some (h_seq s (orf q1 ch 18) q2 q3 q4)
    else if k =? 1 then Some (h_seq s (orf q1 ch 12) q2 q3 q4)
    else if k =? 0 then Some (h_seq s (orf q1 ch 6) q2 q3 q4)
    else None in
  match r with
  | None => ((- A_EIO, None), s)
  | Some s1 => ((0, Some (mkSc ch k cal_init)),
      mkStm (Z.lor (Z.ldiff (h_sqr1 s1) 15) (Z.land k 15)) (h_sqr2 s1) (h_sqr3 s1) (h_sqr4 s1) (h_smpr1 s1) (h_smpr2 s1)
        (Z.lor (h_pcsel s1) (2 ^ ch)) (k + 1) (h_mask s1) (h_dr s1) (h_run s1) (h_eos s1))
  end.
(** adc_stm32h7xx_sar_init (adc-stm32h7xx_sar.c:257) as far as it concerns the sequence: the count is cleared, the registers and
    DR_mask are not. *)
Definition stm_init (s : stm) : stm :=
  mkStm (h_sqr1 s) (h_sqr2 s) (h_sqr3 s) (h_sqr4 s) (h_smpr1 s) (h_smpr2 s) (h_pcsel s) 0 (h_mask s) (h_dr s) (h_run s) (h_eos s).
(** What the hardware converts k-th (k from 0): SQ1..4 from bit 6 of SQR1, SQ5..9, SQ10..14, SQ15..16. L is the number less 1. *)
Definition sq (s : stm) (k : Z) : Z :=
  if k <? 4 then afield (h_sqr1 s) (6 + 6 * k) 5
  else if k <? 9 then afield (h_sqr2 s) (6 * (k - 4)) 5
  else if k <? 14 then afield (h_sqr3 s) (6 * (k - 9)) 5
  else afield (h_sqr4 s) (6 * (k - 14)) 5.
Definition seq_len (s : stm) : Z := afield (h_sqr1 s) 0 4 + 1.
(** adc_stm32h7xx_sar_adc_setup (adc-stm32h7xx_sar.c:495); the registers have 32 bits, a shift by 30 drops a bit. *)
Definition stm_adc_setup (smp : Z) (c : sctx) (s : stm) : Z * stm :=
  if negb ((0 <=? smp) && (smp <? 8)) then (- A_EINVAL, s)
  else if s_chan c <? 9 then
    let sh := s_chan c * 3 in
    (0, mkStm (h_sqr1 s) (h_sqr2 s) (h_sqr3 s) (h_sqr4 s) (u32 (Z.lor (Z.ldiff (h_smpr1 s) (Z.shiftl 7 sh)) (Z.shiftl smp sh))) (h_smpr2 s)
          (h_pcsel s) (h_count s) (h_mask s) (h_dr s) (h_run s) (h_eos s))
  else
    let sh := (s_chan c - 9) * 3 in
    (0, mkStm (h_sqr1 s) (h_sqr2 s) (h_sqr3 s) (h_sqr4 s) (h_smpr1 s) (u32 (Z.lor (Z.ldiff (h_smpr2 s) (Z.shiftl 7 sh)) (Z.shiftl smp sh)))
          (h_pcsel s) (h_count s) (h_mask s) (h_dr s) (h_run s) (h_eos s)).
(** The sample time of a channel: SMPR1 has channels 0..9, SMPR2 10..19. *)
Definition smp_of (s : stm) (ch : Z) : Z := if ch <? 10 then afield (h_smpr1 s) (3 * ch) 3 else afield (h_smpr2 s) (3 * (ch - 10)) 3.
(** adc_stm32h7xx_sar_setup (adc-stm32h7xx_sar.c:391), RES of CFGR: CFGR_RES has 2 bits at bit 2. RES_COUNT is 8. *)
Definition stm_res (res cfgr : Z) : option Z :=
  if negb ((0 <=? res) && (res <? 8)) then None else Some (Z.lor (Z.ldiff cfgr (Z.shiftl 3 2)) (Z.shiftl (Z.land res 3) 2)).
(** RES is 3 bits at bit 2. *)
Definition res_of (cfgr : Z) : Z := afield cfgr 2 3.
(** The scan ends: DMA has stored the conversions in order, EOS is set; a new scan has been started at most after that (single mode). *)
Definition stm_done (sig : Z -> nat -> Z) (s : stm) : stm :=
  match h_run s with
  | Some t => mkStm (h_sqr1 s) (h_sqr2 s) (h_sqr3 s) (h_sqr4 s) (h_smpr1 s) (h_smpr2 s) (h_pcsel s) (h_count s) (h_mask s)
      (fun k => if (0 <=? k) && (k <? seq_len s) then sig (sq s k) t else h_dr s k) None true
  | None => s
  end.
Definition h_set (s : stm) (mask : Z) (run : option nat) (eos : bool) : stm :=
  mkStm (h_sqr1 s) (h_sqr2 s) (h_sqr3 s) (h_sqr4 s) (h_smpr1 s) (h_smpr2 s) (h_pcsel s) (h_count s) mask (h_dr s) run eos.
(** adc_read (adc-stm32h7xx_sar.c:524) *)
Definition stm_read (n : nat) (c : sctx) (s : stm) : stm * aout :=
  if Z.testbit (h_mask s) (s_index c) then (h_set s (Z.clearbit (h_mask s) (s_index c)) (h_run s) (h_eos s), give 32 (h_dr s (s_index c)) (s_cal c))
  else if is_some (h_run s) then (s, ARet (- A_EAGAIN))
  else if negb (h_eos s) then (h_set s (h_mask s) (Some n) (h_eos s), ARet (- A_EAGAIN))
  else (h_set s (Z.clearbit (Z.ones 32) (s_index c)) (h_run s) false, give 32 (h_dr s (s_index c)) (s_cal c)).
Definition step3 (sig : Z -> nat -> Z) (n : nat) (e : aev) (cs : list sctx) (s : stm) : stm * aout :=
  match e with
  | ERead i => match cs !! i with Some c => stm_read n c s | None => (s, ANone) end
  | EDone => (stm_done sig s, ANone)
  | ETrig => (s, ANone)
  end.
Fixpoint trace3 (sig : Z -> nat -> Z) (n : nat) (l : list aev) (cs : list sctx) (s : stm) : list (aev * aout) :=
  match l with [] => [] | e :: l' => let '(s1, o) := step3 sig n e cs s in (e, o) :: trace3 sig (S n) l' cs s1 end.
Fixpoint run3 (sig : Z -> nat -> Z) (n : nat) (l : list aev) (cs : list sctx) (s : stm) : stm :=
  match l with [] => s | e :: l' => run3 sig (S n) l' cs (fst (step3 sig n e cs s)) end.
(** A sequence of calls of adc_init: the contexts that were made. *)
Fixpoint stm_inits (l : list Z) (s : stm) : list sctx * stm :=
  match l with
  | [] => ([], s)
  | ch :: l' => let '((r, o), s1) := stm_adc_init ch s in let '(cs, s2) := stm_inits l' s1 in
      (match o with Some c => c :: cs | None => cs end, s2)
  end.
(** The registers after a reset; DR_mask as memory has it. *)
Definition stm_reset (mask : Z) : stm := mkStm 0 0 0 0 0 0 0 0 mask (fun _ => 0) None false.
