(** WdModel.v - the watchdog drivers (drivers/wd): init, setup, wd_start, wd_stop, wd_refresh, and the watchdog hardware behind
    their registers.

    Simplifications:
    - one record of registers for all ten drivers; which register a field stands for is said at each driver;
    - clock_get_freq returns f, 0 < f < 2^31; unsigned long has 32 bits; an assertion that fails takes its error exit;
    - a busy wait succeeds or not as [w_sync] says;
    - the effect of the registers on the hardware is that of the reference manuals: keys, write-once and change-enable bits are
      modelled, delays of their synchronisation are not. The window of PIC32 depends on fuses and is left out; RUNDIV of PIC32 is
      taken to be writable, as the driver does;
    - the debug and idle halt bits, the interrupt modes and early warnings are left out. *)
From Verif Require Import Base.

Definition W_EIO : Z := 5.
Definition W_EBUSY : Z := 16.
Definition W_EINVAL : Z := 22.
Definition u32 (x : Z) : Z := x mod 4294967296.
Definition u24 (x : Z) : Z := x mod 16777216.
Definition u8 (x : Z) : Z := x mod 256.

(** The drivers: wd-atmel_wdt.c, wd-sam3x.c, wd-avr.c, wd-gd32vf103_fwdgt.c, wd-pic32mx.c, wd-rp2040.c, wd-same5x.c,
    wd-stm32h7xx_iwdg.c, wd-ti_f28x.c, wd-tinyavr.c. *)
Inductive drv := Atmel | Sam3x | Avr | Fwdgt | Pic32 | Rp2040 | SamE5 | Iwdg | F28 | TinyAvr.

(** The registers, and what the driver keeps. *)
Record wd := mkWd {
  w_mode : Z;      (* WDT_MR, WDTCSR, WDTCON, CTRL, CTRLA, WDCR *)
  w_cfg : Z;       (* FWDGT_PSC, PR, CONFIG, TICK *)
  w_load : Z;      (* FWDGT_RLD, RLR, LOAD *)
  w_win : Z;       (* WINR, WDWCR *)
  w_on : bool;     (* Fwdgt, Iwdg: started *)
  w_key : bool;    (* Atmel, Sam3x: WDT_MR has been written; Avr: change enabled; Fwdgt, Iwdg: write access;
                      F28: WDKEY has seen 0x55 *)
  w_once : bool;   (* Atmel, Sam3x: WDT_MR can be written only once; F28: WDOVERRIDE is cleared *)
  w_wdrf : bool;   (* Avr: WDRF of MCUSR, which nothing in /repo clears *)
  w_sync : bool;   (* busy waits end in time *)
  w_cnt : Z;       (* input clocks since the counter was last restarted *)
  w_ctx : Z;       (* ctx->cycles, ctx->load, ctx->ctrla *)
  w_dead : bool    (* the watchdog has reset the system *)
}.
Definition set_mode (s : wd) (v : Z) : wd := mkWd v (w_cfg s) (w_load s) (w_win s) (w_on s) (w_key s) (w_once s) (w_wdrf s) (w_sync s) (w_cnt s) (w_ctx s) (w_dead s).
Definition set_cfg (s : wd) (v : Z) : wd := mkWd (w_mode s) v (w_load s) (w_win s) (w_on s) (w_key s) (w_once s) (w_wdrf s) (w_sync s) (w_cnt s) (w_ctx s) (w_dead s).
Definition set_load (s : wd) (v : Z) : wd := mkWd (w_mode s) (w_cfg s) v (w_win s) (w_on s) (w_key s) (w_once s) (w_wdrf s) (w_sync s) (w_cnt s) (w_ctx s) (w_dead s).
Definition set_win (s : wd) (v : Z) : wd := mkWd (w_mode s) (w_cfg s) (w_load s) v (w_on s) (w_key s) (w_once s) (w_wdrf s) (w_sync s) (w_cnt s) (w_ctx s) (w_dead s).
Definition set_on (s : wd) (v : bool) : wd := mkWd (w_mode s) (w_cfg s) (w_load s) (w_win s) v (w_key s) (w_once s) (w_wdrf s) (w_sync s) (w_cnt s) (w_ctx s) (w_dead s).
Definition set_key (s : wd) (v : bool) : wd := mkWd (w_mode s) (w_cfg s) (w_load s) (w_win s) (w_on s) v (w_once s) (w_wdrf s) (w_sync s) (w_cnt s) (w_ctx s) (w_dead s).
Definition set_cnt (s : wd) (v : Z) : wd := mkWd (w_mode s) (w_cfg s) (w_load s) (w_win s) (w_on s) (w_key s) (w_once s) (w_wdrf s) (w_sync s) v (w_ctx s) (w_dead s).
Definition set_ctx (s : wd) (v : Z) : wd := mkWd (w_mode s) (w_cfg s) (w_load s) (w_win s) (w_on s) (w_key s) (w_once s) (w_wdrf s) (w_sync s) (w_cnt s) v (w_dead s).
Definition set_dead (s : wd) (v : bool) : wd := mkWd (w_mode s) (w_cfg s) (w_load s) (w_win s) (w_on s) (w_key s) (w_once s) (w_wdrf s) (w_sync s) (w_cnt s) (w_ctx s) v.
Definition set_once (s : wd) (v : bool) : wd := mkWd (w_mode s) (w_cfg s) (w_load s) (w_win s) (w_on s) (w_key s) v (w_wdrf s) (w_sync s) (w_cnt s) (w_ctx s) (w_dead s).
(** 0, an error or undefined behaviour *)
Inductive wres := WOk (s : wd) | WErr (e : Z) (s : wd) | WUb.

(** The parameters of setup: timeout_ms, timeout_us, cycles, timeout, period or wdps; window_ms, window or wdwcr_min;
    enable_windowed or window_mode. *)
Record wset := mkSet { ws_t : Z; ws_w : Z; ws_win : bool }.

(** * Hardware *)
(** A field of a register: bits lo .. lo+n-1 *)
Definition field (x lo n : Z) : Z := Z.land (Z.shiftr x lo) (Z.ones n).

(** WDT_MR, "can only be written once" (wd-atmel_wdt.c:76); the SAM3X has the same block. *)
Definition hw_mr (s : wd) (v : Z) : wd := if w_once s && w_key s then s else set_key (set_mode s v) true.
(** WDTCSR: WDCE and WDE written together enable a change of WDE and WDP, without it only WDE can be set; WDE cannot be cleared
    while WDRF is set. *)
Definition hw_wdtcsr (s : wd) (v : Z) : wd :=
  if Z.testbit v 4 && Z.testbit v 3 then set_key (set_mode s (Z.lor (w_mode s) 8)) true
  else if w_key s then set_key (set_mode s (if w_wdrf s then Z.lor v 8 else v)) false
  else set_mode s (Z.lor (w_mode s) (Z.land v 8)).
(** An interrupt: the four clocks of the change enable are over when it returns. *)
Definition hw_irq (s : wd) : wd := set_key s false.
(** FWDGT_CTL and KR: 0x5555 gives write access to the other registers, 0xcccc starts, 0xaaaa restarts the counter. There is no key
    to stop. *)
Definition hw_kr (s : wd) (v : Z) : wd :=
  let s1 := set_key s (v =? 21845) in if v =? 52428 then set_on s1 true else s1.
Definition hw_cfg (s : wd) (v : Z) : wd := if w_key s then set_cfg s v else s.
Definition hw_load (s : wd) (v : Z) : wd := if w_key s then set_load s v else s.
Definition hw_win (s : wd) (v : Z) : wd := if w_key s then set_win s v else s.
(** WDT.CONFIG of SAM E5x is enable-protected. *)
Definition hw_config (s : wd) (v : Z) : wd := if Z.testbit (w_mode s) 1 then s else set_cfg s (u8 v).
(** WDCR: WDDIS only changes while WDOVERRIDE is set; WDCHK must be 101 and reads 0, anything else resets the system. *)
Definition hw_wdcr (s : wd) (v : Z) : wd :=
  if negb (field v 3 3 =? 5) then set_dead s true
  else set_mode s (field v 0 3 + 64 * (if w_once s then field (w_mode s) 6 1 else field v 6 1)).
(** SCSR: writing 1 to WDOVERRIDE clears it, until the next reset. *)
Definition hw_scsr (s : wd) (v : Z) : wd := if Z.testbit v 0 then set_once s true else s.
(** LOAD of RP2040: the counter has 24 bits. *)
Definition hw_rp_load (s : wd) (v : Z) : wd := set_cnt (set_load s (u24 v)) 0.

(** The watchdog counts; *)
Definition running (d : drv) (s : wd) : bool :=
  match d with
  | Atmel | Sam3x => negb (Z.testbit (w_mode s) 15) && Z.testbit (w_mode s) 13    (* WDDIS, WDRSTEN *)
  | Avr => Z.testbit (w_mode s) 3
  | Fwdgt | Iwdg => w_on s
  | Pic32 => Z.testbit (w_mode s) 15
  | Rp2040 => Z.testbit (w_mode s) 30
  | SamE5 => Z.testbit (w_mode s) 1
  | F28 => negb (Z.testbit (w_mode s) 6)
  | TinyAvr => negb (field (w_mode s) 0 4 =? 0)
  end.
(** input clocks at the start of its period in which a refresh resets the system; *)
Definition closed (d : drv) (s : wd) : Z :=
  match d with
  | Atmel | Sam3x => 128 * Z.max 0 (field (w_mode s) 0 12 - field (w_mode s) 16 12)
  | Iwdg => Z.max 0 (w_load s - w_win s) * 2 ^ (w_cfg s + 2)
  | SamE5 => if Z.testbit (w_mode s) 2 then 8 * 2 ^ field (w_cfg s) 4 4 else 0
  | F28 => field (w_win s) 0 8 * (512 * 2 ^ Z.max 0 (field (w_mode s) 0 3 - 1))
  | TinyAvr => if field (w_mode s) 4 4 =? 0 then 0 else 8 * 2 ^ (field (w_mode s) 4 4 - 1)
  | _ => 0
  end.
(** input clocks from a refresh until it resets the system (Pic32: milliseconds). *)
Definition limit (d : drv) (s : wd) : Z :=
  match d with
  | Atmel | Sam3x => 128 * field (w_mode s) 0 12
  | Avr => 2048 * 2 ^ (field (w_mode s) 0 3 + 8 * field (w_mode s) 5 1)
  | Fwdgt | Iwdg => (w_load s + 1) * 2 ^ (w_cfg s + 2)
  | Pic32 => 2 ^ field (w_mode s) 8 5
  | Rp2040 => ((w_load s + 1) / 2) * field (w_cfg s) 0 9        (* the counter goes down by 2 *)
  | SamE5 => 8 * 2 ^ field (w_cfg s) 0 4 + closed d s
  | F28 => 256 * (512 * 2 ^ Z.max 0 (field (w_mode s) 0 3 - 1))
  | TinyAvr => 8 * 2 ^ (field (w_mode s) 0 4 - 1) + closed d s
  end.
(** An input clock passes. *)
Definition hw_tick (d : drv) (s : wd) : wd :=
  if running d s then let s1 := set_cnt s (w_cnt s + 1) in if limit d s <=? w_cnt s + 1 then set_dead s1 true else s1 else s.
(** The counter is restarted. *)
Definition hw_refresh (d : drv) (s : wd) : wd :=
  if running d s && (w_cnt s <? closed d s) then set_dead (set_cnt s 0) true else set_cnt s 0.
(** WDTCON.SET: the clear key is in the upper half. *)
Definition hw_wdtcon_set (s : wd) (v : Z) : wd :=
  let s1 := set_mode s (Z.lor (w_mode s) (Z.land v 65535)) in if Z.shiftr v 16 =? 22339 then hw_refresh Pic32 s1 else s1.
Definition hw_wdtcon_clr (s : wd) (v : Z) : wd := set_mode s (Z.land (w_mode s) (Z.lnot v)).
(** WDKEY: 0x55 then 0xaa; another value after 0x55 does nothing. *)
Definition hw_wdkey (s : wd) (v : Z) : wd :=
  if v =? 85 then set_key s true else if (v =? 170) && w_key s then hw_refresh F28 (set_key s false) else set_key s false.

(** * init *)
(** wd-rp2040.c:32-46 *)
Definition rp_init (f : Z) (s : wd) : wres :=
  let s1 := set_ctx s (2 * 16777216 - 1) in
  if 512 <=? f / 1000000 then WErr W_EINVAL s1 else WOk (set_cfg s1 (Z.lor 512 (field (f / 1000000) 0 9))).
(** wd-sam3x.c:41-51 *)
Definition sam3x_init (s : wd) : wres :=
  let s1 := hw_mr s (Z.lor (w_mode s) 32768) in WOk (hw_mr s1 (Z.lor (w_mode s1) 8192)).
(** wd-same5x.c:38-66 *)
Definition same5x_sync (s : wd) : wres := if w_sync s then WOk s else WErr W_EBUSY s.
Definition same5x_init (s : wd) : wres := same5x_sync (set_mode s 0).
(** wd-tinyavr.c:33-38; the others (wd-atmel_wdt.c:41-47, wd-avr.c:26-30, wd-gd32vf103_fwdgt.c:34-40, wd-pic32mx.c:28-32,
    wd-stm32h7xx_iwdg.c:47-53, wd-ti_f28x.c:44-49) touch no register *)
Definition wd_init (d : drv) (f : Z) (s : wd) : wres :=
  match d with
  | Rp2040 => rp_init f s
  | Sam3x => sam3x_init s
  | SamE5 => same5x_init s
  | TinyAvr => WOk (set_ctx s 0)
  | _ => WOk s
  end.

(** * setup *)
(** The value of WDV: wd-atmel_wdt.c:61-71, wd-sam3x.c:65-74. 1000ul / freq is 0 beyond 1 kHz, and then divided by. *)
Inductive wdv_res := WdvOk (v : Z) | WdvErr (e : Z) | WdvUb.
Definition atmel_wdv (f t : Z) : wdv_res :=
  let freq := f / 128 in
  if freq <=? 0 then WdvErr W_EIO else
  if 1000 / freq =? 0 then WdvUb else
  let wdv := u32 (t / (1000 / freq)) in
  if wdv =? 0 then WdvErr W_EINVAL else if 4095 <? wdv then WdvErr W_EINVAL else WdvOk wdv.
(** wd-atmel_wdt.c:59-79 *)
Definition atmel_setup (f : Z) (st : wset) (s : wd) : wres :=
  match atmel_wdv f (ws_t st) with
  | WdvOk wdv => WOk (hw_mr s (Z.lor (Z.land (w_mode s) (Z.lnot (536870912 + 4095 * 65536 + 4095))) (wdv * 65536 + wdv)))
  | WdvErr e => WErr e s
  | WdvUb => WUb
  end.
(** wd-sam3x.c:63-80 *)
Definition sam3x_setup (f : Z) (st : wset) (s : wd) : wres :=
  match atmel_wdv f (ws_t st) with
  | WdvOk wdv => let s1 := hw_mr s (Z.land (w_mode s) (Z.lnot 4095)) in WOk (hw_mr s1 (Z.lor (w_mode s1) (u32 (Z.lnot wdv))))
  | WdvErr e => WErr e s
  | WdvUb => WUb
  end.
(** wd-avr.c:42-49 *)
Definition avr_setup (st : wset) (s : wd) : wres := if negb (ws_t st <? 10) then WErr W_EINVAL s else WOk (set_ctx s (ws_t st)).
(** wd-gd32vf103_fwdgt.c:60-69, the loop, k turns to go *)
Fixpoint fwdgt_loop (k : nat) (nclk p : Z) (s : wd) : wres :=
  match k with
  | O => WErr W_EINVAL s
  | S k' =>
    let rld := nclk / 2 ^ p in
    if rld <=? 4095 then WOk (hw_load (hw_cfg (hw_kr s 21845) (field (p - 2) 0 3)) (field rld 0 12))
    else fwdgt_loop k' nclk (p + 1) s
  end.
(** wd-gd32vf103_fwdgt.c:52-72 *)
Definition fwdgt_setup (f : Z) (st : wset) (s : wd) : wres := fwdgt_loop 7 (u32 (f * ws_t st) / 1000000) 2 s.
(** wd-pic32mx.c:44-55 *)
Definition pic32_setup (st : wset) (s : wd) : wres :=
  if negb (ws_t st <? 21) then WErr W_EINVAL s else
  let s1 := hw_wdtcon_set (hw_wdtcon_clr s 3840) (Z.shiftl (field (ws_t st) 0 4) 8) in
  WOk (if ws_win st then hw_wdtcon_set s1 1 else s1).
(** wd-rp2040.c:58-69 *)
Definition rp_setup (st : wset) (s : wd) : wres :=
  if ws_t st <=? 0 then WErr W_EINVAL s else
  let load := u32 (ws_t st * 2) in
  if negb (load <? 16777216) then WErr W_EINVAL s else WOk (hw_rp_load (set_ctx s load) load).
(** wd-same5x.c:78-90 *)
Definition same5x_setup (st : wset) (s : wd) : wres :=
  if negb (ws_t st <? 12) then WErr W_EINVAL s else
  let s1 := hw_config s (field (ws_t st) 0 4) in
  if ws_win st then
    if negb (ws_w st <? 12) then WErr W_EINVAL s1 else
    same5x_sync (set_mode (hw_config s1 (Z.lor (w_cfg s1) (Z.shiftl (field (ws_w st) 0 4) 4))) 4)
  else same5x_sync s1.
(** wd-stm32h7xx_iwdg.c:88-110, the loop, k turns to go; pr[p] is 2^(p+2) *)
Fixpoint iwdg_loop (k : nat) (f t w p : Z) (s : wd) : wres :=
  match k with
  | O => WErr W_EIO s
  | S k' =>
    let tick := f / 2 ^ (p + 2) / 1000 in
    let rl := u32 (t * tick) in
    let win := u32 (w * tick) in
    if (rl <=? 4095) && (win <=? 4095) then
      let s1 := hw_load (hw_cfg (hw_kr (hw_kr s 52428) 21845) p) rl in
      if w_sync s1 then WOk (hw_win s1 win) else WErr W_EBUSY s1
    else iwdg_loop k' f t w (p + 1) s
  end.
(** wd-stm32h7xx_iwdg.c:76-114 *)
Definition iwdg_setup (f : Z) (st : wset) (s : wd) : wres :=
  if ws_t st <=? 0 then WErr W_EINVAL s else
  if ws_w st <=? 0 then WErr W_EINVAL s else
  if negb (ws_w st <=? ws_t st) then WErr W_EINVAL s else
  iwdg_loop 7 f (ws_t st) (ws_w st) 0 s.
(** wd-ti_f28x.c:61-78 *)
Definition f28_setup (st : wset) (s : wd) : wres :=
  if negb (ws_t st <? 8) then WErr W_EINVAL s else
  if negb (ws_w st <=? 255) then WErr W_EINVAL s else
  let s1 := hw_wdcr s (64 + field (ws_t st) 0 3 + 40) in
  let s2 := set_win s1 (Z.land (w_win s1) (Z.lnot 255)) in
  WOk (set_win s2 (Z.lor (w_win s2) (field (ws_w st) 0 8))).
(** wd-tinyavr.c:50-57 *)
Definition tiny_setup (st : wset) (s : wd) : wres :=
  if negb (ws_w st <? 12) then WErr W_EINVAL s else
  if negb (ws_t st <? 12) then WErr W_EINVAL s else
  WOk (set_ctx s (u8 (Z.lor (Z.shiftl (field (ws_w st) 0 4) 4) (field (ws_t st) 0 4)))).
Definition wd_setup (d : drv) (f : Z) (st : wset) (s : wd) : wres :=
  match d with
  | Atmel => atmel_setup f st s
  | Sam3x => sam3x_setup f st s
  | Avr => avr_setup st s
  | Fwdgt => fwdgt_setup f st s
  | Pic32 => pic32_setup st s
  | Rp2040 => rp_setup st s
  | SamE5 => same5x_setup st s
  | Iwdg => iwdg_setup f st s
  | F28 => f28_setup st s
  | TinyAvr => tiny_setup st s
  end.

(** * The functions of wd.h *)
(** wd-avr.c:58-60 and 69-71: the timed sequence; irq says whether an interrupt is taken between the two writes *)
Definition avr_write (irq : bool) (v : Z) (s : wd) : wd :=
  let s1 := hw_wdtcsr (hw_refresh Avr s) 24 in hw_wdtcsr (if irq then hw_irq s1 else s1) v.
(** wd-avr.c:51-63 *)
Definition avr_start (irq : bool) (s : wd) : wd :=
  avr_write irq (Z.lor (Z.lor (field (w_ctx s) 0 3) (if 7 <? w_ctx s then 32 else 0)) 8) s.
(** wd-atmel_wdt.c:81-85, wd-sam3x.c:82-86, wd-avr.c:51-63, wd-gd32vf103_fwdgt.c:74-78, wd-pic32mx.c:57-61, wd-rp2040.c:71-75,
    wd-same5x.c:92-96, wd-stm32h7xx_iwdg.c:116-120, wd-ti_f28x.c:82-89, wd-tinyavr.c:59-69 (CCP holds off interrupts, and CTRLA takes
    effect some clocks of 1 kHz later, after the wdr) *)
Definition wd_start (d : drv) (irq : bool) (s : wd) : wres :=
  match d with
  | Atmel | Sam3x => WOk (hw_mr s (Z.land (w_mode s) (Z.lnot 32768)))
  | Avr => WOk (avr_start irq s)
  | Fwdgt => WOk (hw_kr s 52428)
  | Pic32 => WOk (hw_wdtcon_set s 32768)
  | Rp2040 => WOk (set_mode s (Z.lor (w_mode s) 1073741824))
  | SamE5 => same5x_sync (set_mode s (Z.lor (w_mode s) 2))
  | Iwdg => WOk (hw_kr s 52428)
  | F28 => WOk (hw_wdcr s 40)
  | TinyAvr => WOk (set_mode (hw_refresh TinyAvr s) (w_ctx s))
  end.
(** wd-atmel_wdt.c:87-91, wd-sam3x.c:88-92, wd-avr.c:65-74, wd-gd32vf103_fwdgt.c:80-84, wd-pic32mx.c:63-67, wd-rp2040.c:77-81,
    wd-same5x.c:98-102, wd-stm32h7xx_iwdg.c:122-125, wd-ti_f28x.c:91-98, wd-tinyavr.c:71-77 *)
Definition wd_stop (d : drv) (irq : bool) (s : wd) : wres :=
  match d with
  | Atmel | Sam3x => WOk (hw_mr s (Z.lor (w_mode s) 32768))
  | Avr => WOk (avr_write irq 0 s)
  | Fwdgt => WOk (hw_kr s 21845)
  | Pic32 => WOk (hw_wdtcon_clr s 32768)
  | Rp2040 => WOk (set_mode s (Z.land (w_mode s) (Z.lnot 1073741824)))
  | SamE5 => same5x_sync (set_mode s (Z.land (w_mode s) (Z.lnot 2)))
  | Iwdg => WOk s
  | F28 => let s1 := hw_scsr s 1 in WOk (hw_wdcr s1 (Z.lor (w_mode s1) (64 + 40)))
  | TinyAvr => WOk (set_mode s 0)
  end.
(** wd-atmel_wdt.c:93-96, wd-sam3x.c:94-97, wd-avr.c:76-80, wd-gd32vf103_fwdgt.c:86-89, wd-pic32mx.c:69-72, wd-rp2040.c:83-86,
    wd-same5x.c:104-107, wd-stm32h7xx_iwdg.c:127-130, wd-ti_f28x.c:100-106, wd-tinyavr.c:79-82 *)
Definition wd_refresh (d : drv) (s : wd) : wd :=
  match d with
  | Fwdgt | Iwdg => hw_refresh d (hw_kr s 43690)
  | Pic32 => hw_wdtcon_set s (22339 * 65536)
  | Rp2040 => hw_rp_load s (w_ctx s)
  | F28 => hw_wdkey (hw_wdkey s 85) 170
  | _ => hw_refresh d s
  end.

(** * Histories *)
(** The system runs: input clocks pass, and tasks refresh the watchdog. *)
Inductive wev := Clk | Feed.
Definition wd_step (d : drv) (s : wd) (e : wev) : wd :=
  if w_dead s then s else match e with Clk => hw_tick d s | Feed => wd_refresh d s end.
Fixpoint wd_run (d : drv) (s : wd) (l : list wev) : wd :=
  match l with [] => s | e :: l' => wd_run d (wd_step d s e) l' end.
