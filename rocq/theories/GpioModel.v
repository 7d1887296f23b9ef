(** GpioModel.v - gpio_write, gpio_read and gpio_toggle of the drivers in drivers/gpio, as sequences of
    accesses to the registers of one port, shared by any number of tasks.

    Simplifications:
    - one port; a pin is its bit number in the registers ([nxp_siu] and [nxp_siul2] number them from the
      left: ctx->mask = 0x80000000 >> pin, gpio-nxp_siu.c:27, gpio-nxp_siul2.c:30; the bit is what counts);
    - the level of a pin is its output bit if it is an output, else what is outside; the registers that
      set the direction are only modelled where these functions write them (gpio-tinyavr.c);
    - one register access is one step (on all these machines), everything between two accesses is local;
      eallow and edis of gpio-ti_f28x.c are dropped. *)
From Verif Require Import Base.

(** The registers of a port. *)
Inductive greg := OUT | IN | SET | CLR | XOR | BSRR | DIRSET | DIRCLR.
Record port := mkPort { p_out : Z; p_dir : Z; p_ext : Z }.
Definition rd_reg (r : greg) (p : port) : Z :=
  match r with
  | IN => Z.lor (Z.land (p_out p) (p_dir p)) (Z.ldiff (p_ext p) (p_dir p))
  | _ => p_out p
  end.
Definition wr_reg (r : greg) (v : Z) (p : port) : port :=
  match r with
  | OUT => mkPort v (p_dir p) (p_ext p)
  | IN => p
  | SET => mkPort (Z.lor (p_out p) v) (p_dir p) (p_ext p)
  | CLR => mkPort (Z.ldiff (p_out p) v) (p_dir p) (p_ext p)
  | XOR => mkPort (Z.lxor (p_out p) v) (p_dir p) (p_ext p)
  | BSRR => mkPort (Z.lor (Z.ldiff (p_out p) (Z.shiftr v 16)) (Z.land v 65535)) (p_dir p) (p_ext p)
  | DIRSET => mkPort (p_out p) (Z.lor (p_dir p) v) (p_ext p)
  | DIRCLR => mkPort (p_out p) (Z.ldiff (p_dir p) v) (p_ext p)
  end.

(** What a task still has to do: accesses, then a result. *)
Inductive gcode := Ret (r : bool) | Rd (r : greg) (k : Z -> gcode) | Wr (r : greg) (v : Z) (k : gcode).

(** struct gpio: the bit of ctx->mask, ctx->invert. *)
Record gctx := mkCtx { g_bit : Z; g_inv : bool }.
Definition g_mask (c : gctx) : Z := 2 ^ g_bit c.

Inductive gdrv := Avr | NxpSiu | NxpSiul2 | Pic32mx | Gd32vf103 | TiF28x | Same5x | Stm32h7xx | TinyAvr | Ra4 | Rp2040 | AtmelPio | Sam3xPio.

(** gpio_write: gpio-avr.c:54-58, gpio-nxp_siu.c:53-57, gpio-nxp_siul2.c:56-60 (a load and a store),
    gpio-pic32mx.c:55-59, gpio-gd32vf103.c:58-62, gpio-ti_f28x.c:54-60, gpio-same5x.c:61-65,
    gpio-rp2040_sio.c:76-80, gpio-atmel_pio.c:103-107, gpio-sam3x_pio.c:103-107 (a store to a set or clear
    register), gpio-stm32h7xx.c:61-65, gpio-renesas_ra4.c:67-71 (a store, both halves in one register),
    gpio-tinyavr.c:64-70 (then the direction). *)
Definition gpio_write (d : gdrv) (c : gctx) (value : bool) : gcode :=
  let v := xorb value (g_inv c) in
  match d with
  | Avr | NxpSiu | NxpSiul2 =>
      Rd OUT (fun x => Wr OUT (if v then Z.lor x (g_mask c) else Z.ldiff x (g_mask c)) (Ret false))
  | Stm32h7xx | Ra4 => Wr BSRR (if v then g_mask c else Z.shiftl (g_mask c) 16) (Ret false)
  | TinyAvr => Wr (if v then SET else CLR) (g_mask c) (Wr DIRSET (g_mask c) (Ret false))
  | _ => Wr (if v then SET else CLR) (g_mask c) (Ret false)
  end.

(** gpio_read: gpio-avr.c:60-63 and the same lines of the others, gpio-tinyavr.c:72-76 (after the
    direction). *)
Definition gpio_read (d : gdrv) (c : gctx) : gcode :=
  let test := Rd IN (fun x => Ret (xorb (negb (Z.land x (g_mask c) =? 0)) (g_inv c))) in
  match d with TinyAvr => Wr DIRCLR (g_mask c) test | _ => test end.

(** gpio_toggle: gpio-avr.c:65-68, gpio-nxp_siu.c:64-67, gpio-nxp_siul2.c:67-70, gpio-gd32vf103.c:69-72,
    gpio-stm32h7xx.c:72-75 (a load and a store), gpio-pic32mx.c:66-69, gpio-ti_f28x.c:67-72,
    gpio-same5x.c:72-75, gpio-rp2040_sio.c:87-90 (a store), gpio-tinyavr.c:78-82,
    gpio-atmel_pio.c:114-120, gpio-sam3x_pio.c:114-120 (a load and a store for that pin),
    gpio-renesas_ra4.c:78-83 (gpio_write of what PODR, PCNTR1 >> 16, is not). *)
Definition gpio_toggle (d : gdrv) (c : gctx) : gcode :=
  match d with
  | Avr | NxpSiu | NxpSiul2 | Gd32vf103 | Stm32h7xx => Rd OUT (fun x => Wr OUT (Z.lxor x (g_mask c)) (Ret false))
  | Pic32mx | TiF28x | Same5x | Rp2040 => Wr XOR (g_mask c) (Ret false)
  | TinyAvr => Wr XOR (g_mask c) (Wr DIRSET (g_mask c) (Ret false))
  | AtmelPio | Sam3xPio =>
      Rd OUT (fun x => if negb (Z.land x (g_mask c) =? 0) then Wr CLR (g_mask c) (Ret false) else Wr SET (g_mask c) (Ret false))
  | Ra4 => Rd OUT (fun x => gpio_write Ra4 c (Z.land x (g_mask c) =? 0))
  end.

(** A call with nothing in between: the port it leaves and what it returns. *)
Fixpoint solo (c : gcode) (p : port) : port * bool :=
  match c with
  | Ret r => (p, r)
  | Rd r k => solo (k (rd_reg r p)) p
  | Wr r v k => solo k (wr_reg r v p)
  end.

(** ** Tasks on one port *)
Inductive gop := OpWrite (v : bool) | OpRead | OpToggle.
Definition op_code (d : gdrv) (c : gctx) (o : gop) : gcode :=
  match o with OpWrite v => gpio_write d c v | OpRead => gpio_read d c | OpToggle => gpio_toggle d c end.

(** A task: its pin, the call under way, the calls to come, and the values returned so far. *)
Record gtask := mkGt { t_ctx : gctx; t_now : option gcode; t_todo : list gop; t_seen : list bool }.
Definition gtask_step (d : gdrv) (p : port) (t : gtask) : port * gtask :=
  match t_now t with
  | None =>
      match t_todo t with
      | [] => (p, t)
      | o :: l => (p, mkGt (t_ctx t) (Some (op_code d (t_ctx t) o)) l (t_seen t))
      end
  | Some (Ret r) => (p, mkGt (t_ctx t) None (t_todo t) (t_seen t ++ [r]))
  | Some (Rd r k) => (p, mkGt (t_ctx t) (Some (k (rd_reg r p))) (t_todo t) (t_seen t))
  | Some (Wr r v k) => (wr_reg r v p, mkGt (t_ctx t) (Some k) (t_todo t) (t_seen t))
  end.
Definition gstep (d : gdrv) (s : port * list gtask) (i : nat) : port * list gtask :=
  match s.2 !! i with
  | None => s
  | Some t => let '(p, t) := gtask_step d s.1 t in (p, <[i := t]> s.2)
  end.
(** Any interleaving: the task that makes each step. *)
Definition grun (d : gdrv) (sched : list nat) (s : port * list gtask) : port * list gtask := fold_left (gstep d) sched s.
