(** GpioSpec.v - what gpio_write, gpio_read and gpio_toggle must do. *)
From Verif Require Import Base GpioModel.

(** What a task sees of its pin: output level, direction, level outside. *)
Record pin := mkPin { n_out : bool; n_dir : bool; n_ext : bool }.
Definition pin_of (b : Z) (p : port) : pin := mkPin (Z.testbit (p_out p) b) (Z.testbit (p_dir p) b) (Z.testbit (p_ext p) b).
Definition level (n : pin) : bool := if n_dir n then n_out n else n_ext n.

(** gpio_write sets the level (the other one if the pin is inverted), gpio_toggle changes it, gpio_read
    gives it. *)
Definition spec_out (inv : bool) (o : gop) (b : bool) : bool :=
  match o with OpWrite v => xorb v inv | OpToggle => negb b | OpRead => b end.
Fixpoint spec_outs (inv : bool) (l : list gop) (b : bool) : bool :=
  match l with [] => b | o :: l => spec_outs inv l (spec_out inv o b) end.
(** The values returned (false: nothing is) by the calls of [l] on a pin that is an output. *)
Fixpoint spec_seen (inv : bool) (l : list gop) (b : bool) : list bool :=
  match l with
  | [] => []
  | o :: l => (match o with OpRead => xorb b inv | _ => false end) :: spec_seen inv l (spec_out inv o b)
  end.

(** The drivers whose calls touch nothing but their pin. *)
Definition pin_only (d : gdrv) : Prop :=
  match d with
  | Pic32mx | TiF28x | Same5x | TinyAvr | Ra4 | Rp2040 | AtmelPio | Sam3xPio => True
  | _ => False
  end.
Definition pin_range (d : gdrv) (b : Z) : Prop :=
  0 <= b < match d with Avr | TinyAvr => 8 | NxpSiul2 | Gd32vf103 | Stm32h7xx | Ra4 => 16 | _ => 32 end.

(** Tasks with nothing under way, one pin each. *)
Definition fresh (t : gtask) : Prop := t_now t = None /\ t_seen t = [].
Definition own_pins (ts : list gtask) : Prop :=
  forall i j t u, ts !! i = Some t -> ts !! j = Some u -> g_bit (t_ctx t) = g_bit (t_ctx u) -> i = j.

(** Where the pin of a task that started as [t0] is when the task is as [t]: it has had [k] of its calls
    returned, and its output ([out0] was the port's output then, [out] is it now) is that of those calls;
    that of one more if the next call is under way and has made its write. *)
Definition pin_calls (t0 : gtask) (out0 : Z) (t : gtask) (out : Z) : Prop :=
  let b := g_bit (t_ctx t0) in let inv := g_inv (t_ctx t0) in let k := length (t_seen t) in
  match t_now t with
  | None => t_todo t = drop k (t_todo t0) /\ Z.testbit out b = spec_outs inv (take k (t_todo t0)) (Z.testbit out0 b)
  | Some _ => t_todo t = drop (S k) (t_todo t0) /\
      (Z.testbit out b = spec_outs inv (take k (t_todo t0)) (Z.testbit out0 b) \/
       Z.testbit out b = spec_outs inv (take (S k) (t_todo t0)) (Z.testbit out0 b))
  end.

(** The one call C84 says is wrong on the drivers of C83: gpio_toggle of an inverted pin, on the ra4. *)
Definition no_ra4 (d : gdrv) (t : gtask) : Prop := d = Ra4 -> g_inv (t_ctx t) = true -> ~ In OpToggle (t_todo t).
