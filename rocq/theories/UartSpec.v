(** UartSpec.v - what uart_write and uart_read must do, from what they return (drivers/include/uart.h:56-80). *)
From Verif Require Import Base UartModel.

Definition is_byte (b : Z) : Prop := 0 <= b < 256.
(** The bytes a program takes for sent: the first r of a buffer when uart_write returned r. *)
Definition told_sent (r : ures) : list Z :=
  match r with RWrite buf r => take (Z.to_nat r) buf | RRead _ _ _ => [] end.
(** The bytes a program takes for received: the first r of the buffer when uart_read returned r. *)
Definition told_recv (r : ures) : list Z :=
  match r with RRead _ r data => take (Z.to_nat r) data | RWrite _ _ => [] end.
(** A count between 1 and n, -EAGAIN, or -EINVAL for an empty buffer. *)
Definition ret_ok (r : ures) : Prop :=
  let ok n r := if (n =? 0)%nat then r = -22 else r = -11 \/ 1 <= r <= Z.of_nat n in
  match r with RWrite buf r => ok (length buf) r | RRead n r data => ok n r /\ (0 < r -> r = Z.of_nat (length data)) end.
Definition call_ok (c : ucall) : Prop := match c with CWrite buf => Forall is_byte buf | CRead _ => True end.
(** A time without anything from outside. *)
Definition quiet (w : uenv) : Prop := Forall (fun l => l = []) w.
(** The drivers. *)
Definition polled : list udev := [pl011; sercom; samuart; samusart; avr; gd32; pic32; ra4sci; stm32; tinyavr].
(** Programs that write one byte at a time. *)
Definition call1_byte (c : ucall) : Prop := match c with CWrite buf => Forall is_byte buf /\ (length buf <= 1)%nat | CRead _ => True end.
