(** EepromSpec.v - what the eeprom calls must do. *)
From Verif Require Import Base TwiModel EepromModel.

(** The seven bit address for the byte at [addr] of device [id]. *)
Definition dev_addr (id addr : Z) : Z := 2 * (40 + id) + (if 256 <=? addr then 1 else 0).
(** A context for device [id], between two transfers. *)
Definition e_ok (id : Z) (e : ectx) : Prop := e_addr e / 2 = 40 + id /\ e_state e = E_SETUP.
(** What memory [m] holds after the first [j] bytes of [buf] went to [addr] on. *)
Definition mem_upd (m : Z -> Z) (addr : Z) (buf : list Z) (j : nat) (x : Z) : Z :=
  if (addr <=? x) && (x <? addr + Z.of_nat j) then nth (Z.to_nat (x - addr)) buf 0 mod 256 else m x.
