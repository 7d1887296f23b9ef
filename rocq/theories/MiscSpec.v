(** MiscSpec.v - a register of 32 bits, of which only some change. *)
From Verif Require Import Base.

(** r' is r but for the bits [lo, lo + n) *)
Definition same_but (lo n r r' : Z) : Prop := forall b, 0 <= b -> ~ lo <= b < lo + n -> Z.testbit r' b = Z.testbit r b.
(** What is in the bits [lo, lo + n) *)
Definition bits (r lo n : Z) : Z := Z.shiftr r lo mod 2 ^ n.
(** The schedule of calls, each of two steps, that nothing interrupts *)
Definition whole (calls : list bool) : list bool := flat_map (fun w => [w; w]) calls.
