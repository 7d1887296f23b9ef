(** DmaSpec.v - what a DMA transfer is asked to do, apart from any driver. *)
From Verif Require Import Base DmaModel.

(** The units asked for: the i-th is read at the source, or i * size past it, and written likewise. *)
Definition unit_at (x : xfer) (i : nat) : Z * Z * Z :=
  (saddr x + (if incr_read x =? 0 then 0 else Z.of_nat i * size x), daddr x + (if incr_write x =? 0 then 0 else Z.of_nat i * size x), size x).
Definition asked_units (x : xfer) : list (Z * Z * Z) := map (unit_at x) (seq 0 (Z.to_nat (byte_count x / size x))).
(** Units of the driver's bus. *)
Definition unit_ok (d : ddrv) (n : Z) : bool :=
  match d with
  | DGd => (n =? 1) || (n =? 2) | DStm | DE5 | DRp => (n =? 1) || (n =? 2) || (n =? 4) | DEdma => (n =? 1) || (n =? 2) || (n =? 4) || (n =? 8)
  end.
(** The most units, and bytes for the eDMA, that the counter holds. *)
Definition count_max (d : ddrv) : Z := match d with DGd | DStm | DE5 => 2 ^ 16 - 1 | DRp => 2 ^ 32 - 1 | DEdma => 2 ^ 30 - 1 end.
Definition counted (d : ddrv) (x : xfer) : Z := match d with DEdma => byte_count x | _ => byte_count x / size x end.
(** Transfers the drivers can do: of one unit or more, of a size the bus has, with nothing left over, within the counter and the addresses of 31 bits
    (the drivers take addresses as signed). *)
Record possible (d : ddrv) (x : xfer) : Prop := {
  po_unit : unit_ok d (size x) = true;
  po_whole : byte_count x mod size x = 0;
  po_some : 0 < byte_count x;
  po_count : counted d x <= count_max d;
  po_src : 0 <= saddr x /\ saddr x + byte_count x <= 2 ^ 31;
  po_dst : 0 <= daddr x /\ daddr x + byte_count x <= 2 ^ 31;
  po_incr : incr_ok x = true }.
(** Source and destination apart. *)
Definition apart (x : xfer) : Prop := saddr x + byte_count x <= daddr x \/ daddr x + byte_count x <= saddr x.
(** Each byte of the destination is that of the source, and the others are what they were. *)
Definition memory_copied (x : xfer) (m : mem) : mem :=
  fun a => if (daddr x <=? a) && (a <? daddr x + byte_count x) then m (saddr x + (a - daddr x)) else m a.
