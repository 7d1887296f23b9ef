(** FlashSpec.v - vocabulary of the external flash properties. *)
From Verif Require Import Base FlashModel.

(** No operation under way, in the driver and in the chip. *)
Definition flash_idle (f : fx) : Prop :=
  f_left f = 0%nat /\ f_seq f = 0%nat /\ f_cur f = [] /\ c_busy (f_chip f) = false.

(** The static buffers have their size; the attributes are those of a chip of that size (as set by
    flash_ext_probe). *)
Definition flash_known (f : fx) : Prop :=
  length (f_pp f) = 260%nat /\ f_ulen f = 4096 /\ f_total f = c_size (f_chip f) /\
  0 < c_size (f_chip f) <= 16777216 /\ c_size (f_chip f) mod 4096 = 0.

(** spi_xfer never fails but with -EAGAIN. *)
Definition only_eagain (l : list xo) : Prop :=
  Forall (fun x => match x with XErr e => Z.pos e = EAGAIN | XGot _ _ => True end) l.

(** The bytes spi_xfer is certain to exchange, and the chip is always done when it is asked. *)
Fixpoint exchanges (l : list xo) : nat :=
  match l with [] => 0 | XGot _ _ :: l => S (exchanges l) | XErr _ :: l => exchanges l end.
Definition always_ready (l : list xo) : Prop :=
  Forall (fun x => match x with XGot _ r => r = true | XErr _ => True end) l.

(** A function is called until it returns something else than -EAGAIN, at most [k] times. *)
Fixpoint until (k : nat) (op : fx -> res (fx * Z)) (f : fx) : res (fx * Z) :=
  match k with
  | O => Ok (f, - EAGAIN)
  | S k =>
      let! (f, r) := op f in
      if r =? - EAGAIN then until k op f else Ok (f, r)
  end.

(** Any number of status polls. *)
Definition polls (l : list (list Z)) : Prop := (1 <= length l)%nat /\ Forall (fun x => x = [5; 0]) l.

(** The sizes of the parts each driver knows, by JEDEC identification (datasheets; sst26vf: the low half of the
    last byte). *)
Definition part_size (v : dv) (a b d : Z) : option Z :=
  match v with
  | S25FL1 =>
      if (a =? 1) && (b =? 64) then
        if d =? 21 then Some 2097152 else if d =? 22 then Some 4194304 else if d =? 23 then Some 8388608 else None
      else None
  | SST26VF =>
      if (a =? 191) && (b =? 38) then
        if d mod 16 =? 1 then Some 2097152 else if d mod 16 =? 2 then Some 4194304 else None
      else None
  end.
(** What a probe that is over says. *)
Definition probed (v : dv) (a b d : Z) (f f' : fx) (r : Z) : Prop :=
  flash_idle f' /\ f_jedec f' = [a; b; d] /\ f_chip f' = f_chip f /\
  match part_size v a b d with
  | Some z => r = 0 /\ f_ulen f' = 4096 /\ f_total f' = z
  | None => r = - EIO /\ f_total f' = f_total f
  end.

(** The quad enable bit of the second status register. *)
Definition qe_bit (c : chip) : bool := Z.testbit (c_sr2 c) 1.
(** Two chips that differ in nothing but that bit and the flags. *)
Definition same_but_qe (c c' : chip) : Prop :=
  c_mem c' = c_mem c /\ c_size c' = c_size c /\ c_id c' = c_id c /\ c_sr1 c' / 4 = c_sr1 c / 4 /\ c_sr3 c' = c_sr3 c /\
  forall i, 0 <= i < 8 -> i <> 1 -> Z.testbit (c_sr2 c') i = Z.testbit (c_sr2 c) i.
