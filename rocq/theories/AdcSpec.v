(** AdcSpec.v - what adc.h promises. *)
From Verif Require Import Base AdcModel.

(** v is raw times the multiplier, divided by the divider and rounded towards zero, plus the offset. *)
Definition scaled (raw : Z) (c : cal) (v : Z) : Prop :=
  exists q, v = q + c_off c /\ c_div c <> 0 /\ Z.abs (q * c_div c) <= Z.abs (raw * c_mul c) < Z.abs (q * c_div c) + Z.abs (c_div c) /\
    0 <= (q * c_div c) * (raw * c_mul c).
(** Settings that cannot overflow an int of w bits with raw values up to hi. *)
Definition cal_ok (w hi : Z) (c : cal) : Prop := c_div c <> 0 /\ hi * Z.abs (c_mul c) + Z.abs (c_off c) < 2 ^ (w - 1).
(** The converter delivers values 0 .. hi, and they are ints. *)
Definition sig_ok (w hi : Z) (sig : Z -> nat -> Z) : Prop := hi < 2 ^ (w - 1) /\ forall c t, 0 <= sig c t <= hi.

(** One read at a time: from the first call of adc_read for a context until it returns 1 no other context is read. None: not so;
    Some None: no read is under way; Some (Some (i, t)): one of context i is, since time t. *)
Fixpoint one_at_a_time (n : nat) (cur : option (nat * nat)) (l : list (aev * aout)) : option (option (nat * nat)) :=
  match l with
  | [] => Some cur
  | (ERead i, o) :: l' =>
      let '(j, t0) := match cur with Some c => c | None => (i, n) end in
      if (j =? i)%nat then one_at_a_time (S n) (match o with AData _ => None | _ => Some (i, t0) end) l' else None
  | _ :: l' => one_at_a_time (S n) cur l'
  end.
(** The time the read of context i under way at the end was begun, other contexts being read or not. *)
Fixpoint begun (i n : nat) (cur : option nat) (l : list (aev * aout)) : option nat :=
  match l with
  | [] => cur
  | (ERead j, o) :: l' =>
      begun i (S n) (if (j =? i)%nat then match o with AData _ => None | _ => Some (match cur with Some t => t | None => n end) end else cur) l'
  | _ :: l' => begun i (S n) cur l'
  end.
(** The data read from context i. *)
Fixpoint datas (i : nat) (l : list (aev * aout)) : list Z :=
  match l with
  | [] => []
  | (ERead j, AData v) :: l' => if (j =? i)%nat then v :: datas i l' else datas i l'
  | _ :: l' => datas i l'
  end.
(** Increasing times. *)
Fixpoint increasing (l : list nat) : Prop :=
  match l with [] => True | t :: l' => Forall (fun u => (t < u)%nat) l' /\ increasing l' end.
(** Contexts with these channels and settings are fine for the driver (Avr: see C128_avr_mux). *)
Definition ctxs_ok1 (d : drv1) (hi : Z) (l : list (Z * cal)) : Prop :=
  Forall (fun p => chan_ok1 d (fst p) = true /\ cal_ok (bits1 d) hi (snd p) /\ (d = Avr -> fst p < 8 \/ 40 <= fst p < 48)) l.
Definition ctxs_ok2 (hi : Z) (l : list (Z * cal)) : Prop := Forall (fun p => 0 <= fst p /\ cal_ok 32 hi (snd p)) l.
(** Values of 16 bits, as Nxp and Afec cut them. *)
Definition cut_ok (d : drv2) (hi : Z) : Prop := match d with Nxp | Afec => hi < 65536 | _ => True end.
(** The sign and differential bits an input mode asks for: 0 unsigned single, 1 signed single, 2 unsigned differential, 3 signed
    differential. *)
Definition mode_is (s : pic) (ch im : Z) : Prop := sign_of s ch = Z.odd im /\ diff_of s ch = (2 <=? im).
(** Inputs for the examples: constant ones, input c is at c; and one value that grows with time. *)
Definition sig_const (c : Z) (_ : nat) : Z := Z.land c 31.
Definition sig_clock (_ : Z) (t : nat) : Z := Z.land (Z.of_nat t) 1023.
Definition two : list (Z * cal) := [(1, cal_init); (2, cal_init)].
(** Context i is given a value its input never had. *)
Definition wrong_channel (sig : Z -> nat -> Z) (l : list (Z * cal)) (tr : list (aev * aout)) : Prop :=
  exists i v p, In (ERead i, AData v) tr /\ l !! i = Some p /\ forall t, ~ scaled (sig (fst p) t) (snd p) v.
(** Context i is given a value its input had before it was asked for, and not since. *)
Definition stale (sig : Z -> nat -> Z) (l : list (Z * cal)) (tr : list (aev * aout)) : Prop :=
  exists pre i v post p, tr = pre ++ (ERead i, AData v) :: post /\ l !! i = Some p /\
    forall t, (match begun i 0 None pre with Some b => b | None => length pre end <= t <= length pre)%nat -> ~ scaled (sig (fst p) t) (snd p) v.
(** Events that are calls of adc_read of contexts there are. *)
Definition calls_ok (l : list (Z * cal)) (evs : list aev) : Prop :=
  Forall (fun e => match e with ERead i => is_some (l !! i) = true | _ => True end) evs.
