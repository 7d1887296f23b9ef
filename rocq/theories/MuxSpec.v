(** MuxSpec.v - what the calls of a multiplexer are for. *)
From Verif Require Import Base MuxModel.

(** The function a driver's number f stands for. *)
Definition fun_of (d : mdrv) (f : Z) : pfun :=
  match d with
  | MAtmel | MSam3x => if f =? 1 then Gpio else Alt (f - 2)
  | MSame5x => if f =? 14 then Gpio else Alt f
  | MTi => if f mod 4 =? 0 then Gpio else Alt f
  | MSiul2 | MSiu => if f =? 0 then Gpio else Alt f
  | MRp => Alt f
  | _ => Gpio
  end.
Definition set_fun (x : pin) (f : pfun) (i o : bool) : pin := mkPin f i o (p_pull x) (p_od x) (p_x x) (p_y x).
Definition set_pull (x : pin) (u : ppull) : pin := mkPin (p_fun x) (p_in x) (p_out x) u (p_od x) (p_x x) (p_y x).
Definition set_od (x : pin) (b : bool) : pin := mkPin (p_fun x) (p_in x) (p_out x) (p_pull x) b (p_x x) (p_y x).
Definition set_x (x : pin) (k : Z) : pin := mkPin (p_fun x) (p_in x) (p_out x) (p_pull x) (p_od x) k (p_y x).
Definition set_y (x : pin) (k : Z) : pin := mkPin (p_fun x) (p_in x) (p_out x) (p_pull x) (p_od x) (p_x x) k.
(** The pin the call asks for, when it was x before. Calls that set all of it: RP2040 (4 mA, schmitt, an output has a pull-down), RA4, and
    GD32; a SAME5x pin that gets a function loses its pull. *)
Definition asked (d : mdrv) (c : mcall) (x : pin) : pin :=
  match d, c with
  | MRp, CIo f => mkPin (Alt f) true true NoPull false 1 0
  | MRp, CIn f => mkPin (Alt f) true false NoPull false 1 0
  | MRp, COut f => mkPin (Alt f) false true Down false 1 0
  | MRa4, CIn _ => mkPin Gpio true false NoPull false 0 0
  | MRa4, COut _ => mkPin Gpio true true NoPull false 0 0
  | MRa4, CAnalog => mkPin Analog true false NoPull false 0 0
  | MRa4, CAlt k => mkPin (Alt k) true false NoPull false 0 0
  | MSame5x, CIn f => mkPin (fun_of d f) true false (if f =? 14 then p_pull x else NoPull) false 0 0
  | MSame5x, COut f => mkPin (fun_of d f) false true (if f =? 14 then p_pull x else NoPull) false 0 0
  | MSiul2, CInImcr _ _ => set_fun x (p_fun x) true false
  | MSiul2, COut f => set_x (set_fun x (fun_of d f) (p_in x) true) 3
  | MSiul2, CAnalog => mkPin Analog true false NoPull false 0 0
  | MSiu, COut f => set_x (set_fun x (fun_of d f) false true) 3
  | MAvr, COut v => set_y (set_fun x Gpio true true) (if v =? 0 then 0 else 1)
  | _, CInMode m => mkPin Gpio true false (if m =? 0 then NoPull else if m =? 1 then Down else Up) false 0 0
  | MGd, CAnalog => mkPin Analog true false NoPull false 0 0
  | _, COutMode m sp => mkPin Gpio true true NoPull (m =? 1) (sp + 1) 0
  | _, CAfio m sp => mkPin (Alt 0) true true NoPull (m =? 1) (sp + 1) 0
  | _, CIn f | _, CInImcr f _ => set_fun x (fun_of d f) true false
  | _, COut f => set_fun x (fun_of d f) true true
  | _, CIo f => set_fun x (fun_of d f) true true
  | _, CAnalog => set_fun x Analog true false
  | _, CAlt k => set_fun x (Alt k) true false
  | _, CUp => set_pull x Up
  | _, CDown => set_pull x Down
  | _, CPushPull => set_od x false
  | _, COpenDrain => set_od x true
  | _, CDrive k | _, CQsel k => set_x x k
  | _, COver k => set_y x k
  end.
(** The calls that do what they are for: not PIO_DISABLE, on a SAME5x neither gpios nor pull-ups, on a SIUL2 neither an input that was an
    output nor an output that was analog. *)
Definition sound (d : mdrv) (c : mcall) (x : pin) : bool :=
  match d, c with
  | MAtmel, (CIn f | COut f) | MSam3x, (CIn f | COut f) => negb (f =? 0)
  | MSame5x, (CIn f | COut f) => negb (f =? 14)
  | MSame5x, (CUp | CDown) => false
  | MSiul2, CInImcr _ _ => negb (p_out x)
  | MSiul2, COut _ => match p_fun x with Analog => false | _ => true end
  | _, _ => true
  end.
(** Pin q after a list of calls, if they do what they are for; and whether they are all sound. *)
Definition asked_all (d : mdrv) (q : Z) (l : list (mcall * Z)) (x : pin) : pin :=
  fold_left (fun x cp => if snd cp =? q then asked d (fst cp) x else x) l x.
Fixpoint all_sound (d : mdrv) (q : Z) (l : list (mcall * Z)) (x : pin) : bool :=
  match l with
  | [] => true
  | (c, p) :: l' => if p =? q then sound d c x && all_sound d q l' (asked d c x) else all_sound d q l' x
  end.
(** The calls a driver has, and the arguments they take. *)
Definition has (d : mdrv) (c : mcall) : bool :=
  match d, c with
  | MStm, (CIn _ | COut _ | CAnalog | CUp | CDown | CPushPull | COpenDrain) => true
  | MStm, CAlt k => below k 16
  | MGd, CAnalog => true
  | MGd, CInMode m => below m 3
  | MGd, (COutMode m sp | CAfio m sp) => below m 2 && below sp 3
  | MAtmel, (CIn f | COut f) => below f 6
  | MSam3x, (CIn f | COut f) => below f 4
  | (MAtmel | MSam3x), CUp => true
  | MSame5x, (CIn f | COut f) => below f 15
  | MSame5x, (CUp | CDown) => true
  | MTi, (CIn f | COut f) => below f 16
  | MTi, CUp => true
  | MTi, CQsel k => below k 4
  | MSiul2, COut f => below f 6
  | MSiul2, CInImcr f j => below f 6 && below j 512
  | MSiul2, (CAnalog | CUp | CDown) => true
  | MRp, (CIn f | COut f | CIo f) => below f 10
  | MRp, (CUp | CDown) => true
  | MRp, (COver k | CDrive k) => below k 4
  | MRa4, (CIn _ | COut _ | CAnalog | CUp) => true
  | MRa4, CAlt k => below k 32
  | MAvr, (CIn _ | COut _) => true
  | MTiny, (CIn _ | COut _ | CUp) => true
  | MPic, (CIn _ | COut _ | CAnalog | CUp | CDown) => true
  | MSiu, (CIn f | COut f) => below f 4
  | MSiu, (CUp | CDown) => true
  | _, _ => false
  end.
