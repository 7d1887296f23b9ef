(** EepromModel.v - drivers/eeprom/eeprom-cy15b004j.c on the two-wire interface of TwiModel, and the device.

    Simplification: twi_setup (twi-avr.c:138-159) is what it does here: ctx->slave_addr is set (bitrate is
    0, the mode is master, TWAR only matters to a slave). *)
From Verif Require Import Base TwiModel.

(** ** The device: CY15B004J data sheet.  512 bytes; the slave address holds the top bit of the memory
    address, the first byte of a write is the rest; the address goes up with each byte, from 511 to 0. *)
Inductive fphase := P_NONE | P_ADDR | P_WRITE | P_READ.
Record fram := mkFram { f_mem : Z -> Z; f_ptr : Z; f_ph : fphase }.
(** [id]: the two address pins. *)
Definition fram_step (id : Z) (f : fram) (e : bev) : fram :=
  match e with
  | BStart => mkFram (f_mem f) (f_ptr f) P_NONE
  | BStop => mkFram (f_mem f) (f_ptr f) P_NONE
  | BAddr b ack =>
      if b / 4 =? 40 + id then
        mkFram (f_mem f) (256 * ((b / 2) mod 2) + f_ptr f mod 256) (if Z.testbit b 0 then P_READ else P_ADDR)
      else mkFram (f_mem f) (f_ptr f) P_NONE
  | BTx b ack =>
      match f_ph f with
      | P_ADDR => mkFram (f_mem f) (256 * (f_ptr f / 256) + b mod 256) P_WRITE
      | P_WRITE => mkFram (fun x => if x =? f_ptr f then b mod 256 else f_mem f x) ((f_ptr f + 1) mod 512) P_WRITE
      | _ => f
      end
  | BRx b ack => match f_ph f with P_READ => mkFram (f_mem f) ((f_ptr f + 1) mod 512) P_READ | _ => f end
  end.
Definition fram_after (id : Z) (f0 : fram) (l : list bev) : fram := fold_left (fram_step id) l f0.
(** It answers to its address, acknowledges everything, and sends what it holds. *)
Definition fram_slave (id : Z) (f0 : fram) : slave :=
  fun l o =>
    match o with
    | OAddr b => (b / 4 =? 40 + id, 0)
    | ORecv _ => (true, let f := fram_after id f0 l in f_mem f (f_ptr f))
    | _ => (true, 0)
    end.

(** ** The driver: eeprom-cy15b004j.h:12-17, struct eeprom: settings.slave_addr, state *)
Inductive est := E_SETUP | E_ADDRESS | E_DATA.
Record ectx := mkE { e_addr : Z; e_state : est }.
(** eeprom_cy15b004j_init, eeprom-cy15b004j.c:15-26 *)
Definition eeprom_init (device : Z) : ectx := mkE (Z.lor 80 (Z.shiftl device 1)) E_SETUP.
(** setup, eeprom-cy15b004j.c:32-43 *)
Definition e_setup (c : twctx) (e : ectx) (addr : Z) : twctx * ectx :=
  let a := if 256 <=? addr then Z.lor (e_addr e) 1 else Z.ldiff (e_addr e) 1 in
  (mkTw (c_state c) a (c_last c), mkE a E_ADDRESS).
Definition is_count (r : tres) (n : Z) : bool := match r with Count k => k =? n | _ => false end.
(** eeprom_read, eeprom-cy15b004j.c:70-84, with req_address_read (45-55) and data_read (57-68) *)
Definition eeprom_read (h : twhw) (c : twctx) (e : ectx) (addr n : Z) : twhw * twctx * ectx * tres * option Z :=
  match e_state e with
  | E_SETUP => let '(c, e) := e_setup c e addr in (h, c, e, Again, None)
  | E_ADDRESS =>
      let '(h, c, r) := twi_write h c (addr mod 256) 1 1024 in
      (h, c, (if is_count r 1 then mkE (e_addr e) E_DATA else e), Again, None)
  | E_DATA =>
      let '(h, c, r, d) := twi_read h c n 1536 in
      (h, c, (if is_count r n then mkE (e_addr e) E_SETUP else e), r, d)
  end.
(** eeprom_write, eeprom-cy15b004j.c:121-135, with req_address_write (95-107; 1537 is TWI_F_S, TWI_F_P and
    TWI_F_N(1)) and data_write (109-119) *)
Definition eeprom_write (h : twhw) (c : twctx) (e : ectx) (addr : Z) (buf n : Z) : twhw * twctx * ectx * tres :=
  match e_state e with
  | E_SETUP => let '(c, e) := e_setup c e addr in (h, c, e, Again)
  | E_ADDRESS =>
      let '(h, c, r) := twi_write h c (addr mod 256) (1 + n) 1537 in
      (h, c, (if is_count r 1 then mkE (e_addr e) E_DATA else e), Again)
  | E_DATA =>
      let '(h, c, r) := twi_write h c buf n 0 in
      (h, c, (if is_count r n then mkE (e_addr e) E_SETUP else e), r)
  end.

(** ** A caller: from [addr] on, until everything is done *)
Definition ewst : Type := twhw * twctx * ectx * wcall.
Definition ewrite_call (addr : Z) (buf : list Z) (st : ewst) : ewst :=
  let '(h, c, e, u) := st in
  match w_err u with
  | Some _ => st
  | None =>
      match drop (w_count u) buf with
      | [] => st
      | b :: l =>
          let '(h, c, e, r) := eeprom_write h c e (addr + Z.of_nat (w_count u)) b (Z.of_nat (S (length l))) in
          (h, c, e, match r with Again => u | Count k => mkWc (w_count u + Z.to_nat k) None | x => mkWc (w_count u) (Some x) end)
      end
  end.
Definition ewrite_step (s : slave) (addr : Z) (buf : list Z) (st : ewst) (ev : twev) : ewst :=
  match ev with EvCall => ewrite_call addr buf st | EvDone => (complete s st.1.1.1, st.1.1.2, st.1.2, st.2) end.
Definition ewrite_run s addr buf (evs : list twev) st := fold_left (ewrite_step s addr buf) evs st.

Definition erst : Type := twhw * twctx * ectx * rcall.
Definition eread_call (addr : Z) (n : nat) (st : erst) : erst :=
  let '(h, c, e, u) := st in
  match r_err u with
  | Some _ => st
  | None =>
      match (n - length (r_got u))%nat with
      | O => st
      | S l =>
          let '(h, c, e, r, d) := eeprom_read h c e (addr + Z.of_nat (length (r_got u))) (Z.of_nat (S l)) in
          (h, c, e, match r with
                    | Again => u
                    | Count k => mkRc (r_got u ++ match d with Some d => [d] | None => [] end) None
                    | x => mkRc (r_got u) (Some x)
                    end)
      end
  end.
Definition eread_step (s : slave) (addr : Z) (n : nat) (st : erst) (ev : twev) : erst :=
  match ev with EvCall => eread_call addr n st | EvDone => (complete s st.1.1.1, st.1.1.2, st.1.2, st.2) end.
Definition eread_run s addr n (evs : list twev) st := fold_left (eread_step s addr n) evs st.
