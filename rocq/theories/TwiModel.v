(** TwiModel.v - the master side of drivers/twi/twi-avr.c, on a model of the AVR two-wire interface.

    Simplifications:
    - one master on the bus: arbitration is never lost;
    - STOP is sent as soon as it is asked for (the hardware keeps it pending; a START asked for in the
      meantime follows it);
    - an assertion that fails is an outcome of its own ([Assert]);
    - slave mode (ctx->mode == TWI_MODE_SLAVE) is not modelled. *)
From Verif Require Import Base.

(** ** The bus *)
(** What goes over it: START (repeated or not), a byte with its acknowledge bit (address, sent, received),
    STOP. *)
Inductive bev := BStart | BAddr (b : Z) (ack : bool) | BTx (b : Z) (ack : bool) | BRx (b : Z) (ack : bool) | BStop.
(** What the master can be doing. *)
Inductive wop := OStart | OAddr (b : Z) | OSend (b : Z) | ORecv (ack : bool).
(** The other side, any: from what it has seen and what the master does, its acknowledge bit and data. *)
Definition slave := list bev -> wop -> bool * Z.

(** ** The peripheral: ATmega328P data sheet, "2-wire Serial Interface", registers TWCR (without TWINT),
    TWINT, TWSR, TWDR; what is under way; what has happened on the bus *)
Record twhw := mkHw { h_cr : Z; h_int : bool; h_sr : Z; h_dr : Z; h_pend : option wop; h_log : list bev }.
Definition rd_twcr (h : twhw) : Z := if h_int h then Z.lor (h_cr h) 128 else h_cr h.
(** TWINT written to one starts what the status and the control bits say. *)
Definition next_op (cr sr dr : Z) : option wop :=
  if Z.testbit cr 5 then Some OStart
  else if (sr =? 8) || (sr =? 16) then Some (OAddr dr)
  else if (sr =? 24) || (sr =? 40) then Some (OSend dr)
  else if (sr =? 64) || (sr =? 80) then Some (ORecv (Z.testbit cr 6))
  else None.
Definition wr_twcr (v : Z) (h : twhw) : twhw :=
  if Z.testbit v 7 then
    if Z.testbit v 4 then mkHw (Z.land v 111) false 248 (h_dr h) None (h_log h ++ [BStop])
    else mkHw (Z.land v 127) false (h_sr h) (h_dr h) (next_op v (h_sr h) (h_dr h)) (h_log h)
  else mkHw (Z.land v 127) (h_int h) (h_sr h) (h_dr h) (h_pend h) (h_log h).
(** A write to TWDR while TWINT is not set is lost. *)
Definition wr_twdr (v : Z) (h : twhw) : twhw :=
  if h_int h then mkHw (h_cr h) true (h_sr h) v (h_pend h) (h_log h) else h.
(** The bus is held from a START to a STOP. *)
Definition held (l : list bev) : bool := match last l with None | Some BStop => false | _ => true end.
(** What is under way ends, with what the other side does. *)
Definition complete (s : slave) (h : twhw) : twhw :=
  match h_pend h with
  | None => h
  | Some o =>
      let '(ack, d) := s (h_log h) o in
      match o with
      | OStart => mkHw (h_cr h) true (if held (h_log h) then 16 else 8) (h_dr h) None (h_log h ++ [BStart])
      | OAddr b => mkHw (h_cr h) true (if Z.testbit b 0 then (if ack then 64 else 72) else (if ack then 24 else 32))
                     (h_dr h) None (h_log h ++ [BAddr b ack])
      | OSend b => mkHw (h_cr h) true (if ack then 40 else 48) (h_dr h) None (h_log h ++ [BTx b ack])
      | ORecv a => mkHw (h_cr h) true (if a then 80 else 88) (Z.modulo d 256) None (h_log h ++ [BRx (Z.modulo d 256) a])
      end
  end.

(** ** The driver *)
(** enum, twi-avr.h:9-16; struct twi: state, slave_addr, last. *)
Inductive twst := T_IDLE | T_START | T_SLA | T_DATA | T_STOP.
Record twctx := mkTw { c_state : twst; c_addr : Z; c_last : Z }.
Definition set_state (s : twst) (c : twctx) : twctx := mkTw s (c_addr c) (c_last c).
Inductive tres := Again | Count (k : Z) | Fault | Pipe | Io | Assert.
Definition F_S (flags : Z) : bool := Z.testbit flags 10.
Definition F_P (flags : Z) : bool := Z.testbit flags 9.

(** twi_rw_as_master_idle, twi-avr.c:171-183 *)
Definition master_idle (h : twhw) (c : twctx) (flags : Z) : twhw * twctx * tres :=
  if F_S flags then (wr_twcr 164 h, set_state T_START c, Again) else (h, set_state T_DATA c, Again).
(** twi_master_stop, twi-avr.c:185-192 *)
Definition master_stop (h : twhw) (c : twctx) (r : tres) : twhw * twctx * tres := (wr_twcr 148 h, set_state T_IDLE c, r).
(** twi_rw_as_master_start, twi-avr.c:194-218 *)
Definition master_start (h : twhw) (c : twctx) (rw : Z) : twhw * twctx * tres :=
  let twcr := rd_twcr h in
  if negb (Z.testbit twcr 7) then (h, c, Again)
  else if negb (h_sr h =? 8) && negb (h_sr h =? 16) then master_stop h c Fault
  else
    let h := wr_twdr (Z.lor (Z.modulo (Z.shiftl (Z.land (c_addr c) 127) 1) 256) rw) h in
    (wr_twcr (Z.ldiff twcr 48) h, set_state T_SLA c, Again).
(** twi_write_as_master_sla, twi-avr.c:220-249 *)
Definition write_sla (h : twhw) (c : twctx) (buf : Z) (n : Z) : twhw * twctx * tres :=
  let twcr := rd_twcr h in
  if negb (Z.testbit twcr 7) then (h, c, Again)
  else if negb (h_sr h =? 24) then master_stop h c Pipe
  else
    let h := wr_twcr twcr (wr_twdr buf h) in
    if n =? 1 then (h, mkTw T_STOP (c_addr c) 1, Again) else (h, set_state T_DATA c, Count 1).
(** twi_write_as_master_data, twi-avr.c:251-281 *)
Definition write_data (h : twhw) (c : twctx) (buf : Z) (n : Z) : twhw * twctx * tres :=
  let twcr := rd_twcr h in
  if negb (Z.testbit twcr 7) then (h, c, Again)
  else if h_sr h =? 40 then
    let h := wr_twcr twcr (wr_twdr buf h) in
    if n =? 1 then (h, mkTw T_STOP (c_addr c) 1, Again) else (h, c, Count 1)
  else if h_sr h =? 48 then master_stop h c (Count 1)
  else (h, c, Assert).
(** twi_rw_as_master_stop, twi-avr.c:283-295 *)
Definition rw_stop (h : twhw) (c : twctx) (flags : Z) : twhw * twctx * tres :=
  if negb (Z.testbit (rd_twcr h) 7) then (h, c, Again)
  else ((if F_P flags then wr_twcr 148 h else h), set_state T_IDLE c, Count (c_last c)).
(** twi_write, twi_write_as_master, twi-avr.c:553-566, 297-313; [buf] is the byte at buf. *)
Definition twi_write (h : twhw) (c : twctx) (buf : Z) (n flags : Z) : twhw * twctx * tres :=
  match c_state c with
  | T_IDLE => master_idle h c flags
  | T_START => master_start h c 0
  | T_SLA => write_sla h c buf n
  | T_DATA => write_data h c buf n
  | T_STOP => rw_stop h c flags
  end.

(** twi_read_as_master_sla, twi-avr.c:315-338 *)
Definition read_sla (h : twhw) (c : twctx) (n : Z) : twhw * twctx * tres :=
  let twcr := rd_twcr h in
  if negb (Z.testbit twcr 7) then (h, c, Again)
  else if negb (h_sr h =? 64) then master_stop h c Pipe
  else (wr_twcr (if n =? 1 then Z.ldiff twcr 64 else Z.lor twcr 64) h, set_state T_DATA c, Again).
(** twi_read_as_master_data, twi-avr.c:340-363; with the byte stored at buf. *)
Definition read_data (h : twhw) (c : twctx) (n : Z) : twhw * twctx * tres * option Z :=
  let twcr := rd_twcr h in
  if negb (Z.testbit twcr 7) then (h, c, Again, None)
  else if negb (h_sr h =? 80) && negb (h_sr h =? 88) then (master_stop h c Io, None)
  else
    let twcr := if n =? 2 then Z.ldiff twcr 64 else twcr in
    if n =? 1 then (master_stop h c (Count 1), Some (h_dr h)) else (wr_twcr twcr h, c, Count 1, Some (h_dr h)).
(** twi_read, twi_read_as_master, twi-avr.c:568-581, 365-382 *)
Definition twi_read (h : twhw) (c : twctx) (n flags : Z) : twhw * twctx * tres * option Z :=
  match c_state c with
  | T_IDLE => (master_idle h c flags, None)
  | T_START => (master_start h c 1, None)
  | T_SLA => (read_sla h c n, None)
  | T_DATA => read_data h c n
  | T_STOP => (rw_stop h c flags, None)
  end.

(** ** A caller: calls until everything is transferred or there is an error, as the comments of twi.h and
    every use in /repo/demo do; between calls, any time goes by *)
Inductive twev := EvCall | EvDone.
(** The bytes moved so far (received, for a read), the error. *)
Record wcall := mkWc { w_count : nat; w_err : option tres }.
Definition write_call (flags : Z) (buf : list Z) (st : twhw * twctx * wcall) : twhw * twctx * wcall :=
  let '(h, c, u) := st in
  match w_err u with
  | Some _ => st
  | None =>
      match drop (w_count u) buf with
      | [] => st
      | b :: l =>
          let '(h, c, r) := twi_write h c b (Z.of_nat (S (length l))) flags in
          (h, c, match r with Again => u | Count k => mkWc (w_count u + Z.to_nat k) None | e => mkWc (w_count u) (Some e) end)
      end
  end.
Definition write_step (s : slave) (flags : Z) (buf : list Z) (st : twhw * twctx * wcall) (e : twev) : twhw * twctx * wcall :=
  match e with EvCall => write_call flags buf st | EvDone => (complete s st.1.1, st.1.2, st.2) end.
Definition write_run s flags buf (evs : list twev) st := fold_left (write_step s flags buf) evs st.

Record rcall := mkRc { r_got : list Z; r_err : option tres }.
Definition read_call (flags : Z) (n : nat) (st : twhw * twctx * rcall) : twhw * twctx * rcall :=
  let '(h, c, u) := st in
  match r_err u with
  | Some _ => st
  | None =>
      match (n - length (r_got u))%nat with
      | O => st
      | S l =>
          let '(h, c, r, d) := twi_read h c (Z.of_nat (S l)) flags in
          (h, c, match r with
                 | Again => u
                 | Count k => mkRc (r_got u ++ match d with Some d => [d] | None => [] end) None
                 | e => mkRc (r_got u) (Some e)
                 end)
      end
  end.
Definition read_step (s : slave) (flags : Z) (n : nat) (st : twhw * twctx * rcall) (e : twev) : twhw * twctx * rcall :=
  match e with EvCall => read_call flags n st | EvDone => (complete s st.1.1, st.1.2, st.2) end.
Definition read_run s flags n (evs : list twev) st := fold_left (read_step s flags n) evs st.
