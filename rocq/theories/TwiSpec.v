(** TwiSpec.v - what twi_write and twi_read must put on the bus. *)
From Verif Require Import Base TwiModel.

(** The byte that addresses device [a] for writing (0) or reading (1). *)
Definition sla (a rw : Z) : Z := 2 * (a mod 128) + rw.
(** The transfer of [buf]: START and address if TWI_F_S, the bytes, STOP if TWI_F_P. *)
Definition write_bus (a flags : Z) (buf : list Z) : list bev :=
  (if F_S flags then [BStart; BAddr (sla a 0) true] else []) ++ ((fun b => BTx b true) <$> buf) ++ (if F_P flags then [BStop] else []).
(** The reception of [data]: every byte but the last is acknowledged. *)
Fixpoint read_bytes (data : list Z) : list bev :=
  match data with
  | [] => []
  | [b] => [BRx b false]
  | b :: l => BRx b true :: read_bytes l
  end.
Definition read_bus (a : Z) (data : list Z) : list bev := [BStart; BAddr (sla a 1) true] ++ read_bytes data ++ [BStop].

(** A bus where somebody is at address [a], and acknowledges whatever he is sent. *)
Definition acks (a : Z) (s : slave) : Prop :=
  forall l o, match o with OAddr b => b = sla a 0 \/ b = sla a 1 | _ => True end -> (s l o).1 = true.
(** One where nobody is. *)
Definition absent (a : Z) (s : slave) : Prop := forall l b, b = sla a 0 \/ b = sla a 1 -> (s l (OAddr b)).1 = false.
(** [n] times: the hardware finishes, then the caller calls. *)
Fixpoint rounds (n : nat) : list twev := match n with O => [] | S n => EvDone :: EvCall :: rounds n end.
(** Where a call leaves the interface if it does not send STOP: the bus is held after a byte sent. *)
Definition bus_held (h : twhw) : Prop := h_cr h = 4 /\ h_int h = true /\ h_sr h = 40 /\ h_pend h = None.
(** From [L0] on, every byte received is what the other side sent. *)
Inductive sent_by (s : slave) (L0 : list bev) : list bev -> Prop :=
| sent_0 : sent_by s L0 L0
| sent_other L e : sent_by s L0 L -> match e with BRx _ _ => False | _ => True end -> sent_by s L0 (L ++ [e])
| sent_rx L a : sent_by s L0 L -> sent_by s L0 (L ++ [BRx ((s L (ORecv a)).2 mod 256) a]).
