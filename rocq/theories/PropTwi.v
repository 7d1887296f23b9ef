(** PropTwi.v - C85, C86, C87: the two-wire interface (AVR), master. *)
From Verif Require Import Base TwiModel TwiSpec TwiProofs.

(** ** C85: twi_write *)
(** A caller that calls twi_write until everything is sent, at any pace: no error, what is on the bus is
    at every moment a beginning of the transfer, the whole of it when the last byte is counted, and
    [length buf + 3] calls that find the hardware done are enough.  With TWI_F_S, or going on after a call
    without TWI_F_P; the interface is then ready for the next call. *)
Theorem C85_write : forall s flags buf h c evs, acks (c_addr c) s -> buf <> [] -> c_state c = T_IDLE -> h_pend h = None ->
  F_S flags = true \/ bus_held h ->
  let st := write_run s flags buf evs (h, c, mkWc 0 None) in
  let fin st := w_count st.2 = length buf /\ h_log st.1.1 = h_log h ++ write_bus (c_addr c) flags buf /\ c_state st.1.2 = T_IDLE /\
                c_addr st.1.2 = c_addr c /\ h_pend st.1.1 = None /\ (F_P flags = false -> bus_held st.1.1) in
  w_err st.2 = None /\ (exists rest, h_log h ++ write_bus (c_addr c) flags buf = h_log st.1.1 ++ rest) /\
  (w_count st.2 = length buf -> fin st) /\ fin (write_run s flags buf (rounds (length buf + 3)) st).
Proof. exact write_all. Qed.
Print Assumptions C85_write.

(** A device at 85, as the interface is after twi_init: three bytes in two calls, one START, one STOP. *)
Definition ex_slave : slave := fun l o => (match o with OAddr b => (b =? 170) || (b =? 171) | _ => true end, 7 + Z.of_nat (length l)).
Definition ex_hw : twhw := mkHw 4 false 248 0 None [].
Definition ex_ctx : twctx := mkTw T_IDLE 85 0.
Example C85_hyps : acks (c_addr ex_ctx) ex_slave /\ F_S 1024 = true.
Proof. split; [|done]. intros l o Ho. destruct o; try done. by destruct Ho as [-> | ->]. Qed.
Example C85_runs :
  let st := write_run ex_slave 1024 [1; 2] (EvCall :: rounds 5) (ex_hw, ex_ctx, mkWc 0 None) in
  let st := write_run ex_slave 512 [3] (EvCall :: rounds 3) (st.1, mkWc 0 None) in
  (w_count st.2 =? 1)%nat && match h_log st.1.1 with
    [BStart; BAddr 170 true; BTx 1 true; BTx 2 true; BTx 3 true; BStop] => true | _ => false end = true.
Proof. vm_compute. reflexivity. Qed.

(** ** C86: twi_read *)
(** A caller that calls twi_read until it has [n] bytes: no error, never more than [n], the whole
    transfer on the bus when it has them, all bytes acknowledged but the last, and the bytes are the ones
    the device sent.  [n + 3] calls that find the hardware done are enough.  Less than the property: with
    TWI_F_S only, and STOP is always sent (both below). *)
Theorem C86_read_partial : forall s flags n h c evs, acks (c_addr c) s -> (0 < n)%nat -> c_state c = T_IDLE -> h_pend h = None -> F_S flags = true ->
  let st := read_run s flags n evs (h, c, mkRc [] None) in
  let fin st := length (r_got st.2) = n /\ h_log st.1.1 = h_log h ++ read_bus (c_addr c) (r_got st.2) /\ c_state st.1.2 = T_IDLE /\
                c_addr st.1.2 = c_addr c /\ h_pend st.1.1 = None in
  r_err st.2 = None /\ sent_by s (h_log h) (h_log st.1.1) /\ (length (r_got st.2) = n -> fin st) /\ fin (read_run s flags n (rounds (n + 3)) st).
Proof.
  intros s flags n h c evs Hs Hn Hc Hp HS st fin. destruct (read_all s flags n h c evs Hs Hn Hc Hp HS) as (A & B & C).
  split; [exact A|]. split; [|split; [exact B|exact C]]. exact (sent_read_run s (h_log h) flags n evs (h, c, mkRc [] None) (sent_0 s (h_log h))).
Qed.
Print Assumptions C86_read_partial.
Example C86_runs :
  let st := read_run ex_slave 1536 2 (EvCall :: rounds 5) (ex_hw, ex_ctx, mkRc [] None) in
  bool_decide (r_got st.2 = [9; 10]) && match h_log st.1.1 with
    [BStart; BAddr 171 true; BRx 9 true; BRx 10 false; BStop] => true | _ => false end = true.
Proof. vm_compute. reflexivity. Qed.

(** STOP is sent whether or not TWI_F_P is given: the bus is never held after a read. *)
Theorem C86_stop_refuted : forall s flags n h c, acks (c_addr c) s -> (0 < n)%nat -> c_state c = T_IDLE -> h_pend h = None -> F_S flags = true -> F_P flags = false ->
  let st := read_run s flags n (rounds (n + 3)) (h, c, mkRc [] None) in length (r_got st.2) = n /\ held (h_log st.1.1) = false.
Proof.
  intros s flags n h c Hs Hn Hc Hp HS _ st. destruct (read_all s flags n h c [] Hs Hn Hc Hp HS) as (_ & _ & A & B & _).
  split; [exact A|]. change (read_run s flags n [] (h, c, mkRc [] None)) with (h, c, mkRc [] None) in B. fold st in B. rewrite B. unfold held, read_bus. rewrite !app_assoc, last_snoc. done.
Qed.
Print Assumptions C86_stop_refuted.
(** So a read that goes on with a transfer (no TWI_F_S) never gets anything, nor an error. *)
Theorem C86_continue_refuted : forall s flags n dr L a la evs, F_S flags = false ->
  let st := read_run s flags n evs (mkHw 4 false 248 dr None L, mkTw T_IDLE a la, mkRc [] None) in r_got st.2 = [] /\ r_err st.2 = None.
Proof.
  intros s flags n dr L a la evs HS. 
  exact (read_nostart s flags n (mkHw 4 false 248 dr None L) (mkTw T_IDLE a la) evs (or_introl eq_refl) eq_refl eq_refl eq_refl HS).
Qed.
Print Assumptions C86_continue_refuted.
(** And such is the state after a read without TWI_F_P. *)
Example C86_refuted_case : let st := read_run ex_slave 1024 2 (rounds 5) (ex_hw, ex_ctx, mkRc [] None) in
  match st.1 with (mkHw 4 false 248 _ None _, mkTw T_IDLE 85 0) => true | _ => false end = true.
Proof. vm_compute. reflexivity. Qed.

(** ** C87: errors *)
(** A device that does not answer: -EPIPE, after at most three calls that find the hardware done; nothing
    counts as moved, and the bus is released. *)
Theorem C87_absent_partial : forall s flags buf n h c evs, absent (c_addr c) s -> buf <> [] -> (0 < n)%nat -> c_state c = T_IDLE -> h_pend h = None -> F_S flags = true ->
  (let st := write_run s flags buf evs (h, c, mkWc 0 None) in
   let fin st := w_err st.2 = Some Pipe /\ h_log st.1.1 = h_log h ++ [BStart; BAddr (sla (c_addr c) 0) false; BStop] /\ c_state st.1.2 = T_IDLE in
   w_count st.2 = 0%nat /\ (w_err st.2 <> None -> fin st) /\ fin (write_run s flags buf (rounds 3) st)) /\
  (let st := read_run s flags n evs (h, c, mkRc [] None) in
   let fin st := r_err st.2 = Some Pipe /\ h_log st.1.1 = h_log h ++ [BStart; BAddr (sla (c_addr c) 1) false; BStop] /\ c_state st.1.2 = T_IDLE in
   r_got st.2 = [] /\ (r_err st.2 <> None -> fin st) /\ fin (read_run s flags n (rounds 3) st)).
Proof.
  intros s flags buf n h c evs Hs Hb Hn Hc Hp HS. split; [exact (absent_write s flags buf h c evs Hs Hb Hc Hp HS)|exact (absent_read s flags n h c evs Hs Hn Hc Hp HS)].
Qed.
Print Assumptions C87_absent_partial.
Example C87_hyps : absent 84 ex_slave.
Proof. intros l b [-> | ->]; done. Qed.
(** A device that answers and then refuses the first byte: twi_write counts that byte, and also the next
    one, which was never sent; there is no error. *)
Theorem C87_nack_refuted : forall s flags b0 b1 buf h c, (forall l b, (s l (OAddr b)).1 = true) -> (forall l b, (s l (OSend b)).1 = false) ->
  c_state c = T_IDLE -> h_pend h = None -> F_S flags = true ->
  let st := write_run s flags (b0 :: b1 :: buf) (rounds 4) (h, c, mkWc 0 None) in
  w_count st.2 = 2%nat /\ w_err st.2 = None /\ h_log st.1.1 = h_log h ++ [BStart; BAddr (sla (c_addr c) 0) true; BTx b0 false; BStop].
Proof. exact nack_second. Qed.
Print Assumptions C87_nack_refuted.
Example C87_refuted_case :
  let s : slave := fun l o => (match o with OSend _ => false | _ => true end, 0) in
  let st := write_run s 1536 [1; 2] (rounds 4) (ex_hw, ex_ctx, mkWc 0 None) in (w_count st.2 =? 2)%nat = true.
Proof. vm_compute. reflexivity. Qed.
