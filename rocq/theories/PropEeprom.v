(** PropEeprom.v - C88, C89: the eeprom driver (cy15b004j) over the two-wire interface. *)
From Verif Require Import Base TwiModel TwiSpec EepromModel EepromSpec EepromProofs.

(** ** C88: an eeprom keeps what is written *)
(** eeprom_write, called until everything is written, at any pace, of any bytes that fit: no error; at
    every moment (power may fail there) the memory is the old one with a first part of the bytes in their
    place, and nothing else changed; at the end, all of them; [length buf + 5] calls that find the
    hardware done are enough, and the driver is ready for the next transfer. *)
Theorem C88_write : forall id f0 addr buf h c e evs, 0 <= id < 4 -> 0 <= addr -> addr + Z.of_nat (length buf) <= 512 -> buf <> [] ->
  c_state c = T_IDLE -> h_pend h = None -> e_ok id e ->
  let s := fram_slave id f0 in let mem st := f_mem (fram_after id f0 (h_log st.1.1.1)) in
  let st := ewrite_run s addr buf evs (h, c, e, mkWc 0 None) in
  let fin (st : ewst) := w_count st.2 = length buf /\ (forall x, mem st x = mem_upd (f_mem (fram_after id f0 (h_log h))) addr buf (length buf) x) /\
     c_state st.1.1.2 = T_IDLE /\ h_pend st.1.1.1 = None /\ e_ok id st.1.2 in
  w_err st.2 = None /\ (exists j, (j <= length buf)%nat /\ forall x, mem st x = mem_upd (f_mem (fram_after id f0 (h_log h))) addr buf j x) /\
  (w_count st.2 = length buf -> fin st) /\ fin (ewrite_run s addr buf (rounds (length buf + 5)) st).
Proof. exact ewrite_all. Qed.
Print Assumptions C88_write.
(** eeprom_read: no error, the memory never changes, and what is read is what it holds. *)
Theorem C88_read : forall id f0 addr n h c e evs, 0 <= id < 4 -> 0 <= addr -> addr + Z.of_nat n <= 512 -> (0 < n)%nat ->
  c_state c = T_IDLE -> h_pend h = None -> e_ok id e ->
  let s := fram_slave id f0 in let mem (st : erst) := f_mem (fram_after id f0 (h_log st.1.1.1)) in
  let st := eread_run s addr n evs (h, c, e, mkRc [] None) in
  let fin (st : erst) := length (r_got st.2) = n /\ (forall k, (k < n)%nat -> nth k (r_got st.2) 0 = f_mem (fram_after id f0 (h_log h)) (addr + Z.of_nat k) mod 256) /\
     c_state st.1.1.2 = T_IDLE /\ h_pend st.1.1.1 = None /\ e_ok id st.1.2 in
  r_err st.2 = None /\ (length (r_got st.2) <= n)%nat /\ (forall x, mem st x = f_mem (fram_after id f0 (h_log h)) x) /\
  (length (r_got st.2) = n -> fin st) /\ fin (eread_run s addr n (rounds (n + 8)) st).
Proof. exact eread_all. Qed.
Print Assumptions C88_read.
(** What is written is read back. *)
Theorem C88_read_back : forall id f0 addr buf h c e evs evs', 0 <= id < 4 -> 0 <= addr -> addr + Z.of_nat (length buf) <= 512 -> buf <> [] ->
  c_state c = T_IDLE -> h_pend h = None -> e_ok id e ->
  let s := fram_slave id f0 in
  let w := ewrite_run s addr buf evs (h, c, e, mkWc 0 None) in
  let r := eread_run s addr (length buf) evs' (w.1, mkRc [] None) in
  w_count w.2 = length buf -> length (r_got r.2) = length buf -> r_got r.2 = (fun b => b mod 256) <$> buf.
Proof. exact read_back. Qed.
Print Assumptions C88_read_back.

Definition ex_hw : twhw := mkHw 4 false 248 0 None [].
Definition ex_ctx : twctx := mkTw T_IDLE 0 0.
Definition ex_f0 : fram := mkFram (fun x => x mod 256) 77 P_NONE.
(** C88 (0): eeprom_init makes a context for the device it is given. *)
Theorem C88_init : forall id, 0 <= id < 4 -> e_ok id (eeprom_init id).
Proof. exact init_ok. Qed.
Print Assumptions C88_init.
(** Four bytes across the middle of the memory of device 2. *)
Example C88_runs :
  let s := fram_slave 2 ex_f0 in
  let w := ewrite_run s 254 [1; 2; 3; 4] (rounds 9) (ex_hw, ex_ctx, eeprom_init 2, mkWc 0 None) in
  let r := eread_run s 253 6 (rounds 14) (w.1, mkRc [] None) in
  (w_count w.2 =? 4)%nat && bool_decide (r_got r.2 = [253; 1; 2; 3; 4; 2]) = true.
Proof. vm_compute. reflexivity. Qed.

(** ** C89: failures, and the bus afterwards *)
(** A read releases the bus. *)
Theorem C89_read_partial : forall id f0 addr n h c e evs, 0 <= id < 4 -> 0 <= addr -> addr + Z.of_nat n <= 512 -> (0 < n)%nat ->
  c_state c = T_IDLE -> h_pend h = None -> e_ok id e ->
  let st := eread_run (fram_slave id f0) addr n evs (h, c, e, mkRc [] None) in
  length (r_got st.2) = n -> held (h_log st.1.1.1) = false.
Proof. exact eread_free. Qed.
Print Assumptions C89_read_partial.
(** A write never does: STOP is asked for with the address, and not with the last byte. *)
Theorem C89_write_refuted : forall id f0 addr buf h c e evs, 0 <= id < 4 -> 0 <= addr -> addr + Z.of_nat (length buf) <= 512 -> buf <> [] ->
  c_state c = T_IDLE -> h_pend h = None -> e_ok id e ->
  let st := ewrite_run (fram_slave id f0) addr buf evs (h, c, e, mkWc 0 None) in
  w_count st.2 = length buf -> held (h_log st.1.1.1) = true.
Proof. exact ewrite_held. Qed.
Print Assumptions C89_write_refuted.
(** Where there is no such device, both calls return -EAGAIN for ever. *)
Theorem C89_absent_refuted : forall s id addr buf n h c e evs, absent (dev_addr id addr) s -> buf <> [] -> (0 < n)%nat ->
  c_state c = T_IDLE -> h_pend h = None -> e_ok id e ->
  (ewrite_run s addr buf evs (h, c, e, mkWc 0 None)).2 = mkWc 0 None /\ (eread_run s addr n evs (h, c, e, mkRc [] None)).2 = mkRc [] None.
Proof.
  intros s id addr buf n h c e evs Hs Hb Hn Hc Hp He.
  split; [exact (ewrite_absent s id addr buf h c e evs Hs Hb Hc Hp He)|exact (eread_absent s id addr n h c e evs Hs Hn Hc Hp He)].
Qed.
Print Assumptions C89_absent_refuted.
Example C89_case : absent (dev_addr 1 300) (fram_slave 2 ex_f0).
Proof. intros l b [-> | ->]; done. Qed.
