(** CanSpec.v - what can.h promises. *)
From Verif Require Import Base CanModel.

Definition is_bytes (l : list Z) : Prop := Forall (fun b => 0 <= b < 256) l.
(** A frame that can be on the bus: 11 or 29 bits of identifier, up to 8 bytes. *)
Definition frame_ok (f : frame) : Prop :=
  0 <= fr_id f < (if fr_ext f then 536870912 else 2048) /\ is_bytes (fr_data f) /\ (length (fr_data f) <= 8)%nat.
(** The frame that can_write(id, buf, n) stands for: identifiers from CAN_ID_COUNT on are extended. *)
Definition frame_of (id : Z) (buf : list Z) (n : Z) : frame := mkFrame (2048 <=? id) id (firstn (Z.to_nat n) buf).
(** Arguments of can_write that are in order. *)
Definition args_ok (id : Z) (buf : list Z) (n : Z) : Prop := 0 <= id < 536870912 /\ is_bytes buf /\ 0 <= n <= Z.of_nat (length buf).
(** can_accept(id, mask) asks for this frame. *)
Definition asked (id mask : Z) (f : frame) : Prop := fr_ext f = (2048 <=? id) /\ Z.land (fr_id f) mask = Z.land id mask.
(** Some call in the list of (id, mask) does. *)
Definition wanted (l : list (Z * Z)) (f : frame) : Prop := exists id mask, In (id, mask) l /\ asked id mask f.
(** Some mailbox of 0 .. n-1 takes the frame. *)
Definition taken (g : Z -> bool) (lo hi : Z) : Prop := exists k, lo <= k < hi /\ g k = true.

(** Histories with in-order arguments; [std]: only 11-bit identifiers in calls *)
Definition op_ok (std : bool) (o : cop) : Prop :=
  match o with
  | OAccept id mask => 0 <= id /\ 0 <= mask /\ (std = true -> id < 2048)
  | OWrite id buf n => args_ok id buf n /\ (std = true -> id < 2048)
  | ORead n => 0 <= n
  | ORx f _ => frame_ok f
  | OTx _ => True
  end.
Definition ops_ok (std : bool) (ops : list cop) : Prop := Forall (op_ok std) ops.

(** Bit timing: [rate] bits per second from [freq] clocks per second, [bit] clocks per bit, sampled after [sample] of them. *)
Definition rate_ok (freq rate bit : Z) : Prop := bit * rate = freq.
Definition sample_between (lo hi bit sample : Z) : Prop := lo * bit <= 100 * sample <= hi * bit.
(** There is a prescaler up to [bmax] that gives a whole number of time quanta, from [lo] to [hi]. *)
Definition feasible (bmax lo hi freq rate : Z) : Prop := exists brp tq, 1 <= brp <= bmax /\ lo <= tq <= hi /\ brp * tq * rate = freq.

(** The frames M_CAN took and can_read returned in a history, in order *)
Fixpoint fifo_run (ops : list cop) (s : mcan) : list frame * list (Z * list Z) * mcan :=
  match ops with
  | [] => ([], [], s)
  | ORx f k :: rest =>
    let t := mcan_takes s f && (m_fl s <? 64) in
    let '(i, o, s2) := fifo_run rest (if mcan_takes s f then mcan_receives f s else s) in (if t then f :: i else i, o, s2)
  | ORead n :: rest =>
    match mcan_read n s with
    | RUb => ([], [], s)
    | RRet r id out s1 => let '(i, o, s2) := fifo_run rest s1 in (i, match id with Some x => (x, out) :: o | None => o end, s2)
    end
  | op :: rest => match mcan_step op s [] with None => ([], [], s) | Some (s1, _) => fifo_run rest s1 end
  end.

(** SAM3X out of reset: all mailboxes disabled, the ready bits of CAN_SR those of the mailboxes *)
Definition sam_reset (s : sam) : Prop := forall k, 0 <= k < 8 -> mb_mmr (s_mb s k) = 0 /\ Z.testbit (s_sr s) k = Z.testbit (mb_msr (s_mb s k)) 23.
(** A controller after init and setup *)
Definition sam_up (freq : Z) (st : cset) (s : sam) : Prop :=
  exists s0 s1, sam_reset s0 /\ sam_init s0 = CRet 0 s1 /\ sam_setup freq st s1 = CRet 0 s /\ 0 < cs_ntx st.

(** FlexCAN before init: mailboxes inactive, tx_mailbox_index 0 (static storage) *)
Definition flex_reset (cnt : Z) (s : flex) : Prop := f_txi s = 0 /\ forall k, 0 <= k < cnt -> fb_cs (f_mb s k) = 0.
Definition flex_up (cntmax cnt freq : Z) (st : cset) (s : flex) : Prop :=
  exists s0 s1, flex_reset cnt s0 /\ flex_init cntmax cnt s0 = CRet 0 s1 /\ flex_setup freq st s1 = CRet 0 s /\ 0 < cs_ntx st /\ cntmax <= 96.
(** Some call of can_accept named exactly this identifier. *)
Definition named (l : list (Z * Z)) (f : frame) : Prop := exists id mask, In (id, mask) l /\ fr_ext f = (2048 <=? id) /\ fr_id f = id.
(** DCAN: can_ti_dcan_init clears the message memory *)
Definition dcan_up (freq : Z) (st : cset) (s : dcan) : Prop := exists s0 s1, dcan_init s0 = CRet 0 s1 /\ dcan_setup freq st s1 = CRet 0 s /\ 0 < cs_ntx st.
(** M_CAN after init and setup; not bus off at that time *)
Definition mcan_up (freq : Z) (st : cset) (s : mcan) : Prop := exists s0 s1, m_bo s0 = false /\ mcan_init s0 = CRet 0 s1 /\ mcan_setup freq st s1 = CRet 0 s.
(** The TMS320F2837x: char and int have 16 bits; a usual target *)
Definition c28x : dtgt := mkDtgt 16 16.
Definition usual : dtgt := mkDtgt 32 8.
(** FIFO 0 of M_CAN holds these frames, oldest first. *)
Definition rep (s : mcan) (c : list frame) : Prop :=
  m_fl s = Z.of_nat (length c) /\ 0 <= m_gi s < 64 /\ (length c <= 64)%nat /\ Forall frame_ok c /\ forall i, (i < length c)%nat -> forall d, m_rx s ((m_gi s + Z.of_nat i) mod 64) = mcan_filled (nth i c d).
(** What arrives is a frame that can be on the bus. *)
Definition rx_ok (o : cop) : Prop := match o with ORx f _ => frame_ok f | _ => True end.

(** Blocks out of reset *)
Definition sam0 : sam := mkSam false 0 255 0 (fun _ => mkSmb 0 0 0 (2 ^ 23) 0 0 0) 0 0 0 0 false false.
Definition flex0 : flex := mkFlex false false 0 (fun _ => mkFmb 0 0 0 0) (fun _ => 0) (fun _ => false) 0 0 0 0 0 false.
Definition dcan0 : dcan := mkDcan 0 (fun _ => mkDmo 0 0 0 0 0) (mkDmo 0 0 0 0 0) (mkDmo 0 0 0 0 0) 0 0 0 0.
Definition mcan0 : mcan := mkMcan (fun _ => mkMbuf 0 0 0 0) 0 0 (fun _ => mkMbuf 0 0 0 0) (fun _ => false) 0 false (fun _ => 0) (fun _ => (0, 0)) 0 0 false false false 0 0.
Definition set500 (ntx : Z) : cset := mkCset 500000 ntx false false false.
Definition okc {S} (r : cres S) (d : S) : S := match r with CRet _ s => s | CUb => d end.
Definition sam1 : sam := okc (sam_setup 84000000 (set500 2) (okc (sam_init sam0) sam0)) sam0.
Definition flex1 : flex := okc (flex_setup 80000000 (set500 4) (okc (flex_init 64 64 flex0) flex0)) flex0.
Definition dcan1 : dcan := okc (dcan_setup 200000000 (set500 2) (okc (dcan_init dcan0) dcan0)) dcan0.
Definition mcan1 : mcan := okc (mcan_setup 40000000 (set500 8) (okc (mcan_init mcan0) mcan0)) mcan0.
Definition f8 : frame := mkFrame false 291 [1; 2; 3; 4; 5; 6; 7; 8].
Definition f0 : frame := mkFrame false 291 [].
Definition got_rx (k : Z) (f : frame) : list cop := [OAccept 291 2047; ORx f k].
Definition st_of {S} (r : option (S * list (Z * Z))) (d : S) : S := match r with Some (s, _) => s | None => d end.
Definition show {S} (r : rres S) : option (Z * option Z * list Z) := match r with RRet v id out _ => Some (v, id, out) | RUb => None end.
Definition acc_ops : list cop := [OAccept 256 1792].
Definition f257 : frame := mkFrame false 257 [1].
Definition sam_stuck : sam := okc (sam_setup 84000000 (set500 2) (st_of (run (sam_step false) [OWrite 1 [1] 1; OWrite 2 [1] 1; OWrite 3 [1] 1] (okc (sam_setup 84000000 (set500 4) (okc (sam_init sam0) sam0)) sam0) []) sam0)) sam0.
Definition flex_dirty : flex := okc (flex_setup 80000000 (set500 4) (okc (flex_init 64 64 (f_set_txi flex0 4294967295)) flex0)) flex0.
