(** CanModel.v - the CAN drivers (drivers/can): can-sam3x.c, can-nxp_flexcan.c, can-ti_dcan.c, can-bosch_mcan.c, and the message
    memory of the controllers behind them.

    Simplifications:
    - clock_get_freq is a parameter (negative: its error code); size_t and unsigned long have 32 bits; an assertion that fails
      takes its error exit; the enumerations of can_settings are booleans;
    - busy waits end in time; caches are coherent;
    - memory of 0 length or past the caller's buffer is not modelled: a buffer is the list of its bytes, a byte past its end reads 0;
    - the hardware is that of the reference manuals: what a mailbox sends, which frames it takes, what it holds after reception.
      Arbitration, errors on the bus, time stamps, remote frames and interrupts are left out. *)
From Verif Require Import Base.

Definition C_EIO : Z := 5.
Definition C_EAGAIN : Z := 11.
Definition C_ENOMEM : Z := 12.
Definition C_EBUSY : Z := 16.
Definition C_EINVAL : Z := 22.
Definition C_ENOSYS : Z := 38.
Definition u32 (x : Z) : Z := x mod 4294967296.
Definition u8 (x : Z) : Z := x mod 256.
(** bits lo .. lo+n-1 of a register *)
Definition field (x lo n : Z) : Z := Z.land (Z.shiftr x lo) (Z.ones n).
Definition upd {A} (m : Z -> A) (k : Z) (v : A) : Z -> A := fun j => if j =? k then v else m j.
Definition byte (buf : list Z) (i : nat) : Z := nth i buf 0.

(** A data frame on the bus. *)
Record frame := mkFrame { fr_ext : bool; fr_id : Z; fr_data : list Z }.
Definition fr_len (f : frame) : Z := Z.of_nat (length (fr_data f)).

(** Outcome of a call: what it returns and the state after; undefined behaviour. For can_read: what it writes to *id, if anything,
    and the bytes it writes from buf[0] on. *)
Inductive cres (S : Type) := CRet (r : Z) (s : S) | CUb.
Inductive rres (S : Type) := RRet (r : Z) (id : option Z) (out : list Z) (s : S) | RUb.
Arguments CRet {S}. Arguments CUb {S}. Arguments RRet {S}. Arguments RUb {S}.

(** can.h:50-56, struct can_settings *)
Record cset := mkCset { cs_rate : Z; cs_ntx : Z; cs_abort : bool; cs_ovw : bool; cs_loop : bool }.

(** The switches that pack the bytes 0 .. n-1 into two words, byte 0 in bits 31..24 (can-sam3x.c:322-339, can-nxp_flexcan.c:568-592) *)
Definition sel (buf : list Z) (n : Z) (i : nat) : Z := if Z.of_nat i <? n then byte buf i else 0.
Definition word_be (b0 b1 b2 b3 : Z) : Z := Z.lor (Z.lor (Z.lor (Z.shiftl b3 0) (Z.shiftl b2 8)) (Z.shiftl b1 16)) (Z.shiftl b0 24).
Definition pack_be (buf : list Z) (n : Z) : Z * Z :=
  (word_be (sel buf n 0) (sel buf n 1) (sel buf n 2) (sel buf n 3), word_be (sel buf n 4) (sel buf n 5) (sel buf n 6) (sel buf n 7)).
(** byte 0 in bits 7..0 (can-bosch_mcan.c:756-779, can-ti_dcan.c:338-371) *)
Definition pack_le (buf : list Z) (n : Z) : Z * Z :=
  (u32 (word_be (sel buf n 3) (sel buf n 2) (sel buf n 1) (sel buf n 0)), u32 (word_be (sel buf n 7) (sel buf n 6) (sel buf n 5) (sel buf n 4))).
(** The switches of can_read (can-sam3x.c:390-403, can-nxp_flexcan.c:633-657; can-bosch_mcan.c:828-847) *)
Definition bytes_be (l h : Z) : list Z :=
  [u8 (Z.shiftr l 24); u8 (Z.shiftr l 16); u8 (Z.shiftr l 8); u8 (Z.shiftr l 0); u8 (Z.shiftr h 24); u8 (Z.shiftr h 16); u8 (Z.shiftr h 8); u8 (Z.shiftr h 0)].
Definition bytes_le (l h : Z) : list Z :=
  [u8 (Z.shiftr l 0); u8 (Z.shiftr l 8); u8 (Z.shiftr l 16); u8 (Z.shiftr l 24); u8 (Z.shiftr h 0); u8 (Z.shiftr h 8); u8 (Z.shiftr h 16); u8 (Z.shiftr h 24)].

(** * Bit timing, common to the four drivers *)
Inductive bres := BSet (reg : Z) | BErr (e : Z) | BUb.
(** The iterative detection of can-sam3x.c:192-208, can-ti_dcan.c:278-293, can-nxp_flexcan.c:260-275, can-bosch_mcan.c:635-650;
    [seg] is the function that computes the segments and the register. *)
Fixpoint bit_loop (seg : Z -> Z -> option Z) (tqmin tqmax freq rate err : Z) (fuel : nat) (brp : Z) : bres :=
  match fuel with
  | O => BErr err
  | S k =>
    let tq_div := u32 (brp * rate) in
    if tq_div =? 0 then BUb
    else
      let tq := freq / tq_div in
      if negb (freq mod tq_div =? 0) then bit_loop seg tqmin tqmax freq rate err k (brp + 1)
      else if (tq <? tqmin) || (tqmax <? tq) then bit_loop seg tqmin tqmax freq rate err k (brp + 1)
      else match seg brp tq with Some r => BSet r | None => bit_loop seg tqmin tqmax freq rate err k (brp + 1) end
  end.
(** set_bitrate (can-sam3x.c:179-213, can-ti_dcan.c:262-298, can-nxp_flexcan.c:246-280, can-bosch_mcan.c:621-655) *)
Definition set_bitrate (seg : Z -> Z -> option Z) (bmax tqmin tqmax err freq rate : Z) : bres :=
  if rate <=? 0 then BErr C_EINVAL
  else if freq <? 0 then BErr (- freq)
  else if negb (freq mod rate =? 0) then BErr C_EIO
  else bit_loop seg tqmin tqmax freq rate err (Z.to_nat bmax) 1.
Definition div_round (a b : Z) : Z := (a + b / 2) / b.
Definition outside (x lo hi : Z) : bool := (x <? lo) || (hi <? x).

(** set_brp_and_prop (can-sam3x.c:134-177) *)
Definition sam_seg (brp tq0 : Z) : option Z :=
  if (tq0 <? 8) || (25 <? tq0) then None else
  let tq := tq0 - 1 in
  let ph := div_round (tq * 64) 73 in
  let propag := if 8 <? ph then ph - 8 else 0 in
  let phase1 := ph - propag in
  if 8 <? propag then None
  else
    let phase2 := u32 (tq - (propag + phase1)) in
    if outside propag 1 8 || outside phase1 1 8 || outside phase2 1 8 then None
    else Some (Z.lor (Z.lor (Z.lor (Z.shiftl (Z.land (brp - 1) 127) 16) (Z.shiftl (Z.land (propag - 1) 7) 8)) (Z.shiftl (Z.land (phase1 - 1) 7) 4)) (Z.land (phase2 - 1) 7)).
Definition sam_bitrate : Z -> Z -> bres := set_bitrate sam_seg 128 8 25 C_EINVAL.
(** nxp_flexcan_set_ctrl1 (can-nxp_flexcan.c:197-244); CTRL1 without CLKSRC *)
Definition flex_seg (brp tq0 : Z) : option Z :=
  if outside brp 1 256 || outside tq0 16 25 then None else
  let tq := tq0 - 1 in
  let ps := div_round (tq * 64) 73 in
  let propseg := if 8 <? ps then ps - 8 else 1 in
  let pseg1 := if 8 <? ps then ps - propseg else ps in
  if 8 <? propseg then None
  else
    let pseg2 := u32 (tq - (propseg + pseg1)) in
    if outside propseg 1 8 || outside pseg1 1 8 || outside pseg2 1 8 then None
    else Some (Z.lor (Z.lor (Z.lor (Z.shiftl (Z.land (brp - 1) 255) 24) (Z.land (propseg - 1) 7)) (Z.shiftl (Z.land (pseg1 - 1) 7) 19)) (Z.shiftl (Z.land (pseg2 - 1) 7) 16)).
Definition flex_bitrate : Z -> Z -> bres := set_bitrate flex_seg 256 16 25 C_EINVAL.
(** set_brp_and_tseg (can-ti_dcan.c:226-260) *)
Definition dcan_seg (brp tq0 : Z) : option Z :=
  if outside tq0 8 25 then None else
  let tq := tq0 - 1 in
  let tseg1 := u32 (div_round (tq * 64) 73 - 3) in
  let tseg2 := u32 (tq - tseg1) in
  if outside tseg1 2 16 || outside tseg2 1 8 then None
  else Some (Z.lor (Z.lor (Z.lor (Z.lor (Z.shiftl (Z.land (Z.shiftr (brp - 1) 5) 15) 16) (Z.shiftl (Z.land (tseg2 - 1) 7) 12)) (Z.shiftl (Z.land (tseg1 - 1) 15) 8)) (Z.shiftl (Z.land 3 3) 6)) (Z.land (brp - 1) 63)).
Definition dcan_bitrate : Z -> Z -> bres := set_bitrate dcan_seg 1024 8 25 C_EIO.
(** set_data_bit_timing (can-bosch_mcan.c:577-619): NBTP; DBTP holds the same values and is not used without CAN FD *)
Definition mcan_seg (brp tq0 : Z) : option Z :=
  if outside brp 1 32 || outside tq0 1 51 then None else
  let tq := tq0 - 1 in
  let tseg1 := div_round (tq * 64) 73 in
  let tseg2 := u32 (tq - tseg1) in
  let sjw := u32 (tseg2 - 1) in
  if outside tseg1 1 32 || outside tseg2 1 16 || outside sjw 1 16 then None
  else Some (Z.lor (Z.lor (Z.lor (Z.shiftl (Z.land (sjw - 1) 127) 25) (Z.shiftl (Z.land (brp - 1) 511) 16)) (Z.shiftl (Z.land (tseg1 - 1) 255) 8)) (Z.land (tseg2 - 1) 127)).
Definition mcan_bitrate : Z -> Z -> bres := set_bitrate mcan_seg 32 1 51 C_EINVAL.

(** The hardware: clocks per bit, (prescaler) * (1 + all segments), and clocks before the sample point. *)
Definition sam_bit (r : Z) : Z := (field r 16 7 + 1) * (1 + (field r 8 3 + 1) + (field r 4 3 + 1) + (field r 0 3 + 1)).
Definition sam_sample (r : Z) : Z := (field r 16 7 + 1) * (1 + (field r 8 3 + 1) + (field r 4 3 + 1)).
Definition flex_bit (r : Z) : Z := (field r 24 8 + 1) * (1 + (field r 0 3 + 1) + (field r 19 3 + 1) + (field r 16 3 + 1)).
Definition flex_sample (r : Z) : Z := (field r 24 8 + 1) * (1 + (field r 0 3 + 1) + (field r 19 3 + 1)).
Definition dcan_bit (r : Z) : Z := (64 * field r 16 4 + field r 0 6 + 1) * (1 + (field r 8 4 + 1) + (field r 12 3 + 1)).
Definition dcan_sample (r : Z) : Z := (64 * field r 16 4 + field r 0 6 + 1) * (1 + (field r 8 4 + 1)).
Definition mcan_bit (r : Z) : Z := (field r 16 9 + 1) * (1 + (field r 8 8 + 1) + (field r 0 7 + 1)).
Definition mcan_sample (r : Z) : Z := (field r 16 9 + 1) * (1 + (field r 8 8 + 1)).

(** * SAM3X *)
(** struct CAN_SAM3X_MB (can-sam3x.c:22-32) *)
Record smb := mkSmb { mb_mmr : Z; mb_mam : Z; mb_mid : Z; mb_msr : Z; mb_mdl : Z; mb_mdh : Z; mb_mcr : Z }.
(** struct can (can-sam3x.h) and the registers of the block: CANEN of CAN_MR, CAN_BR, CAN_SR bits 7..0, CAN_ACR *)
Record sam := mkSam { s_en : bool; s_br : Z; s_sr : Z; s_acr : Z; s_mb : Z -> smb;
                      s_rxi : Z; s_txi : Z; s_rxc : Z; s_txc : Z; s_abort : bool; s_ovw : bool }.
Definition s_set_mb (s : sam) (k : Z) (m : smb) : sam := mkSam (s_en s) (s_br s) (s_sr s) (s_acr s) (upd (s_mb s) k m) (s_rxi s) (s_txi s) (s_rxc s) (s_txc s) (s_abort s) (s_ovw s).
Definition s_set_sr (s : sam) (v : Z) : sam := mkSam (s_en s) (s_br s) v (s_acr s) (s_mb s) (s_rxi s) (s_txi s) (s_rxc s) (s_txc s) (s_abort s) (s_ovw s).
Definition s_set_acr (s : sam) (v : Z) : sam := mkSam (s_en s) (s_br s) (s_sr s) v (s_mb s) (s_rxi s) (s_txi s) (s_rxc s) (s_txc s) (s_abort s) (s_ovw s).
Definition s_set_txi (s : sam) (v : Z) : sam := mkSam (s_en s) (s_br s) (s_sr s) (s_acr s) (s_mb s) (s_rxi s) v (s_rxc s) (s_txc s) (s_abort s) (s_ovw s).
Definition s_set_rxi (s : sam) (v : Z) : sam := mkSam (s_en s) (s_br s) (s_sr s) (s_acr s) (s_mb s) v (s_txi s) (s_rxc s) (s_txc s) (s_abort s) (s_ovw s).
Definition s_set_cnt (s : sam) (rxc txc : Z) : sam := mkSam (s_en s) (s_br s) (s_sr s) (s_acr s) (s_mb s) (s_rxi s) (s_txi s) rxc txc (s_abort s) (s_ovw s).
Definition s_set_cfg (s : sam) (en : bool) (br : Z) (ab ov : bool) : sam := mkSam en br (s_sr s) (s_acr s) (s_mb s) (s_rxi s) (s_txi s) (s_rxc s) (s_txc s) ab ov.

(** CAN_MMRn_MOT(x) written over the whole register, or over the field *)
Definition MOT (x : Z) : Z := Z.shiftl (Z.land x 7) 24.
Definition clr_mot (v : Z) : Z := Z.land v (Z.lnot (MOT 7)).
(** the loop of set_tx_mailboxes (can-sam3x.c:88-90): from mailbox rxc + n - 1 down to rxc *)
Fixpoint sam_tx_loop (mb : Z -> smb) (rxc : Z) (n : nat) : Z -> smb :=
  match n with
  | O => mb
  | S k => let i := rxc + Z.of_nat k in let m := mb i in
    sam_tx_loop (upd mb i (mkSmb (MOT 3) (mb_mam m) (mb_mid m) (mb_msr m) (mb_mdl m) (mb_mdh m) (mb_mcr m))) rxc k
  end.
(** set_tx_mailboxes (can-sam3x.c:81-93) *)
Definition sam_set_tx (s : sam) (n : Z) : cres sam :=
  if negb (n <? 8) then CRet (- C_EINVAL) s
  else let s1 := s_set_cnt s (8 - n) n in
    CRet 0 (mkSam (s_en s1) (s_br s1) (s_sr s1) (s_acr s1) (sam_tx_loop (s_mb s1) (8 - n) (Z.to_nat n)) (s_rxi s1) (s_txi s1) (s_rxc s1) (s_txc s1) (s_abort s1) (s_ovw s1)).
(** can_sam3x_init (can-sam3x.c:106-122) *)
Definition sam_init (s : sam) : cres sam :=
  sam_set_tx (mkSam false (s_br s) (s_sr s) (s_acr s) (s_mb s) 0 0 (s_rxc s) (s_txc s) true true) 1.
(** can_setup (can-sam3x.c:215-240) *)
Definition sam_setup (freq : Z) (st : cset) (s : sam) : cres sam :=
  let s1 := s_set_cfg s false (s_br s) (s_abort s) (s_ovw s) in
  match sam_bitrate freq (cs_rate st) with
  | BUb => CUb
  | BErr e => CRet (- e) s1
  | BSet br =>
    match sam_set_tx (s_set_cfg s1 false br (s_abort s1) (s_ovw s1)) (cs_ntx st) with
    | CUb => CUb
    | CRet r s2 => if r <? 0 then CRet r s2 else CRet 0 (s_set_cfg s2 true br (cs_abort st) (cs_ovw st))
    end
  end.
(** CAN_MIDn_MIDvA, CAN_MIDn_MIDvB (can-sam3x.c:64-69) *)
Definition MIDvA (x : Z) : Z := Z.shiftl (Z.land x 2047) 18.
Definition MIDvB (x : Z) : Z := Z.land x 16383.
(** mailbox_config_mid, mailbox_config_mam (can-sam3x.c:242-269): the value of CAN_MID for an id, of CAN_MAM for a mask *)
Definition sam_mid (id : Z) : Z := if id <? 2048 then MIDvA id else Z.lor (2 ^ 29) (Z.lor (MIDvA (Z.shiftr id 17)) (MIDvB id)).
Definition sam_mam (id mask : Z) : Z := if id <? 2048 then MIDvA mask else Z.lor (2 ^ 29) (Z.lor (MIDvA (Z.shiftr mask 17)) (MIDvB mask)).
(** The hardware: MTRC in CAN_MCR starts a transfer and clears MRDY, in CAN_MSR and in CAN_SR. *)
Definition sam_start (s : sam) (k : Z) (mcr : Z) : sam :=
  let m := s_mb s k in
  s_set_sr (s_set_mb s k (mkSmb (mb_mmr m) (mb_mam m) (mb_mid m) (Z.ldiff (mb_msr m) (2 ^ 23)) (mb_mdl m) (mb_mdh m) mcr)) (Z.ldiff (s_sr s) (2 ^ k)).
(** can_accept (can-sam3x.c:271-297) *)
Definition sam_accept (id mask : Z) (s : sam) : cres sam :=
  if negb (id <? 536870912) then CRet (- C_EINVAL) s
  else if negb (mask <? 536870912) then CRet (- C_EINVAL) s
  else if negb (s_rxi s <? s_rxc s) then CRet (- C_ENOMEM) s
  else
    let i := s_rxi s in let m := s_mb s i in
    let mot := MOT (if s_ovw s then 2 else 1) in
    let m1 := mkSmb (Z.lor (clr_mot (mb_mmr m)) mot) (sam_mam id mask) (sam_mid id) (mb_msr m) (mb_mdl m) (mb_mdh m) (mb_mcr m) in
    CRet 0 (s_set_rxi (sam_start (s_set_mb s i m1) i (2 ^ 23)) (i + 1)).
(** can_write, transfer_tx_mailbox (can-sam3x.c:299-365) *)
Definition sam_write (id : Z) (buf : list Z) (n : Z) (s : sam) : cres sam :=
  if negb (id <? 536870912) then CRet (- C_EINVAL) s
  else if negb (0 <? n) then CRet (- C_EINVAL) s
  else if negb (n <=? 8) then CRet (- C_EINVAL) s
  else
    let index := u32 (s_rxc s + s_txi s) in
    if negb (index <? 31) then CUb                                               (* 1 << index *)
    else
      let mask := u8 (2 ^ index) in
      if Z.land (s_sr s) mask =? 0 then CRet (- C_EAGAIN) (if s_abort s then s_set_acr s (Z.lor (s_acr s) mask) else s)
      else if s_txc s =? 0 then CUb
      else
        let s1 := s_set_txi s (u32 (s_txi s + 1) mod s_txc s) in
        if negb (index <? 8) then CRet (- C_EINVAL) s1
        else
          let m := s_mb s1 index in
          if Z.land (mb_msr m) (2 ^ 23) =? 0 then CRet (- C_EAGAIN) s1
          else
            let (l, h) := pack_be buf n in
            let m1 := mkSmb (Z.lor (clr_mot (mb_mmr m)) (MOT 3)) (sam_mam id 0) (sam_mid id) (mb_msr m) l h (mb_mcr m) in
            CRet n (sam_start (s_set_mb s1 index m1) index (Z.lor (2 ^ 23) (Z.shiftl (Z.land n 15) 16))).
(** mailbox_read_mid (can-sam3x.c:367-375) *)
Definition sam_read_mid (mid : Z) : Z := if negb (Z.land mid (2 ^ 29) =? 0) then Z.ldiff mid (2 ^ 29) else Z.shiftr mid 18.
(** the scan of can_read (can-sam3x.c:426-428): the highest index below [i] whose bit is set *)
Fixpoint scan (bits : Z) (i : nat) : option Z :=
  match i with O => None | S k => if negb (Z.land bits (2 ^ Z.of_nat k) =? 0) then Some (Z.of_nat k) else scan bits k end.
(** can_read, transfer_rx_mailbox (can-sam3x.c:377-433) *)
Definition sam_read (n : Z) (s : sam) : rres sam :=
  if negb (0 <? n) then RRet (- C_EINVAL) None [] s
  else if negb (n <=? 8) then RRet (- C_EINVAL) None [] s
  else
    let mask := u8 (2 ^ s_rxc s - 1) in
    let mrdy := Z.land (s_sr s) mask in
    if mrdy =? 0 then RRet (- C_EAGAIN) None [] s
    else match scan mrdy (Z.to_nat (s_rxi s)) with
         | None => RRet (- C_EIO) None [] s
         | Some i =>
           let m := s_mb s i in
           if Z.land (mb_msr m) (2 ^ 23) =? 0 then RRet (- C_EAGAIN) None [] s
           else RRet (Z.land (Z.shiftr (mb_msr m) 16) 15) (Some (sam_read_mid (mb_mid m))) (firstn (Z.to_nat n) (bytes_be (mb_mdl m) (mb_mdh m))) (sam_start s i (2 ^ 23))
         end.

(** The hardware. [le]: byte 0 of a frame is in bits 7..0 of CAN_MDL, as in the data sheet ("Bytes are received/sent on the bus in
    the following order: 1. CAN_MDL[7:0]"); otherwise in bits 31..24, as the driver has it. *)
Definition sam_bytes (le : bool) (l h : Z) : list Z := if le then bytes_le l h else bytes_be l h.
(** What a mailbox that has been started as transmitter sends *)
Definition sam_sends (le : bool) (m : smb) : frame :=
  let x := Z.testbit (mb_mid m) 29 in
  mkFrame x (if x then field (mb_mid m) 0 29 else field (mb_mid m) 18 11) (firstn (Z.to_nat (field (mb_mcr m) 16 4)) (sam_bytes le (mb_mdl m) (mb_mdh m))).
Definition sam_is_tx (m : smb) : bool := (field (mb_mmr m) 24 3 =? 3) && Z.testbit (mb_mcr m) 23 && negb (Z.testbit (mb_msr m) 23).
(** CAN_MID of a received frame *)
Definition sam_mid_of (f : frame) : Z := if fr_ext f then 2 ^ 29 + fr_id f else fr_id f * 2 ^ 18.
(** The frames a mailbox takes: version and masked identifier match *)
Definition sam_takes (m : smb) (f : frame) : bool :=
  ((field (mb_mmr m) 24 3 =? 1) || (field (mb_mmr m) 24 3 =? 2)) && Bool.eqb (Z.testbit (mb_mid m) 29) (fr_ext f) &&
  (if fr_ext f then Z.land (fr_id f) (field (mb_mam m) 0 29) =? Z.land (field (mb_mid m) 0 29) (field (mb_mam m) 0 29)
   else Z.land (fr_id f) (field (mb_mam m) 18 11) =? Z.land (field (mb_mid m) 18 11) (field (mb_mam m) 18 11)).
(** A mailbox after reception of a frame; reception in mailbox [k] *)
Definition sam_filled (le : bool) (f : frame) (m : smb) : smb :=
  let (l, h) := if le then pack_le (fr_data f) (fr_len f) else pack_be (fr_data f) (fr_len f) in
  mkSmb (mb_mmr m) (mb_mam m) (sam_mid_of f) (2 ^ 23 + Z.shiftl (fr_len f) 16) l h (mb_mcr m).
Definition sam_receives (le : bool) (f : frame) (k : Z) (s : sam) : sam := s_set_sr (s_set_mb s k (sam_filled le f (s_mb s k))) (Z.lor (s_sr s) (2 ^ k)).
(** The frame of mailbox [k] has been sent *)
Definition sam_sent (k : Z) (s : sam) : sam :=
  let m := s_mb s k in
  s_set_sr (s_set_mb s k (mkSmb (mb_mmr m) (mb_mam m) (mb_mid m) (Z.lor (mb_msr m) (2 ^ 23)) (mb_mdl m) (mb_mdh m) (mb_mcr m))) (Z.lor (s_sr s) (2 ^ k)).

(** * FlexCAN *)
(** struct CAN_NXP_FLEXCAN_MB *)
Record fmb := mkFmb { fb_cs : Z; fb_id : Z; fb_dl : Z; fb_dh : Z }.
(** struct can and the registers: freeze mode (FRZACK), IRMQ of MCR, CTRL1 bit timing, LPB, mailboxes, RXIMRn, IFLAGn *)
Record flex := mkFlex { f_frz : bool; f_irmq : bool; f_ctrl1 : Z; f_mb : Z -> fmb; f_rximr : Z -> Z; f_flag : Z -> bool;
                        f_cnt : Z; f_rxi : Z; f_txi : Z; f_rxc : Z; f_txc : Z; f_abort : bool }.
Definition f_set_mb (s : flex) (k : Z) (m : fmb) : flex := mkFlex (f_frz s) (f_irmq s) (f_ctrl1 s) (upd (f_mb s) k m) (f_rximr s) (f_flag s) (f_cnt s) (f_rxi s) (f_txi s) (f_rxc s) (f_txc s) (f_abort s).
(** RXIMRn can be written in freeze mode only *)
Definition f_set_rximr (s : flex) (k v : Z) : flex :=
  if f_frz s then mkFlex (f_frz s) (f_irmq s) (f_ctrl1 s) (f_mb s) (upd (f_rximr s) k v) (f_flag s) (f_cnt s) (f_rxi s) (f_txi s) (f_rxc s) (f_txc s) (f_abort s) else s.
Definition f_set_flag (s : flex) (k : Z) (b : bool) : flex := mkFlex (f_frz s) (f_irmq s) (f_ctrl1 s) (f_mb s) (f_rximr s) (upd (f_flag s) k b) (f_cnt s) (f_rxi s) (f_txi s) (f_rxc s) (f_txc s) (f_abort s).
Definition f_set_txi (s : flex) (v : Z) : flex := mkFlex (f_frz s) (f_irmq s) (f_ctrl1 s) (f_mb s) (f_rximr s) (f_flag s) (f_cnt s) (f_rxi s) v (f_rxc s) (f_txc s) (f_abort s).
Definition f_set_rxi (s : flex) (v : Z) : flex := mkFlex (f_frz s) (f_irmq s) (f_ctrl1 s) (f_mb s) (f_rximr s) (f_flag s) (f_cnt s) v (f_txi s) (f_rxc s) (f_txc s) (f_abort s).
Definition f_set_cfg (s : flex) (frz : bool) (c1 : Z) : flex := mkFlex frz (f_irmq s) c1 (f_mb s) (f_rximr s) (f_flag s) (f_cnt s) (f_rxi s) (f_txi s) (f_rxc s) (f_txc s) (f_abort s).

(** the loop of nxp_flexcan_set_tx_mailboxes (can-nxp_flexcan.c:289-292) *)
Fixpoint flex_tx_loop (mb : Z -> fmb) (rxc : Z) (n : nat) : Z -> fmb :=
  match n with
  | O => mb
  | S k => let i := rxc + Z.of_nat k in let m := mb i in flex_tx_loop (upd mb i (mkFmb (Z.shiftl 8 24) (fb_id m) (fb_dl m) (fb_dh m))) rxc k
  end.
(** nxp_flexcan_set_tx_mailboxes (can-nxp_flexcan.c:282-295) *)
Definition flex_set_tx (s : flex) (n : Z) : cres flex :=
  if negb (n <? f_cnt s) then CRet (- C_EINVAL) s
  else let rxc := f_cnt s - n in
    CRet 0 (mkFlex (f_frz s) (f_irmq s) (f_ctrl1 s) (flex_tx_loop (f_mb s) rxc (Z.to_nat n)) (f_rximr s) (f_flag s) (f_cnt s) (f_rxi s) (f_txi s) rxc n (f_abort s)).
(** can_nxp_flexcan_init (can-nxp_flexcan.c:368-458): in freeze mode all RXIMR are set, the data cleared; SOFTRST clears IRMQ.
    tx_mailbox_index and tx_auto_abort are left as they are. [cntmax] is CAN_NXP_FLEXCAN_MB_COUNT. *)
Definition flex_init (cntmax count : Z) (s : flex) : cres flex :=
  if negb (0 <? count) then CRet (- C_EINVAL) s
  else if negb (count <=? cntmax) then CRet (- C_EINVAL) s
  else
    let inr k := (0 <=? k) && (k <? count) in
    let s1 := mkFlex true false (f_ctrl1 s) (fun k => if inr k then mkFmb (fb_cs (f_mb s k)) (fb_id (f_mb s k)) 0 0 else f_mb s k)
                (fun k => if inr k then 4294967295 else f_rximr s k) (fun _ => false) count 0 (f_txi s) (f_rxc s) (f_txc s) (f_abort s) in
    match flex_set_tx s1 4 with
    | CUb => CUb
    | CRet r s2 => if r <? 0 then CRet r s2 else CRet 0 (f_set_cfg s2 false (f_ctrl1 s2))
    end.
(** can_setup (can-nxp_flexcan.c:483-505); tx_auto_abort and rx_overwrite are not looked at *)
Definition flex_setup (freq : Z) (st : cset) (s : flex) : cres flex :=
  let s1 := f_set_cfg s true (f_ctrl1 s) in
  match flex_bitrate freq (cs_rate st) with
  | BUb => CUb
  | BErr e => CRet (- e) s1
  | BSet c1 =>
    match flex_set_tx (f_set_cfg s1 true c1) (cs_ntx st) with
    | CUb => CUb
    | CRet r s2 => if r <? 0 then CRet r s2 else CRet 0 (f_set_cfg s2 false c1)
    end
  end.
(** ID_ID (can-nxp_flexcan.c:141) *)
Definition ID_ID (x : Z) : Z := Z.shiftl (Z.land x 2047) 18.
Definition ID_EXT (x : Z) : Z := Z.land x 536870911.
(** can_accept (can-nxp_flexcan.c:507-537) *)
Definition flex_accept (id mask : Z) (s : flex) : cres flex :=
  if negb (id <? 536870912) then CRet (- C_EINVAL) s
  else if negb (mask <? 536870912) then CRet (- C_EINVAL) s
  else if negb (f_rxi s <? f_rxc s) then CRet (- C_ENOMEM) s
  else
    let i := f_rxi s in let m := f_mb s i in
    let s1 := if id <? 2048 then f_set_mb s i (mkFmb (Z.shiftl 4 24) (ID_ID id) (fb_dl m) (fb_dh m))
              else f_set_mb s i (mkFmb (Z.lor (Z.shiftl 4 24) (2 ^ 21)) (ID_EXT id) (fb_dl m) (fb_dh m)) in
    let s2 := if mask =? 0 then s1
              else if id <? 2048 then f_set_rximr s1 i (ID_ID mask) else f_set_rximr s1 i (Z.lor (ID_EXT mask) (2 ^ 30)) in
    CRet 0 (f_set_rxi s2 (i + 1)).
(** can_write, nxp_flexcan_write_mailbox, nxp_flexcan_prepare_tx (can-nxp_flexcan.c:539-631); [index < mailbox_count <= 96], so that
    there is always a flag register *)
Definition flex_write (id : Z) (buf : list Z) (n : Z) (s : flex) : cres flex :=
  if negb (0 <? n) then CRet (- C_EINVAL) s
  else if negb (n <=? 8) then CRet (- C_EINVAL) s
  else
    let index := u32 (f_rxc s + f_txi s) in
    if f_txc s =? 0 then CUb
    else
      let s1 := f_set_txi s (u32 (f_txi s + 1) mod f_txc s) in
      if negb (index <? f_cnt s) then CRet (- C_EINVAL) s1
      else
        let s2 := f_set_flag s1 index false in
        let m := f_mb s2 index in
        if negb (id <? 536870912) then CRet (- C_EINVAL) s2
        else if field (fb_cs m) 24 4 =? 12
             then CRet (- C_EAGAIN) (if f_abort s then f_set_mb s2 index (mkFmb (Z.shiftl 9 24) (fb_id m) (fb_dl m) (fb_dh m)) else s2)
             else
               let fid := if 2048 <=? id then ID_EXT id else ID_ID id in
               let flags := if 2048 <=? id then Z.lor (2 ^ 22) (2 ^ 21) else 0 in
               let cs := Z.lor (Z.shiftl (Z.land n 15) 16) flags in
               let (l, h) := pack_be buf n in
               CRet n (f_set_mb s2 index (mkFmb (Z.lor (Z.shiftl 12 24) cs) fid l h)).
(** nxp_flexcan_read_mailbox, mailbox_read, mailbox_read_id (can-nxp_flexcan.c:633-704) *)
Definition flex_read_mb (i n : Z) (s : flex) : rres flex :=
  if negb (i <? f_rxc s) then RRet (- C_EINVAL) None [] s
  else if negb (f_flag s i) then RRet (- C_EAGAIN) None [] s
  else
    let m := f_mb s i in let code := field (fb_cs m) 24 4 in
    if negb (Z.land code 1 =? 0) then RRet (- C_EAGAIN) None [] s
    else
      let s1 := f_set_flag s i false in
      if code =? 4 then RRet (- C_EAGAIN) None [] s1
      else if (code =? 2) || (code =? 6) then
        let id := if negb (Z.land (fb_cs m) (2 ^ 21) =? 0) then Z.land (fb_id m) 536870911 else Z.land (Z.shiftr (fb_id m) 18) 2047 in
        let dlc := field (fb_cs m) 16 4 in
        if (dlc <=? 0) || (8 <? dlc) then RRet (- C_EINVAL) (Some id) [] s1
        else RRet dlc (Some id) (firstn (Z.to_nat dlc) (bytes_be (fb_dl m) (fb_dh m))) s1
      else RRet (- C_EIO) None [] s1.
(** the loop of can_read (can-nxp_flexcan.c:713-722) *)
Fixpoint flex_scan (n : Z) (k : nat) (s : flex) : rres flex :=
  match k with
  | O => RRet (- C_EAGAIN) None [] s
  | S j => match flex_read_mb (Z.of_nat j) n s with
           | RUb => RUb
           | RRet r id out s1 => if negb (r =? - C_EAGAIN) then RRet r id out s1 else flex_scan n j s1
           end
  end.
(** can_read (can-nxp_flexcan.c:706-725) *)
Definition flex_read (n : Z) (s : flex) : rres flex :=
  if negb (0 <? n) then RRet (- C_EINVAL) None [] s
  else if negb (n <=? 8) then RRet (- C_EINVAL) None [] s
  else flex_scan n (Z.to_nat (f_rxi s)) s.

(** The hardware *)
Definition flex_sends (m : fmb) : frame :=
  let x := Z.testbit (fb_cs m) 21 in
  mkFrame x (if x then field (fb_id m) 0 29 else field (fb_id m) 18 11) (firstn (Z.to_nat (field (fb_cs m) 16 4)) (bytes_be (fb_dl m) (fb_dh m))).
Definition flex_is_tx (m : fmb) : bool := field (fb_cs m) 24 4 =? 12.
(** Mailbox [k] takes a frame: EMPTY, FULL or OVERRUN; IDE equal; the identifiers equal under RXIMRk if IRMQ is set, else under
    RXMGMASK, which is all ones *)
Definition flex_takes (s : flex) (k : Z) (f : frame) : bool :=
  let m := f_mb s k in let code := field (fb_cs m) 24 4 in
  let mask := if f_irmq s then f_rximr s k else 4294967295 in
  ((code =? 4) || (code =? 2) || (code =? 6)) && Bool.eqb (Z.testbit (fb_cs m) 21) (fr_ext f) &&
  (if fr_ext f then Z.land (fr_id f) (field mask 0 29) =? Z.land (field (fb_id m) 0 29) (field mask 0 29)
   else Z.land (fr_id f) (field mask 18 11) =? Z.land (field (fb_id m) 18 11) (field mask 18 11)).
Definition flex_filled (f : frame) : fmb :=
  let (l, h) := pack_be (fr_data f) (fr_len f) in
  mkFmb (2 * 2 ^ 24 + (if fr_ext f then 3 * 2 ^ 21 else 0) + Z.shiftl (fr_len f) 16) (if fr_ext f then fr_id f else fr_id f * 2 ^ 18) l h.
Definition flex_receives (f : frame) (k : Z) (s : flex) : flex := f_set_flag (f_set_mb s k (flex_filled f)) k true.
Definition flex_sent (k : Z) (s : flex) : flex :=
  let m := f_mb s k in f_set_flag (f_set_mb s k (mkFmb (Z.shiftl 8 24 + fb_cs m mod 2 ^ 24) (fb_id m) (fb_dl m) (fb_dh m))) k true.

(** * TI DCAN *)
(** A message object, also the IFx registers: ARB, MSK, MCTL, DATA, DATB *)
Record dmo := mkDmo { o_arb : Z; o_msk : Z; o_mctl : Z; o_da : Z; o_db : Z }.
(** struct can (can-ti_dcan.h:13-24) and the registers: BTR, message objects 1 .. 32, IF1, IF2 *)
Record dcan := mkDcan { d_btr : Z; d_obj : Z -> dmo; d_if1 : dmo; d_if2 : dmo; d_rxi : Z; d_rxc : Z; d_txi : Z; d_txc : Z }.
Definition d_set_cnt (s : dcan) (rxc txc : Z) : dcan := mkDcan (d_btr s) (d_obj s) (d_if1 s) (d_if2 s) (d_rxi s) rxc (d_txi s) txc.
Definition d_set_btr (s : dcan) (v : Z) : dcan := mkDcan v (d_obj s) (d_if1 s) (d_if2 s) (d_rxi s) (d_rxc s) (d_txi s) (d_txc s).
Definition d_set_txi (s : dcan) (v : Z) : dcan := mkDcan (d_btr s) (d_obj s) (d_if1 s) (d_if2 s) (d_rxi s) (d_rxc s) v (d_txc s).
Definition d_set_rxi (s : dcan) (v : Z) : dcan := mkDcan (d_btr s) (d_obj s) (d_if1 s) (d_if2 s) v (d_rxc s) (d_txi s) (d_txc s).
(** The target: bits of an int and of a char (uint_least8_t); TMS320F2837x: 16 and 16. *)
Record dtgt := mkDtgt { t_int : Z; t_char : Z }.
(** A write of IFxCMD, the hardware: bit 23 DIR (1: to the object), 22 MASK, 21 ARB, 20 CONTROL, 18 NEWDAT (cleared when reading),
    17 DATA_A, 16 DATA_B, 7..0 the object *)
Definition if_cmd (cmd : Z) (r : dmo) (obj : Z -> dmo) : dmo * (Z -> dmo) :=
  let k := field cmd 0 8 in let o := obj k in
  let pick (b : Z) (new old : Z) := if Z.testbit cmd b then new else old in
  if Z.testbit cmd 23
  then (r, upd obj k (mkDmo (pick 21 (o_arb r) (o_arb o)) (pick 22 (o_msk r) (o_msk o)) (pick 20 (o_mctl r) (o_mctl o)) (pick 17 (o_da r) (o_da o)) (pick 16 (o_db r) (o_db o))))
  else (mkDmo (pick 21 (o_arb o) (o_arb r)) (pick 22 (o_msk o) (o_msk r)) (pick 20 (o_mctl o) (o_mctl r)) (pick 17 (o_da o) (o_da r)) (pick 16 (o_db o) (o_db r)),
        upd obj k (mkDmo (o_arb o) (o_msk o) (pick 18 (Z.ldiff (o_mctl o) (2 ^ 15)) (o_mctl o)) (o_da o) (o_db o))).
Definition d_cmd1 (s : dcan) (r : dmo) (cmd : Z) : dcan := let (r1, o1) := if_cmd cmd r (d_obj s) in mkDcan (d_btr s) o1 r1 (d_if2 s) (d_rxi s) (d_rxc s) (d_txi s) (d_txc s).
Definition d_cmd2 (s : dcan) (r : dmo) (cmd : Z) : dcan := let (r1, o1) := if_cmd cmd r (d_obj s) in mkDcan (d_btr s) o1 (d_if1 s) r1 (d_rxi s) (d_rxc s) (d_txi s) (d_txc s).
(** CAN_TXRQ_21 and CAN_NDAT_21: bit i is TXRQST (8), NEWDAT (15) of object i + 1 *)
Fixpoint collect (g : Z -> bool) (n : nat) : Z := match n with O => 0 | S k => (if g (Z.of_nat k) then 2 ^ Z.of_nat k else 0) + collect g k end.
Definition d_txrq (s : dcan) : Z := collect (fun i => Z.testbit (o_mctl (d_obj s (i + 1))) 8) 32.
Definition d_ndat (s : dcan) : Z := collect (fun i => Z.testbit (o_mctl (d_obj s (i + 1))) 15) 32.

(** set_tx_mailboxes (can-ti_dcan.c:164-172) *)
Definition dcan_set_tx (s : dcan) (n : Z) : cres dcan := if negb (n <? 32) then CRet (- C_EINVAL) s else CRet 0 (d_set_cnt s (32 - n) n).
(** can_ti_dcan_init (can-ti_dcan.c:185-215): the message RAM is cleared *)
Definition dcan_init (s : dcan) : cres dcan :=
  let z := mkDmo 0 0 0 0 0 in dcan_set_tx (mkDcan (d_btr s) (fun _ => z) z z 0 0 0 0) 2.
(** can_setup (can-ti_dcan.c:300-317) *)
Definition dcan_setup (freq : Z) (st : cset) (s : dcan) : cres dcan :=
  match dcan_bitrate freq (cs_rate st) with BUb => CUb | BErr e => CRet (- e) s | BSet b => dcan_set_tx (d_set_btr s b) (cs_ntx st) end.
(** can_accept (can-ti_dcan.c:319-336) *)
Definition dcan_accept (id mask : Z) (s : dcan) : cres dcan :=
  if negb (id <? 2048) then CRet (- C_EINVAL) s
  else if negb (mask <? 2048) then CRet (- C_EINVAL) s
  else if negb (d_rxi s <? d_rxc s) then CRet (- C_ENOMEM) s
  else
    let r := mkDmo (Z.lor (Z.shiftl id 18) (2 ^ 31)) (Z.shiftl mask 18) 0 (o_da (d_if2 s)) (o_db (d_if2 s)) in
    let i := d_rxi s + 1 in
    CRet 0 (d_cmd2 (d_set_rxi s i) r (Z.lor (Z.lor (Z.lor (2 ^ 23) (2 ^ 21)) (2 ^ 20)) i)).
(** can_write, transfer_tx_mailbox, copy_data_to_mb (can-ti_dcan.c:338-371,413-453,482-500) *)
Definition dcan_write (t : dtgt) (id : Z) (buf : list Z) (n : Z) (s : dcan) : cres dcan :=
  if negb (id <? 2048) then CRet (- C_EINVAL) s
  else if negb (0 <? n) then CRet (- C_EINVAL) s
  else if negb (n <=? 8) then CRet (- C_EINVAL) s
  else
    let index := u32 (d_rxc s + d_txi s) in
    if negb (index <? t_int t) then CUb                                          (* 1 << index; bit 31 of a 32-bit int is let pass *)
    else if negb (Z.land (d_txrq s) (2 ^ index) =? 0) then CRet (- C_EAGAIN) s
    else if d_txc s =? 0 then CUb
    else
      let s1 := d_set_txi s (u32 (d_txi s + 1) mod d_txc s) in
      if negb (index <? 32) then CRet (- C_EINVAL) s1
      else
        let s2 := d_cmd1 s1 (d_if1 s1) (Z.lor (2 ^ 20) (index + 1)) in
        if negb (Z.land (o_mctl (d_if1 s2)) (2 ^ 8) =? 0) then CRet (- C_EAGAIN) s2
        else
          let (a, b) := pack_le buf n in
          let r := mkDmo (Z.lor (Z.lor (Z.shiftl id 18) (2 ^ 31)) (2 ^ 29)) (o_msk (d_if1 s2)) (Z.lor n (Z.lor (2 ^ 7) (2 ^ 8))) a (if 4 <? n then b else o_db (d_if1 s2)) in
          let cmd0 := if 4 <? n then Z.lor (2 ^ 16) (2 ^ 17) else 2 ^ 17 in
          let cmd := Z.lor (Z.lor cmd0 (Z.lor (Z.lor (2 ^ 23) (2 ^ 21)) (2 ^ 20))) (index + 1) in
          CRet n (d_cmd1 s2 r cmd).
(** copy_mb_to_data (can-ti_dcan.c:373-411): a conversion to uint_least8_t keeps t_char bits *)
Definition dcan_bytes (t : dtgt) (a b : Z) : list Z :=
  let c x := x mod 2 ^ t_char t in
  [Z.land a 255; c (Z.shiftr a 8); c (Z.shiftr a 16); c (Z.shiftr a 24); Z.land b 255; c (Z.shiftr b 8); c (Z.shiftr b 16); c (Z.shiftr b 24)].
(** transfer_rx_mailbox (can-ti_dcan.c:455-480): the length is that of the frame; IF2ARB is not loaded *)
Definition dcan_read_mb (t : dtgt) (i : Z) (s : dcan) : rres dcan :=
  let s1 := d_cmd2 s (d_if2 s) (Z.lor (2 ^ 20) (i + 1)) in
  if Z.land (o_mctl (d_if2 s1)) (2 ^ 15) =? 0 then RRet (- C_EAGAIN) None [] s1
  else
    let dlc := Z.land (o_mctl (d_if2 s1)) 15 in
    let copy := (i <? d_rxc s1) && (0 <? dlc) && (dlc <=? 8) in
    let s2 := if copy then d_cmd2 s1 (d_if2 s1) (Z.lor (if 3 <? dlc then Z.lor (2 ^ 17) (2 ^ 16) else 2 ^ 17) (i + 1)) else s1 in
    let out := if copy then firstn (Z.to_nat dlc) (dcan_bytes t (o_da (d_if2 s2)) (o_db (d_if2 s2))) else [] in
    let id := Z.shiftr (Z.land (o_arb (d_if2 s2)) 536870911) 18 in
    RRet dlc (Some id) out (d_cmd2 s2 (d_if2 s2) (Z.lor (2 ^ 18) (i + 1))).
(** can_read (can-ti_dcan.c:502-520) *)
Definition dcan_read (t : dtgt) (n : Z) (s : dcan) : rres dcan :=
  if negb (0 <? n) then RRet (- C_EINVAL) None [] s
  else if negb (n <=? 8) then RRet (- C_EINVAL) None [] s
  else if negb (d_rxc s <? t_int t) then RUb                                     (* 1 << rx_mailbox_count *)
  else
    let ndat := Z.land (d_ndat s) (2 ^ d_rxc s - 1) in
    if ndat =? 0 then RRet (- C_EAGAIN) None [] s
    else match scan ndat (Z.to_nat (d_rxi s)) with None => RRet (- C_EIO) None [] s | Some i => dcan_read_mb t i s end.

(** The hardware *)
Definition dcan_sends (o : dmo) : frame :=
  let x := Z.testbit (o_arb o) 30 in
  mkFrame x (if x then field (o_arb o) 0 29 else field (o_arb o) 18 11) (firstn (Z.to_nat (field (o_mctl o) 0 4)) (bytes_le (o_da o) (o_db o))).
Definition dcan_is_tx (o : dmo) : bool := Z.testbit (o_arb o) 31 && Z.testbit (o_arb o) 29 && Z.testbit (o_mctl o) 8.
(** An object takes a frame: MSGVAL, direction receive, XTD equal, identifiers equal - under the mask if UMASK (MCTL bit 12) is set *)
Definition dcan_takes (o : dmo) (f : frame) : bool :=
  Z.testbit (o_arb o) 31 && negb (Z.testbit (o_arb o) 29) && Bool.eqb (Z.testbit (o_arb o) 30) (fr_ext f) &&
  (let mask := if Z.testbit (o_mctl o) 12 then o_msk o else 536870911 in
   if fr_ext f then Z.land (fr_id f) (field mask 0 29) =? Z.land (field (o_arb o) 0 29) (field mask 0 29)
   else Z.land (fr_id f) (field mask 18 11) =? Z.land (field (o_arb o) 18 11) (field mask 18 11)).
(** UMASK and the other control bits of the object are kept; of those only UMASK matters here *)
Definition dcan_filled (f : frame) (o : dmo) : dmo :=
  let (a, b) := pack_le (fr_data f) (fr_len f) in
  mkDmo (2 ^ 31 + (if fr_ext f then 2 ^ 30 + fr_id f else fr_id f * 2 ^ 18)) (o_msk o) (2 ^ 15 + Z.land (o_mctl o) (2 ^ 12) + fr_len f) a b.
Definition dcan_receives (f : frame) (k : Z) (s : dcan) : dcan :=
  mkDcan (d_btr s) (upd (d_obj s) k (dcan_filled f (d_obj s k))) (d_if1 s) (d_if2 s) (d_rxi s) (d_rxc s) (d_txi s) (d_txc s).
Definition dcan_sent (k : Z) (s : dcan) : dcan :=
  let o := d_obj s k in
  mkDcan (d_btr s) (upd (d_obj s) k (mkDmo (o_arb o) (o_msk o) (Z.ldiff (o_mctl o) (2 ^ 8)) (o_da o) (o_db o))) (d_if1 s) (d_if2 s) (d_rxi s) (d_rxc s) (d_txi s) (d_txc s).

(** * Bosch M_CAN *)
(** struct rx_buf, struct tx_buf (can-bosch_mcan.c:360-403) *)
Record mbuf := mkMbuf { e0 : Z; e1 : Z; e2 : Z; e3 : Z }.
(** struct can and the registers. Receive FIFO 0: 64 elements, get index, fill level. Transmit buffers: pending requests (TXBRP),
    put index and full flag of TXFQS. Filters. INIT of CCCR, BO of PSR, NBTP, size of the transmit queue. *)
Record mcan := mkMcan { m_rx : Z -> mbuf; m_gi : Z; m_fl : Z; m_tx : Z -> mbuf; m_pend : Z -> bool; m_pi : Z; m_full : bool;
                        m_sf : Z -> Z; m_ef : Z -> Z * Z; m_n11 : Z; m_n29 : Z; m_rec : bool; m_initb : bool; m_bo : bool; m_nbtp : Z; m_tfqs : Z }.
(** can_bosch_mcan_init (can-bosch_mcan.c:476-566) with init_fdcan_filters *)
Definition mcan_init (s : mcan) : cres mcan :=
  CRet 0 (mkMcan (m_rx s) 0 0 (m_tx s) (fun _ => false) 0 false (fun k => if (0 <=? k) && (k <? 128) then 3 * 2 ^ 30 else m_sf s k)
           (fun k => if (0 <=? k) && (k <? 64) then (0, snd (m_ef s k)) else m_ef s k) 0 0 false false (m_bo s) (m_nbtp s) 32).
Definition m_set_cfg (s : mcan) (i : bool) (b q : Z) : mcan :=
  mkMcan (m_rx s) (m_gi s) (m_fl s) (m_tx s) (m_pend s) (m_pi s) (m_full s) (m_sf s) (m_ef s) (m_n11 s) (m_n29 s) (m_rec s) i (m_bo s) b q.
(** can_setup (can-bosch_mcan.c:657-727); loopback and overwrite have no effect on what is modelled *)
Definition mcan_setup (freq : Z) (st : cset) (s : mcan) : cres mcan :=
  match mcan_bitrate freq (cs_rate st) with
  | BUb => CUb
  | BErr e => CRet (- e) (m_set_cfg s true (m_nbtp s) (m_tfqs s))
  | BSet b =>
    if negb (0 <? cs_ntx st) || negb (cs_ntx st <=? 32) then CRet (- C_EINVAL) (m_set_cfg s true b (m_tfqs s))
    else CRet 0 (m_set_cfg s false b (cs_ntx st))
  end.
(** can_accept (can-bosch_mcan.c:729-754) *)
Definition mcan_accept (id mask : Z) (s : mcan) : cres mcan :=
  if negb (id <? 536870912) then CRet (- C_EINVAL) s
  else if negb (mask <? 536870912) then CRet (- C_EINVAL) s
  else if id <? 2048 then
    if negb (m_n11 s <? 128) then CRet (- C_ENOMEM) s
    else CRet 0 (mkMcan (m_rx s) (m_gi s) (m_fl s) (m_tx s) (m_pend s) (m_pi s) (m_full s)
                   (upd (m_sf s) (m_n11 s) (Z.lor (Z.lor (Z.lor (Z.shiftl 2 30) (Z.shiftl 1 27)) (Z.shiftl (Z.land id 2047) 16)) (Z.land mask 2047)))
                   (m_ef s) (m_n11 s + 1) (m_n29 s) (m_rec s) (m_initb s) (m_bo s) (m_nbtp s) (m_tfqs s))
  else
    if negb (m_n29 s <? 64) then CRet (- C_ENOMEM) s
    else CRet 0 (mkMcan (m_rx s) (m_gi s) (m_fl s) (m_tx s) (m_pend s) (m_pi s) (m_full s) (m_sf s)
                   (upd (m_ef s) (m_n29 s) (Z.lor (Z.shiftl 1 29) (Z.land id 536870911), Z.lor (Z.shiftl 2 30) (Z.land mask 536870911)))
                   (m_n11 s) (m_n29 s + 1) (m_rec s) (m_initb s) (m_bo s) (m_nbtp s) (m_tfqs s)).
Definition m_set_rec (s : mcan) (r i : bool) : mcan :=
  mkMcan (m_rx s) (m_gi s) (m_fl s) (m_tx s) (m_pend s) (m_pi s) (m_full s) (m_sf s) (m_ef s) (m_n11 s) (m_n29 s) r i (m_bo s) (m_nbtp s) (m_tfqs s).
(** can_write, buffer_write (can-bosch_mcan.c:756-826); the put index and the full flag are the hardware's *)
Definition mcan_write (id : Z) (buf : list Z) (n : Z) (s : mcan) : cres mcan :=
  if negb (n <=? 8) then CRet (- C_EINVAL) s
  else if m_rec s && m_initb s then CRet (- C_EBUSY) (m_set_rec s true false)
  else
    let s1 := m_set_rec s false (m_initb s) in
    if m_bo s1 then CRet (- C_EIO) (m_set_rec s1 true (m_initb s1))
    else if m_full s1 then CRet (- C_EAGAIN) s1
    else
      let index := m_pi s1 in
      let t0 := if id <? 2048 then Z.land (u32 (Z.shiftl id 18)) 536870911 else Z.lor (2 ^ 30) (Z.land id 536870911) in
      let (l, h) := pack_le buf n in
      CRet n (mkMcan (m_rx s1) (m_gi s1) (m_fl s1) (upd (m_tx s1) index (mkMbuf t0 (Z.shiftl (Z.land n 15) 16) l h)) (upd (m_pend s1) index true)
                (m_pi s1) (m_full s1) (m_sf s1) (m_ef s1) (m_n11 s1) (m_n29 s1) (m_rec s1) (m_initb s1) (m_bo s1) (m_nbtp s1) (m_tfqs s1)).
(** RXF0S, the hardware: F0FL in bits 6..0, F0GI in bits 13..8 *)
Definition mcan_rxf0s (s : mcan) : Z := m_gi s * 2 ^ 8 + m_fl s.
(** Acknowledge of element [a], the hardware *)
Definition mcan_ack (a : Z) (s : mcan) : mcan :=
  mkMcan (m_rx s) ((a + 1) mod 64) (m_fl s - 1) (m_tx s) (m_pend s) (m_pi s) (m_full s) (m_sf s) (m_ef s) (m_n11 s) (m_n29 s) (m_rec s) (m_initb s) (m_bo s) (m_nbtp s) (m_tfqs s).
(** can_read, buffer_read (can-bosch_mcan.c:828-881); FnFL_M is 0x3f *)
Definition mcan_read (n : Z) (s : mcan) : rres mcan :=
  if negb (0 <? n) then RRet (- C_EINVAL) None [] s
  else if negb (n <=? 8) then RRet (- C_EINVAL) None [] s
  else if Z.land (mcan_rxf0s s) 63 =? 0 then RRet (- C_EAGAIN) None [] s
  else
    let index := Z.land (Z.shiftr (mcan_rxf0s s) 8) 63 in
    let b := m_rx s index in
    let id := if Z.land (e0 b) (2 ^ 30) =? 0 then Z.shiftr (Z.land (e0 b) 536870911) 18 else Z.land (e0 b) 536870911 in
    let dlc := Z.land (Z.shiftr (e1 b) 16) 15 in
    RRet dlc (Some id) (if dlc <=? 8 then firstn (Z.to_nat dlc) (bytes_le (e2 b) (e3 b)) else []) (mcan_ack index s).

(** The hardware *)
Definition mcan_sends (b : mbuf) : frame :=
  let x := Z.testbit (e0 b) 30 in
  mkFrame x (if x then field (e0 b) 0 29 else field (e0 b) 18 11) (firstn (Z.to_nat (field (e1 b) 16 4)) (bytes_le (e2 b) (e3 b))).
(** A filter element: SFT 2 (classic) and SFEC 1 (to FIFO 0); EFEC 1 and EFT 2 *)
Definition std_match (e id : Z) : bool :=
  (field e 30 2 =? 2) && (field e 27 3 =? 1) && (Z.land id (field e 0 11) =? Z.land (field e 16 11) (field e 0 11)).
Definition ext_match (e : Z * Z) (id : Z) : bool :=
  (field (fst e) 29 3 =? 1) && (field (snd e) 30 2 =? 2) && (Z.land id (field (snd e) 0 29) =? Z.land (field (fst e) 0 29) (field (snd e) 0 29)).
Fixpoint any (g : Z -> bool) (n : nat) : bool := match n with O => false | S k => g (Z.of_nat k) || any g k end.
(** GFC: frames that match no filter are rejected *)
Definition mcan_takes (s : mcan) (f : frame) : bool :=
  if fr_ext f then any (fun k => ext_match (m_ef s k) (fr_id f)) 64 else any (fun k => std_match (m_sf s k) (fr_id f)) 128.
Definition mcan_filled (f : frame) : mbuf :=
  let (l, h) := pack_le (fr_data f) (fr_len f) in mkMbuf (if fr_ext f then 2 ^ 30 + fr_id f else fr_id f * 2 ^ 18) (Z.shiftl (fr_len f) 16) l h.
(** Reception: the next element of FIFO 0; a full FIFO does not take it (blocking mode) *)
Definition mcan_receives (f : frame) (s : mcan) : mcan :=
  if 64 <=? m_fl s then s
  else
    mkMcan (upd (m_rx s) ((m_gi s + m_fl s) mod 64) (mcan_filled f)) (m_gi s) (m_fl s + 1) (m_tx s) (m_pend s) (m_pi s) (m_full s) (m_sf s) (m_ef s) (m_n11 s) (m_n29 s)
      (m_rec s) (m_initb s) (m_bo s) (m_nbtp s) (m_tfqs s).
(** Bus off: INIT is set by the hardware; the end of the recovery sequence *)
Definition mcan_busoff (s : mcan) : mcan :=
  mkMcan (m_rx s) (m_gi s) (m_fl s) (m_tx s) (m_pend s) (m_pi s) (m_full s) (m_sf s) (m_ef s) (m_n11 s) (m_n29 s) (m_rec s) true true (m_nbtp s) (m_tfqs s).
(** 129 occurrences of bus idle: they count only when INIT is clear *)
Definition mcan_recovered (s : mcan) : mcan :=
  if m_initb s then s
  else mkMcan (m_rx s) (m_gi s) (m_fl s) (m_tx s) (m_pend s) (m_pi s) (m_full s) (m_sf s) (m_ef s) (m_n11 s) (m_n29 s) (m_rec s) false false (m_nbtp s) (m_tfqs s).

(** can_request_frame, all drivers (can-sam3x.c:435-439, ...) *)
Definition can_request_frame {S} (id : Z) (s : S) : cres S := CRet (- C_ENOSYS) s.

(** * Histories: calls of the application, and frames received in or sent from a mailbox *)
Inductive cop := OAccept (id mask : Z) | OWrite (id : Z) (buf : list Z) (n : Z) | ORead (n : Z) | ORx (f : frame) (k : Z) | OTx (k : Z).
(** The state after, and the (id, mask) of the calls of can_accept that returned 0; None: undefined behaviour *)
Definition ret_c {S} (acc : list (Z * Z)) (r : cres S) (ok : list (Z * Z)) : option (S * list (Z * Z)) :=
  match r with CUb => None | CRet v s => Some (s, if v =? 0 then acc ++ ok else acc) end.
Definition ret_r {S} (acc : list (Z * Z)) (r : rres S) : option (S * list (Z * Z)) :=
  match r with RUb => None | RRet _ _ _ s => Some (s, acc) end.
Definition sam_step (le : bool) (o : cop) (s : sam) (acc : list (Z * Z)) : option (sam * list (Z * Z)) :=
  match o with
  | OAccept id mask => ret_c acc (sam_accept id mask s) [(id, mask)]
  | OWrite id buf n => ret_c acc (sam_write id buf n s) []
  | ORead n => ret_r acc (sam_read n s)
  | ORx f k => Some (if (0 <=? k) && (k <? 8) && sam_takes (s_mb s k) f then sam_receives le f k s else s, acc)
  | OTx k => Some (if (0 <=? k) && (k <? 8) && sam_is_tx (s_mb s k) then sam_sent k s else s, acc)
  end.
Definition flex_step (o : cop) (s : flex) (acc : list (Z * Z)) : option (flex * list (Z * Z)) :=
  match o with
  | OAccept id mask => ret_c acc (flex_accept id mask s) [(id, mask)]
  | OWrite id buf n => ret_c acc (flex_write id buf n s) []
  | ORead n => ret_r acc (flex_read n s)
  | ORx f k => Some (if (0 <=? k) && (k <? f_cnt s) && flex_takes s k f then flex_receives f k s else s, acc)
  | OTx k => Some (if (0 <=? k) && (k <? f_cnt s) && flex_is_tx (f_mb s k) then flex_sent k s else s, acc)
  end.
Definition dcan_step (t : dtgt) (o : cop) (s : dcan) (acc : list (Z * Z)) : option (dcan * list (Z * Z)) :=
  match o with
  | OAccept id mask => ret_c acc (dcan_accept id mask s) [(id, mask)]
  | OWrite id buf n => ret_c acc (dcan_write t id buf n s) []
  | ORead n => ret_r acc (dcan_read t n s)
  | ORx f k => Some (if (1 <=? k) && (k <=? 32) && dcan_takes (d_obj s k) f then dcan_receives f k s else s, acc)
  | OTx k => Some (if (1 <=? k) && (k <=? 32) && dcan_is_tx (d_obj s k) then dcan_sent k s else s, acc)
  end.
(** On M_CAN the hardware chooses the element, [k] is not used; a frame that was sent frees its buffer: here only the pending flag *)
Definition mcan_step (o : cop) (s : mcan) (acc : list (Z * Z)) : option (mcan * list (Z * Z)) :=
  match o with
  | OAccept id mask => ret_c acc (mcan_accept id mask s) [(id, mask)]
  | OWrite id buf n => ret_c acc (mcan_write id buf n s) []
  | ORead n => ret_r acc (mcan_read n s)
  | ORx f _ => Some (if mcan_takes s f then mcan_receives f s else s, acc)
  | OTx k => Some (mkMcan (m_rx s) (m_gi s) (m_fl s) (m_tx s) (upd (m_pend s) k false) (m_pi s) (m_full s) (m_sf s) (m_ef s) (m_n11 s) (m_n29 s)
                     (m_rec s) (m_initb s) (m_bo s) (m_nbtp s) (m_tfqs s), acc)
  end.
Fixpoint run {S} (step : cop -> S -> list (Z * Z) -> option (S * list (Z * Z))) (ops : list cop) (s : S) (acc : list (Z * Z)) : option (S * list (Z * Z)) :=
  match ops with
  | [] => Some (s, acc)
  | o :: rest => match step o s acc with None => None | Some (s1, acc1) => run step rest s1 acc1 end
  end.
