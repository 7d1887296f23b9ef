(** DmaModel.v - DMA channels (drivers/dma): dma_setup, dma_xfer and dma_xfer_done of five drivers, and the channel behind their registers.

    Simplifications:
    - one channel, and only the registers the calls use; a register is a number, named by [dreg];
    - a register assigned a bit at a time is written field by field with [put]; what it holds in between is left out, except the enable
      bit, which is always written last;
    - [DErr] is an assertion that fails (dma_gd32vf103's returns -EAGAIN), [DUb] undefined behaviour;
    - priorities, interrupts, FIFOs, bursts of the bus and addresses past 2^32 are left out; dma-ti_f28x.c is not modelled. *)
From Verif Require Import Base MuxModel.

(** What the caller asks for (drivers/include/dma.h:17): increments are 0 off, 1 on; 2 is DMA_XFER_INCREMENT_COUNT. *)
Record xfer := mkXfer { saddr : Z; daddr : Z; incr_read : Z; incr_write : Z; size : Z; byte_count : Z }.

(** Registers: GD32 (CTL, CNT, PADDR, MADDR); STM32H7 (CR, NDTR, PAR, M0AR); SAME5x (descriptor's BTCTRL, BTCNT, SRCADDR, DSTADDR; channel's
    CHCTRLA, CHINTFLAG); RP2040 (READ_ADDR, WRITE_ADDR, TRANS_COUNT, CTRL); eDMA (SADDR, ATTR, SOFF, NBYTES, DADDR, DOFF, CSR, and ERQ and
    START, which SERQ and SSRT set) *)
Inductive dreg :=
| CTL | CNT | PADDR | MADDR
| SCR | NDTR | PAR | M0AR
| BTCTRL | BTCNT | SRCADDR | DSTADDR | CHCTRLA | CHFLAG
| RADDR | WADDR | TCOUNT | CTRLT
| ESADDR | ATTR | SOFF | NBYTES | EDADDR | DOFF | CSR | ERQ | START.
Global Instance dreg_eq : EqDecision dreg.
Proof. solve_decision. Defined.
Definition dst := dreg -> Z.
Definition dwr (r : dreg) (v : Z) (s : dst) : dst := fun r' => if decide (r' = r) then v else s r'.
(** field of a register := v *)
Definition dwf (r : dreg) (lo n v : Z) (s : dst) : dst := dwr r (put (s r) lo n v) s.
Inductive dres := DOk (s : dst) | DErr | DUb.

Inductive ddrv := DGd | DStm | DE5 | DRp | DEdma.
(** the value of incr != DMA_XFER_INCREMENT_OFF *)
Definition on (i : Z) : Z := if i =? 0 then 0 else 1.
Definition u32 (v : Z) : Z := v mod 2 ^ 32.
(** i <= DMA_XFER_INCREMENT_COUNT *)
Definition incr_ok (x : xfer) : bool := (0 <=? incr_read x) && (incr_read x <=? 2) && (0 <=? incr_write x) && (incr_write x <=? 2).

(** dma_prepare (dma-gd32vf103.c:67), and CHEN as dma_setup :110 and dma_xfer :122 both set it; base is DMA_PADDR_BASE. MWIDTH is at 10,
    PWIDTH at 8, MNAGA at 7, PNAGA at 6, DIR at 4, CHEN at 0. CNT has 16 bits *)
Definition gd_setup (base : Z) (x : xfer) (s : dst) : dres :=
  if negb ((0 <? size x) && (size x <=? 4)) then DErr else
  if negb (0 <? byte_count x) then DErr else
  if negb (incr_ok x) then DErr else
  let s1 := dwr CTL (put (put 0 10 2 (size x - 1)) 8 2 (size x - 1)) s in
  let s2 := dwr CNT ((byte_count x / size x) mod 2 ^ 16) s1 in
  let s3 := if base <=? saddr x
    then dwf CTL 7 1 (on (incr_write x)) (dwf CTL 6 1 (on (incr_read x)) (dwf CTL 4 1 0 (dwr MADDR (u32 (daddr x)) (dwr PADDR (u32 (saddr x)) s2))))
    else dwf CTL 6 1 (on (incr_write x)) (dwf CTL 7 1 (on (incr_read x)) (dwf CTL 4 1 1 (dwr MADDR (u32 (saddr x)) (dwr PADDR (u32 (daddr x)) s2)))) in
  DOk (dwf CTL 0 1 1 s3).

(** dma_stm32h7xx_setup (dma-stm32h7xx.c:120): CIRC is at 8 *)
Definition stm_circ (c : bool) (s : dst) : dst := dwf SCR 8 1 (if c then 1 else 0) s.
(** dma_setup (dma-stm32h7xx.c:129), which dma_xfer :169 calls. PINCOS is at 15, MSIZE at 13, PSIZE at 11, MINC at 10, PINC at 9, DIR at 6, EN
    at 0. NDTR has 16 bits *)
Definition stm_setup (base : Z) (x : xfer) (s : dst) : dres :=
  if negb (incr_ok x) then DErr else
  if size x =? 0 then DUb else
  let c := put (put 1 13 2 (size x / 2)) 11 2 (size x / 2) in
  let s1 := dwr NDTR ((byte_count x / size x) mod 2 ^ 16) (dwr SCR 0 s) in
  if base <=? saddr x
  then DOk (dwr SCR (put (put (put c 10 1 (on (incr_write x))) 9 1 (on (incr_read x))) 15 1 (on (incr_read x)))
      (dwr M0AR (u32 (daddr x)) (dwr PAR (u32 (saddr x)) s1)))
  else DOk (dwr SCR (put (put (put (put c 6 2 1) 10 1 (on (incr_read x))) 9 1 (on (incr_write x))) 15 1 (on (incr_write x)))
      (dwr M0AR (u32 (saddr x)) (dwr PAR (u32 (daddr x)) s1))).

(** dma_same5x_dma_init (dma-same5x.c:174): TRIGACT is at 20, TRIGSRC at 8 *)
Definition e5_init (trigsrc : Z) (s : dst) : dst := dwr CHCTRLA (put (put 0 20 2 2) 8 7 trigsrc) s.
(** dma_setup (dma-same5x.c:192). STEPSIZE is at 13, DSTINC at 11, SRCINC at 10, BEATSIZE at 8, BLOCKACT at 3, EVOSEL at 1, VALID at 0. BTCNT has 16
    bits. The flags are cleared by ones: what is read is written back, so all of them are *)
Definition e5_setup (x : xfer) (s : dst) : dres :=
  if negb ((0 <? size x) && (size x <=? 4)) then DErr else
  if negb (incr_ok x) then DErr else
  let s1 := dwr BTCTRL (put (put (put 1 11 1 (on (incr_write x))) 10 1 (on (incr_read x))) 8 2 (size x / 2)) s in
  let s2 := dwr BTCNT ((byte_count x / size x) mod 2 ^ 16) s1 in
  let s3 := dwr SRCADDR (u32 (if incr_read x =? 0 then saddr x else saddr x + byte_count x)) s2 in
  let s4 := dwr DSTADDR (u32 (if incr_write x =? 0 then daddr x else daddr x + byte_count x)) s3 in
  DOk (dwf CHCTRLA 1 1 1 (dwr CHFLAG 0 s4)).

(** dma_r2040_init (dma-rp2040.c:70), treq_sel: TREQ_SEL is at 15, EN at 0; CHAIN_TO is left out *)
Definition rp_init (treq : Z) (s : dst) : dst := dwf CTRLT 15 6 treq (dwf CTRLT 0 1 0 s).
(** dma_setup (dma-rp2040.c:97): INCR_WRITE is at 5, INCR_READ at 4, DATA_SIZE at 2 *)
Definition rp_setup (x : xfer) (s : dst) : dres :=
  if negb (0 <? size x) then DErr else
  if size x =? 3 then DErr else
  if negb (size x <? 5) then DErr else
  if negb (incr_ok x) then DErr else
  let s1 := dwr TCOUNT (u32 (byte_count x / size x)) (dwr WADDR (u32 (daddr x)) (dwr RADDR (u32 (saddr x)) s)) in
  let s2 := dwf CTRLT 5 1 (on (incr_write x)) (dwf CTRLT 4 1 (on (incr_read x)) s1) in
  let s3 := dwf CTRLT 2 2 (if size x =? 4 then 2 else if size x =? 2 then 1 else 0) s2 in
  DOk (dwf CTRLT 0 1 1 s3).
(** dma_xfer (dma-rp2040.c:124) *)
Definition rp_xfer (x : xfer) (s : dst) : dres :=
  match rp_setup x s with DOk s1 => DOk (dwf CTRLT 15 6 63 s1) | r => r end.

(** nxp_edma_data_size (dma-nxp_edma.c:118) *)
Definition edma_size (n : Z) : option Z := if n =? 1 then Some 0 else if n =? 2 then Some 1 else if n =? 4 then Some 2 else if n =? 8 then Some 3 else None.
(** setup_tcd (dma-nxp_edma.c:146): SSIZE is at 8, DSIZE at 0; CITER and BITER are 1; SLAST and DLASTSGA, which put the addresses back after the
    transfer, are left out. DMA_NXP_EDMA's NBYTES has 30 bits, as SMLOE and DMLOE are 31 and 30 *)
Definition edma_tcd (x : xfer) (s : dst) : dres :=
  match edma_size (size x) with
  | None => DErr
  | Some k =>
      let s1 := dwr ATTR (put (put 0 8 3 k) 0 3 k) (dwr ESADDR (u32 (saddr x)) s) in
      let s2 := dwr SOFF (if incr_read x =? 0 then 0 else size x) s1 in
      let s3 := dwr NBYTES (u32 (byte_count x)) s2 in
      DOk (dwr DOFF (if incr_write x =? 0 then 0 else size x) (dwr EDADDR (u32 (daddr x)) s3))
  end.
(** dma_setup (dma-nxp_edma.c:185) *)
Definition edma_setup (x : xfer) (s : dst) : dres := match edma_tcd x s with DOk s1 => DOk (dwr ERQ 1 s1) | r => r end.
(** dma_xfer (dma-nxp_edma.c:199): DONE is at 7 of CSR, ACTIVE at 6; a channel that is active is refused *)
Definition edma_xfer (x : xfer) (s : dst) : dres :=
  if mf (s CSR) 6 1 =? 1 then DErr else
  match edma_tcd x (dwf CSR 7 1 0 s) with DOk s1 => DOk (dwr START 1 s1) | r => r end.

Definition dma_setup (d : ddrv) (base : Z) (x : xfer) (s : dst) : dres :=
  match d with DGd => gd_setup base x s | DStm => stm_setup base x s | DE5 => e5_setup x s | DRp => rp_setup x s | DEdma => edma_setup x s end.
(** SAME5x's software trigger (SWTRIGCTRL, dma-same5x.c:235) is part of [self_started] *)
Definition dma_xfer (d : ddrv) (base : Z) (x : xfer) (s : dst) : dres :=
  match d with DGd => gd_setup base x s | DStm => stm_setup base x s | DE5 => e5_setup x s | DRp => rp_xfer x s | DEdma => edma_xfer x s end.
(** dma_xfer_done: dma-gd32vf103.c:135, dma-stm32h7xx.c:174 (the flag it clears is left out), dma-same5x.c:240, dma-rp2040.c:141 (BUSY is at 24; it
    then clears EN, left out), dma-nxp_edma.c:219. True is 0, false -EAGAIN *)
Definition dma_done (d : ddrv) (s : dst) : bool :=
  match d with
  | DGd => s CNT =? 0 | DStm => mf (s SCR) 0 1 =? 0 | DE5 => mf (s CHFLAG) 1 1 =? 1 | DRp => mf (s CTRLT) 24 1 =? 0 | DEdma => mf (s CSR) 6 1 =? 0
  end.

(** * The hardware *)
(** What a channel was programmed to do: units of that width, their number, where the first is read and written, and the steps. *)
Record prog := mkProg { p_width : Z; p_count : Z; p_src : Z; p_sstep : Z; p_dst : Z; p_dstep : Z }.
Definition width_of (k : Z) : option Z := if k =? 0 then Some 1 else if k =? 1 then Some 2 else if k =? 2 then Some 4 else None.
(** What the registers program, as the manuals read them; None if the channel is off, or the width reserved. The SAME5x's descriptor holds the
    addresses after the last unit where they are incremented. PINCOS counts for nothing as the FIFO is not used *)
Definition programmed (d : ddrv) (s : dst) : option prog :=
  match d with
  | DGd => if mf (s CTL) 0 1 =? 0 then None else if negb (mf (s CTL) 8 2 =? mf (s CTL) 10 2) then None else
      match width_of (mf (s CTL) 8 2) with
      | None => None
      | Some w => let ps := w * mf (s CTL) 6 1 in let ms := w * mf (s CTL) 7 1 in
          Some (if mf (s CTL) 4 1 =? 0 then mkProg w (s CNT) (s PADDR) ps (s MADDR) ms else mkProg w (s CNT) (s MADDR) ms (s PADDR) ps)
      end
  | DStm => if mf (s SCR) 0 1 =? 0 then None else if negb (mf (s SCR) 11 2 =? mf (s SCR) 13 2) then None else
      match width_of (mf (s SCR) 11 2) with
      | None => None
      | Some w => let ps := w * mf (s SCR) 9 1 in let ms := w * mf (s SCR) 10 1 in
          if mf (s SCR) 6 2 =? 0 then Some (mkProg w (s NDTR) (s PAR) ps (s M0AR) ms)
          else if mf (s SCR) 6 2 =? 1 then Some (mkProg w (s NDTR) (s M0AR) ms (s PAR) ps) else None
      end
  | DE5 => if (mf (s CHCTRLA) 1 1 =? 0) || (mf (s BTCTRL) 0 1 =? 0) then None else
      match width_of (mf (s BTCTRL) 8 2) with
      | None => None
      | Some w => let ss := w * mf (s BTCTRL) 10 1 in let ds := w * mf (s BTCTRL) 11 1 in
          Some (mkProg w (s BTCNT) (s SRCADDR - ss * s BTCNT) ss (s DSTADDR - ds * s BTCNT) ds)
      end
  | DRp => if mf (s CTRLT) 0 1 =? 0 then None else
      match width_of (mf (s CTRLT) 2 2) with
      | None => None
      | Some w => Some (mkProg w (s TCOUNT) (s RADDR) (w * mf (s CTRLT) 4 1) (s WADDR) (w * mf (s CTRLT) 5 1))
      end
  | DEdma => if negb (mf (s ATTR) 8 3 =? mf (s ATTR) 0 3) then None else if 3 <? mf (s ATTR) 0 3 then None else
      let w := 2 ^ mf (s ATTR) 0 3 in
      Some (mkProg w (s NBYTES mod 2 ^ 30 / w) (s ESADDR) (s SOFF) (s EDADDR) (s DOFF))
  end.
(** The accesses to the bus: n units are read at src and written at dst, and the addresses move. *)
Fixpoint accesses_from (n : nat) (w src ss dst ds : Z) : list (Z * Z * Z) :=
  match n with
  | O => []
  | S n => (src, dst, w) :: accesses_from n w (src + ss) ss (dst + ds) ds
  end.
Definition accesses (p : prog) : list (Z * Z * Z) := accesses_from (Z.to_nat (p_count p)) (p_width p) (p_src p) (p_sstep p) (p_dst p) (p_dstep p).
(** What accesses do to a memory of bytes. *)
Definition mem := Z -> Z.
Definition copy1 (m : mem) (t : Z * Z * Z) : mem :=
  match t with (src, dst, w) => fun a => if (dst <=? a) && (a <? dst + w) then m (src + (a - dst)) else m a end.
Definition copies (l : list (Z * Z * Z)) (m : mem) : mem := fold_left copy1 l m.
(** How many units dma_xfer alone makes the channel move, without a request of a peripheral: all of them in memory to memory mode (GD32: M2M at
    14; STM32H7: DIR 2); one burst (BURSTLEN 0: one unit), or the block, for SAME5x, as TRIGACT (at 20) is 2 or more; with the permanent request for RP2040; all
    of the minor loop for the eDMA, if started *)
Definition self_started (d : ddrv) (s : dst) : Z :=
  match programmed d s with
  | None => 0
  | Some p => match d with
      | DGd => if mf (s CTL) 14 1 =? 1 then p_count p else 0
      | DStm => if mf (s SCR) 6 2 =? 2 then p_count p else 0
      | DE5 => if mf (s CHCTRLA) 20 2 =? 2 then Z.min 1 (p_count p) else p_count p
      | DRp => if mf (s CTRLT) 15 6 =? 63 then p_count p else 0
      | DEdma => if s START =? 1 then p_count p else 0
      end
  end.
(** The registers after k units: GD32 counts down; STM32H7 counts down and disables itself at 0; SAME5x raises TCMPL (1 of the flags); RP2040 is busy;
    the eDMA is active, once it serves the channel *)
Definition moved (d : ddrv) (k : Z) (s : dst) : dst :=
  match programmed d s with
  | None => s
  | Some p => match d with
      | DGd => dwr CNT (s CNT - k) s
      | DStm => dwf SCR 0 1 (if k <? p_count p then 1 else 0) (dwr NDTR (s NDTR - k) s)
      | DE5 => dwf CHFLAG 1 1 (if k <? p_count p then 0 else 1) s
      | DRp => dwf CTRLT 24 1 (if k <? p_count p then 1 else 0) s
      | DEdma => dwf CSR 6 1 (if k <? p_count p then 1 else 0) (dwr START 0 s)
      end
  end.

(** * RP2040: a write to CTRL_TRIG with EN set is a trigger, and dma_xfer does two of them: the last of rp_setup's (dma-rp2040.c:120) and
    its own (:137). The addresses are live and move on; the count is loaded again by a trigger, which a busy channel ignores. *)
Record rprun := mkRun { rr_src : Z; rr_dst : Z; rr_left : nat; rr_log : list (Z * Z * Z) }.
Definition rr_trigger (p : prog) (r : rprun) : rprun :=
  match rr_left r with O => mkRun (rr_src r) (rr_dst r) (Z.to_nat (p_count p)) (rr_log r) | _ => r end.
(** the channel moves up to k units *)
Fixpoint rr_move (p : prog) (k : nat) (r : rprun) : rprun :=
  match k with
  | O => r
  | S k => match rr_left r with
      | O => r
      | S l => rr_move p k (mkRun (rr_src r + p_sstep p) (rr_dst r + p_dstep p) l (rr_log r ++ [(rr_src r, rr_dst r, p_width p)]))
      end
  end.
(** dma_xfer, k units having been moved between the two writes, and then as many as the channel has left *)
Definition rr_xfer (p : prog) (k : nat) : rprun :=
  let r := rr_trigger p (rr_move p k (rr_trigger p (mkRun (p_src p) (p_dst p) 0 []))) in rr_move p (rr_left r) r.
