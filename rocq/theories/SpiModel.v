(** SpiModel.v - model of the polled SPI drivers (drivers/spi, paths under /repo).

    Eleven drivers share one algorithm (a loop that keeps ctx->balance, the difference between what was
    sent and what was received); they differ in the test that allows a write, in the width of a frame
    and in the way a frame is packed in memory. They are instances of [sdrv]. spi-avr.c and
    spi-avr_usart.c have an algorithm of their own ([avr_xfer]).

    The hardware is a transmit queue, a shifter and a receive queue. It advances on its own: [s_env]
    lists the hardware events that happen before each access of the driver.

    Simplifications, for the whole file:
    - the read of a status flag and the access to the data register it allows are one access (hardware
      events never take back a flag the driver is waiting for);
    - a received frame for which there is no room is dropped and counted ([h_lost]);
    - picoRTOS_assert (picoRTOS.h:160-190) returns the error value, as in a build without assertions;
    - the DMA paths (ctx->fill, ctx->drain) are not modelled;
    - alignment of 16 and 32 bit accesses is not modelled;
    - an access outside [s_mem] is undefined behaviour. *)
From Verif Require Import Base.

Definition SPI_EAGAIN : Z := 11.
Definition SPI_EINVAL : Z := 22.

(** Depth of the transmit queue (behind the shifter) and of the receive queue, in frames; [hw_wait]:
    the shifter waits until the receive queue is empty (SPI_MR_WDRBT, spi-sam3x.c:92). *)
Record hwcfg := mkHw { hw_txd : nat; hw_rxd : nat; hw_wait : bool }.

(** Transmit queue, shifter, receive queue, all frames clocked out on MOSI since power-up, number of
    received frames dropped. *)
Record hwst := mkHwst { h_tx : list Z; h_sh : option Z; h_rx : list Z; h_wire : list Z; h_lost : nat }.

Inductive hwev := EvLoad | EvDone.

(** Hardware; [miso i] is the frame the slave answers to the i-th frame on the wire. *)
Definition hw_ev (c : hwcfg) (miso : nat -> Z) (h : hwst) (e : hwev) : hwst :=
  match e with
  | EvLoad =>
      match h_sh h, h_tx h with
      | None, f :: r =>
          if hw_wait c && negb (match h_rx h with [] => true | _ => false end) then h
          else mkHwst r (Some f) (h_rx h) (h_wire h) (h_lost h)
      | _, _ => h
      end
  | EvDone =>
      match h_sh h with
      | Some f =>
          if (length (h_rx h) <? hw_rxd c)%nat
          then mkHwst (h_tx h) None (h_rx h ++ [miso (length (h_wire h))]) (h_wire h ++ [f]) (h_lost h)
          else mkHwst (h_tx h) None (h_rx h) (h_wire h ++ [f]) (S (h_lost h))
      | None => h
      end
  end.
Definition hw_run (c : hwcfg) (miso : nat -> Z) (h : hwst) (l : list hwev) : hwst := fold_left (hw_ev c miso) l h.

(** The test before a write: [GAny]: tx_n < n (spi-arm_pl022.c:389, spi-pic32mx.c:256, spi-tinyavr.c:176,
    spi-nxp_dspi.c:372, spi-atmel_sercom.c:388, spi-sam3x.c:285, spi-atsamx7x.c:291, spi-ti_f28x.c:386);
    [GOne]: ctx->balance == 0 (spi-renesas_ra4.c:344, spi-gd32vf103.c:361);
    [GLim l]: tx_n < n && ctx->balance < l (spi-stm32h7xx.c:469-471). *)
Inductive wguard := GAny | GOne | GLim (l : Z).

(** A driver: write guard; ctx->frame_width; bits of size_t; units of memory (bytes; 16-bit words on
    C28x) a write consumes, and the frame it puts in the data register; units a read is said to fill,
    and those it stores; whether it has the idle state of spi-stm32h7xx.c:391-408. *)
Record sdrv := mkDrv {
  d_guard : wguard; d_fw : Z; d_bits : Z;
  d_txw : nat; d_txval : list Z -> Z;
  d_rxw : nat; d_rxput : Z -> list Z;
  d_arm : bool }.

(** [s_bal] = ctx->balance; [s_armed]: ctx->state is not the idle state; [s_mem]: the memory the caller
    owns. *)
Record spist := mkSpi { s_hw : hwst; s_bal : Z; s_armed : bool; s_mem : list Z; s_env : list (list hwev) }.

(** The hardware runs until the next access of the driver. *)
Definition env (c : hwcfg) (miso : nat -> Z) (s : spist) : spist :=
  match s_env s with
  | [] => s
  | l :: r => mkSpi (hw_run c miso (s_hw s) l) (s_bal s) (s_armed s) (s_mem s) r
  end.

Definition mload (m : list Z) (off w : nat) : res (list Z) :=
  if (off + w <=? length m)%nat then Ok (take w (drop off m)) else UB.
Definition mstore (m : list Z) (off : nat) (l : list Z) : res (list Z) :=
  if (off + length l <=? length m)%nat then Ok (take off m ++ l ++ drop (off + length l) m) else UB.

(** write_data / transmit_data / push_frame / write_char: spi-arm_pl022.c:264-280, spi-pic32mx.c:197-217,
    spi-tinyavr.c:153-160, spi-nxp_dspi.c:294-323, spi-renesas_ra4.c:306-326, spi-atmel_sercom.c:259-280,
    spi-gd32vf103.c:256-272, spi-ti_f28x.c:281-290, spi-sam3x.c:252-268, spi-atsamx7x.c:258-274,
    spi-stm32h7xx.c:410-431 (its EOT test never fails: no frame beyond TSIZE is written, n / width < 2^16).
    Not modelled: chip select and end-of-queue bits of the DSPI. *)
Definition write_data (d : sdrv) (c : hwcfg) (miso : nat -> Z) (at_ : nat) (s : spist) : res (spist * Z) :=
  let s := env c miso s in
  let h := s_hw s in
  if (length (h_tx h) <? hw_txd c)%nat then
    let! u := mload (s_mem s) at_ (d_txw d) in
    Ok (mkSpi (mkHwst (h_tx h ++ [d_txval d u]) (h_sh h) (h_rx h) (h_wire h) (h_lost h))
              (s_bal s) (s_armed s) (s_mem s) (s_env s), Z.of_nat (d_txw d))
  else Ok (s, - SPI_EAGAIN).

(** read_data / receive_data / pop_frame / read_char: spi-arm_pl022.c:282-298, spi-pic32mx.c:219-239,
    spi-tinyavr.c:144-151, spi-nxp_dspi.c:325-352, spi-renesas_ra4.c:282-304, spi-atmel_sercom.c:282-302,
    spi-gd32vf103.c:236-254, spi-ti_f28x.c:292-301, spi-sam3x.c:228-250, spi-atsamx7x.c:234-256 (without
    the "ignore first shift" test), spi-stm32h7xx.c:433-453. *)
Definition read_data (d : sdrv) (c : hwcfg) (miso : nat -> Z) (at_ : nat) (s : spist) : res (spist * Z) :=
  let s := env c miso s in
  let h := s_hw s in
  match h_rx h with
  | [] => Ok (s, - SPI_EAGAIN)
  | f :: r =>
      let! m := mstore (s_mem s) at_ (d_rxput d f) in
      Ok (mkSpi (mkHwst (h_tx h) (h_sh h) r (h_wire h) (h_lost h)) (s_bal s) (s_armed s) m (s_env s),
          Z.of_nat (d_rxw d))
  end.

Definition add_bal (x : Z) (s : spist) : spist :=
  mkSpi (s_hw s) (s_bal s + x) (s_armed s) (s_mem s) (s_env s).
Definition set_armed (b : bool) (s : spist) : spist :=
  mkSpi (s_hw s) (s_bal s) b (s_mem s) (s_env s).

Definition may_write (d : sdrv) (tx_n bal : Z) (n : nat) : bool :=
  match d_guard d with
  | GAny => tx_n <? Z.of_nat n
  | GOne => bal =? 0
  | GLim l => (tx_n <? Z.of_nat n) && (bal <? l)
  end.

(** The loop of spi_xfer: spi-arm_pl022.c:383-406, spi-pic32mx.c:250-273, spi-tinyavr.c:170-193,
    spi-nxp_dspi.c:366-390, spi-renesas_ra4.c:337-361, spi-atmel_sercom.c:382-405, spi-gd32vf103.c:354-378,
    spi-ti_f28x.c:380-403, spi-sam3x.c:279-302, spi-atsamx7x.c:285-308, spi-stm32h7xx.c:464-488. *)
Fixpoint xfer_loop (fuel : nat) (d : sdrv) (c : hwcfg) (miso : nat -> Z) (n rx tx : nat) (s : spist)
  (recv : nat) : res (spist * nat) :=
  match fuel with
  | O => Fuel
  | S fuel =>
      if (recv =? n)%nat then Ok (s, recv) else
      let tx_n := wrap (d_bits d) (Z.of_nat recv + s_bal s) in
      let! (s, x1) :=
        (if may_write d tx_n (s_bal s) n then
           let! (s, r) := write_data d c miso (tx + Z.to_nat tx_n) s in
           if 0 <? r then Ok (add_bal r s, true) else Ok (s, false)
         else Ok (s, false)) in
      let! (s, r) := read_data d c miso (rx + recv) s in
      let! (s, recv, x2) :=
        (if 0 <? r then Ok (add_bal (- r) s, (recv + Z.to_nat r)%nat, true)
         else Ok (s, recv, false)) in
      if x1 || x2 then xfer_loop fuel d c miso n rx tx s recv else Ok (s, recv)
  end.

(** spi_xfer (the path without DMA): spi-arm_pl022.c:374-412, spi-pic32mx.c:241-279, spi-tinyavr.c:162-199,
    spi-nxp_dspi.c:354-396, spi-renesas_ra4.c:328-367, spi-atmel_sercom.c:373-411, spi-gd32vf103.c:345-384,
    spi-ti_f28x.c:372-409, spi-sam3x.c:270-308, spi-atsamx7x.c:276-314, spi-stm32h7xx.c:391-408, 455-512.
    [rx], [tx]: where the buffers start in the caller's memory. *)
Definition spi_xfer (d : sdrv) (c : hwcfg) (miso : nat -> Z) (n rx tx : nat) (s : spist) : res (spist * Z) :=
  if (n =? 0)%nat then Ok (s, - SPI_EINVAL) else
  if negb (Z.land (Z.of_nat n) (d_fw d - 1) =? 0) then Ok (s, - SPI_EINVAL) else
  if d_arm d && negb (s_armed s) then Ok (set_armed true s, - SPI_EAGAIN) else
  let! (s, recv) := xfer_loop (S (n + n)) d c miso n rx tx s 0 in
  if (recv =? 0)%nat then Ok (s, - SPI_EAGAIN) else
  Ok (if d_arm d && (recv =? n)%nat then set_armed false s else s, Z.of_nat recv).

(** Packing of frames in memory: an access through a uint16_t pointer on a little- or big-endian core. *)
Fixpoint le_val (l : list Z) : Z := match l with [] => 0 | b :: l => b + 256 * le_val l end.
Fixpoint le_bytes (w : nat) (v : Z) : list Z :=
  match w with O => [] | S w => v mod 256 :: le_bytes w (v / 256) end.
Definition be_val (l : list Z) : Z := le_val (rev l).
Definition be_bytes (w : nat) (v : Z) : list Z := rev (le_bytes w v).

(** The drivers, by frame width in bytes (set_frame_nbits of each: div_ceil(frame_nbits, 8)). *)
Definition plain (g : wguard) (w : nat) : sdrv :=
  mkDrv g (Z.of_nat w) 32 w le_val w (le_bytes w) false.
(** spi-arm_pl022.c:264-298: 1 or 2. *)
Definition drv_pl022 (w : nat) : sdrv := plain GAny w.
(** spi-gd32vf103.c:236-272: 1 or 2. *)
Definition drv_gd32vf103 (w : nat) : sdrv := plain GOne w.
(** spi-stm32h7xx.c:410-488: 1, 2 or 4; [depth] = ctx->fifo_depth. *)
Definition drv_stm32h7xx (depth : Z) (w : nat) : sdrv :=
  mkDrv (GLim (depth - Z.of_nat w)) (Z.of_nat w) 32 w le_val w (le_bytes w) true.
(** spi-tinyavr.c:144-199: bytes, 16-bit size_t. *)
Definition drv_tinyavr : sdrv := mkDrv GAny 1 16 1 le_val 1 (le_bytes 1) false.
(** spi-nxp_dspi.c:294-396, a big-endian core: 1 or 2. *)
Definition drv_dspi (w : nat) : sdrv := mkDrv GAny (Z.of_nat w) 32 w be_val w (be_bytes w) false.
(** spi-atmel_sercom.c:259-302: 1, 2 or 4, byte-swapped. *)
Definition drv_sercom (w : nat) : sdrv := mkDrv GAny (Z.of_nat w) 32 w be_val w (be_bytes w) false.
(** spi-ti_f28x.c:281-301: 16-bit words, left-justified on transmission ([nbits] bits leave on the wire). *)
Definition drv_f28x (nbits : Z) : sdrv :=
  mkDrv GAny 1 16 1 (fun l => match l with [u] => u mod 2 ^ nbits | _ => 0 end) 1 (fun f => [f]) false.
(** spi-pic32mx.c:197-239: 1, 2 or 4; line 230 stores a 16-bit frame through a pointer to bytes. *)
Definition drv_pic32mx (w : nat) : sdrv :=
  mkDrv GAny (Z.of_nat w) 32 w le_val w (fun f => if (w =? 2)%nat then [f mod 256] else le_bytes w f) false.
(** spi-renesas_ra4.c:282-326: 1, 2 or 4; line 295 as above. *)
Definition drv_ra4 (w : nat) : sdrv :=
  mkDrv GOne (Z.of_nat w) 32 w le_val w (fun f => if (w =? 2)%nat then [f mod 256] else le_bytes w f) false.
(** spi-sam3x.c:228-268, spi-atsamx7x.c:234-274: the switch on ctx->frame_nbits (8 to 16) compares with
    sizeof(uint8_t) = 1, so every frame is read and written as 16 bits; [nbits] of them leave. *)
Definition drv_sam3x (nbits : Z) : sdrv :=
  mkDrv GAny ((nbits + 7) / 8) 32 2 (fun l => le_val l mod 2 ^ nbits) 2 (le_bytes 2) false.

(** run_state_start, run_state_xfer, spi_xfer of spi-avr.c:147-191 and spi-avr_usart.c:125-170: the data
    register is the shifter, one frame (a byte) at a time; [s_armed] is ctx->state == XFER. A write to the
    data register while a frame is being shifted is ignored by the hardware (SPSR_WCOL). *)
Definition avr_put (h : hwst) (f : Z) : hwst :=
  match h_sh h with
  | None => mkHwst (h_tx h) (Some f) (h_rx h) (h_wire h) (h_lost h)
  | Some _ => h
  end.
Definition avr_xfer (c : hwcfg) (miso : nat -> Z) (n rx tx : nat) (s : spist) : res (spist * Z) :=
  if (n =? 0)%nat then Ok (s, - SPI_EINVAL) else
  let s := env c miso s in
  if s_armed s then
    match h_rx (s_hw s) with
    | [] => Ok (s, - SPI_EAGAIN)
    | f :: r =>
        let h := mkHwst (h_tx (s_hw s)) (h_sh (s_hw s)) r (h_wire (s_hw s)) (h_lost (s_hw s)) in
        let! m := mstore (s_mem s) rx [f] in
        if (1 <? n)%nat then
          let! u := mload m (tx + 1) 1 in
          Ok (mkSpi (avr_put h (le_val u)) (s_bal s) true m (s_env s), 1)
        else Ok (mkSpi h (s_bal s) false m (s_env s), 1)
    end
  else
    let! u := mload (s_mem s) tx 1 in
    Ok (mkSpi (avr_put (s_hw s) (le_val u)) (s_bal s) true (s_mem s) (s_env s), - SPI_EAGAIN).
