(** SpiSpec.v - vocabulary of the SPI properties. *)
From Verif Require Import Base SpiModel.

(** The drivers whose packing of frames is right, with the number of values a frame can take. *)
Inductive sound_driver : sdrv -> Z -> Prop :=
| SD_pl022 w : w = 1%nat \/ w = 2%nat -> sound_driver (drv_pl022 w) (256 ^ Z.of_nat w)
| SD_gd32 w : w = 1%nat \/ w = 2%nat -> sound_driver (drv_gd32vf103 w) (256 ^ Z.of_nat w)
| SD_stm32 depth w : w = 1%nat \/ w = 2%nat \/ w = 4%nat -> sound_driver (drv_stm32h7xx depth w) (256 ^ Z.of_nat w)
| SD_tinyavr : sound_driver drv_tinyavr 256
| SD_dspi w : w = 1%nat \/ w = 2%nat -> sound_driver (drv_dspi w) (256 ^ Z.of_nat w)
| SD_sercom w : w = 1%nat \/ w = 2%nat \/ w = 4%nat -> sound_driver (drv_sercom w) (256 ^ Z.of_nat w)
| SD_f28x nbits : 1 <= nbits <= 16 -> sound_driver (drv_f28x nbits) (2 ^ nbits)
| SD_pic32mx w : w = 1%nat \/ w = 4%nat -> sound_driver (drv_pic32mx w) (256 ^ Z.of_nat w)
| SD_ra4 w : w = 1%nat \/ w = 4%nat -> sound_driver (drv_ra4 w) (256 ^ Z.of_nat w)
| SD_sam3x nbits : 9 <= nbits <= 16 -> sound_driver (drv_sam3x nbits) (2 ^ nbits).

(** The frame held by [w] units of memory at [off]. *)
Definition frame_at (d : sdrv) (m : list Z) (off : nat) : Z := d_txval d (take (d_txw d) (drop off m)).

(** The frames of the buffer of [n] units at [tx]. *)
Definition frames (d : sdrv) (m : list Z) (tx n : nat) : list Z :=
  map (fun i => frame_at d m (tx + i * d_txw d)) (seq 0 (n / d_txw d)).

(** The two buffers are in the caller's memory; they are the same one or they do not overlap. *)
Definition buffers_ok (m : list Z) (n rx tx : nat) : Prop :=
  (rx + n <= length m)%nat /\ (tx + n <= length m)%nat /\
  (rx = tx \/ (rx + n <= tx)%nat \/ (tx + n <= rx)%nat).

(** Nothing under way, nothing lost so far. *)
Definition spi_idle (s : spist) : Prop :=
  h_tx (s_hw s) = [] /\ h_sh (s_hw s) = None /\ h_rx (s_hw s) = [] /\ h_lost (s_hw s) = 0%nat /\
  s_bal s = 0 /\ s_armed s = false.

(** How a transfer of [n] units is done with an interface that may transfer less than it is asked to: call
    again for what is left, from where it stopped, until nothing is left (drivers/flash-ext/flash-ext-s25fl1.c:8-22,
    drivers/flash-ext/flash-ext-sst26vf.c:19-33). At most [k] calls; [pause] is what happens between two calls. *)
Fixpoint transfer (k : nat) (pause : spist -> spist)
  (xfer : nat -> nat -> nat -> spist -> res (spist * Z)) (n rx tx : nat) (s : spist) (done : nat)
  : res (spist * nat) :=
  match k with
  | O => Ok (s, done)
  | S k =>
      if (done =? n)%nat then Ok (s, done) else
      let! (s, r) := xfer (n - done)%nat (rx + done)%nat (tx + done)%nat (pause s) in
      transfer k pause xfer n rx tx s (if 0 <? r then (done + Z.to_nat r)%nat else done)
  end.

(** The hardware is given the time to finish what it can. *)
Definition settle (c : hwcfg) (miso : nat -> Z) (s : spist) : spist :=
  mkSpi (hw_run c miso (s_hw s) (EvDone :: concat (repeat [EvLoad; EvDone] (length (h_tx (s_hw s))))))
        (s_bal s) (s_armed s) (s_mem s) (s_env s).

(** Where the receive queue cannot overflow. *)
Definition room (d : sdrv) (c : hwcfg) (n : nat) : Prop :=
  (n <= hw_rxd c * d_txw d)%nat \/                                    (* all the answers fit *)
  (hw_txd c + 2 <= hw_rxd c)%nat \/                                   (* deeper than what can be pending *)
  d_guard d = GOne \/                                                 (* one frame at a time *)
  (exists l, d_guard d = GLim l /\ l <= Z.of_nat (hw_rxd c * d_txw d)) \/
  hw_wait c = true.                                                   (* flow control by the hardware *)
