(** PropSpi.v - C71 to C73: SPI transfers. *)
From Verif Require Import Base SpiModel SpiSpec SpiThms.

(** C71. Whatever the hardware does between two accesses of the driver and however many calls are made,
    what leaves on the wire is the caller's frames, in order, each once; only the receive buffer changes;
    as long as no answer was dropped, it holds the slave's answers; and once everything is said to be
    transferred, every frame is out, every answer is in and nothing is left in the hardware. *)
Theorem C71_transfer : forall d B c miso n rx tx s k,
  sound_driver d B -> (forall i, 0 <= miso i < B) -> buffers_ok (s_mem s) n rx tx ->
  (n mod d_txw d = 0)%nat -> Z.of_nat n < 2 ^ d_bits d -> spi_idle s ->
  exists (s' : spist) (q : nat),
  transfer k (fun s => s) (spi_xfer d c miso) n rx tx s 0 = Ok (s', (q * d_txw d)%nat) /\ (q * d_txw d <= n)%nat /\
  (exists rest, h_wire (s_hw s') ++ rest = h_wire (s_hw s) ++ frames d (s_mem s) tx n) /\
  length (s_mem s') = length (s_mem s) /\
  (forall j, (j < rx \/ rx + q * d_txw d <= j)%nat -> s_mem s' !! j = s_mem s !! j) /\
  (h_lost (s_hw s') = 0%nat -> forall i, (i < q)%nat ->
     frame_at d (s_mem s') (rx + i * d_txw d) = miso (length (h_wire (s_hw s)) + i)%nat) /\
  ((q * d_txw d = n)%nat -> h_wire (s_hw s') = h_wire (s_hw s) ++ frames d (s_mem s) tx n /\ spi_idle s').
Proof. intros. apply fidelity with (B := B); auto using sound_facts. Qed.
Print Assumptions C71_transfer.

Theorem C71_transfer_avr : forall c miso n rx tx s k,
  (1 <= hw_rxd c)%nat -> buffers_ok (s_mem s) n rx tx -> spi_idle s ->
  exists (s' : spist) (q : nat),
  transfer k (fun s => s) (avr_xfer c miso) n rx tx s 0 = Ok (s', q) /\ (q <= n)%nat /\
  (exists rest, h_wire (s_hw s') ++ rest = h_wire (s_hw s) ++ frames drv_tinyavr (s_mem s) tx n) /\
  length (s_mem s') = length (s_mem s) /\
  (forall j, (j < rx \/ rx + q <= j)%nat -> s_mem s' !! j = s_mem s !! j) /\
  (forall i, (i < q)%nat -> s_mem s' !! (rx + i)%nat = Some (miso (length (h_wire (s_hw s)) + i)%nat)) /\
  ((q = n)%nat -> h_wire (s_hw s') = h_wire (s_hw s) ++ frames drv_tinyavr (s_mem s) tx n /\ spi_idle s').
Proof. intros. by apply avr_fidelity. Qed.
Print Assumptions C71_transfer_avr.

Definition sx_miso (i : nat) : Z := 100 + Z.of_nat i.
Definition sx_st (m : list Z) (e : list (list hwev)) : spist := mkSpi (mkHwst [] None [] [] 0) 0 false m e.
Definition zlist_eqb (a b : list Z) : bool := bool_decide (a = b).
(** Three bytes, in place, on a PL022 that advances one event at a time: two calls. *)
Example C71_case : sound_driver (drv_pl022 1) (256 ^ Z.of_nat 1) /\ buffers_ok [1; 2; 3] 3 0 0 /\ spi_idle (sx_st [1; 2; 3] []) /\
  (match transfer 9 (fun s => s) (spi_xfer (drv_pl022 1) (mkHw 8 8 false) sx_miso) 3 0 0
           (sx_st [1; 2; 3] [[]; []; [EvLoad]; [EvDone; EvLoad]; []; [EvLoad; EvDone]; [EvLoad]; []; []; []; [EvDone]]) 0 with
   | Ok (s', got) => (got =? 3)%nat && zlist_eqb (s_mem s') [100; 101; 102] && zlist_eqb (h_wire (s_hw s')) [1; 2; 3]
   | _ => false end) = true.
Proof. split; [constructor; by left|]. split; [repeat split; cbn; lia|]. split; [by repeat split|]. vm_compute. reflexivity. Qed.

(** C72. Given time between the calls, a transfer ends after at most two calls per frame and one more, if
    the receive queue has room; ... *)
Theorem C72_complete_partial : forall d B c miso n rx tx s,
  sound_driver d B -> (forall i, 0 <= miso i < B) -> buffers_ok (s_mem s) n rx tx ->
  (n mod d_txw d = 0)%nat -> Z.of_nat n < 2 ^ d_bits d -> spi_idle s ->
  room d c n -> (1 <= hw_txd c)%nat -> (1 <= hw_rxd c)%nat -> (forall l, d_guard d = GLim l -> 0 < l) ->
  exists s', transfer (2 * (n / d_txw d) + 1) (settle c miso) (spi_xfer d c miso) n rx tx s 0 = Ok (s', n).
Proof. intros. apply complete with (B := B); auto using sound_facts. Qed.
Print Assumptions C72_complete_partial.

Theorem C72_complete_avr : forall c miso n rx tx s,
  (1 <= hw_rxd c)%nat -> buffers_ok (s_mem s) n rx tx -> spi_idle s ->
  exists s', transfer (n + 1) (settle c miso) (avr_xfer c miso) n rx tx s 0 = Ok (s', n).
Proof. intros. by apply avr_complete. Qed.
Print Assumptions C72_complete_avr.

(** In particular every transfer of the STM32H7 driver ends, whatever its size, if the queues hold the
    [depth] bytes that the driver found. *)
Theorem C72_complete_stm32h7 : forall depth w c miso n rx tx s,
  w = 1%nat \/ w = 2%nat \/ w = 4%nat -> Z.of_nat w < depth ->
  depth <= Z.of_nat (hw_rxd c * w) -> (1 <= hw_txd c)%nat ->
  (forall i, 0 <= miso i < 256 ^ Z.of_nat w) -> buffers_ok (s_mem s) n rx tx ->
  (n mod w = 0)%nat -> Z.of_nat n < 2 ^ 16 -> spi_idle s ->
  exists s', transfer (2 * (n / w) + 1) (settle c miso) (spi_xfer (drv_stm32h7xx depth w) c miso) n rx tx s 0 = Ok (s', n).
Proof.
  intros depth w c miso n rx tx s Hw Hd Hr Ht Hm Hb Hn Hs Hi.
  apply (C72_complete_partial (drv_stm32h7xx depth w) (256 ^ Z.of_nat w) c miso n rx tx s); try done.
  - by constructor.
  - cbn. assert (2 ^ 16 <= 2 ^ 32) by (vm_compute; discriminate). lia.
  - do 3 right. left. exists (depth - Z.of_nat w). cbn. split; [done|]. lia.
  - destruct (hw_rxd c); cbn in Hr; lia.
  - intros l [= <-]. lia.
Qed.
Print Assumptions C72_complete_stm32h7.

(** ... a driver that writes whenever it can loses an answer in some timings as soon as there is not, and
    then the transfer never ends, whatever the hardware does later. *)
Theorem C72_refuted : forall d B c miso n rx tx s,
  sound_driver d B -> (forall i, 0 <= miso i < B) -> buffers_ok (s_mem s) n rx tx ->
  (n mod d_txw d = 0)%nat -> Z.of_nat n < 2 ^ d_bits d -> spi_idle s ->
  d_guard d = GAny -> hw_wait c = false -> (1 <= hw_txd c)%nat -> (1 <= hw_rxd c)%nat -> ~ room d c n ->
  exists early, forall later k, s_env s = early ++ later ->
  exists (s' : spist) (got : nat), transfer k (fun s => s) (spi_xfer d c miso) n rx tx s 0 = Ok (s', got) /\ (got < n)%nat.
Proof. intros. apply lossy with (B := B); auto using sound_facts. Qed.
Print Assumptions C72_refuted.

(** Eight frames fit a PL022 (two queues of eight), nine do not; the STM32H7 driver limits itself. *)
Example C72_case_room : room (drv_pl022 1) (mkHw 8 8 false) 8 /\ room (drv_stm32h7xx 16 2) (mkHw 8 8 false) 1000 /\
  (match transfer 17 (settle (mkHw 8 8 false) sx_miso) (spi_xfer (drv_stm32h7xx 8 2) (mkHw 4 4 false) sx_miso) 16 0 0
           (sx_st (map Z.of_nat (seq 1 16)) []) 0 with
   | Ok (s', got) => (got =? 16)%nat && zlist_eqb (h_wire (s_hw s')) (frames (drv_stm32h7xx 8 2) (map Z.of_nat (seq 1 16)) 0 16)
   | _ => false end) = true.
Proof.
  split; [left; cbn; lia|]. split; [|vm_compute; reflexivity].
  do 3 right. left. exists 14. split; [done|]. cbn. lia.
Qed.
Example C72_case_overrun : ~ room (drv_pl022 1) (mkHw 8 8 false) 9.
Proof. intros [H|[H|[H|[(l & H & _)|H]]]]; cbn in *; try lia; done. Qed.

(** C73. Each byte of a buffer counts. False on PIC32MX and RA4 for 16-bit frames: the second byte of each
    received frame is never stored, whatever the transfer, its size and its timing; ... *)
Theorem C73_half_refuted : forall d c miso n rx tx s k s' got,
  d = drv_pic32mx 2 \/ d = drv_ra4 2 ->
  transfer k (fun s => s) (spi_xfer d c miso) n rx tx s 0 = Ok (s', got) ->
  forall i, s_mem s' !! (rx + 2 * i + 1)%nat = s_mem s !! (rx + 2 * i + 1)%nat.
Proof.
  intros d c miso n rx tx s k s' got Hd H i.
  apply (half_transfer d c miso Hd (fun s => s) n rx tx (fun _ => eq_refl) k s 0 s' got ltac:(by exists 0%nat) H).
  exists (rx + i)%nat. lia.
Qed.
Print Assumptions C73_half_refuted.

(** ... false on SAM3X and SAMx7x for 8-bit frames: a transfer said to be complete has clocked one byte out of
    two (of an even number of bytes), ... *)
Theorem C73_skip_refuted : forall c miso n rx tx s k s',
  (forall i, 0 <= miso i < 256) -> buffers_ok (s_mem s) n rx tx -> (n mod 2 = 0)%nat -> Z.of_nat n < 2 ^ 32 -> spi_idle s ->
  transfer k (fun s => s) (spi_xfer (drv_sam3x 8) c miso) n rx tx s 0 = Ok (s', n) ->
  h_wire (s_hw s') = h_wire (s_hw s) ++ map (fun i => frame_at (drv_sam3x 8) (s_mem s) (tx + 2 * i)) (seq 0 (n / 2)).
Proof.
  intros c miso n rx tx s k s' Hm Hb Hmod Hn Hi H.
  destruct (fidelity (drv_sam3x 8) 256 c miso n rx tx s facts_sam3x8 Hm Hb Hmod Hn Hi k) as (s1 & q & E & _ & _ & _ & _ & _ & D).
  rewrite E in H. assert (Hq : (q * d_txw (drv_sam3x 8))%nat = n) by congruence. assert (s1 = s') by congruence. subst s1.
  destruct (D Hq) as [D1 _]. rewrite D1. f_equal. unfold frames. cbn [drv_sam3x d_txw]. apply map_ext. intros i. f_equal. lia.
Qed.
Print Assumptions C73_skip_refuted.

(** ... and a transfer of one byte accesses the byte after its buffer. *)
Theorem C73_bounds_refuted : forall c miso rx s,
  (1 <= hw_txd c)%nat -> (0 < length (s_mem s))%nat -> spi_idle s ->
  spi_xfer (drv_sam3x 8) c miso 1 rx (length (s_mem s) - 1) s = UB.
Proof.
  intros c miso rx s Ht Hl (I1 & I2 & I3 & I4 & I5 & I6).
  assert (W : write_data (drv_sam3x 8) c miso (length (s_mem s) - 1 + Z.to_nat 0) s = UB).
  { unfold write_data. rewrite SpiProofs.env_idle by done. rewrite I1. cbn [length].
    destruct (Nat.ltb_spec 0 (hw_txd c)); [|lia]. unfold mload. cbn [drv_sam3x d_txw].
    replace (s_mem (env c miso s)) with (s_mem s) by (unfold env; by destruct (s_env s)).
    destruct (Nat.leb_spec (length (s_mem s) - 1 + Z.to_nat 0 + 2) (length (s_mem s))); [lia|]. reflexivity. }
  unfold spi_xfer. change (1 =? 0)%nat with false. change (negb (Z.land (Z.of_nat 1) (d_fw (drv_sam3x 8) - 1) =? 0)) with false.
  change (d_arm (drv_sam3x 8)) with false. cbn [andb]. change (S (1 + 1)) with (S 2). generalize 2%nat at 1. intros fuel.
  cbn [xfer_loop]. change (0 =? 1)%nat with false. rewrite I5. change (wrap (d_bits (drv_sam3x 8)) (Z.of_nat 0 + 0)) with 0.
  change (may_write (drv_sam3x 8) 0 0 1) with true. cbv iota. rewrite W. reflexivity.
Qed.
Print Assumptions C73_bounds_refuted.

(** The other drivers store whole frames: C71. Here, an answer of 0x0203 that the PIC32MX driver stores as 0x??03. *)
Example C73_case :
  (match transfer 3 (settle (mkHw 1 1 false) (fun _ => 515)) (spi_xfer (drv_pic32mx 2) (mkHw 1 1 false) (fun _ => 515)) 2 0 2 (sx_st [77; 88; 1; 2] []) 0 with
   | Ok (s', got) => (got =? 2)%nat && zlist_eqb (s_mem s') [3; 88; 1; 2] | _ => false end) &&
  (match transfer 5 (settle (mkHw 1 1 true) sx_miso) (spi_xfer (drv_sam3x 8) (mkHw 1 1 true) sx_miso) 4 0 4 (sx_st [0; 0; 0; 0; 1; 2; 3; 4] []) 0 with
   | Ok (s', got) => (got =? 4)%nat && zlist_eqb (h_wire (s_hw s')) [1; 3] | _ => false end) = true.
Proof. vm_compute. reflexivity. Qed.
