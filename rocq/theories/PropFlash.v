(** PropFlash.v - C74 to C80: external flash memories. *)
From Verif Require Import Base FlashModel FlashSpec FlashProofs FlashProofs3 FlashThms.

(** C74. However spi_xfer splits the transfers and however long the chip is busy, an erase that is called again until
    it stops returning -EAGAIN never touches anything but its sector, has erased all of it once it returns 0, leaves
    chip and driver ready for another operation, and ends if the bus and the chip make progress. *)
Theorem C74_erase : forall f off N,
  flash_known f -> flash_idle f -> only_eagain (f_script f) -> 0 <= off < f_total f -> off mod 4096 = 0 ->
  exists (f' : fx) (r : Z), until N (flash_erase off) f = Ok (f', r) /\
  (forall x, ~ off <= x < off + 4096 -> c_mem (f_chip f') x = c_mem (f_chip f) x) /\
  (r = - EAGAIN \/
   (r = 0 /\ flash_idle f' /\ flash_known f' /\ (forall x, off <= x < off + 4096 -> c_mem (f_chip f') x = 255) /\
    exists p, polls p /\ f_log f' = f_log f ++ [[6]; 32 :: addr_bytes off] ++ p)) /\
  (always_ready (f_script f) -> (7 <= exchanges (f_script f))%nat -> (length (f_script f) < N)%nat -> r = 0).
Proof. exact erase_run. Qed.
Print Assumptions C74_erase.

Definition fl_chip (id : list Z) : chip := mkChip (fun x => x mod 251) 2097152 false false 0 0 0 id (fun _ => 0).
Definition fl_st (id : list Z) (script : list xo) : fx := set_attr id 512 (flash_init (fl_chip id) script).
Lemma fl_known id script : flash_known (fl_st id script).
Proof. unfold flash_known, fl_st. split; [reflexivity|]. split; [reflexivity|]. split; [reflexivity|]. split; [|reflexivity]. cbn [fl_chip set_attr flash_init f_chip c_size]. lia. Qed.
Lemma fl_idle id script : flash_idle (fl_st id script).
Proof. by repeat split. Qed.
Example C74_case : flash_known (fl_st [1; 64; 21] []) /\ flash_idle (fl_st [1; 64; 21] []) /\
  (match until 20 (flash_erase 8192) (fl_st [1; 64; 21] [XGot 0 false; XErr 11; XGot 2 false; XGot 0 false; XGot 1 false; XGot 0 false; XGot 0 true]) with
   | Ok (f', 0) => (c_mem (f_chip f') 8191 =? 8191 mod 251) && (c_mem (f_chip f') 8192 =? 255) && (c_mem (f_chip f') 12287 =? 255) && (c_mem (f_chip f') 12288 =? 12288 mod 251)
   | _ => false end) = true.
Proof. split; [apply fl_known|]. split; [apply fl_idle|]. vm_compute. reflexivity. Qed.

(** C75. A write of a page or more programs the whole page with the first 256 bytes of the caller, in the same
    conditions, and says 256; ... *)
Theorem C75_write_partial : forall v f off data N,
  flash_known f -> flash_idle f -> only_eagain (f_script f) ->
  0 <= off < f_total f -> off mod 256 = 0 -> (256 <= length data)%nat -> (v = SST26VF -> off + Z.of_nat (length data) < f_total f) ->
  exists (f' : fx) (r : Z), until N (flash_write v off data) f = Ok (f', r) /\
  (forall x, ~ off <= x < off + 256 -> c_mem (f_chip f') x = c_mem (f_chip f) x) /\
  (r = - EAGAIN \/
   (r = 256 /\ flash_idle f' /\ flash_known f' /\
    (forall i, (i < 256)%nat -> exists w, data !! i = Some w /\
       c_mem (f_chip f') (off + Z.of_nat i) = Z.land (c_mem (f_chip f) (off + Z.of_nat i)) w))) /\
  (always_ready (f_script f) -> (263 <= exchanges (f_script f))%nat -> (length (f_script f) < N)%nat -> r = 256).
Proof. exact write_full. Qed.
Print Assumptions C75_write_partial.

(** ... so after an erase the page holds exactly the data; ... *)
Theorem C75_erase_then_write : forall v f f1 f2 sec off data N1 N2,
  flash_known f -> flash_idle f -> only_eagain (f_script f) -> only_eagain (f_script f1) ->
  0 <= sec < f_total f -> sec mod 4096 = 0 -> sec <= off -> off + 256 <= sec + 4096 -> off mod 256 = 0 ->
  (256 <= length data)%nat -> (v = SST26VF -> off + Z.of_nat (length data) < f_total f) -> Forall (fun w => 0 <= w < 256) data ->
  until N1 (flash_erase sec) f = Ok (f1, 0) -> until N2 (flash_write v off data) f1 = Ok (f2, 256) ->
  forall i, (i < 256)%nat -> data !! i = Some (c_mem (f_chip f2) (off + Z.of_nat i)).
Proof. exact erase_then_write. Qed.
Print Assumptions C75_erase_then_write.

(** ... but a write of less than a page (the unit the attributes announce is one byte) clears all the rest of the page. *)
Theorem C75_short_refuted : forall v f off data N,
  flash_known f -> flash_idle f -> only_eagain (f_script f) ->
  0 <= off < f_total f -> off mod 256 = 0 -> (0 < length data < 256)%nat -> (v = SST26VF -> off + Z.of_nat (length data) < f_total f) ->
  f_pp f = repeat 0 260 -> always_ready (f_script f) -> (263 <= exchanges (f_script f))%nat -> (length (f_script f) < N)%nat ->
  exists f' : fx, until N (flash_write v off data) f = Ok (f', Z.of_nat (length data)) /\
  forall x, off + Z.of_nat (length data) <= x < off + 256 -> c_mem (f_chip f') x = 0.
Proof. exact write_short. Qed.
Print Assumptions C75_short_refuted.

Example C75_case :
  (match until 20 (flash_write SST26VF 8192 (map Z.of_nat (seq 0 256))) (fl_st [191; 38; 65] [XGot 0 false; XGot 99 false; XErr 11; XGot 159 false; XGot 1 false; XGot 1 true]) with
   | Ok (f', 256) => (c_mem (f_chip f') 8191 =? 8191 mod 251) && (c_mem (f_chip f') 8292 =? Z.land (8292 mod 251) 100) && (c_mem (f_chip f') 8448 =? 8448 mod 251)
   | _ => false end) = true /\
  (match until 20 (flash_write SST26VF 8192 [255; 255]) (fl_st [191; 38; 65] [XGot 0 false; XGot 259 false; XGot 1 true]) with
   | Ok (f', 2) => (c_mem (f_chip f') 8193 =? 8193 mod 251) && (c_mem (f_chip f') 8194 =? 0)
   | _ => false end) = true.
Proof. split; vm_compute; reflexivity. Qed.

(** C76. A read says it got the bytes and gives them. False always: whatever the state of the bus and of the chip, it
    says so at once without exchanging a byte with the chip, and copies nothing to the caller. *)
Theorem C76_read_refuted : forall off n f,
  flash_idle f -> (0 < n)%nat -> off + Z.of_nat n < f_total f ->
  exists f', flash_read off n f = Ok (f', Z.of_nat (Nat.min n 256), None) /\
    f_script f' = f_script f /\ f_cur f' = [] /\ f_log f' = f_log f.
Proof. exact read_nothing. Qed.
Print Assumptions C76_read_refuted.
Example C76_case : flash_idle (fl_st [1; 64; 21] [XErr 5]) /\
  (match flash_read 0 16 (fl_st [1; 64; 21] [XErr 5]) with Ok (_, 16, None) => true | _ => false end) = true.
Proof. split; [apply fl_idle|]. vm_compute. reflexivity. Qed.

(** C77. A probe gives the identification of the chip and the size that goes with it, or says it does not know it,
    however the transfer is split: on s25fl1; ... *)
Theorem C77_probe_s25fl1_partial : forall f a b d N,
  flash_idle f -> length (f_jd f) = 4%nat -> only_eagain (f_script f) -> c_id (f_chip f) = [a; b; d] ->
  exists (f' : fx) (r : Z), until N (flash_probe S25FL1) f = Ok (f', r) /\
    (r = - EAGAIN \/ probed S25FL1 a b d f f' r) /\
    ((4 <= exchanges (f_script f))%nat -> (length (f_script f) < N)%nat -> r <> - EAGAIN).
Proof. exact probe_s25. Qed.
Print Assumptions C77_probe_s25fl1_partial.

(** ... on sst26vf if the transfer is made in one call; ... *)
Theorem C77_probe_sst26vf_partial : forall f a b d k q rest,
  flash_idle f -> c_id (f_chip f) = [a; b; d] -> (3 <= k)%nat -> f_script f = XGot k q :: rest ->
  exists f' r, flash_probe SST26VF f = Ok (f', r) /\ probed SST26VF a b d f f' r.
Proof. exact probe_sst. Qed.
Print Assumptions C77_probe_sst26vf_partial.

(** ... whereas there no chip at all is recognized if the first call moves two or three bytes. *)
Theorem C77_probe_sst26vf_refuted : forall f k k' q q' rest,
  flash_idle f -> (k = 1 \/ k = 2)%nat -> (2 <= k')%nat -> f_script f = XGot k q :: XGot k' q' :: rest ->
  exists f', until 2 (flash_probe SST26VF) f = Ok (f', - EIO).
Proof. exact probe_split. Qed.
Print Assumptions C77_probe_sst26vf_refuted.
Example C77_case :
  (match until 9 (flash_probe S25FL1) (flash_init (fl_chip [1; 64; 21]) [XGot 1 false; XErr 11; XGot 1 false]) with
   | Ok (f', 0) => f_total f' =? 2097152 | _ => false end) = true /\
  (match until 9 (flash_probe SST26VF) (flash_init (fl_chip [191; 38; 65]) [XGot 3 false]) with
   | Ok (f', 0) => f_total f' =? 2097152 | _ => false end) = true /\
  (match until 9 (flash_probe SST26VF) (flash_init (fl_chip [191; 38; 65]) [XGot 1 false; XGot 2 false]) with
   | Ok (_, r) => r =? - EIO | _ => false end) = true.
Proof. split; [|split]; vm_compute; reflexivity. Qed.

(** C78. All of the chip can be written and read, and nothing else is accepted. False on sst26vf (for all sizes and
    states): the last page is refused, and so is any read up to the end (on both); ... *)
Theorem C78_last_refuted : forall f data off n,
  (0 < length data)%nat -> off mod 256 = 0 -> off + Z.of_nat (length data) = f_total f -> (0 < n)%nat ->
  flash_write SST26VF off data f = Ok (f, - EINVAL) /\
  flash_read (f_total f - Z.of_nat n) n f = Ok (f, - EINVAL, None).
Proof.
  intros f data off n Hl Hm He Hn. unfold flash_write, flash_read. destruct (Nat.eqb_spec (length data) 0); [lia|]. rewrite Hm. cbn [Z.eqb negb].
  destruct (Z.ltb_spec (off + Z.of_nat (length data)) (f_total f)); [lia|]. destruct (Nat.eqb_spec n 0); [lia|].
  destruct (Z.ltb_spec (f_total f - Z.of_nat n + Z.of_nat n) (f_total f)); [lia|]. done.
Qed.
Print Assumptions C78_last_refuted.
Example C78_case : 2096896 mod 256 = 0 /\ 2096896 + 256 = f_total (fl_st [191; 38; 65] []).
Proof. done. Qed.

(** ... and on s25fl1 a write beyond the end is accepted and programs another page, here the first one. *)
Theorem C78_wrap_refuted : exists (f : fx) (off : Z) (data : list Z),
  flash_known f /\ flash_idle f /\ only_eagain (f_script f) /\ f_total f <= off /\
  exists f', until 9 (flash_write S25FL1 off data) f = Ok (f', 256) /\ c_mem (f_chip f) 7 <> 0 /\ c_mem (f_chip f') 7 = 0.
Proof.
  exists (fl_st [1; 64; 21] [XGot 0 false; XGot 259 false; XGot 1 true]), 2097152, (repeat 0 256).
  split; [apply fl_known|]. split; [apply fl_idle|]. split; [by repeat constructor|]. split; [done|].
  assert (E : (match until 9 (flash_write S25FL1 2097152 (repeat 0 256)) (fl_st [1; 64; 21] [XGot 0 false; XGot 259 false; XGot 1 true]) with
    | Ok (f', r) => (r =? 256) && (c_mem (f_chip f') 7 =? 0) | _ => false end) = true) by (vm_compute; reflexivity).
  destruct (until _ _ _) as [[f' r]| | |]; try done. apply andb_true_iff in E as [E1 E2]. apply Z.eqb_eq in E1 as ->. apply Z.eqb_eq in E2.
  exists f'. split; [done|]. split; [|done]. done.
Qed.
Print Assumptions C78_wrap_refuted.

(** C79. After an operation that failed, the next one does what it says. False: after an erase that failed on a bus error, a
    write of one page, with nothing wrong on the bus any more, says it has written and erases a sector nobody named; ... *)
Definition fine (l : list xo) : bool := forallb (fun x => match x with XErr e => Pos.eqb e 11 | XGot _ _ => true end) l.
Lemma fine_ok l : fine l = true -> only_eagain l.
Proof.
  induction l as [|x l IH]; intros H; [constructor|]. cbn [fine forallb] in H. apply andb_true_iff in H as [H1 H2].
  constructor; [|by apply IH]. destruct x as [e|]; [|done]. apply Pos.eqb_eq in H1 as ->. done.
Qed.
Definition bad_data : list Z := repeat 0 254 ++ [32; 0].
Definition bad_start : fx := fl_st [1; 64; 21] [XGot 0 false; XGot 1 false; XErr 5; XGot 1 false; XGot 1 true].
Theorem C79_after_error_refuted : exists (f f1 f2 : fx) (data : list Z) (e : positive),
  flash_known f /\ flash_idle f /\ e <> 11%positive /\ length data = 256%nat /\
  until 9 (flash_erase 0) f = Ok (f1, - Z.pos e) /\ only_eagain (f_script f1) /\
  until 9 (flash_write S25FL1 4096 data) f1 = Ok (f2, 256) /\
  c_mem (f_chip f) 8192 <> 255 /\ c_mem (f_chip f2) 8192 = 255 /\
  data !! 1%nat = Some 0 /\ c_mem (f_chip f2) 4097 <> 0.
Proof.
  assert (E : (match until 9 (flash_erase 0) bad_start with
    | Ok (f1, r) => (r =? -5) && fine (f_script f1) &&
       match until 9 (flash_write S25FL1 4096 bad_data) f1 with
       | Ok (f2, r2) => (r2 =? 256) && (c_mem (f_chip f2) 8192 =? 255) && negb (c_mem (f_chip f2) 4097 =? 0)
       | _ => false end
    | _ => false end) = true) by (vm_compute; reflexivity).
  destruct (until 9 (flash_erase 0) bad_start) as [[f1 r]| | |] eqn:E1; try done. apply andb_true_iff in E as [E E2]. apply andb_true_iff in E as [Er Es].
  destruct (until 9 (flash_write S25FL1 4096 bad_data) f1) as [[f2 r2]| | |] eqn:E3; try done.
  apply andb_true_iff in E2 as [E2 E6]. apply andb_true_iff in E2 as [E4 E5]. apply Z.eqb_eq in Er, E4, E5. subst r r2.
  exists bad_start, f1, f2, bad_data, 5%positive. split; [apply fl_known|]. split; [apply fl_idle|]. split; [done|]. split; [done|]. split; [done|].
  split; [by apply fine_ok|]. split; [done|]. split; [done|]. split; [done|]. split; [done|].
  destruct (Z.eqb_spec (c_mem (f_chip f2) 4097) 0); done.
Qed.
Print Assumptions C79_after_error_refuted.

(** ... and after a write that failed likewise, an erase runs outside of its buffer. *)
Theorem C79_overrun_refuted : exists (f f1 : fx) (data : list Z) (e : positive),
  flash_known f /\ flash_idle f /\ e <> 11%positive /\
  until 9 (flash_write S25FL1 4096 data) f = Ok (f1, - Z.pos e) /\ only_eagain (f_script f1) /\
  until 9 (flash_erase 0) f1 = UB.
Proof.
  set (f := fl_st [1; 64; 21] [XGot 0 false; XGot 9 false; XErr 5; XGot 1 false]).
  assert (E : (match until 9 (flash_write S25FL1 4096 bad_data) f with
    | Ok (f1, r) => (r =? -5) && fine (f_script f1) && match until 9 (flash_erase 0) f1 with UB => true | _ => false end
    | _ => false end) = true) by (vm_compute; reflexivity).
  destruct (until 9 (flash_write S25FL1 4096 bad_data) f) as [[f1 r]| | |] eqn:E1; try done. apply andb_true_iff in E as [E E2]. apply andb_true_iff in E as [Er Es].
  apply Z.eqb_eq in Er. subst r. exists f, f1, bad_data, 5%positive. split; [apply fl_known|]. split; [apply fl_idle|]. split; [done|]. split; [done|].
  split; [by apply fine_ok|]. by destruct (until 9 (flash_erase 0) f1).
Qed.
Print Assumptions C79_overrun_refuted.

(** C80. Quad enable changes nothing but the quad enable bit, at any moment, and the bit is as asked once it returns 0; it does
    in the conditions above. *)
Theorem C80_quad_enable : forall en f N,
  flash_idle f -> length (f_rsr f) = 2%nat -> length (f_wsr f) = 4%nat -> only_eagain (f_script f) ->
  exists (f' : fx) (r : Z), until N (flash_quad_enable en) f = Ok (f', r) /\ same_but_qe (f_chip f) (f_chip f') /\
    (r = - EAGAIN \/ (r = 0 /\ flash_idle f' /\ qe_bit (f_chip f') = en)) /\
    (always_ready (f_script f) -> (17 <= exchanges (f_script f))%nat -> (length (f_script f) < N)%nat -> r = 0).
Proof. exact quad_enable. Qed.
Print Assumptions C80_quad_enable.
Example C80_case : flash_idle (fl_st [1; 64; 21] []) /\
  (match until 20 (flash_quad_enable true) (fl_st [1; 64; 21]
     [XGot 1 false; XGot 0 false; XErr 11; XGot 0 false; XGot 1 false; XGot 0 false; XGot 2 false; XGot 0 false; XGot 0 false; XGot 0 false; XGot 0 true; XGot 1 false; XGot 1 false; XGot 1 false]) with
   | Ok (f', 0) => qe_bit (f_chip f') && (c_sr2 (f_chip f') =? 2) | _ => false end) = true.
Proof. split; [apply fl_idle|]. vm_compute. reflexivity. Qed.
