(** PropIflash.v - C98, C99: the internal flash drivers; C100: the AVR's EEPROM. *)
From Verif Require Import Base IflashModel IflashSpec IflashProofs.

(** * C98: flash_erase *)
Definition m0 : mem := fun a => a mod 251.
Lemma m0_bytes : is_bytes m0. Proof. intros a. unfold m0. pose proof (Z.mod_pos_bound a 251 ltac:(lia)). lia. Qed.
(** SAME5x: the block of 8192 bytes around the offset: right for a program that erases whole blocks. *)
Theorem C98_same5x_partial : forall fuel off s s' r, s_ready s -> 0 <= off -> until (s_erase off) fuel s = (s', Some r) ->
  r = 0 /\ off < stotal s.1 /\ off mod 512 = 0 /\ same (nmem s'.2) (erase_range (nmem s.2) (off / 8192 * 8192) 8192) \/
  r = FEINVAL /\ same (nmem s'.2) (nmem s.2).
Proof. exact s_erase_ok. Qed.
Print Assumptions C98_same5x_partial.
Definition s_ex : sctx * nvm := (mkSctx false 512 1048576, mkNvm 1048576 m0 empty_buf (fun _ => false) false false [false; true]).
Lemma s_ex_ready : s_ready s_ex.
Proof. unfold s_ready, s_ex. cbn [fst snd sbusy seul stotal nsize nbuf nlocked nerr nmem]. repeat split; apply m0_bytes. Qed.
Example C98_same5x_runs : match until (s_erase 8192) 9 s_ex with (s, Some 0) => (nmem s.2 8191, nmem s.2 8192, nmem s.2 16383, nmem s.2 16384) = (159, 255, 255, 69) | _ => False end.
Proof. vm_compute. reflexivity. Qed.
(** But the erase unit flash_get_attributes tells of is 512 bytes, and of the 16 units of a block 15 go with it. *)
Theorem C98_same5x_refuted : ~ erase_right s_erase (fun s => nmem s.2) s_ready 512.
Proof.
  intros H. destruct (until (s_erase 512) 9 s_ex) as [s' o] eqn:E. assert (Eo : o = Some 0) by (change o with (s', o).2; rewrite <- E; vm_compute; reflexivity). subst o.
  specialize (H 9%nat 512 s_ex s' s_ex_ready ltac:(lia) E 10). cbv beta in H. assert (E2 : nmem s'.2 10 = 255) by (change s' with (s', Some 0).1; rewrite <- E; vm_compute; reflexivity). rewrite E2 in H. vm_compute in H. discriminate H.
Qed.
Print Assumptions C98_same5x_refuted.
(** And in a locked region nothing is erased, and flash_erase says 0 (LOCKE is not looked at); the same for
    flash_write. *)
Definition locked_ex : sctx * nvm := (mkSctx false 512 1048576, mkNvm 1048576 m0 empty_buf (fun _ => false) false false []).
Theorem C98_same5x_locked_refuted : exists s1 s2 s3, until (s_lock 0) 9 locked_ex = (s1, Some 0) /\ until (s_erase 0) 9 s1 = (s2, Some 0) /\
  write_all s_write 9 0 (repeat 0 16) s2 = (s3, Some 0) /\ same (nmem s3.2) (nmem locked_ex.2).
Proof. eexists _, _, _. split; [vm_compute; reflexivity|]. split; [vm_compute; reflexivity|]. split; [vm_compute; reflexivity|]. intros a. reflexivity. Qed.
Print Assumptions C98_same5x_locked_refuted.
(** flash_probe: right without the SmartEEPROM bit (31) of PARAM, an undefined shift with it. *)
Theorem C98_probe_partial : forall psz pages, 0 <= psz <= 7 -> 0 <= pages < 65536 ->
  same5x_probe (psz * 65536 + pages) = Some (8 * 2 ^ psz, pages, 8 * 2 ^ psz * pages).
Proof.
  intros psz pages H1 H2. unfold same5x_probe. cbv zeta. rewrite Z.div_add_l by lia. rewrite (Z.div_small pages) by lia. rewrite Z.add_0_r. destruct (Z.ltb_spec 31 psz); [lia|].
  rewrite Z.add_comm, Z.mod_add by lia. rewrite (Z.mod_small pages) by lia. rewrite Z.shiftl_mul_pow2 by lia. reflexivity.
Qed.
Print Assumptions C98_probe_partial.
Theorem C98_probe_refuted : forall param, 2147483648 <= param -> same5x_probe param = None.
Proof. intros param H. unfold same5x_probe. cbv zeta. destruct (Z.ltb_spec 31 (param / 65536)) as [|C]; [reflexivity|]. exfalso. assert (32 <= param / 65536) by (apply Z.div_le_lower_bound; lia). lia. Qed.
Print Assumptions C98_probe_refuted.
(** SAMx7x EEFC: whatever the offset, if flash_erase says 0 it erased the first 8192 bytes of the flash (the offset
    goes into the command where the page number should be), on any flash up to 4 MB. *)
Theorem C98_eefc_wrong : forall fuel total off s s', e_ready s -> 0 <= off -> 0 < epages s.2 <= 8192 -> until (e_erase total off) fuel s = (s', Some 0) ->
  off mod 65536 = 0 /\ same (emem s'.2) (erase_range (emem s.2) 0 8192).
Proof. exact e_erase_ok. Qed.
Print Assumptions C98_eefc_wrong.
Definition e_ex : bool * eefc := (false, mkEefc 4096 m0 empty_buf (fun _ => false) false false false [false; false; true]).
Lemma e_ex_ready : e_ready e_ex.
Proof. unfold e_ready, e_ex. cbn [fst snd ebusy ecmde eflocke ebuf emem]. repeat split; apply m0_bytes. Qed.
Example C98_eefc_65536 : match until (e_erase 2097152 65536) 9 e_ex with (s, Some 0) => emem s.2 0 = 255 /\ emem s.2 65536 = m0 65536 | _ => False end.
Proof. vm_compute. split; reflexivity. Qed.
Theorem C98_eefc_refuted : ~ erase_right (e_erase 2097152) (fun s => emem s.2) e_ready 8192.
Proof.
  intros H. destruct (until (e_erase 2097152 65536) 9 e_ex) as [s' o] eqn:E. assert (Eo : o = Some 0) by (change o with (s', o).2; rewrite <- E; vm_compute; reflexivity). subst o.
  specialize (H 9%nat 65536 e_ex s' e_ex_ready ltac:(lia) E 0). cbv beta in H. assert (E2 : emem s'.2 0 = 255) by (change s' with (s', Some 0).1; rewrite <- E; vm_compute; reflexivity). rewrite E2 in H. vm_compute in H. discriminate H.
Qed.
Print Assumptions C98_eefc_refuted.
(** GD32: right as long as nothing was written since reset. *)
Theorem C98_gd32_partial : forall fuel off b h s' r, b = false -> gpg h = false -> until (g_erase off) fuel (Some (b, h)) = (s', Some r) ->
  exists h', s' = Some (false, h') /\ gpg h' = false /\ gsize h' = gsize h /\ (r = 0 /\ same (gmem h') (erase_range (gmem h) off 1024) \/ r = FEINVAL /\ same (gmem h') (gmem h)).
Proof. exact g_erase_ok. Qed.
Print Assumptions C98_gd32_partial.
Definition g_ex (alias : bool) : option (bool * fmc) := Some (false, mkFmc 131072 alias m0 false false [false; true; true]).
Example C98_gd32_runs : match until (g_erase 2048) 9 (g_ex true) with (Some (_, h), Some 0) => (gmem h 2047, gmem h 2048, gmem h 3071, gmem h 3072) = (39, 255, 255, 60) | _ => False end.
Proof. vm_compute. reflexivity. Qed.
(** After a write, PG stays set and erasing is not specified. *)
Theorem C98_gd32_refuted : exists s1 s2, write_all g_write 9 4096 [1; 2; 3; 4] (g_ex true) = (s1, Some 0) /\ s1 <> None /\ until (g_erase 2048) 9 s1 = (s2, Some (-5)) /\ s2 = None.
Proof. eexists _, _. split; [vm_compute; reflexivity|]. split; [discriminate|]. split; vm_compute; reflexivity. Qed.
Print Assumptions C98_gd32_refuted.

(** * C99: flash_write *)
(** SAME5x: a buffer of quad words is written, and nothing else, if it starts on a page or ends before the
    second page boundary it meets. *)
Theorem C99_same5x_partial : forall fuel off data s s' r, s_ready s -> 0 <= off -> off mod 16 = 0 -> Z.of_nat (length data) mod 16 = 0 -> Forall (fun b => 0 <= b < 256) data ->
  off + Z.of_nat (length data) <= stotal s.1 -> off mod 512 = 0 \/ Z.of_nat (length data) < 1024 - off mod 512 ->
  write_all s_write fuel off data s = (s', Some r) -> r = 0 /\ same (nmem s'.2) (prog (nmem s.2) off data).
Proof. exact s_write_ok. Qed.
Print Assumptions C99_same5x_partial.
(** From a page on, two pages and a quad word. *)
Example C99_same5x_runs : match write_all s_write 99 512 (repeat 7 512 ++ repeat 3 512 ++ repeat 5 16) (mkSctx false 512 1048576, mkNvm 1048576 empty_buf empty_buf (fun _ => false) false false [false; true; false]) with
  (s, Some 0) => (nmem s.2 511, nmem s.2 512, nmem s.2 1024, nmem s.2 1536, nmem s.2 1551, nmem s.2 1552) = (255, 7, 3, 5, 5, 255) | _ => False end.
Proof. vm_compute. reflexivity. Qed.
(** Otherwise the end of a quad word is reported as the end of a page: 528 bytes from 496 on: flash_write says that all
    were written, and 496 of them were not. *)
Definition s_ex2 : sctx * nvm := (mkSctx false 512 1048576, mkNvm 1048576 empty_buf empty_buf (fun _ => false) false false []).
Theorem C99_same5x_refuted : ~ write_right s_write (fun s => nmem s.2) s_ready 16.
Proof.
  intros H. destruct (write_all s_write 9 496 (repeat 0 528) s_ex2) as [s' o] eqn:E. assert (Eo : o = Some 0) by (change o with (s', o).2; rewrite <- E; vm_compute; reflexivity). subst o.
  assert (R : s_ready s_ex2) by (unfold s_ready, s_ex2; cbn [fst snd sbusy seul stotal nsize nbuf nlocked nerr nmem]; repeat split; unfold empty_buf; lia).
  specialize (H 9%nat 496 (repeat 0 528) s_ex2 s' R ltac:(lia) eq_refl eq_refl). assert (F : Forall (fun b => 0 <= b < 256) (repeat 0 528)) by (apply List.Forall_forall; intros x Hx; apply repeat_spec in Hx; lia).
  specialize (H F E 600). cbv beta in H. assert (E2 : nmem s'.2 600 = 255) by (change s' with (s', Some 0).1; rewrite <- E; vm_compute; reflexivity). rewrite E2 in H. vm_compute in H. discriminate H.
Qed.
Print Assumptions C99_same5x_refuted.
(** SAMx7x EEFC: whatever the offset, flash_write programs the first page of the flash; and it says 0, not the number of
    bytes. *)
Theorem C99_eefc_wrong : forall fuel total off data s s', e_ready s -> 0 <= off -> 0 < epages s.2 -> until (e_write total off data) fuel s = (s', Some 0) ->
  exists buf, same (emem s'.2) (program_unit (emem s.2) buf 512 0) /\ (length data = 512%nat -> Forall (fun b => 0 <= b < 256) data -> same (emem s'.2) (prog (emem s.2) 0 data)).
Proof. exact e_write_ok. Qed.
Print Assumptions C99_eefc_wrong.
Example C99_eefc_4096 : match until (e_write 2097152 4096 (repeat 0 512)) 9 e_ex with (s, Some 0) => emem s.2 100 = 0 /\ emem s.2 4196 = m0 4196 | _ => False end.
Proof. vm_compute. split; reflexivity. Qed.
(** The usual loop never ends: the calls that succeed say 0. *)
Theorem C99_eefc_refuted : ~ (forall fuel total off data s s', e_ready s -> data <> [] -> until (e_write total off data) fuel s = (s', Some 0) -> Z.of_nat (length data) = 0).
Proof.
  intros H. destruct (until (e_write 2097152 4096 (repeat 0 512)) 9 e_ex) as [s' o] eqn:E. assert (Eo : o = Some 0) by (change o with (s', o).2; rewrite <- E; vm_compute; reflexivity). subst o.
  assert (N : repeat 0 512 <> []) by discriminate. pose proof (H 9%nat 2097152 4096 (repeat 0 512) e_ex s' e_ex_ready N E) as K. discriminate K.
Qed.
Print Assumptions C99_eefc_refuted.
(** GD32: right as long as nothing was erased since reset, if stores at the offset itself reach the flash. *)
Theorem C99_gd32_partial : forall fuel off data b h s' r, gper h = false -> galias h = true -> 0 <= off -> off + Z.of_nat (length data) <= gsize h -> gsize h <= gbase -> Z.of_nat (length data) < gsize h -> Z.of_nat (length data) mod 4 = 0 ->
  write_all g_write fuel off data (Some (b, h)) = (s', Some r) ->
  r = 0 /\ exists h', s' = Some (b, h') /\ same (gmem h') (prog (gmem h) off data).
Proof. exact g_write_all_ok. Qed.
Print Assumptions C99_gd32_partial.
Example C99_gd32_runs : match write_all g_write 9 4096 [1; 2; 3; 4; 5; 6; 7; 8] (Some (false, mkFmc 131072 true empty_buf false false [false; false; true; false])) with
  (Some (_, h), Some 0) => (gmem h 4095, gmem h 4096, gmem h 4103, gmem h 4104) = (255, 1, 8, 255) | _ => False end.
Proof. vm_compute. reflexivity. Qed.
(** After an erase PER stays set: no write succeeds any more, so no page can be erased and then written. *)
Theorem C99_gd32_after_erase : forall fuel fuel' off off' data h s' s'', until (g_erase off) fuel (Some (false, h)) = (s', Some 0) ->
  0 < Z.of_nat (length data) < gsize h -> Z.of_nat (length data) mod 4 = 0 ->
  (forall b h', s' = Some (b, h') -> gsize h' = gsize h) -> write_all g_write fuel' off' data s' <> (s'', Some 0).
Proof.
  intros fuel fuel' off off' data h s' s'' H Hn H4 Hz Hw. apply g_erase_per in H; [|reflexivity]. destruct H as (h' & -> & P).
  refine (g_write_all_per fuel' off' data false h' s'' P _ H4 Hw). rewrite (Hz false h' eq_refl). exact Hn.
Qed.
Print Assumptions C99_gd32_after_erase.
(** Without the alias nothing can be written at all. *)
Theorem C99_gd32_refuted : exists s1, write_all g_write 9 4096 [1; 2; 3; 4] (g_ex false) = (s1, Some (-5)) /\ s1 = None.
Proof. eexists. split; vm_compute; reflexivity. Qed.
Print Assumptions C99_gd32_refuted.

(** * C100: the AVR's EEPROM *)
(** eeprom_read: the byte, or -EAGAIN while a write is under way; nothing else changes. *)
Theorem C100_read : forall count addr n h, 0 <= addr < count -> count <= 65536 -> 0 < n ->
  let '(h', r, o) := avr_eeprom_read count addr n h in
  amem h' = amem h /\ abusy h' = abusy h /\ if abusy h then r = FEAGAIN /\ o = None else r = 1 /\ o = Some (amem h addr).
Proof.
  intros count addr n h Ha Hc Hn. unfold avr_eeprom_read. rewrite (proj2 (Z.ltb_lt _ _)) by lia. cbn [negb]. destruct (Z.leb_spec n 0); [lia|]. destruct (abusy h) eqn:E.
  - rewrite E. repeat split.
  - unfold aset_ar. rewrite E. cbn [amem abusy aear aedr]. rewrite Z.mod_small by lia. repeat split.
Qed.
Print Assumptions C100_read.
(** eeprom_write and eeprom_erase, when no write is under way and no interrupt comes in between. *)
Theorem C100_write_partial : forall count addr b buf h, 0 <= addr < count -> count <= 65536 -> abusy h = false -> alate h = false ->
  let '(h', r) := avr_eeprom_write count addr (b :: buf) h in r = 1 /\ abusy h' = true /\ avr_writes addr b h h'.
Proof.
  intros count addr b buf h Ha Hc Eb El. unfold avr_eeprom_write. rewrite (proj2 (Z.ltb_lt _ _)) by lia. cbn [negb]. rewrite Eb. cbn [andb]. unfold aset_ar. rewrite Eb. unfold aset_dr. cbn [abusy aedr]. rewrite Z.eqb_refl. cbn [negb].
  unfold atrigger. cbn [alate abusy aear aedr amem]. rewrite El. cbn [orb]. rewrite Z.mod_small by lia. repeat split.
Qed.
Print Assumptions C100_write_partial.
Theorem C100_erase_partial : forall count addr n h, 0 <= addr < count -> count <= 65536 -> 0 < n -> abusy h = false -> alate h = false ->
  let '(h', r) := avr_eeprom_erase count addr n h in r = 1 /\ abusy h' = true /\ avr_writes addr 255 h h'.
Proof.
  intros count addr n h Ha Hc Hn Eb El. unfold avr_eeprom_erase. rewrite (proj2 (Z.ltb_lt _ _)) by lia. cbn [negb]. destruct (Z.leb_spec n 0); [lia|]. rewrite Eb. cbn [andb]. unfold aset_ar. rewrite Eb.
  unfold atrigger. cbn [alate abusy aear amem]. rewrite El. cbn [orb]. rewrite Z.mod_small by lia. repeat split.
Qed.
Print Assumptions C100_erase_partial.
Definition a_ex (late : bool) : eep := mkEep m0 false 0 0 false true late.
Example C100_runs : let '(h, r) := avr_eeprom_write 1024 77 [9] (a_ex false) in r = 1 /\ amem h 77 = 9 /\ amem h 78 = 78 /\ abusy h = true.
Proof. vm_compute. repeat split. Qed.
(** While a write is under way eeprom_write does not wait (both EEPE and SPMEN would have to be set): the second of two
    equal bytes is lost, whatever the addresses, if the registers are closed meanwhile ... *)
Theorem C100_same_byte : forall count addr addr' b h, 0 <= addr < count -> 0 <= addr' < count -> count <= 65536 -> abusy h = false -> alate h = false -> aspm h = false -> ablock h = true ->
  let '(h1, r1) := avr_eeprom_write count addr [b] h in let '(h2, r2) := avr_eeprom_write count addr' [b] h1 in r1 = 1 /\ r2 = 1 /\ amem h2 = amem h1.
Proof.
  intros count addr addr' b [m bu ar dr sp bl la] Ha Ha' Hc Eb El Es Ek. cbn [abusy alate aspm ablock] in Eb, El, Es, Ek. subst bu la sp bl.
  unfold avr_eeprom_write. rewrite !(proj2 (Z.ltb_lt _ _)) by lia. unfold aset_ar, aset_dr, atrigger. cbn [negb andb orb abusy aspm aedr aear amem ablock alate]. rewrite Z.eqb_refl. cbn [negb andb orb abusy aspm aedr aear amem ablock alate].
  rewrite Z.eqb_refl. cbn [negb andb orb abusy aspm aedr aear amem ablock alate]. repeat split.
Qed.
Print Assumptions C100_same_byte.
(** ... and if not, the first one is spoilt. *)
Theorem C100_open_refuted : ~ (forall count addr b h h', 0 <= addr < count -> count <= 65536 -> alate h = false -> ablock h = false -> avr_eeprom_write count addr [b] h = (h', 1) -> avr_writes addr b h h').
Proof.
  intros H. set (h := mkEep m0 true 5 3 false false false). destruct (avr_eeprom_write 1024 6 [9] h) as [h' r] eqn:E. assert (Er : r = 1) by (change r with (h', r).2; rewrite <- E; vm_compute; reflexivity). subst r.
  specialize (H 1024 6 9 h h' ltac:(lia) ltac:(lia) eq_refl eq_refl E 5). assert (E2 : amem h' 5 = -1) by (change h' with (h', 1).1; rewrite <- E; vm_compute; reflexivity). rewrite E2 in H. vm_compute in H. discriminate H.
Qed.
Print Assumptions C100_open_refuted.
(** An interrupt between the two writes to EECR: nothing is written, and eeprom_write says 1. *)
Theorem C100_interrupt_refuted : forall count addr b h, 0 <= addr < count -> abusy h = false -> alate h = true ->
  let '(h', r) := avr_eeprom_write count addr [b] h in r = 1 /\ amem h' = amem h /\ abusy h' = false.
Proof.
  intros count addr b h Ha Eb El. unfold avr_eeprom_write. rewrite (proj2 (Z.ltb_lt _ _)) by lia. cbn [negb]. rewrite Eb. cbn [andb]. unfold aset_ar. rewrite Eb. unfold aset_dr. cbn [abusy aedr]. rewrite Z.eqb_refl. cbn [negb].
  unfold atrigger. cbn [alate abusy]. rewrite El. cbn [orb]. repeat split.
Qed.
Print Assumptions C100_interrupt_refuted.
