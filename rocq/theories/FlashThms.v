(** FlashThms.v - the external flash properties, from FlashProofs*.v. *)
From Verif Require Import Base FlashModel FlashSpec FlashProofs FlashProofs2 FlashProofs3 FlashProofs4.
From Coq Require Import ZifyBool ZifyNat.

Lemma write_full v f off data N : flash_known f -> flash_idle f -> only_eagain (f_script f) ->
  0 <= off < f_total f -> off mod 256 = 0 -> (256 <= length data)%nat -> (v = SST26VF -> off + Z.of_nat (length data) < f_total f) ->
  exists (f' : fx) (r : Z), until N (flash_write v off data) f = Ok (f', r) /\
  (forall x, ~ off <= x < off + 256 -> c_mem (f_chip f') x = c_mem (f_chip f) x) /\
  (r = - EAGAIN \/
   (r = 256 /\ flash_idle f' /\ flash_known f' /\
    (forall i, (i < 256)%nat -> exists w, data !! i = Some w /\
       c_mem (f_chip f') (off + Z.of_nat i) = Z.land (c_mem (f_chip f) (off + Z.of_nat i)) w))) /\
  (always_ready (f_script f) -> (263 <= exchanges (f_script f))%nat -> (length (f_script f) < N)%nat -> r = 256).
Proof.
  intros Hk Hid Ho Hoff Hal Hl Hv.
  destruct (write_run v f off data N Hk Hid Ho Hoff Hal ltac:(by destruct data; cbn in Hl; [lia|]) Hv) as (f' & r & E & Keep & D & Live).
  rewrite Nat.min_r in * by lia. exists f', r. split; [done|]. split; [done|]. split; [|done].
  destruct D as [D|(-> & D1 & D2 & D3 & _)]; [by left|right]. split; [done|]. split; [done|]. split; [done|].
  intros i Hi. destruct (lookup_lt_is_Some_2 data i ltac:(lia)) as [w Ew]. exists w. split; [done|].
  rewrite D3 by lia. f_equal. replace (Z.to_nat (off + Z.of_nat i - off)) with i by lia.
  apply nth_lookup_Some. rewrite lookup_app_l by (rewrite take_length; lia). by rewrite lookup_take.
Qed.

(** The size of the chip never changes. *)
Lemma exec_size c cmd : c_size (chip_exec c cmd) = c_size c.
Proof.
  unfold chip_exec. destruct (c_busy c); [done|].
  repeat (match goal with
          | |- context [match ?z with Z0 => _ | Zpos _ => _ | Zneg _ => _ end] => destruct z
          | |- context [match ?p with xI _ => _ | xO _ => _ | xH => _ end] => destruct p
          | |- context [match ?l with [] => _ | _ :: _ => _ end] => destruct l
          | |- context [if c_wel c then _ else _] => destruct (c_wel c)
          end; try done).
Qed.
Lemma run_cmd_size f buf f' b r : run_cmd f buf = Ok (f', b, r) -> c_size (f_chip f') = c_size (f_chip f).
Proof.
  unfold run_cmd. set (g := if (f_left f =? 0)%nat then set_left (length buf) f else f). assert (Eg : f_chip g = f_chip f) by (subst g; by destruct (f_left f =? 0)%nat).
  destruct (length buf <? f_left g)%nat; [done|]. unfold spi_call. destruct (f_script g) as [|[e|k rd] sc].
  - change (- EAGAIN <? 0) with true. cbv iota. intros [= <- _ _]. by rewrite Eg.
  - change (- Z.pos e <? 0) with true. cbv iota. intros [= <- _ _]. cbn [set_script f_chip]. by rewrite Eg.
  - set (c := if rd then _ else _). assert (Ec : c_size c = c_size (f_chip f)) by (subst c; rewrite Eg; by destruct rd).
    destruct (exchange _ _ _) as [cur rx]. destruct (Z.ltb_spec (Z.of_nat (length rx)) 0); [lia|]. cbn [set_script set_chip set_left f_left f_chip f_cur f_log].
    match goal with |- (if ?t then _ else _) = _ -> _ => destruct t end; intros X;
      apply (f_equal (fun o => match o with Ok (h, _, _) => c_size (f_chip h) | _ => 0 end)) in X; cbn [set_script set_chip set_left f_chip] in X; rewrite <- X; [by rewrite exec_size|done].
Qed.
Lemma erase_size off f f' r : flash_erase off f = Ok (f', r) -> c_size (f_chip f') = c_size (f_chip f).
Proof.
  assert (Hseq : forall n steps (Hst : forall k st, steps k = Some st -> forall g g' x, st g = Ok (g', x) -> c_size (f_chip g') = c_size (f_chip g)) g g' x,
    sequence n steps (fun f => Ok (set_seq 0 f, 0)) g = Ok (g', x) -> c_size (f_chip g') = c_size (f_chip g)).
  { intros n steps Hst. induction n as [|n IH]; intros g g' x; cbn [sequence]; [done|]. destruct (steps (f_seq g)) as [st|] eqn:Est.
    - destruct (st g) as [[g1 y]| | |] eqn:E1; cbn [rbind]; [|done|done|done]. apply (Hst _ _ Est) in E1. destruct (y <? 0); [by intros [= <- _]|].
      intros H. apply IH in H. by rewrite H.
    - by intros [= <- _]. }
  unfold flash_erase. destruct (f_ulen f =? 0); [done|]. destruct (negb _); [by intros [= <- _]|]. destruct (negb _); [by intros [= <- _]|].
  apply Hseq. intros k st Hst g g' x. destruct k as [|[|[|k]]]; try discriminate Hst; injection Hst as <-.
  - unfold run_single. destruct (run_cmd g [6]) as [[[g1 b] y]| | |] eqn:E; cbn [rbind]; [|done|done|done]. intros [= <- _]. by eapply run_cmd_size.
  - destruct (run_cmd g _) as [[[g1 b] y]| | |] eqn:E; cbn [rbind]; [|done|done|done]. intros [= <- _]. by eapply run_cmd_size.
  - unfold run_busy. destruct (run_cmd g _) as [[[g1 b] y]| | |] eqn:E; cbn [rbind]; [|done|done|done]. destruct (y <? 0); [intros [= <- _]; by eapply run_cmd_size|].
    destruct (negb _); intros [= <- _]; by eapply run_cmd_size.
Qed.
Lemma until_size op (Hop : forall f f' r, op f = Ok (f', r) -> c_size (f_chip f') = c_size (f_chip f)) N : forall f f' r,
  until N op f = Ok (f', r) -> c_size (f_chip f') = c_size (f_chip f).
Proof.
  induction N as [|N IH]; intros f f' r; cbn [until]; [by intros [= <- _]|]. destruct (op f) as [[f1 x]| | |] eqn:E; cbn [rbind]; [|done|done|done].
  apply Hop in E. destruct (x =? - EAGAIN); [|by intros [= <- _]]. intros H. apply IH in H. by rewrite H.
Qed.
Lemma erase_then_write v f f1 f2 sec off data N1 N2 :
  flash_known f -> flash_idle f -> only_eagain (f_script f) -> only_eagain (f_script f1) ->
  0 <= sec < f_total f -> sec mod 4096 = 0 -> sec <= off -> off + 256 <= sec + 4096 -> off mod 256 = 0 ->
  (256 <= length data)%nat -> (v = SST26VF -> off + Z.of_nat (length data) < f_total f) -> Forall (fun w => 0 <= w < 256) data ->
  until N1 (flash_erase sec) f = Ok (f1, 0) -> until N2 (flash_write v off data) f1 = Ok (f2, 256) ->
  forall i, (i < 256)%nat -> data !! i = Some (c_mem (f_chip f2) (off + Z.of_nat i)).
Proof.
  intros Hk Hid Ho Ho1 Hs Hsm H1 H2 Hal Hl Hv Hb He Hw i Hi.
  destruct (erase_run f sec N1 Hk Hid Ho Hs Hsm) as (f1' & r & E & Keep & D & _). rewrite He in E. injection E as <- <-.
  destruct D as [D|(_ & Id1 & K1 & Er & _)]; [done|].
  assert (Et : f_total f1 = f_total f).
  { assert (Hsz : c_size (f_chip f1) = c_size (f_chip f)).
    { eapply (until_size (flash_erase sec)); [|exact He]. apply erase_size. }
    destruct Hk as (_ & _ & -> & _). destruct K1 as (_ & _ & -> & _). done. }
  assert (Hoff : off < f_total f).
  { destruct Hk as (_ & _ & Ek & _ & Hm). rewrite <- Ek in Hm.
    pose proof (Z_div_mod_eq_full sec 4096). pose proof (Z_div_mod_eq_full (f_total f) 4096). lia. }
  destruct (write_full v f1 off data N2 K1 Id1 Ho1 ltac:(lia) Hal Hl ltac:(intros X; rewrite Et; auto)) as (f2' & r2 & E2 & _ & D2 & _).
  rewrite Hw in E2. injection E2 as <- <-. destruct D2 as [D2|(_ & _ & _ & D2)]; [done|].
  destruct (D2 i Hi) as (w & Ew & ->). rewrite Ew. f_equal. rewrite Er by lia.
  assert (Hwb : 0 <= w < 256) by (rewrite Forall_lookup in Hb; eapply Hb; done).
  change 255 with (Z.ones 8). rewrite Z.land_comm, Z.land_ones by lia. symmetry. by apply Z.mod_small.
Qed.

(** A write of fewer bytes right after the start. *)
Lemma write_short v f off data N : flash_known f -> flash_idle f -> only_eagain (f_script f) ->
  0 <= off < f_total f -> off mod 256 = 0 -> (0 < length data < 256)%nat -> (v = SST26VF -> off + Z.of_nat (length data) < f_total f) ->
  f_pp f = repeat 0 260 -> always_ready (f_script f) -> (263 <= exchanges (f_script f))%nat -> (length (f_script f) < N)%nat ->
  exists f' : fx, until N (flash_write v off data) f = Ok (f', Z.of_nat (length data)) /\
  forall x, off + Z.of_nat (length data) <= x < off + 256 -> c_mem (f_chip f') x = 0.
Proof.
  intros Hk Hid Ho Hoff Hal Hl Hv Hpp A1 A2 A3.
  destruct (write_run v f off data N Hk Hid Ho Hoff Hal ltac:(by destruct data; cbn in Hl; [lia|]) Hv) as (f' & r & E & Keep & D & Live).
  rewrite Nat.min_l in * by lia. specialize (Live A1 A2 A3). subst r. exists f'. split; [done|]. intros x Hx.
  destruct D as [D|(_ & D1 & D2 & D3 & _)]; [unfold EAGAIN in D; lia|]. rewrite D3 by lia.
  rewrite app_nth2 by (rewrite take_length; lia). rewrite Hpp.
  assert (Z0 : forall (n k : nat), nth n (repeat 0 k) 0 = 0).
  { intros n k. revert n. induction k as [|k IH]; intros [|n]; cbn [repeat nth]; auto. }
  assert (Zd : forall (k m : nat), drop k (repeat 0 m) = repeat 0 (m - k)).
  { intros k m. revert k. induction m as [|m IH]; intros [|k]; cbn [repeat drop Nat.sub]; auto. }
  rewrite Zd, Z0. apply Z.land_0_r.
Qed.

Lemma read_nothing off n f : flash_idle f -> (0 < n)%nat -> off + Z.of_nat n < f_total f ->
  exists f', flash_read off n f = Ok (f', Z.of_nat (Nat.min n 256), None) /\
    f_script f' = f_script f /\ f_cur f' = [] /\ f_log f' = f_log f.
Proof.
  intros (I1 & I2 & I3 & I4) Hn Hb. unfold flash_read. destruct (Nat.eqb_spec n 0); [lia|]. destruct (Z.ltb_spec (off + Z.of_nat n) (f_total f)); [|lia]. cbn [negb].
  cbn [sequence]. rewrite I2. cbn [rbind]. assert (X : (Z.of_nat (n `min` 256) <? 0) = false) by lia. rewrite X. cbn [set_seq set_rd f_seq]. rewrite I2.
  cbn [rbind f_seq]. rewrite X. cbn [Nat.eqb]. eexists. split; [reflexivity|]. done.
Qed.

Lemma probe_s25 f a b d N : flash_idle f -> length (f_jd f) = 4%nat -> only_eagain (f_script f) -> c_id (f_chip f) = [a; b; d] ->
  exists (f' : fx) (r : Z), until N (flash_probe S25FL1) f = Ok (f', r) /\
    (r = - EAGAIN \/ probed S25FL1 a b d f f' r) /\
    ((4 <= exchanges (f_script f))%nat -> (length (f_script f) < N)%nat -> r <> - EAGAIN).
Proof.
  intros H1 H2 H3 H4. destruct (probe_run f a b d N H1 H2 H3 H4) as (f' & r & E & D & L). exists f', r. split; [done|]. split; [|done].
  destruct D as [D|D]; [by left|right]. destruct D as (D1 & D2 & D3 & D). split; [done|]. split; [done|]. split; [done|]. unfold part_size.
  destruct (decide (a = 1)) as [->|Ha].
  - destruct (decide (b = 64)) as [->|Hb].
    + cbn [Z.eqb Pos.eqb andb]. destruct (Z.eqb_spec d 21) as [->|]; [done|]. destruct (Z.eqb_spec d 22) as [->|]; [done|]. destruct (Z.eqb_spec d 23) as [->|]; [done|].
      destruct d as [|p|p]; try done. repeat (destruct p as [p|p|]; try done).
    + assert ((b =? 64) = false) as -> by lia. rewrite andb_false_r. destruct b as [|p|p]; try done. repeat (destruct p as [p|p|]; try done).
  - assert ((a =? 1) = false) as -> by lia. cbn [andb]. destruct a as [|p|p]; try done. destruct p as [p|p|]; done.
Qed.

Lemma probe_sst f a b d k q rest : flash_idle f -> c_id (f_chip f) = [a; b; d] -> (3 <= k)%nat -> f_script f = XGot k q :: rest ->
  exists f' r, flash_probe SST26VF f = Ok (f', r) /\ probed SST26VF a b d f f' r.
Proof.
  intros H1 H2 H3 H4. destruct (probe_one_go f a b d k q rest H1 H2 H3 H4) as (f' & r & E & D1 & D2 & D3 & D). exists f', r. split; [done|].
  split; [done|]. split; [done|]. split; [done|]. unfold part_size. destruct D as [(-> & -> & H & D)|[(-> & -> & H & D)|(Hn & D)]].
  - rewrite H. done.
  - rewrite H. done.
  - destruct (Z.eqb_spec a 191), (Z.eqb_spec b 38); cbn [andb]; try done. destruct (Z.eqb_spec (d mod 16) 1); [tauto|]. destruct (Z.eqb_spec (d mod 16) 2); [tauto|done].
Qed.

Lemma bits_below8 k i : 0 <= k < 8 -> 0 <= i < 8 -> Z.testbit (255 - 2 ^ k) i = negb (i =? k).
Proof.
  intros Hk Hi. assert (k = 0 \/ k = 1 \/ k = 2 \/ k = 3 \/ k = 4 \/ k = 5 \/ k = 6 \/ k = 7) as Ck by lia.
  assert (i = 0 \/ i = 1 \/ i = 2 \/ i = 3 \/ i = 4 \/ i = 5 \/ i = 6 \/ i = 7) as Ci by lia.
  destruct Ck as [->|[->|[->|[->|[->|[->|[->| ->]]]]]]]; destruct Ci as [->|[->|[->|[->|[->|[->|[->| ->]]]]]]]; reflexivity.
Qed.
Lemma q_bit en s i : 0 <= i < 8 -> Z.testbit (q en s) i = if i =? 1 then en else Z.testbit s i.
Proof.
  intros Hi. unfold q. destruct en.
  - rewrite Z.lor_spec. change 2 with (2 ^ 1). rewrite Z.pow2_bits_eqb by lia. destruct (Z.eqb_spec i 1) as [->|]; [by rewrite orb_true_r|].
    destruct (Z.eqb_spec 1 i); [lia|]. by rewrite orb_false_r.
  - rewrite Z.land_spec. change 253 with (255 - 2 ^ 1). rewrite bits_below8 by lia. destruct (i =? 1); cbn [negb]; [by rewrite andb_false_r|by rewrite andb_true_r].
Qed.
Lemma quad_enable en f N : flash_idle f -> length (f_rsr f) = 2%nat -> length (f_wsr f) = 4%nat -> only_eagain (f_script f) ->
  exists (f' : fx) (r : Z), until N (flash_quad_enable en) f = Ok (f', r) /\ same_but_qe (f_chip f) (f_chip f') /\
    (r = - EAGAIN \/ (r = 0 /\ flash_idle f' /\ qe_bit (f_chip f') = en)) /\
    (always_ready (f_script f) -> (17 <= exchanges (f_script f))%nat -> (length (f_script f) < N)%nat -> r = 0).
Proof.
  intros H1 H2 H3 H4. destruct (qe_run en f N H1 H2 H3 H4) as (f' & r & E & Q & D & L). exists f', r. split; [done|]. split; [|split; [|done]].
  - destruct Q as (Q1 & Q2 & Q3 & Q4 & Q5 & Q6). do 5 (split; [done|]). intros i Hi Hne. destruct Q6 as [->| ->]; [done|].
    unfold qs. rewrite q_bit by done. destruct (Z.eqb_spec i 1); [done|done].
  - destruct D as [D|(-> & D1 & _ & D)]; [by left|right]. split; [done|]. split; [done|]. unfold qe_bit. rewrite D. unfold qs. by rewrite q_bit by lia.
Qed.
