(** FlashProofs3.v - proofs about the external flash drivers: probe, quad enable. *)
From Verif Require Import Base FlashModel FlashSpec FlashProofs.
From Coq Require Import ZifyBool ZifyNat.

(** ** Probe *)
Section probe.
Context (f0 : fx) (i0 i1 i2 : Z).
Context (Hid : flash_idle f0) (Hc : c_id (f_chip f0) = [i0; i1; i2]).
Notation id := [i0; i1; i2].

Definition Ipr (b : nat) (f : fx) : Prop :=
  exists (l : nat) (cur : list Z) (sc : list xo) (jd cmd : list Z) (i : nat),
  f = tr l (f_chip f0) cur (f_log f0) sc (set_jd jd f0) /\ length jd = 4%nat /\ length cmd = 4%nat /\ cmd !! 0%nat = Some 159 /\
  drop i (<[0%nat := 159]> jd) = drop i cmd /\ inphase cmd i f /\ b = (4 - i)%nat /\
  forall j, (S j < i)%nat -> jd !! S j = id !! j.

Definition probe_result (f' : fx) (r : Z) : Prop :=
  flash_idle f' /\ f_jedec f' = id /\ f_chip f' = f_chip f0 /\
  match id with
  | [1; 64; 21] => r = 0 /\ f_ulen f' = 4096 /\ f_total f' = 2097152
  | [1; 64; 22] => r = 0 /\ f_ulen f' = 4096 /\ f_total f' = 4194304
  | [1; 64; 23] => r = 0 /\ f_ulen f' = 4096 /\ f_total f' = 8388608
  | _ => r = - EIO /\ f_total f' = f_total f0
  end.

Lemma answers_id cmd j : length cmd = 4%nat -> cmd !! 0%nat = Some 159 -> (j < 3)%nat ->
  chip_answer (f_chip f0) (take (S j) cmd) = nth j id 0.
Proof.
  intros Hl H0 Hj. destruct cmd as [|a [|b [|c [|d [|]]]]]; try done. injection H0 as ->.
  assert (Hb : c_busy (f_chip f0) = false) by apply Hid.
  destruct j as [|[|[|]]]; [| | |lia]; cbn [take chip_answer]; rewrite Hb, Hc; reflexivity.
Qed.

Lemma probe_step b f : Ipr b f -> only_eagain (f_script f) ->
  exists (f' : fx) (r : Z) (b' g : nat), flash_probe S25FL1 f = Ok (f', r) /\ used (f_script f) (f_script f') g /\
    (b' + g <= b)%nat /\
    ((r = - EAGAIN /\ Ipr b' f' /\ (f_script f' = [] \/ (length (f_script f') < length (f_script f))%nat)) \/
     (r <> - EAGAIN /\ probe_result f' r)).
Proof.
  assert (Hb : c_busy (f_chip f0) = false) by apply Hid.
  intros (l & cur & sc & jd & cmd & i & Ef & Hjl & Hcl & H0 & Hdr & P & -> & Hj) Ho.
  assert (Ejd : f_jd f = jd) by by rewrite Ef.
  unfold flash_probe. rewrite Ejd.
  destruct (run_cmd_spec f (<[0%nat := 159]> jd) cmd i P ltac:(by rewrite insert_length, Hcl) Hdr Ho) as (l' & c' & cur' & lg' & sc' & buf & r & g & E & U & L & D).
  rewrite E. cbn [rbind]. assert (Hi : (i < 4)%nat) by (destruct P as (P & _); lia).
  assert (Hbj : forall j, (S j < i)%nat -> (<[0%nat := 159]> jd) !! S j = id !! j).
  { intros j Hlt. rewrite list_lookup_insert_ne by lia. by apply Hj. }
  assert (Hany : forall (m : nat) (c : chip) (t : list Z) (j : nat), c = f_chip f0 -> (i + m <= 4)%nat -> (S j < i + m)%nat ->
     (take i (<[0%nat := 159]> jd) ++ answers c cmd i m ++ t) !! S j = id !! j).
  { intros m c t j -> Him Hlt. destruct (decide (S j < i)%nat) as [Hlt'|Hge].
    - rewrite lookup_app_l by (rewrite take_length, insert_length; lia). rewrite lookup_take by done. by apply Hbj.
    - rewrite lookup_app_r by (rewrite take_length, insert_length; lia). rewrite take_length, insert_length, Hjl, Nat.min_l by lia.
      rewrite lookup_app_l by (rewrite answers_len; lia). unfold answers. rewrite list_lookup_fmap, lookup_seq_lt by lia. cbn [fmap option_fmap option_map].
      replace (i + (S j - i))%nat with (S j) by lia. rewrite answers_id by (try done; lia).
      destruct j as [|[|[|]]]; [done|done|done|lia]. }
  destruct D as [(-> & i' & G & P' & El & Er & Eb)|(-> & -> & -> & -> & -> & c & Er & -> & Eb & Ha)].
  - change (- EAGAIN <? 0) with true. cbv iota. assert (Hi' : (i' < 4)%nat) by (destruct P' as (P' & _); lia).
    exists (set_jd buf (tr l' c' cur' lg' sc' f)), (- EAGAIN), (4 - i')%nat, g. split; [done|]. split; [done|]. split; [lia|]. left. split; [done|]. split; [|done].
    assert (c' = f_chip f0) as -> by (apply ready_idle; [done|]; by rewrite Ef in Er).
    assert (Hlen : length (take i (<[0%nat:=159]> jd) ++ answers (f_chip f0) cmd i (i' - i)) = i') by (rewrite app_length, take_length, answers_len, insert_length; lia).
    exists l', cur', sc', buf, cmd, i'. split; [by rewrite Ef, El, Ef|].
    split; [rewrite Eb, app_assoc, app_length, Hlen, drop_length, insert_length; lia|]. split; [done|]. split; [done|]. split.
    { destruct (decide (i' = 0)%nat) as [->|Hnz].
      - rewrite !drop_0. assert (i = 0)%nat as -> by lia. rewrite !drop_0 in Hdr. assert (buf = <[0%nat := 159]> jd) as -> by (rewrite Eb; reflexivity). rewrite list_insert_insert. done.
      - rewrite drop_insert_gt by lia. rewrite Eb, app_assoc, drop_app_ge by lia. rewrite Hlen, Nat.sub_diag, drop_0.
        replace i' with (i + (i' - i))%nat at 1 2 by lia. rewrite <- !drop_drop. by rewrite Hdr. }
    split; [exact P'|]. split; [done|]. intros j Hlt. rewrite Eb. apply Hany; [done|lia|lia].
  - change (0 <? 0) with false. cbv iota. assert (c = f_chip f0) as -> by (apply ready_idle; [done|]; by rewrite Ef in Er).
    assert (Eex : chip_exec (f_chip f0) cmd = f_chip f0).
    { destruct cmd as [|a0 [|b [|c1 [|d [|]]]]]; try done. injection H0 as ->. unfold chip_exec. rewrite Hb. done. }
    rewrite Eex. assert (Eid : drop 1 buf = id).
    { assert (Hlen : length buf = 4%nat) by (rewrite Eb, app_length, take_length, answers_len, insert_length; lia).
      assert (Hx : forall j, (j < 3)%nat -> buf !! S j = id !! j).
      { intros j Hlt. rewrite Eb. rewrite <- (app_nil_r (answers _ _ _ _)). apply Hany; [done|lia|lia]. }
      pose proof (Hx 0%nat ltac:(lia)) as X0. pose proof (Hx 1%nat ltac:(lia)) as X1. pose proof (Hx 2%nat ltac:(lia)) as X2.
      destruct buf as [|b0 [|b1 [|b2 [|b3 [|]]]]]; try done. cbn in X0, X1, X2. injection X0 as ->. injection X1 as ->. injection X2 as ->. done. }
    rewrite Eid.
    set (f1 := set_jedec id (set_jd buf (tr 0 (f_chip f0) [] (f_log f ++ [cmd]) sc' f))).
    assert (Hf1 : flash_idle f1 /\ f_jedec f1 = id /\ f_chip f1 = f_chip f0 /\ f_script f1 = sc' /\ f_total f1 = f_total f0).
    { subst f1. rewrite Ef. cbn. split; [|done]. split; [done|]. split; [apply Hid|]. split; [done|apply Hid]. }
    destruct Hf1 as (A1 & A2 & A3 & A4 & A5).
    assert (Hgo : exists (f' : fx) (r : Z),
      match id with
      | [1; 64; 21] => Ok (set_attr id 512 f1, 0)
      | [1; 64; 22] => Ok (set_attr id 1024 f1, 0)
      | [1; 64; 23] => Ok (set_attr id 2048 f1, 0)
      | [1; 64; _] => Ok (set_unit f1, - EIO)
      | _ => Ok (f1, - EIO)
      end = Ok (f', r) /\ f_script f' = sc' /\ r <> - EAGAIN /\ probe_result f' r).
    { unfold probe_result.
      repeat (match goal with |- context [match ?z with Z0 => _ | Zpos _ => _ | Zneg _ => _ end] => destruct z as [|?p|?p]
              | |- context [match ?p with xI _ => _ | xO _ => _ | xH => _ end] => destruct p end;
        try (eexists _, _; split; [reflexivity|]; split; [exact A4|]; split; [done|]; split; [exact A1|]; split; [first [exact A2|reflexivity]|]; split; [exact A3|]; first [done | split; [done|exact A5]])). }
    destruct Hgo as (f' & r & Ho1 & Ho2 & Ho3 & Ho4).
    exists f', r, (4 - i - 1)%nat, 1%nat. split; [exact Ho1|]. split; [by rewrite Ho2|]. split; [lia|]. right. done.
Qed.

Lemma probe_until N : forall b f, Ipr b f -> only_eagain (f_script f) ->
  exists (f' : fx) (r : Z), until N (flash_probe S25FL1) f = Ok (f', r) /\
   ((r = - EAGAIN /\ exists b' g, Ipr b' f' /\ used (f_script f) (f_script f') g /\ (b' + g <= b)%nat /\
      (f_script f' = [] \/ (length (f_script f') + N <= length (f_script f))%nat)) \/ (r <> - EAGAIN /\ probe_result f' r)).
Proof.
  induction N as [|N IH]; intros b f Hi Ho; cbn [until].
  - exists f, (- EAGAIN). split; [done|]. left. split; [done|]. exists b, 0%nat. split; [done|]. split; [apply used_refl|]. split; [lia|right; lia].
  - destruct (probe_step b f Hi Ho) as (f1 & r & b1 & g & E & U & B & [(-> & I1 & L)|(Hr & R)]); rewrite E; cbn [rbind].
    + rewrite Z.eqb_refl. destruct U as (U1 & U2 & U3 & U4).
      destruct (IH b1 f1 I1 ltac:(auto)) as (f2 & r2 & E2 & [(-> & b2 & g2 & I2 & V & B2 & L2)|R]); exists f2; [exists (- EAGAIN)|exists r2]; (split; [done|]); [left|by right].
      split; [done|]. exists b2, (g + g2)%nat. split; [done|]. split; [eapply used_trans; [|done]; by repeat split|]. split; [lia|].
      destruct L2 as [|L2]; [by left|]. destruct L as [L|L]; [|right; lia]. left. rewrite L in L2. destruct (f_script f2); [done|cbn [length] in L2; lia].
    + destruct (Z.eqb_spec r (- EAGAIN)); [done|]. exists f1, r. split; [done|]. by right.
Qed.
End probe.

Lemma probe_run f a b d N : flash_idle f -> length (f_jd f) = 4%nat -> only_eagain (f_script f) -> c_id (f_chip f) = [a; b; d] ->
  exists (f' : fx) (r : Z), until N (flash_probe S25FL1) f = Ok (f', r) /\
    (r = - EAGAIN \/ probe_result f a b d f' r) /\
    ((4 <= exchanges (f_script f))%nat -> (length (f_script f) < N)%nat -> r <> - EAGAIN).
Proof.
  intros Hid Hjl Ho Hc.
  assert (Start : Ipr f a b d 4 f).
  { destruct Hid as (I1 & I2 & I3 & I4).
    exists (f_left f), (f_cur f), (f_script f), (f_jd f), (<[0%nat := 159]> (f_jd f)), 0%nat. split; [by destruct f|]. split; [done|]. split; [by rewrite insert_length|].
    split; [by rewrite list_lookup_insert by lia|]. split; [done|]. split; [|split; [done|lia]]. split; [rewrite insert_length; lia|]. split; [by right|done]. }
  destruct (probe_until f a b d Hid Hc N 4 f Start Ho) as (f' & r & E & D). exists f', r. split; [done|]. split.
  - destruct D as [(-> & _)|(_ & D)]; [by left|by right].
  - intros H1 H2. destruct D as [(-> & b' & g & I1 & (U & _) & B & L)|(D & _)]; [|done]. exfalso. destruct L as [L|L]; [|lia].
    rewrite L in U. cbn [exchanges] in U. destruct I1 as (l & cur & sc & jd & cmd & i & _ & _ & Hcl & _ & _ & (P & _) & -> & _). lia.
Qed.

(** The local buffer of the other driver. *)
Lemma idle_ready (q : bool) c : c_busy c = false -> (if q then chip_ready c else c) = c.
Proof. intros H. destruct q; [|done]. apply ready_idle; [done|by right]. Qed.

Lemma probe_one_go f a b d k q rest : flash_idle f -> c_id (f_chip f) = [a; b; d] -> (3 <= k)%nat -> f_script f = XGot k q :: rest ->
  exists f' r, flash_probe SST26VF f = Ok (f', r) /\ flash_idle f' /\ f_chip f' = f_chip f /\ f_jedec f' = [a; b; d] /\
    ((a = 191 /\ b = 38 /\ d mod 16 = 1 /\ r = 0 /\ f_ulen f' = 4096 /\ f_total f' = 2097152) \/
     (a = 191 /\ b = 38 /\ d mod 16 = 2 /\ r = 0 /\ f_ulen f' = 4096 /\ f_total f' = 4194304) \/
     (~ (a = 191 /\ b = 38 /\ (d mod 16 = 1 \/ d mod 16 = 2)) /\ r = - EIO /\ f_total f' = f_total f)).
Proof.
  intros (I1 & I2 & I3 & I4) Hc Hk Hs. unfold flash_probe, run_cmd. cbn [length]. rewrite I1. change (0 =? 0)%nat with true. cbv iota.
  cbn [set_left f_left]. change (4 <? 4)%nat with false. cbv iota. rewrite Nat.sub_diag, drop_0. unfold spi_call. cbn [set_left f_script]. rewrite Hs.
  cbn [set_left f_chip f_cur f_log]. rewrite (idle_ready q _ I4), I3. rewrite take_ge by (cbn; lia). cbn [exchange app]. cbn [length].
  change (Z.of_nat 4 <? 0) with false. cbv iota. cbn [set_script set_chip set_left f_left f_chip f_cur f_log]. change (4 - Z.to_nat (Z.of_nat 4))%nat with 0%nat.
  change (0 =? 0)%nat with true. cbv iota. cbn [rbind]. change (0 <? 0) with false. cbv iota. cbn [take app drop].
  assert (E : forall x, chip_answer (f_chip f) x = match x with 159 :: r => default (c_junk (f_chip f) x) ([a; b; d] !! length r) | _ => chip_answer (f_chip f) x end).
  { intros x. unfold chip_answer. rewrite I4, Hc. destruct x as [|[|p|p] x]; try done. repeat (destruct p as [p|p|]; try done). }
  rewrite (E [159]), (E [159; 0]), (E [159; 0; 0]). cbn [length lookup list_lookup default from_option].
  change (default _ (Some a)) with a. change (default _ (Some b)) with b. change (default _ (Some d)) with d.
  change (drop (0 + 4) [159; 0; 0; 0]) with (@nil Z). unfold Datatypes.id. set (f1 := set_jedec [a; b; d] _).
  assert (Hf : flash_idle f1 /\ f_chip f1 = f_chip f /\ f_jedec f1 = [a; b; d] /\ f_total f1 = f_total f).
  { subst f1. cbn. unfold chip_exec. rewrite I4. split; [|done]. done. }
  destruct Hf as (F1 & F2 & F3 & F4).
  assert (Hland : Z.land d 15 = d mod 16) by (change 15 with (Z.ones 4); rewrite Z.land_ones by lia; done).
  destruct (decide (a = 191)) as [->|Ha].
  - destruct (decide (b = 38)) as [->|Hb].
    + rewrite Hland. destruct (Z.eqb_spec (d mod 16) 1) as [H1|H1]; [|destruct (Z.eqb_spec (d mod 16) 2) as [H2|H2]].
      * eexists _, _. split; [reflexivity|]. split; [exact F1|]. split; [exact F2|]. split; [reflexivity|]. left. done.
      * eexists _, _. split; [reflexivity|]. split; [exact F1|]. split; [exact F2|]. split; [reflexivity|]. right. left. done.
      * eexists _, _. split; [reflexivity|]. split; [exact F1|]. split; [exact F2|]. split; [reflexivity|]. right. right. split; [tauto|]. split; [done|exact F4].
    + exists f1, (- EIO). split; [|split; [exact F1|split; [exact F2|split; [exact F3|right; right; split; [tauto|split; [done|exact F4]]]]]].
      destruct b as [|p|p]; try done. repeat (destruct p as [p|p|]; try done).
  - exists f1, (- EIO). split; [|split; [exact F1|split; [exact F2|split; [exact F3|right; right; split; [tauto|split; [done|exact F4]]]]]].
    destruct a as [|p|p]; try done. repeat (destruct p as [p|p|]; try done).
Qed.

Lemma probe_split f k k' q q' rest : flash_idle f -> (k = 1 \/ k = 2)%nat -> (2 <= k')%nat ->
  f_script f = XGot k q :: XGot k' q' :: rest -> exists f', until 2 (flash_probe SST26VF) f = Ok (f', - EIO).
Proof.
  intros (I1 & I2 & I3 & I4) Hk Hk' Hs. cbn [until]. unfold flash_probe at 1, run_cmd. cbn [length]. rewrite I1. change (0 =? 0)%nat with true. cbv iota.
  cbn [set_left f_left]. change (4 <? 4)%nat with false. cbv iota. rewrite Nat.sub_diag, drop_0. unfold spi_call. cbn [set_left f_script]. rewrite Hs.
  cbn [set_left f_chip f_cur f_log]. rewrite (idle_ready q _ I4), I3.
  assert (E2 : forall (n j : nat), exchange (f_chip f) [] (take (S n) [159; 0; 0; 0]) = exchange (f_chip f) [] (take (S n) [159; 0; 0; 0])) by done.
  destruct Hk as [->| ->]; cbn [take exchange app length].
  - change (Z.of_nat 2 <? 0) with false. cbv iota. cbn [set_script set_chip set_left f_left f_chip f_cur f_log]. change (4 - Z.to_nat (Z.of_nat 2))%nat with 2%nat.
    change (2 =? 0)%nat with false. cbv iota. cbn [rbind]. change (- EAGAIN <? 0) with true. cbv iota. cbn [rbind]. rewrite Z.eqb_refl.
    unfold flash_probe, run_cmd. cbn [length set_left set_script set_chip f_left]. change (2 =? 0)%nat with false. cbv iota. cbn [set_left set_script set_chip f_left]. change (4 <? 2)%nat with false. cbv iota.
    change (4 - 2)%nat with 2%nat. cbn [drop]. unfold spi_call. cbn [set_left set_script set_chip f_script f_chip f_cur f_log f_left]. rewrite (idle_ready q' _ I4).
    rewrite take_ge by (cbn; lia). cbn [exchange app length]. change (Z.of_nat 2 <? 0) with false. cbv iota. cbn [set_script set_chip set_left f_left f_chip f_cur f_log].
    change (2 - Z.to_nat (Z.of_nat 2))%nat with 0%nat. change (0 =? 0)%nat with true. cbv iota. cbn [rbind]. change (0 <? 0) with false. cbv iota. cbn [take app drop].
    cbn [rbind]. change (- EIO =? - EAGAIN) with false. cbv iota. eexists. reflexivity.
  - change (Z.of_nat 3 <? 0) with false. cbv iota. cbn [set_script set_chip set_left f_left f_chip f_cur f_log]. change (4 - Z.to_nat (Z.of_nat 3))%nat with 1%nat.
    change (1 =? 0)%nat with false. cbv iota. cbn [rbind]. change (- EAGAIN <? 0) with true. cbv iota. cbn [rbind]. rewrite Z.eqb_refl.
    unfold flash_probe, run_cmd. cbn [length set_left set_script set_chip f_left]. change (1 =? 0)%nat with false. cbv iota. cbn [set_left set_script set_chip f_left]. change (4 <? 1)%nat with false. cbv iota.
    change (4 - 1)%nat with 3%nat. cbn [drop]. unfold spi_call. cbn [set_left set_script set_chip f_script f_chip f_cur f_log f_left]. rewrite (idle_ready q' _ I4).
    rewrite take_ge by (cbn; lia). cbn [exchange app length]. change (Z.of_nat 1 <? 0) with false. cbv iota. cbn [set_script set_chip set_left f_left f_chip f_cur f_log].
    change (1 - Z.to_nat (Z.of_nat 1))%nat with 0%nat. change (0 =? 0)%nat with true. cbv iota. cbn [rbind]. change (0 <? 0) with false. cbv iota. cbn [take app drop].
    cbn [rbind]. change (- EIO =? - EAGAIN) with false. cbv iota. eexists. reflexivity.
Qed.
