(** FlashProofs4.v - proofs about the external flash drivers: quad enable. *)
From Verif Require Import Base FlashModel FlashSpec FlashProofs.
From Coq Require Import ZifyBool ZifyNat.

Section qe.
Context (en : bool) (f0 : fx).
Notation c0 := (f_chip f0).
Definition q (s : Z) : Z := if en then Z.lor s 2 else Z.land s 253.
Lemma q_q s : q (q s) = q s.
Proof.
  unfold q. destruct en.
  - by rewrite <- Z.lor_assoc.
  - by rewrite <- Z.land_assoc.
Qed.
Definition qs : Z := q (c_sr2 c0).

(** Nothing but the bit has changed. *)
Definition qe_chip (c : chip) : Prop :=
  c_mem c = c_mem c0 /\ c_size c = c_size c0 /\ c_id c = c_id c0 /\ c_sr1 c / 4 = c_sr1 c0 / 4 /\ c_sr3 c = c_sr3 c0 /\
  (c_sr2 c = c_sr2 c0 \/ c_sr2 c = qs).
Definition need (c : chip) (a : nat) : nat := if c_sr2 c =? qs then a else (13 + a)%nat.
Definition need2 (c : chip) (i : nat) : nat := if c_sr2 c =? qs then 0%nat else (13 - i)%nat.

Definition Iqe (b : nat) (f : fx) : Prop :=
  exists (k l : nat) (c : chip) (cur : list Z) (lg : list (list Z)) (sc : list xo) (a x w0 w1 w2 w3 : Z),
  f = set_seq k (tr l c cur lg sc (set_wsr [w0; w1; w2; w3] (set_rsr [a; x] f0))) /\ qe_chip c /\
  match k with
  | 0%nat => exists i, inphase [5; x] i f /\ c_busy c = false /\ b = (need c (4 - i))%nat
  | 1%nat => exists i, inphase [53; x] i f /\ c_busy c = false /\ x = status1 c /\ b = (need c (2 - i))%nat
  | 2%nat => exists i, inphase [51; x] i f /\ c_busy c = false /\ x = c_sr2 c /\ w1 = status1 c /\ (c_sr2 c = qs -> l = 0%nat /\ cur = []) /\ b = need2 c i
  | 3%nat => inphase [6] 0 f /\ c_busy c = false /\ x = c_sr3 c /\ w1 = status1 c /\ w2 = qs /\ b = 11%nat
  | 4%nat => exists i st, inphase [1; st; qs; c_sr3 c0] i f /\ c_busy c = false /\ c_wel c = true /\ st / 4 = c_sr1 c0 / 4 /\
               drop i [1; w1; w2; w3] = drop i [1; st; qs; c_sr3 c0] /\ b = (10 - i)%nat
  | 5%nat => exists i, inphase [5; 0] i f /\ c_sr2 c = qs /\ b = (6 - i)%nat
  | _ => k = 6%nat /\ l = 0%nat /\ cur = [] /\ c_busy c = false /\ c_sr2 c = qs /\ b = 4%nat
  end.

Definition qe_done (f : fx) : Prop := flash_idle f /\ qe_chip (f_chip f) /\ c_sr2 (f_chip f) = qs.

Lemma qs_qs c : qe_chip c -> q (c_sr2 c) = qs.
Proof. intros (_ & _ & _ & _ & _ & [->| ->]); [done|]. unfold qs. apply q_q. Qed.
Lemma st_4 c : status1 c / 4 = c_sr1 c / 4.
Proof.
  unfold status1. rewrite <- Z.add_assoc, Z.div_add_l by lia.
  rewrite (Z.div_small ((if c_wel c then 2 else 0) + (if c_busy c then 1 else 0))) by (destruct (c_wel c), (c_busy c); lia). lia.
Qed.
Lemma need_le c i j g : qe_chip c -> (i + g <= j)%nat -> (j <= 2)%nat -> (need c (4 - j) + g <= need c (4 - i))%nat /\ (need c (2 - j) + g <= need c (2 - i))%nat.
Proof. intros _ H1 H2. unfold need. destruct (c_sr2 c =? qs); lia. Qed.

Lemma qe_ready c c' : ready_of c c' -> qe_chip c -> qe_chip c'.
Proof. intros [->| ->]; done. Qed.
Lemma exec_read (c : chip) (o x : Z) : o = 5 \/ o = 53 \/ o = 51 -> chip_exec c [o; x] = c.
Proof. intros [->|[->| ->]]; unfold chip_exec; by destruct (c_busy c). Qed.

Lemma rsr_cmd (k : nat) (o : Z) (i : nat) (f : fx) (l : nat) (c : chip) (cur : list Z) (lg : list (list Z)) (sc : list xo) (a x w0 w1 w2 w3 : Z) :
  f = set_seq k (tr l c cur lg sc (set_wsr [w0; w1; w2; w3] (set_rsr [a; x] f0))) -> o = 5 \/ o = 53 \/ o = 51 ->
  inphase [o; x] i f -> c_busy c = false -> only_eagain (f_script f) ->
  exists (f' : fx) (buf : list Z) (r : Z) (g : nat), run_cmd f [o; x] = Ok (f', buf, r) /\ used (f_script f) (f_script f') g /\
   ((r = - EAGAIN /\ (f_script f' = [] \/ (length (f_script f') < length (f_script f))%nat) /\
     exists l' cur' sc' a' i', set_rsr buf f' = set_seq k (tr l' c cur' lg sc' (set_wsr [w0; w1; w2; w3] (set_rsr [a'; x] f0))) /\
        inphase [o; x] i' (set_rsr buf f') /\ (i + g <= i')%nat) \/
    (r = 0 /\ g = 1%nat /\ (length (f_script f') < length (f_script f))%nat /\
     exists lg' sc' a', set_rsr buf f' = set_seq k (tr 0 c [] lg' sc' (set_wsr [w0; w1; w2; w3] (set_rsr [a'; chip_answer c [o]] f0))))).
Proof.
  intros Ef Hop P Hb Ho.
  destruct (run_cmd_spec f [o; x] [o; x] i P eq_refl eq_refl Ho) as (l' & c' & cur' & lg' & sc' & buf & r & g & E & U & L & D).
  exists (tr l' c' cur' lg' sc' f), buf, r, g. split; [done|]. split; [done|].
  assert (Hi : (i < 2)%nat) by (destruct P as (P & _); cbn in P; lia).
  destruct D as [(-> & i' & G & P' & El & Er & Eb)|(-> & -> & -> & -> & -> & c1 & Er & -> & Eb & Ha)]; [left|right].
  - split; [done|]. split; [done|]. assert (Hi' : (i' < 2)%nat) by (destruct P' as (P' & _); cbn in P'; lia).
    assert (c' = c) as -> by (apply ready_idle; [done|]; by rewrite Ef in Er).
    assert (exists a', buf = [a'; x]) as (a' & ->).
    { rewrite Eb. destruct i as [|[|]], i' as [|[|]]; try lia; eexists; reflexivity. }
    exists l', cur', sc', a', i'. split; [by rewrite Ef, El, Ef|]. split; [done|lia].
  - split; [done|]. split; [done|].
    assert (Hsc : (length sc' < length (f_script f))%nat).
    { destruct L as [->|L]; [|done]. destruct U as (U & _). cbn [exchanges] in U. destruct (f_script f); [done|cbn; lia]. }
    split; [done|]. assert (c1 = c) as -> by (apply ready_idle; [done|]; by rewrite Ef in Er).
    rewrite exec_read by done.
    assert (exists a', buf = [a'; chip_answer c [o]]) as (a' & ->).
    { rewrite Eb. destruct i as [|[|]]; try lia; eexists; reflexivity. }
    exists (f_log f ++ [[o; x]]), sc', a'. by rewrite Ef.
Qed.

Definition six (f : fx) : nat := if (f_seq f =? 6)%nat then 1 else 0.
Definition mes (f : fx) : nat := (2 * length (f_script f) + six f)%nat.

Lemma qe_turn_ok b f : Iqe b f -> only_eagain (f_script f) ->
  exists (f' : fx) (r : option Z) (b' g : nat), qe_turn en f = Ok (f', r) /\ used (f_script f) (f_script f') g /\
    (always_ready (f_script f) -> (b' + g <= b)%nat) /\
    match r with
    | None => Iqe b' f' /\ (mes f' < mes f)%nat
    | Some r => (r = - EAGAIN /\ (0 < b')%nat /\ Iqe b' f' /\ (f_script f' = [] \/ (length (f_script f') < length (f_script f))%nat)) \/ (r = 0 /\ qe_done f')
    end.
Proof.
  intros (k & l & c & cur & lg & sc & a & x & w0 & w1 & w2 & w3 & Ef & Hq & H) Ho.
  assert (Hs : f_seq f = k) by by rewrite Ef.
  assert (Hr : f_rsr f = [a; x]) by by rewrite Ef.
  assert (Hw : f_wsr f = [w0; w1; w2; w3]) by by rewrite Ef.
  unfold qe_turn. rewrite Hs, Hr, Hw. change (default 0 ([a; x] !! 1%nat)) with x.
  destruct k as [|[|[|[|[|[|k]]]]]].
  - destruct H as (i & P & Hb & ->).
    destruct (rsr_cmd 0 5 i f _ _ _ _ _ _ _ _ _ _ _ Ef ltac:(by left) P Hb Ho) as (f1 & buf & r & g & E & U & D). rewrite E. cbn [rbind].
    assert (Hi : (i < 2)%nat) by (destruct P as (P & _); cbn in P; lia).
    destruct D as [(-> & L & l' & cur' & sc' & a' & i' & E1 & P1 & G)|(-> & -> & L & lg' & sc' & a' & E1)].
    + change (- EAGAIN <? 0) with true. cbv iota. exists (set_rsr buf f1), (Some (- EAGAIN)), (need c (4 - i')), g. split; [done|]. split; [done|].
      assert (Hi' : (i' < 2)%nat) by (destruct P1 as (P1 & _); cbn in P1; lia).
      split; [intros _; unfold need; destruct (c_sr2 c =? qs); lia|]. left. split; [done|]. split; [unfold need; destruct (c_sr2 c =? qs); lia|]. split; [|done].
      exists 0%nat, l', c, cur', lg, sc', a', x, w0, w1, w2, w3. split; [done|]. split; [done|]. exists i'. done.
    + change (0 <? 0) with false. cbv iota. exists (set_seq 1 (set_rsr buf f1)), None, (need c 2), 1%nat.
      split; [do 3 f_equal; by rewrite E1|]. split; [done|]. split; [intros _; unfold need; destruct (c_sr2 c =? qs); lia|]. split.
      * rewrite E1. exists 1%nat, 0%nat, c, [], lg', sc', a', (status1 c), w0, w1, w2, w3. split; [done|]. split; [done|]. exists 0%nat.
        split; [|done]. split; [cbn; lia|]. split; [by right|done].
      * unfold mes, six. rewrite Hs. cbn [set_seq set_rsr f_script f_seq Nat.eqb]. lia.
  - destruct H as (i & P & Hb & Hx & ->). change (<[1%nat:=x]> [w0; w1; w2; w3]) with [w0; x; w2; w3].
    destruct (rsr_cmd 1 53 i (set_wsr [w0; x; w2; w3] f) l c cur lg sc a x w0 x w2 w3 ltac:(by rewrite Ef) ltac:(tauto) P Hb Ho) as (f1 & buf & r & g & E & U & D). rewrite E. cbn [rbind].
    cbn [set_wsr f_script] in U, D.
    assert (Hi : (i < 2)%nat) by (destruct P as (P & _); cbn in P; lia).
    destruct D as [(-> & L & l' & cur' & sc' & a' & i' & E1 & P1 & G)|(-> & -> & L & lg' & sc' & a' & E1)].
    + change (- EAGAIN <? 0) with true. cbv iota. exists (set_rsr buf f1), (Some (- EAGAIN)), (need c (2 - i')), g. split; [done|]. split; [done|].
      assert (Hi' : (i' < 2)%nat) by (destruct P1 as (P1 & _); cbn in P1; lia).
      split; [intros _; unfold need; destruct (c_sr2 c =? qs); lia|]. left. split; [done|]. split; [unfold need; destruct (c_sr2 c =? qs); lia|]. split; [|done].
      exists 1%nat, l', c, cur', lg, sc', a', x, w0, x, w2, w3. split; [done|]. split; [done|]. exists i'. done.
    + change (0 <? 0) with false. cbv iota. exists (set_seq 2 (set_rsr buf f1)), None, (need2 c 0), 1%nat.
      split; [do 3 f_equal; by rewrite E1|]. split; [done|]. split; [intros _; unfold need, need2; destruct (c_sr2 c =? qs); lia|]. split.
      * rewrite E1. exists 2%nat, 0%nat, c, [], lg', sc', a', (c_sr2 c), w0, x, w2, w3.
        split; [cbn [chip_answer]; by rewrite Hb|]. split; [done|]. exists 0%nat.
        split; [split; [cbn; lia|split; [by right|done]]|]. done.
      * unfold mes, six. rewrite Hs. cbn [set_seq set_rsr f_script f_seq Nat.eqb]. lia.
  - destruct H as (i & P & Hb & Hx & Hw1 & H00 & ->). fold (q x). change (<[2%nat:=q x]> [w0; w1; w2; w3]) with [w0; w1; q x; w3].
    assert (Hi : (i < 2)%nat) by (destruct P as (P & _); cbn in P; lia).
    assert (Eq : q x = qs) by (rewrite Hx; by apply qs_qs).
    destruct (Z.eqb_spec (q x) x) as [Hqx|Hqx].
    + exists (set_seq 0 (set_wsr [w0; w1; q x; w3] f)), (Some 0), 0%nat, 0%nat. split; [done|]. split; [apply used_refl|]. split; [lia|]. right. split; [done|].
      assert (Hcur : f_left f = 0%nat /\ f_cur f = []).
      { rewrite Ef. cbn [set_seq tr set_script set_chip set_left f_left f_cur]. apply H00. by rewrite <- Hx, <- Hqx. }
      destruct Hcur as (H1 & H2). split; [|split].
      * split; [exact H1|]. split; [done|]. split; [exact H2|]. by rewrite Ef.
      * by rewrite Ef.
      * rewrite Ef. cbn [set_seq set_wsr set_rsr tr set_script set_chip set_left f_chip]. by rewrite <- Hx, <- Hqx.
    + destruct (rsr_cmd 2 51 i (set_wsr [w0; w1; q x; w3] f) l c cur lg sc a x w0 w1 (q x) w3 ltac:(by rewrite Ef) ltac:(tauto) P Hb Ho) as (f1 & buf & r & g & E & U & D). rewrite E. cbn [rbind].
      cbn [set_wsr f_script] in U, D. assert (Hne : (c_sr2 c =? qs) = false) by lia.
      destruct D as [(-> & L & l' & cur' & sc' & a' & i' & E1 & P1 & G)|(-> & -> & L & lg' & sc' & a' & E1)].
      * change (- EAGAIN <? 0) with true. cbv iota. exists (set_rsr buf f1), (Some (- EAGAIN)), (need2 c i'), g. split; [done|]. split; [done|].
        assert (Hi' : (i' < 2)%nat) by (destruct P1 as (P1 & _); cbn in P1; lia).
        split; [intros _; unfold need2; rewrite Hne; lia|]. left. split; [done|]. split; [unfold need2; rewrite Hne; lia|]. split; [|done].
        exists 2%nat, l', c, cur', lg, sc', a', x, w0, w1, (q x), w3. split; [done|]. split; [done|]. exists i'. split; [done|]. split; [done|]. split; [done|]. split; [done|]. split; [lia|done].
      * change (0 <? 0) with false. cbv iota. exists (set_seq 3 (set_rsr buf f1)), None, 11%nat, 1%nat.
        split; [do 3 f_equal; by rewrite E1|]. split; [done|]. split; [intros _; unfold need2; rewrite Hne; lia|]. split.
        -- rewrite E1. exists 3%nat, 0%nat, c, [], lg', sc', a', (c_sr3 c), w0, w1, (q x), w3.
           split; [cbn [chip_answer]; by rewrite Hb|]. split; [done|].
           split; [|done]. split; [cbn; lia|]. split; [by right|done].
        -- unfold mes, six. rewrite Hs. cbn [set_seq set_rsr f_script f_seq Nat.eqb]. lia.
  - destruct H as (P & Hb & Hx & Hw1 & Hw2 & ->). change (<[3%nat:=x]> [w0; w1; w2; w3]) with [w0; w1; w2; x].
    destruct (run_cmd_spec (set_wsr [w0; w1; w2; x] f) [6] [6] 0 P eq_refl eq_refl Ho) as (l' & c' & cur' & lg' & sc' & buf & r & g & E & U & L & D).
    rewrite E. cbn [rbind]. cbn [set_wsr f_script f_chip f_log] in U, L, D. assert (Ec : f_chip f = c) by by rewrite Ef.
    destruct D as [(-> & i' & G & P' & El & Er & _)|(-> & -> & -> & -> & -> & c1 & Er & -> & Eb & Ha)].
    + change (- EAGAIN <? 0) with true. cbv iota. assert (i' = 0)%nat as -> by (destruct P' as (P' & _); cbn in P'; lia).
      exists (tr l' c' cur' lg' sc' (set_wsr [w0; w1; w2; x] f)), (Some (- EAGAIN)), 11%nat, g. split; [done|]. split; [done|]. split; [intros _; lia|]. left. split; [done|]. split; [lia|]. split; [|done].
      assert (c' = c) as -> by (rewrite Ec in Er; by apply ready_idle).
      exists 3%nat, l', c, cur', lg', sc', a, x, w0, w1, w2, x. split; [by rewrite Ef|]. split; [done|]. done.
    + change (0 <? 0) with false. cbv iota. assert (c1 = c) as -> by (rewrite Ec in Er; by apply ready_idle). rewrite exec_wren by done.
      eexists (set_seq 4 (tr 0 (with_wel true c) [] (f_log f ++ [[6]]) sc' (set_wsr [w0; w1; w2; x] f))), None, 10%nat, 1%nat.
      split; [do 3 f_equal; by rewrite Ef|]. split; [done|]. split; [lia|]. split.
      * exists 4%nat, 0%nat, (with_wel true c), [], (f_log f ++ [[6]]), sc', a, x, w0, w1, w2, x. split; [by rewrite Ef|]. split; [exact Hq|].
        exists 0%nat, w1. split; [split; [cbn; lia|split; [by right|done]]|]. split; [done|]. split; [done|]. split; [rewrite Hw1, st_4; apply Hq|]. split; [|done].
        rewrite !drop_0. rewrite Hw2, Hx. destruct Hq as (_ & _ & _ & _ & -> & _). done.
      * unfold mes, six. rewrite Hs. cbn [set_seq tr set_script f_script f_seq Nat.eqb].
        assert (length sc' < length (f_script f))%nat; [|lia].
        destruct L as [->|L]; [|done]. destruct U as (U & _). cbn [exchanges] in U. destruct (f_script f); [done|cbn; lia].
  - destruct H as (i & st & P & Hb & Hwe & Hst & Hdr & ->). change (<[0%nat:=1]> [w0; w1; w2; w3]) with [1; w1; w2; w3].
    destruct (run_cmd_spec f [1; w1; w2; w3] [1; st; qs; c_sr3 c0] i P eq_refl Hdr Ho) as (l' & c' & cur' & lg' & sc' & buf & r & g & E & U & L & D).
    rewrite E. cbn [rbind]. assert (Ec : f_chip f = c) by by rewrite Ef.
    assert (Hi : (i < 4)%nat) by (destruct P as (P & _); cbn in P; lia).
    destruct D as [(-> & i' & G & P' & El & Er & Eb)|(-> & -> & -> & -> & -> & c1 & Er & -> & Eb & Ha)].
    + change (- EAGAIN <? 0) with true. cbv iota. assert (Hi' : (i' < 4)%nat) by (destruct P' as (P' & _); cbn in P'; lia).
      exists (set_wsr buf (tr l' c' cur' lg' sc' f)), (Some (- EAGAIN)), (10 - i')%nat, g. split; [done|]. split; [done|]. split; [intros _; lia|]. left. split; [done|]. split; [lia|]. split; [|done].
      assert (c' = c) as -> by (rewrite Ec in Er; by apply ready_idle).
      assert (exists v0 v1 v2 v3, buf = [v0; v1; v2; v3] /\ drop i' [1; v1; v2; v3] = drop i' [1; st; qs; c_sr3 c0]) as (v0 & v1 & v2 & v3 & -> & Hd).
      { assert (Hm : drop i' [1; w1; w2; w3] = drop i' [1; st; qs; c_sr3 c0]).
        { replace i' with (i + (i' - i))%nat by lia. rewrite <- !drop_drop. by rewrite Hdr. }
        assert (Hl : length buf = 4%nat) by (rewrite Eb, !app_length, take_length, answers_len, drop_length; cbn [length]; lia).
        assert (Hd2 : drop i' buf = drop i' [1; st; qs; c_sr3 c0]).
        { rewrite Eb, app_assoc, drop_app_ge by (rewrite app_length, take_length, answers_len; cbn [length]; lia).
          rewrite app_length, take_length, answers_len. cbn [length]. replace (i' - (i `min` 4 + (i' - i)))%nat with 0%nat by lia. by rewrite drop_0. }
        destruct buf as [|v0 [|v1 [|v2 [|v3 [|]]]]]; try done. exists v0, v1, v2, v3. split; [done|].
        destruct i' as [|i']; [|exact Hd2]. cbn [drop] in *. by injection Hd2 as -> -> -> ->. }
      exists 4%nat, l', c, cur', lg', sc', a, x, v0, v1, v2, v3. split; [by rewrite Ef|]. split; [done|]. exists i', st. done.
    + change (0 <? 0) with false. cbv iota. assert (c1 = c) as -> by (rewrite Ec in Er; by apply ready_idle).
      assert (Ex : chip_exec c [1; st; qs; c_sr3 c0] = with_status st qs (c_sr3 c0) c) by (unfold chip_exec; by rewrite Hb, Hwe). rewrite Ex.
      assert (exists v0 v1 v2 v3, buf = [v0; v1; v2; v3]) as (v0 & v1 & v2 & v3 & ->).
      { assert (Hl : length buf = 4%nat) by (rewrite Eb, !app_length, take_length, answers_len; cbn [length]; lia).
        destruct buf as [|v0 [|v1 [|v2 [|v3 [|]]]]]; try done. by exists v0, v1, v2, v3. }
      eexists (set_seq 5 (set_wsr [v0; v1; v2; v3] (tr 0 (with_status st qs (c_sr3 c0) c) [] (f_log f ++ [[1; st; qs; c_sr3 c0]]) sc' f))), None, 6%nat, 1%nat.
      split; [do 3 f_equal; by rewrite Ef|]. split; [done|]. split; [lia|]. split.
      * exists 5%nat, 0%nat, (with_status st qs (c_sr3 c0) c), [], (f_log f ++ [[1; st; qs; c_sr3 c0]]), sc', a, x, v0, v1, v2, v3. split; [by rewrite Ef|]. split.
        { destruct Hq as (Q1 & Q2 & Q3 & Q4 & Q5 & Q6). split; [done|]. split; [done|]. split; [done|]. split; [done|]. split; [done|by right]. }
        exists 0%nat. split; [|done]. split; [cbn; lia|]. split; [by right|done].
      * unfold mes, six. rewrite Hs. cbn [set_seq set_wsr tr set_script f_script f_seq Nat.eqb].
        assert (length sc' < length (f_script f))%nat; [|lia].
        destruct L as [->|L]; [|done]. destruct U as (U & _). cbn [exchanges] in U. destruct (f_script f); [done|cbn; lia].
  - destruct H as (i & P & Hs2 & ->).
    destruct (run_busy_spec f i P Ho) as (l' & c' & cur' & lg' & sc' & r & g & E & U & Er & D). rewrite E. cbn [rbind].
    assert (Hi2 : (i < 2)%nat) by apply P. assert (Ec : f_chip f = c) by by rewrite Ef. rewrite Ec in Er.
    assert (Hq' : qe_chip c') by (by eapply qe_ready). assert (Hs2' : c_sr2 c' = qs) by (by destruct Er as [->| ->]).
    destruct D as [(-> & L & i' & P' & D)|(-> & -> & -> & -> & -> & Eb)].
    + change (- EAGAIN <? 0) with true. cbv iota. exists (tr l' c' cur' lg' sc' f), (Some (- EAGAIN)), (6 - i')%nat, g. split; [done|]. split; [done|].
      assert (i' < 2)%nat by apply P'. split.
      { intros Y. destruct D as [(_ & D)|(_ & _ & _ & D)]; [lia|done]. }
      left. split; [done|]. split; [lia|]. split; [|done]. exists 5%nat, l', c', cur', lg', sc', a, x, w0, w1, w2, w3. split; [by rewrite Ef|]. split; [done|].
      exists i'. done.
    + change (0 <? 0) with false. cbv iota. eexists (set_seq 6 (tr 0 c' [] (f_log f ++ [[5; 0]]) sc' f)), None, 4%nat, 1%nat. split; [do 3 f_equal; by rewrite Ef|]. split; [done|]. split; [lia|].
      split.
      * exists 6%nat, 0%nat, c', [], (f_log f ++ [[5; 0]]), sc', a, x, w0, w1, w2, w3. split; [by rewrite Ef|]. split; [done|]. done.
      * unfold mes, six. rewrite Hs. cbn [set_seq tr set_script f_script f_seq Nat.eqb].
        destruct U as (U & _ & _ & U4). assert (length sc' < length (f_script f))%nat; [|lia].
        lia.
  - destruct H as (Hk & -> & -> & Hb & Hs2 & ->). assert (k = 0)%nat as -> by lia.
    exists (set_seq 0 f), None, 4%nat, 0%nat. split; [done|]. split; [apply used_refl|]. split; [lia|]. split.
    + rewrite Ef. exists 0%nat, 0%nat, c, [], lg, sc, a, x, w0, w1, w2, w3. split; [done|]. split; [done|]. exists 0%nat.
      split; [split; [cbn; lia|split; [by right|done]]|]. split; [done|]. unfold need. rewrite Hs2, Z.eqb_refl. done.
    + unfold mes, six. rewrite Hs. cbn [set_seq f_script f_seq Nat.eqb]. lia.
Qed.

Lemma qe_loop_ok n : forall b f, Iqe b f -> only_eagain (f_script f) -> (mes f < n)%nat ->
  exists (f' : fx) (r : Z) (b' g : nat), qe_loop n en f = Ok (f', r) /\ used (f_script f) (f_script f') g /\
    (always_ready (f_script f) -> (b' + g <= b)%nat) /\
    ((r = - EAGAIN /\ (0 < b')%nat /\ Iqe b' f' /\ (f_script f' = [] \/ (length (f_script f') < length (f_script f))%nat)) \/ (r = 0 /\ qe_done f')).
Proof.
  induction n as [|n IH]; intros b f Hi Ho Hm; [lia|]. cbn [qe_loop].
  destruct (qe_turn_ok b f Hi Ho) as (f1 & r & b1 & g & E & U & B & D). rewrite E. cbn [rbind]. destruct r as [r|].
  - exists f1, r, b1, g. done.
  - destruct D as (I1 & M1). destruct U as (U1 & U2 & U3 & U4).
    destruct (IH b1 f1 I1 ltac:(auto) ltac:(lia)) as (f2 & r & b2 & g2 & E2 & V & B2 & D2).
    exists f2, r, b2, (g + g2)%nat. split; [done|]. split; [eapply used_trans; [|done]; by repeat split|].
    split; [intros Y; specialize (B Y); specialize (B2 (U3 Y)); lia|].
    destruct D2 as [(-> & P & I2 & L2)|D2]; [left|by right]. split; [done|]. split; [done|]. split; [done|]. destruct L2; [by left|right; lia].
Qed.

Lemma qe_until N : forall b f, Iqe b f -> only_eagain (f_script f) ->
  exists (f' : fx) (r : Z), until N (flash_quad_enable en) f = Ok (f', r) /\
   ((r = - EAGAIN /\ exists b' g, Iqe b' f' /\ used (f_script f) (f_script f') g /\ (always_ready (f_script f) -> (b' + g <= b)%nat) /\ ((0 < N)%nat -> (0 < b')%nat) /\
      (f_script f' = [] \/ (length (f_script f') + N <= length (f_script f))%nat)) \/ (r = 0 /\ qe_done f')).
Proof.
  induction N as [|N IH]; intros b f Hi Ho; cbn [until].
  - exists f, (- EAGAIN). split; [done|]. left. split; [done|]. exists b, 0%nat. split; [done|]. split; [apply used_refl|]. split; [lia|]. split; [lia|right; lia].
  - unfold flash_quad_enable at 1. assert (Hm : (mes f < 2 * length (f_script f) + 3)%nat) by (unfold mes, six; destruct (f_seq f =? 6)%nat; lia).
    destruct (qe_loop_ok _ b f Hi Ho Hm) as (f1 & r & b1 & g & E & U & B & [(-> & B0 & I1 & L)|(-> & R)]); rewrite E; cbn [rbind].
    + rewrite Z.eqb_refl. destruct U as (U1 & U2 & U3 & U4).
      destruct (IH b1 f1 I1 ltac:(auto)) as (f2 & r2 & E2 & [(-> & b2 & g2 & I2 & V & B2 & B3 & L2)|R]); exists f2; [exists (- EAGAIN)|exists r2]; (split; [done|]); [left|by right].
      split; [done|]. destruct N as [|N].
      { cbn [until] in E2. injection E2 as <-. exists b1, g. split; [done|]. split; [by repeat split|]. split; [done|]. split; [done|]. destruct L; [by left|right; lia]. }
      exists b2, (g + g2)%nat. split; [done|]. split; [eapply used_trans; [|done]; by repeat split|]. split; [intros Y; specialize (B Y); specialize (B2 (U3 Y)); lia|].
      split; [intros _; apply B3; lia|].
      destruct L2 as [|L2]; [by left|]. destruct L as [L|L]; [|right; lia]. left. rewrite L in L2. destruct (f_script f2); [done|cbn [length] in L2; lia].
    + exists f1, 0. split; [done|]. by right.
Qed.
End qe.

Lemma qe_run en f N : flash_idle f -> length (f_rsr f) = 2%nat -> length (f_wsr f) = 4%nat -> only_eagain (f_script f) ->
  exists (f' : fx) (r : Z), until N (flash_quad_enable en) f = Ok (f', r) /\ qe_chip en f (f_chip f') /\
    (r = - EAGAIN \/ (r = 0 /\ qe_done en f f')) /\
    (always_ready (f_script f) -> (17 <= exchanges (f_script f))%nat -> (length (f_script f) < N)%nat -> r = 0).
Proof.
  intros Hid Hr Hw Ho.
  assert (Start : exists b, (b <= 17)%nat /\ Iqe en f b f).
  { destruct Hid as (I1 & I2 & I3 & I4). destruct (f_rsr f) as [|a [|x [|]]] eqn:Er; try done. destruct (f_wsr f) as [|w0 [|w1 [|w2 [|w3 [|]]]]] eqn:Ew; try done.
    exists (need en f (f_chip f) 4). split; [unfold need; destruct (c_sr2 (f_chip f) =? qs en f); lia|].
    exists 0%nat, (f_left f), (f_chip f), (f_cur f), (f_log f), (f_script f), a, x, w0, w1, w2, w3. split; [destruct f; cbn in *; by subst|].
    split; [repeat split; by left|]. exists 0%nat. split; [|done]. split; [cbn; lia|]. split; [by right|done]. }
  destruct Start as (b & Hb & Start).
  destruct (qe_until en f N b f Start Ho) as (f' & r & E & D). exists f', r. split; [done|]. split; [|split].
  - destruct D as [(_ & b' & g & (k & l & c & cur & lg & sc & a & x & w0 & w1 & w2 & w3 & Ef & Hq & _) & _)|(_ & (_ & Hq & _))]; [|done]. by rewrite Ef.
  - destruct D as [(-> & _)|(-> & D)]; [by left|by right].
  - intros H1 H2 H3. destruct D as [(-> & b' & g & I1 & (U & _) & B & B0 & L)|(D & _)]; [|done]. exfalso. destruct L as [L|L]; [|lia].
    rewrite L in U. cbn [exchanges] in U. specialize (B H1). specialize (B0 ltac:(lia)). lia.
Qed.
