(** FlashProofs.v - proofs about the external flash drivers. *)
From Verif Require Import Base FlashModel FlashSpec.
From Coq Require Import ZifyBool ZifyNat.

Lemma exchange_spec c tx : forall cur,
  exchange c cur tx = (cur ++ tx, map (fun j => chip_answer c (cur ++ take j tx)) (seq 0 (length tx))).
Proof.
  induction tx as [|b tx IH]; intros cur; cbn [exchange length seq map].
  - by rewrite app_nil_r.
  - rewrite IH. f_equal; [by rewrite <- app_assoc|]. rewrite <- seq_shift, map_map. cbn [take]. f_equal; [by rewrite app_nil_r|].
    apply map_ext. intros j. f_equal. cbn [take]. by rewrite <- app_assoc.
Qed.

(** The fields a command may change. *)
Definition tr (l : nat) (c : chip) (cur : list Z) (lg : list (list Z)) (sc : list xo) (f : fx) : fx :=
  set_script sc (set_chip c cur lg (set_left l f)).
Definition ready_of (c c' : chip) : Prop := c' = c \/ c' = chip_ready c.
Definition answers (c : chip) (cmd : list Z) (i n : nat) : list Z := map (fun j => chip_answer c (take j cmd)) (seq i n).
Lemma answers_len c cmd i n : length (answers c cmd i n) = n.
Proof. unfold answers. by rewrite map_length, seq_length. Qed.

(** [i] bytes of the command [cmd] are sent. *)
Definition inphase (cmd : list Z) (i : nat) (f : fx) : Prop :=
  (i < length cmd)%nat /\ (f_left f = (length cmd - i)%nat \/ (f_left f = 0%nat /\ i = 0%nat)) /\ f_cur f = take i cmd.

(** How a script is consumed: [g] exchanges were made, the rest is [sc']. *)
Definition used (sc sc' : list xo) (g : nat) : Prop :=
  exchanges sc = (exchanges sc' + g)%nat /\ (only_eagain sc -> only_eagain sc') /\ (always_ready sc -> always_ready sc') /\
  (length sc' + g <= length sc)%nat.

Lemma run_cmd_spec f buf cmd i : inphase cmd i f -> length buf = length cmd -> drop i buf = drop i cmd -> only_eagain (f_script f) ->
  exists (l : nat) (c' : chip) (cur : list Z) (lg : list (list Z)) (sc : list xo) (buf' : list Z) (r : Z) (g : nat),
    run_cmd f buf = Ok (tr l c' cur lg sc f, buf', r) /\ used (f_script f) sc g /\
    (sc = [] \/ (length sc < length (f_script f))%nat) /\
    ( (r = - EAGAIN /\ (exists i', (i + g <= i')%nat /\ inphase cmd i' (tr l c' cur lg sc f) /\ lg = f_log f /\ ready_of (f_chip f) c' /\
         buf' = take i buf ++ answers c' cmd i (i' - i) ++ drop i' buf)) \/
      (r = 0 /\ l = 0%nat /\ cur = [] /\ g = 1%nat /\ lg = f_log f ++ [cmd] /\
         exists c, ready_of (f_chip f) c /\ c' = chip_exec c cmd /\ buf' = take i buf ++ answers c cmd i (length cmd - i) /\
                   (always_ready (f_script f) -> c = chip_ready (f_chip f))) ).
Proof.
  intros (Hi & Hl & Hc) Hlen Hdrop Hs. unfold run_cmd. rewrite Hlen.
  set (f0 := if (f_left f =? 0)%nat then set_left (length cmd) f else f).
  assert (E0 : f0 = set_left (length cmd - i) f).
  { subst f0. destruct (Nat.eqb_spec (f_left f) 0).
    - destruct Hl as [|[_ ->]]; [lia|]. by rewrite Nat.sub_0_r.
    - destruct Hl as [Hl|[]]; [|lia]. rewrite <- Hl. by destruct f. }
  rewrite E0. clear f0 E0. cbn [set_left f_left]. destruct (Nat.ltb_spec (length cmd) (length cmd - i)); [lia|].
  replace (length cmd - (length cmd - i))%nat with i by lia. unfold spi_call. cbn [set_left f_script].
  destruct (f_script f) as [|x r] eqn:Es.
  - change (- EAGAIN <? 0) with true. cbv iota.
    exists (length cmd - i)%nat, (f_chip f), (f_cur f), (f_log f), [], buf, (- EAGAIN), 0%nat.
    split; [unfold tr, set_script, set_chip, set_left; cbn; by rewrite Es|]. split; [by repeat split|]. split; [by left|]. left. split; [done|]. exists i. split; [lia|].
    split; [|split; [done|split; [by left|]]].
    + split; [done|]. split; [by left|done].
    + rewrite Nat.sub_diag. cbn [answers seq map app]. by rewrite take_drop.
  - destruct x as [e|k ready].
    + apply Forall_cons in Hs as [He Hs]. cbn beta iota in He. rewrite He. change (- EAGAIN <? 0) with true. cbv iota.
      exists (length cmd - i)%nat, (f_chip f), (f_cur f), (f_log f), r, buf, (- EAGAIN), 0%nat.
      split; [done|]. split.
      { split; [cbn; lia|]. split; [by intros X; apply Forall_cons in X as [_ X]|]. split; [by intros X; apply Forall_cons in X as [_ X]|cbn; lia]. }
      split; [right; cbn; lia|]. left. split; [done|]. exists i. split; [lia|].
      split; [|split; [done|split; [by left|]]].
      * split; [done|]. split; [by left|done].
      * rewrite Nat.sub_diag. cbn [answers seq map app]. by rewrite take_drop.
    + cbn [set_left f_chip f_cur f_log]. set (c := if ready then chip_ready (f_chip f) else f_chip f).
      rewrite exchange_spec. rewrite Hc, Hdrop. set (tx := take (S k) (drop i cmd)).
      assert (Htx : length tx = Nat.min (S k) (length cmd - i)) by (subst tx; rewrite take_length, drop_length; done).
      set (t := length tx) in *. rewrite map_length, seq_length.
      assert (Hr : (Z.of_nat t <? 0) = false) by lia. rewrite Hr. rewrite Nat2Z.id.
      assert (Ha : map (fun j => chip_answer c (take i cmd ++ take j tx)) (seq 0 t) = answers c cmd i t).
      { unfold answers. apply list_eq. intros j. rewrite !list_lookup_fmap. destruct (decide (j < t)%nat).
        - rewrite !lookup_seq_lt by done. cbn. do 2 f_equal. subst tx. rewrite take_take, Nat.min_l by lia.
          rewrite <- (take_drop i cmd) at 3. rewrite take_app_ge by (rewrite take_length; lia). do 2 f_equal. rewrite take_length. lia.
        - rewrite !lookup_seq_ge by lia. done. }
      rewrite Ha. assert (Hcur : take i cmd ++ tx = take (i + t) cmd).
      { subst tx. rewrite <- (take_drop i cmd) at 3. rewrite take_app_ge by (rewrite take_length; lia). f_equal.
        rewrite take_length. replace (i + t - i `min` length cmd)%nat with t by lia.
        destruct (decide (S k <= length cmd - i)%nat); [f_equal; lia|]. rewrite !take_ge by (rewrite drop_length; lia). done. }
      rewrite Hcur.
      assert (Hrd : ready_of (f_chip f) c) by (subst c; destruct ready; [by right|by left]).
      assert (Hu : used (XGot k ready :: r) r 1).
      { split; [cbn; lia|]. split; [by intros X; apply Forall_cons in X as [_ X]|]. split; [by intros X; apply Forall_cons in X as [_ X]|cbn; lia]. }
      cbn [set_script set_chip set_left f_left f_chip f_cur f_log]. destruct (Nat.eqb_spec (length cmd - i - t) 0) as [Hz|Hz].
      * assert (Et : t = (length cmd - i)%nat) by lia.
        exists 0%nat, (chip_exec c cmd), [], (f_log f ++ [cmd]), r, (take i buf ++ answers c cmd i (length cmd - i)), 0, 1%nat.
        split.
        { rewrite Hz. rewrite (take_ge cmd) by lia. rewrite (drop_ge buf) by lia. rewrite app_nil_r, Et. done. }
        split; [done|]. split; [right; cbn; lia|]. right. split; [done|]. split; [done|]. split; [done|]. split; [done|]. split; [done|].
        exists c. split; [done|]. split; [done|]. split; [done|]. intros X. apply Forall_cons in X as [X _]. cbn beta iota in X. subst c. by rewrite X.
      * exists (length cmd - i - t)%nat, c, (take (i + t) cmd), (f_log f), r, (take i buf ++ answers c cmd i t ++ drop (i + t) buf), (- EAGAIN), 1%nat.
        split; [done|]. split; [done|]. split; [right; cbn; lia|]. left. split; [done|].
        exists (i + t)%nat. split; [lia|]. split.
        { split; [lia|]. cbn [tr set_script set_chip set_left f_left f_cur]. split; [left; lia|done]. }
        split; [done|]. split; [done|]. replace (i + t - i)%nat with t by lia. done.
Qed.

(** ** Sequences of steps *)
Lemma used_refl sc : used sc sc 0.
Proof. unfold used. split; [lia|]. split; [done|]. split; [done|lia]. Qed.
Lemma used_trans a b c g h : used a b g -> used b c h -> used a c (g + h).
Proof. intros (A1 & A2 & A3 & A4) (B1 & B2 & B3 & B4). repeat split; [lia|auto|auto|lia]. Qed.

Section seqs.
Context (I : nat -> nat -> fx -> Prop) (m : nat).
Context (steps : nat -> option (fx -> res (fx * Z))) (fin : fx -> res (fx * Z)).

Definition step_ok (k : nat) (step : fx -> res (fx * Z)) : Prop := forall b f,
  I k b f -> f_seq f = k -> only_eagain (f_script f) ->
  exists (f' : fx) (r : Z) (b' g : nat), step f = Ok (f', r) /\ f_seq f' = k /\ used (f_script f) (f_script f') g /\
    (always_ready (f_script f) -> (b' + g <= b)%nat) /\
    ((r = - EAGAIN /\ I k b' f' /\ (f_script f' = [] \/ (length (f_script f') < length (f_script f))%nat)) \/
     (0 <= r /\ I (S k) b' (set_seq (S k) f'))).

Context (Hsteps : forall k, (k < m)%nat -> exists step, steps k = Some step /\ step_ok k step).
Context (Hend : steps m = None).

Lemma seq_run fuel : forall k b f, (k <= m)%nat -> (m < fuel + k)%nat -> I k b f -> f_seq f = k -> only_eagain (f_script f) ->
  exists (f' : fx) (k' b' g : nat), used (f_script f) (f_script f') g /\ (always_ready (f_script f) -> (b' + g <= b)%nat) /\
    f_seq f' = k' /\ I k' b' f' /\
    (((k' < m)%nat /\ sequence fuel steps fin f = Ok (f', - EAGAIN) /\ (f_script f' = [] \/ (length (f_script f') < length (f_script f))%nat)) \/
     (k' = m /\ sequence fuel steps fin f = fin f')).
Proof.
  induction fuel as [|fuel IH]; intros k b f Hk Hf Hi Hs Ho; [lia|]. cbn [sequence]. rewrite Hs.
  destruct (decide (k = m)) as [->|Hne].
  - rewrite Hend. exists f, m, b, 0%nat. split; [apply used_refl|]. split; [lia|]. split; [done|]. split; [done|]. by right.
  - destruct (Hsteps k ltac:(lia)) as (step & Es & Hok). rewrite Es.
    destruct (Hok b f Hi Hs Ho) as (f1 & r & b1 & g1 & E & Hs1 & U1 & R1 & D). rewrite E. cbn [rbind].
    destruct D as [(-> & I1 & L1)|(Hr & I1)].
    + change (- EAGAIN <? 0) with true. cbv iota. exists f1, k, b1, g1. split; [done|]. split; [done|]. split; [done|]. split; [done|]. left. split; [lia|done].
    + assert (X : (r <? 0) = false) by lia. rewrite X. rewrite Hs1.
      destruct (IH (S k) b1 (set_seq (S k) f1) ltac:(lia) ltac:(lia) I1 eq_refl) as (f2 & k2 & b2 & g2 & U2 & R2 & S2 & I2 & D2).
      { cbn [set_seq f_script]. destruct U1 as (_ & X1 & _). by apply X1. }
      cbn [set_seq f_script] in *.
      exists f2, k2, b2, (g1 + g2)%nat. split; [by eapply used_trans|]. split.
      { intros Y. specialize (R1 Y). destruct U1 as (_ & _ & X1 & _). specialize (R2 (X1 Y)). lia. }
      split; [done|]. split; [done|]. destruct D2 as [(D1 & D2 & D3)|D2]; [left|by right]. split; [done|]. split; [done|].
      destruct U1 as (_ & _ & _ & X1). destruct D3; [by left|right; lia].
Qed.

Context (op : fx -> res (fx * Z)) (fuel : nat) (Hfuel : (m < fuel)%nat).
Context (Hop : forall k b f, (k < m)%nat -> I k b f -> op f = sequence fuel steps fin f).
Context (ret : Z) (Hret : 0 <= ret) (Hfin : forall f, fin f = Ok (set_seq 0 f, ret)).

Lemma until_run N : forall k b f, (k < m)%nat -> I k b f -> f_seq f = k -> only_eagain (f_script f) ->
  exists (f' : fx) (k' b' g : nat), used (f_script f) (f_script f') g /\ (always_ready (f_script f) -> (b' + g <= b)%nat) /\
    f_seq f' = k' /\ I k' b' f' /\
    (((k' < m)%nat /\ until N op f = Ok (f', - EAGAIN) /\ (f_script f' = [] \/ (length (f_script f') + N <= length (f_script f))%nat)) \/
     (k' = m /\ until N op f = Ok (set_seq 0 f', ret))).
Proof.
  induction N as [|N IH]; intros k b f Hk Hi Hs Ho; cbn [until].
  - exists f, k, b, 0%nat. split; [apply used_refl|]. split; [lia|]. split; [done|]. split; [done|]. left. split; [done|]. split; [done|right; lia].
  - rewrite (Hop k b f Hk Hi).
    destruct (seq_run fuel k b f ltac:(lia) ltac:(lia) Hi Hs Ho) as (f1 & k1 & b1 & g1 & U1 & R1 & S1 & I1 & [(K1 & E1 & L1)|(K1 & E1)]).
    + rewrite E1. cbn [rbind]. rewrite Z.eqb_refl. destruct U1 as (V1 & V2 & V3 & V4).
      destruct (IH k1 b1 f1 K1 I1 S1 ltac:(auto)) as (f2 & k2 & b2 & g2 & U2 & R2 & S2 & I2 & D2).
      exists f2, k2, b2, (g1 + g2)%nat. split; [eapply used_trans; [|done]; by repeat split|]. split; [intros Y; specialize (R1 Y); specialize (R2 (V3 Y)); lia|].
      split; [done|]. split; [done|]. destruct D2 as [(D1 & D2 & D3)|D2]; [left|by right]. split; [done|]. split; [done|].
      destruct D3 as [|D3]; [by left|]. destruct L1 as [L1|L1]; [|right; lia]. left. rewrite L1 in D3. destruct (f_script f2); [done|cbn [length] in D3; lia].
    + rewrite E1, Hfin. cbn [rbind]. assert (X : (ret =? - EAGAIN) = false) by (unfold EAGAIN; lia). rewrite X.
      exists f1, k1, b1, g1. split; [done|]. split; [done|]. split; [done|]. split; [done|]. by right.
Qed.

Lemma until_live N k b f : (forall k b f, (k < m)%nat -> I k b f -> (0 < b)%nat) ->
  (k < m)%nat -> I k b f -> f_seq f = k -> only_eagain (f_script f) -> always_ready (f_script f) ->
  (b <= exchanges (f_script f))%nat -> (length (f_script f) < N)%nat -> exists f', until N op f = Ok (f', ret).
Proof.
  intros Hpos Hk Hi Hs Ho Ha Hb HN. destruct (until_run N k b f Hk Hi Hs Ho) as (f1 & k1 & b1 & g1 & U1 & R1 & S1 & I1 & [(K1 & E1 & L1)|(K1 & E1)]); [|eauto].
  exfalso. destruct L1 as [L1|L1]; [|lia]. specialize (R1 Ha). destruct U1 as (U1 & _). rewrite L1 in U1. cbn [exchanges] in U1.
  specialize (Hpos k1 b1 f1 K1 I1). lia.
Qed.
End seqs.

(** ** Status polls *)
Lemma status_bit c : Z.land (status1 c) 1 = if c_busy c then 1 else 0.
Proof.
  change 1 with (Z.ones 1) at 1. rewrite Z.land_ones by lia. change (2 ^ 1) with 2. unfold status1.
  replace (c_sr1 c / 4 * 4 + (if c_wel c then 2 else 0) + (if c_busy c then 1 else 0))
    with ((if c_busy c then 1 else 0) + (c_sr1 c / 4 * 2 + (if c_wel c then 1 else 0)) * 2) by (destruct (c_wel c); lia).
  rewrite Z.mod_add by lia. by destruct (c_busy c).
Qed.
Lemma exec_poll c : chip_exec c [5; 0] = c.
Proof. unfold chip_exec. by destruct (c_busy c). Qed.

Lemma run_busy_spec f i : inphase [5; 0] i f -> only_eagain (f_script f) ->
  exists (l : nat) (c' : chip) (cur : list Z) (lg : list (list Z)) (sc : list xo) (r : Z) (g : nat),
    run_busy f = Ok (tr l c' cur lg sc f, r) /\ used (f_script f) sc g /\ ready_of (f_chip f) c' /\
    ( (r = - EAGAIN /\ (sc = [] \/ (length sc < length (f_script f))%nat) /\
       exists i', inphase [5; 0] i' (tr l c' cur lg sc f) /\
         ((lg = f_log f /\ (i + g <= i')%nat) \/ (lg = f_log f ++ [[5; 0]] /\ i' = 0%nat /\ c_busy c' = true /\ ~ always_ready (f_script f)))) \/
      (r = 0 /\ l = 0%nat /\ cur = [] /\ g = 1%nat /\ lg = f_log f ++ [[5; 0]] /\ c_busy c' = false) ).
Proof.
  intros Hi Hs. assert (Hi1 : (i < 2)%nat) by apply Hi.
  destruct (run_cmd_spec f [5; 0] [5; 0] i Hi eq_refl eq_refl Hs) as (l & c' & cur & lg & sc & buf & r & g & E & U & L & D).
  unfold run_busy. rewrite E. cbn [rbind]. destruct D as [(-> & i' & G & P & El & Er & _)|(-> & -> & -> & -> & -> & c & Er & -> & Eb & Ha)].
  - change (- EAGAIN <? 0) with true. cbv iota. exists l, c', cur, lg, sc, (- EAGAIN), g. split; [done|]. split; [done|]. split; [done|].
    left. split; [done|]. split; [done|]. exists i'. split; [done|]. left. done.
  - change (0 <? 0) with false. cbv iota. rewrite exec_poll.
    assert (Hb : buf !! 1%nat = Some (status1 c)).
    { rewrite Eb. destruct i as [|[|i]]; [| |lia]; reflexivity. }
    rewrite Hb. change (default 0 (Some (status1 c))) with (status1 c). rewrite status_bit. destruct (c_busy c) eqn:Ec; cbn [Z.eqb negb].
    + exists 0%nat, c, [], (f_log f ++ [[5; 0]]), sc, (- EAGAIN), 1%nat. split; [done|]. split; [done|]. split; [done|]. left. split; [done|]. split; [done|].
      exists 0%nat. split; [split; [cbn; lia|split; [by right|done]]|]. right. split; [done|]. split; [done|]. split; [done|].
      intros X. rewrite (Ha X) in Ec. done.
    + exists 0%nat, c, [], (f_log f ++ [[5; 0]]), sc, 0, 1%nat. split; [done|]. split; [done|]. split; [done|]. right. done.
Qed.

Lemma ready_idle c c' : c_busy c = false -> ready_of c c' -> c' = c.
Proof. intros H [->| ->]; [done|]. destruct c; cbn in *; by subst. Qed.
Lemma ready_trans a b c : ready_of a b -> ready_of b c -> ready_of a c.
Proof. intros [->| ->] [->| ->]; [by left|by right|by right|right; by destruct a]. Qed.

(** ** Erase *)
Section erase.
Context (f0 : fx) (off : Z).
Context (Hid : flash_idle f0) (Hoff : 0 <= off < 16777216).
Notation c0 := (f_chip f0).
Notation se := (32 :: addr_bytes off).
Definition cE : chip := chip_exec (with_wel true c0) se.
Definition Ier (k b : nat) (f : fx) : Prop :=
  exists (l : nat) (c : chip) (cur : list Z) (lg : list (list Z)) (sc : list xo),
  f = set_seq k (tr l c cur lg sc f0) /\
  match k with
  | 0%nat => inphase [6] 0 f /\ c = c0 /\ lg = f_log f0 /\ b = 7%nat
  | 1%nat => exists i, inphase se i f /\ c = with_wel true c0 /\ lg = f_log f0 ++ [[6]] /\ b = (6 - i)%nat
  | 2%nat => exists i p, inphase [5; 0] i f /\ ready_of cE c /\ lg = f_log f0 ++ [[6]; se] ++ p /\ Forall (fun x => x = [5; 0]) p /\ b = (2 - i)%nat
  | _ => exists p, l = 0%nat /\ cur = [] /\ ready_of cE c /\ c_busy c = false /\ lg = f_log f0 ++ [[6]; se] ++ p /\ polls p
  end.

Lemma exec_wren c : c_busy c = false -> chip_exec c [6] = with_wel true c.
Proof. intros H. unfold chip_exec. by rewrite H. Qed.

Definition erase_steps (k : nat) : option (fx -> res (fx * Z)) :=
  match k with
  | O => Some (run_single 6)
  | S O => Some (fun f => let! (f, _, r) := run_cmd f se in Ok (f, r))
  | S (S O) => Some run_busy
  | _ => None
  end.
Lemma erase_ok k : (k < 3)%nat -> exists step, erase_steps k = Some step /\ step_ok Ier k step.
Proof.
  assert (Hb0 : c_busy c0 = false) by apply Hid.
  intros Hk. destruct k as [|[|[|k]]]; [| | |lia]; (eexists; split; [reflexivity|]); intros b f (l & c & cur & lg & sc & Ef & H) Hs Ho.
  - destruct H as (P & -> & -> & ->).
    destruct (run_cmd_spec f [6] [6] 0 P eq_refl eq_refl Ho) as (l' & c' & cur' & lg' & sc' & buf & r & g & E & U & L & D).
    unfold run_single. rewrite E. cbn [rbind].
    destruct D as [(-> & i' & G & P' & El & Er & _)|(-> & -> & -> & -> & -> & c & Er & -> & Eb & Ha)].
    + exists (tr l' c' cur' lg' sc' f), (- EAGAIN), 7%nat, g. split; [done|]. split; [done|]. split; [done|].
      assert (i' = 0)%nat as -> by (destruct P' as (P' & _); cbn in P'; lia). split; [lia|]. left. split; [done|]. split; [|done].
      exists l', c', cur', lg', sc'. split; [by rewrite Ef|]. split; [done|]. split; [|split; [|done]]; [|by rewrite El, Ef].
      apply ready_idle; [done|]. by rewrite Ef in Er.
    + exists (tr 0 (chip_exec c [6]) [] (f_log f ++ [[6]]) sc' f), 0, 6%nat, 1%nat. split; [done|]. split; [done|]. split; [done|]. split; [lia|].
      right. split; [done|]. exists 0%nat, (chip_exec c [6]), [], (f_log f ++ [[6]]), sc'. split; [by rewrite Ef|].
      exists 0%nat. split; [split; [cbn; lia|split; [by right|done]]|].
      rewrite Ef in Er |- *. cbn in Er. rewrite (ready_idle _ _ Hb0 Er), exec_wren by done. done.
  - destruct H as (i & P & -> & -> & ->).
    destruct (run_cmd_spec f se se i P eq_refl eq_refl Ho) as (l' & c' & cur' & lg' & sc' & buf & r & g & E & U & L & D).
    rewrite E. cbn [rbind].
    destruct D as [(-> & i' & G & P' & El & Er & _)|(-> & -> & -> & -> & -> & c & Er & -> & Eb & Ha)].
    + exists (tr l' c' cur' lg' sc' f), (- EAGAIN), (6 - i')%nat, g. split; [done|]. split; [done|]. split; [done|].
      assert (i' < 4)%nat by (destruct P' as (P' & _); cbn in P'; lia). split; [lia|]. left. split; [done|]. split; [|done].
      exists l', c', cur', lg', sc'. split; [by rewrite Ef|]. exists i'. split; [done|]. split; [|split; [|done]]; [|by rewrite El, Ef].
      apply ready_idle; [done|]. by rewrite Ef in Er.
    + exists (tr 0 (chip_exec c se) [] (f_log f ++ [se]) sc' f), 0, 2%nat, 1%nat. split; [done|]. split; [done|]. split; [done|].
      assert (i < 4)%nat by (destruct P as (P & _); cbn in P; lia). split; [lia|].
      right. split; [done|]. exists 0%nat, (chip_exec c se), [], (f_log f ++ [se]), sc'. split; [by rewrite Ef|].
      exists 0%nat, []. split; [split; [cbn; lia|split; [by right|done]]|].
      rewrite Ef in Er |- *. cbn in Er. assert (c = with_wel true c0) as -> by (apply ready_idle; done).
      split; [by left|]. split; [|split; [constructor|done]]. cbn. by rewrite <- app_assoc.
  - destruct H as (i & p & P & Hc & -> & Hp & ->).
    destruct (run_busy_spec f i P Ho) as (l' & c' & cur' & lg' & sc' & r & g & E & U & Er & D). rewrite E.
    assert (Hi2 : (i < 2)%nat) by apply P.
    assert (Hc' : ready_of cE c') by (eapply ready_trans; [exact Hc|]; by rewrite Ef in Er).
    destruct D as [(-> & L & i' & P' & D)|(-> & -> & -> & -> & -> & Eb)].
    + exists (tr l' c' cur' lg' sc' f), (- EAGAIN), (2 - i')%nat, g. split; [done|]. split; [done|]. split; [done|].
      assert (i' < 2)%nat by apply P'. split.
      { intros Y. destruct D as [(_ & D)|(_ & _ & _ & D)]; [lia|done]. }
      left. split; [done|]. split; [|done]. exists l', c', cur', lg', sc'. split; [by rewrite Ef|].
      destruct D as [(-> & D)|(-> & -> & Db & D)].
      * exists i', p. split; [done|]. split; [done|]. rewrite Ef. done.
      * exists 0%nat, (p ++ [[5; 0]]). split; [done|]. split; [done|]. rewrite Ef. cbn [set_seq tr set_script set_chip set_left f_log].
        split; [by rewrite <- !app_assoc|]. split; [|done]. apply Forall_app. split; [done|by constructor].
    + exists (tr 0 c' [] (f_log f ++ [[5; 0]]) sc' f), 0, 0%nat, 1%nat. split; [done|]. split; [done|]. split; [done|]. split; [lia|]. right. split; [done|].
      exists 0%nat, c', [], (f_log f ++ [[5; 0]]), sc'. split; [by rewrite Ef|]. exists (p ++ [[5; 0]]). split; [done|]. split; [done|]. split; [done|]. split; [done|].
      rewrite Ef. cbn [set_seq tr set_script set_chip set_left f_log]. split; [by rewrite <- !app_assoc|].
      split; [rewrite app_length; cbn [length]; lia|]. apply Forall_app. split; [done|by constructor].
Qed.

Lemma cE_spec : off < c_size c0 -> cE = with_mem (fun x => if x / 4096 =? off / 4096 then 255 else c_mem c0 x) (with_wel true c0).
Proof.
  intros Hsz. assert (Hb0 : c_busy c0 = false) by apply Hid.
  unfold cE, chip_exec. cbn [with_wel c_busy]. rewrite Hb0. cbn [addr_bytes with_wel c_wel c_size c_mem].
  assert (Ea : addr24 (off / 65536 mod 256) (off / 256 mod 256) (off mod 256) mod c_size c0 = off).
  { assert (E1 : off / 65536 = off / 256 / 256) by (rewrite Z.div_div by lia; done).
    assert (E2 : 0 <= off / 65536 < 256) by (split; [apply Z.div_pos; lia|apply Z.div_lt_upper_bound; lia]).
    unfold addr24. rewrite (Z.mod_small (off / 65536)) by lia.
    pose proof (Z_div_mod_eq_full off 256). pose proof (Z_div_mod_eq_full (off / 256) 256).
    replace (off / 65536 * 65536 + off / 256 mod 256 * 256 + off mod 256) with off by lia. apply Z.mod_small. lia. }
  rewrite Ea. done.
Qed.
End erase.

Lemma erase_run f off N : flash_known f -> flash_idle f -> only_eagain (f_script f) -> 0 <= off < f_total f -> off mod 4096 = 0 ->
  exists (f' : fx) (r : Z), until N (flash_erase off) f = Ok (f', r) /\
  (forall x, ~ off <= x < off + 4096 -> c_mem (f_chip f') x = c_mem (f_chip f) x) /\
  (r = - EAGAIN \/
   (r = 0 /\ flash_idle f' /\ flash_known f' /\ (forall x, off <= x < off + 4096 -> c_mem (f_chip f') x = 255) /\
    exists p, polls p /\ f_log f' = f_log f ++ [[6]; 32 :: addr_bytes off] ++ p)) /\
  (always_ready (f_script f) -> (7 <= exchanges (f_script f))%nat -> (length (f_script f) < N)%nat -> r = 0).
Proof.
  intros (K1 & K2 & K3 & K4 & K5) (I1 & I2 & I3 & I4) Ho Hoff Hmod.
  assert (Hid : flash_idle f) by done. assert (Ho24 : 0 <= off < 16777216) by lia.
  assert (Hsz : off < c_size (f_chip f)) by lia.
  assert (Hsec : forall x, (x / 4096 =? off / 4096) = (off <=? x) && (x <? off + 4096)).
  { intros x. pose proof (Z_div_mod_eq_full off 4096). pose proof (Z_div_mod_eq_full x 4096). pose proof (Z.mod_pos_bound x 4096 ltac:(lia)).
    destruct (Z.leb_spec off x), (Z.ltb_spec x (off + 4096)), (Z.eqb_spec (x / 4096) (off / 4096)); cbn; try done; lia. }
  assert (Start : Ier f off 0 7 f).
  { exists (f_left f), (f_chip f), (f_cur f), (f_log f), (f_script f). split; [destruct f; cbn in *; by subst|]. split; [|done].
    split; [cbn; lia|]. split; [by right|done]. }
  assert (Hop : forall k b g, (k < 3)%nat -> Ier f off k b g -> flash_erase off g = sequence 4 (erase_steps off) (fun f => Ok (set_seq 0 f, 0)) g).
  { intros k b g _ (l & c & cur & lg & sc & Eg & _). unfold flash_erase. rewrite Eg. cbn [set_seq tr set_script set_chip set_left f_ulen f_total].
    rewrite K2. cbn [Z.eqb]. rewrite Hmod. cbn [Z.eqb negb]. destruct (Z.ltb_spec off (f_total f)); [|lia]. done. }
  destruct (until_run (Ier f off) 3 (erase_steps off) (fun f => Ok (set_seq 0 f, 0)) (erase_ok f off Hid) eq_refl
              (flash_erase off) 4 ltac:(lia) Hop 0 ltac:(lia) (fun _ => eq_refl) N 0 7 f ltac:(lia) Start I2 Ho)
    as (f' & k' & b' & g & U & R & Sq & If & D).
  assert (Hmem : forall x, c_mem (cE f off) x = if (off <=? x) && (x <? off + 4096) then 255 else c_mem (f_chip f) x).
  { intros x. rewrite (cE_spec f off Hid Ho24 Hsz). cbn [with_mem c_mem with_wel]. by rewrite Hsec. }
  assert (Hr : forall c x, ready_of (cE f off) c -> c_mem c x = c_mem (cE f off) x) by (intros c x [->| ->]; done).
  assert (Hkeep : forall x, ~ off <= x < off + 4096 -> c_mem (f_chip f') x = c_mem (f_chip f) x).
  { intros x Hx. assert (E : c_mem (cE f off) x = c_mem (f_chip f) x).
    { rewrite Hmem. destruct (Z.leb_spec off x), (Z.ltb_spec x (off + 4096)); cbn; try done. lia. }
    destruct If as (l & c & cur & lg & sc & Ef & H). rewrite Ef. cbn [set_seq tr set_script set_chip set_left f_chip].
    destruct k' as [|[|[|k']]].
    - destruct H as (_ & -> & _). done.
    - destruct H as (i & _ & -> & _). done.
    - destruct H as (i & p & _ & Hc & _). by rewrite (Hr _ _ Hc).
    - destruct H as (p & _ & _ & Hc & _). by rewrite (Hr _ _ Hc). }
  assert (Hlive : always_ready (f_script f) -> (7 <= exchanges (f_script f))%nat -> (length (f_script f) < N)%nat ->
    exists f'', until N (flash_erase off) f = Ok (f'', 0)).
  { intros A1 A2 A3. apply (until_live (Ier f off) 3 (erase_steps off) (fun f => Ok (set_seq 0 f, 0)) (erase_ok f off Hid) eq_refl
              (flash_erase off) 4 ltac:(lia) Hop 0 ltac:(lia) (fun _ => eq_refl) N 0 7 f); try done; try lia.
    intros k b h Hk (l & c & cur & lg & sc & Eh & H). destruct k as [|[|[|k]]]; [| | |lia].
    - destruct H as (_ & _ & _ & ->). lia.
    - destruct H as (i & (P & _) & _ & _ & ->). cbn in P. lia.
    - destruct H as (i & p & (P & _) & _ & _ & _ & ->). cbn in P. lia. }
  destruct D as [(K & E & L)|(-> & E)].
  - exists f', (- EAGAIN). split; [done|]. split; [done|]. split; [by left|]. intros A1 A2 A3. destruct (Hlive A1 A2 A3) as (f'' & E'). rewrite E in E'. done.
  - exists (set_seq 0 f'), 0. split; [done|]. split; [done|]. split; [|done]. right. split; [done|].
    destruct If as (l & c & cur & lg & sc & Ef & (p & -> & -> & Hc & Hb & -> & Hp)). rewrite Ef.
    assert (Esz : c_size c = c_size (f_chip f)).
    { destruct Hc as [->| ->]; rewrite (cE_spec f off Hid Ho24 Hsz); done. }
    split; [by repeat split|]. split.
    { unfold flash_known. cbn [set_seq tr set_script set_chip set_left f_pp f_ulen f_total f_chip]. rewrite Esz. done. }
    split; [|by exists p]. intros x Hx. cbn [set_seq tr set_script set_chip set_left f_chip]. rewrite (Hr _ _ Hc), Hmem.
    destruct (Z.leb_spec off x), (Z.ltb_spec x (off + 4096)); cbn; try done; lia.
Qed.
