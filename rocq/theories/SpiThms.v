(** SpiThms.v - the SPI properties, from the invariants of SpiProofs.v. *)
From Verif Require Import Base SpiModel SpiSpec SpiProofs.
From Coq Require Import ZifyBool ZifyNat.

Lemma le_bytes_len w : forall v, length (le_bytes w v) = w.
Proof. induction w as [|w IH]; intros v; cbn [le_bytes length]; [done|]. by rewrite IH. Qed.
Lemma le_val_bytes w : forall v, 0 <= v < 256 ^ Z.of_nat w -> le_val (le_bytes w v) = v.
Proof.
  induction w as [|w IH]; intros v Hv; cbn [le_bytes le_val].
  - change (256 ^ Z.of_nat 0) with 1 in Hv. lia.
  - rewrite IH.
    + pose proof (Z_div_mod_eq_full v 256). lia.
    + rewrite Nat2Z.inj_succ, Z.pow_succ_r in Hv by lia. split; [apply Z.div_pos; lia|]. apply Z.div_lt_upper_bound; lia.
Qed.
Lemma be_val_bytes w v : 0 <= v < 256 ^ Z.of_nat w -> be_val (be_bytes w v) = v.
Proof. intros H. unfold be_val, be_bytes. rewrite rev_involutive. by apply le_val_bytes. Qed.

Record facts (d : sdrv) (B : Z) : Prop := {
  fa_w : (0 < d_txw d)%nat; fa_rw : d_rxw d = d_txw d;
  fa_put : forall f, 0 <= f < B -> length (d_rxput d f) = d_txw d /\ d_txval d (d_rxput d f) = f;
  fa_pow : exists k, 0 <= k /\ d_fw d = 2 ^ k /\ (d_fw d | Z.of_nat (d_txw d));
  fa_arm : d_guard d = GAny -> d_arm d = false
}.
Lemma facts_plain g w a bits : w = 1%nat \/ w = 2%nat \/ w = 4%nat -> (g = GAny -> a = false) ->
  facts (mkDrv g (Z.of_nat w) bits w le_val w (le_bytes w) a) (256 ^ Z.of_nat w).
Proof.
  intros Hw Ha. constructor; cbn; try done; [lia| |].
  - intros f Hf. split; [apply le_bytes_len|by apply le_val_bytes].
  - destruct Hw as [->|[->| ->]]; [exists 0|exists 1|exists 2]; split; try done; split; try done; by exists 1.
Qed.
Lemma facts_be g w a bits : w = 1%nat \/ w = 2%nat \/ w = 4%nat -> (g = GAny -> a = false) ->
  facts (mkDrv g (Z.of_nat w) bits w be_val w (be_bytes w) a) (256 ^ Z.of_nat w).
Proof.
  intros Hw Ha. constructor; cbn; try done; [lia| |].
  - intros f Hf. split; [unfold be_bytes; rewrite rev_length; apply le_bytes_len|by apply be_val_bytes].
  - destruct Hw as [->|[->| ->]]; [exists 0|exists 1|exists 2]; split; try done; split; try done; by exists 1.
Qed.
Lemma sound_facts d B : sound_driver d B -> facts d B.
Proof.
  destruct 1 as [w H|w H|depth w H| |w H|w H|nb H|w H|w H|nb H].
  - apply (facts_plain GAny w false 32); [lia|done].
  - apply (facts_plain GOne w false 32); [lia|done].
  - apply (facts_plain (GLim _) w true 32); [lia|done].
  - apply (facts_plain GAny 1 false 16); [lia|done].
  - apply (facts_be GAny w false 32); [lia|done].
  - apply (facts_be GAny w false 32); [lia|done].
  - constructor; cbn; try done; [lia| |exists 0; split; [done|split; [done|by exists 1]]].
    intros f Hf. split; [done|]. by apply Z.mod_small.
  - unfold drv_pic32mx. constructor; cbn; try done; [lia| |].
    + intros f Hf. destruct H as [->| ->]; cbn [Nat.eqb]; (split; [apply le_bytes_len|by apply le_val_bytes]).
    + destruct H as [->| ->]; [exists 0|exists 2]; split; try done; split; try done; by exists 1.
  - unfold drv_ra4. constructor; cbn; try done; [lia| |].
    + intros f Hf. destruct H as [->| ->]; cbn [Nat.eqb]; (split; [apply le_bytes_len|by apply le_val_bytes]).
    + destruct H as [->| ->]; [exists 0|exists 2]; split; try done; split; try done; by exists 1.
  - assert (E : (nb + 7) / 8 = 2).
    { symmetry. apply (Z.div_unique _ 8 2 (nb + 7 - 16)); lia. }
    constructor; cbn [drv_sam3x d_txw d_rxw d_fw d_rxput d_txval d_guard d_arm]; rewrite ?E; try done; [lia| |exists 1; split; [done|split; [done|by exists 1]]].
    intros f Hf. split; [done|]. rewrite le_val_bytes.
    + by apply Z.mod_small.
    + change (256 ^ Z.of_nat 2) with (2 ^ 16). assert (2 ^ nb <= 2 ^ 16) by (apply Z.pow_le_mono_r; lia). lia.
Qed.
Lemma facts_sam3x8 : facts (drv_sam3x 8) 256.
Proof.
  constructor; cbn [drv_sam3x d_txw d_rxw d_rxput d_txval d_guard d_arm]; try done; [lia| |].
  - intros f Hf. split; [done|]. rewrite le_val_bytes; [by apply Z.mod_small|]. change (256 ^ Z.of_nat 2) with 65536. lia.
  - exists 0. split; [done|]. split; [done|]. by exists 2.
Qed.
Lemma facts_land d B : facts d B -> forall k, Z.land (Z.of_nat (k * d_txw d)) (d_fw d - 1) = 0.
Proof.
  intros Fa k. destruct (fa_pow _ _ Fa) as (e & He & E & (z & Ez)). rewrite E in *.
  replace (2 ^ e - 1) with (Z.ones e) by (rewrite Z.ones_equiv; lia).
  rewrite Z.land_ones by done. rewrite Nat2Z.inj_mul, Ez, Z.mul_assoc. by apply Z_mod_mult.
Qed.

Section thms.
Context (d : sdrv) (B : Z) (c : hwcfg) (miso : nat -> Z) (n rx tx : nat) (s : spist).
Context (Fa : facts d B) (Hm : forall i, 0 <= miso i < B) (Hb : buffers_ok (s_mem s) n rx tx).
Context (Hmod : (n mod d_txw d = 0)%nat) (Hbits : Z.of_nat n < 2 ^ d_bits d) (Hi : spi_idle s).
Notation w := (d_txw d).
Notation N := (n / w)%nat.
Notation W0 := (h_wire (s_hw s)).

Lemma HnN : n = (N * w)%nat.
Proof. pose proof (fa_w _ _ Fa). pose proof (Nat.div_mod n w). lia. Qed.
Lemma start : sinv d B miso (s_mem s) W0 rx tx N 0 0 s.
Proof.
  destruct Hi as (I1 & I2 & I3 & I4 & I5 & I6). constructor.
  - constructor; rewrite ?I1, ?I2, ?I3, ?I4; cbn [ol length app seq map]; try done.
  - constructor; [done|done|lia].
  - rewrite I5. lia.
  - lia.
  - rewrite I3. constructor.
Qed.

Lemma prefix_frames sent : (sent <= N)%nat -> exists k, map (F d (s_mem s) tx) (seq 0 sent) ++ k = frames d (s_mem s) tx n.
Proof.
  intros H. exists (map (F d (s_mem s) tx) (seq sent (N - sent))). rewrite <- map_app. unfold frames.
  replace N with (sent + (N - sent))%nat at 2 by lia. by rewrite seq_app.
Qed.

Lemma fidelity k : exists (s' : spist) (q : nat),
  transfer k (fun s => s) (spi_xfer d c miso) n rx tx s 0 = Ok (s', (q * w)%nat) /\ (q * w <= n)%nat /\
  (exists rest, h_wire (s_hw s') ++ rest = W0 ++ frames d (s_mem s) tx n) /\
  length (s_mem s') = length (s_mem s) /\
  (forall j, (j < rx \/ rx + q * w <= j)%nat -> s_mem s' !! j = s_mem s !! j) /\
  (h_lost (s_hw s') = 0%nat -> forall i, (i < q)%nat -> frame_at d (s_mem s') (rx + i * w) = miso (length W0 + i)%nat) /\
  ((q * w = n)%nat -> h_wire (s_hw s') = W0 ++ frames d (s_mem s) tx n /\ spi_idle s').
Proof.
  pose proof (fa_w _ _ Fa) as Hw.
  destruct (run_transfer d B c miso Hw (fa_rw _ _ Fa) (fa_put _ _ Fa) Hm (s_mem s) W0 n rx tx N HnN Hbits Hb
              (facts_land _ _ Fa) (fun s => s) (good_id _ _ _ _ _ _ _ _ _) k s 0 0 start ltac:(lia))
    as (s' & sent' & q' & E & (F1 & F2 & F3 & F4 & F5 & F6) & (A1 & A2)).
  { split; intros _; apply Hi. }
  pose proof (si_N _ _ _ _ _ _ _ _ _ _ _ F1) as HN.
  exists s', q'. split; [exact E|]. split; [pose proof HnN; nia|].
  destruct F1 as [[H1 H2 H3] [M1 M2 M3] Bl _ Rg].
  split.
  { destruct (prefix_frames sent' HN) as [kk Hk]. exists (ol (h_sh (s_hw s')) ++ h_tx (s_hw s') ++ kk).
    rewrite <- Hk. rewrite !app_assoc. rewrite <- (app_assoc (h_wire _)), H1. done. }
  split; [exact M1|]. split; [exact M2|]. split; [exact M3|].
  intros Hq. assert (q' = N) by (pose proof HnN; nia). assert (Es' : sent' = N) by lia. rewrite Es' in H1.
  destruct (h_rx (s_hw s')) eqn:Er; [|cbn [length] in H2; lia].
  destruct (h_sh (s_hw s')) eqn:Es; [cbn [ol length] in H2; lia|].
  destruct (h_tx (s_hw s')) eqn:Et; [|cbn [length] in H2; lia].
  cbn [ol length app] in *. rewrite app_nil_r in H1. split; [exact H1|].
  split; [done|]. split; [done|]. split; [done|]. split; [lia|]. split; [rewrite Bl; lia|by apply A2].
Qed.

Lemma complete : room d c n -> (1 <= hw_txd c)%nat -> (1 <= hw_rxd c)%nat -> (forall l, d_guard d = GLim l -> 0 < l) ->
  exists s', transfer (2 * N + 1) (settle c miso) (spi_xfer d c miso) n rx tx s 0 = Ok (s', n).
Proof.
  intros Hroom Ht Hr Hlim. pose proof (fa_w _ _ Fa) as Hw.
  apply (live d B c miso Hw (fa_rw _ _ Fa) (fa_put _ _ Fa) Hm (s_mem s) W0 n rx tx N HnN Hbits Hb (facts_land _ _ Fa) Hr Ht) with (sent := 0%nat) (q := 0%nat).
  - intros (l & L1 & L2). specialize (Hlim _ L1). lia.
  - apply start.
  - lia.
  - destruct Hi as (I1 & I2 & I3 & I4 & I5 & I6). unfold evsafe. rewrite I1, I2, I3, I4. cbn [ol length]. split; [done|]. split; [lia|]. destruct (hw_wait c); [done|lia].
  - destruct Hroom as [Hx|[Hx|[Hx|[Hx|Hx]]]]; unfold roomy.
    + left. pose proof HnN. nia.
    + right; left. split; [done|lia].
    + right; right; by left.
    + right; right; right; by left.
    + by do 4 right.
  - destruct (_ && _); lia.
Qed.

Lemma lossy : d_guard d = GAny -> hw_wait c = false -> (1 <= hw_txd c)%nat -> (1 <= hw_rxd c)%nat -> ~ room d c n ->
  exists early, forall later k, s_env s = early ++ later ->
  exists (s' : spist) (got : nat), transfer k (fun s => s) (spi_xfer d c miso) n rx tx s 0 = Ok (s', got) /\ (got < n)%nat.
Proof.
  intros Hg Hwt Ht Hr Hroom. pose proof (fa_w _ _ Fa) as Hw.
  exists (overrun c). intros later k He.
  apply (overrun_transfer d B c miso Hw (fa_rw _ _ Fa) (fa_put _ _ Fa) Hm (s_mem s) W0 n rx tx N HnN Hbits Hb (facts_land _ _ Fa) s later k); try done.
  - by apply (fa_arm _ _ Fa).
  - destruct (decide (hw_rxd c <= hw_txd c + 1)%nat); [done|]. exfalso. apply Hroom. right; left. lia.
  - destruct (decide (hw_rxd c < N)%nat); [done|]. exfalso. apply Hroom. left. pose proof HnN. nia.
  - apply start.
Qed.
End thms.

(** ** spi-avr.c *)
Section avr.
Context (c : hwcfg) (miso : nat -> Z) (m0 W0 : list Z) (n rx tx : nat).
Context (Hr : (1 <= hw_rxd c)%nat) (Hb : buffers_ok m0 n rx tx).
Notation d := drv_tinyavr.
Notation Fr := (map (fun i => frame_at d m0 (tx + i * 1)) (seq 0 n)).

Record av_hw (q : nat) (armed : bool) (h : hwst) : Prop := {
  ah_tx : h_tx h = [];
  ah_lost : h_lost h = 0%nat;
  ah_st : (armed = false /\ h_sh h = None /\ h_rx h = [] /\ h_wire h = W0 ++ take q Fr) \/
          (armed = true /\ (q < n)%nat /\ h_sh h = Some (frame_at d m0 (tx + q)) /\ h_rx h = [] /\ h_wire h = W0 ++ take q Fr) \/
          (armed = true /\ (q < n)%nat /\ h_sh h = None /\ h_rx h = [miso (length W0 + q)%nat] /\ h_wire h = W0 ++ take (S q) Fr)
}.
Record av (q : nat) (s : spist) : Prop := {
  av_h : av_hw q (s_armed s) (s_hw s);
  av_q : (q <= n)%nat;
  av_arm : (0 < q < n)%nat -> s_armed s = true;
  av_done : (q = n)%nat -> s_armed s = false;
  av_bal : s_bal s = 0;
  av_len : length (s_mem s) = length m0;
  av_out : forall j, (j < rx \/ rx + q <= j)%nat -> s_mem s !! j = m0 !! j;
  av_rx : forall i, (i < q)%nat -> s_mem s !! (rx + i)%nat = Some (miso (length W0 + i)%nat)
}.
Lemma take_frame q : (q < n)%nat -> take (S q) Fr = take q Fr ++ [frame_at d m0 (tx + q)].
Proof.
  intros H. erewrite take_S_r; [done|]. rewrite list_lookup_fmap, lookup_seq_lt by done. cbn [fmap option_fmap option_map].
  by rewrite Nat.mul_1_r.
Qed.
Lemma av_ev q a h e : av_hw q a h -> av_hw q a (hw_ev c miso h e).
Proof.
  intros [H1 H2 H3]. destruct h as [t sh r wi lo]. cbn [h_tx h_lost h_sh h_rx h_wire] in *. subst t lo.
  destruct H3 as [(A & B & C & D)|[(A & Q & B & C & D)|(A & Q & B & C & D)]]; subst sh r wi; destruct e; cbn [hw_ev h_sh h_tx h_rx h_wire h_lost length].
  - constructor; cbn [h_tx h_lost h_sh h_rx h_wire]; auto.
  - constructor; cbn [h_tx h_lost h_sh h_rx h_wire]; auto.
  - constructor; cbn [h_tx h_lost h_sh h_rx h_wire]; auto 10.
  - destruct (Nat.ltb_spec 0 (hw_rxd c)); [|lia]. constructor; cbn [h_tx h_lost h_sh h_rx h_wire]; [done|done|].
    right; right. rewrite take_frame by done. cbn [app]. split; [done|]. split; [done|]. split; [done|].
    rewrite <- app_assoc. split; [|done]. do 2 f_equal. rewrite app_length, take_length, map_length, seq_length. lia.
  - constructor; cbn [h_tx h_lost h_sh h_rx h_wire]; auto 10.
  - constructor; cbn [h_tx h_lost h_sh h_rx h_wire]; auto 10.
Qed.
Lemma av_run q a l : forall h, av_hw q a h -> av_hw q a (hw_run c miso h l).
Proof.
  induction l as [|e l IH]; intros h H; [done|].
  change (hw_run c miso h (e :: l)) with (hw_run c miso (hw_ev c miso h e) l). by apply IH, av_ev.
Qed.
Lemma av_env q s : av q s -> av q (env c miso s).
Proof. intros [H1 H2 H3 H4 H5 H6 H7 H8]. unfold env. destruct (s_env s); [by constructor|]. constructor; cbn [s_hw s_armed s_bal s_mem]; try done. by apply av_run. Qed.
Lemma av_settle q s : av q s -> av q (settle c miso s).
Proof. intros [H1 H2 H3 H4 H5 H6 H7 H8]. unfold settle. constructor; cbn [s_hw s_armed s_bal s_mem]; try done. by apply av_run. Qed.

Lemma load_byte q s : av q s -> forall i, (q <= i < n)%nat -> exists u, mload (s_mem s) (tx + i) 1 = Ok u /\ le_val u = frame_at d m0 (tx + i).
Proof.
  intros I i Hi. destruct Hb as (B1 & B2 & B3). unfold mload. rewrite (av_len _ _ I).
  destruct (Nat.leb_spec (tx + i + 1) (length m0)); [|lia]. eexists. split; [done|].
  unfold frame_at. cbn [drv_tinyavr d_txval d_txw]. f_equal. apply slice_eq. intros j Hj. apply (av_out _ _ I). lia.
Qed.

Lemma av_call q s : av q s -> (q < n)%nat -> exists (s' : spist) (r : Z) (q' : nat),
  avr_xfer c miso (n - q) (rx + q) (tx + q) s = Ok (s', r) /\ av q' s' /\ (q <= q')%nat /\
  (if 0 <? r then (q + Z.to_nat r)%nat else q) = q' /\
  (s_armed s = false -> s_armed s' = true) /\ (s_armed s = true -> h_rx (s_hw s) <> [] -> q' = S q).
Proof.
  intros I0 Hq. assert (Ha : s_armed (env c miso s) = s_armed s) by apply env_armed.
  assert (Hrx : h_rx (s_hw s) <> [] -> h_rx (s_hw (env c miso s)) <> []).
  { unfold env. destruct (s_env s) as [|l e]; [done|]. cbn [s_hw]. clear -Hr. revert s. intros s. generalize (s_hw s). induction l as [|x l IH]; intros h Hh; [done|].
    change (hw_run c miso h (x :: l)) with (hw_run c miso (hw_ev c miso h x) l). apply IH.
    destruct h as [t' [y|] r' wi' lo']; destruct x; cbn [hw_ev h_sh h_tx h_rx h_wire h_lost] in *; try done.
    - destruct (length r' <? hw_rxd c)%nat; [cbn [h_rx]; by destruct r'|done].
    - destruct t'; [done|]. destruct (hw_wait c && _); done. }
  unfold avr_xfer. destruct (Nat.eqb_spec (n - q) 0); [lia|].
  pose proof (av_env _ _ I0) as I. rewrite <- Ha. set (s1 := env c miso s) in *. clearbody s1. clear Ha.
  pose proof I as [[H1 H2 H3] Iq Iarm Idone Ib Il Io Ir].
  destruct (s_armed s1) eqn:Ea.
  - destruct H3 as [(A & _)|[(A & Q & B & C & D)|(A & Q & B & C & D)]]; [done| |].
    + rewrite C. exists s1, (- SPI_EAGAIN), q. split; [done|]. split; [done|]. split; [lia|]. split; [done|]. split; [done|]. intros _ X. by destruct (Hrx X).
    + rewrite C. destruct Hb as (B1 & B2 & B3).
      destruct (store_ok (s_mem s1) (rx + q) [miso (length W0 + q)%nat]) as [m' Hm']; [rewrite Il; cbn [length]; lia|].
      rewrite Hm'. cbn [rbind].
      assert (Hlen : length m' = length m0) by (rewrite (store_len _ _ _ _ Hm'); done).
      assert (Hout : forall j, (j < rx \/ rx + S q <= j)%nat -> m' !! j = m0 !! j).
      { intros j Hj. rewrite (store_lookup _ _ _ _ Hm') by (cbn [length]; lia). apply Io. lia. }
      assert (Hin : forall i, (i < S q)%nat -> m' !! (rx + i)%nat = Some (miso (length W0 + i)%nat)).
      { intros i Hi. destruct (decide (i = q)) as [->|].
        - pose proof (store_read _ _ _ _ Hm') as S. cbn [length] in S. apply (f_equal (fun l => l !! 0%nat)) in S.
          rewrite lookup_take in S by lia. rewrite lookup_drop in S. rewrite Nat.add_0_r in S. exact S.
        - rewrite (store_lookup _ _ _ _ Hm') by (cbn [length]; lia). apply Ir. lia. }
      destruct (Nat.ltb_spec 1 (n - q)) as [Hn1|Hn1].
      * assert (Hu : exists u, mload m' (tx + q + 1) 1 = Ok u /\ le_val u = frame_at d m0 (tx + S q)).
        { unfold mload. rewrite Hlen. destruct (Nat.leb_spec (tx + q + 1 + 1) (length m0)); [|lia]. eexists. split; [done|].
          unfold frame_at. cbn [drv_tinyavr d_txval d_txw]. replace (tx + S q)%nat with (tx + q + 1)%nat by lia. f_equal. apply slice_eq. intros j Hj. apply Hout. lia. }
        destruct Hu as (u & Hu1 & Hu2). rewrite Hu1. cbn [rbind]. rewrite Hu2. eexists _, 1, (S q). split; [done|].
        split; [|split; [lia|split; [cbn; lia|split; done]]].
        constructor; cbn [s_hw s_armed s_bal s_mem]; try done; try lia.
        unfold avr_put. cbn [h_sh h_tx h_rx h_wire h_lost]. rewrite B. constructor; cbn [h_tx h_lost h_sh h_rx h_wire]; [done|done|].
        right; left. split; [done|]. split; [lia|]. done.
      * eexists _, 1, (S q). split; [done|]. split; [|split; [lia|split; [cbn; lia|split; done]]].
        constructor; cbn [s_hw s_armed s_bal s_mem]; try done; try lia.
        constructor; cbn [h_tx h_lost h_sh h_rx h_wire]; [done|done|]. left. done.
  - destruct (load_byte _ _ I q ltac:(lia)) as (u & Hu1 & Hu2). rewrite Hu1. cbn [rbind]. rewrite Hu2.
    destruct H3 as [(A & B & C & D)|[(A & _)|(A & _)]]; [|done..].
    eexists _, (- SPI_EAGAIN), q. split; [done|]. split; [|split; [lia|split; [done|split; [done|done]]]].
    constructor; cbn [s_hw s_armed s_bal s_mem]; try done; try lia.
    unfold avr_put. rewrite B. constructor; cbn [h_tx h_lost h_sh h_rx h_wire]; [done|done|]. right; left. done.
Qed.

Lemma av_transfer p : (forall q s, av q s -> av q (p s)) -> forall k q s, av q s -> exists (s' : spist) (q' : nat),
  transfer k p (avr_xfer c miso) n rx tx s q = Ok (s', q') /\ av q' s'.
Proof.
  intros Hp. induction k as [|k IH]; intros q s I; cbn [transfer]; [eauto|].
  destruct (Nat.eqb_spec q n) as [->|Hne]; [eauto|]. pose proof (av_q _ _ I).
  destruct (av_call q (p s) (Hp _ _ I) ltac:(lia)) as (s1 & r & q1 & E & I1 & _ & D & _). rewrite E. cbn [rbind]. rewrite D. by apply IH.
Qed.
Lemma av_live : forall k q s, av q s -> (n - q + (if s_armed s then 0 else 1) <= k)%nat -> exists s',
  transfer k (settle c miso) (avr_xfer c miso) n rx tx s q = Ok (s', n).
Proof.
  induction k as [|k IH]; intros q s I Hk; cbn [transfer]; pose proof (av_q _ _ I).
  - assert (q = n) as -> by (destruct (s_armed s); lia). eauto.
  - destruct (Nat.eqb_spec q n) as [->|Hne]; [eauto|].
    pose proof (av_settle _ _ I) as Is. assert (Ea : s_armed (settle c miso s) = s_armed s) by done.
    destruct (av_call q _ Is ltac:(lia)) as (s1 & r & q1 & E & I1 & Q & D & A1 & A2). rewrite E. cbn [rbind]. rewrite D.
    rewrite Ea in *.
    destruct (s_armed s) eqn:Es.
    + assert (Hrx : h_rx (s_hw (settle c miso s)) <> []).
      { destruct I as [[H1 H2 H3] _ _ _ _ _ _ _]. unfold settle. rewrite H1. cbn [length repeat concat s_hw]. unfold hw_run. cbn [fold_left].
        rewrite Es in H3. destruct H3 as [(A & _)|[(A & Q' & B & C & D')|(A & Q' & B & C & D')]]; [done| |].
        - cbn [hw_ev]. rewrite B, C. cbn [length]. destruct (Nat.ltb_spec 0 (hw_rxd c)); [done|lia].
        - cbn [hw_ev]. rewrite B, C. done. }
      specialize (A2 eq_refl Hrx). clear D. subst q1. destruct (decide (S q = n)) as [->|].
      * exists s1. destruct k; cbn [transfer]; [done|]. by rewrite Nat.eqb_refl.
      * apply IH; [done|]. rewrite (av_arm _ _ I1) by lia. lia.
    + apply IH; [done|]. rewrite (A1 eq_refl). lia.
Qed.

Lemma av_start s : spi_idle s -> s_mem s = m0 -> h_wire (s_hw s) = W0 -> av 0 s.
Proof.
  intros (I1 & I2 & I3 & I4 & I5 & I6) Em Ew. constructor; rewrite ?Em; try done; [|lia|lia|lia].
  rewrite I6. constructor; [done|done|]. left. rewrite Ew, app_nil_r. done.
Qed.
End avr.

Lemma avr_fidelity c miso n rx tx s k : (1 <= hw_rxd c)%nat -> buffers_ok (s_mem s) n rx tx -> spi_idle s ->
  exists (s' : spist) (q : nat),
  transfer k (fun s => s) (avr_xfer c miso) n rx tx s 0 = Ok (s', q) /\ (q <= n)%nat /\
  (exists rest, h_wire (s_hw s') ++ rest = h_wire (s_hw s) ++ frames drv_tinyavr (s_mem s) tx n) /\
  length (s_mem s') = length (s_mem s) /\
  (forall j, (j < rx \/ rx + q <= j)%nat -> s_mem s' !! j = s_mem s !! j) /\
  (forall i, (i < q)%nat -> s_mem s' !! (rx + i)%nat = Some (miso (length (h_wire (s_hw s)) + i)%nat)) /\
  ((q = n)%nat -> h_wire (s_hw s') = h_wire (s_hw s) ++ frames drv_tinyavr (s_mem s) tx n /\ spi_idle s').
Proof.
  intros Hr Hb Hi. destruct (av_transfer c miso (s_mem s) (h_wire (s_hw s)) n rx tx Hr Hb (fun s => s) (fun _ _ H => H) k 0 s)
    as (s' & q & E & [[H1 H2 H3] Iq Iarm Idone Ib Il Io Ir]).
  { by apply (av_start c miso (s_mem s) (h_wire (s_hw s)) n rx tx Hr). }
  assert (Ef : map (fun i => frame_at drv_tinyavr (s_mem s) (tx + i * 1)) (seq 0 n) = frames drv_tinyavr (s_mem s) tx n).
  { unfold frames. cbn [drv_tinyavr d_txw]. by rewrite Nat.div_1_r. }
  rewrite Ef in H3. assert (Lf : length (frames drv_tinyavr (s_mem s) tx n) = n) by (rewrite <- Ef, map_length, seq_length; done).
  exists s', q. split; [done|]. split; [done|]. split.
  { assert (X : exists j, h_wire (s_hw s') = h_wire (s_hw s) ++ take j (frames drv_tinyavr (s_mem s) tx n)) by (destruct H3 as [?|[?|?]]; eexists; apply H).
    destruct X as [j ->]. exists (drop j (frames drv_tinyavr (s_mem s) tx n)). by rewrite <- app_assoc, take_drop. }
  split; [done|]. split; [done|]. split; [done|]. intros ->. specialize (Idone eq_refl). rewrite Idone in H3.
  destruct H3 as [(_ & B & C & D)|[(A & _)|(A & _)]]; [|done..]. rewrite take_ge in D by lia. split; [done|]. by repeat split.
Qed.
Lemma avr_complete c miso n rx tx s : (1 <= hw_rxd c)%nat -> buffers_ok (s_mem s) n rx tx -> spi_idle s ->
  exists s', transfer (n + 1) (settle c miso) (avr_xfer c miso) n rx tx s 0 = Ok (s', n).
Proof.
  intros Hr Hb Hi. apply (av_live c miso (s_mem s) (h_wire (s_hw s)) n rx tx Hr Hb (n + 1) 0 s); [by apply (av_start c miso (s_mem s) (h_wire (s_hw s)) n rx tx Hr)|].
  destruct (s_armed s); lia.
Qed.

(** ** 16-bit frames of the PIC32MX and RA4 drivers *)
Section half.
Context (d : sdrv) (c : hwcfg) (miso : nat -> Z) (Hd : d = drv_pic32mx 2 \/ d = drv_ra4 2).
Definition keeps (rx : nat) (m m' : list Z) : Prop := forall j, Nat.Odd (rx + j) -> m' !! j = m !! j.
Lemma env_mem s : s_mem (env c miso s) = s_mem s.
Proof. unfold env. by destruct (s_env s). Qed.
Lemma write_mem a s s' r : write_data d c miso a s = Ok (s', r) -> s_mem s' = s_mem s.
Proof.
  unfold write_data. rewrite <- (env_mem s). destruct (_ <? _)%nat.
  - unfold mload. destruct (_ <=? _)%nat; [|done]. cbn [rbind]. intros X. injection X as X _. by rewrite <- X.
  - intros X. injection X as X _. by rewrite <- X.
Qed.
Lemma half_loop fuel : forall n rx tx s recv s' recv', Nat.Even recv ->
  xfer_loop fuel d c miso n rx tx s recv = Ok (s', recv') -> Nat.Even recv' /\ keeps rx (s_mem s) (s_mem s').
Proof.
  induction fuel as [|fuel IH]; intros n rx tx s recv s' recv' Hev; cbn [xfer_loop]; [done|].
  destruct (recv =? n)%nat; [intros [= <- <-]; split; [done|by intros j Hj]|].
  assert (W : forall s1 x1, (if may_write d (wrap (d_bits d) (Z.of_nat recv + s_bal s)) (s_bal s) n then
           let! (s, r) := write_data d c miso (tx + Z.to_nat (wrap (d_bits d) (Z.of_nat recv + s_bal s))) s in
           if 0 <? r then Ok (add_bal r s, true) else Ok (s, false)
         else Ok (s, false)) = Ok (s1, x1) -> s_mem s1 = s_mem s).
  { intros s1 x1. destruct (may_write _ _ _ _); [|by intros [= <- _]].
    destruct (write_data d c miso _ s) as [[s0 r]| | |] eqn:E; [|done..]. cbn [rbind]. apply write_mem in E.
    destruct (0 <? r); intros X; injection X as X _; by rewrite <- X. }
  destruct (if may_write d _ _ n then _ else _) as [[s1 x1]| | |]; [|done..]. specialize (W s1 x1 eq_refl). cbn [rbind].
  unfold read_data. destruct (h_rx (s_hw (env c miso s1))) as [|f rq].
  - cbn [rbind]. change (0 <? - SPI_EAGAIN) with false. cbv iota. cbn [rbind]. rewrite orb_false_r. destruct x1.
    + intros E. apply IH in E; [|done]. rewrite env_mem, W in E. done.
    + intros E. injection E as <- <-. rewrite env_mem, W. split; [done|by intros j Hj].
  - destruct (mstore _ _ _) as [m| | |] eqn:Em; [|done..]. cbn [rbind].
    assert (Ep : length (d_rxput d f) = 1%nat) by (destruct Hd; by subst d).
    assert (Erw : d_rxw d = 2%nat) by (destruct Hd; by subst d). rewrite Erw.
    change (0 <? Z.of_nat 2) with true. cbv iota. cbn [rbind]. rewrite orb_true_r. change (Z.to_nat (Z.of_nat 2)) with 2%nat.
    intros E. destruct Hev as [e He]. apply IH in E; [|exists (S e); lia]. cbn [add_bal s_mem] in E. destruct E as [E1 E2]. split; [done|].
    intros j Hj. rewrite (E2 j Hj). rewrite (store_lookup _ _ _ _ Em) by (rewrite Ep; destruct Hj as [x Hj]; lia). by rewrite env_mem, W.
Qed.
Lemma half_call n rx tx s s' r : spi_xfer d c miso n rx tx s = Ok (s', r) ->
  Nat.Even (if 0 <? r then Z.to_nat r else 0%nat) /\ keeps rx (s_mem s) (s_mem s').
Proof.
  unfold spi_xfer. destruct (n =? 0)%nat; [intros [= <- <-]; split; [by exists 0%nat|by intros j Hj]|].
  destruct (negb _); [intros [= <- <-]; split; [by exists 0%nat|by intros j Hj]|].
  assert (Ea : d_arm d = false) by (destruct Hd; by subst d). rewrite Ea. cbn [andb].
  destruct (xfer_loop _ _ _ _ _ _ _ _ _) as [[s1 recv]| | |] eqn:E; [|done..]. cbn [rbind].
  apply half_loop in E; [|by exists 0%nat]. destruct E as [E1 E2].
  destruct (recv =? 0)%nat; intros X; injection X as <- <-.
  - split; [by exists 0%nat|done].
  - rewrite Nat2Z.id. split; [|done]. destruct (0 <? _); [done|by exists 0%nat].
Qed.
Lemma half_transfer p n rx tx : (forall s, s_mem (p s) = s_mem s) -> forall k s got s' got', Nat.Even got ->
  transfer k p (spi_xfer d c miso) n rx tx s got = Ok (s', got') -> keeps rx (s_mem s) (s_mem s').
Proof.
  intros Hp. induction k as [|k IH]; intros s got s' got' Hev; cbn [transfer]; [intros [= <- _]; by intros j Hj|].
  destruct (got =? n)%nat; [intros [= <- _]; by intros j Hj|].
  destruct (spi_xfer _ _ _ _ _ _ _) as [[s1 r]| | |] eqn:E; [|done..]. cbn [rbind].
  apply half_call in E. destruct E as [E1 E2]. rewrite Hp in E2. intros X. apply IH in X.
  - destruct Hev as [e He]. intros j Hj. rewrite (X j Hj). apply E2. destruct Hj as [x Hj]. exists (x + e)%nat. lia.
  - destruct (0 <? r); [|done]. destruct Hev as [a Ha], E1 as [b Hb]. exists (a + b)%nat. lia.
Qed.
End half.
