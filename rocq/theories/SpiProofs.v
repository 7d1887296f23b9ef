(** SpiProofs.v - invariants of the polled SPI drivers. *)
From Verif Require Import Base SpiModel SpiSpec.
From Coq Require Import ZifyBool ZifyNat.

(** ** Lists *)
Lemma slice_eq (m m' : list Z) a w :
  (forall j, (a <= j < a + w)%nat -> m !! j = m' !! j) -> take w (drop a m) = take w (drop a m').
Proof.
  intros H. apply list_eq. intros i. destruct (decide (i < w)%nat).
  - rewrite !lookup_take by done. rewrite !lookup_drop. apply H. lia.
  - rewrite !lookup_take_ge by lia. done.
Qed.
Lemma store_len m off l m' : mstore m off l = Ok m' -> length m' = length m.
Proof.
  unfold mstore. destruct (Nat.leb_spec (off + length l) (length m)); [|done]. intros [= <-].
  rewrite !app_length, take_length, drop_length. lia.
Qed.
Lemma store_lookup m off l m' : mstore m off l = Ok m' ->
  forall j, (j < off \/ off + length l <= j)%nat -> m' !! j = m !! j.
Proof.
  unfold mstore. destruct (Nat.leb_spec (off + length l) (length m)); [|done]. intros [= <-] j Hj.
  destruct Hj.
  - rewrite lookup_app_l by (rewrite take_length; lia). by rewrite lookup_take.
  - rewrite lookup_app_r by (rewrite take_length; lia). rewrite lookup_app_r by (rewrite take_length; lia).
    rewrite take_length, lookup_drop. f_equal. lia.
Qed.
Lemma store_read m off l m' : mstore m off l = Ok m' -> take (length l) (drop off m') = l.
Proof.
  unfold mstore. destruct (Nat.leb_spec (off + length l) (length m)); [|done]. intros [= <-].
  rewrite drop_app_ge by (rewrite take_length; lia). rewrite take_length.
  replace (off - off `min` length m)%nat with 0%nat by lia. rewrite drop_0. by rewrite take_app.
Qed.
Lemma store_ok m off l : (off + length l <= length m)%nat -> exists m', mstore m off l = Ok m'.
Proof. intros H. unfold mstore. destruct (Nat.leb_spec (off + length l) (length m)); [eauto|lia]. Qed.

Definition ol (o : option Z) : list Z := match o with Some x => [x] | None => [] end.

(** ** The invariant *)
Section inv.
Context (d : sdrv) (B : Z) (c : hwcfg) (miso : nat -> Z).
Notation w := (d_txw d).
Context (Hw : (0 < w)%nat) (Hrw : d_rxw d = w) (Hfw : d_fw d = Z.of_nat w).
Context (Hput : forall f, 0 <= f < B -> length (d_rxput d f) = w /\ d_txval d (d_rxput d f) = f).
Context (Hmiso : forall i, 0 <= miso i < B).
Context (m0 : list Z) (W0 : list Z) (n rx tx N : nat).
Context (Hn : n = (N * w)%nat) (Hbits : Z.of_nat n < 2 ^ d_bits d) (Hbuf : buffers_ok m0 n rx tx).

Definition F (i : nat) : Z := frame_at d m0 (tx + i * w).
Definition R (i : nat) : Z := miso (length W0 + i).

Record hinv (sent q : nat) (h : hwst) : Prop := {
  hi_wire : h_wire h ++ ol (h_sh h) ++ h_tx h = W0 ++ map F (seq 0 sent);
  hi_cnt : sent = (q + length (h_rx h) + length (ol (h_sh h)) + length (h_tx h) + h_lost h)%nat;
  hi_rx : h_lost h = 0%nat -> h_rx h = map R (seq q (length (h_rx h)))
}.
Record minv (q lost : nat) (m : list Z) : Prop := {
  mi_len : length m = length m0;
  mi_out : forall j, (j < rx \/ rx + q * w <= j)%nat -> m !! j = m0 !! j;
  mi_rx : lost = 0%nat -> forall i, (i < q)%nat -> frame_at d m (rx + i * w) = R i
}.
Record sinv (sent q : nat) (s : spist) : Prop := {
  si_h : hinv sent q (s_hw s);
  si_m : minv q (h_lost (s_hw s)) (s_mem s);
  si_bal : s_bal s = Z.of_nat (sent - q) * Z.of_nat w;
  si_N : (sent <= N)%nat;
  si_rng : Forall (fun f => 0 <= f < B) (h_rx (s_hw s))
}.

Lemma hinv_wirelen sent q h : hinv sent q h -> length (h_wire h) = (length W0 + q + length (h_rx h) + h_lost h)%nat.
Proof.
  intros [H1 H2 _]. apply (f_equal length) in H1. rewrite !app_length, map_length, seq_length in H1. lia.
Qed.
Lemma ev_inv sent q h e : hinv sent q h -> Forall (fun f => 0 <= f < B) (h_rx h) ->
  hinv sent q (hw_ev c miso h e) /\ Forall (fun f => 0 <= f < B) (h_rx (hw_ev c miso h e)) /\
  (h_lost h <= h_lost (hw_ev c miso h e))%nat /\ (h_rx h <> [] -> h_rx (hw_ev c miso h e) <> []).
Proof.
  intros H Hf. pose proof (hinv_wirelen _ _ _ H) as L. destruct H as [H1 H2 H3]. destruct h as [t sh r wi lo].
  cbn [h_wire h_sh h_tx h_rx h_lost] in *. destruct e; cbn [hw_ev h_sh h_tx h_rx h_wire h_lost].
  - destruct sh as [x|]; [repeat split; done|]. destruct t as [|f t]; [repeat split; done|].
    destruct (hw_wait c && _); [repeat split; done|]. cbn [h_rx h_lost].
    repeat split; cbn [h_wire h_sh h_tx h_rx h_lost ol length] in *; try done; lia.
  - destruct sh as [f|]; [|repeat split; done].
    destruct (Nat.ltb_spec (length r) (hw_rxd c)); cbn [h_rx h_lost].
    + repeat split; cbn [h_wire h_sh h_tx h_rx h_lost ol length] in *; try done.
      * rewrite <- H1. rewrite <- app_assoc. done.
      * rewrite app_length. cbn [length]. lia.
      * intros E. rewrite app_length. cbn [length]. rewrite Nat.add_1_r, seq_S, map_app. cbn [map].
        rewrite <- (H3 E). do 2 f_equal. unfold R. f_equal. lia.
      * apply Forall_app. split; [done|]. constructor; [apply Hmiso|constructor].
      * intros _. by destruct r.
    + repeat split; cbn [h_wire h_sh h_tx h_rx h_lost ol length] in *; try done; try lia.
      rewrite <- H1. rewrite <- app_assoc. done.
Qed.
Lemma run_inv sent q l : forall h, hinv sent q h -> Forall (fun f => 0 <= f < B) (h_rx h) ->
  hinv sent q (hw_run c miso h l) /\ Forall (fun f => 0 <= f < B) (h_rx (hw_run c miso h l)) /\
  (h_lost h <= h_lost (hw_run c miso h l))%nat /\ (h_rx h <> [] -> h_rx (hw_run c miso h l) <> []).
Proof.
  induction l as [|e l IH]; intros h H Hf; [repeat split; try done; apply H|].
  destruct (ev_inv sent q h e H Hf) as (A1 & A2 & A3 & A4).
  destruct (IH _ A1 A2) as (C1 & C2 & C3 & C4). change (hw_run c miso h (e :: l)) with (hw_run c miso (hw_ev c miso h e) l).
  split; [done|]. split; [done|]. split; [lia|auto].
Qed.
Lemma minv_lost q a b m : (a <= b)%nat -> minv q a m -> minv q b m.
Proof. intros H [H1 H2 H3]. constructor; [done|done|]. intros E. apply H3. lia. Qed.
Lemma env_inv sent q s : sinv sent q s -> sinv sent q (env c miso s) /\
  (h_lost (s_hw s) <= h_lost (s_hw (env c miso s)))%nat /\ (h_rx (s_hw s) <> [] -> h_rx (s_hw (env c miso s)) <> []).
Proof.
  intros [H1 H2 H3 H4 H5]. unfold env. destruct (s_env s) as [|l r]; [split; [by constructor|split; [lia|done]]|]. cbn [s_hw].
  destruct (run_inv sent q l _ H1 H5) as (A1 & A2 & A3 & A4).
  split; [|done]. constructor; cbn [s_hw s_bal s_mem]; try done. by eapply minv_lost.
Qed.

Lemma F_mem sent q m lost : minv q lost m -> (q <= sent)%nat -> (sent < N)%nat -> frame_at d m (tx + sent * w) = F sent.
Proof.
  intros [H1 H2 _] Hq Hs. unfold F, frame_at. f_equal. apply slice_eq. intros j Hj. apply H2.
  destruct Hbuf as (B1 & B2 & B3). assert (q * w <= sent * w)%nat by (by apply Nat.mul_le_mono_r).
  assert (sent * w + w <= n)%nat by nia. destruct B3 as [->|[?|?]]; nia.
Qed.

Lemma write_step sent q s at_ : sinv sent q s -> (q <= sent)%nat -> (sent < N)%nat -> at_ = (tx + sent * w)%nat ->
  exists s' r, write_data d c miso at_ s = Ok (s', r) /\
  ( (r = - SPI_EAGAIN /\ s' = env c miso s /\ (hw_txd c <= length (h_tx (s_hw s')))%nat) \/
    (r = Z.of_nat w /\ sinv (S sent) q (add_bal r s') /\ (length (h_tx (s_hw (env c miso s))) < hw_txd c)%nat /\
     s_hw s' = mkHwst (h_tx (s_hw (env c miso s)) ++ [F sent]) (h_sh (s_hw (env c miso s))) (h_rx (s_hw (env c miso s)))
                      (h_wire (s_hw (env c miso s))) (h_lost (s_hw (env c miso s))) /\ s_armed s' = s_armed (env c miso s))).
Proof.
  intros H Hq Hs ->. destruct (env_inv _ _ _ H) as (A & _ & _). unfold write_data.
  set (s1 := env c miso s) in *. destruct A as [[A1 A1' A1''] A2 A3 A4 A5].
  destruct (Nat.ltb_spec (length (h_tx (s_hw s1))) (hw_txd c)) as [Hl|Hl].
  - unfold mload. destruct Hbuf as (B1 & B2 & B3).
    assert (sent * w + w <= n)%nat by nia.
    destruct (Nat.leb_spec (tx + sent * w + w) (length (s_mem s1))) as [_|Hx];
      [|rewrite (mi_len _ _ _ A2) in Hx; lia].
    cbn [rbind]. do 2 eexists. split; [reflexivity|]. right.
    change (d_txval d (take w (drop (tx + sent * w) (s_mem s1)))) with (frame_at d (s_mem s1) (tx + sent * w)).
    rewrite (F_mem sent q _ _ A2) by done.
    split; [done|]. split; [|done].
    constructor; cbn [add_bal s_hw s_bal s_mem h_lost h_rx]; try done; [|rewrite A3; replace (S sent - q)%nat with (S (sent - q)) by lia; nia].
    constructor; cbn [h_wire h_sh h_tx h_rx h_lost].
    + rewrite seq_S, map_app. cbn [map]. rewrite (app_assoc (ol _)), (app_assoc (h_wire _)), A1, <- app_assoc. done.
    + rewrite app_length. cbn [length]. lia.
    + done.
  - do 2 eexists. split; [reflexivity|]. left. repeat split; done.
Qed.

Lemma read_step sent q s at_ : sinv sent q s -> (q <= sent)%nat -> at_ = (rx + q * w)%nat ->
  exists s' r, read_data d c miso at_ s = Ok (s', r) /\
  ( (r = - SPI_EAGAIN /\ s' = env c miso s /\ h_rx (s_hw s') = []) \/
    (r = Z.of_nat w /\ (q < sent)%nat /\ sinv sent (S q) (add_bal (- r) s') /\
     (exists f, h_rx (s_hw (env c miso s)) = f :: h_rx (s_hw s')) /\ h_tx (s_hw s') = h_tx (s_hw (env c miso s)) /\
     h_sh (s_hw s') = h_sh (s_hw (env c miso s)) /\ h_lost (s_hw s') = h_lost (s_hw (env c miso s)) /\
     s_armed s' = s_armed (env c miso s))).
Proof.
  intros H Hq ->. destruct (env_inv _ _ _ H) as (A & _ & _). unfold read_data.
  set (s1 := env c miso s) in *. destruct A as [[A1 A1' A1''] A2 A3 A4 A5].
  destruct (h_rx (s_hw s1)) as [|f r] eqn:E.
  - do 2 eexists. split; [reflexivity|]. left. repeat split; done.
  - assert (q < sent)%nat by (cbn [length] in A1'; lia). destruct Hbuf as (B1 & B2 & B3).
    assert (q * w + w <= n)%nat by nia.
    apply Forall_cons in A5 as [Hf A5]. destruct (Hput f Hf) as [P1 P2].
    destruct (store_ok (s_mem s1) (rx + q * w) (d_rxput d f)) as [m' Hm'].
    { rewrite P1, (mi_len _ _ _ A2). lia. }
    rewrite Hm'. cbn [rbind]. do 2 eexists. split; [reflexivity|]. right.
    split; [by rewrite Hrw|]. split; [done|]. cbn [s_hw h_rx h_tx h_sh h_lost s_armed].
    split; [|repeat split; eauto].
    constructor; cbn [add_bal s_hw s_bal s_mem h_rx h_lost]; try done.
    + constructor; cbn [h_wire h_sh h_tx h_rx h_lost]; [done|cbn [length] in A1'; lia|].
      intros L. specialize (A1'' L). cbn [length seq map] in A1''. injection A1'' as _ E'. exact E'.
    + constructor.
      * rewrite (store_len _ _ _ _ Hm'). apply A2.
      * intros j Hj. rewrite (store_lookup _ _ _ _ Hm') by (rewrite P1; lia). apply A2. nia.
      * intros L i Hi. destruct (decide (i = q)) as [->|].
        -- unfold frame_at. pose proof (store_read _ _ _ _ Hm') as S. rewrite P1 in S. rewrite S, P2.
           specialize (A1'' L). cbn [length seq map] in A1''. injection A1'' as E' _. exact E'.
        -- rewrite <- (mi_rx _ _ _ A2 L i) by lia. unfold frame_at. f_equal. apply slice_eq. intros j Hj.
           apply (store_lookup _ _ _ _ Hm'). assert (i * w + w <= q * w)%nat by nia. lia.
    + rewrite Hrw. nia.
Qed.

(** ** When nothing can be lost *)
Definition evsafe (h : hwst) : Prop :=
  h_lost h = 0%nat /\ (length (h_tx h) <= hw_txd c)%nat /\
  (if hw_wait c then h_sh h <> None -> h_rx h = []
   else (length (h_rx h) + length (ol (h_sh h)) + length (h_tx h) <= hw_rxd c)%nat).
Definition roomy (out : nat) : Prop :=
  (N <= hw_rxd c)%nat \/ ((hw_txd c + 2 <= hw_rxd c)%nat /\ (out <= hw_txd c + 1)%nat) \/
  d_guard d = GOne \/ (exists l, d_guard d = GLim l /\ l <= Z.of_nat (hw_rxd c * w)) \/ hw_wait c = true.
Lemma ev_safe h e : (1 <= hw_rxd c)%nat -> evsafe h -> evsafe (hw_ev c miso h e).
Proof.
  intros Hr (S1 & S2 & S3). destruct h as [t sh r wi lo]. unfold evsafe. cbn [h_wire h_sh h_tx h_rx h_lost] in *.
  destruct e; cbn [hw_ev h_sh h_tx h_rx h_wire h_lost].
  - destruct sh as [x|]; [by repeat split|]. destruct t as [|f t]; [by repeat split|].
    match goal with |- context [if ?b then mkHwst _ _ _ _ _ else _] => destruct b eqn:E end; [by repeat split|].
    cbn [h_rx h_lost h_sh h_tx ol length] in *.
    split; [done|]. split; [lia|]. destruct (hw_wait c); [|lia]. intros _. cbn [andb] in E. by destruct r.
  - destruct sh as [f|]; [|by repeat split]. cbn [ol length] in *.
    destruct (Nat.ltb_spec (length r) (hw_rxd c)); cbn [h_rx h_lost h_sh h_tx ol length].
    + split; [done|]. split; [done|]. rewrite app_length. cbn [length]. destruct (hw_wait c); [done|lia].
    + exfalso. destruct (hw_wait c); [|lia]. rewrite S3 in H by done. cbn [length] in H. lia.
Qed.
Lemma run_safe l : (1 <= hw_rxd c)%nat -> forall h, evsafe h -> evsafe (hw_run c miso h l).
Proof.
  intros Hr. induction l as [|e l IH]; intros h H; [done|].
  change (hw_run c miso h (e :: l)) with (hw_run c miso (hw_ev c miso h e) l). apply IH, ev_safe; done.
Qed.
Lemma env_safe s : (1 <= hw_rxd c)%nat -> evsafe (s_hw s) -> evsafe (s_hw (env c miso s)).
Proof. intros Hr H. unfold env. destruct (s_env s); [done|]. cbn [s_hw]. by apply run_safe. Qed.

(** ** One turn of the loop *)
Lemma env_armed s : s_armed (env c miso s) = s_armed s.
Proof. unfold env. by destruct (s_env s). Qed.
Lemma env_idle s : h_tx (s_hw s) = [] -> h_sh (s_hw s) = None -> s_hw (env c miso s) = s_hw s.
Proof.
  intros H1 H2. unfold env. destruct (s_env s) as [|l r]; [done|]. cbn [s_hw].
  induction l as [|e l IH]; [done|].
  change (hw_run c miso (s_hw s) (e :: l)) with (hw_run c miso (hw_ev c miso (s_hw s) e) l).
  replace (hw_ev c miso (s_hw s) e) with (s_hw s); [done|]. destruct e; cbn [hw_ev]; by rewrite H2, ?H1.
Qed.

Lemma turn fuel s sent q done recv : sinv sent q s -> (q <= sent)%nat -> (done + recv = q * w)%nat -> (recv < n - done)%nat ->
  (done <= n)%nat ->
  exists (s1 : spist) (sent1 q1 recv1 : nat) (x : bool),
    xfer_loop (S fuel) d c miso (n - done) (rx + done) (tx + done) s recv =
      (if x then xfer_loop fuel d c miso (n - done) (rx + done) (tx + done) s1 recv1 else Ok (s1, recv1)) /\
    sinv sent1 q1 s1 /\ (q1 <= sent1)%nat /\ (done + recv1 = q1 * w)%nat /\ (sent <= sent1)%nat /\ (q <= q1)%nat /\
    (x = true -> (sent + q < sent1 + q1)%nat) /\ s_armed s1 = s_armed s /\
    (h_lost (s_hw s) <= h_lost (s_hw s1))%nat /\
    (h_rx (s_hw s) <> [] -> (q < q1)%nat) /\
    (sent = q -> h_lost (s_hw s) = 0%nat -> (1 <= hw_txd c)%nat -> (sent < sent1)%nat \/ exists l, d_guard d = GLim l /\ l <= 0) /\
    ((1 <= hw_rxd c)%nat -> evsafe (s_hw s) -> roomy (sent - q) -> evsafe (s_hw s1) /\ roomy (sent1 - q1)).
Proof.
  intros I Hqs Hd Hr Hdn. cbn [xfer_loop]. destruct (Nat.eqb_spec recv (n - done)) as [|_]; [lia|].
  assert (Ebal : Z.of_nat recv + s_bal s = Z.of_nat (recv + (sent - q) * w)) by (rewrite (si_bal _ _ _ I); lia).
  assert (Esent : (done + recv + (sent - q) * w = sent * w)%nat) by nia.
  assert (HsN : (sent * w <= n)%nat) by (pose proof (si_N _ _ _ I); nia).
  assert (Etx : wrap (d_bits d) (Z.of_nat recv + s_bal s) = Z.of_nat (recv + (sent - q) * w)).
  { unfold wrap. rewrite Ebal. apply Z.mod_small. assert (recv + (sent - q) * w <= n)%nat by lia. split; [apply Nat2Z.is_nonneg|]. eapply Z.le_lt_trans; [|exact Hbits]. by apply Nat2Z.inj_le. }
  rewrite Etx. set (txn := (recv + (sent - q) * w)%nat) in *.
  (* the write *)
  assert (Wr : exists (s1 : spist) (sent1 : nat) (x1 : bool),
    (if may_write d (Z.of_nat txn) (s_bal s) (n - done)
     then let! (s0, r) := write_data d c miso (tx + done + Z.to_nat (Z.of_nat txn)) s in
          if 0 <? r then Ok (add_bal r s0, true) else Ok (s0, false)
     else Ok (s, false)) = Ok (s1, x1) /\
    sinv sent1 q s1 /\ (sent <= sent1)%nat /\ (x1 = true -> (sent < sent1)%nat) /\ s_armed s1 = s_armed s /\
    (h_lost (s_hw s) <= h_lost (s_hw s1))%nat /\ (h_rx (s_hw s) <> [] -> h_rx (s_hw s1) <> []) /\
    (sent = q -> h_lost (s_hw s) = 0%nat -> (1 <= hw_txd c)%nat -> (sent < sent1)%nat \/ exists l, d_guard d = GLim l /\ l <= 0) /\
    (sent1 <= S sent)%nat /\
    ((1 <= hw_rxd c)%nat -> evsafe (s_hw s) -> roomy (sent - q) -> evsafe (s_hw s1))).
  { destruct (may_write d (Z.of_nat txn) (s_bal s) (n - done)) eqn:Mw.
    - assert (Hlt : (sent < N)%nat).
      { assert (txn < n - done)%nat; [|nia]. unfold may_write in Mw. destruct (d_guard d); [lia| |lia].
        apply Z.eqb_eq in Mw. rewrite (si_bal _ _ _ I) in Mw. assert (sent - q = 0)%nat by nia. unfold txn.
        replace (sent - q)%nat with 0%nat by lia. lia. }
      destruct (write_step sent q s (tx + done + Z.to_nat (Z.of_nat txn)) I Hqs Hlt) as (s' & r & E & [(-> & -> & Hfull)|(-> & J & Hl & Eh & Ea)]).
      { rewrite Nat2Z.id. nia. }
      + rewrite E. cbn [rbind]. change (0 <? - SPI_EAGAIN) with false. cbv iota.
        destruct (env_inv _ _ _ I) as (A & A2 & A3).
        exists (env c miso s), sent, false. split; [done|]. split; [done|]. split; [lia|]. split; [done|].
        split; [apply env_armed|]. split; [done|]. split; [done|]. split; [|split; [lia|intros; by apply env_safe]].
        intros Es El Ht. exfalso. pose proof (hi_cnt _ _ _ (si_h _ _ _ A)) as C. pose proof (hi_cnt _ _ _ (si_h _ _ _ I)) as C'.
        lia.
      + rewrite E. cbn [rbind]. assert (0 < Z.of_nat w) by lia. destruct (Z.ltb_spec 0 (Z.of_nat w)); [|lia].
        destruct (env_inv _ _ _ I) as (A & A2 & A3).
        exists (add_bal (Z.of_nat w) s'), (S sent), true. split; [done|]. split; [done|]. split; [lia|]. split; [lia|].
        cbn [add_bal s_armed s_hw]. split; [by rewrite Ea, env_armed|]. rewrite Eh. cbn [h_lost h_rx].
        split; [done|]. split; [done|]. split; [left; lia|]. split; [lia|].
        intros Hrx Sf Rm. pose proof (env_safe s Hrx Sf) as (S1 & S2 & S3).
        unfold evsafe. cbn [h_lost h_tx h_rx h_sh]. rewrite app_length. cbn [length].
        split; [done|]. split; [lia|].
        pose proof (hi_cnt _ _ _ (si_h _ _ _ A)) as C. rewrite S1 in C.
        destruct (hw_wait c) eqn:Ew; [done|].
        destruct Rm as [Rm|[[Rm1 Rm2]|[Rm|[(l & Rm1 & Rm2)|Rm]]]].
        * lia.
        * lia.
        * unfold may_write in Mw. rewrite Rm in Mw. apply Z.eqb_eq in Mw. rewrite (si_bal _ _ _ I) in Mw.
          assert (sent - q = 0)%nat by nia. lia.
        * unfold may_write in Mw. rewrite Rm1 in Mw. apply andb_true_iff in Mw as [_ Mw]. apply Z.ltb_lt in Mw.
          rewrite (si_bal _ _ _ I) in Mw. assert (sent - q < hw_rxd c)%nat by nia. lia.
        * congruence.
    - exists s, sent, false. split; [done|]. split; [done|]. split; [lia|]. split; [done|]. split; [done|].
      split; [lia|]. split; [done|]. split; [|split; [lia|done]].
      intros Es El Ht. right. assert (Eb : s_bal s = 0) by (rewrite (si_bal _ _ _ I); nia).
      assert (Et : (txn < n - done)%nat) by (unfold txn; replace (sent - q)%nat with 0%nat by lia; lia).
      unfold may_write in Mw. rewrite Eb in Mw. destruct (d_guard d) as [| |l]; [lia|done|]. exists l. split; [done|]. lia. }
  destruct Wr as (s1 & sent1 & x1 & E1 & I1 & Hs1 & Hx1 & Ha1 & Hl1 & Hrx1 & Hw1 & Hs1' & Sf1).
  rewrite E1. cbn [rbind].
  destruct (read_step sent1 q s1 (rx + done + recv) I1 ltac:(lia) ltac:(lia)) as (s2 & r & E2 & [(-> & -> & He)|(-> & Hq & J & (f & Ef) & Et & Eh & El & Ea)]).
  - rewrite E2. cbn [rbind]. change (0 <? - SPI_EAGAIN) with false. cbv iota. cbn [rbind].
    destruct (env_inv _ _ _ I1) as (A & A2 & A3).
    exists (env c miso s1), sent1, q, recv, x1. rewrite orb_false_r. split; [by destruct x1|].
    split; [done|]. split; [lia|]. split; [done|]. split; [done|]. split; [lia|]. split; [intros X; specialize (Hx1 X); lia|].
    split; [by rewrite env_armed|]. split; [lia|]. split; [intros X; exfalso; exact (A3 (Hrx1 X) He)|].
    split; [done|]. intros Hrx Sf Rm. specialize (Sf1 Hrx Sf Rm). pose proof (env_safe s1 Hrx Sf1) as Sf2. split; [done|].
    destruct Sf2 as (S1 & S2 & S3). pose proof (hi_cnt _ _ _ (si_h _ _ _ A)) as C. rewrite S1, He in C. cbn [length] in C.
    destruct Rm as [Rm|[[Rm1 Rm2]|Rm]]; [by left| |by right; right].
    right; left. split; [done|]. assert (length (ol (h_sh (s_hw (env c miso s1)))) <= 1)%nat by (destruct (h_sh _); cbn [ol length]; lia). lia.
  - rewrite E2. cbn [rbind]. assert (0 < Z.of_nat w) by lia. destruct (Z.ltb_spec 0 (Z.of_nat w)); [|lia]. cbn [rbind].
    destruct (env_inv _ _ _ I1) as (A & A2 & A3).
    exists (add_bal (- Z.of_nat w) s2), sent1, (S q), (recv + Z.to_nat (Z.of_nat w))%nat, true.
    rewrite orb_true_r, Nat2Z.id. split; [done|]. split; [done|]. split; [lia|]. split; [lia|]. split; [done|]. split; [lia|].
    split; [lia|]. cbn [add_bal s_armed s_hw]. split; [by rewrite Ea, env_armed|]. split; [rewrite El; lia|]. split; [lia|].
    split; [done|]. intros Hrx Sf Rm. specialize (Sf1 Hrx Sf Rm). pose proof (env_safe s1 Hrx Sf1) as (S1 & S2 & S3). split.
    + unfold evsafe. rewrite El, Et, Eh. split; [done|]. split; [done|]. rewrite Ef in S3. cbn [length] in S3.
      destruct (hw_wait c); [|lia]. intros X. by specialize (S3 X).
    + destruct Rm as [Rm|[[Rm1 Rm2]|Rm]]; [by left| |by right; right]. right; left. split; [done|]. lia.
Qed.

(** ** A call *)
Definition follows (s : spist) (sent q : nat) (s' : spist) (sent' q' : nat) : Prop :=
  sinv sent' q' s' /\ (q' <= sent')%nat /\ (sent <= sent')%nat /\ (q <= q')%nat /\
  (h_lost (s_hw s) <= h_lost (s_hw s'))%nat /\
  ((1 <= hw_rxd c)%nat -> evsafe (s_hw s) -> roomy (sent - q) -> evsafe (s_hw s') /\ roomy (sent' - q')).
Definition dead_limit : Prop := exists l, d_guard d = GLim l /\ l <= 0.

Lemma loop fuel : forall s sent q done recv, sinv sent q s -> (q <= sent)%nat -> (done + recv = q * w)%nat ->
  (done <= n)%nat -> (2 * N < fuel + sent + q)%nat ->
  exists s' sent' q' recv',
    xfer_loop fuel d c miso (n - done) (rx + done) (tx + done) s recv = Ok (s', recv') /\
    follows s sent q s' sent' q' /\ (done + recv' = q' * w)%nat /\ s_armed s' = s_armed s /\
    ((recv < n - done)%nat -> h_rx (s_hw s) <> [] -> (q < q')%nat) /\
    ((recv < n - done)%nat -> sent = q -> h_lost (s_hw s) = 0%nat -> (1 <= hw_txd c)%nat -> (sent < sent')%nat \/ dead_limit).
Proof.
  induction fuel as [|fuel IH]; intros s sent q done recv I Hqs Hd Hdn Hf.
  { pose proof (si_N _ _ _ I). lia. }
  assert (Hqn : (q * w <= n)%nat) by (pose proof (si_N _ _ _ I); nia).
  destruct (Nat.eq_dec recv (n - done)%nat) as [Heq|Hne].
  - cbn [xfer_loop]. destruct (Nat.eqb_spec recv (n - done)); [|lia].
    exists s, sent, q, recv. split; [done|]. split; [|split; [done|split; [done|split; lia]]].
    unfold follows. split; [done|]. split; [done|]. split; [lia|]. split; [lia|]. split; [lia|done].
  - destruct (turn fuel s sent q done recv I Hqs Hd ltac:(lia) Hdn)
      as (s1 & sent1 & q1 & recv1 & x & E & I1 & T1 & T2 & T3 & T4 & T5 & T6 & T7 & T8 & T9 & T10).
    rewrite E. destruct x.
    + specialize (T5 eq_refl). destruct (IH s1 sent1 q1 done recv1 I1 T1 T2 Hdn ltac:(lia))
        as (s' & sent' & q' & recv' & E' & (F1 & F2 & F3 & F4 & F5 & F6) & G1 & G2 & _ & _).
      exists s', sent', q', recv'. split; [done|]. split; [|split; [done|split; [by rewrite G2|split]]].
      * unfold follows. split; [done|]. split; [done|]. split; [lia|]. split; [lia|]. split; [lia|].
        intros R1 R2 R3. destruct (T10 R1 R2 R3). by apply F6.
      * intros _ X. specialize (T8 X). lia.
      * intros _ X1 X2 X3. destruct (T9 X1 X2 X3) as [|]; [left; lia|by right].
    + exists s1, sent1, q1, recv1. split; [done|]. split; [|split; [done|split; [done|split]]].
      * unfold follows. auto 10.
      * auto.
      * intros _ X1 X2 X3. destruct (T9 X1 X2 X3); [by left|by right].
Qed.

Context (Hland : forall k, Z.land (Z.of_nat (k * w)) (d_fw d - 1) = 0).

Lemma sinv_armed b sent q s : sinv sent q s -> sinv sent q (set_armed b s).
Proof. intros [H1 H2 H3 H4 H5]. by constructor. Qed.

Lemma call s sent q done : sinv sent q s -> (q <= sent)%nat -> (done = q * w)%nat -> (done < n)%nat ->
  exists s' r sent' q',
    spi_xfer d c miso (n - done) (rx + done) (tx + done) s = Ok (s', r) /\
    follows s sent q s' sent' q' /\
    (if 0 <? r then (done + Z.to_nat r)%nat else done) = (q' * w)%nat /\
    (d_arm d && negb (s_armed s) = true -> s_armed s' = true) /\
    (d_arm d = true -> (q' * w < n)%nat -> s_armed s' = true) /\
    (d_arm d = true -> (q' * w = n)%nat -> s_armed s' = false) /\
    (d_arm d = false -> s_armed s' = s_armed s) /\
    (d_arm d && negb (s_armed s) = false -> h_rx (s_hw s) <> [] -> (q < q')%nat) /\
    (d_arm d && negb (s_armed s) = false -> sent = q -> h_lost (s_hw s) = 0%nat -> (1 <= hw_txd c)%nat -> (sent < sent')%nat \/ dead_limit).
Proof.
  intros I Hqs -> Hdn. unfold spi_xfer.
  destruct (Nat.eqb_spec (n - q * w) 0); [lia|].
  assert (HL : Z.land (Z.of_nat (n - q * w)) (d_fw d - 1) = 0).
  { replace (n - q * w)%nat with ((N - q) * w)%nat by nia. apply Hland. }
  rewrite HL. cbn [Z.eqb negb].
  destruct (d_arm d && negb (s_armed s)) eqn:Ea.
  - exists (set_armed true s), (- SPI_EAGAIN), sent, q. split; [done|]. change (0 <? - SPI_EAGAIN) with false. cbv iota.
    apply andb_true_iff in Ea as [Ea1 Ea2].
    split; [|split; [done|split; [done|split; [done|split; [lia|split; [congruence|split; done]]]]]].
    unfold follows. split; [by apply sinv_armed|]. split; [done|]. split; [lia|]. split; [lia|]. split; [done|done].
  - pose proof (si_N _ _ _ I) as HN.
    assert (N - q <= (N - q) * w)%nat by nia. assert ((N - q) * w = n - q * w)%nat by nia.
    destruct (loop (S ((n - q * w) + (n - q * w))) s sent q (q * w) 0 I Hqs ltac:(lia) ltac:(lia) ltac:(lia))
      as (s' & sent' & q' & recv' & E' & Fo & G1 & G2 & G3 & G4).
    rewrite E'. cbn [rbind].
    assert (Hq' : (q' * w <= n)%nat). { destruct Fo as (F1 & F2 & _). pose proof (si_N _ _ _ F1). nia. }
    assert (Hqq : (q <= q')%nat) by apply Fo.
    destruct (Nat.eqb_spec recv' 0) as [->|Hr].
    + exists s', (- SPI_EAGAIN), sent', q'. split; [done|]. change (0 <? - SPI_EAGAIN) with false. cbv iota.
      split; [done|]. split; [lia|]. split; [done|]. split; [|split; [lia|split; [done|split]]].
      * intros Xa _. rewrite G2. rewrite Xa in Ea. by destruct (s_armed s).
      * intros _. apply G3. lia.
      * intros _. apply G4. lia.
    + exists (if d_arm d && (recv' =? n - q * w)%nat then set_armed false s' else s'), (Z.of_nat recv'), sent', q'. split; [done|].
      destruct (Z.ltb_spec 0 (Z.of_nat recv')); [|lia]. rewrite Nat2Z.id.
      split; [|split; [lia|split; [done|split; [|split; [|split; [|split]]]]]].
      * unfold follows. destruct Fo as (F1 & F2 & F3 & F4 & F5 & F6). destruct (d_arm d && (recv' =? n - q * w)%nat); [|exact (conj F1 (conj F2 (conj F3 (conj F4 (conj F5 F6)))))].
        split; [by apply sinv_armed|]. exact (conj F2 (conj F3 (conj F4 (conj F5 F6)))).
      * intros Xa Xl. destruct (Nat.eqb_spec recv' (n - q * w)); [lia|]. rewrite andb_false_r, G2. rewrite Xa in Ea. by destruct (s_armed s).
      * intros Xa Xl. destruct (Nat.eqb_spec recv' (n - q * w)); [|lia]. by rewrite Xa.
      * intros Xa. rewrite Xa. cbn [andb]. done.
      * intros _. apply G3. lia.
      * intros _. apply G4. lia.
Qed.

(** ** The whole transfer *)
Definition good_pause (p : spist -> spist) : Prop := forall sent q s, sinv sent q s ->
  sinv sent q (p s) /\ s_armed (p s) = s_armed s /\ (h_lost (s_hw s) <= h_lost (s_hw (p s)))%nat /\
  ((1 <= hw_rxd c)%nat -> evsafe (s_hw s) -> evsafe (s_hw (p s))).
Lemma good_id : good_pause (fun s => s).
Proof. intros sent q s H. auto. Qed.
Lemma good_settle : good_pause (settle c miso).
Proof.
  intros sent q s [H1 H2 H3 H4 H5]. unfold settle. cbn [s_hw s_armed].
  set (l := EvDone :: _). destruct (run_inv sent q l _ H1 H5) as (A1 & A2 & A3 & _).
  split; [|split; [done|split; [done|intros; by apply run_safe]]].
  constructor; cbn [s_hw s_bal s_mem]; try done. by eapply minv_lost.
Qed.
Definition ainv (q : nat) (s : spist) : Prop := (d_arm d = false -> s_armed s = false) /\ ((q * w = n)%nat -> s_armed s = false).

Lemma run_transfer p : good_pause p -> forall k s sent q, sinv sent q s -> (q <= sent)%nat -> ainv q s ->
  exists s' sent' q', transfer k p (spi_xfer d c miso) n rx tx s (q * w) = Ok (s', (q' * w)%nat) /\
  follows s sent q s' sent' q' /\ ainv q' s'.
Proof.
  intros Hp. induction k as [|k IH]; intros s sent q I Hqs Ai; cbn [transfer].
  - exists s, sent, q. split; [done|]. split; [|done]. unfold follows. split; [done|]. split; [done|]. split; [lia|]. split; [lia|]. split; [lia|done].
  - destruct (Nat.eqb_spec (q * w) n) as [He|Hne].
    + exists s, sent, q. split; [done|]. split; [|done]. unfold follows. split; [done|]. split; [done|]. split; [lia|]. split; [lia|]. split; [lia|done].
    + assert (q * w <= n)%nat by (pose proof (si_N _ _ _ I); nia).
      destruct (Hp sent q s I) as (Ip & Pa & Pl & Ps).
      destruct (call (p s) sent q (q * w) Ip Hqs eq_refl ltac:(lia)) as (s1 & r & sent1 & q1 & E & (F1 & F2 & F3 & F4 & F5 & F6) & D & A1 & A2 & A3 & A4 & _).
      rewrite E. cbn [rbind]. rewrite D.
      destruct (IH s1 sent1 q1 F1 F2) as (s' & sent' & q' & E' & (G1 & G2 & G3 & G4 & G5 & G6) & Ai').
      { split; [intros X; rewrite (A4 X), Pa; exact (proj1 Ai X)|]. intros X. destruct (d_arm d) eqn:Da; [by apply A3|rewrite (A4 eq_refl), Pa; apply (proj1 Ai); done]. }
      exists s', sent', q'. split; [done|]. split; [|done]. unfold follows. split; [done|]. split; [done|]. split; [lia|]. split; [lia|]. split; [lia|].
      intros R1 R2 R3. apply G6; [done| |]; by apply F6; auto.
Qed.

Lemma settled sent q s : sinv sent q s -> (1 <= hw_rxd c)%nat -> h_lost (s_hw s) = 0%nat -> (q < sent)%nat ->
  h_rx (s_hw (settle c miso s)) <> [].
Proof.
  intros I Hr Hl Hs. pose proof (hi_cnt _ _ _ (si_h _ _ _ I)) as C. rewrite Hl in C.
  destruct I as [I1 _ _ _ I5]. unfold settle. cbn [s_hw].
  destruct (s_hw s) as [t sh r wi lo] eqn:Eh. cbn [h_tx h_sh h_rx h_wire h_lost] in *.
  assert (M : forall l h, h_rx h <> [] -> h_rx (hw_run c miso h l) <> []).
  { intros l. induction l as [|e l IH]; intros h Hh; [done|].
    change (hw_run c miso h (e :: l)) with (hw_run c miso (hw_ev c miso h e) l). apply IH.
    destruct h as [t' [x|] r' wi' lo']; destruct e; cbn [hw_ev h_sh h_tx h_rx h_wire h_lost] in *; try done.
    - destruct (length r' <? hw_rxd c)%nat; [cbn [h_rx]; by destruct r'|done].
    - destruct t'; [done|]. destruct (hw_wait c && _); done. }
  destruct r as [|f r]; [|by apply M].
  destruct sh as [x|].
  - change (hw_run c miso ?h (?e :: ?l)) with (hw_run c miso (hw_ev c miso h e) l). apply M.
    cbn [hw_ev h_sh h_tx h_rx h_wire h_lost length]. destruct (Nat.ltb_spec 0 (hw_rxd c)); [done|lia].
  - destruct t as [|f t]; [cbn [ol length] in C; lia|]. cbn [length repeat concat app].
    change (hw_run c miso ?h (?e :: ?l)) with (hw_run c miso (hw_ev c miso h e) l). cbn [hw_ev h_sh].
    change (hw_run c miso ?h (?e :: ?l)) with (hw_run c miso (hw_ev c miso h e) l). cbn [hw_ev h_sh h_tx h_rx negb].
    rewrite andb_false_r.
    change (hw_run c miso ?h (?e :: ?l)) with (hw_run c miso (hw_ev c miso h e) l). apply M.
    cbn [hw_ev h_sh h_tx h_rx h_wire h_lost length]. destruct (Nat.ltb_spec 0 (hw_rxd c)); [done|lia].
Qed.

Lemma live : (1 <= hw_rxd c)%nat -> (1 <= hw_txd c)%nat -> ~ dead_limit -> forall k s sent q,
  sinv sent q s -> (q <= sent)%nat -> evsafe (s_hw s) -> roomy (sent - q) ->
  (2 * N + (if d_arm d && negb (s_armed s) then 1 else 0) <= k + 2 * q + min 1 (sent - q))%nat ->
  exists s', transfer k (settle c miso) (spi_xfer d c miso) n rx tx s (q * w) = Ok (s', n).
Proof.
  intros Hr Ht Hdl. induction k as [|k IH]; intros s sent q I Hqs Sf Rm Hk; cbn [transfer].
  - pose proof (si_N _ _ _ I). assert (q = N) by lia. subst q. exists s. by rewrite Hn.
  - destruct (Nat.eqb_spec (q * w) n) as [He|Hne]; [exists s; by rewrite He|].
    assert (HqN : (q < N)%nat) by (pose proof (si_N _ _ _ I); nia).
    destruct (good_settle sent q s I) as (Ip & Pa & Pl & Ps). specialize (Ps Hr Sf).
    assert (Hlost : h_lost (s_hw (settle c miso s)) = 0%nat) by apply Ps.
    destruct (call (settle c miso s) sent q (q * w) Ip Hqs eq_refl ltac:(nia)) as (s1 & r & sent1 & q1 & E & (F1 & F2 & F3 & F4 & F5 & F6) & D & A0 & A1 & A2 & A3 & P1 & P2).
    rewrite E. cbn [rbind]. rewrite D. rewrite Pa in *.
    destruct (F6 Hr Ps Rm) as [Sf1 Rm1].
    destruct (decide (q1 = N)) as [->|Hq1].
    { exists s1. destruct k; cbn [transfer]; rewrite <- Hn; [done|]. by rewrite Nat.eqb_refl. }
    assert (q1 < N)%nat by (pose proof (si_N _ _ _ F1); lia).
    apply (IH s1 sent1 q1); try done.
    assert (Ea1 : (if d_arm d && negb (s_armed s1) then 1 else 0)%nat = 0%nat).
    { destruct (d_arm d) eqn:Da; [|done]. rewrite A1; [done|done|nia]. }
    rewrite Ea1. destruct (d_arm d && negb (s_armed s)) eqn:Ea; [lia|].
    destruct (decide (q < sent)%nat) as [Hlt|Hge].
    + specialize (P1 eq_refl (settled sent q s I Hr ltac:(apply Sf) Hlt)). lia.
    + destruct (P2 eq_refl ltac:(lia) Hlost Ht) as [|]; [|done]. lia.
Qed.

(** ** Overrun *)
Lemma fill_turn fuel s j (e1 e2 : list hwev) rest : d_guard d = GAny -> sinv j 0 s -> (j < N)%nat -> s_env s = e1 :: e2 :: rest ->
  (length (h_tx (hw_run c miso (s_hw s) e1)) < hw_txd c)%nat ->
  let h1 := hw_run c miso (s_hw s) e1 in
  let h2 := hw_run c miso (mkHwst (h_tx h1 ++ [F j]) (h_sh h1) (h_rx h1) (h_wire h1) (h_lost h1)) e2 in
  exists (s1 : spist) (q1 recv1 : nat),
    xfer_loop (S fuel) d c miso (n - 0) (rx + 0) (tx + 0) s 0 = xfer_loop fuel d c miso (n - 0) (rx + 0) (tx + 0) s1 recv1 /\
    sinv (S j) q1 s1 /\ (q1 <= S j)%nat /\ recv1 = (q1 * w)%nat /\ s_env s1 = rest /\ s_armed s1 = s_armed s /\
    h_lost (s_hw s1) = h_lost h2 /\ (h_rx h2 = [] -> q1 = 0%nat /\ s_hw s1 = h2).
Proof.
  intros Hg I HjN Ee Hl h1 h2. cbn [xfer_loop]. destruct (Nat.eqb_spec 0 (n - 0)) as [Hx|_]; [nia|].
  assert (Hjn : (j * w + w <= n)%nat) by nia.
  assert (Etx : wrap (d_bits d) (Z.of_nat 0 + s_bal s) = Z.of_nat (j * w)).
  { unfold wrap. rewrite (si_bal _ _ _ I). rewrite Nat.sub_0_r. rewrite Nat2Z.inj_0, Z.add_0_l, <- Nat2Z.inj_mul.
    apply Z.mod_small. split; [apply Nat2Z.is_nonneg|]. eapply Z.le_lt_trans; [|exact Hbits]. apply Nat2Z.inj_le. lia. }
  rewrite Etx. unfold may_write. rewrite Hg. destruct (Z.ltb_spec (Z.of_nat (j * w)) (Z.of_nat (n - 0))) as [_|Hx]; [|lia].
  destruct (write_step j 0 s (tx + 0 + Z.to_nat (Z.of_nat (j * w))) I ltac:(lia) HjN ltac:(lia))
    as (s1 & r & E1 & [(-> & -> & Hf)|(-> & J & _ & Eh & Ea)]).
  { exfalso. unfold env in Hf. rewrite Ee in Hf. cbn [s_hw] in Hf. lia. }
  rewrite E1. cbn [rbind]. destruct (Z.ltb_spec 0 (Z.of_nat w)) as [_|Hx]; [|lia]. cbn [rbind].
  assert (Ee1 : s_env s1 = e2 :: rest).
  { revert E1. unfold write_data. unfold env. rewrite Ee. cbn [s_hw]. destruct (_ <? _)%nat; [|unfold SPI_EAGAIN; intros [= _ X]; lia].
    unfold mload. destruct (_ <=? _)%nat; [|done]. cbn [rbind]. intros [= <-]. done. }
  assert (Eh2 : s_hw (env c miso (add_bal (Z.of_nat w) s1)) = h2).
  { unfold env at 1. cbn [add_bal s_env]. rewrite Ee1. cbn [add_bal s_hw]. rewrite Eh. unfold env. rewrite Ee. cbn [s_hw]. done. }
  destruct (read_step (S j) 0 _ (rx + 0 + 0) J ltac:(lia) ltac:(lia)) as (s2 & r & E2 & [(-> & -> & He)|(-> & Hq & K & (f & Ef) & Et & Es & El & Ea2)]).
  - rewrite E2. cbn [rbind]. change (0 <? - SPI_EAGAIN) with false. cbv iota. cbn [rbind orb].
    destruct (env_inv _ _ _ J) as (A & _ & _).
    exists (env c miso (add_bal (Z.of_nat w) s1)), 0%nat, 0%nat. rewrite Eh2. split; [done|]. split; [done|]. split; [lia|]. split; [done|].
    split; [|split; [|done]].
    + unfold env. cbn [add_bal s_env]. by rewrite Ee1.
    + rewrite env_armed. cbn [add_bal s_armed]. by rewrite Ea, env_armed.
  - rewrite E2. cbn [rbind]. destruct (Z.ltb_spec 0 (Z.of_nat w)) as [_|Hx]; [|lia]. cbn [rbind orb].
    exists (add_bal (- Z.of_nat w) s2), 1%nat, (0 + Z.to_nat (Z.of_nat w))%nat. split; [done|]. split; [done|]. split; [lia|]. split; [lia|].
    assert (Ee2 : s_env s2 = rest).
    { revert E2. unfold read_data, env. cbn [add_bal s_env]. rewrite Ee1. cbn [s_hw]. match goal with |- match ?x with _ => _ end = _ -> _ => destruct x end; [intros X; apply (f_equal (fun x : res (spist * Z) => match x with Ok p => s_env p.1 | _ => [] end)) in X; cbn [fst s_env] in X; by rewrite <- X|].
      destruct (mstore _ _ _); [|done..]. cbn [rbind]. intros X; apply (f_equal (fun x : res (spist * Z) => match x with Ok p => s_env p.1 | _ => [] end)) in X; cbn [fst s_env] in X; by rewrite <- X. }
    cbn [add_bal s_env s_armed s_hw]. split; [done|]. split; [rewrite Ea2, env_armed; cbn [add_bal s_armed]; by rewrite Ea, env_armed|].
    rewrite El, Eh2. split; [done|]. intros X. rewrite Eh2, X in Ef. done.
Qed.

Lemma drain l : hw_wait c = false -> forall h, (length (h_tx h) <= l)%nat -> (length (h_rx h) <= hw_rxd c)%nat ->
  let h' := hw_run c miso h (EvDone :: concat (repeat [EvLoad; EvDone] l)) in
  h_tx h' = [] /\ h_sh h' = None /\ (length (h_rx h') <= hw_rxd c)%nat.
Proof.
  intros Hwt. induction l as [|l IH]; intros h Hl Hr; cbv zeta; cbn [repeat concat app];
    change (hw_run c miso h (EvDone :: ?l)) with (hw_run c miso (hw_ev c miso h EvDone) l).
  - destruct h as [t sh r wi lo]. cbn [h_tx h_rx] in *. destruct t; [|cbn [length] in Hl; lia]. cbn [hw_run fold_left hw_ev h_sh h_rx h_tx h_wire h_lost].
    destruct sh; [|done]. destruct (Nat.ltb_spec (length r) (hw_rxd c)); cbn [h_tx h_sh h_rx]; [|done].
    rewrite app_length. cbn [length]. split; [done|]. split; [done|lia].
  - set (h1 := hw_ev c miso h EvDone).
    assert (H1 : h_tx h1 = h_tx h /\ h_sh h1 = None /\ (length (h_rx h1) <= hw_rxd c)%nat).
    { subst h1. destruct h as [t sh r wi lo]. cbn [hw_ev h_sh h_rx h_tx h_wire h_lost] in *. destruct sh; [|done].
      destruct (Nat.ltb_spec (length r) (hw_rxd c)); cbn [h_tx h_sh h_rx]; [|done].
      rewrite app_length. cbn [length]. split; [done|]. split; [done|lia]. }
    destruct H1 as (T1 & T2 & T3).
    change (hw_run c miso h1 (EvLoad :: ?l)) with (hw_run c miso (hw_ev c miso h1 EvLoad) l).
    apply (IH (hw_ev c miso h1 EvLoad)).
    + cbn [hw_ev]. rewrite T2, T1. destruct (h_tx h) as [|f t]; [rewrite T1; cbn [length]; lia|]. rewrite Hwt. cbn [andb h_tx]. cbn [length] in Hl. lia.
    + cbn [hw_ev]. rewrite T2, T1. destruct (h_tx h) as [|f t]; [done|]. rewrite Hwt. done.
Qed.

(** [j] frames sent, none received, the first one in the shifter. *)
Definition filled (j : nat) (s : spist) : Prop :=
  sinv j 0 s /\ h_sh (s_hw s) <> None /\ h_rx (s_hw s) = [] /\ length (h_tx (s_hw s)) = (j - 1)%nat.
Lemma fill_up m : d_guard d = GAny -> forall fuel s j rest, filled j s -> (1 <= j)%nat -> (j + m <= N)%nat -> (j + m <= hw_txd c + 1)%nat ->
  s_env s = concat (repeat [[]; []] m) ++ rest ->
  exists s1, xfer_loop (m + fuel) d c miso (n - 0) (rx + 0) (tx + 0) s 0 = xfer_loop fuel d c miso (n - 0) (rx + 0) (tx + 0) s1 0 /\
  filled (j + m) s1 /\ s_env s1 = rest /\ s_armed s1 = s_armed s.
Proof.
  intros Hg. induction m as [|m IH]; intros fuel s j rest (I & Fs & Fr & Ft) Hj HN Ht Ee.
  { cbn [repeat concat app] in Ee. exists s. rewrite (Nat.add_0_r j). split; [done|]. split; [|split; [exact Ee|done]]. split; [done|]. auto. }
  cbn [repeat concat app] in Ee.
  destruct (fill_turn (m + fuel) s j [] [] _ Hg I ltac:(lia) Ee) as (s1 & q1 & recv1 & E & I1 & _ & -> & Ee1 & Ea1 & _ & H).
  { change (hw_run c miso (s_hw s) []) with (s_hw s). lia. }
  change (hw_run c miso (s_hw s) []) with (s_hw s) in H.
  match type of H with context [hw_run c miso ?h []] => change (hw_run c miso h []) with h in H end. cbn [h_rx] in H.
  destruct (H Fr) as [-> Hh]. change (S m + fuel)%nat with (S (m + fuel)). rewrite E. cbn [Nat.mul].
  destruct (IH fuel s1 (S j) rest) as (s2 & E2 & Fi & Ee2 & Ea2); [|lia|lia|lia|done|].
  { split; [done|]. rewrite Hh. cbn [h_sh h_rx h_tx]. split; [done|]. split; [done|]. rewrite app_length. cbn [length]. lia. }
  exists s2. split; [done|]. rewrite Nat.add_succ_comm in Fi. split; [done|]. split; [done|]. by rewrite Ea2.
Qed.

Definition overrun : list (list hwev) :=
  [[]; [EvLoad]] ++ concat (repeat [[]; []] (hw_rxd c - 1)) ++
  [[EvDone; EvLoad]; EvDone :: concat (repeat [EvLoad; EvDone] (hw_rxd c))].

Lemma overrun_call fuel s rest : d_guard d = GAny -> hw_wait c = false -> (1 <= hw_txd c)%nat -> (1 <= hw_rxd c)%nat ->
  (hw_rxd c <= hw_txd c + 1)%nat -> (hw_rxd c < N)%nat ->
  sinv 0 0 s -> spi_idle s -> s_env s = overrun ++ rest ->
  exists (s1 : spist) (sent1 q1 : nat),
    xfer_loop (hw_rxd c + 1 + fuel) d c miso (n - 0) (rx + 0) (tx + 0) s 0 =
    xfer_loop fuel d c miso (n - 0) (rx + 0) (tx + 0) s1 (q1 * w) /\
    sinv sent1 q1 s1 /\ (q1 <= sent1)%nat /\ (1 <= h_lost (s_hw s1))%nat /\ (hw_rxd c + 1 <= sent1)%nat /\ s_armed s1 = s_armed s.
Proof.
  intros Hg Hwt Ht Hr Hrt HrN I (It & Is & Ir & Il & _) Ee. set (D := hw_rxd c) in *.
  unfold overrun in Ee. fold D in Ee. rewrite <- !app_assoc in Ee. cbn [app] in Ee.
  destruct (fill_turn (D + fuel) s 0 [] [EvLoad] _ Hg I ltac:(lia) Ee) as (s1 & q1 & recv1 & E & I1 & _ & -> & Ee1 & Ea1 & _ & H).
  { change (hw_run c miso (s_hw s) []) with (s_hw s). rewrite It. cbn [length]. lia. }
  change (hw_run c miso (s_hw s) []) with (s_hw s) in H.
  rewrite It, Is, Ir in H. cbn [app] in H.
  change (hw_run c miso ?h [EvLoad]) with (hw_ev c miso h EvLoad) in H. cbn [hw_ev h_sh h_tx h_rx h_wire h_lost negb] in H.
  rewrite andb_false_r in H. cbn [h_rx] in H. destruct (H eq_refl) as [-> Hh].
  replace (D + 1 + fuel)%nat with (S (D + fuel)) by lia. rewrite E. cbn [Nat.mul].
  destruct (fill_up (D - 1) Hg (S fuel) s1 1 ([[EvDone; EvLoad]; EvDone :: concat (repeat [EvLoad; EvDone] D)] ++ rest))
    as (s2 & E2 & (I2 & Fs & Fr & Ft) & Ee2 & Ea2); [|lia|lia|lia|done|].
  { split; [done|]. rewrite Hh. cbn [h_sh h_rx h_tx length]. done. }
  replace (D + fuel)%nat with (D - 1 + S fuel)%nat by lia. rewrite E2. replace (1 + (D - 1))%nat with D in * by lia.
  cbn [app] in Ee2.
  pose proof (hi_cnt _ _ _ (si_h _ _ _ I2)) as C2. rewrite Fr in C2. destruct (s_hw s2) as [t2 sh2 r2 wi2 lo2] eqn:Eh2. cbn [h_sh h_rx h_tx h_lost] in *. subst r2.
  destruct sh2 as [f0|]; [|done]. cbn [ol length] in C2.
  assert (L : (length (h_tx (hw_run c miso (s_hw s2) [EvDone; EvLoad])) <= D - 2)%nat /\
              (length (h_rx (hw_run c miso (s_hw s2) [EvDone; EvLoad])) <= 1)%nat).
  { rewrite Eh2. unfold hw_run. cbn [fold_left hw_ev h_sh h_tx h_rx h_wire h_lost length]. destruct (Nat.ltb_spec 0 (hw_rxd c)); [|lia].
    cbn [h_sh h_tx h_rx]. destruct t2 as [|f1 t2]; [cbn [h_tx h_rx length app]; lia|]. rewrite Hwt. cbn [andb h_tx h_rx length app] in *. lia. }
  destruct L as [L1 L2].
  destruct (fill_turn fuel s2 D _ _ _ Hg I2 ltac:(lia) Ee2 ltac:(lia)) as (s3 & q3 & recv3 & E3 & I3 & Hq3 & -> & Ee3 & Ea3 & El & _).
  rewrite E3. exists s3, (S D), q3. split; [done|]. split; [done|]. split; [done|].
  split; [|split; [lia|by rewrite Ea3, Ea2]]. rewrite El. set (h1 := hw_run c miso (s_hw s2) [EvDone; EvLoad]) in *.
  set (h2 := mkHwst _ _ _ _ _).
  assert (Hrun : hinv D 0 h1) by (apply run_inv; [apply I2|]; rewrite Eh2; constructor).
  assert (Hc1 : (S D = 0 + length (h_rx h2) + length (ol (h_sh h2)) + length (h_tx h2) + h_lost h2)%nat).
  { pose proof (hi_cnt _ _ _ Hrun). subst h2. cbn [h_rx h_sh h_tx h_lost]. rewrite app_length. cbn [length]. lia. }
  (* conservation through the last run, whatever the queue lengths *)
  assert (Cons : forall l h, let h' := hw_run c miso h l in
    (length (h_rx h') + length (ol (h_sh h')) + length (h_tx h') + h_lost h' = length (h_rx h) + length (ol (h_sh h)) + length (h_tx h) + h_lost h)%nat).
  { clear. intros l. induction l as [|e l IH]; intros h; [done|]. cbv zeta.
    change (hw_run c miso h (e :: l)) with (hw_run c miso (hw_ev c miso h e) l). rewrite IH. clear IH.
    destruct h as [t [x|] r wi lo]; destruct e; cbn [hw_ev h_sh h_tx h_rx h_wire h_lost ol length]; try lia.
    - destruct (length r <? hw_rxd c)%nat; cbn [h_sh h_tx h_rx h_wire h_lost ol length]; rewrite ?app_length; cbn [length]; lia.
    - destruct t; [cbn [h_sh h_tx h_rx h_wire h_lost ol length]; lia|]. destruct (hw_wait c && _); cbn [h_sh h_tx h_rx h_wire h_lost ol length]; lia. }
  destruct (drain D Hwt h2) as (Z1 & Z2 & Z3).
  { subst h2. cbn [h_tx]. rewrite app_length. cbn [length]. lia. }
  { subst h2. cbn [h_rx]. lia. }
  pose proof (Cons (EvDone :: concat (repeat [EvLoad; EvDone] D)) h2) as Cn. cbv zeta in Cn. rewrite Z1, Z2 in Cn. cbn [ol length] in Cn.
  fold D in Z3. lia.
Qed.

Lemma overrun_transfer s rest k : d_guard d = GAny -> d_arm d = false -> hw_wait c = false -> (1 <= hw_txd c)%nat -> (1 <= hw_rxd c)%nat ->
  (hw_rxd c <= hw_txd c + 1)%nat -> (hw_rxd c < N)%nat ->
  sinv 0 0 s -> spi_idle s -> s_env s = overrun ++ rest ->
  exists (s' : spist) (got : nat), transfer k (fun s => s) (spi_xfer d c miso) n rx tx s 0 = Ok (s', got) /\ (got < n)%nat.
Proof.
  intros Hg Hnarm Hwt Ht Hr Hrt HrN I Hi Ee. assert (Hn0 : (0 < n)%nat) by nia. assert (HNn : (N <= n)%nat) by nia.
  assert (Ai : ainv 0 s). { split; intros _; apply Hi. }
  destruct k as [|k]; [exists s, 0%nat; done|]. cbn [transfer]. destruct (Nat.eqb_spec 0 n); [lia|].
  unfold spi_xfer at 1. destruct (Nat.eqb_spec (n - 0) 0); [lia|].
  assert (HL : Z.land (Z.of_nat (n - 0)) (d_fw d - 1) = 0) by (rewrite Nat.sub_0_r, Hn; apply Hland).
  rewrite HL. cbn [Z.eqb negb]. rewrite Hnarm. cbn [andb].
  destruct (overrun_call (n + n - hw_rxd c) s rest Hg Hwt Ht Hr Hrt HrN I Hi Ee) as (s1 & sent1 & q1 & E & I1 & Hq1 & Hl1 & Hs1 & Ha1).
  replace (S (n - 0 + (n - 0)))%nat with (hw_rxd c + 1 + (n + n - hw_rxd c))%nat by lia. rewrite E.
  destruct (loop (n + n - hw_rxd c) s1 sent1 q1 0 (q1 * w) I1 Hq1 ltac:(lia) ltac:(lia) ltac:(lia))
    as (s2 & sent2 & q2 & recv2 & E2 & (F1 & F2 & F3 & F4 & F5 & _) & G1 & G2 & _).
  rewrite E2. cbn [rbind]. cbn [Nat.add] in G1. subst recv2.
  assert (Hst : forall s2' r, s2' = s2 -> (if 0 <? r then (0 + Z.to_nat r)%nat else 0%nat) = (q2 * w)%nat ->
    exists (s' : spist) (got : nat), transfer k (fun s => s) (spi_xfer d c miso) n rx tx s2' (if 0 <? r then (0 + Z.to_nat r)%nat else 0%nat) = Ok (s', got) /\ (got < n)%nat).
  { intros s2' r -> ->. destruct (run_transfer (fun s => s) good_id k s2 sent2 q2 F1 F2) as (s' & sent' & q' & E' & (K1 & K2 & K3 & K4 & K5 & _) & _).
    { split.
      - intros _. rewrite G2, Ha1. apply Hi.
      - intros _. rewrite G2, Ha1. apply Hi. }
    exists s', (q' * w)%nat. split; [done|]. pose proof (hi_cnt _ _ _ (si_h _ _ _ K1)) as C. pose proof (si_N _ _ _ K1). nia. }
  destruct (Nat.eqb_spec (q2 * w) 0) as [Hz|Hz].
  - apply Hst; [done|]. change (0 <? - SPI_EAGAIN) with false. cbv iota. lia.
  - apply Hst; [done|]. destruct (Z.ltb_spec 0 (Z.of_nat (q2 * w))); [|lia]. rewrite Nat2Z.id. lia.
Qed.
End inv.
