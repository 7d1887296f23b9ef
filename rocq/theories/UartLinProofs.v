(** UartLinProofs.v - proofs about the LINFlexD part of UartModel.v. *)
From Verif Require Import Base UartModel UartSpec.

Definition lout (h : lhw) : list Z := l_line h ++ match l_tx h with Some b => [b] | None => [] end.
Definition linv (h : lhw) : Prop := l_dtf h = true -> l_tx h = None.
Lemma ltick_ok w h : linv h -> lout (ltick w h).2 = lout h /\ linv (ltick w h).2 /\ (l_tx h = None -> l_tx (ltick w h).2 = None) /\ (l_dtf h = true -> l_dtf (ltick w h).2 = true).
Proof.
  unfold ltick; cbn [snd]. generalize (hd [] w); intros l. revert h. induction l as [|e l IH]; intros h H; cbn [fold_left].
  - split; [reflexivity|]. split; [exact H|]. split; intros; assumption.
  - assert (lout (lev_step h e) = lout h /\ linv (lev_step h e) /\ (l_tx h = None -> l_tx (lev_step h e) = None) /\ (l_dtf h = true -> l_dtf (lev_step h e) = true)) as (H1 & H2 & H3 & H4).
    { destruct e; cbn [lev_step].
      - destruct (l_tx h) eqn:E; [|repeat split; intros; assumption].
        unfold lout, linv; cbn [l_line l_tx l_dtf]. rewrite E, app_nil_r. repeat split; intros; reflexivity.
      - unfold lout, linv in *; cbn [l_line l_tx l_dtf]. repeat split; intros; auto. }
    destruct (IH _ H2) as (I1 & I2 & I3 & I4). split; [rewrite I1; exact H1|]. split; [exact I2|]. split; auto.
Qed.
Lemma land_255 b : is_byte b -> Z.land 255 b mod 256 = b.
Proof. intros H. rewrite Z.land_comm. change 255 with (Z.ones 8). rewrite Z.land_ones by lia. rewrite Z.mod_mod by discriminate. apply Z.mod_small. exact H. Qed.
Lemma wr_bdrl_ok b h : is_byte b -> l_tx h = None -> l_dtf h = false -> lout (wr_bdrl (Z.land 255 b) h) = lout h ++ [b] /\ linv (wr_bdrl (Z.land 255 b) h).
Proof.
  intros Hb H H'. unfold wr_bdrl, lout, linv. rewrite H. cbn [l_line l_tx l_dtf]. rewrite (land_255 b Hb), app_nil_r. split; [reflexivity|]. rewrite H'. discriminate.
Qed.
Lemma rd_dtf h : (Z.land (rd_uartsr h) 2 =? 0) = negb (l_dtf h).
Proof. unfold rd_uartsr. destruct (l_dtf h), (l_drf h); reflexivity. Qed.
Lemma ltick_nodtf w h : l_tx h = None -> l_dtf h = false -> l_dtf (ltick w h).2 = false.
Proof.
  unfold ltick; cbn [snd]. generalize (hd [] w); intros l. revert h. induction l as [|e l IH]; intros h H H'; cbn [fold_left]; [exact H'|].
  destruct e; cbn [lev_step]; [rewrite H; apply IH; assumption|]. apply IH; assumption.
Qed.
Lemma sr_bit v (h : lhw) : Z.testbit (Z.lor v 2) 1 = true.
Proof. rewrite Z.lor_spec. apply orb_true_r. Qed.
Definition lok (s : lst) : Prop := linv (l_hw s) /\ (l_start s = true -> l_tx (l_hw s) = None /\ l_dtf (l_hw s) = false).
Lemma lin_write1 b w s : is_byte b -> lok s ->
  let '(w', s', r) := lin_write [b] w s in
  lok s' /\ ((r = 1 /\ lout (l_hw s') = lout (l_hw s) ++ [b]) \/ (r = -11 /\ lout (l_hw s') = lout (l_hw s))).
Proof.
  intros Hb [HI HS]. unfold lin_write. cbn [lin_write_loop]. destruct (l_start s) eqn:ES.
  - destruct (HS eq_refl) as [Ht Hdt]. pose proof (ltick_ok w (l_hw s) HI) as (T1 & T2 & T3 & T4). pose proof (ltick_nodtf w (l_hw s) Ht Hdt) as T5.
    destruct (ltick w (l_hw s)) as [w1 h1]. cbn [snd] in *. destruct (wr_bdrl_ok b h1 Hb (T3 Ht) T5) as [K1 K2].
    split; [split; [exact K2|intros H; discriminate H]|]. left. split; [reflexivity|]. cbn [l_hw]. rewrite K1, T1. reflexivity.
  - pose proof (ltick_ok w (l_hw s) HI) as (T1 & T2 & _ & _). destruct (ltick w (l_hw s)) as [w1 h1]. cbn [snd] in *.
    rewrite rd_dtf. destruct (l_dtf h1) eqn:ED; cbn [negb].
    2:{ split; [split; [exact T2|intros H; discriminate H]|]. right. split; [reflexivity|exact T1]. }
    pose proof (ltick_ok w1 h1 T2) as (A1 & A2 & A3 & A4). destruct (ltick w1 h1) as [w2 h2]. cbn [snd] in *.
    pose proof (ltick_ok w2 h2 A2) as (B1 & B2 & B3 & B4). destruct (ltick w2 h2) as [w3 h3]. cbn [snd] in *.
    set (h4 := wr_uartsr (Z.lor (rd_uartsr h2) 2) h3).
    assert (Hn : l_tx h4 = None) by (apply B3, A3, T2, ED).
    assert (Hd4 : l_dtf h4 = false) by (unfold h4, wr_uartsr; cbn [l_dtf]; rewrite (sr_bit _ h3); apply andb_false_r).
    assert (I4 : linv h4) by (unfold linv; rewrite Hd4; discriminate).
    pose proof (ltick_ok w3 h4 I4) as (C1 & C2 & C3 & C4). pose proof (ltick_nodtf w3 h4 Hn Hd4) as C5. destruct (ltick w3 h4) as [w4 h5]. cbn [snd] in *.
    destruct (wr_bdrl_ok b h5 Hb (C3 Hn) C5) as [K1 K2].
    split; [split; [exact K2|intros H; discriminate H]|]. left. split; [reflexivity|]. cbn [l_hw]. rewrite K1, C1.
    change (lout h4) with (lout h3). rewrite B1, A1, T1. reflexivity.
Qed.
Lemma lin_read_loop_ok : forall n got w s, lok s ->
  let '(w', s', got') := lin_read_loop n got w s in lok s' /\ lout (l_hw s') = lout (l_hw s).
Proof.
  induction n as [|n IH]; intros got w s H; cbn [lin_read_loop]; [split; [exact H|reflexivity]|]. destruct H as [HI HS].
  pose proof (ltick_ok w (l_hw s) HI) as (T1 & T2 & T3 & _).
  assert (T5 : l_start s = true -> l_dtf (ltick w (l_hw s)).2 = false) by (intros E; destruct (HS E); apply ltick_nodtf; assumption).
  destruct (ltick w (l_hw s)) as [w1 h1]. cbn [snd] in *.
  destruct (Z.land (rd_uartsr h1) 4 =? 0).
  { split; [split; [exact T2|]|exact T1]. cbn [l_start l_hw]. intros E. split; [apply T3, (proj1 (HS E))|apply T5, E]. }
  pose proof (ltick_ok w1 h1 T2) as (A1 & A2 & A3 & A4). 
  assert (A5 : l_start s = true -> l_dtf (ltick w1 h1).2 = false) by (intros E; apply ltick_nodtf; [apply T3, (proj1 (HS E))|apply T5, E]).
  destruct (ltick w1 h1) as [w2 h2]. cbn [snd] in *.
  set (h3 := wr_uartsr 4 h2).
  assert (I3 : linv h3). { unfold linv, h3, wr_uartsr. cbn [l_dtf l_tx]. intros E. apply andb_prop in E. apply A2, (proj1 E). }
  pose proof (ltick_ok w2 h3 I3) as (C1 & C2 & C3 & C4).
  assert (C5 : l_start s = true -> l_dtf (ltick w2 h3).2 = false).
  { intros E. apply ltick_nodtf; [apply A3, T3, (proj1 (HS E))|]. unfold h3, wr_uartsr; cbn [l_dtf]. rewrite (A5 E). reflexivity. }
  destruct (ltick w2 h3) as [w3 h4]. cbn [snd] in *.
  specialize (IH (got ++ [Z.land 255 (l_bdrm h4)]) w3 (mkLst h4 (l_start s))).
  destruct (lin_read_loop n _ w3 _) as [[w' s'] got'].
  destruct IH as [K1 K2]. { split; [exact C2|]. cbn [l_start l_hw]. intros E. split; [apply C3, A3, T3, (proj1 (HS E))|apply C5, E]. }
  split; [exact K1|]. rewrite K2. cbn [l_hw]. rewrite C1. change (lout h3) with (lout h2). rewrite A1, T1. reflexivity.
Qed.
Lemma lin_run_ok : forall cs w s, Forall call1_byte cs -> lok s ->
  let '(_, s', rs) := lin_run cs w s in
  lout (l_hw s') = lout (l_hw s) ++ concat (told_sent <$> rs) /\ Forall (fun r => match r with RWrite _ _ => ret_ok r | _ => True end) rs.
Proof.
  induction cs as [|c cs IH]; intros w s HC H; cbn [lin_run]; [cbn; rewrite app_nil_r; split; [reflexivity|constructor]|].
  inversion HC as [|? ? Hc HC']; subst.
  assert (let '(_, s', r) := lin_call1 c w s in lok s' /\ lout (l_hw s') = lout (l_hw s) ++ told_sent r /\ match r with RWrite _ _ => ret_ok r | _ => True end) as H1.
  { destruct c as [buf|n]; cbn [lin_call1].
    - destruct Hc as [Hb Hl]. destruct buf as [|b [|b' buf]]; [|inversion Hb as [|? ? Hb0 _]; subst|cbn in Hl; lia].
      + cbn. rewrite app_nil_r. split; [exact H|]. split; reflexivity.
      + pose proof (lin_write1 b w s Hb0 H) as K. destruct (lin_write [b] w s) as [[w' s'] r]. destruct K as [K1 [[-> K2] | [-> K2]]].
        * split; [exact K1|]. split; [exact K2|]. right. cbn. lia.
        * split; [exact K1|]. split; [rewrite K2; cbn; rewrite app_nil_r; reflexivity|]. left. reflexivity.
    - unfold lin_read. destruct n as [|n]; [cbn; rewrite app_nil_r; split; [exact H|split; reflexivity]|].
      pose proof (lin_read_loop_ok (S n) [] w s H) as K. destruct (lin_read_loop (S n) [] w s) as [[w' s'] got]. destruct K as [K1 K2].
      cbn [told_sent]. rewrite app_nil_r. split; [exact K1|]. split; [exact K2|exact I]. }
  destruct (lin_call1 c w s) as [[w1 s1] r]. destruct H1 as (H1 & H2 & H3). specialize (IH w1 s1 HC' H1).
  destruct (lin_run cs w1 s1) as [[w2 s2] rs]. destruct IH as [I1 I2]. rewrite fmap_cons. cbn [concat]. rewrite app_assoc, I1, H2. split; [reflexivity|]. constructor; assumption.
Qed.
Lemma lin_all : forall cs w, Forall call1_byte cs ->
  let '(_, s, rs) := lin_run cs w lin0 in
  l_line (l_hw s) ++ match l_tx (l_hw s) with Some b => [b] | None => [] end = concat (told_sent <$> rs) /\
  Forall (fun r => match r with RWrite _ _ => ret_ok r | _ => True end) rs.
Proof. intros cs w H. apply (lin_run_ok cs w lin0 H). split; [intros E; discriminate E|]. intros _. split; reflexivity. Qed.

(** ** Reading while nothing comes in during the call *)
Lemma land_drf h : (Z.land (rd_uartsr h) 4 =? 0) = negb (l_drf h).
Proof. unfold rd_uartsr. destruct (l_dtf h), (l_drf h); reflexivity. Qed.
Lemma lquiet_tick w h : Forall (fun l : list lev => l = []) w -> ltick w h = (tl w, h) /\ Forall (fun l => l = []) (tl w).
Proof. intros H. destruct w as [|l w]; [split; [reflexivity|exact H]|]. inversion H; subst. split; [reflexivity|assumption]. Qed.
Lemma lin_read_quiet n w s : n <> 0%nat -> Forall (fun l : list lev => l = []) w ->
  let '(_, s', r, data) := lin_read n w s in
  if l_drf (l_hw s) then r = 1 /\ data = [l_bdrm (l_hw s) mod 256] /\ l_drf (l_hw s') = false /\ l_acc (l_hw s') = l_acc (l_hw s)
  else r = -11 /\ l_hw s' = l_hw s.
Proof.
  intros Hn HQ. unfold lin_read. destruct n as [|n]; [contradiction|]. cbn [lin_read_loop].
  destruct (lquiet_tick w (l_hw s) HQ) as [-> Q1]. rewrite land_drf. destruct (l_drf (l_hw s)) eqn:ED; cbn [negb].
  2:{ split; reflexivity. }
  destruct (lquiet_tick (tl w) (l_hw s) Q1) as [-> Q2].
  set (h3 := wr_uartsr 4 (l_hw s)). destruct (lquiet_tick (tl (tl w)) h3 Q2) as [-> Q3].
  assert (D3 : l_drf h3 = false) by (unfold h3, wr_uartsr; cbn [l_drf]; apply andb_false_r).
  assert (HL : Z.land 255 (l_bdrm h3) = l_bdrm (l_hw s) mod 256) by (unfold h3, wr_uartsr; cbn [l_bdrm]; rewrite Z.land_comm; change 255 with (Z.ones 8); rewrite Z.land_ones by lia; reflexivity).
  rewrite HL. cbn [app].
  destruct n as [|n]; cbn [lin_read_loop]; [split; [reflexivity|]; split; [reflexivity|]; split; [exact D3|reflexivity]|].
  cbn [l_hw]. destruct (lquiet_tick (tl (tl (tl w))) h3 Q3) as [-> Q4]. rewrite land_drf, D3. cbn [negb].
  split; [reflexivity|]. split; [reflexivity|]. split; [exact D3|reflexivity].
Qed.
