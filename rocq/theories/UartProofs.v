(** UartProofs.v - proofs about UartModel.v. *)
From Verif Require Import Base UartModel UartSpec.

(** ** Invariants of the hardware *)
Definition out (h : uhw) : list Z := u_line h ++ u_txq h.
Lemma step_out d h e : out (uev_step d h e) = out h.
Proof.
  destruct e; unfold out; cbn [uev_step].
  - destruct (u_txq h) eqn:E; [rewrite E; reflexivity|]. cbn [u_line u_txq]. rewrite <- app_assoc. reflexivity.
  - reflexivity.
  - destruct (d_sticky d && u_ovr h); [reflexivity|]. destruct (_ <? _)%nat; reflexivity.
Qed.
Lemma tick_out d w h : out (utick d w h).2 = out h.
Proof.
  unfold utick; cbn [snd]. generalize (hd [] w); intros l. revert h. induction l as [|e l IH]; intros h; [reflexivity|].
  cbn [fold_left]. rewrite IH. apply step_out.
Qed.
Lemma step_txlen d h e : (length (u_txq (uev_step d h e)) <= length (u_txq h))%nat.
Proof.
  destruct e; cbn [uev_step].
  - destruct (u_txq h) eqn:E; [rewrite E; lia|]. cbn [u_txq length]. lia.
  - cbn [u_txq]. lia.
  - destruct (d_sticky d && u_ovr h); [lia|]. destruct (_ <? _)%nat; cbn [u_txq]; lia.
Qed.
Lemma tick_txlen d w h : (length (u_txq (utick d w h).2) <= length (u_txq h))%nat.
Proof.
  unfold utick; cbn [snd]. generalize (hd [] w); intros l. revert h. induction l as [|e l IH]; intros h; [cbn; lia|].
  cbn [fold_left]. specialize (IH (uev_step d h e)). pose proof (step_txlen d h e). lia.
Qed.
(** Received bytes: those taken are those given so far and those that wait. *)
Definition rinv (got : list Z) (h : uhw) : Prop := fst <$> u_acc h = got ++ (fst <$> u_rxq h).
Lemma step_rinv d got h e : rinv got h -> rinv got (uev_step d h e).
Proof.
  unfold rinv. destruct e; cbn [uev_step].
  - destruct (u_txq h); intros H; exact H.
  - intros H; exact H.
  - intros H. destruct (d_sticky d && u_ovr h); [exact H|]. destruct (_ <? _)%nat; cbn [u_acc u_rxq]; [|exact H].
    rewrite !fmap_app, H, <- app_assoc. reflexivity.
Qed.
Lemma tick_rinv d got w h : rinv got h -> rinv got (utick d w h).2.
Proof.
  unfold utick; cbn [snd]. generalize (hd [] w); intros l. revert h. induction l as [|e l IH]; intros h H; [exact H|].
  cbn [fold_left]. apply IH, step_rinv, H.
Qed.
Lemma step_rne d h e : rx_ready h = true -> rx_ready (uev_step d h e) = true /\ rx_ferr (uev_step d h e) = rx_ferr h.
Proof.
  unfold rx_ready, rx_ferr. intros H. destruct (u_rxq h) as [|x q] eqn:E; [discriminate H|].
  destruct e; cbn [uev_step].
  - destruct (u_txq h); cbn [u_rxq]; rewrite E; split; reflexivity.
  - cbn [u_rxq]; rewrite E; split; reflexivity.
  - destruct (d_sticky d && u_ovr h); [rewrite E; split; reflexivity|]. destruct (_ <? _)%nat; cbn [u_rxq]; rewrite E; split; reflexivity.
Qed.
Lemma tick_rne d w h : rx_ready h = true -> rx_ready (utick d w h).2 = true /\ rx_ferr (utick d w h).2 = rx_ferr h.
Proof.
  unfold utick; cbn [snd]. generalize (hd [] w); intros l. revert h. induction l as [|e l IH]; intros h H; [split; [exact H|reflexivity]|].
  cbn [fold_left]. destruct (step_rne d h e H) as [H1 H2]. destruct (IH _ H1) as [H3 H4]. split; [exact H3|]. rewrite H4. exact H2.
Qed.

(** ** What matters of the devices *)
Definition dev_ok (d : udev) : Prop := (0 < d_txdepth d)%nat /\ (0 < d_rxdepth d)%nat.
Lemma polled_ok d : In d polled -> dev_ok d.
Proof. unfold polled. intros H. repeat (destruct H as [<- | H]; [split; cbn; lia|]). destruct H. Qed.
Lemma ready_room d h : dev_ok d -> tx_ready d h = true -> (length (u_txq h) < d_txdepth d)%nat.
Proof.
  intros [H0 _]. unfold tx_ready. destruct (d_txflag d); intros H; [apply Nat.ltb_lt in H; exact H|].
  destruct (u_txq h); [cbn; lia|discriminate H].
Qed.
Lemma wr_room d b h : is_byte b -> (length (u_txq h) < d_txdepth d)%nat -> out (wr_data d b h) = out h ++ [b].
Proof.
  intros Hb H. unfold wr_data. rewrite (proj2 (Nat.ltb_lt _ _) H). unfold out. cbn [u_line u_txq].
  rewrite Z.mod_small by exact Hb. rewrite app_assoc. reflexivity.
Qed.
Lemma wr_rinv d got b h : rinv got h -> rinv got (wr_data d b h).
Proof. unfold rinv, wr_data. destruct (_ <? _)%nat; intros H; exact H. Qed.
Lemma rd_out h : out (rd_data h).2 = out h.
Proof. unfold rd_data. destruct (u_rxq h) as [|[b f] q]; reflexivity. Qed.
Lemma rd_rinv got h : rx_ready h = true -> rinv got h -> rinv (got ++ [(rd_data h).1]) (rd_data h).2.
Proof.
  unfold rx_ready, rd_data, rinv. destruct (u_rxq h) as [|[b f] q] eqn:E; [discriminate|]. intros _ H. cbn [fst snd u_acc u_rxq].
  rewrite H. rewrite fmap_cons. cbn [fst]. rewrite <- app_assoc. reflexivity.
Qed.

(** ** The loops *)
Lemma write_loop_ok d : dev_ok d -> forall buf k w h got, Forall is_byte buf -> rinv got h ->
  let '(w', h', k') := write_loop d buf k w h in
  exists j, (j <= length buf)%nat /\ k' = (k + j)%nat /\ out h' = out h ++ take j buf /\ rinv got h' /\
    (j = 0%nat -> buf <> [] -> tx_ready d (utick d w h).2 = false).
Proof.
  intros Hd. induction buf as [|b buf IH]; intros k w h got HB HR; cbn [write_loop].
  - exists 0%nat. cbn. split; [lia|]. split; [lia|]. split; [rewrite app_nil_r; reflexivity|]. split; [exact HR|]. intros _ H. contradiction.
  - destruct (utick d w h) as [w1 h1] eqn:E1. pose proof (tick_out d w h) as O1. pose proof (tick_rinv d got w h HR) as R1. rewrite E1 in O1, R1. cbn [snd] in O1, R1.
    destruct (tx_ready d h1) eqn:ER; cbn [negb].
    + pose proof (ready_room d h1 Hd ER) as Hroom.
      destruct (utick d w1 h1) as [w2 h2] eqn:E2. pose proof (tick_out d w1 h1) as O2. pose proof (tick_rinv d got w1 h1 R1) as R2. pose proof (tick_txlen d w1 h1) as L2.
      rewrite E2 in O2, R2, L2. cbn [snd] in O2, R2, L2.
      inversion HB as [|? ? Hb HB']; subst.
      specialize (IH (S k) w2 (wr_data d b h2) got HB' (wr_rinv _ _ _ _ R2)).
      destruct (write_loop d buf (S k) w2 (wr_data d b h2)) as [[w' h'] k'].
      destruct IH as (j & Hj & Hk & Ho & Hr & _). exists (S j). cbn [length take].
      split; [lia|]. split; [lia|]. split; [|split; [exact Hr|intros H; discriminate H]].
      rewrite Ho, (wr_room d b h2 Hb), O2, O1 by lia. rewrite <- app_assoc. reflexivity.
    + exists 0%nat. cbn [take]. split; [lia|]. split; [lia|]. split; [rewrite app_nil_r; exact O1|]. split; [exact R1|].
      intros _ _. cbn [snd]. exact ER.
Qed.
Lemma read_loop_ok d : forall n w h got given, rinv (given ++ got) h ->
  let '(w', h', got') := read_loop d n got w h in
  exists l, (length l <= n)%nat /\ got' = got ++ l /\ out h' = out h /\ rinv (given ++ got') h' /\
    (l = [] -> n <> 0%nat -> d_ferr d = false -> rx_ready (utick d w h).2 = false).
Proof.
  induction n as [|n IH]; intros w h got given HR; cbn [read_loop].
  - exists []. rewrite app_nil_r. split; [cbn; lia|]. repeat split; try assumption. intros _ H. contradiction.
  - destruct (utick d w h) as [w1 h1] eqn:E1. pose proof (tick_out d w h) as O1. pose proof (tick_rinv d _ w h HR) as R1. rewrite E1 in O1, R1. cbn [snd] in O1, R1.
    destruct (rx_ready h1) eqn:ER; cbn [negb].
    2:{ exists []. rewrite app_nil_r. split; [cbn; lia|]. split; [reflexivity|]. split; [exact O1|]. split; [exact R1|]. intros _ _ _. exact ER. }
    assert (Hx : exists w2 h2, (if d_ferr d then utick d w1 h1 else (w1, h1)) = (w2, h2) /\ out h2 = out h /\ rinv (given ++ got) h2 /\ rx_ready h2 = true).
    { destruct (d_ferr d).
      - destruct (utick d w1 h1) as [w2 h2] eqn:E2. exists w2, h2. pose proof (tick_out d w1 h1) as O2. pose proof (tick_rinv d _ w1 h1 R1) as R2. pose proof (tick_rne d w1 h1 ER) as [N2 _].
        rewrite E2 in O2, R2, N2. cbn [snd] in O2, R2, N2. split; [reflexivity|]. split; [rewrite O2; exact O1|]. split; assumption.
      - exists w1, h1. split; [reflexivity|]. split; [exact O1|]. split; assumption. }
    destruct Hx as (w2 & h2 & E2 & O2 & R2 & N2). rewrite E2.
    destruct (d_ferr d && rx_ferr h2) eqn:EF.
    { exists []. rewrite app_nil_r. split; [cbn; lia|]. split; [reflexivity|]. split; [exact O2|]. split; [exact R2|].
      intros _ _ Hf. rewrite Hf in EF. discriminate EF. }
    destruct (utick d w2 h2) as [w3 h3] eqn:E3. pose proof (tick_out d w2 h2) as O3. pose proof (tick_rinv d _ w2 h2 R2) as R3. pose proof (tick_rne d w2 h2 N2) as [N3 _].
    rewrite E3 in O3, R3, N3. cbn [snd] in O3, R3, N3.
    pose proof (rd_out h3) as O4. pose proof (rd_rinv _ h3 N3 R3) as R4.
    destruct (rd_data h3) as [b h4]. cbn [fst snd] in O4, R4. rewrite <- app_assoc in R4.
    specialize (IH w3 h4 (got ++ [b]) given R4).
    destruct (read_loop d n (got ++ [b]) w3 h4) as [[w' h'] got']. destruct IH as (l & Hl & Hg & Ho & Hr & _).
    exists (b :: l). cbn [length]. split; [lia|]. split; [rewrite Hg, <- app_assoc; reflexivity|].
    split; [rewrite Ho, O4, O3; exact O2|]. split; [exact Hr|]. intros H; discriminate H.
Qed.

(** ** The calls *)
Definition ret_ok' (d : udev) (r : ures) : Prop :=
  match r with
  | RWrite _ _ => ret_ok r
  | RRead n r data => if (n =? 0)%nat then r = -22 /\ data = [] else (data = [] /\ r = d_rxnone d) \/ (data <> [] /\ (length data <= n)%nat /\ r = Z.of_nat (length data))
  end.
Definition data_of (r : ures) : list Z := match r with RRead _ _ data => data | _ => [] end.
Lemma call1_ok d : dev_ok d -> forall c w h given, call_ok c -> rinv given h ->
  let '(w', h', r) := ucall1 d c w h in
  out h' = out h ++ told_sent r /\ rinv (given ++ data_of r) h' /\ ret_ok' d r.
Proof.
  intros Hd c w h given HC HR. destruct c as [buf | n]; cbn [ucall1].
  - unfold uart_write. destruct buf as [|b0 buf0].
    { cbn. rewrite !app_nil_r. split; [reflexivity|]. split; [exact HR|reflexivity]. }
    pose proof (write_loop_ok d Hd (b0 :: buf0) 0 w h given HC HR) as H.
    destruct (write_loop d (b0 :: buf0) 0 w h) as [[w' h'] k]. destruct H as (j & Hj & -> & Ho & Hr & _).
    cbn [told_sent data_of Nat.add]. rewrite app_nil_r. split; [|split; [exact Hr|]].
    + rewrite Ho. destruct j; [|rewrite (proj2 (Nat.eqb_neq _ _)) by lia; rewrite Nat2Z.id; reflexivity]. reflexivity.
    + unfold ret_ok', ret_ok. destruct (Nat.eqb_spec (length (b0 :: buf0)) 0) as [E|_]; [cbn in E; lia|].
      destruct (Nat.eqb_spec j 0); [left; reflexivity|right; lia].
  - unfold uart_read. destruct n as [|n].
    { cbn. rewrite !app_nil_r. split; [reflexivity|]. split; [exact HR|split; reflexivity]. }
    assert (HR' : rinv (given ++ []) h) by (rewrite app_nil_r; exact HR).
    pose proof (read_loop_ok d (S n) w h [] given HR') as H.
    destruct (read_loop d (S n) [] w h) as [[w' h'] got]. destruct H as (l & Hl & Hg & Ho & Hr & _). cbn [app] in Hg. subst got.
    cbn [told_sent data_of]. rewrite app_nil_r. split; [exact Ho|]. split; [exact Hr|].
    unfold ret_ok'. cbn [Nat.eqb]. destruct l as [|x l]; [left; split; reflexivity|]. right. split; [discriminate|]. split; [exact Hl|]. reflexivity.
Qed.
Lemma run_ok d : dev_ok d -> forall cs w h given, Forall call_ok cs -> rinv given h ->
  let '(w', h', rs) := urun d cs w h in
  out h' = out h ++ concat (told_sent <$> rs) /\ rinv (given ++ concat (data_of <$> rs)) h' /\ Forall (ret_ok' d) rs.
Proof.
  intros Hd. induction cs as [|c cs IH]; intros w h given HC HR; cbn [urun].
  - cbn. rewrite !app_nil_r. split; [reflexivity|]. split; [exact HR|constructor].
  - inversion HC as [|? ? Hc HC']; subst.
    pose proof (call1_ok d Hd c w h given Hc HR) as H. destruct (ucall1 d c w h) as [[w1 h1] r]. destruct H as (O1 & R1 & K1).
    specialize (IH w1 h1 _ HC' R1). destruct (urun d cs w1 h1) as [[w2 h2] rs]. destruct IH as (O2 & R2 & K2).
    rewrite !fmap_cons. cbn [concat]. rewrite !app_assoc. split; [rewrite O2, O1; reflexivity|]. split; [exact R2|]. constructor; assumption.
Qed.
Lemma told_recv_data d r : d_rxnone d <= 0 -> ret_ok' d r -> told_recv r = data_of r.
Proof.
  intros H0 H. destruct r as [buf x | n x data]; [reflexivity|]. unfold ret_ok' in H. cbn [told_recv data_of].
  destruct (Nat.eqb_spec n 0) as [->|Hn].
  - destruct H as [_ ->]. apply take_nil.
  - destruct H as [[-> ->] | (_ & _ & ->)]; [apply take_nil|]. rewrite Nat2Z.id. apply take_ge. lia.
Qed.
Lemma ret_ok_of d r : d_rxnone d = -11 -> ret_ok' d r -> ret_ok r.
Proof.
  intros H0 H. destruct r as [buf x | n x data]; [exact H|]. unfold ret_ok' in H. unfold ret_ok.
  destruct (Nat.eqb_spec n 0) as [->|Hn].
  - destruct H as [-> ->]. split; [reflexivity|]. intros; lia.
  - destruct H as [[-> ->] | (Hd & Hl & ->)]; [split; [left; exact H0|]; intros; lia|].
    split; [right|intros _; reflexivity]. destruct data; [contradiction|]. cbn [length] in *. lia.
Qed.
Lemma polled_none d : In d polled -> d_rxnone d <= 0 /\ (d <> pl011 -> d_rxnone d = -11).
Proof.
  unfold polled. intros H. repeat (destruct H as [<- | H]; [split; [apply Z.leb_le; reflexivity | intros N; first [reflexivity | exfalso; apply N; reflexivity]]|]). destruct H.
Qed.

Lemma write_all : forall d cs w, In d polled -> Forall call_ok cs ->
  let '(_, h, rs) := urun d cs w uhw0 in
  u_line h ++ u_txq h = concat (told_sent <$> rs) /\ Forall (fun r => match r with RWrite _ _ => ret_ok r | _ => True end) rs.
Proof.
  intros d cs w Hd HC. pose proof (run_ok d (polled_ok d Hd) cs w uhw0 [] HC eq_refl) as H.
  destruct (urun d cs w uhw0) as [[w' h] rs]. destruct H as (Ho & _ & Hr). split; [exact Ho|].
  eapply Forall_impl; [exact Hr|]. intros [buf x|n x data] Hx; [exact Hx|exact I].
Qed.
Lemma read_all : forall d cs w, In d polled -> Forall call_ok cs ->
  let '(_, h, rs) := urun d cs w uhw0 in
  concat (told_recv <$> rs) ++ (fst <$> u_rxq h) = fst <$> u_acc h /\ (d <> pl011 -> Forall ret_ok rs).
Proof.
  intros d cs w Hd HC. pose proof (run_ok d (polled_ok d Hd) cs w uhw0 [] HC eq_refl) as H.
  destruct (urun d cs w uhw0) as [[w' h] rs]. destruct H as (_ & Hi & Hr). destruct (polled_none d Hd) as [Hn Hn']. split.
  - unfold rinv in Hi. rewrite Hi. cbn [app]. f_equal. f_equal. clear Hi HC. induction Hr as [|r rs Hr0 Hr IH]; [reflexivity|].
    rewrite !fmap_cons. f_equal; [eapply told_recv_data; eassumption|exact IH].
  - intros Hp. eapply Forall_impl; [exact Hr|]. intros r. apply ret_ok_of, Hn', Hp.
Qed.

(** ** When there is room, when something waits *)
Lemma quiet_tl w : quiet w -> quiet (tl w).
Proof. intros H. destruct w; [exact H|]. inversion H; assumption. Qed.
Lemma quiet_tick d w h : quiet w -> utick d w h = (tl w, h).
Proof. intros H. unfold utick. destruct w as [|l w]; [reflexivity|]. inversion H; subst. reflexivity. Qed.
Lemma write_quiet d : d_txflag d = NotFull -> forall buf k w h, quiet w -> (length (u_txq h) <= d_txdepth d)%nat ->
  let '(_, _, k') := write_loop d buf k w h in k' = (k + Nat.min (length buf) (d_txdepth d - length (u_txq h)))%nat.
Proof.
  intros HF. induction buf as [|b buf IH]; intros k w h HQ HL; cbn [write_loop]; [cbn; lia|].
  rewrite (quiet_tick d w h HQ). unfold tx_ready. rewrite HF.
  destruct (Nat.ltb_spec (length (u_txq h)) (d_txdepth d)) as [Hl|Hl]; cbn [negb].
  - rewrite (quiet_tick d (tl w) h (quiet_tl w HQ)).
    assert (HL' : (length (u_txq (wr_data d b h)) = S (length (u_txq h)))%nat).
    { unfold wr_data. rewrite (proj2 (Nat.ltb_lt _ _) Hl). cbn [u_txq]. rewrite app_length. cbn. lia. }
    specialize (IH (S k) (tl (tl w)) (wr_data d b h) (quiet_tl _ (quiet_tl _ HQ))).
    destruct (write_loop d buf (S k) (tl (tl w)) (wr_data d b h)) as [[w' h'] k']. rewrite HL' in IH. cbn [length]. lia.
  - cbn [length]. lia.
Qed.
Lemma write_room d buf w h : In d polled -> d <> samusart -> quiet w -> buf <> [] -> (length (u_txq h) < d_txdepth d)%nat ->
  (uart_write d buf w h).2 = Z.of_nat (Nat.min (length buf) (d_txdepth d - length (u_txq h))).
Proof.
  intros Hd Hn HQ HB HL. assert (HF : d_txflag d = NotFull).
  { clear - Hd Hn. unfold polled in Hd. repeat (destruct Hd as [<- | Hd]; [first [reflexivity | exfalso; apply Hn; reflexivity]|]). destruct Hd. }
  pose proof (write_quiet d HF buf 0 w h HQ ltac:(lia)) as H. unfold uart_write. destruct buf as [|b buf]; [contradiction|].
  destruct (write_loop d (b :: buf) 0 w h) as [[w' h'] k]. cbn [snd]. rewrite H. destruct (Nat.eqb_spec (0 + Nat.min (length (b :: buf)) (d_txdepth d - length (u_txq h))) 0) as [E|E]; [cbn [length] in E; lia|reflexivity].
Qed.
Lemma write_again d buf w h : In d polled -> buf <> [] -> Forall is_byte buf -> (uart_write d buf w h).2 = -11 ->
  let h1 := (utick d w h).2 in
  (d_txdepth d <= length (u_txq h1))%nat \/ (d = samusart /\ (u_txq h1 <> [] \/ u_busy h1 = true)).
Proof.
  intros Hd HB HF H h1.
  assert (HR : tx_ready d h1 = false).
  { assert (exists got, rinv got h \/ True) as _ by (exists []; right; exact I).
    unfold uart_write in H. destruct buf as [|b buf]; [contradiction|]. cbn [write_loop] in H. unfold h1.
    destruct (utick d w h) as [w1 h2] eqn:E1. cbn [snd]. destruct (tx_ready d h2) eqn:ER; [|reflexivity]. exfalso. cbn [negb] in H.
    destruct (utick d w1 h2) as [w2 h3]. clear - H.
    assert (HK : forall buf k w h, (k <= (write_loop d buf k w h).2)%nat).
    { intros bf; induction bf as [|x buf' IH]; intros k w h; cbn [write_loop]; [cbn; lia|]. destruct (utick d w h) as [w1 h1]. destruct (tx_ready d h1); cbn [negb]; [|cbn; lia].
      destruct (utick d w1 h1) as [w2' h2']. specialize (IH (S k) w2' (wr_data d x h2')). lia. }
    specialize (HK buf 1%nat w2 (wr_data d b h3)). destruct (write_loop d buf 1 w2 (wr_data d b h3)) as [[w' h'] k]. cbn [snd] in H, HK.
    destruct (Nat.eqb_spec k 0); [lia|]. lia. }
  clear H. clearbody h1. unfold polled in Hd.
  repeat (destruct Hd as [<- | Hd]; [unfold tx_ready in HR; cbn [d_txflag pl011 sercom samuart samusart avr gd32 pic32 ra4sci stm32 tinyavr] in HR;
     first [left; apply Nat.ltb_ge in HR; exact HR | right; split; [reflexivity|]; destruct (u_txq h1); [right; destruct (u_busy h1); [reflexivity|discriminate HR] | left; discriminate]]|]).
  destruct Hd.
Qed.
Lemma read_quiet d : d_ferr d = false -> forall n got w h, quiet w ->
  let '(_, _, got') := read_loop d n got w h in length got' = (length got + Nat.min n (length (u_rxq h)))%nat.
Proof.
  intros HF. induction n as [|n IH]; intros got w h HQ; cbn [read_loop]; [cbn; lia|].
  rewrite (quiet_tick d w h HQ). unfold rx_ready. destruct (u_rxq h) as [|[b f] q] eqn:E; cbn [negb]; [cbn; lia|].
  rewrite HF. cbn [andb]. rewrite (quiet_tick d (tl w) h (quiet_tl w HQ)). unfold rd_data. rewrite E.
  specialize (IH (got ++ [b]) (tl (tl w)) (mkUhw (u_txq h) (u_busy h) (u_line h) q (u_acc h) (u_ovr h)) (quiet_tl _ (quiet_tl _ HQ))).
  destruct (read_loop d n (got ++ [b]) (tl (tl w)) _) as [[w' h'] got']. rewrite app_length in IH. cbn [u_rxq length] in *. lia.
Qed.
Lemma polled_ferr d : In d polled -> d <> tinyavr -> d_ferr d = false.
Proof.
  intros Hd Hn. unfold polled in Hd. repeat (destruct Hd as [<- | Hd]; [first [reflexivity | exfalso; apply Hn; reflexivity]|]). destruct Hd.
Qed.
Lemma read_waiting d n w h : In d polled -> d <> tinyavr -> quiet w -> n <> 0%nat -> u_rxq h <> [] ->
  (uart_read d n w h).1.2 = Z.of_nat (Nat.min n (length (u_rxq h))).
Proof.
  intros Hd Hn HQ H0 HL. pose proof (read_quiet d (polled_ferr d Hd Hn) n [] w h HQ) as H. unfold uart_read. destruct n as [|n]; [contradiction|].
  destruct (read_loop d (S n) [] w h) as [[w' h'] got]. cbn [fst snd]. cbn [length] in H. rewrite H.
  destruct (u_rxq h); [contradiction|]. cbn [length Nat.min Nat.add Nat.eqb]. reflexivity.
Qed.
Lemma read_again d n w h : In d polled -> d <> tinyavr -> n <> 0%nat -> (uart_read d n w h).2 = [] -> u_rxq (utick d w h).2 = [].
Proof.
  intros Hd Hn H0 H. unfold uart_read in H. destruct n as [|n]; [contradiction|].
  assert (HR : rinv ((fst <$> u_acc h) ++ []) (mkUhw (u_txq h) (u_busy h) (u_line h) [] (u_acc h) (u_ovr h))) by (unfold rinv; cbn [u_acc u_rxq]; rewrite fmap_nil, !app_nil_r; reflexivity).
  clear HR. cbn [read_loop] in H. destruct (utick d w h) as [w1 h1] eqn:E1. cbn [snd]. destruct (u_rxq h1) as [|[b f] q] eqn:E; [reflexivity|]. exfalso.
  unfold rx_ready in H. rewrite E in H. cbn [negb] in H. rewrite (polled_ferr d Hd Hn) in H. cbn [andb] in H.
  destruct (utick d w1 h1) as [w2 h2]. destruct (rd_data h2) as [b' h3].
  assert (HK : forall n got w h, (length got <= length (read_loop d n got w h).2)%nat).
  { clear; intros nn; induction nn as [|m IH]; intros got w0 h0; cbn [read_loop]; [cbn; lia|]. destruct (utick d w0 h0) as [w4 h4]. destruct (rx_ready h4); cbn [negb]; [|cbn; lia].
    destruct (if d_ferr d then utick d w4 h4 else (w4, h4)) as [w5 h5]. destruct (d_ferr d && rx_ferr h5); [cbn; lia|]. destruct (utick d w5 h5) as [w6 h6].
    destruct (rd_data h6) as [b6 h7]. specialize (IH (got ++ [b6]) w6 h7). rewrite app_length in IH. cbn [length] in IH. lia. }
  specialize (HK n ([] ++ [b']) w2 h3). destruct (read_loop d n ([] ++ [b']) w2 h3) as [[w' h'] got]. cbn [snd] in H, HK. subst got. cbn in HK. lia.
Qed.

(** ** A byte with a framing error at the head of the queue (tinyAVR) *)
Definition stuck (h : uhw) : Prop := rx_ready h = true /\ rx_ferr h = true.
Lemma tick_stuck d w h : stuck h -> stuck (utick d w h).2.
Proof. intros [H1 H2]. destruct (tick_rne d w h H1) as [H3 H4]. split; [exact H3|rewrite H4; exact H2]. Qed.
Lemma wr_stuck d b h : stuck h -> stuck (wr_data d b h).
Proof. unfold stuck, wr_data. destruct (_ <? _)%nat; intros H; exact H. Qed.
Lemma write_stuck d : forall buf k w h, stuck h -> stuck (write_loop d buf k w h).1.2.
Proof.
  induction buf as [|b buf IH]; intros k w h H; cbn [write_loop]; [exact H|].
  pose proof (tick_stuck d w h H) as H1. destruct (utick d w h) as [w1 h1]. cbn [snd] in H1. destruct (tx_ready d h1); cbn [negb]; [|exact H1].
  pose proof (tick_stuck d w1 h1 H1) as H2. destruct (utick d w1 h1) as [w2 h2]. apply IH, wr_stuck, H2.
Qed.
Lemma read_stuck : forall n w h, stuck h -> exists w' h', read_loop tinyavr n [] w h = (w', h', []) /\ stuck h'.
Proof.
  intros [|n] w h H; cbn [read_loop]; [exists w, h; split; [reflexivity|exact H]|].
  pose proof (tick_stuck tinyavr w h H) as H1. destruct (utick tinyavr w h) as [w1 h1]. cbn [snd] in H1. destruct H1 as [H1 H1']. rewrite H1. cbn [negb d_ferr tinyavr].
  pose proof (tick_stuck tinyavr w1 h1 (conj H1 H1')) as H2. destruct (utick tinyavr w1 h1) as [w2 h2]. cbn [snd] in H2. destruct H2 as [H2 H2'].
  rewrite H2'. cbn [andb]. exists w2, h2. split; [reflexivity|split; assumption].
Qed.
Lemma run_stuck : forall cs w h, stuck h -> Forall (fun r => match r with RRead n x _ => x = (if (n =? 0)%nat then -22 else -11) | _ => True end) (urun tinyavr cs w h).2.
Proof.
  induction cs as [|c cs IH]; intros w h H; cbn [urun]; [constructor|].
  destruct c as [buf|n]; cbn [ucall1].
  - assert (stuck (uart_write tinyavr buf w h).1.2) as H1.
    { unfold uart_write. destruct buf as [|b buf]; [exact H|]. pose proof (write_stuck tinyavr (b :: buf) 0 w h H) as H1.
      destruct (write_loop tinyavr (b :: buf) 0 w h) as [[w' h'] k]. exact H1. }
    destruct (uart_write tinyavr buf w h) as [[w1 h1] r]. cbn [fst snd] in H1. specialize (IH w1 h1 H1). destruct (urun tinyavr cs w1 h1) as [[w2 h2] rs].
    constructor; [exact I|exact IH].
  - unfold uart_read. destruct n as [|n].
    + specialize (IH w h H). destruct (urun tinyavr cs w h) as [[w2 h2] rs]. constructor; [reflexivity|exact IH].
    + destruct (read_stuck (S n) w h H) as (w1 & h1 & -> & H1). specialize (IH w1 h1 H1). destruct (urun tinyavr cs w1 h1) as [[w2 h2] rs].
      constructor; [reflexivity|exact IH].
Qed.

(** ** After an overrun (PIC32MX, RA4) *)
Definition shut (d : udev) (a : list (Z * bool)) (h : uhw) : Prop := u_ovr h = true /\ u_acc h = a.
Lemma tick_shut d a w h : d_sticky d = true -> shut d a h -> shut d a (utick d w h).2.
Proof.
  intros HS. unfold utick; cbn [snd]. generalize (hd [] w); intros l. revert h. induction l as [|e l IH]; intros h H; [exact H|].
  cbn [fold_left]. apply IH. destruct H as [H1 H2]. destruct e; cbn [uev_step].
  - destruct (u_txq h); split; assumption.
  - split; assumption.
  - rewrite HS, H1. split; assumption.
Qed.
Lemma run_shut d a : d_sticky d = true -> forall cs w h, shut d a h -> shut d a (urun d cs w h).1.2.
Proof.
  intros HS.
  assert (HW : forall buf k w h, shut d a h -> shut d a (write_loop d buf k w h).1.2).
  { induction buf as [|b buf IH]; intros k w h H; cbn [write_loop]; [exact H|].
    pose proof (tick_shut d a w h HS H) as H1. destruct (utick d w h) as [w1 h1]. cbn [snd] in H1. destruct (tx_ready d h1); cbn [negb]; [|exact H1].
    pose proof (tick_shut d a w1 h1 HS H1) as H2. destruct (utick d w1 h1) as [w2 h2]. apply IH. unfold wr_data. destruct (_ <? _)%nat; exact H2. }
  assert (HRd : forall n got w h, shut d a h -> shut d a (read_loop d n got w h).1.2).
  { induction n as [|n IH]; intros got w h H; cbn [read_loop]; [exact H|].
    pose proof (tick_shut d a w h HS H) as H1. destruct (utick d w h) as [w1 h1]. cbn [snd] in H1. destruct (rx_ready h1); cbn [negb]; [|exact H1].
    assert (shut d a (if d_ferr d then utick d w1 h1 else (w1, h1)).2) as H2 by (destruct (d_ferr d); [apply tick_shut; assumption|exact H1]).
    destruct (if d_ferr d then utick d w1 h1 else (w1, h1)) as [w2 h2]. cbn [snd] in H2. destruct (d_ferr d && rx_ferr h2); [exact H2|].
    pose proof (tick_shut d a w2 h2 HS H2) as H3. destruct (utick d w2 h2) as [w3 h3]. cbn [snd] in H3.
    assert (shut d a (rd_data h3).2) as H4 by (unfold rd_data; destruct (u_rxq h3) as [|[b f] q]; exact H3).
    destruct (rd_data h3) as [b h4]. apply IH, H4. }
  induction cs as [|c cs IH]; intros w h H; cbn [urun]; [exact H|].
  assert (shut d a (ucall1 d c w h).1.2) as H1.
  { destruct c as [buf|n]; cbn [ucall1].
    - unfold uart_write. destruct buf as [|b buf]; [exact H|]. specialize (HW (b :: buf) 0%nat w h H). destruct (write_loop d (b :: buf) 0 w h) as [[w' h'] k]. exact HW.
    - unfold uart_read. destruct n as [|n]; [exact H|]. specialize (HRd (S n) [] w h H). destruct (read_loop d (S n) [] w h) as [[w' h'] got]. exact HRd. }
  destruct (ucall1 d c w h) as [[w1 h1] r]. cbn [fst snd] in H1. specialize (IH w1 h1 H1). destruct (urun d cs w1 h1) as [[w2 h2] rs]. exact IH.
Qed.
