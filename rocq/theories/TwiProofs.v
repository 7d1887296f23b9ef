(** TwiProofs.v - the phases of a transfer. *)
From Verif Require Import Base TwiModel TwiSpec.

Definition slab (a rw : Z) : Z := Z.lor (Z.modulo (Z.shiftl (Z.land a 127) 1) 256) rw.
Lemma slab_0 a : slab a 0 = sla a 0.
Proof.
  unfold slab, sla. rewrite Z.lor_0_r. change 127 with (Z.ones 7). rewrite Z.land_ones by lia. rewrite Z.shiftl_mul_pow2 by lia.
  change (2 ^ 1) with 2. change (2 ^ 7) with 128. pose proof (Z.mod_pos_bound a 128 ltac:(lia)). rewrite Z.mod_small; lia.
Qed.
Lemma slab_1 a : slab a 1 = sla a 1.
Proof.
  unfold slab, sla. change 127 with (Z.ones 7). rewrite Z.land_ones by lia. rewrite Z.shiftl_mul_pow2 by lia.
  change (2 ^ 1) with 2. change (2 ^ 7) with 128. pose proof (Z.mod_pos_bound a 128 ltac:(lia)). rewrite Z.mod_small by lia.
  rewrite Z.mul_comm. destruct (a mod 128) as [|p|p]; [done|done|lia].
Qed.
Lemma sla_0_even a : Z.testbit (slab a 0) 0 = false.
Proof. rewrite slab_0. unfold sla. rewrite Z.add_0_r. apply Z.testbit_even_0. Qed.
Lemma sla_1_odd a : Z.testbit (slab a 1) 0 = true.
Proof. rewrite slab_1. apply Z.testbit_odd_0. Qed.

(** ** One call in each situation *)
Lemma do_idle_S h c flags : F_S flags = true -> h_log h = h_log h ->
  master_idle h c flags = (mkHw 36 false (h_sr h) (h_dr h) (Some OStart) (h_log h), set_state T_START c, Again).
Proof. intros HS _. unfold master_idle. rewrite HS. reflexivity. Qed.
Lemma do_start sr dr L a la rw : sr = 8 \/ sr = 16 ->
  master_start (mkHw 36 true sr dr None L) (mkTw T_START a la) rw =
  (mkHw 4 false sr (slab a rw) (Some (OAddr (slab a rw))) L, mkTw T_SLA a la, Again).
Proof. intros [-> | ->]; reflexivity. Qed.
Lemma do_wsla dr L a la b n :
  write_sla (mkHw 4 true 24 dr None L) (mkTw T_SLA a la) b n =
  (mkHw 4 false 24 b (Some (OSend b)) L, if n =? 1 then mkTw T_STOP a 1 else mkTw T_DATA a la, if n =? 1 then Again else Count 1).
Proof. unfold write_sla. cbn [h_sr]. change (24 =? 24) with true. cbn. destruct (n =? 1); reflexivity. Qed.
Lemma do_wdata dr L a la b n :
  write_data (mkHw 4 true 40 dr None L) (mkTw T_DATA a la) b n =
  (mkHw 4 false 40 b (Some (OSend b)) L, if n =? 1 then mkTw T_STOP a 1 else mkTw T_DATA a la, if n =? 1 then Again else Count 1).
Proof. unfold write_data. cbn [h_sr]. change (40 =? 40) with true. cbn. destruct (n =? 1); reflexivity. Qed.
Lemma do_stop sr dr L a flags :
  rw_stop (mkHw 4 true sr dr None L) (mkTw T_STOP a 1) flags =
  (if F_P flags then mkHw 4 false 248 dr None (L ++ [BStop]) else mkHw 4 true sr dr None L, mkTw T_IDLE a 1, Count 1).
Proof. unfold rw_stop. cbn. destruct (F_P flags); reflexivity. Qed.

Lemma ofnat_1 m : (Z.of_nat (S m) =? 1) = (m =? 0)%nat.
Proof. destruct (Z.eqb_spec (Z.of_nat (S m)) 1), (Nat.eqb_spec m 0); lia. Qed.

Section write.
Context (s : slave) (flags a : Z) (buf : list Z) (L0 : list bev).
Hypothesis Hs : acks a s.
Let n := length buf.

Definition wpre : list bev := if F_S flags then [BStart; BAddr (slab a 0) true] else [].
Definition wlog (k : nat) : list bev := L0 ++ wpre ++ ((fun b => BTx b true) <$> take k buf).

Inductive wph : twhw * twctx * wcall -> nat -> Prop :=
| W_idle h c : F_S flags = true -> c_state c = T_IDLE -> c_addr c = a -> h_log h = L0 -> h_pend h = None -> wph (h, c, mkWc 0 None) (n + 3)
| W_start_p sr dr la : F_S flags = true -> wph (mkHw 36 false sr dr (Some OStart) L0, mkTw T_START a la, mkWc 0 None) (n + 2)
| W_start_d sr dr la : F_S flags = true -> sr = 8 \/ sr = 16 -> wph (mkHw 36 true sr dr None (L0 ++ [BStart]), mkTw T_START a la, mkWc 0 None) (n + 2)
| W_sla_p sr dr la : F_S flags = true -> wph (mkHw 4 false sr dr (Some (OAddr (slab a 0))) (L0 ++ [BStart]), mkTw T_SLA a la, mkWc 0 None) (n + 1)
| W_sla_d dr la : F_S flags = true -> wph (mkHw 4 true 24 dr None (wlog 0), mkTw T_SLA a la, mkWc 0 None) (n + 1)
| W_idle_c dr c : F_S flags = false -> c_state c = T_IDLE -> c_addr c = a -> wph (mkHw 4 true 40 dr None L0, c, mkWc 0 None) (n + 2)
| W_data0 dr la : F_S flags = false -> wph (mkHw 4 true 40 dr None L0, mkTw T_DATA a la, mkWc 0 None) (n + 1)
| W_byte_p sr dr la k : (k < n)%nat ->
    wph (mkHw 4 false sr dr (Some (OSend (nth k buf 0))) (wlog k),
         if (S k =? n)%nat then mkTw T_STOP a 1 else mkTw T_DATA a la, mkWc (if (S k =? n)%nat then k else S k) None) (n - k)
| W_byte_d dr la k : (k < n)%nat ->
    wph (mkHw 4 true 40 dr None (wlog (S k)),
         if (S k =? n)%nat then mkTw T_STOP a 1 else mkTw T_DATA a la, mkWc (if (S k =? n)%nat then k else S k) None) (n - k)
| W_fin dr : wph (if F_P flags then mkHw 4 false 248 dr None (wlog n ++ [BStop]) else mkHw 4 true 40 dr None (wlog n),
                  mkTw T_IDLE a 1, mkWc n None) 0.

Lemma wlog_S k : (k < n)%nat -> wlog (S k) = wlog k ++ [BTx (nth k buf 0) true].
Proof.
  intros Hk. unfold wlog. rewrite <- !app_assoc. do 2 f_equal.
  destruct (nth_lookup_or_length buf k 0) as [Hb|]; [|lia].
  rewrite (take_S_r _ _ _ Hb), fmap_app. done.
Qed.

(** The hardware finishes. *)
Lemma wph_done st r : wph st r -> wph (complete s st.1.1, st.1.2, st.2) r.
Proof.
  intros H. destruct H as [h c HS Hc Ha HL Hp|sr dr la HS|sr dr la HS Hsr|sr dr la HS|dr la HS|dr c HS Hc Ha|dr la HS|sr dr la k Hk|dr la k Hk|dr]; cbn [fst snd].
  - unfold complete. rewrite Hp. by constructor.
  - unfold complete. cbn [h_pend h_log h_cr h_dr]. destruct (s L0 OStart) as [x d]. apply W_start_d; [done|]. destruct (held L0); auto.
  - by apply W_start_d.
  - unfold complete. cbn [h_pend h_log h_cr h_dr]. pose proof (Hs (L0 ++ [BStart]) (OAddr (slab a 0)) (or_introl (slab_0 a))) as E.
    destruct (s (L0 ++ [BStart]) (OAddr (slab a 0))) as [x d]. cbn in E. subst x. rewrite sla_0_even.
    replace ((L0 ++ [BStart]) ++ [BAddr (slab a 0) true]) with (wlog 0); [by apply W_sla_d|].
    unfold wlog, wpre. rewrite HS, <- app_assoc. done.
  - by apply W_sla_d.
  - by apply W_idle_c.
  - by apply W_data0.
  - unfold complete. cbn [h_pend h_log h_cr h_dr]. pose proof (Hs (wlog k) (OSend (nth k buf 0)) I) as E.
    destruct (s (wlog k) (OSend (nth k buf 0))) as [x d]. cbn in E. subst x. rewrite <- wlog_S by done. by apply W_byte_d.
  - by apply W_byte_d.
  - unfold complete. destruct (F_P flags) eqn:EP; cbn [h_pend]; pose proof (W_fin dr) as W; rewrite EP in W; exact W.
Qed.

(** The caller calls. *)
Lemma wcall_ne k : (k < n)%nat -> exists l, drop k buf = nth k buf 0 :: l /\ length l = (n - S k)%nat.
Proof.
  intros Hk. destruct (nth_lookup_or_length buf k 0) as [Hb|]; [|lia].
  exists (drop (S k) buf). split; [by apply drop_S|]. rewrite drop_length. done.
Qed.
Hypothesis Hn : buf <> [].
Lemma n_pos : (0 < n)%nat.
Proof. unfold n. destruct buf; [done|]. cbn. lia. Qed.
(** Sending byte [k], whichever of the two functions does it. *)
Lemma wph_sent sr dr la k (l : list Z) : (k < n)%nat -> length l = (n - S k)%nat ->
  wph (mkHw 4 false sr dr (Some (OSend (nth k buf 0))) (wlog k),
       (if Z.of_nat (S (length l)) =? 1 then mkTw T_STOP a 1 else mkTw T_DATA a la),
       match (if Z.of_nat (S (length l)) =? 1 then Again else Count 1) with
       | Again => mkWc k None | Count j => mkWc (k + Z.to_nat j) None | e => mkWc k (Some e) end) (n - k).
Proof.
  intros Hk Hl. rewrite ofnat_1. pose proof (W_byte_p sr dr la k Hk) as W.
  destruct (Nat.eqb_spec (length l) 0) as [E|E], (Nat.eqb_spec (S k) n) as [E'|E']; try lia; [exact W|].
  replace (k + Z.to_nat 1)%nat with (S k) by lia. exact W.
Qed.
Definition ready (st : twhw * twctx * wcall) : Prop := h_pend st.1.1 = None.
Lemma wph_call st r : wph st r -> exists r', (r' <= r)%nat /\ (ready st -> r <> 0%nat -> r' < r)%nat /\ wph (write_call flags buf st) r'.
Proof.
  pose proof n_pos as Hpos. intros H. destruct H as [h c HS Hc Ha HL Hp|sr dr la HS|sr dr la HS Hsr|sr dr la HS|dr la HS|dr c HS Hc Ha|dr la HS|sr dr la k Hk|dr la k Hk|dr].
  - destruct (wcall_ne 0 Hpos) as (l & El & Hl). unfold write_call. cbn [w_err w_count]. rewrite El.
    unfold twi_write. rewrite Hc. rewrite do_idle_S by done. exists (n + 2)%nat. split; [lia|]. split; [lia|].
    unfold set_state. rewrite Ha, HL. by apply W_start_p.
  - destruct (wcall_ne 0 Hpos) as (l & El & Hl). unfold write_call. cbn [w_err w_count]. rewrite El.
    exists (n + 2)%nat. split; [lia|]. split; [unfold ready; cbn; done|]. apply (W_start_p sr dr la HS).
  - destruct (wcall_ne 0 Hpos) as (l & El & Hl). unfold write_call. cbn [w_err w_count]. rewrite El.
    unfold twi_write. cbn [c_state]. rewrite do_start by done. exists (n + 1)%nat. split; [lia|]. split; [lia|]. by apply W_sla_p.
  - destruct (wcall_ne 0 Hpos) as (l & El & Hl). unfold write_call. cbn [w_err w_count]. rewrite El.
    exists (n + 1)%nat. split; [lia|]. split; [unfold ready; cbn; done|]. apply (W_sla_p sr dr la HS).
  - destruct (wcall_ne 0 Hpos) as (l & El & Hl). unfold write_call. cbn [w_err w_count]. rewrite El.
    unfold twi_write. cbn [c_state]. rewrite do_wsla. exists (n - 0)%nat. split; [lia|]. split; [lia|]. pose proof (wph_sent 24 (nth 0 buf 0) la 0 l Hpos Hl) as W. destruct (Z.of_nat (S (length l)) =? 1); exact W.
  - destruct (wcall_ne 0 Hpos) as (l & El & Hl). unfold write_call. cbn [w_err w_count]. rewrite El.
    unfold twi_write. rewrite Hc. unfold master_idle. rewrite HS. exists (n + 1)%nat. split; [lia|]. split; [lia|].
    unfold set_state. rewrite Ha. by apply W_data0.
  - destruct (wcall_ne 0 Hpos) as (l & El & Hl). unfold write_call. cbn [w_err w_count]. rewrite El.
    unfold twi_write. cbn [c_state]. rewrite do_wdata. exists (n - 0)%nat. split; [lia|]. split; [lia|].
    pose proof (wph_sent 40 (nth 0 buf 0) la 0 l Hpos Hl) as W. unfold wlog, wpre in W. rewrite HS in W.
    replace (L0 ++ [] ++ ((fun b => BTx b true) <$> take 0 buf)) with L0 in W by (by rewrite take_0, !app_nil_r). destruct (Z.of_nat (S (length l)) =? 1); exact W.
  - exists (n - k)%nat. split; [lia|]. split; [unfold ready; cbn; done|].
    pose proof (W_byte_p sr dr la k Hk) as W. unfold write_call. cbn [w_err w_count].
    destruct (drop (if (S k =? n)%nat then k else S k) buf) as [|b l]; [exact W|].
    destruct (S k =? n)%nat; exact W.
  - unfold write_call. cbn [w_err w_count]. destruct (Nat.eqb_spec (S k) n) as [E|E].
    + destruct (wcall_ne k Hk) as (l & El & Hl). rewrite El. unfold twi_write. cbn [c_state]. rewrite do_stop.
      exists 0%nat. split; [lia|]. split; [lia|]. rewrite E. replace (k + Z.to_nat 1)%nat with n by lia. apply W_fin.
    + destruct (wcall_ne (S k)) as (l & El & Hl); [lia|]. rewrite El. unfold twi_write. cbn [c_state]. rewrite do_wdata.
      exists (n - S k)%nat. split; [lia|]. split; [lia|]. assert (Hk' : (S k < n)%nat) by lia. pose proof (wph_sent 40 (nth (S k) buf 0) la (S k) l Hk' Hl) as W. destruct (Z.of_nat (S (length l)) =? 1); exact W.
  - exists 0%nat. split; [lia|]. split; [lia|]. unfold write_call. cbn [w_err w_count]. 
    rewrite (drop_ge buf n) by (unfold n; lia). apply W_fin.
Qed.
Lemma wph_step st r e : wph st r -> exists r', (r' <= r)%nat /\ wph (write_step s flags buf st e) r'.
Proof.
  intros H. destruct e; cbn [write_step].
  - destruct (wph_call st r H) as (r' & A & _ & B). eauto.
  - exists r. split; [done|]. by apply wph_done.
Qed.
Lemma wph_run st r evs : wph st r -> exists r', (r' <= r)%nat /\ wph (write_run s flags buf evs st) r'.
Proof.
  revert st r. induction evs as [|e evs IH]; intros st r H; [exists r; split; [done|exact H]|].
  destruct (wph_step st r e H) as (r1 & A & B). destruct (IH _ _ B) as (r2 & C & D). exists r2. split; [lia|]. exact D.
Qed.
Lemma done_ready st r : wph st r -> ready (complete s st.1.1, st.1.2, st.2).
Proof.
  intros H. unfold ready, complete. cbn [fst snd]. destruct (h_pend st.1.1) as [o|] eqn:E; [|done].
  destruct (s (h_log st.1.1) o) as [x d]. destruct o; done.
Qed.
Lemma wph_rounds st r m : wph st r -> (r <= m)%nat -> wph (write_run s flags buf (rounds m) st) 0.
Proof.
  revert st r. induction m as [|m IH]; intros st r H Hr; [replace r with 0%nat in H by lia; exact H|].
  cbn [rounds write_run fold_left]. pose proof (wph_done st r H) as H1.
  destruct (wph_call _ _ H1) as (r' & A & B & C). specialize (B (done_ready st r H)).
  apply (IH _ r'); [exact C|]. destruct (decide (r = 0%nat)); [lia|]. lia.
Qed.

(** What can be seen in each phase. *)
Lemma wph_log st r : wph st r -> w_err st.2 = None /\ exists rest, L0 ++ write_bus a flags buf = h_log st.1.1 ++ rest.
Proof.
  assert (E : L0 ++ write_bus a flags buf = wlog n ++ (if F_P flags then [BStop] else [])).
  { unfold write_bus, wlog, wpre. rewrite slab_0. rewrite (take_ge buf n) by (unfold n; lia). rewrite <- !app_assoc. done. }
  assert (P : forall k, (k <= n)%nat -> wlog n = wlog k ++ ((fun b => BTx b true) <$> drop k buf)).
  { intros k Hk. unfold wlog. rewrite (take_ge buf n) by (unfold n; lia). rewrite <- !app_assoc, <- fmap_app, take_drop. done. }
  intros H. destruct H as [h c HS Hc Ha HL Hp|sr dr la HS|sr dr la HS Hsr|sr dr la HS|dr la HS|dr c HS Hc Ha|dr la HS|sr dr la k Hk|dr la k Hk|dr]; cbn [fst snd w_err h_log]; (split; [done|]).
  - rewrite HL. eauto.
  - eauto.
  - unfold write_bus. rewrite HS. eexists. rewrite <- !app_assoc. cbn. reflexivity.
  - unfold write_bus. rewrite HS. eexists. rewrite <- !app_assoc. cbn. reflexivity.
  - rewrite E, (P 0%nat) by lia. rewrite <- app_assoc. eauto.
  - eauto.
  - eauto.
  - rewrite E, (P k) by lia. rewrite <- app_assoc. eauto.
  - rewrite E, (P (S k)) by lia. rewrite <- app_assoc. eauto.
  - rewrite E. destruct (F_P flags); [exists []; by rewrite app_nil_r|]. exists []. cbn [h_log]. by rewrite !app_nil_r.
Qed.
Lemma wph_end st r : wph st r -> w_count st.2 = n \/ r = 0%nat ->
  w_count st.2 = n /\ h_log st.1.1 = L0 ++ write_bus a flags buf /\ c_state st.1.2 = T_IDLE /\ c_addr st.1.2 = a /\ h_pend st.1.1 = None /\
  (F_P flags = false -> bus_held st.1.1).
Proof.
  assert (E : L0 ++ write_bus a flags buf = wlog n ++ (if F_P flags then [BStop] else [])).
  { unfold write_bus, wlog, wpre. rewrite slab_0. rewrite (take_ge buf n) by (unfold n; lia). rewrite <- !app_assoc. done. }
  pose proof n_pos as Hpos.
  intros H. destruct H as [h c HS Hc Ha HL Hp|sr dr la HS|sr dr la HS Hsr|sr dr la HS|dr la HS|dr c HS Hc Ha|dr la HS|sr dr la k Hk|dr la k Hk|dr]; cbn [fst snd w_err h_log w_count]; intros Hr; try lia.
  - destruct (Nat.eqb_spec (S k) n); lia.
  - destruct (Nat.eqb_spec (S k) n); lia.
  - rewrite E. unfold bus_held. destruct (F_P flags); cbn; rewrite ?app_nil_r; done.
Qed.
End write.

(** ** Reading *)
Lemma do_rsla dr L a la m :
  read_sla (mkHw 4 true 64 dr None L) (mkTw T_SLA a la) m =
  (mkHw (if m =? 1 then 4 else 68) false 64 dr (Some (ORecv (negb (m =? 1)))) L, mkTw T_DATA a la, Again).
Proof. unfold read_sla. cbn. destruct (m =? 1); reflexivity. Qed.
Lemma do_rlast dr L a la m : m = 1 ->
  read_data (mkHw 4 true 88 dr None L) (mkTw T_DATA a la) m = (mkHw 4 false 248 dr None (L ++ [BStop]), mkTw T_IDLE a la, Count 1, Some dr).
Proof. intros ->. reflexivity. Qed.
Lemma do_rmore dr L a la m : m <> 1 ->
  read_data (mkHw 68 true 80 dr None L) (mkTw T_DATA a la) m =
  (mkHw (if m =? 2 then 4 else 68) false 80 dr (Some (ORecv (negb (m =? 2)))) L, mkTw T_DATA a la, Count 1, Some dr).
Proof. intros Hm. unfold read_data. cbn. apply Z.eqb_neq in Hm. rewrite Hm. destruct (m =? 2); reflexivity. Qed.

Section read.
Context (s : slave) (flags a : Z) (n : nat) (L0 : list bev).
Hypothesis Hs : acks a s.
Hypothesis Hn : (0 < n)%nat.
Hypothesis HS : F_S flags = true.

Definition rx (d : list Z) : list bev := (fun b => BRx b true) <$> d.
Definition rlog (d : list Z) : list bev := L0 ++ [BStart; BAddr (slab a 1) true] ++ rx d.

(** [d]: the bytes the caller has. *)
Inductive rph : twhw * twctx * rcall -> nat -> Prop :=
| R_idle h c : c_state c = T_IDLE -> c_addr c = a -> h_log h = L0 -> h_pend h = None -> rph (h, c, mkRc [] None) (n + 3)
| R_start_p sr dr la : rph (mkHw 36 false sr dr (Some OStart) L0, mkTw T_START a la, mkRc [] None) (n + 2)
| R_start_d sr dr la : sr = 8 \/ sr = 16 -> rph (mkHw 36 true sr dr None (L0 ++ [BStart]), mkTw T_START a la, mkRc [] None) (n + 2)
| R_sla_p sr dr la : rph (mkHw 4 false sr dr (Some (OAddr (slab a 1))) (L0 ++ [BStart]), mkTw T_SLA a la, mkRc [] None) (n + 1)
| R_sla_d dr la : rph (mkHw 4 true 64 dr None (rlog []), mkTw T_SLA a la, mkRc [] None) (n + 1)
| R_more_p sr dr la d : (S (length d) < n)%nat -> rph (mkHw 68 false sr dr (Some (ORecv true)) (rlog d), mkTw T_DATA a la, mkRc d None) (n - length d)
| R_more_d dr la d : (S (length d) < n)%nat -> rph (mkHw 68 true 80 dr None (rlog (d ++ [dr])), mkTw T_DATA a la, mkRc d None) (n - length d)
| R_last_p sr dr la d : S (length d) = n -> rph (mkHw 4 false sr dr (Some (ORecv false)) (rlog d), mkTw T_DATA a la, mkRc d None) 1
| R_last_d dr la d : S (length d) = n -> rph (mkHw 4 true 88 dr None (rlog d ++ [BRx dr false]), mkTw T_DATA a la, mkRc d None) 1
| R_fin dr la d b : S (length d) = n -> rph (mkHw 4 false 248 dr None (rlog d ++ [BRx b false] ++ [BStop]), mkTw T_IDLE a la, mkRc (d ++ [b]) None) 0.

Lemma rlog_S d b : rlog (d ++ [b]) = rlog d ++ [BRx b true].
Proof. unfold rlog, rx. rewrite fmap_app, <- !app_assoc. done. Qed.
Lemma rph_done st r : rph st r -> rph (complete s st.1.1, st.1.2, st.2) r.
Proof.
  intros H. destruct H as [h c Hc Ha HL Hp|sr dr la|sr dr la Hsr|sr dr la|dr la|sr dr la d Hd|dr la d Hd|sr dr la d Hd|dr la d Hd|dr la d b Hd]; cbn [fst snd].
  - unfold complete. rewrite Hp. by constructor.
  - unfold complete. cbn [h_pend h_log h_cr h_dr]. destruct (s L0 OStart) as [x y]. apply R_start_d. destruct (held L0); auto.
  - by apply R_start_d.
  - unfold complete. cbn [h_pend h_log h_cr h_dr]. pose proof (Hs (L0 ++ [BStart]) (OAddr (slab a 1)) (or_intror (slab_1 a))) as E.
    destruct (s (L0 ++ [BStart]) (OAddr (slab a 1))) as [x y]. cbn in E. subst x. rewrite sla_1_odd.
    replace ((L0 ++ [BStart]) ++ [BAddr (slab a 1) true]) with (rlog []); [by apply R_sla_d|].
    unfold rlog, rx. rewrite <- app_assoc. done.
  - by apply R_sla_d.
  - unfold complete. cbn [h_pend h_log h_cr h_dr]. destruct (s (rlog d) (ORecv true)) as [x y]. rewrite <- rlog_S. by apply R_more_d.
  - by apply R_more_d.
  - unfold complete. cbn [h_pend h_log h_cr h_dr]. destruct (s (rlog d) (ORecv false)) as [x y]. by apply R_last_d.
  - by apply R_last_d.
  - by apply R_fin.
Qed.
Definition rready (st : twhw * twctx * rcall) : Prop := h_pend st.1.1 = None.
Lemma rph_call st r : rph st r -> exists r', (r' <= r)%nat /\ (rready st -> r <> 0%nat -> r' < r)%nat /\ rph (read_call flags n st) r'.
Proof.
  intros H. destruct H as [h c Hc Ha HL Hp|sr dr la|sr dr la Hsr|sr dr la|dr la|sr dr la d Hd|dr la d Hd|sr dr la d Hd|dr la d Hd|dr la d b Hd];
    unfold read_call; cbn [r_err r_got].
  - destruct (n - length [])%nat as [|m] eqn:Em; [cbn in Em; lia|].
    unfold twi_read. rewrite Hc. rewrite do_idle_S by done. exists (n + 2)%nat. split; [lia|]. split; [lia|].
    unfold set_state. rewrite Ha, HL. by apply R_start_p.
  - destruct (n - length [])%nat as [|m] eqn:Em; [cbn in Em; lia|].
    exists (n + 2)%nat. split; [lia|]. split; [unfold rready; cbn; done|]. apply (R_start_p sr dr la).
  - destruct (n - length [])%nat as [|m] eqn:Em; [cbn in Em; lia|].
    unfold twi_read. cbn [c_state]. rewrite do_start by done. exists (n + 1)%nat. split; [lia|]. split; [lia|]. by apply R_sla_p.
  - destruct (n - length [])%nat as [|m] eqn:Em; [cbn in Em; lia|].
    exists (n + 1)%nat. split; [lia|]. split; [unfold rready; cbn; done|]. apply (R_sla_p sr dr la).
  - destruct (n - length [])%nat as [|m] eqn:Em; [cbn in Em; lia|]. cbn [length] in Em.
    unfold twi_read. cbn [c_state]. rewrite do_rsla, ofnat_1. destruct (Nat.eqb_spec m 0) as [E|E].
    + exists 1%nat. split; [lia|]. split; [lia|]. apply R_last_p. cbn. lia.
    + exists (n - length (@nil Z))%nat. cbn [length]. split; [lia|]. split; [lia|]. apply (R_more_p _ _ _ []). cbn. lia.
  - destruct (n - length d)%nat as [|m] eqn:Em; [lia|]. exists (n - length d)%nat. split; [lia|]. split; [unfold rready; cbn; done|].
    apply (R_more_p sr dr la d Hd).
  - destruct (n - length d)%nat as [|m] eqn:Em; [lia|]. unfold twi_read. cbn [c_state].
    rewrite do_rmore by lia. destruct (Z.eqb_spec (Z.of_nat (S m)) 2) as [E|E]; cbn [negb].
    + exists 1%nat. split; [lia|]. split; [lia|]. apply R_last_p. rewrite app_length. cbn. lia.
    + exists (n - length (d ++ [dr]))%nat. rewrite app_length. cbn [length]. split; [lia|]. split; [lia|].
      replace (n - (length d + 1))%nat with (n - length (d ++ [dr]))%nat by (rewrite app_length; cbn; lia).
      apply R_more_p. rewrite app_length. cbn. lia.
  - destruct (n - length d)%nat as [|m] eqn:Em; [lia|]. exists 1%nat. split; [lia|]. split; [unfold rready; cbn; done|].
    apply (R_last_p sr dr la d Hd).
  - destruct (n - length d)%nat as [|m] eqn:Em; [lia|]. unfold twi_read. cbn [c_state].
    rewrite do_rlast by lia. exists 0%nat. split; [lia|]. split; [lia|]. rewrite <- app_assoc. by apply R_fin.
  - rewrite app_length. cbn [length]. replace (n - (length d + 1))%nat with 0%nat by lia. exists 0%nat. split; [lia|]. split; [lia|]. by apply R_fin.
Qed.
Lemma rph_step st r e : rph st r -> exists r', (r' <= r)%nat /\ rph (read_step s flags n st e) r'.
Proof.
  intros H. destruct e; cbn [read_step].
  - destruct (rph_call st r H) as (r' & A & _ & B). eauto.
  - exists r. split; [done|]. by apply rph_done.
Qed.
Lemma rph_run st r evs : rph st r -> exists r', (r' <= r)%nat /\ rph (read_run s flags n evs st) r'.
Proof.
  revert st r. induction evs as [|e evs IH]; intros st r H; [exists r; split; [done|exact H]|].
  destruct (rph_step st r e H) as (r1 & A & B). destruct (IH _ _ B) as (r2 & C & D). exists r2. split; [lia|]. exact D.
Qed.
Lemma rdone_ready st r : rph st r -> rready (complete s st.1.1, st.1.2, st.2).
Proof.
  intros H. unfold rready, complete. cbn [fst snd]. destruct (h_pend st.1.1) as [o|] eqn:E; [|done].
  destruct (s (h_log st.1.1) o) as [x d]. destruct o; done.
Qed.
Lemma rph_rounds st r m : rph st r -> (r <= m)%nat -> rph (read_run s flags n (rounds m) st) 0.
Proof.
  revert st r. induction m as [|m IH]; intros st r H Hr; [replace r with 0%nat in H by lia; exact H|].
  cbn [rounds read_run fold_left]. pose proof (rph_done st r H) as H1.
  destruct (rph_call _ _ H1) as (r' & A & B & C). specialize (B (rdone_ready st r H)).
  apply (IH _ r'); [exact C|]. destruct (decide (r = 0%nat)); [lia|]. lia.
Qed.
Lemma read_bytes_snoc d b : read_bytes (d ++ [b]) = rx d ++ [BRx b false].
Proof.
  induction d as [|x d IH]; [done|]. change ((x :: d) ++ [b]) with (x :: (d ++ [b])). cbn [read_bytes].
  destruct (d ++ [b]) as [|y l] eqn:E; [by destruct d|]. rewrite IH. done.
Qed.
Lemma rph_end st r : rph st r -> length (r_got st.2) = n \/ r = 0%nat ->
  length (r_got st.2) = n /\ h_log st.1.1 = L0 ++ read_bus a (r_got st.2) /\ c_state st.1.2 = T_IDLE /\ c_addr st.1.2 = a /\ h_pend st.1.1 = None.
Proof.
  intros H. destruct H as [h c Hc Ha HL Hp|sr dr la|sr dr la Hsr|sr dr la|dr la|sr dr la d Hd|dr la d Hd|sr dr la d Hd|dr la d Hd|dr la d b Hd];
    cbn [fst snd r_got length]; intros Hr; try lia.
  rewrite app_length. cbn [length h_log c_state c_addr h_pend]. split; [lia|]. split; [|done].
  unfold read_bus, rlog. rewrite read_bytes_snoc, slab_1. rewrite <- !app_assoc. done.
Qed.
(** At any moment: no error, and what the caller has is what went over the bus. *)
Lemma rph_got st r : rph st r -> r_err st.2 = None /\ 
  (h_log st.1.1 = L0 \/ h_log st.1.1 = L0 ++ [BStart] \/
   exists rest, h_log st.1.1 = L0 ++ [BStart; BAddr (sla a 1) true] ++ rest /\
     (rest = rx (r_got st.2) \/ exists b, rest = rx (r_got st.2) ++ [BRx b (negb (S (length (r_got st.2)) =? n)%nat)]) \/
   h_log st.1.1 = L0 ++ read_bus a (r_got st.2)).
Proof.
  intros H. destruct H as [h c Hc Ha HL Hp|sr dr la|sr dr la Hsr|sr dr la|dr la|sr dr la d Hd|dr la d Hd|sr dr la d Hd|dr la d Hd|dr la d b Hd];
    cbn [fst snd r_got r_err h_log]; (split; [done|]); auto.
  all: do 2 right.
  - exists []. left. unfold rlog. rewrite <- slab_1. auto.
  - exists (rx d). left. unfold rlog. rewrite <- slab_1. auto.
  - exists (rx d ++ [BRx dr true]). left. rewrite rlog_S. unfold rlog. rewrite <- slab_1, <- !app_assoc. split; [done|]. right. exists dr.
    destruct (Nat.eqb_spec (S (length d)) n); [lia|done].
  - exists (rx d). left. unfold rlog. rewrite <- slab_1. auto.
  - exists (rx d ++ [BRx dr false]). left. unfold rlog. rewrite <- slab_1, <- !app_assoc. split; [done|]. right. exists dr.
    destruct (Nat.eqb_spec (S (length d)) n); [done|lia].
  - exists []. right. unfold read_bus, rlog. rewrite read_bytes_snoc, slab_1, <- !app_assoc. done.
Qed.
End read.

(** ** Nobody there *)
Section absent.
Context (s : slave) (flags a : Z) (L0 : list bev).
Hypothesis Hs : absent a s.
Hypothesis HS : F_S flags = true.

Inductive aph (rw : Z) : twhw * twctx -> option tres -> nat -> Prop :=
| A_idle h c : c_state c = T_IDLE -> c_addr c = a -> h_log h = L0 -> h_pend h = None -> aph rw (h, c) None 3
| A_start_p sr dr la : aph rw (mkHw 36 false sr dr (Some OStart) L0, mkTw T_START a la) None 2
| A_start_d sr dr la : sr = 8 \/ sr = 16 -> aph rw (mkHw 36 true sr dr None (L0 ++ [BStart]), mkTw T_START a la) None 2
| A_sla_p sr dr la : aph rw (mkHw 4 false sr dr (Some (OAddr (slab a rw))) (L0 ++ [BStart]), mkTw T_SLA a la) None 1
| A_sla_d sr dr la : sr = 32 \/ sr = 72 -> aph rw (mkHw 4 true sr dr None (L0 ++ [BStart; BAddr (slab a rw) false]), mkTw T_SLA a la) None 1
| A_fin dr la : aph rw (mkHw 4 false 248 dr None (L0 ++ [BStart; BAddr (slab a rw) false; BStop]), mkTw T_IDLE a la) (Some Pipe) 0.

Lemma aph_done rw h c e r : rw = 0 \/ rw = 1 -> aph rw (h, c) e r -> aph rw (complete s h, c) e r /\ h_pend (complete s h) = None.
Proof.
  intros Hrw H. inversion H as [h' c' Hc Ha HL Hp|sr dr la|sr dr la Hsr|sr dr la|sr dr la Hsr|dr la]; subst.
  - unfold complete. rewrite Hp. split; [by constructor|done].
  - unfold complete. cbn [h_pend h_log h_cr h_dr]. destruct (s L0 OStart) as [x y]. split; [|done]. apply A_start_d. destruct (held L0); auto.
  - split; [by apply A_start_d|done].
  - unfold complete. cbn [h_pend h_log h_cr h_dr]. assert (Hr : slab a rw = sla a 0 \/ slab a rw = sla a 1) by (destruct Hrw as [-> | ->]; [left; apply slab_0|right; apply slab_1]).
    pose proof (Hs (L0 ++ [BStart]) (slab a rw) Hr) as E.
    destruct (s (L0 ++ [BStart]) (OAddr (slab a rw))) as [x y]. cbn in E. subst x. split; [|done].
    rewrite <- app_assoc. apply A_sla_d. destruct (Z.testbit (slab a rw) 0); auto.
  - split; [by apply A_sla_d|done].
  - split; [by apply A_fin|done].
Qed.

Definition wok (buf : list Z) (st : twhw * twctx * wcall) (r : nat) : Prop := exists e, aph 0 st.1 e r /\ st.2 = mkWc 0 e.
Lemma wok_call buf st r : buf <> [] -> wok buf st r -> exists r', (r' <= r)%nat /\ (h_pend st.1.1 = None -> r <> 0%nat -> r' < r)%nat /\ wok buf (write_call flags buf st) r'.
Proof.
  intros Hb (e & H & Hu). destruct st as [[h c] u]. cbn [fst snd] in *. subst u. destruct buf as [|b buf]; [done|].
  unfold write_call. cbn [w_err w_count drop].
  inversion H as [h' c' Hc Ha HL Hp|sr dr la|sr dr la Hsr|sr dr la|sr dr la Hsr|dr la]; subst.
  - unfold twi_write. rewrite Hc. rewrite do_idle_S by done. exists 2%nat. split; [lia|]. split; [lia|]. eexists. split; [|done]. cbn [fst]. unfold set_state. rewrite Ha, HL. apply A_start_p.
  - exists 2%nat. split; [lia|]. split; [cbn; done|]. eexists. split; [|done]. cbn. apply A_start_p.
  - unfold twi_write. cbn [c_state]. rewrite do_start by done. exists 1%nat. split; [lia|]. split; [lia|]. eexists. split; [|done]. cbn [fst]. apply A_sla_p.
  - exists 1%nat. split; [lia|]. split; [cbn; done|]. eexists. split; [|done]. cbn [fst]. apply A_sla_p.
  - exists 0%nat. split; [lia|]. split; [lia|]. unfold twi_write. cbn [c_state]. unfold write_sla, master_stop, rd_twcr. cbn [h_int h_cr h_sr].
    change (Z.testbit (Z.lor 4 128) 7) with true. replace (sr =? 24) with false by (destruct Hsr as [-> | ->]; done). cbn [negb].
    exists (Some Pipe). split; [|done]. cbn. rewrite <- app_assoc. apply A_fin.
  - exists 0%nat. split; [lia|]. split; [lia|]. eexists. split; [exact H|done].
Qed.
Definition rok (n : nat) (st : twhw * twctx * rcall) (r : nat) : Prop := exists e, aph 1 st.1 e r /\ st.2 = mkRc [] e.
Lemma rok_call n st r : (0 < n)%nat -> rok n st r -> exists r', (r' <= r)%nat /\ (h_pend st.1.1 = None -> r <> 0%nat -> r' < r)%nat /\ rok n (read_call flags n st) r'.
Proof.
  intros Hb (e & H & Hu). destruct st as [[h c] u]. cbn [fst snd] in *. subst u. destruct n as [|n]; [lia|].
  unfold read_call. cbn [r_err r_got length Nat.sub].
  inversion H as [h' c' Hc Ha HL Hp|sr dr la|sr dr la Hsr|sr dr la|sr dr la Hsr|dr la]; subst.
  - unfold twi_read. rewrite Hc. rewrite do_idle_S by done. exists 2%nat. split; [lia|]. split; [lia|]. eexists. split; [|done]. cbn [fst]. unfold set_state. rewrite Ha, HL. apply A_start_p.
  - exists 2%nat. split; [lia|]. split; [cbn; done|]. eexists. split; [|done]. cbn. apply A_start_p.
  - unfold twi_read. cbn [c_state]. rewrite do_start by done. exists 1%nat. split; [lia|]. split; [lia|]. eexists. split; [|done]. cbn [fst]. apply A_sla_p.
  - exists 1%nat. split; [lia|]. split; [cbn; done|]. eexists. split; [|done]. cbn [fst]. apply A_sla_p.
  - exists 0%nat. split; [lia|]. split; [lia|]. unfold twi_read. cbn [c_state]. unfold read_sla, master_stop, rd_twcr. cbn [h_int h_cr h_sr].
    change (Z.testbit (Z.lor 4 128) 7) with true. replace (sr =? 64) with false by (destruct Hsr as [-> | ->]; done). cbn [negb].
    exists (Some Pipe). split; [|done]. cbn. rewrite <- app_assoc. apply A_fin.
  - exists 0%nat. split; [lia|]. split; [lia|]. eexists. split; [exact H|done].
Qed.
Lemma wok_run buf st r evs : buf <> [] -> wok buf st r -> exists r', (r' <= r)%nat /\ wok buf (write_run s flags buf evs st) r'.
Proof.
  intros Hb. revert st r. induction evs as [|e evs IH]; intros st r H; [exists r; split; [done|exact H]|].
  assert (X : exists r1, (r1 <= r)%nat /\ wok buf (write_step s flags buf st e) r1).
  { destruct e; cbn [write_step].
    - destruct (wok_call buf st r Hb H) as (r1 & A & _ & B). eauto.
    - exists r. split; [done|]. destruct H as (e & H & Hu). exists e. cbn [fst snd]. split; [|done].
      destruct st as [[h c] u]. cbn [fst snd] in *. apply aph_done; auto. }
  destruct X as (r1 & A & B). destruct (IH _ _ B) as (r2 & C & D). exists r2. split; [lia|]. exact D.
Qed.
Lemma wok_rounds buf st r m : buf <> [] -> wok buf st r -> (r <= m)%nat -> wok buf (write_run s flags buf (rounds m) st) 0.
Proof.
  intros Hb. revert st r. induction m as [|m IH]; intros st r H Hr; [replace r with 0%nat in H by lia; exact H|].
  cbn [rounds write_run fold_left]. cbn [write_step].
  assert (H1 : wok buf (complete s st.1.1, st.1.2, st.2) r /\ h_pend (complete s st.1.1) = None).
  { destruct H as (e & H & Hu). destruct st as [[h c] u]. cbn [fst snd] in *. destruct (aph_done 0 h c e r (or_introl eq_refl) H) as [A B]. split; [|exact B]. exists e. done. }
  destruct H1 as [H1 Hp]. destruct (wok_call buf _ _ Hb H1) as (r' & A & B & C). specialize (B Hp).
  apply (IH _ r'); [exact C|]. destruct (decide (r = 0%nat)); [lia|]. lia.
Qed.
Lemma rok_run n st r evs : (0 < n)%nat -> rok n st r -> exists r', (r' <= r)%nat /\ rok n (read_run s flags n evs st) r'.
Proof.
  intros Hb. revert st r. induction evs as [|e evs IH]; intros st r H; [exists r; split; [done|exact H]|].
  assert (X : exists r1, (r1 <= r)%nat /\ rok n (read_step s flags n st e) r1).
  { destruct e; cbn [read_step].
    - destruct (rok_call n st r Hb H) as (r1 & A & _ & B). eauto.
    - exists r. split; [done|]. destruct H as (e & H & Hu). exists e. cbn [fst snd]. split; [|done].
      destruct st as [[h c] u]. cbn [fst snd] in *. apply aph_done; auto. }
  destruct X as (r1 & A & B). destruct (IH _ _ B) as (r2 & C & D). exists r2. split; [lia|]. exact D.
Qed.
Lemma rok_rounds n st r m : (0 < n)%nat -> rok n st r -> (r <= m)%nat -> rok n (read_run s flags n (rounds m) st) 0.
Proof.
  intros Hb. revert st r. induction m as [|m IH]; intros st r H Hr; [replace r with 0%nat in H by lia; exact H|].
  cbn [rounds read_run fold_left]. cbn [read_step].
  assert (H1 : rok n (complete s st.1.1, st.1.2, st.2) r /\ h_pend (complete s st.1.1) = None).
  { destruct H as (e & H & Hu). destruct st as [[h c] u]. cbn [fst snd] in *. destruct (aph_done 1 h c e r (or_intror eq_refl) H) as [A B]. split; [|exact B]. exists e. done. }
  destruct H1 as [H1 Hp]. destruct (rok_call n _ _ Hb H1) as (r' & A & B & C). specialize (B Hp).
  apply (IH _ r'); [exact C|]. destruct (decide (r = 0%nat)); [lia|]. lia.
Qed.
Lemma aph_end rw st e r : aph rw st e r -> e = None \/ e = Some Pipe.
Proof. intros H. destruct H; auto. Qed.
Lemma aph_fin rw st e r : aph rw st e r -> e <> None \/ r = 0%nat -> e = Some Pipe /\ h_log st.1 = L0 ++ [BStart; BAddr (slab a rw) false; BStop] /\ c_state st.2 = T_IDLE.
Proof. intros H He. destruct H; try (destruct He; [done|lia]). done. Qed.
End absent.

(** ** The theorems *)
Lemma write_all s flags buf h c evs : acks (c_addr c) s -> buf <> [] -> c_state c = T_IDLE -> h_pend h = None -> F_S flags = true \/ bus_held h ->
  let st := write_run s flags buf evs (h, c, mkWc 0 None) in
  let fin st := w_count st.2 = length buf /\ h_log st.1.1 = h_log h ++ write_bus (c_addr c) flags buf /\ c_state st.1.2 = T_IDLE /\
                c_addr st.1.2 = c_addr c /\ h_pend st.1.1 = None /\ (F_P flags = false -> bus_held st.1.1) in
  w_err st.2 = None /\ (exists rest, h_log h ++ write_bus (c_addr c) flags buf = h_log st.1.1 ++ rest) /\
  (w_count st.2 = length buf -> fin st) /\ fin (write_run s flags buf (rounds (length buf + 3)) st).
Proof.
  intros Hs Hb Hc Hp Hf st fin.
  assert (H0 : exists r, (r <= length buf + 3)%nat /\ wph flags (c_addr c) buf (h_log h) (h, c, mkWc 0 None) r).
  { destruct (F_S flags) eqn:ES.
    - eexists. split; [|by apply W_idle]. done.
    - destruct Hf as [Hf|(H1 & H2 & H3 & H4)]; [done|]. destruct h as [cr it sr dr pd lg]. cbn in H1, H2, H3, H4 |- *. subst.
      eexists. split; [|by apply W_idle_c]. lia. }
  destruct H0 as (r & Hr & H0). destruct (wph_run s flags (c_addr c) buf (h_log h) Hs Hb _ _ evs H0) as (r' & Hr' & H1). fold st in H1.
  destruct (wph_log flags (c_addr c) buf (h_log h) _ _ H1) as [E1 E2]. split; [exact E1|]. split; [exact E2|]. split.
  - intros Hk. apply (wph_end flags (c_addr c) buf (h_log h) Hb _ _ H1). by left.
  - apply (wph_end flags (c_addr c) buf (h_log h) Hb _ 0); [|by right]. eapply wph_rounds; [done|done|exact H1|lia].
Qed.
Lemma read_all s flags n h c evs : acks (c_addr c) s -> (0 < n)%nat -> c_state c = T_IDLE -> h_pend h = None -> F_S flags = true ->
  let st := read_run s flags n evs (h, c, mkRc [] None) in
  let fin st := length (r_got st.2) = n /\ h_log st.1.1 = h_log h ++ read_bus (c_addr c) (r_got st.2) /\ c_state st.1.2 = T_IDLE /\ c_addr st.1.2 = c_addr c /\ h_pend st.1.1 = None in
  r_err st.2 = None /\ (length (r_got st.2) = n -> fin st) /\ fin (read_run s flags n (rounds (n + 3)) st).
Proof.
  intros Hs Hb Hc Hp Hf st fin.
  assert (H0 : rph (c_addr c) n (h_log h) (h, c, mkRc [] None) (n + 3)) by (by apply R_idle).
  destruct (rph_run s flags (c_addr c) n (h_log h) Hs Hb Hf _ _ evs H0) as (r' & Hr' & H1). fold st in H1.
  destruct (rph_got _ _ _ Hb _ _ H1) as [E1 _]. split; [exact E1|]. split.
  - intros Hk. eapply rph_end; [done|exact H1|by left].
  - eapply (rph_end (c_addr c) n (h_log h) Hb _ 0); [|by right]. eapply rph_rounds; [done|done|done|exact H1|lia].
Qed.
Lemma absent_write s flags buf h c evs : absent (c_addr c) s -> buf <> [] -> c_state c = T_IDLE -> h_pend h = None -> F_S flags = true ->
  let st := write_run s flags buf evs (h, c, mkWc 0 None) in
  let fin st := w_err st.2 = Some Pipe /\ h_log st.1.1 = h_log h ++ [BStart; BAddr (sla (c_addr c) 0) false; BStop] /\ c_state st.1.2 = T_IDLE in
  w_count st.2 = 0%nat /\ (w_err st.2 <> None -> fin st) /\ fin (write_run s flags buf (rounds 3) st).
Proof.
  intros Hs Hb Hc Hp Hf st fin.
  assert (H0 : wok (c_addr c) (h_log h) buf (h, c, mkWc 0 None) 3) by (exists None; split; [by apply A_idle|done]).
  destruct (wok_run s flags (c_addr c) (h_log h) Hs Hf _ _ _ evs Hb H0) as (r' & Hr' & H1). fold st in H1.
  pose proof (wok_rounds s flags (c_addr c) (h_log h) Hs Hf _ _ _ 3 Hb H1 ltac:(lia)) as H2.
  destruct H1 as (e & H1 & Hu). split; [by rewrite Hu|]. split.
  - rewrite Hu. cbn [w_err]. intros He. destruct (aph_fin _ _ _ _ _ _ H1 (or_introl He)) as (A & B & C). unfold fin. rewrite Hu. cbn [w_err]. rewrite <- slab_0. done.
  - destruct H2 as (e2 & H2 & Hu2). destruct (aph_fin _ _ _ _ _ _ H2 (or_intror eq_refl)) as (A & B & C). unfold fin. rewrite Hu2. cbn [w_err]. rewrite <- slab_0. done.
Qed.
Lemma absent_read s flags n h c evs : absent (c_addr c) s -> (0 < n)%nat -> c_state c = T_IDLE -> h_pend h = None -> F_S flags = true ->
  let st := read_run s flags n evs (h, c, mkRc [] None) in
  let fin st := r_err st.2 = Some Pipe /\ h_log st.1.1 = h_log h ++ [BStart; BAddr (sla (c_addr c) 1) false; BStop] /\ c_state st.1.2 = T_IDLE in
  r_got st.2 = [] /\ (r_err st.2 <> None -> fin st) /\ fin (read_run s flags n (rounds 3) st).
Proof.
  intros Hs Hb Hc Hp Hf st fin.
  assert (H0 : rok (c_addr c) (h_log h) n (h, c, mkRc [] None) 3) by (exists None; split; [by apply A_idle|done]).
  destruct (rok_run s flags (c_addr c) (h_log h) Hs Hf _ _ _ evs Hb H0) as (r' & Hr' & H1). fold st in H1.
  pose proof (rok_rounds s flags (c_addr c) (h_log h) Hs Hf _ _ _ 3 Hb H1 ltac:(lia)) as H2.
  destruct H1 as (e & H1 & Hu). split; [by rewrite Hu|]. split.
  - rewrite Hu. cbn [r_err]. intros He. destruct (aph_fin _ _ _ _ _ _ H1 (or_introl He)) as (A & B & C). unfold fin. rewrite Hu. cbn [r_err]. rewrite <- slab_1. done.
  - destruct H2 as (e2 & H2 & Hu2). destruct (aph_fin _ _ _ _ _ _ H2 (or_intror eq_refl)) as (A & B & C). unfold fin. rewrite Hu2. cbn [r_err]. rewrite <- slab_1. done.
Qed.

(** ** What goes wrong *)
(** A device that acknowledges its address and no data. *)
Lemma nack_second s flags b0 b1 buf h c : (forall l b, (s l (OAddr b)).1 = true) -> (forall l b, (s l (OSend b)).1 = false) ->
  c_state c = T_IDLE -> h_pend h = None -> F_S flags = true ->
  let st := write_run s flags (b0 :: b1 :: buf) (rounds 4) (h, c, mkWc 0 None) in
  w_count st.2 = 2%nat /\ w_err st.2 = None /\ h_log st.1.1 = h_log h ++ [BStart; BAddr (sla (c_addr c) 0) true; BTx b0 false; BStop].
Proof.
  intros Ha Hd Hc Hp HS. cbn zeta. set (B := b0 :: b1 :: buf).
  assert (R : forall m h c u, write_run s flags B (rounds (S m)) (h, c, u) = write_run s flags B (rounds m) (write_call flags B (complete s h, c, u))) by done.
  assert (Ec : complete s h = h) by (unfold complete; by rewrite Hp).
  destruct c as [cs ca cl]. cbn in Hc. subst cs. cbn [c_addr].
  assert (E1 : write_call flags B (h, mkTw T_IDLE ca cl, mkWc 0 None) = (mkHw 36 false (h_sr h) (h_dr h) (Some OStart) (h_log h), mkTw T_START ca cl, mkWc 0 None)).
  { unfold write_call. cbn [w_err w_count drop B]. unfold twi_write. cbn [c_state]. rewrite do_idle_S by done. done. }
  assert (E2 : exists sr, (sr = 8 \/ sr = 16) /\ complete s (mkHw 36 false (h_sr h) (h_dr h) (Some OStart) (h_log h)) = mkHw 36 true sr (h_dr h) None (h_log h ++ [BStart])).
  { unfold complete. cbn [h_pend h_log h_cr h_dr]. destruct (s (h_log h) OStart) as [x y]. eexists. split; [|reflexivity]. destruct (held (h_log h)); auto. }
  destruct E2 as (sr & Hsr & E2).
  assert (E3 : write_call flags B (mkHw 36 true sr (h_dr h) None (h_log h ++ [BStart]), mkTw T_START ca cl, mkWc 0 None) =
     (mkHw 4 false sr (slab ca 0) (Some (OAddr (slab ca 0))) (h_log h ++ [BStart]), mkTw T_SLA ca cl, mkWc 0 None)).
  { unfold write_call. cbn [w_err w_count drop B]. unfold twi_write. cbn [c_state]. rewrite do_start by done. done. }
  assert (E4 : complete s (mkHw 4 false sr (slab ca 0) (Some (OAddr (slab ca 0))) (h_log h ++ [BStart])) =
     mkHw 4 true 24 (slab ca 0) None ((h_log h ++ [BStart]) ++ [BAddr (slab ca 0) true])).
  { unfold complete. cbn [h_pend h_log h_cr h_dr]. specialize (Ha (h_log h ++ [BStart]) (slab ca 0)).
    destruct (s (h_log h ++ [BStart]) (OAddr (slab ca 0))) as [x y]. cbn in Ha. subst x. by rewrite sla_0_even. }
  set (L2 := (h_log h ++ [BStart]) ++ [BAddr (slab ca 0) true]) in *.
  assert (E5 : write_call flags B (mkHw 4 true 24 (slab ca 0) None L2, mkTw T_SLA ca cl, mkWc 0 None) =
     (mkHw 4 false 24 b0 (Some (OSend b0)) L2, mkTw T_DATA ca cl, mkWc 1 None)).
  { unfold write_call. cbn [w_err w_count drop B]. unfold twi_write. cbn [c_state]. rewrite do_wsla, ofnat_1. done. }
  assert (E6 : complete s (mkHw 4 false 24 b0 (Some (OSend b0)) L2) = mkHw 4 true 48 b0 None (L2 ++ [BTx b0 false])).
  { unfold complete. cbn [h_pend h_log h_cr h_dr]. specialize (Hd L2 b0). destruct (s L2 (OSend b0)) as [x y]. cbn in Hd. subst x. done. }
  assert (E7 : write_call flags B (mkHw 4 true 48 b0 None (L2 ++ [BTx b0 false]), mkTw T_DATA ca cl, mkWc 1 None) =
     (mkHw 4 false 248 b0 None ((L2 ++ [BTx b0 false]) ++ [BStop]), mkTw T_IDLE ca cl, mkWc 2 None)).
  { reflexivity. }
  rewrite (R 3%nat), Ec, E1, (R 2%nat), E2, E3, (R 1%nat), E4, E5, (R 0%nat), E6, E7. cbn [rounds write_run fold_left fst snd w_count w_err h_log].
  split; [done|]. split; [done|]. unfold L2. rewrite <- slab_0, <- !app_assoc. done.
Qed.
Lemma read_nostart s flags n h c evs : c_state c = T_IDLE \/ c_state c = T_DATA -> h_pend h = None -> h_int h = false -> Z.testbit (h_cr h) 7 = false -> F_S flags = false ->
  let st := read_run s flags n evs (h, c, mkRc [] None) in r_got st.2 = [] /\ r_err st.2 = None.
Proof.
  intros Hc Hp Hi H7 HS. cbn zeta. revert c Hc. induction evs as [|e evs IH]; intros c Hc; [done|].
  cbn [read_run fold_left]. change (fold_left (read_step s flags n) evs) with (read_run s flags n evs). destruct e; cbn [read_step fst snd].
  - unfold read_call. cbn [r_err r_got length]. destruct (n - 0)%nat as [|m]; [by apply IH|]. unfold twi_read. destruct Hc as [Hc|Hc]; rewrite Hc.
    + unfold master_idle. rewrite HS. apply IH. by right.
    + unfold read_data, rd_twcr. rewrite Hi, H7. cbn [negb]. apply IH. by right.
  - assert (Ec : complete s h = h) by (unfold complete; by rewrite Hp). rewrite Ec. by apply IH.
Qed.

(** ** What is received *)
Section sent.
Context (s : slave) (L0 : list bev).
Lemma sent_complete h : sent_by s L0 (h_log h) -> sent_by s L0 (h_log (complete s h)).
Proof.
  intros H. unfold complete. destruct (h_pend h) as [o|]; [|done]. destruct (s (h_log h) o) as [x y] eqn:E. destruct o; cbn [h_log].
  - by apply sent_other.
  - by apply sent_other.
  - by apply sent_other.
  - replace y with (s (h_log h) (ORecv ack)).2 by (by rewrite E). by apply sent_rx.
Qed.
Lemma sent_twcr v h : sent_by s L0 (h_log h) -> sent_by s L0 (h_log (wr_twcr v h)).
Proof. intros H. unfold wr_twcr. destruct (Z.testbit v 7), (Z.testbit v 4); cbn [h_log]; try done; by apply sent_other. Qed.
Lemma twdr_log v h : h_log (wr_twdr v h) = h_log h.
Proof. unfold wr_twdr. by destruct (h_int h). Qed.
Lemma sent_write h c b n flags : sent_by s L0 (h_log h) -> sent_by s L0 (h_log (twi_write h c b n flags).1.1).
Proof.
  intros H. unfold twi_write, master_idle, master_start, write_sla, write_data, rw_stop, master_stop.
  destruct (c_state c).
  - destruct (F_S flags); cbn [fst]; [by apply sent_twcr|done].
  - destruct (negb _); [done|]. destruct (_ && _); cbn [fst]; apply sent_twcr; [done|by rewrite twdr_log].
  - destruct (negb _); [done|]. destruct (negb _); cbn [fst]; [by apply sent_twcr|]. destruct (n =? 1); cbn [fst]; apply sent_twcr; by rewrite twdr_log.
  - destruct (negb _); [done|]. destruct (h_sr h =? 40); cbn [fst].
    + destruct (n =? 1); cbn [fst]; apply sent_twcr; by rewrite twdr_log.
    + destruct (h_sr h =? 48); cbn [fst]; [by apply sent_twcr|done].
  - destruct (negb _); cbn [fst]; [done|]. destruct (F_P flags); [by apply sent_twcr|done].
Qed.
Lemma sent_read h c n flags : sent_by s L0 (h_log h) -> sent_by s L0 (h_log (twi_read h c n flags).1.1.1).
Proof.
  intros H. unfold twi_read, master_idle, master_start, read_sla, read_data, rw_stop, master_stop.
  destruct (c_state c).
  - destruct (F_S flags); cbn [fst]; [by apply sent_twcr|done].
  - destruct (negb _); [done|]. destruct (_ && _); cbn [fst]; apply sent_twcr; [done|by rewrite twdr_log].
  - destruct (negb _); [done|]. destruct (negb _); cbn [fst]; by apply sent_twcr.
  - destruct (negb _); [done|]. destruct (_ && _); cbn [fst]; [by apply sent_twcr|].
    destruct (n =? 1); cbn [fst]; by apply sent_twcr.
  - destruct (negb _); cbn [fst]; [done|]. destruct (F_P flags); [by apply sent_twcr|done].
Qed.
Lemma sent_read_run flags n evs st : sent_by s L0 (h_log st.1.1) -> sent_by s L0 (h_log (read_run s flags n evs st).1.1).
Proof.
  revert st. induction evs as [|e evs IH]; intros st H; [done|]. cbn [read_run fold_left]. apply IH. destruct e; cbn [read_step fst].
  - destruct st as [[h c] u]. unfold read_call. destruct (r_err u); [done|]. destruct (n - length (r_got u))%nat as [|m]; [done|].
    pose proof (sent_read h c (Z.of_nat (S m)) flags H) as X. destruct (twi_read h c (Z.of_nat (S m)) flags) as [[[h' c'] r] d]. exact X.
  - by apply sent_complete.
Qed.
End sent.
(** Results of calls. *)
Lemma write_res h c b n flags j : (c_state c = T_STOP -> c_last c = 1) -> (twi_write h c b n flags).2 = Count j -> j = 1.
Proof.
  unfold twi_write, master_idle, master_start, write_sla, write_data, rw_stop, master_stop. intros Hl.
  destruct (c_state c).
  - destruct (F_S flags); cbn [snd]; done.
  - destruct (negb _); [done|]. destruct (_ && _); cbn [snd]; done.
  - destruct (negb _); [done|]. destruct (negb _); cbn [snd]; [done|]. destruct (n =? 1); cbn [snd]; congruence.
  - destruct (negb _); [done|]. destruct (h_sr h =? 40); [destruct (n =? 1); cbn [snd]; congruence|].
    destruct (h_sr h =? 48); cbn [snd]; congruence.
  - destruct (negb _); cbn [snd]; [done|]. rewrite (Hl eq_refl). congruence.
Qed.
Lemma read_res h c n flags j : c_state c <> T_STOP -> (twi_read h c n flags).1.2 = Count j -> j = 1.
Proof.
  unfold twi_read, master_idle, master_start, read_sla, read_data, rw_stop, master_stop. intros Hl.
  destruct (c_state c); [| | | |done].
  - destruct (F_S flags); cbn [snd fst]; done.
  - destruct (negb _); [done|]. destruct (_ && _); cbn [snd fst]; done.
  - destruct (negb _); [done|]. destruct (negb _); cbn [snd fst]; done.
  - destruct (negb _); [done|]. destruct (_ && _); cbn [fst snd]; [done|].
    destruct (n =? 1); cbn [fst snd]; congruence.
Qed.
Lemma wph_state' flags a buf L0 st r : wph flags a buf L0 st r ->
  (c_state st.1.2 = T_STOP -> c_last st.1.2 = 1 /\ S (w_count st.2) = length buf) /\
  (c_state st.1.2 = T_IDLE -> w_count st.2 = 0%nat \/ w_count st.2 = length buf) /\ (w_count st.2 <= length buf)%nat.
Proof.
  intros H. destruct H as [h0 c0 HS Hc Ha HL Hp|sr dr la HS|sr dr la HS Hsr|sr dr la HS|dr la HS|dr c0 HS Hc Ha|dr la HS|sr dr la k0 Hk|dr la k0 Hk|dr];
    cbn [fst snd c_state c_last w_count].
  - split; [congruence|]. split; [auto|lia].
  - split; [done|]. split; [auto|lia].
  - split; [done|]. split; [auto|lia].
  - split; [done|]. split; [auto|lia].
  - split; [done|]. split; [auto|lia].
  - split; [congruence|]. split; [auto|lia].
  - split; [done|]. split; [auto|lia].
  - destruct (Nat.eqb_spec (S k0) (length buf)) as [E|E].
    + split; [split; [done|lia]|]. split; [intros Hx; discriminate Hx|lia].
    + split; [intros Hx; discriminate Hx|]. split; [intros Hx; discriminate Hx|lia].
  - destruct (Nat.eqb_spec (S k0) (length buf)) as [E|E].
    + split; [split; [done|lia]|]. split; [intros Hx; discriminate Hx|lia].
    + split; [intros Hx; discriminate Hx|]. split; [intros Hx; discriminate Hx|lia].
  - split; [done|]. split; [auto|lia].
Qed.
Lemma wph_state flags a buf L0 h c k r : wph flags a buf L0 (h, c, mkWc k None) r ->
  (c_state c = T_STOP -> c_last c = 1 /\ S k = length buf) /\ (c_state c = T_IDLE -> k = 0%nat \/ k = length buf) /\ (k <= length buf)%nat.
Proof. exact (wph_state' flags a buf L0 (h, c, mkWc k None) r). Qed.
Lemma rph_state a n L0 h c u r : rph a n L0 (h, c, u) r -> c_state c <> T_STOP /\ (length (r_got u) <= n)%nat.
Proof.
  intros H. inversion H; subst; cbn [c_state r_got length]; try (split; [congruence|lia]).
  split; [done|]. rewrite app_length. cbn. lia.
Qed.
