(** EepromProofs.v - the eeprom driver: a transfer of the two-wire interface, then the device. *)
From Verif Require Import Base TwiModel TwiSpec TwiProofs EepromModel EepromSpec.

Lemma lor_1 x : Z.lor x 1 = 2 * (x / 2) + 1.
Proof.
  apply Z.bits_inj'. intros n Hn. rewrite Z.lor_spec. change 1 with (2 ^ 0) at 1.
  destruct (decide (n = 0)) as [->|Hne].
  - rewrite Z.pow2_bits_true by lia. rewrite orb_true_r. by rewrite Z.testbit_odd_0.
  - rewrite Z.pow2_bits_false by lia. rewrite orb_false_r. replace n with (Z.succ (n - 1)) by lia.
    rewrite Z.testbit_odd_succ by lia. by rewrite Z.div2_bits by lia.
Qed.
Lemma ldiff_1 x : Z.ldiff x 1 = 2 * (x / 2).
Proof.
  apply Z.bits_inj'. intros n Hn. rewrite Z.ldiff_spec. change 1 with (2 ^ 0).
  destruct (decide (n = 0)) as [->|Hne].
  - rewrite Z.pow2_bits_true by lia. rewrite andb_false_r. by rewrite Z.testbit_even_0.
  - rewrite Z.pow2_bits_false by lia. rewrite andb_true_r. replace n with (Z.succ (n - 1)) by lia.
    rewrite Z.testbit_even_succ by lia. by rewrite Z.div2_bits by lia.
Qed.
Lemma setup_addr id c e addr : e_ok id e ->
  e_setup c e addr = (mkTw (c_state c) (dev_addr id addr) (c_last c), mkE (dev_addr id addr) E_ADDRESS).
Proof.
  intros [He _]. unfold e_setup, dev_addr. rewrite lor_1, ldiff_1, He. destruct (256 <=? addr); [done|]. by rewrite Z.add_0_r.
Qed.
Lemma dev_ok id addr : dev_addr id addr / 2 = 40 + id.
Proof.
  unfold dev_addr. destruct (256 <=? addr).
  - rewrite Z.mul_comm, Z.div_add_l by lia. change (1 / 2) with 0. lia.
  - rewrite Z.mul_comm, Z.div_add_l by lia. change (0 / 2) with 0. lia.
Qed.
Lemma init_ok id : 0 <= id < 4 -> e_ok id (eeprom_init id).
Proof.
  intros H. assert (id = 0 \/ id = 1 \/ id = 2 \/ id = 3) as [-> |[-> |[-> | ->]]] by lia; done.
Qed.

Section ewrite.
Context (s : slave) (id addr : Z) (buf : list Z) (L0 : list bev).
Let A := dev_addr id addr.
Let B := addr mod 256 :: buf.
Let n := length buf.
Hypothesis Hs : acks A s.
Hypothesis Hn : buf <> [].

Inductive ewph : ewst -> nat -> Prop :=
| EW_setup h c e : e_ok id e -> c_state c = T_IDLE -> h_pend h = None -> h_log h = L0 -> ewph (h, c, e, mkWc 0 None) (n + 5)
| EW_addr h c r : wph 1024 A B L0 (h, c, mkWc 0 None) r -> ewph (h, c, mkE A E_ADDRESS, mkWc 0 None) r
| EW_data h c k r : (k < n)%nat -> wph 1024 A B L0 (h, c, mkWc (S k) None) r -> ewph (h, c, mkE A E_DATA, mkWc k None) r
| EW_fin h c r : wph 1024 A B L0 (h, c, mkWc (S n) None) r -> ewph (h, c, mkE A E_SETUP, mkWc n None) 0.

Lemma B_ne : B <> [].
Proof. done. Qed.
Lemma buf_pos : (0 < n)%nat.
Proof. unfold n. destruct (length buf) eqn:E; [|lia]. by apply nil_length_inv in E. Qed.
Lemma buf_at k : (k < n)%nat -> exists b l, drop k buf = b :: l /\ length l = (n - S k)%nat.
Proof.
  intros Hk. destruct (drop k buf) as [|b l] eqn:E.
  - apply (f_equal length) in E. rewrite drop_length in E. cbn in E. fold n in E. lia.
  - exists b, l. split; [done|]. apply (f_equal length) in E. rewrite drop_length in E. cbn in E. fold n in E. lia.
Qed.
Lemma ewph_done st r : ewph st r -> ewph (complete s st.1.1.1, st.1.1.2, st.1.2, st.2) r.
Proof.
  intros H. destruct H as [h c e He Hc Hp HL|h c r H|h c k r Hk H|h c r H]; cbn [fst snd].
  - unfold complete. rewrite Hp. by constructor.
  - apply EW_addr. exact (wph_done s 1024 A B L0 Hs _ _ H).
  - apply EW_data; [done|]. exact (wph_done s 1024 A B L0 Hs _ _ H).
  - eapply EW_fin. exact (wph_done s 1024 A B L0 Hs _ _ H).
Qed.
Definition ewready (st : ewst) : Prop := h_pend st.1.1.1 = None.

(** The flags only matter at both ends. *)
Lemma flags_1537 h c b m : c_state c <> T_STOP -> twi_write h c b m 1537 = twi_write h c b m 1024.
Proof. intros H. unfold twi_write. destruct (c_state c); try done. Qed.
Lemma flags_0 h c b m : c_state c <> T_IDLE -> twi_write h c b m 0 = twi_write h c b m 1024.
Proof. intros H. unfold twi_write. destruct (c_state c); try done. Qed.

Lemma ewph_call st r : ewph st r -> exists r', (r' <= r)%nat /\ (ewready st -> r <> 0%nat -> r' < r)%nat /\ ewph (ewrite_call addr buf st) r'.
Proof.
  intros H. destruct H as [h c e He Hc Hp HL|h c r H|h c k r Hk H|h c r H].
  - unfold ewrite_call. cbn [w_err w_count]. destruct (buf_at 0 buf_pos) as (b & l & Ed & El). rewrite Ed. rewrite Z.add_0_r.
    unfold eeprom_write. pose proof He as [He1 He2]. rewrite He2, (setup_addr id) by done. rewrite Hc.
    exists (n + 4)%nat. split; [lia|]. split; [lia|]. apply EW_addr.
    replace (n + 4)%nat with (length B + 3)%nat by (unfold B, n; cbn; lia). by apply W_idle.
  - destruct (wph_call 1024 A B L0 B_ne _ _ H) as (r' & R1 & R2 & H').
    destruct (wph_state _ _ _ _ _ _ _ _ H) as (S1 & S2 & S3).
    assert (Hst : c_state c <> T_STOP).
    { intros E. destruct (S1 E) as [_ X]. unfold B in X. cbn [length] in X. fold n in X. pose proof buf_pos. cbn in X. lia. }
    assert (Hr : r <> 0%nat).
    { intros ->. destruct (wph_end 1024 A B L0 B_ne _ _ H (or_intror eq_refl)) as (X & _). cbn in X. lia. }
    exists r'. split; [done|]. split; [exact R2|].
    unfold ewrite_call. cbn [w_err w_count]. destruct (buf_at 0 buf_pos) as (b & l & Ed & El). rewrite Ed. rewrite Z.add_0_r.
    unfold eeprom_write. cbn [e_state]. rewrite flags_1537 by done.
    unfold write_call in H'. unfold B in H'. cbn [w_err w_count drop] in H'. fold B in H'. fold n in H'.
    replace (1 + Z.of_nat (S (length l))) with (Z.of_nat (S n)) by (pose proof buf_pos; lia).
    pose proof (write_res h c (addr mod 256) (Z.of_nat (S n)) 1024) as Hres.
    destruct (twi_write h c (addr mod 256) (Z.of_nat (S n)) 1024) as [[h' c'] x]. cbn [snd] in Hres.
    pose proof (wph_log _ _ _ _ _ _ H') as [He _]. cbn [snd] in He.
    destruct x as [|j| | | |]; cbn [is_count]; try (cbn in He; done).
    + apply EW_addr. exact H'.
    + rewrite (Hres j) by (done || intros E; by destruct (S1 E)). cbn [Z.eqb e_addr].
      rewrite (Hres j) in H' by (done || intros E; by destruct (S1 E)). apply EW_data; [apply buf_pos|]. exact H'.
  - destruct (wph_call 1024 A B L0 B_ne _ _ H) as (r' & R1 & R2 & H').
    destruct (wph_state _ _ _ _ _ _ _ _ H) as (S1 & S2 & S3).
    assert (Hst : c_state c <> T_IDLE).
    { intros E. destruct (S2 E) as [X|X]; [done|]. unfold B in X. cbn [length] in X. fold n in X. lia. }
    assert (Hr : r <> 0%nat).
    { intros ->. destruct (wph_end 1024 A B L0 B_ne _ _ H (or_intror eq_refl)) as (X & _). cbn in X. fold n in X. lia. }
    unfold ewrite_call. cbn [w_err w_count].
    destruct (buf_at k Hk) as (b & l & Ed & El). rewrite Ed.
    unfold eeprom_write. cbn [e_state]. rewrite flags_0 by done.
    unfold write_call in H'. cbn [w_err w_count] in H'. unfold B in H'. cbn [drop] in H'. fold B in H'. rewrite Ed in H'.
    pose proof (write_res h c b (Z.of_nat (S (length l))) 1024) as Hres.
    destruct (twi_write h c b (Z.of_nat (S (length l))) 1024) as [[h' c'] x]. cbn [snd] in Hres.
    pose proof (wph_log _ _ _ _ _ _ H') as [He _]. cbn [snd] in He.
    destruct x as [|j| | | |]; cbn [is_count]; try (cbn in He; done).
    + exists r'. split; [done|]. split; [exact R2|]. apply EW_data; [done|]. exact H'.
    + rewrite (Hres j) in * by (done || intros E; by destruct (S1 E)). rewrite Z.eqb_sym, ofnat_1. cbn [e_addr].
      change (S k + Z.to_nat 1)%nat with (S k + 1)%nat in H'. change (k + Z.to_nat 1)%nat with (k + 1)%nat.
      destruct (Nat.eqb_spec (length l) 0) as [E|E].
      * exists 0%nat. split; [lia|]. split; [lia|]. replace (k + 1)%nat with n by lia. replace (S k + 1)%nat with (S n) in H' by lia. by eapply EW_fin.
      * exists r'. split; [done|]. split; [exact R2|]. replace (S k + 1)%nat with (S (k + 1)) in H' by lia. apply EW_data; [lia|]. exact H'.
  - exists 0%nat. split; [lia|]. split; [lia|]. unfold ewrite_call. cbn [w_err w_count]. rewrite (drop_ge buf n) by (unfold n; lia). by eapply EW_fin.
Qed.
Lemma ewph_run st r evs : ewph st r -> exists r', (r' <= r)%nat /\ ewph (ewrite_run s addr buf evs st) r'.
Proof.
  revert st r. induction evs as [|e evs IH]; intros st r H; [exists r; split; [done|exact H]|].
  assert (X : exists r1, (r1 <= r)%nat /\ ewph (ewrite_step s addr buf st e) r1).
  { destruct e; cbn [ewrite_step].
    - destruct (ewph_call st r H) as (r' & P & _ & Q). eauto.
    - exists r. split; [done|]. by apply ewph_done. }
  destruct X as (r1 & P & Q). destruct (IH _ _ Q) as (r2 & C & D). exists r2. split; [lia|]. exact D.
Qed.
Lemma ewdone_ready (st : ewst) : ewready (complete s st.1.1.1, st.1.1.2, st.1.2, st.2).
Proof.
  unfold ewready, complete. cbn [fst snd]. destruct (h_pend st.1.1.1) as [o|] eqn:E; [|done].
  destruct (s (h_log st.1.1.1) o) as [x d]. destruct o; done.
Qed.
Lemma ewph_rounds st r m : ewph st r -> (r <= m)%nat -> ewph (ewrite_run s addr buf (rounds m) st) 0.
Proof.
  revert st r. induction m as [|m IH]; intros st r H Hr; [replace r with 0%nat in H by lia; exact H|].
  cbn [rounds ewrite_run fold_left]. pose proof (ewph_done st r H) as H1.
  destruct (ewph_call _ _ H1) as (r' & P & Q & C). specialize (Q (ewdone_ready st)).
  apply (IH _ r'); [exact C|]. destruct (decide (r = 0%nat)); [lia|]. lia.
Qed.
(** What can be seen. *)
Lemma ewph_log st r : ewph st r -> w_err st.2 = None /\ exists rest, L0 ++ write_bus A 1024 B = h_log st.1.1.1 ++ rest.
Proof.
  intros H. destruct H as [h c e He Hc Hp HL|h c r H|h c k r Hk H|h c r H]; cbn [fst snd]; (split; [done|]).
  - rewrite HL. eauto.
  - by destruct (wph_log _ _ _ _ _ _ H).
  - by destruct (wph_log _ _ _ _ _ _ H).
  - by destruct (wph_log _ _ _ _ _ _ H).
Qed.
Lemma ewph_end st r : ewph st r -> w_count st.2 = n \/ r = 0%nat ->
  w_count st.2 = n /\ h_log st.1.1.1 = L0 ++ write_bus A 1024 B /\ c_state st.1.1.2 = T_IDLE /\ h_pend st.1.1.1 = None /\ e_ok id st.1.2.
Proof.
  pose proof buf_pos as Hpos.
  intros H. destruct H as [h c e He Hc Hp HL|h c r H|h c k r Hk H|h c r H]; cbn [fst snd w_count]; intros Hr; try lia.
  - destruct Hr as [Hr| ->]; [lia|]. destruct (wph_end 1024 A B L0 B_ne _ _ H (or_intror eq_refl)) as (X & _). cbn in X. lia.
  - destruct Hr as [Hr| ->]; [lia|]. destruct (wph_end 1024 A B L0 B_ne _ _ H (or_intror eq_refl)) as (X & _). cbn in X. fold n in X. lia.
  - destruct (wph_end 1024 A B L0 B_ne _ _ H) as (_ & X1 & X2 & _ & X3 & _); [left; done|]. cbn [fst snd] in X1, X2, X3.
    split; [done|]. split; [done|]. split; [done|]. split; [done|]. split; [|done]. apply dev_ok.
Qed.
End ewrite.

Lemma read_some h c m flags j : c_state c <> T_STOP -> (twi_read h c m flags).1.2 = Count j -> exists d, (twi_read h c m flags).2 = Some d.
Proof.
  unfold twi_read, master_idle, master_start, read_sla, read_data, rw_stop, master_stop. intros Hl.
  destruct (c_state c); [| | | |done].
  - destruct (F_S flags); cbn [snd fst]; done.
  - destruct (negb _); [done|]. destruct (_ && _); cbn [snd fst]; done.
  - destruct (negb _); [done|]. destruct (negb _); cbn [snd fst]; done.
  - destruct (negb _); [done|]. destruct (_ && _); cbn [fst snd]; [done|].
    destruct (m =? 1); cbn [fst snd]; eauto.
Qed.

Section eread.
Context (s : slave) (id addr : Z) (n : nat) (L0 : list bev).
Let A := dev_addr id addr.
Let B := [addr mod 256].
Let L1 := L0 ++ write_bus A 1024 B.
Hypothesis Hs : acks A s.
Hypothesis Hn : (0 < n)%nat.

Inductive erph : erst -> nat -> Prop :=
| ER_setup h c e : e_ok id e -> c_state c = T_IDLE -> h_pend h = None -> h_log h = L0 -> erph (h, c, e, mkRc [] None) (n + 8)
| ER_addr h c r : wph 1024 A B L0 (h, c, mkWc 0 None) r -> erph (h, c, mkE A E_ADDRESS, mkRc [] None) (r + n + 3)
| ER_data h c u r : (length (r_got u) < n)%nat -> rph A n L1 (h, c, u) r -> erph (h, c, mkE A E_DATA, u) r
| ER_fin h c u r : length (r_got u) = n -> rph A n L1 (h, c, u) r -> erph (h, c, mkE A E_SETUP, u) 0.

Lemma eB_ne : B <> [].
Proof. done. Qed.
Lemma erph_done st r : erph st r -> erph (complete s st.1.1.1, st.1.1.2, st.1.2, st.2) r.
Proof.
  intros H. destruct H as [h c e He Hc Hp HL|h c r H|h c u r Hk H|h c u r Hk H]; cbn [fst snd].
  - unfold complete. rewrite Hp. by constructor.
  - apply ER_addr. exact (wph_done s 1024 A B L0 Hs _ _ H).
  - apply ER_data; [done|]. exact (rph_done s A n L1 Hs _ _ H).
  - eapply ER_fin; [done|]. exact (rph_done s A n L1 Hs _ _ H).
Qed.
Definition erready (st : erst) : Prop := h_pend st.1.1.1 = None.

Lemma erph_call st r : erph st r -> exists r', (r' <= r)%nat /\ (erready st -> r <> 0%nat -> r' < r)%nat /\ erph (eread_call addr n st) r'.
Proof.
  intros H. destruct H as [h c e He Hc Hp HL|h c r H|h c u r Hk H|h c u r Hk H].
  - unfold eread_call. cbn [r_err r_got length]. destruct (n - 0)%nat as [|l] eqn:En; [lia|]. rewrite Z.add_0_r.
    unfold eeprom_read. pose proof He as [He1 He2]. rewrite He2, (setup_addr id) by done. rewrite Hc.
    exists (n + 7)%nat. split; [lia|]. split; [lia|]. replace (n + 7)%nat with (length B + 3 + n + 3)%nat by (cbn; lia).
    apply ER_addr. by apply W_idle.
  - destruct (wph_call 1024 A B L0 eB_ne _ _ H) as (r' & R1 & R2 & H').
    destruct (wph_state _ _ _ _ _ _ _ _ H) as (S1 & S2 & S3).
    assert (Hr : r <> 0%nat).
    { intros ->. destruct (wph_end 1024 A B L0 eB_ne _ _ H (or_intror eq_refl)) as (X & _). cbn in X. lia. }
    unfold eread_call. cbn [r_err r_got length]. destruct (n - 0)%nat as [|l] eqn:En; [lia|]. rewrite Z.add_0_r.
    unfold eeprom_read. cbn [e_state].
    unfold write_call in H'. unfold B in H'. cbn [w_err w_count drop length] in H'. fold B in H'. change (Z.of_nat 1) with 1 in H'.
    pose proof (write_res h c (addr mod 256) 1 1024) as Hres.
    destruct (twi_write h c (addr mod 256) 1 1024) as [[h' c'] x]. cbn [snd] in Hres.
    pose proof (wph_log _ _ _ _ _ _ H') as [He _]. cbn [snd] in He.
    destruct x as [|j| | | |]; cbn [is_count]; try (cbn in He; done).
    + exists (r' + n + 3)%nat. split; [lia|]. split; [intros X _; unfold ready in R2; specialize (R2 X Hr); lia|]. by apply ER_addr.
    + rewrite (Hres j) in * by (done || intros E; by destruct (S1 E)). change (1 =? 1) with true. cbn [e_addr].
      change (0 + Z.to_nat 1)%nat with 1%nat in H'.
      destruct (wph_end 1024 A B L0 eB_ne _ _ H') as (_ & X1 & X2 & X3 & X4 & _); [left; done|]. cbn [fst snd] in X1, X2, X3, X4.
      exists (n + 3)%nat. split; [lia|]. split; [lia|]. apply ER_data; [cbn; lia|]. by apply R_idle.
  - destruct (rph_call 1536 A n L1 Hn eq_refl _ _ H) as (r' & R1 & R2 & H').
    destruct (rph_state _ _ _ _ _ _ _ H) as (S1 & S2).
    destruct (rph_got _ _ _ Hn _ _ H) as [E0 _]. cbn [snd] in E0.
    assert (Hr : r <> 0%nat).
    { intros ->. destruct (rph_end A n L1 Hn _ _ H (or_intror eq_refl)) as (X & _). cbn [snd] in X. lia. }
    unfold eread_call. rewrite E0. destruct (n - length (r_got u))%nat as [|l] eqn:En; [lia|].
    unfold eeprom_read. cbn [e_state].
    unfold read_call in H'. rewrite E0, En in H'.
    pose proof (read_res h c (Z.of_nat (S l)) 1536) as Hres. pose proof (read_some h c (Z.of_nat (S l)) 1536) as Hsome.
    destruct (twi_read h c (Z.of_nat (S l)) 1536) as [[[h' c'] x] d]. cbn [snd fst] in Hres, Hsome.
    destruct (rph_got _ _ _ Hn _ _ H') as [E1 _]. cbn [snd] in E1.
    destruct x as [|j| | | |]; cbn [is_count]; try (cbn in E1; done).
    + exists r'. split; [done|]. split; [exact R2|]. apply ER_data; [done|]. exact H'.
    + destruct (Hsome j S1 eq_refl) as [d' ->]. rewrite (Hres j S1 eq_refl). rewrite Z.eqb_sym, ofnat_1. cbn [e_addr].
      destruct (Nat.eqb_spec l 0) as [E|E].
      * exists 0%nat. split; [lia|]. split; [lia|]. eapply ER_fin; [|exact H']. cbn [r_got]. rewrite app_length. cbn. lia.
      * exists r'. split; [done|]. split; [exact R2|]. apply ER_data; [|exact H']. cbn [r_got]. rewrite app_length. cbn. lia.
  - exists 0%nat. split; [lia|]. split; [lia|]. unfold eread_call. destruct (r_err u); [by eapply ER_fin|].
    replace (n - length (r_got u))%nat with 0%nat by lia. by eapply ER_fin.
Qed.
Lemma erph_run st r evs : erph st r -> exists r', (r' <= r)%nat /\ erph (eread_run s addr n evs st) r'.
Proof.
  revert st r. induction evs as [|e evs IH]; intros st r H; [exists r; split; [done|exact H]|].
  assert (X : exists r1, (r1 <= r)%nat /\ erph (eread_step s addr n st e) r1).
  { destruct e; cbn [eread_step].
    - destruct (erph_call st r H) as (r' & P & _ & Q). eauto.
    - exists r. split; [done|]. by apply erph_done. }
  destruct X as (r1 & P & Q). destruct (IH _ _ Q) as (r2 & C & D). exists r2. split; [lia|]. exact D.
Qed.
Lemma erdone_ready (st : erst) : erready (complete s st.1.1.1, st.1.1.2, st.1.2, st.2).
Proof.
  unfold erready, complete. cbn [fst snd]. destruct (h_pend st.1.1.1) as [o|] eqn:E; [|done].
  destruct (s (h_log st.1.1.1) o) as [x d]. destruct o; done.
Qed.
Lemma erph_rounds st r m : erph st r -> (r <= m)%nat -> erph (eread_run s addr n (rounds m) st) 0.
Proof.
  revert st r. induction m as [|m IH]; intros st r H Hr; [replace r with 0%nat in H by lia; exact H|].
  cbn [rounds eread_run fold_left]. pose proof (erph_done st r H) as H1.
  destruct (erph_call _ _ H1) as (r' & P & Q & C). specialize (Q (erdone_ready st)).
  apply (IH _ r'); [exact C|]. destruct (decide (r = 0%nat)); [lia|]. lia.
Qed.
Lemma erph_err st r : erph st r -> r_err st.2 = None /\ (length (r_got st.2) <= n)%nat.
Proof.
  intros H. destruct H as [h c e He Hc Hp HL|h c r H|h c u r Hk H|h c u r Hk H]; cbn [fst snd r_err r_got length].
  - split; [done|lia].
  - split; [done|lia].
  - destruct (rph_got _ _ _ Hn _ _ H) as [E0 _]. split; [exact E0|lia].
  - destruct (rph_got _ _ _ Hn _ _ H) as [E0 _]. split; [exact E0|lia].
Qed.
Lemma erph_end st r : erph st r -> length (r_got st.2) = n \/ r = 0%nat ->
  length (r_got st.2) = n /\ h_log st.1.1.1 = L1 ++ read_bus A (r_got st.2) /\ c_state st.1.1.2 = T_IDLE /\ h_pend st.1.1.1 = None /\ e_ok id st.1.2.
Proof.
  intros H. destruct H as [h c e He Hc Hp HL|h c r H|h c u r Hk H|h c u r Hk H]; cbn [fst snd r_got length]; intros Hr; try lia.
  - destruct Hr as [Hr| ->]; [lia|]. destruct (rph_end A n L1 Hn _ _ H (or_intror eq_refl)) as (X & _). cbn [snd] in X. lia.
  - destruct (rph_end A n L1 Hn _ _ H) as (X0 & X1 & X2 & _ & X3); [left; done|]. cbn [fst snd] in X0, X1, X2, X3.
    split; [done|]. split; [done|]. split; [done|]. split; [done|]. split; [|done]. apply dev_ok.
Qed.
End eread.

(** ** What is received is what was sent *)
Lemma sent_eread s L0 addr n evs st : sent_by s L0 (h_log st.1.1.1) -> sent_by s L0 (h_log (eread_run s addr n evs st).1.1.1).
Proof.
  revert st. induction evs as [|e evs IH]; intros st H; [done|]. cbn [eread_run fold_left]. apply IH. destruct e; cbn [eread_step fst].
  - destruct st as [[[h c] e] u]. unfold eread_call. destruct (r_err u); [done|]. destruct (n - length (r_got u))%nat as [|m]; [done|].
    unfold eeprom_read. destruct (e_state e).
    + unfold e_setup. exact H.
    + pose proof (sent_write s L0 h c ((addr + Z.of_nat (length (r_got u))) mod 256) 1 1024 H) as X.
      destruct (twi_write h c ((addr + Z.of_nat (length (r_got u))) mod 256) 1 1024) as [[h' c'] r]. exact X.
    + pose proof (sent_read s L0 h c (Z.of_nat (S m)) 1536 H) as X. destruct (twi_read h c (Z.of_nat (S m)) 1536) as [[[h' c'] r] d]. exact X.
  - by apply sent_complete.
Qed.
Lemma sent_at s L0 L : sent_by s L0 L -> forall P b a Q, L = P ++ BRx b a :: Q -> (length L0 <= length P)%nat -> b = (s P (ORecv a)).2 mod 256.
Proof.
  induction 1 as [|L e H IH He|L a0 H IH]; intros P b a Q E Hl.
  - apply (f_equal length) in E. rewrite app_length in E. cbn in E. lia.
  - destruct Q as [|q Q'] using rev_ind.
    + apply app_inj_tail in E as [-> ->]. done.
    + clear IHQ'. rewrite app_comm_cons, app_assoc in E. apply app_inj_tail in E as [E _]. by eapply IH.
  - destruct Q as [|q Q'] using rev_ind.
    + apply app_inj_tail in E as [-> E]. congruence.
    + clear IHQ'. rewrite app_comm_cons, app_assoc in E. apply app_inj_tail in E as [E _]. by eapply IH.
Qed.

(** ** The device *)
Lemma sla_div2 a rw : 0 <= a < 128 -> 0 <= rw < 2 -> sla a rw / 2 = a.
Proof. intros Ha Hr. unfold sla. rewrite (Z.mod_small a) by lia. rewrite Z.mul_comm, Z.div_add_l by lia. rewrite (Z.div_small rw) by lia. lia. Qed.
Lemma sla_div4 a rw : 0 <= a < 128 -> 0 <= rw < 2 -> sla a rw / 4 = a / 2.
Proof. intros Ha Hr. change 4 with (2 * 2). rewrite <- Z.div_div by lia. by rewrite sla_div2. Qed.
Lemma dev_range id addr : 0 <= id < 4 -> 0 <= dev_addr id addr < 128.
Proof. intros H. unfold dev_addr. destruct (256 <=? addr); lia. Qed.
Lemma dev_low id addr : 0 <= addr < 512 -> dev_addr id addr mod 2 = addr / 256.
Proof.
  intros H. unfold dev_addr. rewrite Z.add_comm, Z.mul_comm, Z.mod_add by lia. destruct (Z.leb_spec 256 addr) as [E|E].
  - change (1 mod 2) with 1. assert (X : 1 <= addr / 256) by (by apply Z.div_le_lower_bound; lia).
    assert (Y : addr / 256 < 2) by (apply Z.div_lt_upper_bound; lia). lia.
  - change (0 mod 2) with 0. rewrite Z.div_small; lia.
Qed.
Section device.
Context (id addr : Z).
Hypothesis Hid : 0 <= id < 4.
Hypothesis Haddr : 0 <= addr < 512.
Let A := dev_addr id addr.
Lemma step_addr f rw ack : 0 <= rw < 2 ->
  fram_step id f (BAddr (sla A rw) ack) = mkFram (f_mem f) (256 * (addr / 256) + f_ptr f mod 256) (if rw =? 1 then P_READ else P_ADDR).
Proof.
  intros Hr. unfold fram_step. pose proof (dev_range id addr Hid) as HA. fold A in HA.
  rewrite sla_div4 by done. unfold A at 1. rewrite dev_ok, Z.eqb_refl. rewrite sla_div2 by done. unfold A at 1. rewrite dev_low by done.
  f_equal. assert (rw = 0 \/ rw = 1) as [-> | ->] by lia.
  - unfold sla. rewrite Z.add_0_r. by rewrite Z.testbit_even_0.
  - unfold sla. by rewrite Z.testbit_odd_0.
Qed.
Lemma fram_acks f0 : acks A (fram_slave id f0).
Proof.
  intros l o Ho. pose proof (dev_range id addr Hid) as HA. fold A in HA. destruct o; [done| |done|done].
  unfold fram_slave. cbn [fst]. destruct Ho as [-> | ->]; rewrite sla_div4 by lia; unfold A; rewrite dev_ok; apply Z.eqb_refl.
Qed.
Lemma hi_lo : 256 * (addr / 256) + addr mod 256 = addr.
Proof. pose proof (Z.div_mod addr 256 ltac:(lia)). lia. Qed.
(** The address phase. *)
Lemma after_addr f a1 a2 : 
  let f' := fold_left (fram_step id) [BStart; BAddr (sla A 0) a1; BTx (addr mod 256) a2] f in f_mem f' = f_mem f /\ f_ptr f' = addr /\ f_ph f' = P_WRITE.
Proof.
  cbn zeta. cbn [fold_left]. rewrite step_addr by lia. change (0 =? 1) with false. cbn [fram_step f_ph f_mem f_ptr].
  split; [done|]. split; [|done].
  assert (Hm : 0 <= f_ptr f mod 256 < 256) by (apply Z.mod_pos_bound; lia).
  rewrite (Z.mul_comm 256 (addr / 256)), Z.div_add_l, (Z.div_small (f_ptr f mod 256)), Z.add_0_r by lia.
  rewrite Z.mod_mod by lia. pose proof hi_lo. lia.
Qed.
(** The data phase. *)
Lemma after_write f bs k : f_ph f = P_WRITE -> f_ptr f = addr + Z.of_nat k -> addr + Z.of_nat k + Z.of_nat (length bs) <= 512 ->
  forall x, f_mem (fold_left (fram_step id) ((fun b => BTx b true) <$> bs) f) x =
    if (addr + Z.of_nat k <=? x) && (x <? addr + Z.of_nat k + Z.of_nat (length bs)) then nth (Z.to_nat (x - (addr + Z.of_nat k))) bs 0 mod 256 else f_mem f x.
Proof.
  revert f k. induction bs as [|b bs IH]; intros f k Hp Hq Hl x.
  - cbn [fmap list_fmap fold_left length]. destruct (Z.leb_spec (addr + Z.of_nat k) x), (Z.ltb_spec x (addr + Z.of_nat k + Z.of_nat 0)); cbn [andb]; try lia; done.
  - rewrite fmap_cons. cbn [fold_left]. cbn [length] in Hl |- *. destruct (decide (bs = [])) as [-> |Hne].
    + cbn [fmap list_fmap fold_left length fram_step]. rewrite Hp. cbn [f_mem]. rewrite Hq.
      destruct (Z.eqb_spec x (addr + Z.of_nat k)) as [-> |E].
      * rewrite Z.leb_refl. rewrite (proj2 (Z.ltb_lt _ _)) by lia. cbn [andb]. rewrite Z.sub_diag. done.
      * destruct (Z.leb_spec (addr + Z.of_nat k) x), (Z.ltb_spec x (addr + Z.of_nat k + Z.of_nat 1)); cbn [andb]; try lia; done.
    + assert (Hbs : (0 < length bs)%nat) by (destruct bs; [done|cbn; lia]).
      rewrite (IH _ (S k)); [| | |lia].
      * cbn [fram_step]. rewrite Hp. cbn [f_mem]. rewrite Hq.
        destruct (Z.eqb_spec x (addr + Z.of_nat k)) as [-> |E].
        -- rewrite (proj2 (Z.leb_gt _ _)) by lia. rewrite Z.leb_refl. cbn [andb]. rewrite (proj2 (Z.ltb_lt _ _)) by lia. rewrite Z.sub_diag. done.
        -- replace (addr + Z.of_nat (S k) <=? x) with (addr + Z.of_nat k <=? x) by (destruct (Z.leb_spec (addr + Z.of_nat k) x), (Z.leb_spec (addr + Z.of_nat (S k)) x); lia).
           replace (addr + Z.of_nat (S k) + Z.of_nat (length bs)) with (addr + Z.of_nat k + Z.of_nat (S (length bs))) by lia.
           destruct (Z.leb_spec (addr + Z.of_nat k) x) as [G|G]; [|done]. destruct (_ <? _); [|done]. cbn [andb].
           replace (Z.to_nat (x - (addr + Z.of_nat k))) with (S (Z.to_nat (x - (addr + Z.of_nat (S k))))) by lia. done.
      * cbn [fram_step]. rewrite Hp. done.
      * cbn [fram_step]. rewrite Hp. cbn [f_ptr]. rewrite Hq. rewrite Z.mod_small; lia.
Qed.
Lemma after_read f bs : f_ph f = P_READ -> 0 <= f_ptr f -> f_ptr f + Z.of_nat (length bs) < 512 ->
  let f' := fold_left (fram_step id) (rx bs) f in f_mem f' = f_mem f /\ f_ph f' = P_READ /\ f_ptr f' = f_ptr f + Z.of_nat (length bs).
Proof.
  revert f. induction bs as [|b bs IH]; intros f Hp H0 Hl; cbn zeta.
  - cbn. split; [done|]. split; [done|]. lia.
  - unfold rx. rewrite fmap_cons. cbn [fold_left]. cbn [length] in Hl |- *.
    assert (E : fram_step id f (BRx b true) = mkFram (f_mem f) (f_ptr f + 1) P_READ).
    { cbn [fram_step]. rewrite Hp. rewrite Z.mod_small by lia. done. }
    rewrite E. destruct (IH (mkFram (f_mem f) (f_ptr f + 1) P_READ)) as (X1 & X2 & X3); cbn [f_ph f_ptr f_mem]; [done|lia|lia|].
    cbn [f_mem f_ptr] in X1, X3. unfold rx in X1, X2, X3. split; [done|]. split; [done|]. rewrite X3. lia.
Qed.
End device.

Lemma fram_app id f0 l1 l2 : fram_after id f0 (l1 ++ l2) = fold_left (fram_step id) l2 (fram_after id f0 l1).
Proof. unfold fram_after. apply fold_left_app. Qed.

Lemma mem_upd_0 m addr buf x : mem_upd m addr buf 0 x = m x.
Proof. unfold mem_upd. destruct (Z.leb_spec addr x), (Z.ltb_spec x (addr + Z.of_nat 0)); cbn [andb]; try lia; done. Qed.
Lemma write_prefix id addr buf f p : 0 <= id < 4 -> 0 <= addr -> addr + Z.of_nat (length buf) <= 512 -> buf <> [] ->
  p `prefix_of` write_bus (dev_addr id addr) 1024 (addr mod 256 :: buf) ->
  exists j, (j <= length buf)%nat /\ (p = write_bus (dev_addr id addr) 1024 (addr mod 256 :: buf) -> j = length buf) /\
    forall x, f_mem (fold_left (fram_step id) p f) x = mem_upd (f_mem f) addr buf j x.
Proof.
  intros Hid H0 Hl Hb [q Hq]. assert (Hpos : (0 < length buf)%nat) by (destruct buf; [done|cbn; lia]).
  set (W := write_bus (dev_addr id addr) 1024 (addr mod 256 :: buf)) in *.
  assert (Ew : W = [BStart; BAddr (sla (dev_addr id addr) 0) true; BTx (addr mod 256) true] ++ ((fun b => BTx b true) <$> buf)).
  { unfold W, write_bus. change (F_S 1024) with true. change (F_P 1024) with false. rewrite fmap_cons, app_nil_r. done. }
  assert (Hp : p = take (length p) W) by (rewrite Hq; by rewrite take_app).
  assert (Hpl : (length p <= 3 + length buf)%nat).
  { rewrite Hp, take_length. rewrite Ew, app_length, fmap_length. cbn [length]. lia. }
  rewrite Hp. rewrite Ew. destruct (decide (length p <= 3)%nat) as [Hs|Hs].
  - exists 0%nat. split; [lia|]. split.
    + intros E. exfalso. apply (f_equal length) in E. rewrite take_length, app_length, fmap_length in E. cbn [length] in E. lia.
    + intros x. rewrite mem_upd_0. rewrite take_app_le by done.
      assert (step_addr' : forall f, f_mem (fram_step id f (BAddr (sla (dev_addr id addr) 0) true)) = f_mem f).
      { intros g. rewrite step_addr by (done || lia). done. }
      destruct (length p) as [|[|[|[|]]]]; cbn [take fold_left]; try lia; try done.
      * by rewrite step_addr'.
      * rewrite step_addr by (done || lia). done.
  - set (j := (length p - 3)%nat). exists j. split; [lia|]. split.
    + intros E. apply (f_equal length) in E. rewrite take_length, app_length, fmap_length in E. cbn [length] in E. lia.
    + intros x. rewrite take_app_ge by (cbn; lia). rewrite fold_left_app. cbn [length]. fold j.
      destruct (after_addr id addr Hid ltac:(lia) f true true) as (E1 & E2 & E3).
      rewrite <- fmap_take.
      rewrite (after_write id addr ltac:(lia) _ _ 0%nat E3); [|rewrite E2; lia|rewrite take_length; lia].
      rewrite E1. unfold mem_upd. rewrite take_length. replace (j `min` length buf)%nat with j by lia. replace (addr + Z.of_nat 0) with addr by lia.
      destruct (Z.leb_spec addr x), (Z.ltb_spec x (addr + Z.of_nat j)); cbn [andb]; try done.
      f_equal. rewrite !nth_lookup. by rewrite lookup_take by lia.
Qed.

Lemma wph_ge flags a buf L0 st r : wph flags a buf L0 st r -> L0 `prefix_of` h_log st.1.1.
Proof.
  intros H. destruct H as [h0 c0 HS Hc Ha HL Hp|sr dr la HS|sr dr la HS Hsr|sr dr la HS|dr la HS|dr c0 HS Hc Ha|dr la HS|sr dr la k0 Hk|dr la k0 Hk|dr];
    cbn [fst snd h_log]; unfold wlog; rewrite <- ?app_assoc.
  - by rewrite HL.
  - done.
  - by eexists.
  - by eexists.
  - by eexists.
  - done.
  - done.
  - by eexists.
  - by eexists.
  - destruct (F_P flags); cbn [h_log]; rewrite <- ?app_assoc; by eexists.
Qed.
(** ** The theorems *)
Lemma ewrite_all id f0 addr buf h c e evs : 0 <= id < 4 -> 0 <= addr -> addr + Z.of_nat (length buf) <= 512 -> buf <> [] ->
  c_state c = T_IDLE -> h_pend h = None -> e_ok id e ->
  let s := fram_slave id f0 in let mem st := f_mem (fram_after id f0 (h_log st.1.1.1)) in
  let st := ewrite_run s addr buf evs (h, c, e, mkWc 0 None) in
  let fin (st : ewst) := w_count st.2 = length buf /\ (forall x, mem st x = mem_upd (f_mem (fram_after id f0 (h_log h))) addr buf (length buf) x) /\
     c_state st.1.1.2 = T_IDLE /\ h_pend st.1.1.1 = None /\ e_ok id st.1.2 in
  w_err st.2 = None /\ (exists j, (j <= length buf)%nat /\ forall x, mem st x = mem_upd (f_mem (fram_after id f0 (h_log h))) addr buf j x) /\
  (w_count st.2 = length buf -> fin st) /\ fin (ewrite_run s addr buf (rounds (length buf + 5)) st).
Proof.
  intros Hid H0 Hl Hb Hc Hp He s mem st fin.
  assert (Hpos : (0 < length buf)%nat) by (destruct buf; [done|cbn; lia]).
  assert (Hs : acks (dev_addr id addr) s) by (apply fram_acks; done).
  assert (Hi : ewph id addr buf (h_log h) (h, c, e, mkWc 0 None) (length buf + 5)) by (by apply EW_setup).
  destruct (ewph_run s id addr buf (h_log h) Hs Hb _ _ evs Hi) as (r' & Hr' & H1). fold st in H1.
  destruct (ewph_log _ _ _ _ _ _ H1) as [E1 [rest E2]].
  assert (X : forall st r, ewph id addr buf (h_log h) st r -> w_count st.2 = length buf \/ r = 0%nat -> fin st).
  { intros st0 r0 G Gr. destruct (ewph_end id addr buf (h_log h) Hb _ _ G Gr) as (G1 & G2 & G3 & G4 & G5).
    split; [done|]. split; [|done]. intros x. unfold mem. rewrite G2, fram_app.
    destruct (write_prefix id addr buf (fram_after id f0 (h_log h)) _ Hid H0 Hl Hb (reflexivity _)) as (j & J1 & J2 & J3).
    rewrite J3. by rewrite (J2 eq_refl). }
  split; [exact E1|]. split; [|split].
  - assert (G : h_log h `prefix_of` h_log st.1.1.1).
    { clear X fin E1 E2. destruct H1 as [h1 c1 e1 He1 Hc1 Hp1 HL|h1 c1 r1 G|h1 c1 k1 r1 Hk1 G|h1 c1 r1 G]; cbn [fst].
      - by rewrite HL.
      - apply (wph_ge _ _ _ _ _ _ G).
      - apply (wph_ge _ _ _ _ _ _ G).
      - apply (wph_ge _ _ _ _ _ _ G). }
    destruct G as [p Hp1]. rewrite Hp1, <- app_assoc in E2. apply app_inv_head in E2.
    destruct (write_prefix id addr buf (fram_after id f0 (h_log h)) p Hid H0 Hl Hb) as (j & J1 & _ & J3); [by exists rest|].
    exists j. split; [done|]. intros x. unfold mem. rewrite Hp1, fram_app. apply J3.
  - intros Hk. eapply X; [exact H1|by left].
  - eapply X; [|by right]. eapply ewph_rounds; [done|done|exact H1|lia].
Qed.
(** Nothing but a byte sent changes the memory. *)
Lemma mem_quiet id l f : Forall (fun e => match e with BTx _ _ => False | _ => True end) l -> f_mem (fold_left (fram_step id) l f) = f_mem f.
Proof.
  revert f. induction l as [|e l IH]; intros f H; [done|]. apply Forall_cons in H as [He H]. cbn [fold_left]. rewrite IH by done.
  destruct e; try done; cbn [fram_step].
  - by destruct (_ =? _).
  - by destruct (f_ph f).
Qed.
Lemma rx_quiet d : Forall (fun e => match e with BTx _ _ => False | _ => True end) (rx d).
Proof. apply Forall_fmap. apply Forall_forall. done. Qed.
Lemma rb_quiet d : Forall (fun e => match e with BTx _ _ => False | _ => True end) (read_bytes d).
Proof. induction d as [|x [|y d] IH]; [constructor|by repeat constructor|]. constructor; [done|exact IH]. Qed.
Lemma addr_mem id addr f p : 0 <= id < 4 -> 0 <= addr < 512 -> p `prefix_of` write_bus (dev_addr id addr) 1024 [addr mod 256] ->
  f_mem (fold_left (fram_step id) p f) = f_mem f.
Proof.
  intros Hid H0 [q Hq]. change (write_bus (dev_addr id addr) 1024 [addr mod 256]) with [BStart; BAddr (sla (dev_addr id addr) 0) true; BTx (addr mod 256) true] in Hq.
  destruct p as [|e1 [|e2 [|e3 [|e4 p]]]]; cbn in Hq; [done| | | |discriminate Hq]; inversion Hq; subst; cbn [fold_left]; try done.
  - by rewrite step_addr by (done || lia).
  - rewrite step_addr by (done || lia). done.
Qed.
Lemma erph_mem id addr n L0 : 0 <= id < 4 -> 0 <= addr < 512 -> (0 < n)%nat -> forall f0 st r, erph id addr n L0 st r ->
  forall x, f_mem (fram_after id f0 (h_log st.1.1.1)) x = f_mem (fram_after id f0 L0) x.
Proof.
  intros Hid Ha Hn f0 st r H x. set (A := dev_addr id addr). set (L1 := L0 ++ write_bus A 1024 [addr mod 256]).
  assert (X1 : forall h c u r, wph 1024 A [addr mod 256] L0 (h, c, u) r -> f_mem (fram_after id f0 (h_log h)) x = f_mem (fram_after id f0 L0) x).
  { intros h c u r0 G. destruct (wph_log _ _ _ _ _ _ G) as [_ [rest E]]. destruct (wph_ge _ _ _ _ _ _ G) as [p Hp]. cbn [fst] in E, Hp.
    rewrite Hp, <- app_assoc in E. apply app_inv_head in E. rewrite Hp, fram_app, addr_mem with (addr := addr); try done. by exists rest. }
  assert (E1 : f_mem (fram_after id f0 L1) x = f_mem (fram_after id f0 L0) x).
  { unfold L1. rewrite fram_app, addr_mem with (addr := addr); done. }
  assert (X2 : forall h c u r, rph A n L1 (h, c, u) r -> f_mem (fram_after id f0 (h_log h)) x = f_mem (fram_after id f0 L0) x).
  { intros h c u r0 G. rewrite <- E1. destruct (rph_got _ _ _ Hn _ _ G) as [_ Hg]. cbn [fst snd] in Hg.
    assert (Q : exists l, h_log h = L1 ++ l /\ Forall (fun e => match e with BTx _ _ => False | _ => True end) l).
    { destruct Hg as [Hg|[Hg|[rest Hg]]].
      - exists []. by rewrite app_nil_r.
      - exists [BStart]. split; [done|]. by repeat constructor.
      - destruct Hg as [[Hg [Hr|[b Hr]]]|Hg].
        + eexists. split; [exact Hg|]. rewrite Hr. do 2 (constructor; [done|]). apply rx_quiet.
        + eexists. split; [exact Hg|]. rewrite Hr. do 2 (constructor; [done|]). apply Forall_app. split; [apply rx_quiet|by repeat constructor].
        + eexists. split; [exact Hg|]. unfold read_bus. do 2 (constructor; [done|]). apply Forall_app. split; [apply rb_quiet|by repeat constructor]. }
    destruct Q as (l & El & Hl). rewrite El, fram_app. by rewrite mem_quiet. }
  destruct H as [h c e He Hc Hp HL|h c r H|h c u r Hk H|h c u r Hk H]; cbn [fst].
  - by rewrite HL.
  - eapply X1. exact H.
  - eapply X2. exact H.
  - eapply X2. exact H.
Qed.
Lemma eread_all id f0 addr n h c e evs : 0 <= id < 4 -> 0 <= addr -> addr + Z.of_nat n <= 512 -> (0 < n)%nat ->
  c_state c = T_IDLE -> h_pend h = None -> e_ok id e ->
  let s := fram_slave id f0 in let mem (st : erst) := f_mem (fram_after id f0 (h_log st.1.1.1)) in
  let st := eread_run s addr n evs (h, c, e, mkRc [] None) in
  let fin (st : erst) := length (r_got st.2) = n /\ (forall k, (k < n)%nat -> nth k (r_got st.2) 0 = f_mem (fram_after id f0 (h_log h)) (addr + Z.of_nat k) mod 256) /\
     c_state st.1.1.2 = T_IDLE /\ h_pend st.1.1.1 = None /\ e_ok id st.1.2 in
  r_err st.2 = None /\ (length (r_got st.2) <= n)%nat /\ (forall x, mem st x = f_mem (fram_after id f0 (h_log h)) x) /\
  (length (r_got st.2) = n -> fin st) /\ fin (eread_run s addr n (rounds (n + 8)) st).
Proof.
  intros Hid H0 Hl Hn Hc Hp He s mem st fin.
  assert (Hs : acks (dev_addr id addr) s) by (apply fram_acks; done).
  assert (Hi : erph id addr n (h_log h) (h, c, e, mkRc [] None) (n + 8)) by (by apply ER_setup).
  destruct (erph_run s id addr n (h_log h) Hs Hn _ _ evs Hi) as (r' & Hr' & H1). fold st in H1.
  destruct (erph_err id addr n (h_log h) Hn _ _ H1) as [E1 E2]. split; [exact E1|]. split; [exact E2|].
  assert (X : forall evs r, let st := eread_run s addr n evs (h, c, e, mkRc [] None) in 
      erph id addr n (h_log h) st r -> length (r_got st.2) = n \/ r = 0%nat -> fin st).
  { intros evs0 r0 st0 G Gr. destruct (erph_end id addr n (h_log h) Hn _ _ G Gr) as (G1 & G2 & G3 & G4 & G5).
    split; [done|]. split; [|done]. intros k Hk.
    pose proof (sent_eread s (h_log h) addr n evs0 (h, c, e, mkRc [] None) (sent_0 _ _)) as HS. fold st0 in HS.
    set (A := dev_addr id addr) in *. set (L1 := h_log h ++ write_bus A 1024 [addr mod 256]) in *.
    set (got := r_got st0.2) in *. set (b := nth k got 0).
    assert (Eg : exists a Q, read_bytes got = rx (take k got) ++ BRx b a :: Q).
    { destruct (nth_lookup_or_length got k 0) as [Hb|]; [|lia]. fold b in Hb.
      rewrite <- (take_drop_middle got k b Hb). clearbody b got. clear -Hk G1.
      assert (El : (k <= length got)%nat) by lia.
      rewrite take_app_alt by (rewrite take_length; lia). generalize (take k got) as d. generalize (drop (S k) got) as l. clear.
      intros l d. induction d as [|y d IH].
      - cbn [app rx fmap list_fmap]. destruct l; cbn [read_bytes]; eauto.
      - destruct IH as (a & Q & IH). exists a, Q. change ((y :: d) ++ b :: l) with (y :: (d ++ b :: l)). cbn [read_bytes].
        destruct (d ++ b :: l) as [|z m] eqn:E; [by destruct d|]. rewrite IH. done. }
    destruct Eg as (a & Q & Eg).
    assert (EL : h_log st0.1.1.1 = (L1 ++ [BStart; BAddr (sla A 1) true] ++ rx (take k got)) ++ BRx b a :: (Q ++ [BStop])).
    { rewrite G2. unfold read_bus. rewrite Eg. rewrite <- !app_assoc. done. }
    pose proof (sent_at _ _ _ HS _ _ _ _ EL) as Eb. rewrite Eb by (unfold L1; rewrite !app_length; lia).
    unfold s, fram_slave. cbn [snd].
    set (f1 := fram_after id f0 (h_log h)).
    assert (EW : write_bus A 1024 [addr mod 256] = [BStart; BAddr (sla A 0) true; BTx (addr mod 256) true]) by done.
    unfold L1. rewrite EW, !fram_app. fold f1.
    destruct (after_addr id addr Hid ltac:(lia) f1 true true) as (F1 & F2 & F3). fold A in F1, F2, F3.
    set (f2 := fold_left (fram_step id) [BStart; BAddr (sla A 0) true; BTx (addr mod 256) true] f1) in *.
    rewrite fold_left_app. cbn [fold_left]. unfold A at 1. unfold A at 1. rewrite step_addr by (done || lia). change (1 =? 1) with true. cbn [f_mem f_ptr fram_step].
    rewrite F2. rewrite (hi_lo id addr).
    destruct (after_read id addr (mkFram (f_mem f2) addr P_READ) (take k got) eq_refl ltac:(cbn [f_ptr]; lia) ltac:(cbn [f_ptr]; rewrite take_length; lia)) as (R1 & R2 & R3).
    rewrite R1, R3. cbn [f_mem f_ptr]. rewrite F1. rewrite take_length. replace (k `min` length got)%nat with k by lia. done. }
  split; [|split].
  - intros x. apply (erph_mem id addr n (h_log h) Hid ltac:(lia) Hn f0 _ _ H1).
  - intros Hk. apply (X evs r'); [exact H1|by left].
  - unfold st, eread_run. rewrite <- fold_left_app. apply (X _ 0%nat); [|by right]. unfold eread_run. rewrite fold_left_app. eapply erph_rounds; [done|done|exact H1|lia].
Qed.

(** ** Nobody there: EAGAIN for ever *)
Definition eabs (id addr : Z) (h : twhw) (c : twctx) (e : ectx) : Prop :=
  (e_ok id e /\ c_state c = T_IDLE /\ h_pend h = None) \/
  (e = mkE (dev_addr id addr) E_ADDRESS /\ exists L0 r, aph (dev_addr id addr) L0 0 (h, c) None r).
Lemma eabs_done s id addr h c e : absent (dev_addr id addr) s -> eabs id addr h c e -> eabs id addr (complete s h) c e.
Proof.
  intros Hs [(He & Hc & Hp)|(-> & L0 & r & H)].
  - left. unfold complete. rewrite Hp. done.
  - right. split; [done|]. exists L0, r. by destruct (aph_done s _ L0 Hs 0 h c None r (or_introl eq_refl) H).
Qed.
Lemma eabs_addr id addr h c flags b m L0 r : F_S flags = true -> aph (dev_addr id addr) L0 0 (h, c) None r ->
  let q := twi_write h c b m flags in
  (q.2 = Again \/ q.2 = Pipe) /\ exists L0 r, aph (dev_addr id addr) L0 0 q.1 None r.
Proof.
  intros HF H. cbn zeta. inversion H as [h' c' Hc Ha HL Hp|sr dr la|sr dr la Hsr|sr dr la|sr dr la Hsr|]; subst.
  - unfold twi_write. rewrite Hc. rewrite do_idle_S by done. split; [by left|]. cbn [fst]. unfold set_state. rewrite Ha. eexists _, _. apply A_start_p.
  - split; [by left|]. eexists _, _. apply A_start_p.
  - unfold twi_write. cbn [c_state]. rewrite do_start by done. split; [by left|]. eexists _, _. apply A_sla_p.
  - split; [by left|]. eexists _, _. apply A_sla_p.
  - unfold twi_write. cbn [c_state]. unfold write_sla, master_stop, rd_twcr. cbn [h_int h_cr h_sr].
    change (Z.testbit (Z.lor 4 128) 7) with true. replace (sr =? 24) with false by (destruct Hsr as [-> | ->]; done). cbn [negb].
    split; [by right|]. eexists _, _. cbn [fst]. by apply A_idle.
Qed.
Lemma ewrite_absent s id addr buf h c e evs : absent (dev_addr id addr) s -> buf <> [] -> c_state c = T_IDLE -> h_pend h = None -> e_ok id e ->
  (ewrite_run s addr buf evs (h, c, e, mkWc 0 None)).2 = mkWc 0 None.
Proof.
  intros Hs Hb Hc Hp He. assert (H : eabs id addr h c e) by (by left). clear Hc Hp He.
  revert h c e H. induction evs as [|ev evs IH]; intros h c e H; [done|]. cbn [ewrite_run fold_left]. 
  change (fold_left (ewrite_step s addr buf) evs) with (ewrite_run s addr buf evs). destruct ev; cbn [ewrite_step fst snd].
  - unfold ewrite_call. cbn [w_err w_count]. destruct (drop 0 buf) as [|b l] eqn:Eb; [by destruct buf|]. rewrite Z.add_0_r.
    unfold eeprom_write. destruct H as [(He & Hc & Hp)|(-> & L0 & r & H)].
    + pose proof He as [_ He2]. rewrite He2, (setup_addr id) by done. apply IH. right. split; [done|]. exists (h_log h), 3%nat. by apply A_idle.
    + cbn [e_state]. pose proof (eabs_addr id addr h c 1537 (addr mod 256) (1 + Z.of_nat (S (length l))) L0 r eq_refl H) as X. cbn zeta in X.
      destruct (twi_write h c (addr mod 256) (1 + Z.of_nat (S (length l))) 1537) as [[h' c'] x]. cbn [fst snd] in X. destruct X as [X1 X2].
      replace (is_count x 1) with false by (destruct X1 as [-> | ->]; done). apply IH. right. done.
  - apply IH. by apply eabs_done.
Qed.
Lemma eread_absent s id addr n h c e evs : absent (dev_addr id addr) s -> (0 < n)%nat -> c_state c = T_IDLE -> h_pend h = None -> e_ok id e ->
  (eread_run s addr n evs (h, c, e, mkRc [] None)).2 = mkRc [] None.
Proof.
  intros Hs Hb Hc Hp He. assert (H : eabs id addr h c e) by (by left). clear Hc Hp He.
  revert h c e H. induction evs as [|ev evs IH]; intros h c e H; [done|]. cbn [eread_run fold_left]. 
  change (fold_left (eread_step s addr n) evs) with (eread_run s addr n evs). destruct ev; cbn [eread_step fst snd].
  - unfold eread_call. cbn [r_err r_got length]. destruct (n - 0)%nat as [|l] eqn:Eb; [lia|]. rewrite Z.add_0_r.
    unfold eeprom_read. destruct H as [(He & Hc & Hp)|(-> & L0 & r & H)].
    + pose proof He as [_ He2]. rewrite He2, (setup_addr id) by done. apply IH. right. split; [done|]. exists (h_log h), 3%nat. by apply A_idle.
    + cbn [e_state]. pose proof (eabs_addr id addr h c 1024 (addr mod 256) 1 L0 r eq_refl H) as X. cbn zeta in X.
      destruct (twi_write h c (addr mod 256) 1 1024) as [[h' c'] x]. cbn [fst snd] in X. destruct X as [X1 X2].
      replace (is_count x 1) with false by (destruct X1 as [-> | ->]; done). apply IH. right. done.
  - apply IH. by apply eabs_done.
Qed.
(** After a write, the bus is not free. *)
Lemma ewrite_held id f0 addr buf h c e evs : 0 <= id < 4 -> 0 <= addr -> addr + Z.of_nat (length buf) <= 512 -> buf <> [] ->
  c_state c = T_IDLE -> h_pend h = None -> e_ok id e ->
  let st := ewrite_run (fram_slave id f0) addr buf evs (h, c, e, mkWc 0 None) in
  w_count st.2 = length buf -> held (h_log st.1.1.1) = true.
Proof.
  intros Hid H0 Hl Hb Hc Hp He st Hk.
  assert (Hpos : (0 < length buf)%nat) by (destruct buf; [done|cbn; lia]).
  assert (Hs : acks (dev_addr id addr) (fram_slave id f0)) by (apply fram_acks; done).
  assert (Hi : ewph id addr buf (h_log h) (h, c, e, mkWc 0 None) (length buf + 5)) by (by apply EW_setup).
  destruct (ewph_run _ id addr buf (h_log h) Hs Hb _ _ evs Hi) as (r' & Hr' & H1). fold st in H1.
  destruct (ewph_end id addr buf (h_log h) Hb _ _ H1 (or_introl Hk)) as (_ & G2 & _). rewrite G2.
  unfold write_bus. change (F_P 1024) with false. rewrite app_nil_r. destruct buf as [|b l] using rev_ind; [done|].
  rewrite app_comm_cons, fmap_app. unfold held. cbn [fmap list_fmap]. rewrite !app_assoc, last_snoc. done.
Qed.
Lemma eread_free id f0 addr n h c e evs : 0 <= id < 4 -> 0 <= addr -> addr + Z.of_nat n <= 512 -> (0 < n)%nat ->
  c_state c = T_IDLE -> h_pend h = None -> e_ok id e ->
  let st := eread_run (fram_slave id f0) addr n evs (h, c, e, mkRc [] None) in
  length (r_got st.2) = n -> held (h_log st.1.1.1) = false.
Proof.
  intros Hid H0 Hl Hn Hc Hp He st Hk.
  assert (Hs : acks (dev_addr id addr) (fram_slave id f0)) by (apply fram_acks; done).
  assert (Hi : erph id addr n (h_log h) (h, c, e, mkRc [] None) (n + 8)) by (by apply ER_setup).
  destruct (erph_run _ id addr n (h_log h) Hs Hn _ _ evs Hi) as (r' & Hr' & H1). fold st in H1.
  destruct (erph_end id addr n (h_log h) Hn _ _ H1 (or_introl Hk)) as (_ & G2 & _). rewrite G2.
  unfold read_bus, held. rewrite !app_assoc, last_snoc. done.
Qed.
Lemma read_back id f0 addr buf h c e evs evs' : 0 <= id < 4 -> 0 <= addr -> addr + Z.of_nat (length buf) <= 512 -> buf <> [] ->
  c_state c = T_IDLE -> h_pend h = None -> e_ok id e ->
  let s := fram_slave id f0 in
  let w := ewrite_run s addr buf evs (h, c, e, mkWc 0 None) in
  let r := eread_run s addr (length buf) evs' (w.1, mkRc [] None) in
  w_count w.2 = length buf -> length (r_got r.2) = length buf -> r_got r.2 = (fun b => b mod 256) <$> buf.
Proof.
  intros Hid H0 Hl Hb Hc Hp He s w r Hw Hr.
  assert (Hpos : (0 < length buf)%nat) by (destruct buf; [done|cbn; lia]).
  destruct (ewrite_all id f0 addr buf h c e evs Hid H0 Hl Hb Hc Hp He) as (_ & _ & W & _). fold s w in W.
  destruct (W Hw) as (_ & W1 & W2 & W3 & W4). clear W.
  destruct w as [[[h' c'] e'] u]. cbn [fst snd] in *.
  destruct (eread_all id f0 addr (length buf) h' c' e' evs' Hid H0 Hl Hpos W2 W3 W4) as (_ & _ & _ & R & _). fold s r in R.
  destruct (R Hr) as (_ & R1 & _). clear R.
  apply (list_eq_same_length _ _ (length buf)); [by rewrite fmap_length|done|].
  intros i x y Hi Hx Hy. specialize (R1 i Hi). rewrite (nth_lookup_Some _ _ _ _ Hx) in R1. rewrite R1, W1.
  unfold mem_upd. rewrite (proj2 (Z.leb_le _ _)), (proj2 (Z.ltb_lt _ _)) by lia. cbn [andb].
  replace (Z.to_nat (addr + Z.of_nat i - addr)) with i by lia.
  rewrite list_lookup_fmap in Hy. destruct (buf !! i) as [b|] eqn:E; [|discriminate Hy]. cbn in Hy. injection Hy as <-.
  rewrite (nth_lookup_Some _ _ _ _ E). rewrite Z.mod_mod by lia. done.
Qed.
