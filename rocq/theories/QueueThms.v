(** QueueThms.v - initialisation of queues, serial use by one task, capacity. *)
From Verif Require Import Base IpcModel IpcSpec IpcLogic IpcAvoid MutexProofs MutexThms CondSilent CondSignal QueueProofs.
From Coq Require Import ZifyBool ZifyNat.

Lemma qruns_runs {A} q M (p : prog A) M' a : qruns q M p M' a -> exists n, runs M p M' a n.
Proof. induction 1 as [|M o k M' a Ho R [n IH]]; [by eexists; constructor|]. exists (S n). by constructor. Qed.

(** IS_POW2 on unsigned values: zero or a power of two. *)
Lemma pow2_test b n : 0 <= b -> 0 < n < 2 ^ b -> Z.land n (n - 1) = 0 -> exists k, 0 <= k < b /\ n = 2 ^ k.
Proof.
  intros Hb Hn HL. exists (Z.log2 n).
  pose proof (Z.log2_spec n ltac:(lia)) as [H1 H2]. pose proof (Z.log2_nonneg n).
  assert (Z.log2 n < b) by (apply Z.log2_lt_pow2; lia). split; [lia|].
  destruct (decide (n = 2 ^ Z.log2 n)) as [|Hne]; [done|]. exfalso.
  assert (0 < 2 ^ Z.log2 n) by (apply Z.pow_pos_nonneg; lia).
  assert (B : Z.testbit (Z.land n (n - 1)) (Z.log2 n) = true).
  { rewrite Z.land_spec, Z.bit_log2 by lia. cbn.
    replace (Z.log2 n) with (Z.log2 (n - 1)); [apply Z.bit_log2; lia|].
    apply Z.log2_unique; [lia|]. unfold Z.succ in *. lia. }
  rewrite HL, Z.bits_0 in B. done.
Qed.

Lemma pow2_land k : 0 <= k -> Z.land (2 ^ k) (2 ^ k - 1) = 0.
Proof.
  intros Hk. replace (2 ^ k - 1) with (Z.ones k) by (rewrite Z.ones_equiv; lia).
  rewrite Z.land_ones by lia. apply Z_mod_same_full.
Qed.

Section qinit.
  Context (g : icfg) (q : nat).

  (** A power of two is accepted, and the queue is then empty whatever the memory held before. *)
  Lemma queue_init_ok M k :
    0 <= k < ic_szbits g ->
    exists M' n, runs M (queue_init g q (2 ^ k)) M' 0 n /\ rep q k M' [] /\
      (forall l, ~ qcell q l -> M' l = M l).
  Proof.
    intros Hk. pose proof (Npos g k Hk). pose proof (Nsz g k Hk).
    unfold queue_init, queue_head_init. rewrite wrap_small by lia. rewrite pow2_land by lia. cbn [Z.eqb passert].
    eexists _, _. split; [|split].
    - eapply runs_bind.
      + do 6 (apply runs_act; cbn [exec fst snd]). constructor.
      + apply runs_act. cbn [exec fst snd]. constructor.
    - constructor; cbn [length]; repeat first [rewrite upd_same | rewrite upd_other by done]; try done; try lia.
      + unfold qcap. cbn. lia.
      + change (Z.of_nat 0) with 0. rewrite Z.add_0_r. replace (2 ^ k - 1 + 1) with (1 * 2 ^ k) by lia. by rewrite Z_mod_mult.
    - intros l Hl. unfold qcell in Hl.
      repeat rewrite upd_other by (intros ->; apply Hl; eauto 10). done.
  Qed.

  Lemma queue_init_vals M k :
    0 <= k < ic_szbits g ->
    exists M' n, runs M (queue_init g q (2 ^ k)) M' 0 n /\
      (M' (LQlock q) = 0 /\ M' (LQmask q) = 2 ^ k - 1 /\ M' (LQr q) = 2 ^ k - 1 /\ M' (LQw q) = 0).
  Proof.
    intros Hk. pose proof (Npos g k Hk). pose proof (Nsz g k Hk).
    unfold queue_init, queue_head_init. rewrite wrap_small by lia. rewrite pow2_land by lia. cbn [Z.eqb passert].
    eexists _, _. split.
    - eapply runs_bind.
      + do 6 (apply runs_act; cbn [exec fst snd]). constructor.
      + apply runs_act. cbn [exec fst snd]. constructor.
    - repeat first [rewrite upd_same | rewrite upd_other by done]. done.
  Qed.

  (** Any other size but 0 stalls at once. *)
  Lemma queue_init_bad count :
    0 < count < 2 ^ ic_szbits g -> 0 <= ic_szbits g -> (forall k, count <> 2 ^ k) -> queue_init g q count = Stall.
  Proof.
    intros Hc Hb Hp. unfold queue_init, queue_head_init. rewrite wrap_small by lia.
    destruct (Z.land count (count - 1) =? 0) eqn:E; [|done].
    apply Z.eqb_eq in E. destruct (pow2_test (ic_szbits g) count) as (k & _ & Hk); [lia|lia|done|].
    by destruct (Hp k).
  Qed.
End qinit.

Section qserial.
  Context (g : icfg) (q : nat) (k : Z).
  Hypothesis Hk : 0 <= k < ic_szbits g.
  Notation cap := (qcap k).

  (** One task making any sequence of queue calls, each to its end. *)
  Fixpoint fifo_hist (i : nat) (cs : list call) (l : list Z) : list hev :=
    match cs with
    | [] => []
    | c :: cs =>
        HCall i c :: HRet i c (fst (snd (fifo_call cap c l))) (snd (snd (fifo_call cap c l))) ::
        fifo_hist i cs (fst (fifo_call cap c l))
    end.

  Lemma serial_exec i cs : Forall (fun c => on_queue q c = true) cs -> forall s l,
    y_thr s i = Out -> rep q k (y_mem s) l ->
    exists evs s', sys_run g s evs = Ok s' /\ y_thr s' i = Out /\
      y_hist s' = y_hist s ++ fifo_hist i cs l.
  Proof.
    induction 1 as [|c cs Hc Hcs IH]; intros s l Ht HR.
    - exists [], s. cbn. by rewrite app_nil_r.
    - assert (X : exists F' n, runs (y_mem s) (body g i c) F' (snd (fifo_call cap c l)) n /\
                  rep q k F' (fst (fifo_call cap c l))).
      { destruct c; try done; cbn [on_queue] in Hc; apply bool_decide_eq_true in Hc as ->; cbn [body].
        - destruct (runs_read g q k Hk (y_mem s) l HR) as (F' & R & HR'). apply qruns_runs in R as [n R]. eauto.
        - destruct (runs_write g q k Hk (y_mem s) l v HR) as (F' & R & HR'). apply qruns_runs in R as [n R]. eauto. }
      destruct X as (F' & n & R & HR'). destruct (snd (fifo_call cap c l)) as [r v] eqn:Ef.
      destruct (runs_alone g s i c F' r v n Ht R) as (s1 & Hrun & Em & Eh & Eo & _).
      destruct (IH s1 (fst (fifo_call cap c l))) as (evs & s' & H1 & H2 & H3); [done|by rewrite Em|].
      exists (alone i c (S n) ++ evs), s'. split; [by rewrite sys_run_app, Hrun|]. split; [done|].
      rewrite H3, Eh. cbn [fifo_hist]. rewrite Ef. cbn [fst snd]. rewrite <- !app_assoc. done.
  Qed.

  (** On a queue nobody reads, at most [cap] writes succeed. *)
  Lemma count_ev_cons P e h : count_ev P (e :: h) = ((if P e then 1 else 0) + count_ev P h)%nat.
  Proof. unfold count_ev. rewrite filter_cons. by destruct (P e). Qed.

  Lemma writes_bound h : forall l l',
    fifo_replay cap q l h = Some l' -> count_ev (is_read q) h = 0%nat ->
    Z.of_nat (length l) <= cap ->
    Z.of_nat (length l') = Z.of_nat (length l) + Z.of_nat (count_ev (is_written q) h) /\
    Z.of_nat (length l') <= cap.
  Proof.
    induction h as [|e h IH]; intros l l' Hr Hn Hl.
    - injection Hr as ->. cbn. lia.
    - rewrite count_ev_cons in *. assert (Hn' : count_ev (is_read q) h = 0%nat) by lia.
      destruct e as [i c|i c r v]; cbn [fifo_replay] in Hr.
      + cbn [is_written]. by apply IH.
      + destruct (on_queue q c) eqn:Eq.
        * case_decide as D; [|done].
          destruct c; try done; cbn [on_queue] in Eq.
          { cbn [is_read] in Hn. rewrite Eq in Hn. cbn [fifo_call] in *. destruct l; cbn [fst snd] in *; injection D as <- <-.
            - cbn [is_written]. by apply IH.
            - done. }
          cbn [fifo_call is_written] in *. rewrite Eq.
          destruct (Z.of_nat (length l) <? cap) eqn:E; cbn [fst snd] in *; injection D as <- <-.
          -- destruct (IH (l ++ [v0]) l') as [H1 H2]; [done|done|rewrite app_length; cbn; lia|].
             rewrite app_length in H1. cbn [length andb Z.eqb] in *. lia.
          -- cbn. by apply IH.
        * replace (is_written q (HRet i c r v)) with false; [by apply IH|].
          destruct c; try done. cbn in *. by rewrite Eq.
  Qed.

  (** ... and they are the first ones. *)
  Lemma write_results_cons e h : write_results q (e :: h) =
    match e with HRet _ (QueueWrite q' _) r _ => if bool_decide (q' = q) then [r] else [] | _ => [] end ++ write_results q h.
  Proof. destruct e as [i c|i c r v]; [done|]. destruct c; try done. unfold write_results. cbn. by destruct (bool_decide (q0 = q)). Qed.
  Lemma writes_exact h : forall l l',
    fifo_replay cap q l h = Some l' -> count_ev (is_read q) h = 0%nat -> Z.of_nat (length l) <= cap ->
    write_results q h = map (fun j => if Z.of_nat j <? cap then 0 else - EAGAIN) (seq (length l) (length (write_results q h))) \/
    (Z.of_nat (length l) = cap /\ write_results q h = replicate (length (write_results q h)) (- EAGAIN)).
  Proof.
    induction h as [|e h IH]; intros l l' Hr Hn Hl; [by left|].
    rewrite count_ev_cons in Hn. rewrite write_results_cons.
    assert (Hn' : count_ev (is_read q) h = 0%nat) by lia.
    destruct e as [i c|i c r v]; cbn [fifo_replay] in Hr; [by apply (IH l l')|].
    destruct (on_queue q c) eqn:Eq.
    - case_decide as D; [|done]. destruct c; try done; cbn [on_queue] in Eq.
      + cbn [is_read] in Hn. rewrite Eq in Hn. cbn [fifo_call] in *. destruct l; cbn [fst snd] in *; injection D as <- <-; [|done].
        by apply (IH [] l').
      + rewrite Eq. cbn [fifo_call] in *. destruct (Z.of_nat (length l) <? cap) eqn:E; cbn [fst snd] in *; injection D as <- <-.
        * destruct (IH (l ++ [v0]) l') as [H|[H1 H2]]; [done|done|rewrite app_length; cbn; lia| |].
          -- left. rewrite app_length in H. cbn [length] in H. rewrite Nat.add_1_r in H. cbn [app length seq map]. rewrite E. by f_equal.
          -- left. rewrite app_length in H1. cbn [length] in H1. cbn [app length seq map]. rewrite E. f_equal.
             rewrite H2 at 1. apply list_eq. intros j. rewrite list_lookup_fmap.
             destruct (decide (j < length (write_results q h))%nat) as [Hj|Hj].
             ++ rewrite lookup_replicate_2, lookup_seq_lt by done. cbn [fmap option_fmap option_map]. f_equal. symmetry.
                destruct (Z.ltb_spec (Z.of_nat (S (length l) + j)) cap) as [E'|E']; [|done]. lia.
             ++ rewrite lookup_ge_None_2 by (rewrite replicate_length; lia). rewrite lookup_seq_ge by lia. done.
        * right. split; [lia|]. destruct (IH l l') as [H|[H1 H2]]; [done|done|done| |].
          -- cbn [app length replicate]. f_equal. rewrite H at 1. apply list_eq. intros j. rewrite list_lookup_fmap.
             destruct (decide (j < length (write_results q h))%nat) as [Hj|Hj].
             ++ rewrite lookup_replicate_2, lookup_seq_lt by done. cbn [fmap option_fmap option_map]. f_equal.
                destruct (Z.ltb_spec (Z.of_nat (length l + j)) cap) as [E'|E']; [|done]. lia.
             ++ rewrite (lookup_ge_None_2 (replicate _ _)) by (rewrite replicate_length; lia). rewrite lookup_seq_ge by lia. done.
          -- cbn [app length replicate]. by f_equal.
    - destruct (match c with QueueWrite q' _ => if bool_decide (q' = q) then [r] else [] | _ => [] end) eqn:Ec.
      + by apply (IH l l').
      + destruct c; try done. cbn in Eq. rewrite Eq in Ec. done.
  Qed.
  Lemma writes_results h l' :
    fifo_replay cap q [] h = Some l' -> count_ev (is_read q) h = 0%nat ->
    write_results q h = map (fun j => if Z.of_nat j <? cap then 0 else - EAGAIN) (seq 0 (length (write_results q h))).
  Proof.
    intros H1 H2. destruct (writes_exact h [] l' H1 H2) as [H|[H3 H]]; [cbn; unfold qcap; lia|done|].
    rewrite H at 1. cbn in H3. apply list_eq. intros j. rewrite list_lookup_fmap.
    destruct (decide (j < length (write_results q h))%nat) as [Hj|Hj].
    - rewrite lookup_replicate_2, lookup_seq_lt by done. cbn [fmap option_fmap option_map]. f_equal.
      destruct (Z.ltb_spec (Z.of_nat (0 + j)) cap) as [E'|E']; [|done]. lia.
    - rewrite (lookup_ge_None_2 (replicate _ _)) by (rewrite replicate_length; lia). rewrite lookup_seq_ge by lia. done.
  Qed.
End qserial.
