(** SpinProofs.v - proofs about the spin locks. *)
From Verif Require Import Base SchedModel SmpModel SpinModel SpinSpec.
From Coq Require Import ZifyBool ZifyNat.

Lemma setk_eq {A} (f : nat -> A) k a : setk f k a k = a.
Proof. unfold setk. by rewrite Nat.eqb_refl. Qed.
Lemma setk_ne {A} (f : nat -> A) k a j : j <> k -> setk f k a j = f j.
Proof. intros H. unfold setk. by destruct (Nat.eqb_spec j k). Qed.

Section spin.
  Context {Sh C : Type} (cfg : lockcfg) (body : C -> list (Sh -> Sh)).
  Notation world := (world Sh C).
  Notation step := (spin_step cfg body).
  Notation run := (spin_run cfg body).

  Lemma run_app a b w : run (a ++ b) w = run b (run a w).
  Proof. apply fold_left_app. Qed.
  Lemma run_snoc a k w : run (a ++ [k]) w = step (run a w) k.
  Proof. apply run_app. Qed.

  (** The cores not stepping keep their counters and calls. *)
  Lemma step_other w k j : j <> k -> w_pc (step w k) j = w_pc w j /\ w_todo (step w k) j = w_todo w j.
  Proof.
    intros Hj. unfold spin_step, give_up, enter, with_pc, with_gate.
    repeat case_match; cbn [w_pc w_todo w_gate w_shared w_log]; rewrite ?(setk_ne _ _ _ _ Hj); done.
  Qed.

  (** The log only grows. *)
  Lemma step_log w k : exists l, w_log (step w k) = w_log w ++ l.
  Proof.
    unfold spin_step, give_up, enter, with_pc, with_gate.
    repeat case_match; cbn [w_pc w_todo w_gate w_shared w_log]; eauto; exists []; by rewrite app_nil_r.
  Qed.
  Lemma gave_up_mono w k : never_gave_up (step w k) -> never_gave_up w.
  Proof. destruct (step_log w k) as [l E]. unfold never_gave_up. rewrite E. intros H. by apply Forall_app in H as [H _]. Qed.

  (** ** What one step can be *)
  Inductive step_kind (w : world) (k : nat) : world -> Prop :=
  | sk_none : step_kind w k w
  | sk_start p : w_pc w k = Out -> w_todo w k <> [] -> (exists d, p = Wr d \/ p = Rd d) ->
      step_kind w k (with_pc w k p)
  | sk_write d : w_pc w k = Wr d ->
      step_kind w k (with_pc (with_gate w (sema_write k (Z.of_nat k + 1) (w_gate w))) k (Rd d))
  | sk_retry p : (exists d, w_pc w k = Rd d) -> (exists d, p = Wr d \/ p = Rd d) -> step_kind w k (with_pc w k p)
  | sk_enter c cs g : (exists d, w_pc w k = Rd d) -> w_todo w k = c :: cs -> g = Z.of_nat k + 1 ->
      (w_gate w = 0 \/ w_gate w = Z.of_nat k + 1) ->
      step_kind w k (mkWorld g (w_shared w) (setk (w_pc w) k (Inside true (body c))) (w_todo w) (w_log w ++ [(k, c, true)]))
  | sk_giveup c cs : l_ndebug cfg = true -> (w_pc w k = Out \/ exists d, w_pc w k = Rd d) -> w_todo w k = c :: cs ->
      step_kind w k (mkWorld (w_gate w) (w_shared w) (setk (w_pc w) k (Inside false (body c))) (w_todo w) (w_log w ++ [(k, c, false)]))
  | sk_break : (w_pc w k = Out \/ exists d, w_pc w k = Rd d) -> step_kind w k (with_pc w k Broken)
  | sk_body b f rest : w_pc w k = Inside b (f :: rest) ->
      step_kind w k (mkWorld (w_gate w) (f (w_shared w)) (setk (w_pc w) k (Inside b rest)) (w_todo w) (w_log w))
  | sk_leave b g : w_pc w k = Inside b [] ->
      g = match l_hw cfg with Sema => sema_write k 0 (w_gate w) | Sio => 0 end ->
      step_kind w k (mkWorld g (w_shared w) (setk (w_pc w) k Out) (setk (w_todo w) k (tail (w_todo w k))) (w_log w)).

  (** Well-formedness: a core in arch_spin_lock or inside has a call to make. *)
  Definition busy_todo (w : world) : Prop := forall k, w_pc w k <> Out -> w_todo w k <> [].

  Lemma step_cases w k : busy_todo w -> step_kind w k (step w k).
  Proof.
    intros Hb. specialize (Hb k). unfold spin_step.
    destruct (w_pc w k) as [|d|d|b [|f rest]|] eqn:Epc.
    - destruct (w_todo w k) as [|c cs] eqn:Et; [constructor|].
      destruct (l_hw cfg).
      + destruct (l_count cfg).
        * unfold give_up. destruct (l_ndebug cfg) eqn:En.
          -- unfold enter. rewrite Et. eapply sk_giveup; eauto.
          -- apply sk_break; eauto.
        * apply sk_start; eauto. by rewrite Et.
      + apply sk_start; eauto. by rewrite Et.
    - by apply sk_write.
    - destruct (w_todo w k) as [|c cs] eqn:Et; [by destruct (Hb ltac:(done))|].
      destruct (l_hw cfg).
      + destruct (Z.eqb_spec (w_gate w) (Z.of_nat k + 1)) as [Eg|Eg].
        * unfold enter. rewrite Et. rewrite Eg. eapply sk_enter; eauto.
        * destruct d.
          -- unfold give_up. destruct (l_ndebug cfg) eqn:En.
             ++ unfold enter. rewrite Et. eapply sk_giveup; eauto.
             ++ apply sk_break; eauto.
          -- apply sk_retry; eauto.
      + unfold sio_read. destruct (Z.eqb_spec (w_gate w) 0) as [Eg|Eg].
        * cbn [negb]. change (negb (1 =? 0)) with true. cbv iota.
          unfold enter, with_gate. cbn [w_todo w_gate w_shared w_pc w_log]. rewrite Et. eapply sk_enter; eauto.
        * change (negb (0 =? 0)) with false. cbv iota.
          assert (Ew : with_gate w (w_gate w) = w) by (by destruct w). rewrite Ew.
          destruct d.
          -- unfold give_up. destruct (l_ndebug cfg) eqn:En.
             ++ unfold enter. rewrite Et. eapply sk_giveup; eauto.
             ++ apply sk_break; eauto.
          -- apply sk_retry; eauto.
    - eapply sk_leave; [done|]. by destruct (l_hw cfg).
    - by apply sk_body.
    - constructor.
  Qed.

  Lemma step_busy w k : busy_todo w -> busy_todo (step w k).
  Proof.
    intros Hb j Hj. destruct (decide (j = k)) as [->|Hne].
    - assert (Ebr : w_pc w k = Out -> w_todo w k = [] -> step w k = w) by (intros E1 E2; unfold spin_step; by rewrite E1, E2).
      pose proof (step_cases w k Hb) as K. specialize (Hb k). revert Hj Ebr. revert K. generalize (step w k). intros w' K.
      destruct K as [|p E1 E2 E3|d E1|p [d0 E1] E2|c cs g E1 E2 E3 E4|c cs E0 E1 E2|E1|b f rest E1|b g E1 E2];
        cbn [w_pc w_todo with_pc with_gate]; rewrite ?setk_eq; intros Hj Ebr; try done.
      + auto.
      + apply Hb. congruence.
      + apply Hb. congruence.
      + congruence.
      + congruence.
      + destruct E1 as [E1|[d E1]]; [|apply Hb; congruence].
        intros Et. specialize (Ebr E1 Et). apply (f_equal (fun w => w_pc w k)) in Ebr. unfold with_pc in Ebr. cbn [w_pc] in Ebr. rewrite setk_eq in Ebr. congruence.
      + apply Hb. congruence.
    - destruct (step_other w k j Hne) as [E1 E2]. rewrite E1 in Hj. rewrite E2. by apply Hb.
  Qed.
  Lemma run_busy sched w : busy_todo w -> busy_todo (run sched w).
  Proof. revert w. induction sched as [|k l IH]; intros w H; [done|]. apply IH. by apply step_busy. Qed.

  (** ** Mutual exclusion and serialization *)
  Record good (s0 : Sh) (todo0 : nat -> list C) (w : world) : Prop := {
    gd_busy : busy_todo w;
    gd_in : forall k b rest, w_pc w k = Inside b rest -> b = true /\ w_gate w = Z.of_nat k + 1;
    gd_seq_in : forall k b rest, w_pc w k = Inside b rest -> alone rest (w_shared w) = in_sequence body (entered w) s0;
    gd_seq_out : (forall k, ~ inside w k) -> w_shared w = in_sequence body (entered w) s0
  }.
  Lemma entered_snoc (w : world) g s p t k c b : entered (mkWorld g s p t (w_log w ++ [(k, c, b)]) : world) = entered w ++ [c].
  Proof. unfold entered. cbn [w_log]. by rewrite map_app. Qed.
  Lemma in_sequence_snoc cs c s : in_sequence body (cs ++ [c]) s = alone (body c) (in_sequence body cs s).
  Proof. unfold in_sequence. by rewrite fold_left_app. Qed.

  Lemma good_step s0 todo0 w k : good s0 todo0 w -> never_gave_up (step w k) -> good s0 todo0 (step w k).
  Proof.
    intros [Hb Hin Hsi Hso] Hn. pose proof (step_busy w k Hb) as Hb'. pose proof (step_cases w k Hb) as K.
    assert (X : forall j b rest, w_pc w j = Inside b rest -> inside w j) by (intros j b rest E; by exists b, rest).
    (* changes of the counter of [k] between outside states *)
    assert (Y : forall w' p, w_pc w' = setk (w_pc w) k p -> w_shared w' = w_shared w -> w_log w' = w_log w ->
              (forall b rest, w_pc w k <> Inside b rest) -> (forall b rest, p <> Inside b rest) ->
              (forall j b rest, j <> k -> w_pc w j = Inside b rest -> w_gate w' = w_gate w) ->
              busy_todo w' -> good s0 todo0 w').
    { intros w' p E1 E2 E3 N1 N2 G B. split; [done| | |].
      - intros j b rest E. rewrite E1 in E. destruct (decide (j = k)) as [->|Hj]; [rewrite setk_eq in E; by destruct (N2 b rest)|].
        rewrite setk_ne in E by done. rewrite (G j b rest) by done. by apply Hin in E.
      - intros j b rest E. rewrite E1 in E. destruct (decide (j = k)) as [->|Hj]; [rewrite setk_eq in E; by destruct (N2 b rest)|].
        rewrite setk_ne in E by done. unfold entered. rewrite E2, E3. by eapply Hsi.
      - intros No. unfold entered. rewrite E2, E3. apply Hso. intros j (b & rest & E). apply (No j). exists b, rest.
        rewrite E1. destruct (decide (j = k)) as [->|Hj]; [by destruct (N1 b rest)|]. by rewrite setk_ne. }
    revert Hn Hb' K. generalize (step w k). intros w' Hn Hb' K.
    destruct K as [|p E1 E2 [d E3]|d E1|p [d0 E1] [d E2]|c cs g [d E1] E2 E3 E4|c cs E0 E1 E2|E1|b f rest E1|b g E1 E2].
    - by split.
    - eapply (Y _ p); cbn [w_pc with_pc w_shared w_log w_gate]; try done; try congruence. destruct E3 as [->| ->]; done.
    - eapply (Y _ (Rd d)); cbn [w_pc with_pc with_gate w_shared w_log w_gate]; try done; try congruence.
      intros j b rest Hj Ej. apply Hin in Ej as [_ Eg]. rewrite Eg. unfold sema_write.
      destruct (Z.eqb_spec (Z.of_nat j + 1) 0); [lia|]. destruct (Z.eqb_spec (Z.of_nat k + 1) 0); [lia|]. done.
    - eapply (Y _ p); cbn [w_pc with_pc w_shared w_log w_gate]; try done; try congruence. destruct E2 as [->| ->]; done.
    - assert (No : forall j, ~ inside w j).
      { intros j (b & rest & Ej). pose proof (Hin _ _ _ Ej) as [_ Eg]. destruct E4 as [E4|E4]; [lia|].
        assert (j = k) by lia. subst j. congruence. }
      split; [done| | |]; cbn [w_pc w_gate w_shared].
      + intros j b rest Ej. destruct (decide (j = k)) as [->|Hj]; [rewrite setk_eq in Ej; injection Ej; intros; subst; done|].
        rewrite setk_ne in Ej by done. by destruct (No j (X _ _ _ Ej)).
      + intros j b rest Ej. destruct (decide (j = k)) as [->|Hj].
        * rewrite setk_eq in Ej. injection Ej as <- <-. rewrite entered_snoc, in_sequence_snoc, <- Hso by done. done.
        * rewrite setk_ne in Ej by done. by destruct (No j (X _ _ _ Ej)).
      + intros No'. exfalso. apply (No' k). exists true, (body c). cbn [w_pc]. by rewrite setk_eq.
    - exfalso. unfold never_gave_up in Hn. cbn [w_log] in Hn. apply Forall_app in Hn as [_ Hn]. inversion Hn. done.
    - eapply (Y _ Broken); cbn [w_pc with_pc w_shared w_log w_gate]; try done; destruct E1 as [E1|[d E1]]; try congruence.
    - pose proof (Hin _ _ _ E1) as [-> Eg].
      assert (Uk : forall j b' r', w_pc w j = Inside b' r' -> j = k) by (intros j b' r' Ej; apply Hin in Ej as [_ ?]; lia).
      split; [done| | |]; cbn [w_pc w_gate w_shared].
      + intros j b' r' Ej. destruct (decide (j = k)) as [->|Hj]; [rewrite setk_eq in Ej; injection Ej; intros; subst; done|].
        rewrite setk_ne in Ej by done. by apply Uk in Ej.
      + intros j b' r' Ej. destruct (decide (j = k)) as [->|Hj]; [|rewrite setk_ne in Ej by done; by apply Uk in Ej].
        rewrite setk_eq in Ej. injection Ej as <- <-. pose proof (Hsi _ _ _ E1) as Q. exact Q.
      + intros No'. exfalso. apply (No' k). exists true, rest. cbn [w_pc]. by rewrite setk_eq.
    - pose proof (Hin _ _ _ E1) as [-> Eg].
      assert (Uk : forall j b' r', w_pc w j = Inside b' r' -> j = k) by (intros j b' r' Ej; apply Hin in Ej as [_ ?]; lia).
      assert (Z0 : forall j b' r', setk (w_pc w) k Out j = Inside b' r' -> False).
      { intros j b' r' Ej. destruct (decide (j = k)) as [->|Hj]; [rewrite setk_eq in Ej; done|].
        rewrite setk_ne in Ej by done. by apply Uk in Ej. }
      split; [done| | |]; cbn [w_pc w_gate w_shared].
      + intros j b' r' Ej. by apply Z0 in Ej.
      + intros j b' r' Ej. by apply Z0 in Ej.
      + intros _. exact (Hsi _ _ _ E1).
  Qed.
  Lemma good_init s todo : good s todo (spin_init s todo).
  Proof. split; cbn; try done; by intros ? ?. Qed.
  Lemma good_run s todo sched : never_gave_up (run sched (spin_init s todo)) -> good s todo (run sched (spin_init s todo)).
  Proof.
    induction sched as [|k l IH] using rev_ind; [intros _; apply good_init|].
    rewrite run_snoc. intros Hn. apply good_step; [|done]. apply IH. by eapply gave_up_mono.
  Qed.

  Lemma mutual_exclusion s todo sched j k :
    let w := run sched (spin_init s todo) in never_gave_up w -> inside w j -> inside w k -> j = k.
  Proof.
    intros w Hn (b1 & r1 & E1) (b2 & r2 & E2). destruct (good_run s todo sched Hn) as [_ H _ _].
    apply H in E1 as [_ E1]. apply H in E2 as [_ E2]. fold w in E1, E2. lia.
  Qed.
  Lemma debug_never s todo sched : l_ndebug cfg = false -> never_gave_up (run sched (spin_init s todo)).
  Proof.
    intros Hd. induction sched as [|k l IH] using rev_ind; [by constructor|]. rewrite run_snoc.
    set (w := run l (spin_init s todo)) in *. assert (Hb : busy_todo w) by (apply run_busy; by intros ? ?).
    pose proof (step_cases w k Hb) as K.
    destruct K as [|p E1 E2 [d E3]|d E1|p [d0 E1] [d E2]|c cs g [d E1] E2 E3 E4|c cs E0 E1 E2|E1|b f rest E1|b g E1 E2];
      try done; [|congruence].
    unfold never_gave_up. cbn [w_log]. apply Forall_app. split; [done|]. by repeat constructor.
  Qed.
  Lemma serialized s todo sched :
    let w := run sched (spin_init s todo) in never_gave_up w ->
    ((forall k, ~ inside w k) -> w_shared w = in_sequence body (entered w) s) /\
    (forall k b rest, w_pc w k = Inside b rest -> alone rest (w_shared w) = in_sequence body (entered w) s).
  Proof. intros w Hn. destruct (good_run s todo sched Hn) as [_ _ H1 H2]. split; [exact H2|exact H1]. Qed.

  (** Each core makes its calls in order (even if some arch_spin_lock gave up). *)
  #[global] Instance inside_dec (w : world) k : Decision (inside w k).
  Proof. unfold inside. destruct (w_pc w k) as [|d|d|b r|] eqn:E; [right|right|right|left|right]; try (intros (? & ? & ?); done). by exists b, r. Defined.
  Definition left_to_do (p : pc Sh) (t : list C) : list C := match p with Inside _ _ => tail t | _ => t end.
  Lemma entered_on_snoc (w : world) g s p t j c b k :
    entered_on (mkWorld g s p t (w_log w ++ [(j, c, b)]) : world) k = entered_on w k ++ (if Nat.eqb j k then [c] else []).
  Proof.
    unfold entered_on. cbn [w_log]. rewrite filter_app, map_app. f_equal. rewrite filter_cons. cbn [fst snd].
    destruct (Nat.eqb_spec j k) as [->|Hne]; [rewrite decide_True by done|rewrite decide_False by done]; done.
  Qed.
  Lemma order_step (w : world) j k : busy_todo w ->
    entered_on (step w j) k ++ left_to_do (w_pc (step w j) k) (w_todo (step w j) k) = entered_on w k ++ left_to_do (w_pc w k) (w_todo w k).
  Proof.
    intros Hb. destruct (decide (k = j)) as [->|Hk].
    - pose proof (step_cases w j Hb) as K. revert K. generalize (step w j). intros w' K.
      destruct K as [|p E1 E2 [d E3]|d E1|p [d0 E1] [d E2]|c cs g [d E1] E2 E3 E4|c cs E0 E1 E2|E1|b f rest E1|b g E1 E2];
        rewrite ?entered_on_snoc, ?Nat.eqb_refl; cbn [w_pc w_todo with_pc with_gate]; rewrite ?setk_eq.
      + done.
      + rewrite E1. by destruct E3 as [->| ->].
      + rewrite E1. done.
      + rewrite E1. by destruct E2 as [->| ->].
      + rewrite E1, E2. cbn [left_to_do tail]. by rewrite <- app_assoc.
      + rewrite E2. cbn [left_to_do tail]. rewrite <- app_assoc. by destruct E1 as [->|[d ->]].
      + by destruct E1 as [->|[d ->]].
      + rewrite E1. done.
      + rewrite E1. done.
    - destruct (step_other w j k Hk) as [E1 E2]. rewrite E1, E2. f_equal.
      pose proof (step_cases w j Hb) as K. revert K. generalize (step w j). intros w' K.
      destruct K as [|p F1 F2 [d F3]|d F1|p [d0 F1] [d F2]|c cs g [d F1] F2 F3 F4|c cs F0 F1 F2|F1|b f rest F1|b g F1 F2];
        rewrite ?entered_on_snoc; try done.
      + destruct (Nat.eqb_spec j k); [congruence|]. by rewrite app_nil_r.
      + destruct (Nat.eqb_spec j k); [congruence|]. by rewrite app_nil_r.
  Qed.
  Lemma in_order s todo sched k : entered_on (run sched (spin_init s todo)) k `prefix_of` todo k.
  Proof.
    set (w := run sched (spin_init s todo)).
    enough (E : entered_on w k ++ left_to_do (w_pc w k) (w_todo w k) = todo k) by (rewrite <- E; by apply prefix_app_r).
    subst w. induction sched as [|j l IH] using rev_ind; [done|]. rewrite run_snoc, order_step; [done|].
    apply run_busy. by intros ? ?.
  Qed.

  (** ** A free lock is acquired *)
  (** Sema: once taken, the gate stays to its owner until the owner releases it, whatever the others do. *)
  Lemma sema_keep w j k : l_hw cfg = Sema -> j <> k -> w_gate w = Z.of_nat k + 1 -> w_gate (step w j) = Z.of_nat k + 1.
  Proof.
    intros Hh Hj Hg. unfold spin_step, give_up, enter, with_pc, with_gate. rewrite Hh.
    repeat case_match; cbn [w_pc w_todo w_gate w_shared w_log]; try done;
    unfold sema_write; rewrite Hg; repeat case_match; lia.
  Qed.
  Lemma sema_keep_run l k : forall w : world, l_hw cfg = Sema -> (forall j, j ∈ l -> j <> k) -> w_gate w = Z.of_nat k + 1 ->
    w_gate (run l w) = Z.of_nat k + 1 /\ w_pc (run l w) k = w_pc w k /\ w_todo (run l w) k = w_todo w k.
  Proof.
    induction l as [|j l IH]; intros w Hh Hl Hg; [done|]. change (run (j :: l) w) with (run l (step w j)).
    assert (Hj : k <> j) by (intros E; apply (Hl j); [left|done]).
    destruct (step_other w j k Hj) as [E1 E2]. rewrite <- E1, <- E2. apply IH; [done| |].
    - intros i Hi. apply Hl. by right.
    - by apply sema_keep.
  Qed.
  Lemma sema_attempt w k d l : l_hw cfg = Sema -> busy_todo w -> w_pc w k = Wr d -> w_gate w = 0 -> (forall j, j ∈ l -> j <> k) ->
    exists rest, w_pc (run (k :: l ++ [k]) w) k = Inside true rest.
  Proof.
    intros Hh Hb Hp Hg Hl. change (run (k :: l ++ [k]) w) with (run (l ++ [k]) (step w k)). rewrite run_snoc.
    assert (E : w_gate (step w k) = Z.of_nat k + 1 /\ w_pc (step w k) k = Rd d /\ w_todo (step w k) k = w_todo w k).
    { unfold spin_step. rewrite Hp. cbn [with_pc with_gate w_gate w_pc w_todo]. rewrite setk_eq. split; [|done].
      rewrite Hg. unfold sema_write. cbn [Z.eqb]. by rewrite Z.eqb_refl. }
    destruct E as (E1 & E2 & E3).
    destruct (sema_keep_run l k (step w k) Hh Hl E1) as (F1 & F2 & F3). rewrite E2 in F2. rewrite E3 in F3.
    unfold spin_step at 1. rewrite F2, Hh, F1, Z.eqb_refl. unfold enter. rewrite F3.
    destruct (w_todo w k) as [|c cs] eqn:Et; [destruct (Hb k); [congruence|done]|]. cbn [w_pc]. rewrite setk_eq. eauto.
  Qed.
  Lemma sio_attempt w k d : l_hw cfg = Sio -> busy_todo w -> w_pc w k = Rd d -> w_gate w = 0 ->
    exists rest, w_pc (step w k) k = Inside true rest.
  Proof.
    intros Hh Hb Hp Hg. unfold spin_step. rewrite Hp, Hh, Hg. unfold sio_read. cbn [Z.eqb negb]. unfold enter, with_gate. cbn [w_todo].
    destruct (w_todo w k) as [|c cs] eqn:Et; [destruct (Hb k); [congruence|done]|]. cbn [w_pc]. rewrite setk_eq. eauto.
  Qed.

  (** ** Release builds: a core that waits too long goes in without the lock *)
  Lemma enter_pc (w : world) k b : w_todo w k <> [] -> exists rest, w_pc (enter body w k b) k = Inside b rest.
  Proof. intros H. unfold enter. destruct (w_todo w k) as [|c cs]; [done|]. cbn [w_pc]. rewrite setk_eq. eauto. Qed.
  Lemma give_up_pc (w : world) k : l_ndebug cfg = true -> w_todo w k <> [] -> exists rest, w_pc (give_up cfg body w k) k = Inside false rest.
  Proof. intros H1 H2. unfold give_up. rewrite H1. by apply enter_pc. Qed.
  Lemma step_pc_not_leave w k j : j <> k -> w_pc (step w k) j = w_pc w j.
  Proof. intros H. by apply step_other. Qed.
  Lemma run_other l k : forall w, (forall j, j ∈ l -> j <> k) -> w_pc (run l w) k = w_pc w k /\ w_todo (run l w) k = w_todo w k.
  Proof.
    induction l as [|j l IH]; intros w Hl; [done|]. change (run (j :: l) w) with (run l (step w j)).
    destruct (IH (step w j)) as [E1 E2]; [intros i Hi; apply Hl; by right|]. rewrite E1, E2.
    apply step_other. intros E. apply (Hl j); [left|done].
  Qed.

  (** Sema: the gate belongs to core 0, core 1 tries [d + 1] times. *)
  Lemma sema_spin d : forall w : world, l_hw cfg = Sema -> l_ndebug cfg = true -> w_todo w 1%nat <> [] -> w_gate w = 1 -> w_pc w 1%nat = Wr d ->
    exists n rest, w_pc (run (repeat 1%nat n) w) 1%nat = Inside false rest.
  Proof.
    induction d as [|d IH]; intros w Hh Hn Ht Hg Hp.
    - assert (E : step w 1 = with_pc (with_gate w 1) 1 (Rd 0)).
      { unfold spin_step. rewrite Hp, Hg. done. }
      exists 2%nat. change (run (repeat 1%nat 2) w) with (step (step w 1) 1). rewrite E.
      unfold spin_step. cbn [with_pc with_gate w_pc w_gate]. rewrite setk_eq, Hh. change (1 =? Z.of_nat 1 + 1) with false. cbv iota.
      apply give_up_pc; [done|]. done.
    - assert (E : step w 1 = with_pc (with_gate w 1) 1 (Rd (S d))).
      { unfold spin_step. rewrite Hp, Hg. done. }
      assert (E2 : step (step w 1) 1 = with_pc (step w 1) 1 (Wr d)).
      { rewrite E. unfold spin_step at 1. cbn [with_pc with_gate w_pc w_gate]. rewrite setk_eq, Hh. change (1 =? Z.of_nat 1 + 1) with false. done. }
      destruct (IH (step (step w 1) 1)) as (n & rest & H); [done|done|..].
      + by rewrite E2, E.
      + by rewrite E2, E.
      + rewrite E2. cbn [with_pc w_pc]. by rewrite setk_eq.
      + exists (S (S n)), rest. done.
  Qed.
  Lemma sio_spin d : forall w : world, l_hw cfg = Sio -> l_ndebug cfg = true -> w_todo w 1%nat <> [] -> w_gate w = 1 -> w_pc w 1%nat = Rd d ->
    exists n rest, w_pc (run (repeat 1%nat n) w) 1%nat = Inside false rest.
  Proof.
    induction d as [|d IH]; intros w Hh Hn Ht Hg Hp.
    - exists 1%nat. change (run (repeat 1%nat 1) w) with (step w 1). unfold spin_step. rewrite Hp, Hh, Hg.
      unfold sio_read. change (1 =? 0) with false. cbv iota. change (negb (0 =? 0)) with false. cbv iota.
      apply give_up_pc; done.
    - assert (E : step w 1 = with_pc (with_gate w 1) 1 (Rd d)).
      { unfold spin_step. rewrite Hp, Hh, Hg. done. }
      destruct (IH (step w 1)) as (n & rest & H); [done|done|..].
      + by rewrite E.
      + by rewrite E.
      + rewrite E. cbn [with_pc w_pc]. by rewrite setk_eq.
      + exists (S n), rest. done.
  Qed.
  (** Core 0 gets in from the initial state. *)
  Lemma first_in s todo : todo 0%nat <> [] -> (0 < l_count cfg)%nat ->
    exists n rest, w_pc (run (repeat 0%nat n) (spin_init s todo)) 0%nat = Inside true rest /\ w_gate (run (repeat 0%nat n) (spin_init s todo)) = 1.
  Proof.
    intros Ht Hc. destruct (todo 0%nat) as [|c cs] eqn:Et; [done|]. destruct (l_hw cfg) eqn:Hh.
    - exists 3%nat. eexists. change (run (repeat 0%nat 3) (spin_init s todo)) with (step (step (step (spin_init s todo) 0) 0) 0).
      assert (E1 : step (spin_init s todo) 0 = with_pc (spin_init s todo) 0 (Wr (l_count cfg - 1))).
      { unfold spin_step. cbn [spin_init w_pc w_todo]. rewrite Et, Hh. destruct (l_count cfg) as [|d]; [lia|]. cbn [Nat.sub]. by rewrite ?Nat.sub_0_r. }
      rewrite E1. set (w1 := with_pc _ _ _).
      assert (E2 : step w1 0 = with_pc (with_gate w1 1) 0 (Rd (l_count cfg - 1))) by done. rewrite E2.
      assert (E3 : step (with_pc (with_gate w1 1) 0 (Rd (l_count cfg - 1))) 0 = enter body (with_pc (with_gate w1 1) 0 (Rd (l_count cfg - 1))) 0 true).
      { unfold spin_step. cbn [with_pc w_pc]. rewrite setk_eq, Hh. done. }
      rewrite E3. unfold enter. cbn [w_todo with_pc with_gate w1 spin_init]. rewrite Et. cbn [w_pc w_gate with_gate]. rewrite setk_eq. done.
    - exists 2%nat. eexists. change (run (repeat 0%nat 2) (spin_init s todo)) with (step (step (spin_init s todo) 0) 0).
      assert (E1 : step (spin_init s todo) 0 = with_pc (spin_init s todo) 0 (Rd (l_count cfg))).
      { unfold spin_step. cbn [spin_init w_pc w_todo]. rewrite Et, Hh. done. }
      rewrite E1. set (w1 := with_pc _ _ _).
      assert (E3 : step w1 0 = enter body (with_gate w1 1) 0 true).
      { unfold spin_step. cbn [w1 with_pc w_pc]. rewrite setk_eq, Hh. done. }
      rewrite E3. unfold enter. cbn [w_todo with_pc with_gate w1 spin_init]. rewrite Et. cbn [w_pc w_gate with_gate]. rewrite setk_eq. done.
  Qed.
  Lemma release_overlap s todo : l_ndebug cfg = true -> (0 < l_count cfg)%nat -> todo 0%nat <> [] -> todo 1%nat <> [] ->
    exists sched, inside (run sched (spin_init s todo)) 0%nat /\ inside (run sched (spin_init s todo)) 1%nat.
  Proof.
    intros Hn Hc H0 H1. destruct (first_in s todo H0 Hc) as (n & rest & E1 & E2).
    set (w := run (repeat 0%nat n) (spin_init s todo)) in *.
    destruct (run_other (repeat 0%nat n) 1 (spin_init s todo)) as [F1 F2].
    { intros j Hj. apply elem_of_list_In, repeat_spec in Hj. lia. }
    fold w in F1, F2. cbn [spin_init w_pc w_todo] in F1, F2.
    assert (T1 : w_todo w 1%nat <> []) by (rewrite F2; done).
    destruct (l_hw cfg) eqn:Hh.
    - assert (E : step w 1 = with_pc w 1 (Wr (l_count cfg - 1))).
      { unfold spin_step. rewrite F1, Hh. destruct (w_todo w 1); [done|]. destruct (l_count cfg) as [|d]; [lia|]. cbn [Nat.sub]. by rewrite ?Nat.sub_0_r. }
      destruct (sema_spin (l_count cfg - 1) (step w 1)) as (m & r & H); [done|done|by rewrite E|by rewrite E| |].
      { rewrite E. cbn [with_pc w_pc]. by rewrite setk_eq. }
      exists (repeat 0%nat n ++ 1%nat :: repeat 1%nat m). rewrite run_app. fold w. change (run (1%nat :: repeat 1%nat m) w) with (run (repeat 1%nat m) (step w 1)).
      split; [|by exists false, r]. exists true, rest.
      destruct (run_other (repeat 1%nat m) 0 (step w 1)) as [G _]; [intros j Hj; apply elem_of_list_In, repeat_spec in Hj; lia|].
      rewrite G, step_pc_not_leave by done. done.
    - assert (E : step w 1 = with_pc w 1 (Rd (l_count cfg))).
      { unfold spin_step. rewrite F1, Hh. destruct (w_todo w 1); [done|]. done. }
      destruct (sio_spin (l_count cfg) (step w 1)) as (m & r & H); [done|done|by rewrite E|by rewrite E| |].
      { rewrite E. cbn [with_pc w_pc]. by rewrite setk_eq. }
      exists (repeat 0%nat n ++ 1%nat :: repeat 1%nat m). rewrite run_app. fold w. change (run (1%nat :: repeat 1%nat m) w) with (run (repeat 1%nat m) (step w 1)).
      split; [|by exists false, r]. exists true, rest.
      destruct (run_other (repeat 1%nat m) 0 (step w 1)) as [G _]; [intros j Hj; apply elem_of_list_In, repeat_spec in Hj; lia|].
      rewrite G, step_pc_not_leave by done. done.
  Qed.

  (** Sema: even then, at most one core is inside with the lock. *)
  Lemma sema_owner s todo sched k rest : l_hw cfg = Sema ->
    w_pc (run sched (spin_init s todo)) k = Inside true rest -> w_gate (run sched (spin_init s todo)) = Z.of_nat k + 1.
  Proof.
    intros Hh. revert k rest. induction sched as [|j l IH] using rev_ind; [done|]. intros k rest. rewrite run_snoc.
    set (w := run l (spin_init s todo)) in *. destruct (decide (k = j)) as [->|Hk].
    - assert (Hb : busy_todo w) by (apply run_busy; by intros ? ?).
      pose proof (step_cases w j Hb) as K. revert K. generalize (step w j). intros w' K.
      destruct K as [|p E1 E2 [d E3]|d E1|p [d0 E1] [d E2]|c cs g [d E1] E2 E3 E4|c cs E0 E1 E2|E1|b f r E1|b g E1 E2];
        cbn [w_pc w_gate with_pc with_gate]; rewrite ?setk_eq; try done.
      + apply IH.
      + by destruct E3 as [->| ->].
      + by destruct E2 as [->| ->].
      + intros [= -> _]. by eapply IH.
    - rewrite step_pc_not_leave by done. intros E. apply sema_keep; [done|congruence|]. by eapply IH.
  Qed.
End spin.
