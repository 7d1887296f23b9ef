(** QueueProofs.v - a queue whose reads and writes do not overlap is a bounded FIFO, whatever the
    other tasks do with other objects. *)
From Verif Require Import Base IpcModel IpcSpec IpcLogic IpcAvoid MutexProofs MutexThms CondSilent CondSignal.
From Coq Require Import ZifyBool ZifyNat.

Lemma fifo_replay_app cap q l h h' :
  fifo_replay cap q l (h ++ h') =
  match fifo_replay cap q l h with Some l' => fifo_replay cap q l' h' | None => None end.
Proof.
  revert l. induction h as [|[i c|i c r v] h IH]; intros l; cbn [fifo_replay app]; [done|done|].
  destruct (on_queue q c); [|done]. case_decide; done.
Qed.

Lemma qpend_snoc q h e :
  qpend q (h ++ [e]) = qpend q h + match e with
                    | HCall _ c => if on_queue q c then 1 else 0
                    | HRet _ c _ _ => if on_queue q c then -1 else 0
                    end.
Proof.
  unfold qpend. induction h as [|x h IH]; cbn [foldr app].
  - destruct e as [? c|? c ? ?]; destruct (on_queue q c); lia.
  - rewrite IH. destruct x as [? c|? c ? ?]; destruct (on_queue q c); lia.
Qed.

Definition qcell (q : nat) (l : loc) : Prop :=
  l = LQlock q \/ l = LQmask q \/ l = LQr q \/ l = LQw q \/ l = LQi q \/ exists i, l = LQbuf q i.
Definition is_qcell (q : nat) (l : loc) : bool :=
  match l with
  | LQlock q' | LQmask q' | LQr q' | LQw q' | LQi q' | LQbuf q' _ => bool_decide (q' = q)
  | _ => false
  end.
Lemma is_qcell_true q l : is_qcell q l = true <-> qcell q l.
Proof.
  unfold qcell. destruct l; cbn; rewrite ?bool_decide_eq_true; split; try done; try naive_solver.
Qed.

(** Like [runs], within the memory of the queue and without sleeping. *)
Definition isq (q : nat) (o : memop) : bool :=
  match op_loc o with Some l => is_qcell q l | None => false end.
Inductive qruns (q : nat) {A} : mem -> prog A -> mem -> A -> Prop :=
| qruns_ret M a : qruns q M (Ret a) M a
| qruns_op M o k M' a :
    isq q o = true -> qruns q (fst (exec o M)) (k (snd (exec o M))) M' a -> qruns q M (Op o k) M' a.

Lemma qruns_bind {A B} q M (p : prog A) (f : A -> prog B) M1 a M2 b :
  qruns q M p M1 a -> qruns q M1 (f a) M2 b -> qruns q M (pbind p f) M2 b.
Proof. induction 1; cbn [pbind]; [done|]. intros. constructor; [done|]. cbn [fst snd]. auto. Qed.
Lemma qruns_act {A} q M o (f : Z -> prog A) M' a :
  isq q o = true -> qruns q (fst (exec o M)) (f (snd (exec o M))) M' a -> qruns q M (pbind (act o) f) M' a.
Proof. intros. cbn [act pbind]. by constructor. Qed.

Lemma uses_no_qcell q cl x : on_queue q cl = false -> uses cl x -> is_qcell q x = false.
Proof.
  intros Eq Hx. apply not_true_iff_false. intros Hc. apply is_qcell_true in Hc. unfold qcell in Hc.
  destruct cl; cbn [on_queue uses] in *; try (apply bool_decide_eq_false in Eq);
    repeat match goal with H : _ \/ _ |- _ => destruct H | H : exists _, _ |- _ => destruct H end;
    subst; try discriminate; congruence.
Qed.

(** ** One call alone *)
Section qrep.
  Context (g : icfg) (q : nat) (k : Z).
  Hypothesis Hk : 0 <= k < ic_szbits g.
  Notation N := (2 ^ k).
  Definition qcap : Z := Z.max 0 (N - 2).

  Record rep (F : mem) (l : list Z) : Prop := {
    rp_lock : F (LQlock q) = 0;
    rp_mask : F (LQmask q) = N - 1;
    rp_r : 0 <= F (LQr q) < N;
    rp_len : Z.of_nat (length l) <= qcap;
    rp_w : F (LQw q) = (F (LQr q) + 1 + Z.of_nat (length l)) mod N;
    rp_buf : forall j v, l !! j = Some v -> F (LQbuf q ((F (LQr q) + 1 + Z.of_nat j) mod N)) = v
  }.

  Lemma Npos : 0 < N.
  Proof. apply Z.pow_pos_nonneg; lia. Qed.
  Lemma Nsz : N < 2 ^ ic_szbits g.
  Proof. apply Z.pow_lt_mono_r; lia. Qed.
  Lemma Neven : N = 1 \/ 2 <= N.
  Proof. pose proof Npos. lia. Qed.

  Lemma land_mask x : 0 <= x -> Z.land x (N - 1) = x mod N.
  Proof. intros Hx. replace (N - 1) with (Z.ones k) by (rewrite Z.ones_equiv; lia). apply Z.land_ones; lia. Qed.

  Lemma next_idx x : 0 <= x < N -> Z.land (wrap (ic_szbits g) (x + 1)) (N - 1) = (x + 1) mod N.
  Proof. intros Hx. pose proof Nsz. rewrite wrap_small by lia. apply land_mask. lia. Qed.

  Lemma mod_small_eq a b : 0 <= a < N -> 0 <= b < N -> forall x, (x + a) mod N = (x + b) mod N -> a = b.
  Proof.
    intros Ha Hb x E. pose proof Npos.
    assert (E' : (a - b) mod N = 0).
    { replace (a - b) with ((x + a) - (x + b)) by lia. rewrite Zminus_mod, E, Z.sub_diag. apply Zmod_0_l. }
    apply Z.mod_divide in E'; [|lia]. destruct E' as [z Hz].
    assert (-1 < z < 1) by nia. lia.
  Qed.

  Lemma empty_iff F l : rep F l -> ((F (LQr q) + 1) mod N = F (LQw q) <-> l = []).
  Proof.
    intros []. pose proof Npos. unfold qcap in *. rewrite rp_w0. split.
    - intros E. destruct l as [|v l]; [done|]. exfalso.
      replace (F (LQr q) + 1) with (F (LQr q) + 1 + 0) in E at 1 by lia.
      cbn [length] in *. apply mod_small_eq in E; lia.
    - intros ->. cbn. f_equal. lia.
  Qed.

  Lemma full_iff F l : rep F l -> ((F (LQw q) + 1) mod N = F (LQr q) <-> Z.of_nat (length l) = qcap).
  Proof.
    intros []. pose proof Npos. unfold qcap in *. rewrite rp_w0, Zplus_mod_idemp_l.
    replace (F (LQr q) + 1 + Z.of_nat (length l) + 1) with (F (LQr q) + (Z.of_nat (length l) + 2)) by lia.
    assert (Er : F (LQr q) = (F (LQr q) + 0) mod N) by (rewrite Z.mod_small; lia).
    destruct (decide (N = 1)) as [E1|N1].
    { rewrite E1 in *. rewrite Z.mod_1_r in *. lia. }
    destruct (decide (Z.of_nat (length l) + 2 = N)) as [E2|N2].
    - rewrite E2. split; [lia|]. intros _. rewrite Zplus_mod, Z_mod_same_full, Z.add_0_r, Zmod_mod, Z.mod_small; lia.
    - split; [|lia]. intros E. rewrite Er in E at 2. apply mod_small_eq in E; lia.
  Qed.

  (** picoRTOS_futex_lock and _unlock of a free queue lock. *)
  Lemma runs_lock F loop {A} (f : Z -> prog A) F' a :
    F (LQlock q) = 0 -> qruns q (upd F (LQlock q) 1) (f 0) F' a ->
    qruns q F (pbind (futex_lock_loop loop (LQlock q)) f) F' a.
  Proof.
    intros H R.  eapply qruns_bind; [|exact R].
    assert (R0 : qruns q F (futex_trylock (LQlock q)) (upd F (LQlock q) 1) 0).
    { unfold futex_trylock. apply qruns_act; [cbn; by rewrite bool_decide_eq_true_2|]. cbn [exec fst snd]. rewrite H. constructor. }
    destruct loop; cbn [futex_lock_loop]; (eapply (qruns_bind _ _ _ _ _ 0); [exact R0|]); cbn; constructor.
  Qed.

  Lemma runs_unlock F {A} (f : Z -> prog A) F' a :
    F (LQlock q) = 1 -> qruns q (upd F (LQlock q) 0) (f 0) F' a ->
    qruns q F (pbind (futex_unlock (LQlock q)) f) F' a.
  Proof.
    intros H R.  eapply qruns_bind; [|exact R].
    unfold futex_unlock. apply qruns_act; [cbn; by rewrite bool_decide_eq_true_2|]. cbn [exec fst snd]. rewrite H. cbn [passert Z.eqb negb].
    apply qruns_act; [cbn; by rewrite bool_decide_eq_true_2|]. constructor.
  Qed.

  Ltac ev := cbn [exec fst snd]; repeat first [rewrite upd_same | rewrite upd_other by done].

  Lemma runs_read F l :
    rep F l -> exists F', qruns q F (queue_read g q) F' (snd (fifo_call qcap (QueueRead q) l)) /\
      rep F' (fst (fifo_call qcap (QueueRead q) l)).
  Proof.
    intros HR. pose proof (empty_iff _ _ HR) as He. pose proof Npos. pose proof HR as [].
    assert (Ex : Z.land (wrap (ic_szbits g) (F (LQr q) + 1)) (F (LQmask q)) = (F (LQr q) + 1) mod N).
    { rewrite rp_mask0. by apply next_idx. }
    destruct l as [|v l]; cbn [fifo_call fst snd].
    - eexists _. split.
      + unfold queue_read. eapply qruns_bind.
        * unfold head_pop. apply runs_lock; [done|]. apply qruns_act; [cbn; by rewrite bool_decide_eq_true_2|]. ev. apply qruns_act; [cbn; by rewrite bool_decide_eq_true_2|]. ev. cbv zeta. apply qruns_act; [cbn; by rewrite bool_decide_eq_true_2|]. ev.
          rewrite Ex. rewrite (proj2 He eq_refl), Z.eqb_refl.
          apply runs_unlock; [ev; done|]. constructor.
        * cbn. constructor.
      + destruct HR. constructor; ev; try done.
    - assert (Hne : (F (LQr q) + 1) mod N <> F (LQw q)) by (intros E; by apply He in E).
      set (r' := (F (LQr q) + 1) mod N) in *.
      assert (Hr' : 0 <= r' < N) by (apply Z.mod_pos_bound; lia).
      eexists _. split.
      + unfold queue_read. eapply qruns_bind.
        * unfold head_pop. apply runs_lock; [done|]. apply qruns_act; [cbn; by rewrite bool_decide_eq_true_2|]. ev. apply qruns_act; [cbn; by rewrite bool_decide_eq_true_2|]. ev. cbv zeta. apply qruns_act; [cbn; by rewrite bool_decide_eq_true_2|]. ev.
          rewrite Ex. rewrite (proj2 (Z.eqb_neq _ _)) by done.
          apply qruns_act; [cbn; by rewrite bool_decide_eq_true_2|]. ev. apply qruns_act; [cbn; by rewrite bool_decide_eq_true_2|]. ev. apply runs_unlock; [ev; done|]. constructor.
        * cbn [Z.eqb negb Z.opp EAGAIN]. apply qruns_act; [cbn; by rewrite bool_decide_eq_true_2|]. ev. apply qruns_act; [cbn; by rewrite bool_decide_eq_true_2|]. ev.
          replace v with (F (LQbuf q r')); [constructor|].
          specialize (rp_buf0 0%nat v eq_refl). rewrite Z.add_0_r in rp_buf0. done.
      + cbn [length] in *. constructor; ev; try done.
        * lia.
        * rewrite rp_w0. unfold r'.
          replace ((F (LQr q) + 1) mod N + 1 + Z.of_nat (length l))
            with ((F (LQr q) + 1) mod N + (1 + Z.of_nat (length l))) by (by rewrite Z.add_assoc).
          rewrite Zplus_mod_idemp_l. f_equal. lia.
        * intros j x Hj. specialize (rp_buf0 (S j) x Hj). rewrite <- rp_buf0. ev. f_equal. f_equal.
          unfold r'.
          replace ((F (LQr q) + 1) mod N + 1 + Z.of_nat j)
            with ((F (LQr q) + 1) mod N + (1 + Z.of_nat j)) by (by rewrite Z.add_assoc).
          rewrite Zplus_mod_idemp_l. f_equal. lia.
  Qed.

  Lemma runs_write F l v :
    rep F l -> exists F', qruns q F (queue_write g q v) F' (snd (fifo_call qcap (QueueWrite q v) l)) /\
      rep F' (fst (fifo_call qcap (QueueWrite q v) l)).
  Proof.
    intros HR. pose proof (full_iff _ _ HR) as Hf. pose proof Npos. pose proof HR as [].
    assert (Hw : 0 <= F (LQw q) < N) by (rewrite rp_w0; apply Z.mod_pos_bound; lia).
    assert (Ex : Z.land (wrap (ic_szbits g) (F (LQw q) + 1)) (F (LQmask q)) = (F (LQw q) + 1) mod N).
    { rewrite rp_mask0. by apply next_idx. }
    set (w' := (F (LQw q) + 1) mod N) in *.
    cbn [fifo_call]. destruct (Z.of_nat (length l) <? qcap) eqn:Ec; cbn [fst snd].
    - assert (Hne : w' <> F (LQr q)) by (intros E; apply Hf in E; lia).
      eexists _. split.
      + unfold queue_write. eapply qruns_bind.
        * unfold head_push. apply runs_lock; [done|]. apply qruns_act; [cbn; by rewrite bool_decide_eq_true_2|]. ev. apply qruns_act; [cbn; by rewrite bool_decide_eq_true_2|]. ev. cbv zeta. apply qruns_act; [cbn; by rewrite bool_decide_eq_true_2|]. ev.
          rewrite Ex. rewrite (proj2 (Z.eqb_neq _ _)) by done.
          apply qruns_act; [cbn; by rewrite bool_decide_eq_true_2|]. ev. apply qruns_act; [cbn; by rewrite bool_decide_eq_true_2|]. ev. apply qruns_act; [cbn; by rewrite bool_decide_eq_true_2|]. ev. apply runs_unlock; [ev; done|]. constructor.
        * cbn [Z.eqb negb Z.opp EAGAIN]. apply qruns_act; [cbn; by rewrite bool_decide_eq_true_2|]. ev. apply qruns_act; [cbn; by rewrite bool_decide_eq_true_2|]. ev. constructor.
      + constructor; ev; try done.
        * rewrite app_length. cbn. lia.
        * unfold w'. rewrite rp_w0, Zplus_mod_idemp_l, app_length. cbn [length]. f_equal. lia.
        * intros j x Hj. unfold upd at 1. case_decide as D.
          { injection D as D. rewrite rp_w0 in D.
            assert (j = length l) as ->.
            { apply lookup_lt_Some in Hj. rewrite app_length in Hj. cbn in Hj. unfold qcap in *.
              apply Nat2Z.inj. eapply (mod_small_eq (Z.of_nat j) (Z.of_nat (length l))); [lia|lia|exact D]. }
            rewrite lookup_app_r in Hj by lia. rewrite Nat.sub_diag in Hj. by injection Hj as <-. }
          ev. rewrite lookup_app in Hj. destruct (l !! j) as [y|] eqn:Ej.
          { injection Hj as <-. by apply rp_buf0. }
          exfalso. apply D. f_equal. rewrite rp_w0. f_equal. f_equal. f_equal.
          apply lookup_ge_None in Ej. destruct (decide (j = length l)) as [->|]; [done|].
          rewrite lookup_ge_None_2 in Hj; [done|]. cbn. lia.
    - assert (Heq : w' = F (LQr q)) by (apply Hf; lia).
      eexists _. split.
      + unfold queue_write. eapply qruns_bind.
        * unfold head_push. apply runs_lock; [done|]. apply qruns_act; [cbn; by rewrite bool_decide_eq_true_2|]. ev. apply qruns_act; [cbn; by rewrite bool_decide_eq_true_2|]. ev. cbv zeta. apply qruns_act; [cbn; by rewrite bool_decide_eq_true_2|]. ev.
          rewrite Ex. rewrite Heq, Z.eqb_refl. apply runs_unlock; [ev; done|]. constructor.
        * cbn. constructor.
      + constructor; ev; try done.
  Qed.

  Lemma rep_ext F F' l : (forall x, qcell q x -> F' x = F x) -> rep F l -> rep F' l.
  Proof.
    intros E []. constructor; try (rewrite !E by (unfold qcell; eauto 10)); try done.
    intros j v Hj. rewrite !E by (unfold qcell; eauto 10). by apply rp_buf0.
  Qed.

  Lemma rep_init M junk qsize : M = mem0 g qsize junk -> qsize q = N -> rep M [].
  Proof.
    intros -> Hq. pose proof Npos. pose proof Nsz.
    assert (Em : wrap (ic_szbits g) (qsize q - 1) = N - 1) by (rewrite Hq; apply wrap_small; lia).
    constructor; cbn [mem0]; try rewrite Em; try done; try lia.
    - unfold qcap. cbn. lia.
    - cbn [length Z.of_nat]. rewrite Z.add_0_r. replace (N - 1 + 1) with (1 * N) by lia. by rewrite Z_mod_mult.
  Qed.
End qrep.

(** ** Systems *)
Section qsys.
  Context (g : icfg) (q : nat) (k : Z).
  Hypothesis Hk : 0 <= k < ic_szbits g.
  Notation cap := (qcap k).

  (** The task inside a queue call knows the queue memory and what the queue held when it began. *)
  Definition qtk : Type := option (mem * list Z).

  Definition qstep (i : nat) (o : memop) (tk : qtk) (Phi : Z -> qtk -> Prop) : Prop :=
    match op_loc o with
    | Some l =>
        if is_qcell q l then
          match tk with
          | Some (F, c) => Phi (snd (exec o F)) (Some (fst (exec o F), c))
          | None => False
          end
        else tk = None /\ forall v, Phi v tk
    | None => forall v, Phi v tk
    end.

  Lemma qstep_mono i o tk (P Q : Z -> qtk -> Prop) :
    (forall v tk', P v tk' -> Q v tk') -> qstep i o tk P -> qstep i o tk Q.
  Proof.
    intros HPQ. unfold qstep. destruct (op_loc o) as [l|]; [|naive_solver].
    destruct (is_qcell q l); [|naive_solver]. destruct tk as [[F c]|]; naive_solver.
  Qed.

  Definition qcoh (tks : nat -> qtk) (M : mem) (h : list hev) : Prop :=
    exists l, fifo_replay cap q [] h = Some l /\
      (((forall i, tks i = None) /\ qpend q h = 0 /\ rep q k M l) \/
       (exists i F, tks i = Some (F, l) /\ (forall j, j <> i -> tks j = None) /\ qpend q h = 1 /\
          forall x, qcell q x -> M x = F x)).

  Lemma exec_agree o M F x l :
    op_loc o = Some l -> M l = F l -> M x = F x -> fst (exec o M) x = fst (exec o F) x.
  Proof.
    destruct o as [a|a v|a|a u n|n]; cbn [op_loc exec fst]; intros [= ->] H1 H2; try done.
    - unfold upd. by case_decide.
    - unfold upd. by case_decide.
    - rewrite H1. destruct (F l =? u); [|done]. unfold upd. by case_decide.
  Qed.
  Lemma exec_val o M F l : op_loc o = Some l -> M l = F l -> snd (exec o M) = snd (exec o F).
  Proof. destruct o; cbn; intros [= ->] H; done. Qed.

  Lemma qstep_sound tks M h i o Phi :
    qcoh tks M h -> qstep i o (tks i) Phi ->
    exists tk', qcoh (set_tk tks i tk') (fst (exec o M)) h /\ Phi (snd (exec o M)) tk'.
  Proof.
    intros (l & Hr & Hst) H. unfold qstep in H.
    destruct (op_loc o) as [x|] eqn:Eo.
    - destruct (is_qcell q x) eqn:Eq.
      + destruct (tks i) as [[F c]|] eqn:Ei; [|done].
        destruct Hst as [(Hn & _)|(j & F' & Hj & Ho & Hp & HM)]; [by rewrite Hn in Ei|].
        assert (j = i) as ->.
        { destruct (decide (j = i)) as [|Hji]; [done|]. rewrite (Ho i) in Ei; [done|]. done. }
        rewrite Hj in Ei. injection Ei as -> ->.
        assert (Hx : M x = F x) by (apply HM; by apply is_qcell_true).
        exists (Some (fst (exec o F), c)). rewrite (exec_val o M F x) by done. split; [|done].
        exists c. split; [done|]. right. exists i, (fst (exec o F)). split; [by rewrite set_tk_same|].
        split; [|split; [done|]].
        * intros j Hji. rewrite set_tk_other by done. auto.
        * intros y Hy. eapply exec_agree; [done|done|]. auto.
      + destruct H as [Hn HP]. exists (tks i). split; [|apply HP].
        assert (Hfr : forall y, qcell q y -> fst (exec o M) y = M y).
        { intros y Hy. apply exec_other. rewrite Eo. intros [= ->]. apply is_qcell_true in Hy. congruence. }
        assert (X : forall j, set_tk tks i (tks i) j = tks j).
        { intros j. unfold set_tk. case_decide; by subst. }
        exists l. split; [done|]. destruct Hst as [(Hn' & Hp & HR)|(j & F' & Hj & Ho & Hp & HM)].
        * left. split; [intros j; by rewrite X|]. split; [done|]. by eapply rep_ext.
        * right. exists j, F'. rewrite X. split; [done|]. split; [intros y Hy; rewrite X; auto|]. split; [done|].
          intros y Hy. rewrite Hfr by done. auto.
    - destruct o; try done. cbn [exec fst snd]. exists (tks i). split; [|apply H].
      assert (X : forall j, set_tk tks i (tks i) j = tks j).
      { intros j. unfold set_tk. case_decide; by subst. }
      exists l. split; [done|]. destruct Hst as [(Hn' & Hp & HR)|(j & F' & Hj & Ho & Hp & HM)].
      + left. split; [intros j; by rewrite X|]. done.
      + right. exists j, F'. rewrite X. split; [done|]. split; [intros y Hy; rewrite X; auto|]. done.
  Qed.

  (** A program that runs alone within the queue memory keeps to the protocol. *)
  Lemma runs_wp {A} i (J stl slp : qtk -> Prop) (p : prog A) F F' a c (Q : qtk -> A -> Prop) :
    (forall F, J (Some (F, c))) ->
    qruns q F p F' a -> Q (Some (F', c)) a -> wp qstep i J stl slp p (Some (F, c)) Q.
  Proof.
    intros HJ R HQ. induction R as [M a|M o f M' a Ho R IH].
    - cbn [wp]. auto.
    - cbn [wp]. split; [auto|]. unfold isq in Ho. destruct (op_loc o) as [l|] eqn:El; [|done].
      split; [intros [x ->]; done|].
      unfold qstep. rewrite El, Ho. by apply IH.
  Qed.

  Definition qidle (v : unit) (i : nat) (tk : qtk) : Prop := tk = None.
  Definition qpost (v : unit) (i : nat) (cl : call) (tk : qtk) (r : Z * Z) : Prop :=
    if on_queue q cl then
      exists F l, tk = Some (F, l) /\ r = snd (fifo_call cap cl l) /\ rep q k F (fst (fifo_call cap cl l))
    else tk = None.
  Definition qJ (v : unit) (i : nat) (cl : call) (tk : qtk) : Prop := True.
  (** A call on the queue neither stalls nor sleeps. *)
  Definition qno (v : unit) (i : nat) (cl : call) (tk : qtk) : Prop := on_queue q cl = false.

  Definition qlegal (h : list hev) (e : hev) : Prop :=
    match e with HCall _ cl => on_queue q cl = true -> qpend q h = 0 | _ => True end.

  Lemma qframe i o (Phi : Z -> qtk -> Prop) :
    (forall l, op_loc o = Some l -> is_qcell q l = false) -> (forall v, Phi v None) -> qstep i o None Phi.
  Proof.
    intros H1 H2. unfold qstep. destruct (op_loc o) as [l|]; [|done]. by rewrite (H1 l eq_refl).
  Qed.

  Lemma set_tk_self {T} (tks : nat -> T) i j : set_tk tks i (tks i) j = tks j.
  Proof. unfold set_tk. case_decide; by subst. Qed.

  Lemma replay_call l h i cl : fifo_replay cap q l (h ++ [HCall i cl]) = fifo_replay cap q l h.
  Proof. rewrite fifo_replay_app. by destruct (fifo_replay cap q l h). Qed.

  Lemma qenter tks M h i cl :
    qlegal h (HCall i cl) -> qcoh tks M h -> qidle tt i (tks i) ->
    exists tk', qcoh (set_tk tks i tk') M (h ++ [HCall i cl]) /\
      wp qstep i (qJ tt i cl) (qno tt i cl) (qno tt i cl) (body g i cl) tk' (qpost tt i cl).
  Proof.
    intros Hl (l & Hr & Hst) Hi. unfold qidle in Hi. cbn [qlegal] in Hl.
    destruct (on_queue q cl) eqn:Eq.
    - specialize (Hl eq_refl). destruct Hst as [(Hn & Hp & HR)|(j & F & _ & _ & Hp & _)]; [|lia].
      exists (Some (M, l)). split.
      + exists l. rewrite replay_call. split; [done|]. right. exists i, M. split; [by rewrite set_tk_same|].
        split; [intros j Hj; by rewrite set_tk_other|]. split; [|done]. rewrite qpend_snoc, Eq. lia.
      + destruct cl; try done; cbn [on_queue] in Eq; apply bool_decide_eq_true in Eq as ->; cbn [body].
        * destruct (runs_read g q k Hk M l HR) as (F' & R & HR').
          eapply runs_wp; [done|exact R|]. unfold qpost. cbn [on_queue].
          rewrite bool_decide_eq_true_2 by done. by exists F', l.
        * destruct (runs_write g q k Hk M l v HR) as (F' & R & HR').
          eapply runs_wp; [done|exact R|]. unfold qpost. cbn [on_queue].
          rewrite bool_decide_eq_true_2 by done. by exists F', l.
    - exists (tks i). split.
      + exists l. rewrite replay_call. split; [done|]. rewrite qpend_snoc, Eq, Z.add_0_r.
        destruct Hst as [(Hn & Hp & HR)|(j & F & Hj & Ho & Hp & HM)].
        * left. split; [intros j; by rewrite set_tk_self|]. done.
        * right. exists j, F. rewrite set_tk_self. split; [done|]. split; [|done].
          intros j' Hj'. rewrite set_tk_self. auto.
      + rewrite Hi. eapply (within_wp qstep (fun l => is_qcell q l = false)).
        * intros o Phi H1 H2. by apply qframe.
        * eapply within_weaken; [|apply within_body]. intros x Hx. by eapply uses_no_qcell.
        * done.
        * done.
        * done.
        * intros a. unfold qpost. by rewrite Eq.
  Qed.

  Lemma qret tks M h i cl r x :
    True -> qcoh tks M h -> qpost tt i cl (tks i) (r, x) ->
    exists tk', qcoh (set_tk tks i tk') M (h ++ [HRet i cl r x]) /\ qidle tt i tk'.
  Proof.
    intros _ (l & Hr & Hst) Hp. unfold qpost in Hp. exists None. split; [|done].
    destruct (on_queue q cl) eqn:Eq.
    - destruct Hp as (F & l' & Ht & Er & HR).
      destruct Hst as [(Hn & _)|(j & F' & Hj & Ho & Hp & HM)]; [by rewrite Hn in Ht|].
      assert (j = i) as ->.
      { destruct (decide (j = i)) as [|Hji]; [done|]. rewrite Ho in Ht; [done|]. done. }
      rewrite Hj in Ht. injection Ht as -> ->.
      exists (fst (fifo_call cap cl l')). split.
      + rewrite fifo_replay_app, Hr. cbn [fifo_replay]. rewrite Eq. by rewrite decide_True.
      + left. split; [|split].
        * intros j. unfold set_tk. case_decide; [done|]. auto.
        * rewrite qpend_snoc, Eq. lia.
        * by eapply rep_ext.
    - exists l. split.
      + rewrite fifo_replay_app, Hr. cbn [fifo_replay]. by rewrite Eq.
      + rewrite qpend_snoc, Eq, Z.add_0_r.
        assert (X : forall j, set_tk tks i None j = tks j) by (intros j; rewrite <- Hp; apply set_tk_self).
        destruct Hst as [(Hn & Hp' & HR)|(j & F & Hj & Ho & Hp' & HM)].
        * left. split; [intros j; by rewrite X|]. done.
        * right. exists j, F. rewrite X. split; [done|]. split; [|done].
          intros j' Hj'. rewrite X. auto.
  Qed.

  Definition QInv := Inv qstep (fun _ _ => tt) qcoh qidle qpost qJ qno qno.

  Lemma QInv_reach qsize junk evs s :
    qsize q = 2 ^ k -> sys_run g (sys0 (mem0 g qsize junk)) evs = Ok s ->
    queue_serial q (y_hist s) -> QInv s.
  Proof.
    intros Hq Hr Hs.
    eapply (Inv_run qstep g (fun _ _ => tt) qcoh qidle qpost qJ qno qno qlegal); try exact Hr.
    - done.
    - apply qstep_sound.
    - intros. by apply qenter.
    - intros. by apply qret.
    - exists (fun _ => None). split; [|done]. exists []. split; [done|]. left. split; [done|]. split; [done|].
      by eapply rep_init.
    - intros h x h' E. destruct x as [i cl|]; [|done]. cbn. intros Hc. by eapply Hs.
  Qed.

  (** The queue answers as a bounded FIFO of capacity [cap], and its calls neither stall nor sleep. *)
  Lemma queue_fifo qsize junk evs s :
    qsize q = 2 ^ k -> sys_run g (sys0 (mem0 g qsize junk)) evs = Ok s ->
    queue_serial q (y_hist s) ->
    (exists l, fifo_replay cap q [] (y_hist s) = Some l) /\
    (forall i cl, in_call s i cl -> on_queue q cl = true -> ~ about_to_stall s i /\ ~ about_to_sleep s i).
  Proof.
    intros Hq Hr Hs. destruct (QInv_reach _ _ _ _ Hq Hr Hs) as (tks & (l & Hl & _) & Ht).
    split; [by exists l|]. intros i cl [p Hp] Hon. specialize (Ht i). rewrite Hp in Ht. cbn [thr_ok] in Ht.
    split.
    - intros [c' E]. rewrite Hp in E. injection E as <- ->. cbn [wp] in Ht. destruct Ht as [_ Ht].
      unfold qno in Ht. congruence.
    - intros (c' & n & f & E). rewrite Hp in E. injection E as <- ->. cbn [wp] in Ht. destruct Ht as (_ & Ht & _).
      unfold qno in Ht. specialize (Ht (ex_intro _ n eq_refl)). congruence.
  Qed.
End qsys.
