(** OsProofs.v - locks under the scheduler. *)
From Verif Require Import Base SchedModel SchedSpec SchedThms BootThms IpcModel IpcSpec IpcLogic MutexProofs MutexThms FutexProofs OsModel OsSpec.
From Coq Require Import ZifyBool ZifyNat.

Lemma os_run_app c g s a b : os_run c g s (a ++ b) = (let! s := os_run c g s a in os_run c g s b).
Proof. revert s. induction a as [|e a IH]; intros s; [reflexivity|]. cbn [os_run app rbind]. destruct (os_step c g s e); cbn [rbind]; auto. Qed.
Lemma run_app' c s a b : run c s (a ++ b) = (let! s := run c s a in run c s b).
Proof. revert s. induction a as [|e a IH]; intros s; [reflexivity|]. cbn [run app rbind]. destruct (step c s e); cbn [rbind]; auto. Qed.

(** ** What a step is on each side *)
Lemma os_step_split c g s e s' : os_step c g s e = Ok s' ->
  exists kes yes, run c (o_k s) kes = Ok (o_k s') /\ sys_run g (o_y s) yes = Ok (o_y s') /\
    ticks kes = (if is_otick e then 1 else 0) /\
    (forall x, x ∈ yes -> cur (o_k s) <> cfg_n c /\ (x = Go (cur (o_k s)) \/ exists cl, x = Enter (cur (o_k s)) cl)).
Proof.
  destruct s as [k y], s' as [k' y']. unfold os_step, is_idle. cbn [o_k o_y]. destruct e as [e|cl|e|o e]; cbn [is_otick].
  - destruct (step c k (Tick, e)) as [[[k1 sp] r]| | |] eqn:E; cbn [rbind fst]; intros H; try discriminate H. injection H as <- <-.
    exists [(Tick, e)], []. cbn [run]. rewrite E. cbn [rbind fst]. repeat split; try reflexivity; match goal with X : _ ∈ [] |- _ => inversion X end.
  - destruct (Nat.eqb_spec (cur k) (cfg_n c)) as [Hc|Hc].
    + intros H. injection H as <- <-. exists [], []. repeat split; try reflexivity; match goal with X : _ ∈ [] |- _ => inversion X end.
    + destruct (sys_step g y (Enter (cur k) cl)) as [y1| | |] eqn:E; cbn [rbind]; intros H; try discriminate H. injection H as <- <-.
      exists [], [Enter (cur k) cl]. cbn [run sys_run]. rewrite E. cbn [rbind]. repeat split; try reflexivity; try exact Hc. apply elem_of_list_singleton in H as ->. right. eauto.
  - destruct (Nat.eqb_spec (cur k) (cfg_n c)) as [Hc|Hc].
    + intros H. injection H as <- <-. exists [], []. repeat split; try reflexivity; match goal with X : _ ∈ [] |- _ => inversion X end.
    + assert (G : (let! y0 := sys_step g y (Go (cur k)) in Ok (mkOs k y0)) = Ok (mkOs k' y') ->
        exists kes yes, run c k kes = Ok k' /\ sys_run g y yes = Ok y' /\ ticks kes = 0 /\
        (forall x, x ∈ yes -> cur k <> cfg_n c /\ (x = Go (cur k) \/ exists cl, x = Enter (cur k) cl))).
      { destruct (sys_step g y (Go (cur k))) as [y1| | |] eqn:E; cbn [rbind]; intros H; try discriminate H. injection H as <- <-.
        exists [], [Go (cur k)]. cbn [run sys_run]. rewrite E. cbn [rbind]. repeat split; try reflexivity; try exact Hc. apply elem_of_list_singleton in H as ->. left. reflexivity. }
      destruct (y_thr y (cur k)) as [|cl p] eqn:Ey; [exact G|]. destruct p as [a| | |m q]; [exact G..|]. destruct m as [l|l v|l|l o n|n]; [exact G..|].
      destruct (step c k (Sleep n, e)) as [[[k1 sp] r]| | |] eqn:E; cbn [rbind fst]; intros H; try discriminate H.
      destruct (sys_step g y (Go (cur k))) as [y1| | |] eqn:E2; cbn [rbind] in H; try discriminate H. injection H as <- <-.
      exists [(Sleep n, e)], [Go (cur k)]. cbn [run sys_run]. rewrite E, E2. cbn [rbind fst]. repeat split; try reflexivity; try exact Hc. apply elem_of_list_singleton in H as ->. left. reflexivity.
  - destruct (Nat.eqb_spec (cur k) (cfg_n c)) as [Hc|Hc]; cbn [orb].
    + intros H. injection H as <- <-. exists [], []. repeat split; try reflexivity; match goal with X : _ ∈ [] |- _ => inversion X end.
    + destruct (is_tick (o, e)) eqn:Et.
      * intros H. injection H as <- <-. exists [], []. repeat split; try reflexivity; match goal with X : _ ∈ [] |- _ => inversion X end.
      * destruct (y_thr y (cur k)).
        -- destruct (step c k (o, e)) as [[[k1 sp] r]| | |] eqn:E; cbn [rbind fst]; intros H; try discriminate H. injection H as <- <-.
           exists [(o, e)], []. cbn [run]. rewrite E. cbn [rbind fst]. repeat split; try reflexivity; try (match goal with X : _ ∈ [] |- _ => inversion X end).
           unfold ticks. cbn [filter]. rewrite filter_cons_False by (rewrite Et; discriminate). reflexivity.
        -- intros H. injection H as <- <-. exists [], []. repeat split; try reflexivity; match goal with X : _ ∈ [] |- _ => inversion X end.
Qed.

Lemma ticks_app a b : ticks (a ++ b) = ticks a + ticks b.
Proof. unfold ticks. rewrite filter_app, app_length. lia. Qed.
Lemma ticks_pos a : 0 <= ticks a.
Proof. unfold ticks. lia. Qed.
Lemma oticks_cons e a : oticks (e :: a) = (if is_otick e then 1 else 0) + oticks a.
Proof. unfold oticks. destruct (is_otick e) eqn:E; [rewrite filter_cons_True by assumption|rewrite filter_cons_False by (rewrite E; discriminate)]; cbn [length]; lia. Qed.
Lemma oticks_app a b : oticks (a ++ b) = oticks a + oticks b.
Proof. unfold oticks. rewrite filter_app, app_length. lia. Qed.

Lemma os_run_split c g evs : forall s s', os_run c g s evs = Ok s' ->
  exists kes yes, run c (o_k s) kes = Ok (o_k s') /\ sys_run g (o_y s) yes = Ok (o_y s') /\ ticks kes = oticks evs.
Proof.
  induction evs as [|e evs IH]; intros s s' H; cbn [os_run] in H.
  - injection H as <-. exists [], []. repeat split; reflexivity.
  - destruct (os_step c g s e) as [s1| | |] eqn:E; cbn [rbind] in H; try discriminate H.
    destruct (os_step_split _ _ _ _ _ E) as (ke & ye & A & B & C & _). destruct (IH _ _ H) as (ks & ys & A' & B' & C').
    exists (ke ++ ks), (ye ++ ys). rewrite run_app', A, sys_run_app, B. cbn [rbind]. rewrite ticks_app, oticks_cons. repeat split; try assumption. lia.
Qed.
Lemma os_reach_split c rs g s : os_reach c rs g s -> reachable c rs (o_k s) /\ exists M, ready_mem g M /\ reach g M (o_y s).
Proof.
  intros (tmp0 & k0 & M & evs & B & R & H). destruct (os_run_split _ _ _ _ _ H) as (ks & ys & A & C & _). split.
  - exists tmp0, k0, ks. split; assumption.
  - exists M. split; [exact R|]. exists ys. exact C.
Qed.
Lemma os_reach_run c rs g s evs s' : os_reach c rs g s -> os_run c g s evs = Ok s' -> os_reach c rs g s'.
Proof. intros (tmp0 & k0 & M & es & B & R & H) H'. exists tmp0, k0, M, (es ++ evs). split; [exact B|]. split; [exact R|]. rewrite os_run_app, H. exact H'. Qed.

(** ** Only tasks call *)
Lemma sys_step_calls g y e y' j cl : sys_step g y e = Ok y' -> HCall j cl ∈ y_hist y' -> HCall j cl ∈ y_hist y \/ e = Enter j cl.
Proof.
  destruct e as [i c|i]; cbn [sys_step].
  - destruct (y_thr y i); intros [= <-]; cbn [y_hist]; [|intros H; left; exact H]. intros [H|H]%elem_of_app; [left; exact H|]. apply elem_of_list_singleton in H. injection H as -> ->. right. reflexivity.
  - destruct (y_thr y i) as [|c [[r v]| | |o k]]; try discriminate; try (intros [= <-] H; left; exact H).
    + intros [= <-]; cbn [y_hist]. intros [H|H]%elem_of_app; [left; exact H|]. apply elem_of_list_singleton in H. discriminate H.
    + destruct (exec o (y_mem y)) as [M v]. intros [= <-] H. left. exact H.
Qed.
Lemma sys_run_calls g yes : forall y y' j cl, sys_run g y yes = Ok y' -> HCall j cl ∈ y_hist y' -> HCall j cl ∈ y_hist y \/ Enter j cl ∈ yes.
Proof.
  induction yes as [|e yes IH]; intros y y' j cl H Hj; cbn [sys_run] in H.
  - injection H as <-. left. exact Hj.
  - destruct (sys_step g y e) as [y1| | |] eqn:E; cbn [rbind] in H; try discriminate H. destruct (IH _ _ _ _ H Hj) as [X|X].
    + destruct (sys_step_calls _ _ _ _ _ _ E X) as [Y| ->]; [left; exact Y|right; constructor].
    + right. constructor. exact X.
Qed.
Lemma os_calls c rs g s j cl : wf_config c -> regs_typed rs -> os_reach c rs g s -> HCall j cl ∈ y_hist (o_y s) -> (j < cfg_n c)%nat.
Proof.
  intros Hwf Ht (tmp0 & k0 & M & evs & B & R & H). revert s H. induction evs as [|e evs IH] using rev_ind; intros s H Hj.
  - injection H as <-. cbn in Hj. inversion Hj.
  - rewrite os_run_app in H. destruct (os_run c g (mkOs k0 (sys0 M)) evs) as [s1| | |] eqn:E; cbn [rbind os_run] in H; try discriminate H.
    destruct (os_step c g s1 e) as [s2| | |] eqn:E2; cbn [rbind] in H; try discriminate H. injection H as <-.
    destruct (os_step_split _ _ _ _ _ E2) as (ke & ye & _ & Y & _ & W). destruct (sys_run_calls _ _ _ _ _ _ Y Hj) as [X|X]; [exact (IH _ eq_refl X)|].
    destruct (W _ X) as [Hn [A|[cl' A]]]; [discriminate A|]. injection A as -> _.
    assert (Rk : reachable c rs (o_k s1)). { destruct (os_run_split _ _ _ _ _ E) as (ks & ys & A & _). exists tmp0, k0, ks. split; assumption. }
    destruct (self_value _ _ _ Hwf Ht Rk) as [_ L]. lia.
Qed.

(** ** Lock loops *)
(** The part of a lock call between two sleeps: neither sleeps nor stalls. *)
Fixpoint quietp {A} (p : prog A) : Prop :=
  match p with
  | Ret _ => True
  | Op (MSleep _) _ => False
  | Op _ k => forall v, quietp (k v)
  | _ => False
  end.
Fixpoint lockloop (t : prog Z) (n : nat) : prog Z :=
  r <~ t; if r =? 0 then Ret 0 else match n with O => Stall | S n => _ <~ schedule; lockloop t n end.
Definition lockrest (t : prog Z) (n : nat) (r : Z) : prog Z := if r =? 0 then Ret 0 else match n with O => Stall | S n => _ <~ schedule; lockloop t n end.
Lemma lockloop_eq t n : lockloop t n = pbind t (lockrest t n).
Proof. destruct n; reflexivity. Qed.
Lemma futex_loop l n : futex_lock_loop n l = lockloop (futex_trylock l) n.
Proof. induction n as [|n IH]; cbn [futex_lock_loop lockloop]; [reflexivity|]. rewrite IH. reflexivity. Qed.
Lemma mutex_loop g pid m n : mutex_lock_loop g n pid m = lockloop (mutex_trylock g pid m) n.
Proof. induction n as [|n IH]; cbn [mutex_lock_loop lockloop]; [reflexivity|]. rewrite IH. reflexivity. Qed.
Definition try (g : icfg) (i : nat) (cl : call) : prog Z :=
  match cl with FutexLock f => futex_trylock (LFutex f) | MutexLock m => mutex_trylock g (Z.of_nat i) m | _ => Ret 0 end.
Lemma body_lock g i cl : is_lock cl -> body g i cl = pair0 (lockloop (try g i cl) (ic_deadlock g)).
Proof. destruct cl; cbn [is_lock]; intros H; try contradiction; cbn [body try]; [unfold futex_lock; rewrite futex_loop|unfold mutex_lock; rewrite mutex_loop]; reflexivity. Qed.
Lemma try_quiet g i cl : is_lock cl -> quietp (try g i cl).
Proof.
  destruct cl; cbn [is_lock]; intros H; try contradiction; cbn [try].
  - unfold futex_trylock. cbn. intros v. destruct (v =? 0); exact I.
  - unfold mutex_trylock. cbn. intros v. destruct (v =? nobody g); cbn; [exact (fun _ _ => I)|]. intros w. destruct (w =? Z.of_nat i); cbn; [exact (fun _ _ => I)|exact I].
Qed.

(** What is left of a lock call, [n] sleeps before it gives up. *)
Inductive rest (t : prog Z) : nat -> prog (Z * Z) -> Prop :=
| rs_try n q : quietp q -> rest t n (pair0 (pbind q (lockrest t n)))
| rs_sleep n k : (forall v, k v = pair0 (lockloop t n)) -> rest t (S n) (Op (MSleep 1) k)
| rs_ret n : rest t n (Ret (0, 0))
| rs_stall : rest t O Stall.
Lemma rest_body g i cl : is_lock cl -> rest (try g i cl) (ic_deadlock g) (body g i cl).
Proof. intros H. rewrite (body_lock _ _ _ H), lockloop_eq. constructor. exact (try_quiet g i cl H). Qed.
Lemma rest_lockrest t n r : rest t n (pair0 (lockrest t n r)).
Proof. unfold lockrest. destruct (r =? 0); [apply rs_ret|]. destruct n; [apply rs_stall|]. apply rs_sleep. reflexivity. Qed.
Lemma rest_op t n o k v : quietp t -> rest t n (Op o k) -> (forall x, o <> MSleep x) -> rest t n (k v).
Proof.
  intros Ht H Ho. remember (Op o k) as p eqn:Ep. destruct H as [n q Hq|n k' Hk|n|]; try discriminate Ep.
  - destruct q as [a| | |o' k']; cbn [quietp] in Hq; try contradiction.
    + cbn [pbind] in Ep. unfold lockrest in Ep. destruct (a =? 0); [discriminate Ep|]. destruct n; [discriminate Ep|]. cbn in Ep. injection Ep as E1 E2. destruct (Ho 1). congruence.
    + cbn in Ep. injection Ep as -> <-. apply rs_try. destruct o; try contradiction; apply Hq.
  - injection Ep as <- _. destruct (Ho 1). reflexivity.
Qed.
Lemma rest_sleep t n x k : rest t n (Op (MSleep x) k) -> exists n', n = S n' /\ x = 1 /\ forall v, k v = pair0 (lockloop t n').
Proof.
  intros H. remember (Op (MSleep x) k) as p eqn:Ep. destruct H as [n q Hq|n k' Hk|n|]; try discriminate Ep.
  - destruct q as [a| | |o' k']; cbn [quietp] in Hq; try contradiction.
    + cbn [pbind] in Ep. unfold lockrest in Ep. destruct (a =? 0); [discriminate Ep|]. destruct n; [discriminate Ep|]. cbn -[lockloop] in Ep. injection Ep as E1 E2.
      exists n. split; [reflexivity|]. split; [congruence|]. intros v. rewrite <- E2. reflexivity.
    + cbn in Ep. injection Ep as -> _. contradiction.
  - injection Ep as <- <-. exists n. repeat split. exact Hk.
Qed.
Lemma rest_stall0 t n : rest t n Stall -> n = O.
Proof.
  intros H. remember Stall as p eqn:Ep. destruct H as [n q Hq|n k' Hk|n|]; try discriminate Ep; [|reflexivity].
  destruct q as [a| | |o' k']; cbn [quietp] in Hq; try contradiction; [|discriminate Ep].
  cbn [pbind] in Ep. unfold lockrest in Ep. destruct (a =? 0); [discriminate Ep|]. destruct n; [reflexivity|discriminate Ep].
Qed.
Lemma rest_ret t n a : rest t n (Ret a) -> a = (0, 0) \/ exists q, quietp q /\ pair0 (pbind q (lockrest t n)) = Ret a.
Proof. intros H. remember (Ret a) as p eqn:Ep. destruct H as [n q Hq|n k' Hk|n|]; try discriminate Ep; [right; eauto|left; congruence]. Qed.

(** ** Patience *)
Section patience.
Context (c : config) (rs : list reg) (g : icfg) (Hwf : wf_config c) (Ht : regs_typed rs).

(** Task [i] went to sleep for one tick, and there has been none since. *)
Definition pend (k : core) (i : nat) : Prop :=
  exists k0 e k1 sp r evs, reachable c rs k0 /\ cur k0 = i /\ step c k0 (Sleep 1, e) = Ok (k1, sp, r) /\ run c k1 evs = Ok k /\ ticks evs = 0.
Lemma tbits_pow : 1 < 2 ^ cfg_tbits c.
Proof. destruct Hwf as (_ & H & _). pose proof (Z.pow_le_mono_r 2 1 (cfg_tbits c) ltac:(lia) ltac:(lia)). lia. Qed.
Lemma pend_out k i : pend k i -> cur k <> i.
Proof. intros (k0 & e & k1 & sp & r & evs & R & <- & S & H & T). pose proof tbits_pow. apply (sleep_exact c rs k0 1 e k1 sp r evs k Hwf Ht R ltac:(lia) S H). lia. Qed.
Lemma pend_run k i evs k' : pend k i -> run c k evs = Ok k' -> ticks evs = 0 -> pend k' i.
Proof. intros (k0 & e & k1 & sp & r & es & R & E & S & H & T) H' T'. exists k0, e, k1, sp, r, (es ++ evs). rewrite run_app', H, ticks_app. repeat split; try assumption. lia. Qed.

Definition pat (i : nat) (D T : Z) (s : os) : Prop :=
  forall cl p, is_lock cl -> y_thr (o_y s) i = In cl p ->
  exists n, rest (try g i cl) n p /\ (D <= Z.of_nat n + T \/ (D <= Z.of_nat (S n) + T /\ pend (o_k s) i /\ p = pair0 (lockloop (try g i cl) n))).

Lemma sys_step_other y e y' i : sys_step g y e = Ok y' -> e <> Go i -> (forall cl, e <> Enter i cl) -> y_thr y' i = y_thr y i.
Proof.
  intros H A B. destruct e as [j cl|j]; cbn [sys_step] in H.
  - assert (i <> j) by (intros ->; exact (B cl eq_refl)). destruct (y_thr y j); injection H as <-; [|reflexivity]. cbn [y_thr]. unfold tupd. rewrite decide_False by assumption. reflexivity.
  - assert (i <> j) by (intros ->; exact (A eq_refl)). destruct (y_thr y j) as [|cl [[r v]| | |o k]]; try discriminate H; try (injection H as <-; reflexivity).
    + injection H as <-. cbn [y_thr]. unfold tupd. rewrite decide_False by assumption. reflexivity.
    + destruct (exec o (y_mem y)). injection H as <-. cbn [y_thr]. unfold tupd. rewrite decide_False by assumption. reflexivity.
Qed.
Lemma sys_run_other i yes : forall y y', sys_run g y yes = Ok y' -> (forall x, x ∈ yes -> x <> Go i /\ forall cl, x <> Enter i cl) -> y_thr y' i = y_thr y i.
Proof.
  induction yes as [|e yes IH]; intros y y' H W; cbn [sys_run] in H; [injection H as <-; reflexivity|].
  destruct (sys_step g y e) as [y1| | |] eqn:E; cbn [rbind] in H; try discriminate H. rewrite (IH _ _ H) by (intros x X; apply W; constructor; exact X).
  destruct (W e ltac:(constructor)) as [A B]. exact (sys_step_other _ _ _ _ E A B).
Qed.
Lemma os_step_other s e s' i : os_step c g s e = Ok s' -> cur (o_k s) <> i -> y_thr (o_y s') i = y_thr (o_y s) i.
Proof.
  intros H N. destruct (os_step_split _ _ _ _ _ H) as (ke & ye & _ & Y & _ & W). apply (sys_run_other _ _ _ _ Y). intros x X. destruct (W x X) as [_ [->|[cl ->]]]; split; try intros ?; congruence.
Qed.

Lemma pat_step i D T s e s' : 0 <= T -> D <= Z.of_nat (ic_deadlock g) -> os_reach c rs g s -> os_step c g s e = Ok s' -> pat i D T s -> pat i D (T + (if is_otick e then 1 else 0)) s'.
Proof.
  intros HT HD R H P. destruct (os_reach_split _ _ _ _ R) as [Rk _]. destruct (os_step_split _ _ _ _ _ H) as (ke & ye & K & Y & Tk & _).
  destruct (Nat.eq_dec (cur (o_k s)) i) as [Ei|Ni].
  2:{ intros cl p Hl Hp. rewrite (os_step_other _ _ _ _ H Ni) in Hp. destruct (P cl p Hl Hp) as (n & A & B). exists n. split; [exact A|].
      destruct B as [B|(B & Pe & Ep)]; [left; destruct (is_otick e); lia|]. destruct (is_otick e) eqn:Et; [left; lia|]. right. split; [lia|]. split; [exact (pend_run _ _ _ _ Pe K Tk)|exact Ep]. }
  assert (NP : ~ pend (o_k s) i) by (intros X; exact (pend_out _ _ X Ei)).
  assert (P' : forall cl p, is_lock cl -> y_thr (o_y s) i = In cl p -> exists n, rest (try g i cl) n p /\ D <= Z.of_nat n + T).
  { intros cl p Hl Hp. destruct (P cl p Hl Hp) as (n & A & [B|(_ & B & _)]); [exists n; split; assumption|contradiction]. }
  clear P. destruct s as [k y], s' as [k' y']. cbn [o_k o_y] in *. unfold os_step, is_idle in H. cbn [o_k o_y] in H.
  assert (SAME : y' = y -> pat i D (T + (if is_otick e then 1 else 0)) (mkOs k' y')).
  { intros -> cl p Hl Hp. destruct (P' cl p Hl Hp) as (n & A & B). exists n. split; [exact A|]. left. destruct (is_otick e); lia. }
  destruct e as [e|cl0|e|o e]; cbn [is_otick] in *.
  - apply SAME. destruct (step c k (Tick, e)) as [[[k1 sp] r]| | |]; cbn [rbind fst] in H; try discriminate H. injection H as _ <-. reflexivity.
  - destruct (Nat.eqb (cur k) (cfg_n c)); [apply SAME; injection H as _ <-; reflexivity|].
    destruct (sys_step g y (Enter (cur k) cl0)) as [y1| | |] eqn:E; cbn [rbind] in H; try discriminate H. injection H as <- <-.
    cbn [sys_step] in E. rewrite Ei in E. destruct (y_thr y i) as [|cl1 p1] eqn:Ey.
    + injection E as <-. intros cl p Hl Hp. cbn [o_y y_thr] in Hp. unfold tupd in Hp. rewrite decide_True in Hp by reflexivity. injection Hp as <- <-.
      exists (ic_deadlock g). split; [exact (rest_body g i cl0 Hl)|]. left. lia.
    + injection E as <-. apply SAME. reflexivity.
  - destruct (Nat.eqb (cur k) (cfg_n c)); [apply SAME; injection H as _ <-; reflexivity|]. rewrite Ei in H. destruct (y_thr y i) as [|cl1 p1] eqn:Ey.
    + cbn [sys_step] in H. rewrite Ey in H. cbn [rbind] in H. injection H as _ <-. apply SAME. reflexivity.
    + assert (GO : forall y1, sys_step g y (Go i) = Ok y1 -> (forall n q, p1 <> Op (MSleep n) q) -> pat i D (T + 0) (mkOs k' y1)).
      { intros y1 E Hn cl p Hl Hp. cbn [o_y] in Hp. cbn [sys_step] in E. rewrite Ey in E. destruct p1 as [[r v]| | |m q].
        - injection E as <-. cbn [y_thr] in Hp. unfold tupd in Hp. rewrite decide_True in Hp by reflexivity. discriminate Hp.
        - discriminate E.
        - injection E as <-. rewrite Ey in Hp. injection Hp as <- <-. destruct (P' _ _ Hl eq_refl) as (n & A & B). exists n. split; [exact A|left; lia].
        - destruct (exec m (y_mem y)) as [M v]. injection E as <-. cbn [y_thr] in Hp. unfold tupd in Hp. rewrite decide_True in Hp by reflexivity. injection Hp as <- <-.
          destruct (P' _ _ Hl eq_refl) as (n & A & B). exists n. split; [|left; lia]. apply (rest_op _ _ m q v (try_quiet g i cl1 Hl) A). intros x ->. exact (Hn x q eq_refl). }
      assert (GO' : (let! y0 := sys_step g y (Go i) in Ok (mkOs k y0)) = Ok (mkOs k' y') -> (forall n q, p1 <> Op (MSleep n) q) -> pat i D (T + 0) (mkOs k' y')).
      { destruct (sys_step g y (Go i)) as [y1| | |] eqn:E; cbn [rbind]; intros X; try discriminate X. injection X as -> ->. exact (GO y' eq_refl). }
      destruct p1 as [a| | |m q]; [exact (GO' H ltac:(discriminate))..|]. destruct m as [l|l v|l|l o n|n]; [exact (GO' H ltac:(discriminate))..|].
      destruct (step c k (Sleep n, e)) as [[[k1 sp] r]| | |] eqn:E; cbn [rbind fst] in H; try discriminate H.
      destruct (sys_step g y (Go i)) as [y1| | |] eqn:E2; cbn [rbind] in H; try discriminate H. injection H as <- <-.
      cbn [sys_step] in E2. rewrite Ey in E2. cbn [exec] in E2. injection E2 as <-.
      intros cl p Hl Hp. cbn [o_y y_thr] in Hp. unfold tupd in Hp. rewrite decide_True in Hp by reflexivity. injection Hp as <- <-.
      destruct (P' _ _ Hl eq_refl) as (n0 & A & B). destruct (rest_sleep _ _ _ _ A) as (n' & -> & -> & Hk). exists n'. split.
      * rewrite Hk, lockloop_eq. apply rs_try. exact (try_quiet g i cl1 Hl).
      * right. split; [lia|]. split; [exists k, e, k1, sp, r, []; repeat split; assumption|apply Hk].
  - apply SAME. destruct (_ || _); [injection H as _ <-; reflexivity|]. destruct (y_thr y (cur k)).
    + destruct (step c k (o, e)) as [[[k1 sp] r]| | |]; cbn [rbind fst] in H; try discriminate H. injection H as _ <-. reflexivity.
    + injection H as _ <-. reflexivity.
Qed.
Lemma pat_run i D evs : forall T s s', 0 <= T -> D <= Z.of_nat (ic_deadlock g) -> os_reach c rs g s -> os_run c g s evs = Ok s' -> pat i D T s -> pat i D (T + oticks evs) s'.
Proof.
  induction evs as [|e evs IH]; intros T s s' HT HD R H P; cbn [os_run] in H.
  - injection H as <-. change (oticks []) with 0. rewrite Z.add_0_r. exact P.
  - destruct (os_step c g s e) as [s1| | |] eqn:E; cbn [rbind] in H; try discriminate H. rewrite oticks_cons, Z.add_assoc. apply (IH _ s1); [destruct (is_otick e); lia|exact HD| |exact H|exact (pat_step _ _ _ _ _ _ HT HD R E P)].
    apply (os_reach_run c rs g s [e] s1 R). cbn [os_run]. rewrite E. reflexivity.
Qed.

Lemma patient s cl s1 evs s2 cl' : os_reach c rs g s -> y_thr (o_y s) (cur (o_k s)) = Out -> os_step c g s (OCall cl) = Ok s1 -> os_run c g s1 evs = Ok s2 ->
  is_lock cl' -> y_thr (o_y s2) (cur (o_k s)) = In cl' Stall -> Z.of_nat (ic_deadlock g) <= oticks evs.
Proof.
  intros R O E H Hl Hs. set (i := cur (o_k s)) in *. assert (P : pat i (Z.of_nat (ic_deadlock g)) 0 s) by (intros c0 p _ X; rewrite O in X; discriminate X).
  pose proof (pat_step i _ 0 s _ s1 (Z.le_refl 0) (Z.le_refl _) R E P) as P1. cbn [is_otick] in P1.
  assert (R1 : os_reach c rs g s1) by (apply (os_reach_run c rs g s [OCall cl] s1 R); cbn [os_run]; rewrite E; reflexivity).
  pose proof (pat_run i _ evs _ s1 s2 (Z.le_refl 0) (Z.le_refl _) R1 H P1) as P2. destruct (P2 cl' Stall Hl Hs) as (n & A & B). apply rest_stall0 in A as ->.
  destruct B as [B|(_ & _ & B)]; [lia|]. destruct cl'; cbn [is_lock] in Hl; try contradiction; rewrite lockloop_eq in B; discriminate B.
Qed.

(** ** Handover *)
Lemma reach_rest s i cl p : os_reach c rs g s -> is_lock cl -> y_thr (o_y s) i = In cl p -> exists n, rest (try g i cl) n p.
Proof.
  intros (tmp0 & k0 & M & evs & B & R & H) Hl Hp. assert (P0 : pat i 0 0 (mkOs k0 (sys0 M))) by (intros c0 q _ X; discriminate X).
  assert (R0 : os_reach c rs g (mkOs k0 (sys0 M))) by (exists tmp0, k0, M, []; repeat split; assumption).
  destruct (pat_run i 0 evs 0 _ s ltac:(lia) ltac:(lia) R0 H P0 cl p Hl Hp) as (n & A & _). exists n. exact A.
Qed.
Lemma sys_in_step y e y' : sys_step g y e = Ok y' -> (forall i cl p, y_thr y i = In cl p -> exists cl', HCall i cl' ∈ y_hist y) -> forall i cl p, y_thr y' i = In cl p -> exists cl', HCall i cl' ∈ y_hist y'.
Proof.
  intros H I i cl p Hp. assert (PR : forall cl', HCall i cl' ∈ y_hist y -> HCall i cl' ∈ y_hist y').
  { intros cl' X. destruct (sys_step_hist _ _ _ _ H) as [z ->]. apply elem_of_app. left. exact X. }
  destruct e as [j c0|j]; cbn [sys_step] in H.
  - destruct (y_thr y j) eqn:Ej; injection H as <-; [|exact (I _ _ _ Hp)]. cbn [y_thr y_hist] in *. unfold tupd in Hp. destruct (decide (i = j)) as [->|N].
    + exists c0. apply elem_of_app. right. constructor.
    + destruct (I _ _ _ Hp) as [cl' X]. exists cl'. apply elem_of_app. left. exact X.
  - destruct (y_thr y j) as [|c0 [[r v]| | |o q]] eqn:Ej; try discriminate H; try (injection H as <-; exact (I _ _ _ Hp)).
    + injection H as <-. cbn [y_thr] in Hp. unfold tupd in Hp. destruct (decide (i = j)); [discriminate Hp|]. destruct (I _ _ _ Hp) as [cl' X]. exists cl'. exact (PR _ X).
    + destruct (exec o (y_mem y)). injection H as <-. cbn [y_thr] in Hp. unfold tupd in Hp. destruct (decide (i = j)) as [->|]; [exact (I _ _ _ Ej)|exact (I _ _ _ Hp)].
Qed.
Lemma sys_in y i cl p M : reach g M y -> y_thr y i = In cl p -> exists cl', HCall i cl' ∈ y_hist y.
Proof.
  intros [evs H]. revert y H i cl p. induction evs as [|e evs IH] using rev_ind; intros y H.
  - injection H as <-. intros i cl p X. discriminate X.
  - rewrite sys_run_app in H. destruct (sys_run g (sys0 M) evs) as [y1| | |] eqn:E; cbn [rbind sys_run] in H; try discriminate H.
    destruct (sys_step g y1 e) as [y2| | |] eqn:E2; cbn [rbind] in H; try discriminate H. injection H as <-. exact (sys_in_step _ _ _ E2 (IH _ eq_refl)).
Qed.
Lemma os_in s i cl p : os_reach c rs g s -> y_thr (o_y s) i = In cl p -> (i < cfg_n c)%nat.
Proof.
  intros R Hp. destruct (os_reach_split _ _ _ _ R) as [_ (M & _ & Y)]. destruct (sys_in _ _ _ _ _ Y Hp) as [cl' X]. exact (os_calls _ _ _ _ _ _ Hwf Ht R X).
Qed.

(** The step by which a waiting task goes to sleep. *)
Lemma wait_step s cl e s1 : os_reach c rs g s -> is_lock cl -> waits s cl -> os_step c g s (OGo e) = Ok s1 ->
  exists n, y_thr (o_y s1) (cur (o_k s)) = In cl (pair0 (lockloop (try g (cur (o_k s)) cl) n)) /\ pend (o_k s1) (cur (o_k s)).
Proof.
  intros R Hl [[p Hp] (c0 & x & q & Hs)] H. rewrite Hp in Hs. injection Hs as <- ->. pose proof (os_in _ _ _ _ R Hp) as Hn. destruct (os_reach_split _ _ _ _ R) as [Rk _].
  destruct (reach_rest _ _ _ _ R Hl Hp) as [n A]. destruct (rest_sleep _ _ _ _ A) as (n' & -> & -> & Hk). destruct s as [k y]. cbn [o_k o_y] in *.
  unfold os_step, is_idle in H. cbn [o_k o_y] in H. destruct (Nat.eqb_spec (cur k) (cfg_n c)); [lia|]. rewrite Hp in H.
  destruct (step c k (Sleep 1, e)) as [[[k1 sp] r]| | |] eqn:E; cbn [rbind fst] in H; try discriminate H. cbn [sys_step] in H. rewrite Hp in H. cbn [exec rbind] in H. injection H as <-.
  exists n'. cbn [o_y o_k y_thr]. unfold tupd. rewrite decide_True by reflexivity. rewrite Hk. split; [reflexivity|]. exists k, e, k1, sp, r, []. repeat split; assumption.
Qed.
Lemma wakes s cl e s1 evs s2 e' s3 : os_reach c rs g s -> is_lock cl -> waits s cl -> os_step c g s (OGo e) = Ok s1 -> os_run c g s1 evs = Ok s2 -> oticks evs = 0 ->
  os_step c g s2 (OTick e') = Ok s3 -> ready (o_k s3) (cur (o_k s)) /\ (turn c rs (c_tick (o_k s3)) (cur (o_k s)) -> (forall j, (j < cur (o_k s))%nat -> ~ eligible c rs (o_k s3) j) -> cur (o_k s3) = cur (o_k s)).
Proof.
  intros R Hl W H1 H2 T H3. destruct (wait_step _ _ _ _ R Hl W H1) as (n & _ & P). destruct (os_run_split _ _ _ _ _ H2) as (ks & ys & K & _ & Tk).
  pose proof (pend_run _ _ _ _ P K ltac:(lia)) as P2. set (i := cur (o_k s)) in *.
  assert (R1 : os_reach c rs g s1) by (apply (os_reach_run c rs g s [OGo e] s1 R); cbn [os_run]; rewrite H1; reflexivity).
  pose proof (os_reach_run _ _ _ _ _ _ R1 H2) as R2. destruct (os_reach_split _ _ _ _ R2) as [Rk2 _].
  unfold os_step in H3. destruct (step c (o_k s2) (Tick, e')) as [[[k3 sp3] r3]| | |] eqn:E; cbn [rbind fst] in H3; try discriminate H3. injection H3 as <-. cbn [o_k].
  destruct P2 as (k0 & e0 & k1 & sp & r & es & Rk & Ec & S & Hr & Te). pose proof tbits_pow as TB.
  assert (Hr3 : run c k1 (es ++ [(Tick, e')]) = Ok k3) by (rewrite run_app', Hr; cbn [rbind run]; rewrite E; reflexivity).
  assert (T3 : ticks (es ++ [(Tick, e')]) = 1) by (rewrite ticks_app, Te; reflexivity).
  destruct (sleep_exact c rs k0 1 e0 k1 sp r _ k3 Hwf Ht Rk ltac:(lia) S Hr3) as [_ Y]. specialize (Y es e' eq_refl T3). rewrite Ec in Y.
  split; [exact Y|]. intros Tn Hj. destruct (tick_dispatch c rs (o_k s2) e' k3 sp3 r3 Hwf Ht Rk2 E) as (A & B & _). specialize (B i (conj Y Tn)).
  destruct (Nat.eq_dec (cur k3) i) as [|N]; [assumption|]. destruct (Hj (cur k3) ltac:(lia) A).
Qed.

Lemma not_run_thr i evs : forall s s', os_run c g s evs = Ok s' -> not_run c g i s evs -> y_thr (o_y s') i = y_thr (o_y s) i.
Proof.
  induction evs as [|e evs IH]; intros s s' H N; cbn [os_run] in H; [injection H as <-; reflexivity|]. destruct N as [N N2].
  destruct (os_step c g s e) as [s1| | |] eqn:E; cbn [rbind] in H; try discriminate H. rewrite (IH _ _ H N2). exact (os_step_other _ _ _ _ E N).
Qed.
Lemma go_op k y cl o q e : cur k <> cfg_n c -> y_thr y (cur k) = In cl (Op o q) -> (forall x, o <> MSleep x) ->
  os_step c g (mkOs k y) (OGo e) = Ok (mkOs k (mkSys (fst (exec o (y_mem y))) (tupd (y_thr y) (cur k) (In cl (q (snd (exec o (y_mem y)))))) (y_hist y))).
Proof.
  intros Hn Hp Ho. unfold os_step, is_idle. cbn [o_k o_y]. destruct (Nat.eqb_spec (cur k) (cfg_n c)); [contradiction|]. rewrite Hp. cbn [sys_step]. rewrite Hp.
  destruct o as [l|l v|l|l a b|x]; cbn [exec fst snd rbind]; try reflexivity. destruct (Ho x). reflexivity.
Qed.
Lemma go_ret k y cl r v e : cur k <> cfg_n c -> y_thr y (cur k) = In cl (Ret (r, v)) ->
  os_step c g (mkOs k y) (OGo e) = Ok (mkOs k (mkSys (y_mem y) (tupd (y_thr y) (cur k) Out) (y_hist y ++ [HRet (cur k) cl r v]))).
Proof. intros Hn Hp. unfold os_step, is_idle. cbn [o_k o_y]. destruct (Nat.eqb_spec (cur k) (cfg_n c)); [contradiction|]. rewrite Hp. cbn [sys_step]. rewrite Hp. reflexivity. Qed.
Lemma go_out k y cl p : y_thr (mkSys (y_mem y) (tupd (y_thr y) (cur k) (In cl p)) (y_hist y)) (cur k) = In cl p.
Proof. cbn [y_thr]. unfold tupd. rewrite decide_True by reflexivity. reflexivity. Qed.

Lemma takes s cl e s1 evs s2 : os_reach c rs g s -> is_lock cl -> waits s cl -> os_step c g s (OGo e) = Ok s1 -> os_run c g s1 evs = Ok s2 ->
  not_run c g (cur (o_k s)) s1 evs -> cur (o_k s2) = cur (o_k s) -> free g s2 cl ->
  exists n, forall es, length es = n -> exists s3, os_run c g s2 (map OGo es) = Ok s3 /\ o_k s3 = o_k s2 /\ y_hist (o_y s3) = y_hist (o_y s2) ++ [HRet (cur (o_k s)) cl 0 0] /\ y_thr (o_y s3) (cur (o_k s)) = Out.
Proof.
  intros R Hl W H1 H2 N Ec Hf. destruct (wait_step _ _ _ _ R Hl W H1) as (n & Hp & _). rewrite <- (not_run_thr _ _ _ _ H2 N) in Hp.
  assert (R1 : os_reach c rs g s1) by (apply (os_reach_run c rs g s [OGo e] s1 R); cbn [os_run]; rewrite H1; reflexivity).
  pose proof (os_in _ _ _ _ (os_reach_run _ _ _ _ _ _ R1 H2) Hp) as Hn. rewrite <- Ec in Hp, Hn |- *. destruct s2 as [k y]. cbn [o_k o_y] in *. clear -Hp Hn Hl Hf.
  assert (Hn' : cur k <> cfg_n c) by lia. set (i := cur k) in *. destruct cl as [f|f|f|m|m|m|c0 m|c0|c0|q|q v]; cbn [is_lock] in Hl; try contradiction; cbn [free o_y] in Hf.
  - exists 2%nat. intros es He. destruct es as [|e1 [|e2 [|]]]; try discriminate He. rewrite lockloop_eq in Hp. cbn [map os_run].
    erewrite go_op; [|exact Hn'|exact Hp|discriminate]. cbn [rbind exec fst snd]. rewrite Hf.
    erewrite go_ret; [|exact Hn'|cbn [y_thr]; unfold tupd; rewrite decide_True by reflexivity; reflexivity]. cbn [rbind]. eexists. split; [reflexivity|]. cbn [o_k o_y y_hist y_thr]. unfold tupd. rewrite decide_True by reflexivity. repeat split.
  - exists 4%nat. intros es He. destruct es as [|e1 [|e2 [|e3 [|e4 [|]]]]]; try discriminate He. rewrite lockloop_eq in Hp. cbn [map os_run].
    erewrite go_op; [|exact Hn'|exact Hp|discriminate]. cbn [rbind exec fst snd]. rewrite Hf, Z.eqb_refl. cbn [pbind].
    erewrite go_op; [|exact Hn'|cbn [y_thr]; unfold tupd; rewrite decide_True by reflexivity; reflexivity|discriminate]. cbn [rbind exec fst snd].
    erewrite go_op; [|exact Hn'|cbn [y_thr]; unfold tupd; rewrite decide_True by reflexivity; reflexivity|discriminate]. cbn [rbind exec fst snd].
    erewrite go_ret; [|exact Hn'|cbn [y_thr]; unfold tupd; rewrite decide_True by reflexivity; reflexivity]. cbn [rbind]. eexists. split; [reflexivity|]. cbn [o_k o_y y_hist y_thr]. unfold tupd. rewrite decide_True by reflexivity. repeat split.
Qed.
End patience.
