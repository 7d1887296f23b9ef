(** HistThms.v - history properties of the single-core schedulers (C15, C16, C26, C53). *)
From Verif Require Import Base SchedModel SchedSpec SortProofs BootProofs SchedProofs StepProofs SchedThms BootThms.
From Coq Require Import ZifyBool ZifyNat.

(** * C15 *)
Lemma postponed_irrelevant c s b e : step c (with_postponed s b) (Tick, e) = step c s (Tick, e).
Proof.
  unfold step, do_tick, get_task, put_task. cbn [c_task c_index with_postponed].
  destruct (aget (c_task s) (c_index s)) as [t| | |]; cbn [rbind]; try done.
  unfold assert_fatal. destruct (_ >=? _); [|done]. destruct (e_sp e <? _); [|done].
  destruct (aset _ _ _) as [l| | |]; cbn [rbind]; done.
Qed.

Lemma tick_clears_postponed c rs s e s1 sp1 r1 : wf_config c -> regs_typed rs -> reachable c rs s ->
  step c s (Tick, e) = Ok (s1, sp1, r1) -> c_postponed s1 = false.
Proof.
  intros Hwf Ht Hr Hst. assert (Hi := reachable_inv _ _ _ Hwf Ht Hr).
  apply (po_disp _ _ _ _ _ _ _ _ (step_post _ _ _ _ _ _ _ _ Hwf Hi Hst)).
Qed.

Lemma postpone_forgotten c s b e evs :
  run c (with_postponed s b) ((Tick, e) :: evs) = run c s ((Tick, e) :: evs).
Proof. cbn [run]. rewrite postponed_irrelevant. done. Qed.

(** * C16 *)
Lemma empty_step c rs s o e s' sp' ref' pid : wf_config c -> Inv c rs s ->
  step c s (o, e) = Ok (s', sp', ref') -> state_of s pid = Some EMPTY ->
  state_of s' pid = Some EMPTY /\ cur s' <> pid.
Proof.
  intros Hwf Hi Hst He. assert (Hp := step_post _ _ _ _ _ _ _ _ Hwf Hi Hst).
  assert (Hi' : Inv c rs s') by (eapply step_inv; [| |exact Hst]; done).
  assert (He' : state_of s' pid = Some EMPTY).
  { unfold state_of in *. rewrite (po_task _ _ _ _ _ _ _ _ Hp). destruct (c_task s !! pid) as [t|] eqn:Et; [|done].
    cbn in *. f_equal. injection He as He.
    destruct (decide (t_state (ev_upd c s o e (cur s') pid t) = EMPTY)); [done|].
    exfalso. exact (ev_upd_empty _ _ _ _ _ _ _ _ _ _ _ Hwf Hi Hst Et n He). }
  split; [done|]. intros <-. rewrite (inv_cur _ _ _ Hi') in He'. done.
Qed.

Lemma empty_run c rs evs : forall s s' pid, wf_config c -> Inv c rs s -> run c s evs = Ok s' ->
  state_of s pid = Some EMPTY -> state_of s' pid = Some EMPTY /\ cur s' <> pid.
Proof.
  induction evs as [|[o e] evs IH]; intros s s' pid Hwf Hi Hr He; cbn [run] in Hr.
  - injection Hr as <-. split; [done|]. intros <-. rewrite (inv_cur _ _ _ Hi) in He. done.
  - destruct (step c s (o, e)) as [[[s1 sp1] r1]| | |] eqn:E; cbn [rbind fst] in Hr; try done.
    eapply IH; [done| |exact Hr|].
    + eapply step_inv; [| |exact E]; done.
    + eapply empty_step; [done|done|exact E|done].
Qed.

Lemma kill_final c rs s e s1 sp1 r1 : wf_config c -> regs_typed rs -> reachable c rs s ->
  step c s (Kill, e) = Ok (s1, sp1, r1) ->
  (forall evs s2, run c s1 evs = Ok s2 -> cur s2 <> cur s /\ state_of s2 (cur s) = Some EMPTY)
  /\ c_tick s1 = c_tick s
  /\ forall pid, pid <> cur s ->
       state_of s1 pid = state_of s pid
       /\ t_tick <$> (c_task s1 !! pid) = t_tick <$> (c_task s !! pid)
       /\ t_sp <$> (c_task s1 !! pid) = t_sp <$> (c_task s !! pid)
       /\ (eligible c rs s1 pid <-> eligible c rs s pid).
Proof.
  intros Hwf Ht Hr Hst. assert (Hi := reachable_inv _ _ _ Hwf Ht Hr).
  assert (Hi1 : Inv c rs s1) by (eapply step_inv; [| |exact Hst]; done).
  assert (Hp := step_post _ _ _ _ _ _ _ _ Hwf Hi Hst).
  assert (Hk := po_tick _ _ _ _ _ _ _ _ Hp). cbn in Hk.
  split; [|split; [done|]].
  - intros evs s2 Hr2.
    assert (He : state_of s1 (cur s) = Some EMPTY).
    { destruct (cur_lookup _ _ _ Hi) as (t & Htk & Hrd). unfold state_of.
      rewrite (po_task _ _ _ _ _ _ _ _ Hp), Htk. cbn. f_equal. rewrite ev_upd_self. cbn [all_upd cur_upd].
      destruct (decide _); rewrite ?stat_start_state, stat_finish_state; done. }
    destruct (empty_run c rs evs s1 s2 (cur s) Hwf Hi1 Hr2 He). done.
  - intros pid Hpid.
    assert (Hs : state_of s1 pid = state_of s pid /\ t_tick <$> (c_task s1 !! pid) = t_tick <$> (c_task s !! pid)
       /\ t_sp <$> (c_task s1 !! pid) = t_sp <$> (c_task s !! pid)).
    { unfold state_of. rewrite (po_task _ _ _ _ _ _ _ _ Hp). destruct (c_task s !! pid) as [t|]; [|done]. cbn.
      rewrite ev_upd_other by done. cbn [all_upd].
      destruct (decide _); rewrite ?stat_start_state, ?stat_start_tick, ?stat_start_sp; done. }
    destruct Hs as (Hs & Hs2 & Hs3). split; [done|]. split; [done|]. split; [done|].
    apply eligible_ext; done.
Qed.

(** * C26 *)
Lemma run_snoc_inv c s evs o e s' : run c s (evs ++ [(o, e)]) = Ok s' ->
  exists s1 sp r, run c s evs = Ok s1 /\ step c s1 (o, e) = Ok (s', sp, r).
Proof.
  rewrite run_app. destruct (run c s evs) as [s1| | |] eqn:E; cbn [rbind]; try done.
  cbn [run]. destruct (step c s1 (o, e)) as [[[s2 sp] r]| | |] eqn:E2; cbn [rbind fst]; try done.
  intros [= <-]. eauto.
Qed.

Lemma dispatched_snoc c s evs ev pid : dispatched_in c s evs pid -> dispatched_in c s (evs ++ [ev]) pid.
Proof.
  intros (e1 & e2 & s' & -> & H1 & H2). exists e1, (e2 ++ [ev]), s'. rewrite app_assoc. done.
Qed.

Lemma covered c rs s1 evs : forall s2, wf_config c -> Inv c rs s1 ->
  least_from (eligible c rs s1) 0 (cur s1) ->
  run c s1 evs = Ok s2 -> tick_free evs ->
  forall pid, eligible c rs s2 pid -> (pid <= cur s2)%nat -> dispatched_in c s1 evs pid.
Proof.
  induction evs as [|[o e] evs IH] using rev_ind; intros s2 Hwf Hi Hl Hr Htf pid Hel Hle.
  - cbn in Hr. injection Hr as <-. destruct Hl as (_ & _ & Hmin).
    assert (pid = cur s1).
    { destruct (decide (pid < cur s1)%nat); [|lia]. exfalso. apply (Hmin pid); [lia|done]. }
    subst. exists [], [], s1. done.
  - destruct (run_snoc_inv _ _ _ _ _ _ Hr) as (s & sp & r & Hrs & Hst).
    apply Forall_app in Htf as [Htf Hto]. inversion Hto as [|? ? Ho _]; subst.
    assert (Hnt : o <> Tick) by (intros ->; done).
    assert (His : Inv c rs s) by (eapply run_inv; [done|exact Hi|exact Hrs]).
    destruct (decide (pid = cur s2)) as [->|Hne].
    + exists (evs ++ [(o, e)]), [], s2. rewrite app_nil_r. done.
    + apply dispatched_snoc. eapply IH; try done.
      * eapply eligible_step_back; [done|exact His|exact Hst|done|done].
      * assert (Hp := po_disp _ _ _ _ _ _ _ _ (step_post _ _ _ _ _ _ _ _ Hwf His Hst)).
        assert (G : exists r1, least_from (eligible c rs s2) (S (cur s)) r1 /\
          (if decide (r1 = cfg_n c /\ pending s o = true)
            then c_postponed s2 = false /\ least_from (eligible c rs s2) 0 (cur s2)
            else c_postponed s2 = (if decide (r1 = cfg_n c) then false else pending s o) /\ cur s2 = r1)).
        { destruct o; try done; destruct Hp as (q & _ & H1 & H2); eauto. }
        destruct G as (r1 & (Hg1 & _ & Hg2) & Hd).
        destruct (decide (r1 = cfg_n c /\ _)).
        -- destruct Hd as [_ (_ & _ & Hmin)]. exfalso. apply (Hmin pid); [lia|done].
        -- destruct Hd as [_ Hd]. destruct (decide (pid <= cur s)%nat); [done|].
           exfalso. apply (Hg2 pid); [lia|done].
Qed.

Lemma idle_after_tick c rs s e s1 sp1 r1 : wf_config c -> regs_typed rs -> reachable c rs s ->
  step c s (Tick, e) = Ok (s1, sp1, r1) -> cur s1 = cfg_n c ->
  forall pid, (pid < cfg_n c)%nat -> ~ eligible c rs s1 pid.
Proof.
  intros Hwf Ht Hr Hst Hc pid Hpid Hel.
  destruct (tick_dispatch c rs s e s1 sp1 r1 Hwf Ht Hr Hst) as (_ & Hmin & _). specialize (Hmin _ Hel). lia.
Qed.

Lemma idle_after_syscall c rs s e s1 sp1 r1 evs s2 : wf_config c -> regs_typed rs -> reachable c rs s ->
  step c s (Tick, e) = Ok (s1, sp1, r1) -> run c s1 evs = Ok s2 -> tick_free evs -> cur s2 = cfg_n c ->
  forall pid, (pid < cfg_n c)%nat -> eligible c rs s2 pid -> dispatched_in c s1 evs pid.
Proof.
  intros Hwf Ht Hr Hst Hrun Htf Hc pid Hpid Hel. assert (Hi := reachable_inv _ _ _ Hwf Ht Hr).
  assert (Hi1 : Inv c rs s1) by (eapply step_inv; [| |exact Hst]; done).
  eapply covered; [done|exact Hi1| |exact Hrun|done|done|lia].
  apply (po_disp _ _ _ _ _ _ _ _ (step_post _ _ _ _ _ _ _ _ Hwf Hi Hst)).
Qed.

(** * C53 *)
Definition marks_ok (c : config) (s : core) (pid : nat) (l : list Z) : Prop :=
  exists t, c_task s !! pid = Some t
    /\ t_wlo t = foldr Z.min (2 ^ cfg_cbits c - 1) l /\ t_whi t = foldr Z.max 0 l.

Lemma foldr_min_snoc d l x : foldr Z.min d (l ++ [x]) = Z.min (foldr Z.min d l) x.
Proof. induction l as [|a l IH]; cbn in *; lia. Qed.
Lemma foldr_max_snoc d l x : foldr Z.max d (l ++ [x]) = Z.max (foldr Z.max d l) x.
Proof. induction l as [|a l IH]; cbn in *; lia. Qed.

Lemma stat_finish_marks c x t : cfg_lite c = false ->
  t_wlo (stat_finish c x t) = Z.min (t_wlo t) x /\ t_whi (stat_finish c x t) = Z.max (t_whi t) x.
Proof.
  intros Hl. unfold stat_finish. rewrite Hl. cbn. destruct (Z.ltb_spec x (t_wlo t)), (Z.gtb_spec x (t_whi t)); lia.
Qed.

Lemma ev_upd_marks c s o e r i t : cfg_lite c = false ->
  t_wlo (ev_upd c s o e r i t) = (if Nat.eqb i (cur s) then Z.min (t_wlo t) (e_since e) else t_wlo t)
  /\ t_whi (ev_upd c s o e r i t) = (if Nat.eqb i (cur s) then Z.max (t_whi t) (e_since e) else t_whi t).
Proof.
  intros Hl.
  assert (A : forall u, t_wlo (all_upd c s o u) = t_wlo u /\ t_whi (all_upd c s o u) = t_whi u).
  { intros u. destruct o; try done. cbn. unfold tickupd, wake. rewrite Hl. destruct (_ && _); done. }
  assert (B : forall u, t_wlo (stat_start c (e_now e) u) = t_wlo u /\ t_whi (stat_start c (e_now e) u) = t_whi u).
  { intros u. unfold stat_start. rewrite Hl. done. }
  destruct (Nat.eqb_spec i (cur s)) as [->|Hne].
  - rewrite ev_upd_self.
    assert (C : t_wlo (cur_upd c s o e t) = Z.min (t_wlo t) (e_since e) /\ t_whi (cur_upd c s o e t) = Z.max (t_whi t) (e_since e)).
    { assert (D := stat_finish_marks c (e_since e)). destruct o; cbn [cur_upd].
      - cbn. apply D. done.
      - destruct (D (syscall_sleep c s (set_sp t (e_sp e)) (wrap (cfg_tbits c) delay)) Hl) as [-> ->].
        unfold syscall_sleep. destruct (_ >? _); done.
      - destruct (D (fst (syscall_sleep_until c s (set_sp t (e_sp e)) (wrap (cfg_tbits c) ref) (wrap (cfg_tbits c) period))) Hl) as [-> ->].
        unfold syscall_sleep_until. cbv zeta. destruct (_ <? _); [done|]. rewrite Hl. done.
      - destruct (D (syscall_kill (set_sp t (e_sp e))) Hl) as [-> ->]. done.
      - destruct (D (set_sp t (e_sp e)) Hl) as [-> ->]. done. }
    destruct (decide _).
    + destruct (B (all_upd c s o (cur_upd c s o e t))) as [-> ->]. destruct (A (cur_upd c s o e t)) as [-> ->]. done.
    + destruct (A (cur_upd c s o e t)) as [-> ->]. done.
  - rewrite ev_upd_other by done. destruct (decide _).
    + destruct (B (all_upd c s o t)) as [-> ->]. apply A.
    + apply A.
Qed.

Lemma marks_run c rs pid evs : forall s s' l, wf_config c -> Inv c rs s -> cfg_lite c = false ->
  run c s evs = Ok s' -> marks_ok c s pid l -> marks_ok c s' pid (l ++ slices c s evs pid).
Proof.
  induction evs as [|[o e] evs IH]; intros s s' l Hwf Hi Hl Hr Hm; cbn [run slices] in *.
  - injection Hr as <-. rewrite app_nil_r. done.
  - destruct (step c s (o, e)) as [[[s1 sp1] r1]| | |] eqn:E; cbn [rbind fst] in Hr; try done.
    cbn [snd]. rewrite app_assoc. apply (IH s1 s'); try done.
    + eapply step_inv; [| |exact E]; done.
    + destruct Hm as (t & Ht & H1 & H2).
      assert (Hp := step_post _ _ _ _ _ _ _ _ Hwf Hi E).
      exists (ev_upd c s o e (cur s1) pid t). split; [rewrite (po_task _ _ _ _ _ _ _ _ Hp), Ht; done|].
      destruct (ev_upd_marks c s o e (cur s1) pid t Hl) as [-> ->].
      destruct (Nat.eqb pid (cur s)).
      * rewrite foldr_min_snoc, foldr_max_snoc, H1, H2. done.
      * rewrite app_nil_r. done.
Qed.

Lemma marks_boot c tmp0 rs s pid : wf_config c -> regs_typed rs -> cfg_lite c = false ->
  boot c tmp0 rs = Ok s -> (pid <= cfg_n c)%nat -> marks_ok c s pid [].
Proof.
  intros Hwf Ht Hl Hb Hpid. assert (Hi := inv_boot _ _ _ _ Hwf Ht Hb). destruct (idle_reg_some c) as [ir Hir].
  rewrite (boot_full c tmp0 rs ir) in Hb by done. destruct (decide _) as [Hg|]; [|done]. injection Hb as <-.
  destruct (lookup_lt_is_Some_2 (c_task (boot_state c ir rs)) pid) as [t Htk]; [rewrite (inv_len _ _ _ Hi); lia|].
  exists t. split; [done|]. cbn [boot_state c_task] in Htk.
  assert (W : wrap (cfg_cbits c) (-1) = 2 ^ cfg_cbits c - 1) by (apply wrap_m1; apply Hwf).
  cbn [foldr].
  assert (Hlen : length (sorted_slots c rs) = cfg_n c) by (apply user_slots_length, good_order, Hg).
  apply lookup_app_Some in Htk as [Htk|[_ Htk]].
  - rewrite arr_lookup in Htk. destruct (sorted_slots c rs !! pid) as [u|] eqn:Eu; [|done]. cbn in Htk. injection Htk as <-.
    unfold sorted_slots, user_slots in Eu. apply lookup_app_Some in Eu as [Eu|[_ Eu]].
    + apply elem_of_list_lookup_2, elem_of_list_fmap in Eu as (r & -> & _). cbn. rewrite W. done.
    + apply lookup_replicate in Eu as [-> _]. cbn. rewrite W. done.
  - apply list_lookup_singleton_Some in Htk as [_ <-]. cbn. rewrite W. done.
Qed.

Lemma foldr_min_spec d l : Forall (fun x => x <= d) l ->
  (forall x, x ∈ l -> foldr Z.min d l <= x) /\ (l <> [] -> foldr Z.min d l ∈ l).
Proof.
  induction l as [|a l IH]; intros Hf; [split; [intros x Hx; inversion Hx|done]|].
  inversion Hf as [|? ? Ha Hf']; subst. destruct (IH Hf') as [H1 H2]. cbn. split.
  - intros x [->|Hx]%elem_of_cons; [lia|]. specialize (H1 x Hx). lia.
  - intros _. destruct l as [|b l]; [cbn; rewrite Z.min_l by lia; left|].
    specialize (H2 ltac:(done)). destruct (Z.min_spec a (foldr Z.min d (b :: l))) as [[_ ->]|[_ ->]]; [left|right; done].
Qed.
Lemma foldr_max_spec d l : Forall (fun x => d <= x) l ->
  (forall x, x ∈ l -> x <= foldr Z.max d l) /\ (l <> [] -> foldr Z.max d l ∈ l).
Proof.
  induction l as [|a l IH]; intros Hf; [split; [intros x Hx; inversion Hx|done]|].
  inversion Hf as [|? ? Ha Hf']; subst. destruct (IH Hf') as [H1 H2]. cbn. split.
  - intros x [->|Hx]%elem_of_cons; [lia|]. specialize (H1 x Hx). lia.
  - intros _. destruct l as [|b l]; [cbn; rewrite Z.max_l by lia; left|].
    specialize (H2 ltac:(done)). destruct (Z.max_spec a (foldr Z.max d (b :: l))) as [[_ ->]|[_ ->]]; [right; done|left].
Qed.

Lemma slices_range c evs pid (P : Z -> Prop) : forall s, Forall (fun ev => P (e_since (snd ev))) evs ->
  Forall P (slices c s evs pid).
Proof.
  induction evs as [|ev evs IH]; intros s Hf; cbn [slices]; [constructor|].
  inversion Hf as [|? ? H1 H2]; subst. destruct (step c s ev) as [[[s1 ?] ?]| | |]; try constructor.
  apply Forall_app. split; [destruct (Nat.eqb _ _); repeat constructor; done|]. apply IH. done.
Qed.

Lemma watermarks c tmp0 rs s0 evs s pid : wf_config c -> regs_typed rs -> cfg_lite c = false ->
  boot c tmp0 rs = Ok s0 -> run c s0 evs = Ok s ->
  Forall (fun ev => 0 <= e_since (snd ev) < 2 ^ cfg_cbits c) evs -> (pid <= cfg_n c)%nat ->
  exists t, c_task s !! pid = Some t
    /\ (forall x, x ∈ slices c s0 evs pid -> t_wlo t <= x <= t_whi t)
    /\ (slices c s0 evs pid <> [] -> t_wlo t ∈ slices c s0 evs pid /\ t_whi t ∈ slices c s0 evs pid).
Proof.
  intros Hwf Ht Hl Hb Hr Hf Hpid. assert (Hi0 := inv_boot _ _ _ _ Hwf Ht Hb).
  destruct (marks_run c rs pid evs s0 s [] Hwf Hi0 Hl Hr (marks_boot c tmp0 rs s0 pid Hwf Ht Hl Hb Hpid)) as (t & Htk & H1 & H2).
  cbn [app] in H1, H2. exists t. split; [done|].
  assert (Hs : Forall (fun x => 0 <= x < 2 ^ cfg_cbits c) (slices c s0 evs pid)) by (apply slices_range; done).
  destruct (foldr_min_spec (2 ^ cfg_cbits c - 1) (slices c s0 evs pid)) as [A1 A2].
  { eapply Forall_impl; [exact Hs|]. cbn. lia. }
  destruct (foldr_max_spec 0 (slices c s0 evs pid)) as [B1 B2].
  { eapply Forall_impl; [exact Hs|]. cbn. lia. }
  rewrite H1, H2. split.
  - intros x Hx. specialize (A1 x Hx). specialize (B1 x Hx). lia.
  - intros Hne. split; auto.
Qed.
