(** SysProofs.v - proofs about SysModel. *)
From Verif Require Import Base SchedModel SchedSpec SchedThms AsmModel AsmSpec SysModel.

Lemma saved_sp_app c s evs ev s' m : run c s evs = Ok s' ->
  saved_sp c s (evs ++ [ev]) m =
  match step c s' ev with Ok _ => (fun pid => if Nat.eqb pid (cur s') then Some (e_sp (snd ev)) else saved_sp c s evs m pid)
                        | _ => saved_sp c s evs m end.
Proof.
  revert s m. induction evs as [|e evs IH]; intros s m; cbn [run app].
  - intros [= ->]. cbn [saved_sp]. destruct (step c s' ev) as [[[s2 sp] r]| | |]; reflexivity.
  - destruct (step c s e) as [[[s1 sp] r]| | |] eqn:Es; cbn [rbind fst]; intros Hr; try discriminate.
    change (saved_sp c s (e :: evs ++ [ev]) m) with
      (match step c s e with
       | Ok (s', _, _) => saved_sp c s' (evs ++ [ev]) (fun pid => if Nat.eqb pid (cur s) then Some (e_sp (snd e)) else m pid)
       | _ => m end).
    rewrite Es. rewrite IH by done. cbn [saved_sp]. rewrite Es. reflexivity.
Qed.
Lemma run_app1 c s evs ev s1 s' sp r : run c s evs = Ok s1 -> step c s1 ev = Ok (s', sp, r) -> run c s (evs ++ [ev]) = Ok s'.
Proof.
  revert s. induction evs as [|e evs IH]; intros s; cbn [run app].
  - intros [= ->] Hs. rewrite Hs. reflexivity.
  - destruct (step c s e) as [[[s2 sp2] r2]| | |] eqn:Es; cbn [rbind fst]; intros Hr Hs; try discriminate. by apply IH.
Qed.

Section sys.
  Context (P : bool -> aport) (c : config) (rs : list SchedModel.reg) (born : nat -> option mach).
  Context (Hwf : wf_config c) (Hty : regs_typed rs) (HP : port_ok P) (Hbs : stacks_ok (P false) (stack_bounds c rs)).
  Notation bs := (stack_bounds c rs).

  (** The context of [j], saved at [sp], is in its stack in [m]. *)
  Definition ctx (left : leaves) (j : nat) (sp b e : Z) (m : mach) : Prop :=
    let p := P (alof left j) in
    b <= sp + p_lo p /\ sp + p_hi p <= e /\
    match left j with
    | Some (al, o, mj) => exists h, let s := exec h (entry_code (P al) o) mj in
        sp = reg s (p_arg (P al)) /\
        (forall a, sp + p_lo p <= a < sp + p_hi p -> mem m a = mem s a) /\
        (~ is_su o -> forall a, sp + p_hi p <= a < e -> mem m a = mem mj a)
    | None => exists h mb, let s := exec h (p_first p) mb in born j = Some mb /\
        sp = reg s (p_fret p) /\ reg mb (p_top p) = e + p_fadj p /\ elsewhere p bs mb /\
        (forall a, sp + p_lo p <= a < sp + p_hi p -> mem m a = mem s a)
    end.

  Lemma ctx_same left left' j sp b e m m' : bs j = Some (b, e) -> left' j = left j ->
    (forall a, b <= a < e -> mem m' a = mem m a) -> ctx left j sp b e m -> ctx left' j sp b e m'.
  Proof.
    intros Hb Hl Hs. unfold ctx, alof. rewrite Hl. cbv zeta.
    pose proof (proj1 HP) as Hp.
    destruct (left j) as [[[al o] mj]|].
    - destruct (Hp al) as (_ & _ & _ & _ & Hlo & _). intros (H1 & H2 & h & H3 & H4 & H5). split_and!; [done..|]. exists h.
      split_and!; [done| |].
      + intros a Ha. rewrite Hs by lia. by apply H4.
      + intros Hsu a Ha. rewrite Hs by lia. by apply H5.
    - destruct (Hp false) as (_ & _ & _ & _ & Hlo & _).
      intros (H1 & H2 & h & mb & H3 & H4 & H5 & H6 & H7). split_and!; [done..|]. exists h, mb. split_and!; try done.
      intros a Ha. rewrite Hs by lia. by apply H7.
  Qed.

  Lemma elsewhere_apart (p : aport) m x0 lo' hi' j b e : elsewhere p bs m -> bs j = Some (b, e) ->
    b <= reg m x0 + lo' -> reg m x0 + hi' <= e ->
    let '(x, lo, hi) := p_kstk p in apart m x0 lo' hi' x lo hi.
  Proof.
    unfold elsewhere. destruct (p_kstk p) as [[x lo] hi]. intros He Hj H1 H2 k i Hk Hi Heq.
    apply (He j b e (reg m x0 + k) Hj); lia.
  Qed.

  Lemma prepared_ctx born' sps m : prepared (P false) bs born' sps m ->
    (forall j, born' j = None -> sps j = None) /\
    forall j sp, sps j = Some sp -> exists b e h mb, bs j = Some (b, e) /\ let p := P false in let s := exec h (p_first p) mb in
      born' j = Some mb /\ sp = reg s (p_fret p) /\ reg mb (p_top p) = e + p_fadj p /\ elsewhere p bs mb /\
      b <= sp + p_lo p /\ sp + p_hi p <= e /\ (forall a, sp + p_lo p <= a < sp + p_hi p -> mem m a = mem s a).
  Proof.
    induction 1 as [m|born' sps m m' _ [IH0 IH] Hs|born' sps m h j b e _ [IH0 IH] Hj Hn Htop Hel].
    - split; [done|]. intros j sp [=].
    - split; [done|]. intros j sp Hsp. destruct (IH j sp Hsp) as (b & e & h & mb & Hb & H1 & H2 & H3 & H4 & H5 & H6 & H7).
      exists b, e, h, mb. cbv zeta. split_and!; try done. intros a Ha.
      destruct (proj1 HP false) as (_ & _ & _ & _ & Hlo & _).
      rewrite (Hs j b e a) by (done || lia). by apply H7.
    - pose proof (proj1 (proj2 HP) h m) as Hf. cbv zeta in Hf. pose proof (proj1 Hbs _ _ _ Hj) as Hsz.
      pose proof (elsewhere_apart (P false) m (p_top (P false)) (- p_fadj (P false) - p_min (P false) * p_unit (P false)) (- p_fadj (P false)) j b e Hel Hj) as Hap.
      pose proof Hel as Hel'. unfold elsewhere in Hel'.
      destruct (p_kstk (P false)) as [[x lo] hi]. destruct Hf as (Hmem & _ & Hlow & Hhigh & _); [apply Hap; lia|].
      rewrite Htop in Hmem, Hlow, Hhigh.
      split.
      + intros i. unfold upd. destruct (Nat.eqb i j); [done|apply IH0].
      + intros i sp. unfold upd. destruct (Nat.eqb i j) eqn:Eij.
        * apply Nat.eqb_eq in Eij. subst i. intros [= <-]. exists b, e, h, m. cbv zeta. split_and!; try done; lia.
        * apply Nat.eqb_neq in Eij. intros Hsp. destruct (IH i sp Hsp) as (b' & e' & h' & mb & Hb & H1 & H2 & H3 & H4 & H5 & H6 & H7).
          exists b', e', h', mb. cbv zeta. split_and!; try done. intros a Ha.
          destruct (proj1 HP false) as (_ & _ & _ & _ & Hlo & _).
          rewrite <- (H7 a Ha). apply Hmem; [|apply (Hel' i b' e'); [done|lia]].
          intros Hin. apply (proj2 Hbs i j b' e' b e a); [done..|lia|lia].
  Qed.

  Lemma quiet_stacks al code m h sp j b e : quiet_ok (P al) code -> elsewhere (P al) bs m ->
    reg m (p_ret (P al)) = sp -> bs j = Some (b, e) -> b <= sp + p_lo (P al) -> sp + p_hi (P al) <= e ->
    same_stacks bs None m (exec h code m).
  Proof.
    intros Hq Hel Hr Hj H1 H2 i b' e' a _ Hi Ha. unfold quiet_ok in Hq.
    pose proof (elsewhere_apart (P al) m (p_ret (P al)) (p_lo (P al)) (p_hi (P al)) j b e Hel Hj) as Hap.
    unfold elsewhere in Hel. destruct (p_kstk (P al)) as [[x lo] hi].
    rewrite Hr in Hap. apply Hq; [apply Hap; lia|]. by apply (Hel i b' e').
  Qed.
  Lemma elsewhere_al al m : elsewhere (P al) bs m <-> elsewhere (P false) bs m.
  Proof. unfold elsewhere. destruct (proj1 HP al) as (_ & _ & _ & _ & _ & _ & ->). done. Qed.

  (** The invariant. *)
  Definition inv (k0 : core) (evs : list (op * entry)) (k : core) (m : mach) (left : leaves) : Prop :=
    (exists tmp0, boot c tmp0 rs = Ok k0) /\ run c k0 evs = Ok k /\
    forall j sp, saved_sp c k0 evs (initial_sp c rs) j = Some sp ->
      exists b e, bs j = Some (b, e) /\ (j <> cur k -> ctx left j sp b e m).

  (** A switch, given the invariant: the context of the selected task is intact before it is resumed. *)
  Lemma switch_facts k0 evs k m left ev k' m' left' :
    inv k0 evs k m left -> switch P c bs k m left ev k' m' left' ->
    exists m2 h' sp', m' = exec h' (p_resume (P (alof left' (cur k')))) m2 /\
      reg m2 (p_ret (P false)) = sp' /\ elsewhere (P false) bs m2 /\
      run c k0 (evs ++ [ev]) = Ok k' /\
      saved_sp c k0 (evs ++ [ev]) (initial_sp c rs) (cur k') = Some sp' /\
      forall j sp, saved_sp c k0 (evs ++ [ev]) (initial_sp c rs) j = Some sp ->
        exists b e, bs j = Some (b, e) /\ ctx left' j sp b e m2.
  Proof.
    intros ([tmp0 Hboot] & Hrun & Hinv) (al & h & h' & m2 & sp' & ref & b & e & Hsw). cbv zeta in Hsw.
    destruct Hsw as (Hb & Htop & Hesp & Hstep & Hmem & Hret & Hel & Hleft & Hm').
    destruct (proj1 HP al) as (Ht & Hc & _ & Hbel & Hlo & Hr & Hk). rewrite Hr in Hret.
    assert (reachable c rs k) as Hreach by (exists tmp0, k0, evs; done).
    destruct ev as [o en]. cbn [fst snd] in *.
    set (s := exec h (entry_code (P al) o) m) in *. set (sp := reg s (p_arg (P al))) in *.
    assert (Hsave : sp + p_size (P al) = reg m (p_sp (P al)) /\
      forall a, ~ (sp - p_below (P al) <= a < sp + p_hi (P al)) -> mem s a = mem m a).
    { destruct o; [exact (proj1 Ht h m)|exact (proj1 Hc h m)..]. }
    destruct Hsave as [Hsz Hout]. rewrite Hbel in Hout.
    assert (b <= sp < e) as Hin.
    { destruct (decide (b <= sp < e)) as [|Hn]; [done|].
      rewrite (bad_sp_stalls c rs k o en Hwf Hty Hreach) in Hstep; [discriminate|].
      intros (b' & e' & Hb' & Hi). rewrite Hb in Hb'. injection Hb' as <- <-. rewrite Hesp in Hi. done. }
    exists m2, h', sp'. split_and!; [done|done|by apply (elsewhere_al al)|by eapply run_app1| |].
    - exact (context_integrity c tmp0 rs k0 evs k o en k' sp' ref Hwf Hty Hboot Hrun Hstep).
    - intros j spj. rewrite (saved_sp_app _ _ _ _ k) by done. rewrite Hstep. cbn [snd].
      destruct (Nat.eqb j (cur k)) eqn:Ej.
      + apply Nat.eqb_eq in Ej. subst j. intros [= <-]. rewrite Hesp. exists b, e. split; [done|].
        unfold ctx, alof. rewrite Hleft. unfold upd. rewrite Nat.eqb_refl. cbv zeta. fold s.
        split_and!; [lia|lia|]. exists h. fold s. split_and!; [done| |].
        * intros a Ha. destruct (Hmem (cur k) b e a Hb) as [|(_ & _ & ?)]; [lia|done|lia].
        * intros Hsu a Ha. destruct (Hmem (cur k) b e a Hb) as [->|(? & _)]; [lia| |done]. apply Hout. lia.
      + apply Nat.eqb_neq in Ej. intros Hsp. destruct (Hinv j spj Hsp) as (bj & ej & Hbj & Hctx). exists bj, ej. split; [done|].
        eapply (ctx_same left); [done| | |by apply Hctx].
        * rewrite Hleft. unfold upd. by apply Nat.eqb_neq in Ej as ->.
        * intros a Ha. destruct (Hmem j bj ej a Hbj Ha) as [->|(_ & ? & _)]; [|done]. apply Hout. intros Hx.
          apply (proj2 Hbs j (cur k) bj ej b e a); [done..|lia].
  Qed.

  Lemma ctx_bounds left j sp b e m : ctx left j sp b e m ->
    b <= sp + p_lo (P (alof left j)) /\ sp + p_hi (P (alof left j)) <= e.
  Proof. intros (H1 & H2 & _). done. Qed.

  Lemma sys_inv k0 evs k m left : sysrun P c rs born k0 evs k m left -> inv k0 evs k m left.
  Proof.
    induction 1 as [tmp0 k0 sps m m2 h sp0 Hprep Hboot Hsps Hsp0 Hst Hel Hret|k0 evs k m m' left _ IH Hst|k0 evs k m left ev k' m' left' _ IH Hsw].
    - destruct (prepared_ctx _ _ _ Hprep) as [_ Hc]. split_and!; [by exists tmp0|done|].
      intros j sp. cbn [saved_sp]. rewrite Hsps. intros Hsp.
      destruct (Hc j sp Hsp) as (b & e & hj & mb & Hb & H1 & H2 & H3 & H4 & H5 & H6 & H7). exists b, e. split; [done|]. intros _.
      destruct (Hc _ _ Hsp0) as (b0 & e0 & hj0 & mb0 & Hb0 & _ & _ & _ & _ & K5 & K6 & _).
      pose proof (quiet_stacks false _ m2 h sp0 _ b0 e0 (proj2 (proj2 HP)) Hel Hret Hb0 K5 K6) as Hq.
      unfold ctx, alof. cbv zeta. split_and!; [done..|]. exists hj, mb. split_and!; try done.
      intros a Ha. destruct (proj1 HP false) as (_ & _ & _ & _ & Hlo & _).
      rewrite (Hq j b e a), (Hst j b e a) by (done || lia). by apply H7.
    - destruct IH as (Hb & Hr & IH). split_and!; [done..|]. intros j sp Hsp. destruct (IH j sp Hsp) as (b & e & Hbj & Hc).
      exists b, e. split; [done|]. intros Hj. eapply ctx_same; [done|done| |by apply Hc].
      intros a Ha. apply (Hst j b e); [congruence|done..].
    - destruct (switch_facts _ _ _ _ _ _ _ _ _ IH Hsw) as (m2 & h' & sp' & -> & Hret & Hel & Hrun & Hsp' & Hall).
      split_and!; [apply IH|done|]. intros j sp Hsp. destruct (Hall j sp Hsp) as (b & e & Hb & Hc). exists b, e. split; [done|]. intros _.
      eapply ctx_same; [done|done| |exact Hc]. intros a Ha.
      destruct (Hall _ _ Hsp') as (b' & e' & Hb' & Hc'). apply ctx_bounds in Hc' as [C1 C2].
      destruct (proj1 HP (alof left' (cur k'))) as (_ & _ & Hq & _ & _ & Hr & _).
      refine (quiet_stacks _ _ m2 h' sp' (cur k') b' e' Hq _ _ Hb' C1 C2 j b e a _ Hb Ha); [by apply elsewhere_al|by rewrite Hr|done].
  Qed.

  Lemma sys_finds k0 evs k m left ev k' m' left' :
    sysrun P c rs born k0 evs k m left -> switch P c bs k m left ev k' m' left' ->
    finds P bs born left' (cur k') m'.
  Proof.
    intros Hrun Hsw. apply sys_inv in Hrun.
    destruct (switch_facts _ _ _ _ _ _ _ _ _ Hrun Hsw) as (m2 & h' & sp' & -> & Hret & Hel & _ & Hsp' & Hall).
    destruct (Hall _ _ Hsp') as (b & e & Hb & Hc). clear Hall. unfold finds. unfold ctx, alof in Hc. unfold alof.
    destruct (left' (cur k')) as [[[al o] mj]|].
    - cbv zeta in *. destruct Hc as (H1 & H2 & h & H3 & H4 & H5).
      destruct (proj1 HP al) as (Ht & Hcl & Hq & Hbel & Hlo & Hr & Hk).
      assert (kept (P al) sp' (exec h (entry_code (P al) o) mj) m2) as Hkept.
      { split_and!; [by rewrite Hr|done|]. eapply elsewhere_apart; [by apply elsewhere_al|exact Hb|..]; rewrite Hr; lia. }
      split.
      + intros x Hx. rewrite H3 in Hkept. destruct o; [exact (proj2 Ht h mj h' m2 Hkept x Hx)|exact (proj2 Hcl h mj h' m2 Hkept x Hx)..].
      + intros b' e' a Hb' Hsu Ha. rewrite Hb in Hb'. injection Hb' as <- <-.
        assert (sp' + p_size (P al) = reg mj (p_sp (P al))) as Hsz.
        { rewrite H3. destruct o; [exact (proj1 (proj1 Ht h mj))|exact (proj1 (proj1 Hcl h mj))..]. }
        transitivity (mem m2 a); [|apply H5; [done|lia]].
        refine (quiet_stacks al _ m2 h' sp' (cur k') b e Hq _ _ Hb H1 H2 (cur k') b e a _ Hb _); [by apply elsewhere_al|by rewrite Hr|done|].
        lia.
    - cbv zeta in *. destruct Hc as (H1 & H2 & h & mb & H3 & H4 & H5 & H6 & H7).
      exists mb. split; [done|]. pose proof (proj1 (proj2 HP) h mb) as Hf. cbv zeta in Hf.
      pose proof (proj1 Hbs _ _ _ Hb) as Hsz.
      pose proof (elsewhere_apart (P false) mb (p_top (P false)) (- p_fadj (P false) - p_min (P false) * p_unit (P false)) (- p_fadj (P false)) _ b e H6 Hb) as Hap.
      assert (kept (P false) sp' (exec h (p_first (P false)) mb) m2) as Hkept.
      { split_and!; [done|done|]. eapply elsewhere_apart; [done|exact Hb|..]; lia. }
      destruct (proj1 HP false) as (_ & _ & _ & _ & Hlo & _).
      unfold kept in Hf, Hkept. destruct (p_kstk (P false)) as [[x lo] hi].
      destruct Hf as (_ & _ & Hl & Hh & Hgo); [apply Hap; lia|].
      rewrite <- H4 in Hgo. destruct (Hgo h' m2 _ (or_intror eq_refl) Hkept) as [G1 G2]. split; [done|].
      intros b' e' Hb'. rewrite Hb in Hb'. injection Hb' as <- <-. rewrite H5 in G2. lia.
  Qed.
End sys.
