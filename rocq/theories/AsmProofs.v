(** AsmProofs.v - the ports pass the checkers of AsmSym. *)
From Verif Require Import Base SchedModel SchedSpec AsmModel AsmSpec AsmSym SysModel.

Lemma forall_in {A} (f : A -> bool) (Q : A -> Prop) (l : list A) :
  (forall x, f x = true -> Q x) -> forallb f l = true -> forall x, x ∈ l -> Q x.
Proof. intros Hf Hl x Hx. rewrite forallb_forall in Hl. apply Hf, Hl. by apply elem_of_list_In. Qed.

Lemma ports_tick p : p ∈ al_ports -> tick_ok p (p_regs p).
Proof. revert p. refine (forall_in (fun p => check_tick p (p_regs p)) (fun p => tick_ok p (p_regs p)) _ _ _); [intros q; apply check_tick_ok|]. vm_compute. reflexivity. Qed.
Lemma ports_call p : p ∈ al_ports -> call_ok p (p_regs p).
Proof. revert p. refine (forall_in (fun p => check_call p (p_regs p)) (fun p => call_ok p (p_regs p)) _ _ _); [intros q; apply check_call_ok|]. vm_compute. reflexivity. Qed.
Lemma ports_args p : p ∈ al_ports -> p <> stm8 -> args_ok p.
Proof.
  intros Hp Hn. assert (p ∈ [armv6m false; armv6m true; armv7m false; armv7m true; armv7em false; armv7em true;
   rv32ec; rv32imac; e200 false; avr false; avr true; hcs08]) as Hp' by (unfold al_ports in Hp; set_solver).
  clear Hp Hn. revert p Hp'. refine (forall_in check_args args_ok _ _ _); [intros q; apply check_args_ok|]. vm_compute. reflexivity.
Qed.
Lemma mips_args p : p ∈ mips_ports -> args_ok p.
Proof. revert p. refine (forall_in check_args (fun p => args_ok p) _ _ _); [intros q; apply check_args_ok|]. vm_compute. reflexivity. Qed.
Lemma ports_first p : p ∈ new_ports -> first_ok p.
Proof. revert p. refine (forall_in check_first (fun p => first_ok p) _ _ _); [intros q; apply check_first_ok|]. vm_compute. reflexivity. Qed.

Local Open Scope string_scope.
Local Open Scope Z_scope.
Lemma mips_tick p : p ∈ mips_ports -> tick_ok p (mips_kept p).
Proof. revert p. refine (forall_in (fun p => check_tick p (mips_kept p)) (fun p => tick_ok p (mips_kept p)) _ _ _); [intros q; apply check_tick_ok|]. vm_compute. reflexivity. Qed.
Lemma mips_call p : p ∈ mips_ports -> call_ok p (mips_kept p).
Proof. revert p. refine (forall_in (fun p => check_call p (mips_kept p)) (fun p => call_ok p (mips_kept p)) _ _ _); [intros q; apply check_call_ok|]. vm_compute. reflexivity. Qed.
Lemma mips_kept_ok p x : x ∈ p_regs p -> x <> "s6" -> x <> "at" -> x ∈ mips_kept p.
Proof.
  intros Hx H1 H2. unfold mips_kept. apply elem_of_list_In, filter_In. split; [by apply elem_of_list_In|].
  apply negb_true_iff, orb_false_iff. split; by apply String.eqb_neq.
Qed.

(** Witnesses of the failures: a machine, and one that is about to resume it. *)
Definition zeros : mach := mkMach (fun _ => 0) (fun _ => 0).
Definition back (p : aport) (r : string -> Z) (s : mach) : mach :=
  mkMach (fun x => if String.eqb x (p_ret p) then reg s (p_arg p) else r x) (mem s).
Lemma back_kept p r s : (let '(x, lo, hi) := p_kstk p in apart (back p r s) (p_ret p) (p_lo p) (p_hi p) x lo hi) ->
  kept p (reg s (p_arg p)) s (back p r s).
Proof. intros Ha. split_and!; [|done|done]. cbn [back AsmModel.reg]. by rewrite String.eqb_refl. Qed.

Definition consts (v : Z) : mach := mkMach (fun x => if String.eqb x "pc" then 11 else if String.eqb x "at" then 12 else v) (fun _ => 0).
Lemma tick_lost (p : aport) (x : string) :
  (let '(y, lo, hi) := p_kstk p in lo =? hi) = true ->
  reg (exec (fun _ => 9) (p_resume p) (back p (fun _ => 7) (exec (fun _ => 9) (p_tick p) (consts 5)))) x =? reg (consts 5) x = false ->
  ~ tick_ok p [x].
Proof.
  intros Hk Hn [_ Ht]. apply Z.eqb_neq in Hn. apply Hn.
  apply (Ht (fun _ => 9) (consts 5)); [|set_solver]. apply back_kept.
  destruct (p_kstk p) as [[y lo] hi]. intros k j _ Hj. lia.
Qed.
Lemma mips_lost p x : p ∈ mips_ports -> x = "s6" \/ x = "at" -> ~ tick_ok p [x].
Proof.
  intros Hp Hx.
  assert (forallb (fun p => (let '(y, lo, hi) := p_kstk p in lo =? hi) &&
    forallb (fun x => negb (reg (exec (fun _ => 9) (p_resume p) (back p (fun _ => 7) (exec (fun _ => 9) (p_tick p) (consts 5)))) x =? reg (consts 5) x)) ["s6"; "at"]) mips_ports = true) as E
    by (vm_compute; reflexivity).
  rewrite forallb_forall in E. specialize (E p ltac:(by apply elem_of_list_In)).
  apply andb_true_iff in E as [E1 E2]. rewrite forallb_forall in E2.
  apply tick_lost; [done|]. apply negb_true_iff, E2. destruct Hx; subst; cbn; auto.
Qed.
Lemma e200_lost : ~ tick_ok (e200 true) ["pc"].
Proof.
  intros [_ Ht].
  pose (m' := back (e200 true) (fun _ => 1000) (exec (fun _ => 9) (p_tick (e200 true)) (consts 5))).
  assert (reg (exec (fun _ => 9) (p_resume (e200 true)) m') "pc" = 9) as E by (vm_compute; reflexivity).
  assert (kept (e200 true) (reg (exec (fun _ => 9) (p_tick (e200 true)) (consts 5)) (p_arg (e200 true)))
    (exec (fun _ => 9) (p_tick (e200 true)) (consts 5)) m') as Hk.
  { apply back_kept. change (p_kstk (e200 true)) with ("r1", -8, 0). cbv beta iota. fold m'.
    assert (reg m' "r1" = 1000) as E1 by (vm_compute; reflexivity).
    assert (reg m' (p_ret (e200 true)) = -135) as E2 by (vm_compute; reflexivity).
    change (p_lo (e200 true)) with 0. change (p_hi (e200 true)) with 140.
    intros k j Hk Hj. rewrite E1, E2. lia. }
  pose proof (Ht _ _ (fun _ => 9) m' Hk "pc" (elem_of_list_here _ _)) as K. rewrite E in K. discriminate K.
Qed.
Lemma stm8_args h m : reg (exec h (p_call stm8) m) "y" = reg m "sp" + 3.
Proof.
  assert (check_save stm8 (p_call stm8) = true) as Hc by (vm_compute; reflexivity).
  rewrite (proj1 (check_save_rel _ _ h m Hc)).
  replace (rget (sr (srun (p_call stm8))) "y") with (BReg "sp", 3) by (vm_compute; reflexivity). reflexivity.
Qed.
Lemma stm8_args_bad : ~ args_ok stm8.
Proof.
  intros Ha. destruct (Ha (fun _ => 0) (consts 5)) as [_ H]. specialize (H "y" 3 (elem_of_list_here _ _)).
  rewrite stm8_args in H. discriminate H.
Qed.

Definition check_port (P : bool -> aport) : bool :=
  let one al := let p := P al in
    check_tick p (p_regs p) && check_call p (p_regs p) && check_quiet p (p_resume p) && (p_below p =? 0) &&
    (0 <=? p_lo p) && (p_lo p <=? p_hi p) && String.eqb (p_ret p) (p_ret (P false)) &&
    (let '(x, lo, hi) := p_kstk p in let '(x', lo', hi') := p_kstk (P false) in String.eqb x x' && (lo =? lo') && (hi =? hi')) in
  one false && one true && check_first (P false) && check_quiet (P false) (p_start (P false)).
Lemma check_port_ok P : check_port P = true -> port_ok P.
Proof.
  unfold check_port. intros Hc.
  apply andb_true_iff in Hc as [Hc H4]. apply andb_true_iff in Hc as [Hc H3]. apply andb_true_iff in Hc as [H1 H2].
  split; [|split; [by apply check_first_ok|by apply check_quiet_ok]].
  assert (forall al, (let p := P al in
    check_tick p (p_regs p) && check_call p (p_regs p) && check_quiet p (p_resume p) && (p_below p =? 0) &&
    (0 <=? p_lo p) && (p_lo p <=? p_hi p) && String.eqb (p_ret p) (p_ret (P false)) &&
    (let '(x, lo, hi) := p_kstk p in let '(x', lo', hi') := p_kstk (P false) in String.eqb x x' && (lo =? lo') && (hi =? hi'))) = true) as Hall
    by (intros []; done).
  intros al. specialize (Hall al). cbv zeta in *.
  apply andb_true_iff in Hall as [Hall K8]. apply andb_true_iff in Hall as [Hall K7]. apply andb_true_iff in Hall as [Hall K6].
  apply andb_true_iff in Hall as [Hall K5]. apply andb_true_iff in Hall as [Hall K4]. apply andb_true_iff in Hall as [Hall K3].
  apply andb_true_iff in Hall as [K1 K2]. apply String.eqb_eq in K7.
  split_and!; [by apply check_tick_ok|by apply check_call_ok|by apply check_quiet_ok|lia|lia|lia|done|].
  destruct (p_kstk (P al)) as [[x lo] hi], (p_kstk (P false)) as [[x' lo'] hi'].
  apply andb_true_iff in K8 as [K8 L3]. apply andb_true_iff in K8 as [L1 L2]. apply String.eqb_eq in L1.
  apply Z.eqb_eq in L2, L3. congruence.
Qed.
Lemma families_ok P : P ∈ families -> port_ok P.
Proof. revert P. refine (forall_in check_port port_ok _ _ _); [intros q; apply check_port_ok|]. vm_compute. reflexivity. Qed.
