(** PropPort.v - C48-C52, C55 and C62: delays, ports, pseudo-random generator. *)
From Verif Require Import Base PortModel PortSpec PortProofs RngPeriod.
From Coq Require Import ZifyBool ZifyNat.

(** C48: where nothing overflows, each macro gives the least number of ticks that lasts at least the
    delay (t ticks last t / hz seconds). *)
Lemma c48_sec wa w hz x : 0 <= x -> 0 < hz -> 0 <= w <= wa -> x * hz < 2 ^ w ->
  delay_sec wa w hz x = x * hz.
Proof.
  intros Hx Hh Hw Ho. assert (2 ^ w <= 2 ^ wa) by (apply Z.pow_le_mono_r; lia). assert (0 <= x * hz) by nia.
  unfold delay_sec. rewrite (wrap_small wa) by lia. rewrite wrap_small; lia.
Qed.
Lemma c48_aux d wa w hz x : 1 < d -> 0 <= x -> 0 < hz -> 0 <= w -> 0 <= wa -> x * hz + (d - 1) < 2 ^ wa -> (x * hz + (d - 1)) / d < 2 ^ w ->
  let t := wrap w (wrap wa (wrap wa (x * hz) + (d - 1)) / d) in
  x * hz <= t * d /\ forall t', x * hz <= t' * d -> t <= t'.
Proof.
  intros Hd Hx Hh Hw Hwa H1 H2. assert (0 <= x * hz) by nia. cbv zeta.
  rewrite (wrap_small wa (x * hz)) by lia. rewrite (wrap_small wa) by lia.
  rewrite wrap_small; [apply ceil_spec; lia|]. split; [apply Z.div_pos; lia|done].
Qed.
Lemma c48_msec wa w hz x : 0 <= x -> 0 < hz -> 0 <= w -> 0 <= wa -> x * hz + 999 < 2 ^ wa -> (x * hz + 999) / 1000 < 2 ^ w ->
  x * hz <= delay_msec wa w hz x * 1000 /\ forall t, x * hz <= t * 1000 -> delay_msec wa w hz x <= t.
Proof. intros. apply (c48_aux 1000); lia. Qed.
Lemma c48_usec wa w hz x : 0 <= x -> 0 < hz -> 0 <= w -> 0 <= wa -> x * hz + 999999 < 2 ^ wa -> (x * hz + 999999) / 1000000 < 2 ^ w ->
  x * hz <= delay_usec wa w hz x * 1000000 /\ forall t, x * hz <= t * 1000000 -> delay_usec wa w hz x <= t.
Proof. intros. apply (c48_aux 1000000); lia. Qed.
Theorem C48_sec : forall wa w hz x, 0 <= x -> 0 < hz -> 0 <= w <= wa -> x * hz < 2 ^ w ->
  delay_sec wa w hz x = x * hz.
Proof. exact c48_sec. Qed.
Print Assumptions C48_sec.
Theorem C48_msec : forall wa w hz x,
  0 <= x -> 0 < hz -> 0 <= w -> 0 <= wa -> x * hz + 999 < 2 ^ wa -> (x * hz + 999) / 1000 < 2 ^ w ->
  x * hz <= delay_msec wa w hz x * 1000 /\ forall t, x * hz <= t * 1000 -> delay_msec wa w hz x <= t.
Proof. exact c48_msec. Qed.
Print Assumptions C48_msec.
Theorem C48_usec : forall wa w hz x,
  0 <= x -> 0 < hz -> 0 <= w -> 0 <= wa -> x * hz + 999999 < 2 ^ wa -> (x * hz + 999999) / 1000000 < 2 ^ w ->
  x * hz <= delay_usec wa w hz x * 1000000 /\ forall t, x * hz <= t * 1000000 -> delay_usec wa w hz x <= t.
Proof. exact c48_usec. Qed.
Print Assumptions C48_usec.
(** Case: 15 ms at 100 Hz is 2 ticks; on a 16-bit port 700 ms at 100 Hz, which is 70 ticks, comes out
    as 5 because the product overflows: the hypothesis on overflow is needed. *)
Example ex48 : delay_msec 32 32 100 15 = 2 /\ delay_usec 32 32 1000 1 = 1 /\ delay_sec 32 32 100 3 = 300.
Proof. done. Qed.
Example ex48_overflow : delay_msec 16 16 100 700 = 5.
Proof. reflexivity. Qed.

(** C49: [n0] is the true time of the reference, [e] the true number of ticks since; counters of
    w bits.  Whatever the wrap-around, the macro tells whether x ticks have passed. *)
Theorem C49_elapsed : forall w n0 e x, 0 <= w -> 0 <= e < 2 ^ w ->
  delay_elapsed w (wrap w (n0 + e)) (wrap w n0) x = true <-> x <= e.
Proof. exact delay_elapsed_ok. Qed.
Print Assumptions C49_elapsed.
(** Case: the counter wraps from 65530 to 10. *)
Example ex49 : delay_elapsed 16 (wrap 16 (65530 + 16)) (wrap 16 65530) 16 = true /\
  delay_elapsed 16 (wrap 16 (65530 + 15)) (wrap 16 65530) 16 = false.
Proof. done. Qed.

(** C50, partial: the contract holds on these ports whatever interrupts, other tasks and lost
    reservations do.  Missing: rv32imac, MIPS m51xx and HCS08, where it is false. *)
Definition good_port (p : port) : Prop := match p with RV32IMAC | M51XX | HCS08 => False | _ => True end.
Lemma c50_aux p : good_port p -> cas_contract (port_cas p).
Proof.
  intros H. destruct p; try done; cbn;
    first [apply cas_masked_ok | apply cas_armv7m_ok | apply cas_e200_ok | apply cas_locked_ok].
Qed.
Theorem C50_cas_partial : forall p, good_port p -> cas_contract (port_cas p).
Proof. exact c50_aux. Qed.
Print Assumptions C50_cas_partial.
(** Alone, every port but rv32imac takes the variable exactly when it is free. *)
Theorem C50_solo : forall p, p <> RV32IMAC -> cas_solo (port_cas p).
Proof. exact cas_solo_all. Qed.
Print Assumptions C50_solo.

(** Called with interrupts enabled, it returns with interrupts enabled, on every port but HCS08. *)
Lemma env_ie l : forall s, m_ie (fold_left penv_step l s) = m_ie s.
Proof.
  induction l as [|e l IH]; intros s; cbn [fold_left]; [done|]. rewrite IH. destruct e; cbn [penv_step]; try done.
  - by destruct (m_ie s && _).
  - by destruct (m_lock s).
  - by destruct (m_lock s) as [[]|].
Qed.
Fixpoint no_mask (n : nat) (p : pprog) : Prop :=
  match n with
  | O => exists r, p = PRet r
  | S n => match p with PRet _ => True | POp o k => o <> Mask /\ forall v, no_mask n (k v) end
  end.
Lemma no_mask_ie n : forall p env s, no_mask n p -> m_ie s = true -> m_ie (fst (fst (prun p env s))) = true.
Proof.
  induction n as [|n IH]; intros p env s H Hs; destruct p as [r|o k]; cbn [prun fst]; try done.
  { by destruct H. }
  destruct H as [Ho Hk]. set (s0 := fold_left penv_step (env O) s). assert (H0 : m_ie s0 = true) by (subst s0; by rewrite env_ie).
  assert (H1 : m_ie (fst (fst (pexec o s0))) = true).
  { destruct o; cbn [pexec]; try done; [by destruct (m_resv s0)|by destruct (m_lock s0)]. }
  destruct (pexec o s0) as [[s1 v] w] eqn:E. cbn [fst] in H1. specialize (IH (k v) (fun i => env (S i)) s1 (Hk v) H1).
  destruct (prun (k v) _ s1) as [[s2 r] w']. exact IH.
Qed.
Lemma cas_masked_ie old val env s : m_ie (fst (fst (prun (cas_masked old val) env s))) = true.
Proof. cbn. match goal with |- context [if ?b then _ else _] => destruct b end; cbn; done. Qed.
Lemma cas_ie p old val env s : p <> HCS08 -> m_ie s = true -> m_ie (fst (fst (prun (port_cas p old val) env s))) = true.
Proof.
  intros Hp Hs. destruct p; try done; cbn [port_cas]; try apply cas_masked_ie.
  all: apply (no_mask_ie 5); [|done].
  all: cbn; split; [done|]; intros v;
    repeat (match goal with |- context [if ?b then _ else _] => destruct b end; cbn; try (split; [done|]; intros); try done).
Qed.
Theorem C50_interrupts_back : forall p old val env s, p <> HCS08 -> m_ie s = true ->
  m_ie (fst (fst (prun (port_cas p old val) env s))) = true.
Proof. exact cas_ie. Qed.
Print Assumptions C50_interrupts_back.

Definition st0 : pst := mkPst 0 false true None.
(** Case: on ARMv7-M a write by an interrupt between the two exclusive accesses makes the swap fail;
    without it the swap succeeds. *)
Example ex50 :
  prun (cas_armv7m 0 7) (fun i => match i with 1%nat => [EWrite 9] | _ => [] end) st0 = (mkPst 9 false true None, 7, []) /\
  prun (cas_armv7m 0 7) (fun _ => []) st0 = (mkPst 7 false true None, 0, [(0, 7)]).
Proof. done. Qed.

(** C50 is false on rv32imac: the test of sc.w's result is inverted, so an undisturbed swap stores
    and reports failure, and a disturbed one reports success although it did not store. *)
Lemma c50_rv_aux : 
  (exists s, prun (port_cas RV32IMAC 0 1) (fun _ => []) st0 = (s, 1, [(0, 1)])) /\
  (exists env s, prun (port_cas RV32IMAC 0 1) env st0 = (s, 0, [])) /\ ~ cas_contract (port_cas RV32IMAC).
Proof.
  split; [by eexists|]. split.
  - exists (fun i => match i with 1%nat => [ELose] | _ => [] end). by eexists.
  - intros H. specialize (H 0 1 (fun _ => []) st0 ltac:(done)). cbn in H.
    destruct H as [[H _]|[_ H]]; [done|]. specialize (H 0 1 ltac:(set_solver)). done.
Qed.
Theorem C50_rv32imac_refuted :
  (exists s, prun (port_cas RV32IMAC 0 1) (fun _ => []) st0 = (s, 1, [(0, 1)])) /\
  (exists env s, prun (port_cas RV32IMAC 0 1) env st0 = (s, 0, [])) /\ ~ cas_contract (port_cas RV32IMAC).
Proof. exact c50_rv_aux. Qed.
Print Assumptions C50_rv32imac_refuted.

(** C50 is false on MIPS: when sc fails the function returns sc's result, 0, which for
    arch_test_and_set means that the lock was taken. *)
Lemma c50_mips_aux : (exists env s, prun (port_tas M51XX) env st0 = (s, 0, [])) /\ ~ cas_contract (port_cas M51XX).
Proof.
  set (env := fun i : nat => match i with 1%nat => [ELose] | _ => [] end). split.
  - exists env. by eexists.
  - intros H. specialize (H 0 1 env st0 ltac:(done)). cbn in H. by destruct H as [[_ H]|[H _]].
Qed.
Theorem C50_m51xx_refuted :
  (exists env s, prun (port_tas M51XX) env st0 = (s, 0, [])) /\ ~ cas_contract (port_cas M51XX).
Proof. exact c50_mips_aux. Qed.
Print Assumptions C50_m51xx_refuted.

(** C50 is false on HCS08: cli enables interrupts there, so a handler or another task may take the
    lock between the test and the store. *)
Lemma c50_hcs_aux : exists env s, prun (port_cas HCS08 0 7) env st0 = (s, 0, [(9, 7)]).
Proof. exists (fun i => match i with 2%nat => [EWrite 9] | _ => [] end). by eexists. Qed.
Theorem C50_hcs08_refuted : exists env s, prun (port_cas HCS08 0 7) env st0 = (s, 0, [(9, 7)]).
Proof. exact c50_hcs_aux. Qed.
Print Assumptions C50_hcs08_refuted.

(** C51, partial: on the ports whose atomics do not mask interrupts, a critical section lasts through
    any sequence of non-blocking calls.  Missing: the other ports, where it is false. *)
Lemma c51_aux p cs env s : llsc_port p ->
  Forall (fun b => b = false) (crit_flags p cs env (seq_ops (port_suspend p) s)).
Proof. intros Hp. apply crit_masked; [done|]. by destruct p. Qed.
Theorem C51_critical_partial : forall p cs env s,
  match p with ARMv7M | ARMv7EM | E200Z4 | E200Z7 | RV32IMAC | M51XX | C28X | RP2040 => True | _ => False end ->
  Forall (fun b => b = false) (crit_flags p cs env (seq_ops (port_suspend p) s)).
Proof. exact c51_aux. Qed.
Print Assumptions C51_critical_partial.
(** Suspend masks the interrupts and resume unmasks them, on every port but HCS08. *)
Lemma c51_resume_aux p s : p <> HCS08 -> m_ie (seq_ops (port_suspend p) s) = false /\ m_ie (seq_ops (port_resume p) s) = true.
Proof. by destruct p. Qed.
Theorem C51_suspend_resume : forall p s, p <> HCS08 ->
  m_ie (seq_ops (port_suspend p) s) = false /\ m_ie (seq_ops (port_resume p) s) = true.
Proof. exact c51_resume_aux. Qed.
Print Assumptions C51_suspend_resume.
Example ex51 : crit_flags ARMv7M [FutexTry; MutexTry 3; FutexUnlock] (fun _ _ => []) (seq_ops (port_suspend ARMv7M) st0) =
  [false; false; false; false; false].
Proof. reflexivity. Qed.

(** C51 is false where the atomics mask interrupts: they unmask them whatever the state was, so one
    try-lock in a critical section ends it.  On HCS08 the critical section never begins. *)
Lemma c51_refuted_aux :
  (forall p env s, match p with AVR | ARMv6M | STM8 | MCS51 | RV32EC | PTHREAD | WIN32 => True | _ => False end ->
     m_ie (fst (fst (prun (crit_body p FutexTry) env (seq_ops (port_suspend p) s)))) = true) /\
  (forall s, m_ie (seq_ops (port_suspend HCS08) s) = true /\ m_ie (seq_ops (port_resume HCS08) s) = false).
Proof.
  split; [|done]. intros p env s H. destruct p; try done; cbn; 
  match goal with |- context [if ?b then _ else _] => destruct b end; cbn; done.
Qed.
Theorem C51_refuted :
  (forall p env s, match p with AVR | ARMv6M | STM8 | MCS51 | RV32EC | PTHREAD | WIN32 => True | _ => False end ->
     m_ie (fst (fst (prun (crit_body p FutexTry) env (seq_ops (port_suspend p) s)))) = true) /\
  (forall s, m_ie (seq_ops (port_suspend HCS08) s) = true /\ m_ie (seq_ops (port_resume HCS08) s) = false).
Proof. exact c51_refuted_aux. Qed.
Print Assumptions C51_refuted.

(** C52, partial: enabling works on the ARM, RISC-V, MIPS and PowerPC ports, disabling on the MIPS,
    gd32vf103 and PowerPC ones (for the core that calls). *)
Lemma c52_enable : enable_ok 26 nvic6_enable nvic6_enabled /\ (forall n, enable_ok n nvic_enable nvic_enabled) /\
  enable_ok 23 pfic_enable pfic_enabled /\ enable_ok 213 iec_enable iec_enabled /\
  enable_ok 68 eclic_enable eclic_enabled /\
  (forall core, 0 <= core <= 2 -> enable_ok 768 (psr4_enable core) (psr4_enabled core)) /\
  (forall core, 0 <= core <= 1 -> enable_ok 512 (psr7_enable core) (psr7_enabled core)).
Proof.
  auto 10 using nvic6_enable_ok, nvic_enable_ok, pfic_enable_ok, iec_enable_ok, eclic_enable_ok, psr4_enable_ok, psr7_enable_ok.
Qed.
Theorem C52_enable_partial :
  enable_ok 26 nvic6_enable nvic6_enabled /\ (forall n, enable_ok n nvic_enable nvic_enabled) /\
  enable_ok 23 pfic_enable pfic_enabled /\ enable_ok 213 iec_enable iec_enabled /\
  enable_ok 68 eclic_enable eclic_enabled /\
  (forall core, 0 <= core <= 2 -> enable_ok 768 (psr4_enable core) (psr4_enabled core)) /\
  (forall core, 0 <= core <= 1 -> enable_ok 512 (psr7_enable core) (psr7_enabled core)).
Proof. exact c52_enable. Qed.
Print Assumptions C52_enable_partial.
Lemma c52_disable : disable_ok 213 iec_disable iec_enabled /\ disable_ok 68 eclic_disable eclic_enabled /\
  (forall core, 0 <= core <= 2 -> disable_ok 768 (psr4_disable core) (psr4_enabled core)) /\
  (forall core, 0 <= core <= 1 -> disable_ok 512 psr7_disable (psr7_enabled core)).
Proof. auto 10 using iec_disable_ok, eclic_disable_ok, psr4_disable_ok, psr7_disable_ok. Qed.
Theorem C52_disable_partial :
  disable_ok 213 iec_disable iec_enabled /\ disable_ok 68 eclic_disable eclic_enabled /\
  (forall core, 0 <= core <= 2 -> disable_ok 768 (psr4_disable core) (psr4_enabled core)) /\
  (forall core, 0 <= core <= 1 -> disable_ok 512 psr7_disable (psr7_enabled core)).
Proof. exact c52_disable. Qed.
Print Assumptions C52_disable_partial.
Example ex52 : iec_enabled (iec_enable (fun _ => 0) 70) 70 = true /\ iec_enabled (iec_enable (fun _ => 0) 70) 6 = false /\
  iec_enabled (iec_disable (iec_enable (iec_enable (fun _ => 0) 70) 71) 70) 71 = true.
Proof. done. Qed.

(** C52 is false on every Cortex-M port and on ch32v003: the set-enable registers ignore zeroes, so
    disabling never disables; and on c28x, for the 96 interrupts INTn_1 to INTn_8, both calls index
    PIEIER out of bounds (the others work). *)
Lemma c52_refuted_aux :
  (forall r irq i, nvic_enabled (nvic_disable r irq) i = nvic_enabled r i) /\
  (forall r irq i, nvic6_enabled (nvic6_disable r irq) i = nvic6_enabled r i) /\
  (forall r irq i, pfic_enabled (pfic_disable r irq) i = pfic_enabled r i) /\
  (forall en r irq, length r = 12%nat -> 32 <= irq < 128 -> pie_set en r irq = UB).
Proof. auto using nvic_disable_noop, nvic6_disable_noop, pfic_disable_noop, pie_low_ub. Qed.
Theorem C52_refuted :
  (forall r irq i, nvic_enabled (nvic_disable r irq) i = nvic_enabled r i) /\
  (forall r irq i, nvic6_enabled (nvic6_disable r irq) i = nvic6_enabled r i) /\
  (forall r irq i, pfic_enabled (pfic_disable r irq) i = pfic_enabled r i) /\
  (forall en r irq, length r = 12%nat -> 32 <= irq < 128 -> pie_set en r irq = UB).
Proof. exact c52_refuted_aux. Qed.
Print Assumptions C52_refuted.
Theorem C52_c28x_high_partial : forall en r irq, length r = 12%nat -> 128 <= irq < 224 ->
  exists r', pie_set en r irq = Ok r' /\ length r' = 12%nat /\ pie_enabled r' irq = en /\
    forall i, 32 <= i < 224 -> i <> irq -> pie_enabled r' i = pie_enabled r i.
Proof. exact pie_high_ok. Qed.
Print Assumptions C52_c28x_high_partial.

(** C62, partial: on e200z4 disabling for a set of cores disables for these cores only; on e200z7
    enabling for a set of cores enables for these and changes no other. *)
Theorem C62_disable_e200z4_partial : smp_disable_ok 3 768 psr4_smp_disable psr4_enabled.
Proof. exact (psr4_smp_disable_ok 768). Qed.
Print Assumptions C62_disable_e200z4_partial.
Theorem C62_enable_e200z7_partial :
  smp_enable_ok 2 512 (fun x => 0 <= x < 256 /\ Z.shiftr x 6 <> 2) psr7_smp_enable psr7_enabled.
Proof. exact (psr7_smp_enable_ok 512). Qed.
Print Assumptions C62_enable_e200z7_partial.
(** C62 is false otherwise: on e200z7 disabling an interrupt that only core 0 takes, for core 0, has no
    effect, and disabling for core 1 an interrupt that is off enables it on core 0; on e200z4
    enabling for core 1 takes the interrupt away from core 0. *)
Lemma c62_refuted_aux :
  (exists r irq, psr7_enabled 0 r irq = true /\ psr7_enabled 0 (psr7_smp_disable 1 r irq) irq = true) /\
  (exists r irq, psr7_enabled 0 r irq = false /\ psr7_enabled 0 (psr7_smp_disable 2 r irq) irq = true) /\
  (exists r irq, psr4_enabled 0 r irq = true /\ psr4_enabled 0 (psr4_smp_enable 2 r irq) irq = false).
Proof.
  split; [|split].
  - exists (psr7_smp_enable 1 (fun _ => 0) 5), 5. done.
  - exists (fun _ => 0), 5. done.
  - exists (psr4_smp_enable 1 (fun _ => 0) 5), 5. done.
Qed.
Theorem C62_refuted :
  (exists r irq, psr7_enabled 0 r irq = true /\ psr7_enabled 0 (psr7_smp_disable 1 r irq) irq = true) /\
  (exists r irq, psr7_enabled 0 r irq = false /\ psr7_enabled 0 (psr7_smp_disable 2 r irq) irq = true) /\
  (exists r irq, psr4_enabled 0 r irq = true /\ psr4_enabled 0 (psr4_smp_enable 2 r irq) irq = false).
Proof. exact c62_refuted_aux. Qed.
Print Assumptions C62_refuted.

(** C55: a read of n > 0 bytes returns n, gives n bytes. *)
Lemma c55_read n pool : 0 <= pool < 2 ^ 32 -> (0 < n)%nat ->
  exists bs pool', rng_read n pool = Ok (Z.of_nat n, bs, pool') /\ length bs = n /\ Forall (fun b => 0 <= b < 256) bs.
Proof. intros Hp Hn. destruct (rng_read_spec n pool Hp Hn) as (bs & pool' & H1 & H2 & H3 & _). eauto. Qed.
Theorem C55_read : forall n pool, 0 <= pool < 2 ^ 32 -> (0 < n)%nat ->
  exists bs pool', rng_read n pool = Ok (Z.of_nat n, bs, pool') /\ length bs = n /\ Forall (fun b => 0 <= b < 256) bs.
Proof. exact c55_read. Qed.
Print Assumptions C55_read.
(** C55: from a non-zero seed no history of reads reaches the absorbing state 0; from seed 0 every
    byte ever read is 0. *)
Lemma c55_nonzero seed ns : 0 <= seed < 2 ^ 32 ->
  exists pool bs, rng_history ns (rng_init seed) = Ok (pool, bs) /\ length bs = sum_list ns /\
    (seed <> 0 -> pool <> 0) /\ (seed = 0 -> Forall (fun b => b = 0) bs).
Proof.
  intros Hs. unfold rng_init. destruct (rng_history_spec ns (xorshift32 seed) (xorshift_w32 _ Hs)) as (bs & pool & E & W & N & L & Z0).
  exists pool, bs. split; [done|]. split; [done|]. split.
  - intros Hn. apply N. by apply xorshift_nonzero.
  - intros ->. by apply Z0.
Qed.
Theorem C55_nonzero : forall seed ns, 0 <= seed < 2 ^ 32 ->
  exists pool bs, rng_history ns (rng_init seed) = Ok (pool, bs) /\ length bs = sum_list ns /\
    (seed <> 0 -> pool <> 0) /\ (seed = 0 -> Forall (fun b => b = 0) bs).
Proof. exact c55_nonzero. Qed.
Print Assumptions C55_nonzero.
(** C55: the state update is a bijection of the 32-bit words. *)
Lemma c55_bijection :
  (forall x, 0 <= x < 2 ^ 32 -> 0 <= xorshift32 x < 2 ^ 32) /\
  (forall x y, 0 <= x < 2 ^ 32 -> 0 <= y < 2 ^ 32 -> xorshift32 x = xorshift32 y -> x = y) /\
  (forall y, 0 <= y < 2 ^ 32 -> exists x, 0 <= x < 2 ^ 32 /\ xorshift32 x = y).
Proof.
  split; [exact xorshift_w32|]. split; [exact xorshift_inj|]. intros y Hy. exists (xorshift_inv y). split; [|by apply xorshift_right].
  unfold xorshift_inv. apply inv13_w32, inv17_w32, inv5_w32. done.
Qed.
Theorem C55_bijection :
  (forall x, 0 <= x < 2 ^ 32 -> 0 <= xorshift32 x < 2 ^ 32) /\
  (forall x y, 0 <= x < 2 ^ 32 -> 0 <= y < 2 ^ 32 -> xorshift32 x = xorshift32 y -> x = y) /\
  (forall y, 0 <= y < 2 ^ 32 -> exists x, 0 <= x < 2 ^ 32 /\ xorshift32 x = y).
Proof. exact c55_bijection. Qed.
Print Assumptions C55_bijection.
Theorem C55_full_period : forall x, 0 < x < 2 ^ 32 ->
  (forall n, Z.of_nat n = 2 ^ 32 - 1 -> Nat.iter n xorshift32 x = x) /\
  (forall n, 0 < Z.of_nat n < 2 ^ 32 - 1 -> Nat.iter n xorshift32 x <> x) /\
  (forall y, 0 < y < 2 ^ 32 -> exists n, Z.of_nat n < 2 ^ 32 - 1 /\ Nat.iter n xorshift32 x = y).
Proof. exact full_period. Qed.
Print Assumptions C55_full_period.

Theorem C55_bytes : forall n pool, 0 <= pool < 2 ^ 32 -> (0 < n)%nat ->
  rng_read n pool = Ok (Z.of_nat n, map (rng_byte n pool) (seq 0 n), Nat.iter ((n + 3) / 4) xorshift32 pool).
Proof. exact rng_read_bytes. Qed.
Print Assumptions C55_bytes.
Example ex55 : xorshift32 1 = 270369 /\ rng_read 6 (rng_init 1) = Ok (6, [0; 4; 32; 33; 6; 1], xorshift32 (xorshift32 270369)).
Proof. split; reflexivity. Qed.
