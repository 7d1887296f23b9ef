(** PropIrq.v - properties C91 (registered handlers are called), C92 (enable and disable), C93 (on SMP). *)
From Verif Require Import Base IrqModel IrqSpec IrqProofs IrqCtlProofs.
Local Open Scope Z_scope.

(** C91 on ARM, with up to 240 interrupts (the most of an NVIC). *)
Theorem C91_arm : forall n, 0 < n <= 240 -> registration_ok 32 4 (arm n).
Proof. exact arm_ok. Qed.
Print Assumptions C91_arm.
(** C91 on e200z4 (768 interrupts) and e200z7 (512), the vectors on a page of 4096 bytes. *)
Theorem C91_e200 : registration_ok 32 4096 (e200 768) /\ registration_ok 32 4096 (e200 512).
Proof. exact (conj (e200_ok 768 ltac:(lia)) (e200_ok 512 ltac:(lia))). Qed.
Print Assumptions C91_e200.
(** C91 on STM8. *)
Theorem C91_stm8 : registration_ok 16 1 (stm8 32).
Proof. exact (stm8_ok 32 ltac:(lia)). Qed.
Print Assumptions C91_stm8.
(** C91 on HCS08 for interrupts 0 to 36. *)
Theorem C91_hcs08_partial : registration_ok 16 1 (hcs08 37 37).
Proof. exact (hcs08_ok 37 ltac:(lia)). Qed.
Print Assumptions C91_hcs08_partial.
(** C91 on 8051 (10 to 18 interrupts), for priv in xdata. *)
Theorem C91_8051_partial : forall n, 0 < n <= 18 -> dispatch_ok 16 1 (mcs51 n) (fun priv => 0 <= priv < 2 ^ 16) /\ contained 16 1 (mcs51 n).
Proof. exact (fun n Hn => mcs51_ok n ltac:(lia)). Qed.
Print Assumptions C91_8051_partial.
(** C91 on AVR: the handler is found, if there is room for the whole table. *)
Theorem C91_avr_partial : forall n, 0 < n <= 255 -> forall b h m irq fn priv, 0 <= fst b -> fst b + 4 * n <= 2 ^ 16 -> sane (avr n) h ->
  handler h irq = Some (fn, priv) -> serve (avr n) b irq (registered (avr n) b h m) = Called fn priv Epilogue.
Proof. exact avr_ok. Qed.
Print Assumptions C91_avr_partial.
(** And memory outside the table is left alone by the interrupts of the first quarter. *)
Theorem C91_avr_contained_partial : forall n, 0 < n <= 255 -> forall b h m a, sane (avr n) h ->
  (forall irq fn priv, (irq, fn, priv) ∈ h -> 4 * irq <= n) -> ~ in_tables (avr n) b a -> registered (avr n) b h m a = m a.
Proof. exact avr_in. Qed.
Print Assumptions C91_avr_contained_partial.

(** A concrete case for each port: two interrupts, one registered twice. *)
Definition b0 : Z * Z := (4096, 16384).
Definition two (i j : Z) : registrations := [(i, 111, 222); (j, 333, 444); (i, 555, 666)].
Definition zero : memory := fun _ => 0.
Definition good (w al : Z) (P : iport) (i j k : Z) : Prop :=
  placed w al P b0 /\ sane P (two i j) /\ cleared P b0 zero /\ handler (two i j) i = Some (555, 666) /\ handler (two i j) j = Some (333, 444) /\
  ip_irq P k = true /\ handler (two i j) k = None /\ in_tables P b0 4100.
Example C91_cases : good 32 4 (arm 85) 7 84 0 /\ good 32 4096 (e200 768) 36 767 0 /\ good 16 1 (stm8 32) 0 31 5 /\ good 16 1 (hcs08 37 37) 0 36 5 /\ good 16 1 (mcs51 18) 4 17 0 /\
  good 16 1 (avr 25) 1 6 25.
Proof.
  assert (G : forall w al P i j k, placed w al P b0 -> ip_irq P i = true -> ip_irq P j = true -> ip_irq P k = true -> i <> j -> k <> i -> k <> j -> in_tables P b0 4100 -> good w al P i j k).
  { intros w al P i j k Hp Hi Hj Hk H1 H2 H3 H4. split; [done|]. split; [|split; [done|]].
    - intros irq fn priv Hin. unfold two in Hin. rewrite !elem_of_cons in Hin. destruct Hin as [[= -> -> ->]|[[= -> -> ->]|[[= -> -> ->]|Hin]]]; try (split; [done|lia]). by apply not_elem_of_nil in Hin.
    - unfold two. cbn [handler]. rewrite !Z.eqb_refl. rewrite (proj2 (Z.eqb_neq i j)), (proj2 (Z.eqb_neq i k)), (proj2 (Z.eqb_neq j k)) by congruence. done. }
  split_and!; apply G; try done; try (left; cbn; lia).
  all: unfold placed; cbn [fst snd b0 ip_size arm e200 stm8 hcs08 mcs51 avr]; split_and!; try lia; try (exists 1; reflexivity); try (exists 1024; reflexivity); exists 4096; reflexivity.
Qed.

(** C91 is false on HCS08 for interrupt 37, IRQ_WDOG: it cannot be registered. *)
Theorem C91_hcs08_refuted : ~ dispatch_ok 16 1 (hcs08 37 38) (fun _ => True).
Proof.
  exact (fun H => ltac:(assert (K := H b0 [(37, 111, 222)] zero 37 111 222
    ltac:(unfold placed; cbn; split_and!; try lia; exists 4096; reflexivity)
    ltac:(intros irq fn priv Hin; apply elem_of_list_singleton in Hin; injection Hin as -> -> ->; split; [reflexivity|lia])
    ltac:(done) ltac:(reflexivity)); vm_compute in K; discriminate K)).
Qed.
Print Assumptions C91_hcs08_refuted.
(** On 8051 for a priv elsewhere than in xdata (a constant, in code memory: third byte 0x80). *)
Theorem C91_8051_refuted : ~ dispatch_ok 16 1 (mcs51 18) (fun _ => True).
Proof.
  exact (fun H => ltac:(assert (K := H b0 [(4, 111, 8388808)] zero 4 111 8388808
    ltac:(unfold placed; cbn; split_and!; try lia; exists 4096; reflexivity)
    ltac:(intros irq fn priv Hin; apply elem_of_list_singleton in Hin; injection Hin as -> -> ->; split; [reflexivity|lia])
    ltac:(done) ltac:(reflexivity)); vm_compute in K; discriminate K)).
Qed.
Print Assumptions C91_8051_refuted.
(** On 8051 and AVR an interrupt nobody registered calls address 0. *)
Lemma unhandled_8051 : ~ unhandled_ok 16 1 (mcs51 18).
Proof.
  intros H. assert (H1 : placed 16 1 (mcs51 18) b0) by (unfold placed; cbn; split_and!; try lia; exists 4096; reflexivity).
  assert (H2 : sane (mcs51 18) []) by (intros irq fn priv Hin; by apply not_elem_of_nil in Hin).
  assert (H3 : cleared (mcs51 18) b0 zero) by (intros a _; reflexivity).
  pose proof (H b0 [] zero 4 H1 H2 H3 eq_refl eq_refl) as K. vm_compute in K. discriminate K.
Qed.
Lemma unhandled_avr : ~ unhandled_ok 16 1 (avr 25).
Proof.
  intros H. assert (H1 : placed 16 1 (avr 25) b0) by (unfold placed; cbn; split_and!; try lia; exists 4096; reflexivity).
  assert (H2 : sane (avr 25) []) by (intros irq fn priv Hin; by apply not_elem_of_nil in Hin).
  assert (H3 : cleared (avr 25) b0 zero) by (intros a _; reflexivity).
  pose proof (H b0 [] zero 4 H1 H2 H3 eq_refl eq_refl) as K. vm_compute in K. discriminate K.
Qed.
Theorem C91_unhandled_refuted : ~ unhandled_ok 16 1 (mcs51 18) /\ ~ unhandled_ok 16 1 (avr 25).
Proof. exact (conj unhandled_8051 unhandled_avr). Qed.
Print Assumptions C91_unhandled_refuted.
(** On AVR, registering an interrupt of the last three quarters (here TIMER0_COMPA of atmega328p, 14) writes outside the table. *)
Theorem C91_avr_refuted : ~ contained 16 1 (avr 25).
Proof.
  exact (fun H => ltac:(assert (K := H b0 [(14, 111, 222)] zero 4148
    ltac:(unfold placed; cbn; split_and!; try lia; exists 4096; reflexivity)
    ltac:(intros irq fn priv Hin; apply elem_of_list_singleton in Hin; injection Hin as -> -> ->; split; [reflexivity|lia])
    ltac:(unfold in_tables; cbn; lia)); vm_compute in K; discriminate K)).
Qed.
Print Assumptions C91_avr_refuted.
(** On RISC-V no handler is ever called in such a way that the task is restored after it; *)
Theorem C91_riscv_refuted : forall P, P = ch32v003 \/ P = gd32vf103 ->
  forall b h m irq fn priv, serve P b irq (registered P b h m) <> Called fn priv Epilogue.
Proof.
  exact (fun P HP => match HP with
    | or_introl e => eq_ind_r (fun P => forall b h m irq fn priv, serve P b irq (registered P b h m) <> Called fn priv Epilogue) (riscv_never 23 16 (below 23)) e
    | or_intror e => eq_ind_r (fun P => forall b h m irq fn priv, serve P b irq (registered P b h m) <> Called fn priv Epilogue) (riscv_never 68 0 _) e end).
Qed.
Print Assumptions C91_riscv_refuted.
(** and on ch32v003, interrupt 2k gets the handler of interrupt k. *)
Theorem C91_ch32v003_wrong : forall b h m k fn priv, placed 32 1 ch32v003 b -> sane ch32v003 h -> 0 <= k <= 11 -> handler h k = Some (fn, priv) ->
  serve ch32v003 b (2 * k) (registered ch32v003 b h m) = Called fn priv TaskLink.
Proof.
  exact (fun b h m k fn priv Hb Hh Hk Hx => eq_trans
    (riscv_half 23 16 (below 23) b h m k ltac:(lia) ltac:(lia) (fun i => proj1 (below_iff 23 i)) (proj1 Hb) (proj1 (proj2 Hb)) Hh ltac:(apply below_iff; lia) ltac:(lia))
    ltac:(rewrite Hx; reflexivity)).
Qed.
Print Assumptions C91_ch32v003_wrong.
(** On MIPS the right handler is called with its argument, but returns to the code that looks handlers up:
    the interrupt is not acknowledged and the task never restored. *)
Theorem C91_mips_partial : forall b h m irq fn priv, placed 32 1 (pic32mz 213) b -> sane (pic32mz 213) h ->
  handler h irq = Some (fn, priv) -> serve (pic32mz 213) b irq (registered (pic32mz 213) b h m) = Called fn priv Lookup.
Proof. exact (pic32_first 213 ltac:(lia)). Qed.
Print Assumptions C91_mips_partial.
Theorem C91_mips_refuted : forall b h m irq fn priv, serve (pic32mz 213) b irq (registered (pic32mz 213) b h m) <> Called fn priv Epilogue.
Proof. exact (pic32_never 213). Qed.
Print Assumptions C91_mips_refuted.
(** On c28x interrupt irq gets the handler of interrupt irq + 32. *)
Theorem C91_c28x_wrong : forall b h m irq fn priv, sane c28x h -> 32 <= irq <= 191 -> handler h (irq + 32) = Some (fn, priv) ->
  serve c28x b irq (registered c28x b h m) = Called fn priv Epilogue.
Proof. exact (fun b h m irq fn priv Hh Hi Hx => eq_trans (c28x_next b h m irq Hh Hi) ltac:(rewrite Hx; reflexivity)). Qed.
Print Assumptions C91_c28x_wrong.
Theorem C91_c28x_refuted : ~ dispatch_ok 22 1 c28x (fun _ => True).
Proof.
  exact (fun H => ltac:(assert (K := H b0 [(40, 111, 222)] zero 40 111 222
    ltac:(unfold placed; cbn; split_and!; try lia; exists 4096; reflexivity)
    ltac:(intros irq fn priv Hin; apply elem_of_list_singleton in Hin; injection Hin as -> -> ->; split; [reflexivity|lia])
    ltac:(done) ltac:(reflexivity)); vm_compute in K; discriminate K)).
Qed.
Print Assumptions C91_c28x_refuted.
Example C91_wrong_cases : placed 32 1 ch32v003 b0 /\ sane ch32v003 (two 3 6) /\ handler (two 3 6) 3 = Some (555, 666) /\ serve ch32v003 b0 6 (registered ch32v003 b0 (two 3 6) zero) = Called 555 666 TaskLink /\
  placed 32 1 (pic32mz 213) b0 /\ sane (pic32mz 213) (two 3 6) /\ serve (pic32mz 213) b0 3 (registered (pic32mz 213) b0 (two 3 6) zero) = Called 555 666 Lookup /\
  sane c28x (two 40 72) /\ serve c28x b0 40 (registered c28x b0 (two 40 72) zero) = Called 333 444 Epilogue.
Proof.
  assert (S : forall P i j, ip_irq P i = true -> ip_irq P j = true -> sane P (two i j)).
  { intros P i j Hi Hj irq fn priv Hin. unfold two in Hin. rewrite !elem_of_cons in Hin.
    destruct Hin as [[= -> -> ->]|[[= -> -> ->]|[[= -> -> ->]|Hin]]]; try (split; [done|lia]). by apply not_elem_of_nil in Hin. }
  split_and!; try (apply S; reflexivity); try (match goal with |- placed _ _ _ _ => unfold placed; cbn; split_and!; try lia; exists 4096; reflexivity end).
  all: vm_compute; reflexivity.
Qed.

(** C92 where it holds: gd32vf103, e200z4, e200z7, *)
Theorem C92_control : control_ok (below 68) (fun _ => True) (eclic 68) /\
  (forall core, 0 <= core < 3 -> control_ok (below 768) (fun _ => True) (intc_z4 768 core)) /\
  (forall core, 0 <= core < 2 -> control_ok (below 512) (fun _ => True) (intc_z7 512 core)).
Proof. exact (conj (eclic_ok 68) (conj (z4_ok 768) (z7_ok 512))). Qed.
Print Assumptions C92_control.
(** the 8051 machines, *)
Theorem C92_8051 :
  control_ok (has_bit n76e003_sheet) (fun _ => True) (sfr_ctl n76e003_bit n76e003_sheet) /\ sfr_rest n76e003_bit n76e003_sheet /\
  control_ok (has_bit ch552_sheet) (fun _ => True) (sfr_ctl ch552_bit ch552_sheet) /\ sfr_rest ch552_bit ch552_sheet /\
  control_ok (has_bit cy7c_sheet) (fun _ => True) (sfr_ctl cy7c_bit cy7c_sheet) /\ sfr_rest cy7c_bit cy7c_sheet /\
  control_ok (has_bit stc12_sheet) (fun _ => True) (sfr_ctl stc12_bit stc12_sheet) /\ sfr_rest stc12_bit stc12_sheet.
Proof.
  exact (conj (sfr_ok n76e003_bit n76e003_sheet eq_refl) (conj (sfr_rest_ok n76e003_bits n76e003_sheet eq_refl)
    (conj (sfr_ok ch552_bit ch552_sheet eq_refl) (conj (sfr_rest_ok ch552_bits ch552_sheet eq_refl)
    (conj (sfr_ok cy7c_bit cy7c_sheet eq_refl) (conj (sfr_rest_ok cy7c_bits cy7c_sheet eq_refl)
    (conj (sfr_ok stc12_bit stc12_sheet eq_refl) (sfr_rest_ok stc12_bits stc12_sheet eq_refl)))))))).
Qed.
Print Assumptions C92_8051.
(** c28x for INTx.9 to INTx.16, *)
Theorem C92_c28x_partial : control_ok (fun irq => (128 <=? irq) && (irq <=? 223)) (fun _ => True) pie.
Proof. exact pie_ok. Qed.
Print Assumptions C92_c28x_partial.
(** and ARM and ch32v003 as long as nothing is disabled. *)
Theorem C92_enable_partial : (forall n, enable_ok (below n) (fun _ => True) (nvic n)) /\ enable_ok (below 23) (fun _ => True) (pfic 23).
Proof. exact (conj nvic_enable (pfic_enable 23 ltac:(lia))). Qed.
Print Assumptions C92_enable_partial.
(** On MIPS an interrupt that is disabled is off, and the others are as they were. *)
Theorem C92_mips_partial : forall r i j, 0 <= i < 213 -> 0 <= j < 213 ->
  ic_on (pic32 213) (ic_disable (pic32 213) i r) j = (if i =? j then false else ic_on (pic32 213) r j).
Proof. exact (fun r i j => pic32_disable 213 r i j ltac:(lia)). Qed.
Print Assumptions C92_mips_partial.
Example C92_cases : let h := [(true, 7); (true, 33); (false, 7); (true, 8)] in
  wanted h 7 false = false /\ wanted h 33 false = true /\ wanted h 6 true = true /\ forallb (fun e => below 68 (snd e)) h = true /\
  ic_on (eclic 68) (requested (eclic 68) h (fun _ => 0)) 33 = true /\ ic_on (eclic 68) (requested (eclic 68) h (fun _ => 0)) 7 = false /\
  ic_on (nvic 68) (requested (nvic 68) [(true, 7); (true, 33)] (fun _ => 0)) 33 = true /\
  has_bit n76e003_sheet 9 = true /\ ic_on (sfr_ctl n76e003_bit n76e003_sheet) (requested (sfr_ctl n76e003_bit n76e003_sheet) [(true, 9); (true, 4); (false, 9)] (fun _ => 0)) 4 = true /\
  ic_on pie (requested pie [(true, 130); (true, 129); (false, 129)] (fun _ => 0)) 130 = true.
Proof. vm_compute. split_and!; reflexivity. Qed.

(** C92 is false on ARM and ch32v003: disabling an interrupt has no effect at all; *)
Lemma nvic_not : ~ control_ok (below 85) reset (nvic 85).
Proof.
  intros H. assert (H1 : forall x i, (x, i) ∈ [(true, 7); (false, 7)] -> below 85 i = true).
  { intros x i Hin; rewrite !elem_of_cons in Hin; destruct Hin as [[= -> ->]|[[= -> ->]|Hin]]; [reflexivity|reflexivity|by apply not_elem_of_nil in Hin]. }
  pose proof (H [(true, 7); (false, 7)] (fun _ => 0) 7 (fun _ => eq_refl) H1 eq_refl) as K. vm_compute in K. discriminate K.
Qed.
Lemma pfic_not : ~ control_ok (below 23) reset (pfic 23).
Proof.
  intros H. assert (H1 : forall x i, (x, i) ∈ [(true, 7); (false, 7)] -> below 23 i = true).
  { intros x i Hin; rewrite !elem_of_cons in Hin; destruct Hin as [[= -> ->]|[[= -> ->]|Hin]]; [reflexivity|reflexivity|by apply not_elem_of_nil in Hin]. }
  pose proof (H [(true, 7); (false, 7)] (fun _ => 0) 7 (fun _ => eq_refl) H1 eq_refl) as K. vm_compute in K. discriminate K.
Qed.
Theorem C92_disable_refuted : (forall n r i j, ic_disable (nvic n) i r j = r j) /\ (forall n r i j, ic_disable (pfic n) i r j = r j) /\
  ~ control_ok (below 85) reset (nvic 85) /\ ~ control_ok (below 23) reset (pfic 23).
Proof. exact (conj nvic_disable (conj pfic_disable (conj nvic_not pfic_not))). Qed.
Print Assumptions C92_disable_refuted.
(** on c28x for INTx.1 to INTx.8: no interrupt changes, a register outside the controller does; *)
Theorem C92_c28x_refuted : (forall i j r, 32 <= i <= 127 -> 32 <= j <= 223 ->
    ic_on pie (ic_enable pie i r) j = ic_on pie r j /\ ic_on pie (ic_disable pie i r) j = ic_on pie r j) /\
  (forall i r, 32 <= i <= 127 -> r (fst (pie_at i)) = 0 -> exists k, 12 <= k /\ ic_enable pie i r k <> r k).
Proof. exact (conj pie_lost pie_stray). Qed.
Print Assumptions C92_c28x_refuted.
(** on MIPS, whatever is enabled, odd interrupts and those from 16 never get a priority. *)
Theorem C92_mips_refuted : forall h r i, reset r -> 0 <= i < 213 -> Z.odd i = true \/ 16 <= i ->
  ic_on (pic32 213) (requested (pic32 213) h r) i = false.
Proof. exact (fun h r i => pic32_never_on 213 h r i ltac:(lia)). Qed.
Print Assumptions C92_mips_refuted.
Example C92_mips_case : reset (fun _ => 0) /\ wanted [(true, 33)] 33 false = true /\ ic_on (pic32 213) (requested (pic32 213) [(true, 33)] (fun _ => 0)) 33 = false /\
  ic_on (pic32 213) (requested (pic32 213) [(true, 0)] (fun _ => 0)) 0 = true.
Proof. split; [done|]. vm_compute. split_and!; reflexivity. Qed.

(** C93 on e200z4: after each call, enabling gives exactly the cores of the mask, disabling takes them away. *)
Theorem C93_z4_partial : forall i mask r core j, 0 <= i < 768 -> 0 < mask < 8 -> 0 <= core < 3 ->
  z4_on core (z4_smp_enable 768 i mask r) j = (if i =? j then Z.testbit mask core else z4_on core r j) /\
  z4_on core (z4_smp_disable 768 i mask r) j = (if i =? j then z4_on core r j && negb (Z.testbit mask core) else z4_on core r j).
Proof. exact (z4_each 768). Qed.
Print Assumptions C93_z4_partial.
(** C93 on e200z7 as long as nothing is disabled. *)
Theorem C93_z7_partial : smp_ok 512 2 (fun x => x = true) z7_on (z7_smp_enable 512) (z7_smp_disable 512).
Proof. exact (z7_enable_ok 512). Qed.
Print Assumptions C93_z7_partial.
Example C93_cases : let h := [(true, 36, 1); (true, 36, 2); (true, 40, 2)] in
  let r := smp_requested (z7_smp_enable 512) (z7_smp_disable 512) h (fun _ => 0) in
  reset (fun _ => 0) /\ smp_wanted h 36 0 false = true /\ z7_on 0 r 36 = true /\ z7_on 1 r 36 = true /\ z7_on 0 r 40 = false /\ z7_on 1 r 40 = true.
Proof. split; [done|]. vm_compute. split_and!; reflexivity. Qed.
(** C93 is false on e200z4: enabling on core 1 takes the interrupt away from core 0. *)
Theorem C93_z4_refuted : ~ smp_ok 768 3 (fun x => x = true) z4_on (z4_smp_enable 768) (z4_smp_disable 768).
Proof.
  exact (fun H => ltac:(assert (K := H [(true, 36, 1); (true, 36, 2)] (fun _ => 0) 36 0 ltac:(done)
    ltac:(intros x i mask Hin; rewrite !elem_of_cons in Hin; destruct Hin as [[= -> -> ->]|[[= -> -> ->]|Hin]]; [split; [reflexivity|lia]|split; [reflexivity|lia]|by apply not_elem_of_nil in Hin])
    ltac:(lia) ltac:(lia)); vm_compute in K; discriminate K)).
Qed.
Print Assumptions C93_z4_refuted.
(** C93 is false on e200z7: an interrupt that is on stays on for some core, whatever mask is disabled. *)
Theorem C93_z7_refuted : forall r i mask, z7_states r i -> r i <> 0 -> 0 <= i < 512 -> 0 < mask < 4 ->
  exists core, 0 <= core < 2 /\ z7_on core (z7_smp_disable 512 i mask r) i = true.
Proof.
  exact (fun r i mask Hr Hn Hi Hm => match z7_stuck 512 r i mask Hr Hi Hm with
    | ex_intro _ core (conj Hc H) => ex_intro _ core (conj Hc (eq_trans H ltac:(rewrite (proj2 (Z.eqb_neq _ _) Hn); reflexivity))) end).
Qed.
Print Assumptions C93_z7_refuted.
(** and disabling core 1 turns on an interrupt that was off, for core 0. *)
Theorem C93_z7_on_refuted : reset (fun _ => 0) /\ z7_on 0 (fun _ => 0) 36 = false /\ z7_on 0 (z7_smp_disable 512 36 2 (fun _ => 0)) 36 = true.
Proof. exact (conj (fun _ => eq_refl) (conj eq_refl eq_refl)). Qed.
Print Assumptions C93_z7_on_refuted.
