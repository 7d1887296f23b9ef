(** PropNuClock.v - C134 and C135 for the Nuvoton 8051s: numicro (ml = true) and N76E003 (ml = false). *)
From Verif Require Import Base ClockModel ClockSpec NuClockModel NuClockSpec NuClockProofs.

(** From reset and without the 16.6 MHz, clock_get_freq gives the frequency of the hardware, but for the HIRC once the external clock is picked and for an
    external clock that is not. *)
Theorem C134_numicro_partial : forall ml factory st s0 s, nu_reset factory s0 -> ws_fhirc st <> 1 -> nu_init ml st s0 = KOk s ->
  forall id, (id = NFhirc -> ws_fosc st <> 1) -> (id = NFeclk -> ws_fosc st = 1 \/ ws_feclk st = 0) ->
  exists q, nu_hw factory (ws_feclk st) s id = Some q /\ truthful (nu_get s id) q.
Proof. exact nu_ok. Qed.
Print Assumptions C134_numicro_partial.
(** An N76E003 out of reset: the trim of the factory is 300; and what has been set up of it. *)
Definition nu_boot : nu := mkNu 150 0 16 32 0 0 0 0 0 0.
Example C134_numicro_runs : nu_reset 300 nu_boot /\
  after (nu_init true (mkNuSet 0 2 0 4) nu_boot) (fun s => map (nu_get s) [NFsys; NFosc; NFeclk; NFhirc; NFlirc] = [6000000; 24000000; 0; 24000000; 10000] /\
     nu_hw 300 0 s NFsys = Some (24000000, 4)) /\
  after (nu_init false (mkNuSet 1 0 12000000 1) nu_boot) (fun s => nu_get s NFsys = 12000000 /\ nu_hw 300 12000000 s NFsys = Some (12000000, 1)) /\
  after (nu_init false (mkNuSet 2 0 0 510) nu_boot) (fun s => nu_get s NFsys = 19 /\ nu_hw 300 0 s NFsys = Some (10000, 510)).
Proof. split; [repeat split; try reflexivity; discriminate|]. repeat split; eexists; (split; [vm_compute; reflexivity|]); vm_compute; auto. Qed.

(** With 16.6 MHz never: the trim written is not 15 below that of the factory but one of the slowest 16 of all 512, whatever the factory wrote. *)
Theorem C134_numicro_trim_wrong : forall ml factory st s0 s, nu_reset factory s0 -> ws_fhirc st = 1 -> nu_init ml st s0 = KOk s ->
  nu_trim s <> factory - 15 /\ 496 <= nu_trim s /\ factory - 1 <= nu_trim s /\ nu_get s NFhirc = 16600000.
Proof. exact nu_trim_wrong. Qed.
Print Assumptions C134_numicro_trim_wrong.
Example C134_numicro_trim_runs : after (nu_init false (mkNuSet 0 1 0 1) nu_boot) (fun s => nu_trim s = 509 /\ nu_hw 300 0 s NFhirc = None).
Proof. eexists. split; vm_compute; [reflexivity|auto]. Qed.

(** "clear POF" clears another bit of PCON. *)
Theorem C134_numicro_pof_wrong : forall ml st s0 s, nu_init ml st s0 = KOk s -> Z.testbit (w_pcon s) 4 = Z.testbit (w_pcon s0) 4.
Proof. exact nu_pof. Qed.
Print Assumptions C134_numicro_pof_wrong.
Example C134_numicro_pof_runs : after (nu_init false (mkNuSet 0 1 0 1) nu_boot) (fun s => Z.testbit (w_pcon s) 4 = true).
Proof. eexists. split; vm_compute; reflexivity. Qed.

(** With the external clock the HIRC is off, and clock_get_freq says it has 16 MHz or more. *)
Theorem C134_numicro_eclk_wrong : forall ml st s0 s, nu_init ml st s0 = KOk s -> ws_fosc st = 1 -> forall factory, nu_hw_hirc factory s = Some (0, 1) /\ 16000000 <= nu_get s NFhirc.
Proof. exact nu_eclk. Qed.
Print Assumptions C134_numicro_eclk_wrong.

(** And after a first init with 24 MHz, a second with 16 leaves the 24 on. *)
Theorem C134_numicro_again_refuted : after (then_ (nu_init true (mkNuSet 0 2 0 1) nu_boot) (nu_init true (mkNuSet 0 0 0 1)))
  (fun s => nu_get s NFsys = 16000000 /\ nu_hw 300 0 s NFsys = Some (24000000, 1)).
Proof. eexists. split; vm_compute; [reflexivity|auto]. Qed.
Print Assumptions C134_numicro_again_refuted.

(** Init returns 0 for exactly the settings the hardware can make. *)
Theorem C135_numicro : forall ml st s0, (exists s, nu_init ml st s0 = KOk s) <-> nu_makes ml st.
Proof. exact nu_accepts. Qed.
Print Assumptions C135_numicro.
Example C135_numicro_runs : nu_makes false (mkNuSet 1 1 24000000 6) /\ ~ nu_makes false (mkNuSet 0 2 0 1) /\ ~ nu_makes true (mkNuSet 0 0 0 3).
Proof.
  split; [|split].
  - repeat split; try reflexivity; try discriminate. right. exists 3. split; [split; discriminate|reflexivity].
  - intros (_ & [_ K] & _). exact (K eq_refl).
  - intros (_ & _ & _ & [K|(n & _ & K)]); [discriminate K|]. cbn in K. lia.
Qed.
