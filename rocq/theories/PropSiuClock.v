(** PropSiuClock.v - C134 for the MPC5777C: clock_get_freq gives the frequency of the hardware. *)
From Verif Require Import Base ClockModel ClockSpec SiuClockModel SiuClockProofs.

(** If PHI1 of the PLL0 is a whole number of Hz, and no divider that leaves a rest makes the PLL0's frequency, and nothing passes 32 bits. *)
Theorem C134_siu_partial : forall st s, 0 < us_xosc st -> 0 < us_pll0 st < 2 ^ 32 -> 127 * us_xosc st < 2 ^ 32 + us_pll0 st -> us_pll0 st mod us_phi1 st = 0 ->
  us_pll0 st / us_phi1 st * 34 < 2 ^ 32 -> (forall p m, 1 <= p <= 7 -> 8 <= m <= 127 -> us_xosc st / p * m = us_pll0 st -> us_xosc st mod p = 0) ->
  siu_init st = KOk s -> forall id, truthful (siu_get s id) (siu_hw (us_xosc st) s id).
Proof. exact siu_ok. Qed.
Print Assumptions C134_siu_partial.
(** The settings of a board: a crystal of 40 MHz, 192 and 264 MHz. *)
Definition siu_board : siuset := mkSiuSet 40000000 384000000 2 8 264000000 1 4 4 2.
Example C134_siu_runs : after (siu_init siu_board) (fun s => map (siu_get s) [UCore; UPlat; UPer; UFm; UEtpu] = [264000000; 132000000; 48000000; 66000000; 132000000]).
Proof. eexists. split; vm_compute; reflexivity. Qed.
Example C134_siu_runs2 : forall p m, 1 <= p <= 7 -> 8 <= m <= 127 -> 40000000 / p * m = 384000000 -> 40000000 mod p = 0.
Proof.
  intros p m P M H. assert (C : p = 1 \/ p = 2 \/ p = 3 \/ p = 4 \/ p = 5 \/ p = 6 \/ p = 7) by lia.
  destruct C as [->|[->|[->|[->|[->|[->| ->]]]]]]; try reflexivity; exfalso;
    match type of H with ?a / ?b * m = _ => let v := eval vm_compute in (a / b) in change (a / b) with v in H end; lia.
Qed.
(** With a divider that leaves a rest it is not: 40 MHz / 3 * 12. *)
Theorem C134_siu_refuted : after (siu_init (mkSiuSet 40000000 159999996 1 6 79999998 1 2 2 1)) (fun s => siu_get s UPer = 79999998 /\ ~ truthful 79999998 (siu_hw 40000000 s UPer)).
Proof. eexists. split; [vm_compute; reflexivity|]. split; [vm_compute; reflexivity|]. vm_compute. intros [_ K]. discriminate K. Qed.
Print Assumptions C134_siu_refuted.
(** The wait for the PLL1 waits for it to be unlocked: it only ever ends well on a PLL that is not locked, and fails for one that is. *)
Theorem C134_siu_lock_wrong : (forall deadlock locked j, siu_wait1 deadlock locked 0 = Some j -> locked j = false) /\
  (forall deadlock locked, (forall j, locked j = true) -> siu_wait1 deadlock locked 0 = None).
Proof.
  split.
  - intros d l j H. exact (proj2 (siu_wait_some d l 0 j H)).
  - intros d l H. apply siu_wait_none. intros. apply H.
Qed.
Print Assumptions C134_siu_lock_wrong.
