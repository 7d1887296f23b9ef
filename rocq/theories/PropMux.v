(** PropMux.v - C136: a call to a pin multiplexer makes of the pin what it asks for, and leaves the others alone. *)
From Verif Require Import Base MuxModel MuxSpec MuxProofs.

(** No call, sound or not, touches another pin of the port. *)
Theorem C136_others : forall d c p s s' q, mux_call d c p s = Some s' -> 0 <= q < pins d -> q <> p -> pin_of d s' q = pin_of d s q.
Proof. exact mux_other. Qed.
Print Assumptions C136_others.
(** The pins of all ports can be had, with each function, mode and strength of the enumerations. *)
Theorem C136_accepts : forall d c p s, (exists s', mux_call d c p s = Some s') <-> has d c = true /\ 0 <= p < pins d.
Proof. exact mux_accepts. Qed.
Print Assumptions C136_accepts.
(** The pin is what the call asks for, whatever it was. *)
Theorem C136_pin_partial : forall d c p s s', mux_call d c p s = Some s' -> sound d c (pin_of d s p) = true -> 0 <= p < pins d -> pin_of d s' p = asked d c (pin_of d s p).
Proof. intros d c p s s' H S Q. pose proof (mux_ok d c p s s' p H S Q) as K. rewrite Z.eqb_refl in K. exact K. Qed.
Print Assumptions C136_pin_partial.
(** After any history a pin is what the calls for it have asked for, in this order. *)
Theorem C136_history_partial : forall d l q s s', 0 <= q < pins d -> mux_calls d l s = Some s' -> all_sound d q l (pin_of d s q) = true ->
  pin_of d s' q = asked_all d q l (pin_of d s q).
Proof. intros d l q s s' Q. apply (mux_history d l q Q s s'). Qed.
Print Assumptions C136_history_partial.
(** All registers 0, and all bits set. *)
Definition zeros : mst := fun _ => 0.
Definition ones : mst := fun _ => 2 ^ 32 - 1.
Example C136_runs : exists s, mux_calls MStm [(CAlt 7, 9); (CUp, 9); (COut 0, 3); (COpenDrain, 3); (CAnalog, 2)] ones = Some s /\
  all_sound MStm 9 [(CAlt 7, 9); (CUp, 9); (COut 0, 3); (COpenDrain, 3); (CAnalog, 2)] (pin_of MStm ones 9) = true /\
  pin_of MStm s 9 = mkPin (Alt 7) true false Up true 0 0 /\ pin_of MStm s 3 = mkPin Gpio true true NoPull true 0 0 /\ p_fun (pin_of MStm s 2) = Analog /\
  p_fun (pin_of MStm s 8) = Analog.
Proof. eexists. split; [reflexivity|]. repeat split. Qed.
Example C136_runs2 : exists s, mux_calls MSiul2 [(COut 3, 70); (CInImcr 2 5, 71); (CUp, 71)] zeros = Some s /\
  all_sound MSiul2 71 [(COut 3, 70); (CInImcr 2 5, 71); (CUp, 71)] (pin_of MSiul2 zeros 71) = true /\
  pin_of MSiul2 s 70 = mkPin (Alt 3) false true NoPull false 3 0 /\ pin_of MSiul2 s 71 = mkPin Gpio true false Up false 0 0.
Proof. eexists. split; [reflexivity|]. repeat split. Qed.
Example C136_runs3 : (exists s, mux_calls MGd [(CAfio 1 2, 12); (CInMode 2, 13)] ones = Some s /\ pin_of MGd s 12 = mkPin (Alt 0) true true NoPull true 3 0 /\ pin_of MGd s 13 = mkPin Gpio true false Up false 0 0) /\
  (exists s, mux_calls MAtmel [(COut 5, 31); (CIn 1, 30)] zeros = Some s /\ p_fun (pin_of MAtmel s 31) = Alt 3 /\ p_fun (pin_of MAtmel s 30) = Gpio) /\
  (exists s, mux_calls MRp [(CIn 5, 29); (CUp, 29); (CDrive 3, 29)] zeros = Some s /\ pin_of MRp s 29 = mkPin (Alt 5) true false Up false 3 0) /\
  (exists s, mux_calls MTi [(COut 14, 17); (CQsel 3, 17)] zeros = Some s /\ pin_of MTi s 17 = mkPin (Alt 14) true true Up false 3 0).
Proof. repeat split; eexists; repeat split. Qed.

(** SAME5x: a pin that had a function keeps it when it is made a gpio, and after a reset its input buffer stays off: it reads 0. *)
Theorem C136_same5x_gpio_refuted :
  (exists s, mux_calls MSame5x [(COut 3, 8); (CIn 14, 8)] zeros = Some s /\ p_fun (pin_of MSame5x s 8) = Alt 3) /\
  (exists s, mux_calls MSame5x [(CIn 14, 8)] zeros = Some s /\ p_fun (pin_of MSame5x s 8) = Gpio /\ p_in (pin_of MSame5x s 8) = false).
Proof. split; eexists; repeat split. Qed.
Print Assumptions C136_same5x_gpio_refuted.
(** SAME5x: pull_up and pull_down are the same; after a reset both pull down. *)
Theorem C136_same5x_pull_wrong : (forall p s, mux_call MSame5x CUp p s = mux_call MSame5x CDown p s) /\
  exists s, mux_calls MSame5x [(CIn 2, 8); (CUp, 8)] zeros = Some s /\ p_pull (pin_of MSame5x s 8) = Down.
Proof. split; [exact e5_pulls|]. eexists. repeat split. Qed.
Print Assumptions C136_same5x_pull_wrong.
(** SIUL2: an output made an input goes on driving the pin; an analog pin made an output stays analog. *)
Theorem C136_siul2_refuted :
  (exists s, mux_calls MSiul2 [(COut 0, 8); (CInImcr 1 20, 8)] zeros = Some s /\ p_out (pin_of MSiul2 s 8) = true) /\
  (exists s, mux_calls MSiul2 [(CAnalog, 8); (COut 0, 8)] zeros = Some s /\ p_fun (pin_of MSiul2 s 8) = Analog).
Proof. split; eexists; repeat split. Qed.
Print Assumptions C136_siul2_refuted.
(** PIO_DISABLE does not disable a pin: it hands it over to a peripheral, whichever was selected last. *)
Theorem C136_pio_disable_wrong : forall sam3x p s s', mux_call (if sam3x : bool then MSam3x else MAtmel) (CIn 0) p s = Some s' ->
  exists k, p_fun (pin_of (if sam3x then MSam3x else MAtmel) s' p) = Alt k.
Proof. intros b p s s' H. apply (pio_disable b p s). destruct b; exact H. Qed.
Print Assumptions C136_pio_disable_wrong.
Example C136_pio_disable_runs : exists s, mux_calls MAtmel [(COut 4, 3); (CIn 1, 3); (CIn 0, 3)] zeros = Some s /\ p_fun (pin_of MAtmel s 3) = Alt 2.
Proof. eexists. repeat split. Qed.
