(** PropMisc.v - C138: resets, request multiplexer and bus matrix change what they are asked to, and nothing else. *)
From Verif Require Import Base MiscModel MiscSpec MiscProofs.

(** RP2040: 0 from rp2040_reset holds the peripheral in reset and no other is touched; rp2040_unreset releases it, returns 0 only once the hardware has said it
    is out, -EBUSY only if it never did; what is not a peripheral is refused. *)
Theorem C138_reset_partial :
  (forall ss r, 0 <= ss <= 24 -> exists r', rr_reset ss r = Some r' /\ Z.testbit r' ss = true /\ same_but ss 1 r r') /\
  (forall d ss r done, 0 <= ss <= 24 ->
    (exists r' i, rr_unreset d ss r done = RDone r' i /\ Z.testbit (done i) ss = true /\ Z.testbit r' ss = false /\ same_but ss 1 r r') \/
    (exists r', rr_unreset d ss r done = RBusy r' /\ (forall i, (i <= d)%nat -> Z.testbit (done i) ss = false) /\ Z.testbit r' ss = false /\ same_but ss 1 r r')) /\
  (forall ss, ~ 0 <= ss <= 24 -> (forall r, rr_reset ss r = None) /\ forall d r done, rr_unreset d ss r done = RInval).
Proof. exact (conj rr_reset_ok (conj rr_unreset_ok rr_refuses)). Qed.
Print Assumptions C138_reset_partial.
Example C138_reset_runs : rr_reset 14 4096 = Some 20480 /\ rr_unreset 5 14 20480 (fun i => if (i <? 3)%nat then 0 else 16384) = RDone 4096 3 /\
  rr_unreset 5 14 20480 (fun i => if (i <? 6)%nat then 0 else 16384) = RBusy 4096.
Proof. repeat split. Qed.
(** rp2040_reset_init resets every peripheral but both QSPI ones, both PLLs, SYSCFG and USBCTRL. *)
Theorem C138_reset_init : forall ss, 0 <= ss <= 24 -> Z.testbit rr_init ss = negb (existsb (Z.eqb ss) [6; 9; 12; 13; 18; 24]).
Proof. exact rr_init_ok. Qed.
Print Assumptions C138_reset_init.
(** Two tasks: calls that nothing interrupts happen one after another, .. *)
Theorem C138_tasks_partial : forall fa fb calls r, race_run fa fb (whole calls) r = fold_left (fun v (w : bool) => if w then fa v else fb v) calls r.
Proof. exact race_whole. Qed.
Print Assumptions C138_tasks_partial.
Example C138_tasks_runs : race_run (rr_set 3) (rr_clr 5) (whole [true; false]) 32 = 8.
Proof. reflexivity. Qed.
(** .. but a task that is interrupted between its load and its store loses the other's, or has its own lost: the reset of a is not there. *)
Theorem C138_tasks_wrong : forall a b r, 0 <= a -> 0 <= b -> a <> b -> Z.testbit (race_run (rr_set a) (rr_set b) [true; false; true; false] r) a = Z.testbit r a.
Proof. exact race_lost. Qed.
Print Assumptions C138_tasks_wrong.
Example C138_tasks_wrong_runs : race_run (rr_set 3) (rr_set 5) [true; false; true; false] 0 = 32.
Proof. reflexivity. Qed.

(** STM32H7: the request of one of 16 channels is set, in full; other channels keep theirs; channels and requests there are not are refused. *)
Theorem C138_dmamux : forall ch id cxcr, 0 <= ch -> 0 <= id ->
  (ch <= 15 /\ id <= 127 -> exists c', mx_set ch id cxcr = Some c' /\ c' ch = id /\ forall c, c <> ch -> c' c = cxcr c) /\ (~ (ch <= 15 /\ id <= 127) -> mx_set ch id cxcr = None).
Proof. exact mx_ok. Qed.
Print Assumptions C138_dmamux.
Example C138_dmamux_runs : option_map (fun c => map c [6; 7; 8]) (mx_set 7 127 (fun _ => 1)) = Some [1; 127; 1].
Proof. reflexivity. Qed.

(** SAMV71: masters 0 to 11 and slaves 0 to 7 get what was asked for, the others keep what they have, .. *)
Theorem C138_matrix_partial :
  (forall index ulbt mcfg, 0 <= index -> 0 <= ulbt ->
    (index <= 11 /\ ulbt <= 7 -> exists c', ma_mcfg index ulbt mcfg = Some c' /\ c' index = ulbt /\ forall c, c <> index -> c' c = mcfg c) /\
    (~ (index <= 11 /\ ulbt <= 7) -> ma_mcfg index ulbt mcfg = None)) /\
  (forall index fixed type slot scfg, 0 <= index -> 0 <= fixed -> 0 <= type -> 0 <= slot ->
    (index <= 7 /\ fixed <= 15 /\ type <= 2 /\ slot <= 511 -> exists c', ma_scfg index fixed type slot scfg = Some c' /\
       (bits (c' index) 18 4 = fixed /\ bits (c' index) 16 2 = type /\ bits (c' index) 1 9 = slot) /\ forall c, c <> index -> c' c = scfg c) /\
    (~ (index <= 7 /\ fixed <= 15 /\ type <= 2 /\ slot <= 511) -> ma_scfg index fixed type slot scfg = None)).
Proof. exact (conj ma_mcfg_ok ma_scfg_ok). Qed.
Print Assumptions C138_matrix_partial.
Example C138_matrix_runs : option_map (fun c => map c [0; 3]) (ma_scfg 3 9 2 511 (fun _ => 5)) = Some [5; 9 * 2 ^ 18 + 2 * 2 ^ 16 + 511 * 2].
Proof. reflexivity. Qed.
(** .. but of the 13 masters and 9 slaves of the driver's own registers the last cannot be set. *)
Theorem C138_matrix_refuted : (forall ulbt mcfg, ma_mcfg 12 ulbt mcfg = None) /\ forall fixed type slot scfg, ma_scfg 8 fixed type slot scfg = None.
Proof. split; reflexivity. Qed.
Print Assumptions C138_matrix_refuted.
(** The upper half of the address of the CANs' memories, and nothing of the lower half of the register. *)
Theorem C138_can_base : forall msb r, 0 <= msb < 65536 -> bits (ma_can msb r) 16 16 = msb /\ same_but 16 16 r (ma_can msb r).
Proof. exact ma_can_ok. Qed.
Print Assumptions C138_can_base.
Example C138_can_base_runs : ma_can 8256 (7 + 512 * 65536) = 7 + 8256 * 65536.
Proof. reflexivity. Qed.
