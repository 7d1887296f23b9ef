(** MiscModel.v - drivers/misc: misc-rp2040_reset.c, misc-stm32h7xx_dmamux.c and the masters, slaves and CAN bases of misc-atsamx7x_matrix.c.

    Simplifications: registers are words (Z) of their own; RESET_DONE, read for the i-th time, is [done i], whatever the hardware does; arch_delay_us does
    nothing. misc-atmel_rstc.c, misc-pic32mx.c, of single stores, are left out. *)
From Verif Require Import Base.

(** * RP2040 *)
(** rp2040_reset_init (misc-rp2040_reset.c:18): the value stored in RESET *)
Definition rr_init : Z := Z.land (Z.ldiff (2 ^ 32 - 1) (2 ^ 6 + 2 ^ 9 + 2 ^ 12 + 2 ^ 13 + 2 ^ 18 + 2 ^ 24)) (2 ^ 29 - 1).
(** RESET |= 1 << ss (rp2040_reset, misc-rp2040_reset.c:35) and RESET &= ~(1 << ss) (rp2040_unreset, :46) of the value loaded *)
Definition rr_set (ss r : Z) : Z := Z.lor r (Z.shiftl 1 ss).
Definition rr_clr (ss r : Z) : Z := Z.ldiff r (Z.shiftl 1 ss).
Definition rr_valid (ss : Z) : bool := (0 <=? ss) && (ss <? 25).
(** rp2040_reset (misc-rp2040_reset.c:31): RESET afterwards, None: -EINVAL *)
Definition rr_reset (ss r : Z) : option Z := if rr_valid ss then Some (rr_set ss r) else None.
(** The wait (misc-rp2040_reset.c:48), from the i-th read on: Some j: it ended with the j-th, None: -EBUSY *)
Fixpoint rr_wait (deadlock : nat) (ss : Z) (done : nat -> Z) (i : nat) : option nat :=
  if negb (Z.land (done i) (Z.shiftl 1 ss) =? 0) then Some i else match deadlock with O => None | S d => rr_wait d ss done (S i) end.
Inductive rres := RInval | RBusy (r : Z) | RDone (r : Z) (at_ : nat).
(** rp2040_unreset (misc-rp2040_reset.c:39): RESET afterwards, and the read of RESET_DONE that ended it *)
Definition rr_unreset (deadlock : nat) (ss r : Z) (done : nat -> Z) : rres :=
  if rr_valid ss then match rr_wait deadlock ss done 0 with Some i => RDone (rr_clr ss r) i | None => RBusy (rr_clr ss r) end else RInval.
(** Two tasks, each about to change RESET by a function: a load, then a store; [sched]: whose step is next *)
Record race := mkRace { q_reg : Z; q_a : option Z; q_b : option Z }.
Definition race_step (fa fb : Z -> Z) (who : bool) (q : race) : race :=
  if who then match q_a q with None => mkRace (q_reg q) (Some (q_reg q)) (q_b q) | Some v => mkRace (fa v) None (q_b q) end
  else match q_b q with None => mkRace (q_reg q) (q_a q) (Some (q_reg q)) | Some v => mkRace (fb v) (q_a q) None end.
Definition race_run (fa fb : Z -> Z) (sched : list bool) (r : Z) : Z := q_reg (fold_left (fun q w => race_step fa fb w q) sched (mkRace r None None)).

(** * STM32H7 DMAMUX *)
(** dmamux_stm32h7xx_init (misc-stm32h7xx_dmamux.c:52) and dmamux_stm32h7xx_set_dmareq_id (:72) of channel [ch]: CxCR afterwards *)
Definition mx_set (ch id : Z) (cxcr : Z -> Z) : option (Z -> Z) :=
  if negb (ch <? 16) then None else if negb (id <=? 127) then None else Some (fun c => if c =? ch then Z.land id 127 else cxcr c).

(** * SAMV71 matrix *)
(** atsamx7x_matrix_set_mcfg (misc-atsamx7x_matrix.c:76) *)
Definition ma_mcfg (index ulbt : Z) (mcfg : Z -> Z) : option (Z -> Z) :=
  if negb (index <? 12) then None else if negb (ulbt <? 8) then None else Some (fun c => if c =? index then Z.land ulbt 7 else mcfg c).
(** atsamx7x_matrix_set_scfg (misc-atsamx7x_matrix.c:86) *)
Definition ma_scfg (index fixed type slot : Z) (scfg : Z -> Z) : option (Z -> Z) :=
  if negb (index <? 8) then None else if negb (fixed <=? 15) then None else if negb (type <? 3) then None else if negb (slot <=? 511) then None else
  Some (fun c => if c =? index then Z.lor (Z.lor (Z.shiftl (Z.land fixed 15) 18) (Z.shiftl (Z.land type 3) 16)) (Z.shiftl (Z.land slot 511) 1) else scfg c).
(** atsamx7x_matrix_set_can0dmaba (misc-atsamx7x_matrix.c:102), atsamx7x_matrix_set_can1dmaba (:110): CCFG_CAN0, CCFG_SYSIO afterwards *)
Definition ma_can (msb r : Z) : Z := Z.lor (Z.ldiff r (Z.shiftl 65535 16)) (Z.shiftl (Z.land msb 65535) 16).
