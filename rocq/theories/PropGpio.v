(** PropGpio.v - C83, C84: gpio drivers. *)
From Verif Require Import Base GpioModel GpioSpec GpioProofs.

(** ** C83: tasks that use different pins of a port do not disturb each other *)
(** Any number of tasks, any calls, any interleaving of their register accesses: at every moment the pin
    of each task is what its own calls make it, what gpio_read returned to it is the level of its pin, and
    the pins of no task do not change.  For the drivers that only use set, clear and toggle registers;
    see C83_refuted for the others. *)
Theorem C83_independent_partial : forall d p ts sched p' ts', pin_only d -> own_pins ts ->
  (forall j t, ts !! j = Some t -> fresh t /\ pin_range d (g_bit (t_ctx t)) /\ no_ra4 d t) ->
  grun d sched (p, ts) = (p', ts') ->
  (forall i t t', ts !! i = Some t -> ts' !! i = Some t' ->
    pin_calls t (p_out p) t' (p_out p') /\
    (d <> TinyAvr -> Z.testbit (p_dir p) (g_bit (t_ctx t)) = true ->
     t_seen t' = spec_seen (g_inv (t_ctx t)) (take (length (t_seen t')) (t_todo t)) (Z.testbit (p_out p) (g_bit (t_ctx t))))) /\
  (forall b, 0 <= b -> (forall t, In t ts -> g_bit (t_ctx t) <> b) -> pin_of b p' = pin_of b p).
Proof.
  intros d p ts sched p' ts' Hd Hown Hts Hrun. split.
  - intros i t t' Hi Hi'. exact (all_seen d p ts sched i t t' p' ts' Hd Hown Hts Hrun Hi Hi').
  - intros b Hb Hno. exact (all_free d p ts sched p' ts' b Hd Hown Hts Hrun Hb Hno).
Qed.
Print Assumptions C83_independent_partial.

(** Two tasks, pins 3 (inverted) and 5 of one port, in lock step. *)
Definition ex_ts : list gtask :=
  [mkGt (mkCtx 3 true) None [OpWrite true; OpToggle; OpRead] []; mkGt (mkCtx 5 false) None [OpToggle; OpWrite true; OpRead] []].
Definition ex_sched : list nat := concat (replicate 12 [0; 1]%nat).
Example C83_hyps : own_pins ex_ts /\ (forall j t, ex_ts !! j = Some t -> fresh t /\ pin_range AtmelPio (g_bit (t_ctx t)) /\ no_ra4 AtmelPio t).
Proof.
  split.
  - intros [|[|i]] [|[|j]] t u Ht Hu E; cbn in Ht, Hu; try done; injection Ht as <-; injection Hu as <-; done.
  - intros [|[|j]] t Ht; cbn in Ht; try done; injection Ht as <-; repeat split; try (unfold pin_range; cbn; lia); intros Hd; done.
Qed.
Example C83_runs : let s := grun AtmelPio ex_sched (mkPort 8 255 0, ex_ts) in
  (p_out s.1 =? 40) && bool_decide (t_seen <$> s.2 = [[false; false; false]; [false; false; true]]) = true.
Proof. vm_compute. reflexivity. Qed.

(** The other drivers load the output register, change a bit and store it: two tasks, two pins, and both
    gpio_toggle and gpio_write return, but the write is lost.  All drivers, all pairs of pins, all states. *)
Theorem C83_independent_refuted : forall d b c p, ~ pin_only d -> pin_range d b -> pin_range d c -> b <> c ->
  let v := negb (Z.testbit (p_out p) c) in
  let ts := [mkGt (mkCtx b false) None [OpToggle] []; mkGt (mkCtx c false) None [OpWrite v] []] in
  exists sched, let s := grun d sched (p, ts) in
  s.2 = [mkGt (mkCtx b false) None [] [false]; mkGt (mkCtx c false) None [] [false]] /\
  Z.testbit (p_out s.1) c = negb v.
Proof.
  intros d b c p Hd Hb Hc Hne v ts. exists [0; 0; 1; 1; 1; 1; 0; 0]%nat. exact (lost_write d b c p Hd Hb Hc Hne).
Qed.
Print Assumptions C83_independent_refuted.
Example C83_refuted_case : ~ pin_only Avr /\ pin_range Avr 0 /\ pin_range Avr 7.
Proof. split; [intros H; exact H|]. unfold pin_range. lia. Qed.

(** ** C84: what a call does, when nothing else happens *)
(** Every driver, pin, state: gpio_write and gpio_toggle give the output its level, gpio_read returns the
    level and leaves the output, and no call changes another pin.  Less than the property: gpio_toggle of
    an inverted pin on the ra4, and the direction on tinyavr (both below). *)
Theorem C84_calls_partial : forall d c o p, pin_range d (g_bit c) -> (d = Ra4 -> o = OpToggle -> g_inv c = false) ->
  let q := (solo (op_code d c o) p).1 in
  Z.testbit (p_out q) (g_bit c) = spec_out (g_inv c) o (Z.testbit (p_out p) (g_bit c)) /\
  (d <> TinyAvr -> Z.testbit (p_dir q) (g_bit c) = Z.testbit (p_dir p) (g_bit c)) /\
  (d <> TinyAvr -> o = OpRead -> (solo (op_code d c o) p).2 = xorb (level (pin_of (g_bit c) p)) (g_inv c)) /\
  (forall b, 0 <= b -> b <> g_bit c -> pin_of b q = pin_of b p).
Proof.
  intros d c o p Hr Hi q. destruct (solo_own d c o p Hr Hi) as [E1 E2].
  split; [exact (f_equal n_out E1)|]. split; [intros Hd; etransitivity; [exact (f_equal n_dir E1)|]; destruct d; done|].
  split; [|intros b Hb Hne; exact (solo_other d c o p b Hr Hb Hne)].
  intros Hd ->. rewrite E2. destruct d; done.
Qed.
Print Assumptions C84_calls_partial.
Example C84_runs : let q := (solo (op_code Stm32h7xx (mkCtx 15 true) (OpWrite true)) (mkPort 65535 65535 0)).1 in p_out q =? 32767 = true.
Proof. vm_compute. reflexivity. Qed.

(** The ra4 driver's gpio_toggle hands gpio_write the level to set, and gpio_write inverts it: an inverted
    pin never toggles. *)
Theorem C84_toggle_refuted : forall b p, 0 <= b < 16 ->
  let q := (solo (op_code Ra4 (mkCtx b true) OpToggle) p).1 in Z.testbit (p_out q) b = Z.testbit (p_out p) b.
Proof. intros b p Hb q. exact (f_equal n_out (ra4_toggle b p Hb)). Qed.
Print Assumptions C84_toggle_refuted.

(** The tinyavr driver's gpio_read makes the pin an input: an output that was being driven is released,
    and what is returned is not what was written. *)
Theorem C84_read_refuted : forall c v p, 0 <= g_bit c < 8 -> 
  let q := (solo (op_code TinyAvr c (OpWrite v)) p).1 in
  let r := solo (op_code TinyAvr c OpRead) q in
  Z.testbit (p_dir q) (g_bit c) = true /\ Z.testbit (p_dir r.1) (g_bit c) = false /\
  r.2 = xorb (Z.testbit (p_ext p) (g_bit c)) (g_inv c).
Proof.
  intros c v p Hb q r.
  destruct (solo_own TinyAvr c (OpWrite v) p Hb) as [E1 _]; [done|]. fold q in E1.
  destruct (solo_own TinyAvr c OpRead q Hb) as [E2 E3]; [done|]. fold r in E2, E3.
  split; [exact (f_equal n_dir E1)|]. split; [exact (f_equal n_dir E2)|].
  rewrite E3. unfold spec_res. f_equal. exact (f_equal n_ext E1).
Qed.
Print Assumptions C84_read_refuted.
Example C84_read_case : 0 <= g_bit (mkCtx 7 false) < 8.
Proof. cbn. lia. Qed.
