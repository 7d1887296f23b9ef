(** PropAsm51.v - C81 and C82: the context switch of the 8051 port. *)
From Verif Require Import Base Asm51Model Asm51Spec Asm51Proofs Asm51Thms.

(** C81. A tick that interrupts task [t] and elects [u]: all of [t] is on its own stack in external
    RAM, under the address given to the scheduler, and [u] goes on exactly as it was, whatever the C
    code did meanwhile to the registers and to the rest of the memories. *)
Theorem C81_tick : forall S0 fuel m t u m1 m3,
  fits S0 15 t -> fits S0 15 u -> runs S0 m t ->
  c_code S0 (tick_in m) m1 ->
  parked (xram m1) (tbase u + Z.of_nat (length (context u))) u ->
  (tbase t + Z.of_nat (length (context t)) <= tbase u \/ tbase u + Z.of_nat (length (context u)) <= tbase t) ->
  (length (context t) <= fuel)%nat -> (length (context u) <= fuel)%nat ->
  exists m2, tick_save S0 fuel m1 = Some m2 /\ dptr m2 = tbase t + Z.of_nat (length (context t)) /\
    (same (tbase t) (dptr m2) (xram m3) (xram m2) ->
     same (tbase u) (tbase u + Z.of_nat (length (context u))) (xram m3) (xram m2) ->
     byte (rdpl m3) -> byte (rdph m3) -> dptr m3 = tbase u + Z.of_nat (length (context u)) ->
     exists m', resume S0 fuel m3 = Some m' /\ runs S0 m' u /\ parked (xram m') (dptr m2) t).
Proof. exact tick_switches. Qed.
Print Assumptions C81_tick.

(** The memory of every other task is left alone by the switch. *)
Theorem C81_frame : forall S0 fuel m t m1,
  fits S0 15 t -> runs S0 m t -> c_code S0 (tick_in m) m1 -> (length (context t) <= fuel)%nat ->
  exists m2, tick_save S0 fuel m1 = Some m2 /\ rsp m2 = S0 - 1 /\ parked (xram m2) (dptr m2) t /\
    (forall a, ~ (tbase t <= a < tbase t + Z.of_nat (length (context t))) -> xram m2 a = xram m1 a).
Proof.
  intros S0 fuel m t m1 H1 H2 H3 H4. destruct (tick_parks S0 fuel m t m1 H1 H2 H3 H4) as (m2 & E & E1 & _ & _ & E4 & E5).
  by exists m2.
Qed.
Print Assumptions C81_frame.

(** The same for a system call: the scheduler is given the address where the caller's context will be,
    the number of the call and its pointer; the call may change the caller's stack, [t'] is what it
    left; then the caller is put away and [u] goes on. *)
Theorem C81_call : forall S0 fuel m t l p0 p1 p2,
  fits S0 19 t -> runs S0 m t -> tstk t = l ++ [p0; p1; p2] -> (2 <= length l)%nat ->
  let m1 := call_in S0 (intr m) in
  dptr m1 = tbase t + Z.of_nat (length (context t)) /\ xram m1 = xram m /\
  onstack S0 m1 (context t ++ [p0; p1; p2; tdpl t]) /\
  forall m2 t' u e, fits S0 19 t' -> onstack S0 m2 (context t' ++ e) -> length e = 4%nat ->
    (length (context t') <= fuel)%nat -> (length (context u) <= fuel)%nat ->
    fits S0 15 u -> byte (rdpl m2) -> byte (rdph m2) -> parked (xram m2) (dptr m2) u ->
    (tbase t' + Z.of_nat (length (context t')) <= tbase u \/ tbase u + Z.of_nat (length (context u)) <= tbase t') ->
    exists m3 m', call_save S0 fuel m2 = Some m3 /\ resume S0 fuel m3 = Some m' /\ runs S0 m' u /\
      parked (xram m') (tbase t' + Z.of_nat (length (context t'))) t'.
Proof. exact call_switches. Qed.
Print Assumptions C81_call.

(** An interrupt of the user leaves the task as it was. *)
Theorem C81_isr : forall S0 m t m1,
  fits S0 15 t -> runs S0 m t -> c_code S0 (isr_in m) m1 ->
  runs S0 (isr_out m1) t /\ xram (isr_out m1) = xram m1.
Proof. exact isr_transparent. Qed.
Print Assumptions C81_isr.

(** A case: a task with 8 bytes on its stack, another one new. *)
Definition of_list (o : Z) (l : list Z) (a : Z) : Z := if (o <=? a) then nth (Z.to_nat (a - o)) l 0 else 0.
Definition ex_t : task51 := mkT51 1 2 3 4 5 6 7 [10; 11; 12; 13; 14; 15; 16; 17] [0; 2; 31; 32; 33; 34; 35; 36].
Definition ex_u : task51 := new_task 1024 4660 22136.
Definition ex_m : m51 := mk51 1 2 3 4 5 (48 - 1 + 8) 6 7
  (fun a => if a <? 8 then of_list 0 (tr ex_t) a else of_list 48 (tstk ex_t) a)
  (of_list 1024 (rev (context ex_u))).
Example C81_case : fits 48 19 ex_t /\ fits 48 15 ex_u /\ runs 48 ex_m ex_t /\
  parked (xram ex_m) (tbase ex_u + Z.of_nat (length (context ex_u))) ex_u /\
  tbase ex_t + Z.of_nat (length (context ex_t)) <= tbase ex_u /\ tstk ex_t = [0; 2; 31; 32; 33] ++ [34; 35; 36].
Proof.
  split; [split; try done; by repeat constructor|].
  split; [split; try done; by repeat constructor|].
  split; [|split; [|done]].
  - split; try done.
    + intros i v Hv. do 8 (destruct i as [|i]; [by injection Hv as <-|]). done.
    + intros i v Hv. do 8 (destruct i as [|i]; [by injection Hv as <-|]). done.
  - split; [done|]. intros i v Hv. do 17 (destruct i as [|i]; [by injection Hv as <-|]). done.
Qed.
(** ... executed: the new task starts at its function, and back again. *)
Definition c81_run : bool :=
  match tick_save 48 50 (tick_in ex_m) with
  | None => false
  | Some m2 =>
      match resume 48 50 (set_dpl 17 (set_dph 4 m2)) with
      | None => false
      | Some m' => (dptr m2 =? 512 + 23) && (rpcl m' + 256 * rpch m' =? 4660) && (dptr m' =? 22136) && (rsp m' =? 49) &&
          match resume 48 50 (set_dpl 23 (set_dph 2 m')) with
          | None => false
          | Some m'' => forallb (fun a => iram m'' a =? iram ex_m a) [0; 1; 2; 3; 4; 5; 6; 7; 48; 49; 50; 51; 52; 53; 54; 55] &&
              (ra m'' =? 1) && (rb m'' =? 2) && (rdpl m'' =? 3) && (rdph m'' =? 4) && (rpsw m'' =? 5) && (rsp m'' =? 55) &&
              (rpcl m'' =? 6) && (rpch m'' =? 7)
          end
      end
  end.
Example C81_runs : c81_run = true.
Proof. vm_compute. reflexivity. Qed.

(** C82. A new task, if registers r5 and r6 hold the address of its stack when its first context is made:
    it is put away so that it will start at [fn] with [priv]; the caller goes on. *)
Theorem C82_new_task_partial : forall m base fn priv,
  14 <= rsp m < 256 -> byte (rdpl m) -> byte (rdph m) -> dptr m = base -> base + 17 < 65536 ->
  0 <= fn < 65536 -> 0 <= priv < 65536 ->
  iram m (rsp m - 2) = fn / 256 -> iram m (rsp m - 3) = fn mod 256 ->
  iram m (rsp m - 5) = priv / 256 -> iram m (rsp m - 6) = priv mod 256 ->
  iram m 5 = rdpl m -> iram m 6 = rdph m ->
  let m' := save_first m in
  rsp m' = rsp m - 2 /\ rpcl m' = iram m (rsp m - 1) /\ rpch m' = iram m (rsp m) /\
  dptr m' = base + 17 /\ parked (xram m') (dptr m') (new_task base fn priv) /\
  (forall a, 8 <= a -> iram m' a = iram m a) /\
  (forall a, ~ (base <= a < base + 17) -> xram m' a = xram m a).
Proof. exact save_first_spec. Qed.
Print Assumptions C82_new_task_partial.

Theorem C82_starts : forall S0 fuel m base fn priv,
  8 <= S0 <= 239 -> 0 <= base -> base + 17 < 65536 -> 0 <= fn < 65536 -> 0 <= priv < 65536 ->
  byte (rdpl m) -> byte (rdph m) -> parked (xram m) (dptr m) (new_task base fn priv) -> (17 <= fuel)%nat ->
  exists m', resume S0 fuel m = Some m' /\ rpcl m' + 256 * rpch m' = fn /\ dptr m' = priv /\ rb m' = 0 /\
    rsp m' = S0 + 1 /\ iram m' S0 + 256 * iram m' (S0 + 1) = base /\ xram m' = xram m.
Proof. exact new_starts. Qed.
Print Assumptions C82_starts.

(** Nothing in the port sets r5 and r6: with anything else in them, the context is not one. *)
Theorem C82_new_task_refuted : forall m base fn priv,
  14 <= rsp m < 256 -> byte (rdpl m) -> byte (rdph m) -> dptr m = base -> base + 17 < 65536 ->
  0 <= fn < 65536 -> 0 <= priv < 65536 ->
  iram m (rsp m - 2) = fn / 256 -> iram m (rsp m - 3) = fn mod 256 ->
  iram m (rsp m - 5) = priv / 256 -> iram m (rsp m - 6) = priv mod 256 ->
  iram m 5 <> rdpl m \/ iram m 6 <> rdph m ->
  ~ parked (xram (save_first m)) (dptr (save_first m)) (new_task base fn priv).
Proof. exact new_needs_r5. Qed.
Print Assumptions C82_new_task_refuted.

(** The memory space of [priv] (third byte of a generic pointer) is lost: the task gets a pointer into
    external RAM, even when it was given one into code or internal RAM. *)
Theorem C82_pointer_refuted : forall m base fn priv,
  14 <= rsp m < 256 -> byte (rdpl m) -> byte (rdph m) -> dptr m = base -> base + 17 < 65536 ->
  0 <= fn < 65536 -> 0 <= priv < 65536 ->
  iram m (rsp m - 2) = fn / 256 -> iram m (rsp m - 3) = fn mod 256 ->
  iram m (rsp m - 4) <> 0 -> iram m (rsp m - 5) = priv / 256 -> iram m (rsp m - 6) = priv mod 256 ->
  iram m 5 = rdpl m -> iram m 6 = rdph m ->
  parked (xram (save_first m)) (dptr (save_first m)) (new_task base fn priv) /\
  tb (new_task base fn priv) <> iram m (rsp m - 4).
Proof.
  intros m base fn priv H1 H2 H3 H4 H5 H6 H7 H8 H9 Ht H10 H11 H12 H13.
  destruct (save_first_spec m base fn priv H1 H2 H3 H4 H5 H6 H7 H8 H9 H10 H11 H12 H13) as (_ & _ & _ & _ & E & _). split; [exact E|].
  cbn. congruence.
Qed.
Print Assumptions C82_pointer_refuted.

Definition ex_first : m51 := mk51 0 0 0 4 0 70 0 0
  (fun a => if a <? 8 then of_list 0 [0; 0; 0; 0; 0; 0; 4; 0] a else of_list 64 [120; 86; 128; 52; 18; 9; 8] a) (fun _ => 255).
Example C82_case : 14 <= rsp ex_first < 256 /\ dptr ex_first = 1024 /\
  iram ex_first (rsp ex_first - 2) = 4660 / 256 /\ iram ex_first (rsp ex_first - 3) = 4660 mod 256 /\
  iram ex_first (rsp ex_first - 4) = 128 /\
  iram ex_first (rsp ex_first - 5) = 22136 / 256 /\ iram ex_first (rsp ex_first - 6) = 22136 mod 256 /\
  iram ex_first 5 = rdpl ex_first /\ iram ex_first 6 = rdph ex_first.
Proof. vm_compute. repeat split; congruence. Qed.
(** With another value of r5, for instance the address of the end of its 256-byte stack, the task starts
    elsewhere. *)
Definition c82_run (r5 : Z) : bool :=
  let m := save_first (set_i 5 r5 ex_first) in
  match resume 48 50 m with Some m' => rpcl m' + 256 * rpch m' =? 4660 | None => false end.
Example C82_runs : c82_run 0 = true /\ c82_run 8 = false.
Proof. split; vm_compute; reflexivity. Qed.
