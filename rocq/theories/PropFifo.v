(** PropFifo.v - C47 (interrupt FIFO) and C54 (interrupt-driven UART write).

    In all statements the FIFO has mask 2^k - 1 where the index type has at least k bits, as
    fifo_head_init requires; the producer and the consumer are interleaved between any two memory
    accesses, and [junk] is the arbitrary initial content of the buffer. *)
From Verif Require Import Base FifoModel FifoSpec FifoProofs FifoThms FifoAny.
From Coq Require Import ZifyBool ZifyNat.

Section c47.
  Context (g : fcfg) (k : Z) (junk : Z -> Z) (s : fsys).
  Hypothesis Hk : 0 <= k <= fc_bits g.
  Hypothesis Hr : freach g (fmem0 (2 ^ k - 1) junk) s.
  Hypothesis Hp : only_puts (f_log s).

  Lemma get_complete_aux before cl r n :
    c_returns (f_log s) before cl r -> cl = CRead n \/ (cl = CGet /\ n = 1%nat) ->
    (length r <= n)%nat /\ Z.min (Z.of_nat n) (pending before) <= Z.of_nat (length r).
  Proof.
    intros (during & after & E & F) Hcl. destruct (fifo_calls g k junk Hk s Hr Hp) as [H _].
    specialize (H _ _ _ _ _ E F). unfold pending.
    destruct Hcl as [->|[-> ->]]; cbn [cfact] in H; lia.
  Qed.
  Lemma put_aux before v r :
    p_returns (f_log s) before (PPut v) r ->
    (r = 0 \/ r = 1) /\ (r = 0 -> fifo_cap (2 ^ k - 1) <= pending before).
  Proof.
    intros (during & after & E & F). destruct (fifo_calls g k junk Hk s Hr Hp) as [_ H].
    specialize (H _ _ _ _ _ E F). unfold pfact in H. by rewrite (cap_fifo g k junk Hk) in H.
  Qed.
End c47.

(** C47: in every interleaving, what the consumer got, whether one value at a time, by blocks or
    sent to the UART by the handler, is a prefix of what the producer put: no loss, no duplicate, no
    reordering, no corrupted value. *)
Theorem C47_in_order : forall g k junk s,
  0 <= k <= fc_bits g -> freach g (fmem0 (2 ^ k - 1) junk) s -> only_puts (f_log s) ->
  delivered (f_log s) `prefix_of` accepted (f_log s) ++ putting s.
Proof. exact (fun g k junk s Hk => fifo_in_order g k junk Hk s). Qed.
Print Assumptions C47_in_order.

(** C47: a read of up to n values returns at most n, and at least those of the n that were pending
    when it began (CGet reads one). *)
Theorem C47_read_complete : forall g k junk s,
  0 <= k <= fc_bits g -> freach g (fmem0 (2 ^ k - 1) junk) s -> only_puts (f_log s) ->
  forall before cl r n,
  c_returns (f_log s) before cl r -> cl = CRead n \/ (cl = CGet /\ n = 1%nat) ->
  (length r <= n)%nat /\ Z.min (Z.of_nat n) (pending before) <= Z.of_nat (length r).
Proof. exact get_complete_aux. Qed.
Print Assumptions C47_read_complete.

(** C47: a put fails only if 2^k - 2 values were pending when it began. *)
Theorem C47_put_accepts : forall g k junk s,
  0 <= k <= fc_bits g -> freach g (fmem0 (2 ^ k - 1) junk) s -> only_puts (f_log s) ->
  forall before v r, p_returns (f_log s) before (PPut v) r ->
  (r = 0 \/ r = 1) /\ (r = 0 -> fifo_cap (2 ^ k - 1) <= pending before).
Proof. exact put_aux. Qed.
Print Assumptions C47_put_accepts.

(** Case: 8-bit indexes, mask 3, so two values fit.  The consumer gets 10 while 11 is being put; a
    third put is rejected. *)
Definition g8 : fcfg := mkFcfg 16 8.
Definition go (n : nat) (e : fev) : list fev := repeat e n.
Definition ex47 : list fev :=
  PStart (PPut 10) :: go 9 (PGo 0) ++ [PStart (PPut 11)] ++ go 4 (PGo 0) ++
  CStart CGet :: go 5 (CGo 0) ++ go 5 (PGo 0) ++ go 6 (CGo 0) ++
  PStart (PPut 12) :: go 9 (PGo 0) ++ PStart (PPut 13) :: go 4 (PGo 0) ++
  CStart (CRead 5) :: go 30 (CGo 0).
Definition s47 : fsys := frun g8 (fsys0 (fmem0 (2 ^ 2 - 1) (fun _ => 0))) ex47.
Definition log47 : list gev :=
  [GP (PPut 10); GPRet (PPut 10) 1; GP (PPut 11); GC CGet; GPRet (PPut 11) 1; GCRet CGet [10];
   GP (PPut 12); GPRet (PPut 12) 1; GP (PPut 13); GPRet (PPut 13) 0; GC (CRead 5);
   GCRet (CRead 5) [11; 12]].
Example log47_ok : f_log s47 = log47.
Proof. vm_compute. reflexivity. Qed.
Example ex47_hyp : freach g8 (fmem0 (2 ^ 2 - 1) (fun _ => 0)) s47 /\ only_puts (f_log s47) /\
  accepted (f_log s47) = [10; 11; 12] /\ delivered (f_log s47) = [10; 11; 12] /\
  p_returns (f_log s47) (take 8 log47) (PPut 13) 0 /\ pending (take 8 log47) = 2 /\
  c_returns (f_log s47) (take 10 log47) (CRead 5) [11; 12].
Proof.
  split; [by exists ex47|]. rewrite log47_ok. split.
  { intros b H. unfold log47 in H. repeat (apply elem_of_cons in H as [H|H]; [discriminate|]). by apply elem_of_nil in H. }
  split; [done|]. split; [done|]. split; [exists [], (drop 10 log47); by split|].
  split; [done|]. exists [], []. by split.
Qed.

(** C54, partial.  A task writes messages of 1 to cap bytes, repeating each call while it returns
    -EAGAIN (which is what blocking on the call does), and the handler runs between any two accesses
    of the task.  Then the bytes sent are always a prefix of the messages in order, and a call that
    does not return -EAGAIN returns the length of its message, after every byte of it was sent.
    Missing: messages longer than the FIFO, for which it is false (C54_refuted). *)
Lemma c54_aux g k junk evs s d cur :
  0 <= k <= fc_bits g ->
  s = frun g (fsys0 (fmem0 (2 ^ k - 1) junk)) evs -> isr_atomic g (fmem0 (2 ^ k - 1) junk) evs ->
  msgs (fifo_cap (2 ^ k - 1)) [] None (f_log s) = Some (d, cur) -> only_isr (f_log s) ->
  sent (f_log s) `prefix_of` concat d ++ default [] cur /\
  (forall l0 b r l1, f_log s = l0 ++ GPRet (PWrite b) r :: l1 -> r <> - EAGAIN ->
     r = Z.of_nat (length b) /\
     exists d', msgs (fifo_cap (2 ^ k - 1)) [] None l0 = Some (d', Some b) /\ sent l0 = concat d' ++ b).
Proof.
  intros Hk E Ha Hm Hi. rewrite <- (cap_fifo g k junk Hk) in *. exact (uart_sent g k junk Hk evs s d cur E Ha Hm Hi).
Qed.
Theorem C54_write_partial : forall g k junk evs s d cur,
  0 <= k <= fc_bits g ->
  s = frun g (fsys0 (fmem0 (2 ^ k - 1) junk)) evs -> isr_atomic g (fmem0 (2 ^ k - 1) junk) evs ->
  msgs (fifo_cap (2 ^ k - 1)) [] None (f_log s) = Some (d, cur) -> only_isr (f_log s) ->
  sent (f_log s) `prefix_of` concat d ++ default [] cur /\
  (forall l0 b r l1, f_log s = l0 ++ GPRet (PWrite b) r :: l1 -> r <> - EAGAIN ->
     r = Z.of_nat (length b) /\
     exists d', msgs (fifo_cap (2 ^ k - 1)) [] None l0 = Some (d', Some b) /\ sent l0 = concat d' ++ b).
Proof. exact c54_aux. Qed.
Print Assumptions C54_write_partial.

(** Case: two messages; the handler comes in the middle of the first. *)
Definition ex54 : list fev :=
  PStart (PWrite [1; 2]) :: go 12 (PGo 0) ++ CStart CIsr :: go 60 (CGo 1) ++
  go 40 (PGo 0) ++ PStart (PWrite [1; 2]) :: go 8 (PGo 0) ++
  CStart CIsr :: go 60 (CGo 1) ++ PStart (PWrite [1; 2]) :: go 8 (PGo 0) ++
  PStart (PWrite [3]) :: go 40 (PGo 0).
Fixpoint atomic_c (g : fcfg) (s : fsys) (evs : list fev) : bool :=
  match evs with
  | [] => true
  | e :: evs => (if task_step e then match f_c s with None => true | Some _ => false end else true) && atomic_c g (fstep g s e) evs
  end.
Lemma atomic_c_ok g M evs : atomic_c g (fsys0 M) evs = true -> isr_atomic g M evs.
Proof.
  unfold isr_atomic. generalize (fsys0 M) as s. induction evs as [|x evs IH]; intros s H e1 e e2 E Ht.
  { by destruct e1. }
  cbn [atomic_c] in H. apply andb_prop in H as [H1 H2]. destruct e1 as [|y e1]; injection E as -> E.
  - rewrite Ht in H1. cbn. by destruct (f_c s).
  - cbn. by eapply IH.
Qed.
Definition s54 : fsys := frun g8 (fsys0 (fmem0 (2 ^ 2 - 1) (fun _ => 0))) ex54.
Definition log54 : list gev := Eval vm_compute in f_log s54.
Example log54_ok : f_log s54 = log54.
Proof. vm_compute. reflexivity. Qed.
Example ex54_hyp :
  isr_atomic g8 (fmem0 (2 ^ 2 - 1) (fun _ => 0)) ex54 /\
  msgs (fifo_cap (2 ^ 2 - 1)) [] None (f_log s54) = Some ([[1; 2]], Some [3]) /\ only_isr (f_log s54) /\
  sent (f_log s54) = [1; 2].
Proof.
  split; [apply atomic_c_ok; vm_compute; reflexivity|]. rewrite log54_ok.
  split; [vm_compute; reflexivity|]. split; [|vm_compute; reflexivity].
  assert (E : Forall (fun e => match e with GC CGet | GC (CRead _) => False | _ => True end) log54)
    by (unfold log54; repeat constructor).
  rewrite Forall_forall in E. intros n. split; intros H; exact (E _ H).
Qed.

(** C54 is false for a message that does not fit: with two places, a task that writes three bytes
    and repeats the call is told that three bytes were sent, while two were; the third is lost.
    uart_write_irqdriven_start (uart-avr_irqdriven.c:252) stores n, not the number accepted. *)
Lemma c54_refuted_aux : exists g k junk evs s b r l0,
  0 <= k <= fc_bits g /\
  s = frun g (fsys0 (fmem0 (2 ^ k - 1) junk)) evs /\ isr_atomic g (fmem0 (2 ^ k - 1) junk) evs /\
  f_log s = l0 ++ [GPRet (PWrite b) r] /\ (forall b', GP (PWrite b') ∈ l0 -> b' = b) /\
  r = Z.of_nat (length b) /\ sent (f_log s) = take 2 b /\ length b = 3%nat.
Proof.
  set (evs := PStart (PWrite [1; 2; 3]) :: go 40 (PGo 0) ++ CStart CIsr :: go 60 (CGo 1) ++ PStart (PWrite [1; 2; 3]) :: go 8 (PGo 0)).
  exists g8, 2, (fun _ => 0), evs, (frun g8 (fsys0 (fmem0 (2 ^ 2 - 1) (fun _ => 0))) evs), [1; 2; 3], 3,
    [GP (PWrite [1; 2; 3]); GPRet (PWrite [1; 2; 3]) (- EAGAIN); GC CIsr; GOut 1; GOut 2; GCRet CIsr []; GP (PWrite [1; 2; 3])].
  split; [done|]. split; [done|]. split; [apply atomic_c_ok; vm_compute; reflexivity|].
  split; [vm_compute; reflexivity|]. split; [|split; [done|split; [vm_compute; reflexivity|done]]].
  intros b' H. repeat (apply elem_of_cons in H as [H|H]; [first [discriminate | by injection H as ->]|]). by apply elem_of_nil in H.
Qed.
Theorem C54_refuted : exists g k junk evs s b r l0,
  0 <= k <= fc_bits g /\
  s = frun g (fsys0 (fmem0 (2 ^ k - 1) junk)) evs /\ isr_atomic g (fmem0 (2 ^ k - 1) junk) evs /\
  f_log s = l0 ++ [GPRet (PWrite b) r] /\ (forall b', GP (PWrite b') ∈ l0 -> b' = b) /\
  r = Z.of_nat (length b) /\ sent (f_log s) = take 2 b /\ length b = 3%nat.
Proof. exact c54_refuted_aux. Qed.
Print Assumptions C54_refuted.

(** C54 for messages of any size (any bound [B]), with a FIFO of at least one byte: what is sent is
    always made of the messages in order, each reduced to a beginning of it which has at least as
    many bytes as the FIFO holds: bytes are lost only at the end of a message that does not fit, never
    in the middle, and messages do not mix.  A call that does not return -EAGAIN has sent all of those
    beginnings, its own included. *)
Lemma c54_any_aux g k junk B evs s d cur :
  2 <= k <= fc_bits g ->
  s = frun g (fsys0 (fmem0 (2 ^ k - 1) junk)) evs -> isr_atomic g (fmem0 (2 ^ k - 1) junk) evs ->
  msgs B [] None (f_log s) = Some (d, cur) -> only_isr (f_log s) ->
  (exists parts last, Forall2 (fifo_part (fifo_cap (2 ^ k - 1))) d parts /\ last `prefix_of` default [] cur /\
     sent (f_log s) `prefix_of` concat parts ++ last) /\
  (forall l0 b r l1, f_log s = l0 ++ GPRet (PWrite b) r :: l1 -> r <> - EAGAIN ->
     r = Z.of_nat (length b) /\
     exists d' parts, msgs B [] None l0 = Some (d', Some b) /\
       Forall2 (fifo_part (fifo_cap (2 ^ k - 1))) (d' ++ [b]) parts /\ sent l0 = concat parts).
Proof.
  intros Hk E Ha Hm Hi.
  assert (Hk0 : 0 <= k <= fc_bits g) by lia.
  rewrite <- (cap_fifo g k junk Hk0). exact (uart_any g k junk B Hk evs s d cur E Ha Hm Hi).
Qed.
Theorem C54_any_size : forall g k junk B evs s d cur,
  2 <= k <= fc_bits g ->
  s = frun g (fsys0 (fmem0 (2 ^ k - 1) junk)) evs -> isr_atomic g (fmem0 (2 ^ k - 1) junk) evs ->
  msgs B [] None (f_log s) = Some (d, cur) -> only_isr (f_log s) ->
  (exists parts last, Forall2 (fifo_part (fifo_cap (2 ^ k - 1))) d parts /\ last `prefix_of` default [] cur /\
     sent (f_log s) `prefix_of` concat parts ++ last) /\
  (forall l0 b r l1, f_log s = l0 ++ GPRet (PWrite b) r :: l1 -> r <> - EAGAIN ->
     r = Z.of_nat (length b) /\
     exists d' parts, msgs B [] None l0 = Some (d', Some b) /\
       Forall2 (fifo_part (fifo_cap (2 ^ k - 1))) (d' ++ [b]) parts /\ sent l0 = concat parts).
Proof. exact c54_any_aux. Qed.
Print Assumptions C54_any_size.

(** Case: two places; [1; 2; 3] loses its last byte, then [4] is sent. *)
Definition ex54b : list fev :=
  PStart (PWrite [1; 2; 3]) :: go 40 (PGo 0) ++ CStart CIsr :: go 60 (CGo 1) ++
  PStart (PWrite [1; 2; 3]) :: go 8 (PGo 0) ++ PStart (PWrite [4]) :: go 40 (PGo 0) ++
  CStart CIsr :: go 60 (CGo 1).
Definition s54b : fsys := frun g8 (fsys0 (fmem0 (2 ^ 2 - 1) (fun _ => 0))) ex54b.
Definition log54b : list gev := Eval vm_compute in f_log s54b.
Example log54b_ok : f_log s54b = log54b.
Proof. vm_compute. reflexivity. Qed.
Example ex54b_hyp :
  isr_atomic g8 (fmem0 (2 ^ 2 - 1) (fun _ => 0)) ex54b /\
  msgs 3 [] None (f_log s54b) = Some ([[1; 2; 3]], Some [4]) /\ only_isr (f_log s54b) /\
  sent (f_log s54b) = [1; 2; 4].
Proof.
  split; [apply atomic_c_ok; vm_compute; reflexivity|]. rewrite log54b_ok.
  split; [vm_compute; reflexivity|]. split; [|vm_compute; reflexivity].
  assert (E : Forall (fun e => match e with GC CGet | GC (CRead _) => False | _ => True end) log54b)
    by (unfold log54b; repeat constructor).
  rewrite Forall_forall in E. intros n. split; intros H; exact (E _ H).
Qed.
