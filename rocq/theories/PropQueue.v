(** PropQueue.v - PICORTOS_QUEUE: C44-C46. *)
From Verif Require Import Base IpcModel IpcSpec IpcLogic MutexProofs MutexThms QueueProofs QueueThms QueueRace ExIpc.

(** Capacity of a queue of [count] elements, as the code has it. *)
Definition capacity (count : Z) : Z := Z.max 0 (count - 2).

(** C44 (1): as long as reads and writes of queue q do not overlap (whatever else the tasks do, in
    any interleaving), they return exactly what a bounded first-in first-out queue returns, and
    never stall nor sleep. *)
Theorem C44_fifo : forall g q k qsize junk evs s,
  0 <= k < ic_szbits g -> qsize q = 2 ^ k ->
  sys_run g (sys0 (mem0 g qsize junk)) evs = Ok s ->
  queue_serial q (y_hist s) ->
  (exists l, fifo_replay (capacity (2 ^ k)) q [] (y_hist s) = Some l) /\
  (forall i c, in_call s i c -> on_queue q c = true -> ~ about_to_stall s i /\ ~ about_to_sleep s i).
Proof. intros g q k qsize junk evs s Hk. exact (queue_fifo g q k Hk qsize junk evs s). Qed.
Print Assumptions C44_fifo.

(** C44 (2): any sequence of reads and writes made by one task on a new queue runs to its end, with
    the results of a bounded FIFO. *)
Fixpoint fifo_results (cap : Z) (cs : list call) (l : list Z) : list (Z * Z) :=
  match cs with
  | [] => []
  | c :: cs => snd (fifo_call cap c l) :: fifo_results cap cs (fst (fifo_call cap c l))
  end.
Definition returns (h : list hev) : list (call * (Z * Z)) :=
  omap (fun e => match e with HRet _ c r v => Some (c, (r, v)) | _ => None end) h.
Theorem C44_serial_use : forall g q k qsize junk i cs,
  0 <= k < ic_szbits g -> qsize q = 2 ^ k -> Forall (fun c => on_queue q c = true) cs ->
  exists evs s, sys_run g (sys0 (mem0 g qsize junk)) evs = Ok s /\ y_thr s i = Out /\
    returns (y_hist s) = zip cs (fifo_results (capacity (2 ^ k)) cs []).
Proof.
  intros g q k qsize junk i cs Hk Hq Hcs.
  destruct (serial_exec g q k Hk i cs Hcs (sys0 (mem0 g qsize junk)) []) as (evs & s & H1 & H2 & H3);
    [done|by eapply rep_init|].
  exists evs, s. split; [done|]. split; [done|]. rewrite H3. cbn [y_hist sys0 app].
  generalize ([] : list Z). clear. induction cs as [|c cs IH]; intros l; [done|].
  cbn [fifo_hist returns omap list_omap fifo_results zip zip_with]. f_equal; [by destruct (snd (fifo_call _ c l))|]. apply IH.
Qed.
Print Assumptions C44_serial_use.

(** C44 (3): PICORTOS_QUEUE_INIT accepts every power of two and sets the queue up for C44 (1), from
    any memory; it rejects (stalls on) any other positive size. *)
Theorem C44_init : forall g q M k,
  0 <= k < ic_szbits g ->
  exists M' n, runs M (queue_init g q (2 ^ k)) M' 0 n /\
    (M' (LQlock q) = 0 /\ M' (LQmask q) = 2 ^ k - 1 /\ M' (LQr q) = 2 ^ k - 1 /\ M' (LQw q) = 0).
Proof.
  intros g q M k Hk. destruct (queue_init_vals g q M k Hk) as (M' & n & H). by exists M', n.
Qed.
Print Assumptions C44_init.
Theorem C44_init_rejects : forall g q count,
  0 < count < 2 ^ ic_szbits g -> 0 <= ic_szbits g -> (forall k, count <> 2 ^ k) -> queue_init g q count = Stall.
Proof. exact queue_init_bad. Qed.
Print Assumptions C44_init_rejects.

(* Two tasks alternate on queue 0 (4 elements, capacity 2), wrapping round the buffer, while task 2
   is in the middle of a mutex operation. *)
Definition rd (i : nat) := alone i (QueueRead 0) 11.
Definition wr (i : nat) (v : Z) := alone i (QueueWrite 0 v) 12.
Definition xq := [Enter 2 (MutexLock 0); Go 2] ++ wr 0 10 ++ wr 1 20 ++ wr 0 30 ++ rd 1 ++ wr 0 30 ++ rd 0 ++ rd 1 ++ wr 1 40 ++ rd 1 ++ rd 1.
Example C44_case : let s := exst xq in
  sys_run exi (sys0 exM) xq = Ok s /\ queue_serial 0 (y_hist s) /\
  map snd (returns (y_hist s)) = [(0, 0); (0, 0); (- EAGAIN, 0); (0, 10); (0, 0); (0, 20); (0, 30); (0, 0); (0, 40); (- EAGAIN, 0)].
Proof. cbv zeta. split; [apply exst_run; vm_compute; reflexivity|]. ipc. Qed.
Example C44_case_init : queue_init exi 0 3 = Stall /\ (forall k, 3 <> 2 ^ k).
Proof.
  split; [vm_compute; reflexivity|]. intros k. destruct (decide (k < 0)) as [?|?].
  - rewrite Z.pow_neg_r by lia. lia.
  - destruct (decide (k = 0)) as [->|?]; [done|]. destruct (decide (k = 1)) as [->|?]; [done|].
    pose proof (Z.pow_le_mono_r 2 2 k). lia.
Qed.

(** C45: "count is the size of the queue in elements" does not hold, for any size: of [count] writes
    to a new queue, at most count - 2 (none if count is 1) succeed. *)
Theorem C45_refuted : forall g q k qsize junk evs s,
  0 <= k < ic_szbits g -> qsize q = 2 ^ k ->
  sys_run g (sys0 (mem0 g qsize junk)) evs = Ok s ->
  queue_serial q (y_hist s) -> count_ev (is_read q) (y_hist s) = 0%nat ->
  Z.of_nat (count_ev (is_written q) (y_hist s)) <= capacity (2 ^ k) < 2 ^ k.
Proof.
  intros g q k qsize junk evs s Hk Hq Hr Hs Hn.
  destruct (queue_fifo g q k Hk qsize junk evs s Hq Hr Hs) as [(l & Hl) _].
  assert (0 < 2 ^ k) by (apply Z.pow_pos_nonneg; lia).
  destruct (writes_bound q k _ _ _ Hl Hn) as [H1 H2]; [cbn; unfold qcap; lia|].
  cbn [length] in H1. unfold qcap in H2. unfold capacity. lia.
Qed.
Print Assumptions C45_refuted.

(** What holds instead: as long as nothing is read, exactly the first count - 2 writes succeed and all
    others are rejected. *)
Theorem C45_capacity_partial : forall g q k qsize junk evs s,
  0 <= k < ic_szbits g -> qsize q = 2 ^ k ->
  sys_run g (sys0 (mem0 g qsize junk)) evs = Ok s ->
  queue_serial q (y_hist s) -> count_ev (is_read q) (y_hist s) = 0%nat ->
  write_results q (y_hist s) =
    map (fun j => if Z.of_nat j <? capacity (2 ^ k) then 0 else - EAGAIN) (seq 0 (length (write_results q (y_hist s)))).
Proof.
  intros g q k qsize junk evs s Hk Hq Hr Hs Hn.
  destruct (queue_fifo g q k Hk qsize junk evs s Hq Hr Hs) as [(l & Hl) _]. exact (writes_results g q k Hk _ _ Hl Hn).
Qed.
Print Assumptions C45_capacity_partial.

(* Four writes to a queue of four elements: two succeed. *)
Definition xq4 := wr 0 10 ++ wr 0 20 ++ wr 0 30 ++ wr 0 40.
Example C45_case : let s := exst xq4 in
  sys_run exi (sys0 exM) xq4 = Ok s /\ queue_serial 0 (y_hist s) /\ count_ev (is_read 0) (y_hist s) = 0%nat /\
  count_ev (is_written 0) (y_hist s) = 2%nat /\ count_ev (is_rejected 0) (y_hist s) = 2%nat.
Proof. cbv zeta. split; [apply exst_run; vm_compute; reflexivity|]. ipc. Qed.

(** C46: queues are not thread-safe, even with one reader and one writer.  Task 0 writes 10; task 1
    starts a read and is preempted before it fetches the value; task 0 writes 20; task 1 gets 20,
    and its next read gets 20 again: 20 was written once and read twice, 10 is lost. *)
Definition xq_race := wr 0 10 ++ Enter 1 (QueueRead 0) :: gos 1 8 ++ wr 0 20 ++ gos 1 3 ++ rd 1.
Theorem C46_refuted : exists g q M s,
  ready_mem g M /\ reach g M s /\
  (forall e, e ∈ y_hist s -> ev_task e = 0%nat /\ (exists v, e = HCall 0 (QueueWrite q v) \/ e = HRet 0 (QueueWrite q v) 0 0)
      \/ ev_task e = 1%nat /\ (e = HCall 1 (QueueRead q) \/ exists v, e = HRet 1 (QueueRead q) 0 v)) /\
  (count_ev (is_write_of q 20) (y_hist s) = 1 /\ count_ev (is_read_of q 20) (y_hist s) = 2 /\
   count_ev (is_write_of q 10) (y_hist s) = 1 /\ count_ev (is_read_of q 10) (y_hist s) = 0)%nat.
Proof.
  exists exi, 0%nat, exM, (exst xq_race). ipc.
  replace (y_hist (exst xq_race)) with [HCall 0 (QueueWrite 0 10); HRet 0 (QueueWrite 0 10) 0 0; HCall 1 (QueueRead 0);
    HCall 0 (QueueWrite 0 20); HRet 0 (QueueWrite 0 20) 0 0; HRet 1 (QueueRead 0) 0 20; HCall 1 (QueueRead 0);
    HRet 1 (QueueRead 0) 0 20] by (vm_compute; reflexivity).
  intros e He. repeat (apply elem_of_cons in He as [->|He]; [cbn; eauto 10|]). by apply elem_of_nil in He.
Qed.
Print Assumptions C46_refuted.

(** What is left when reads and writes overlap in any way: a value read was either written, or lay in
    the buffer before the queue was used; no more reads succeed than writes were made; no more writes
    succeed than the capacity and the reads allow; the buffer is never accessed out of its bounds. *)
Theorem C46_any_interleaving_partial : forall g q k qsize junk evs s,
  0 <= k < ic_szbits g -> qsize q = 2 ^ k ->
  sys_run g (sys0 (mem0 g qsize junk)) evs = Ok s ->
  (forall i v, HRet i (QueueRead q) 0 v ∈ y_hist s ->
     (exists j, HCall j (QueueWrite q v) ∈ y_hist s) \/ (exists a, 0 <= a < 2 ^ k /\ v = junk q a)) /\
  Z.of_nat (count_ev (is_read q) (y_hist s)) <= Z.of_nat (count_ev (is_write_call q) (y_hist s)) /\
  Z.of_nat (count_ev (is_written q) (y_hist s)) <= capacity (2 ^ k) + Z.of_nat (count_ev (is_read_call q) (y_hist s)) /\
  (forall i a, about_to_access s i q a -> 0 <= a < 2 ^ k).
Proof.
  intros g q k qsize junk evs s Hk Hq Hr.
  destruct (queue_any_interleaving g q k junk Hk qsize evs s Hq Hr) as (H1 & H2 & H3 & H4).
  split; [exact H1|]. split; [exact H2|]. split; [exact H3|].
  intros i a (c & f & [H|[v H]]); eapply H4; [exact H|done|exact H|done].
Qed.
Print Assumptions C46_any_interleaving_partial.

(* With two writers, a value that was never written comes out. *)
Definition xq_race2 := Enter 0 (QueueWrite 0 10) :: gos 0 9 ++ wr 1 20 ++ gos 0 3 ++ rd 2 ++ rd 2.
Example C46_case_junk : let s := exst xq_race2 in
  reach exi exM s /\ count_ev (is_read_of 0 99) (y_hist s) = 1%nat /\ count_ev (is_write_of 0 99) (y_hist s) = 0%nat.
Proof. cbv zeta. ipc. Qed.
