(** FifoSpec.v - vocabulary of C47 and C54, from what can be seen of the producer and consumer. *)
From Verif Require Import Base FifoModel.

Definition freach (g : fcfg) (M : fmem) (s : fsys) : Prop := exists evs, s = frun g (fsys0 M) evs.

(** Values accepted by the producer's calls (PPut returned 1), in order. *)
Definition accepted (l : list gev) : list Z :=
  omap (fun e => match e with GPRet (PPut v) r => if r =? 1 then Some v else None | _ => None end) l.

(** Values delivered by the consumer: returned by its calls or sent to the UART, in order. *)
Definition ev_values (e : gev) : list Z :=
  match e with GCRet _ r => r | GOut v => [v] | _ => [] end.
Definition delivered (l : list gev) : list Z := mjoin (map ev_values l).
Definition sent (l : list gev) : list Z := omap (fun e => match e with GOut v => Some v | _ => None end) l.

(** The producer only puts. *)
Definition only_puts (l : list gev) : Prop := forall buf, GP (PWrite buf) ∉ l.

(** The handler of the UART is the only consumer. *)
Definition only_isr (l : list gev) : Prop := forall n, GC CGet ∉ l /\ GC (CRead n) ∉ l.

(** Capacity of a FIFO whose mask is [mask]. *)
Definition fifo_cap (mask : Z) : Z := Z.max 0 (mask - 1).

(** The value the producer is busy putting, if any. *)
Definition putting (s : fsys) : list Z := match f_p s with Some (PPut v, _) => [v] | _ => [] end.

(** Call events of each side; "no other call in between" is [Forall (quiet side)]. *)
Definition c_event (e : gev) : bool := match e with GC _ | GCRet _ _ => true | _ => false end.
Definition p_event (e : gev) : bool := match e with GP _ | GPRet _ _ => true | _ => false end.
(** [l] records: [before], the start of consumer call [cl], its return with [r]. *)
Definition c_returns (l before : list gev) (cl : ccall) (r : list Z) : Prop :=
  exists during after, l = before ++ GC cl :: during ++ GCRet cl r :: after /\
    Forall (fun e => c_event e = false) during.
Definition p_returns (l before : list gev) (cl : pcall) (r : Z) : Prop :=
  exists during after, l = before ++ GP cl :: during ++ GPRet cl r :: after /\
    Forall (fun e => p_event e = false) during.
(** Values accepted and not delivered. *)
Definition pending (l : list gev) : Z := Z.of_nat (length (accepted l)) - Z.of_nat (length (delivered l)).

(** On one core a task does not run while a handler does: every step of the task (the producer)
    takes place when the consumer is idle. *)
Definition task_step (e : fev) : bool := match e with PStart _ | PGo _ => true | _ => false end.
Definition isr_atomic (g : fcfg) (M : fmem) (evs : list fev) : Prop :=
  forall e1 e e2, evs = e1 ++ e :: e2 -> task_step e = true -> f_c (frun g (fsys0 M) e1) = None.

(** The task only calls uart_write, with 1 to [cap] bytes, and repeats the call with the same bytes
    as long as it returns -EAGAIN: [msgs cap cur l] follows the calls; [cur] is the message being
    written.  Result: messages written, message in progress. *)
Fixpoint msgs (cap : Z) (done : list (list Z)) (cur : option (list Z)) (l : list gev)
  : option (list (list Z) * option (list Z)) :=
  match l with
  | [] => Some (done, cur)
  | GP (PWrite buf) :: l =>
      match cur with
      | None => if (0 <? Z.of_nat (length buf)) && (Z.of_nat (length buf) <=? cap)
                then msgs cap done (Some buf) l else None
      | Some b => if bool_decide (b = buf) then msgs cap done cur l else None
      end
  | GPRet (PWrite buf) r :: l =>
      if r =? - EAGAIN then msgs cap done cur l else msgs cap (done ++ [buf]) None l
  | GP (PPut _) :: _ => None
  | _ :: l => msgs cap done cur l
  end.

(** [x] is the beginning of message [m], whole if it fits in [cap] bytes, else [cap] bytes of it or more. *)
Definition fifo_part (cap : Z) (m x : list Z) : Prop :=
  x `prefix_of` m /\ Z.min cap (Z.of_nat (length m)) <= Z.of_nat (length x).
