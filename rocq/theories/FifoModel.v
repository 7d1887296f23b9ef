(** FifoModel.v - model of the interrupt FIFO (drivers/include/fifo.h) and of the interrupt-driven
    UART that uses it (drivers/uart/uart-avr_irqdriven.c), paths under /repo.

    Each function is transcribed access by access; a producer and a consumer (a task and an
    interrupt handler) are interleaved between any two accesses.

    Simplifications, for the whole file:
    - the buffer has mask + 1 elements and no other object overlaps it;
    - C leaves the order of the accesses to ctx->w, ctx->m and ctx->r inside fifo_head_is_writable
      and fifo_head_is_readable to the compiler; the model reads the caller's own index, the mask,
      then the other one's index;
    - int counters do not overflow (they count accepted bytes of one call). *)
From Verif Require Import Base.

(** Cells: m, r, w of struct fifo_head / fifo_head8 (fifo.h:10-20), the buffer, and, for the UART,
    ctx->state, ctx->sent (uart-avr_irqdriven.h:33-44) and bit UDRIE of register UCSRnB
    (uart-avr_irqdriven.c:29). *)
Inductive floc := Fm | Fr | Fw | Fbuf (i : Z) | Fstate | Fsent | Fudrie.
Global Instance floc_eq_dec : EqDecision floc.
Proof. solve_decision. Defined.

Definition fmem := floc -> Z.
Definition fupd (M : fmem) (l : floc) (v : Z) : fmem := fun x => if decide (x = l) then v else M x.

(** Actions: memory accesses; [FOut v]: UDRn = v; [FIn]: a value chosen by the hardware (UDRn, or bit
    UDRE / RXC of UCSRnA). *)
Inductive fop := FRead (l : floc) | FWrite (l : floc) (v : Z) | FOut (v : Z) | FIn.

Inductive fprog (A : Type) :=
| FRet (a : A)
| FFuel
| FOp (o : fop) (k : Z -> fprog A).
Arguments FRet {A} a.
Arguments FFuel {A}.
Arguments FOp {A} o k.

Fixpoint fbind {A B} (p : fprog A) (f : A -> fprog B) : fprog B :=
  match p with
  | FRet a => f a
  | FFuel => FFuel
  | FOp o k => FOp o (fun v => fbind (k v) f)
  end.
Notation "x <~~ p ; k" := (fbind p (fun x => k)) (at level 100, p at next level, right associativity).
Definition fact (o : fop) : fprog Z := FOp o (fun v => FRet v).

(** [fexec hw o M]: memory after the action, value it gives back; [hw] is the hardware's choice. *)
Definition fexec (hw : Z) (o : fop) (M : fmem) : fmem * Z :=
  match o with
  | FRead l => (M, M l)
  | FWrite l v => (fupd M l v, 0)
  | FOut _ => (M, 0)
  | FIn => (M, hw)
  end.

(** Width of the type in which w + 1 is computed: int for fifo_head8, size_t for fifo_head. *)
Record fcfg := mkFcfg { fc_bits : Z; fc_fuel : nat }.

Definition EAGAIN : Z := 11.
Definition EINVAL : Z := 22.
Definition EIO : Z := 5.

(** fifo_head_init, fifo.h:22-26, when its assertion holds: the initial memory; [junk] is what the
    buffer contains before it is written. *)
Definition fmem0 (mask : Z) (junk : Z -> Z) : fmem := fun l =>
  match l with
  | Fm => mask | Fr => mask | Fw => 0 | Fbuf i => junk i | Fstate => 0 | Fsent => 0 | Fudrie => 0
  end.

(** fifo_head_is_writable, fifo.h:28-29. *)
Definition is_writable (g : fcfg) : fprog bool :=
  w <~~ fact (FRead Fw);
  m <~~ fact (FRead Fm);
  r <~~ fact (FRead Fr);
  FRet (negb (Z.land (wrap (fc_bits g) (w + 1)) m =? r)).

(** fifo_head_push, fifo.h:30-31. *)
Definition fpush (g : fcfg) : fprog unit :=
  w <~~ fact (FRead Fw);
  m <~~ fact (FRead Fm);
  _ <~~ fact (FWrite Fw (Z.land (wrap (fc_bits g) (w + 1)) m));
  FRet tt.

(** fifo_head_is_readable, fifo.h:32-33. *)
Definition is_readable (g : fcfg) : fprog bool :=
  r <~~ fact (FRead Fr);
  m <~~ fact (FRead Fm);
  w <~~ fact (FRead Fw);
  FRet (negb (Z.land (wrap (fc_bits g) (r + 1)) m =? w)).

(** fifo_head_pop, fifo.h:34-35. *)
Definition fpop (g : fcfg) : fprog unit :=
  r <~~ fact (FRead Fr);
  m <~~ fact (FRead Fm);
  _ <~~ fact (FWrite Fr (Z.land (wrap (fc_bits g) (r + 1)) m));
  FRet tt.

(** The producer's idiom, uart-avr_irqdriven.c:237-239 (and 56-58): if writable, store the value at
    index w, then push.  Result: accepted or not. *)
Definition fput (g : fcfg) (v : Z) : fprog bool :=
  b <~~ is_writable g;
  if (b : bool) then
    (w <~~ fact (FRead Fw);
     _ <~~ fact (FWrite (Fbuf w) v);
     _ <~~ fpush g;
     FRet true)
  else FRet false.

(** The consumer's idiom, uart-avr_irqdriven.c:288-290 (and 76-78): if readable, pop, then fetch the
    value at index r.  Result: the value, or none. *)
Definition fget (g : fcfg) : fprog (option Z) :=
  b <~~ is_readable g;
  if (b : bool) then
    (_ <~~ fpop g;
     r <~~ fact (FRead Fr);
     v <~~ fact (FRead (Fbuf r));
     FRet (Some v))
  else FRet None.

(** ** uart-avr_irqdriven.c *)

(** uart_write_irqdriven_start, the loop of lines 236-242; [sent] is the local variable. *)
Fixpoint start_loop (g : fcfg) (bytes : list Z) (sent : Z) : fprog Z :=
  match bytes with
  | [] => FRet sent
  | x :: bytes =>
      b <~~ fput g x;
      if (b : bool) then start_loop g bytes (sent + 1) else FRet sent
  end.

(** uart_write_irqdriven_start, lines 229-255 (buf is a list of n bytes). *)
Definition write_start (g : fcfg) (buf : list Z) : fprog Z :=
  sent <~~ start_loop g buf 0;
  if sent =? 0 then FRet (- EAGAIN)
  else
    (_ <~~ fact (FRead Fudrie);
     _ <~~ fact (FWrite Fudrie 1);
     _ <~~ fact (FWrite Fstate 1);
     _ <~~ fact (FWrite Fsent (Z.of_nat (length buf)));
     FRet (- EAGAIN)).

(** uart_write_irqdriven_xfer, lines 257-265. *)
Definition write_xfer (g : fcfg) : fprog Z :=
  b <~~ is_readable g;
  if negb b then
    (_ <~~ fact (FWrite Fstate 0);
     s <~~ fact (FRead Fsent);
     FRet s)
  else FRet (- EAGAIN).

(** uart_write_irqdriven, lines 267-279. *)
Definition uart_write (g : fcfg) (buf : list Z) : fprog Z :=
  if bool_decide (buf = []) then FRet (- EINVAL)
  else
    (st <~~ fact (FRead Fstate);
     if st =? 0 then write_start g buf
     else if st =? 1 then write_xfer g
     else FRet (- EIO)).

(** uart_read_irqdriven, lines 281-300: at most [n] bytes. *)
Fixpoint read_loop (g : fcfg) (n : nat) : fprog (list Z) :=
  match n with
  | O => FRet []
  | S n =>
      r <~~ fget g;
      match r with
      | Some v => (l <~~ read_loop g n; FRet (v :: l))
      | None => FRet []
      end
  end.

(** uart_udre_isr, lines 68-84 (the loop bound belongs to the model, not to the code). *)
Fixpoint udre_loop (g : fcfg) (fuel : nat) : fprog unit :=
  match fuel with
  | O => FFuel
  | S f =>
      r <~~ fget g;
      match r with
      | Some v =>
          (_ <~~ fact (FOut v);
           a <~~ fact FIn;
           if negb (a =? 0) then udre_loop g f else FRet tt)
      | None =>
          (_ <~~ fact (FRead Fudrie);
           _ <~~ fact (FWrite Fudrie 0);
           FRet tt)
      end
  end.
Definition udre_isr (g : fcfg) : fprog unit := udre_loop g (fc_fuel g).

(** uart_rx_isr, lines 45-66: one iteration of the loop on byte [v]; a byte that does not fit is
    dropped. *)
Definition rx_one (g : fcfg) (v : Z) : fprog bool := fput g v.

(** ** A producer and a consumer *)

Inductive pcall := PPut (v : Z) | PWrite (buf : list Z).
Inductive ccall := CGet | CRead (n : nat) | CIsr.

(** Results: for PPut 1 / 0; for PWrite the value returned; for CGet and CRead the values. *)
Definition pbody (g : fcfg) (c : pcall) : fprog Z :=
  match c with
  | PPut v => b <~~ fput g v; FRet (if (b : bool) then 1 else 0)
  | PWrite buf => uart_write g buf
  end.
Definition cbody (g : fcfg) (c : ccall) : fprog (list Z) :=
  match c with
  | CGet => r <~~ fget g; FRet (option_list r)
  | CRead n => read_loop g n
  | CIsr => _ <~~ udre_isr g; FRet []
  end.

(** What can be seen: calls and returns of both, bytes sent to the UART. *)
Inductive gev :=
| GP (c : pcall) | GPRet (c : pcall) (r : Z)
| GC (c : ccall) | GCRet (c : ccall) (r : list Z)
| GOut (v : Z).

Record fsys := mkFsys {
  f_mem : fmem;
  f_p : option (pcall * fprog Z);
  f_c : option (ccall * fprog (list Z));
  f_log : list gev
}.
Definition fsys0 (M : fmem) : fsys := mkFsys M None None [].

(** Schedules.  [PStart c] / [CStart c]: the producer / consumer begins a call (ignored if it is
    inside one); [PGo hw] / [CGo hw]: it performs its next action. *)
Inductive fev := PStart (c : pcall) | PGo (hw : Z) | CStart (c : ccall) | CGo (hw : Z).

Definition outs (o : fop) : list gev := match o with FOut v => [GOut v] | _ => [] end.

Definition fstep (g : fcfg) (s : fsys) (e : fev) : fsys :=
  match e with
  | PStart c =>
      match f_p s with
      | None => mkFsys (f_mem s) (Some (c, pbody g c)) (f_c s) (f_log s ++ [GP c])
      | Some _ => s
      end
  | CStart c =>
      match f_c s with
      | None => mkFsys (f_mem s) (f_p s) (Some (c, cbody g c)) (f_log s ++ [GC c])
      | Some _ => s
      end
  | PGo hw =>
      match f_p s with
      | Some (c, FRet r) => mkFsys (f_mem s) None (f_c s) (f_log s ++ [GPRet c r])
      | Some (c, FOp o k) =>
          mkFsys (fst (fexec hw o (f_mem s))) (Some (c, k (snd (fexec hw o (f_mem s))))) (f_c s) (f_log s ++ outs o)
      | _ => s
      end
  | CGo hw =>
      match f_c s with
      | Some (c, FRet r) => mkFsys (f_mem s) (f_p s) None (f_log s ++ [GCRet c r])
      | Some (c, FOp o k) =>
          mkFsys (fst (fexec hw o (f_mem s))) (f_p s) (Some (c, k (snd (fexec hw o (f_mem s))))) (f_log s ++ outs o)
      | _ => s
      end
  end.
Definition frun (g : fcfg) (s : fsys) (evs : list fev) : fsys := fold_left (fstep g) evs s.
