(** IrqSpec.v - what a user expects of picoRTOS_register_interrupt, picoRTOS_enable_interrupt,
    picoRTOS_disable_interrupt (include/picoRTOS.h, scheduler/picoRTOS.c:693-719) and of
    picoRTOS_SMP_enable_interrupt, picoRTOS_SMP_disable_interrupt (scheduler/picoRTOS-SMP.c:690-725). *)
From Verif Require Import Base IrqModel.
Local Open Scope Z_scope.

(** A history of registrations (irq, fn, priv), the oldest first. *)
Definition registrations := list (Z * Z * Z).
Definition registered (P : iport) (b : Z * Z) (h : registrations) (m : memory) : memory :=
  fold_left (fun m e => ip_reg P b (fst (fst e)) (snd (fst e)) (snd e) m) h m.
(** The handler last registered for [irq]. *)
Fixpoint handler (h : registrations) (irq : Z) : option (Z * Z) :=
  match h with
  | [] => None
  | (i, fn, priv) :: h => match handler h irq with Some x => Some x | None => if i =? irq then Some (fn, priv) else None end
  end.
(** Histories of calls as the interface wants them: interrupts of the device, functions that are not null. *)
Definition sane (P : iport) (h : registrations) : Prop := forall irq fn priv, (irq, fn, priv) ∈ h -> ip_irq P irq = true /\ 0 < fn < 2 ^ 32.

(** Addresses [a] in the room of the tables at [b]. *)
Definition in_tables (P : iport) (b : Z * Z) (a : Z) : Prop :=
  fst b <= a < fst b + fst (ip_size P) \/ snd b <= a < snd b + snd (ip_size P).
(** Where the linker puts them: in an address space of [w] bits, apart from each other, the first one
    aligned on [al]. *)
Definition placed (w al : Z) (P : iport) (b : Z * Z) : Prop :=
  0 <= fst b /\ fst b + fst (ip_size P) <= 2 ^ w /\ 0 <= snd b /\ snd b + snd (ip_size P) <= 2 ^ w /\
  (fst b + fst (ip_size P) <= snd b \/ snd b + snd (ip_size P) <= fst b) /\ (al | fst b).
(** At startup the tables are zero (.bss). *)
Definition cleared (P : iport) (b : Z * Z) (m : memory) : Prop := forall a, in_tables P b a -> m a = 0.

Definition serve (P : iport) (b : Z * Z) (irq : Z) (m : memory) : outcome := ip_isr P b (ip_seen P b irq) m.

(** The interrupt is served by the function last registered for it, with its argument, and when it is done
    the task is restored. *)
Definition dispatch_ok (w al : Z) (P : iport) (privs : Z -> Prop) : Prop := forall b h m irq fn priv,
  placed w al P b -> sane P h -> (forall irq fn priv, (irq, fn, priv) ∈ h -> privs priv) ->
  handler h irq = Some (fn, priv) -> serve P b irq (registered P b h m) = Called fn priv Epilogue.
(** An interrupt nobody registered stops the system in the debugger. *)
Definition unhandled_ok (w al : Z) (P : iport) : Prop := forall b h m irq,
  placed w al P b -> sane P h -> cleared P b m -> ip_irq P irq = true ->
  handler h irq = None -> serve P b irq (registered P b h m) = Halted.
(** Registration changes no memory but the tables. *)
Definition contained (w al : Z) (P : iport) : Prop := forall b h m a,
  placed w al P b -> sane P h -> ~ in_tables P b a -> registered P b h m a = m a.
Definition registration_ok (w al : Z) (P : iport) : Prop :=
  dispatch_ok w al P (fun _ => True) /\ unhandled_ok w al P /\ contained w al P.

(** A history of calls: enable (true) or disable (false) of an interrupt, the oldest first. *)
Definition requests := list (bool * Z).
Definition requested (C : ictl) (h : requests) (r : regs) : regs :=
  fold_left (fun r e => if fst e : bool then ic_enable C (snd e) r else ic_disable C (snd e) r) h r.
(** What was asked last for [irq], [d] if nothing was. *)
Fixpoint wanted (h : requests) (irq : Z) (d : bool) : bool :=
  match h with [] => d | (x, i) :: h => wanted h irq (if i =? irq then x else d) end.
(** Each interrupt is on if and only if that was the last request about it, whatever the state before
    (limited to the registers [ok], as the reset leaves them). *)
Definition control_ok (irqs : Z -> bool) (ok : regs -> Prop) (C : ictl) : Prop := forall h r irq,
  ok r -> (forall x i, (x, i) ∈ h -> irqs i = true) -> irqs irq = true ->
  ic_on C (requested C h r) irq = wanted h irq (ic_on C r irq).
(** The half of it for enabling. *)
Definition enable_ok (irqs : Z -> bool) (ok : regs -> Prop) (C : ictl) : Prop := forall h r irq,
  ok r -> (forall x i, (x, i) ∈ h -> irqs i = true /\ x = true) -> irqs irq = true ->
  ic_on C (requested C h r) irq = wanted h irq (ic_on C r irq).

(** Registers after reset: all zero. *)
Definition reset (r : regs) : Prop := forall i, r i = 0.

(** 8051: the enable bits by vector number, from the data sheets of N76E003 (IE, EIE, EIE1), CH552 (IE, IE_EX),
    CY7C68013A (IE, EIE; the resume interrupt is in EICON) and STC12C5A60S2 (IE, IE2; the PCA interrupt has
    its enables in CMOD and CCAPMn): register, bit. *)
Definition n76e003_sheet : list (Z * (Z * Z)) :=
  [(0, (0, 0)); (1, (0, 1)); (2, (0, 2)); (3, (0, 3)); (4, (0, 4)); (8, (0, 5)); (11, (0, 6));
   (6, (1, 0)); (7, (1, 1)); (12, (1, 2)); (13, (1, 3)); (10, (1, 4)); (14, (1, 5)); (9, (1, 6)); (5, (1, 7));
   (15, (2, 0)); (16, (2, 1)); (17, (2, 2))].
Definition ch552_sheet : list (Z * (Z * Z)) :=
  [(0, (0, 0)); (1, (0, 1)); (2, (0, 2)); (3, (0, 3)); (4, (0, 4)); (5, (0, 5));
   (6, (1, 0)); (7, (1, 1)); (8, (1, 2)); (9, (1, 3)); (10, (1, 4)); (11, (1, 5)); (12, (1, 6)); (13, (1, 7))].
Definition cy7c_sheet : list (Z * (Z * Z)) :=
  [(0, (0, 0)); (1, (0, 1)); (2, (0, 2)); (3, (0, 3)); (4, (0, 4)); (5, (0, 5)); (7, (0, 6));
   (8, (1, 0)); (9, (1, 1)); (10, (1, 2)); (11, (1, 3)); (12, (1, 4))].
Definition stc12_sheet : list (Z * (Z * Z)) :=
  [(0, (0, 0)); (1, (0, 1)); (2, (0, 2)); (3, (0, 3)); (4, (0, 4)); (5, (0, 5)); (6, (0, 6)); (8, (1, 0)); (9, (1, 1))].
Fixpoint find_bit (l : list (Z * (Z * Z))) (irq : Z) : option (Z * Z) :=
  match l with [] => None | (i, p) :: l => if i =? irq then Some p else find_bit l irq end.
(** The controller of such a machine: the port's calls, the data sheet's bits. *)
Definition sfr_ctl (tab : Z -> option (Z * Z)) (sheet : list (Z * (Z * Z))) : ictl := {|
  ic_enable := sfr_enable tab; ic_disable := sfr_disable tab;
  ic_on := fun r irq => match find_bit sheet irq with Some (i, k) => Z.testbit (r i) k | None => false end |}.
Definition has_bit (sheet : list (Z * (Z * Z))) (irq : Z) : bool := match find_bit sheet irq with Some _ => true | None => false end.
(** No other bit of the registers (EA, the global enable, is one) changes. *)
Definition sfr_rest (tab : Z -> option (Z * Z)) (sheet : list (Z * (Z * Z))) : Prop := forall h r i k,
  0 <= k < 8 -> (forall irq, find_bit sheet irq <> Some (i, k)) -> Z.testbit (requested (sfr_ctl tab sheet) h r i) k = Z.testbit (r i) k.

(** SMP: a history of (enable or disable, irq, mask of cores). *)
Definition smp_requests := list (bool * Z * Z).
Definition smp_requested (en dis : Z -> Z -> regs -> regs) (h : smp_requests) (r : regs) : regs :=
  fold_left (fun r e => if fst (fst e) : bool then en (snd (fst e)) (snd e) r else dis (snd (fst e)) (snd e) r) h r.
(** What was asked last for [irq] with [core] in the mask. *)
Fixpoint smp_wanted (h : smp_requests) (irq core : Z) (d : bool) : bool :=
  match h with [] => d | (x, i, mask) :: h => smp_wanted h irq core (if (i =? irq) && Z.testbit mask core then x else d) end.
Definition smp_ok (n cores : Z) (P : bool -> Prop) (on : Z -> regs -> Z -> bool) (en dis : Z -> Z -> regs -> regs) : Prop := forall h r irq core,
  reset r -> (forall x i mask, (x, i, mask) ∈ h -> P x /\ 0 <= i < n /\ 0 < mask < 2 ^ cores) -> 0 <= irq < n -> 0 <= core < cores ->
  on core (smp_requested en dis h r) irq = smp_wanted h irq core false.
