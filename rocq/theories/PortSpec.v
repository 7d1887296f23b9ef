(** PortSpec.v - vocabulary of C48-C52, C55 and C62. *)
From Verif Require Import Base PortModel.

(** Contract of compare-and-swap, whatever the rest of the system does: either the call returns [old]
    and its only write changed the variable from [old] to [val], or it returns something else and it
    changed nothing (it may have written back the value that was there). *)
Definition cas_contract (cas : Z -> Z -> pprog) : Prop :=
  forall old val env s, old <> val ->
    let '(_, r, writes) := prun (cas old val) env s in
    (r = old /\ writes = [(old, val)]) \/
    (r <> old /\ forall b a, (b, a) ∈ writes -> b = a).

(** Without interference it takes the variable exactly when it holds [old]. *)
Definition cas_solo (cas : Z -> Z -> pprog) : Prop :=
  forall old val s, old <> val -> m_lock s = None ->
    let '(s', r, _) := prun (cas old val) (fun _ => []) s in
    (m_var s = old -> r = old /\ m_var s' = val) /\
    (m_var s <> old -> r <> old /\ m_var s' = m_var s) /\
    m_lock s' = None.

(** Contract of an interrupt controller: [enabled] tells which of the [n] interrupts are enabled. *)
Definition enable_ok (n : Z) (enable : regs -> Z -> regs) (enabled : regs -> Z -> bool) : Prop :=
  forall r irq, 0 <= irq < n ->
    enabled (enable r irq) irq = true /\
    (forall i, 0 <= i < n -> i <> irq -> enabled (enable r irq) i = enabled r i).
Definition disable_ok (n : Z) (disable : regs -> Z -> regs) (enabled : regs -> Z -> bool) : Prop :=
  forall r irq, 0 <= irq < n ->
    enabled (disable r irq) irq = false /\
    (forall i, 0 <= i < n -> i <> irq -> enabled (disable r irq) i = enabled r i).

(** SMP: same, per core; [m] is the mask of cores. *)
Definition core_in (m core : Z) : bool := Z.testbit m core.
Definition smp_disable_ok (cores n : Z) (disable : Z -> regs -> Z -> regs) (enabled : Z -> regs -> Z -> bool) : Prop :=
  forall m r irq, 0 < m < 2 ^ cores -> 0 <= irq < n ->
    (forall c, 0 <= c < cores -> enabled c (disable m r irq) irq = enabled c r irq && negb (core_in m c)) /\
    (forall c i, 0 <= c < cores -> i <> irq -> enabled c (disable m r irq) i = enabled c r i).
Definition smp_enable_ok (cores n : Z) (valid : Z -> Prop) (enable : Z -> regs -> Z -> regs) (enabled : Z -> regs -> Z -> bool) : Prop :=
  forall m r irq, 0 < m < 2 ^ cores -> 0 <= irq < n -> valid (r irq) ->
    (forall c, 0 <= c < cores -> enabled c (enable m r irq) irq = enabled c r irq || core_in m c) /\
    (forall c i, 0 <= c < cores -> i <> irq -> enabled c (enable m r irq) i = enabled c r i).

(** A history of reads from the generator: lengths asked for; result: pool and everything read. *)
Fixpoint rng_history (ns : list nat) (pool : Z) : res (Z * list Z) :=
  match ns with
  | [] => Ok (pool, [])
  | n :: ns =>
      let! (_, bs, pool') := rng_read n pool in
      let! (pool'', bs') := rng_history ns pool' in
      Ok (pool'', bs ++ bs')
  end.

(** Byte [j] of a read of [n] bytes from a generator holding [pool]: the stream of words
    pool, xorshift32 pool, ... is cut in 4 bytes each, most significant first; when the last word is
    asked for k < 4 bytes only, they are its k low bytes, most significant first. *)
Definition rng_byte (n : nat) (pool : Z) (j : nat) : Z :=
  Nat.iter (j / 4) xorshift32 pool / 256 ^ Z.of_nat (Nat.min 4 (n - 4 * (j / 4)) - 1 - j mod 4) mod 256.
