(** TimerSpec.v - what the system tick must be. *)
From Verif Require Import Base TimerModel.

(** A tick every [p] clocks, exactly. *)
Definition exact (p : Z) (t : tmr) : Prop := t = Every p.
(** A tick every n clocks, [lo] <= n <= [hi]. *)
Definition between (lo hi : Z) (t : tmr) : Prop := exists n, t = Every n /\ lo <= n <= hi.
(** Ticks at a + p, a + 2 p, ... for [k] ticks. *)
Definition regular (a p : Z) (k : nat) : list Z := map (fun i => a + p * (Z.of_nat i + 1)) (seq 0 k).
(** [iters] rounds of at least [c] cycles at [g] Hz last [n] microseconds. *)
Definition lasts (c iters g n : Z) : Prop := n * g <= c * iters * 1000000.
Definition zsum (l : list Z) : Z := fold_right Z.add 0 l.
(** What each tick does to mtimecmp (rv32imac). *)
Definition step_cmp (p : Z) (x : Z * Z) : Z * Z := increase_mtimecmp p (fst x) (snd x).
