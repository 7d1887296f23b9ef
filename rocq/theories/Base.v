(** Base.v - outcomes of C functions and fixed-width unsigned arithmetic.

    Nothing here models a particular function of /repo; these are the conventions
    all model files share. *)
From Coq Require Export ZArith Lia List Bool.
From Coq Require Export Sorting.Sorted.
From stdpp Require Export base list numbers sets.
Export ListNotations.
Global Open Scope Z_scope.

(** Outcome of a C function.
    - [Ok a]   : it returned [a];
    - [Fatal]  : picoRTOS_fatal() was reached (picoRTOS.h:144-157, scheduler/picoRTOS.c:431-436):
                 interrupts are suspended and the function never returns (the system stalls);
    - [UB]     : undefined behaviour (out-of-bounds access, division by zero);
    - [Fuel]   : the loop bound of the *model* was exhausted (would be an endless C loop). *)
Inductive res (A : Type) : Type :=
| Ok (a : A)
| Fatal
| UB
| Fuel.
Arguments Ok {A} a.
Arguments Fatal {A}.
Arguments UB {A}.
Arguments Fuel {A}.

Definition rbind {A B} (x : res A) (f : A -> res B) : res B :=
  match x with Ok a => f a | Fatal => Fatal | UB => UB | Fuel => Fuel end.

Declare Scope res_scope.
Delimit Scope res_scope with res.
Notation "'let!' x ':=' m 'in' k" := (rbind m (fun x => k))
  (at level 200, x pattern, m at level 100, k at level 200, right associativity) : res_scope.
Global Open Scope res_scope.

(** picoRTOS_assert_fatal / picoRTOS_assert_void_fatal (picoRTOS.h:141-157). *)
Definition assert_fatal (b : bool) {A} (k : res A) : res A := if b then k else Fatal.

(** Value of [x] once converted to an unsigned type of [w] bits. *)
Definition wrap (w x : Z) : Z := x mod 2 ^ w.

(** C array read / write with an integer index: out of range is undefined behaviour. *)
Definition aget {A} (l : list A) (i : Z) : res A :=
  if i <? 0 then UB else
  match l !! Z.to_nat i with Some a => Ok a | None => UB end.

Definition aset {A} (l : list A) (i : Z) (a : A) : res (list A) :=
  if (0 <=? i) && (i <? Z.of_nat (length l)) then Ok (<[Z.to_nat i := a]> l) else UB.
