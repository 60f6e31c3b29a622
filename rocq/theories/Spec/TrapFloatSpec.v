(** Specification vocabulary for the trapezoid rule as stored in binary64. *)
From Coq Require Import List Bool Arith Reals.
Local Open Scope R_scope.

(** Node and weight number i of the n-point composite trapezoid rule on [a,b]. *)
Definition trap_node (a b : R) (n i : nat) : R := a + INR i * ((b - a) / INR (n - 1)).
Definition trap_weight (a b : R) (n i : nat) : R :=
  if (Nat.eqb i 0 || Nat.eqb i (n - 1))%bool then (b - a) / INR (n - 1) / 2 else (b - a) / INR (n - 1).

(** Half the spacing of the doubles at 1, and the smallest positive double. *)
Definition eps : R := / 2 ^ 53.
Definition least : R := / 2 ^ 1074.

(** How far a stored node can be from the exact one anywhere in [a,b]. *)
Definition drift (a b : R) (n : nat) : R :=
  eps * Rmax (Rabs a) (Rabs b) + 4 * eps * (b - a) + INR n * least.
