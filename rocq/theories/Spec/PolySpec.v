(** Specification vocabulary for polynomials integrated by the angular grids. *)
From Coq Require Import List Reals ZArith.
From Verif Require Import Model.S2 Spec.SphereInt.
Import ListNotations.
Local Open Scope R_scope.

(** Sum of the absolute values of the coefficients. *)
Fixpoint p3size (p : poly3) : R :=
  match p with
  | [] => 0
  | (c, _) :: r => Rabs c + p3size r
  end.

(** The grids whose exactness is checked (C17). *)
Definition checked (f : afam) (n : nat) : Prop :=
  match f with
  | AhrensBeylkin => (n <= 612)%nat /\ n <> 552%nat
  | Womersley => (n <= 222)%nat
  | _ => True
  end.

(** Error of the integral of a polynomial, per unit of [p3size] and of the square of degree plus one. *)
Definition poly_tol (f : afam) (n : nat) : R :=
  match f with
  | AhrensBeylkin => 3 / 10 ^ 11
  | LebedevLaikov => if Nat.eqb n 230 then 6 / 10 ^ 13 else 2 / 10 ^ 13
  | _ => 2 / 10 ^ 13
  end.
