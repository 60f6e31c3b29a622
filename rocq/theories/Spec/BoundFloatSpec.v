(** Specification vocabulary for the interval transformation in binary64. *)
From Coq Require Import ZArith Bool Reals.
From Flocq Require Import IEEE754.BinarySingleNaN.
From Verif Require Import Base.Scalar Base.FScalar Model.BoundTransform Model.BoundFloat.
Local Open Scope R_scope.

(** The extended bound a binary64 number stands for. *)
Definition bound_of (m : libm) (x : F64) : bound (FS m) :=
  match x with
  | B754_infinity false => PlusInf
  | B754_infinity true => MinusInf
  | _ => BoundTransform.Finite (x : FS m)
  end.

(** Finite, and not so large that sums and products overflow. *)
Definition plain_bound (x : F64) : Prop := is_finite x = true /\ Rabs (B2R x) <= 2 ^ 800.
(** Finite and nonzero, far from overflow and underflow. *)
Definition moderate (x : F64) : Prop := is_finite x = true /\ / 2 ^ 700 <= Rabs (B2R x) <= 2 ^ 700.
(** Finite and strictly between -1 and 1. *)
Definition inside (x : F64) : Prop := is_finite x = true /\ -1 < B2R x < 1.
(** x is finite and equals v up to the relative error e. *)
Definition relative (x : F64) (v e : R) : Prop := is_finite x = true /\ Rabs (B2R x - v) <= e * Rabs v.
