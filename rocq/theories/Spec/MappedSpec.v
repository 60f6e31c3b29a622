(** Specification vocabulary for stored rules sent through the interval transformation. *)
From Coq Require Import List Bool ZArith Reals.
From Flocq Require Import IEEE754.BinarySingleNaN.
From Verif Require Import Base.Outcome Base.Scalar Base.FScalar Model.BoundFloat Spec.FloatSpec.
Import ListNotations.
Local Open Scope R_scope.

(** q' is the rule q with every stored (node, weight) pair sent through the transformation to (lo,up). *)
Definition maps_f64 (m : libm) (dbg : bool) (lo up : F64) (q q' : list F64 * list F64) : Prop :=
  length (fst q') = length (fst q) /\ length (snd q') = length (snd q) /\
  List.Forall2 (fun xw yv => transform_f64 m dbg lo up (fst xw) (snd xw) = Ok yv)
    (combine (fst q) (snd q)) (combine (fst q') (snd q')).

(** The largest absolute value between the bounds, and how far a stored node may fall outside of them. *)
Definition extent (lo up : F64) : R := Rmax (Rabs (B2R lo)) (Rabs (B2R up)).
Definition spill (lo up : F64) : R := 12 * ulp53 * extent lo up + 4 * tiny.

(** Rounding error of moving n points to [lo,up], for an integrand bounded by K with Lipschitz constant L. *)
Definition move_error (n : nat) (lo up : F64) (K L : R) : R :=
  (3 * (6 * ulp53 * extent lo up + 2 * tiny) + INR n * tiny) * K + 3 * ((B2R up - B2R lo) / 2) * L * spill lo up.

(** F falls off like the second power of 1 + r, its changes like the third. *)
Definition decaying (K L : R) (F : R -> R) : Prop :=
  (forall r, 0 <= r -> Rabs (F r) * (1 + r) ^ 2 <= K) /\
  (forall r s, 0 <= r <= s -> Rabs (F s - F r) * (1 + r) ^ 3 <= L * (s - r)).

(** Error of n stored points on a half line with finite bound of size b: e is the distance of the pulled-back integrand
    from polynomials, KG and LG its bound and Lipschitz constant, K and L those of the decaying integrand. *)
Definition half_error (n : nat) (e K L KG LG b : R) : R :=
  4 * e + ((400 * (INR n + 1) ^ 2 * KG + 32 * LG) * sqrt (INR n + 1) * ulp53 + (78 * K + 96 * (1 + b) * L) * ulp53).
