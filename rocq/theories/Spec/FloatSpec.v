(** Specification vocabulary for spherical grids in binary64. *)
From Coq Require Import List Reals.
From Flocq Require Import IEEE754.BinarySingleNaN Core.
From Verif Require Import Base.FScalar.
Import ListNotations.
Local Open Scope R_scope.

(** The three coordinates of a point, as real numbers or as stored. *)
Definition px {A} (p : A * A * A) : A := fst (fst p).
Definition py {A} (p : A * A * A) : A := snd (fst p).
Definition pz {A} (p : A * A * A) : A := snd p.
Definition axes {A : Type} : list (A * A * A -> A) := [px; py; pz].

(** Unit roundoff 2^-53, and the smallest positive binary64 number 2^-1074. *)
Definition ulp53 : R := / 2 ^ 53.
Definition tiny : R := bpow radix2 (-1074).

(** Zero, or so large that a product rounded to it does not underflow. *)
Definition no_underflow (x : R) : Prop := x = 0 \/ bpow radix2 (-1020) <= Rabs x.
