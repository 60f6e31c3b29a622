(** Specification vocabulary for quadrature objects. *)
From Coq Require Import List Arith.
From Verif Require Import Base.Outcome Model.Quadrature.

(** A quadrature object with [n] points whose bounds-checked accessors are defined
    exactly on the indices below [n]. *)
Definition sized {P W : Type} (n : nat) (q : quad P W) : Prop :=
  npts q = n /\ length (qpoints q) = n /\ length (qweights q) = n /\
  (forall i, i < n ->
     (exists p, point_at q i = Ok p /\ nth_error (qpoints q) i = Some p) /\
     (exists w, weight_at q i = Ok w /\ nth_error (qweights q) i = Some w)) /\
  (forall i, n <= i ->
     point_at q i = Throw ExOutOfRange /\ weight_at q i = Throw ExOutOfRange).
