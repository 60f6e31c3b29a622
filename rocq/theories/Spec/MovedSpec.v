(** Specification vocabulary for stored grids that were moved away from the origin. *)
From Coq Require Import List Reals.
From Flocq Require Import IEEE754.BinarySingleNaN.
From Verif Require Import Base.FScalar Spec.FloatSpec Spec.LibmSpec.
Import ListNotations.
Local Open Scope R_scope.

(** All coordinates of a stored point are finite. *)
Definition finite_pt (p : F64 * F64 * F64) : Prop := forall ax, In ax axes -> is_finite (ax p) = true.

(** All coordinates are finite and at most D. *)
Definition centre_within (D : R) (c : F64 * F64 * F64) : Prop :=
  forall ax, In ax axes -> is_finite (ax c) = true /\ Rabs (B2R (ax c)) <= D.

(** The stored coordinate x stands for v up to s times the distance of v from the coordinate c of the centre,
    plus s D. *)
Definition near_coord (s D c : R) (x : F64) (v : R) : Prop :=
  is_finite x = true /\ Rabs (B2R x - v) <= s * (Rabs (v - c) + D).

(** Stored points near exact points, in the same order, seen from the centre c; relative error ew of the weights. *)
Definition near_quads (s D : R) (c : R * R * R) (pf : list (F64 * F64 * F64)) (wf : list F64) (p : list (R * R * R)) (w : list R) (ew : R) : Prop :=
  Forall2 (fun x v => near_coord s D (px c) (px x) (px v) /\ near_coord s D (py c) (py x) (py v) /\ near_coord s D (pz c) (pz x) (pz v)) pf p /\
  Forall2 (fun x v => rel_close x v ew) wf w.

(** F is bounded by G, and moving a point by at most s (|p - c| + D) in each coordinate, s <= e, changes F by at most s G. *)
Definition tempered_about (c : R * R * R) (D e : R) (F G : R * R * R -> R) : Prop :=
  (forall p, Rabs (F p) <= G p) /\
  (forall p q s, 0 <= s <= e -> (forall ax, In ax axes -> Rabs (ax q - ax p) <= s * (Rabs (ax p - ax c) + D)) ->
     Rabs (F q - F p) <= s * G p).
