(** Specification vocabulary for batching in binary64: points that are apart. *)
From Coq Require Import List Permutation Reals.
From Flocq Require Import IEEE754.BinarySingleNaN Core.Raux.
From Verif Require Import Base.Scalar Base.FScalar.
Import ListNotations.
Local Open Scope R_scope.

(** Some binary64 number lies strictly between [x] and [y]: they are neither equal nor
    neighbours. *)
Definition apart (x y : F64) : Prop :=
  exists f : F64, is_finite f = true /\
    (B2R x < B2R f < B2R y \/ B2R y < B2R f < B2R x).

(** Points that are apart in some coordinate. *)
Definition apart_pts (p q : F64 * F64 * F64) : Prop :=
  apart (fst (fst p)) (fst (fst q)) \/ apart (snd (fst p)) (snd (fst q)) \/ apart (snd p) (snd q).

(** At most [m] points of [q] are so close together that no two of them are apart. *)
Definition crowded_at_most (m : nat) (q : list ((F64 * F64 * F64) * F64)) : Prop :=
  forall K l, Permutation q (K ++ l) ->
    (forall a b, In a K -> In b K -> ~ apart_pts (fst a) (fst b)) -> (length K <= m)%nat.

(** Coordinates that are finite and no larger than 2^900 (so that no extent overflows). *)
Definition moderate (x : F64) : Prop := is_finite x = true /\ Rabs (B2R x) <= 2 ^ 900.
Definition moderate_pt (p : F64 * F64 * F64) : Prop :=
  moderate (fst (fst p)) /\ moderate (snd (fst p)) /\ moderate (snd p).

(** Two numbers further apart than 2^-50 of the larger, plus 2^-1070. *)
Definition separated (x y : F64) : Prop :=
  / 2 ^ 50 * Rmax (Rabs (B2R x)) (Rabs (B2R y)) + / 2 ^ 1070 <= Rabs (B2R x - B2R y).
Definition separated_pts (p q : F64 * F64 * F64) : Prop :=
  separated (fst (fst p)) (fst (fst q)) \/ separated (snd (fst p)) (snd (fst q)) \/ separated (snd p) (snd q).
