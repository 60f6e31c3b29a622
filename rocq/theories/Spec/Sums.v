(** Weighted sums over the reals: what a quadrature computes for an integrand. *)
From Coq Require Import List Reals.
From Verif Require Import Model.Quadrature.
Import ListNotations.
Local Open Scope R_scope.

Definition Rsum (l : list R) : R := fold_right Rplus 0 l.

(** Sum of weight times integrand over all points, [ps] and [ws] paired by index. *)
Definition wsum {P : Type} (f : P -> R) (ps : list P) (ws : list R) : R :=
  Rsum (map (fun pw => snd pw * f (fst pw)) (combine ps ws)).

(** The value a quadrature object assigns to the integrand [f]. *)
Definition integrate {P : Type} (f : P -> R) (q : quad P R) : R :=
  wsum f (qpoints q) (qweights q).
