(** Specification of maps from (-1,1) onto an interval. *)
From Coq Require Import List Reals.
From Coquelicot Require Import Coquelicot.
From Verif Require Import Base.Outcome Base.Scalar Base.RScalar Model.BoundTransform.
Import ListNotations.
Local Open Scope R_scope.

(** y lies strictly between the extended reals lo and up. *)
Definition strictly_inside (lo up : Rbar) (y : R) : Prop := Rbar_lt lo y /\ Rbar_lt y up.

(** T is a strictly increasing bijection from (a,b) onto the open interval (lo,up). *)
Definition increasing_onto (T : R -> R) (a b : R) (lo up : Rbar) : Prop :=
  (forall x, a < x < b -> strictly_inside lo up (T x)) /\
  (forall x y, a < x -> x < y -> y < b -> T x < T y) /\
  (forall y, strictly_inside lo up y -> exists x, a < x < b /\ T x = y).

(** The extended real a bound stands for. *)
Definition ext (b : bound RS) : Rbar :=
  match b with MinusInf => m_infty | BoundTransform.Finite x => Rbar.Finite x | PlusInf => p_infty end.

(** lo = -infinity and up finite. *)
Definition left_infinite (lo up : bound RS) : Prop :=
  lo = MinusInf /\ exists u, up = BoundTransform.Finite u.

(** q' is the rule q with every (node, weight) pair sent through the transformation. *)
Definition maps_rule (dbg : bool) (lo up : bound RS) (q q' : list R * list R) : Prop :=
  Forall2 (fun xw yv => @transform_minus_one_to_one RS dbg lo up (fst xw) (snd xw) = Ok yv)
    (combine (fst q) (snd q)) (combine (fst q') (snd q')).

