(** Specification vocabulary for the error of the radial rules. *)
From Coq Require Import List Reals.
From Coquelicot Require Import Coquelicot.
From Verif Require Import Base.Outcome Base.Scalar Base.RScalar Model.Primitive Model.Radial
  Spec.Sums Spec.RealRules Spec.RadialSpec.
Import ListNotations.
Local Open Scope R_scope.

(** In the variable x of the base interval the integrand f(r) dr reads g(x) dx. *)
Definition pulled (t : rtraits RS) (f g : R -> R) : Prop :=
  (forall r, 0 < r -> continuous f r) /\
  (forall x, base_lo t < x < 1 -> f (rt_transform t x) * Derive (rt_transform t) x = g x).

(** The schemes on (-1,1) and the schemes on (0,1). *)
Definition chebyshev_scheme (t : rtraits RS) : Prop := match t with Becke _ _ | TA _ _ _ => True | _ => False end.
Definition trapezoid_scheme (t : rtraits RS) : Prop := match t with MHL _ _ _ | MK _ _ => True | _ => False end.

(** I is the integral of f over (0,infinity), and the rule of the scheme misses it by at most e. *)
Definition rated (t : rtraits RS) (f : R -> R) (I e : R) : Prop :=
  half_line_integral f I /\ forall q, @radial_generate RS t = Ok q -> Rabs (apply_rule q f - I) <= e.
