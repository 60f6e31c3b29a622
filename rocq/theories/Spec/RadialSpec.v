(** Specification of radial maps and radial rules over the reals. *)
From Coq Require Import List Reals.
From Coquelicot Require Import Coquelicot.
From Verif Require Import Base.Outcome Base.Scalar Base.RScalar Model.Primitive Model.Radial
  Spec.Sums Spec.RealRules.
Import ListNotations.
Local Open Scope R_scope.

(** Admissible parameters. *)
Definition rt_valid (t : rtraits RS) : Prop :=
  match t with
  | Becke _ R => 0 < R
  | MHL M _ R => (1 <= M)%nat /\ 0 < R
  | MK _ R => 0 < R
  | TA _ R alpha => 0 < R /\ 0 <= alpha
  end.

(** The base interval is (-1,1) for Becke and Treutler-Ahlrichs, (0,1) for the others. *)
Definition base_lo (t : rtraits RS) : R := match t with Becke _ _ | TA _ _ _ => -1 | _ => 0 end.

(** Same scheme and parameters, other number of points / other scale. *)
Definition with_npts (t : rtraits RS) (n : nat) : rtraits RS :=
  match t with
  | Becke _ R => Becke n R | MHL M _ R => MHL M n R | MK _ R => MK n R | TA _ R a => TA n R a
  end.
Definition with_scale (t : rtraits RS) (R : R) : rtraits RS :=
  match t with
  | Becke n _ => Becke n R | MHL M n _ => MHL M n R | MK n _ => MK n R | TA n _ a => TA n R a
  end.
Definition scale_of (t : rtraits RS) : R :=
  match t with Becke _ R => R | MHL _ _ R => R | MK _ R => R | TA _ R _ => R end.

(** A rule without its first and last node. *)
Definition interior (u : list R * list R) : list R * list R :=
  (removelast (tl (fst u)), removelast (tl (snd u))).

(** The one-dimensional rule behind an n-point radial rule: Gauss-Chebyshev of the second
    kind with n points, or the interior of the trapezoid rule with n + 2 points on [0,1]. *)
Definition base_rule (t : rtraits RS) (b : list R * list R) : Prop :=
  match t with
  | Becke n _ | TA n _ _ => @gc2_generate RS n = Ok b
  | MHL _ n _ | MK n _ => exists u, @uniform_generate RS (n + 2) 0 1 = Ok u /\ b = interior u
  end.

(** f decays fast enough at infinity for the scheme: f(r(x)) r'(x) -> 0 as x -> 1. *)
Definition decays (t : rtraits RS) (f : R -> R) : Prop :=
  filterlim (fun x => f (rt_transform t x) * Derive (rt_transform t) x) (at_left 1) (locally 0).

(** The map has vanishing slope at the left end of a base rule that would contain it. *)
Definition flat_start (t : rtraits RS) : Prop :=
  match t with
  | MHL M _ _ => (2 <= M)%nat
  | TA _ _ alpha => 0 < alpha
  | _ => True
  end.

(** I is the improper integral of f over (0,infinity). *)
Definition half_line_integral (f : R -> R) (I : R) : Prop :=
  is_RInt_gen f (at_right 0) (Rbar_locally p_infty) I.
