(** Specification vocabulary for general functions on and near the unit sphere. *)
From Coq Require Import List Reals.
From Verif Require Import Base.RScalar Model.S2 Model.Composite Spec.SphereReal Spec.SphereInt.
Local Open Scope R_scope.

(** Lipschitz in a thin shell around the unit sphere, for the sum of the coordinate differences. *)
Definition lip_shell (L : R) (f : R -> R -> R -> R) : Prop :=
  forall x y z x' y' z', near_sphere (/ 1000) (x, y, z) -> near_sphere (/ 1000) (x', y', z') ->
  Rabs (f x y z - f x' y' z') <= L * (Rabs (x - x') + Rabs (y - y') + Rabs (z - z')).

(** Bounded by K on the unit sphere. *)
Definition bounded_on_sphere (K : R) (f : R -> R -> R -> R) : Prop :=
  forall x y z, x * x + y * y + z * z = 1 -> Rabs (f x y z) <= K.

(** Within e of a polynomial of degree d on the unit sphere. *)
Definition near_polynomial (d : nat) (e : R) (f : R -> R -> R -> R) : Prop :=
  exists p, p3deg_le p d /\ forall x y z, x * x + y * y + z * z = 1 -> Rabs (f x y z - p3eval p x y z) <= e.

(** F seen from c at distance r, as a function of the direction. *)
Definition seen (c : @pt3 RS) (F : @pt3 RS -> R) (r : R) (x y z : R) : R := F (at_radius c r (x, y, z)).

(** On the sphere of radius r around c, F is within e(r) of a polynomial of degree d of the direction and bounded by K(r);
    as a function of the direction it has the Lipschitz constant L(r). *)
Definition tracked (c : @pt3 RS) (F : @pt3 RS -> R) (d : nat) (e K L : R -> R) : Prop :=
  forall r, 0 < r -> near_polynomial d (e r) (seen c F r) /\ bounded_on_sphere (K r) (seen c F r) /\ lip_shell (L r) (seen c F r).

(** Error of an angular rule with weights of absolute sum W, exact up to tol for degree d. *)
Definition angular_error (W tol : R) (d : nat) (e K L : R) : R := (W + 13) * e + tol * ((INR d + 1) ^ 2 * (K + e) + 4 * L).
