(** Specification of integration over three-dimensional space in spherical coordinates. *)
From Coq Require Import List Reals.
From Coquelicot Require Import Coquelicot.
From Verif Require Import Base.RScalar Model.S2 Model.Radial Model.Quadrature Spec.Sums Spec.RadialSpec
  Spec.SphereReal Spec.SphereInt.
Import ListNotations.
Local Open Scope R_scope.

(** I is the integral of F over space: the improper integral over r > 0 of r^2 times the integral of
    F over the directions, seen from [c]. *)
Definition space_integral (c : @pt3 RS) (F : @pt3 RS -> R) (I : R) : Prop :=
  half_line_integral (fun r => r * r * sphere_int (fun x y z => F (at_radius c r (x, y, z)))) I.

(** A combination of spherical harmonics whose coefficients depend on the radius, its value on the
    sphere of radius r, and its degree. *)
Definition profile : Type := list ((R -> R) * (bool * nat * nat)).
Definition on_sphere (T : profile) (r : R) : harmonics := map (fun gk => (fst gk r, snd gk)) T.
Definition prof_deg_le (T : profile) (d : nat) : Prop :=
  forall g s m n, In (g, (s, m, n)) T -> (m + n <= d)%nat.

(** Continuous on [0,infinity), and r^2 f(r) decays fast enough for the radial scheme. *)
Definition tame (t : rtraits RS) (f : R -> R) : Prop :=
  (forall r, 0 <= r -> continuous f r) /\ decays t (fun r => r * r * f r).

(** Sum of the absolute values of the weights. *)
Definition abs_weight {P : Type} (q : quad P R) : R := Rsum (map Rabs (qweights q)).

(** [profiled c F T e delta]: on every sphere around c, F is the combination T; at distance at most
    e from it (relative, squared) F differs from T by at most delta. *)
Definition profiled (c : @pt3 RS) (F : @pt3 RS -> R) (T : profile) (e : R) (delta : R -> R) : Prop :=
  (forall r x y z, 0 <= r -> x * x + y * y + z * z = 1 ->
     F (at_radius c r (x, y, z)) = heval (on_sphere T r) x y z) /\
  (forall r x y z, 0 <= r -> near_sphere e (x, y, z) ->
     Rabs (F (at_radius c r (x, y, z)) - heval (on_sphere T r) x y z) <= delta r).
