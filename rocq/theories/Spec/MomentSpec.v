(** Specification vocabulary for integrals over space of a polynomial times a function of the distance. *)
From Coq Require Import List Reals ZArith.
From Verif Require Import Base.RScalar Model.S2Tables Model.S2 Model.Factory Spec.SphereReal Spec.SphereInt Spec.PolySpec.
Import ListNotations.
Local Open Scope R_scope.

(** g(|p - c|) P(p - c). *)
Definition moment (c : @pt3 RS) (g : R -> R) (P : poly3) (p : @pt3 RS) : R :=
  let '(x, y, z) := p in let '(a, b, e) := c in g (dist3 p c) * p3eval P (x - a) (y - b) (z - e).

(** Sum of the absolute values of the terms of P at distance r; bounds |P| on the sphere of radius r. *)
Fixpoint p3mag (P : poly3) (r : R) : R :=
  match P with
  | [] => 0
  | (c, (i, j, k)) :: Q => Rabs c * r ^ (i + j + k) + p3mag Q r
  end.

(** G bounds g and, per unit, its change under relative changes of the distance by at most e. *)
Definition steady (e : R) (g G : R -> R) : Prop :=
  (forall r, 0 <= r -> Rabs (g r) <= G r) /\
  (forall r s, 0 <= r -> Rabs (s - 1) <= e -> Rabs (g (r * s) - g r) <= Rabs (s - 1) * G r).

(** H bounds G and stays a bound under relative changes of the distance by at most e. *)
Definition covered (e : R) (G H : R -> R) : Prop := forall r s, 0 <= r -> Rabs (s - 1) <= e -> G (r * s) <= H r.

(** The rule of family f with n points is supported, its exactness is checked (C17), it is exact for degree d,
    and its error constant is at most tol. *)
Definition exact_for (f : afam) (d : nat) (tol : R) (n : Z) : Prop :=
  algebraic_order_by_npts f n <> (-1)%Z /\ checked f (Z.to_nat n) /\ (Z.of_nat d <= algebraic_order_by_npts f n)%Z /\
  poly_tol f (Z.to_nat n) <= tol.

(** Bound of the sum of the absolute values of the weights; it exceeds 4 PI much only where weights are negative. *)
Definition weight_max (f : afam) (n : Z) : R :=
  match f with
  | LebedevLaikov => if existsb (Z.eqb n) [74; 230; 266]%Z then 600 else 13
  | _ => 13
  end.

(** Numbers of angular points in the regions a pruning scheme makes from n. *)
Definition scheme_sizes (sch : pruning_scheme) (f : afam) (n : Z) : list Z :=
  let at_least o := npts_by_algebraic_order f (next_algebraic_order f o) in
  let b := algebraic_order_by_npts f n in
  match sch with
  | Unpruned => [n]
  | Robust => [at_least 7; at_least (if Z.ltb 6 b then b - 6 else b); n]%Z
  | Treutler => [at_least 7; at_least 11; n]%Z
  end.
