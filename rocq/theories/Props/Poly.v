(** C48: the angular rules the library builds integrate polynomials over the sphere. The polynomial itself is
    evaluated at the nodes, which are near the sphere but not on it. Errors are relative to [p3size p], the sum of the
    absolute values of the coefficients, which bounds |p| on the sphere. [checked] and [poly_tol] are in Spec/PolySpec.v. *)
From Coq Require Import ZArith List Bool Reals Lra Lia.
From Flocq Require Import IEEE754.BinarySingleNaN.
From Verif Require Import Base.Outcome Base.Scalar Base.RScalar Base.FScalar Model.Quadrature Model.S2 Model.Composite Model.Grids
  Spec.QuadSpec Spec.SphereInt Spec.PolySpec Spec.FloatSpec Spec.LibmSpec Spec.GridFloatSpec Proofs.NearSphere Proofs.PolyGrid.
Import ListNotations.
Local Open Scope R_scope.

(** In exact arithmetic, the literals read as the real numbers they denote. *)
Theorem C48_exact : forall f dbg n, algebraic_order_by_npts f (Z.of_nat n) <> (-1)%Z -> checked f n ->
  exists q : quad (@pt3 RS) R, construct dbg (s2_generate repo_grids f n) = Ok q /\ sized n q /\
  forall p d, (Z.of_nat d <= algebraic_order_by_npts f (Z.of_nat n))%Z -> p3deg_le p d ->
    Rabs (s2_sum q (p3eval p) - sphere_int (p3eval p)) <= poly_tol f n * (INR d + 1) ^ 2 * p3size p.
Proof. exact poly_real. Qed.

(** In binary64: points and weights as the library stores them, whatever the math library; the sum itself without rounding. *)
Theorem C48_binary64 : forall m f dbg n, algebraic_order_by_npts f (Z.of_nat n) <> (-1)%Z -> checked f n ->
  exists q : aquad (FS m), construct dbg (s2_generate (@repo_grids (FS m)) f n) = Ok q /\ sized n q /\
  forall p d, (Z.of_nat d <= algebraic_order_by_npts f (Z.of_nat n))%Z -> p3deg_le p d ->
    Rabs (sum3 (map real_pt (qpoints q)) (map B2R (qweights q)) (p3eval p) - sphere_int (p3eval p)) <= poly_tol f n * (INR d + 1) ^ 2 * p3size p.
Proof. exact poly_float. Qed.

(** The scale of the error is meaningful: [p3size] bounds the polynomial on the sphere. *)
Theorem C48_scale : forall p x y z, x * x + y * y + z * z = 1 -> Rabs (p3eval p x y z) <= p3size p.
Proof. exact p3_bound. Qed.

(** The 302-point Lebedev-Laikov grid and a polynomial of degree 29; error at most 8e-10. *)
Example C48_ex : let p := [(1, (10, 12, 7)%nat); (-3, (0, 0, 29)%nat)] in
  algebraic_order_by_npts LebedevLaikov (Z.of_nat 302) <> (-1)%Z /\ checked LebedevLaikov 302 /\
  (Z.of_nat 29 <= algebraic_order_by_npts LebedevLaikov (Z.of_nat 302))%Z /\ p3deg_le p 29 /\
  poly_tol LebedevLaikov 302 * (INR 29 + 1) ^ 2 * p3size p <= 8 / 10 ^ 10.
Proof.
  intro p. split; [vm_compute; discriminate|]. split; [exact I|]. split; [vm_compute; discriminate|]. split.
  - intros c i j k [E|[E|[]]]; injection E as _ <- <- <-; vm_compute; repeat constructor.
  - unfold p. cbn [p3size poly_tol Nat.eqb]. rewrite Rabs_R1, (Rabs_left (-3)) by lra. replace (INR 29) with 29 by (simpl; ring). lra.
Qed.
Example C48_checked_ex : checked AhrensBeylkin 492 /\ checked Womersley 201 /\
  algebraic_order_by_npts AhrensBeylkin (Z.of_nat 492) = 37%Z /\ algebraic_order_by_npts Womersley (Z.of_nat 201) = 19%Z.
Proof. repeat split; try reflexivity; cbn [checked]; lia. Qed.

Print Assumptions C48_exact.
Print Assumptions C48_binary64.
Print Assumptions C48_scale.
