(** C40: spherical grids integrate over three-dimensional space (exact arithmetic on the code's nodes
    and weights, the angular literals included). Vocabulary in Spec/SpaceSpec.v. *)
From Coq Require Import List ZArith Reals Lra.
From Coquelicot Require Import Coquelicot.
From Verif Require Import Base.Outcome Base.Scalar Base.RScalar Model.Quadrature Model.Radial Model.S2
  Model.Composite Model.Factory Model.Grids Spec.QuadSpec Spec.Sums Spec.RealRules Spec.RadialSpec Spec.SphereReal
  Spec.SphereInt Spec.SpaceSpec Spec.FactorySpec Proofs.Space.
Import ListNotations.
Local Open Scope R_scope.

(** One grid: [t] any radial scheme, [a] any angular rule with the properties proved in C17, F a
    function that on every sphere around c is a combination of harmonics of degree at most d with
    coefficients depending on the radius. The value of the grid differs from the radial rule applied
    to the exact integrals over the spheres by at most the radial rule applied to the error bound. *)
Theorem C40_one_grid : forall dbg t c r (a : quad (@pt3 RS) R) na o tol d e F T delta, rt_valid t ->
  construct dbg (@radial_generate RS t) = Ok r -> sized na a -> spherical_construct dbg r a c = Ok o ->
  List.Forall (near_sphere e) (qpoints a) -> integrates tol d a -> prof_deg_le T d -> profiled c F T e delta ->
  (forall r, 0 <= r -> 0 <= delta r) -> forall W, abs_weight a <= W ->
  exists q, @radial_generate RS t = Ok q /\
  Rabs (integrate F (sph_quad o) - apply_rule q (fun r => r * r * sphere_int (heval (on_sphere T r))))
  <= apply_rule q (fun r => r * r * (tol * hsize (on_sphere T r) + W * delta r)).
Proof. exact grid_error_int. Qed.

(** As the number of radial points grows the value of the grid gets within B of the integral over
    space, where B integrates the angular error. *)
Theorem C40_converges : forall dbg t c (a : quad (@pt3 RS) R) na tol d e F T delta, rt_valid t -> flat_start t ->
  sized na a -> List.Forall (near_sphere e) (qpoints a) -> integrates tol d a -> prof_deg_le T d ->
  profiled c F T e delta -> List.Forall (fun gk => tame t (fst gk)) T -> tame t delta ->
  (forall r, 0 <= r -> 0 <= delta r) -> forall W, abs_weight a <= W ->
  exists I B, space_integral c F I /\
    half_line_integral (fun r => r * r * (tol * hsize (on_sphere T r) + W * delta r)) B /\
    forall eps, 0 < eps -> exists N, forall n r o, (N <= n)%nat ->
      construct dbg (@radial_generate RS (with_npts t n)) = Ok r -> spherical_construct dbg r a c = Ok o ->
      Rabs (integrate F (sph_quad o) - I) <= B + eps.
Proof. exact grid_converges. Qed.

(** The tent max(0, 1 - |p - c|) times the third coordinate of p - c. *)
Example C40_converges_ex : forall t cx cy cz, rt_valid t ->
  let e := 5 / 10000000000000000 in
  let g := fun r => Rmax 0 (1 - 1 * r) in
  let F := fun p : @pt3 RS => g (dist3 p (cx, cy, cz)) * (snd p - cz) in
  let T := [(fun r => g r * r, (false, 0%nat, 1%nat))] in
  let delta := fun r => e * (2 * r * Rmax 0 (6 - 2 * r)) in
  profiled (cx, cy, cz) F T e delta /\ prof_deg_le T 1 /\
  List.Forall (fun gk => tame t (fst gk)) T /\ tame t delta /\ (forall r, 0 <= r -> 0 <= delta r).
Proof. exact tent_z_ex. Qed.

(** Through the factory, with the repository's Lebedev-Laikov and Delley data: radial integrands. *)
Theorem C40_factory_radial : forall dbg rq (t : rtraits RS) f n (g G : R -> R),
  In (rq, rkind_of t) schemes -> rt_valid t -> flat_start t ->
  f = LebedevLaikov \/ f = Delley -> algebraic_order_by_npts f (Z.of_nat n) <> (-1)%Z ->
  ~ (f = LebedevLaikov /\ In (Z.of_nat n) [74; 230; 266]%Z) ->
  let e := 5 / 10000000000000000 in let tol := 4 * PI / 100000000000000 in
  tame t g -> tame t G -> (forall r, 0 <= r -> 0 <= G r) ->
  (forall r s, 0 <= r -> Rabs (s - 1) <= e -> Rabs (g (r * s) - g r) <= e * G r) ->
  exists I B, half_line_integral (fun r => r * r * (4 * PI * g r)) I /\
    half_line_integral (fun r => r * r * (tol * Rabs (g r) + (4 * PI + tol) * (e * G r))) B /\
    forall eps, 0 < eps -> exists N, forall m, (N <= m)%nat -> exists o,
      generate_grid_unpruned repo_grids dbg (mkUnpruned rq (Some (with_npts t m)) (AQ f) (Z.of_nat n)) = Ok o /\
      Rabs (integrate (fun p => g (dist3 p (0, 0, 0))) (sph_quad o) - I) <= B + eps.
Proof. exact factory_radial. Qed.

Example C40_factory_ex : In (RQTreutlerAhlrichs, rkind_of (TA 10 (1 : RS) (6 / 10 : RS))) schemes /\
  rt_valid (TA 10 (1 : RS) (6 / 10 : RS)) /\ flat_start (TA 10 (1 : RS) (6 / 10 : RS)) /\
  algebraic_order_by_npts LebedevLaikov (Z.of_nat 302) <> (-1)%Z /\
  ~ In (Z.of_nat 302) [74; 230; 266]%Z /\
  forall t, rt_valid t ->
  let e := 5 / 10000000000000000 in
  let g := fun r => Rmax 0 (1 - 1 * r) in let G := fun r => Rmax 0 (6 - 2 * r) in
  tame t g /\ tame t G /\ (forall r, 0 <= r -> 0 <= G r) /\
  (forall r s, 0 <= r -> Rabs (s - 1) <= e -> Rabs (g (r * s) - g r) <= e * G r).
Proof.
  split; [simpl; tauto|]. split; [simpl; lra|]. split; [simpl; lra|]. split; [vm_compute; discriminate|].
  split; [intro H; simpl in H; repeat (destruct H as [H|H]; [discriminate|]); exact H|]. exact tent_space_ex.
Qed.

Print Assumptions C40_one_grid.
Print Assumptions C40_converges.
Print Assumptions C40_factory_radial.
