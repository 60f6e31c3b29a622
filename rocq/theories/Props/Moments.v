(** C49: whole grids from the factory, centred anywhere, applied to g(|p - c|) P(p - c) with P a polynomial. The radial rule is
    applied to exact integrals over spheres plus a term from the angular rules. Vocabulary in Spec/MomentSpec.v. *)
From Coq Require Import ZArith List Bool Reals Lra Lia.
From Coquelicot Require Import Coquelicot.
From Flocq Require Import IEEE754.BinarySingleNaN.
From Verif Require Import Base.Outcome Base.Scalar Base.RScalar Base.FScalar Model.Quadrature Model.Radial Model.S2Tables Model.S2
  Model.Composite Model.Factory Model.Grids Spec.QuadSpec Spec.Sums Spec.SphereSpec Spec.RealRules Spec.RadialSpec Spec.SphereReal
  Spec.SphereInt Spec.SpaceSpec Spec.FactorySpec Spec.PolySpec Spec.MomentSpec Spec.FloatSpec Spec.LibmSpec Spec.GridFloatSpec
  Proofs.ChebFloat Proofs.RadialFloatLib Proofs.GridFloatSum Proofs.MomentGrid Proofs.MomentLimit Proofs.MomentFloat.
Import ListNotations.
Local Open Scope R_scope.

(** Unpruned grids in exact arithmetic, recentred any number of times; c is the last centre. *)
Theorem C49_unpruned : forall dbg rq k (t : rtraits RS) f n cs g G P d tol, In (rq, k) schemes -> rkind_of t = k -> rt_valid t ->
  exact_for f d tol n -> p3deg_le P d -> steady (/ 10 ^ 15) g G -> let c := last cs (0, 0, 0) in
  exists o q, (let* o := generate_grid_unpruned repo_grids dbg (mkUnpruned rq (Some t) (AQ f) n) in recenters o cs) = Ok o /\ @radial_generate RS t = Ok q /\
    Rabs (integrate (moment c g P) (sph_quad o) - apply_rule q (fun r => r * r * sphere_int (fun x y z => moment c g P (at_radius c r (x, y, z)))))
    <= apply_rule q (fun r => r * r * (2 * tol * (INR d + 1) ^ 2 * (p3mag P r * G r))).
Proof. exact unpruned_moment. Qed.

(** Pruned grids with any accepted regions, possibly of different angular sizes. *)
Theorem C49_pruned : forall dbg rq k (t : rtraits RS) f rs cs g G P d tol, In (rq, k) schemes -> rkind_of t = k -> rt_valid t -> (1 <= rt_npts t)%nat ->
  List.Forall (fun r => r_aq r = AQ f /\ exact_for f d tol (r_asz r)) rs ->
  (exists rest, map r_st rs = 0%nat :: rest /\ increasing (0%nat :: rest) /\ List.Forall (fun i => (i < rt_npts t - 1)%nat) rest) ->
  p3deg_le P d -> steady (/ 10 ^ 15) g G -> let c := last cs (0, 0, 0) in
  exists o q, (let* o := generate_grid_pruned repo_grids dbg (mkPruned rq (Some t) rs) in recenters o cs) = Ok o /\ @radial_generate RS t = Ok q /\
    Rabs (integrate (moment c g P) (sph_quad o) - apply_rule q (fun r => r * r * sphere_int (fun x y z => moment c g P (at_radius c r (x, y, z)))))
    <= apply_rule q (fun r => r * r * (2 * tol * (INR d + 1) ^ 2 * (p3mag P r * G r))).
Proof. exact pruned_moment. Qed.

(** Grids of the named pruning schemes. *)
Theorem C49_schemes : forall dbg sch rq k (t : rtraits RS) f n cs g G P d tol, In (rq, k) schemes -> rkind_of t = k -> rt_valid t -> (5 <= rt_npts t)%nat ->
  algebraic_order_by_npts f n <> (-1)%Z -> List.Forall (exact_for f d tol) (scheme_sizes sch f n) ->
  p3deg_le P d -> steady (/ 10 ^ 15) g G -> let c := last cs (0, 0, 0) in
  exists o q, (let* p := create_pruned_spec sch (mkUnpruned rq (Some t) (AQ f) n) in
               let* o := generate_grid_pruned repo_grids dbg p in recenters o cs) = Ok o /\ @radial_generate RS t = Ok q /\
    Rabs (integrate (moment c g P) (sph_quad o) - apply_rule q (fun r => r * r * sphere_int (fun x y z => moment c g P (at_radius c r (x, y, z)))))
    <= apply_rule q (fun r => r * r * (2 * tol * (INR d + 1) ^ 2 * (p3mag P r * G r))).
Proof. exact scheme_moment. Qed.

(** With many radial points the pruned grids approach the integral over space up to the angular term B. *)
Theorem C49_schemes_converge : forall dbg sch rq (t : rtraits RS) f n cs g G P d tol, In (rq, rkind_of t) schemes -> rt_valid t -> flat_start t ->
  algebraic_order_by_npts f n <> (-1)%Z -> List.Forall (exact_for f d tol) (scheme_sizes sch f n) -> p3deg_le P d -> steady (/ 10 ^ 15) g G ->
  (forall k, (k <= d)%nat -> SpaceSpec.tame t (fun r => r ^ k * g r)) -> (forall k, (k <= d)%nat -> SpaceSpec.tame t (fun r => r ^ k * G r)) ->
  let c := last cs (0, 0, 0) in
  exists I B, space_integral c (moment c g P) I /\ half_line_integral (fun r => r * r * (2 * tol * (INR d + 1) ^ 2 * (p3mag P r * G r))) B /\
    forall eps, 0 < eps -> exists N, forall m, (N <= m)%nat -> exists o,
      (let* p := create_pruned_spec sch (mkUnpruned rq (Some (with_npts t m)) (AQ f) n) in
       let* o := generate_grid_pruned repo_grids dbg p in recenters o cs) = Ok o /\
      Rabs (integrate (moment c g P) (sph_quad o) - I) <= B + eps.
Proof. exact scheme_limit. Qed.

(** The same for unpruned grids. *)
Theorem C49_unpruned_converge : forall dbg rq (t : rtraits RS) f n cs g G P d tol, In (rq, rkind_of t) schemes -> rt_valid t -> flat_start t ->
  exact_for f d tol n -> p3deg_le P d -> steady (/ 10 ^ 15) g G ->
  (forall k, (k <= d)%nat -> SpaceSpec.tame t (fun r => r ^ k * g r)) -> (forall k, (k <= d)%nat -> SpaceSpec.tame t (fun r => r ^ k * G r)) ->
  let c := last cs (0, 0, 0) in
  exists I B, space_integral c (moment c g P) I /\ half_line_integral (fun r => r * r * (2 * tol * (INR d + 1) ^ 2 * (p3mag P r * G r))) B /\
    forall eps, 0 < eps -> exists N, forall m, (N <= m)%nat -> exists o,
      (let* o := generate_grid_unpruned repo_grids dbg (mkUnpruned rq (Some (with_npts t m)) (AQ f) n) in recenters o cs) = Ok o /\
      Rabs (integrate (moment c g P) (sph_quad o) - I) <= B + eps.
Proof. exact unpruned_limit. Qed.

(** In binary64 with an accurate math library: points and weights as stored, the sum itself without rounding. *)
Theorem C49_binary64 : forall m dl dbg sch rq k (t : rtraits (FS m)) f n g G H P d tol W,
  accurate m dl -> accurate_pow m dl -> accurate_log m dl -> dl <= / 2 ^ 50 ->
  In (rq, k) schemes -> rkind_of t = k -> sane_traits t -> (5 <= rt_npts t)%nat -> algebraic_order_by_npts f n <> (-1)%Z ->
  List.Forall (fun s => exact_for f d tol s /\ weight_max f s <= W) (scheme_sizes sch f n) ->
  p3deg_le P d -> steady (/ 1000) g G -> covered (/ 1000) G H -> INR d * point_error dl t <= / 101 -> let c := (0, 0, 0) in
  exists (gf : sphobj (FS m)) q,
    (let* p := create_pruned_spec sch (mkUnpruned rq (Some t) (AQ f) n) in generate_grid_pruned (@repo_grids (FS m)) dbg p) = Ok gf /\
    @radial_generate RS (real_traits t) = Ok q /\
    Rabs (sum3 (map real_pt (qpoints (sph_quad gf))) (map B2R (qweights (sph_quad gf))) (fun x y z => moment c g P (x, y, z))
          - apply_rule q (fun r => r * r * sphere_int (fun x y z => moment c g P (at_radius c r (x, y, z)))))
    <= apply_rule q (fun r => r * r * (p3mag P r * (2 * tol * (INR d + 1) ^ 2 * G r + 1.1 * W * ((INR d + 1) * point_error dl t + weight_error dl t) * H r))).
Proof. exact scheme_float. Qed.

(** The tent max(0, 1 - r) times a polynomial of degree 7, every radial scheme, and the 302-point Lebedev-Laikov grid under both
    pruning schemes. *)
Example C49_ex : let g := fun r => Rmax 0 (1 - 1 * r) in let G := fun r => Rmax 0 (6 - 2 * r) in let H := fun r => Rmax 0 (7 - 2 * r) in
  steady (/ 10 ^ 15) g G /\ steady (/ 1000) g G /\ covered (/ 1000) G H /\ p3deg_le tent_poly 7 /\
  forall (t : rtraits RS) k, rt_valid t -> SpaceSpec.tame t (fun r => r ^ k * g r) /\ SpaceSpec.tame t (fun r => r ^ k * G r).
Proof. exact tent_moment_ex. Qed.
Example C49_sizes_ex : scheme_sizes Robust LebedevLaikov 302 = [26; 194; 302]%Z /\ scheme_sizes Treutler LebedevLaikov 302 = [26; 50; 302]%Z /\
  List.Forall (fun s => exact_for LebedevLaikov 7 (2 / 10 ^ 13) s /\ weight_max LebedevLaikov s <= 13) [26; 194; 302]%Z.
Proof. exact tent_sizes_ex. Qed.
Example C49_binary64_ex : let t := @MK (FS rounded_libm) 30 ex_R in
  accurate rounded_libm (/ 2 ^ 53) /\ accurate_pow rounded_libm (/ 2 ^ 53) /\ accurate_log rounded_libm (/ 2 ^ 53) /\ sane_traits t /\
  In (RQMuraKnowles, rkind_of t) schemes /\ INR 7 * point_error (/ 2 ^ 53) t <= / 101.
Proof.
  intro t. destruct grid_float_ex as (A & B & C & D & E & _ & _ & _ & P & _). fold t in D, E, P. repeat (split; [assumption|]).
  replace (INR 7) with 7 by (simpl; ring). lra.
Qed.

Print Assumptions C49_unpruned.
Print Assumptions C49_pruned.
Print Assumptions C49_schemes.
Print Assumptions C49_schemes_converge.
Print Assumptions C49_unpruned_converge.
Print Assumptions C49_binary64.
