(** C55: the angular rules and the whole grids applied to functions that are no polynomials: the error is that of the best
    approximation by polynomials of the degree of the rule, up to a fixed factor and the accuracy of the tables.
    Vocabulary in Spec/SphereErrSpec.v. *)
From Coq Require Import ZArith List Bool Reals Lra Lia.
From Coquelicot Require Import Coquelicot.
From Flocq Require Import IEEE754.BinarySingleNaN.
From Verif Require Import Base.Outcome Base.Scalar Base.RScalar Base.FScalar Model.Quadrature Model.Radial Model.S2Tables Model.S2
  Model.Composite Model.Factory Model.Grids Spec.QuadSpec Spec.Sums Spec.SphereSpec Spec.RealRules Spec.RadialSpec Spec.SphereReal
  Spec.SphereInt Spec.SpaceSpec Spec.FactorySpec Spec.PolySpec Spec.MomentSpec Spec.FloatSpec Spec.LibmSpec Spec.GridFloatSpec Spec.SphereErrSpec
  Proofs.GridFloatSum Proofs.MomentGrid Proofs.MomentLimit Proofs.MomentFloat Proofs.SphereErr Proofs.GridErr.
Import ListNotations.
Local Open Scope R_scope.

(** Every angular rule whose table is checked (C48), with its weights and nodes as real numbers. *)
Theorem C55_angular : forall f dbg n, algebraic_order_by_npts f (Z.of_nat n) <> (-1)%Z -> checked f n ->
  exists q : quad (@pt3 RS) R, construct dbg (s2_generate repo_grids f n) = Ok q /\ sized n q /\
    forall F K L e d, (Z.of_nat d <= algebraic_order_by_npts f (Z.of_nat n))%Z -> near_polynomial d e F -> bounded_on_sphere K F -> lip_shell L F ->
    Rabs (s2_sum q F - sphere_int F) <= angular_error (weight_max f (Z.of_nat n)) (poly_tol f n) d e K L.
Proof. exact any_real. Qed.

(** The same with the weights and nodes as stored in binary64, the sum without rounding. *)
Theorem C55_angular_binary64 : forall m f dbg n, algebraic_order_by_npts f (Z.of_nat n) <> (-1)%Z -> checked f n ->
  exists q : aquad (FS m), construct dbg (s2_generate (@repo_grids (FS m)) f n) = Ok q /\ sized n q /\
    forall F K L e d, (Z.of_nat d <= algebraic_order_by_npts f (Z.of_nat n))%Z -> near_polynomial d e F -> bounded_on_sphere K F -> lip_shell L F ->
    Rabs (sum3 (map real_pt (qpoints q)) (map B2R (qweights q)) F - sphere_int F) <= angular_error (weight_max f (Z.of_nat n)) (poly_tol f n) d e K L.
Proof. exact any_float. Qed.

(** Unpruned grids in exact arithmetic, recentred any number of times; c is the last centre. *)
Theorem C55_unpruned : forall dbg rq k (t : rtraits RS) f n cs F e K L d tol W, In (rq, k) schemes -> rkind_of t = k -> rt_valid t ->
  exact_for f d tol n -> weight_max f n <= W -> let c := last cs (0, 0, 0) in tracked c F d e K L ->
  exists o q, (let* o := generate_grid_unpruned repo_grids dbg (mkUnpruned rq (Some t) (AQ f) n) in recenters o cs) = Ok o /\ @radial_generate RS t = Ok q /\
    Rabs (integrate F (sph_quad o) - apply_rule q (fun r => r * r * sphere_int (seen c F r))) <= apply_rule q (fun r => r * r * angular_error W tol d (e r) (K r) (L r)).
Proof. exact unpruned_any. Qed.

(** Pruned grids with any accepted regions. *)
Theorem C55_pruned : forall dbg rq k (t : rtraits RS) f rs cs F e K L d tol W, In (rq, k) schemes -> rkind_of t = k -> rt_valid t -> (1 <= rt_npts t)%nat ->
  List.Forall (fun r => r_aq r = AQ f /\ exact_for f d tol (r_asz r) /\ weight_max f (r_asz r) <= W) rs ->
  (exists rest, map r_st rs = 0%nat :: rest /\ increasing (0%nat :: rest) /\ List.Forall (fun i => (i < rt_npts t - 1)%nat) rest) ->
  let c := last cs (0, 0, 0) in tracked c F d e K L ->
  exists o q, (let* o := generate_grid_pruned repo_grids dbg (mkPruned rq (Some t) rs) in recenters o cs) = Ok o /\ @radial_generate RS t = Ok q /\
    Rabs (integrate F (sph_quad o) - apply_rule q (fun r => r * r * sphere_int (seen c F r))) <= apply_rule q (fun r => r * r * angular_error W tol d (e r) (K r) (L r)).
Proof. exact pruned_any. Qed.

(** Grids of the named pruning schemes. *)
Theorem C55_schemes : forall dbg sch rq k (t : rtraits RS) f n cs F e K L d tol W, In (rq, k) schemes -> rkind_of t = k -> rt_valid t -> (5 <= rt_npts t)%nat ->
  algebraic_order_by_npts f n <> (-1)%Z -> List.Forall (fun s => exact_for f d tol s /\ weight_max f s <= W) (scheme_sizes sch f n) ->
  let c := last cs (0, 0, 0) in tracked c F d e K L ->
  exists o q, (let* p := create_pruned_spec sch (mkUnpruned rq (Some t) (AQ f) n) in
               let* o := generate_grid_pruned repo_grids dbg p in recenters o cs) = Ok o /\ @radial_generate RS t = Ok q /\
    Rabs (integrate F (sph_quad o) - apply_rule q (fun r => r * r * sphere_int (seen c F r))) <= apply_rule q (fun r => r * r * angular_error W tol d (e r) (K r) (L r)).
Proof. exact scheme_any. Qed.

(** With many radial points the grids approach the integral over space up to the angular term B. *)
Theorem C55_unpruned_converge : forall dbg rq (t : rtraits RS) f n cs F e K L d tol W, In (rq, rkind_of t) schemes -> rt_valid t -> flat_start t ->
  exact_for f d tol n -> weight_max f n <= W -> let c := last cs (0, 0, 0) in tracked c F d e K L ->
  SpaceSpec.tame t (fun r => sphere_int (seen c F r)) -> SpaceSpec.tame t e -> SpaceSpec.tame t K -> SpaceSpec.tame t L ->
  exists I B, space_integral c F I /\ half_line_integral (fun r => r * r * angular_error W tol d (e r) (K r) (L r)) B /\
    forall eps, 0 < eps -> exists N, forall m, (N <= m)%nat -> exists o,
      (let* o := generate_grid_unpruned repo_grids dbg (mkUnpruned rq (Some (with_npts t m)) (AQ f) n) in recenters o cs) = Ok o /\
      Rabs (integrate F (sph_quad o) - I) <= B + eps.
Proof. exact unpruned_any_limit. Qed.

Theorem C55_schemes_converge : forall dbg sch rq (t : rtraits RS) f n cs F e K L d tol W, In (rq, rkind_of t) schemes -> rt_valid t -> flat_start t ->
  algebraic_order_by_npts f n <> (-1)%Z -> List.Forall (fun s => exact_for f d tol s /\ weight_max f s <= W) (scheme_sizes sch f n) ->
  let c := last cs (0, 0, 0) in tracked c F d e K L ->
  SpaceSpec.tame t (fun r => sphere_int (seen c F r)) -> SpaceSpec.tame t e -> SpaceSpec.tame t K -> SpaceSpec.tame t L ->
  exists I B, space_integral c F I /\ half_line_integral (fun r => r * r * angular_error W tol d (e r) (K r) (L r)) B /\
    forall eps, 0 < eps -> exists N, forall m, (N <= m)%nat -> exists o,
      (let* p := create_pruned_spec sch (mkUnpruned rq (Some (with_npts t m)) (AQ f) n) in
       let* o := generate_grid_pruned repo_grids dbg p in recenters o cs) = Ok o /\
      Rabs (integrate F (sph_quad o) - I) <= B + eps.
Proof. exact scheme_any_limit. Qed.

(** |z| on the unit sphere is within 1/8 of z^2 + 1/8; sizes of the 302-point Lebedev-Laikov grid under both pruning schemes. *)
Example C55_angular_ex : algebraic_order_by_npts LebedevLaikov (Z.of_nat 302) = 29%Z /\ checked LebedevLaikov 302 /\
  near_polynomial 2 (/ 8) (fun _ _ z => Rabs z) /\ bounded_on_sphere 1 (fun _ _ z => Rabs z) /\ lip_shell 1 (fun _ _ z => Rabs z).
Proof.
  split; [reflexivity|]. split; [|split; [exact abs_near_poly|split; [exact abs_bounded|exact abs_lip]]].
  destruct tent_sizes_ex as (_ & _ & H). rewrite List.Forall_forall in H. destruct (H 302%Z ltac:(cbn; tauto)) as ((_ & C & _) & _). exact C.
Qed.
Example C55_sizes_ex : scheme_sizes Robust LebedevLaikov 302 = [26; 194; 302]%Z /\ scheme_sizes Treutler LebedevLaikov 302 = [26; 50; 302]%Z /\
  List.Forall (fun s => exact_for LebedevLaikov 2 (2 / 10 ^ 13) s /\ weight_max LebedevLaikov s <= 13) [26; 50; 194; 302]%Z.
Proof.
  split; [reflexivity|]. split; [reflexivity|]. apply List.Forall_forall.
  intros s [<-|[<-|[<-|[<-|[]]]]]; (split; [split; [vm_compute; discriminate|split; [exact I|split; [vm_compute; discriminate|]]]|]);
    first [apply Rle_refl|cbn [weight_max existsb Z.eqb Pos.eqb orb]; lra].
Qed.
(** max(0, 1 - |p|) |z| is no polynomial on any sphere inside the unit ball. *)
Example C55_space_ex : tracked (0, 0, 0) tent_abs 2 (fun r => / 8 * (r * tent r)) (fun r => r * tent r) (fun r => 4 * Rmax 0 (2 - 1 * r)) /\
  forall (t : rtraits RS), rt_valid t -> SpaceSpec.tame t (fun r => sphere_int (seen (0, 0, 0) tent_abs r)) /\ SpaceSpec.tame t (fun r => / 8 * (r * tent r)) /\
  SpaceSpec.tame t (fun r => r * tent r) /\ SpaceSpec.tame t (fun r => 4 * Rmax 0 (2 - 1 * r)).
Proof. exact (conj tent_tracked tent_abs_tame). Qed.

Print Assumptions C55_angular.
Print Assumptions C55_angular_binary64.
Print Assumptions C55_unpruned.
Print Assumptions C55_pruned.
Print Assumptions C55_schemes.
Print Assumptions C55_unpruned_converge.
Print Assumptions C55_schemes_converge.
