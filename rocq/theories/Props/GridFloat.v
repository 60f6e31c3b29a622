(** Property C44: whole spherical grids in binary64 with an accurate math library. Vocabulary in Spec/GridFloatSpec.v. *)
From Coq Require Import List Bool Arith ZArith Reals.
From Flocq Require Import IEEE754.BinarySingleNaN Core.
From Verif Require Import Base.Outcome Base.Scalar Base.RScalar Base.FScalar Model.Quadrature Model.Radial Model.S2Tables Model.S2
  Model.Composite Model.Factory Model.GridCode Model.Grids Spec.QuadSpec Spec.SphereSpec Spec.TraitsSpec Spec.FactorySpec
  Spec.FloatSpec Spec.LibmSpec Spec.GridFloatSpec Proofs.ChebFloat Proofs.RadialFloatLib Proofs.GridFloat Proofs.GridFloatSum.
Import ListNotations.
Local Open Scope R_scope.

(** C44. A decimal literal k * 10^-e of the data files is stored as the nearest binary64 number. *)
Theorem C44_literal : forall m k e, (0 <= e)%Z -> Rabs (IZR k) / IZR (10 ^ e) <= 2 ^ 900 ->
  is_finite (@lit_val (FS m) (k, e) : F64) = true /\
  B2R (@lit_val (FS m) (k, e) : F64) = round radix2 (FLT_exp (-1074) 53) ZnearestE (IZR k / IZR (10 ^ e)).
Proof. exact grid_literal. Qed.

(** The angular rules of every family and size, supported or not, in debug and release builds, whatever the math library. *)
Theorem C44_angular : forall m f dbg n, transcribed f n -> exists (af : aquad (FS m)) (a : aquad RS),
  construct dbg (s2_generate (@repo_grids (FS m)) f n) = Ok af /\ construct dbg (s2_generate (@repo_grids RS) f n) = Ok a /\
  sized n af /\ sized n a /\ close_quads (qpoints af) (qweights af) (qpoints a) (qweights a) ulp53 (4.1 * ulp53).
Proof. exact grid_angular. Qed.

(** Grids from the factory, unpruned, with explicit regions, and with a named pruning scheme. *)
Theorem C44_unpruned : forall m d dbg rq k (t : rtraits (FS m)) f n, accurate m d -> accurate_pow m d -> accurate_log m d -> d <= / 2 ^ 50 ->
  In (rq, k) schemes -> rkind_of t = k -> sane_traits t -> transcribed f n ->
  exists (gf : sphobj (FS m)) (g : sphobj RS),
    generate_grid_unpruned (@repo_grids (FS m)) dbg (mkUnpruned rq (Some t) (AQ f) (Z.of_nat n)) = Ok gf /\
    generate_grid_unpruned (@repo_grids RS) dbg (mkUnpruned rq (Some (real_traits t)) (AQ f) (Z.of_nat n)) = Ok g /\
    sized (rt_npts t * n) (sph_quad gf) /\ sized (rt_npts t * n) (sph_quad g) /\
    close_quads (qpoints (sph_quad gf)) (qweights (sph_quad gf)) (qpoints (sph_quad g)) (qweights (sph_quad g)) (point_error d t) (weight_error d t).
Proof. exact grid_unpruned. Qed.

Theorem C44_pruned : forall m d dbg rq k (t : rtraits (FS m)) f rs, accurate m d -> accurate_pow m d -> accurate_log m d -> d <= / 2 ^ 50 ->
  In (rq, k) schemes -> rkind_of t = k -> sane_traits t -> (1 <= rt_npts t)%nat ->
  List.Forall (fun r => r_aq r = AQ f /\ transcribed f (Z.to_nat (r_asz r))) rs ->
  (exists rest, map r_st rs = 0%nat :: rest /\ increasing (0%nat :: rest) /\ List.Forall (fun i => (i < rt_npts t - 1)%nat) rest) ->
  exists (gf : sphobj (FS m)) (g : sphobj RS),
    generate_grid_pruned (@repo_grids (FS m)) dbg (mkPruned rq (Some t) rs) = Ok gf /\
    generate_grid_pruned (@repo_grids RS) dbg (mkPruned rq (Some (real_traits t)) rs) = Ok g /\
    close_quads (qpoints (sph_quad gf)) (qweights (sph_quad gf)) (qpoints (sph_quad g)) (qweights (sph_quad g)) (point_error d t) (weight_error d t).
Proof. exact grid_pruned. Qed.

Theorem C44_schemes : forall m d dbg sch rq k (t : rtraits (FS m)) f n, accurate m d -> accurate_pow m d -> accurate_log m d -> d <= / 2 ^ 50 ->
  In (rq, k) schemes -> rkind_of t = k -> sane_traits t -> (5 <= rt_npts t)%nat -> transcribed f n -> algebraic_order_by_npts f (Z.of_nat n) <> (-1)%Z ->
  exists (gf : sphobj (FS m)) (g : sphobj RS),
    (let* p := create_pruned_spec sch (mkUnpruned rq (Some t) (AQ f) (Z.of_nat n)) in generate_grid_pruned (@repo_grids (FS m)) dbg p) = Ok gf /\
    (let* p := create_pruned_spec sch (mkUnpruned rq (Some (real_traits t)) (AQ f) (Z.of_nat n)) in generate_grid_pruned (@repo_grids RS) dbg p) = Ok g /\
    close_quads (qpoints (sph_quad gf)) (qweights (sph_quad gf)) (qpoints (sph_quad g)) (qweights (sph_quad g)) (point_error d t) (weight_error d t).
Proof. exact grid_schemes. Qed.

(** Sums over the stored grid against sums over the exact grid, for integrands with an envelope. *)
Theorem C44_sum : forall F G e ew pf wf p w, tempered3 F G -> 0 <= e <= / 2 -> 0 <= ew -> close_quads pf wf p w e ew ->
  Rabs (sum3 (map real_pt pf) (map B2R wf) F - sum3 p w F) <= (e + ew + e * ew) * sum3_abs p w G.
Proof. exact grid_sum. Qed.

(** A correctly rounded library, the Mura-Knowles scheme with 30 points, three Lebedev-Laikov regions, a Gaussian. *)
Example C44_ex : let t := @MK (FS rounded_libm) 30 ex_R in
  accurate rounded_libm (/ 2 ^ 53) /\ accurate_pow rounded_libm (/ 2 ^ 53) /\ accurate_log rounded_libm (/ 2 ^ 53) /\
  sane_traits t /\ In (RQMuraKnowles, rkind_of t) schemes /\ transcribed Womersley 51 /\
  List.Forall (fun r => r_aq r = AQ LebedevLaikov /\ transcribed LebedevLaikov (Z.to_nat (r_asz r))) ex_regions /\
  (exists rest, map r_st ex_regions = 0%nat :: rest /\ increasing (0%nat :: rest) /\ List.Forall (fun i => (i < rt_npts t - 1)%nat) rest) /\
  point_error (/ 2 ^ 53) t <= / 10 ^ 10 /\ weight_error (/ 2 ^ 53) t <= / 10 ^ 9 /\ tempered3 gauss3 gauss3_env.
Proof. exact grid_float_ex. Qed.

Print Assumptions C44_literal.
Print Assumptions C44_angular.
Print Assumptions C44_unpruned.
Print Assumptions C44_pruned.
Print Assumptions C44_schemes.
Print Assumptions C44_sum.
