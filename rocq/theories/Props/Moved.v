(** C59: stored grids that are recentred, as every molecular calculation does, against the exact grid around the last
    centre and against the integral over space. [centre_within], [near_quads], [tempered_about] in Spec/MovedSpec.v. *)
From Coq Require Import ZArith List Bool Reals Lra Lia.
From Coquelicot Require Import Coquelicot.
From Flocq Require Import IEEE754.BinarySingleNaN.
From Verif Require Import Base.Outcome Base.Scalar Base.RScalar Base.FScalar Model.Quadrature Model.Primitive Model.Radial Model.S2Tables Model.S2
  Model.Composite Model.Factory Model.Grids Spec.QuadSpec Spec.Sums Spec.SphereSpec Spec.RealRules Spec.RadialSpec Spec.SphereReal
  Spec.SphereInt Spec.SpaceSpec Spec.TraitsSpec Spec.FactorySpec Spec.PolySpec Spec.MomentSpec Spec.FloatSpec Spec.LibmSpec Spec.GridFloatSpec
  Spec.ErrorSpec Spec.RadialErrSpec Spec.MovedSpec
  Proofs.ChebFloat Proofs.RadialFloatLib Proofs.GridFloatSum Proofs.RadialErrEx Proofs.RadialErrFloat Proofs.Moved Proofs.MovedGrid Proofs.MovedEx.
Import ListNotations.
Local Open Scope R_scope.

(** Any number of recenterings keeps finite coordinates finite, as long as the centres are at most 2^900. *)
Theorem C59_finite : forall m cs (o o' : sphobj (FS m)), centre_within (2 ^ 900) (sph_center o) -> List.Forall (centre_within (2 ^ 900)) cs ->
  List.Forall finite_pt (qpoints (sph_quad o)) -> recenters o cs = Ok o' -> List.Forall finite_pt (qpoints (sph_quad o')).
Proof. exact recenters_finite. Qed.

(** Finding: with larger centres a coordinate overflows and stays lost when the grid returns to its first centre. *)
Theorem C59_finite_refuted : forall m, exists nr na (r : rquad (FS m)) (a : aquad (FS m)) c c1 c2 o o' (p p' : F64 * F64 * F64),
  sized nr r /\ sized na a /\ finite_pt c /\ finite_pt c1 /\ finite_pt c2 /\ spherical_construct true r a c = Ok o /\ recenters o [c1; c2; c] = Ok o' /\
  sph_center o' = sph_center o /\ point_at (sph_quad o) 0 = Ok p /\ point_at (sph_quad o') 0 = Ok p' /\ finite_pt p /\ is_finite (px p') = false.
Proof. exact far_and_back. Qed.

(** Grids from the factories, recentred k times: a coordinate at distance d from the centre has an error of at most
    (point error + 8 k 2^-53) (d + D); weights keep their relative error. *)
Theorem C59_unpruned : forall m d D cs, accurate m d -> accurate_pow m d -> accurate_log m d -> d <= / 2 ^ 50 ->
  0 <= D <= 2 ^ 900 -> INR (length cs) <= 2 ^ 52 -> List.Forall (centre_within D) cs ->
  forall dbg rq k (t : rtraits (FS m)) f n, In (rq, k) schemes -> rkind_of t = k -> sane_traits t -> transcribed f n ->
  exists (o' : sphobj (FS m)) (o : sphobj RS),
    (let* g := generate_grid_unpruned (@repo_grids (FS m)) dbg (mkUnpruned rq (Some t) (AQ f) (Z.of_nat n)) in recenters g cs) = Ok o' /\
    (let* g := generate_grid_unpruned (@repo_grids RS) dbg (mkUnpruned rq (Some (real_traits t)) (AQ f) (Z.of_nat n)) in recenters g (map real_pt cs)) = Ok o /\
    near_quads (point_error d t + 8 * INR (length cs) * ulp53) D (last (map real_pt cs) (0, 0, 0)) (qpoints (sph_quad o')) (qweights (sph_quad o'))
      (qpoints (sph_quad o)) (qweights (sph_quad o)) (weight_error d t).
Proof. exact moved_unpruned. Qed.

Theorem C59_pruned : forall m d D cs, accurate m d -> accurate_pow m d -> accurate_log m d -> d <= / 2 ^ 50 ->
  0 <= D <= 2 ^ 900 -> INR (length cs) <= 2 ^ 52 -> List.Forall (centre_within D) cs ->
  forall dbg rq k (t : rtraits (FS m)) f rs, In (rq, k) schemes -> rkind_of t = k -> sane_traits t -> (1 <= rt_npts t)%nat ->
  List.Forall (fun r => r_aq r = AQ f /\ transcribed f (Z.to_nat (r_asz r))) rs ->
  (exists rest, map r_st rs = 0%nat :: rest /\ increasing (0%nat :: rest) /\ List.Forall (fun i => (i < rt_npts t - 1)%nat) rest) ->
  exists (o' : sphobj (FS m)) (o : sphobj RS),
    (let* g := generate_grid_pruned (@repo_grids (FS m)) dbg (mkPruned rq (Some t) rs) in recenters g cs) = Ok o' /\
    (let* g := generate_grid_pruned (@repo_grids RS) dbg (mkPruned rq (Some (real_traits t)) rs) in recenters g (map real_pt cs)) = Ok o /\
    near_quads (point_error d t + 8 * INR (length cs) * ulp53) D (last (map real_pt cs) (0, 0, 0)) (qpoints (sph_quad o')) (qweights (sph_quad o'))
      (qpoints (sph_quad o)) (qweights (sph_quad o)) (weight_error d t).
Proof. exact moved_pruned. Qed.

Theorem C59_schemes : forall m d D cs, accurate m d -> accurate_pow m d -> accurate_log m d -> d <= / 2 ^ 50 ->
  0 <= D <= 2 ^ 900 -> INR (length cs) <= 2 ^ 52 -> List.Forall (centre_within D) cs ->
  forall dbg sch rq k (t : rtraits (FS m)) f n, In (rq, k) schemes -> rkind_of t = k -> sane_traits t -> (5 <= rt_npts t)%nat ->
  transcribed f n -> algebraic_order_by_npts f (Z.of_nat n) <> (-1)%Z ->
  exists (o' : sphobj (FS m)) (o : sphobj RS),
    (let* p := create_pruned_spec sch (mkUnpruned rq (Some t) (AQ f) (Z.of_nat n)) in
     let* g := generate_grid_pruned (@repo_grids (FS m)) dbg p in recenters g cs) = Ok o' /\
    (let* p := create_pruned_spec sch (mkUnpruned rq (Some (real_traits t)) (AQ f) (Z.of_nat n)) in
     let* g := generate_grid_pruned (@repo_grids RS) dbg p in recenters g (map real_pt cs)) = Ok o /\
    near_quads (point_error d t + 8 * INR (length cs) * ulp53) D (last (map real_pt cs) (0, 0, 0)) (qpoints (sph_quad o')) (qweights (sph_quad o'))
      (qpoints (sph_quad o)) (qweights (sph_quad o)) (weight_error d t).
Proof. exact moved_schemes. Qed.

(** Sums over the stored grid against sums over the exact grid. *)
Theorem C59_sum : forall F G e s ew D c pf wf p w, tempered_about c D e F G -> 0 <= s <= e -> 0 <= ew -> near_quads s D c pf wf p w ew ->
  Rabs (sum3 (map real_pt pf) (map B2R wf) (fun x y z => F (x, y, z)) - sum3 p w (fun x y z => F (x, y, z)))
  <= (s + ew + s * ew) * sum3_abs p w (fun x y z => G (x, y, z)).
Proof. exact near_sum. Qed.

(** The stored, pruned, recentred grid against the integral over space. *)
Theorem C59_integral : forall m dl dbg sch rq k (t : rtraits (FS m)) f n cs g G P d tol W D E H I e J e' K e'',
  accurate m dl -> accurate_pow m dl -> accurate_log m dl -> dl <= / 2 ^ 50 -> 0 <= D <= 2 ^ 900 -> INR (length cs) <= 2 ^ 52 -> List.Forall (centre_within D) cs ->
  In (rq, k) schemes -> rkind_of t = k -> sane_traits t -> (5 <= rt_npts t)%nat -> algebraic_order_by_npts f n <> (-1)%Z ->
  List.Forall (fun s => exact_for f d tol s /\ weight_max f s <= W) (scheme_sizes sch f n) -> 0 <= tol -> 0 <= W ->
  p3deg_le P d -> steady (/ 10 ^ 15) g G -> let c := last (map real_pt cs) (0, 0, 0) in let s := point_error dl t + 8 * INR (length cs) * ulp53 in s <= / 500 ->
  tempered_about c D (/ 500) (moment c g P) (fun p => E (dist3 p c)) -> (forall r, 0 <= r -> 0 <= E r) -> covered (/ 1000) E H ->
  rated (real_traits t) (fun r => r * r * sphere_int (fun x y z => moment c g P (at_radius c r (x, y, z)))) I e ->
  rated (real_traits t) (fun r => r * r * (p3mag P r * G r)) J e' -> rated (real_traits t) (fun r => r * r * H r) K e'' ->
  exists o : sphobj (FS m),
    (let* p := create_pruned_spec sch (mkUnpruned rq (Some t) (AQ f) n) in
     let* g := generate_grid_pruned (@repo_grids (FS m)) dbg p in recenters g cs) = Ok o /\
    space_integral c (moment c g P) I /\
    Rabs (sum3 (map real_pt (qpoints (sph_quad o))) (map B2R (qweights (sph_quad o))) (fun x y z => moment c g P (x, y, z)) - I)
    <= e + 2 * tol * (INR d + 1) ^ 2 * (J + e') + 1.1 * W * (s + weight_error dl t) * (K + e'').
Proof. exact moved_integral. Qed.

(** Recentred to (0,0,1) and then to (-1,0,1): the function (1 + r)^-5 of the distance r from the last centre; the remaining
    hypotheses of C59_integral are met by C58_grid_ex, C58_steady_ex and C58_machine_ex. *)
Example C59_centres_ex : List.Forall (centre_within 1) ex_centres.
Proof. exact ex_within. Qed.
Example C59_tempered_ex : forall c, tempered_about c 1 (/ 500) (moment c ex_g ex_one) (fun p => 22 * ex_g (dist3 p c)).
Proof. exact ex_about. Qed.
Example C59_integral_ex : let R := PI ^ 3 * (5 / 2) / (12 * INR 31 ^ 2) in let c := last (map real_pt ex_centres) (0, 0, 0) in
  point_error (/ 2 ^ 53) ex_t + 8 * INR (length ex_centres) * ulp53 <= / 500 /\ covered (/ 1000) (fun r => 22 * ex_g r) (fun r => 23 * ex_g r) /\
  rated (real_traits ex_t) (fun r => r * r * sphere_int (fun x y z => moment c ex_g ex_one (at_radius c r (x, y, z)))) (PI / 3) (4 * PI * R) /\
  rated (real_traits ex_t) (fun r => r * r * (23 * ex_g r)) (23 / 12) (23 * R).
Proof. exact ex_moved. Qed.

(** The pieces together: 30 radial points, at most 302 angular points, either pruning scheme, debug or release. *)
Example C59_closed_ex : forall dbg sch, let R := PI ^ 3 * (5 / 2) / (12 * INR 31 ^ 2) in let c := last (map real_pt ex_centres) (0, 0, 0) in
  exists o : sphobj (FS rounded_libm),
    (let* p := create_pruned_spec sch (mkUnpruned RQBecke (Some ex_t) (AQ LebedevLaikov) 302) in
     let* g := generate_grid_pruned (@repo_grids (FS rounded_libm)) dbg p in recenters g ex_centres) = Ok o /\
    space_integral c (moment c ex_g ex_one) (PI / 3) /\
    Rabs (sum3 (map real_pt (qpoints (sph_quad o))) (map B2R (qweights (sph_quad o))) (fun x y z => moment c ex_g ex_one (x, y, z)) - PI / 3)
    <= 4 * PI * R + 2 * (2 / 10 ^ 13) * (INR 0 + 1) ^ 2 * (6 / 12 + 6 * R) +
       1.1 * 13 * (point_error (/ 2 ^ 53) ex_t + 8 * INR (length ex_centres) * ulp53 + weight_error (/ 2 ^ 53) ex_t) * (23 / 12 + 23 * R).
Proof. exact ex_closed. Qed.

Print Assumptions C59_finite.
Print Assumptions C59_finite_refuted.
Print Assumptions C59_unpruned.
Print Assumptions C59_pruned.
Print Assumptions C59_schemes.
Print Assumptions C59_sum.
Print Assumptions C59_integral.
