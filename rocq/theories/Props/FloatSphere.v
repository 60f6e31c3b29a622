(** C41: spherical grids and recentering in binary64, for every libm. Vocabulary in Spec/FloatSpec.v. *)
From Coq Require Import List Arith ZArith Reals Lra Lia.
From Flocq Require Import IEEE754.BinarySingleNaN Core.
From Verif Require Import Base.Outcome Base.Scalar Base.FScalar Model.Quadrature Model.S2 Model.Composite
  Spec.QuadSpec Spec.SphereReal Spec.FloatSpec Proofs.FloatSphere.
Import ListNotations.
Local Open Scope R_scope.

(** A built grid: every finite coordinate is r * x + c and every finite weight is w * v * r^2 up to
    rounding. *)
Theorem C41_built : forall m dbg nr na (r : rquad (FS m)) (a : aquad (FS m)) (c : F64 * F64 * F64), sized nr r -> sized na a ->
  exists o, spherical_construct dbg r a c = Ok o /\ sized (nr * na) (sph_quad o) /\ sph_center o = c /\
  forall i j (ri wi vj w : F64) (uj p : F64 * F64 * F64), point_at r i = Ok ri -> weight_at r i = Ok wi ->
    point_at a j = Ok uj -> weight_at a j = Ok vj ->
    point_at (sph_quad o) (i + j * nr) = Ok p -> weight_at (sph_quad o) (i + j * nr) = Ok w ->
    (forall ax, In ax axes -> is_finite (ax p) = true ->
      Rabs (B2R (ax p) - (B2R ri * B2R (ax uj) + B2R (ax c)))
      <= ulp53 * Rabs (B2R ri * B2R (ax uj) + B2R (ax c)) + 2 * ulp53 * Rabs (B2R ri * B2R (ax uj)) + tiny) /\
    (is_finite w = true -> no_underflow (B2R wi * B2R vj) -> no_underflow (B2R ri * B2R ri) ->
      no_underflow (B2R wi * B2R vj * (B2R ri * B2R ri)) ->
      Rabs (B2R w - B2R wi * B2R vj * (B2R ri * B2R ri)) <= 4 * ulp53 * Rabs (B2R wi * B2R vj * (B2R ri * B2R ri))).
Proof. exact points_err. Qed.

(** A sequence of k recenterings moves a point by the difference of the centres up to a rounding
    error that grows with k; rho bounds the distance from the centre and D the centres. *)
Theorem C41_drift : forall m ax, In ax (@axes F64) ->
  forall D rho n cs (o o' : sphobj (FS m)) i (p p' : F64 * F64 * F64),
  sized n (sph_quad o) -> recenters o cs = Ok o' ->
  point_at (sph_quad o) i = Ok p -> point_at (sph_quad o') i = Ok p' -> is_finite (ax p') = true ->
  Rabs (B2R (ax (sph_center o))) <= D -> (forall c, In c cs -> Rabs (B2R (ax c)) <= D) ->
  Rabs (B2R (ax p) - B2R (ax (sph_center o))) <= rho ->
  B2R (ax (sph_center o')) = B2R (ax (last cs (sph_center o))) /\
  Rabs (B2R (ax p') - (B2R (ax p) + (B2R (ax (sph_center o')) - B2R (ax (sph_center o)))))
  <= ((1 + ulp53) ^ length cs - 1) * (rho + 4 * D).
Proof. exact drift0. Qed.

(** Weights never change, and no recentering fails. *)
Theorem C41_weights_kept : forall m n cs (o : sphobj (FS m)), sized n (sph_quad o) ->
  exists o', recenters o cs = Ok o' /\ sized n (sph_quad o') /\ qweights (sph_quad o') = qweights (sph_quad o).
Proof. intro m. exact (@recenters_total (FS m)). Qed.

(** Built at c and then recentered k times, against the exact grid around the last centre. *)
Theorem C41_history : forall m ax, In ax (@axes F64) ->
  forall dbg D nr na (r : rquad (FS m)) (a : aquad (FS m)) (c : F64 * F64 * F64) cs o',
  sized nr r -> sized na a ->
  (let* o := spherical_construct dbg r a c in recenters o cs) = Ok o' ->
  Rabs (B2R (ax c)) <= D -> (forall b, In b cs -> Rabs (B2R (ax b)) <= D) ->
  forall i j (ri : F64) (uj p : F64 * F64 * F64), point_at r i = Ok ri -> point_at a j = Ok uj ->
  point_at (sph_quad o') (i + j * nr) = Ok p -> is_finite (ax p) = true ->
  let rho := Rabs (B2R ri * B2R (ax uj)) in
  let k := length cs in
  Rabs (B2R (ax p) - (B2R ri * B2R (ax uj) + B2R (ax (last cs c))))
  <= ((1 + ulp53) ^ k - 1) * (rho + 4 * D) + (1 + ulp53) ^ k * (ulp53 * (3 * rho + D) + tiny).
Proof. exact drift_built. Qed.

(** Finding: recentering away and back is not the identity; two distinct points of a grid can
    coincide afterwards. *)
Theorem C41_there_and_back_refuted : forall m, exists nr na (r : rquad (FS m)) (a : aquad (FS m)) c c1 o o'
    (p q p' q' : F64 * F64 * F64),
  sized nr r /\ sized na a /\ spherical_construct true r a c = Ok o /\ recenters o [c1; c] = Ok o' /\
  point_at (sph_quad o) 0 = Ok p /\ point_at (sph_quad o) 1 = Ok q /\
  point_at (sph_quad o') 0 = Ok p' /\ point_at (sph_quad o') 1 = Ok q' /\
  Bltb (pz q) (pz p) = true /\ Beqb (pz p') (pz q') = true.
Proof. exact there_and_back. Qed.

(** A grid with two points, recentered twice. *)
Example C41_ex : forall m, In pz (@axes F64) /\ exists o' (p : F64 * F64 * F64),
  (let* o := spherical_construct true (half_way m) (two_poles m) org in recenters o [off1; org]) = Ok o' /\
  point_at (sph_quad o') 0 = Ok p /\ is_finite (pz p) = true /\
  Rabs (B2R (pz org)) <= 1 /\ (forall b, In b [off1; org] -> Rabs (B2R (pz b)) <= 1).
Proof. exact drift_ex. Qed.
Example C41_weight_ex : no_underflow 0 /\ no_underflow 1 /\ no_underflow (-5).
Proof.
  assert (H : bpow radix2 (-1020) <= 1) by (change 1 with (bpow radix2 0); apply bpow_le; lia).
  split; [left; reflexivity|]. split; right; [rewrite Rabs_R1; exact H|].
  replace (Rabs (-5)) with 5; [lra|]. rewrite Rabs_left; lra.
Qed.

Print Assumptions C41_built.
Print Assumptions C41_drift.
Print Assumptions C41_weights_kept.
Print Assumptions C41_history.
Print Assumptions C41_there_and_back_refuted.
