(** C37: integrals do not depend on pruning with one angular rule, on batching, or on
    construction through the factory (exact arithmetic). *)
From Coq Require Import Bool Arith ZArith QArith List Lia Reals.
From Verif Require Import Base.Outcome Base.Scalar Base.QScalar Base.RScalar Model.Quadrature
  Model.Radial Model.S2Tables Model.S2 Model.Composite Model.Batcher Model.Heap Model.Factory
  Spec.QuadSpec Spec.Sums Spec.SphereSpec Spec.BatchSpec Spec.FactorySpec
  Proofs.Sizes Proofs.BatchEx Proofs.FactoryEx Proofs.Compose.
Import ListNotations.
Local Open Scope nat_scope.

(** [u] unpruned, [o] pruned with rule [a] in every region, [bs] the batches of either:
    the same value for every integrand [f]. *)
Theorem C37_pruned_batched : forall part, @conforming RS part ->
  forall dbg nr na (r : rquad RS) idx (a : aquad RS) (p : rgp RS) c, 1 <= nr ->
  sized nr r -> sized na a -> rgp_construct true nr (map (fun i => (i, a)) idx) = Ok p ->
  exists u o, spherical_construct dbg r a c = Ok u /\ pruned_construct dbg r p c = Ok o /\
    (forall f, integrate f (sph_quad o) = integrate f (sph_quad u)) /\
    forall x fuel maxsz x' bidx, x = u \/ x = o ->
      batch_object part fuel maxsz x = Ok (x', bidx) ->
      exists bs, iterate_batches x' bidx = Ok bs /\
        forall f, Rsum (map (fun b => wsum f (fst (snd b)) (snd (snd b))) bs)
                  = integrate f (sph_quad u).
Proof. exact compose_all. Qed.

(** Regions that all name the unpruned angular family and size. *)
Theorem C37_factory : forall (grids : afam -> Z -> @static_grid RS), data_sized grids ->
  forall rq k (t : rtraits RS) f n rs,
  In (rq, k) schemes -> rkind_of t = k -> 1 <= rt_npts t ->
  Forall (fun r => r_aq r = AQ f /\ r_asz r = Z.of_nat n) rs ->
  forall o, generate_grid_pruned grids true (mkPruned rq (Some t) rs) = Ok o ->
  exists u, generate_grid_unpruned grids true (mkUnpruned rq (Some t) (AQ f) (Z.of_nat n)) = Ok u /\
    forall g, integrate g (sph_quad o) = integrate g (sph_quad u).
Proof. exact compose_factory. Qed.

(** Batching any grid object: the batches together give the grid's value. *)
Theorem C37_batched : forall part, @conforming RS part ->
  forall n fuel maxsz (o o' : sphobj RS) idx, sized n (sph_quad o) ->
  batch_object part fuel maxsz o = Ok (o', idx) ->
  exists bs, iterate_batches o' idx = Ok bs /\
    forall f, Rsum (map (fun b => wsum f (fst (snd b)) (snd (snd b))) bs)
              = integrate f (sph_quad o).
Proof. exact batched_integral. Qed.

Example C37_ex : forall a : aquad RS,
  (exists p, rgp_construct true 4 (map (fun i => (i, a)) [0; 2]) = Ok p) /\
  @conforming RS stable_partition /\ data_sized (@ex_grids RS) /\
  Forall (fun r => r_aq r = AQ Delley /\ r_asz r = Z.of_nat 17)
    [mkRegion 0 2 (AQ Delley) 17%Z; mkRegion 2 4 (AQ Delley) 17%Z].
Proof.
  intro a. split; [eexists; reflexivity|]. split; [exact (stable_conforming RS)|].
  split; [exact (ex_sized RS)|]. repeat constructor.
Qed.
Example C37_batch_ex :
  (let* (o, idx) := batch_object stable_partition 10 2 exo in
   let* bs := iterate_batches o idx in
   Ok (map (fun b => (fst (snd b) : list (Q * Q * Q), snd (snd b) : list Q)) bs))
  = Ok [([((-1) # 1, 0, 0)], [2]); ([(0, 0, 0)], [1]); ([(1, 0, 0)], [3]);
        ([(1 # 2, 1, 0)], [4]); ([(1, 1, 1)], [5])]%Q.
Proof. vm_compute. reflexivity. Qed.

Print Assumptions C37_pruned_batched.
Print Assumptions C37_factory.
Print Assumptions C37_batched.
