(** C38: pruned grids in builds without assertions (NDEBUG). [slices idx n]
    (Spec/SphereSpec.v) are the ranges between consecutive entries of [idx] and [n]. *)
From Coq Require Import List Bool Arith ZArith QArith Lia Permutation.
From Verif Require Import Base.Outcome Base.Scalar Base.QScalar Model.Quadrature Model.Radial
  Model.S2Tables Model.S2 Model.Composite Model.Factory Spec.QuadSpec Spec.SphereSpec
  Spec.FactorySpec Proofs.Sizes Proofs.PrunedRelease.
Import ListNotations.
Local Open Scope nat_scope.

(** Building a partition from any (start index, angular rule) pairs and the grid from it is
    defined exactly when the start indices are non-decreasing and stay below the number of
    radial points; then the nodes are the shells of the ranges, and otherwise the program
    reads outside its vectors. *)
Theorem C38_partition : forall (S : Scalar) nr (r : rquad S) args c,
  sized nr r -> Forall (fun ia => exists na, sized na (snd ia)) args ->
  let idx := map fst args in
  (idx <> [] /\ nondecreasing idx /\ last idx 0 < nr ->
   exists o, (let* p := rgp_construct false nr args in pruned_construct false r p c) = Ok o /\
     sph_center o = c /\
     sized (list_sum (map (fun ra => (snd (fst ra) - fst (fst ra)) * npts (snd ra))
                        (combine (slices idx nr) (map snd args)))) (sph_quad o) /\
     Permutation (nodes (sph_quad o))
       (flat_map (fun ra => flat_map (fun rw => shell c rw (snd ra))
           (firstn (snd (fst ra) - fst (fst ra)) (skipn (fst (fst ra)) (nodes r))))
         (combine (slices idx nr) (map snd args)))) /\
  (~ (idx <> [] /\ nondecreasing idx /\ last idx 0 < nr) ->
   (let* p := rgp_construct false nr args in pruned_construct false r p c) = UB).
Proof. intros S. exact pruned_release. Qed.

Definition ex_r : rquad QS := mkQuad [1; 2; 3]%Q [1; 1; 1]%Q.
Definition ex_a : aquad QS := mkQuad [(0, 0, 1); (0, 0, -1)]%Q [1; 1]%Q.
Definition ex_b : aquad QS := mkQuad [(1, 0, 0)]%Q [1]%Q.
Example C38_partition_ex : sized 3 ex_r /\ sized 2 ex_a /\ sized 1 ex_b /\
  (let* p := rgp_construct false 3 [(0, ex_a); (2, ex_b); (2, ex_b)] in
   let* o := pruned_construct false ex_r p (0, 0, 0)%Q in Ok (qweights (sph_quad o)))
  = Ok [1; 4; 1; 4; 9]%Q /\
  (let* p := rgp_construct false 3 [(0, ex_a); (3, ex_b)] in
   pruned_construct false ex_r p (0, 0, 0)%Q) = UB.
Proof.
  do 3 (split; [apply sized_intro; reflexivity|]). split; vm_compute; reflexivity.
Qed.

(** The two pruning schemes of the factory, for every radial scheme and size: undefined
    behaviour below three radial points, otherwise a grid with the sizes of the
    specification's regions. With assertions on, fewer than five points are rejected
    (C32_generation). *)
Theorem C38_schemes : forall (S : Scalar) (grids : afam -> Z -> @static_grid S),
  data_sized grids -> forall sch (u : unpruned_spec S) p t k f,
  sch = Robust \/ sch = Treutler ->
  u_traits u = Some t -> u_aq u = AQ f -> In (u_rq u, k) schemes -> rkind_of t = k ->
  create_pruned_spec sch u = Ok p ->
  (rt_npts t < 3 -> generate_grid_pruned grids false p = UB) /\
  (3 <= rt_npts t -> exists o, generate_grid_pruned grids false p = Ok o /\
     sized (list_sum (map (fun r => (r_en r - r_st r) * Z.to_nat (r_asz r)) (p_regions p)))
       (sph_quad o)).
Proof. exact scheme_release. Qed.
Example C38_schemes_ex : forall S : Scalar,
  let u := mkUnpruned RQMuraKnowles (Some (MK 3 (s1 : S))) (AQ LebedevLaikov) 302%Z in
  exists p, create_pruned_spec Treutler u = Ok p /\
    map (fun r => (r_st r, r_en r, r_asz r)) (p_regions p)
    = [(0, 2, 26%Z); (2, 2, 50%Z); (2, 3, 302%Z)].
Proof. intro S. eexists. split; vm_compute; reflexivity. Qed.

(** Finding: without assertions a partition that does not start at index 0 is accepted and
    the leading radial points are dropped. *)
Theorem C38_dropped_points_refuted : exists nr idx, nr = 3 /\ idx = [1] /\
  forall (S : Scalar) (r : rquad S) na (a : aquad S) c, sized nr r -> sized na a ->
  rgp_construct true nr (map (fun i => (i, a)) idx) = AssertFail /\
  exists o, (let* p := rgp_construct false nr (map (fun i => (i, a)) idx) in
             pruned_construct false r p c) = Ok o /\ sized ((nr - 1) * na) (sph_quad o).
Proof. exact release_drops. Qed.

Print Assumptions C38_partition.
Print Assumptions C38_schemes.
Print Assumptions C38_dropped_points_refuted.
