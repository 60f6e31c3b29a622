(** C52: symmetry of the grids. Lebedev-Laikov and Delley grids are carried to themselves by all 48 signed
    permutations of the axes, Ahrens-Beylkin grids by the 12 rotations of the tetrahedron, every point keeping
    its weight; grids built from them inherit it, in binary64 exactly and whatever the math library.
    Vocabulary in Spec/SymSpec.v. *)
From Coq Require Import ZArith List Bool Arith Lia Permutation Reals Lra.
From Flocq Require Import IEEE754.BinarySingleNaN.
From Verif Require Import Base.Outcome Base.Scalar Base.FScalar Base.RScalar Model.Quadrature Model.S2 Model.Grids Model.Radial Model.Composite
  Model.Factory Spec.QuadSpec Spec.SphereSpec Spec.SphereReal Spec.FactorySpec Spec.FloatSpec Spec.GridFloatSpec Spec.SymSpec Proofs.SymFloat.
Import ListNotations.

(** ** Angular grids: every size, including the unsupported ones (whose points are all zero). *)
Theorem C52_angular_exact : forall f dbg n, f <> Womersley ->
  exists q : quad (@pt3 RS) R, construct dbg (s2_generate (@repo_grids RS) f n) = Ok q /\ sized n q /\
    forall g, family_sym f g -> carried_R g (nodes q).
Proof. exact angular_exact. Qed.

Theorem C52_angular_binary64 : forall m f dbg n, f <> Womersley ->
  exists q : aquad (FS m), construct dbg (s2_generate (@repo_grids (FS m)) f n) = Ok q /\ sized n q /\
    forall g, family_sym f g -> carried_F g (nodes q).
Proof. exact angular_float. Qed.

(** ** Grids of the factory, in binary64, bit for bit up to the sign of zeros: any traits, any math library *)
Theorem C52_unpruned_binary64 : forall m dbg rq k (t : rtraits (FS m)) f n, In (rq, k) schemes -> rkind_of t = k -> f <> Womersley ->
  exists o, generate_grid_unpruned (@repo_grids (FS m)) dbg (mkUnpruned rq (Some t) (AQ f) (Z.of_nat n)) = Ok o /\
    sized (rt_npts t * n) (sph_quad o) /\ forall g, family_sym f g -> carried_F g (nodes (sph_quad o)).
Proof. exact unpruned_float. Qed.

Theorem C52_pruned_binary64 : forall m dbg rq k (t : rtraits (FS m)) f rs, In (rq, k) schemes -> rkind_of t = k -> (1 <= rt_npts t)%nat ->
  f <> Womersley -> Forall (fun r => r_aq r = AQ f) rs ->
  (exists rest, map r_st rs = 0%nat :: rest /\ increasing (0%nat :: rest) /\ List.Forall (fun i => (i < rt_npts t - 1)%nat) rest) ->
  exists o, generate_grid_pruned (@repo_grids (FS m)) dbg (mkPruned rq (Some t) rs) = Ok o /\
    forall g, family_sym f g -> carried_F g (nodes (sph_quad o)).
Proof. exact pruned_float. Qed.

Theorem C52_schemes_binary64 : forall m dbg sch rq k (t : rtraits (FS m)) f n, In (rq, k) schemes -> rkind_of t = k -> (5 <= rt_npts t)%nat ->
  f <> Womersley -> algebraic_order_by_npts f (Z.of_nat n) <> (-1)%Z ->
  exists o, (let* p := create_pruned_spec sch (mkUnpruned rq (Some t) (AQ f) (Z.of_nat n)) in generate_grid_pruned (@repo_grids (FS m)) dbg p) = Ok o /\
    forall g, family_sym f g -> carried_F g (nodes (sph_quad o)).
Proof. exact schemes_float. Qed.

(** Sums over the stored values, without rounding: moving the integrand changes nothing, and an integrand that
    changes sign sums to zero. *)
Theorem C52_sum_binary64 : forall g l, carried_F g l -> forall f,
  wsum (map real_node l) (fun p => f (act Ropp g p)) = wsum (map real_node l) f.
Proof. exact float_sum. Qed.
Theorem C52_odd_binary64 : forall g l, carried_F g l -> forall f, (forall p, f (act Ropp g p) = (- f p)%R) -> wsum (map real_node l) f = 0%R.
Proof. exact float_odd. Qed.

(** ** Exact arithmetic: the same about the centre after any history of recentring *)
Theorem C52_unpruned_exact : forall dbg rq k (t : rtraits RS) f n cs, In (rq, k) schemes -> rkind_of t = k -> f <> Womersley ->
  exists o, (let* o := generate_grid_unpruned (@repo_grids RS) dbg (mkUnpruned rq (Some t) (AQ f) (Z.of_nat n)) in recenters o cs) = Ok o /\
    forall g, family_sym f g -> carried_about (last cs (0, 0, 0)%R) g (nodes (sph_quad o)).
Proof. exact unpruned_exact. Qed.

Theorem C52_pruned_exact : forall dbg rq k (t : rtraits RS) f rs cs, In (rq, k) schemes -> rkind_of t = k -> (1 <= rt_npts t)%nat ->
  f <> Womersley -> Forall (fun r => r_aq r = AQ f) rs ->
  (exists rest, map r_st rs = 0%nat :: rest /\ increasing (0%nat :: rest) /\ List.Forall (fun i => (i < rt_npts t - 1)%nat) rest) ->
  exists o, (let* o := generate_grid_pruned (@repo_grids RS) dbg (mkPruned rq (Some t) rs) in recenters o cs) = Ok o /\
    forall g, family_sym f g -> carried_about (last cs (0, 0, 0)%R) g (nodes (sph_quad o)).
Proof. exact pruned_exact. Qed.

Theorem C52_sum_exact : forall c g l, carried_about c g l -> forall f, wsum l (fun p => f (act_about c g p)) = wsum l f.
Proof. exact about_sum. Qed.
Theorem C52_odd_exact : forall c g l, carried_about c g l -> forall f, (forall p, f (act_about c g p) = (- f p)%R) -> wsum l f = 0%R.
Proof. exact about_odd. Qed.

(** ** Limits: Ahrens-Beylkin grids are not symmetric under point reflection, and binary64 grids can lose
    their symmetry about a centre other than the origin. *)
Theorem C52_ab_inversion_refuted : exists n q, algebraic_order_by_npts AhrensBeylkin (Z.of_nat n) <> (-1)%Z /\
  construct true (s2_generate (@repo_grids RS) AhrensBeylkin n) = Ok q /\ ~ carried_R sp_inversion (nodes q).
Proof. exact ab_inversion. Qed.

Theorem C52_shifted_binary64_refuted : exists (r : rquad (FS no_libm)) (a : aquad (FS no_libm)) c (o : sphobj (FS no_libm)),
  sized 1 r /\ construct true (s2_generate (@repo_grids (FS no_libm)) LebedevLaikov 6) = Ok a /\
  spherical_construct true r a c = Ok o /\ ~ carried_about (real_pt c) sp_inversion (map real_node (nodes (sph_quad o))).
Proof. exact shift_breaks. Qed.

(** A Mura-Knowles grid of 30 shells of 302 points; the quarter turn about the z axis, the point reflection, a
    tetrahedral rotation; the dipole integrand x and its sign change; a list carried to itself. *)
Example C52_ex : let t := @MK (FS no_libm) 30 (f_of 3 0) in
  In (RQMuraKnowles, rkind_of t) schemes /\ LebedevLaikov <> Womersley /\ (5 <= rt_npts t)%nat /\
  algebraic_order_by_npts LebedevLaikov (Z.of_nat 302) <> (-1)%Z /\
  family_sym LebedevLaikov (mkSP YXZ true false false) /\ family_sym AhrensBeylkin (mkSP YZX true true false) /\
  ~ family_sym AhrensBeylkin sp_inversion /\
  act Ropp (mkSP YXZ true false false) (1, 2, 3)%R = (- (2), 1, 3)%R /\
  (forall p : R * R * R, fst (fst (act Ropp sp_inversion p)) = (- fst (fst p))%R) /\
  carried_F sp_inversion [((f_of 1 0, f_of 0 0, f_of 0 0), f_of 2 0); ((f_of (-1) 0, f_of 0 0, f_of 0 0), f_of 2 0)].
Proof.
  intro t. split; [cbn; tauto|]. split; [discriminate|]. split; [vm_compute; repeat constructor|]. split; [vm_compute; discriminate|]. split; [exact I|].
  split; [split; cbn; auto|]. split; [intros [_ H]; discriminate H|]. split; [reflexivity|]. split; [intros [[x y] z]; reflexivity|].
  assert (E1 : norm3 unsigned0 (act Bopp sp_inversion (f_of (-1) 0, f_of 0 0, f_of 0 0)) = norm3 unsigned0 (f_of 1 0, f_of 0 0, f_of 0 0)).
  { cbn [norm3 act reorder sp_inversion sp_axes sp_x sp_y sp_z]. repeat apply f_equal2; apply B2SF_inj; vm_compute; reflexivity. }
  assert (E2 : norm3 unsigned0 (act Bopp sp_inversion (f_of 1 0, f_of 0 0, f_of 0 0)) = norm3 unsigned0 (f_of (-1) 0, f_of 0 0, f_of 0 0)).
  { cbn [norm3 act reorder sp_inversion sp_axes sp_x sp_y sp_z]. repeat apply f_equal2; apply B2SF_inj; vm_compute; reflexivity. }
  unfold carried_F, carried. cbn [map fst snd]. rewrite E1, E2. apply perm_swap.
Qed.

Print Assumptions C52_angular_exact.
Print Assumptions C52_angular_binary64.
Print Assumptions C52_unpruned_binary64.
Print Assumptions C52_pruned_binary64.
Print Assumptions C52_schemes_binary64.
Print Assumptions C52_sum_binary64.
Print Assumptions C52_odd_binary64.
Print Assumptions C52_unpruned_exact.
Print Assumptions C52_pruned_exact.
Print Assumptions C52_sum_exact.
Print Assumptions C52_odd_exact.
Print Assumptions C52_ab_inversion_refuted.
Print Assumptions C52_shifted_binary64_refuted.
