(** C18-C23: product, sub-, spherical and pruned spherical quadratures, radial
    partitions and recentering. Structural statements hold for every scalar type;
    statements about integrals and distances are in exact arithmetic. *)
From Coq Require Import List Bool Arith ZArith QArith Lia Permutation Reals Lra.
From Verif Require Import Base.Outcome Base.Scalar Base.QScalar Base.RScalar Model.Quadrature
  Model.S2 Model.Composite Spec.QuadSpec Spec.Sums Spec.SphereSpec Spec.SphereReal
  Proofs.Sizes Proofs.PrunedFacts Proofs.CompositeProps Proofs.CompositeEdge.
Import ListNotations.
Local Open Scope nat_scope.

(** ** C18 *)
Theorem C18_product : forall P1 W1 P2 W2 P W (opP : P1 -> P2 -> P) (opW : W1 -> W2 -> W)
  dP dW dbg n1 n2 (q1 : quad P1 W1) (q2 : quad P2 W2),
  sized n1 q1 -> sized n2 q2 ->
  exists q, construct dbg (product_generate opP opW dP dW q1 q2) = Ok q /\
    sized (n1 * n2) q /\
    forall i j p1 w1 p2 w2,
      point_at q1 i = Ok p1 -> weight_at q1 i = Ok w1 ->
      point_at q2 j = Ok p2 -> weight_at q2 j = Ok w2 ->
      point_at q (i + j * n1) = Ok (opP p1 p2) /\
      weight_at q (i + j * n1) = Ok (opW w1 w2).
Proof. exact product_spec. Qed.

Theorem C18_iterated_sum : forall P1 P2 P (opP : P1 -> P2 -> P) dP dbg n1 n2
  (q1 : quad P1 R) (q2 : quad P2 R),
  sized n1 q1 -> sized n2 q2 ->
  exists q, construct dbg (product_generate opP Rmult dP 0%R q1 q2) = Ok q /\
    forall f, integrate f q = integrate (fun x => integrate (fun y => f (opP x y)) q2) q1.
Proof. exact product_sum. Qed.

Theorem C18_separable : forall P1 P2 P (opP : P1 -> P2 -> P) dP dbg n1 n2
  (q1 : quad P1 R) (q2 : quad P2 R) (f : P -> R) (g : P1 -> R) (h : P2 -> R),
  sized n1 q1 -> sized n2 q2 ->
  (forall x y, In x (qpoints q1) -> In y (qpoints q2) -> f (opP x y) = (g x * h y)%R) ->
  exists q, construct dbg (product_generate opP Rmult dP 0%R q1 q2) = Ok q /\
    integrate f q = (integrate g q1 * integrate h q2)%R.
Proof. exact product_separable. Qed.

Example C18_ex : sized 2 (mkQuad [1; 2] [10; 20]) /\ sized 3 (mkQuad [3; 4; 5] [1; 2; 3]) /\
  construct true (product_generate pair Nat.mul (0, 0) 0
    (mkQuad [1; 2] [10; 20]) (mkQuad [3; 4; 5] [1; 2; 3]))
  = Ok (mkQuad [(1,3); (2,3); (1,4); (2,4); (1,5); (2,5)] [10; 20; 20; 40; 30; 60]).
Proof. split; [apply sized_intro; reflexivity|]. split; [apply sized_intro; reflexivity|]. reflexivity. Qed.
Example C18_separable_ex : (forall x y : R, In x [1; 2]%R -> In y [3]%R ->
  (fun p => (fst p * snd p * snd p)%R) (x, y) = (x * (y * y))%R).
Proof. intros; simpl; ring. Qed.

(** ** C19 *)
Theorem C19_subquad : forall P W dbg n b e (q : quad P W), sized n q -> b < e -> e <= n ->
  exists s, construct dbg (subquad_generate dbg b e q) = Ok s /\ sized (e - b) s /\
    forall i, i < e - b ->
      point_at s i = point_at q (b + i) /\ weight_at s i = weight_at q (b + i).
Proof. exact subquad_spec. Qed.

Theorem C19_accepted_iff : forall P W n b e (q : quad P W), sized n q ->
  (b < e /\ e <= n <-> exists s, construct true (subquad_generate true b e q) = Ok s) /\
  (~ (b < e /\ e <= n) -> construct true (subquad_generate true b e q) = AssertFail).
Proof. exact subquad_iff. Qed.

Theorem C19_concat : forall P W dbg n b m e (q : quad P W), sized n q ->
  b < m -> m < e -> e <= n ->
  exists s1 s2 s, construct dbg (subquad_generate dbg b m q) = Ok s1 /\
    construct dbg (subquad_generate dbg m e q) = Ok s2 /\
    construct dbg (subquad_generate dbg b e q) = Ok s /\
    qpoints s = qpoints s1 ++ qpoints s2 /\ qweights s = qweights s1 ++ qweights s2.
Proof. exact subquad_concat. Qed.

Theorem C19_whole : forall P W dbg n (q : quad P W), sized n q -> 1 <= n ->
  construct dbg (subquad_generate dbg 0 n q) = Ok q.
Proof. exact subquad_whole. Qed.

(** With assertions compiled out an out-of-range request is undefined behaviour. *)
Theorem C19_unchecked : forall P W n b e (q : quad P W), sized n q ->
  (e < b \/ n < e -> construct false (subquad_generate false b e q) = UB) /\
  (b = e -> e <= n -> construct false (subquad_generate false b e q) = Ok (mkQuad [] [])).
Proof. exact subquad_unchecked. Qed.

Example C19_ex :
  construct true (subquad_generate true 1 3 (mkQuad [10; 20; 30; 40] [1; 2; 3; 4]))
  = Ok (mkQuad [20; 30] [2; 3]).
Proof. reflexivity. Qed.

(** ** C20 *)
Theorem C20_spherical : forall (S : Scalar) dbg nr na (r : rquad S) (a : aquad S) c,
  sized nr r -> sized na a ->
  exists o, spherical_construct dbg r a c = Ok o /\ sph_center o = c /\
    sized (nr * na) (sph_quad o) /\
    forall i j ri wi uj vj,
      point_at r i = Ok ri -> weight_at r i = Ok wi ->
      point_at a j = Ok uj -> weight_at a j = Ok vj ->
      nth_error (nodes (sph_quad o)) (i + j * nr) = Some (sphere_node c (ri, wi) (uj, vj)).
Proof. intros S. exact spherical_spec. Qed.

Theorem C20_iterated_sum : forall dbg nr na (r : rquad RS) (a : aquad RS) c,
  sized nr r -> sized na a ->
  exists o, spherical_construct dbg r a c = Ok o /\
    forall f, integrate f (sph_quad o)
      = integrate (fun rad => rad * rad * integrate (fun u => f (at_radius c rad u)) a)%R r.
Proof. exact spherical_sum. Qed.

Theorem C20_separable : forall dbg nr na (r : rquad RS) (a : aquad RS) c (g : R -> R) (h : @pt3 RS -> R),
  sized nr r -> sized na a ->
  (forall rad, In rad (qpoints r) -> (0 < rad)%R) -> (forall u, In u (qpoints a) -> unit_vec u) ->
  exists o, spherical_construct dbg r a c = Ok o /\
    integrate (fun p => g (dist3 p c) * h (direction c p))%R (sph_quad o)
    = (integrate (fun rad => rad * rad * g rad)%R r * integrate h a)%R.
Proof. exact spherical_separable. Qed.

Theorem C20_radius : forall dbg nr na (r : rquad RS) (a : aquad RS) c,
  sized nr r -> sized na a ->
  (forall rad, In rad (qpoints r) -> (0 <= rad)%R) -> (forall u, In u (qpoints a) -> unit_vec u) ->
  exists o, spherical_construct dbg r a c = Ok o /\
    forall i j rad p, (j < na)%nat -> point_at r i = Ok rad ->
      point_at (sph_quad o) (i + j * nr) = Ok p -> dist3 p c = rad.
Proof. exact spherical_radius. Qed.

Definition ex_r : rquad QS := mkQuad [1; 2]%Q [(1 # 2); 3]%Q.
Definition ex_a : aquad QS := mkQuad [(0, 0, 1); (0, 1, 0); ((3 # 5), 0, (4 # 5))]%Q [1; 2; 1]%Q.
Definition view (o : sphobj QS) : list (Q * Q * Q) * list Q * (Q * Q * Q) :=
  (qpoints (sph_quad o), qweights (sph_quad o), sph_center o).
Example C20_ex : sized 2 ex_r /\ sized 3 ex_a /\
  (let* o := spherical_construct true ex_r ex_a (10, 20, 30)%Q in Ok (view o))
  = Ok (
     [(10,20,31); (10,20,32); (10,21,30); (10,22,30); ((53 # 5),20,(154 # 5)); ((56 # 5),20,(158 # 5))]%Q,
     [(1 # 2); 12; 1; 24; (1 # 2); 12]%Q, (10,20,30)%Q).
Proof.
  split; [apply sized_intro; reflexivity|]. split; [apply sized_intro; reflexivity|].
  vm_compute. reflexivity.
Qed.
Example C20_hyp_ex : sized 1 (mkQuad [2%R] [1%R]) /\
  (forall rad, In rad [2%R] -> (0 < rad)%R) /\
  (forall u, In u [(0, 3/5, 4/5); (1, 0, 0)]%R -> unit_vec u).
Proof.
  split; [apply sized_intro; reflexivity|]. split.
  - intros rad [<-|[]]; lra.
  - intros u [<-|[<-|[]]]; unfold unit_vec; field.
Qed.

(** ** C21 *)
(** Any scalar type: rigid shift, weights unchanged, recentering to the current
    centre ([==] component-wise) is the identity. *)
Theorem C21_recenter : forall (S : Scalar) n (o : sphobj S) c, sized n (sph_quad o) ->
  exists o', recenter c o = Ok o' /\ sized n (sph_quad o') /\
    qweights (sph_quad o') = qweights (sph_quad o) /\
    (pt_eqb c (sph_center o) = true -> o' = o) /\
    (pt_eqb c (sph_center o) = false -> sph_center o' = c /\
       forall i p, point_at (sph_quad o) i = Ok p ->
         point_at (sph_quad o') i =
           Ok (let '(x, y, z) := p in let '(cx, cy, cz) := c in
               let '(ox, oy, oz) := sph_center o in
               (sadd x (ssub cx ox), sadd y (ssub cy oy), sadd z (ssub cz oz)))).
Proof. intros S. exact recenter_spec. Qed.

(** Exact arithmetic: a sequence of recenterings is building at the last centre. *)
Theorem C21_history : forall dbg nr na (r : rquad RS) (a : aquad RS) c cs,
  sized nr r -> sized na a ->
  (let* o := spherical_construct dbg r a c in recenters o cs)
  = spherical_construct dbg r a (last cs c).
Proof. exact recenters_spherical. Qed.

Theorem C21_history_pruned : forall dbg nr (r : rquad RS) args (p : rgp RS) c cs, 1 <= nr ->
  sized nr r -> rgp_construct true nr args = Ok p ->
  Forall (fun ia => exists na, sized na (snd ia)) args ->
  (let* o := pruned_construct dbg r p c in recenters o cs)
  = pruned_construct dbg r p (last cs c).
Proof. exact recenters_pruned. Qed.

Example C21_ex :
  (let* o := spherical_construct true ex_r ex_a (10, 20, 30)%Q in
   let* o := recenter (1, 2, 3)%Q o in
   let* o := recenter (0, 0, (1 # 2))%Q o in Ok (view o))
  = (let* o := spherical_construct true ex_r ex_a (0, 0, (1 # 2))%Q in Ok (view o)).
Proof. vm_compute. reflexivity. Qed.

(** ** C22 *)
(** An accepted partition of nr >= 1 radial points: iteration yields one range per
    angular rule in order, starting at the given starts; the ranges are consecutive, non-empty and make up [0,nr). *)
Theorem C22_partition : forall (S : Scalar) nr args (p : rgp S), 1 <= nr ->
  rgp_construct true nr args = Ok p ->
  exists rs, rgp_ranges p = Ok (combine rs (map snd args)) /\
    map fst rs = map fst args /\ covers 0 nr rs.
Proof. intros S. exact partition_covers. Qed.

(** Acceptance, exactly: the first start is 0, starts strictly increase, and every
    start but the first is below nr - 1. *)
Theorem C22_accepted_iff : forall (S : Scalar) nr (args : list (nat * aquad S)), 1 <= nr ->
  (exists p, rgp_construct true nr args = Ok p) <->
  (exists rest, map fst args = 0 :: rest /\ increasing (0 :: rest) /\
     Forall (fun i => i < nr - 1) rest).
Proof. intros S. exact partition_accepted_iff. Qed.

Theorem C22_rejection : forall (S : Scalar) nr (args : list (nat * aquad S)), args <> [] ->
  (exists p, rgp_construct true nr args = Ok p) \/ rgp_construct true nr args = AssertFail.
Proof. intros S. exact rgp_construct_outcomes. Qed.

Example C22_ex : forall (S : Scalar) (a b c : aquad S),
  (let* p := rgp_construct true 6 [(0, a); (2, b); (4, c)] in rgp_ranges p)
  = Ok [((0, 2), a); ((2, 4), b); ((4, 6), c)].
Proof. reflexivity. Qed.

(** Not every covering partition is accepted: a last region of one radial point
    (start nr-1) trips the assertion. *)
Theorem C22_valid_partition_accepted_refuted : exists nr idx,
  covers 0 nr [(0, 2); (2, 3)] /\ nr = 3 /\ idx = [0; 2] /\
  forall (S : Scalar) (a : aquad S),
    rgp_construct true nr (map (fun i => (i, a)) idx) = AssertFail.
Proof. exact one_point_region_rejected. Qed.

(** With no radial points a partition is accepted and iterating over it is undefined
    behaviour. *)
Theorem C22_empty_refuted : forall (S : Scalar) (a : aquad S), exists p,
  rgp_construct true 0 [(0, a)] = Ok p /\ rgp_ranges p = UB.
Proof. exact empty_partition_UB. Qed.

(** ** C23 *)
(** Point count, per-region angular rule and weights: the nodes are, up to order, the
    shells of every radial node of every region with that region's angular rule. *)
Theorem C23_pruned : forall (S : Scalar) dbg nr (r : rquad S) args (p : rgp S) c, 1 <= nr ->
  sized nr r -> rgp_construct true nr args = Ok p ->
  Forall (fun ia => exists na, sized na (snd ia)) args ->
  exists o rs, pruned_construct dbg r p c = Ok o /\ sph_center o = c /\
    rgp_ranges p = Ok (combine rs (map snd args)) /\ map fst rs = map fst args /\
    covers 0 nr rs /\
    sized (list_sum (map (fun ra => (snd (fst ra) - fst (fst ra)) * npts (snd ra))
                       (combine rs (map snd args)))) (sph_quad o) /\
    Permutation (nodes (sph_quad o))
      (flat_map (fun ra => flat_map (fun rw => shell c rw (snd ra))
          (firstn (snd (fst ra) - fst (fst ra)) (skipn (fst (fst ra)) (nodes r))))
        (combine rs (map snd args))).
Proof. intros S. exact pruned_grid_spec. Qed.

Theorem C23_uniform_is_unpruned : forall (S : Scalar) dbg nr na (r : rquad S) idx (a : aquad S)
  (p : rgp S) c, 1 <= nr ->
  sized nr r -> sized na a -> rgp_construct true nr (map (fun i => (i, a)) idx) = Ok p ->
  exists o u, pruned_construct dbg r p c = Ok o /\ spherical_construct dbg r a c = Ok u /\
    Permutation (nodes (sph_quad o)) (nodes (sph_quad u)).
Proof. intros S. exact pruned_uniform. Qed.

Definition ex_r4 : rquad QS := mkQuad [1; 2; 3; 4]%Q [1; 1; 1; 1]%Q.
Definition ex_a1 : aquad QS := mkQuad [(0, 0, 1)%Q] [1%Q].
Example C23_ex : sized 4 ex_r4 /\
  (let* p := rgp_construct true 4 [(0, ex_a1); (1, ex_a); (2, ex_a1)] in
   let* o := pruned_construct true ex_r4 p (0, 0, 0)%Q in
   Ok (npts (sph_quad o), qweights (sph_quad o)))
  = Ok (6, [1; 4; 8; 4; 9; 16]%Q).
Proof. split; [apply sized_intro; reflexivity|]. vm_compute. reflexivity. Qed.

Print Assumptions C18_product.
Print Assumptions C18_iterated_sum.
Print Assumptions C18_separable.
Print Assumptions C19_subquad.
Print Assumptions C19_accepted_iff.
Print Assumptions C19_concat.
Print Assumptions C19_whole.
Print Assumptions C19_unchecked.
Print Assumptions C20_spherical.
Print Assumptions C20_iterated_sum.
Print Assumptions C20_separable.
Print Assumptions C20_radius.
Print Assumptions C21_recenter.
Print Assumptions C21_history.
Print Assumptions C21_history_pruned.
Print Assumptions C22_partition.
Print Assumptions C22_accepted_iff.
Print Assumptions C22_rejection.
Print Assumptions C22_valid_partition_accepted_refuted.
Print Assumptions C22_empty_refuted.
Print Assumptions C23_pruned.
Print Assumptions C23_uniform_is_unpruned.
