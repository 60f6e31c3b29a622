(** C01: point and weight arrays always have the requested length. Every statement
    holds for every scalar type, hence in binary64 with any math library as well as
    in exact arithmetic, and with assertions on or off. [sized n q] (Spec/QuadSpec.v)
    says npts = points.size = weights.size = n and that the bounds-checked accessors
    succeed exactly below n and throw out_of_range elsewhere. *)
From Coq Require Import List Arith ZArith QArith.
From Verif Require Import Base.Outcome Base.Scalar Base.QScalar Model.Quadrature Model.Primitive
  Model.Radial Model.S2 Spec.QuadSpec Proofs.Sizes.
Import ListNotations.
Local Open Scope nat_scope.

Theorem C01_uniform : forall (S : Scalar) dbg n (lo up : S), 1 <= n ->
  exists q, construct dbg (uniform_generate n lo up) = Ok q /\ sized n q.
Proof. intros S. exact uniform_sized. Qed.
Example C01_uniform_ex :
  construct true (uniform_generate 5 (1 : QS) (3 : QS))%Q
  = Ok (mkQuad [1; (3 # 2); 2; (5 # 2); 3]%Q [(1 # 4); (1 # 2); (1 # 2); (1 # 2); (1 # 4)]%Q).
Proof. vm_compute. reflexivity. Qed.

(** A zero-point uniform rule reads outside its vectors. *)
Theorem C01_uniform_zero : forall (S : Scalar) dbg (lo up : S),
  construct dbg (uniform_generate 0 lo up) = UB.
Proof. intros S. exact uniform_zero_UB. Qed.

Theorem C01_chebyshev : forall (S : Scalar) dbg n,
  (exists q, construct dbg (@gc1_generate S n) = Ok q /\ sized n q) /\
  (exists q, construct dbg (@gc2_generate S n) = Ok q /\ sized n q) /\
  (exists q, construct dbg (@gc2m_generate S n) = Ok q /\ sized n q) /\
  (exists q, construct dbg (@gc3_generate S n) = Ok q /\ sized n q).
Proof.
  intros S dbg n. exact (conj (gc1_sized dbg n) (conj (gc2_sized dbg n)
    (conj (gc2m_sized dbg n) (gc3_sized dbg n)))).
Qed.

(** Gauss-Legendre and Gauss-Lobatto either have the requested size or throw. *)
Theorem C01_legendre : forall (S : Scalar) dbg n,
  (exists q, construct dbg (@gl_generate S n) = Ok q /\ sized n q) \/
  construct dbg (@gl_generate S n) = Throw ExRuntime.
Proof. intros S. exact gl_sized. Qed.

Theorem C01_lobatto : forall (S : Scalar) dbg n, 1 <= n ->
  (exists q, construct dbg (@lob_generate S n) = Ok q /\ sized n q) \/
  construct dbg (@lob_generate S n) = Throw ExRuntime.
Proof.
  intros S dbg [|[|n]] H; [inversion H| |].
  - left. exact (lob_one_sized dbg).
  - apply lob_sized. auto with arith.
Qed.
Example C01_lobatto_ex : exists q, construct true (@lob_generate QS 2) = Ok q /\ sized 2 q.
Proof. eexists. split; [vm_compute; reflexivity|]. apply sized_intro; reflexivity. Qed.

Theorem C01_lobatto_zero : forall (S : Scalar) dbg, construct dbg (@lob_generate S 0) = UB.
Proof. intros S. exact lob_zero_UB. Qed.

Theorem C01_radial : forall (S : Scalar) dbg (t : rtraits S),
  exists q, construct dbg (radial_generate t) = Ok q /\ sized (rt_npts t) q.
Proof. intros S. exact radial_sized. Qed.
Example C01_radial_ex :
  construct true (radial_generate (MHL 2 3 (1 : QS)%Q))
  = Ok (mkQuad [(1 # 9); 1; 9]%Q [(8 # 27); 2; 24]%Q).
Proof. vm_compute. reflexivity. Qed.

(** Angular grids, for every static data set whose selected file has n entries. *)
Theorem C01_angular : forall (S : Scalar) dbg (grids : afam -> Z -> @static_grid S) f n,
  (forall m, grid_selected f (Z.of_nat n) = Some m ->
     length (fst (grids f m)) = n /\ length (snd (grids f m)) = n) ->
  exists q, construct dbg (s2_generate grids f n) = Ok q /\ sized n q.
Proof. intros S. exact s2_sized. Qed.

(** Copies (also to a base object) and moves keep points and weights. *)
Theorem C01_copy_move : forall P W n (q : quad P W), sized n q ->
  (sized n (quad_copy q) /\ qpoints (quad_copy q) = qpoints q
     /\ qweights (quad_copy q) = qweights q) /\
  (sized n (fst (quad_move q)) /\ qpoints (fst (quad_move q)) = qpoints q
     /\ qweights (fst (quad_move q)) = qweights q /\ sized 0 (snd (quad_move q))).
Proof. intros P W n q H. exact (conj (copy_same P W n q H) (move_same P W n q H)). Qed.
Example C01_sized_ex : sized 2 (mkQuad [1; 2] [3; 4]) /\
  point_at (mkQuad [1; 2] [3; 4]) 1 = Ok 2 /\
  point_at (mkQuad [1; 2] [3; 4]) 2 = Throw ExOutOfRange.
Proof. split; [apply sized_intro; reflexivity|]. split; reflexivity. Qed.

Print Assumptions C01_uniform.
Print Assumptions C01_uniform_zero.
Print Assumptions C01_chebyshev.
Print Assumptions C01_legendre.
Print Assumptions C01_lobatto.
Print Assumptions C01_lobatto_zero.
Print Assumptions C01_radial.
Print Assumptions C01_angular.
Print Assumptions C01_copy_move.
