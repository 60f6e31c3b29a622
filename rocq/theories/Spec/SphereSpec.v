(** Specification vocabulary for spherical grids and radial partitions. *)
From Coq Require Import List Arith.
From Verif Require Import Base.Scalar Model.Quadrature Model.S2.
Import ListNotations.

(** [covers lo hi rs]: the half-open ranges [rs] are non-empty, consecutive, and
    together make up [lo, hi) in order. *)
Fixpoint covers (lo hi : nat) (rs : list (nat * nat)) : Prop :=
  match rs with
  | [] => lo = hi
  | (b, e) :: r => b = lo /\ b < e /\ covers e hi r
  end.

(** Strictly increasing list of indices. *)
Fixpoint increasing (l : list nat) : Prop :=
  match l with
  | x :: ((y :: _) as r) => x < y /\ increasing r
  | _ => True
  end.

(** Non-decreasing list of indices. *)
Fixpoint nondecreasing (l : list nat) : Prop :=
  match l with
  | x :: ((y :: _) as r) => x <= y /\ nondecreasing r
  | _ => True
  end.

(** The ranges delimited by the start indices [l] and the end [n]. *)
Fixpoint slices (l : list nat) (n : nat) : list (nat * nat) :=
  match l with
  | [] => []
  | i :: r => (i, hd n r) :: slices r n
  end.

Section Sphere.
Context {S : Scalar}.
Local Open Scope scalar_scope.

(** Radial node [r] with weight [w] and angular node [u] with weight [v], centred at
    [c]: the point c + r u and the weight w v r^2 (in the code's order of operations). *)
Definition sphere_node (c : @pt3 S) (rw : S * S) (uv : @pt3 S * S) : @pt3 S * S :=
  let '(cx, cy, cz) := c in
  let '(r, w) := rw in
  let '((x, y, z), v) := uv in
  ((r * x + cx, r * y + cy, r * z + cz), (w * v) * (r * r)).

(** (point, weight) pairs of a quadrature object. *)
Definition nodes {P W : Type} (q : quad P W) : list (P * W) :=
  combine (qpoints q) (qweights q).

(** All nodes of the radial shell [rw] with angular rule [a]. *)
Definition shell (c : @pt3 S) (rw : S * S) (a : quad (@pt3 S) S) : list (@pt3 S * S) :=
  map (sphere_node c rw) (nodes a).
End Sphere.
