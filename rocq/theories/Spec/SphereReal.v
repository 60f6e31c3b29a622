(** Specification vocabulary for spherical grids over the reals. *)
From Coq Require Import List Reals.
From Verif Require Import Base.Outcome Base.Scalar Base.RScalar Model.S2 Model.Composite.
Import ListNotations.
Local Open Scope R_scope.

(** Recentering to each element of [cs] in turn. *)
Definition recenters {S : Scalar} (o : sphobj S) (cs : list (@pt3 S)) : outcome (sphobj S) :=
  fold_left (fun (acc : outcome (sphobj S)) c => let* o := acc in recenter c o) cs (Ok o).

(** Euclidean distance. *)
Definition dist3 (p q : @pt3 RS) : R :=
  let '(x, y, z) := p in let '(a, b, c) := q in
  sqrt ((x - a) * (x - a) + (y - b) * (y - b) + (z - c) * (z - c)).

(** The point at signed distance [r] from [c] in direction [u]. *)
Definition at_radius (c : @pt3 RS) (r : R) (u : @pt3 RS) : @pt3 RS :=
  let '(cx, cy, cz) := c in let '(x, y, z) := u in (cx + r * x, cy + r * y, cz + r * z).

(** Unit vectors. *)
Definition unit_vec (u : @pt3 RS) : Prop := let '(x, y, z) := u in x * x + y * y + z * z = 1.

(** Direction of [p] seen from [c]. *)
Definition direction (c p : @pt3 RS) : @pt3 RS :=
  let d := dist3 p c in
  let '(x, y, z) := p in let '(cx, cy, cz) := c in ((x - cx) / d, (y - cy) / d, (z - cz) / d).

