(** Specification vocabulary for symmetric grids: the 48 maps that permute the coordinate axes and change
    signs of coordinates, and what it means that a list of weighted points is carried to itself. *)
From Coq Require Import List Bool Permutation Reals.
From Flocq Require Import IEEE754.BinarySingleNaN.
From Verif Require Import Base.Scalar Base.FScalar Base.RScalar Model.S2 Spec.FloatSpec Spec.GridFloatSpec.
Import ListNotations.

(** Which old coordinate goes where. *)
Inductive axes : Set := XYZ | XZY | YXZ | YZX | ZXY | ZYX.
(** A reordering of the axes followed by sign changes. *)
Record signed_perm : Set := mkSP { sp_axes : axes; sp_x : bool; sp_y : bool; sp_z : bool }.

Definition reorder {A} (a : axes) (p : A * A * A) : A * A * A :=
  let '(x, y, z) := p in
  match a with
  | XYZ => (x, y, z) | XZY => (x, z, y) | YXZ => (y, x, z)
  | YZX => (y, z, x) | ZXY => (z, x, y) | ZYX => (z, y, x)
  end.

(** The map on triples over a type with negation. *)
Definition act {A} (neg : A -> A) (g : signed_perm) (p : A * A * A) : A * A * A :=
  let flip (b : bool) x := if b then neg x else x in
  let '(x, y, z) := reorder (sp_axes g) p in (flip (sp_x g) x, flip (sp_y g) y, flip (sp_z g) z).

(** The point reflection. *)
Definition sp_inversion : signed_perm := mkSP XYZ true true true.

(** Rotations of the tetrahedron: cyclic reorderings with an even number of sign changes (12 maps). *)
Definition tetrahedral (g : signed_perm) : Prop :=
  match sp_axes g with XYZ | YZX | ZXY => True | _ => False end /\
  xorb (sp_x g) (xorb (sp_y g) (sp_z g)) = false.

(** The symmetries claimed for each family: all 48 maps, the 12 rotations, none. *)
Definition family_sym (f : afam) (g : signed_perm) : Prop :=
  match f with
  | LebedevLaikov | Delley => True
  | AhrensBeylkin => tetrahedral g
  | Womersley => False
  end.

(** [carried neg norm g l]: the map [g] carries the list of weighted points to itself up to order, every
    point keeping its weight; [norm] identifies values that should count as equal. *)
Definition norm3 {A} (norm : A -> A) (p : A * A * A) : A * A * A := let '(x, y, z) := p in (norm x, norm y, norm z).
Definition carried {A W} (neg norm : A -> A) (g : signed_perm) (l : list ((A * A * A) * W)) : Prop :=
  Permutation (map (fun pw => (norm3 norm (act neg g (fst pw)), snd pw)) l)
              (map (fun pw => (norm3 norm (fst pw), snd pw)) l).

(** Exact arithmetic: no identification. *)
Definition carried_R (g : signed_perm) (l : list ((R * R * R) * R)) : Prop := carried Ropp (fun x => x) g l.
(** The same about a centre: c + g (p - c). *)
Definition act_about (c : R * R * R) (g : signed_perm) (p : R * R * R) : R * R * R :=
  let '(cx, cy, cz) := c in let '(x, y, z) := p in
  let '(x, y, z) := act Ropp g (x - cx, y - cy, z - cz)%R in (x + cx, y + cy, z + cz)%R.
Definition carried_about (c : R * R * R) (g : signed_perm) (l : list ((R * R * R) * R)) : Prop :=
  Permutation (map (fun pw => (act_about c g (fst pw), snd pw)) l) l.

(** binary64: bit for bit, except that the two zeros count as equal. *)
Definition unsigned0 (x : F64) : F64 := match x with B754_zero _ => B754_zero false | _ => x end.
Definition carried_F (g : signed_perm) (l : list ((F64 * F64 * F64) * F64)) : Prop := carried Bopp unsigned0 g l.

(** A sum over weighted points without rounding. *)
Definition wsum (l : list ((R * R * R) * R)) (f : R * R * R -> R) : R :=
  fold_right (fun pw s => snd pw * f (fst pw) + s)%R 0%R l.
(** The real values stored in a weighted binary64 point. *)
Definition real_node (pw : (F64 * F64 * F64) * F64) : (R * R * R) * R := (real_pt (fst pw), B2R (snd pw)).
