(** Whole spherical grids in binary64 against the same grids in exact arithmetic. *)
From Coq Require Import List Reals ZArith.
From Flocq Require Import IEEE754.BinarySingleNaN.
From Verif Require Import Base.Outcome Base.Scalar Base.RScalar Base.FScalar Model.Quadrature Model.Radial Model.S2 Model.Composite
  Spec.FloatSpec Spec.LibmSpec.
Import ListNotations.
Local Open Scope R_scope.

(** Every coordinate has relative error at most e; in particular a coordinate that is zero is stored as zero. *)
Definition close_pt (e : R) (p : F64 * F64 * F64) (v : R * R * R) : Prop :=
  rel_close (px p) (px v) e /\ rel_close (py p) (py v) e /\ rel_close (pz p) (pz v) e.

(** The same number of nodes, in the same order; each coordinate of a stored point has relative error at most e,
    each stored weight at most ew. *)
Definition close_quads (pf : list (F64 * F64 * F64)) (wf : list F64) (p : list (R * R * R)) (w : list R) (e ew : R) : Prop :=
  Forall2 (close_pt e) pf p /\ Forall2 (fun x v => rel_close x v ew) wf w.

(** Parameters for which no radius or weight comes near the limits of the format. *)
Definition sane_traits {m : libm} (t : rtraits (FS m)) : Prop :=
  match t with
  | Becke n R => (Z.of_nat n <= 2 ^ 17)%Z /\ sane_scale R
  | MHL M n R => (1 <= M <= 2)%nat /\ (Z.of_nat n <= 2 ^ 30)%Z /\ sane_scale R
  | MK n R => (n <= 4000)%nat /\ sane_scale R
  | TA n R al => (Z.of_nat n <= 2 ^ 16)%Z /\ sane_scale R /\ sane_alpha al /\ B2R (al : F64) <= 2
  end.

(** Relative errors of stored radii and radial weights (C43), d being the error of the math library. *)
Definition radius_error {m : libm} (d : R) (t : rtraits (FS m)) : R :=
  match t with
  | Becke n _ => (3 * d + 60 * ulp53) * INR (n + 1) ^ 2
  | MHL M n _ => 3 * d + (7 * INR M + 2) * ulp53 * INR (n + 1)
  | MK n _ => 3 * d + 13 * ulp53 * INR (n + 1) ^ 3
  | TA n _ _ => (12 * d + 300 * ulp53) * INR (n + 1) ^ 2
  end.
Definition radial_weight_error {m : libm} (d : R) (t : rtraits (FS m)) : R :=
  match t with
  | Becke n _ => (5 * d + 100 * ulp53) * INR (n + 1) ^ 2
  | MHL M n _ => 5 * d + (9 * INR M + 7) * ulp53 * INR (n + 1)
  | MK n _ => 30 * ulp53 * INR (n + 1)
  | TA n _ _ => (16 * d + 400 * ulp53) * INR (n + 1) ^ 2
  end.

(** Relative errors of the coordinates and weights of a grid. *)
Definition point_error {m : libm} (d : R) (t : rtraits (FS m)) : R := 1.01 * radius_error d t + 3 * ulp53.
Definition weight_error {m : libm} (d : R) (t : rtraits (FS m)) : R :=
  1.01 * (radial_weight_error d t + 2 * radius_error d t) + 9 * ulp53.

(** The files of the Womersley family that are transcribed. *)
Definition transcribed (f : afam) (n : nat) : Prop := f = Womersley -> (n <= 513)%nat.

(** F is bounded by G, and relative changes of the coordinates by at most s, s <= 1/2, change F by at most s G. *)
Definition tempered3 (F G : R -> R -> R -> R) : Prop :=
  (forall x y z, Rabs (F x y z) <= G x y z) /\
  (forall x y z a b c s, Rabs a <= s -> Rabs b <= s -> Rabs c <= s -> s <= / 2 ->
     Rabs (F (x * (1 + a)) (y * (1 + b)) (z * (1 + c)) - F x y z) <= s * G x y z).

(** The weighted sum of F over the nodes, and the sum of G with the absolute values of the weights. *)
Definition sum3 (p : list (R * R * R)) (w : list R) (F : R -> R -> R -> R) : R :=
  fold_right Rplus 0 (map (fun vw => snd vw * F (px (fst vw)) (py (fst vw)) (pz (fst vw))) (combine p w)).
Definition sum3_abs (p : list (R * R * R)) (w : list R) (G : R -> R -> R -> R) : R :=
  fold_right Rplus 0 (map (fun vw => Rabs (snd vw) * G (px (fst vw)) (py (fst vw)) (pz (fst vw))) (combine p w)).

(** The real numbers a stored point stands for. *)
Definition real_pt (p : F64 * F64 * F64) : R * R * R := (B2R (px p), B2R (py p), B2R (pz p)).
