(** What is assumed of the math library in the binary64 theorems that need its accuracy. *)
From Coq Require Import List Reals.
From Flocq Require Import IEEE754.BinarySingleNaN.
From Verif Require Import Base.Scalar Base.RScalar Base.FScalar Model.Radial.
Local Open Scope R_scope.

(** For arguments between 0 and 4, cos and sin are finite, between -1 and 1 and within d of the real
    functions. A correctly rounded library has d = 2^-54. *)
Definition accurate (m : libm) (d : R) : Prop :=
  forall x : F64, is_finite x = true -> 0 <= B2R x <= 4 ->
    (is_finite (m_cos m x) = true /\ Rabs (B2R (m_cos m x)) <= 1 /\ Rabs (B2R (m_cos m x) - cos (B2R x)) <= d) /\
    (is_finite (m_sin m x) = true /\ Rabs (B2R (m_sin m x)) <= 1 /\ Rabs (B2R (m_sin m x) - sin (B2R x)) <= d).

(** The real numbers stored in a binary64 rule. *)
Definition real_rule (q : list F64 * list F64) : list R * list R := (map B2R (fst q), map B2R (snd q)).

(** Every node and weight is finite. *)
Definition all_finite (q : list F64 * list F64) : Prop :=
  forall x, In x (fst q) \/ In x (snd q) -> is_finite x = true.

(** [q] has as many nodes and weights as [q']; its nodes are within ex of those of q', and the weight at the
    node x of q' with weight w there differs by at most ew x w. *)
Definition close_rules (q q' : list R * list R) (ex : R) (ew : R -> R -> R) : Prop :=
  length (fst q) = length (fst q') /\ length (snd q) = length (snd q') /\
  forall i x x' w w', nth_error (fst q) i = Some x -> nth_error (fst q') i = Some x' ->
    nth_error (snd q) i = Some w -> nth_error (snd q') i = Some w' ->
    Rabs (x - x') <= ex /\ Rabs (w - w') <= ew x' w'.

(** f is bounded by M and changes by at most L times the distance, on [-r,r]. *)
Definition tame (r : R) (f : R -> R) (M L : R) : Prop :=
  (forall x, - r <= x <= r -> Rabs (f x) <= M) /\
  (forall x y, - r <= x <= r -> - r <= y <= r -> Rabs (f x - f y) <= L * Rabs (x - y)).

(** The same on [0,1]. *)
Definition tame01 (f : R -> R) (M L : R) : Prop :=
  (forall x, 0 <= x <= 1 -> Rabs (f x) <= M) /\
  (forall x y, 0 <= x <= 1 -> 0 <= y <= 1 -> Rabs (f x - f y) <= L * Rabs (x - y)).

(** x is finite and approximates v with relative error at most e. *)
Definition rel_close (x : F64) (v e : R) : Prop := is_finite x = true /\ Rabs (B2R x - v) <= e * Rabs v.

(** pow and log have relative error at most d, where the power neither overflows nor underflows. In particular
    log 1 is zero. A correctly rounded library has d = 2^-53. *)
Definition accurate_pow (m : libm) (d : R) : Prop :=
  forall x y : F64, is_finite x = true -> is_finite y = true -> 0 < B2R x ->
    / 2 ^ 500 <= Rpower (B2R x) (B2R y) <= 2 ^ 500 -> rel_close (m_pow m x y) (Rpower (B2R x) (B2R y)) d.
Definition accurate_log (m : libm) (d : R) : Prop :=
  forall x : F64, is_finite x = true -> 0 < B2R x -> rel_close (m_log m x) (ln (B2R x)) d.

(** The radial scheme with the same parameters in exact arithmetic. *)
Definition real_traits {m : libm} (t : rtraits (FS m)) : rtraits RS :=
  match t with
  | Becke n R => Becke n (B2R (R : F64) : RS)
  | MHL M n R => MHL M n (B2R (R : F64) : RS)
  | MK n R => MK n (B2R (R : F64) : RS)
  | TA n R al => TA n (B2R (R : F64) : RS) (B2R (al : F64) : RS)
  end.

(** A scale between 2^-100 and 2^100. *)
Definition sane_scale (R : F64) : Prop := is_finite R = true /\ / 2 ^ 100 <= B2R R <= 2 ^ 100.

(** A Treutler-Ahlrichs exponent that is zero or between 2^-100 and 8. *)
Definition sane_alpha (al : F64) : Prop := is_finite al = true /\ (B2R al = 0 \/ / 2 ^ 100 <= B2R al <= 8).

(** The rules have the same length; each stored node has relative error at most er, each stored weight at most ew. *)
Definition rel_rules (qf : list F64 * list F64) (q : list R * list R) (er ew : R) : Prop :=
  length (fst qf) = length (fst q) /\ length (snd qf) = length (snd q) /\
  (forall i x v, nth_error (fst qf) i = Some x -> nth_error (fst q) i = Some v -> rel_close x v er) /\
  (forall i x v, nth_error (snd qf) i = Some x -> nth_error (snd q) i = Some v -> rel_close x v ew).

(** n finite radii, positive and strictly increasing, and n finite positive weights. *)
Definition good_radial (n : nat) (qf : list F64 * list F64) : Prop :=
  all_finite qf /\ length (fst qf) = n /\ length (snd qf) = n /\
  (forall i j x y, (i < j)%nat -> nth_error (fst qf) i = Some x -> nth_error (fst qf) j = Some y -> B2R x < B2R y) /\
  (forall x, In x (fst qf) -> 0 < B2R x) /\ (forall w, In w (snd qf) -> 0 < B2R w).

(** f is bounded by g, and a relative change s of its argument, at most one half, changes it by at most s times g. *)
Definition tempered (f g : R -> R) : Prop :=
  (forall r, 0 < r -> Rabs (f r) <= g r) /\
  (forall r s, 0 < r -> Rabs s <= / 2 -> Rabs (f (r * (1 + s)) - f r) <= g r * Rabs s).
