(** Specification vocabulary for Legendre polynomials and the Gauss and Gauss-Lobatto rules. *)
From Coq Require Import List Arith Reals.
From Coquelicot Require Import Coquelicot.
From Verif Require Import Spec.Sums Spec.RealRules.
Import ListNotations.
Local Open Scope R_scope.

(** p is the Legendre polynomial of degree n: degree at most n, value 1 at 1, orthogonal over
    [-1,1] to every polynomial of degree < n (at most n coefficients). *)
Definition legendre_polynomial (n : nat) (p : list R) : Prop :=
  deg_le p n /\ peval p 1 = 1 /\
  forall s, (length s <= n)%nat -> is_RInt (fun x => peval p x * peval s x) (-1) 1 0.

(** Exact over [-1,1] for every polynomial with at most d coefficients (degree < d). *)
Definition exact_below (d : nat) (q : list R * list R) : Prop :=
  forall p, (length p <= d)%nat -> is_RInt (peval p) (-1) 1 (apply_rule q (peval p)).

(** An n-point Gauss-Legendre rule: n nodes in (-1,1), exact up to degree 2n-1. *)
Definition gauss_rule (n : nat) (q : list R * list R) : Prop :=
  good_rule n (-1) 1 q /\ exact_below (2 * n) q.

(** n nodes from -1 to 1, strictly increasing, with positive weights. *)
Definition good_closed_rule (n : nat) (q : list R * list R) : Prop :=
  length (fst q) = n /\ length (snd q) = n /\
  nth_error (fst q) 0 = Some (-1) /\ nth_error (fst q) (n - 1) = Some 1 /\
  (forall i j x y, (i < j)%nat -> nth_error (fst q) i = Some x -> nth_error (fst q) j = Some y ->
     x < y) /\
  (forall w, In w (snd q) -> 0 < w).

(** An n-point Gauss-Lobatto rule: both ends are nodes, exact up to degree 2n-3. *)
Definition lobatto_rule (n : nat) (q : list R * list R) : Prop :=
  good_closed_rule n q /\ exact_below (2 * n - 2) q.

(** The tolerance of the Newton iterations, 2^-52. *)
Definition tol : R := / 2 ^ 52.

(** q agrees with g: nodes up to [dx], weights up to the relative error [dw]. *)
Definition rule_close (dx dw : R) (q g : list R * list R) : Prop :=
  length (fst q) = length (fst g) /\ length (snd q) = length (snd g) /\
  (forall i x y, nth_error (fst q) i = Some x -> nth_error (fst g) i = Some y -> Rabs (x - y) <= dx) /\
  (forall i v w, nth_error (snd q) i = Some v -> nth_error (snd g) i = Some w -> Rabs (v - w) <= dw * w).
