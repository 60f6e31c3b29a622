(** Specification vocabulary for one-dimensional rules over the reals. *)
From Coq Require Import List Arith Reals.
From Coquelicot Require Import Coquelicot.
From Verif Require Import Spec.Sums.
Import ListNotations.
Local Open Scope R_scope.

(** Value at x of the polynomial with coefficient list p (constant term first). *)
Fixpoint peval (p : list R) (x : R) : R :=
  match p with [] => 0 | a :: p' => a + x * peval p' x end.

(** p has degree at most d. *)
Definition deg_le (p : list R) (d : nat) : Prop := (length p <= d + 1)%nat.

(** What a rule (nodes, weights) assigns to the integrand f. *)
Definition apply_rule (q : list R * list R) (f : R -> R) : R := wsum f (fst q) (snd q).

(** n nodes, strictly increasing, strictly between a and b, with positive weights. *)
Definition good_rule (n : nat) (a b : R) (q : list R * list R) : Prop :=
  length (fst q) = n /\ length (snd q) = n /\
  (forall i j x y, (i < j)%nat -> nth_error (fst q) i = Some x -> nth_error (fst q) j = Some y ->
     x < y) /\
  (forall x, In x (fst q) -> a < x < b) /\
  (forall w, In w (snd q) -> 0 < w).

(** Mirrored positions carry opposite nodes and equal weights. *)
Definition symmetric_rule (q : list R * list R) : Prop :=
  forall i j x y v w, (i + j + 1 = length (fst q))%nat ->
    nth_error (fst q) i = Some x -> nth_error (fst q) j = Some y ->
    nth_error (snd q) i = Some v -> nth_error (snd q) j = Some w ->
    y = - x /\ w = v.

(** The improper integral of f over the open interval (a,b). *)
Definition open_integral (f : R -> R) (a b : R) (I : R) : Prop :=
  is_RInt_gen f (at_right a) (at_left b) I.

(** The rules [rule 1], [rule 2], ... converge to I on the integrand f. *)
Definition rules_converge (rule : nat -> list R * list R -> Prop) (f : R -> R) (I : R) : Prop :=
  forall eps, 0 < eps -> exists N, forall n q, (N <= n)%nat -> rule n q ->
    Rabs (apply_rule q f - I) < eps.

(** The change of variable of Perez-Jorda, San-Fabian and Moscardo (1992), from angles
    t in (0,PI) to abscissas in (-1,1). *)
Definition perez_jorda (t : R) : R :=
  1 - 2 * t / PI + 2 / PI * (1 + 2 / 3 * sin t ^ 2) * cos t * sin t.
