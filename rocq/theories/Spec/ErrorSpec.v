(** Specification vocabulary for the error of rules on smooth and on Lipschitz integrands. *)
From Coq Require Import Reals.
From Coquelicot Require Import Coquelicot.
Local Open Scope R_scope.

(** F 0 has the derivatives F 1, ..., F N on [a,b], and the last is bounded by M. *)
Definition smooth (a b : R) (N : nat) (F : nat -> R -> R) (M : R) : Prop :=
  (forall k t, (k < N)%nat -> a <= t <= b -> is_derive (F k) t (F (S k) t)) /\
  (forall t, a <= t <= b -> Rabs (F N t) <= M).

(** f changes by at most L times the distance on [a,b]. *)
Definition lipschitz (a b L : R) (f : R -> R) : Prop :=
  forall x y, a <= x <= b -> a <= y <= b -> Rabs (f x - f y) <= L * Rabs (x - y).

(** f and g differ by at most d on [a,b]. *)
Definition within (a b d : R) (f g : R -> R) : Prop := forall x, a <= x <= b -> Rabs (f x - g x) <= d.
