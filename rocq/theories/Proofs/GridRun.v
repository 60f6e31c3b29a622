(** Checks of all grids of a family, one lemma per file. *)
From Coq Require Import ZArith List Bool.
From Verif Require Import Model.S2 Model.GridCode Proofs.GridCheck.
Import ListNotations.
Local Open Scope Z_scope.

Definition order_of (f : afam) (n : Z) : nat := Z.to_nat (algebraic_order_by_npts f n).
(** Lebedev-Laikov and Delley: relative to the surface, tolerance 1e-14. *)
Definition oct_ok (f : afam) (n : Z) (g : coded) : Prop := oct_check 1 100000000000000 (order_of f n) g = true.
(** Ahrens-Beylkin: 4 pi is in the weights, tolerance 1e-11. *)
Definition four_pi_num : Z := 12566370614359172954.
Definition four_pi_den : Z := 1000000000000000000.
Definition tet_ok (n : Z) (g : coded) : Prop :=
  tet_check 1 100000000000 four_pi_num four_pi_den (order_of AhrensBeylkin n) g = true.
Definition plain_ok (n : Z) (ps : list lit3) : Prop := plain_check 1 100000000000000 (order_of Womersley n) n ps = true.

Ltac run := vm_cast_no_check (eq_refl true).
