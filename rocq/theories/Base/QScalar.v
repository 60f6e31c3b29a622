(** Exact rational arithmetic as a computable [Scalar]. It is used only in Examples,
    to run the model on concrete inputs with [vm_compute]; no theorem depends on it.
    The transcendental operations are not available on rationals and return 0; no
    example evaluates them. *)
From Coq Require Import QArith Qabs Qreduction ZArith.
From Verif Require Import Base.Scalar.

Definition Qltb (x y : Q) : bool := negb (Qle_bool y x).
Fixpoint Qpowi (x : Q) (n : nat) : Q :=
  match n with O => 1%Q | S m => Qred (x * Qpowi x m) end.

Canonical Structure QS : Scalar := mkScalar Q
  (fun x y => Qred (x + y)) (fun x y => Qred (x - y)) (fun x y => Qred (x * y))
  (fun x y => Qred (x / y)) (fun x => Qred (- x)) (fun x => Qred (Qabs x))
  Qltb Qle_bool Qeq_bool inject_Z
  (fun m e => Qred (inject_Z m / inject_Z (10 ^ e)))
  (fun _ => 0%Q) (fun _ => 0%Q) (fun _ => 0%Q) (fun _ => 0%Q) (fun _ _ => 0%Q)
  Qpowi 0%Q 0%Q (1 # 4503599627370496).
