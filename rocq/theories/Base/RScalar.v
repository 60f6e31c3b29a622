(** Exact real arithmetic as a [Scalar]. *)
From Coq Require Import Reals ZArith.
From Verif Require Import Base.Scalar.

Definition Rltb (x y : R) : bool := if Rlt_dec x y then true else false.
Definition Rleb (x y : R) : bool := if Rle_dec x y then true else false.
Definition Reqb (x y : R) : bool := if Req_EM_T x y then true else false.

(** Every operation is the mathematical one; [seps] is 2^-52, the value of
    std::numeric_limits<double>::epsilon(). Outside the domain of an operation
    (division by 0, sqrt or ln of a negative number, Rpower of a non-positive base)
    Coq's total functions return values unrelated to the code's NaN/inf; the theorems
    about values only apply them inside their domain. *)
Canonical Structure RS : Scalar := mkScalar R
  Rplus Rminus Rmult Rdiv Ropp Rabs Rltb Rleb Reqb IZR
  (fun m e => (IZR m / IZR (10 ^ e))%R)
  cos sin sqrt ln Rpower pow PI (2 / PI)%R (/ 2 ^ 52)%R.

(** Equalities stated at type [carrier RS], seen as equalities of reals. *)
Ltac rs_eq := match goal with |- @eq _ ?a ?b => change (@eq R a b) end.
Ltac rs_norm := cbn in *; change (carrier RS) with R in *; rs_eq.
Ltac rs_ring := rs_norm; ring.
Ltac rs_field := rs_norm; field.
