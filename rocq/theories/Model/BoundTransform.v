(** Model of include/integratorxx/util/bound_transform.hpp. *)
From Coq Require Import ZArith Bool.
From Verif Require Import Base.Outcome Base.Scalar.

Section BoundTransform.
Context {S : Scalar}.
Local Open Scope scalar_scope.

(** An interval bound: the code passes a floating value and compares it with
    +-infinity (bound_transform.hpp:14-16); the model makes the three cases
    explicit. *)
Inductive bound : Type := MinusInf | Finite (x : S) | PlusInf.

(** bound_transform.hpp:12 : [lo < up] on extended values. *)
Definition bound_ltb (a b : bound) : bool :=
  match a, b with
  | MinusInf, MinusInf => false
  | MinusInf, _ => true
  | Finite x, Finite y => x <? y
  | Finite _, PlusInf => true
  | _, _ => false
  end.

(** bound_transform.hpp:7-67 : transform_minus_one_to_one(lo, up, pt, wgt).
    [lo = +inf] or [up = -inf] violates the assertion; without assertions the code
    computes with infinities, which the model reports as [UB] (not claimed). *)
Definition transform_minus_one_to_one (dbg : bool) (lo up : bound) (pt wgt : S)
  : outcome (S * S) :=
  let* _ := cassert dbg (bound_ltb lo up) in
  match lo, up with
  | Finite lo, Finite up =>
      Ok ((up - lo) * pt / s2 + (up + lo) / s2,           (* l.28 *)
          wgt * ((up - lo) / s2))                         (* l.24 *)
  | Finite lo, PlusInf =>
      Ok (lo + (s1 + pt) / (s1 - pt),                     (* l.39 *)
          wgt * (s2 / ((s1 - pt) * (s1 - pt))))           (* l.35 *)
  | MinusInf, Finite up =>
      Ok (up - (s1 - pt) / (s1 + pt),                     (* l.50 *)
          wgt * ((- s2) / ((s1 + pt) * (s1 + pt))))       (* l.46 *)
  | MinusInf, PlusInf =>
      Ok (pt / (s1 + pt) / (s1 - pt),                     (* l.61 *)
          wgt * ((s1 + pt * pt)
                 / ((pt * pt - s1) * (pt * pt - s1))))    (* l.57 *)
  | _, _ => UB
  end.

End BoundTransform.
Arguments bound : clear implicits.
