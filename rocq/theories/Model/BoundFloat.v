(** Model of include/integratorxx/util/bound_transform.hpp for double: bounds are binary64 numbers, infinities and NaN included. *)
From Coq Require Import ZArith Bool.
From Flocq Require Import IEEE754.BinarySingleNaN.
From Verif Require Import Base.Outcome Base.Scalar Base.FScalar.

Section BoundFloat.
Variable m : libm.
Local Open Scope scalar_scope.

(** bound_transform.hpp:14 : std::numeric_limits<double>::infinity(). *)
Definition f_inf : F64 := B754_infinity false.

(** bound_transform.hpp:7-67 : transform_minus_one_to_one(lo, up, pt, wgt) with PointType = WeightType = double. Integer
    literals are converted to double, as the usual arithmetic conversions do. *)
Definition transform_f64 (dbg : bool) (lo up pt wgt : FS m) : outcome (FS m * FS m) :=
  let* _ := cassert dbg (lo <? up) in                                      (* l.12 *)
  let up_is_inf := Beqb up f_inf in                                        (* l.15 *)
  let lo_is_minf := Beqb lo (Bopp f_inf) in                                (* l.16 *)
  if negb up_is_inf && negb lo_is_minf then                                (* l.20 *)
    Ok ((up - lo) * pt / s2 + (up + lo) / s2, wgt * ((up - lo) / s2))      (* l.28, l.24 *)
  else if negb lo_is_minf then                                             (* l.31 *)
    Ok (lo + (s1 + pt) / (s1 - pt), wgt * (s2 / ((s1 - pt) * (s1 - pt))))  (* l.39, l.35 *)
  else if negb up_is_inf then                                              (* l.42 *)
    Ok (up - (s1 - pt) / (s1 + pt), wgt * ((- s2) / ((s1 + pt) * (s1 + pt)))) (* l.50, l.46 *)
  else                                                                     (* l.53 *)
    Ok (pt / (s1 + pt) / (s1 - pt),                                        (* l.61 *)
        wgt * ((s1 + pt * pt) / ((pt * pt - s1) * (pt * pt - s1)))).       (* l.57 *)

End BoundFloat.
