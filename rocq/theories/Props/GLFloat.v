(** Property C45: the Gauss-Legendre rule in binary64 with an accurate math library. *)
From Coq Require Import List Bool Arith ZArith Reals.
From Coquelicot Require Import Coquelicot.
From Flocq Require Import IEEE754.BinarySingleNaN.
From Verif Require Import Base.Outcome Base.Scalar Base.RScalar Base.FScalar Model.Primitive
  Spec.Sums Spec.RealRules Spec.LegendreSpec Spec.FloatSpec Spec.LibmSpec Proofs.GLFloatRule.
Import ListNotations.
Local Open Scope R_scope.

(** C45. Fewer than 16384 points, cos accurate to d with d (n+1)^2 <= 1/2000. Whenever the construction does not end
    with the exception for a missing convergence, nothing stored is infinite or NaN, the stored nodes are strictly
    increasing and strictly inside (-1,1), the stored weights are positive, every stored node is within
    16 sqrt(n+1) 2^-53 of the node of the Gauss rule, and the relative error of every stored weight is at most
    200 (n+1)^(5/2) 2^-53. The error d of the starting values does not enter the bounds. *)
Theorem C45_rule : forall m d n (qf : list F64 * list F64) g,
  accurate m d -> d * (INR n + 1) ^ 2 <= 1 / 2000 -> (1 <= n)%nat -> (Z.of_nat n < 16384)%Z ->
  @gl_generate (FS m) n = Ok qf -> gauss_rule n g ->
  all_finite qf /\ good_rule n (-1) 1 (real_rule qf) /\
  rule_close (16 * sqrt (INR n + 1) * ulp53) (200 * (INR n + 1) ^ 2 * sqrt (INR n + 1) * ulp53) (real_rule qf) g.
Proof. exact gl_float. Qed.

(** C45. Effect on an integrand f bounded by K, with derivative bounded by L, summed without further rounding. *)
Theorem C45_error : forall m d n (qf : list F64 * list F64) g (f f1 : R -> R) K L,
  accurate m d -> d * (INR n + 1) ^ 2 <= 1 / 2000 -> (1 <= n)%nat -> (Z.of_nat n < 16384)%Z ->
  @gl_generate (FS m) n = Ok qf -> gauss_rule n g ->
  (forall t, -1 <= t <= 1 -> is_derive f t (f1 t)) -> (forall t, -1 <= t <= 1 -> Rabs (f t) <= K) ->
  (forall t, -1 <= t <= 1 -> Rabs (f1 t) <= L) ->
  Rabs (apply_rule (real_rule qf) f - apply_rule g f) <= (400 * (INR n + 1) ^ 2 * K + 32 * L) * sqrt (INR n + 1) * ulp53.
Proof. exact gl_float_error. Qed.

(** C45. Polynomials of degree at most 2n-1 are integrated up to that error. *)
Theorem C45_polynomials : forall m d n (qf : list F64 * list F64) p K L,
  accurate m d -> d * (INR n + 1) ^ 2 <= 1 / 2000 -> (1 <= n)%nat -> (Z.of_nat n < 16384)%Z ->
  @gl_generate (FS m) n = Ok qf -> deg_le p (2 * n - 1) ->
  (forall t, -1 <= t <= 1 -> Rabs (peval p t) <= K) -> (forall t, -1 <= t <= 1 -> Rabs (Derive (peval p) t) <= L) ->
  Rabs (apply_rule (real_rule qf) (peval p) - RInt (peval p) (-1) 1)
    <= (400 * (INR n + 1) ^ 2 * K + 32 * L) * sqrt (INR n + 1) * ulp53.
Proof. exact gl_float_poly. Qed.

(** A library whose cosine is off by up to 1/20000: the construction with two points succeeds, and the stored rule is
    within rounding errors of +-1/sqrt 3 with weights 1. *)
Example C45_case : accurate ex_lib (/ 20000) /\ / 20000 * (INR 2 + 1) ^ 2 <= 1 / 2000 /\
  exists qf : list F64 * list F64, @gl_generate (FS ex_lib) 2 = Ok qf /\
    rule_close (28 * ulp53) (3200 * ulp53) (real_rule qf) ([- / sqrt 3; / sqrt 3], [1; 1]).
Proof. exact ex_rule. Qed.

Print Assumptions C45_rule.
Print Assumptions C45_error.
Print Assumptions C45_polynomials.
