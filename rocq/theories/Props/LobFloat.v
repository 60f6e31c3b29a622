(** Property C46: the Gauss-Lobatto rule in binary64 with an accurate math library. *)
From Coq Require Import List Bool Arith ZArith Reals.
From Coquelicot Require Import Coquelicot.
From Flocq Require Import IEEE754.BinarySingleNaN.
From Verif Require Import Base.Outcome Base.Scalar Base.RScalar Base.FScalar Model.Primitive
  Spec.Sums Spec.RealRules Spec.LegendreSpec Spec.FloatSpec Spec.LibmSpec Proofs.LobFloatRule.
Import ListNotations.
Local Open Scope R_scope.

(** C46. Two to 16384 points, cos accurate to d with d n^2 <= 1/2000. Whenever the construction does not end with the
    exception for a missing convergence, nothing stored is infinite or NaN, the stored nodes are strictly increasing
    with first node exactly -1 and last node exactly 1, the stored weights are positive, every stored node is within
    24 sqrt(n) 2^-53 of the node of the Lobatto rule, and the relative error of every stored weight is at most
    45 n^(5/2) 2^-53. The error d of the starting values does not enter the bounds. *)
Theorem C46_rule : forall m d n (qf : list F64 * list F64) g,
  accurate m d -> d * INR n ^ 2 <= 1 / 2000 -> (2 <= n)%nat -> (Z.of_nat n <= 16384)%Z ->
  @lob_generate (FS m) n = Ok qf -> lobatto_rule n g ->
  all_finite qf /\ good_closed_rule n (real_rule qf) /\
  rule_close (24 * sqrt (INR n) * ulp53) (45 * INR n ^ 2 * sqrt (INR n) * ulp53) (real_rule qf) g.
Proof. exact lob_float. Qed.

(** C46. Effect on an integrand f bounded by K, with derivative bounded by L, summed without further rounding. *)
Theorem C46_error : forall m d n (qf : list F64 * list F64) g (f f1 : R -> R) K L,
  accurate m d -> d * INR n ^ 2 <= 1 / 2000 -> (2 <= n)%nat -> (Z.of_nat n <= 16384)%Z ->
  @lob_generate (FS m) n = Ok qf -> lobatto_rule n g ->
  (forall t, -1 <= t <= 1 -> is_derive f t (f1 t)) -> (forall t, -1 <= t <= 1 -> Rabs (f t) <= K) ->
  (forall t, -1 <= t <= 1 -> Rabs (f1 t) <= L) ->
  Rabs (apply_rule (real_rule qf) f - apply_rule g f) <= (90 * INR n ^ 2 * K + 48 * L) * sqrt (INR n) * ulp53.
Proof. exact lob_float_error. Qed.

(** C46. Polynomials of degree at most 2n-3 are integrated up to that error. *)
Theorem C46_polynomials : forall m d n (qf : list F64 * list F64) p K L,
  accurate m d -> d * INR n ^ 2 <= 1 / 2000 -> (2 <= n)%nat -> (Z.of_nat n <= 16384)%Z ->
  @lob_generate (FS m) n = Ok qf -> deg_le p (2 * n - 3) ->
  (forall t, -1 <= t <= 1 -> Rabs (peval p t) <= K) -> (forall t, -1 <= t <= 1 -> Rabs (Derive (peval p) t) <= L) ->
  Rabs (apply_rule (real_rule qf) (peval p) - RInt (peval p) (-1) 1)
    <= (90 * INR n ^ 2 * K + 48 * L) * sqrt (INR n) * ulp53.
Proof. exact lob_float_poly. Qed.

(** A library whose cosine is off by up to 1/50000: the construction with four points succeeds, and the stored rule is
    within rounding errors of -1, +-1/sqrt 5, 1 with weights 1/6, 5/6, 5/6, 1/6. *)
Example C46_case : accurate lex_lib (/ 50000) /\ / 50000 * INR 4 ^ 2 <= 1 / 2000 /\
  exists qf : list F64 * list F64, @lob_generate (FS lex_lib) 4 = Ok qf /\
    rule_close (48 * ulp53) (1440 * ulp53) (real_rule qf) ([-1; - / sqrt 5; / sqrt 5; 1], [1 / 6; 5 / 6; 5 / 6; 1 / 6]).
Proof. exact lex_rule. Qed.

Print Assumptions C46_rule.
Print Assumptions C46_error.
Print Assumptions C46_polynomials.
