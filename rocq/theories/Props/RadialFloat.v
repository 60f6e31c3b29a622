(** Property C43: the radial rules in binary64 with an accurate math library. *)
From Coq Require Import List Bool Arith ZArith Reals.
From Flocq Require Import IEEE754.BinarySingleNaN.
From Verif Require Import Base.Outcome Base.Scalar Base.RScalar Base.FScalar Model.Primitive Model.Radial
  Spec.Sums Spec.RealRules Spec.FloatSpec Spec.LibmSpec Spec.RadialSpec Proofs.ChebFloat
  Proofs.RadialFloat Proofs.RadialFloatSchemes Proofs.RadialFloatShape Proofs.RadialFloatLib.
Import ListNotations.
Local Open Scope R_scope.

(** C43. The maps and Jacobians of the schemes, evaluated in binary64 at a stored node x, against the exact ones at x. *)
Theorem C43_becke_map : forall m n (R x : F64), sane_scale R -> is_finite x = true -> -1 < B2R x < 1 ->
  rel_close (@rt_transform (FS m) (@Becke (FS m) n R) x) (@rt_transform RS (Becke n (B2R R : RS)) (B2R x)) (7 * ulp53).
Proof. exact becke_map. Qed.

Theorem C43_becke_jacobian : forall m d n (R x : F64), accurate_pow m d -> d <= 1 / 4000 -> sane_scale R ->
  is_finite x = true -> -1 < B2R x < 1 ->
  rel_close (@rt_jacobian (FS m) (@Becke (FS m) n R) x) (@rt_jacobian RS (Becke n (B2R R : RS)) (B2R x)) (3 * d + 9 * ulp53).
Proof. exact becke_jac. Qed.

Theorem C43_mhl_map : forall m d M n (R x : F64), accurate_pow m d -> d <= 1 / 4000 -> (1 <= M <= 8)%nat -> sane_scale R ->
  is_finite x = true -> / 2 ^ 60 <= B2R x < 1 ->
  rel_close (@rt_transform (FS m) (@MHL (FS m) M n R) x) (@rt_transform RS (MHL M n (B2R R : RS)) (B2R x))
    (2 * d + (5 * INR M + 2) * ulp53) /\
  rel_close (@rt_jacobian (FS m) (@MHL (FS m) M n R) x) (@rt_jacobian RS (MHL M n (B2R R : RS)) (B2R x))
    (4 * d + (3 * INR M + 9) * ulp53).
Proof. exact mhl_map. Qed.

(** Mura-Knowles: the error of the radius grows with 1 / x^3, because 1 - x^3 is rounded before its logarithm is taken. *)
Theorem C43_mk_map : forall m d n (R x : F64), accurate_log m d -> d <= 1 / 4000 -> sane_scale R ->
  is_finite x = true -> / 2 ^ 12 <= B2R x <= 1 - / 2 ^ 40 ->
  let c := B2R x * B2R x * B2R x in
  rel_close (@rt_transform (FS m) (@MK (FS m) n R) x) (@rt_transform RS (MK n (B2R R : RS)) (B2R x))
    (2 * d + 4 * ulp53 / (c * (1 - c))) /\
  rel_close (@rt_jacobian (FS m) (@MK (FS m) n R) x) (@rt_jacobian RS (MK n (B2R R : RS)) (B2R x)) (11 * ulp53 / (1 - c)).
Proof. exact mk_map. Qed.

Theorem C43_ta_map : forall m d n (R al x : F64), accurate_pow m d -> accurate_log m d -> d <= 1 / 8000 -> sane_scale R ->
  sane_alpha al -> is_finite x = true -> -1 + / 2 ^ 35 <= B2R x < 1 ->
  rel_close (@rt_transform (FS m) (@TA (FS m) n R al) x) (@rt_transform RS (TA n (B2R R : RS) (B2R al : RS)) (B2R x))
    (3 * d + 45 * ulp53 / (1 + B2R x)) /\
  rel_close (@rt_jacobian (FS m) (@TA (FS m) n R al) x) (@rt_jacobian RS (TA n (B2R R : RS) (B2R al : RS)) (B2R x))
    (3 * d + 60 * ulp53 / (1 + B2R x)).
Proof. exact ta_map. Qed.

(** Whole rules: every stored radius and weight, errors of the base rule included, against the rule in exact arithmetic. *)
Theorem C43_becke : forall m d n (R : F64) (qf : list F64 * list F64) (q : list Rdefinitions.R * list Rdefinitions.R),
  accurate m d -> accurate_pow m d -> d <= / 2 ^ 50 -> (Z.of_nat n <= 2 ^ 18)%Z -> sane_scale R ->
  @radial_generate (FS m) (@Becke (FS m) n R) = Ok qf -> @radial_generate RS (Becke n (B2R R : RS)) = Ok q ->
  rel_rules qf q ((3 * d + 60 * ulp53) * INR (n + 1) ^ 2) ((5 * d + 100 * ulp53) * INR (n + 1) ^ 2).
Proof. exact becke_rule. Qed.

Theorem C43_ta : forall m d n (R al : F64) (qf : list F64 * list F64) (q : list Rdefinitions.R * list Rdefinitions.R),
  accurate m d -> accurate_pow m d -> accurate_log m d -> d <= / 2 ^ 50 -> (Z.of_nat n <= 2 ^ 16)%Z -> sane_scale R -> sane_alpha al ->
  @radial_generate (FS m) (@TA (FS m) n R al) = Ok qf -> @radial_generate RS (TA n (B2R R : RS) (B2R al : RS)) = Ok q ->
  rel_rules qf q ((12 * d + 300 * ulp53) * INR (n + 1) ^ 2) ((16 * d + 400 * ulp53) * INR (n + 1) ^ 2).
Proof. exact ta_rule. Qed.

Theorem C43_mhl : forall m d M n (R : F64) (qf : list F64 * list F64) (q : list Rdefinitions.R * list Rdefinitions.R),
  accurate_pow m d -> d <= / 2 ^ 50 -> (1 <= M <= 8)%nat -> (Z.of_nat n <= 2 ^ 30)%Z -> sane_scale R ->
  @radial_generate (FS m) (@MHL (FS m) M n R) = Ok qf -> @radial_generate RS (MHL M n (B2R R : RS)) = Ok q ->
  rel_rules qf q (3 * d + (7 * INR M + 2) * ulp53 * INR (n + 1)) (5 * d + (9 * INR M + 7) * ulp53 * INR (n + 1)).
Proof. exact mhl_rule. Qed.

Theorem C43_mk : forall m d n (R : F64) (qf : list F64 * list F64) (q : list Rdefinitions.R * list Rdefinitions.R),
  accurate_log m d -> d <= / 2 ^ 50 -> (n <= 4000)%nat -> sane_scale R ->
  @radial_generate (FS m) (@MK (FS m) n R) = Ok qf -> @radial_generate RS (MK n (B2R R : RS)) = Ok q ->
  rel_rules qf q (3 * d + 13 * ulp53 * INR (n + 1) ^ 3) (30 * ulp53 * INR (n + 1)).
Proof. exact mk_rule. Qed.

(** For these sizes the stored radii are positive and strictly increasing and the stored weights positive. *)
Theorem C43_becke_shape : forall m d n (R : F64) (qf : list F64 * list F64),
  accurate m d -> accurate_pow m d -> d <= / 2 ^ 50 -> (Z.of_nat n <= 2 ^ 18)%Z -> sane_scale R ->
  @radial_generate (FS m) (@Becke (FS m) n R) = Ok qf -> good_radial n qf.
Proof. exact becke_good. Qed.

Theorem C43_ta_shape : forall m d n (R al : F64) (qf : list F64 * list F64),
  accurate m d -> accurate_pow m d -> accurate_log m d -> d <= / 2 ^ 50 -> (Z.of_nat n <= 2 ^ 16)%Z -> sane_scale R -> sane_alpha al ->
  @radial_generate (FS m) (@TA (FS m) n R al) = Ok qf -> good_radial n qf.
Proof. exact ta_good. Qed.

Theorem C43_mhl_shape : forall m d M n (R : F64) (qf : list F64 * list F64),
  accurate_pow m d -> d <= / 2 ^ 50 -> (1 <= M <= 8)%nat -> (Z.of_nat n <= 2 ^ 30)%Z -> sane_scale R ->
  @radial_generate (FS m) (@MHL (FS m) M n R) = Ok qf -> good_radial n qf.
Proof. exact mhl_good. Qed.

Theorem C43_mk_shape : forall m d n (R : F64) (qf : list F64 * list F64),
  accurate_log m d -> d <= / 2 ^ 50 -> (n <= 4000)%nat -> sane_scale R ->
  @radial_generate (FS m) (@MK (FS m) n R) = Ok qf -> good_radial n qf.
Proof. exact mk_good. Qed.

(** Finding: not for every size. From 2^18 points on, the first Mura-Knowles radius is zero, whatever the accuracy of log. *)
Theorem C43_mk_zero_radius : forall m d n (R : F64) (qf : list F64 * list F64), accurate_log m d -> is_finite R = true ->
  (2 ^ 18 <= Z.of_nat n)%Z -> (Z.of_nat (n + 2) <= 2 ^ 50)%Z -> @radial_generate (FS m) (@MK (FS m) n R) = Ok qf ->
  exists x : F64, nth_error (fst qf) 0 = Some x /\ B2R x = 0.
Proof. exact mk_zero_radius. Qed.

Theorem C43_mk_shape_refuted : forall m d (R : F64), accurate_log m d -> sane_scale R ->
  exists n (qf : list F64 * list F64), @radial_generate (FS m) (@MK (FS m) n R) = Ok qf /\ ~ good_radial n qf.
Proof. exact mk_not_good. Qed.

(** Sums over the stored rule against sums over the exact rule, for integrands with an envelope. *)
Theorem C43_sum : forall m (t : rtraits (FS m)) f g er ew (qf : list F64 * list F64) (q : list R * list R),
  rt_valid (real_traits t) -> tempered f g -> 0 <= er <= / 2 -> 0 <= ew ->
  @radial_generate RS (real_traits t) = Ok q -> rel_rules qf q er ew ->
  Rabs (apply_rule (real_rule qf) f - apply_rule q f) <= (er + ew + er * ew) * apply_rule q g.
Proof. exact radial_float_sum. Qed.

(** A correctly rounded library, and for each scheme a rule of 30 points with ten correct digits. *)
Example C43_ex : accurate rounded_libm (/ 2 ^ 53) /\ accurate_pow rounded_libm (/ 2 ^ 53) /\ accurate_log rounded_libm (/ 2 ^ 53) /\
  sane_scale ex_R /\ sane_alpha ex_al /\ tempered (fun r => exp (- r)) (fun r => (1 + r) * exp (- (r / 2))) /\
  ex_ok (@Becke (FS rounded_libm) 30 ex_R) /\ ex_ok (@MHL (FS rounded_libm) 2 30 ex_R) /\
  ex_ok (@MK (FS rounded_libm) 30 ex_R) /\ ex_ok (@TA (FS rounded_libm) 30 ex_R ex_al).
Proof. exact radial_float_ex. Qed.

Print Assumptions C43_becke_map.
Print Assumptions C43_becke_jacobian.
Print Assumptions C43_mhl_map.
Print Assumptions C43_mk_map.
Print Assumptions C43_ta_map.
Print Assumptions C43_becke.
Print Assumptions C43_ta.
Print Assumptions C43_mhl.
Print Assumptions C43_mk.
Print Assumptions C43_becke_shape.
Print Assumptions C43_ta_shape.
Print Assumptions C43_mhl_shape.
Print Assumptions C43_mk_shape.
Print Assumptions C43_mk_zero_radius.
Print Assumptions C43_mk_shape_refuted.
Print Assumptions C43_sum.
