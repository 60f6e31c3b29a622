(** Property C42: the Gauss-Chebyshev rules in binary64 with an accurate math library. *)
From Coq Require Import List Bool Arith ZArith Reals.
From Flocq Require Import IEEE754.BinarySingleNaN.
From Verif Require Import Base.Outcome Base.Scalar Base.RScalar Base.FScalar Model.Primitive
  Spec.Sums Spec.RealRules Spec.FloatSpec Spec.LibmSpec Proofs.ChebFloat Proofs.ChebFloat3 Proofs.PerezFloat.
Import ListNotations.
Local Open Scope R_scope.

(** C42. With cos and sin accurate to d, every stored node is within d + 23 * 2^-53 of the node of the exact rule
    and lies in [-1,1]; the relative error of a weight is at most (2 d + 56 * 2^-53) / (1 - x^2). *)
Theorem C42_first_kind : forall m d n (qf : list F64 * list F64) (q : list R * list R),
  accurate m d -> d <= 1 / 2000 -> (Z.of_nat (2 * n + 2) <= 2 ^ 53)%Z ->
  @gc1_generate (FS m) n = Ok qf -> @gc1_generate RS n = Ok q ->
  all_finite qf /\ (forall x, In x (fst (real_rule qf)) -> -1 <= x <= 1) /\
  close_rules (real_rule qf) q (d + 23 * ulp53) (fun x w => w * ((2 * d + 56 * ulp53) / (1 - x * x))).
Proof. exact gc1_float. Qed.

Theorem C42_second_kind : forall m d n (qf : list F64 * list F64) (q : list R * list R),
  accurate m d -> d <= 1 / 2000 -> (Z.of_nat (2 * n + 2) <= 2 ^ 53)%Z ->
  @gc2_generate (FS m) n = Ok qf -> @gc2_generate RS n = Ok q ->
  all_finite qf /\ (forall x, In x (fst (real_rule qf)) -> -1 <= x <= 1) /\
  close_rules (real_rule qf) q (d + 23 * ulp53) (fun x w => w * ((2 * d + 56 * ulp53) / (1 - x * x))).
Proof. exact gc2_float. Qed.

Theorem C42_modified : forall m d n (qf : list F64 * list F64) (q : list R * list R),
  accurate m d -> d <= 1 / 2000 -> (Z.of_nat (2 * n + 2) <= 2 ^ 53)%Z ->
  @gc2m_generate (FS m) n = Ok qf -> @gc2m_generate RS n = Ok q ->
  all_finite qf /\
  close_rules (real_rule qf) q (4 * d + 100 * ulp53) (fun _ _ => 16 / 3 / INR (n + 1) * (5 * d + 110 * ulp53)).
Proof. exact gc2m_float. Qed.

(** Third kind, on [0,1]: as long as the smallest cosine is well above the error of cos, no stored value is infinite or
    NaN, no node is zero, and the relative error of a weight is at most (4 d + 112 * 2^-53) / (sqrt x * (1 - x)). *)
Theorem C42_third_kind : forall m d n (qf : list F64 * list F64) (q : list R * list R),
  accurate m d -> INR (2 * n + 1) * (d + 23 * ulp53) <= / 1000 -> (Z.of_nat (2 * n + 2) <= 2 ^ 53)%Z ->
  @gc3_generate (FS m) n = Ok qf -> @gc3_generate RS n = Ok q ->
  all_finite qf /\ (forall x, In x (fst (real_rule qf)) -> 0 < x <= 1) /\
  close_rules (real_rule qf) q (3 * d + 52 * ulp53) (fun x w => w * ((4 * d + 112 * ulp53) / (sqrt x * (1 - x)))).
Proof. exact gc3_float. Qed.

(** The sum of a bounded Lipschitz function over the stored rule differs from the exact sum by an error that grows at
    most with the logarithm of the number of nodes, and not at all for the modified rule. *)
Theorem C42_sum_first : forall m d n (qf : list F64 * list F64) (q : list R * list R) f M L,
  accurate m d -> d <= 1 / 2000 -> (1 <= n)%nat -> (Z.of_nat (2 * n + 2) <= 2 ^ 53)%Z ->
  @gc1_generate (FS m) n = Ok qf -> @gc1_generate RS n = Ok q -> tame 1 f M L ->
  Rabs (apply_rule (real_rule qf) f - apply_rule q f)
    <= 8 * (1 + ln (INR n)) * (M * (2 * d + 56 * ulp53) + L * (d + 23 * ulp53)).
Proof. exact (cheb_sum true). Qed.

Theorem C42_sum_second : forall m d n (qf : list F64 * list F64) (q : list R * list R) f M L,
  accurate m d -> d <= 1 / 2000 -> (1 <= n)%nat -> (Z.of_nat (2 * n + 2) <= 2 ^ 53)%Z ->
  @gc2_generate (FS m) n = Ok qf -> @gc2_generate RS n = Ok q -> tame 1 f M L ->
  Rabs (apply_rule (real_rule qf) f - apply_rule q f)
    <= 8 * (1 + ln (INR n)) * (M * (2 * d + 56 * ulp53) + L * (d + 23 * ulp53)).
Proof. exact (cheb_sum false). Qed.

Theorem C42_sum_modified : forall m d n (qf : list F64 * list F64) (q : list R * list R) f M L,
  accurate m d -> d <= 1 / 2000 -> (2 <= n)%nat -> (Z.of_nat (2 * n + 2) <= 2 ^ 53)%Z ->
  @gc2m_generate (FS m) n = Ok qf -> @gc2m_generate RS n = Ok q -> tame 2 f M L ->
  Rabs (apply_rule (real_rule qf) f - apply_rule q f)
    <= 16 / 3 * (M * (5 * d + 110 * ulp53)) + 2 * (L * (4 * d + 100 * ulp53)).
Proof. exact gc2m_sum. Qed.

Theorem C42_sum_third : forall m d n (qf : list F64 * list F64) (q : list R * list R) f M L,
  accurate m d -> (1 <= n)%nat -> INR (2 * n + 1) * (d + 23 * ulp53) <= / 1000 -> (Z.of_nat (2 * n + 2) <= 2 ^ 53)%Z ->
  @gc3_generate (FS m) n = Ok qf -> @gc3_generate RS n = Ok q -> tame01 f M L ->
  Rabs (apply_rule (real_rule qf) f - apply_rule q f)
    <= 8 * (1 + ln (INR n)) * (M * (4 * d + 112 * ulp53) + L * (3 * d + 52 * ulp53)).
Proof. exact gc3_fsum. Qed.

(** Up to 2^20 nodes, with d at most 2^-50, the stored nodes are strictly increasing and strictly inside (-1,1) and the
    stored weights are positive. *)
Theorem C42_shape_first : forall m d n (qf : list F64 * list F64),
  accurate m d -> d <= / 2 ^ 50 -> (Z.of_nat n <= 2 ^ 20)%Z ->
  @gc1_generate (FS m) n = Ok qf -> good_rule n (-1) 1 (real_rule qf).
Proof. exact (cheb_good true). Qed.

Theorem C42_shape_second : forall m d n (qf : list F64 * list F64),
  accurate m d -> d <= / 2 ^ 50 -> (Z.of_nat n <= 2 ^ 20)%Z ->
  @gc2_generate (FS m) n = Ok qf -> good_rule n (-1) 1 (real_rule qf).
Proof. exact (cheb_good false). Qed.

Theorem C42_shape_third : forall m d n (qf : list F64 * list F64),
  accurate m d -> d <= / 2 ^ 50 -> (Z.of_nat n <= 2 ^ 20)%Z ->
  @gc3_generate (FS m) n = Ok qf -> good_rule n 0 1 (real_rule qf).
Proof. exact gc3_shape. Qed.

(** Finding: not for every size. With any library accurate to 2^-54 some rule of second kind starts with the node -1 and
    weight zero. *)
Theorem C42_shape_refuted : forall m d, accurate m d -> d <= / 2 ^ 54 ->
  exists n (qf : list F64 * list F64) (x w : F64), @gc2_generate (FS m) n = Ok qf /\
    nth_error (fst qf) 0 = Some x /\ nth_error (snd qf) 0 = Some w /\ B2R x = -1 /\ B2R w = 0.
Proof. exact zero_weight. Qed.

Theorem C42_shape_third_refuted : forall m d, accurate m d -> d <= / 2 ^ 54 ->
  exists n (qf : list F64 * list F64) (x w : F64), @gc3_generate (FS m) n = Ok qf /\
    nth_error (fst qf) (n - 1) = Some x /\ nth_error (snd qf) (n - 1) = Some w /\ B2R x = 1 /\ B2R w = 0.
Proof. exact zero_weight3. Qed.

(** A library that returns the correctly rounded values. *)
Example C42_ex : exists (qf : list F64 * list F64) (q : list R * list R),
  @gc1_generate (FS rounded_libm) 5 = Ok qf /\ @gc1_generate RS 5 = Ok q /\
  accurate rounded_libm (/ 2 ^ 54) /\ tame 1 exp 3 3 /\ good_rule 5 (-1) 1 (real_rule qf) /\
  Rabs (apply_rule (real_rule qf) exp - apply_rule q exp) <= / 10 ^ 11.
Proof. exact cheb_ex. Qed.

Example C42_ex_third : exists (qf : list F64 * list F64) (q : list R * list R),
  @gc3_generate (FS rounded_libm) 5 = Ok qf /\ @gc3_generate RS 5 = Ok q /\
  INR 11 * (/ 2 ^ 54 + 23 * ulp53) <= / 1000 /\ tame01 (fun x => x * x) 1 2 /\ good_rule 5 0 1 (real_rule qf) /\
  Rabs (apply_rule (real_rule qf) (fun x => x * x) - apply_rule q (fun x => x * x)) <= / 10 ^ 11.
Proof. exact gc3_ex. Qed.

Print Assumptions C42_first_kind.
Print Assumptions C42_second_kind.
Print Assumptions C42_modified.
Print Assumptions C42_third_kind.
Print Assumptions C42_sum_first.
Print Assumptions C42_sum_second.
Print Assumptions C42_sum_modified.
Print Assumptions C42_sum_third.
Print Assumptions C42_shape_first.
Print Assumptions C42_shape_second.
Print Assumptions C42_shape_third.
Print Assumptions C42_shape_refuted.
Print Assumptions C42_shape_third_refuted.
