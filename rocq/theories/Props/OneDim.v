(** Properties C02-C06: the trapezoid and Gauss-Chebyshev rules in exact arithmetic. *)
From Coq Require Import List Arith Reals Lra Lia.
From Flocq Require Import IEEE754.BinarySingleNaN.
From Coquelicot Require Import Coquelicot.
From Verif Require Import Base.Outcome Base.Scalar Base.RScalar Base.FScalar Model.Primitive
  Spec.Sums Spec.RealRules Proofs.Sizes Proofs.ChebReal Proofs.ChebExact Proofs.TrapReal Proofs.PerezJorda
  Proofs.UniformOne.
Import ListNotations.
Local Open Scope R_scope.

(** C02. Shape: equal steps from lo to up, positive weights of sum up - lo. *)
Theorem C02_shape : forall n lo up q, (2 <= n)%nat -> lo < up ->
  @uniform_generate RS n lo up = Ok q ->
  length (fst q) = n /\ length (snd q) = n /\
  nth_error (fst q) 0 = Some lo /\ nth_error (fst q) (n - 1) = Some up /\
  (forall i x y, nth_error (fst q) i = Some x -> nth_error (fst q) (S i) = Some y ->
     y - x = (up - lo) / INR (n - 1)) /\
  (forall w, In w (snd q) -> 0 < w) /\ Rsum (snd q) = up - lo.
Proof. exact uniform_shape. Qed.

(** The textbook composite trapezoidal sum. *)
Theorem C02_textbook : forall n lo up q f, (2 <= n)%nat -> @uniform_generate RS n lo up = Ok q ->
  let h := (up - lo) / INR (n - 1) in
  apply_rule q f =
  Rsum (map (fun i => h * (f (lo + INR i * h) + f (lo + INR (i + 1) * h)) / 2) (seq 0 (n - 1))).
Proof. exact uniform_textbook. Qed.

Theorem C02_affine : forall n lo up q a b, (2 <= n)%nat -> @uniform_generate RS n lo up = Ok q ->
  is_RInt (fun x => a + b * x) lo up (apply_rule q (fun x => a + b * x)).
Proof. exact uniform_affine. Qed.

(** Error for a twice differentiable integrand: M (up-lo)^3 / (12 (n-1)^2). *)
Theorem C02_error : forall n lo up q (f f1 f2 : R -> R) M, (2 <= n)%nat -> lo < up ->
  @uniform_generate RS n lo up = Ok q ->
  (forall t, lo <= t <= up -> is_derive f t (f1 t)) ->
  (forall t, lo <= t <= up -> is_derive f1 t (f2 t)) ->
  (forall t, lo <= t <= up -> Rabs (f2 t) <= M) ->
  Rabs (apply_rule q f - RInt f lo up) <= M * (up - lo) ^ 3 / (12 * INR (n - 1) ^ 2).
Proof. exact uniform_C2. Qed.

Theorem C02_converges : forall lo up f, lo < up -> (forall x, lo <= x <= up -> continuous f x) ->
  rules_converge (fun n q => @uniform_generate RS n lo up = Ok q) f (RInt f lo up).
Proof. exact uniform_converge. Qed.

(** Finding: no meaningful rule for 0 points (undefined behaviour, any arithmetic) nor for
    1 point (the only node is NaN and the only weight is not finite, in binary64). *)
Theorem C02_zero_points : forall (S : Scalar) (lo up : S), uniform_generate 0 lo up = UB.
Proof. reflexivity. Qed.

Theorem C02_one_point : forall m (lo up : F64) (q : list F64 * list F64),
  @uniform_generate (FS m) 1 lo up = Ok q ->
  fst q = [B754_nan] /\ (forall w, In w (snd q) -> BinarySingleNaN.is_finite w = false).
Proof. exact uniform_one_nan. Qed.

(** Three points on [0,2]: nodes 0, 1, 2 with weights 1/2, 1, 1/2; x^2 gives 3 instead of 8/3,
    within the bound of C02_error (M = 2). *)
Example C02_ex : exists q, @uniform_generate RS 3 0 2 = Ok q /\ fst q = [0; 1; 2] /\
  snd q = [/ 2; 1; / 2] /\ apply_rule q (fun x => x * x) = 3.
Proof.
  eexists. split; [apply (uniform_real 2 0 2); lia|].
  unfold Tab.tab, ux, uw, apply_rule, wsum, Rsum. simpl.
  replace ((2 - 0) / (1 + 1)) with 1 by field. replace (1 / 2) with (/ 2) by field.
  replace (0 + 0 * 1) with 0 by ring. replace (0 + 1 * 1) with 1 by ring.
  replace (0 + (1 + 1) * 1) with 2 by ring. repeat split; auto. field.
Qed.

(** C03. First kind: weight function 1/sqrt(1-x^2) on (-1,1). *)
Theorem C03_exact : forall n p q, (1 <= n)%nat -> @gc1_generate RS n = Ok q -> deg_le p (2 * n - 1) ->
  open_integral (fun x => peval p x / sqrt (1 - x * x)) (-1) 1
    (apply_rule q (fun x => peval p x / sqrt (1 - x * x))).
Proof. exact gc1_exact. Qed.

Theorem C03_shape : forall n q, @gc1_generate RS n = Ok q -> good_rule n (-1) 1 q /\ symmetric_rule q.
Proof. exact gc1_good. Qed.

(** C04. Second kind: weight function sqrt(1-x^2) on (-1,1). *)
Theorem C04_exact : forall n p q, (1 <= n)%nat -> @gc2_generate RS n = Ok q -> deg_le p (2 * n - 1) ->
  is_RInt (fun x => peval p x * sqrt (1 - x * x)) (-1) 1
    (apply_rule q (fun x => peval p x * sqrt (1 - x * x))).
Proof. exact gc2_exact. Qed.

Theorem C04_shape : forall n q, @gc2_generate RS n = Ok q -> good_rule n (-1) 1 q /\ symmetric_rule q.
Proof. exact gc2_good. Qed.

(** The library applies this rule to plain integrands (base rule of the Becke and
    Treutler-Ahlrichs grids): it converges to the plain integral. *)
Theorem C04_converges : forall f, (forall x, -1 <= x <= 1 -> continuous f x) ->
  rules_converge (fun n q => @gc2_generate RS n = Ok q) f (RInt f (-1) 1).
Proof. exact gc2_converges. Qed.

(** C05. Third kind: weight function sqrt(x/(1-x)) on (0,1). *)
Theorem C05_exact : forall n p q, (1 <= n)%nat -> @gc3_generate RS n = Ok q -> deg_le p (2 * n - 1) ->
  open_integral (fun x => peval p x * sqrt (x / (1 - x))) 0 1
    (apply_rule q (fun x => peval p x * sqrt (x / (1 - x)))).
Proof. exact gc3_exact. Qed.

Theorem C05_shape : forall n q, @gc3_generate RS n = Ok q -> good_rule n 0 1 q.
Proof. exact gc3_good. Qed.

Example C03_C05_ex : exists q1 q2 q3, @gc1_generate RS 2 = Ok q1 /\ @gc2_generate RS 2 = Ok q2 /\
  @gc3_generate RS 2 = Ok q3 /\ deg_le [1; 0; 2; 7] (2 * 2 - 1) /\
  fst q2 = [cos (2 * PI / 3); cos (1 * PI / 3)].
Proof.
  do 3 eexists. split; [apply gc1_real|split; [apply gc2_real|split; [apply gc3_real|]]].
  split; [unfold deg_le; simpl; lia|]. unfold Tab.tab, th2. simpl.
  replace (1 + 1 + 1) with 3 by ring. reflexivity.
Qed.

(** C06. Modified second kind. *)
Theorem C06_shape : forall n q, @gc2m_generate RS n = Ok q -> good_rule n (-1) 1 q /\ symmetric_rule q.
Proof. exact gc2m_good. Qed.

(** Each node is the image of an equidistant angle and each weight is pi/(n+1) times the
    derivative of the substitution there. *)
Theorem C06_weights : forall n q, @gc2m_generate RS n = Ok q ->
  forall i x w, nth_error (fst q) i = Some x -> nth_error (snd q) i = Some w ->
    exists t d, t = INR (n - i) * PI / INR (n + 1) /\ 0 < t < PI /\ x = perez_jorda t /\
      is_derive perez_jorda t d /\ w = PI / INR (n + 1) * Rabs d.
Proof. exact gc2m_weights. Qed.

(** The rule is the library's own trapezoid rule with n + 2 points on [0,PI] after the
    substitution, and the substitution preserves the integral. *)
Theorem C06_trapezoid : forall n q u f,
  @gc2m_generate RS n = Ok q -> @uniform_generate RS (n + 2) 0 PI = Ok u ->
  apply_rule q f = apply_rule u (fun t => f (perez_jorda t) * Rabs (Derive perez_jorda t)).
Proof. exact gc2m_trap. Qed.

Theorem C06_substitution : forall f, (forall x, -1 <= x <= 1 -> continuous f x) ->
  is_RInt (fun t => f (perez_jorda t) * Rabs (Derive perez_jorda t)) 0 PI (RInt f (-1) 1).
Proof. exact gc2m_subst. Qed.

Theorem C06_converges : forall f, (forall x, -1 <= x <= 1 -> continuous f x) ->
  rules_converge (fun n q => @gc2m_generate RS n = Ok q) f (RInt f (-1) 1).
Proof. exact gc2m_converges. Qed.

Theorem C06_constants : forall n q c, (2 <= n)%nat -> @gc2m_generate RS n = Ok q ->
  apply_rule q (fun _ => c) = 2 * c.
Proof. exact gc2m_const. Qed.

Theorem C06_odd : forall n q f, @gc2m_generate RS n = Ok q -> (forall y, f (- y) = - f y) ->
  apply_rule q f = 0.
Proof. exact gc2m_odd. Qed.

(** Finding: with one point the weight is 8/3, not 2. *)
Theorem C06_one_refuted : exists q, @gc2m_generate RS 1 = Ok q /\ apply_rule q (fun _ => 1) = 8 / 3.
Proof. exact gc2m_one. Qed.

Example C06_ex : exists q u, @gc2m_generate RS 2 = Ok q /\ @uniform_generate RS 4 0 PI = Ok u /\
  fst q = [perez_jorda (2 * PI / 3); perez_jorda (1 * PI / 3)].
Proof.
  do 2 eexists. split; [apply gc2m_real|split; [apply (uniform_real 3 0 PI); lia|]].
  unfold Tab.tab, th2. simpl. replace (1 + 1 + 1) with 3 by ring. reflexivity.
Qed.

Print Assumptions C02_shape.
Print Assumptions C02_textbook.
Print Assumptions C02_affine.
Print Assumptions C02_error.
Print Assumptions C02_converges.
Print Assumptions C02_zero_points.
Print Assumptions C02_one_point.
Print Assumptions C03_exact.
Print Assumptions C03_shape.
Print Assumptions C04_exact.
Print Assumptions C04_shape.
Print Assumptions C04_converges.
Print Assumptions C05_exact.
Print Assumptions C05_shape.
Print Assumptions C06_shape.
Print Assumptions C06_weights.
Print Assumptions C06_trapezoid.
Print Assumptions C06_substitution.
Print Assumptions C06_converges.
Print Assumptions C06_constants.
Print Assumptions C06_odd.
Print Assumptions C06_one_refuted.
