(** Properties C07-C09: Legendre evaluation, the Gauss-Legendre and the Gauss-Lobatto rule. *)
From Coq Require Import List Arith Reals Lra Lia.
From Flocq Require Import IEEE754.BinarySingleNaN.
From Coquelicot Require Import Coquelicot.
From Verif Require Import Base.Outcome Base.Scalar Base.RScalar Base.FScalar Model.Primitive
  Spec.Sums Spec.RealRules Spec.LegendreSpec Proofs.GLRule Proofs.LobattoRule Proofs.LegendreFloat.
Import ListNotations.
Local Open Scope R_scope.

(** C07. The Legendre polynomial of degree n exists and is unique as a function. *)
Theorem C07_polynomial : forall n,
  (exists p, legendre_polynomial n p) /\
  (forall p q, legendre_polynomial n p -> legendre_polynomial n q -> forall x, peval p x = peval q x).
Proof. intro n. exact (conj (legendre_exists n) (legendre_unique n)). Qed.

(** C07. The evaluation returns P_n(x), P_n'(x) away from the ends, and P_(n-1)(x). *)
Theorem C07_evaluation : forall n p x v d u,
  legendre_polynomial n p -> @eval_Pn RS x n = (v, d, u) ->
  v = peval p x /\ (x <> 1 -> x <> -1 -> is_derive (peval p) x d) /\
  (forall n' p', n = S n' -> legendre_polynomial n' p' -> u = peval p' x).
Proof. exact legendre_eval. Qed.

(** C07. It solves Legendre's differential equation. *)
Theorem C07_equation : forall n p, legendre_polynomial n p -> exists d1 d2, forall x,
  is_derive (peval p) x (d1 x) /\ is_derive d1 x (d2 x) /\
  (1 - x ^ 2) * d2 x - 2 * x * d1 x + INR n * (INR n + 1) * peval p x = 0.
Proof. exact legendre_ode. Qed.

(** C07. It is bounded by 1 on [-1,1]. *)
Theorem C07_bound : forall n p, legendre_polynomial n p ->
  forall x, -1 <= x <= 1 -> Rabs (peval p x) <= 1.
Proof. exact legendre_bound. Qed.

(** C07. In binary64 the derivative is NaN at the end point 1, where P_2'(1) = 3. *)
Theorem C07_endpoint_refuted : forall lib, exists (n : nat) (x v d u : FS lib),
  BinarySingleNaN.is_finite x = true /\ eval_Pn x n = (v, d, u) /\ is_nan d = true.
Proof. exact eval_Pn_end. Qed.

(** The Legendre polynomial of degree 2 is (3 x^2 - 1)/2. *)
Example C07_case : legendre_polynomial 2 [-1 / 2; 0; 3 / 2] /\
  peval [-1 / 2; 0; 3 / 2] 2 = 11 / 2.
Proof. split; [exact legendre_second|simpl; lra]. Qed.

(** C08. In exact arithmetic the construction succeeds for every n. *)
Theorem C08_succeeds : forall n, exists q, @gl_generate RS n = Ok q.
Proof. exact gl_succeeds. Qed.

(** C08. Increasing nodes inside (-1,1), positive weights, mirror symmetry. *)
Theorem C08_shape : forall n q, (1 <= n)%nat -> @gl_generate RS n = Ok q ->
  good_rule n (-1) 1 q /\ symmetric_rule q.
Proof. exact gl_good. Qed.

(** C08. There is exactly one n-point rule exact up to degree 2n-1, and its nodes are the zeros
    of the Legendre polynomial. *)
Theorem C08_gauss : forall n, (1 <= n)%nat ->
  (exists g, gauss_rule n g) /\ (forall g g', gauss_rule n g -> gauss_rule n g' -> g = g') /\
  (forall g p, gauss_rule n g -> legendre_polynomial n p -> forall x, In x (fst g) <-> peval p x = 0).
Proof. intros n Hn. exact (conj (gauss_exists n Hn) (conj (gauss_rule_unique n) (gauss_zeros n))). Qed.

(** C08. The computed rule is that rule, up to the tolerance of the iteration. *)
Theorem C08_close : forall n q g, (1 <= n)%nat -> @gl_generate RS n = Ok q -> gauss_rule n g ->
  rule_close tol (2 * (INR n + 1) ^ 2 * tol) q g.
Proof. exact gl_close. Qed.

(** C08. Effect on an integrand f bounded by A, with derivative bounded by B. *)
Theorem C08_error : forall n q g (f f1 : R -> R) A B, (1 <= n)%nat -> @gl_generate RS n = Ok q -> gauss_rule n g ->
  (forall t, -1 <= t <= 1 -> is_derive f t (f1 t)) -> (forall t, -1 <= t <= 1 -> Rabs (f t) <= A) ->
  (forall t, -1 <= t <= 1 -> Rabs (f1 t) <= B) ->
  Rabs (apply_rule q f - apply_rule g f) <= (4 * (INR n + 1) ^ 2 * A + 2 * B) * tol.
Proof. exact gl_error. Qed.

(** C08. Polynomials of degree at most 2n-1 are integrated up to that error. *)
Theorem C08_polynomials : forall n q p A B, (1 <= n)%nat -> @gl_generate RS n = Ok q -> deg_le p (2 * n - 1) ->
  (forall t, -1 <= t <= 1 -> Rabs (peval p t) <= A) -> (forall t, -1 <= t <= 1 -> Rabs (Derive (peval p) t) <= B) ->
  Rabs (apply_rule q (peval p) - RInt (peval p) (-1) 1) <= (4 * (INR n + 1) ^ 2 * A + 2 * B) * tol.
Proof. exact gl_poly_error. Qed.

(** C08. In any arithmetic (binary64 with any mathematical library included) either every iteration
    settles and a rule of n points is returned, or some iteration does not and the outcome is the
    exception. *)
Theorem C08_convergence : forall (S : Scalar) n,
  (exists q, @gl_generate S n = Ok q /\ length (fst q) = n /\ length (snd q) = n /\
     forall idx, (idx < n - n / 2)%nat -> @gl_newton S n 100 (gl_guess n idx) <> None) \/
  ((exists idx, (idx < n - n / 2)%nat /\ @gl_newton S n 100 (gl_guess n idx) = None) /\
   @gl_generate S n = Throw ExRuntime).
Proof. exact gl_no_convergence. Qed.

(** Two points: the exact rule has nodes +-1/sqrt 3 and weights 1, and the computed one is close. *)
Example C08_case : gauss_rule 2 ([- / sqrt 3; / sqrt 3], [1; 1]) /\
  exists q, @gl_generate RS 2 = Ok q /\ rule_close tol (18 * tol) q ([- / sqrt 3; / sqrt 3], [1; 1]).
Proof.
  split; [exact gauss_two|]. destruct (C08_succeeds 2) as (q & E). exists q. split; auto.
  replace (18 * tol) with (2 * (INR 2 + 1) ^ 2 * tol) by (simpl; ring).
  apply (C08_close 2); auto. exact gauss_two.
Qed.

(** C09. In exact arithmetic the construction succeeds for every n >= 2. *)
Theorem C09_succeeds : forall n, (2 <= n)%nat -> exists q, @lob_generate RS n = Ok q.
Proof. exact lob_succeeds. Qed.

(** C09. End nodes -1 and 1, first weight 2/(n(n-1)) (the last one by symmetry), increasing nodes,
    positive weights, mirror symmetry. *)
Theorem C09_shape : forall n q, (2 <= n)%nat -> @lob_generate RS n = Ok q ->
  good_closed_rule n q /\ symmetric_rule q /\ nth_error (snd q) 0 = Some (2 / (INR n * (INR n - 1))).
Proof. exact lob_good. Qed.

(** C09. There is exactly one closed n-point rule exact up to degree 2n-3; its inner nodes are the
    critical points of the Legendre polynomial of degree n-1. *)
Theorem C09_lobatto : forall n, (2 <= n)%nat ->
  (exists g, lobatto_rule n g) /\ (forall g g', lobatto_rule n g -> lobatto_rule n g' -> g = g') /\
  (forall g p, lobatto_rule n g -> legendre_polynomial (n - 1) p ->
     forall x, In x (fst g) <-> (x = -1 \/ x = 1 \/ (-1 < x < 1 /\ is_derive (peval p) x 0))).
Proof.
  intros n Hn. exact (conj (lobatto_exists n Hn) (conj (fun g g' => lobatto_rule_unique n g g' Hn)
    (fun g p => lobatto_zeros n g p Hn))).
Qed.

(** C09. The computed rule is that rule, up to the tolerance of the iteration. *)
Theorem C09_close : forall n q g, (2 <= n)%nat -> @lob_generate RS n = Ok q -> lobatto_rule n g ->
  rule_close tol (INR n ^ 4 * tol ^ 2) q g.
Proof. exact lob_close. Qed.

(** C09. Effect on an integrand f bounded by A, with derivative bounded by B. *)
Theorem C09_error : forall n q g (f f1 : R -> R) A B, (2 <= n)%nat -> @lob_generate RS n = Ok q -> lobatto_rule n g ->
  (forall t, -1 <= t <= 1 -> is_derive f t (f1 t)) -> (forall t, -1 <= t <= 1 -> Rabs (f t) <= A) ->
  (forall t, -1 <= t <= 1 -> Rabs (f1 t) <= B) ->
  Rabs (apply_rule q f - apply_rule g f) <= (2 * INR n ^ 4 * tol * A + 2 * B) * tol.
Proof. exact lob_error. Qed.

(** C09. Polynomials of degree at most 2n-3 are integrated up to that error. *)
Theorem C09_polynomials : forall n q p A B, (2 <= n)%nat -> @lob_generate RS n = Ok q -> deg_le p (2 * n - 3) ->
  (forall t, -1 <= t <= 1 -> Rabs (peval p t) <= A) -> (forall t, -1 <= t <= 1 -> Rabs (Derive (peval p) t) <= B) ->
  Rabs (apply_rule q (peval p) - RInt (peval p) (-1) 1) <= (2 * INR n ^ 4 * tol * A + 2 * B) * tol.
Proof. exact lob_poly_error. Qed.

(** C09. Any arithmetic: a rule of n points, or the exception. *)
Theorem C09_convergence : forall (S : Scalar) n, (2 <= n)%nat ->
  (exists q, @lob_generate S n = Ok q /\ length (fst q) = n /\ length (snd q) = n /\
     forall idx, (1 <= idx < n - n / 2)%nat -> @lob_newton S n 100 (lob_guess n idx) <> None) \/
  ((exists idx, (1 <= idx < n - n / 2)%nat /\ @lob_newton S n 100 (lob_guess n idx) = None) /\
   @lob_generate S n = Throw ExRuntime).
Proof. exact lob_no_convergence. Qed.

(** C09. The sizes below 2: undefined behaviour, and a rule with the weight 2/(1*(1-1)). *)
Theorem C09_small : forall (S : Scalar), @lob_generate S 0 = UB /\
  @lob_generate S 1 = Ok ([@s0 S], [sdiv s2 (smul (sofN 1) (ssub (sofN 1) s1))]).
Proof. exact lob_small. Qed.

(** Three points: Simpson's rule. *)
Example C09_case : lobatto_rule 3 ([-1; 0; 1], [1 / 3; 4 / 3; 1 / 3]) /\
  exists q, @lob_generate RS 3 = Ok q /\ rule_close tol (81 * tol ^ 2) q ([-1; 0; 1], [1 / 3; 4 / 3; 1 / 3]).
Proof.
  split; [exact lobatto_three|]. destruct (C09_succeeds 3 ltac:(lia)) as (q & E). exists q. split; auto.
  replace 81 with (INR 3 ^ 4) by (simpl; ring). apply (C09_close 3); auto. exact lobatto_three.
Qed.

Print Assumptions C07_polynomial.
Print Assumptions C07_evaluation.
Print Assumptions C07_equation.
Print Assumptions C07_bound.
Print Assumptions C07_endpoint_refuted.
Print Assumptions C08_succeeds.
Print Assumptions C08_shape.
Print Assumptions C08_gauss.
Print Assumptions C08_close.
Print Assumptions C08_error.
Print Assumptions C08_polynomials.
Print Assumptions C08_convergence.
Print Assumptions C09_succeeds.
Print Assumptions C09_shape.
Print Assumptions C09_lobatto.
Print Assumptions C09_close.
Print Assumptions C09_error.
Print Assumptions C09_polynomials.
Print Assumptions C09_convergence.
Print Assumptions C09_small.
