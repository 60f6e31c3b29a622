(** Property C54: error of the Gauss-type rules for integrands that are not polynomials.
    [smooth], [lipschitz], [within] in Spec/ErrorSpec.v. *)
From Coq Require Import List Bool Arith ZArith Reals Lra Lia.
From Coquelicot Require Import Coquelicot.
From Flocq Require Import IEEE754.BinarySingleNaN.
From Verif Require Import Base.Outcome Base.Scalar Base.RScalar Base.FScalar Model.Primitive
  Spec.Sums Spec.RealRules Spec.LegendreSpec Spec.ErrorSpec Spec.FloatSpec Spec.LibmSpec
  Proofs.ChebReal Proofs.GLFloatRule Proofs.LobFloatRule Proofs.GaussError Proofs.GaussErrorFloat.
Import ListNotations.
Local Open Scope R_scope.

(** The Gauss-Legendre rule as stored in binary64 against the integral: at most four times the distance to any
    polynomial of degree 2n-1, plus rounding errors. *)
Theorem C54_legendre_best : forall m d n (qf : list F64 * list F64),
  accurate m d -> d * (INR n + 1) ^ 2 <= 1 / 2000 -> (1 <= n)%nat -> (Z.of_nat n < 16384)%Z -> @gl_generate (FS m) n = Ok qf ->
  forall f p K L e, (forall x, -1 <= x <= 1 -> Rabs (f x) <= K) -> lipschitz (-1) 1 L f -> deg_le p (2 * n - 1) -> within (-1) 1 e f (peval p) ->
  Rabs (apply_rule (real_rule qf) f - RInt f (-1) 1) <= 4 * e + (400 * (INR n + 1) ^ 2 * K + 32 * L) * sqrt (INR n + 1) * ulp53.
Proof. exact gl_best. Qed.

(** Integrands with 2n derivatives, the last bounded by M. *)
Theorem C54_legendre_smooth : forall m d n (qf : list F64 * list F64),
  accurate m d -> d * (INR n + 1) ^ 2 <= 1 / 2000 -> (1 <= n)%nat -> (Z.of_nat n < 16384)%Z -> @gl_generate (FS m) n = Ok qf ->
  forall F M K L, smooth (-1) 1 (2 * n) F M -> (forall x, -1 <= x <= 1 -> Rabs (F 0%nat x) <= K) -> (forall x, -1 <= x <= 1 -> Rabs (F 1%nat x) <= L) ->
  Rabs (apply_rule (real_rule qf) (F 0%nat) - RInt (F 0%nat) (-1) 1) <=
    8 * M / (2 ^ (2 * n) * INR (fact (2 * n))) + (400 * (INR n + 1) ^ 2 * K + 32 * L) * sqrt (INR n + 1) * ulp53.
Proof. exact gl_smooth. Qed.

(** Integrands with a Lipschitz constant only. *)
Theorem C54_legendre_lipschitz : forall m d n (qf : list F64 * list F64),
  accurate m d -> d * (INR n + 1) ^ 2 <= 1 / 2000 -> (1 <= n)%nat -> (Z.of_nat n < 16384)%Z -> @gl_generate (FS m) n = Ok qf ->
  forall f K L, (forall x, -1 <= x <= 1 -> Rabs (f x) <= K) -> lipschitz (-1) 1 L f ->
  Rabs (apply_rule (real_rule qf) f - RInt f (-1) 1) <=
    4 * L / sqrt (INR (2 * n - 1)) + (400 * (INR n + 1) ^ 2 * K + 32 * L) * sqrt (INR n + 1) * ulp53.
Proof. exact gl_lip. Qed.

(** The same for the Gauss-Lobatto rule as stored, degree 2n-3. *)
Theorem C54_lobatto_best : forall m d n (qf : list F64 * list F64),
  accurate m d -> d * INR n ^ 2 <= 1 / 2000 -> (2 <= n)%nat -> (Z.of_nat n <= 16384)%Z -> @lob_generate (FS m) n = Ok qf ->
  forall f p K L e, (forall x, -1 <= x <= 1 -> Rabs (f x) <= K) -> lipschitz (-1) 1 L f -> deg_le p (2 * n - 3) -> within (-1) 1 e f (peval p) ->
  Rabs (apply_rule (real_rule qf) f - RInt f (-1) 1) <= 4 * e + (90 * INR n ^ 2 * K + 48 * L) * sqrt (INR n) * ulp53.
Proof. exact lob_best. Qed.

Theorem C54_lobatto_smooth : forall m d n (qf : list F64 * list F64),
  accurate m d -> d * INR n ^ 2 <= 1 / 2000 -> (2 <= n)%nat -> (Z.of_nat n <= 16384)%Z -> @lob_generate (FS m) n = Ok qf ->
  forall F M K L, smooth (-1) 1 (2 * n - 2) F M -> (forall x, -1 <= x <= 1 -> Rabs (F 0%nat x) <= K) -> (forall x, -1 <= x <= 1 -> Rabs (F 1%nat x) <= L) ->
  Rabs (apply_rule (real_rule qf) (F 0%nat) - RInt (F 0%nat) (-1) 1) <=
    8 * M / (2 ^ (2 * n - 2) * INR (fact (2 * n - 2))) + (90 * INR n ^ 2 * K + 48 * L) * sqrt (INR n) * ulp53.
Proof. exact lob_smooth. Qed.

Theorem C54_lobatto_lipschitz : forall m d n (qf : list F64 * list F64),
  accurate m d -> d * INR n ^ 2 <= 1 / 2000 -> (2 <= n)%nat -> (Z.of_nat n <= 16384)%Z -> @lob_generate (FS m) n = Ok qf ->
  forall f K L, (forall x, -1 <= x <= 1 -> Rabs (f x) <= K) -> lipschitz (-1) 1 L f ->
  Rabs (apply_rule (real_rule qf) f - RInt f (-1) 1) <=
    4 * L / sqrt (INR (2 * n - 3)) + (90 * INR n ^ 2 * K + 48 * L) * sqrt (INR n) * ulp53.
Proof. exact lob_lip. Qed.

(** The rules these approximate, without rounding: convergence for every continuous integrand. *)
Theorem C54_gauss_converges : forall f, (forall x, -1 <= x <= 1 -> continuous f x) ->
  rules_converge (fun n q => (1 <= n)%nat /\ gauss_rule n q) f (RInt f (-1) 1) /\
  rules_converge (fun n q => (2 <= n)%nat /\ lobatto_rule n q) f (RInt f (-1) 1).
Proof. intros f C. exact (conj (gauss_converge f C) (lobatto_converge f C)). Qed.

(** The Chebyshev rules in exact arithmetic, with their weight functions: integrands with 2n derivatives. *)
Theorem C54_chebyshev_smooth : forall n F M, (1 <= n)%nat ->
  (smooth (-1) 1 (2 * n) F M -> forall q, @gc1_generate RS n = Ok q ->
   exists I, open_integral (fun x => F 0%nat x / sqrt (1 - x * x)) (-1) 1 I /\
     Rabs (apply_rule q (fun x => F 0%nat x / sqrt (1 - x * x)) - I) <= 4 * PI * M / (2 ^ (2 * n) * INR (fact (2 * n)))) /\
  (smooth (-1) 1 (2 * n) F M -> forall q, @gc2_generate RS n = Ok q ->
   Rabs (apply_rule q (fun x => F 0%nat x * sqrt (1 - x * x)) - RInt (fun x => F 0%nat x * sqrt (1 - x * x)) (-1) 1)
     <= 2 * PI * M / (2 ^ (2 * n) * INR (fact (2 * n)))) /\
  (smooth 0 1 (2 * n) F M -> forall q, @gc3_generate RS n = Ok q ->
   exists I, open_integral (fun x => F 0%nat x * sqrt (x / (1 - x))) 0 1 I /\
     Rabs (apply_rule q (fun x => F 0%nat x * sqrt (x / (1 - x))) - I) <= 2 * PI * M / (4 ^ (2 * n) * INR (fact (2 * n)))).
Proof.
  intros n F M Hn. split; [|split]; intros S q G;
  [exact (gc1_smooth n q F M Hn G S)|exact (gc2_smooth n q F M Hn G S)|exact (gc3_smooth n q F M Hn G S)].
Qed.

(** And convergence for every continuous integrand. *)
Theorem C54_chebyshev_converges : forall f,
  ((forall x, -1 <= x <= 1 -> continuous f x) -> exists I, open_integral (fun x => f x / sqrt (1 - x * x)) (-1) 1 I /\
     rules_converge (fun n q => (1 <= n)%nat /\ @gc1_generate RS n = Ok q) (fun x => f x / sqrt (1 - x * x)) I) /\
  ((forall x, -1 <= x <= 1 -> continuous f x) ->
     rules_converge (fun n q => (1 <= n)%nat /\ @gc2_generate RS n = Ok q) (fun x => f x * sqrt (1 - x * x)) (RInt (fun x => f x * sqrt (1 - x * x)) (-1) 1)) /\
  ((forall x, 0 <= x <= 1 -> continuous f x) -> exists I, open_integral (fun x => f x * sqrt (x / (1 - x))) 0 1 I /\
     rules_converge (fun n q => (1 <= n)%nat /\ @gc3_generate RS n = Ok q) (fun x => f x * sqrt (x / (1 - x))) I).
Proof. intro f. exact (conj (gc1_converge f) (conj (gc2_converge f) (gc3_converge f))). Qed.

(** The exponential function is smooth to any order with bound 3, and |x| is Lipschitz with constant 1. Two points of the
    stored Gauss-Legendre rule, four of the Lobatto rule, with libraries of limited accuracy; five of the Chebyshev rules. *)
Example C54_ex : (forall N, smooth (-1) 1 N (fun _ => exp) 3) /\ (forall N, smooth 0 1 N (fun _ => exp) 3) /\ lipschitz (-1) 1 1 Rabs /\
  within (-1) 1 1 Rabs (peval [0]) /\
  (exists qf : list F64 * list F64, accurate ex_lib (/ 20000) /\ / 20000 * (INR 2 + 1) ^ 2 <= 1 / 2000 /\ @gl_generate (FS ex_lib) 2 = Ok qf /\
     Rabs (apply_rule (real_rule qf) exp - RInt exp (-1) 1) <= / 16 + (400 * (INR 2 + 1) ^ 2 * 3 + 32 * 3) * sqrt (INR 2 + 1) * ulp53) /\
  (exists qf : list F64 * list F64, accurate lex_lib (/ 50000) /\ / 50000 * INR 4 ^ 2 <= 1 / 2000 /\ @lob_generate (FS lex_lib) 4 = Ok qf) /\
  exists q1 q2 q3, @gc1_generate RS 5 = Ok q1 /\ @gc2_generate RS 5 = Ok q2 /\ @gc3_generate RS 5 = Ok q3.
Proof.
  assert (B : forall t, t <= 1 -> Rabs (exp t) <= 3).
  { intros t Ht. rewrite Rabs_pos_eq by (left; apply exp_pos). pose proof exp_le_3.
    destruct (Rle_lt_or_eq_dec t 1 Ht) as [H1| ->]; auto. apply exp_increasing in H1. lra. }
  assert (S1 : forall N, smooth (-1) 1 N (fun _ => exp) 3) by (intro N; split; [intros; apply is_derive_exp|intros; apply B; lra]).
  split; [exact S1|]. split; [intro N; split; [intros; apply is_derive_exp|intros; apply B; lra]|].
  split; [intros x y _ _; rewrite Rmult_1_l; apply Rabs_triang_inv2|].
  split; [intros x Hx; simpl; rewrite Rmult_0_r, Rplus_0_r, Rminus_0_r, Rabs_Rabsolu; apply Rabs_le; lra|].
  split; [|split].
  - destruct ex_rule as (A & D & qf & G & _). exists qf. split; [exact A|]. split; [exact D|]. split; [exact G|].
    pose proof (C54_legendre_smooth ex_lib _ 2 qf A D ltac:(lia) ltac:(lia) G (fun _ => exp) 3 3 3 (S1 _)) as E.
    eapply Rle_trans; [apply E; intros; apply B; lra|]. apply Rplus_le_compat_r.
    replace (INR (fact (2 * 2))) with 24 by (simpl; ring). simpl. lra.
  - destruct lex_rule as (A & D & qf & G & _). exists qf. auto.
  - do 3 eexists. split; [apply gc1_real|split; [apply gc2_real|apply gc3_real]].
Qed.

Print Assumptions C54_legendre_best.
Print Assumptions C54_legendre_smooth.
Print Assumptions C54_legendre_lipschitz.
Print Assumptions C54_lobatto_best.
Print Assumptions C54_lobatto_smooth.
Print Assumptions C54_lobatto_lipschitz.
Print Assumptions C54_gauss_converges.
Print Assumptions C54_chebyshev_smooth.
Print Assumptions C54_chebyshev_converges.
