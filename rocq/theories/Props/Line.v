(** Property C61: stored Gauss rules sent to the whole real line. Vocabulary in Spec/LineSpec.v, [maps_f64] in Spec/MappedSpec.v. *)
From Coq Require Import List Bool Arith ZArith Reals Lra Lia.
From Coquelicot Require Import Coquelicot.
From Flocq Require Import IEEE754.BinarySingleNaN.
From Verif Require Import Base.Outcome Base.Scalar Base.RScalar Base.FScalar Model.Primitive Model.BoundFloat
  Spec.Sums Spec.RealRules Spec.LegendreSpec Spec.ErrorSpec Spec.FloatSpec Spec.LibmSpec Spec.BoundFloatSpec Spec.MappedSpec Spec.LineSpec
  Proofs.GLFloatRule Proofs.LineRule Proofs.LineEx.
Import ListNotations.
Local Open Scope R_scope.

(** The transformation goes through and nothing overflows. *)
Theorem C61_runs : forall m d n (qf : list F64 * list F64) dbg,
  accurate m d -> d * (INR n + 1) ^ 2 <= 1 / 2000 -> (1 <= n)%nat -> (Z.of_nat n < 16384)%Z -> @gl_generate (FS m) n = Ok qf ->
  (exists q', maps_f64 m dbg (Bopp f_inf) f_inf qf q') /\ forall q', maps_f64 m dbg (Bopp f_inf) f_inf qf q' -> all_finite q'.
Proof.
  intros m d n qf dbg A D n1 Hn G. exact (conj (line_runs m d n qf A D n1 Hn G dbg) (line_finite m d n qf A D n1 Hn G dbg)).
Qed.

(** Gauss-Legendre on the line: g is the integrand in the variable of [-1,1], within e of a polynomial of degree 2n-1. The loss of digits near the ends
    (C56_digits_refuted) does not reach the nodes of these rules: the error is of the order of n^2 roundings, not of the order 2^-24. *)
Theorem C61_line : forall m d n (qf q' : list F64 * list F64) dbg,
  accurate m d -> d * (INR n + 1) ^ 2 <= 1 / 2000 -> (1 <= n)%nat -> (Z.of_nat n < 16384)%Z -> @gl_generate (FS m) n = Ok qf ->
  maps_f64 m dbg (Bopp f_inf) f_inf qf q' ->
  forall f g p L KG LG e, flattening L f ->
  (forall x, -1 < x < 1 -> g x = f (x / (1 + x) / (1 - x)) * ((1 + x * x) / ((x * x - 1) * (x * x - 1)))) ->
  (forall x, -1 <= x <= 1 -> Rabs (g x) <= KG) -> lipschitz (-1) 1 LG g -> deg_le p (2 * n - 1) -> within (-1) 1 e g (peval p) ->
  line_integral f (RInt g (-1) 1) /\ Rabs (apply_rule (real_rule q') f - RInt g (-1) 1) <= line_error n e L KG LG.
Proof.
  intros m d n qf q' dbg A D n1 Hn G M f g p L KG LG e. exact (line_best m d n qf A D n1 Hn G dbg q' f g p L KG LG e M).
Qed.

(** Finding: the stored two-point rule is symmetric, its image is not, and the sum over an odd integrand is not zero. *)
Theorem C61_odd_refuted : exists qf q' : list F64 * list F64, @gl_generate (FS ex_lib) 2 = Ok qf /\ maps_f64 ex_lib true (Bopp f_inf) f_inf qf q' /\
  apply_rule (real_rule qf) (fun x => x) = 0 /\ 0 < apply_rule (real_rule q') (fun y => y).
Proof. exact ex_odd. Qed.

(** Finding: every Lobatto rule sent to the line holds an infinite node and an infinite weight. *)
Theorem C61_lobatto_infinite : forall m d n (qf q' : list F64 * list F64) dbg,
  accurate m d -> d * INR n ^ 2 <= 1 / 2000 -> (2 <= n)%nat -> (Z.of_nat n <= 16384)%Z -> @lob_generate (FS m) n = Ok qf ->
  maps_f64 m dbg (Bopp f_inf) f_inf qf q' -> In f_inf (fst q') /\ In f_inf (snd q').
Proof. exact lob_line. Qed.

(** 1/(1+4y^2), whose integral is pi/2, with two stored points. *)
Example C61_line_ex : flattening 8 (fun y => / (1 + 4 * y ^ 2)) /\
  (forall x, -1 < x < 1 -> / (1 + x ^ 2) = / (1 + 4 * (x / (1 + x) / (1 - x)) ^ 2) * ((1 + x * x) / ((x * x - 1) * (x * x - 1)))) /\
  exists qf q' : list F64 * list F64, @gl_generate (FS ex_lib) 2 = Ok qf /\ maps_f64 ex_lib true (Bopp f_inf) f_inf qf q' /\
  line_integral (fun y => / (1 + 4 * y ^ 2)) (PI / 2) /\ Rabs (apply_rule (real_rule q') (fun y => / (1 + 4 * y ^ 2)) - PI / 2) <= / 5.
Proof. exact (conj bump_flat (conj bump_pull ex_line)). Qed.

Print Assumptions C61_runs.
Print Assumptions C61_line.
Print Assumptions C61_odd_refuted.
Print Assumptions C61_lobatto_infinite.
