(** Property C62: stored Gauss-Chebyshev rules of the second kind sent to finite intervals. Vocabulary in Spec/MappedSpec.v, [smooth] and
    [lipschitz] in Spec/ErrorSpec.v, [accurate] in Spec/LibmSpec.v. *)
From Coq Require Import List Bool Arith ZArith Reals Lra Lia.
From Coquelicot Require Import Coquelicot.
From Flocq Require Import IEEE754.BinarySingleNaN.
From Verif Require Import Base.Outcome Base.Scalar Base.RScalar Base.FScalar Model.Primitive Model.BoundFloat
  Spec.Sums Spec.RealRules Spec.ErrorSpec Spec.FloatSpec Spec.LibmSpec Spec.BoundFloatSpec Spec.MappedSpec
  Proofs.ChebFloat Proofs.Mapped Proofs.MappedCheb.
Import ListNotations.
Local Open Scope R_scope.

(** Against the integral over [-1,1], before any transformation. *)
Theorem C62_base : forall m d n (qf : list F64 * list F64),
  accurate m d -> d <= / 2 ^ 50 -> (1 <= n)%nat -> (Z.of_nat n <= 2 ^ 20)%Z -> @gc2_generate (FS m) n = Ok qf ->
  forall F M0 M1 M2 L, smooth (-1) 1 2 F M2 -> (forall x, -1 <= x <= 1 -> Rabs (F 0%nat x) <= M0) ->
  (forall x, -1 <= x <= 1 -> Rabs (F 1%nat x) <= M1) -> lipschitz (-1) 1 L (F 0%nat) ->
  Rabs (apply_rule (real_rule qf) (F 0%nat) - RInt (F 0%nat) (-1) 1) <=
    PI ^ 3 * (M0 + 3 * M1 + M2) / (12 * INR (n + 1) ^ 2) + 8 * (1 + ln (INR n)) * (M0 * (2 * d + 56 * ulp53) + L * (d + 23 * ulp53)).
Proof. intros m d n qf A D n1 Hn G. exact (gc2_stored_error m d n qf A D n1 Hn G). Qed.

(** The transformation goes through and nothing overflows. *)
Theorem C62_runs : forall m d n (qf : list F64 * list F64) dbg (lo up : F64),
  accurate m d -> d <= / 2 ^ 50 -> (1 <= n)%nat -> (Z.of_nat n <= 2 ^ 20)%Z -> @gc2_generate (FS m) n = Ok qf ->
  plain_bound lo -> plain_bound up -> Bltb lo up = true ->
  (exists q', maps_f64 m dbg lo up qf q') /\ forall q', maps_f64 m dbg lo up qf q' -> all_finite q'.
Proof.
  intros m d n qf dbg lo up A D n1 Hn G Hl Hu Lt. pose proof (gc2_stored m d n qf A D n1 Hn G) as St.
  exact (conj (map_runs m dbg lo up n qf Hl Hu Lt St) (map_finite m dbg lo up n qf Hl Hu Lt St)).
Qed.

(** Twice differentiable integrands on [lo,up]: second order in the number of points, plus rounding of the rule and of the transformation. *)
Theorem C62_interval : forall m d n (qf q' : list F64 * list F64) dbg (lo up : F64),
  accurate m d -> d <= / 2 ^ 50 -> (1 <= n)%nat -> (Z.of_nat n <= 2 ^ 20)%Z -> @gc2_generate (FS m) n = Ok qf ->
  plain_bound lo -> plain_bound up -> Bltb lo up = true -> maps_f64 m dbg lo up qf q' ->
  forall F M0 M1 M2 L, let h := (B2R up - B2R lo) / 2 in smooth (B2R lo) (B2R up) 2 F M2 ->
  (forall x, B2R lo <= x <= B2R up -> Rabs (F 1%nat x) <= M1) ->
  (forall x, B2R lo - spill lo up <= x <= B2R up + spill lo up -> Rabs (F 0%nat x) <= M0) ->
  lipschitz (B2R lo - spill lo up) (B2R up + spill lo up) L (F 0%nat) ->
  Rabs (apply_rule (real_rule q') (F 0%nat) - RInt (F 0%nat) (B2R lo) (B2R up)) <=
    h * (PI ^ 3 * (M0 + 3 * (h * M1) + h ^ 2 * M2) / (12 * INR (n + 1) ^ 2)) +
    (h * (8 * (1 + ln (INR n)) * (M0 * (2 * d + 56 * ulp53) + h * L * (d + 23 * ulp53))) + move_error n lo up M0 L).
Proof. intros m d n qf q' dbg lo up A D n1 Hn G Hl Hu Lt M. exact (gc2_map_second m d n qf A D n1 Hn G dbg lo up q' Hl Hu Lt M). Qed.

(** exp on [0,2] with a thousand stored points. *)
Example C62_ex : accurate rounded_libm (/ 2 ^ 54) /\ exists qf q' : list F64 * list F64, @gc2_generate (FS rounded_libm) 1000 = Ok qf /\
  maps_f64 rounded_libm true (f_of 0 0) (f_of 2 0) qf q' /\ Rabs (apply_rule (real_rule q') exp - (exp 2 - 1)) <= / 1000.
Proof. exact (conj rounded_accurate ex_cheb_interval). Qed.

Print Assumptions C62_base.
Print Assumptions C62_runs.
Print Assumptions C62_interval.
