(** C56: the interval transformation in binary64, bounds given as doubles. Vocabulary in Spec/BoundFloatSpec.v. *)
From Coq Require Import Bool ZArith Reals Lra.
From Flocq Require Import IEEE754.BinarySingleNaN Core.
From Verif Require Import Base.Outcome Base.Scalar Base.FScalar Model.BoundTransform Model.BoundFloat Spec.RuleSpec Spec.FloatSpec Spec.BoundFloatSpec
  Proofs.FloatErr Proofs.BoundFloat Proofs.BoundFloatThm.
Local Open Scope R_scope.

(** The comparisons with infinity select the case C10 speaks of. *)
Theorem C56_cases : forall m dbg (lo up pt w : F64), is_nan lo = false -> is_nan up = false -> lo <> f_inf -> up <> Bopp f_inf ->
  transform_f64 m dbg lo up pt w = @transform_minus_one_to_one (FS m) dbg (bound_of m lo) (bound_of m up) pt w.
Proof. exact transform_model. Qed.

(** Finite bounds: errors of node and weight. *)
Theorem C56_finite : forall m dbg (lo up x w : F64), plain_bound lo -> plain_bound up -> Bltb lo up = true -> is_finite x = true -> Rabs (B2R x) <= 1 ->
  is_finite w = true -> Rabs (B2R w) <= 2 ^ 60 -> let M := Rmax (Rabs (B2R lo)) (Rabs (B2R up)) in
  exists y v : F64, transform_f64 m dbg lo up x w = Ok (y, v) /\ is_finite y = true /\ is_finite v = true /\
    Rabs (B2R y - ((B2R up - B2R lo) / 2 * B2R x + (B2R up + B2R lo) / 2)) <= 12 * ulp53 * M + 4 * tiny /\
    Rabs (B2R v - B2R w * ((B2R up - B2R lo) / 2)) <= Rabs (B2R w) * (6 * ulp53 * M + 2 * tiny) + tiny.
Proof. exact finite_thm. Qed.

(** [lo, inf): the node never falls below lo. *)
Theorem C56_up_infinite : forall m dbg (lo x w : F64), plain_bound lo -> inside x -> moderate w -> let r := (1 + B2R x) / (1 - B2R x) in
  exists y v : F64, transform_f64 m dbg lo f_inf x w = Ok (y, v) /\ is_finite y = true /\ Bleb lo y = true /\
    Rabs (B2R y - (B2R lo + r)) <= 8 * ulp53 * (Rabs (B2R lo) + r) /\
    relative v (B2R w * (2 / ((1 - B2R x) * (1 - B2R x)))) (13 * ulp53).
Proof. exact up_thm. Qed.

(** (-inf, up]: the same, with the sign of the weight C10 refutes. *)
Theorem C56_low_infinite : forall m dbg (up x w : F64), plain_bound up -> inside x -> moderate w -> let r := (1 - B2R x) / (1 + B2R x) in
  exists y v : F64, transform_f64 m dbg (Bopp f_inf) up x w = Ok (y, v) /\ is_finite y = true /\ Bleb y up = true /\
    Rabs (B2R y - (B2R up - r)) <= 8 * ulp53 * (Rabs (B2R up) + r) /\
    relative v (B2R w * (- 2 / ((1 + B2R x) * (1 + B2R x)))) (13 * ulp53).
Proof. exact low_thm. Qed.

(** (-inf, inf): nodes are accurate, weights to half of the digits. *)
Theorem C56_both_infinite : forall m dbg (x w : F64), inside x -> (B2R x = 0 \/ / 2 ^ 700 <= Rabs (B2R x)) -> moderate w ->
  exists y v : F64, transform_f64 m dbg (Bopp f_inf) f_inf x w = Ok (y, v) /\
    relative y (B2R x / (1 + B2R x) / (1 - B2R x)) (9 * ulp53) /\
    relative v (B2R w * ((1 + B2R x * B2R x) / ((B2R x * B2R x - 1) * (B2R x * B2R x - 1)))) (/ 2 ^ 24).
Proof. exact all_thm. Qed.

(** Finding: no more than half of the digits, because x * x - 1 cancels. *)
Theorem C56_digits_refuted : forall m dbg, exists x w y v : F64, inside x /\ moderate w /\ transform_f64 m dbg (Bopp f_inf) f_inf x w = Ok (y, v) /\
  is_finite v = true /\ ~ relative v (B2R w * ((1 + B2R x * B2R x) / ((B2R x * B2R x - 1) * (B2R x * B2R x - 1)))) (/ 2 ^ 28).
Proof. exact digits_refuted. Qed.

(** Nodes in order stay in order unless both bounds are infinite. *)
Theorem C56_order : forall m dbg (lo up x x' w w' y v y' v' : F64),
  (plain_bound lo /\ plain_bound up /\ Bltb lo up = true) \/ (plain_bound lo /\ up = f_inf) \/ (lo = Bopp f_inf /\ plain_bound up) ->
  inside x -> inside x' -> Bleb x x' = true -> transform_f64 m dbg lo up x w = Ok (y, v) -> transform_f64 m dbg lo up x' w' = Ok (y', v') -> Bleb y y' = true.
Proof. exact order_thm. Qed.

(** Finding: with both bounds infinite they can change order. *)
Theorem C56_order_refuted : forall m dbg, exists x x' w y v y' v' : F64, inside x /\ inside x' /\ Bltb x x' = true /\
  transform_f64 m dbg (Bopp f_inf) f_inf x w = Ok (y, v) /\ transform_f64 m dbg (Bopp f_inf) f_inf x' w = Ok (y', v') /\ Bltb y' y = true.
Proof. exact order_refuted. Qed.

(** Finding: a symmetric rule is not symmetric after the transformation to (-inf, inf). *)
Theorem C56_symmetric_refuted : forall m dbg, exists x w y v y' v' : F64, inside x /\
  transform_f64 m dbg (Bopp f_inf) f_inf x w = Ok (y, v) /\ transform_f64 m dbg (Bopp f_inf) f_inf (Bopp x) w = Ok (y', v') /\ Beqb y' (Bopp y) = false.
Proof. exact odd_refuted. Qed.

(** Finding: a node strictly inside (-1,1) can be sent below lo. *)
Theorem C56_inside_refuted : forall m dbg, exists lo up x w y v : F64, plain_bound lo /\ plain_bound up /\ Bltb lo up = true /\ inside x /\
  transform_f64 m dbg lo up x w = Ok (y, v) /\ Bltb y lo = true.
Proof. exact escape_refuted. Qed.

(** Finding: finite bounds far apart give a NaN node and an infinite weight. *)
Theorem C56_overflow_refuted : forall m dbg, exists lo up x w y v : F64, is_finite lo = true /\ is_finite up = true /\ Bltb lo up = true /\ inside x /\ is_finite w = true /\
  transform_f64 m dbg lo up x w = Ok (y, v) /\ is_nan y = true /\ v = f_inf.
Proof. exact overflow_refuted. Qed.

(** Rules with nodes at the ends (Gauss-Lobatto, uniform) get infinite nodes and weights at infinite bounds. *)
Theorem C56_ends : forall m dbg (b w : F64), is_finite b = true -> is_finite w = true -> Bltb (f_of 0 0) w = true ->
  transform_f64 m dbg b f_inf (f_of 1 0) w = Ok (f_inf, f_inf) /\
  transform_f64 m dbg (Bopp f_inf) b (Bopp (f_of 1 0)) w = Ok (Bopp f_inf, Bopp f_inf) /\
  transform_f64 m dbg (Bopp f_inf) f_inf (f_of 1 0) w = Ok (f_inf, f_inf) /\
  transform_f64 m dbg (Bopp f_inf) f_inf (Bopp (f_of 1 0)) w = Ok (Bopp f_inf, f_inf).
Proof. exact ends_thm. Qed.

(** Bounds 1 and 2, nodes 3/64 and 1, weight 1. *)
Example C56_ex : plain_bound (f_of 1 0) /\ plain_bound (f_of 2 0) /\ Bltb (f_of 1 0) (f_of 2 0) = true /\ inside (f_of 3 (-6)) /\ moderate (f_of 1 0) /\
  / 2 ^ 700 <= Rabs (B2R (f_of 3 (-6))) /\ Bltb (f_of 0 0) (f_of 1 0) = true.
Proof. exact bound_ex. Qed.

Print Assumptions C56_cases.
Print Assumptions C56_finite.
Print Assumptions C56_up_infinite.
Print Assumptions C56_low_infinite.
Print Assumptions C56_both_infinite.
Print Assumptions C56_digits_refuted.
Print Assumptions C56_order.
Print Assumptions C56_order_refuted.
Print Assumptions C56_symmetric_refuted.
Print Assumptions C56_inside_refuted.
Print Assumptions C56_overflow_refuted.
Print Assumptions C56_ends.
