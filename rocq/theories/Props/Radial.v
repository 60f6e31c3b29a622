(** Properties C10-C12: interval transformation, radial maps and radial rules in exact arithmetic. *)
From Coq Require Import List Arith Reals Lra Lia.
From Coquelicot Require Import Coquelicot.
From Verif Require Import Base.Outcome Base.Scalar Base.RScalar Model.Primitive Model.BoundTransform
  Model.Radial Spec.Sums Spec.RealRules Spec.IntervalSpec Spec.RadialSpec Proofs.ChebReal Proofs.BoundFacts
  Proofs.RadialReal Proofs.RadialRule.
Import ListNotations.
Local Open Scope R_scope.

(** C10. For every lo < up there is one increasing bijection T of (-1,1) onto (lo,up) that sends
    every node x to T x; the returned weight is w T'(x) > 0 (times -1 when only lo is infinite). *)
Theorem C10_change_of_variable : forall dbg lo up, Rbar_lt (ext lo) (ext up) ->
  exists T : R -> R, increasing_onto T (-1) 1 (ext lo) (ext up) /\
  forall x w, -1 < x < 1 -> exists v,
    @transform_minus_one_to_one RS dbg lo up x w = Ok (T x, v) /\
    exists d, is_derive T x d /\ 0 < d /\ (~ left_infinite lo up -> v = w * d) /\
      (left_infinite lo up -> v = - (w * d)).
Proof. exact transform_change. Qed.

(** Hence the claim "weights are w T'(x)" fails for every half-infinite interval (-inf, u):
    positive weights become negative. *)
Theorem C10_left_infinite_refuted : forall dbg (u x w : R), -1 < x < 1 -> 0 < w ->
  exists y v, @transform_minus_one_to_one RS dbg MinusInf (BoundTransform.Finite (u : RS)) x w = Ok (y, v) /\ v < 0.
Proof. exact left_infinite_negative. Qed.

(** On finite intervals a rule that is exact for f o affine on [-1,1] is exact for f on [lo,up]. *)
Theorem C10_exactness_transfers : forall dbg (lo up : R) q q' f, lo < up ->
  maps_rule dbg (BoundTransform.Finite (lo : RS)) (BoundTransform.Finite (up : RS)) q q' ->
  (let g := fun x => f ((up - lo) / 2 * x + (up + lo) / 2) in is_RInt g (-1) 1 (apply_rule q g)) ->
  is_RInt f lo up (apply_rule q' f).
Proof. exact mapped_finite. Qed.

Example C10_change_of_variable_ex :
  Rbar_lt (ext (BoundTransform.Finite (1 : RS))) (ext PlusInf) /\
  ~ left_infinite (BoundTransform.Finite (1 : RS)) PlusInf /\ left_infinite MinusInf (BoundTransform.Finite (1 : RS)).
Proof.
  refine (conj I (conj _ _)); [intros (E & _); discriminate|]. split; [reflexivity|]. eexists. reflexivity.
Qed.

(** The midpoint rule (node 0, weight 2) mapped to [0,4] integrates f(y) = y. *)
Example C10_exactness_transfers_ex :
  maps_rule true (BoundTransform.Finite (0 : RS)) (BoundTransform.Finite (4 : RS)) ([0], [2]) ([2], [4]) /\
  let g := fun x => (4 - 0) / 2 * x + (4 + 0) / 2 in is_RInt g (-1) 1 (apply_rule ([0], [2]) g).
Proof. exact midpoint_ex. Qed.

(** C11. *)
Theorem C11_bijection : forall t, rt_valid t -> increasing_onto (rt_transform t) (base_lo t) 1 0 p_infty.
Proof. exact radial_onto. Qed.

Theorem C11_jacobian : forall t x, rt_valid t -> base_lo t < x < 1 ->
  is_derive (rt_transform t) x (rt_jacobian t x) /\ 0 < rt_jacobian t x.
Proof. exact radial_derive. Qed.

Theorem C11_scaling : forall t c x,
  rt_transform (with_scale t (c * scale_of t)) x = c * rt_transform t x /\
  rt_jacobian (with_scale t (c * scale_of t)) x = c * rt_jacobian t x.
Proof. exact radial_scaling. Qed.

Example C11_ex : rt_valid (Becke 10 (3 / 2 : RS)) /\ rt_valid (MHL 2 10 (1 : RS)) /\
  rt_valid (MK 10 (5 : RS)) /\ rt_valid (TA 10 (1 : RS) (6 / 10 : RS)) /\
  base_lo (TA 10 (1 : RS) (6 / 10 : RS)) < - (1 / 2) < 1.
Proof. simpl. repeat split; try lia; lra. Qed.

(** C12. n positive, strictly increasing radii with n positive weights. *)
Theorem C12_shape : forall t q, rt_valid t -> @radial_generate RS t = Ok q ->
  length (fst q) = rt_npts t /\ length (snd q) = rt_npts t /\
  (forall i j x y, (i < j)%nat -> nth_error (fst q) i = Some x -> nth_error (fst q) j = Some y -> x < y) /\
  (forall r, In r (fst q) -> 0 < r) /\ (forall w, In w (snd q) -> 0 < w).
Proof. exact radial_shape. Qed.

(** Construction succeeds for every number of points, zero included. *)
Theorem C12_total : forall t, exists q, @radial_generate RS t = Ok q.
Proof. exact radial_total. Qed.

(** Nodes and weights are those of the base rule, transformed; the base rule has the right number
    of nodes, all strictly inside the base interval (so its end points are never evaluated). *)
Theorem C12_nodes : forall t q, @radial_generate RS t = Ok q ->
  exists b, base_rule t b /\ good_rule (rt_npts t) (base_lo t) 1 b /\
    fst q = map (rt_transform t) (fst b) /\
    snd q = map (fun xw => snd xw * rt_jacobian t (fst xw)) (combine (fst b) (snd b)).
Proof. exact radial_nodes_good. Qed.

(** Applying the radial rule to f is applying the base rule to f(r(x)) r'(x). *)
Theorem C12_change_of_variable : forall t q b f, rt_valid t -> @radial_generate RS t = Ok q -> base_rule t b ->
  apply_rule q f = apply_rule b (fun x => f (rt_transform t x) * Derive (rt_transform t) x).
Proof. exact radial_sum. Qed.

(** Convergence to the improper integral over (0,inf). *)
Theorem C12_converges : forall t f, rt_valid t -> flat_start t -> (forall r, 0 <= r -> continuous f r) ->
  decays t f -> exists I, half_line_integral f I /\
    rules_converge (fun n q => @radial_generate RS (with_npts t n) = Ok q) f I.
Proof. exact radial_converges. Qed.

Example C12_ex : exists q b, @radial_generate RS (MHL 2 1 (2 : RS)) = Ok q /\ q = ([2], [8]) /\
  base_rule (MHL 2 1 (2 : RS)) b /\ b = ([1 / 2], [1 / 2]).
Proof. exact mhl_one_ex. Qed.

(** The tent max(0, 1 - r) meets the hypotheses of [C12_converges] for every scheme. *)
Example C12_converges_ex : let f := fun r => Rmax 0 (1 - r) in
  (forall r, 0 <= r -> continuous f r) /\
  (forall t, rt_valid t -> decays t f) /\ flat_start (TA 10 (1 : RS) (6 / 10 : RS)).
Proof. exact tent_ex. Qed.

Print Assumptions C10_change_of_variable.
Print Assumptions C10_left_infinite_refuted.
Print Assumptions C10_exactness_transfers.
Print Assumptions C11_bijection.
Print Assumptions C11_jacobian.
Print Assumptions C11_scaling.
Print Assumptions C12_shape.
Print Assumptions C12_total.
Print Assumptions C12_nodes.
Print Assumptions C12_change_of_variable.
Print Assumptions C12_converges.
