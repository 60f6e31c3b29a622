(** Property C57: the uniform trapezoid rule as stored in binary64.
    [trap_node], [trap_weight], [eps], [least], [drift] in Spec/TrapFloatSpec.v. *)
From Coq Require Import List Bool Arith ZArith Reals.
From Coquelicot Require Import Coquelicot.
From Flocq Require Import IEEE754.BinarySingleNaN.
From Verif Require Import Base.Outcome Base.Scalar Base.RScalar Base.FScalar Model.Primitive Model.BoundFloat
  Spec.Sums Spec.RealRules Spec.ErrorSpec Spec.LibmSpec Spec.BoundFloatSpec Spec.TrapFloatSpec
  Proofs.TrapFloatThm Proofs.TrapFloatEx.
Import ListNotations.
Local Open Scope R_scope.

(** Every node and weight of the stored rule: finite, and within a rounding bound of the exact one. *)
Theorem C57_rule : forall m n (lo up : F64), (2 <= n)%nat -> (Z.of_nat n <= 2 ^ 53)%Z -> plain_bound lo -> plain_bound up -> B2R lo < B2R up ->
  exists q : list F64 * list F64, @uniform_generate (FS m) n lo up = Ok q /\ length (fst q) = n /\ length (snd q) = n /\ all_finite q /\
  (forall i x, nth_error (fst q) i = Some x -> let X := trap_node (B2R lo) (B2R up) n i in
     Rabs (B2R x - X) <= eps * Rabs X + 4 * eps * (X - B2R lo) + (INR i + 1) * least) /\
  (forall i w, nth_error (snd q) i = Some w -> let W := trap_weight (B2R lo) (B2R up) n i in
     0 <= B2R w /\ Rabs (B2R w - W) <= 4 * eps * W + least).
Proof. exact trap_rule. Qed.

(** The total weight. *)
Theorem C57_total : forall m n (lo up : F64) (q : list F64 * list F64), (2 <= n)%nat -> (Z.of_nat n <= 2 ^ 53)%Z -> plain_bound lo -> plain_bound up ->
  B2R lo < B2R up -> @uniform_generate (FS m) n lo up = Ok q ->
  Rabs (Rsum (map B2R (snd q)) - (B2R up - B2R lo)) <= 4 * eps * (B2R up - B2R lo) + INR n * least.
Proof. exact trap_total. Qed.

(** The stored rule against the rule in exact arithmetic, for bounded Lipschitz integrands. *)
Theorem C57_tracks : forall m n (lo up : F64) (q : list F64 * list F64), (2 <= n)%nat -> (Z.of_nat n <= 2 ^ 53)%Z -> plain_bound lo -> plain_bound up ->
  B2R lo < B2R up -> @uniform_generate (FS m) n lo up = Ok q ->
  forall r, @uniform_generate RS n (B2R lo) (B2R up) = Ok r ->
  forall f K L, let a := B2R lo in let b := B2R up in let d := drift a b n in
  (forall x, a - d <= x <= b + d -> Rabs (f x) <= K) -> lipschitz (a - d) (b + d) L f ->
  Rabs (apply_rule (real_rule q) f - apply_rule r f) <= (4 * eps * (b - a) + INR n * least) * K + d * (b - a) * L.
Proof. exact trap_tracks. Qed.

(** Against the integral, twice differentiable integrands. *)
Theorem C57_smooth : forall m n (lo up : F64) (q : list F64 * list F64), (2 <= n)%nat -> (Z.of_nat n <= 2 ^ 53)%Z -> plain_bound lo -> plain_bound up ->
  B2R lo < B2R up -> @uniform_generate (FS m) n lo up = Ok q ->
  forall F M K L, let a := B2R lo in let b := B2R up in let d := drift a b n in
  smooth a b 2 F M ->
  (forall x, a - d <= x <= b + d -> Rabs (F 0%nat x) <= K) -> lipschitz (a - d) (b + d) L (F 0%nat) ->
  Rabs (apply_rule (real_rule q) (F 0%nat) - RInt (F 0%nat) a b) <=
    M * (b - a) ^ 3 / (12 * INR (n - 1) ^ 2) + ((4 * eps * (b - a) + INR n * least) * K + d * (b - a) * L).
Proof. exact trap_smooth. Qed.

(** Against the integral, integrands with a Lipschitz constant only. *)
Theorem C57_lipschitz : forall m n (lo up : F64) (q : list F64 * list F64), (2 <= n)%nat -> (Z.of_nat n <= 2 ^ 53)%Z -> plain_bound lo -> plain_bound up ->
  B2R lo < B2R up -> @uniform_generate (FS m) n lo up = Ok q ->
  forall f K L, let a := B2R lo in let b := B2R up in let d := drift a b n in
  (forall x, a - d <= x <= b + d -> Rabs (f x) <= K) -> lipschitz (a - d) (b + d) L f ->
  Rabs (apply_rule (real_rule q) f - RInt f a b) <=
    L * (b - a) ^ 2 / INR (n - 1) + ((4 * eps * (b - a) + INR n * least) * K + d * (b - a) * L).
Proof. exact trap_lip. Qed.

(** Nodes strictly increase and weights are positive when the step exceeds twice the drift. *)
Theorem C57_shape : forall m n (lo up : F64) (q : list F64 * list F64), (2 <= n)%nat -> (Z.of_nat n <= 2 ^ 53)%Z -> plain_bound lo -> plain_bound up ->
  B2R lo < B2R up -> @uniform_generate (FS m) n lo up = Ok q ->
  2 * drift (B2R lo) (B2R up) n < (B2R up - B2R lo) / INR (n - 1) ->
  (forall i j x y, (i < j)%nat -> nth_error (fst q) i = Some x -> nth_error (fst q) j = Some y -> Bltb x y = true) /\
  (forall w, In w (snd q) -> 0 < B2R w).
Proof. exact trap_shape. Qed.

(** Finding: on a short interval neighbouring nodes coincide. *)
Theorem C57_distinct_refuted : forall m, exists n (lo up : F64) (q : list F64 * list F64) x, (2 <= n)%nat /\ plain_bound lo /\ plain_bound up /\ B2R lo < B2R up /\
  @uniform_generate (FS m) n lo up = Ok q /\ nth_error (fst q) 0 = Some x /\ nth_error (fst q) 1 = Some x.
Proof. exact distinct_refuted. Qed.

(** Finding: when the step underflows, all nodes are lo and all weights are zero. *)
Theorem C57_vanish_refuted : forall m, exists n (lo up : F64) (q : list F64 * list F64), (2 <= n)%nat /\ plain_bound lo /\ plain_bound up /\ B2R lo < B2R up /\
  @uniform_generate (FS m) n lo up = Ok q /\ List.Forall (fun x => B2R x = B2R lo) (fst q) /\ List.Forall (fun w => B2R w = 0) (snd q).
Proof. exact vanish_refuted. Qed.

(** Finding: the last node can lie above up. *)
Theorem C57_inside_refuted : forall m, exists n (lo up : F64) (q : list F64 * list F64) x, (2 <= n)%nat /\ plain_bound lo /\ plain_bound up /\ B2R lo < B2R up /\
  @uniform_generate (FS m) n lo up = Ok q /\ nth_error (fst q) (n - 1) = Some x /\ B2R up < B2R x.
Proof. exact above_refuted. Qed.

(** Finding: with finite bounds too far apart the first node is NaN and every weight is infinite, at every size. *)
Theorem C57_overflow_refuted : forall m n, (2 <= n)%nat -> (Z.of_nat n <= 2 ^ 53)%Z -> exists (lo up : F64) (q : list F64 * list F64),
  is_finite lo = true /\ is_finite up = true /\ Bltb lo up = true /\
  @uniform_generate (FS m) n lo up = Ok q /\ nth_error (fst q) 0 = Some B754_nan /\ List.Forall (fun w => w = f_inf) (snd q).
Proof. exact trap_overflow. Qed.

(** Eleven nodes on [0,1]: the hypotheses hold, and x^2 is integrated with an error below 0.0017. *)
Example C57_bounds_ex : plain_bound (f_of 0 0) /\ plain_bound (f_of 1 0) /\ B2R (f_of 0 0) = 0 /\ B2R (f_of 1 0) = 1.
Proof. exact ex_bounds. Qed.

Example C57_ex : forall m, exists q : list F64 * list F64, @uniform_generate (FS m) 11 (f_of 0 0) (f_of 1 0) = Ok q /\
  2 * drift (B2R (f_of 0 0)) (B2R (f_of 1 0)) 11 < (B2R (f_of 1 0) - B2R (f_of 0 0)) / INR (11 - 1) /\
  Rabs (apply_rule (real_rule q) (fun x => x * x) - / 3) <= 0.0017.
Proof. exact trap_ex. Qed.

Print Assumptions C57_rule.
Print Assumptions C57_total.
Print Assumptions C57_tracks.
Print Assumptions C57_smooth.
Print Assumptions C57_lipschitz.
Print Assumptions C57_shape.
Print Assumptions C57_distinct_refuted.
Print Assumptions C57_vanish_refuted.
Print Assumptions C57_inside_refuted.
Print Assumptions C57_overflow_refuted.
