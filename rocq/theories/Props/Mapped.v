(** Property C60: stored Gauss rules sent through the interval transformation. Vocabulary in Spec/MappedSpec.v; [plain_bound] (finite, at most
    2^800) in Spec/BoundFloatSpec.v, [smooth] and [lipschitz] in Spec/ErrorSpec.v, [half_line_integral] in Spec/RadialSpec.v. *)
From Coq Require Import List Bool Arith ZArith Reals Lra Lia.
From Coquelicot Require Import Coquelicot.
From Flocq Require Import IEEE754.BinarySingleNaN.
From Verif Require Import Base.Outcome Base.Scalar Base.RScalar Base.FScalar Model.Primitive Model.BoundFloat
  Spec.Sums Spec.RealRules Spec.LegendreSpec Spec.RadialSpec Spec.ErrorSpec Spec.FloatSpec Spec.LibmSpec Spec.BoundFloatSpec Spec.MappedSpec
  Proofs.GLFloatRule Proofs.LobFloatRule Proofs.Mapped Proofs.MappedGauss Proofs.MappedHalf Proofs.MappedEx.
Import ListNotations.
Local Open Scope R_scope.

(** Between finite bounds the transformation of a stored rule goes through and nothing overflows. *)
Theorem C60_runs : forall m d n (qf : list F64 * list F64) dbg (lo up : F64), accurate m d -> plain_bound lo -> plain_bound up -> Bltb lo up = true ->
  (d * (INR n + 1) ^ 2 <= 1 / 2000 /\ (1 <= n)%nat /\ (Z.of_nat n < 16384)%Z /\ @gl_generate (FS m) n = Ok qf) \/
  (d * INR n ^ 2 <= 1 / 2000 /\ (2 <= n)%nat /\ (Z.of_nat n <= 16384)%Z /\ @lob_generate (FS m) n = Ok qf) ->
  (exists q', maps_f64 m dbg lo up qf q') /\ forall q', maps_f64 m dbg lo up qf q' -> all_finite q'.
Proof.
  intros m d n qf dbg lo up A Hl Hu Lt C.
  assert (St : stored n qf) by (destruct C as [(D & n1 & Hn & G)|(D & n2 & Hn & G)]; [exact (gl_stored m d n qf A D n1 Hn G)|exact (lob_stored m d n qf A D n2 Hn G)]).
  exact (conj (map_runs m dbg lo up n qf Hl Hu Lt St) (map_finite m dbg lo up n qf Hl Hu Lt St)).
Qed.

(** Gauss-Legendre on [lo,up]: integrands with 2n derivatives there. Bound and Lipschitz constant are needed slightly beyond the bounds, because
    stored nodes can fall outside (C56_inside_refuted). *)
Theorem C60_legendre_smooth : forall m d n (qf q' : list F64 * list F64) dbg (lo up : F64),
  accurate m d -> d * (INR n + 1) ^ 2 <= 1 / 2000 -> (1 <= n)%nat -> (Z.of_nat n < 16384)%Z -> @gl_generate (FS m) n = Ok qf ->
  plain_bound lo -> plain_bound up -> Bltb lo up = true -> maps_f64 m dbg lo up qf q' ->
  forall F M K L, let h := (B2R up - B2R lo) / 2 in smooth (B2R lo) (B2R up) (2 * n) F M ->
  (forall x, B2R lo - spill lo up <= x <= B2R up + spill lo up -> Rabs (F 0%nat x) <= K) ->
  lipschitz (B2R lo - spill lo up) (B2R up + spill lo up) L (F 0%nat) ->
  Rabs (apply_rule (real_rule q') (F 0%nat) - RInt (F 0%nat) (B2R lo) (B2R up)) <=
    8 * M * h ^ (2 * n + 1) / (2 ^ (2 * n) * INR (fact (2 * n))) +
    (h * (400 * (INR n + 1) ^ 2 * K + 32 * (h * L)) * sqrt (INR n + 1) * ulp53 + move_error n lo up K L).
Proof. intros m d n qf q' dbg lo up A D n1 Hn G Hl Hu Lt M. exact (gl_map_smooth m d n qf A D n1 Hn G dbg lo up q' Hl Hu Lt M). Qed.

(** Integrands with a Lipschitz constant only. *)
Theorem C60_legendre_lipschitz : forall m d n (qf q' : list F64 * list F64) dbg (lo up : F64),
  accurate m d -> d * (INR n + 1) ^ 2 <= 1 / 2000 -> (1 <= n)%nat -> (Z.of_nat n < 16384)%Z -> @gl_generate (FS m) n = Ok qf ->
  plain_bound lo -> plain_bound up -> Bltb lo up = true -> maps_f64 m dbg lo up qf q' ->
  forall f K L, let h := (B2R up - B2R lo) / 2 in
  (forall x, B2R lo - spill lo up <= x <= B2R up + spill lo up -> Rabs (f x) <= K) ->
  lipschitz (B2R lo - spill lo up) (B2R up + spill lo up) L f ->
  Rabs (apply_rule (real_rule q') f - RInt f (B2R lo) (B2R up)) <=
    4 * L * h ^ 2 / sqrt (INR (2 * n - 1)) +
    (h * (400 * (INR n + 1) ^ 2 * K + 32 * (h * L)) * sqrt (INR n + 1) * ulp53 + move_error n lo up K L).
Proof. intros m d n qf q' dbg lo up A D n1 Hn G Hl Hu Lt M. exact (gl_map_lip m d n qf A D n1 Hn G dbg lo up q' Hl Hu Lt M). Qed.

(** Gauss-Lobatto on [lo,up]. *)
Theorem C60_lobatto_smooth : forall m d n (qf q' : list F64 * list F64) dbg (lo up : F64),
  accurate m d -> d * INR n ^ 2 <= 1 / 2000 -> (2 <= n)%nat -> (Z.of_nat n <= 16384)%Z -> @lob_generate (FS m) n = Ok qf ->
  plain_bound lo -> plain_bound up -> Bltb lo up = true -> maps_f64 m dbg lo up qf q' ->
  forall F M K L, let h := (B2R up - B2R lo) / 2 in smooth (B2R lo) (B2R up) (2 * n - 2) F M ->
  (forall x, B2R lo - spill lo up <= x <= B2R up + spill lo up -> Rabs (F 0%nat x) <= K) ->
  lipschitz (B2R lo - spill lo up) (B2R up + spill lo up) L (F 0%nat) ->
  Rabs (apply_rule (real_rule q') (F 0%nat) - RInt (F 0%nat) (B2R lo) (B2R up)) <=
    8 * M * h ^ (2 * n - 1) / (2 ^ (2 * n - 2) * INR (fact (2 * n - 2))) +
    (h * (90 * INR n ^ 2 * K + 48 * (h * L)) * sqrt (INR n) * ulp53 + move_error n lo up K L).
Proof. intros m d n qf q' dbg lo up A D n2 Hn G Hl Hu Lt M. exact (lob_map_smooth m d n qf A D n2 Hn G dbg lo up q' Hl Hu Lt M). Qed.

Theorem C60_lobatto_lipschitz : forall m d n (qf q' : list F64 * list F64) dbg (lo up : F64),
  accurate m d -> d * INR n ^ 2 <= 1 / 2000 -> (2 <= n)%nat -> (Z.of_nat n <= 16384)%Z -> @lob_generate (FS m) n = Ok qf ->
  plain_bound lo -> plain_bound up -> Bltb lo up = true -> maps_f64 m dbg lo up qf q' ->
  forall f K L, let h := (B2R up - B2R lo) / 2 in
  (forall x, B2R lo - spill lo up <= x <= B2R up + spill lo up -> Rabs (f x) <= K) ->
  lipschitz (B2R lo - spill lo up) (B2R up + spill lo up) L f ->
  Rabs (apply_rule (real_rule q') f - RInt f (B2R lo) (B2R up)) <=
    4 * L * h ^ 2 / sqrt (INR (2 * n - 3)) +
    (h * (90 * INR n ^ 2 * K + 48 * (h * L)) * sqrt (INR n) * ulp53 + move_error n lo up K L).
Proof. intros m d n qf q' dbg lo up A D n2 Hn G Hl Hu Lt M. exact (lob_map_lip m d n qf A D n2 Hn G dbg lo up q' Hl Hu Lt M). Qed.

(** Gauss-Legendre on [lo,infinity): g is the integrand in the variable of [-1,1], within e of a polynomial of degree 2n-1. *)
Theorem C60_half_line : forall m d n (qf : list F64 * list F64) dbg (lo : F64),
  accurate m d -> d * (INR n + 1) ^ 2 <= 1 / 2000 -> (1 <= n)%nat -> (Z.of_nat n < 16384)%Z -> @gl_generate (FS m) n = Ok qf ->
  is_finite lo = true -> Rabs (B2R lo) <= 2 ^ 40 ->
  (exists q', maps_f64 m dbg lo f_inf qf q') /\
  forall q' f g p K L KG LG e, maps_f64 m dbg lo f_inf qf q' -> decaying K L (fun r => f (B2R lo + r)) ->
  (forall x, -1 < x < 1 -> g x = f (B2R lo + (1 + x) / (1 - x)) * (2 / ((1 - x) * (1 - x)))) ->
  (forall x, -1 <= x <= 1 -> Rabs (g x) <= KG) -> lipschitz (-1) 1 LG g -> deg_le p (2 * n - 1) -> within (-1) 1 e g (peval p) ->
  half_line_integral (fun r => f (B2R lo + r)) (RInt g (-1) 1) /\
  Rabs (apply_rule (real_rule q') f - RInt g (-1) 1) <= half_error n e K L KG LG (Rabs (B2R lo)).
Proof.
  intros m d n qf dbg lo A D n1 Hn G Fl Bl.
  exact (conj (up_runs m d n qf A D n1 Hn G dbg lo Fl Bl) (up_best m d n qf A D n1 Hn G dbg lo Fl Bl)).
Qed.

(** Gauss-Legendre on (-infinity,up]: the stored rule approximates minus the integral. *)
Theorem C60_left_half_line : forall m d n (qf : list F64 * list F64) dbg (up : F64),
  accurate m d -> d * (INR n + 1) ^ 2 <= 1 / 2000 -> (1 <= n)%nat -> (Z.of_nat n < 16384)%Z -> @gl_generate (FS m) n = Ok qf ->
  is_finite up = true -> Rabs (B2R up) <= 2 ^ 40 ->
  (exists q', maps_f64 m dbg (Bopp f_inf) up qf q') /\
  forall q' f g p K L KG LG e, maps_f64 m dbg (Bopp f_inf) up qf q' -> decaying K L (fun r => f (B2R up - r)) ->
  (forall x, -1 < x < 1 -> g x = f (B2R up - (1 - x) / (1 + x)) * (2 / ((1 + x) * (1 + x)))) ->
  (forall x, -1 <= x <= 1 -> Rabs (g x) <= KG) -> lipschitz (-1) 1 LG g -> deg_le p (2 * n - 1) -> within (-1) 1 e g (peval p) ->
  half_line_integral (fun r => f (B2R up - r)) (RInt g (-1) 1) /\
  Rabs (apply_rule (real_rule q') f - - RInt g (-1) 1) <= half_error n e K L KG LG (Rabs (B2R up)).
Proof.
  intros m d n qf dbg up A D n1 Hn G Fl Bl.
  exact (conj (low_runs m d n qf A D n1 Hn G dbg up Fl Bl) (low_best m d n qf A D n1 Hn G dbg up Fl Bl)).
Qed.

(** Finding: so the obvious claim fails there. The integral of (-y)^-3 over (-infinity,-1] is 1/2, the stored two-point rule gives about -1/2. *)
Theorem C60_left_refuted : exists qf q' : list F64 * list F64, @gl_generate (FS ex_lib) 2 = Ok qf /\ maps_f64 ex_lib true (Bopp f_inf) (Bopp (f_of 1 0)) qf q' /\
  half_line_integral (fun r => / (- (B2R (Bopp (f_of 1 0)) - r)) ^ 3) (1 / 2) /\ apply_rule (real_rule q') (fun y => / (- y) ^ 3) < - (499 / 1000).
Proof. exact ex_low. Qed.

(** Finding: every Lobatto rule sent to [lo,infinity) holds an infinite node with an infinite weight. *)
Theorem C60_lobatto_half_infinite : forall m d n (qf q' : list F64 * list F64) dbg (lo : F64),
  accurate m d -> d * INR n ^ 2 <= 1 / 2000 -> (2 <= n)%nat -> (Z.of_nat n <= 16384)%Z -> @lob_generate (FS m) n = Ok qf ->
  is_finite lo = true -> maps_f64 m dbg lo f_inf qf q' -> In f_inf (fst q') /\ In f_inf (snd q').
Proof. exact lob_half. Qed.

(** exp on [0,2] with two stored Gauss-Legendre points; four Lobatto points on [0,2]. *)
Example C60_interval_ex : accurate ex_lib (/ 20000) /\ plain_bound (f_of 0 0) /\ plain_bound (f_of 2 0) /\ Bltb (f_of 0 0) (f_of 2 0) = true /\
  (exists qf q' : list F64 * list F64, @gl_generate (FS ex_lib) 2 = Ok qf /\ maps_f64 ex_lib true (f_of 0 0) (f_of 2 0) qf q' /\
     smooth (B2R (f_of 0 0)) (B2R (f_of 2 0)) 4 (fun _ => exp) 27 /\
     (forall x, B2R (f_of 0 0) - spill (f_of 0 0) (f_of 2 0) <= x <= B2R (f_of 2 0) + spill (f_of 0 0) (f_of 2 0) -> Rabs (exp x) <= 27) /\
     lipschitz (B2R (f_of 0 0) - spill (f_of 0 0) (f_of 2 0)) (B2R (f_of 2 0) + spill (f_of 0 0) (f_of 2 0)) 27 exp) /\
  exists qf q' : list F64 * list F64, @lob_generate (FS lex_lib) 4 = Ok qf /\ maps_f64 lex_lib true (f_of 0 0) (f_of 2 0) qf q'.
Proof.
  destruct b_plain as (P0 & P2 & L). exact (conj (proj1 ex_rule) (conj P0 (conj P2 (conj L (conj ex_interval ex_lobatto_interval))))).
Qed.

(** y^-3 on [1,infinity) with two stored points: the error is below 1/10000. *)
Example C60_half_line_ex : decaying 1 3 (fun r => / (B2R (f_of 1 0) + r) ^ 3) /\
  exists qf q' : list F64 * list F64, @gl_generate (FS ex_lib) 2 = Ok qf /\ maps_f64 ex_lib true (f_of 1 0) f_inf qf q' /\
  half_line_integral (fun r => / (B2R (f_of 1 0) + r) ^ 3) (1 / 2) /\ Rabs (apply_rule (real_rule q') (fun y => / y ^ 3) - 1 / 2) <= / 10000.
Proof. exact (conj up_decays ex_up). Qed.

Print Assumptions C60_runs.
Print Assumptions C60_legendre_smooth.
Print Assumptions C60_legendre_lipschitz.
Print Assumptions C60_lobatto_smooth.
Print Assumptions C60_lobatto_lipschitz.
Print Assumptions C60_half_line.
Print Assumptions C60_left_half_line.
Print Assumptions C60_left_refuted.
Print Assumptions C60_lobatto_half_infinite.
