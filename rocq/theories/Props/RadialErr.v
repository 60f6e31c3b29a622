(** C58: how fast the radial rules, the trapezoid rule and the Chebyshev-type rules reach the integral.
    [pulled], [chebyshev_scheme], [trapezoid_scheme], [rated] in Spec/RadialErrSpec.v; [smooth], [within], [lipschitz] in Spec/ErrorSpec.v. *)
From Coq Require Import ZArith List Bool Reals Lra Lia.
From Coquelicot Require Import Coquelicot.
From Flocq Require Import IEEE754.BinarySingleNaN.
From Verif Require Import Base.Outcome Base.Scalar Base.RScalar Base.FScalar Model.Quadrature Model.Primitive Model.Radial Model.S2Tables Model.S2
  Model.Composite Model.Factory Model.Grids Model.BoundFloat Spec.QuadSpec Spec.Sums Spec.SphereSpec Spec.RealRules Spec.RadialSpec Spec.SphereReal
  Spec.SphereInt Spec.SpaceSpec Spec.FactorySpec Spec.PolySpec Spec.MomentSpec Spec.FloatSpec Spec.LibmSpec Spec.GridFloatSpec
  Spec.ErrorSpec Spec.BoundFloatSpec Spec.TrapFloatSpec Spec.RadialErrSpec
  Proofs.ChebFloat Proofs.RadialFloatLib Proofs.EulerMac Proofs.RadialErr Proofs.AngleErr Proofs.RadialErrGrid Proofs.RadialErrEx Proofs.RadialErrFloat.
Import ListNotations.
Local Open Scope R_scope.

(** The trapezoid rule is of order N when the odd derivatives below N agree at both ends. *)
Theorem C58_periodic : forall n lo up q (F : nat -> R -> R) M N, (2 <= n)%nat -> lo < up -> @uniform_generate RS n lo up = Ok q ->
  (1 <= N)%nat -> smooth lo up N F M -> (forall t, lo <= t <= up -> continuous (F N) t) ->
  (forall k, (1 <= k < N)%nat -> Nat.odd k = true -> F k lo = F k up) ->
  Rabs (apply_rule q (F 0%nat) - RInt (F 0%nat) lo up) <= (up - lo) * M * ((up - lo) / (2 * INR (n - 1))) ^ N.
Proof. exact periodic_error. Qed.

(** The same for the rule as stored in binary64. *)
Theorem C58_periodic_binary64 : forall m n (lo up : F64) (q : list F64 * list F64), (2 <= n)%nat -> (Z.of_nat n <= 2 ^ 53)%Z -> plain_bound lo -> plain_bound up ->
  B2R lo < B2R up -> @uniform_generate (FS m) n lo up = Ok q ->
  forall F M K L N, let a := B2R lo in let b := B2R up in let d := drift a b n in
  (1 <= N)%nat -> smooth a b N F M -> (forall t, a <= t <= b -> continuous (F N) t) -> (forall k, (1 <= k < N)%nat -> Nat.odd k = true -> F k a = F k b) ->
  (forall x, a - d <= x <= b + d -> Rabs (F 0%nat x) <= K) -> lipschitz (a - d) (b + d) L (F 0%nat) ->
  Rabs (apply_rule (real_rule q) (F 0%nat) - RInt (F 0%nat) a b) <=
    (b - a) * M * ((b - a) / (2 * INR (n - 1))) ^ N + ((4 * eps * (b - a) + INR n * least) * K + d * (b - a) * L).
Proof. exact stored_periodic. Qed.

(** Gauss-Chebyshev of the second kind on plain integrands: second order, and order N when the odd derivatives in the angle match. *)
Theorem C58_gc2_second : forall F M0 M1 M2, smooth (-1) 1 2 F M2 -> (forall x, -1 <= x <= 1 -> Rabs (F 0%nat x) <= M0) -> (forall x, -1 <= x <= 1 -> Rabs (F 1%nat x) <= M1) ->
  forall n q, @gc2_generate RS n = Ok q ->
  Rabs (apply_rule q (F 0%nat) - RInt (F 0%nat) (-1) 1) <= PI ^ 3 * (M0 + 3 * M1 + M2) / (12 * INR (n + 1) ^ 2).
Proof. exact gc2_second. Qed.
Theorem C58_gc2_high : forall n q f (G : nat -> R -> R) M N, @gc2_generate RS n = Ok q -> (forall x, -1 <= x <= 1 -> continuous f x) ->
  (forall t, G 0%nat t = f (cos t) * sin t) -> (1 <= N)%nat -> smooth 0 PI N G M -> (forall t, 0 <= t <= PI -> continuous (G N) t) ->
  (forall j, (1 <= j < N)%nat -> Nat.odd j = true -> G j 0 = G j PI) ->
  Rabs (apply_rule q f - RInt f (-1) 1) <= PI * M * (PI / (2 * INR (n + 1))) ^ N.
Proof. exact gc2_high. Qed.

(** The modified rule likewise. *)
Theorem C58_gc2m_second : forall F M0 M1 M2, smooth (-1) 1 2 F M2 -> (forall x, -1 <= x <= 1 -> Rabs (F 0%nat x) <= M0) -> (forall x, -1 <= x <= 1 -> Rabs (F 1%nat x) <= M1) ->
  forall n q, @gc2m_generate RS n = Ok q ->
  Rabs (apply_rule q (F 0%nat) - RInt (F 0%nat) (-1) 1) <= 2 * PI ^ 3 * (M0 + 6 * M1 + M2) / (3 * INR (n + 1) ^ 2).
Proof. exact gc2m_second. Qed.
Theorem C58_gc2m_high : forall n q f (G : nat -> R -> R) M N, @gc2m_generate RS n = Ok q -> (forall x, -1 <= x <= 1 -> continuous f x) ->
  (forall t, G 0%nat t = f (perez_jorda t) * (16 / (3 * PI) * sin t ^ 4)) -> (1 <= N)%nat -> smooth 0 PI N G M -> (forall t, 0 <= t <= PI -> continuous (G N) t) ->
  (forall j, (1 <= j < N)%nat -> Nat.odd j = true -> G j 0 = G j PI) ->
  Rabs (apply_rule q f - RInt f (-1) 1) <= PI * M * (PI / (2 * INR (n + 1))) ^ N.
Proof. exact gc2m_high. Qed.

(** The radial maps carry the integral over (0,infinity) to the base interval. *)
Theorem C58_integral : forall t f g, rt_valid t -> pulled t f g -> (forall x, base_lo t <= x <= 1 -> continuous g x) -> half_line_integral f (RInt g (base_lo t) 1).
Proof. exact pull_integral. Qed.

(** Becke and Treutler-Ahlrichs: exact when the integrand pulls back to a polynomial of degree at most 2n-1 times sqrt(1 - x^2). *)
Theorem C58_chebyshev_exact : forall t f p q, rt_valid t -> chebyshev_scheme t -> (1 <= rt_npts t)%nat -> deg_le p (2 * rt_npts t - 1) ->
  pulled t f (fun x => peval p x * sqrt (1 - x * x)) -> @radial_generate RS t = Ok q -> half_line_integral f (apply_rule q f).
Proof. exact cheb_exact. Qed.

(** As good as the best polynomial of degree 2n-1, and the classical rate for smooth factors. *)
Theorem C58_chebyshev_best : forall t f F, rt_valid t -> chebyshev_scheme t -> pulled t f (fun x => F x * sqrt (1 - x * x)) -> (forall x, -1 <= x <= 1 -> continuous F x) ->
  forall p d, (1 <= rt_npts t)%nat -> deg_le p (2 * rt_npts t - 1) -> within (-1) 1 d F (peval p) ->
  rated t f (RInt (fun x => F x * sqrt (1 - x * x)) (-1) 1) (d * PI).
Proof. exact cheb_best. Qed.
Theorem C58_chebyshev_smooth : forall t f F M, rt_valid t -> chebyshev_scheme t -> (1 <= rt_npts t)%nat -> smooth (-1) 1 (2 * rt_npts t) F M ->
  pulled t f (fun x => F 0%nat x * sqrt (1 - x * x)) ->
  rated t f (RInt (fun x => F 0%nat x * sqrt (1 - x * x)) (-1) 1) (2 * PI * M / (2 ^ (2 * rt_npts t) * INR (fact (2 * rt_npts t)))).
Proof. exact cheb_smooth. Qed.

(** Integrands smooth in x without that factor. *)
Theorem C58_chebyshev_second : forall t f F M0 M1 M2, rt_valid t -> chebyshev_scheme t -> smooth (-1) 1 2 F M2 ->
  (forall x, -1 <= x <= 1 -> Rabs (F 0%nat x) <= M0) -> (forall x, -1 <= x <= 1 -> Rabs (F 1%nat x) <= M1) -> pulled t f (F 0%nat) ->
  rated t f (RInt (F 0%nat) (-1) 1) (PI ^ 3 * (M0 + 3 * M1 + M2) / (12 * INR (rt_npts t + 1) ^ 2)).
Proof. exact cheb_second. Qed.
Theorem C58_chebyshev_high : forall t f g (G : nat -> R -> R) M N, rt_valid t -> chebyshev_scheme t -> (forall x, -1 <= x <= 1 -> continuous g x) -> pulled t f g ->
  (forall s, G 0%nat s = g (cos s) * sin s) -> (1 <= N)%nat -> smooth 0 PI N G M -> (forall s, 0 <= s <= PI -> continuous (G N) s) ->
  (forall j, (1 <= j < N)%nat -> Nat.odd j = true -> G j 0 = G j PI) ->
  rated t f (RInt g (-1) 1) (PI * M * (PI / (2 * INR (rt_npts t + 1))) ^ N).
Proof. exact cheb_high. Qed.

(** Murray-Handy-Laming and Mura-Knowles. *)
Theorem C58_trapezoid_second : forall t f G M, rt_valid t -> trapezoid_scheme t -> smooth 0 1 2 G M -> G 0%nat 0 = 0 -> G 0%nat 1 = 0 -> pulled t f (G 0%nat) ->
  rated t f (RInt (G 0%nat) 0 1) (M / (12 * INR (rt_npts t + 1) ^ 2)).
Proof. exact trap_second. Qed.
Theorem C58_trapezoid_high : forall t f G M N, rt_valid t -> trapezoid_scheme t -> (1 <= N)%nat -> smooth 0 1 N G M -> (forall x, 0 <= x <= 1 -> continuous (G N) x) ->
  G 0%nat 0 = 0 -> G 0%nat 1 = 0 -> (forall k, (1 <= k < N)%nat -> Nat.odd k = true -> G k 0 = G k 1) -> pulled t f (G 0%nat) ->
  rated t f (RInt (G 0%nat) 0 1) (M / (2 * INR (rt_npts t + 1)) ^ N).
Proof. exact trap_high. Qed.

(** Stored radial rules: the rate of the exact rule plus the rounding of nodes and weights (C43). *)
Theorem C58_stored : forall m d (t : rtraits (FS m)) (qf : list F64 * list F64) f g I e J e', accurate m d -> accurate_pow m d -> accurate_log m d -> d <= / 2 ^ 50 ->
  sane_traits t -> @radial_generate (FS m) t = Ok qf -> tempered f g -> rated (real_traits t) f I e -> rated (real_traits t) g J e' ->
  Rabs (apply_rule (real_rule qf) f - I) <= e + 2 * (radius_error d t + radial_weight_error d t) * (J + e').
Proof. exact stored_rate. Qed.

(** Whole grids, pruned, recentred any number of times, against the integral over space. *)
Theorem C58_grid : forall dbg sch rq k (t : rtraits RS) f n cs g G P d tol I e J e', In (rq, k) schemes -> rkind_of t = k -> rt_valid t -> (5 <= rt_npts t)%nat ->
  algebraic_order_by_npts f n <> (-1)%Z -> List.Forall (exact_for f d tol) (scheme_sizes sch f n) -> 0 <= tol ->
  p3deg_le P d -> steady (/ 10 ^ 15) g G -> let c := last cs (0, 0, 0) in
  rated t (fun r => r * r * sphere_int (fun x y z => moment c g P (at_radius c r (x, y, z)))) I e -> rated t (fun r => r * r * (p3mag P r * G r)) J e' ->
  exists o, (let* p := create_pruned_spec sch (mkUnpruned rq (Some t) (AQ f) n) in
             let* o := generate_grid_pruned repo_grids dbg p in recenters o cs) = Ok o /\ space_integral c (moment c g P) I /\
    Rabs (integrate (moment c g P) (sph_quad o) - I) <= e + 2 * tol * (INR d + 1) ^ 2 * (J + e').
Proof. exact scheme_rate. Qed.

(** Whole grids as stored in binary64. *)
Theorem C58_grid_binary64 : forall m dl dbg sch rq k (t : rtraits (FS m)) f n g G H P d tol W I e J e' K e'',
  accurate m dl -> accurate_pow m dl -> accurate_log m dl -> dl <= / 2 ^ 50 ->
  In (rq, k) schemes -> rkind_of t = k -> sane_traits t -> (5 <= rt_npts t)%nat -> algebraic_order_by_npts f n <> (-1)%Z ->
  List.Forall (fun s => exact_for f d tol s /\ weight_max f s <= W) (scheme_sizes sch f n) -> 0 <= tol -> 0 <= W ->
  p3deg_le P d -> steady (/ 1000) g G -> covered (/ 1000) G H -> INR d * point_error dl t <= / 101 -> let c := (0, 0, 0) in
  rated (real_traits t) (fun r => r * r * sphere_int (fun x y z => moment c g P (at_radius c r (x, y, z)))) I e ->
  rated (real_traits t) (fun r => r * r * (p3mag P r * G r)) J e' -> rated (real_traits t) (fun r => r * r * (p3mag P r * H r)) K e'' ->
  exists gf : sphobj (FS m),
    (let* p := create_pruned_spec sch (mkUnpruned rq (Some t) (AQ f) n) in generate_grid_pruned (@repo_grids (FS m)) dbg p) = Ok gf /\
    space_integral c (moment c g P) I /\
    Rabs (sum3 (map real_pt (qpoints (sph_quad gf))) (map B2R (qweights (sph_quad gf))) (fun x y z => moment c g P (x, y, z)) - I)
    <= e + 2 * tol * (INR d + 1) ^ 2 * (J + e') + 1.1 * W * ((INR d + 1) * point_error dl t + weight_error dl t) * (K + e'').
Proof. exact scheme_float_rate. Qed.

(** x^2 (1 - x)^2 on [0,1]: odd derivatives below 3 match at the ends; it is what the Murray-Handy-Laming map makes of [ex_mhl]. *)
Example C58_trapezoid_ex : smooth 0 1 2 ex_G 2 /\ smooth 0 1 3 ex_G 12 /\ (forall x, 0 <= x <= 1 -> continuous (ex_G 3) x) /\
  ex_G 0 0 = 0 /\ ex_G 0 1 = 0 /\ (forall k, (1 <= k < 3)%nat -> Nat.odd k = true -> ex_G k 0 = ex_G k 1).
Proof. exact ex_G_smooth. Qed.
Example C58_mhl_ex : forall n, pulled (MHL 2 n 1) (fun r => sqrt r / (2 * (1 + sqrt r) ^ 6)) (ex_G 0).
Proof. exact ex_mhl_pulled. Qed.

(** 4 sqrt r / (1 + r)^3 is integrated exactly by every Becke rule. *)
Example C58_exact_ex : forall n, pulled (Becke n 1) (fun r => 4 * sqrt r / (1 + r) ^ 3) (fun x => peval [1] x * sqrt (1 - x * x)).
Proof. exact ex_root_pulled. Qed.

(** r^2 / (1 + r)^5 and the Becke rules: second order, and third order in the angle. *)
Example C58_becke_ex : forall n, pulled (Becke n 1) (fun r => r * r * / (1 + r) ^ 5) (ex_F 0).
Proof. exact ex_f_pulled. Qed.
Example C58_plain_ex : smooth (-1) 1 2 ex_F (/ 2) /\ (forall x, -1 <= x <= 1 -> Rabs (ex_F 0 x) <= / 2) /\ (forall x, -1 <= x <= 1 -> Rabs (ex_F 1 x) <= / 2).
Proof. exact ex_F_smooth. Qed.
Example C58_angle_ex : (forall s, ex_A 0 s = ex_F 0 (cos s) * sin s) /\ smooth 0 PI 3 ex_A 6 /\ (forall s, 0 <= s <= PI -> continuous (ex_A 3) s) /\
  (forall j, (1 <= j < 3)%nat -> Nat.odd j = true -> ex_A j 0 = ex_A j PI).
Proof. split; [reflexivity|exact ex_A_smooth]. Qed.
Example C58_modified_ex : (forall s, ex_B 0 s = 1 * (16 / (3 * PI) * sin s ^ 4)) /\ smooth 0 PI 3 ex_B (16 / (3 * PI) * 64) /\ (forall s, 0 <= s <= PI -> continuous (ex_B 3) s) /\
  (forall j, (1 <= j < 3)%nat -> Nat.odd j = true -> ex_B j 0 = ex_B j PI).
Proof. split; [reflexivity|exact ex_B_smooth]. Qed.
Example C58_rated_ex : forall n, rated (Becke n 1) (fun r => r * r * / (1 + r) ^ 5) (/ 12) (PI ^ 3 * (5 / 2) / (12 * INR (n + 1) ^ 2)).
Proof. exact ex_f_rated. Qed.

(** The stored 30-point Becke rule with scale 1. *)
Example C58_stored_ex : tempered ex_f (fun r => 1000 * ex_f r) /\
  forall qf : list F64 * list F64, @radial_generate (FS rounded_libm) ex_t = Ok qf -> Rabs (apply_rule (real_rule qf) ex_f - / 12) <=
    PI ^ 3 * (5 / 2) / (12 * INR 31 ^ 2) + 2 * (radius_error (/ 2 ^ 53) ex_t + radial_weight_error (/ 2 ^ 53) ex_t) * (1000 / 12 + 1000 * (PI ^ 3 * (5 / 2) / (12 * INR 31 ^ 2))).
Proof. exact (conj ex_tempered ex_stored). Qed.

(** The function (1 + r)^-5 of space, whose integral is PI/3, with 30 radial and at most 302 angular points. *)
Example C58_grid_ex : let R := PI ^ 3 * (5 / 2) / (12 * INR 31 ^ 2) in
  In (RQBecke, rkind_of ex_t) schemes /\ (5 <= rt_npts ex_t)%nat /\ algebraic_order_by_npts LebedevLaikov 302 <> (-1)%Z /\
  (forall sch, List.Forall (fun s => exact_for LebedevLaikov 0 (2 / 10 ^ 13) s /\ weight_max LebedevLaikov s <= 13) (scheme_sizes sch LebedevLaikov 302)) /\
  p3deg_le ex_one 0 /\ INR 0 * point_error (/ 2 ^ 53) ex_t <= / 101 /\
  rated (real_traits ex_t) (fun r => r * r * sphere_int (fun x y z => moment (0, 0, 0) ex_g ex_one (at_radius (0, 0, 0) r (x, y, z)))) (PI / 3) (4 * PI * R) /\
  rated (real_traits ex_t) (fun r => r * r * (p3mag ex_one r * (6 * ex_g r))) (6 / 12) (6 * R) /\
  rated (real_traits ex_t) (fun r => r * r * (p3mag ex_one r * (7 * ex_g r))) (7 / 12) (7 * R).
Proof. exact ex_stored_grid. Qed.
Example C58_steady_ex : steady (/ 10 ^ 15) ex_g (fun r => 6 * ex_g r) /\ steady (/ 1000) ex_g (fun r => 6 * ex_g r) /\ covered (/ 1000) (fun r => 6 * ex_g r) (fun r => 7 * ex_g r).
Proof. exact ex_steady. Qed.
Example C58_machine_ex : accurate rounded_libm (/ 2 ^ 53) /\ accurate_pow rounded_libm (/ 2 ^ 53) /\ accurate_log rounded_libm (/ 2 ^ 53) /\ / 2 ^ 53 <= / 2 ^ 50 /\ sane_traits ex_t.
Proof. exact ex_sane. Qed.

Print Assumptions C58_periodic.
Print Assumptions C58_periodic_binary64.
Print Assumptions C58_gc2_second.
Print Assumptions C58_gc2_high.
Print Assumptions C58_gc2m_second.
Print Assumptions C58_gc2m_high.
Print Assumptions C58_integral.
Print Assumptions C58_chebyshev_exact.
Print Assumptions C58_chebyshev_best.
Print Assumptions C58_chebyshev_smooth.
Print Assumptions C58_chebyshev_second.
Print Assumptions C58_chebyshev_high.
Print Assumptions C58_trapezoid_second.
Print Assumptions C58_trapezoid_high.
Print Assumptions C58_stored.
Print Assumptions C58_grid.
Print Assumptions C58_grid_binary64.
