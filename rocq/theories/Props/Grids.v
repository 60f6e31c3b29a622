(** C17: the tabulated angular grids are quadrature rules on the sphere. The arrays are the decimal
    literals of the repository read as real numbers (Model/Grids.v). [integrates tol d q] of
    Spec/SphereInt.v: for every combination h of spherical harmonics of degree at most d, the
    quadrature sum of h differs from the surface integral by at most tol times the size of h (sum of
    the root mean squares of its terms). *)
From Coq Require Import ZArith List Bool Reals Lra.
From Verif Require Import Base.Outcome Base.Scalar Base.RScalar Model.Quadrature Model.S2 Model.Grids
  Spec.QuadSpec Spec.SphereInt Proofs.SphereIntFacts Proofs.HarmOrtho Proofs.GridExact.
Import ListNotations.
Local Open Scope R_scope.

(** The advertised order. *)
Local Notation order f n := (Z.to_nat (algebraic_order_by_npts f (Z.of_nat n))).

(** Every Lebedev-Laikov and every Delley grid, to its advertised order. *)
Theorem C17_lebedev : forall dbg n, algebraic_order_by_npts LebedevLaikov (Z.of_nat n) <> (-1)%Z ->
  exists q : quad (@pt3 RS) R, construct dbg (s2_generate repo_grids LebedevLaikov n) = Ok q /\ sized n q /\
    Forall (near_sphere (5 / 10000000000000000)) (qpoints q) /\
    integrates (4 * PI / 100000000000000) (order LebedevLaikov n) q.
Proof. exact lebedev_ok. Qed.
Example C17_lebedev_ex : algebraic_order_by_npts LebedevLaikov (Z.of_nat 302) = 29%Z.
Proof. reflexivity. Qed.

Theorem C17_delley : forall dbg n, algebraic_order_by_npts Delley (Z.of_nat n) <> (-1)%Z ->
  exists q : quad (@pt3 RS) R, construct dbg (s2_generate repo_grids Delley n) = Ok q /\ sized n q /\
    Forall (near_sphere (5 / 10000000000000000)) (qpoints q) /\
    integrates (4 * PI / 100000000000000) (order Delley n) q.
Proof. exact delley_ok. Qed.
Example C17_delley_ex : algebraic_order_by_npts Delley (Z.of_nat 434) = 35%Z.
Proof. reflexivity. Qed.

(** Every Ahrens-Beylkin grid: points on the sphere. Exactness is checked up to 612 points, except
    552. Missing: exactness of the larger grids. *)
Theorem C17_ahrens_beylkin_partial : forall dbg n, algebraic_order_by_npts AhrensBeylkin (Z.of_nat n) <> (-1)%Z ->
  exists q : quad (@pt3 RS) R, construct dbg (s2_generate repo_grids AhrensBeylkin n) = Ok q /\ sized n q /\
    Forall (near_sphere (5 / 10000000000000000)) (qpoints q) /\
    ((Z.of_nat n <= 612)%Z -> Z.of_nat n <> 552%Z -> integrates (2 / 100000000000) (order AhrensBeylkin n) q).
Proof. exact ahrens_shape. Qed.
Example C17_ahrens_beylkin_ex : algebraic_order_by_npts AhrensBeylkin (Z.of_nat 492) = 37%Z.
Proof. reflexivity. Qed.

(** Womersley grids up to 513 points: points on the sphere and equal weights; exactness up to 222
    points. Missing: the larger grids. *)
Theorem C17_womersley_partial : forall dbg n, algebraic_order_by_npts Womersley (Z.of_nat n) <> (-1)%Z -> (Z.of_nat n <= 513)%Z ->
  exists q : quad (@pt3 RS) R, construct dbg (s2_generate repo_grids Womersley n) = Ok q /\ sized n q /\
    Forall (near_sphere (5 / 10000000000000000)) (qpoints q) /\
    qweights q = repeat (4 * PI / INR n) n /\
    ((Z.of_nat n <= 222)%Z -> integrates (4 * PI / 100000000000000) (order Womersley n) q).
Proof. exact womersley_shape. Qed.
Example C17_womersley_ex : algebraic_order_by_npts Womersley (Z.of_nat 201) = 19%Z.
Proof. reflexivity. Qed.

(** What [integrates] says about polynomials: on the sphere every polynomial of degree at most d is
    a combination of harmonics of degree at most d; it has the same surface integral, and the
    quadrature of the combination errs by at most tol (d + 1) times the maximum of the polynomial on
    the sphere. (The combination, not the polynomial, is evaluated at the nodes: the nodes are within
    5e-16 of the sphere, not on it, where the two may differ.) *)
Theorem C17_polynomials : forall tol d (q : quad (@pt3 RS) R), integrates tol d q ->
  forall p M, p3deg_le p d -> (forall x y z, x * x + y * y + z * z = 1 -> Rabs (p3eval p x y z) <= M) ->
  exists h, hdeg_le h d /\
    (forall x y z, x * x + y * y + z * z = 1 -> p3eval p x y z = heval h x y z) /\
    Rabs (s2_sum q (heval h) - sphere_int (p3eval p)) <= tol * ((INR d + 1) * M).
Proof. exact polynomials_integrated. Qed.
Example C17_polynomials_ex : p3deg_le [(2, (1, 2, 0)%nat); (-1, (0, 0, 3)%nat)] 3 /\
  forall x y z, x * x + y * y + z * z = 1 -> Rabs (p3eval [(2, (1, 2, 0)%nat); (-1, (0, 0, 3)%nat)] x y z) <= 3.
Proof.
  split.
  - intros c i j k [E|[E|[]]]; injection E as _ <- <- <-; repeat constructor.
  - intros x y z H. cbn [p3eval pow]. assert (-1 <= x <= 1) by (split; nra). assert (-1 <= z <= 1) by (split; nra).
    assert (0 <= y * y <= 1) by (split; nra). assert (0 <= z * z <= 1) by (split; nra).
    apply Rabs_le. split; nra.
Qed.

(** The size of a harmonic in [integrates] is its root mean square over the sphere. *)
Theorem C17_norm : forall s m n, (s = true -> m <> 0%nat) ->
  sphere_int (fun x y z => harm s m n x y z * harm s m n x y z) = 4 * PI * (harm_norm m n * harm_norm m n).
Proof. exact harm_norm_rms. Qed.
Example C17_norm_ex : true = true -> 3%nat <> 0%nat.
Proof. discriminate. Qed.

(** And about the weights. *)
Theorem C17_weight_sum : forall tol d (q : quad (@pt3 RS) R), integrates tol d q ->
  Rabs (s2_sum q (fun _ _ _ => 1) - 4 * PI) <= tol.
Proof. exact weight_sum. Qed.

(** Signs of the weights. The claim that all weights are positive fails for three Lebedev-Laikov
    grids and one Ahrens-Beylkin grid, and holds for all others (Womersley up to 513 points). *)
Theorem C17_weight_signs : forall dbg f n, algebraic_order_by_npts f (Z.of_nat n) <> (-1)%Z ->
  (f = Womersley -> (Z.of_nat n <= 513)%Z) ->
  let bad := (f = LebedevLaikov /\ In (Z.of_nat n) [74; 230; 266]%Z) \/ (f = AhrensBeylkin /\ Z.of_nat n = 1572%Z) in
  exists q : quad (@pt3 RS) R, construct dbg (s2_generate repo_grids f n) = Ok q /\
    (Forall (fun w => 0 < w) (qweights q) /\ ~ bad \/ Exists (fun w => w < 0) (qweights q) /\ bad).
Proof. exact weight_signs. Qed.
Theorem C17_positive_refuted : exists f n (q : quad (@pt3 RS) R), algebraic_order_by_npts f (Z.of_nat n) <> (-1)%Z /\
  construct true (s2_generate repo_grids f n) = Ok q /\ Exists (fun w => w < 0) (qweights q).
Proof. exact positive_refuted. Qed.

(** The 552-point Ahrens-Beylkin grid is not a rule of any order: the weights sum to less than
    4 pi - 0.46. *)
Theorem C17_ahrens_beylkin_552_refuted : exists n (q : quad (@pt3 RS) R), algebraic_order_by_npts AhrensBeylkin (Z.of_nat n) <> (-1)%Z /\
  construct true (s2_generate repo_grids AhrensBeylkin n) = Ok q /\
  s2_sum q (fun _ _ _ => 1) < 4 * PI - 46 / 100.
Proof. exact ab_552_refuted. Qed.

Print Assumptions C17_lebedev.
Print Assumptions C17_delley.
Print Assumptions C17_ahrens_beylkin_partial.
Print Assumptions C17_womersley_partial.
Print Assumptions C17_polynomials.
Print Assumptions C17_norm.
Print Assumptions C17_weight_sum.
Print Assumptions C17_weight_signs.
Print Assumptions C17_positive_refuted.
Print Assumptions C17_ahrens_beylkin_552_refuted.
