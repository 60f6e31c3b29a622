(** C59: worked cases and the overflow of recentering. *)
From Coq Require Import ZArith List Bool Reals Lra Lia Psatz.
From Coquelicot Require Import Coquelicot.
From Flocq Require Import IEEE754.BinarySingleNaN.
From Verif Require Import Base.Outcome Base.Scalar Base.RScalar Base.FScalar Model.Quadrature Model.Primitive Model.Radial Model.S2Tables Model.S2
  Model.Composite Model.Factory Model.Grids Spec.QuadSpec Spec.Sums Spec.SphereSpec Spec.RealRules Spec.RadialSpec Spec.SphereReal
  Spec.SphereInt Spec.SpaceSpec Spec.FactorySpec Spec.PolySpec Spec.MomentSpec Spec.FloatSpec Spec.LibmSpec Spec.GridFloatSpec
  Spec.ErrorSpec Spec.RadialErrSpec Spec.MovedSpec
  Proofs.Sizes Proofs.FloatOps Proofs.FloatSphere Proofs.ChebFloat Proofs.GridExact Proofs.Space Proofs.RadialErrGrid Proofs.RadialErrEx Proofs.RadialErrFloat Proofs.Moved Proofs.MovedGrid.
Import ListNotations.
Local Open Scope R_scope.

(** ** Distances from the centre *)
Lemma dist_moved : forall s v1 v2 v3 h1 h2 h3, 0 <= s <= / 500 -> Rabs h1 <= s * (Rabs v1 + 1) -> Rabs h2 <= s * (Rabs v2 + 1) -> Rabs h3 <= s * (Rabs v3 + 1) ->
  let r := sqrt (v1 * v1 + v2 * v2 + v3 * v3) in
  let r' := sqrt ((v1 + h1) * (v1 + h1) + (v2 + h2) * (v2 + h2) + (v3 + h3) * (v3 + h3)) in Rabs (r' - r) <= 4 * s * (1 + r).
Proof.
  intros s v1 v2 v3 h1 h2 h3 Hs H1 H2 H3 r r'.
  assert (r0 : 0 <= r) by apply sqrt_pos. assert (r0' : 0 <= r') by apply sqrt_pos.
  assert (R : r * r = v1 * v1 + v2 * v2 + v3 * v3) by (apply sqrt_sqrt; repeat apply Rplus_le_le_0_compat; apply Rle_0_sqr).
  assert (R' : r' * r' = (v1 + h1) * (v1 + h1) + (v2 + h2) * (v2 + h2) + (v3 + h3) * (v3 + h3)) by (apply sqrt_sqrt; repeat apply Rplus_le_le_0_compat; apply Rle_0_sqr).
  assert (AB : forall v h, Rabs h <= s * (Rabs v + 1) -> v * v - 2 * s * (v * v) - 2 * s * Rabs v <= (v + h) * (v + h) <= (1 + s) ^ 2 * (v * v) + 2 * (1 + s) * s * Rabs v + s * s).
  { intros v h H. assert (V : Rabs v * Rabs v = v * v) by (rewrite <- Rabs_mult; apply Rabs_pos_eq; nra). pose proof (Rabs_pos v) as V0. pose proof (Rabs_pos h) as P0.
    assert (X : Rabs (v * h) <= s * (v * v) + s * Rabs v).
    { rewrite Rabs_mult. apply (Rmult_le_compat_l (Rabs v)) in H; [|exact V0]. rewrite <- V. lra. }
    apply Rabs_le_between in X. assert (HH : h * h <= s * s * (v * v) + 2 * s * s * Rabs v + s * s).
    { assert (Y : Rabs h * Rabs h <= (s * (Rabs v + 1)) * (s * (Rabs v + 1))) by (apply Rmult_le_compat; auto).
      rewrite <- Rabs_mult, (Rabs_pos_eq (h * h)) in Y by nra. rewrite <- V. lra. }
    assert (0 <= h * h) by nra. split; lra. }
  pose proof (AB _ _ H1) as A1. pose proof (AB _ _ H2) as A2. pose proof (AB _ _ H3) as A3. clear AB H1 H2 H3.
  set (m := Rabs v1 + Rabs v2 + Rabs v3).
  assert (M : 0 <= m <= 1.8 * r).
  { unfold m. pose proof (Rabs_pos v1). pose proof (Rabs_pos v2). pose proof (Rabs_pos v3). split; [lra|].
    assert (Q : forall v, Rabs v * Rabs v = v * v) by (intro v; rewrite <- Rabs_mult; apply Rabs_pos_eq; nra).
    pose proof (Q v1). pose proof (Q v2). pose proof (Q v3). set (a := Rabs v1) in *. set (b := Rabs v2) in *. set (c := Rabs v3) in *.
    assert (T : (a + b + c) * (a + b + c) <= 3 * (r * r)).
    { rewrite R. pose proof (Rle_0_sqr (a - b)). pose proof (Rle_0_sqr (a - c)). pose proof (Rle_0_sqr (b - c)). unfold Rsqr in *. lra. }
    apply Rnot_lt_le. intro L. assert ((1.8 * r) * (1.8 * r) < (a + b + c) * (a + b + c)) by (apply Rmult_le_0_lt_compat; lra). nra. }
  assert (U : r' * r' <= (1 + s) ^ 2 * (r * r) + 2 * (1 + s) * s * m + 3 * (s * s)) by (rewrite R', R; unfold m; lra).
  assert (L : r * r - 2 * s * (r * r) - 2 * s * m <= r' * r') by (rewrite R', R; unfold m; lra).
  clear A1 A2 A3 R R'. clearbody m r r'.
  assert (S0 : 0 <= s * r) by (apply Rmult_le_pos; lra). assert (S1 : 0 <= s * (r * r)) by (apply Rmult_le_pos; nra).
  assert (SM : s * m <= 1.8 * (s * r)) by (apply Rle_trans with (s * (1.8 * r)); [apply Rmult_le_compat_l; lra|lra]).
  apply Rabs_le. split.
  - destruct (Rle_dec r (4 * s * (1 + r))) as [Q|Q]; [lra|]. apply Rnot_le_lt in Q. set (t := 4 * s * (1 + r)) in *.
    apply Rnot_lt_le. intro N. assert (N' : r' * r' < (r - t) * (r - t)) by (apply Rmult_le_0_lt_compat; lra).
    assert (t0 : 0 <= t) by (unfold t; apply Rmult_le_pos; lra).
    assert (TT : t * t <= t * r) by (apply Rmult_le_compat_l; lra).
    assert (TR : t * r = 4 * (s * r) + 4 * (s * (r * r))) by (unfold t; ring). lra.
  - apply Rnot_lt_le. intro N. set (t := 4 * s * (1 + r)) in *. assert (t0 : 0 <= t) by (unfold t; apply Rmult_le_pos; lra).
    assert (N' : (r + t) * (r + t) < r' * r') by (apply Rmult_le_0_lt_compat; lra).
    assert (TR : t * r = 4 * (s * r) + 4 * (s * (r * r))) by (unfold t; ring).
    assert (T2 : 16 * (s * s) <= t * t).
    { assert (4 * s <= t) by (unfold t; lra). replace (16 * (s * s)) with ((4 * s) * (4 * s)) by ring. apply Rmult_le_compat; lra. }
    assert (s * (s * m) <= / 500 * (s * m)) by (apply Rmult_le_compat_r; [apply Rmult_le_pos; lra|lra]).
    assert (s * (s * (r * r)) <= / 500 * (s * (r * r))) by (apply Rmult_le_compat_r; lra).
    assert (0 <= s * s) by nra. lra.
Qed.

Lemma ex_g_moved : forall s r r', 0 <= s <= / 500 -> 0 <= r -> 0 <= r' -> Rabs (r' - r) <= 4 * s * (1 + r) -> Rabs (ex_g r' - ex_g r) <= s * (22 * ex_g r).
Proof.
  intros s r r' Hs Hr Hr' H. apply Rabs_le_between in H. set (z := (1 + r) / (1 + r')).
  assert (E : ex_g r' = z ^ 5 * ex_g r) by (unfold ex_g, z; field; split; lra).
  assert (Z : Rabs (z - 1) <= 4.04 * s).
  { replace (z - 1) with ((r - r') / (1 + r')) by (unfold z; field; lra). unfold Rdiv. rewrite Rabs_mult, (Rabs_pos_eq (/ (1 + r'))) by (apply Rlt_le, Rinv_0_lt_compat; lra).
    apply (Rmult_le_reg_r (1 + r')); [lra|]. rewrite Rmult_assoc, Rinv_l, Rmult_1_r by lra. apply Rabs_le.
    assert (4 * s * (1 + r) <= 4.04 * s * (1 + r')); [|lra].
    assert (Q : (1 + r) * (1 - 4 / 500) <= 1 + r').
    { assert (4 * s * (1 + r) <= 4 / 500 * (1 + r)) by (apply Rmult_le_compat_r; lra). lra. }
    apply (Rmult_le_compat_l s) in Q; [|lra]. assert (0 <= s * (1 + r)) by (apply Rmult_le_pos; lra). lra. }
  pose proof (ex_g_pos r Hr) as G0. rewrite E. replace (z ^ 5 * ex_g r - ex_g r) with ((z - 1) * ((1 + z + z ^ 2 + z ^ 3 + z ^ 4) * ex_g r)) by ring.
  rewrite Rabs_mult. apply Rle_trans with (4.04 * s * (5.4 * ex_g r)); [|assert (0 <= s * ex_g r) by (apply Rmult_le_pos; lra); lra].
  assert (B : 0.99 <= z <= 1.01) by (apply Rabs_le_between in Z; lra).
  apply Rmult_le_compat; [apply Rabs_pos|apply Rabs_pos|exact Z|].
  assert (P2 : 0 <= z ^ 2 <= 1.0201) by (simpl; nra). assert (P3 : 0 <= z ^ 3 <= 1.031) by (simpl in *; nra). assert (P4 : 0 <= z ^ 4 <= 1.05) by (simpl in *; nra).
  rewrite Rabs_pos_eq by (apply Rmult_le_pos; lra). apply Rmult_le_compat_r; lra.
Qed.

Lemma ex_about : forall c, tempered_about c 1 (/ 500) (moment c ex_g ex_one) (fun p => 22 * ex_g (dist3 p c)).
Proof.
  intros [[c1 c2] c3].
  assert (M : forall p, moment (c1, c2, c3) ex_g ex_one p = ex_g (dist3 p (c1, c2, c3))).
  { intros [[x y] z]. unfold moment, ex_one. cbn [p3eval]. simpl. ring. }
  assert (D0 : forall p, 0 <= dist3 p (c1, c2, c3)) by (intros [[x y] z]; apply sqrt_pos). split.
  - intro p. rewrite M. pose proof (ex_g_pos _ (D0 p)). rewrite Rabs_pos_eq; lra.
  - intros p q s Hs H. rewrite !M. apply ex_g_moved; auto.
    pose proof (H px (or_introl eq_refl)) as H1. pose proof (H py (or_intror (or_introl eq_refl))) as H2. pose proof (H pz (or_intror (or_intror (or_introl eq_refl)))) as H3.
    destruct p as [[p1 p2] p3], q as [[q1 q2] q3]. unfold px, py, pz in H1, H2, H3. cbn [fst snd] in H1, H2, H3.
    pose proof (dist_moved s _ _ _ _ _ _ Hs H1 H2 H3) as B. cbv zeta in B. unfold dist3.
    replace (q1 - c1) with (p1 - c1 + (q1 - p1)) by ring. replace (q2 - c2) with (p2 - c2 + (q2 - p2)) by ring. replace (q3 - c3) with (p3 - c3 + (q3 - p3)) by ring. exact B.
Qed.

(** Two centres, the second of which is (-1, 0, 1). *)
Definition ex_centres : list (F64 * F64 * F64) := [off1; (f_of (-1) 0, f_of 0 0, f_of 1 0)].
Lemma ex_within : List.Forall (centre_within 1) ex_centres.
Proof.
  assert (O : is_finite (f_of 1 0) = true /\ B2R (f_of 1 0) = 1) by (split; [reflexivity|apply (f_of_small 1); lia]).
  assert (N : is_finite (f_of (-1) 0) = true /\ B2R (f_of (-1) 0) = -1) by (split; [reflexivity|apply (f_of_small (-1)); lia]).
  assert (Z : is_finite (f_of 0 0) = true /\ B2R (f_of 0 0) = 0) by (split; reflexivity).
  destruct O as (O1 & O2), N as (N1 & N2), Z as (Z1 & Z2).
  apply List.Forall_forall. intros c [<-|[<-|[]]] ax [<-|[<-|[<-|[]]]]; unfold px, py, pz; unfold off1; cbn [fst snd]; rewrite ?O2, ?N2, ?Z2; split; auto; apply Rabs_le; lra.
Qed.

Lemma ex_moved : let R := PI ^ 3 * (5 / 2) / (12 * INR 31 ^ 2) in let c := last (map real_pt ex_centres) (0, 0, 0) in
  point_error (/ 2 ^ 53) ex_t + 8 * INR (length ex_centres) * ulp53 <= / 500 /\ covered (/ 1000) (fun r => 22 * ex_g r) (fun r => 23 * ex_g r) /\
  rated (real_traits ex_t) (fun r => r * r * sphere_int (fun x y z => moment c ex_g ex_one (at_radius c r (x, y, z)))) (PI / 3) (4 * PI * R) /\
  rated (real_traits ex_t) (fun r => r * r * (23 * ex_g r)) (23 / 12) (23 * R).
Proof.
  intros R c. assert (V : rt_valid (Becke 30 1)) by (simpl; lra). destruct (ex_grid 30) as (A & B). split; [|split; [|split]].
  - destruct ex_sane as (_ & AP & _ & L & St). destruct (error_unit rounded_libm (/ 2 ^ 53) AP L ex_t St) as (PE & _).
    assert (8 * INR (length ex_centres) * ulp53 <= / 1000); [|lra]. unfold ulp53. change (INR (length ex_centres)) with (1 + 1). lra.
  - intros r s Hr Hs. apply Rabs_le_between in Hs. pose proof (ex_g_ratio r s (999 / 1000) Hr ltac:(lra) ltac:(lra)) as Q. pose proof (ex_g_pos r Hr). lra.
  - rewrite ex_real. apply (rated_ext _ _ _ _ _ V) with (2 := A). intros r Hr. f_equal. apply sphere_int_ext. intros x y z _.
    assert (K : forall c0 : @pt3 RS, moment c0 ex_g ex_one (at_radius c0 r (x, y, z)) = ex_g (r * sqrt (x * x + y * y + z * z))).
    { intro c0. rewrite <- (Space.dist_at_radius c0 r x y z ltac:(lra)). destruct c0 as [[a b] d]. unfold moment, ex_one, at_radius. cbn [p3eval]. simpl. ring. }
    rewrite !K. reflexivity.
  - rewrite ex_real. apply (rated_ext _ _ _ _ _ V) with (2 := B 23 ltac:(lra)). intros r Hr. unfold ex_one. cbn [p3mag]. simpl (0 + 0 + 0)%nat. rewrite pow_O, Rabs_R1. ring.
Qed.

(** ** Finding: centres at the far ends of the format *)
Definition far (k : Z) : F64 * F64 * F64 := (f_of k 1023, f_of 0 0, f_of 0 0).
Lemma far_finite : forall k, k = 1%Z \/ k = (-1)%Z -> finite_pt (far k).
Proof. intros k [->| ->] ax [<-|[<-|[<-|[]]]]; reflexivity. Qed.
Lemma far_and_back : forall m, exists nr na (r : rquad (FS m)) (a : aquad (FS m)) c c1 c2 o o' (p p' : F64 * F64 * F64),
  sized nr r /\ sized na a /\ finite_pt c /\ finite_pt c1 /\ finite_pt c2 /\ spherical_construct true r a c = Ok o /\ recenters o [c1; c2; c] = Ok o' /\
  sph_center o' = sph_center o /\ point_at (sph_quad o) 0 = Ok p /\ point_at (sph_quad o') 0 = Ok p' /\ finite_pt p /\ is_finite (px p') = false.
Proof.
  intro m. exists 1%nat, 2%nat, (half_way m), (two_poles m), org, (far 1), (far (-1)).
  assert (T : match spherical_construct true (half_way m) (two_poles m) org with
    | Ok o => match recenters o [far 1; far (-1); org] with
      | Ok o' => match point_at (sph_quad o) 0, point_at (sph_quad o') 0 with
        | Ok p, Ok p' => is_finite (px p) && is_finite (py p) && is_finite (pz p) && negb (is_finite (px p'))
        | _, _ => false end
      | _ => false end
    | _ => false end = true) by (vm_compute; reflexivity).
  assert (C : match spherical_construct true (half_way m) (two_poles m) org with
    | Ok o => match recenters o [far 1; far (-1); org] with Ok o' => sph_center o' = sph_center o | _ => True end | _ => True end) by (vm_compute; reflexivity).
  destruct (spherical_construct true (half_way m) (two_poles m) org) as [o| | | |] eqn:E; try discriminate T.
  destruct (recenters o [far 1; far (-1); org]) as [o'| | | |] eqn:E'; try discriminate T.
  destruct (point_at (sph_quad o) 0) as [p| | | |] eqn:E1; try discriminate T.
  destruct (point_at (sph_quad o') 0) as [p'| | | |] eqn:E3; try discriminate T.
  apply andb_prop in T. destruct T as [T T4]. apply andb_prop in T. destruct T as [T T3]. apply andb_prop in T. destruct T as [T1 T2].
  exists o, o', p, p'. split; [apply sized_intro; reflexivity|]. split; [apply sized_intro; reflexivity|].
  split; [intros ax [<-|[<-|[<-|[]]]]; reflexivity|]. split; [apply far_finite; auto|]. split; [apply far_finite; auto|].
  do 3 (split; [auto|]). do 2 (split; [auto|]). split; [intros ax [<-|[<-|[<-|[]]]]; assumption|]. apply negb_true_iff. exact T4.
Qed.

(** ** All hypotheses of the main theorem together *)
Lemma ex_closed : forall dbg sch, let R := PI ^ 3 * (5 / 2) / (12 * INR 31 ^ 2) in let c := last (map real_pt ex_centres) (0, 0, 0) in
  exists o : sphobj (FS rounded_libm),
    (let* p := create_pruned_spec sch (mkUnpruned RQBecke (Some ex_t) (AQ LebedevLaikov) 302) in
     let* g := generate_grid_pruned (@repo_grids (FS rounded_libm)) dbg p in recenters g ex_centres) = Ok o /\
    space_integral c (moment c ex_g ex_one) (PI / 3) /\
    Rabs (sum3 (map real_pt (qpoints (sph_quad o))) (map B2R (qweights (sph_quad o))) (fun x y z => moment c ex_g ex_one (x, y, z)) - PI / 3)
    <= 4 * PI * R + 2 * (2 / 10 ^ 13) * (INR 0 + 1) ^ 2 * (6 / 12 + 6 * R) +
       1.1 * 13 * (point_error (/ 2 ^ 53) ex_t + 8 * INR (length ex_centres) * ulp53 + weight_error (/ 2 ^ 53) ex_t) * (23 / 12 + 23 * R).
Proof.
  intros dbg sch R c. destruct ex_sane as (A & AP & AL & L & St). destruct ex_stored_grid as (G1 & G2 & G3 & G4 & G5 & _ & _ & G8 & _).
  destruct ex_moved as (M1 & M2 & M3 & M4). destruct ex_steady as (S1 & _ & _).
  assert (P9 : 1 <= 2 ^ 900) by (apply pow_R1_Rle; lra). assert (P5 : INR (length ex_centres) <= 2 ^ 52) by (change (INR (length ex_centres)) with (1 + 1); lra).
  assert (E0 : forall r, 0 <= r -> 0 <= 22 * ex_g r) by (intros r Hr; pose proof (ex_g_pos r Hr); lra).
  assert (T0 : 0 <= 2 / 10 ^ 13) by lra. assert (W0 : 0 <= 13) by lra.
  exact (moved_integral rounded_libm (/ 2 ^ 53) dbg sch RQBecke _ ex_t LebedevLaikov 302%Z ex_centres ex_g _ ex_one 0 (2 / 10 ^ 13) 13 1 (fun r => 22 * ex_g r) (fun r => 23 * ex_g r)
    _ _ _ _ _ _ A AP AL L (conj Rle_0_1 P9) P5 ex_within G1 eq_refl St G2 G3 (G4 sch) T0 W0 G5 S1 M1 (ex_about c) E0 M2 M3 G8 M4).
Qed.
