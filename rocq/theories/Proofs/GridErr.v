(** Grids from the factory applied to functions that are not polynomials on spheres. *)
From Coq Require Import List Bool Arith ZArith Reals Lra Lia Psatz Permutation.
From Coquelicot Require Import Coquelicot.
From Verif Require Import Base.Outcome Base.OutcomeFacts Base.Scalar Base.RScalar Model.Quadrature Model.Radial Model.S2Tables Model.S2
  Model.Composite Model.Factory Model.Grids Spec.QuadSpec Spec.Sums Spec.SphereSpec Spec.RealRules Spec.RadialSpec Spec.SphereReal
  Spec.SphereInt Spec.SpaceSpec Spec.FactorySpec Spec.PolySpec Spec.MomentSpec Spec.SphereErrSpec
  Proofs.Sizes Proofs.SumFacts Proofs.PrunedFacts Proofs.CompositeProps Proofs.FactoryFacts Proofs.RadialRule
  Proofs.PruningFacts Proofs.FactoryEx Proofs.SphereIntFacts Proofs.GridExact Proofs.NearSphere Proofs.GridFloat Proofs.Space Proofs.Moments
  Proofs.MomentGrid Proofs.MomentLimit Proofs.SphereErr.
Import ListNotations.
Local Open Scope R_scope.

Definition aerr (W tol : R) (d : nat) (e K L : R -> R) (r : R) : R := angular_error W tol d (e r) (K r) (L r).

Lemma tol_pos : forall f n, 0 <= poly_tol f n.
Proof. intros f n. destruct f; cbn [poly_tol]; try destruct (Nat.eqb n 230); lra. Qed.

Lemma shell_any : forall f d tol W n dbg (a : quad (@pt3 RS) R) c F e K L r, exact_for f d tol n -> weight_max f n <= W ->
  construct dbg (s2_generate repo_grids f (Z.to_nat n)) = Ok a -> tracked c F d e K L -> 0 < r ->
  Rabs (integrate (fun u => F (at_radius c r u)) a - sphere_int (seen c F r)) <= aerr W tol d e K L r.
Proof.
  intros f d tol W n dbg a c F e K L r (H & C & Hd & T) HW Ha HT Hr.
  assert (Hn : (0 <= n)%Z).
  { destruct (Z.le_gt_cases 0 n) as [Q|Q]; [exact Q|]. exfalso. apply H. destruct n; try lia. destruct f; reflexivity. }
  remember (Z.to_nat n) as k eqn:Ek. assert (En : n = Z.of_nat k) by lia. rewrite En in *. clear Ek En Hn n.
  destruct (any_real f dbg k H C) as (q & Q1 & Q2 & Q3). rewrite Ha in Q1. injection Q1 as <-.
  destruct (HT r Hr) as (T1 & T2 & T3). specialize (Q3 (seen c F r) (K r) (L r) (e r) d Hd T1 T2 T3).
  assert (E : integrate (fun u => F (at_radius c r u)) a = s2_sum a (seen c F r)).
  { assert (E0 : integrate (fun u => F (at_radius c r u)) a = integrate (fun u : @pt3 RS => let '(x, y, z) := u in seen c F r x y z) a).
    { unfold integrate. apply wsum_ext. intros [[x y] z] _. reflexivity. }
    rewrite E0. unfold integrate. rewrite wsum_nsum. reflexivity. }
  rewrite E. eapply Rle_trans; [exact Q3|]. unfold aerr, angular_error.
  destruct T1 as (p & _ & Hc). assert (e0 : 0 <= e r) by (eapply Rle_trans; [apply Rabs_pos|apply (Hc 1 0 0); ring]).
  assert (K0 : 0 <= K r) by (eapply Rle_trans; [apply Rabs_pos|apply (T2 1 0 0); ring]). pose proof (lip_pos _ _ T3) as L0.
  apply Rplus_le_compat; [apply Rmult_le_compat_r; lra|]. apply Rmult_le_compat_r; [|exact T].
  pose proof (pow2_ge_0 (INR d + 1)). assert (0 <= (INR d + 1) ^ 2 * (K r + e r)) by (apply Rmult_le_pos; lra). lra.
Qed.

Lemma fits_any : forall f d tol W n dbg (a : quad (@pt3 RS) R) c F e K L (t : rtraits RS) (r : quad R R), rt_valid t ->
  @radial_generate RS t = Ok (qpoints r, qweights r) -> exact_for f d tol n -> weight_max f n <= W ->
  construct dbg (s2_generate repo_grids f (Z.to_nat n)) = Ok a -> tracked c F d e K L ->
  List.Forall (fits F c (fun x => sphere_int (seen c F x)) (aerr W tol d e K L) a) (nodes r).
Proof.
  intros f d tol W n dbg a c F e K L t r V Hr Hx HW Ha HT. destruct (radial_shape _ _ V Hr) as (_ & _ & _ & Pos & Wpos). cbn [fst snd] in Pos, Wpos.
  apply List.Forall_forall. intros [x w] Hin. unfold nodes in Hin. pose proof (in_combine_l _ _ _ _ Hin) as H1. pose proof (in_combine_r _ _ _ _ Hin) as H2.
  apply Pos in H1. apply Wpos in H2. split; cbn [fst snd]; [lra|]. apply (shell_any f d tol W n dbg); auto.
Qed.

Lemma pruned_any : forall dbg rq k (t : rtraits RS) f rs cs F e K L d tol W, In (rq, k) schemes -> rkind_of t = k -> rt_valid t -> (1 <= rt_npts t)%nat ->
  List.Forall (fun r => r_aq r = AQ f /\ exact_for f d tol (r_asz r) /\ weight_max f (r_asz r) <= W) rs ->
  (exists rest, map r_st rs = 0%nat :: rest /\ increasing (0%nat :: rest) /\ List.Forall (fun i => (i < rt_npts t - 1)%nat) rest) ->
  let c := last cs (0, 0, 0) in tracked c F d e K L ->
  exists o q, (let* o := generate_grid_pruned repo_grids dbg (mkPruned rq (Some t) rs) in recenters o cs) = Ok o /\ @radial_generate RS t = Ok q /\
    Rabs (integrate F (sph_quad o) - apply_rule q (fun r => r * r * sphere_int (seen c F r))) <= apply_rule q (fun r => r * r * angular_error W tol d (e r) (K r) (L r)).
Proof.
  intros dbg rq k t f rs cs F e K L d tol W Hin Hk V Hn Hrs Hacc c HT.
  assert (Hrs' : List.Forall (fun r => r_aq r = AQ f /\ exact_for f d tol (r_asz r)) rs) by (revert Hrs; apply List.Forall_impl; tauto).
  destruct (pruned_shells dbg rq k t f rs cs d tol Hin Hk Hn Hrs' Hacc) as (o & r & rgs & quads & O1 & Gr & Q1 & Q2 & O5 & LR & O7).
  exists o, (qpoints r, qweights r). split; [exact O1|]. split; [exact Gr|].
  rewrite <- !radial_sum_rule. rewrite integrate_nodes.
  pose proof (regions_sum F c (fun x => sphere_int (seen c F x)) (aerr W tol d e K L) (nodes r) rgs quads 0%nat O5 LR) as RS0. cbn [skipn] in RS0.
  assert (FT : List.Forall (fun a => List.Forall (fits F c (fun x => sphere_int (seen c F x)) (aerr W tol d e K L) a) (nodes r)) quads).
  { clear - Q1 Hrs V Gr HT. induction Q1 as [|reg a rs quads Ha Q1 IH]; constructor.
    - inversion Hrs as [|? ? (_ & X1 & X2) _]; subst. apply (fits_any f d tol W (r_asz reg) dbg a c F e K L t r V Gr X1 X2 Ha HT).
    - apply IH. inversion Hrs; assumption. }
  specialize (RS0 FT).
  assert (E := Rsum_perm _ _ (Permutation_map (fun pw : @pt3 RS * R => snd pw * F (fst pw)) O7)).
  eapply Rle_trans; [|exact RS0]. right. f_equal. f_equal. exact E.
Qed.

Lemma unpruned_any : forall dbg rq k (t : rtraits RS) f n cs F e K L d tol W, In (rq, k) schemes -> rkind_of t = k -> rt_valid t ->
  exact_for f d tol n -> weight_max f n <= W -> let c := last cs (0, 0, 0) in tracked c F d e K L ->
  exists o q, (let* o := generate_grid_unpruned repo_grids dbg (mkUnpruned rq (Some t) (AQ f) n) in recenters o cs) = Ok o /\ @radial_generate RS t = Ok q /\
    Rabs (integrate F (sph_quad o) - apply_rule q (fun r => r * r * sphere_int (seen c F r))) <= apply_rule q (fun r => r * r * angular_error W tol d (e r) (K r) (L r)).
Proof.
  intros dbg rq k t f n cs F e K L d tol W Hin Hk V Hx HW c HT. subst k.
  destruct (exact_works f d tol n dbg Hx) as (a & A1 & A2 & _).
  assert (Hn : n = Z.of_nat (Z.to_nat n)).
  { rewrite Z2Nat.id; [reflexivity|]. destruct Hx as (H & _). destruct n; try lia. exfalso. apply H. destruct f; reflexivity. }
  destruct (factory_unpruned repo_grids dbg rq t f (Z.to_nat n) a (0, 0, 0) Hin A1 eq_refl) as (r & R1 & U). rewrite <- Hn in U.
  destruct (radial_sized (S := RS) dbg t) as (r' & R1' & R2). rewrite R1 in R1'. injection R1' as <-. pose proof (construct_pair _ _ _ R1) as Gr.
  pose proof (recenters_spherical dbg _ _ r a (0, 0, 0) cs R2 A2) as RC.
  destruct (spherical_sum dbg _ _ r a c R2 A2) as (o & O1 & O2).
  exists o, (qpoints r, qweights r). split; [|split; [exact Gr|]].
  { rewrite U. etransitivity; [exact RC|exact O1]. }
  rewrite O2. unfold integrate at 1, apply_rule. cbn [fst snd].
  destruct (radial_shape _ _ V Gr) as (_ & _ & _ & Pos & Wpos). cbn [fst snd] in Pos, Wpos.
  apply wsum_bound; [|exact Wpos]. intros rad Hrad. specialize (Pos rad Hrad).
  rewrite <- Rmult_minus_distr_l, Rabs_mult, (Rabs_pos_eq (rad * rad)) by nra.
  apply Rmult_le_compat_l; [nra|]. apply (shell_any f d tol W n dbg); auto.
Qed.

Lemma scheme_any : forall dbg sch rq k (t : rtraits RS) f n cs F e K L d tol W, In (rq, k) schemes -> rkind_of t = k -> rt_valid t -> (5 <= rt_npts t)%nat ->
  algebraic_order_by_npts f n <> (-1)%Z -> List.Forall (fun s => exact_for f d tol s /\ weight_max f s <= W) (scheme_sizes sch f n) ->
  let c := last cs (0, 0, 0) in tracked c F d e K L ->
  exists o q, (let* p := create_pruned_spec sch (mkUnpruned rq (Some t) (AQ f) n) in
               let* o := generate_grid_pruned repo_grids dbg p in recenters o cs) = Ok o /\ @radial_generate RS t = Ok q /\
    Rabs (integrate F (sph_quad o) - apply_rule q (fun r => r * r * sphere_int (seen c F r))) <= apply_rule q (fun r => r * r * angular_error W tol d (e r) (K r) (L r)).
Proof.
  intros dbg sch rq k t f n cs F e K L d tol W Hin Hk V Hn Ho Hs c HT.
  destruct (scheme_spec sch rq t f n Hn Ho) as (rs & S1 & S2 & S3 & S4). rewrite S1. cbn [bind].
  apply (pruned_any dbg rq k t f rs cs F e K L d tol W Hin Hk V ltac:(lia)); auto.
  apply List.Forall_forall. intros r Hr. split; [rewrite List.Forall_forall in S2; apply S2; exact Hr|].
  rewrite List.Forall_forall in Hs. apply Hs. rewrite <- S3. apply in_map. exact Hr.
Qed.

(** ** Many radial points *)
Lemma any_limits : forall t c F e K L d tol W, rt_valid t -> flat_start t ->
  tame t (fun r => sphere_int (seen c F r)) -> tame t e -> tame t K -> tame t L ->
  exists I B, space_integral c F I /\ half_line_integral (fun r => r * r * angular_error W tol d (e r) (K r) (L r)) B /\
    forall eps, 0 < eps -> exists N, forall n q v, (N <= n)%nat -> @radial_generate RS (with_npts t n) = Ok q ->
      Rabs (v - apply_rule q (fun r => r * r * sphere_int (seen c F r)))
        <= apply_rule q (fun r => r * r * angular_error W tol d (e r) (K r) (L r)) -> Rabs (v - I) <= B + eps.
Proof.
  intros t c F e K L d tol W V FS TS Te TK TL.
  destruct (tame_converges t (fun r => sphere_int (seen c F r)) V FS TS) as (I & HI & CI).
  destruct (tame_converges t (fun r => angular_error W tol d (e r) (K r) (L r)) V FS) as (B & HB & CB).
  { apply (tame_ext t (fun r => (W + 13 + tol * (INR d + 1) ^ 2) * e r + (tol * (INR d + 1) ^ 2 * K r + tol * 4 * L r))).
    { intro r. unfold angular_error. ring. }
    apply tame_plus; [apply tame_scal; exact Te|]. apply tame_plus; apply tame_scal; assumption. }
  exists I, B. split; [exact HI|]. split; [exact HB|].
  intros eps He. destruct (CI (eps / 2) ltac:(lra)) as (N1 & H1). destruct (CB (eps / 2) ltac:(lra)) as (N2 & H2).
  exists (max N1 N2). intros n q v Hge Gq Hv. specialize (H1 n q ltac:(lia) Gq). specialize (H2 n q ltac:(lia) Gq). apply Rabs_def2 in H2.
  match type of Hv with Rabs (_ - ?Y) <= _ => replace (v - I) with ((v - Y) + (Y - I)) by ring end.
  eapply Rle_trans; [apply Rabs_triang|]. lra.
Qed.

Lemma scheme_any_limit : forall dbg sch rq (t : rtraits RS) f n cs F e K L d tol W, In (rq, rkind_of t) schemes -> rt_valid t -> flat_start t ->
  algebraic_order_by_npts f n <> (-1)%Z -> List.Forall (fun s => exact_for f d tol s /\ weight_max f s <= W) (scheme_sizes sch f n) ->
  let c := last cs (0, 0, 0) in tracked c F d e K L ->
  tame t (fun r => sphere_int (seen c F r)) -> tame t e -> tame t K -> tame t L ->
  exists I B, space_integral c F I /\ half_line_integral (fun r => r * r * angular_error W tol d (e r) (K r) (L r)) B /\
    forall eps, 0 < eps -> exists N, forall m, (N <= m)%nat -> exists o,
      (let* p := create_pruned_spec sch (mkUnpruned rq (Some (with_npts t m)) (AQ f) n) in
       let* o := generate_grid_pruned repo_grids dbg p in recenters o cs) = Ok o /\
      Rabs (integrate F (sph_quad o) - I) <= B + eps.
Proof.
  intros dbg sch rq t f n cs F e K L d tol W Hin V FS Ho Hs c HT TS Te TK TL.
  destruct (any_limits t c F e K L d tol W V FS TS Te TK TL) as (I & B & H1 & H2 & H3). exists I, B. split; [exact H1|]. split; [exact H2|].
  intros eps He. destruct (H3 eps He) as (N & HN). exists (max N 5). intros m Hm.
  assert (NP : rt_npts (with_npts t m) = m) by (destruct t; reflexivity).
  destruct (scheme_any dbg sch rq (rkind_of t) (with_npts t m) f n cs F e K L d tol W Hin (rkind_with_npts t m) (with_npts_valid t m V) ltac:(rewrite NP; lia) Ho Hs HT)
    as (o & q & O1 & Q1 & O2).
  exists o. split; [exact O1|]. apply (HN m q _ ltac:(lia) Q1 O2).
Qed.

Lemma unpruned_any_limit : forall dbg rq (t : rtraits RS) f n cs F e K L d tol W, In (rq, rkind_of t) schemes -> rt_valid t -> flat_start t ->
  exact_for f d tol n -> weight_max f n <= W -> let c := last cs (0, 0, 0) in tracked c F d e K L ->
  tame t (fun r => sphere_int (seen c F r)) -> tame t e -> tame t K -> tame t L ->
  exists I B, space_integral c F I /\ half_line_integral (fun r => r * r * angular_error W tol d (e r) (K r) (L r)) B /\
    forall eps, 0 < eps -> exists N, forall m, (N <= m)%nat -> exists o,
      (let* o := generate_grid_unpruned repo_grids dbg (mkUnpruned rq (Some (with_npts t m)) (AQ f) n) in recenters o cs) = Ok o /\
      Rabs (integrate F (sph_quad o) - I) <= B + eps.
Proof.
  intros dbg rq t f n cs F e K L d tol W Hin V FS Hx HW c HT TS Te TK TL.
  destruct (any_limits t c F e K L d tol W V FS TS Te TK TL) as (I & B & H1 & H2 & H3). exists I, B. split; [exact H1|]. split; [exact H2|].
  intros eps He. destruct (H3 eps He) as (N & HN). exists N. intros m Hm.
  destruct (unpruned_any dbg rq (rkind_of t) (with_npts t m) f n cs F e K L d tol W Hin (rkind_with_npts t m) (with_npts_valid t m V) Hx HW HT)
    as (o & q & O1 & Q1 & O2).
  exists o. split; [exact O1|]. apply (HN m q _ Hm Q1 O2).
Qed.

(** ** An example that is no polynomial on any sphere: a tent times |z| *)
Lemma abs_near_poly : near_polynomial 2 (/ 8) (fun _ _ z => Rabs z).
Proof.
  exists [(1, (0, 0, 2)%nat); (/ 8, (0, 0, 0)%nat)]. split.
  - intros c i j k [E|[E|[]]]; injection E as _ <- <- <-; repeat constructor.
  - intros x y z U. match goal with |- Rabs (_ - ?v) <= _ => replace v with (z * z + / 8) by (cbn; ring) end.
    assert (0 <= Rabs z <= 1) by (split; [apply Rabs_pos|apply Rabs_le; split; nra]).
    assert (E : z * z = Rabs z * Rabs z) by (unfold Rabs; destruct (Rcase_abs z); ring). rewrite E.
    pose proof (pow2_ge_0 (Rabs z - / 2)). apply Rabs_le. split; nra.
Qed.
Lemma abs_lip : lip_shell 1 (fun _ _ z => Rabs z).
Proof.
  intros x y z x' y' z' _ _. rewrite Rmult_1_l. pose proof (Rabs_triang_inv2 z z'). pose proof (Rabs_pos (x - x')). pose proof (Rabs_pos (y - y')). lra.
Qed.
Lemma abs_bounded : bounded_on_sphere 1 (fun _ _ z => Rabs z).
Proof. intros x y z U. rewrite Rabs_Rabsolu. apply Rabs_le. split; nra. Qed.

Definition tent (r : R) : R := Rmax 0 (1 - 1 * r).
Definition tent_abs (p : @pt3 RS) : R := tent (dist3 p (0, 0, 0)) * Rabs (snd p).
Lemma tent_abs_seen : forall r x y z, 0 <= r -> seen (0, 0, 0) tent_abs r x y z = tent (r * sqrt (x * x + y * y + z * z)) * (r * Rabs z).
Proof.
  intros r x y z Hr. unfold seen, tent_abs. rewrite dist_at_radius by exact Hr. cbn [at_radius snd].
  rewrite Rplus_0_l, Rabs_mult, (Rabs_pos_eq r) by exact Hr. reflexivity.
Qed.
Lemma tent_lip : forall a b, Rabs (tent a - tent b) <= Rabs (a - b).
Proof. intros a b. unfold tent, Rmax. pose proof (Rabs_le_between (a - b) (Rabs (a - b))) as [Q _]. specialize (Q (Rle_refl _)). repeat destruct Rle_dec; apply Rabs_le; lra. Qed.
Lemma tent_bound : forall a, 0 <= a -> 0 <= tent a <= 1.
Proof. intros a Ha. unfold tent, Rmax. destruct Rle_dec; lra. Qed.

Lemma norm_lip : forall x y z x' y' z', 99 / 100 <= sqrt (x * x + y * y + z * z) -> 99 / 100 <= sqrt (x' * x' + y' * y' + z' * z') ->
  sqrt (x * x + y * y + z * z) <= 101 / 100 -> sqrt (x' * x' + y' * y' + z' * z') <= 101 / 100 ->
  Rabs (sqrt (x * x + y * y + z * z) - sqrt (x' * x' + y' * y' + z' * z')) <= 1.1 * (Rabs (x - x') + Rabs (y - y') + Rabs (z - z')).
Proof.
  intros x y z x' y' z' H H' G G'. set (s := sqrt (x * x + y * y + z * z)) in *. set (s' := sqrt (x' * x' + y' * y' + z' * z')) in *.
  assert (S1 : s * s = x * x + y * y + z * z) by (apply sqrt_sqrt; nra). assert (S2 : s' * s' = x' * x' + y' * y' + z' * z') by (apply sqrt_sqrt; nra).
  set (D := Rabs (x - x') + Rabs (y - y') + Rabs (z - z')).
  assert (Q : forall t t', t * t <= 1.0201 -> t' * t' <= 1.0201 -> Rabs (t * t - t' * t') <= 2.02 * Rabs (t - t')).
  { intros t t' Ht Ht'. replace (t * t - t' * t') with ((t + t') * (t - t')) by ring. rewrite Rabs_mult. apply Rmult_le_compat_r; [apply Rabs_pos|].
    assert (A : forall v, v * v <= 1.0201 -> Rabs v <= 1.01) by (intros v Hv; apply Rabs_le; split; nra).
    eapply Rle_trans; [apply Rabs_triang|]. pose proof (A t Ht). pose proof (A t' Ht'). lra. }
  assert (X : Rabs (x * x - x' * x') <= 2.02 * Rabs (x - x')) by (apply Q; nra).
  assert (Y : Rabs (y * y - y' * y') <= 2.02 * Rabs (y - y')) by (apply Q; nra).
  assert (Z : Rabs (z * z - z' * z') <= 2.02 * Rabs (z - z')) by (apply Q; nra).
  assert (E : Rabs ((s + s') * (s - s')) <= 2.02 * D).
  { replace ((s + s') * (s - s')) with ((x * x - x' * x') + (y * y - y' * y') + (z * z - z' * z')) by (transitivity (s * s - s' * s'); [rewrite S1, S2; ring|ring]).
    eapply Rle_trans; [apply Rabs_triang|]. eapply Rle_trans; [apply Rplus_le_compat_r, Rabs_triang|]. unfold D. lra. }
  rewrite Rabs_mult, (Rabs_pos_eq (s + s')) in E by lra. pose proof (Rabs_pos (s - s')). nra.
Qed.

Lemma tent_tracked : tracked (0, 0, 0) tent_abs 2 (fun r => / 8 * (r * tent r)) (fun r => r * tent r) (fun r => 4 * Rmax 0 (2 - 1 * r)).
Proof.
  intros r Hr. pose proof (tent_bound r ltac:(lra)) as TB. assert (RT : 0 <= r * tent r) by (apply Rmult_le_pos; lra).
  assert (U1 : forall x y z, x * x + y * y + z * z = 1 -> seen (0, 0, 0) tent_abs r x y z = r * tent r * Rabs z).
  { intros x y z U. rewrite tent_abs_seen, U, sqrt_1, Rmult_1_r by lra. ring. }
  split; [|split].
  - destruct abs_near_poly as (p & Hp & Hc). exists (p3scale (r * tent r) 1 p). split; [apply p3scale_deg; exact Hp|].
    intros x y z U. rewrite U1, p3scale_eval, !Rmult_1_l, <- Rmult_minus_distr_l, Rabs_mult, (Rabs_pos_eq (r * tent r)) by assumption.
    rewrite Rmult_comm. apply Rmult_le_compat_r; [exact RT|]. apply (Hc x y z U).
  - intros x y z U. rewrite U1, Rabs_mult, (Rabs_pos_eq (r * tent r)) by assumption. rewrite <- (Rmult_1_r (r * tent r)) at 2.
    apply Rmult_le_compat_l; [exact RT|]. apply (abs_bounded x y z U).
  - intros x y z x' y' z' N N'. rewrite !tent_abs_seen by lra.
    assert (B : forall a b c, near_sphere (/ 1000) (a, b, c) -> 99 / 100 <= sqrt (a * a + b * b + c * c) <= 101 / 100 /\ Rabs c <= 1.01).
    { intros a b c M. unfold near_sphere in M. pose proof (Space.sqrt_near (a * a + b * b + c * c) (/ 1000) ltac:(lra) ltac:(nra) M) as Q.
      apply Rabs_le_between in Q. apply Rabs_le_between in M. split; [lra|]. apply Rabs_le. split; nra. }
    destruct (B _ _ _ N) as ((A1 & A2) & A3). destruct (B _ _ _ N') as ((B1 & B2) & B3).
    pose proof (norm_lip x y z x' y' z' A1 B1 A2 B2) as NL. set (s := sqrt (x * x + y * y + z * z)) in *. set (s' := sqrt (x' * x' + y' * y' + z' * z')) in *.
    set (D := Rabs (x - x') + Rabs (y - y') + Rabs (z - z')) in *.
    assert (Dz : Rabs (z - z') <= D) by (unfold D; pose proof (Rabs_pos (x - x')); pose proof (Rabs_pos (y - y')); lra).
    assert (D0 : 0 <= D) by (pose proof (Rabs_pos (z - z')); lra).
    destruct (Rle_lt_dec r (3 / 2)) as [R1|R1].
    + replace (tent (r * s) * (r * Rabs z) - tent (r * s') * (r * Rabs z')) with (r * (Rabs z * (tent (r * s) - tent (r * s')) + tent (r * s') * (Rabs z - Rabs z'))) by ring.
      rewrite Rabs_mult, (Rabs_pos_eq r) by lra.
      assert (T1 : Rabs (tent (r * s) - tent (r * s')) <= r * (1.1 * D)).
      { eapply Rle_trans; [apply tent_lip|]. rewrite <- Rmult_minus_distr_l, Rabs_mult, (Rabs_pos_eq r) by lra. apply Rmult_le_compat_l; lra. }
      destruct (Rle_lt_dec r (11 / 10)) as [R2|R2].
      * assert (T2 : 0 <= tent (r * s') <= 1) by (apply tent_bound; nra).
        assert (T3 : Rabs (Rabs z * (tent (r * s) - tent (r * s')) + tent (r * s') * (Rabs z - Rabs z')) <= 3 * D).
        { eapply Rle_trans; [apply Rabs_triang|]. rewrite !Rabs_mult, Rabs_Rabsolu, (Rabs_pos_eq (tent (r * s'))) by lra.
          pose proof (Rabs_triang_inv2 z z'). pose proof (Rabs_pos (Rabs z - Rabs z')). pose proof (Rabs_pos z). pose proof (Rabs_pos (tent (r * s) - tent (r * s'))).
          assert (Rabs z * Rabs (tent (r * s) - tent (r * s')) <= 1.01 * (r * (1.1 * D))) by (apply Rmult_le_compat; lra).
          assert (r * D <= 11 / 10 * D) by (apply Rmult_le_compat_r; lra).
          assert (tent (r * s') * Rabs (Rabs z - Rabs z') <= 1 * D) by (apply Rmult_le_compat; lra). lra. }
        assert (r * Rabs (Rabs z * (tent (r * s) - tent (r * s')) + tent (r * s') * (Rabs z - Rabs z')) <= r * (3 * D)) by (apply Rmult_le_compat_l; lra).
        assert (M : 3 * r <= 4 * Rmax 0 (2 - 1 * r)) by (rewrite Rmax_right; lra).
        assert (3 * r * D <= 4 * Rmax 0 (2 - 1 * r) * D) by (apply Rmult_le_compat_r; lra). lra.
      * assert (Z1 : forall v, 99 / 100 <= v -> tent (r * v) = 0) by (intros v Hv; unfold tent; apply Rmax_left; nra).
        rewrite !Z1 by lra. rewrite !Rminus_diag_eq by reflexivity. rewrite Rmult_0_r, Rmult_0_l, Rplus_0_l, Rabs_R0, Rmult_0_r.
        apply Rmult_le_pos; [|exact D0]. pose proof (Rmax_l 0 (2 - 1 * r)). lra.
    + assert (Z1 : forall v, 99 / 100 <= v -> tent (r * v) = 0) by (intros v Hv; unfold tent; apply Rmax_left; nra).
      rewrite !Z1 by lra. rewrite !Rmult_0_l, Rminus_0_r, Rabs_R0. apply Rmult_le_pos; [|exact D0]. pose proof (Rmax_l 0 (2 - 1 * r)). lra.
Qed.

Lemma sphere_int_scal : forall a f L, 0 <= L -> lip_sphere L f -> sphere_int (fun x y z => a * f x y z) = a * sphere_int f.
Proof.
  intros a f L HL Hf. unfold sphere_int.
  assert (E : forall p, RInt (fun t => a * f (sin t * cos p) (sin t * sin p) (cos t) * sin t) 0 PI = a * RInt (fun t => fp f p t * sin t) 0 PI).
  { intro p. apply is_RInt_unique. apply (is_RInt_ext (fun t => scal a (fp f p t * sin t))).
    - intros t _. unfold scal, fp. cbn. unfold mult. cbn. symmetry. apply Rmult_assoc.
    - apply (is_RInt_scal (fun t => fp f p t * sin t)). apply (RInt_correct (V := R_CompleteNormedModule)), (inner_ex f L HL Hf). }
  rewrite (RInt_ext _ (fun p => a * RInt (fun t => fp f p t * sin t) 0 PI)) by (intros p _; apply E).
  apply is_RInt_unique. apply (is_RInt_scal (fun p => RInt (fun t => fp f p t * sin t) 0 PI)). apply (RInt_correct (V := R_CompleteNormedModule)), (outer_ex f L HL Hf).
Qed.

Lemma tent_abs_tame : forall t, rt_valid t -> tame t (fun r => sphere_int (seen (0, 0, 0) tent_abs r)) /\ tame t (fun r => / 8 * (r * tent r)) /\
  tame t (fun r => r * tent r) /\ tame t (fun r => 4 * Rmax 0 (2 - 1 * r)).
Proof.
  intros t V.
  assert (T1 : tame t (fun r => r * tent r)).
  { apply (compact_tame t _ 1 V).
    - intros r _. apply (continuous_mult (fun r => r) tent); [apply continuous_id|apply pos_cont].
    - intros r Hr. unfold tent. rewrite Rmax_left by lra. apply Rmult_0_r. }
  split; [|split; [apply tame_scal; exact T1|split; [exact T1|]]].
  - set (k := sphere_int (fun _ _ z => Rabs z)).
    apply (tame_ext t (fun r => k * (Rabs r * tent (Rabs r)))).
    { intro r. rewrite Rmult_comm. unfold k.
      rewrite <- (sphere_int_scal (Rabs r * tent (Rabs r)) (fun _ _ z => Rabs z) 1 ltac:(lra) (shell_sphere _ _ abs_lip)).
      apply sphere_int_ext. intros x y z U. unfold seen, tent_abs, dist3. cbn [at_radius snd].
      match goal with |- _ = tent (sqrt ?w) * _ => replace w with (Rsqr r) by (unfold Rsqr; transitivity (r * r * (x * x + y * y + z * z)); [rewrite U; ring|cbn; ring]) end.
      rewrite sqrt_Rsqr_abs, Rplus_0_l, Rabs_mult. ring. }
    apply tame_scal. apply (compact_tame t _ 1 V).
    + intros r _. assert (A : continuous Rabs r) by apply (continuous_abs (K := R_AbsRing)).
      apply (continuous_mult Rabs (fun r => tent (Rabs r))); [exact A|]. apply (continuous_comp Rabs tent); [exact A|apply pos_cont].
    + intros r Hr. unfold tent. pose proof (Rle_abs r). rewrite (Rmax_left 0) by lra. apply Rmult_0_r.
  - apply (tame_scal t 4 (fun r => Rmax 0 (2 - 1 * r))). apply (compact_tame t _ 2 V).
    + intros r _. apply pos_cont.
    + intros r Hr. apply Rmax_left. lra.
Qed.
