(** C58: stored radial rules and whole grids against the integral. *)
From Coq Require Import ZArith List Bool Reals Lra Lia Psatz.
From Coquelicot Require Import Coquelicot.
From Flocq Require Import IEEE754.BinarySingleNaN.
From Verif Require Import Base.Outcome Base.Scalar Base.RScalar Base.FScalar Model.Quadrature Model.Primitive Model.Radial Model.S2Tables Model.S2
  Model.Composite Model.Factory Model.Grids Spec.QuadSpec Spec.Sums Spec.SphereSpec Spec.RealRules Spec.RadialSpec Spec.SphereReal
  Spec.SphereInt Spec.SpaceSpec Spec.FactorySpec Spec.PolySpec Spec.MomentSpec Spec.FloatSpec Spec.LibmSpec Spec.GridFloatSpec
  Spec.ErrorSpec Spec.RadialErrSpec
  Proofs.Tab Proofs.SumFacts Proofs.TrapReal Proofs.RadialReal Proofs.RadialRule Proofs.RadialFloatSchemes Proofs.RadialFloatLib Proofs.GridFloat Proofs.GridFloatSum
  Proofs.MomentGrid Proofs.MomentLimit Proofs.MomentFloat Proofs.GaussError Proofs.RadialErr Proofs.AngleErr.
Import ListNotations.
Local Open Scope R_scope.

Lemma positive_ext : forall f f' I, (forall r, 0 < r -> f r = f' r) -> half_line_integral f I -> half_line_integral f' I.
Proof.
  intros f f' I E H. unfold half_line_integral in *. refine (is_RInt_gen_ext _ _ _ _ H).
  exists (fun x => 0 < x) (fun x => 0 < x).
  - exists (mkposreal 1 Rlt_0_1). intros y _ Hy. exact Hy.
  - exists 0. auto.
  - intros x y Hx Hy z Hz. cbn [fst snd] in Hz. apply E. destruct Hz as [Hz _]. eapply Rle_lt_trans; [|exact Hz]. apply Rmin_glb; lra.
Qed.

Lemma rated_ext : forall t f f' I e, rt_valid t -> (forall r, 0 < r -> f r = f' r) -> rated t f I e -> rated t f' I e.
Proof.
  intros t f f' I e V E (A & B). split; [apply (positive_ext f); auto|]. intros q H.
  destruct (radial_shape t q V H) as (_ & _ & _ & Px & _).
  replace (apply_rule q f') with (apply_rule q f); [auto|]. apply wsum_fext. intros x Hx. apply E, Px, Hx.
Qed.

Lemma rated_scal : forall t f I e c, rated t f I e -> rated t (fun r => c * f r) (c * I) (Rabs c * e).
Proof.
  intros t f I e c (A & B). split.
  - apply (is_RInt_gen_scal (V := R_NormedModule) f c I). exact A.
  - intros q H. replace (apply_rule q (fun r => c * f r)) with (c * apply_rule q f) by (symmetry; apply wsum_scal).
    rewrite <- Rmult_minus_distr_l, Rabs_mult. apply Rmult_le_compat_l; [apply Rabs_pos|auto].
Qed.

Lemma rated_le : forall t f I e q, rated t f I e -> @radial_generate RS t = Ok q -> apply_rule q f <= I + e.
Proof. intros t f I e q (_ & B) H. specialize (B q H). apply Rabs_le_between in B. lra. Qed.

Lemma sane_rel : forall m d (t : rtraits (FS m)) (qf : list F64 * list F64) q, accurate m d -> accurate_pow m d -> accurate_log m d -> d <= / 2 ^ 50 ->
  sane_traits t -> @radial_generate (FS m) t = Ok qf -> @radial_generate RS (real_traits t) = Ok q ->
  rel_rules qf q (radius_error d t) (radial_weight_error d t).
Proof.
  intros m d t qf q A AP AL Hd H G G'. destruct t as [n R|M n R|n R|n R al]; cbn [sane_traits radius_error radial_weight_error real_traits] in *.
  - apply (becke_rule m d n R); tauto || lia.
  - apply (mhl_rule m d M n R); tauto || lia.
  - apply (mk_rule m d n R); tauto.
  - apply (ta_rule m d n R al); tauto.
Qed.

(** Stored rules: f with an envelope g, both rated. *)
Lemma stored_rate : forall m d (t : rtraits (FS m)) (qf : list F64 * list F64) f g I e J e', accurate m d -> accurate_pow m d -> accurate_log m d -> d <= / 2 ^ 50 ->
  sane_traits t -> @radial_generate (FS m) t = Ok qf -> tempered f g -> rated (real_traits t) f I e -> rated (real_traits t) g J e' ->
  Rabs (apply_rule (real_rule qf) f - I) <= e + 2 * (radius_error d t + radial_weight_error d t) * (J + e').
Proof.
  intros m d t qf f g I e J e' A AP AL Hd H G T Rf Rg. pose proof (acc_pow_pos m d AP) as D0.
  destruct (errors_small m d t (conj D0 Hd) H) as (E1 & E2). destruct (radial_total (real_traits t)) as (q & Q).
  pose proof (sane_rel m d t qf q A AP AL Hd H G Q) as RR. pose proof (sane_valid m t H) as V.
  pose proof (radial_float_sum m t f g (radius_error d t) (radial_weight_error d t) qf q V T ltac:(lra) ltac:(lra) Q RR) as S.
  pose proof (proj2 Rf q Q) as Ef. pose proof (rated_le _ _ _ _ q Rg Q) as Eg.
  destruct (radial_shape _ _ V Q) as (_ & _ & _ & Px & Pw).
  assert (G0 : 0 <= apply_rule q g).
  { destruct q as [xs ws]. unfold apply_rule in *. cbn [fst snd] in *. clear - Px Pw T. destruct T as (T & _). revert ws Pw.
    induction xs as [|x xs IH]; intros [|w ws] Pw; unfold wsum; simpl; try lra.
    specialize (IH (fun z Hz => Px z (or_intror Hz)) ws (fun z Hz => Pw z (or_intror Hz))). unfold wsum in IH.
    pose proof (T x (Px x (or_introl eq_refl))). pose proof (Rabs_pos (f x)). pose proof (Pw w (or_introl eq_refl)).
    assert (0 <= w * g x) by (apply Rmult_le_pos; lra). unfold Rsum in *. simpl. lra. }
  replace (apply_rule (real_rule qf) f - I) with ((apply_rule (real_rule qf) f - apply_rule q f) + (apply_rule q f - I)) by ring.
  eapply Rle_trans; [apply Rabs_triang|]. set (a := radius_error d t) in *. set (b := radial_weight_error d t) in *.
  assert ((a + b + a * b) * apply_rule q g <= 2 * (a + b) * (J + e')); [|lra].
  apply Rmult_le_compat; nra.
Qed.

(** Whole grids in exact arithmetic. *)
Lemma mag_rate : forall q P G d tol, apply_rule q (fun r => r * r * (2 * tol * (INR d + 1) ^ 2 * (p3mag P r * G r))) =
  2 * tol * (INR d + 1) ^ 2 * apply_rule q (fun r => r * r * (p3mag P r * G r)).
Proof. intros. unfold apply_rule. rewrite <- wsum_scal. apply wsum_fext. intros; ring. Qed.

Lemma scheme_rate : forall dbg sch rq k (t : rtraits RS) f n cs g G P d tol I e J e', In (rq, k) schemes -> rkind_of t = k -> rt_valid t -> (5 <= rt_npts t)%nat ->
  algebraic_order_by_npts f n <> (-1)%Z -> List.Forall (exact_for f d tol) (scheme_sizes sch f n) -> 0 <= tol ->
  p3deg_le P d -> steady (/ 10 ^ 15) g G -> let c := last cs (0, 0, 0) in
  rated t (fun r => r * r * sphere_int (fun x y z => moment c g P (at_radius c r (x, y, z)))) I e -> rated t (fun r => r * r * (p3mag P r * G r)) J e' ->
  exists o, (let* p := create_pruned_spec sch (mkUnpruned rq (Some t) (AQ f) n) in
             let* o := generate_grid_pruned repo_grids dbg p in recenters o cs) = Ok o /\ space_integral c (moment c g P) I /\
    Rabs (integrate (moment c g P) (sph_quad o) - I) <= e + 2 * tol * (INR d + 1) ^ 2 * (J + e').
Proof.
  intros dbg sch rq k t f n cs g G P d tol I e J e' Hin Hk V Hn Ho Hs Ht HP HG c Rf Rg.
  destruct (scheme_moment dbg sch rq k t f n cs g G P d tol Hin Hk V Hn Ho Hs HP HG) as (o & q & O & Q & B). fold c in B.
  exists o. split; [exact O|]. split; [exact (proj1 Rf)|]. rewrite mag_rate in B. pose proof (proj2 Rf q Q) as Ef. pose proof (rated_le _ _ _ _ q Rg Q) as Eg.
  match type of B with Rabs (?X - ?Y) <= _ => replace (X - I) with ((X - Y) + (Y - I)) by ring end.
  eapply Rle_trans; [apply Rabs_triang|].
  assert (2 * tol * (INR d + 1) ^ 2 * apply_rule q (fun r => r * r * (p3mag P r * G r)) <= 2 * tol * (INR d + 1) ^ 2 * (J + e')); [|lra].
  apply Rmult_le_compat_l; [|exact Eg]. apply Rmult_le_pos; [lra|]. apply pow_le. pose proof (pos_INR d). lra.
Qed.

(** Whole grids as stored. *)
Lemma scheme_float_rate : forall m dl dbg sch rq k (t : rtraits (FS m)) f n g G H P d tol W I e J e' K e'',
  accurate m dl -> accurate_pow m dl -> accurate_log m dl -> dl <= / 2 ^ 50 ->
  In (rq, k) schemes -> rkind_of t = k -> sane_traits t -> (5 <= rt_npts t)%nat -> algebraic_order_by_npts f n <> (-1)%Z ->
  List.Forall (fun s => exact_for f d tol s /\ weight_max f s <= W) (scheme_sizes sch f n) -> 0 <= tol -> 0 <= W ->
  p3deg_le P d -> steady (/ 1000) g G -> covered (/ 1000) G H -> INR d * point_error dl t <= / 101 -> let c := (0, 0, 0) in
  rated (real_traits t) (fun r => r * r * sphere_int (fun x y z => moment c g P (at_radius c r (x, y, z)))) I e ->
  rated (real_traits t) (fun r => r * r * (p3mag P r * G r)) J e' -> rated (real_traits t) (fun r => r * r * (p3mag P r * H r)) K e'' ->
  exists gf : sphobj (FS m),
    (let* p := create_pruned_spec sch (mkUnpruned rq (Some t) (AQ f) n) in generate_grid_pruned (@repo_grids (FS m)) dbg p) = Ok gf /\
    space_integral c (moment c g P) I /\
    Rabs (sum3 (map real_pt (qpoints (sph_quad gf))) (map B2R (qweights (sph_quad gf))) (fun x y z => moment c g P (x, y, z)) - I)
    <= e + 2 * tol * (INR d + 1) ^ 2 * (J + e') + 1.1 * W * ((INR d + 1) * point_error dl t + weight_error dl t) * (K + e'').
Proof.
  intros m dl dbg sch rq k t f n g G H P d tol W I e J e' K e'' A AP AL Hd Hin Hk Ht Hn Ho Hs T0 W0 HP HG HC HE c Rf RG RH.
  destruct (scheme_float m dl dbg sch rq k t f n g G H P d tol W A AP AL Hd Hin Hk Ht Hn Ho Hs HP HG HC HE) as (gf & q & O & Q & B). fold c in B.
  exists gf. split; [exact O|]. split; [exact (proj1 Rf)|].
  pose proof (proj2 Rf q Q) as Ef. pose proof (rated_le _ _ _ _ q RG Q) as EG. pose proof (rated_le _ _ _ _ q RH Q) as EH.
  set (a := 2 * tol * (INR d + 1) ^ 2) in *. set (b := 1.1 * W * ((INR d + 1) * point_error dl t + weight_error dl t)) in *.
  assert (E : apply_rule q (fun r => r * r * (p3mag P r * (a * G r + b * H r))) =
     a * apply_rule q (fun r => r * r * (p3mag P r * G r)) + b * apply_rule q (fun r => r * r * (p3mag P r * H r))).
  { unfold apply_rule. rewrite <- !wsum_scal, <- wsum_plus. apply wsum_fext. intros; ring. }
  rewrite E in B. clear E.
  pose proof (acc_pow_pos m dl AP) as D0. destruct (errors_small m dl t (conj D0 Hd) Ht) as (E1 & E2). pose proof (pos_INR d) as Pd.
  assert (a0 : 0 <= a) by (unfold a; apply Rmult_le_pos; [lra|apply pow_le; lra]).
  assert (U : 0 <= ulp53) by (unfold ulp53; apply Rlt_le, Rinv_0_lt_compat, pow_lt; lra).
  assert (b0 : 0 <= b).
  { unfold b, point_error, weight_error. apply Rmult_le_pos; [lra|]. apply Rplus_le_le_0_compat; [apply Rmult_le_pos; lra|lra]. }
  match type of B with Rabs (?X - ?Y) <= _ => replace (X - I) with ((X - Y) + (Y - I)) by ring end.
  eapply Rle_trans; [apply Rabs_triang|].
  pose proof (Rmult_le_compat_l a _ _ a0 EG). pose proof (Rmult_le_compat_l b _ _ b0 EH). lra.
Qed.
