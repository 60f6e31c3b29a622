(** Convergence of spherical grids to integrals over space. *)
From Coq Require Import List Bool ZArith Arith Reals Lra Lia.
From Coquelicot Require Import Coquelicot.
From Verif Require Import Base.Outcome Base.OutcomeFacts Base.Scalar Base.RScalar Model.Quadrature Model.Radial Model.S2
  Model.Composite Model.Factory Model.Grids Spec.QuadSpec Spec.Sums Spec.RealRules Spec.RadialSpec Spec.SphereSpec Spec.SphereReal Spec.SphereInt Spec.SpaceSpec
  Spec.FactorySpec Proofs.Sizes Proofs.RadialRule Proofs.SphereIntFacts Proofs.CompositeProps Proofs.FactoryFacts Proofs.GridExact.
From Verif Require Proofs.HarmBase.
Import ListNotations.
Local Open Scope R_scope.

(** ** Decay *)
Lemma decays_eps : forall t f, decays t f <->
  forall eps, 0 < eps -> at_left 1 (fun x => Rabs (f (rt_transform t x) * Derive (rt_transform t) x) < eps).
Proof.
  intros t f. unfold decays. split.
  - intros H eps He. apply (H (fun y => Rabs y < eps)). exists (mkposreal eps He). intros y Hy.
    rewrite <- (Rminus_0_r y). exact Hy.
  - intros H P [eps HP]. unfold filtermap. generalize (H eps (cond_pos eps)). apply filter_imp.
    intros x Hx. apply HP. change (Rabs (f (rt_transform t x) * Derive (rt_transform t) x - 0) < eps).
    rewrite Rminus_0_r. exact Hx.
Qed.
Lemma decays_plus : forall t f g, decays t f -> decays t g -> decays t (fun r => f r + g r).
Proof.
  intros t f g Hf Hg. apply decays_eps. intros eps He.
  assert (A := proj1 (decays_eps t f) Hf (eps / 2) ltac:(lra)).
  assert (B := proj1 (decays_eps t g) Hg (eps / 2) ltac:(lra)).
  generalize (filter_and _ _ A B). apply filter_imp. intros x [H1 H2]. rewrite Rmult_plus_distr_r. eapply Rle_lt_trans; [apply Rabs_triang|]. lra.
Qed.
Lemma decays_le : forall t f g, decays t g -> (forall r, Rabs (f r) <= Rabs (g r)) -> decays t f.
Proof.
  intros t f g Hg H. apply decays_eps. intros eps He.
  generalize (proj1 (decays_eps t g) Hg eps He). apply filter_imp. intros x Hx.
  rewrite Rabs_mult in *. eapply Rle_lt_trans; [|exact Hx]. apply Rmult_le_compat_r; [apply Rabs_pos|]. apply H.
Qed.
Lemma decays_scal : forall t f c, decays t f -> decays t (fun r => c * f r).
Proof.
  intros t f c Hf. apply decays_eps. intros eps He.
  assert (Hp : 0 < eps / (Rabs c + 1)) by (apply Rdiv_lt_0_compat; [lra|pose proof (Rabs_pos c); lra]).
  generalize (proj1 (decays_eps t f) Hf _ Hp). apply filter_imp. intros x Hx.
  rewrite Rmult_assoc, Rabs_mult. pose proof (Rabs_pos c).
  apply Rle_lt_trans with (Rabs c * (eps / (Rabs c + 1))).
  - apply Rmult_le_compat_l; [auto|]. lra.
  - apply Rmult_lt_reg_r with (Rabs c + 1); [lra|].
    replace (Rabs c * (eps / (Rabs c + 1)) * (Rabs c + 1)) with (Rabs c * eps) by (field; lra). nra.
Qed.
Lemma decays_ext : forall t f g, (forall r, f r = g r) -> decays t f -> decays t g.
Proof. intros t f g E H. apply (decays_le t g f H). intro r. rewrite E. lra. Qed.

Lemma tame_plus : forall t f g, tame t f -> tame t g -> tame t (fun r => f r + g r).
Proof.
  intros t f g [C1 D1] [C2 D2]. split.
  - intros r Hr. apply (continuous_plus (V := R_NormedModule)); auto.
  - apply (decays_ext _ (fun r => r * r * f r + r * r * g r)); [intro; ring|]. apply decays_plus; auto.
Qed.
Lemma tame_scal : forall t c f, tame t f -> tame t (fun r => c * f r).
Proof.
  intros t c f [C D]. split.
  - intros r Hr. apply (continuous_mult (K := R_AbsRing) (fun _ => c) f); [apply continuous_const|auto].
  - apply (decays_ext _ (fun r => c * (r * r * f r))); [intro; ring|]. apply decays_scal; auto.
Qed.
Lemma tame_abs : forall t f, tame t f -> tame t (fun r => Rabs (f r)).
Proof.
  intros t f [C D]. split.
  - intros r Hr. apply (continuous_comp f Rabs); [auto|]. apply (continuous_abs (K := R_AbsRing)).
  - apply (decays_le _ _ _ D). intro r. rewrite !Rabs_mult, Rabs_Rabsolu. lra.
Qed.
Lemma tame_0 : forall t, tame t (fun _ => 0).
Proof.
  intro t. split; [intros; apply continuous_const|]. apply decays_eps. intros eps He.
  apply filter_forall. intro x. replace (_ * _) with 0 by ring. rewrite Rabs_R0. auto.
Qed.
Lemma tame_ext : forall t f g, (forall r, f r = g r) -> tame t f -> tame t g.
Proof.
  intros t f g E [C D]. split.
  - intros r Hr. apply (continuous_ext f); auto.
  - apply (decays_ext _ (fun r => r * r * f r)); [|auto]. intro r. rewrite E. auto.
Qed.

Lemma tame_converges : forall t f, rt_valid t -> flat_start t -> tame t f ->
  exists I, half_line_integral (fun r => r * r * f r) I /\
    rules_converge (fun n q => @radial_generate RS (with_npts t n) = Ok q) (fun r => r * r * f r) I.
Proof.
  intros t f V F [C D]. apply radial_converges; auto. intros r Hr.
  apply (continuous_mult (K := R_AbsRing) (fun r => r * r) f); auto.
  apply (continuous_mult (K := R_AbsRing) (fun r => r) (fun r => r)); apply continuous_id.
Qed.

(** ** Profiles *)
Lemma hconst_tame : forall t T, List.Forall (fun gk => tame t (fst gk)) T ->
  tame t (fun r => hconst (on_sphere T r)).
Proof.
  intros t T H. induction H as [|[g [[s m] n]] T Hg _ IH].
  - apply (tame_ext _ (fun _ => 0)); [reflexivity|apply tame_0].
  - apply (tame_ext _ (fun r => (if s then 0 else if Nat.eqb (m + n) 0 then 1 else 0) * g r + hconst (on_sphere T r))).
    + intro r. cbn [on_sphere map hconst fst snd]. fold (on_sphere T r). destruct s, (Nat.eqb (m + n) 0); cbn; ring.
    + apply tame_plus; [apply tame_scal; exact Hg|exact IH].
Qed.
Lemma hsize_tame : forall t T, List.Forall (fun gk => tame t (fst gk)) T ->
  tame t (fun r => hsize (on_sphere T r)).
Proof.
  intros t T H. induction H as [|[g [[s m] n]] T Hg _ IH].
  - apply (tame_ext _ (fun _ => 0)); [reflexivity|apply tame_0].
  - apply (tame_ext _ (fun r => harm_norm m n * Rabs (g r) + hsize (on_sphere T r))).
    + intro r. cbn [on_sphere map hsize fst snd]. fold (on_sphere T r). cbn; ring.
    + apply tame_plus; [apply tame_scal; apply tame_abs; exact Hg|exact IH].
Qed.
Lemma on_sphere_deg : forall T d r, prof_deg_le T d -> hdeg_le (on_sphere T r) d.
Proof.
  intros T d r H c s m n Hin. unfold on_sphere in Hin. apply in_map_iff in Hin.
  destruct Hin as ([g [[s' m'] n']] & E & Hin). injection E as _ <- <- <-. eapply H; eauto.
Qed.

(** ** Sums *)
Lemma wsum_nsum : forall (f : R * R * R -> R) ps ws,
  wsum f ps ws = nsum (combine ps ws) (fun x y z => f (x, y, z)).
Proof.
  intros f ps. unfold wsum. induction ps as [|[[x y] z] ps IH]; intros [|w ws]; try reflexivity.
  cbn [combine map Rsum fold_right nsum]. cbn [fst snd]. rewrite <- IH. reflexivity.
Qed.
Lemma wsum_near : forall {P} (f g : P -> R) del ps ws, (forall p, In p ps -> Rabs (f p - g p) <= del) -> 0 <= del ->
  Rabs (wsum f ps ws - wsum g ps ws) <= del * Rsum (map Rabs ws).
Proof.
  intros P f g del. unfold wsum. induction ps as [|p ps IH]; intros ws H Hd.
  - simpl. rewrite Rminus_diag_eq, Rabs_R0 by auto. apply Rmult_le_pos; [auto|].
    unfold Rsum. induction ws; simpl; [lra|]. pose proof (Rabs_pos a). lra.
  - destruct ws as [|w ws]; [simpl; rewrite Rminus_diag_eq, Rabs_R0 by auto; lra|].
    cbn [combine map Rsum fold_right fst snd]. specialize (IH ws (fun q Hq => H q (or_intror Hq)) Hd).
    pose proof (H p (or_introl eq_refl)) as Hp. unfold Rsum in IH.
    match goal with |- Rabs (?a + ?A - (?b + ?B)) <= _ => replace (a + A - (b + B)) with (w * (f p - g p) + (A - B)) by ring end.
    eapply Rle_trans; [apply Rabs_triang|]. rewrite Rabs_mult. pose proof (Rabs_pos w). nra.
Qed.
Lemma wsum_bound : forall {P} (f g b : P -> R) ps ws, (forall p, In p ps -> Rabs (f p - g p) <= b p) ->
  (forall w, In w ws -> 0 < w) -> Rabs (wsum f ps ws - wsum g ps ws) <= wsum b ps ws.
Proof.
  intros P f g b. unfold wsum. induction ps as [|p ps IH]; intros ws H Hw.
  - simpl. rewrite Rminus_diag_eq, Rabs_R0 by auto. lra.
  - destruct ws as [|w ws]; [simpl; rewrite Rminus_diag_eq, Rabs_R0 by auto; lra|].
    cbn [combine map Rsum fold_right fst snd].
    specialize (IH ws (fun q Hq => H q (or_intror Hq)) (fun q Hq => Hw q (or_intror Hq))).
    pose proof (H p (or_introl eq_refl)) as Hp. pose proof (Hw w (or_introl eq_refl)) as Hw0. unfold Rsum in IH.
    match goal with |- Rabs (?a + ?A - (?b + ?B)) <= _ => replace (a + A - (b + B)) with (w * (f p - g p) + (A - B)) by ring end.
    eapply Rle_trans; [apply Rabs_triang|]. rewrite Rabs_mult, (Rabs_pos_eq w) by lra.
    assert (w * Rabs (f p - g p) <= w * b p) by (apply Rmult_le_compat_l; lra). lra.
Qed.

(** One shell. *)
Lemma shell : forall tol d e (a : quad (@pt3 RS) R) c F T delta,
  List.Forall (near_sphere e) (qpoints a) -> integrates tol d a -> prof_deg_le T d -> profiled c F T e delta ->
  forall r, 0 <= r -> 0 <= delta r ->
  Rabs (integrate (fun u => F (at_radius c r u)) a - 4 * PI * hconst (on_sphere T r))
  <= tol * hsize (on_sphere T r) + abs_weight a * delta r.
Proof.
  intros tol d e a c F T delta Hn Hi HT [_ HP] r Hr Hd.
  specialize (Hi _ (on_sphere_deg T d r HT)). rewrite sphere_int_harm in Hi.
  set (h := on_sphere T r) in *. unfold s2_sum, nodes in Hi.
  assert (E : integrate (fun u : R * R * R => let '(x, y, z) := u in heval h x y z) a = nsum (combine (qpoints a) (qweights a)) (heval h)).
  { unfold integrate. rewrite wsum_nsum. reflexivity. }
  rewrite <- E in Hi.
  assert (B : Rabs (integrate (fun u => F (at_radius c r u)) a - integrate (fun u : R * R * R => let '(x, y, z) := u in heval h x y z) a)
              <= delta r * abs_weight a).
  { unfold integrate, abs_weight. apply wsum_near; [|auto]. intros [[x y] z] Hin.
    rewrite List.Forall_forall in Hn. apply HP; [auto|]. apply (Hn _ Hin). }
  match goal with |- Rabs (?A - ?C) <= _ =>
    replace (A - C) with ((A - integrate (fun u : R * R * R => let '(x, y, z) := u in heval h x y z) a)
      + (integrate (fun u : R * R * R => let '(x, y, z) := u in heval h x y z) a - C)) by ring end.
  eapply Rle_trans; [apply Rabs_triang|]. lra.
Qed.

Lemma construct_pair : forall {P W} dbg (g : outcome (list P * list W)) q, construct dbg g = Ok q ->
  g = Ok (qpoints q, qweights q).
Proof.
  intros P W dbg g q H. unfold construct in H. apply bind_Ok_inv in H. destruct H as ([p w] & -> & H).
  unfold quad_of in H. apply bind_Ok_inv in H. destruct H as (u & _ & H). injection H as <-. reflexivity.
Qed.

(** One grid: error against the radial rule applied to the exact shell integrals. *)
Lemma grid_error : forall dbg t c r (a : quad (@pt3 RS) R) na o tol d e F T delta, rt_valid t ->
  construct dbg (@radial_generate RS t) = Ok r -> sized na a -> spherical_construct dbg r a c = Ok o ->
  List.Forall (near_sphere e) (qpoints a) -> integrates tol d a -> prof_deg_le T d -> profiled c F T e delta ->
  (forall r, 0 <= r -> 0 <= delta r) -> forall W, abs_weight a <= W ->
  exists q, @radial_generate RS t = Ok q /\
  Rabs (integrate F (sph_quad o) - apply_rule q (fun r => r * r * (4 * PI * hconst (on_sphere T r))))
  <= apply_rule q (fun r => r * r * (tol * hsize (on_sphere T r) + W * delta r)).
Proof.
  intros dbg t c r a na o tol d e F T delta V Hr Ha Ho Hn Hi HT HP Hd W HW.
  pose proof (construct_pair _ _ _ Hr) as G. exists (qpoints r, qweights r). split; [exact G|].
  destruct (radial_sized (S := RS) dbg t) as (r' & Hr' & Sr). rewrite Hr in Hr'. injection Hr' as <-.
  destruct (spherical_sum dbg _ _ r a c Sr Ha) as (o' & Ho' & HI). rewrite Ho in Ho'. injection Ho' as <-.
  rewrite HI. unfold integrate at 1, apply_rule. cbn [fst snd].
  destruct (radial_shape _ _ V G) as (_ & _ & _ & Pos & Wpos). cbn [fst snd] in Pos, Wpos.
  apply wsum_bound; [|exact Wpos]. intros rad Hin. specialize (Pos rad Hin).
  rewrite <- Rmult_minus_distr_l, Rabs_mult, (Rabs_pos_eq (rad * rad)) by nra.
  apply Rmult_le_compat_l; [nra|].
  eapply Rle_trans; [apply (shell tol d e a c F T delta Hn Hi HT HP rad); [lra|]; apply Hd; lra|].
  apply Rplus_le_compat_l. apply Rmult_le_compat_r; [apply Hd; lra|exact HW].
Qed.

Lemma grid_error_int : forall dbg t c r (a : quad (@pt3 RS) R) na o tol d e F T delta, rt_valid t ->
  construct dbg (@radial_generate RS t) = Ok r -> sized na a -> spherical_construct dbg r a c = Ok o ->
  List.Forall (near_sphere e) (qpoints a) -> integrates tol d a -> prof_deg_le T d -> profiled c F T e delta ->
  (forall r, 0 <= r -> 0 <= delta r) -> forall W, abs_weight a <= W ->
  exists q, @radial_generate RS t = Ok q /\
  Rabs (integrate F (sph_quad o) - apply_rule q (fun r => r * r * sphere_int (heval (on_sphere T r))))
  <= apply_rule q (fun r => r * r * (tol * hsize (on_sphere T r) + W * delta r)).
Proof.
  intros dbg t c r a na o tol d e F T delta V Hr Ha Ho Hn Hi HT HP Hd W HW.
  destruct (grid_error dbg t c r a na o tol d e F T delta V Hr Ha Ho Hn Hi HT HP Hd W HW) as (q & E1 & E2).
  exists q. split; [exact E1|].
  replace (fun r : R => r * r * sphere_int (heval (on_sphere T r))) with (fun r : R => r * r * (4 * PI * hconst (on_sphere T r))); [exact E2|].
  apply FunctionalExtensionality.functional_extensionality. intro x. rewrite sphere_int_harm. reflexivity.
Qed.

Lemma space_int_profile : forall c F T e delta I, profiled c F T e delta ->
  half_line_integral (fun r => r * r * (4 * PI * hconst (on_sphere T r))) I -> space_integral c F I.
Proof.
  intros c F T e delta I [H _] HI. unfold space_integral, half_line_integral in *.
  refine (is_RInt_gen_ext _ _ _ _ HI). 
  exists (fun x => 0 < x) (fun x => 0 < x).
  - exists (mkposreal 1 Rlt_0_1). intros y _ Hy. exact Hy.
  - exists 0. auto.
  - intros x y Hx Hy z Hz. cbn [fst snd] in Hz.
    assert (0 < z). { destruct Hz as [Hz _]. eapply Rle_lt_trans; [|exact Hz]. apply Rmin_glb; lra. }
    rewrite <- sphere_int_harm. f_equal. symmetry. apply sphere_int_ext. intros a b g Hs. apply H; [lra|auto].
Qed.

Lemma with_npts_valid : forall t n, rt_valid t -> rt_valid (with_npts t n).
Proof. intros t n. destruct t; simpl; auto. Qed.

Lemma grid_converges : forall dbg t c (a : quad (@pt3 RS) R) na tol d e F T delta, rt_valid t -> flat_start t ->
  sized na a -> List.Forall (near_sphere e) (qpoints a) -> integrates tol d a -> prof_deg_le T d ->
  profiled c F T e delta -> List.Forall (fun gk => tame t (fst gk)) T -> tame t delta ->
  (forall r, 0 <= r -> 0 <= delta r) -> forall W, abs_weight a <= W ->
  exists I B, space_integral c F I /\
    half_line_integral (fun r => r * r * (tol * hsize (on_sphere T r) + W * delta r)) B /\
    forall eps, 0 < eps -> exists N, forall n r o, (N <= n)%nat ->
      construct dbg (@radial_generate RS (with_npts t n)) = Ok r -> spherical_construct dbg r a c = Ok o ->
      Rabs (integrate F (sph_quad o) - I) <= B + eps.
Proof.
  intros dbg t c a na tol d e F T delta V FS Ha Hn Hi HT HP Tg Td Hd W HW.
  destruct (tame_converges t (fun r => 4 * PI * hconst (on_sphere T r)) V FS) as (I & HI & CI).
  { apply tame_scal. apply hconst_tame. exact Tg. }
  destruct (tame_converges t (fun r => tol * hsize (on_sphere T r) + W * delta r) V FS) as (B & HB & CB).
  { apply tame_plus; apply tame_scal; [apply hsize_tame; exact Tg|exact Td]. }
  exists I, B. split; [apply (space_int_profile c F T e delta I HP HI)|]. split; [exact HB|].
  intros eps He. destruct (CI (eps / 2) ltac:(lra)) as (N1 & H1). destruct (CB (eps / 2) ltac:(lra)) as (N2 & H2).
  exists (max N1 N2). intros n r o Hge Hr Ho.
  destruct (grid_error dbg (with_npts t n) c r a na o tol d e F T delta (with_npts_valid t n V) Hr Ha Ho Hn Hi HT HP Hd W HW) as (q & Gq & E).
  specialize (H1 n q ltac:(lia) Gq). specialize (H2 n q ltac:(lia) Gq).
  apply Rabs_def2 in H2.
  match type of E with Rabs (?X - ?Y) <= _ => replace (X - I) with ((X - Y) + (Y - I)) by ring end.
  eapply Rle_trans; [apply Rabs_triang|]. lra.
Qed.

(** ** Radial integrands *)
Lemma dist_at_radius : forall c r x y z, 0 <= r ->
  dist3 (at_radius c r (x, y, z)) c = r * sqrt (x * x + y * y + z * z).
Proof.
  intros [[cx cy] cz] r x y z Hr. cbn.
  replace ((cx + r * x - cx) * (cx + r * x - cx) + (cy + r * y - cy) * (cy + r * y - cy) + (cz + r * z - cz) * (cz + r * z - cz))
    with ((r * r) * (x * x + y * y + z * z)) by ring.
  rewrite sqrt_mult by nra. rewrite sqrt_square by auto. reflexivity.
Qed.
Lemma sqrt_near : forall s e, 0 <= e -> 0 <= s -> Rabs (s - 1) <= e -> Rabs (sqrt s - 1) <= e.
Proof.
  intros s e He Hs H. pose proof (sqrt_pos s) as P. pose proof (sqrt_sqrt s Hs) as Q.
  replace (s - 1) with ((sqrt s - 1) * (sqrt s + 1)) in H by (rewrite <- Q at 3; ring).
  rewrite Rabs_mult, (Rabs_pos_eq (sqrt s + 1)) in H by lra. pose proof (Rabs_pos (sqrt s - 1)). nra.
Qed.
Lemma radial_profile : forall c g G e, 0 <= e ->
  (forall r s, 0 <= r -> Rabs (s - 1) <= e -> Rabs (g (r * s) - g r) <= e * G r) ->
  profiled c (fun p => g (dist3 p c)) [(g, (false, 0%nat, 0%nat))] e (fun r => e * G r).
Proof.
  intros c g G e He HG. split.
  - intros r x y z Hr Hs. rewrite dist_at_radius, Hs, sqrt_1 by auto. cbn. unfold harm. cbn.
    replace (g r * (1 * 1) + 0) with (g r) by ring. apply (f_equal g). apply Rmult_1_r.
  - intros r x y z Hr Hs. rewrite dist_at_radius by auto. cbn. unfold harm. cbn.
    replace (g r * (1 * 1) + 0) with (g r) by ring. apply HG; [auto|]. apply sqrt_near; auto. nra.
Qed.

(** ** Grids made by the factory from the repository's angular data *)
Lemma factory_unpruned : forall {S : Scalar} (grids : afam -> Z -> @static_grid S) dbg rq (t : rtraits S) f n a c,
  In (rq, rkind_of t) schemes -> construct dbg (s2_generate grids f n) = Ok a -> c = (s0, s0, s0) ->
  exists r, construct dbg (radial_generate t) = Ok r /\
  generate_grid_unpruned grids dbg (mkUnpruned rq (Some t) (AQ f) (Z.of_nat n)) = spherical_construct dbg r a c.
Proof.
  intros S grids dbg rq t f n a c Hin Ha ->. destruct (radial_sized dbg t) as (r & R1 & R2). exists r. split; [exact R1|].
  unfold generate_grid_unpruned, generate_unpruned_grid. cbn [u_traits u_rq u_aq u_asz].
  unfold angular_construct. rewrite Nat2Z.id, Ha. cbn [bind]. rewrite unpruned_impl_eq.
  rewrite (radial_direct dbg rq _ t Hin eq_refl), R1. reflexivity.
Qed.
Lemma rkind_with_npts : forall (t : rtraits RS) n, rkind_of (with_npts t n) = rkind_of t.
Proof. intros t n. destruct t; reflexivity. Qed.

Lemma positive_weight : forall tol d (q : quad (@pt3 RS) R) n, sized n q -> integrates tol d q ->
  List.Forall (fun w => 0 < w) (qweights q) -> abs_weight q <= 4 * PI + tol.
Proof.
  intros tol d q n Hs Hi Hp. pose proof (weight_sum tol d q Hi) as H.
  assert (E : s2_sum q one3 = abs_weight q).
  { unfold s2_sum, nodes, abs_weight. destruct Hs as (_ & L1 & L2 & _).
    assert (L : length (qpoints q) = length (qweights q)) by congruence. clear -Hp L.
    revert L. generalize (qpoints q). induction Hp as [|w ws Hw _ IH]; intros [|[[x y] z] ps] L; try discriminate; [reflexivity|].
    cbn [combine nsum map Rsum fold_right]. rewrite (IH ps) by (injection L; auto). unfold one3, Rsum.
    rewrite Rabs_pos_eq by lra. rewrite Rmult_1_r. reflexivity. }
  rewrite E in H. apply Rabs_le_between in H. lra.
Qed.

Lemma factory_radial : forall dbg rq (t : rtraits RS) f n (g G : R -> R),
  In (rq, rkind_of t) schemes -> rt_valid t -> flat_start t ->
  f = LebedevLaikov \/ f = Delley -> algebraic_order_by_npts f (Z.of_nat n) <> (-1)%Z ->
  ~ (f = LebedevLaikov /\ In (Z.of_nat n) [74; 230; 266]%Z) ->
  let e := 5 / 10000000000000000 in let tol := 4 * PI / 100000000000000 in
  tame t g -> tame t G -> (forall r, 0 <= r -> 0 <= G r) ->
  (forall r s, 0 <= r -> Rabs (s - 1) <= e -> Rabs (g (r * s) - g r) <= e * G r) ->
  exists I B, half_line_integral (fun r => r * r * (4 * PI * g r)) I /\
    half_line_integral (fun r => r * r * (tol * Rabs (g r) + (4 * PI + tol) * (e * G r))) B /\
    forall eps, 0 < eps -> exists N, forall m, (N <= m)%nat -> exists o,
      generate_grid_unpruned repo_grids dbg (mkUnpruned rq (Some (with_npts t m)) (AQ f) (Z.of_nat n)) = Ok o /\
      Rabs (integrate (fun p => g (dist3 p (0, 0, 0))) (sph_quad o) - I) <= B + eps.
Proof.
  intros dbg rq t f n g G Hin V FS Hf Hn Hb e tol Tg TG HG HL.
  assert (A : exists a : quad (@pt3 RS) R, construct dbg (s2_generate repo_grids f n) = Ok a /\ sized n a /\
    List.Forall (near_sphere e) (qpoints a) /\
    integrates tol (Z.to_nat (algebraic_order_by_npts f (Z.of_nat n))) a).
  { destruct Hf as [-> | ->]; [apply lebedev_ok|apply delley_ok]; exact Hn. }
  destruct A as (a & A1 & A2 & A3 & A4).
  assert (P : List.Forall (fun w => 0 < w) (qweights a)).
  { destruct (weight_signs dbg f n Hn) as (a' & A1' & [[Hp _]|[_ Hbad]]).
    - destruct Hf as [-> | ->]; discriminate.
    - rewrite A1 in A1'. injection A1' as <-. exact Hp.
    - exfalso. destruct Hbad as [Hbad|[-> _]]; [auto|]. destruct Hf; discriminate. }
  assert (W := positive_weight _ _ _ _ A2 A4 P).
  assert (HP := radial_profile (0, 0, 0) g G e ltac:(unfold e; lra) HL).
  assert (HD : prof_deg_le [(g, (false, 0%nat, 0%nat))] (Z.to_nat (algebraic_order_by_npts f (Z.of_nat n)))).
  { intros g' s' m' n' [E|[]]. injection E as _ _ <- <-. lia. }
  destruct (grid_converges dbg t (0, 0, 0) a n tol _ e _ _ _ V FS A2 A3 A4 HD HP) with (W := 4 * PI + tol) as (I & B & H1 & H2 & H3).
  - constructor; [exact Tg|constructor].
  - apply tame_scal. exact TG.
  - intros r Hr. apply Rmult_le_pos; [unfold e; lra|auto].
  - exact W.
  - exists I, B. split; [|split].
    + unfold space_integral, half_line_integral in *. refine (is_RInt_gen_ext _ _ _ _ H1).
      exists (fun x => 0 < x) (fun x => 0 < x).
      * exists (mkposreal 1 Rlt_0_1). intros y _ Hy. exact Hy.
      * exists 0. auto.
      * intros x y Hx Hy z Hz. cbn [fst snd] in Hz.
        assert (0 < z). { destruct Hz as [Hz _]. eapply Rle_lt_trans; [|exact Hz]. apply Rmin_glb; lra. }
        f_equal. transitivity (sphere_int (heval [(g z, (false, 0%nat, 0%nat))])).
        -- apply sphere_int_ext. intros u v w Hs. apply (proj1 HP); [lra|auto].
        -- rewrite sphere_int_harm. cbn. ring.
    + refine (is_RInt_gen_ext _ _ _ _ H2). apply filter_forall. intros x z _. cbn [on_sphere map hsize fst snd].
      rewrite HarmBase.harm_norm_00. f_equal. f_equal. ring.
    + intros eps He. destruct (H3 eps He) as (N & HN). exists N. intros m Hm.
      destruct (factory_unpruned repo_grids dbg rq (with_npts t m) f n a (0, 0, 0)) as (r & R1 & R2); [rewrite rkind_with_npts; exact Hin|exact A1|reflexivity|].
      rewrite R2. destruct (radial_sized (S := RS) dbg (with_npts t m)) as (r' & R1' & Sr). rewrite R1 in R1'. injection R1' as <-.
      destruct (spherical_sum dbg _ _ r a (0, 0, 0) Sr A2) as (o & Ho & _). exists o. split; [exact Ho|].
      exact (HN m r o Hm R1 Ho).
Qed.

(** ** Worked case: the tent max(0, 1 - r), alone and times the third coordinate *)
Lemma pos_cont : forall a b r, continuous (fun r => Rmax 0 (a - b * r)) r.
Proof.
  intros a b r. apply (continuous_ext (fun r => (a - b * r + Rabs (a - b * r)) / 2)).
  - intro x. unfold Rmax, Rabs. destruct (Rle_dec 0 (a - b * x)), (Rcase_abs (a - b * x)); lra.
  - assert (L : forall x, continuous (fun r => a - b * r) x).
    { intro x. apply (ex_derive_continuous (V := R_NormedModule)). auto_derive; auto. }
    apply (continuous_mult (K := R_AbsRing) (fun r => a - b * r + Rabs (a - b * r)) (fun _ => / 2)); [|apply continuous_const].
    apply (continuous_plus (V := R_NormedModule) (fun r => a - b * r) (fun r => Rabs (a - b * r))); [apply L|].
    apply (continuous_comp (fun r => a - b * r) Rabs); [apply L|]. apply (continuous_abs (K := R_AbsRing)).
Qed.
Lemma compact_tame : forall t f rho, rt_valid t -> (forall r, 0 <= r -> continuous f r) ->
  (forall r, rho <= r -> f r = 0) -> tame t f.
Proof.
  intros t f rho V C Z. split; [exact C|]. apply (compact_decays t _ rho V). intros r Hr. rewrite Z by auto. ring.
Qed.
Lemma tent_scale : forall e r s, 0 <= e <= 1 / 2 -> 0 <= r -> Rabs (s - 1) <= e ->
  Rabs (Rmax 0 (1 - 1 * (r * s)) - Rmax 0 (1 - 1 * r)) <= e * Rmax 0 (6 - 2 * r).
Proof.
  intros e r s He Hr Hs. apply Rabs_le_between in Hs.
  destruct (Rle_dec r 2) as [H2|H2].
  - rewrite (Rmax_right 0 (6 - 2 * r)) by lra.
    apply Rle_trans with (e * r); [|nra].
    assert (- (e * r) <= r * s - r <= e * r) by (split; nra).
    apply Rabs_le. unfold Rmax. destruct (Rle_dec 0 (1 - 1 * (r * s))), (Rle_dec 0 (1 - 1 * r)); split; lra.
  - rewrite !Rmax_left by nra. rewrite Rminus_diag_eq, Rabs_R0 by auto. pose proof (Rmax_l 0 (6 - 2 * r)). nra.
Qed.
Lemma tent_space_ex : forall t, rt_valid t ->
  let e := 5 / 10000000000000000 in
  let g := fun r => Rmax 0 (1 - 1 * r) in let G := fun r => Rmax 0 (6 - 2 * r) in
  tame t g /\ tame t G /\ (forall r, 0 <= r -> 0 <= G r) /\
  (forall r s, 0 <= r -> Rabs (s - 1) <= e -> Rabs (g (r * s) - g r) <= e * G r).
Proof.
  intros t V e g G. split; [|split; [|split]].
  - apply (compact_tame t g 1 V); [intros; apply pos_cont|]. intros r Hr. apply Rmax_left. lra.
  - apply (compact_tame t G 3 V); [intros; apply pos_cont|]. intros r Hr. apply Rmax_left. lra.
  - intros r _. apply Rmax_l.
  - intros r s Hr Hs. apply tent_scale; auto. unfold e. lra.
Qed.
Lemma tent_z_ex : forall t cx cy cz, rt_valid t ->
  let e := 5 / 10000000000000000 in
  let g := fun r => Rmax 0 (1 - 1 * r) in
  let F := fun p : @pt3 RS => g (dist3 p (cx, cy, cz)) * (snd p - cz) in
  let T := [(fun r => g r * r, (false, 0%nat, 1%nat))] in
  let delta := fun r => e * (2 * r * Rmax 0 (6 - 2 * r)) in
  profiled (cx, cy, cz) F T e delta /\ prof_deg_le T 1 /\
  List.Forall (fun gk => tame t (fst gk)) T /\ tame t delta /\ (forall r, 0 <= r -> 0 <= delta r).
Proof.
  intros t cx cy cz V e g F T delta. split; [split|split; [|split; [|split]]].
  - intros r x y z Hr Hs. unfold F. rewrite dist_at_radius, Hs, sqrt_1 by auto. cbn. unfold harm. cbn.
    replace (g (r * 1)) with (g r) by (apply (f_equal g); symmetry; apply Rmult_1_r).
    replace (cz + r * z - cz) with (r * z) by ring. ring.
  - intros r x y z Hr Hs. unfold F. rewrite dist_at_radius by auto. cbn. unfold harm. cbn.
    unfold near_sphere in Hs. set (s := sqrt (x * x + y * y + z * z)).
    assert (H0 : 0 <= x * x + y * y + z * z) by nra.
    assert (S : Rabs (s - 1) <= e) by (apply sqrt_near; [unfold e; lra|auto|auto]).
    pose proof (tent_scale e r s ltac:(unfold e; lra) Hr S) as HT.
    replace (g (r * s) * (cz + r * z - cz) - (g r * r * (1 * z) + 0)) with ((g (r * s) - g r) * (r * z)) by ring.
    assert (Z : Rabs z <= 2).
    { apply Rabs_le. apply Rabs_le_between in Hs. unfold e in Hs. split; nra. }
    rewrite !Rabs_mult, (Rabs_pos_eq r) by auto. unfold delta.
    pose proof (Rabs_pos (g (r * s) - g r)). pose proof (Rabs_pos z).
    apply Rle_trans with ((e * Rmax 0 (6 - 2 * r)) * (r * 2)).
    + apply Rmult_le_compat; [auto|nra|exact HT|nra].
    + apply Req_le. ring.
  - intros g' s m n [E|[]]. injection E as _ _ <- <-. auto.
  - constructor; [|constructor]. cbn [fst]. apply (compact_tame t _ 1 V).
    + intros r _. apply (continuous_mult (K := R_AbsRing) g (fun r => r)); [apply pos_cont|apply continuous_id].
    + intros r Hr. unfold g. rewrite Rmax_left by lra. apply Rmult_0_l.
  - apply (compact_tame t _ 3 V).
    + intros r _. unfold delta. apply (continuous_mult (K := R_AbsRing) (fun _ => e) (fun r => 2 * r * Rmax 0 (6 - 2 * r))); [apply continuous_const|].
      apply (continuous_mult (K := R_AbsRing) (fun r => 2 * r) (fun r => Rmax 0 (6 - 2 * r))); [|apply pos_cont].
      apply (continuous_mult (K := R_AbsRing) (fun _ => 2) (fun r => r)); [apply continuous_const|apply continuous_id].
    + intros r Hr. unfold delta. rewrite Rmax_left by lra. rewrite !Rmult_0_r. reflexivity.
  - intros r Hr. unfold delta, e. pose proof (Rmax_l 0 (6 - 2 * r)). apply Rmult_le_pos; [lra|]. apply Rmult_le_pos; lra.
Qed.
