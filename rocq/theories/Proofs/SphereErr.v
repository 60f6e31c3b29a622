(** Angular rules applied to functions that are not polynomials. *)
From Coq Require Import ZArith List Bool Reals Lra Lia Psatz.
From Coquelicot Require Import Coquelicot.
From Flocq Require Import IEEE754.BinarySingleNaN.
From Verif Require Import Base.Outcome Base.Scalar Base.RScalar Base.FScalar Model.Quadrature Model.S2Tables Model.S2 Model.Composite
  Model.GridCode Model.Grids
  Spec.QuadSpec Spec.Sums Spec.SphereSpec Spec.SphereInt Spec.SpaceSpec Spec.PolySpec Spec.MomentSpec Spec.SphereErrSpec
  Spec.FloatSpec Spec.LibmSpec Spec.GridFloatSpec
  Proofs.PiBounds Proofs.GridExact Proofs.NearSphere Proofs.GridLoad Proofs.FloatErr Proofs.RadialFloat Proofs.ChebFloat3 Proofs.GridFloatSum
  Proofs.SphereIntFacts Proofs.PolyGrid Proofs.Moments Proofs.MomentFloat.
Import ListNotations.
Local Open Scope R_scope.

(** ** Integrals over the sphere *)
Definition lip_sphere (L : R) (f : R -> R -> R -> R) : Prop :=
  forall x y z x' y' z', x * x + y * y + z * z = 1 -> x' * x' + y' * y' + z' * z' = 1 ->
  Rabs (f x y z - f x' y' z') <= L * (Rabs (x - x') + Rabs (y - y') + Rabs (z - z')).

Lemma on_unit : forall t p, sin t * cos p * (sin t * cos p) + sin t * sin p * (sin t * sin p) + cos t * cos t = 1.
Proof.
  intros t p. replace (sin t * cos p * (sin t * cos p) + sin t * sin p * (sin t * sin p) + cos t * cos t)
    with (Rsqr (sin t) * (Rsqr (sin p) + Rsqr (cos p)) + Rsqr (cos t)) by (unfold Rsqr; ring).
  rewrite sin2_cos2, Rmult_1_r. apply sin2_cos2.
Qed.

Lemma lip1_cont : forall (g : R -> R) C, 0 <= C -> (forall a b, Rabs (g a - g b) <= C * Rabs (a - b)) -> forall x, continuous g x.
Proof.
  intros g C HC H x P HP. destruct HP as [e He].
  assert (D : 0 < e / (C + 1)) by (apply Rdiv_lt_0_compat; [apply cond_pos|lra]).
  exists (mkposreal _ D). intros y Hy. apply He. change (Rabs (g y - g x) < e).
  change (Rabs (y - x) < e / (C + 1)) in Hy. eapply Rle_lt_trans; [apply H|]. pose proof (Rabs_pos (y - x)).
  apply Rle_lt_trans with ((C + 1) * Rabs (y - x)); [nra|].
  apply Rlt_le_trans with ((C + 1) * (e / (C + 1))); [apply Rmult_lt_compat_l; lra|]. right. field. lra.
Qed.

Lemma sin_lip : forall a b, Rabs (sin a - sin b) <= Rabs (a - b).
Proof.
  intros a b. destruct (MVT_gen sin b a cos) as (c & _ & E).
  - intros x _. apply is_derive_sin.
  - intros x _. apply continuity_pt_filterlim. apply cont_sin.
  - rewrite E, Rabs_mult. pose proof (COS_bound c). assert (Rabs (cos c) <= 1) by (apply Rabs_le; lra). pose proof (Rabs_pos (a - b)). nra.
Qed.
Lemma cos_lip : forall a b, Rabs (cos a - cos b) <= Rabs (a - b).
Proof.
  intros a b. rewrite !cos_sin. eapply Rle_trans; [apply sin_lip|]. right. f_equal. ring.
Qed.
Lemma sin1 : forall a, Rabs (sin a) <= 1.
Proof. intro a. pose proof (SIN_bound a). apply Rabs_le; lra. Qed.
Lemma cos1 : forall a, Rabs (cos a) <= 1.
Proof. intro a. pose proof (COS_bound a). apply Rabs_le; lra. Qed.
Lemma mul_le1 : forall a b, Rabs a <= 1 -> Rabs (a * b) <= Rabs b.
Proof. intros a b H. rewrite Rabs_mult. pose proof (Rabs_pos b). nra. Qed.

Section Polar.
Variables (f : R -> R -> R -> R) (L : R).
Hypothesis HL : 0 <= L.
Hypothesis Hf : lip_sphere L f.
Definition fp (p t : R) : R := f (sin t * cos p) (sin t * sin p) (cos t).

Lemma fp_t : forall p a b, Rabs (fp p a - fp p b) <= 3 * L * Rabs (a - b).
Proof.
  intros p a b. unfold fp. eapply Rle_trans; [apply Hf; apply on_unit|].
  rewrite (Rmult_comm 3), Rmult_assoc. apply Rmult_le_compat_l; [exact HL|].
  rewrite <- !Rmult_minus_distr_r, !(Rmult_comm (sin a - sin b)).
  pose proof (mul_le1 (cos p) (sin a - sin b) (cos1 p)). pose proof (mul_le1 (sin p) (sin a - sin b) (sin1 p)).
  pose proof (sin_lip a b). pose proof (cos_lip a b). lra.
Qed.
Lemma fp_p : forall t a b, Rabs (fp a t - fp b t) <= 2 * L * Rabs (a - b).
Proof.
  intros t a b. unfold fp. eapply Rle_trans; [apply Hf; apply on_unit|].
  rewrite (Rmult_comm 2), Rmult_assoc. apply Rmult_le_compat_l; [exact HL|].
  rewrite <- !Rmult_minus_distr_l, (Rminus_diag_eq (cos t) (cos t)), Rabs_R0 by reflexivity.
  pose proof (mul_le1 (sin t) (cos a - cos b) (sin1 t)). pose proof (mul_le1 (sin t) (sin a - sin b) (sin1 t)).
  pose proof (sin_lip a b). pose proof (cos_lip a b). lra.
Qed.
Lemma inner_cont : forall p t, continuous (fun t => fp p t * sin t) t.
Proof.
  intros p t. apply (continuous_mult (fun t => fp p t) sin); [|apply cont_sin].
  apply (lip1_cont _ (3 * L)); [lra|]. intros a b. apply fp_t.
Qed.
Lemma inner_ex : forall p, ex_RInt (fun t => fp p t * sin t) 0 PI.
Proof. intro p. apply (ex_RInt_continuous (V := R_CompleteNormedModule)). intros t _. apply inner_cont. Qed.
Lemma outer_lip : forall a b, Rabs (RInt (fun t => fp a t * sin t) 0 PI - RInt (fun t => fp b t * sin t) 0 PI) <= PI * (2 * L) * Rabs (a - b).
Proof.
  intros a b. pose proof PI_RGT_0.
  assert (E : RInt (fun t => fp a t * sin t - fp b t * sin t) 0 PI = RInt (fun t => fp a t * sin t) 0 PI - RInt (fun t => fp b t * sin t) 0 PI).
  { apply is_RInt_unique. apply (is_RInt_minus (V := R_NormedModule)); apply (RInt_correct (V := R_CompleteNormedModule)), inner_ex. }
  rewrite <- E.
  replace (PI * (2 * L) * Rabs (a - b)) with ((PI - 0) * (2 * L * Rabs (a - b))) by ring.
  apply abs_RInt_le_const; [lra| |].
  - apply (ex_RInt_minus (V := R_NormedModule)); apply inner_ex.
  - intros t _. rewrite <- Rmult_minus_distr_r, Rmult_comm. eapply Rle_trans; [apply mul_le1, sin1|apply fp_p].
Qed.
Lemma outer_ex : ex_RInt (fun p => RInt (fun t => fp p t * sin t) 0 PI) 0 (2 * PI).
Proof.
  apply (ex_RInt_continuous (V := R_CompleteNormedModule)). intros p _.
  apply (lip1_cont _ (PI * (2 * L))); [pose proof PI_RGT_0; nra|]. intros a b. apply outer_lip.
Qed.
End Polar.

Lemma sin_int : is_RInt sin 0 PI 2.
Proof.
  replace 2 with (minus (- cos PI) (- cos 0)) by (unfold minus, plus, opp; cbn; rewrite cos_PI, cos_0; ring).
  apply (is_RInt_derive (fun t => - cos t)).
  - intros x _. replace (sin x) with (- (- sin x)) by ring. apply (is_derive_opp cos x (- sin x)). apply is_derive_cos.
  - intros x _. apply cont_sin.
Qed.

Lemma sphere_int_close : forall f g L L' e, 0 <= L -> 0 <= L' -> 0 <= e -> lip_sphere L f -> lip_sphere L' g ->
  (forall x y z, x * x + y * y + z * z = 1 -> Rabs (f x y z - g x y z) <= e) -> Rabs (sphere_int f - sphere_int g) <= 4 * PI * e.
Proof.
  intros f g L L' e HL HL' He Hf Hg H. unfold sphere_int. pose proof PI_RGT_0.
  fold (fp f) (fp g).
  assert (E : RInt (fun p => RInt (fun t => fp f p t * sin t) 0 PI - RInt (fun t => fp g p t * sin t) 0 PI) 0 (2 * PI)
     = RInt (fun p => RInt (fun t => fp f p t * sin t) 0 PI) 0 (2 * PI) - RInt (fun p => RInt (fun t => fp g p t * sin t) 0 PI) 0 (2 * PI)).
  { apply is_RInt_unique. apply (is_RInt_minus (V := R_NormedModule)); apply (RInt_correct (V := R_CompleteNormedModule)); [apply (outer_ex f L)|apply (outer_ex g L')]; assumption. }
  unfold fp in E. rewrite <- E. replace (4 * PI * e) with ((2 * PI - 0) * (2 * e)) by ring.
  apply abs_RInt_le_const; [lra| |].
  - apply (ex_RInt_minus (V := R_NormedModule)); [apply (outer_ex f L)|apply (outer_ex g L')]; assumption.
  - intros p _. fold (fp f p) (fp g p).
    assert (E2 : RInt (fun t => fp f p t * sin t - fp g p t * sin t) 0 PI = RInt (fun t => fp f p t * sin t) 0 PI - RInt (fun t => fp g p t * sin t) 0 PI).
    { apply is_RInt_unique. apply (is_RInt_minus (V := R_NormedModule)); apply (RInt_correct (V := R_CompleteNormedModule)); [apply (inner_ex f L)|apply (inner_ex g L')]; assumption. }
    unfold fp in E2. rewrite <- E2.
    assert (S2 : is_RInt (fun t => e * sin t) 0 PI (2 * e)).
    { replace (2 * e) with (scal e 2) by (unfold scal; cbn; unfold mult; cbn; ring). apply (is_RInt_scal sin 0 PI e 2 sin_int). }
    apply (norm_RInt_le (V := R_NormedModule) (fun t => fp f p t * sin t - fp g p t * sin t) (fun t => e * sin t) 0 PI); [lra| | |exact S2].
    + intros t Ht. change (Rabs (fp f p t * sin t - fp g p t * sin t) <= e * sin t). rewrite <- Rmult_minus_distr_r, Rabs_mult.
      assert (0 <= sin t) by (apply sin_ge_0; lra). rewrite (Rabs_pos_eq (sin t)) by assumption.
      apply Rmult_le_compat_r; [assumption|]. apply H, on_unit.
    + apply (RInt_correct (V := R_CompleteNormedModule)).
      apply (ex_RInt_minus (V := R_NormedModule)); [apply (inner_ex f L)|apply (inner_ex g L')]; assumption.
Qed.

(** Polynomials are Lipschitz on the sphere. *)
Lemma pow_lip : forall i x y, Rabs x <= 1 -> Rabs y <= 1 -> Rabs (x ^ i - y ^ i) <= INR i * Rabs (x - y).
Proof.
  induction i as [|i IH]; intros x y Hx Hy; [cbn [pow INR]; rewrite Rminus_diag_eq, Rabs_R0 by reflexivity; lra|].
  rewrite S_INR. cbn [pow]. replace (x * x ^ i - y * y ^ i) with (x ^ i * (x - y) + y * (x ^ i - y ^ i)) by ring.
  eapply Rle_trans; [apply Rabs_triang|]. specialize (IH x y Hx Hy).
  pose proof (mul_le1 (x ^ i) (x - y) (pow_abs1 x i Hx)). pose proof (mul_le1 y (x ^ i - y ^ i) Hy). lra.
Qed.
Lemma p3_lip : forall p d, p3deg_le p d -> lip_sphere (INR d * p3size p) (p3eval p).
Proof.
  intros p d Hp x y z x' y' z' H H'. destruct (sphere_box _ _ _ H) as (X & Y & Z). destruct (sphere_box _ _ _ H') as (X' & Y' & Z').
  set (D := Rabs (x - x') + Rabs (y - y') + Rabs (z - z')). assert (Dx := Rabs_pos (x - x')). assert (Dy := Rabs_pos (y - y')). assert (Dz := Rabs_pos (z - z')).
  induction p as [|[c [[i j] k]] p IH]; cbn [p3eval p3size]; [rewrite Rminus_diag_eq, Rabs_R0 by reflexivity; lra|].
  assert (Hq : p3deg_le p d) by (intros c0 i0 j0 k0 H0; apply (Hp c0); right; exact H0). specialize (IH Hq).
  assert (Hm : (i + j + k <= d)%nat) by (apply (Hp c); left; reflexivity).
  replace (c * (x ^ i * y ^ j * z ^ k) + p3eval p x y z - (c * (x' ^ i * y' ^ j * z' ^ k) + p3eval p x' y' z'))
    with (c * (x ^ i * y ^ j * z ^ k - x' ^ i * y' ^ j * z' ^ k) + (p3eval p x y z - p3eval p x' y' z')) by ring.
  eapply Rle_trans; [apply Rabs_triang|]. rewrite Rmult_plus_distr_l, Rmult_plus_distr_r. apply Rplus_le_compat; [|exact IH].
  rewrite Rabs_mult. replace (INR d * Rabs c * D) with (Rabs c * (INR d * D)) by ring. apply Rmult_le_compat_l; [apply Rabs_pos|].
  replace (x ^ i * y ^ j * z ^ k - x' ^ i * y' ^ j * z' ^ k)
    with (y ^ j * (z ^ k * (x ^ i - x' ^ i)) + (x' ^ i * (z ^ k * (y ^ j - y' ^ j)) + x' ^ i * (y' ^ j * (z ^ k - z' ^ k)))) by ring.
  eapply Rle_trans; [apply Rabs_triang|]. eapply Rle_trans; [apply Rplus_le_compat_l, Rabs_triang|].
  pose proof (pow_lip i x x' X X') as A1. pose proof (pow_lip j y y' Y Y') as A2. pose proof (pow_lip k z z' Z Z') as A3.
  pose proof (mul_le1 (y ^ j) (z ^ k * (x ^ i - x' ^ i)) (pow_abs1 y j Y)). pose proof (mul_le1 (z ^ k) (x ^ i - x' ^ i) (pow_abs1 z k Z)).
  pose proof (mul_le1 (x' ^ i) (z ^ k * (y ^ j - y' ^ j)) (pow_abs1 x' i X')). pose proof (mul_le1 (z ^ k) (y ^ j - y' ^ j) (pow_abs1 z k Z)).
  pose proof (mul_le1 (x' ^ i) (y' ^ j * (z ^ k - z' ^ k)) (pow_abs1 x' i X')). pose proof (mul_le1 (y' ^ j) (z ^ k - z' ^ k) (pow_abs1 y' j Y')).
  assert (I : INR i <= INR d) by (apply le_INR; lia). assert (J : INR j <= INR d) by (apply le_INR; lia). assert (K : INR k <= INR d) by (apply le_INR; lia).
  assert (INR i * Rabs (x - x') <= INR d * Rabs (x - x')) by (apply Rmult_le_compat_r; assumption).
  assert (INR j * Rabs (y - y') <= INR d * Rabs (y - y')) by (apply Rmult_le_compat_r; assumption).
  assert (INR k * Rabs (z - z') <= INR d * Rabs (z - z')) by (apply Rmult_le_compat_r; assumption).
  unfold D. lra.
Qed.
Lemma shell_sphere : forall L f, lip_shell L f -> lip_sphere L f.
Proof. intros L f H x y z x' y' z' E E'. apply H; unfold near_sphere; rewrite ?E, ?E'; rewrite Rminus_diag_eq, Rabs_R0 by reflexivity; lra. Qed.

(** ** Nodes near the sphere *)
Lemma node_near : forall h d x y z delta M, hdeg_le h d -> bounded_on_sphere M (heval h) ->
  0 < 1 - z * z -> Rabs (x * x + y * y + z * z - 1) <= delta -> (INR d + 1) * (delta / (1 - z * z)) <= / 101 ->
  exists x0 y0 s, x0 * x0 + y0 * y0 + z * z = 1 /\ x = s * x0 /\ y = s * y0 /\ Rabs (s - 1) <= delta / (1 - z * z) /\
  Rabs (heval h x y z - heval h x0 y0 z) <= 1.01 * (delta / (1 - z * z)) * (INR d * (INR d + 1)) * M.
Proof.
  intros h d x y z delta M Hh HM Hz Hn Hd. set (c := 1 - z * z) in *.
  assert (D0 : 0 <= delta) by (eapply Rle_trans; [apply Rabs_pos|exact Hn]).
  set (ee := delta / c) in *. assert (E0 : 0 <= ee) by (unfold ee, Rdiv; apply Rmult_le_pos; [lra|apply Rlt_le, Rinv_0_lt_compat; lra]).
  pose proof (pos_INR d) as Pd. assert (E2 : ee <= / 101) by nra.
  set (e := (x * x + y * y + z * z - 1) / c).
  assert (He : Rabs e <= ee).
  { unfold e, ee, Rdiv. rewrite Rabs_mult, (Rabs_pos_eq (/ c)) by (apply Rlt_le, Rinv_0_lt_compat; lra).
    apply Rmult_le_compat_r; [apply Rlt_le, Rinv_0_lt_compat; lra|exact Hn]. }
  assert (Hxy : x * x + y * y = c * (1 + e)) by (unfold e, c; field; unfold c in Hz; lra).
  pose proof (NearSphere.sqrt_near e ltac:(lra)) as Hs. pose proof (Rabs_le_between e ee) as [Q _]. specialize (Q He).
  assert (S1 : 0 < sqrt (1 + e)) by (apply sqrt_lt_R0; lra). assert (S2 : sqrt (1 + e) * sqrt (1 + e) = 1 + e) by (apply sqrt_sqrt; lra).
  set (s := sqrt (1 + e)) in *.
  assert (R1 : 0 < sqrt c) by (apply sqrt_lt_R0; lra). assert (R2 : sqrt c * sqrt c = c) by (apply sqrt_sqrt; lra). set (r := sqrt c) in *.
  destruct (polar_angle (x / (s * r)) (y / (s * r))) as (phi & C1 & C2).
  { replace (x / (s * r) * (x / (s * r)) + y / (s * r) * (y / (s * r))) with ((x * x + y * y) / ((s * s) * (r * r))) by (field; lra).
    rewrite Hxy, S2, R2. field. lra. }
  assert (Ex : x = s * (r * cos phi)) by (rewrite <- C1; field; lra).
  assert (Ey : y = s * (r * sin phi)) by (rewrite <- C2; field; lra).
  assert (On : forall psi, r * cos psi * (r * cos psi) + r * sin psi * (r * sin psi) + z * z = 1).
  { intro psi. replace (r * cos psi * (r * cos psi) + r * sin psi * (r * sin psi)) with ((r * r) * (Rsqr (sin psi) + Rsqr (cos psi))) by (unfold Rsqr; ring).
    rewrite sin2_cos2, R2. unfold c. ring. }
  assert (M0 : 0 <= M) by (eapply Rle_trans; [apply Rabs_pos|apply (HM _ _ _ (On 0))]).
  exists (r * cos phi), (r * sin phi), s. split; [apply On|]. split; [exact Ex|]. split; [exact Ey|]. split; [lra|].
  rewrite Ex, Ey. rewrite (stretch h d r z phi s Hh). apply dsum_bound; [exact E0|exact M0|nra|].
  intros m Hm Hm0. rewrite Rabs_mult. apply Rmult_le_compat; try apply Rabs_pos.
  - apply pow_near; [exact E0|lra|]. assert (INR m <= INR d) by (apply le_INR; exact Hm). nra.
  - apply comp_bound; [exact Hm0|]. intro psi. apply HM, On.
Qed.

Lemma node_any : forall f L e h d M v k, 0 <= L -> 0 <= e -> lip_shell L f -> hdeg_le h d -> bounded_on_sphere M (heval h) -> 0 <= M ->
  (forall x y z, x * x + y * y + z * z = 1 -> Rabs (f x y z - heval h x y z) <= e) ->
  INR d + 1 <= 1000000 -> cap v k -> near_sphere sph_err v ->
  let '(x, y, z) := v in Rabs (f x y z - heval h x y z) <= e + sph_err * (2 * L + 1.01 * (INR d * (INR d + 1)) * M) * k.
Proof.
  intros f L e h d M [[x y] z] k HL He Hf Hh HM M0 Hc Hd Hk Hn. pose proof (pos_INR d) as D0.
  assert (S0 : 0 < sph_err) by (unfold sph_err; lra).
  assert (DD : 0 <= INR d * (INR d + 1)) by nra.
  assert (C0 : 0 <= 2 * L + 1.01 * (INR d * (INR d + 1)) * M) by (assert (0 <= INR d * (INR d + 1) * M) by (apply Rmult_le_pos; assumption); lra).
  destruct Hk as [(X & Y & Z & K)|(Z & K)].
  - subst x y. eapply Rle_trans; [apply Hc; lra|]. assert (0 <= sph_err * (2 * L + 1.01 * (INR d * (INR d + 1)) * M) * k) by (nn; lra). lra.
  - assert (Z0 : 0 < 1 - z * z) by lra.
    assert (I : / (1 - z * z) <= 10000).
    { replace 10000 with (/ / 10000) by (field). apply Rinv_le_contravar; lra. }
    assert (I0 : 0 < / (1 - z * z)) by (apply Rinv_0_lt_compat; exact Z0).
    assert (SS : (INR d + 1) * (sph_err / (1 - z * z)) <= / 101) by (unfold Rdiv; unfold sph_err in *; nra).
    assert (ES : 0 <= sph_err / (1 - z * z)) by (unfold Rdiv; apply Rmult_le_pos; lra).
    destruct (node_near h d x y z sph_err M Hh HM Z0 Hn SS) as (x0 & y0 & s & U & Ex & Ey & Hs & Hh0).
    set (ee := sph_err / (1 - z * z)) in *. destruct (sphere_box _ _ _ U) as (BX & BY & BZ).
    assert (F1 : Rabs (f x y z - f x0 y0 z) <= 2 * L * ee).
    { eapply Rle_trans; [apply Hf|].
      - unfold near_sphere in *. eapply Rle_trans; [exact Hn|]. unfold sph_err. lra.
      - unfold near_sphere. rewrite U, Rminus_diag_eq, Rabs_R0 by reflexivity. lra.
      - rewrite (Rmult_comm 2 L), Rmult_assoc. apply Rmult_le_compat_l; [exact HL|].
        rewrite (Rminus_diag_eq z z), Rabs_R0, Ex, Ey by reflexivity.
        replace (s * x0 - x0) with (x0 * (s - 1)) by ring. replace (s * y0 - y0) with (y0 * (s - 1)) by ring.
        pose proof (mul_le1 x0 (s - 1) BX). pose proof (mul_le1 y0 (s - 1) BY). lra. }
    pose proof (Hc x0 y0 z U) as F2.
    replace (f x y z - heval h x y z) with ((f x y z - f x0 y0 z) + (f x0 y0 z - heval h x0 y0 z) - (heval h x y z - heval h x0 y0 z)) by ring.
    unfold Rminus at 1. eapply Rle_trans; [apply Rabs_triang|]. rewrite Rabs_Ropp. eapply Rle_trans; [apply Rplus_le_compat_r, Rabs_triang|].
    assert (EK : ee <= sph_err * k) by (unfold ee, Rdiv; apply Rmult_le_compat_l; lra).
    assert (Q : ee * (2 * L + 1.01 * (INR d * (INR d + 1)) * M) <= sph_err * k * (2 * L + 1.01 * (INR d * (INR d + 1)) * M)) by (apply Rmult_le_compat_r; assumption).
    nra.
Qed.

Lemma nodes_any : forall f L e h d M l B, 0 <= L -> 0 <= e -> lip_shell L f -> hdeg_le h d -> bounded_on_sphere M (heval h) -> 0 <= M ->
  (forall x y z, x * x + y * y + z * z = 1 -> Rabs (f x y z - heval h x y z) <= e) ->
  INR d + 1 <= 1000000 -> loaded l B -> List.Forall (near_sphere sph_err) (map fst l) ->
  Rabs (nsum l f - nsum l (heval h)) <= e * Rsum (map (fun vw => Rabs (snd vw)) l) + sph_err * (2 * L + 1.01 * (INR d * (INR d + 1)) * M) * B.
Proof.
  intros f L e h d M l B HL He Hf Hh HM M0 Hc Hd H. induction H as [|[[x y] z] w r k B C H IH]; intro F; cbn [nsum map fst snd] in *.
  - rewrite Rminus_diag_eq, Rabs_R0 by reflexivity. unfold Rsum. cbn. lra.
  - inversion F as [|? ? F1 F2]; subst. specialize (IH F2).
    pose proof (node_any f L e h d M (x, y, z) k HL He Hf Hh HM M0 Hc Hd C F1) as N. cbv beta iota in N.
    set (E := sph_err * (2 * L + 1.01 * (INR d * (INR d + 1)) * M)) in *.
    replace (w * f x y z + nsum r f - (w * heval h x y z + nsum r (heval h)))
      with (w * (f x y z - heval h x y z) + (nsum r f - nsum r (heval h))) by ring.
    eapply Rle_trans; [apply Rabs_triang|]. rewrite Rabs_mult. unfold Rsum in *. cbn [fold_right].
    pose proof (Rabs_pos w). assert (Rabs w * Rabs (f x y z - heval h x y z) <= Rabs w * (e + E * k)) by (apply Rmult_le_compat_l; assumption). nra.
Qed.

(** ** The grids in exact arithmetic *)
Lemma lip_pos : forall L f, lip_shell L f -> 0 <= L.
Proof.
  intros L f H. pose proof (H 1 0 0 0 1 0 ltac:(unfold near_sphere; rewrite Rabs_pos_eq; lra) ltac:(unfold near_sphere; rewrite Rabs_pos_eq; lra)) as E.
  pose proof (Rabs_pos (f 1 0 0 - f 0 1 0)).
  replace (1 - 0) with 1 in E by ring. replace (0 - 1) with (- (1)) in E by ring. rewrite (Rminus_diag_eq 0 0), Rabs_R0, Rabs_Ropp, !Rabs_R1 in E by reflexivity. lra.
Qed.

Lemma load_tol : forall f n B, 0 <= B <= load_max f n -> (2 * sph_err + 8 * ulp53) * B <= 4 * poly_tol f n.
Proof.
  intros f n B H. assert (Q : forall k t, B <= k -> (2 * sph_err + 8 * ulp53) * k <= 4 * t -> (2 * sph_err + 8 * ulp53) * B <= 4 * t).
  { intros k t Hk Ht. eapply Rle_trans; [|exact Ht]. apply Rmult_le_compat_l; [unfold sph_err, ulp53; lra|exact Hk]. }
  unfold load_max, poly_tol in *. destruct f; [| |destruct (Nat.eqb n 230)|]; (eapply Q; [apply H|unfold sph_err, ulp53; lra]).
Qed.

Lemma any_sum : forall tol d (q : quad (@pt3 RS) R) n B F K L e W, sized n q -> List.Forall (near_sphere sph_err) (qpoints q) ->
  integrates tol d q -> loaded (nodes q) B -> INR d + 1 <= 1000000 -> abs_weight q <= W ->
  near_polynomial d e F -> bounded_on_sphere K F -> lip_shell L F ->
  Rabs (s2_sum q F - sphere_int F) <= (W + 4 * PI) * e + 2 * sph_err * B * L + (tol * (INR d + 1) + 1.01 * sph_err * (INR d * (INR d + 2)) * B) * (K + e).
Proof.
  intros tol d q n B F K L e W Hs Hn Hi Hl Hd HW (p & Hp & Hc) HK HL. pose proof (lip_pos L F HL) as L0.
  assert (e0 : 0 <= e) by (eapply Rle_trans; [apply Rabs_pos|apply (Hc 1 0 0); ring]).
  assert (K0 : 0 <= K) by (eapply Rle_trans; [apply Rabs_pos|apply (HK 1 0 0); ring]).
  assert (PM : bounded_on_sphere (K + e) (p3eval p)).
  { intros x y z U. specialize (Hc x y z U). specialize (HK x y z U).
    replace (p3eval p x y z) with (F x y z - (F x y z - p3eval p x y z)) by ring. unfold Rminus at 1. eapply Rle_trans; [apply Rabs_triang|]. rewrite Rabs_Ropp. lra. }
  destruct (polynomials_integrated tol d q Hi p (K + e) Hp PM) as (h & H1 & H2 & H3).
  assert (HM : bounded_on_sphere (K + e) (heval h)) by (intros x y z U; rewrite <- H2 by exact U; apply PM; exact U).
  assert (Hc' : forall x y z, x * x + y * y + z * z = 1 -> Rabs (F x y z - heval h x y z) <= e) by (intros x y z U; rewrite <- H2 by exact U; apply Hc; exact U).
  assert (EW : Rsum (map (fun vw : R * R * R * R => Rabs (snd vw)) (nodes q)) = abs_weight q).
  { unfold abs_weight. rewrite <- (sized_snd n q Hs), map_map. reflexivity. }
  rewrite <- (sized_fst n q Hs) in Hn.
  pose proof (nodes_any F L e h d (K + e) (nodes q) B L0 e0 HL H1 HM ltac:(lra) Hc' Hd Hl Hn) as N. rewrite EW in N. fold (s2_sum q F) in N. fold (s2_sum q (heval h)) in N.
  pose proof (sphere_int_close F (p3eval p) L (INR d * p3size p) e L0 ltac:(apply Rmult_le_pos; [apply pos_INR|apply p3size_pos]) e0 (shell_sphere _ _ HL) (p3_lip p d Hp) Hc) as S.
  replace (s2_sum q F - sphere_int F) with ((s2_sum q F - s2_sum q (heval h)) + (s2_sum q (heval h) - sphere_int (p3eval p)) - (sphere_int F - sphere_int (p3eval p))) by ring.
  unfold Rminus at 1. eapply Rle_trans; [apply Rabs_triang|]. rewrite Rabs_Ropp. eapply Rle_trans; [apply Rplus_le_compat_r, Rabs_triang|].
  pose proof (loaded_nonneg _ _ Hl) as B0. pose proof (pos_INR d) as D0.
  assert (A1 : e * abs_weight q <= W * e) by (rewrite Rmult_comm; apply Rmult_le_compat_r; assumption).
  assert (A2 : 1.01 * sph_err * (INR d * (INR d + 1)) * B * (K + e) <= 1.01 * sph_err * (INR d * (INR d + 2)) * B * (K + e)).
  { apply Rmult_le_compat_r; [lra|]. apply Rmult_le_compat_r; [exact B0|]. apply Rmult_le_compat_l; [unfold sph_err; lra|]. nra. }
  replace (sph_err * (2 * L + 1.01 * (INR d * (INR d + 1)) * (K + e)) * B) with (2 * sph_err * B * L + 1.01 * sph_err * (INR d * (INR d + 1)) * B * (K + e)) in N by ring.
  lra.
Qed.

Lemma pi13 : 4 * PI <= 12.6.
Proof. pose proof pi_bounds. lra. Qed.

Theorem any_real : forall f dbg n, algebraic_order_by_npts f (Z.of_nat n) <> (-1)%Z -> checked f n ->
  exists q : quad (@pt3 RS) R, construct dbg (s2_generate repo_grids f n) = Ok q /\ sized n q /\
  forall F K L e d, (Z.of_nat d <= algebraic_order_by_npts f (Z.of_nat n))%Z -> near_polynomial d e F -> bounded_on_sphere K F -> lip_shell L F ->
    Rabs (s2_sum q F - sphere_int F) <= (weight_max f (Z.of_nat n) + 13) * e + poly_tol f n * ((INR d + 1) ^ 2 * (K + e) + 4 * L).
Proof.
  intros f dbg n H C. destruct (angular_checked f dbg n H C) as (q & Q1 & Q2 & Q3 & Q4 & B & B1 & B2).
  exists q. split; [exact Q1|]. split; [exact Q2|]. intros F K L e d Hd Hp HK HL.
  assert (Ho : (d <= order f n)%nat) by (unfold order; lia). assert (HI : INR d <= INR (order f n)) by (apply le_INR; exact Ho).
  pose proof (order_small f n H). pose proof (weights_bounded f dbg n q H C Q1) as WB.
  eapply Rle_trans; [apply (any_sum (tol_of f) d q n B F K L e _ Q2 Q3 (integrates_less _ _ _ _ Q4 Ho) B1 ltac:(lra) WB Hp HK HL)|].
  pose proof (loaded_nonneg _ _ B1) as B0. pose proof (pos_INR d) as D0. pose proof (lip_pos _ _ HL) as L0.
  pose proof (final_bound f n (INR d) B 0 ltac:(lra) ltac:(lra)) as G. rewrite Rplus_0_r in G. assert (G0 : 0 <= 0 <= 1.1 * (INR d + 5) * / 2 ^ 53 * B) by (split; [lra|]; nn; lra). specialize (G G0).
  destruct Hp as (p & Hp & Hc).
  assert (e0 : 0 <= e) by (eapply Rle_trans; [apply Rabs_pos|apply (Hc 1 0 0); ring]).
  assert (K0 : 0 <= K) by (eapply Rle_trans; [apply Rabs_pos|apply (HK 1 0 0); ring]).
  assert (G1 : (tol_of f * (INR d + 1) + 1.01 * sph_err * (INR d * (INR d + 2)) * B) * (K + e) <= poly_tol f n * (INR d + 1) ^ 2 * (K + e)) by (apply Rmult_le_compat_r; [lra|exact G]).
  pose proof (load_tol f n B ltac:(lra)) as LT.
  assert (G2 : 2 * sph_err * B * L <= 4 * poly_tol f n * L).
  { apply Rmult_le_compat_r; [exact L0|]. eapply Rle_trans; [|exact LT]. apply Rmult_le_compat_r; [exact B0|]. unfold ulp53. lra. }
  pose proof pi13. assert (4 * PI * e <= 13 * e) by (apply Rmult_le_compat_r; lra). lra.
Qed.

(** ** Rounding *)
Lemma float_node : forall x y z a b c u, near_sphere sph_err (x, y, z) -> 0 <= u <= / 100000 -> Rabs a <= u -> Rabs b <= u -> Rabs c <= u ->
  near_sphere (/ 1000) (x * (1 + a), y * (1 + b), z * (1 + c)) /\
  Rabs (x * (1 + a) - x) + Rabs (y * (1 + b) - y) + Rabs (z * (1 + c) - z) <= 3.1 * u.
Proof.
  intros x y z a b c u Hn Hu Ha Hb Hc. destruct (near_box x y z Hn) as (X & Y & Z). assert (S : sph_err <= / 1000) by (unfold sph_err; lra).
  assert (S0 : 0 <= sph_err) by (unfold sph_err; lra).
  assert (Q : forall s t, Rabs s <= 1 + sph_err -> Rabs t <= u -> Rabs (s * (1 + t) - s) <= 1.001 * u /\ Rabs (s * (1 + t) * (s * (1 + t)) - s * s) <= 2.1 * u).
  { intros s t Hs Ht. pose proof (Rabs_pos t). pose proof (Rabs_pos s). replace (s * (1 + t) - s) with (s * t) by ring.
    assert (M : Rabs (s * t) <= 1.001 * u) by (rewrite Rabs_mult; apply Rmult_le_compat; lra). split; [exact M|].
    replace (s * (1 + t) * (s * (1 + t)) - s * s) with (s * t * (2 * s + s * t)) by ring. rewrite Rabs_mult.
    assert (Rabs (2 * s + s * t) <= 2.01).
    { eapply Rle_trans; [apply Rabs_triang|]. rewrite (Rabs_mult 2), (Rabs_pos_eq 2) by lra. lra. }
    apply Rle_trans with (1.001 * u * 2.01); [apply Rmult_le_compat; try apply Rabs_pos; assumption|]. lra. }
  destruct (Q x a X Ha) as (X1 & X2). destruct (Q y b Y Hb) as (Y1 & Y2). destruct (Q z c Z Hc) as (Z1 & Z2). split; [|lra].
  unfold near_sphere in *.
  match goal with |- Rabs ?A <= _ => replace A with ((x * (1 + a) * (x * (1 + a)) - x * x) + (y * (1 + b) * (y * (1 + b)) - y * y) + (z * (1 + c) * (z * (1 + c)) - z * z) + (x * x + y * y + z * z - 1)) by ring end.
  repeat (eapply Rle_trans; [apply Rabs_triang|]). 
  eapply Rle_trans; [apply Rplus_le_compat_r, Rabs_triang|]. eapply Rle_trans; [apply Rplus_le_compat_r, Rplus_le_compat_r, Rabs_triang|].
  unfold sph_err in Hn. lra.
Qed.

(** Values near the sphere. *)
Lemma value_near : forall F K L v, bounded_on_sphere K F -> lip_shell L F -> near_sphere (/ 1000) v -> let '(x, y, z) := v in Rabs (F x y z) <= K + / 100 * L.
Proof.
  intros F K L [[x y] z] HK HL Hn. pose proof (lip_pos _ _ HL) as L0. assert (N := Hn). unfold near_sphere in N. apply Rabs_le_between in N.
  set (s := sqrt (x * x + y * y + z * z)). assert (S1 : s * s = x * x + y * y + z * z) by (apply sqrt_sqrt; lra).
  assert (S0 : 0 <= s) by apply sqrt_pos. assert (S2 : 1 - / 1000 <= s <= 1 + / 1000) by (split; nra).
  assert (U : x / s * (x / s) + y / s * (y / s) + z / s * (z / s) = 1).
  { replace (x / s * (x / s) + y / s * (y / s) + z / s * (z / s)) with ((x * x + y * y + z * z) / (s * s)) by (field; lra). rewrite <- S1. field. lra. }
  pose proof (HK _ _ _ U) as B. destruct (sphere_box _ _ _ U) as (BX & BY & BZ).
  assert (N0 : near_sphere (/ 1000) (x / s, y / s, z / s)) by (unfold near_sphere; rewrite U, Rminus_diag_eq, Rabs_R0 by reflexivity; lra).
  pose proof (HL x y z (x / s) (y / s) (z / s) Hn N0) as D.
  assert (Q : forall t, Rabs (t / s) <= 1 -> Rabs (t - t / s) <= / 1000).
  { intros t Ht. replace (t - t / s) with (t / s * (s - 1)) by (field; lra). eapply Rle_trans; [apply mul_le1; exact Ht|]. apply Rabs_le. lra. }
  pose proof (Q x BX). pose proof (Q y BY). pose proof (Q z BZ).
  assert (L * (Rabs (x - x / s) + Rabs (y - y / s) + Rabs (z - z / s)) <= L * (3 / 1000)) by (apply Rmult_le_compat_l; lra).
  replace (F x y z) with ((F x y z - F (x / s) (y / s) (z / s)) + F (x / s) (y / s) (z / s)) by ring. eapply Rle_trans; [apply Rabs_triang|]. lra.
Qed.

Lemma float_sum : forall F K L pf wf ps ws u, bounded_on_sphere K F -> lip_shell L F -> 0 <= u <= / 100000 ->
  List.Forall (near_sphere sph_err) ps -> close_quads pf wf ps ws u (4.1 * u) -> forall B, loaded (combine ps ws) B ->
  Rabs (sum3 (map real_pt pf) (map B2R wf) F - nsum (combine ps ws) F) <= (4.1 * K + 8 * L) * u * B.
Proof.
  intros F K L pf wf ps ws u HK HL Hu Hn (C & D). pose proof (lip_pos _ _ HL) as L0.
  assert (K0 : 0 <= K) by (eapply Rle_trans; [apply Rabs_pos|apply (HK 1 0 0); ring]). revert Hn wf ws D.
  induction C as [|x v pf ps Hx C IH]; intros Hn wf ws D B HB.
  - inversion HB; subst. unfold sum3. cbn [map combine fold_right nsum]. rewrite Rminus_0_r, Rabs_R0. lra.
  - destruct D as [|y w wf ws Hy D].
    + inversion HB; subst. unfold sum3. cbn [map combine fold_right nsum]. rewrite Rminus_0_r, Rabs_R0. lra.
    + inversion Hn as [|? ? N1 N2]; subst. cbn [combine] in HB. inversion HB as [|? ? ? k B' Kp Ld]; subst.
      specialize (IH N2 wf ws D B' Ld). destruct v as [[vx vy] vz].
      destruct Hx as (C1 & C2 & C3). cbn [px py pz fst snd] in C1, C2, C3.
      destruct (rel_of_close _ _ _ (proj1 Hu) C1) as (_ & a & Ha & E1). destruct (rel_of_close _ _ _ (proj1 Hu) C2) as (_ & b & Hb & E2).
      destruct (rel_of_close _ _ _ (proj1 Hu) C3) as (_ & c & Hc & E3). assert (U4 : 0 <= 4.1 * u) by lra. destruct (rel_of_close _ _ _ U4 Hy) as (_ & t & Ht & E4).
      unfold sum3 in *. cbn [map combine fold_right nsum fst snd real_pt px py pz] in *. unfold px, py, pz in *. cbn [fst snd] in *.
      rewrite E1, E2, E3, E4. destruct (float_node vx vy vz a b c u N1 Hu Ha Hb Hc) as (N3 & N4).
      pose proof (value_near F K L _ HK HL N3) as V. cbv beta iota in V.
      assert (N1' : near_sphere (/ 1000) (vx, vy, vz)) by (unfold near_sphere in *; unfold sph_err in N1; lra).
      pose proof (HL _ _ _ _ _ _ N3 N1') as Df.
      set (Fv' := F (vx * (1 + a)) (vy * (1 + b)) (vz * (1 + c))) in *. set (Fv := F vx vy vz) in *.
      assert (Df2 : Rabs (Fv' - Fv) <= L * (3.1 * u)) by (eapply Rle_trans; [exact Df|apply Rmult_le_compat_l; assumption]).
      assert (K1 : 1 <= k).
      { destruct Kp as [(_ & _ & _ & Kp)|(Z & Kp)]; [exact Kp|]. eapply Rle_trans; [|exact Kp]. rewrite <- Rinv_1 at 1. apply Rinv_le_contravar; nra. }
      match goal with |- Rabs ((?a + ?b) - (?c + ?d)) <= _ => replace ((a + b) - (c + d)) with (w * (t * Fv' + (Fv' - Fv)) + (b - d)) by ring end.
      eapply Rle_trans; [apply Rabs_triang|]. rewrite (Rmult_plus_distr_l ((4.1 * K + 8 * L) * u)). apply Rplus_le_compat; [|exact IH].
      rewrite Rabs_mult. replace ((4.1 * K + 8 * L) * u * (Rabs w * k)) with (Rabs w * ((4.1 * K + 8 * L) * u * k)) by ring.
      apply Rmult_le_compat_l; [apply Rabs_pos|]. eapply Rle_trans; [apply Rabs_triang|]. rewrite Rabs_mult.
      assert (Rabs t * Rabs Fv' <= 4.1 * u * (K + / 100 * L)) by (apply Rmult_le_compat; try apply Rabs_pos; assumption).
      assert (P : 0 <= (4.1 * K + 8 * L) * u) by (apply Rmult_le_pos; lra).
      apply Rle_trans with ((4.1 * K + 8 * L) * u * 1); [|apply Rmult_le_compat_l; assumption].
      assert (0 <= L * u) by (apply Rmult_le_pos; lra). lra.
Qed.

Theorem any_float : forall m f dbg n, algebraic_order_by_npts f (Z.of_nat n) <> (-1)%Z -> checked f n ->
  exists q : aquad (FS m), construct dbg (s2_generate (@repo_grids (FS m)) f n) = Ok q /\ sized n q /\
  forall F K L e d, (Z.of_nat d <= algebraic_order_by_npts f (Z.of_nat n))%Z -> near_polynomial d e F -> bounded_on_sphere K F -> lip_shell L F ->
    Rabs (sum3 (map real_pt (qpoints q)) (map B2R (qweights q)) F - sphere_int F)
    <= (weight_max f (Z.of_nat n) + 13) * e + poly_tol f n * ((INR d + 1) ^ 2 * (K + e) + 4 * L).
Proof.
  intros m f dbg n H C. destruct (angular_checked f dbg n H C) as (q & Q1 & Q2 & Q3 & Q4 & B & B1 & B2).
  assert (T : transcribed f n) by (intros ->; cbn [checked] in C; lia).
  destruct (grid_angular m f dbg n T) as (af & a & A1 & A2 & A3 & A4 & A5). rewrite Q1 in A2. apply ok_inj in A2. subst a.
  exists af. split; [exact A1|]. split; [exact A3|]. intros F K L e d Hd Hp HK HL.
  assert (Ho : (d <= order f n)%nat) by (unfold order; lia). assert (HI : INR d <= INR (order f n)) by (apply le_INR; exact Ho).
  pose proof (order_small f n H). pose proof (weights_bounded f dbg n q H C Q1) as WB.
  pose proof (any_sum (tol_of f) d q n B F K L e _ Q2 Q3 (integrates_less _ _ _ _ Q4 Ho) B1 ltac:(lra) WB Hp HK HL) as E1.
  pose proof (loaded_nonneg _ _ B1) as B0. pose proof (pos_INR d) as D0. pose proof (lip_pos _ _ HL) as L0.
  destruct Hp as (p & Hp & Hc).
  assert (e0 : 0 <= e) by (eapply Rle_trans; [apply Rabs_pos|apply (Hc 1 0 0); ring]).
  assert (K0 : 0 <= K) by (eapply Rle_trans; [apply Rabs_pos|apply (HK 1 0 0); ring]).
  pose proof (float_sum F K L _ _ _ _ ulp53 HK HL ltac:(unfold ulp53; lra) Q3 A5 B B1) as E2.
  fold (nodes q) in E2. fold (s2_sum q F) in E2.
  set (sf := sum3 (map real_pt (qpoints af)) (map B2R (qweights af)) F) in *.
  replace (sf - sphere_int F) with ((sf - s2_sum q F) + (s2_sum q F - sphere_int F)) by ring.
  eapply Rle_trans; [apply Rabs_triang|].
  pose proof (final_bound f n (INR d) B (4.1 * ulp53 * B) ltac:(lra) ltac:(lra)) as G.
  assert (UB0 : 0 <= ulp53 * B) by (apply Rmult_le_pos; [unfold ulp53; lra|exact B0]).
  assert (G0 : 0 <= 4.1 * ulp53 * B <= 1.1 * (INR d + 5) * / 2 ^ 53 * B).
  { split; [lra|]. apply Rmult_le_compat_r; [exact B0|]. unfold ulp53. lra. }
  specialize (G G0).
  assert (G1 : (tol_of f * (INR d + 1) + 1.01 * sph_err * (INR d * (INR d + 2)) * B + 4.1 * ulp53 * B) * (K + e) <= poly_tol f n * (INR d + 1) ^ 2 * (K + e)) by (apply Rmult_le_compat_r; [lra|exact G]).
  pose proof (load_tol f n B ltac:(lra)) as LT.
  assert (G2 : (2 * sph_err + 8 * ulp53) * B * L <= 4 * poly_tol f n * L) by (apply Rmult_le_compat_r; [exact L0|exact LT]).
  assert (G3 : 0 <= ulp53 * B * e) by (apply Rmult_le_pos; assumption).
  pose proof pi13. assert (4 * PI * e <= 13 * e) by (apply Rmult_le_compat_r; lra).
  eapply Rle_trans; [apply Rplus_le_compat; [exact E2|exact E1]|]. lra.
Qed.
