(** The Gauss-Chebyshev rules of the second kind on plain integrands: trapezoid rules in the angle. *)
From Coq Require Import List Bool Arith ZArith Lia Reals Lra Psatz.
From Coquelicot Require Import Coquelicot.
From Verif Require Import Base.Outcome Base.Scalar Base.RScalar Model.Primitive Model.Radial
  Spec.Sums Spec.RealRules Spec.RadialSpec Spec.ErrorSpec Spec.RadialErrSpec Proofs.Tab Proofs.SumFacts Proofs.PrimitiveFacts
  Proofs.ChebReal Proofs.ChebInt Proofs.ChebExact Proofs.TrapReal Proofs.PerezJorda Proofs.GaussError Proofs.EulerMac
  Proofs.RadialReal Proofs.RadialRule Proofs.RadialErr.
Import ListNotations.
Local Open Scope R_scope.

Ltac rr := match goal with |- @eq _ ?a ?b => change (@eq R a b) end; cbv beta; ring.

Section Angle.
Variables (gen : nat -> outcome (list R * list R)) (k dk : R -> R).
Hypothesis Gen : forall n q u f, gen n = Ok q -> @uniform_generate RS (n + 2) 0 PI = Ok u ->
  apply_rule q f = apply_rule u (fun t => f (k t) * dk t).
Hypothesis K0 : k 0 = 1.
Hypothesis KP : k PI = -1.
Hypothesis Dk : forall t, is_derive k t (- dk t).
Hypothesis Ck : forall t, continuous dk t.
Hypothesis Rg : forall t, 0 <= t <= PI -> -1 <= k t <= 1.

Lemma angle_uniform : forall n, exists u, @uniform_generate RS (n + 2) 0 PI = Ok u.
Proof. intro n. replace (n + 2)%nat with (S (n + 1)) by lia. eexists. apply uniform_real. lia. Qed.

Lemma angle_rate : forall n q f e, gen n = Ok q -> (forall x, -1 <= x <= 1 -> continuous f x) ->
  (forall u, @uniform_generate RS (n + 2) 0 PI = Ok u -> Rabs (apply_rule u (fun t => f (k t) * dk t) - RInt (fun t => f (k t) * dk t) 0 PI) <= e) ->
  Rabs (apply_rule q f - RInt f (-1) 1) <= e.
Proof.
  intros n q f e H C B. destruct (angle_uniform n) as (u & U). specialize (B u U).
  rewrite (Gen n q u f H U). rewrite (RI_unique _ _ _ _ (subst_integral f k dk K0 KP Dk Ck Rg C)) in B. exact B.
Qed.

Lemma angle_second : forall n q f (G : nat -> R -> R) M, gen n = Ok q -> (forall x, -1 <= x <= 1 -> continuous f x) ->
  (forall t, G 0%nat t = f (k t) * dk t) -> smooth 0 PI 2 G M ->
  Rabs (apply_rule q f - RInt f (-1) 1) <= PI ^ 3 * M / (12 * INR (n + 1) ^ 2).
Proof.
  intros n q f G M H C E (D & B). apply (angle_rate n); auto. intros u U.
  assert (X : apply_rule u (fun t => f (k t) * dk t) = apply_rule u (G 0%nat)) by (apply wsum_fext; intros; symmetry; apply E).
  rewrite X, (RInt_ext (V := R_CompleteNormedModule) (fun t => f (k t) * dk t) (G 0%nat)) by (intros; symmetry; apply E).
  pose proof (uniform_C2 (n + 2) 0 PI u (G 0%nat) (G 1%nat) (G 2%nat) M ltac:(lia) PI_RGT_0 U (fun x Hx => D 0%nat x (Nat.lt_0_succ _) Hx) (fun x Hx => D 1%nat x (le_n _) Hx) B) as Q.
  replace (n + 2 - 1)%nat with (n + 1)%nat in Q by lia. rewrite Rminus_0_r in Q. rewrite (Rmult_comm (PI ^ 3)). exact Q.
Qed.

Lemma angle_high : forall n q f (G : nat -> R -> R) M N, gen n = Ok q -> (forall x, -1 <= x <= 1 -> continuous f x) ->
  (forall t, G 0%nat t = f (k t) * dk t) -> (1 <= N)%nat -> smooth 0 PI N G M -> (forall t, 0 <= t <= PI -> continuous (G N) t) ->
  (forall j, (1 <= j < N)%nat -> Nat.odd j = true -> G j 0 = G j PI) ->
  Rabs (apply_rule q f - RInt f (-1) 1) <= PI * M * (PI / (2 * INR (n + 1))) ^ N.
Proof.
  intros n q f G M N H C E HN S CN Z. apply (angle_rate n); auto. intros u U.
  assert (X : apply_rule u (fun t => f (k t) * dk t) = apply_rule u (G 0%nat)) by (apply wsum_fext; intros; symmetry; apply E).
  rewrite X, (RInt_ext (V := R_CompleteNormedModule) (fun t => f (k t) * dk t) (G 0%nat)) by (intros; symmetry; apply E).
  pose proof (periodic_error (n + 2) 0 PI u G M N ltac:(lia) PI_RGT_0 U HN S CN Z) as Q.
  replace (n + 2 - 1)%nat with (n + 1)%nat in Q by lia. rewrite Rminus_0_r in Q. exact Q.
Qed.
End Angle.

Lemma cos_derive : forall t, is_derive cos t (- sin t).
Proof. intro t. auto_derive; auto. ring. Qed.

Lemma pjd_cont : forall t, continuous pjd t.
Proof. intro t. apply (ex_derive_continuous (K := R_AbsRing) (V := R_NormedModule)). unfold pjd. auto_derive; auto. Qed.

Lemma gc2_high : forall n q f (G : nat -> R -> R) M N, @gc2_generate RS n = Ok q -> (forall x, -1 <= x <= 1 -> continuous f x) ->
  (forall t, G 0%nat t = f (cos t) * sin t) -> (1 <= N)%nat -> smooth 0 PI N G M -> (forall t, 0 <= t <= PI -> continuous (G N) t) ->
  (forall j, (1 <= j < N)%nat -> Nat.odd j = true -> G j 0 = G j PI) ->
  Rabs (apply_rule q f - RInt f (-1) 1) <= PI * M * (PI / (2 * INR (n + 1))) ^ N.
Proof.
  apply (angle_high (@gc2_generate RS) cos sin gc2_trapezoid cos_0 cos_PI cos_derive continuous_sin).
  intros. apply COS_bound.
Qed.

Lemma gc2m_high : forall n q f (G : nat -> R -> R) M N, @gc2m_generate RS n = Ok q -> (forall x, -1 <= x <= 1 -> continuous f x) ->
  (forall t, G 0%nat t = f (perez_jorda t) * (16 / (3 * PI) * sin t ^ 4)) -> (1 <= N)%nat -> smooth 0 PI N G M -> (forall t, 0 <= t <= PI -> continuous (G N) t) ->
  (forall j, (1 <= j < N)%nat -> Nat.odd j = true -> G j 0 = G j PI) ->
  Rabs (apply_rule q f - RInt f (-1) 1) <= PI * M * (PI / (2 * INR (n + 1))) ^ N.
Proof.
  exact (angle_high (@gc2m_generate RS) perez_jorda pjd gc2m_trapezoid pj_0 pj_PI pj_derive pjd_cont pj_range_le).
Qed.

(** Explicit second-order bounds. *)
Section Second.
Variables (F : nat -> R -> R) (M0 M1 M2 : R).
Hypothesis S2 : smooth (-1) 1 2 F M2.
Hypothesis B0 : forall x, -1 <= x <= 1 -> Rabs (F 0%nat x) <= M0.
Hypothesis B1 : forall x, -1 <= x <= 1 -> Rabs (F 1%nat x) <= M1.

Lemma F_comp : forall j (k dk : R -> R) t, (j < 2)%nat -> (forall t, is_derive k t (dk t)) -> -1 <= k t <= 1 ->
  is_derive (fun t => F j (k t)) t (dk t * F (S j) (k t)).
Proof.
  intros j k dk t Hj D R. apply (is_derive_comp (K := R_AbsRing) (V := R_NormedModule) (F j) k); [|apply D]. apply S2; auto.
Qed.

Lemma Fcont : forall x, -1 <= x <= 1 -> continuous (F 0%nat) x.
Proof. intros x Hx. apply (smooth_cont (-1) 1 2 F M2); auto. Qed.

Lemma abs3 : forall a b c A B C, Rabs a <= A -> Rabs b <= B -> Rabs c <= C -> Rabs (a + b + c) <= A + B + C.
Proof. intros. eapply Rle_trans; [apply Rabs_triang|]. apply Rplus_le_compat; auto. eapply Rle_trans; [apply Rabs_triang|]. apply Rplus_le_compat; auto. Qed.

Lemma absm : forall a b A B, Rabs a <= A -> Rabs b <= B -> Rabs (a * b) <= A * B.
Proof. intros. rewrite Rabs_mult. apply Rmult_le_compat; auto using Rabs_pos. Qed.

Lemma s_le : forall t, Rabs (sin t) <= 1.
Proof. intro t. pose proof (SIN_bound t). apply Rabs_le. lra. Qed.

Lemma c_le : forall t, Rabs (cos t) <= 1.
Proof. intro t. pose proof (COS_bound t). apply Rabs_le. lra. Qed.

Lemma pow_le1 : forall x j, Rabs x <= 1 -> Rabs (x ^ j) <= 1.
Proof. intros x j H. rewrite <- RPow_abs. rewrite <- (pow1 j). apply pow_incr. split; [apply Rabs_pos|auto]. Qed.

Lemma dprod : forall (u v : R -> R) t du dv, is_derive u t du -> is_derive v t dv -> is_derive (fun t => u t * v t) t (du * v t + u t * dv).
Proof. intros u v t du dv U W. apply (is_derive_mult u v t du dv U W). intros; apply Rmult_comm. Qed.

Lemma dsum : forall (u v : R -> R) t du dv, is_derive u t du -> is_derive v t dv -> is_derive (fun t => u t + v t) t (du + dv).
Proof. intros u v t du dv U W. apply (is_derive_plus (K := R_AbsRing) (V := R_NormedModule) u v t du dv U W). Qed.

Definition Gc (j : nat) (t : R) : R := match j with
  | O => F 0%nat (cos t) * sin t
  | 1%nat => F 1%nat (cos t) * (- sin t ^ 2) + F 0%nat (cos t) * cos t
  | _ => F 2%nat (cos t) * sin t ^ 3 + F 1%nat (cos t) * (-3 * (sin t * cos t)) + F 0%nat (cos t) * (- sin t) end.

Lemma Gc_smooth : smooth 0 PI 2 Gc (M2 + M1 * 3 + M0).
Proof.
  split.
  - intros j t Hj _. pose proof (COS_bound t) as R.
    pose proof (F_comp 0 cos (fun t => - sin t) t ltac:(lia) cos_derive R) as D0.
    pose proof (F_comp 1 cos (fun t => - sin t) t ltac:(lia) cos_derive R) as D1.
    destruct j as [|[|j]]; [| |lia]; cbn [Gc].
    + assert (DS : is_derive sin t (cos t)) by (auto_derive; auto; ring).
      evar_last; [exact (dprod _ _ t _ _ D0 DS)|]. rr.
    + assert (DS : is_derive (fun t => - sin t ^ 2) t (- (2 * (sin t * cos t)))) by (auto_derive; auto; ring).
      pose proof (dsum _ _ t _ _ (dprod _ _ t _ _ D1 DS) (dprod _ _ t _ _ D0 (cos_derive t))) as Q.
      evar_last; [exact Q|]. rr.
  - intros t _. pose proof (COS_bound t) as R. cbn [Gc]. apply abs3.
    + replace M2 with (M2 * 1) by ring. apply absm; [apply S2, R|apply pow_le1, s_le].
    + apply absm; [apply B1, R|]. rewrite Rabs_mult. replace (Rabs (-3)) with 3 by (rewrite Rabs_left; lra).
      pose proof (absm _ _ _ _ (s_le t) (c_le t)). lra.
    + replace M0 with (M0 * 1) by ring. apply absm; [apply B0, R|]. rewrite Rabs_Ropp. apply s_le.
Qed.

Lemma gc2_second : forall n q, @gc2_generate RS n = Ok q ->
  Rabs (apply_rule q (F 0%nat) - RInt (F 0%nat) (-1) 1) <= PI ^ 3 * (M0 + 3 * M1 + M2) / (12 * INR (n + 1) ^ 2).
Proof.
  intros n q H. replace (M0 + 3 * M1 + M2) with (M2 + M1 * 3 + M0) by ring.
  apply (angle_second (@gc2_generate RS) cos sin gc2_trapezoid cos_0 cos_PI cos_derive continuous_sin (fun t _ => COS_bound t) n q (F 0%nat) Gc _ H Fcont); [reflexivity|exact Gc_smooth].
Qed.

Notation kc := (16 / (3 * PI)).
Definition Gp (j : nat) (t : R) : R := match j with
  | O => F 0%nat (perez_jorda t) * (kc * sin t ^ 4)
  | 1%nat => F 1%nat (perez_jorda t) * (- kc ^ 2 * sin t ^ 8) + F 0%nat (perez_jorda t) * (kc * (4 * (sin t ^ 3 * cos t)))
  | _ => F 2%nat (perez_jorda t) * (kc ^ 3 * sin t ^ 12) + F 1%nat (perez_jorda t) * (- kc ^ 2 * (12 * (sin t ^ 7 * cos t)))
         + F 0%nat (perez_jorda t) * (kc * (12 * sin t ^ 2 - 16 * sin t ^ 4)) end.

Lemma kc_le : Rabs kc <= 2.
Proof.
  pose proof PI_RGT_0. assert (3 < PI) by (pose proof PI2_3_2; lra).
  rewrite Rabs_pos_eq by (apply Rlt_le, Rdiv_lt_0_compat; lra). apply Rmult_le_reg_r with (3 * PI); [lra|]. unfold Rdiv. rewrite Rmult_assoc, Rinv_l by lra. lra.
Qed.

Lemma kc_pow : forall j, Rabs (kc ^ j) <= 2 ^ j.
Proof. intro j. rewrite <- RPow_abs. apply pow_incr. split; [apply Rabs_pos|apply kc_le]. Qed.

Lemma Gp_smooth : smooth 0 PI 2 Gp (M2 * 8 + M1 * 48 + M0 * 8).
Proof.
  split.
  - intros j t Hj Ht. pose proof (pj_range_le t Ht) as R.
    pose proof (F_comp 0 perez_jorda (fun t => - pjd t) t ltac:(lia) pj_derive R) as D0.
    pose proof (F_comp 1 perez_jorda (fun t => - pjd t) t ltac:(lia) pj_derive R) as D1.
    destruct j as [|[|j]]; [| |lia]; cbn [Gp].
    + assert (DS : is_derive (fun t => kc * sin t ^ 4) t (kc * (4 * (sin t ^ 3 * cos t)))) by (auto_derive; auto; ring).
      evar_last; [exact (dprod _ _ t _ _ D0 DS)|]. unfold pjd. rr.
    + assert (DA : is_derive (fun t => - kc ^ 2 * sin t ^ 8) t (- kc ^ 2 * (8 * (sin t ^ 7 * cos t)))) by (auto_derive; auto; ring).
      assert (DB : is_derive (fun t => kc * (4 * (sin t ^ 3 * cos t))) t (kc * (4 * (3 * (sin t ^ 2 * cos t ^ 2) - sin t ^ 4)))) by (auto_derive; auto; ring).
      evar_last; [exact (dsum _ _ t _ _ (dprod _ _ t _ _ D1 DA) (dprod _ _ t _ _ D0 DB))|]. unfold pjd.
      assert (C2 : cos t ^ 2 = 1 - sin t ^ 2) by (pose proof (sin2_cos2 t) as Q; unfold Rsqr in Q; simpl; lra). rewrite C2. rr.
  - intros t Ht. pose proof (pj_range_le t Ht) as R. cbn [Gp]. apply abs3.
    + apply absm; [apply S2, R|]. replace 8 with (2 ^ 3 * 1) by ring. apply absm; [apply kc_pow|apply pow_le1, s_le].
    + apply absm; [apply B1, R|]. replace 48 with (2 ^ 2 * 12) by ring. apply absm; [rewrite Rabs_Ropp; apply kc_pow|].
      rewrite Rabs_mult. rewrite (Rabs_pos_eq 12) by lra. pose proof (absm _ _ _ _ (pow_le1 (sin t) 7 (s_le t)) (c_le t)). lra.
    + apply absm; [apply B0, R|]. replace 8 with (2 * 4) by ring. apply absm; [apply kc_le|].
      replace (sin t ^ 4) with (sin t ^ 2 * sin t ^ 2) by ring. assert (0 <= sin t ^ 2 <= 1).
      { split; [apply pow2_ge_0|]. eapply Rle_trans; [apply Rle_abs|apply pow_le1, s_le]. }
      apply Rabs_le. split; nra.
Qed.

Lemma gc2m_second : forall n q, @gc2m_generate RS n = Ok q ->
  Rabs (apply_rule q (F 0%nat) - RInt (F 0%nat) (-1) 1) <= 2 * PI ^ 3 * (M0 + 6 * M1 + M2) / (3 * INR (n + 1) ^ 2).
Proof.
  intros n q H.
  pose proof (angle_second (@gc2m_generate RS) perez_jorda pjd gc2m_trapezoid pj_0 pj_PI pj_derive pjd_cont pj_range_le n q (F 0%nat) Gp _ H Fcont (fun t => eq_refl) Gp_smooth) as Q.
  eapply Rle_trans; [exact Q|]. apply Req_le. assert (0 < INR (n + 1)) by (apply lt_0_INR; lia). field. lra.
Qed.
End Second.

(** Becke and Treutler-Ahlrichs rules. *)
Lemma cheb_second : forall t f F M0 M1 M2, rt_valid t -> chebyshev_scheme t -> smooth (-1) 1 2 F M2 ->
  (forall x, -1 <= x <= 1 -> Rabs (F 0%nat x) <= M0) -> (forall x, -1 <= x <= 1 -> Rabs (F 1%nat x) <= M1) -> pulled t f (F 0%nat) ->
  rated t f (RInt (F 0%nat) (-1) 1) (PI ^ 3 * (M0 + 3 * M1 + M2) / (12 * INR (rt_npts t + 1) ^ 2)).
Proof.
  intros t f F M0 M1 M2 V T S B0 B1 P. split.
  - rewrite <- (cheb_lo t T) at 1. apply pull_integral; auto. rewrite (cheb_lo t T). exact (Fcont F M2 S).
  - intros q H. destruct (cheb_base t T) as (B & G). rewrite (pull_sum t f _ q _ V P H B). apply gc2_second; auto.
Qed.

Lemma cheb_high : forall t f g (G : nat -> R -> R) M N, rt_valid t -> chebyshev_scheme t -> (forall x, -1 <= x <= 1 -> continuous g x) -> pulled t f g ->
  (forall s, G 0%nat s = g (cos s) * sin s) -> (1 <= N)%nat -> smooth 0 PI N G M -> (forall s, 0 <= s <= PI -> continuous (G N) s) ->
  (forall j, (1 <= j < N)%nat -> Nat.odd j = true -> G j 0 = G j PI) ->
  rated t f (RInt g (-1) 1) (PI * M * (PI / (2 * INR (rt_npts t + 1))) ^ N).
Proof.
  intros t f g G M N V T C P E HN S CN Z. split.
  - rewrite <- (cheb_lo t T) at 1. apply pull_integral; auto. rewrite (cheb_lo t T). exact C.
  - intros q H. destruct (cheb_base t T) as (B & Q). rewrite (pull_sum t f _ q _ V P H B). apply (gc2_high _ _ g G); auto.
Qed.
