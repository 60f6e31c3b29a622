(** The radial maps over the reals. *)
From Coq Require Import List Bool Arith ZArith Lia Reals Lra Psatz Rsqrt_def Ranalysis5.
From Coquelicot Require Import Coquelicot.
From Verif Require Import Base.Outcome Base.Scalar Base.RScalar Model.Primitive Model.Radial
  Spec.Sums Spec.RealRules Spec.IntervalSpec Spec.RadialSpec Proofs.Tab Proofs.SumFacts Proofs.ChebReal.
Import ListNotations.
Local Open Scope R_scope.

Definition ln2c : R := IZR 693147180559945309417232 / IZR (10 ^ 24).

Lemma ln2c_pos : 0 < ln2c.
Proof. unfold ln2c. apply Rdiv_lt_0_compat; apply IZR_lt; reflexivity. Qed.

Definition Tr (t : rtraits RS) (x : R) : R :=
  match t with
  | Becke _ R => R * (1 + x) / (1 - x)
  | MHL M _ R => R * (x / (1 - x)) ^ M
  | MK _ R => (- R) * ln (1 - x * x * x)
  | TA _ R al => R * Rpower (1 + x) al * ln ((1 + 1) / (1 - x)) / ln2c
  end.

Definition Jr (t : rtraits RS) (x : R) : R :=
  match t with
  | Becke _ R => R * 2 / (1 - x) ^ 2
  | MHL M _ R => R * INR M * x ^ (M - 1) / (1 - x) ^ (M + 1)
  | MK _ R => R * 3 * (x * x) / (1 - x * x * x)
  | TA _ R al => R * Rpower (1 + x) al / ln2c * (al * ln ((1 + 1) / (1 - x)) / (1 + x) + 1 / (1 - x))
  end.

Lemma Tr_eq : forall t x, @rt_transform RS t x = Tr t x.
Proof. intros [n R|M n R|n R|n R al] x; reflexivity. Qed.

Lemma sofN_INR : forall n, @sofN RS n = INR n.
Proof. intro n. unfold sofN. apply IZR_INR. Qed.

Lemma Jr_eq : forall t x, @rt_jacobian RS t x = Jr t x.
Proof.
  intros [n R|M n R|n R|n R al] x; try reflexivity.
  unfold rt_jacobian, Jr. rewrite sofN_INR. reflexivity.
Qed.

Lemma cube_lt : forall x, 0 < x < 1 -> 0 < x * x * x < 1.
Proof. intros x H. assert (0 < x * x < 1) by nra. nra. Qed.

Lemma Tr_derive : forall t x, rt_valid t -> base_lo t < x < 1 -> is_derive (Tr t) x (Jr t x).
Proof.
  intros [n R|M n R|n R|n R al] x V Hx; simpl in V, Hx.
  - unfold Tr, Jr. auto_derive; [lra|]. field. lra.
  - destruct V as (HM & HR). unfold Tr, Jr. auto_derive; [lra|].
    replace (Nat.pred M) with (M - 1)%nat by lia.
    replace (M + 1)%nat with (S (S (M - 1))) by lia. 
    replace (x / (1 - x)) with (x * / (1 - x)) by reflexivity. rewrite Rpow_mult_distr, pow_inv.
    change ((1 - x) ^ S (S (M - 1))) with ((1 - x) * ((1 - x) * (1 - x) ^ (M - 1))).
    change (1 + - x) with (1 - x). field. split; [apply pow_nonzero|]; lra.
  - pose proof (cube_lt x Hx). unfold Tr, Jr. auto_derive; [lra|]. field. lra.
  - unfold Tr, Jr, Rpower. pose proof ln2c_pos. auto_derive.
    + repeat split; try lra. apply Rdiv_lt_0_compat; lra.
    + change (1 + - x) with (1 - x). change ((1 + 1) * / (1 - x)) with ((1 + 1) / (1 - x)) at 1.
      set (L := ln ((1 + 1) / (1 - x))). field. repeat split; try lra.
Qed.

Lemma Jr_pos : forall t x, rt_valid t -> base_lo t < x < 1 -> 0 < Jr t x.
Proof.
  intros [n R|M n R|n R|n R al] x V Hx; simpl in V, Hx; unfold Jr.
  - apply Rdiv_lt_0_compat; [lra|]. apply pow_lt. lra.
  - destruct V. apply Rdiv_lt_0_compat; [|apply pow_lt; lra].
    repeat apply Rmult_lt_0_compat; try lra. apply INR_pos; lia. apply pow_lt; lra.
  - pose proof (cube_lt x Hx). apply Rdiv_lt_0_compat; nra.
  - destruct V. pose proof ln2c_pos. apply Rmult_lt_0_compat.
    + apply Rdiv_lt_0_compat; auto. apply Rmult_lt_0_compat; auto. apply exp_pos.
    + assert (0 < ln ((1 + 1) / (1 - x))).
      { rewrite <- ln_1. apply ln_increasing; [lra|]. apply Rmult_lt_reg_r with (1 - x); [lra|].
        unfold Rdiv. rewrite Rmult_assoc, Rinv_l by lra. lra. }
      assert (0 < 1 / (1 - x)) by (apply Rdiv_lt_0_compat; lra).
      assert (0 <= al * ln ((1 + 1) / (1 - x)) / (1 + x)); [|lra].
      apply Rmult_le_pos; [apply Rmult_le_pos; lra|]. apply Rlt_le, Rinv_0_lt_compat. lra.
Qed.

Lemma base_lo_lt : forall t, base_lo t < 1.
Proof. intros []; simpl; lra. Qed.

Lemma Tr_incr : forall t x y, rt_valid t -> base_lo t < x -> x < y -> y < 1 -> Tr t x < Tr t y.
Proof.
  intros t x y V Hx Hxy Hy. destruct (MVT_cor2 (Tr t) (Jr t) x y Hxy) as (c & E & Hc).
  { intros c Hc. apply is_derive_Reals. apply Tr_derive; auto; lra. }
  pose proof (Jr_pos t c V ltac:(lra)). nra.
Qed.

Lemma Tr_pos : forall t x, rt_valid t -> base_lo t < x < 1 -> 0 < Tr t x.
Proof.
  intros [n R|M n R|n R|n R al] x V Hx; simpl in V, Hx; unfold Tr.
  - apply Rdiv_lt_0_compat; nra.
  - apply Rmult_lt_0_compat; [lra|]. apply pow_lt, Rdiv_lt_0_compat; lra.
  - pose proof (cube_lt x Hx). assert (ln (1 - x * x * x) < 0); [|nra].
    rewrite <- ln_1. apply ln_increasing; lra.
  - destruct V. pose proof ln2c_pos. apply Rdiv_lt_0_compat; auto.
    apply Rmult_lt_0_compat; [apply Rmult_lt_0_compat; auto; apply exp_pos|].
    rewrite <- ln_1. apply ln_increasing; [lra|]. apply Rmult_lt_reg_r with (1 - x); [lra|].
    unfold Rdiv. rewrite Rmult_assoc, Rinv_l by lra. lra.
Qed.

Lemma Rpower_ge_1 : forall b e, 1 <= b -> 0 <= e -> 1 <= Rpower b e.
Proof. intros b e Hb He. rewrite <- (Rpower_O b) by lra. apply Rle_Rpower; auto. Qed.

Lemma Rpower_le_1 : forall b e, 0 < b <= 1 -> 0 <= e -> Rpower b e <= 1.
Proof.
  intros b e Hb He. unfold Rpower. rewrite <- exp_0.
  assert (e * ln b <= 0).
  { assert (ln b <= 0). { rewrite <- ln_1. destruct (proj2 Hb) as [L| ->]; [apply Rlt_le, ln_increasing; lra|lra]. } nra. }
  destruct H as [L|E]; [apply Rlt_le, exp_increasing; auto|rewrite E; lra].
Qed.

Lemma TA_low : forall n R al x, 0 < R -> 0 <= al -> -1 < x <= 0 -> Tr (TA n R al) x <= R * (1 + x) / ln2c.
Proof.
  intros n R al x HR Ha Hx. unfold Tr. pose proof ln2c_pos.
  apply Rmult_le_compat_r; [apply Rlt_le, Rinv_0_lt_compat; auto|].
  assert (P : 0 < Rpower (1 + x) al <= 1) by (split; [apply exp_pos|apply Rpower_le_1; lra]).
  assert (L : 0 < ln ((1 + 1) / (1 - x)) <= 1 + x).
  { split.
    - rewrite <- ln_1. apply ln_increasing; [lra|]. apply Rmult_lt_reg_r with (1 - x); [lra|].
      unfold Rdiv. rewrite Rmult_assoc, Rinv_l by lra. lra.
    - assert (E : (1 + 1) / (1 - x) <= 1 + (1 + x)).
      { apply Rmult_le_reg_r with (1 - x); [lra|]. unfold Rdiv. rewrite Rmult_assoc, Rinv_l by lra. nra. }
      assert (0 < (1 + 1) / (1 - x)) by (apply Rdiv_lt_0_compat; lra).
      apply Rle_trans with (ln (1 + (1 + x))).
      + destruct E as [E|E]; [apply Rlt_le, ln_increasing; auto|rewrite E; lra].
      + rewrite <- (ln_exp (1 + x)) at 2. pose proof (exp_ineq1 (1 + x) ltac:(lra)).
        apply Rlt_le, ln_increasing; lra. }
  rewrite Rmult_assoc. apply Rmult_le_compat_l; [lra|]. apply Rle_trans with (1 * ln ((1 + 1) / (1 - x))); [apply Rmult_le_compat_r|]; lra.
Qed.

Lemma TA_high : forall n R al x, 0 < R -> 0 <= al -> 0 <= x < 1 -> R * ln (1 / (1 - x)) / ln2c <= Tr (TA n R al) x.
Proof.
  intros n R al x HR Ha Hx. unfold Tr. pose proof ln2c_pos.
  apply Rmult_le_compat_r; [apply Rlt_le, Rinv_0_lt_compat; auto|].
  assert (P : 1 <= Rpower (1 + x) al) by (apply Rpower_ge_1; lra).
  assert (D : 0 < 1 / (1 - x)) by (apply Rdiv_lt_0_compat; lra).
  assert (L : ln (1 / (1 - x)) <= ln ((1 + 1) / (1 - x))).
  { apply Rlt_le, ln_increasing; auto. unfold Rdiv in *. nra. }
  assert (0 <= ln (1 / (1 - x))).
  { rewrite <- ln_1. destruct (proj1 Hx) as [Hp| <-]; [|rewrite Rminus_0_r, Rdiv_1; lra].
    apply Rlt_le, ln_increasing; [lra|]. apply Rmult_lt_reg_r with (1 - x); [lra|].
    unfold Rdiv. rewrite Rmult_assoc, Rinv_l by lra. lra. }
  assert (0 <= Rpower (1 + x) al - 1) by lra.
  assert (0 <= (Rpower (1 + x) al - 1) * ln ((1 + 1) / (1 - x))) by (apply Rmult_le_pos; lra).
  rewrite Rmult_assoc. apply Rmult_le_compat_l; lra.
Qed.

Lemma Tr_onto : forall t y, rt_valid t -> 0 < y -> exists x, base_lo t < x < 1 /\ Tr t x = y.
Proof.
  intros [n R|M n R|n R|n R al] y V Hy; simpl in V.
  - exists ((y - R) / (y + R)). simpl. split.
    + split; (apply Rmult_lt_reg_r with (y + R); [lra|]); unfold Rdiv; rewrite Rmult_assoc, Rinv_l by lra; lra.
    + field. split; lra.
  - destruct V as (HM & HR). set (s := Rpower (y / R) (/ INR M)).
    assert (0 < s) by apply exp_pos. exists (s / (1 + s)). simpl. split.
    + split; [apply Rdiv_lt_0_compat; lra|]. apply Rmult_lt_reg_r with (1 + s); [lra|].
      unfold Rdiv; rewrite Rmult_assoc, Rinv_l by lra; lra.
    + replace (s / (1 + s) / (1 - s / (1 + s))) with s by (field; lra).
      rewrite <- Rpower_pow by auto. unfold s. rewrite Rpower_mult, Rinv_l, Rpower_1.
      * field; lra.
      * apply Rdiv_lt_0_compat; auto.
      * apply Rgt_not_eq, INR_pos; lia.
  - set (c := 1 - exp (- y / R)).
    assert (Hc : 0 < c < 1).
    { assert (exp (- y / R) < exp 0). { apply exp_increasing. assert (0 < y / R) by (apply Rdiv_lt_0_compat; auto). unfold Rdiv in *. lra. }
      rewrite exp_0 in H. pose proof (exp_pos (- y / R)). unfold c. lra. }
    set (s := Rpower c (/ 3)).
    assert (E : s * s * s = c).
    { unfold s. rewrite <- !Rpower_plus. replace (/ 3 + / 3 + / 3) with 1 by field. apply Rpower_1; lra. }
    assert (0 < s) by apply exp_pos.
    exists s. simpl. split.
    + split; auto. apply Rnot_le_lt. intro. assert (1 <= s * s) by nra. nra.
    + rewrite E. unfold c. replace (1 - (1 - exp (- y / R))) with (exp (- y / R)) by ring. rewrite ln_exp. field. lra.
  - destruct V as (HR & Ha). pose proof ln2c_pos as PL.
    set (x1 := Rmin 0 (y * ln2c / (2 * R) - 1)). set (x2 := 1 - exp (- (2 * y * ln2c / R))).
    assert (P : 0 < y * ln2c / R) by (apply Rdiv_lt_0_compat; nra).
    assert (H1 : -1 < x1 <= 0).
    { unfold x1. split; [|apply Rmin_l]. apply Rmin_glb_lt; [lra|].
      replace (y * ln2c / (2 * R)) with (y * ln2c / R / 2) by (field; lra). lra. }
    assert (H2 : 0 < x2 < 1).
    { unfold x2. pose proof (exp_pos (- (2 * y * ln2c / R))).
      assert (exp (- (2 * y * ln2c / R)) < exp 0). { apply exp_increasing. unfold Rdiv in *. lra. }
      rewrite exp_0 in *. lra. }
    assert (L1 : Tr (TA n R al) x1 < y).
    { eapply Rle_lt_trans; [apply TA_low; auto|].
      assert (x1 <= y * ln2c / (2 * R) - 1) by apply Rmin_r.
      apply Rle_lt_trans with (R * (y * ln2c / (2 * R)) / ln2c).
      - apply Rmult_le_compat_r; [apply Rlt_le, Rinv_0_lt_compat; auto|]. apply Rmult_le_compat_l; lra.
      - replace (R * (y * ln2c / (2 * R)) / ln2c) with (y / 2) by (field; lra). lra. }
    assert (L2 : y < Tr (TA n R al) x2).
    { eapply Rlt_le_trans; [|apply TA_high; auto; lra].
      unfold x2. replace (1 - (1 - exp (- (2 * y * ln2c / R)))) with (exp (- (2 * y * ln2c / R))) by ring.
      unfold Rdiv at 2. rewrite Rmult_1_l, <- exp_Ropp, Ropp_involutive, ln_exp.
      replace (R * (2 * y * ln2c / R) / ln2c) with (2 * y) by (field; lra). lra. }
    destruct (IVT_interv (fun x => Tr (TA n R al) x - y) x1 x2) as (z & Hz & Ez).
    + intros a Ha'. apply derivable_continuous_pt. exists (Jr (TA n R al) a).
      apply is_derive_Reals. 
      replace (Jr (TA n R al) a) with (Jr (TA n R al) a - 0) by ring.
      apply (is_derive_minus (K := R_AbsRing) (V := R_NormedModule) (Tr (TA n R al)) (fun _ => y)).
      * apply Tr_derive; simpl; auto. lra.
      * apply (is_derive_const (K := R_AbsRing) (V := R_NormedModule)).
    + lra.
    + lra.
    + lra.
    + exists z. simpl. split; [lra|]. cbv beta in Ez. simpl in Ez. lra.
Qed.

Lemma radial_onto : forall t, rt_valid t -> increasing_onto (rt_transform t) (base_lo t) 1 0 p_infty.
Proof.
  intros t V. split; [|split].
  - intros x Hx. split; simpl; auto. rewrite Tr_eq. apply Tr_pos; auto.
  - intros x y Hx Hxy Hy. rewrite !Tr_eq. apply Tr_incr; auto.
  - intros y (Hy & _). simpl in Hy. destruct (Tr_onto t y V Hy) as (x & Hx & E).
    exists x. split; auto.
Qed.

Lemma radial_derive : forall t x, rt_valid t -> base_lo t < x < 1 ->
  is_derive (rt_transform t) x (rt_jacobian t x) /\ 0 < rt_jacobian t x.
Proof.
  intros t x V Hx. rewrite Jr_eq. split; [|apply Jr_pos; auto].
  apply (is_derive_ext (Tr t)); [intro; symmetry; apply Tr_eq|]. apply Tr_derive; auto.
Qed.

Lemma radial_scaling : forall t c x,
  rt_transform (with_scale t (c * scale_of t)) x = c * rt_transform t x /\
  rt_jacobian (with_scale t (c * scale_of t)) x = c * rt_jacobian t x.
Proof.
  intros t c x. rewrite (Tr_eq t x), (Jr_eq t x), Tr_eq, Jr_eq.
  destruct t as [n r|M n r|n r|n r al]; cbn [with_scale scale_of Tr Jr]; unfold Rdiv; split; rs_eq; ring.
Qed.
