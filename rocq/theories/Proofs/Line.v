(** The stored Gauss-Legendre rule on the whole real line. *)
From Coq Require Import List Bool Arith ZArith Lia Reals Lra Psatz.
From Coquelicot Require Import Coquelicot.
From Flocq Require Import IEEE754.BinarySingleNaN Core.
From Verif Require Import Base.Outcome Base.Scalar Base.RScalar Base.FScalar Model.Primitive Model.BoundFloat
  Spec.RuleSpec Spec.Sums Spec.RealRules Spec.LegendreSpec Spec.ErrorSpec Spec.FloatSpec Spec.LibmSpec Spec.BoundFloatSpec Spec.MappedSpec Spec.LineSpec
  Proofs.Tab Proofs.Legendre Proofs.LegendreZeros Proofs.GLRule Proofs.GLNewton Proofs.GLBasin Proofs.GLFloat Proofs.GLFloatRule
  Proofs.FloatOps Proofs.FloatSphere Proofs.FloatErr Proofs.ChebFloat Proofs.GaussError Proofs.GaussErrorFloat
  Proofs.BoundFloat Proofs.BoundFloatThm Proofs.Mapped Proofs.MappedGauss Proofs.MappedHalf.
Import ListNotations.
Local Open Scope R_scope.

(** ** The transformation away from the ends keeps more digits. *)
Lemma gap_rel_far : forall x, inside x -> u * 1000000 <= 1 - B2R x * B2R x ->
  rel (fsub (fmul x x) (f_of 1 0)) (B2R x * B2R x - 1) (2.2 * (u / (1 - B2R x * B2R x))).
Proof.
  intros x Hx Far. pose proof Hx as (Fx & Ix). pose proof u_tiny as U. destruct one_ok as (F1 & E1).
  assert (B9 : 10 <= 2 ^ 900) by (apply Rle_trans with (2 ^ 4); [lra|apply pow2_le; lia]).
  assert (X2 : 0 <= B2R x * B2R x < 1) by (split; nra).
  assert (Fp : is_finite (fmul x x) = true) by (apply finite_mul; auto; rewrite Rabs_pos_eq; lra).
  destruct (fmul_R _ _ Fp) as (_ & _ & Ep). set (s := B2R x * B2R x) in *.
  assert (Sp : 0 <= rnd s <= 1).
  { split; [rewrite <- rnd_0; apply rnd_mono; lra|]. rewrite <- E1, <- (rnd_B2R (f_of 1 0)), E1. apply rnd_mono. lra. }
  assert (SE : Rabs (rnd s - s) <= 1.1 * u).
  { destruct (rnd_err s) as (e2 & t2 & He2 & Ht2 & ->). replace (s * (1 + e2) + t2 - s) with (e2 * s + t2) by ring.
    assert (TU : tiny <= u * / 10). { eapply Rle_trans; [apply tiny_u|]. apply Rmult_le_compat_l; [lra|]. apply Rinv_le_contravar; lra. }
    eapply Rle_trans; [apply Rabs_triang|]. rewrite Rabs_mult, (Rabs_pos_eq s) by lra. rewrite tiny_half in TU. pose proof (bpow_gt_0 radix2 (-1075)).
    assert (Rabs e2 * s <= u * 1) by (apply Rmult_le_compat; try apply Rabs_pos; lra). lra. }
  destruct (finite_sub (fmul x x) (f_of 1 0) Fp F1) as (Fs & Es); [rewrite Ep, E1; apply Rabs_le; lra|].
  split; [exact Fs|]. rewrite Es. destruct (rnd_sub_err (fmul x x) (f_of 1 0)) as (e & He & ->). rewrite Ep, E1.
  set (g := u / (1 - s)). assert (g0 : u <= g). { unfold g. apply Rmult_le_reg_r with (1 - s); [lra|]. unfold Rdiv. rewrite Rmult_assoc, Rinv_l by lra. nra. }
  assert (g1 : g <= / 1000000). { unfold g. apply Rmult_le_reg_r with (1 - s); [lra|]. unfold Rdiv. rewrite Rmult_assoc, Rinv_l by lra. lra. }
  set (d := (rnd s - s) / (s - 1)). assert (Hd : Rabs d <= 1.1 * g).
  { unfold d, g, Rdiv. rewrite Rabs_mult, Rabs_inv. rewrite (Rabs_left (s - 1)) by lra. replace (- (s - 1)) with (1 - s) by ring. rewrite <- Rmult_assoc.
    apply Rmult_le_compat_r; [left; apply Rinv_0_lt_compat; lra|exact SE]. }
  exists (d + e + d * e). split.
  - eapply Rle_trans; [apply Rabs_triang|]. eapply Rle_trans; [apply Rplus_le_compat_r, Rabs_triang|]. rewrite Rabs_mult.
    assert (Rabs d * Rabs e <= (1.1 * / 1000000) * g) by (apply Rmult_le_compat; try apply Rabs_pos; lra). lra.
  - unfold d. field. lra.
Qed.

Lemma all_weight_far : forall x w, inside x -> moderate w -> u * 1000000 <= 1 - B2R x * B2R x ->
  rel (all_weight x w) (B2R w * ((1 + B2R x * B2R x) / ((B2R x * B2R x - 1) * (B2R x * B2R x - 1)))) (18 * (u / (1 - B2R x * B2R x))).
Proof.
  intros x w Hx (Fw & Mw) Far. destruct (gap_rel x Hx) as (_ & G2). pose proof (gap_rel_far x Hx Far) as G1.
  pose proof u_tiny as U. pose proof Hx as (Fx & Ix). pose proof (inside_gap x Hx) as IG.
  set (s := B2R x * B2R x) in *.
  assert (s1 : 0 <= s <= 1 - / 2 ^ 53) by (unfold s; pose proof p53; split; nra).
  pose proof p53 as P53.
  set (g := u / (1 - s)) in *. assert (g0 : u <= g). { unfold g. apply Rmult_le_reg_r with (1 - s); [lra|]. unfold Rdiv. rewrite Rmult_assoc, Rinv_l by lra. nra. }
  assert (g1 : g <= / 1000000). { unfold g. apply Rmult_le_reg_r with (1 - s); [lra|]. unfold Rdiv. rewrite Rmult_assoc, Rinv_l by lra. lra. }
  assert (gg : 0 <= g * g <= / 1000000 * g) by nra. assert (ug : 0 <= u * g <= / 1000000 * g) by nra. assert (uu2 : 0 <= u * u <= / 1000000 * u) by nra.
  assert (Q : / 2 ^ 53 <= Rabs (s - 1) <= 2 ^ 0) by (rewrite pow_O, Rabs_left1 by lra; lra).
  assert (N : / 2 ^ 0 <= Rabs (1 + s) <= 2 ^ 1) by (rewrite pow_O, pow_1, Rabs_pos_eq by lra; rewrite Rinv_1; lra).
  pose proof (mult_between _ _ _ _ _ _ Q Q) as S. destruct (between _ 106 0 ltac:(lia) ltac:(lia) S) as (S1 & S2).
  assert (RS : rel (fmul (fsub (fmul x x) (f_of 1 0)) (fsub (fmul x x) (f_of 1 0))) ((s - 1) * (s - 1)) (5.5 * g)).
  { eapply rel_weak; [apply (rel_fmul _ _ _ _ _ _ G1 G1); auto; lra|]. nra. }
  pose proof (quot_between _ _ _ _ _ _ N S) as D. destruct (between _ 0 107 ltac:(lia) ltac:(lia) D) as (D1 & D2).
  assert ((s - 1) * (s - 1) <> 0) by (intro E; rewrite E, Rabs_R0 in S; pose proof (p2i (53 + 53)); lra).
  assert (RD : rel (fdiv (fadd (f_of 1 0) (fmul x x)) (fmul (fsub (fmul x x) (f_of 1 0)) (fsub (fmul x x) (f_of 1 0)))) ((1 + s) / ((s - 1) * (s - 1))) (16.5 * g)).
  { eapply rel_weak; [apply (rel_fdiv _ _ _ _ _ _ G2 RS); auto; lra|]. nra. }
  assert (Hw : rel w (B2R w) 0) by (apply exact_rel; auto).
  pose proof (mult_between _ _ _ _ _ _ Mw D) as M. destruct (between _ 700 807 ltac:(lia) ltac:(lia) M) as (M1 & M2).
  eapply rel_weak; [apply (rel_fmul _ _ _ _ _ _ Hw RD); auto; lra|]. nra.
Qed.

Lemma rnd_small : forall v, Rabs v <= / 2 ^ 690 -> Rabs (rnd v) <= 2 * / 2 ^ 690.
Proof.
  intros v H. destruct (rnd_err v) as (e & t & He & Ht & ->). pose proof u_tiny as U.
  assert (T : bpow radix2 (-1075) <= / 2 * / 2 ^ 690).
  { apply Rle_trans with (bpow radix2 (-691)); [apply bpow_le; lia|]. right. change (bpow radix2 (-691)) with (/ IZR (2 ^ 691)).
    rewrite <- Rinv_mult. f_equal. change (2 * 2 ^ 690) with (2 ^ 691). rewrite pow_IZR. reflexivity. }
  eapply Rle_trans; [apply Rabs_triang|]. rewrite Rabs_mult.
  assert (Rabs (1 + e) <= 1.5) by (apply abs_of in He; apply Rabs_le; lra).
  assert (Rabs v * Rabs (1 + e) <= / 2 ^ 690 * 1.5) by (apply Rmult_le_compat; try apply Rabs_pos; lra). lra.
Qed.

Lemma all_node_near : forall x, inside x -> is_finite (all_node x) = true /\
  Rabs (B2R (all_node x) - B2R x / (1 + B2R x) / (1 - B2R x)) <= 9 * u * (1 + Rabs (B2R x / (1 + B2R x) / (1 - B2R x))).
Proof.
  intros x Hx. destruct (Rle_lt_dec (/ 2 ^ 700) (Rabs (B2R x))) as [Q|Q].
  - destruct (rel_near _ _ _ (all_node_rel x Hx Q)) as (F & E). split; [exact F|]. pose proof u_tiny. lra.
  - pose proof Hx as (Fx & _). pose proof u_tiny as U.
    destruct (plus_rel x Hx) as (Fa & da & Da & Ea). destruct (minus_rel x Hx) as (Fb & db & Db & Eb).
    pose proof (pow2_inv_le 10 700 ltac:(lia)) as P10. assert (/ 2 ^ 10 <= 0.001) by (simpl; lra).
    assert (X1 : Rabs (B2R x) <= 0.001) by lra. apply abs_of in X1. apply abs_of in Da. apply abs_of in Db.
    assert (A1 : 0.9 <= B2R (fadd (f_of 1 0) x)) by (rewrite Ea; nra). assert (B1 : 0.9 <= B2R (fsub (f_of 1 0) x)) by (rewrite Eb; nra).
    assert (DV : forall p q k, 0.9 <= q -> Rabs p <= k -> Rabs (p / q) <= 2 * k).
    { intros p q k Hq Hp. unfold Rdiv. rewrite Rabs_mult, Rabs_inv, (Rabs_pos_eq q) by lra. rewrite (Rmult_comm 2).
      apply Rmult_le_compat; try apply Rabs_pos; auto; [left; apply Rinv_0_lt_compat; lra|].
      replace 2 with (/ / 2) by lra. apply Rinv_le_contravar; lra. }
    assert (T10 : / 2 ^ 700 <= / 100 * / 2 ^ 690).
    { replace 700%nat with (10 + 690)%nat by reflexivity. rewrite pow_add, Rinv_mult. apply Rmult_le_compat_r; [left; apply p2i|simpl; lra]. }
    pose proof (p2i 690) as P690. assert (P6 : 1000 * / 2 ^ 690 <= u).
    { apply Rle_trans with (1000 * / 2 ^ 70); [apply Rmult_le_compat_l; [lra|apply pow2_inv_le; lia]|]. unfold u. simpl. lra. }
    assert (Q1 : Rabs (B2R x / B2R (fadd (f_of 1 0) x)) <= 2 * (/ 100 * / 2 ^ 690)) by (apply DV; lra).
    assert (P9 : 1 <= 2 ^ 900) by (apply pow_R1_Rle; lra).
    destruct (finite_div x (fadd (f_of 1 0) x) Fx ltac:(lra)) as (Fc & Ec); [lra|].
    set (c := fdiv x (fadd (f_of 1 0) x)) in *.
    assert (C1 : Rabs (B2R c) <= 2 * / 2 ^ 690) by (rewrite Ec; apply rnd_small; lra).
    assert (Q2 : Rabs (B2R c / B2R (fsub (f_of 1 0) x)) <= 2 * (2 * / 2 ^ 690)) by (apply DV; lra).
    destruct (finite_div c (fsub (f_of 1 0) x) Fc ltac:(lra)) as (Fy & Ey); [lra|].
    change (fdiv c (fsub (f_of 1 0) x)) with (all_node x) in Fy, Ey. split; [exact Fy|].
    assert (Y1 : Rabs (B2R (all_node x)) <= 8 * / 2 ^ 690).
    { rewrite Ey. destruct (rnd_err (B2R c / B2R (fsub (f_of 1 0) x))) as (e & t & He & Ht & ->).
      assert (T : bpow radix2 (-1075) <= / 2 ^ 690).
      { apply Rle_trans with (bpow radix2 (-690)); [apply bpow_le; lia|]. right. change (bpow radix2 (-690)) with (/ IZR (2 ^ 690)). f_equal. rewrite pow_IZR. reflexivity. }
      eapply Rle_trans; [apply Rabs_triang|]. rewrite Rabs_mult.
      assert (Rabs (1 + e) <= 1.5) by (apply abs_of in He; apply Rabs_le; lra).
      assert (Rabs (B2R c / B2R (fsub (f_of 1 0) x)) * Rabs (1 + e) <= 2 * (2 * / 2 ^ 690) * 1.5) by (apply Rmult_le_compat; try apply Rabs_pos; lra). lra. }
    assert (V1 : Rabs (B2R x / (1 + B2R x)) <= 2 * (/ 100 * / 2 ^ 690)) by (apply DV; lra).
    assert (V2 : Rabs (B2R x / (1 + B2R x) / (1 - B2R x)) <= 2 * (2 * (/ 100 * / 2 ^ 690))) by (apply DV; lra).
    unfold Rminus at 1. eapply Rle_trans; [apply Rabs_triang|]. rewrite Rabs_Ropp.
    pose proof (Rabs_pos (B2R x / (1 + B2R x) / (1 - B2R x))). nra.
Qed.
