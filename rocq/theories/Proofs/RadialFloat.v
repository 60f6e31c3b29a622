(** C43: the radial maps and rules in binary64 with an accurate math library. *)
From Coq Require Import List Bool Arith ZArith Reals Lra Lia Psatz.
From Flocq Require Import IEEE754.BinarySingleNaN Core.
From Verif Require Import Base.Outcome Base.Scalar Base.RScalar Base.FScalar Model.Primitive Model.Radial
  Spec.RuleSpec Spec.FloatSpec Spec.LibmSpec Proofs.FloatOps Proofs.FloatSphere Proofs.FloatErr.
Import ListNotations.
Local Open Scope R_scope.

(** Ranges: v is between 2^-a and 2^b. *)
Definition pw (v : R) (a b : nat) : Prop := / 2 ^ a <= v <= 2 ^ b.
Lemma p2 : forall a, 0 < 2 ^ a.
Proof. intro. apply pow_lt. lra. Qed.
Lemma pw_pos : forall v a b, pw v a b -> 0 < v.
Proof. intros v a b [H _]. pose proof (Rinv_0_lt_compat _ (p2 a)). lra. Qed.
Lemma pw_mul : forall v w a b c d, pw v a b -> pw w c d -> pw (v * w) (a + c) (b + d).
Proof.
  intros v w a b c d H K. pose proof (pw_pos _ _ _ H). pose proof (pw_pos _ _ _ K). destruct H, K.
  pose proof (Rinv_0_lt_compat _ (p2 a)). pose proof (Rinv_0_lt_compat _ (p2 c)).
  unfold pw. rewrite !pow_add, Rinv_mult.
  split; apply Rmult_le_compat; lra.
Qed.
Lemma pw_inv : forall v a b, pw v a b -> pw (/ v) b a.
Proof.
  intros v a b H. pose proof (pw_pos _ _ _ H). destruct H as [H1 H2]. split; [apply Rinv_le_contravar; lra|].
  rewrite <- (Rinv_inv (2 ^ a)). apply Rinv_le_contravar; [apply Rinv_0_lt_compat, p2|auto].
Qed.
Lemma pw_div : forall v w a b c d, pw v a b -> pw w c d -> pw (v / w) (a + d) (b + c).
Proof. intros. apply pw_mul; [auto|apply pw_inv; auto]. Qed.
Lemma pw_pow : forall v a b n, pw v a b -> pw (v ^ n) (a * n) (b * n).
Proof.
  intros v a b n H. induction n; [rewrite !Nat.mul_0_r; split; simpl; lra|].
  rewrite !Nat.mul_succ_r, (Nat.add_comm _ a), (Nat.add_comm _ b). simpl. apply pw_mul; auto.
Qed.
Lemma pw_weak : forall v a b a' b', pw v a b -> (a <= a')%nat -> (b <= b')%nat -> pw v a' b'.
Proof.
  intros v a b a' b' [H1 H2] L1 L2. split.
  - eapply Rle_trans; [apply Rinv_le_contravar; [apply p2|apply Rle_pow; [lra|exact L1]]|auto].
  - eapply Rle_trans; [exact H2|]. apply Rle_pow; [lra|auto].
Qed.
Lemma pw_ok : forall v a b, pw v a b -> (a <= 899)%nat -> (b <= 899)%nat -> tiny_ok v /\ Rabs v <= 2 ^ 899.
Proof.
  intros v a b H L1 L2. pose proof (pw_pos _ _ _ H). pose proof (pw_weak _ _ _ _ _ H L1 L2) as [K1 K2].
  unfold tiny_ok. rewrite Rabs_pos_eq by lra. split; [|exact K2]. eapply Rle_trans; [|exact K1].
  replace (2 ^ 899) with (bpow radix2 899); [rewrite <- bpow_opp; apply bpow_le; lia|].
  change (bpow radix2 899) with (IZR (2 ^ 899)). rewrite pow_IZR. reflexivity.
Qed.
Lemma pw_1 : pw 1 0 0.
Proof. split; simpl; lra. Qed.

(** rel and rel_close agree. *)
Lemma rel_of_close : forall x v e, 0 <= e -> rel_close x v e -> rel x v e.
Proof.
  intros x v e He (F & H). split; [exact F|]. destruct (Req_dec v 0) as [->|N].
  - exists 0. rewrite Rabs_R0, Rmult_0_r, Rminus_0_r in H. split; [rewrite Rabs_R0; lra|].
    apply abs_of in H. lra.
  - exists ((B2R x - v) / v). split; [|field; auto]. unfold Rdiv. rewrite Rabs_mult, Rabs_inv.
    assert (0 < Rabs v) by (apply Rabs_pos_lt; auto).
    apply Rmult_le_reg_r with (Rabs v); auto. rewrite Rmult_assoc, Rinv_l by lra. lra.
Qed.
Lemma close_of_rel : forall x v e, rel x v e -> rel_close x v e.
Proof. intros x v e H. exact (rel_near _ _ _ H). Qed.

(** 1 - x and 1 + x. *)
Lemma one_rel : rel (f_of 1 0) 1 0.
Proof. apply int_rel. lia. Qed.
Lemma one_minus : forall x : F64, is_finite x = true -> Rabs (B2R x) <= 2 ^ 100 -> rel (fsub (f_of 1 0) x) (1 - B2R x) u.
Proof.
  intros x F H. destruct (f_of_small 1 ltac:(lia)) as (F1 & E1).
  assert (B : Rabs (B2R (f_of 1 0) - B2R x) <= 2 ^ 900).
  { rewrite E1. apply abs_of in H. assert (2 ^ 100 + 1 <= 2 ^ 900).
    { apply Rle_trans with (2 ^ 100 + 2 ^ 100); [pose proof (Rle_pow 2 0 100); simpl in *; lra|].
      replace (2 ^ 100 + 2 ^ 100) with (2 ^ 101) by (change (2 ^ 101) with (2 * 2 ^ 100); ring). apply Rle_pow; [lra|lia]. }
    apply Rabs_le. lra. }
  destruct (finite_sub _ _ F1 F B) as (F2 & E2). split; [exact F2|].
  destruct (rnd_sub_err (f_of 1 0) x) as (e & He & E3). exists e. split; auto. rewrite E2, E3, E1. reflexivity.
Qed.
Lemma one_plus : forall x : F64, is_finite x = true -> Rabs (B2R x) <= 2 ^ 100 -> rel (fadd (f_of 1 0) x) (1 + B2R x) u.
Proof.
  intros x F H. destruct (f_of_small 1 ltac:(lia)) as (F1 & E1).
  assert (B : Rabs (B2R (f_of 1 0) + B2R x) <= 2 ^ 900).
  { rewrite E1. apply abs_of in H. assert (2 ^ 100 + 1 <= 2 ^ 900).
    { apply Rle_trans with (2 ^ 100 + 2 ^ 100); [pose proof (Rle_pow 2 0 100); simpl in *; lra|].
      replace (2 ^ 100 + 2 ^ 100) with (2 ^ 101) by (change (2 ^ 101) with (2 * 2 ^ 100); ring). apply Rle_pow; [lra|lia]. }
    apply Rabs_le. lra. }
  pose proof (finite_add _ _ F1 F B) as F2. split; [exact F2|]. destruct (fadd_R _ _ F2) as (_ & _ & E2).
  destruct (rnd_add_err (f_of 1 0) x) as (e & He & E3). exists e. split; auto. rewrite E2, E3, E1. reflexivity.
Qed.
(** A binary64 number below 1 is at least 2^-53 away from it. *)
Lemma gap_one : forall x : F64, -1 < B2R x < 1 -> / 2 ^ 53 <= 1 - B2R x /\ / 2 ^ 53 <= 1 + B2R x.
Proof.
  intros x H. assert (G : forall v, generic_format radix2 (FLT_exp (-1074) 53) v -> v < 1 -> / 2 ^ 53 <= 1 - v).
  { intros v Gv Hv. assert (G1 : generic_format radix2 (FLT_exp (-1074) 53) (bpow radix2 0)) by (apply generic_format_FLT_bpow; [exact Hprec|lia]).
    assert (L : v <= pred radix2 (FLT_exp (-1074) 53) (bpow radix2 0)).
    { apply pred_ge_gt; auto. apply FLT_exp_valid; exact Hprec. }
    rewrite pred_bpow in L. change (FLT_exp (-1074) 53 0) with (-53)%Z in L. change (bpow radix2 0) with 1 in L.
    replace (bpow radix2 (-53)) with (/ 2 ^ 53) in L; [lra|].
    change (bpow radix2 (-53)) with (/ IZR (2 ^ 53)). f_equal. rewrite pow_IZR. reflexivity. }
  pose proof (generic_format_B2R 53 1024 x) as Gx. split; [apply G; auto; lra|].
  replace (1 + B2R x) with (1 - - B2R x) by ring. apply G; [apply generic_format_opp; exact Gx|lra].
Qed.
Lemma abs_1 : forall x, -1 < x < 1 -> Rabs x <= 2 ^ 100.
Proof. intros x H. apply Rle_trans with 1; [apply Rabs_le; lra|]. pose proof (Rle_pow 2 0 100 ltac:(lra) ltac:(lia)). simpl (2 ^ 0) in *. lra. Qed.
Lemma pw_minus : forall x : F64, -1 < B2R x < 1 -> pw (1 - B2R x) 53 1 /\ pw (1 + B2R x) 53 1.
Proof. intros x H. destruct (gap_one x H). split; split; auto; simpl (2 ^ 1); lra. Qed.

(** Powers. *)
Lemma pow_err : forall dl e k, Rabs dl <= e -> INR k * e <= 1 / 1000 -> Rabs ((1 + dl) ^ k - 1) <= 1.01 * (INR k * e).
Proof.
  intros dl e k H. assert (0 <= e) by (eapply Rle_trans; [apply Rabs_pos|exact H]).
  induction k; intro K; [simpl; rewrite Rminus_eq_0, Rabs_R0; lra|].
  rewrite S_INR in *. pose proof (pos_INR k). assert (K' : INR k * e <= 1 / 1000) by nra. specialize (IHk K').
  replace ((1 + dl) ^ S k - 1) with (((1 + dl) ^ k - 1) * (1 + dl) + dl) by (simpl; ring).
  eapply Rle_trans; [apply Rabs_triang|]. rewrite Rabs_mult.
  assert (A : Rabs (1 + dl) <= 1 + e) by (eapply Rle_trans; [apply Rabs_triang|]; rewrite Rabs_R1; lra).
  assert (Rabs ((1 + dl) ^ k - 1) * Rabs (1 + dl) <= 1.01 * (INR k * e) * (1 + e)) by (apply Rmult_le_compat; auto; apply Rabs_pos).
  assert (e <= 1 / 1000) by nra. assert (INR k * e * e <= 1 / 1000 * e) by (apply Rmult_le_compat_r; lra). nra.
Qed.
Lemma dpos_pow : forall m d, accurate_pow m d -> 0 <= d.
Proof.
  intros m d A. destruct (f_of_small 1 ltac:(lia)) as (F & E).
  assert (P : Rpower (B2R (f_of 1 0)) (B2R (f_of 1 0)) = 1) by (rewrite E, Rpower_1; lra).
  assert (/ 2 ^ 500 <= 1 <= 2 ^ 500).
  { pose proof (Rle_pow 2 0 500 ltac:(lra) ltac:(lia)) as Q. simpl (2 ^ 0) in Q. split; [|exact Q].
    rewrite <- Rinv_1. apply Rinv_le_contravar; lra. }
  destruct (A _ _ F F) as (_ & H0); [rewrite E; lra|rewrite P; auto|]. rewrite P, Rabs_R1 in H0.
  pose proof (Rabs_pos (B2R (m_pow m (f_of 1 0) (f_of 1 0)) - 1)). lra.
Qed.
Lemma rel_pow : forall m d (x : F64) v e k a b, accurate_pow m d -> d <= 1 / 2000 -> rel x v e -> e <= 1 / 1000 -> pw v a b ->
  (a * k + 1 <= 500)%nat -> (b * k + 1 <= 500)%nat -> (Z.of_nat k <= 2 ^ 53)%Z -> INR k * e <= 1 / 1000 ->
  rel (m_pow m x (f_of (Z.of_nat k) 0)) (v ^ k) (d + 1.02 * (INR k * e)).
Proof.
  intros m d x v e k a b A Hd (Fx & dl & Hdl & Ex) He Hv Ha Hb Hk Hke. pose proof (dpos_pow m d A) as d0.
  assert (e0 : 0 <= e) by (eapply Rle_trans; [apply Rabs_pos|exact Hdl]).
  destruct (f_of_small (Z.of_nat k) ltac:(lia)) as (Fk & Ek). rewrite <- INR_IZR_INZ in Ek.
  pose proof (pw_pos _ _ _ Hv) as v0. pose proof (pow_err dl e k Hdl Hke) as PE. pose proof (abs_of _ _ Hdl) as Hd1.
  assert (X0 : 0 < B2R x) by (rewrite Ex; apply Rmult_lt_0_compat; lra).
  set (D := (1 + dl) ^ k - 1) in *.
  assert (Q : Rpower (B2R x) (B2R (f_of (Z.of_nat k) 0)) = v ^ k * (1 + D)).
  { rewrite Ek, Rpower_pow by auto. rewrite Ex, Rpow_mult_distr. unfold D. ring. }
  assert (D1 : Rabs D <= 1.01 / 1000) by lra. pose proof (abs_of _ _ D1) as D2.
  pose proof (pw_pow _ _ _ k Hv) as Vk. pose proof (pw_pos _ _ _ Vk) as Vk0.
  assert (QD : pw (1 + D) 1 1) by (split; simpl; lra).
  pose proof (pw_weak _ _ _ _ _ (pw_mul _ _ _ _ _ _ Vk QD) Ha Hb) as QQ. rewrite <- Q in QQ.
  pose proof (rel_of_close _ _ _ d0 (A x _ Fx Fk X0 QQ)) as (F & d1 & Hd' & E). split; [exact F|].
  exists (D + d1 + D * d1). split; [|rewrite E, Q; ring].
  eapply Rle_trans; [apply Rabs_triang|]. rewrite Rabs_mult.
  assert (Rabs D * Rabs d1 <= 1.01 * (INR k * e) * (1 / 2000)) by (apply Rmult_le_compat; try apply Rabs_pos; lra).
  pose proof (Rabs_triang D d1). assert (0 <= INR k * e) by (apply Rmult_le_pos; [apply pos_INR|auto]). lra.
Qed.

(** Becke. *)
Lemma sane_pw : forall R, sane_scale R -> pw (B2R R) 100 100.
Proof. intros R (_ & H). exact H. Qed.
Lemma becke_r : forall m n (R x : F64), sane_scale R -> is_finite x = true -> -1 < B2R x < 1 ->
  rel (@rt_transform (FS m) (@Becke (FS m) n R) x) (@rt_transform RS (Becke n (B2R R : RS)) (B2R x)) (7 * u).
Proof.
  intros m n R x HR Fx Hx. pose proof u_pos as U. pose proof u_small as U1.
  change (@rt_transform (FS m) (@Becke (FS m) n R) x) with (fdiv (fmul R (fadd (f_of 1 0) x)) (fsub (f_of 1 0) x)).
  change (@rt_transform RS (Becke n (B2R R : RS)) (B2R x)) with (B2R R * (1 + B2R x) / (1 - B2R x)).
  pose proof (one_minus x Fx (abs_1 _ Hx)) as M1. pose proof (one_plus x Fx (abs_1 _ Hx)) as P1.
  destruct (pw_minus x Hx) as (Wm & Wp). pose proof (sane_pw R HR) as WR.
  pose proof (pw_mul _ _ _ _ _ _ WR Wp) as W1. pose proof (pw_div _ _ _ _ _ _ W1 Wm) as W2.
  destruct (pw_ok _ _ _ W1 ltac:(lia) ltac:(lia)) as (T1 & B1). destruct (pw_ok _ _ _ W2 ltac:(lia) ltac:(lia)) as (T2 & B2).
  pose proof (rel_fmul _ _ _ _ _ _ (exact_rel R (B2R R) (proj1 HR) eq_refl) P1 ltac:(lra) ltac:(lra) T1 B1) as Q1.
  pose proof (pw_pos _ _ _ Wm) as Z.
  eapply rel_weak; [apply (rel_fdiv _ _ _ _ _ _ Q1 M1); auto; nra|nra].
Qed.
Lemma becke_j : forall m d n (R x : F64), accurate_pow m d -> d <= 1 / 4000 -> sane_scale R -> is_finite x = true -> -1 < B2R x < 1 ->
  rel (@rt_jacobian (FS m) (@Becke (FS m) n R) x) (@rt_jacobian RS (Becke n (B2R R : RS)) (B2R x)) (3 * d + 9 * u) /\
  pw (@rt_jacobian RS (Becke n (B2R R : RS)) (B2R x)) 600 600.
Proof.
  intros m d n R x A Hd HR Fx Hx. pose proof u_pos as U. pose proof u_small as U1. pose proof (dpos_pow m d A) as d0.
  change (@rt_jacobian (FS m) (@Becke (FS m) n R) x) with (fdiv (fmul R (f_of 2 0)) (m_pow m (fsub (f_of 1 0) x) (f_of (Z.of_nat 2) 0))).
  change (@rt_jacobian RS (Becke n (B2R R : RS)) (B2R x)) with (B2R R * 2 / (1 - B2R x) ^ 2).
  pose proof (one_minus x Fx (abs_1 _ Hx)) as M1. destruct (pw_minus x Hx) as (Wm & _). pose proof (sane_pw R HR) as WR.
  assert (W2 : pw 2 0 1) by (split; simpl; lra).
  pose proof (pw_mul _ _ _ _ _ _ WR W2) as W3. pose proof (pw_pow _ _ _ 2 Wm) as W4. pose proof (pw_div _ _ _ _ _ _ W3 W4) as W5.
  destruct (pw_ok _ _ _ W3 ltac:(lia) ltac:(lia)) as (T1 & B1). destruct (pw_ok _ _ _ W5 ltac:(lia) ltac:(lia)) as (T2 & B2).
  pose proof (rel_fmul _ _ _ _ _ _ (exact_rel R (B2R R) (proj1 HR) eq_refl) (int_rel 2 ltac:(lia)) ltac:(lra) ltac:(lra) T1 B1) as Q1.
  assert (I2 : INR 2 = 2) by (simpl; lra).
  pose proof (rel_pow m d _ _ _ 2 _ _ A ltac:(lra) M1 ltac:(lra) Wm ltac:(lia) ltac:(lia) ltac:(lia) ltac:(rewrite I2; lra)) as Q2.
  rewrite I2 in Q2. pose proof (pw_pos _ _ _ W4) as Z. split; [|apply (pw_weak _ _ _ _ _ W5); lia].
  eapply rel_weak; [apply (rel_fdiv _ _ _ _ _ _ Q1 Q2); auto; nra|nra].
Qed.

(** Murray-Handy-Laming. *)
Lemma pw_x : forall x, / 2 ^ 60 <= x < 1 -> pw x 60 0.
Proof. intros x H. split; simpl (2 ^ 0); lra. Qed.
Lemma low_x : forall x, / 2 ^ 60 <= x < 1 -> 0 < x < 1.
Proof. intros x H. pose proof (Rinv_0_lt_compat _ (p2 60)). lra. Qed.
Lemma mhl_r : forall m d M n (R x : F64), accurate_pow m d -> d <= 1 / 4000 -> (1 <= M <= 8)%nat -> sane_scale R -> is_finite x = true ->
  / 2 ^ 60 <= B2R x < 1 ->
  rel (@rt_transform (FS m) (@MHL (FS m) M n R) x) (@rt_transform RS (MHL M n (B2R R : RS)) (B2R x)) (2 * d + (5 * INR M + 2) * u).
Proof.
  intros m d M n R x A Hd HM HR Fx Hx. pose proof u_pos as U. pose proof u_small as U1. pose proof (dpos_pow m d A) as d0.
  change (@rt_transform (FS m) (@MHL (FS m) M n R) x) with (fmul R (m_pow m (fdiv x (fsub (f_of 1 0) x)) (f_of (Z.of_nat M) 0))).
  change (@rt_transform RS (MHL M n (B2R R : RS)) (B2R x)) with (B2R R * (B2R x / (1 - B2R x)) ^ M).
  pose proof (low_x _ Hx) as Hx0. assert (Hx1 : -1 < B2R x < 1) by lra.
  pose proof (one_minus x Fx (abs_1 _ Hx1)) as M1. destruct (gap_one x Hx1) as (Gm & _).
  assert (Wm : pw (1 - B2R x) 53 0) by (split; auto; simpl; lra). pose proof (sane_pw R HR) as WR. pose proof (pw_x _ Hx) as Wx.
  pose proof (pw_div _ _ _ _ _ _ Wx Wm) as W1. pose proof (pw_pow _ _ _ M W1) as W2. pose proof (pw_mul _ _ _ _ _ _ WR W2) as W3.
  destruct (pw_ok _ _ _ W1 ltac:(lia) ltac:(lia)) as (T1 & B1). destruct (pw_ok _ _ _ W3 ltac:(lia) ltac:(lia)) as (T3 & B3).
  pose proof (pw_pos _ _ _ Wm) as Z.
  pose proof (rel_fdiv _ _ _ _ _ _ (exact_rel x (B2R x) Fx eq_refl) M1 ltac:(lra) ltac:(lra) ltac:(lra) T1 B1) as Q1.
  assert (I1 : 1 <= INR M <= 8).
  { split; [apply (le_INR 1); lia|]. replace 8 with (INR 8) by (simpl; lra). apply le_INR. lia. }
  eapply rel_weak in Q1; [|instantiate (1 := 4 * u); nra].
  pose proof (rel_pow m d _ _ _ M _ _ A ltac:(lra) Q1 ltac:(lra) W1 ltac:(lia) ltac:(lia) ltac:(lia) ltac:(nra)) as Q2.
  eapply rel_weak; [apply (rel_fmul _ _ _ _ _ _ (exact_rel R (B2R R) (proj1 HR) eq_refl) Q2); auto; nra|].
  assert (0 <= INR M * u <= 8 * u) by nra. nra.
Qed.
Lemma mhl_j : forall m d M n (R x : F64), accurate_pow m d -> d <= 1 / 4000 -> (1 <= M <= 8)%nat -> sane_scale R -> is_finite x = true ->
  / 2 ^ 60 <= B2R x < 1 ->
  rel (@rt_jacobian (FS m) (@MHL (FS m) M n R) x) (@rt_jacobian RS (MHL M n (B2R R : RS)) (B2R x)) (4 * d + (3 * INR M + 9) * u) /\
  pw (@rt_jacobian RS (MHL M n (B2R R : RS)) (B2R x)) 600 600.
Proof.
  intros m d M n R x A Hd HM HR Fx Hx. pose proof u_pos as U. pose proof u_small as U1. pose proof (dpos_pow m d A) as d0.
  change (@rt_jacobian (FS m) (@MHL (FS m) M n R) x) with (fdiv (fmul (fmul R (f_of (Z.of_nat M) 0)) (m_pow m x (f_of (Z.of_nat (M - 1)) 0)))
     (m_pow m (fsub (f_of 1 0) x) (f_of (Z.of_nat (M + 1)) 0))).
  change (@rt_jacobian RS (MHL M n (B2R R : RS)) (B2R x))
    with (B2R R * IZR (Z.of_nat M) * B2R x ^ (M - 1) / (1 - B2R x) ^ (M + 1)).
  pose proof (low_x _ Hx) as Hx0. assert (Hx1 : -1 < B2R x < 1) by lra.
  pose proof (one_minus x Fx (abs_1 _ Hx1)) as M1. destruct (gap_one x Hx1) as (Gm & _).
  assert (Wm : pw (1 - B2R x) 53 0) by (split; auto; simpl; lra). pose proof (sane_pw R HR) as WR. pose proof (pw_x _ Hx) as Wx.
  assert (I1 : 1 <= INR M <= 8).
  { split; [apply (le_INR 1); lia|]. replace 8 with (INR 8) by (simpl; lra). apply le_INR. lia. }
  assert (WM : pw (IZR (Z.of_nat M)) 0 3) by (rewrite <- INR_IZR_INZ; split; simpl (2 ^ _); lra).
  pose proof (pw_mul _ _ _ _ _ _ WR WM) as W1. pose proof (pw_pow _ _ _ (M - 1) Wx) as W2.
  pose proof (pw_mul _ _ _ _ _ _ W1 W2) as W3. pose proof (pw_pow _ _ _ (M + 1) Wm) as W4. pose proof (pw_div _ _ _ _ _ _ W3 W4) as W5.
  destruct (pw_ok _ _ _ W1 ltac:(lia) ltac:(lia)) as (T1 & B1). destruct (pw_ok _ _ _ W3 ltac:(lia) ltac:(lia)) as (T3 & B3).
  destruct (pw_ok _ _ _ W5 ltac:(lia) ltac:(lia)) as (T5 & B5).
  pose proof (rel_fmul _ _ _ _ _ _ (exact_rel R (B2R R) (proj1 HR) eq_refl) (int_rel (Z.of_nat M) ltac:(lia)) ltac:(lra) ltac:(lra) T1 B1) as Q1.
  pose proof (rel_pow m d _ _ _ (M - 1) _ _ A ltac:(lra) (exact_rel x (B2R x) Fx eq_refl) ltac:(lra) Wx ltac:(lia) ltac:(lia) ltac:(lia) ltac:(lra)) as Q2.
  assert (I2 : INR (M + 1) = INR M + 1) by (rewrite plus_INR; reflexivity).
  pose proof (rel_pow m d _ _ _ (M + 1) _ _ A ltac:(lra) M1 ltac:(lra) Wm ltac:(lia) ltac:(lia) ltac:(lia) ltac:(rewrite I2; nra)) as Q3.
  rewrite I2 in Q3. assert (MU : u <= INR M * u <= 8 * u) by nra.
  eapply rel_weak in Q1; [|instantiate (1 := u); lra].
  eapply rel_weak in Q2; [|instantiate (1 := d); lra].
  eapply rel_weak in Q3; [|instantiate (1 := d + 1.02 * (INR M * u + u)); lra].
  pose proof (rel_fmul _ _ _ _ _ _ Q1 Q2 ltac:(lra) ltac:(lra) T3 B3) as Q4.
  eapply rel_weak in Q4; [|instantiate (1 := d + 2.01 * u); nra].
  pose proof (pw_pos _ _ _ W4) as Z. set (z := INR M * u) in *. split; [|apply (pw_weak _ _ _ _ _ W5); lia].
  eapply rel_weak; [apply (rel_fdiv _ _ _ _ _ _ Q4 Q3); auto; lra|].
  replace ((3 * INR M + 9) * u) with (3 * z + 9 * u) by (unfold z; ring). nra.
Qed.

(** Logarithms. *)
Lemma ln_1p : forall dl e, Rabs dl <= e -> e <= 1 / 1000 -> Rabs (ln (1 + dl)) <= 1.01 * e.
Proof.
  intros dl e H He. apply abs_of in H. assert (P : 0 < 1 + dl) by lra.
  assert (L : forall y, 0 < y -> ln y <= y - 1).
  { intros y Hy. apply Rnot_lt_le. intro K. apply exp_increasing in K. rewrite exp_ln in K by auto.
    pose proof (exp_ineq1_le (y - 1)). lra. }
  pose proof (L _ P) as U1. pose proof (L _ (Rinv_0_lt_compat _ P)) as U2. rewrite ln_Rinv in U2 by auto.
  assert (I : / (1 + dl) - 1 <= 1.01 * e).
  { replace (/ (1 + dl) - 1) with (- dl * / (1 + dl)) by (field; lra).
    assert (0 < / (1 + dl) <= 1.01).
    { split; [apply Rinv_0_lt_compat; auto|]. apply Rmult_le_reg_l with (1 + dl); auto. rewrite Rinv_r by lra. lra. }
    nra. }
  apply Rabs_le. split; lra.
Qed.
Lemma ln_le_sub : forall y, 0 < y -> ln y <= y - 1.
Proof.
  intros y Hy. apply Rnot_lt_le. intro K. apply exp_increasing in K. rewrite exp_ln in K by auto.
  pose proof (exp_ineq1_le (y - 1)). lra.
Qed.
Lemma dpos_log : forall m d, accurate_log m d -> 0 <= d.
Proof.
  intros m d A. destruct (f_of_small 2 ltac:(lia)) as (F & E). destruct (A _ F) as (_ & H); [rewrite E; lra|].
  rewrite E in H. assert (0 < ln 2) by (rewrite <- ln_1; apply ln_increasing; lra).
  rewrite (Rabs_pos_eq (ln 2)) in H by lra. pose proof (Rabs_pos (B2R (m_log m (f_of 2 0)) - ln 2)). nra.
Qed.
Lemma rel_log : forall m d (x : F64) v e g, accurate_log m d -> d <= 1 / 2000 -> rel x v e -> 0 < v -> e <= 1 / 1000 ->
  0 < g <= Rabs (ln v) -> rel (m_log m x) (ln v) (d + 1.02 * (e / g)).
Proof.
  intros m d x v e g A Hd (Fx & dl & Hdl & Ex) Hv He Hg. pose proof (dpos_log m d A) as d0.
  assert (e0 : 0 <= e) by (eapply Rle_trans; [apply Rabs_pos|exact Hdl]). pose proof (abs_of _ _ Hdl) as H1.
  assert (X0 : 0 < B2R x) by (rewrite Ex; apply Rmult_lt_0_compat; lra).
  pose proof (rel_of_close _ _ _ d0 (A x Fx X0)) as (F & d1 & Hd1 & E). split; [exact F|].
  assert (L : ln (B2R x) = ln v + ln (1 + dl)) by (rewrite Ex; apply ln_mult; lra).
  pose proof (ln_1p dl e Hdl He) as LE. assert (N : ln v <> 0) by (intro N; rewrite N, Rabs_R0 in Hg; lra).
  set (t := ln (1 + dl) / ln v). assert (T : Rabs t <= 1.01 * (e / g)).
  { unfold t, Rdiv. rewrite Rabs_mult, Rabs_inv. replace (1.01 * (e * / g)) with (1.01 * e * / g) by ring.
    apply Rmult_le_compat; [apply Rabs_pos|left; apply Rinv_0_lt_compat; lra|exact LE|apply Rinv_le_contravar; lra]. }
  exists (d1 + t + t * d1). split; [|rewrite E, L; unfold t; field; auto].
  assert (0 <= e / g) by (unfold Rdiv; apply Rmult_le_pos; [lra|left; apply Rinv_0_lt_compat; lra]).
  assert (Rabs (t * d1) <= 1.01 * (e / g) * (1 / 2000)) by (rewrite Rabs_mult; apply Rmult_le_compat; try apply Rabs_pos; lra).
  pose proof (Rabs_triang (d1 + t) (t * d1)). pose proof (Rabs_triang d1 t). lra.
Qed.

(** 1 - c, c known up to a relative error. *)
Lemma one_minus_rel : forall (x : F64) c e, rel x c e -> 0 < c < 1 -> e <= 1 / 1000 ->
  rel (fsub (f_of 1 0) x) (1 - c) (e * (c / (1 - c)) + u + e * (c / (1 - c)) * u).
Proof.
  intros x c e (F & dl & Hdl & E) Hc He. pose proof (abs_of _ _ Hdl) as H1.
  assert (B : Rabs (B2R x) <= 2 ^ 100).
  { apply Rle_trans with 2; [rewrite E; apply Rabs_le; nra|]. pose proof (Rle_pow 2 1 100 ltac:(lra) ltac:(lia)). lra. }
  destruct (one_minus x F B) as (F2 & e1 & He1 & E2). split; [exact F2|].
  set (t := - dl * (c / (1 - c))). exists (t + e1 + t * e1).
  assert (0 < c / (1 - c)) by (apply Rdiv_lt_0_compat; lra).
  assert (T : Rabs t <= e * (c / (1 - c))).
  { unfold t. rewrite Rabs_mult, Rabs_Ropp, (Rabs_pos_eq (c / (1 - c))) by lra. apply Rmult_le_compat_r; lra. }
  split; [|rewrite E2, E; unfold t; field; lra].
  eapply Rle_trans; [apply Rabs_triang|]. apply Rplus_le_compat.
  - eapply Rle_trans; [apply Rabs_triang|]. lra.
  - rewrite Rabs_mult. apply Rmult_le_compat; auto; apply Rabs_pos.
Qed.

(** Mura-Knowles. *)
Section MuraKnowles.
Variables (m : libm) (R x : F64).
Hypotheses (HR : sane_scale R) (Fx : is_finite x = true) (Hx : / 2 ^ 12 <= B2R x <= 1 - / 2 ^ 40).
Let v := B2R x.
Let c := v * v * v.
Lemma mk_v : 0 < v < 1 /\ pw v 12 0 /\ 0 < c < 1 /\ pw c 36 0 /\ / 2 ^ 40 <= 1 - c.
Proof.
  assert (V : 0 < v < 1) by (unfold v; pose proof (Rinv_0_lt_compat _ (p2 12)); pose proof (Rinv_0_lt_compat _ (p2 40)); lra).
  assert (W : pw v 12 0) by (split; unfold v; simpl (2 ^ 0); [lra|]; pose proof (Rinv_0_lt_compat _ (p2 40)); lra).
  pose proof (pw_mul _ _ _ _ _ _ (pw_mul _ _ _ _ _ _ W W) W) as WC. fold c in WC.
  assert (v * v <= v) by nra. assert (c <= v) by (unfold c; nra). assert (v <= 1 - / 2 ^ 40) by (unfold v; lra).
  pose proof (pw_pos _ _ _ WC). pose proof (Rinv_0_lt_compat _ (p2 40)). refine (conj V (conj W (conj _ (conj WC _)))); lra.
Qed.
Let xx := fmul x x.
Let xc := fmul (fmul x x) x.
Lemma mk_xx : rel xx (v * v) u.
Proof.
  destruct mk_v as (V & W & _). pose proof u_small. pose proof u_pos.
  destruct (pw_ok _ _ _ (pw_mul _ _ _ _ _ _ W W) ltac:(lia) ltac:(lia)) as (T & B).
  pose proof (exact_rel x v Fx eq_refl) as E. eapply rel_weak; [apply (rel_fmul _ _ _ _ _ _ E E); auto; lra|nra].
Qed.
Lemma mk_c : rel xc c (2.01 * u).
Proof.
  destruct mk_v as (V & W & C & WC & _). pose proof u_small. pose proof u_pos.
  destruct (pw_ok _ _ _ WC ltac:(lia) ltac:(lia)) as (T & B).
  pose proof (exact_rel x v Fx eq_refl) as E. eapply rel_weak; [apply (rel_fmul _ _ _ _ _ _ mk_xx E); auto; lra|nra].
Qed.
Let e1 := 2.03 * (u / (1 - c)).
Lemma mk_e1 : e1 <= 1 / 2000 /\ u <= u / (1 - c).
Proof.
  destruct mk_v as (V & W & C & WC & G). pose proof u_pos.
  assert (P : u / (1 - c) <= u * 2 ^ 40).
  { unfold Rdiv. apply Rmult_le_compat_l; [lra|]. rewrite <- (Rinv_inv (2 ^ 40)). apply Rinv_le_contravar; [apply Rinv_0_lt_compat, p2|auto]. }
  split; [unfold e1; unfold u in *; lra|]. apply Rmult_le_reg_r with (1 - c); [lra|]. unfold Rdiv. rewrite Rmult_assoc, Rinv_l by lra. nra.
Qed.
Lemma mk_m : rel (fsub (f_of 1 0) xc) (1 - c) e1.
Proof.
  destruct mk_v as (V & W & C & WC & G). pose proof u_small. pose proof u_pos.
  eapply rel_weak; [apply (one_minus_rel _ _ _ mk_c C); lra|]. unfold e1, Rdiv.
  assert (I : 0 < / (1 - c)) by (apply Rinv_0_lt_compat; lra).
  assert (E : u = (1 - c) * (u * / (1 - c))) by (field; lra).
  set (z := u * / (1 - c)) in *. assert (0 < z) by (apply Rmult_lt_0_compat; lra).
  replace (2.01 * u * (c * / (1 - c))) with (2.01 * c * z) by (unfold z; ring).
  replace (2.01 * c * z + u + 2.01 * c * z * u) with (2.01 * c * z + (1 - c) * z + 2.01 * c * z * u) by (rewrite <- E; ring).
  assert (c * z <= z) by nra. assert (c * z * u <= z * u) by (apply Rmult_le_compat_r; lra). assert (z * u <= z * (1 / 1000000)) by (apply Rmult_le_compat_l; lra). lra.
Qed.
Lemma mk_j : forall n, rel (@rt_jacobian (FS m) (@MK (FS m) n R) x) (@rt_jacobian RS (MK n (B2R R : RS)) v) (11 * u / (1 - c)) /\
  pw (@rt_jacobian RS (MK n (B2R R : RS)) v) 600 600.
Proof.
  intro n. destruct mk_v as (V & W & C & WC & G). pose proof u_small. pose proof u_pos. destruct mk_e1 as (E1 & E2).
  change (@rt_jacobian (FS m) (@MK (FS m) n R) x) with (fdiv (fmul (fmul R (f_of 3 0)) xx) (fsub (f_of 1 0) xc)).
  change (@rt_jacobian RS (MK n (B2R R : RS)) v) with (B2R R * 3 * (v * v) / (1 - c)).
  pose proof (sane_pw R HR) as WR. assert (W3 : pw 3 0 2) by (split; simpl; lra).
  pose proof (pw_mul _ _ _ _ _ _ WR W3) as W1. pose proof (pw_mul _ _ _ _ _ _ W1 (pw_mul _ _ _ _ _ _ W W)) as W2.
  assert (Wm : pw (1 - c) 40 0) by (split; [exact G|simpl (2 ^ 0); lra]).
  pose proof (pw_div _ _ _ _ _ _ W2 Wm) as W4.
  destruct (pw_ok _ _ _ W1 ltac:(lia) ltac:(lia)) as (T1 & B1). destruct (pw_ok _ _ _ W2 ltac:(lia) ltac:(lia)) as (T2 & B2).
  destruct (pw_ok _ _ _ W4 ltac:(lia) ltac:(lia)) as (T4 & B4).
  pose proof (rel_fmul _ _ _ _ _ _ (exact_rel R (B2R R) (proj1 HR) eq_refl) (int_rel 3 ltac:(lia)) ltac:(lra) ltac:(lra) T1 B1) as Q1.
  eapply rel_weak in Q1; [|instantiate (1 := u); lra].
  pose proof (rel_fmul _ _ _ _ _ _ Q1 mk_xx ltac:(lra) ltac:(lra) T2 B2) as Q2.
  eapply rel_weak in Q2; [|instantiate (1 := 3.01 * u); nra]. split; [|apply (pw_weak _ _ _ _ _ W4); lia].
  eapply rel_weak; [apply (rel_fdiv _ _ _ _ _ _ Q2 mk_m); auto; lra|].
  replace (11 * u / (1 - c)) with (11 * (u / (1 - c))) by (unfold Rdiv; ring). unfold e1 in *. set (z := u / (1 - c)) in *. nra.
Qed.
Lemma mk_r : forall d n, accurate_log m d -> d <= 1 / 4000 ->
  rel (@rt_transform (FS m) (@MK (FS m) n R) x) (@rt_transform RS (MK n (B2R R : RS)) v) (2 * d + 4 * u / (c * (1 - c))).
Proof.
  intros d n A Hd. destruct mk_v as (V & W & C & WC & G). pose proof u_small as U1. pose proof u_pos as U. destruct mk_e1 as (E1 & E2).
  pose proof (dpos_log m d A) as d0.
  change (@rt_transform (FS m) (@MK (FS m) n R) x) with (fmul (Bopp R) (m_log m (fsub (f_of 1 0) xc))).
  change (@rt_transform RS (MK n (B2R R : RS)) v) with (- B2R R * ln (1 - c)).
  assert (L1 : c <= - ln (1 - c)) by (pose proof (ln_le_sub (1 - c) ltac:(lra)); lra).
  assert (L2 : - ln (1 - c) <= 2 ^ 40).
  { rewrite <- ln_Rinv by lra. pose proof (ln_le_sub (/ (1 - c)) ltac:(apply Rinv_0_lt_compat; lra)).
    assert (/ (1 - c) <= 2 ^ 40) by (rewrite <- (Rinv_inv (2 ^ 40)); apply Rinv_le_contravar; [apply Rinv_0_lt_compat, p2|auto]). lra. }
  assert (WL : pw (- ln (1 - c)) 36 40) by (split; [destruct WC; lra|auto]).
  assert (AL : Rabs (ln (1 - c)) = - ln (1 - c)) by (rewrite <- Rabs_Ropp; apply Rabs_pos_eq; lra).
  pose proof (rel_log m d _ _ _ c A ltac:(lra) mk_m ltac:(lra) ltac:(lra) ltac:(rewrite AL; lra)) as Q1.
  pose proof (pw_mul _ _ _ _ _ _ (sane_pw R HR) WL) as W1. destruct (pw_ok _ _ _ W1 ltac:(lia) ltac:(lia)) as (T1 & B1).
  replace (B2R R * - ln (1 - c)) with (- B2R R * ln (1 - c)) in T1, B1 by ring.
  assert (Q0 : rel (Bopp R) (- B2R R) 0) by (apply exact_rel; [rewrite is_finite_Bopp; apply HR|apply B2R_Bopp]).
  assert (S1 : 1.02 * (e1 / c) <= 1 / 1900 /\ 0 < e1 / c).
  { assert (0 < e1) by (unfold e1; assert (0 < u / (1 - c)) by (apply Rdiv_lt_0_compat; lra); lra).
    split; [|apply Rdiv_lt_0_compat; lra]. destruct (Rle_dec c (/ 2)).
    - assert (u / (1 - c) <= 2 * u).
      { unfold Rdiv. rewrite Rmult_comm. apply Rmult_le_compat_r; [lra|]. replace 2 with (/ / 2) by (field; lra). apply Rinv_le_contravar; lra. }
      assert (e1 / c <= 2.03 * (2 * u) * 2 ^ 36); [|unfold u in *; lra].
      unfold Rdiv. apply Rmult_le_compat; [lra|left; apply Rinv_0_lt_compat; lra|unfold e1; lra|].
      rewrite <- (Rinv_inv (2 ^ 36)). apply Rinv_le_contravar; [apply Rinv_0_lt_compat, p2|apply WC].
    - assert (e1 / c <= 2.03 * (u * 2 ^ 40) * 2); [|unfold u in *; lra].
      unfold Rdiv. apply Rmult_le_compat; [lra|left; apply Rinv_0_lt_compat; lra| |].
      + unfold e1, Rdiv. apply Rmult_le_compat_l; [lra|]. apply Rmult_le_compat_l; [lra|].
        rewrite <- (Rinv_inv (2 ^ 40)). apply Rinv_le_contravar; [apply Rinv_0_lt_compat, p2|auto].
      + replace 2 with (/ / 2) by (field; lra). apply Rinv_le_contravar; lra. }
  assert (Z1 : 4 * u / (c * (1 - c)) = 4 / 2.03 * (e1 / c)) by (unfold e1; field; lra).
  assert (Z2 : u <= e1 / c / 2.03).
  { replace (e1 / c / 2.03) with (u / (1 - c) / c) by (unfold e1; field; lra). apply Rle_trans with (u / (1 - c)); [exact E2|].
    set (z := u / (1 - c)) in *. apply Rmult_le_reg_r with c; [lra|]. unfold Rdiv. rewrite Rmult_assoc, Rinv_l by lra. nra. }
  rewrite Z1. set (z := e1 / c) in *.
  eapply rel_weak; [apply (rel_fmul _ _ _ _ _ _ Q0 Q1); auto; lra|]. assert (z / 2.03 <= z / 2) by lra.
  replace (4 / 2.03 * z) with (4 * (z / 2.03)) by lra. set (y := z / 2.03) in *. assert (z = 2.03 * y) by (unfold y; lra).
  assert (u * d <= u * (1 / 4000)) by (apply Rmult_le_compat_l; lra). assert (u * (1.02 * z) <= u * (1 / 1900)) by (apply Rmult_le_compat_l; lra). nra.
Qed.
End MuraKnowles.

(** Powers with a binary64 exponent between 0 and 8. *)
Lemma exp_1p : forall t e, Rabs t <= e -> e <= 1 / 1000 -> Rabs (exp t - 1) <= 1.01 * e.
Proof.
  intros t e H He. apply abs_of in H. pose proof (exp_ineq1_le t) as L. pose proof (exp_ineq1_le (- t)) as L'.
  rewrite exp_Ropp in L'. pose proof (exp_pos t) as P. apply Rabs_le. split; [lra|].
  assert (exp t * (1 - t) <= 1).
  { replace 1 with (exp t * / exp t) at 2 by (field; lra). apply Rmult_le_compat_l; lra. }
  nra.
Qed.
Lemma rel_rpow : forall m d (x al : F64) v, accurate_pow m d -> d <= 1 / 2000 -> rel x v u -> / 2 ^ 35 <= v <= 2 ->
  is_finite al = true -> 0 <= B2R al <= 8 ->
  rel (m_pow m x al) (Rpower v (B2R al)) (d + 9 * u) /\ pw (Rpower v (B2R al)) 280 8.
Proof.
  intros m d x al v A Hd (Fx & dl & Hdl & Ex) Hv Fa Ha. pose proof (dpos_pow m d A) as d0. pose proof u_pos as U. pose proof u_small as U1.
  pose proof (abs_of _ _ Hdl) as H1. pose proof (Rinv_0_lt_compat _ (p2 35)) as I35.
  assert (X0 : 0 < B2R x) by (rewrite Ex; apply Rmult_lt_0_compat; lra).
  set (D := Rpower (1 + dl) (B2R al) - 1).
  assert (Q : Rpower (B2R x) (B2R al) = Rpower v (B2R al) * (1 + D)).
  { rewrite Ex, <- Rpower_mult_distr by lra. unfold D. ring. }
  assert (HD : Rabs D <= 8.5 * u).
  { unfold D, Rpower. pose proof (ln_1p dl u Hdl ltac:(lra)) as L.
    assert (K : Rabs (B2R al * ln (1 + dl)) <= 8 * (1.01 * u)).
    { rewrite Rabs_mult, (Rabs_pos_eq (B2R al)) by lra. apply Rmult_le_compat; try apply Rabs_pos; lra. }
    pose proof (exp_1p _ _ K ltac:(lra)). lra. }
  assert (L2 : 0 < ln 2) by (rewrite <- ln_1; apply ln_increasing; lra).
  assert (LV : - (35 * ln 2) <= ln v <= ln 2).
  { split.
    - replace (- (35 * ln 2)) with (ln (/ 2 ^ 35)); [destruct (Req_dec (/ 2 ^ 35) v) as [->|]; [lra|]; left; apply ln_increasing; lra|].
      rewrite ln_Rinv, ln_pow by (try apply p2; lra). simpl (INR 35). lra.
    - destruct (Req_dec v 2) as [->|]; [lra|]. left. apply ln_increasing; lra. }
  assert (W : pw (Rpower v (B2R al)) 280 8).
  { unfold Rpower. assert (E : forall k, 2 ^ k = exp (INR k * ln 2)).
    { intro k. rewrite <- ln_pow, exp_ln; auto; [apply p2|lra]. }
    split.
    - rewrite E, <- exp_Ropp. replace (INR 280) with 280 by (rewrite INR_IZR_INZ; reflexivity).
      assert (- (280 * ln 2) <= B2R al * ln v) by nra.
      destruct (Req_dec (- (280 * ln 2)) (B2R al * ln v)) as [->|]; [lra|]. left. apply exp_increasing. lra.
    - rewrite E. replace (INR 8) with 8 by (rewrite INR_IZR_INZ; reflexivity).
      assert (B2R al * ln v <= 8 * ln 2) by nra.
      destruct (Req_dec (B2R al * ln v) (8 * ln 2)) as [->|]; [lra|]. left. apply exp_increasing. lra. }
  split; [|exact W]. pose proof (abs_of _ _ HD) as D2.
  assert (QD : pw (1 + D) 1 1) by (split; simpl; lra).
  pose proof (pw_weak _ _ _ 500 500 (pw_mul _ _ _ _ _ _ W QD) ltac:(lia) ltac:(lia)) as QQ. rewrite <- Q in QQ.
  pose proof (rel_of_close _ _ _ d0 (A x al Fx Fa X0 QQ)) as (F & d1 & Hd1 & E). split; [exact F|].
  exists (D + d1 + D * d1). split; [|rewrite E, Q; ring].
  assert (Rabs (D * d1) <= 8.5 * u * (1 / 2000)) by (rewrite Rabs_mult; apply Rmult_le_compat; try apply Rabs_pos; lra).
  pose proof (Rabs_triang (D + d1) (D * d1)). pose proof (Rabs_triang D d1). lra.
Qed.

(** Sum of two non-negative values. *)
Lemma rel_fadd_pos : forall x y v w e, rel x v e -> rel y w e -> 0 <= v -> 0 <= w -> e <= 1 / 1000 -> v + w <= 2 ^ 899 ->
  rel (fadd x y) (v + w) (e + u + e * u).
Proof.
  intros x y v w e (Fx & d1 & H1 & E1) (Fy & d2 & H2 & E2) Hv Hw He Hb. pose proof (abs_of _ _ H1). pose proof (abs_of _ _ H2).
  assert (e0 : 0 <= e) by (eapply Rle_trans; [apply Rabs_pos|exact H1]).
  assert (S : Rabs (B2R x + B2R y - (v + w)) <= e * (v + w)).
  { rewrite E1, E2. replace (v * (1 + d1) + w * (1 + d2) - (v + w)) with (v * d1 + w * d2) by ring.
    eapply Rle_trans; [apply Rabs_triang|]. rewrite !Rabs_mult, (Rabs_pos_eq v), (Rabs_pos_eq w) by lra. nra. }
  assert (B : Rabs (B2R x + B2R y) <= 2 ^ 900).
  { apply abs_of in S. change (2 ^ 900) with (2 * 2 ^ 899). set (K := 2 ^ 899) in *. apply Rabs_le. split; nra. }
  pose proof (finite_add _ _ Fx Fy B) as F. split; [exact F|]. destruct (fadd_R _ _ F) as (_ & _ & E).
  destruct (rnd_add_err x y) as (e1 & He1 & E3). rewrite E, E3. pose proof u_pos.
  destruct (Req_dec (v + w) 0) as [Z|Z].
  - exists 0. rewrite Rabs_R0. split; [nra|]. rewrite Z in *. rewrite Rmult_0_r, Rminus_0_r in S. apply abs_of in S.
    replace (B2R x + B2R y) with 0 by lra. ring.
  - set (t := (B2R x + B2R y - (v + w)) / (v + w)). exists (t + e1 + t * e1).
    assert (T : Rabs t <= e).
    { unfold t, Rdiv. rewrite Rabs_mult, Rabs_inv, (Rabs_pos_eq (v + w)) by lra.
      apply Rmult_le_reg_r with (v + w); [lra|]. rewrite Rmult_assoc, Rinv_l by lra. lra. }
    split; [|unfold t; field; auto]. eapply Rle_trans; [apply Rabs_triang|]. apply Rplus_le_compat.
    + eapply Rle_trans; [apply Rabs_triang|]. lra.
    + rewrite Rabs_mult. apply Rmult_le_compat; auto; apply Rabs_pos.
Qed.

(** The constant ln_2. *)
Lemma f_of_rel : forall z e, bpow radix2 (-1000) <= Rabs (IZR z * bpow radix2 e) <= 2 ^ 899 ->
  rel (f_of z e) (IZR z * bpow radix2 e) u.
Proof.
  intros z e [H1 H2]. unfold f_of.
  pose proof (binary_normalize_correct 53 1024 Hprec Hmax mode_NE z e false) as C. cbv zeta in C.
  change (F2R (Float radix2 z e)) with (IZR z * bpow radix2 e) in C. set (v := IZR z * bpow radix2 e) in *.
  change (round radix2 (SpecFloat.fexp 53 1024) (round_mode mode_NE) v) with (rnd v) in C.
  rewrite Rlt_bool_true in C.
  2: { apply rnd_bound, big_pow. eapply Rle_trans; [exact H2|]. apply Rle_pow; [lra|lia]. }
  destruct C as (C1 & C2 & _). split; [exact C2|].
  destruct (rel_mul v) as (d & Hd & E); [left; eapply Rle_trans; [|exact H1]; apply bpow_le; lia|].
  exists d. split; [exact Hd|]. rewrite C1. exact E.
Qed.
Lemma ln2_rel : forall m, rel (@ta_ln2 (FS m) : F64) (@ta_ln2 RS) (1.01 * u) /\ pw (@ta_ln2 RS) 1 0.
Proof.
  intro m. assert (V : @ta_ln2 RS = 693147180559945309417232 / 1000000000000000000000000) by reflexivity.
  split; [|rewrite V; split; simpl; lra].
  change (@ta_ln2 (FS m)) with (f_dec 693147180559945309417232 24).
  assert (E : f_dec 693147180559945309417232 24 = f_of (2 * (693147180559945309417232 * 2 ^ 139 / 10 ^ 24) + 1) (- 140)) by reflexivity.
  rewrite E. set (z := (2 * (693147180559945309417232 * 2 ^ 139 / 10 ^ 24) + 1)%Z). vm_compute in z.
  assert (B : bpow radix2 (-140) = / IZR (2 ^ 140)) by reflexivity.
  assert (B2 : IZR (2 ^ 140) = 1393796574908163946345982392040522594123776) by reflexivity.
  destruct (f_of_rel z (-140)) as (F & d & Hd & E1).
  { rewrite B, B2. unfold z. split.
    - apply Rle_trans with (bpow radix2 (-10)); [apply bpow_le; lia|]. change (bpow radix2 (-10)) with (/ 1024).
      rewrite Rabs_pos_eq; lra.
    - rewrite Rabs_pos_eq by lra. apply Rle_trans with 1; [lra|]. pose proof (Rle_pow 2 0 899 ltac:(lra) ltac:(lia)). simpl (2 ^ 0) in *. lra. }
  split; [exact F|]. pose proof u_pos.
  set (t := IZR z * bpow radix2 (-140) / @ta_ln2 RS - 1).
  assert (T : Rabs t <= u / 1000).
  { unfold t. rewrite B, B2, V. unfold z, u. apply Rabs_le. split; lra. }
  exists (d + t + t * d). split.
  - assert (Rabs (t * d) <= u / 1000 * u) by (rewrite Rabs_mult; apply Rmult_le_compat; auto; apply Rabs_pos).
    pose proof (Rabs_triang (d + t) (t * d)). pose proof (Rabs_triang d t). pose proof u_small. nra.
  - rewrite E1. unfold t. rewrite V. field.
Qed.

(** Treutler-Ahlrichs. *)
Lemma err_mul : forall e e', 0 <= e <= 1 / 1000 -> 0 <= e' <= 1 / 1000 ->
  e + e' + e * e' + u * (1 + e) * (1 + e') <= e + 1.001 * e' + 1.003 * u.
Proof.
  intros e e' H H'. pose proof u_pos. assert (e * e' <= 1 / 1000 * e') by (apply Rmult_le_compat_r; lra).
  assert ((1 + e) * (1 + e') <= 1.001 * 1.001) by (apply Rmult_le_compat; lra).
  assert (u * ((1 + e) * (1 + e')) <= u * (1.001 * 1.001)) by (apply Rmult_le_compat_l; lra). lra.
Qed.
Lemma err_div : forall e e', 0 <= e <= 1 / 1000 -> 0 <= e' <= 1 / 1000 ->
  e + 2 * e' + 2 * e * e' + u * 2 <= e + 2.002 * e' + 2 * u.
Proof. intros e e' H H'. assert (e * e' <= 1 / 1000 * e') by (apply Rmult_le_compat_r; lra). lra. Qed.
Lemma two_rel : rel (fadd (f_of 1 0) (f_of 1 0)) 2 0.
Proof.
  destruct (f_of_small 1 ltac:(lia)) as (F & E). destruct (f_of_small 2 ltac:(lia)) as (F2 & E2).
  assert (B : Rabs (B2R (f_of 1 0) + B2R (f_of 1 0)) <= 2 ^ 900).
  { rewrite E. rewrite Rabs_pos_eq by lra. pose proof (Rle_pow 2 1 900 ltac:(lra) ltac:(lia)). simpl (2 ^ 1) in *. lra. }
  pose proof (finite_add _ _ F F B) as F3. apply exact_rel; [exact F3|]. destruct (fadd_R _ _ F3) as (_ & _ & ->).
  rewrite E. replace (1 + 1) with (B2R (f_of 2 0)) by (rewrite E2; lra). rewrite rnd_B2R. exact E2.
Qed.
Section TreutlerAhlrichs.
Variables (m : libm) (d : R) (R al x : F64).
Hypotheses (AP : accurate_pow m d) (AL : accurate_log m d) (Hd : d <= 1 / 8000).
Hypotheses (HR : sane_scale R) (HA : sane_alpha al) (Fx : is_finite x = true) (Hx : -1 + / 2 ^ 35 <= B2R x < 1).
Let v := B2R x.
Let z := u / (1 + v).
Lemma ta_x : -1 < v < 1 /\ / 2 ^ 35 <= 1 + v.
Proof. unfold v. pose proof (Rinv_0_lt_compat _ (p2 35)). lra. Qed.
Lemma ta_z : u <= 2 * z /\ z <= / 2 ^ 18.
Proof.
  destruct ta_x as (V & G). pose proof u_pos. unfold z. split.
  - apply Rmult_le_reg_r with (1 + v); [lra|]. unfold Rdiv. rewrite !Rmult_assoc, Rinv_l by lra. nra.
  - apply Rle_trans with (u * 2 ^ 35); [|unfold u; lra]. unfold Rdiv. apply Rmult_le_compat_l; [lra|].
    rewrite <- (Rinv_inv (2 ^ 35)). apply Rinv_le_contravar; [apply Rinv_0_lt_compat, p2|auto].
Qed.
Let lg := m_log m (fdiv (fadd (f_of 1 0) (f_of 1 0)) (fsub (f_of 1 0) x)).
Let L := ln (2 / (1 - v)).
Lemma ta_log : rel lg L (d + 8.2 * z) /\ pw L 36 54.
Proof.
  destruct ta_x as (V & G). destruct ta_z as (Z1 & Z2). pose proof u_pos. pose proof u_small.
  pose proof (one_minus x Fx (abs_1 _ V)) as M1. destruct (pw_minus x V) as (Wm & _). fold v in M1, Wm.
  assert (W2 : pw 2 0 1) by (split; simpl; lra). pose proof (pw_div _ _ _ _ _ _ W2 Wm) as W. destruct (pw_ok _ _ _ W ltac:(lia) ltac:(lia)) as (T & B).
  pose proof (pw_pos _ _ _ Wm) as P. pose proof (pw_pos _ _ _ W) as P2.
  pose proof (rel_fdiv _ _ _ _ _ _ two_rel M1 ltac:(lra) ltac:(lra) ltac:(lra) T B) as Q.
  eapply rel_weak in Q; [|instantiate (1 := 4 * u); nra].
  assert (L1 : (1 + v) / 2 <= L).
  { unfold L. replace (2 / (1 - v)) with (/ ((1 - v) / 2)) by (field; lra). rewrite ln_Rinv by lra.
    pose proof (ln_le_sub ((1 - v) / 2) ltac:(lra)). lra. }
  assert (WL : pw L 36 54).
  { split; [|pose proof (ln_le_sub _ P2) as K; fold L in K; destruct W as [_ W]; change (1 + 53)%nat with 54%nat in W; lra].
    change (2 ^ 36) with (2 * 2 ^ 35). rewrite Rinv_mult. lra. }
  split; [|exact WL].
  eapply rel_weak; [apply (rel_log m d _ _ _ ((1 + v) / 2) AL ltac:(lra) Q P2 ltac:(lra))|].
  - split; [lra|]. fold L. rewrite Rabs_pos_eq; [exact L1|]. lra.
  - replace (4 * u / ((1 + v) / 2)) with (8 * z) by (unfold z; field; lra). lra.
Qed.
Lemma ta_alpha : 0 <= B2R al <= 8.
Proof. destruct HA as (_ & [->|H]); [lra|]. pose proof (Rinv_0_lt_compat _ (p2 100)). lra. Qed.
Let pt := m_pow m (fadd (f_of 1 0) x) al.
Let P := Rpower (1 + v) (B2R al).
Lemma ta_pow : rel pt P (d + 9 * u) /\ pw P 280 8.
Proof.
  destruct ta_x as (V & G). apply rel_rpow; auto; try lra; [apply one_plus; auto; apply abs_1; exact V|apply HA|apply ta_alpha].
Qed.
Let Rp := fmul R pt.
Lemma ta_Rp : rel Rp (B2R R * P) (1.001 * d + 10.1 * u) /\ pw (B2R R * P) 380 108.
Proof.
  destruct ta_pow as (Q & W). pose proof u_pos. pose proof u_small. pose proof (dpos_pow m d AP).
  pose proof (pw_mul _ _ _ _ _ _ (sane_pw R HR) W) as W1. destruct (pw_ok _ _ _ W1 ltac:(lia) ltac:(lia)) as (T & B). split; [|exact W1].
  eapply rel_weak; [apply (rel_fmul _ _ _ _ _ _ (exact_rel R (B2R R) (proj1 HR) eq_refl) Q); auto; lra|]. eapply Rle_trans; [apply err_mul; lra|lra].
Qed.
Lemma ta_r : forall n, rel (@rt_transform (FS m) (@TA (FS m) n R al) x) (@rt_transform RS (TA n (B2R R : RS) (B2R al : RS)) v) (3 * d + 45 * u / (1 + v)).
Proof.
  intro n. destruct ta_Rp as (Q1 & W1). destruct ta_log as (Q2 & W2). destruct (ln2_rel m) as (Q3 & W3). pose proof u_pos. pose proof u_small.
  pose proof (dpos_pow m d AP). destruct ta_z as (Z1 & Z2).
  change (@rt_transform (FS m) (@TA (FS m) n R al) x) with (fdiv (fmul Rp lg) (@ta_ln2 (FS m) : F64)).
  change (@rt_transform RS (TA n (B2R R : RS) (B2R al : RS)) v) with (B2R R * P * ln ((1 + 1) / (1 - v)) / (@ta_ln2 RS : Rdefinitions.R)).
  replace (1 + 1) with 2 by ring. fold L.
  pose proof (pw_mul _ _ _ _ _ _ W1 W2) as W4. destruct (pw_ok _ _ _ W4 ltac:(lia) ltac:(lia)) as (T4 & B4).
  pose proof (pw_div _ _ _ _ _ _ W4 W3) as W5. destruct (pw_ok _ _ _ W5 ltac:(lia) ltac:(lia)) as (T5 & B5).
  pose proof (rel_fmul _ _ _ _ _ _ Q1 Q2 ltac:(lra) ltac:(lra) T4 B4) as Q4.
  eapply rel_weak in Q4; [|instantiate (1 := 2.1 * d + 8.3 * z + 11.3 * u); eapply Rle_trans; [apply err_mul; lra|lra]].
  pose proof (pw_pos _ _ _ W3) as P3.
  eapply rel_weak; [apply (rel_fdiv _ _ _ _ _ _ Q4 Q3); auto; lra|].
  replace (45 * u / (1 + v)) with (45 * z) by (unfold z, Rdiv; ring). eapply Rle_trans; [apply err_div; lra|lra].
Qed.
Let q1 := fdiv (fmul al lg) (fadd (f_of 1 0) x).
Lemma ta_q1 : rel q1 (B2R al * L / (1 + v)) (1.01 * d + 8.3 * z + 5.2 * u) /\ 0 <= B2R al * L / (1 + v) <= 2 ^ 100.
Proof.
  destruct ta_log as (Q2 & W2). destruct ta_x as (V & G). pose proof u_pos. pose proof u_small. destruct ta_z as (Z1 & Z2).
  pose proof (dpos_pow m d AP). pose proof (one_plus x Fx (abs_1 _ V)) as P1. fold v in P1. pose proof (pw_pos _ _ _ W2) as L0.
  assert (Wp : pw (1 + v) 35 1) by (split; [exact G|simpl (2 ^ 1); lra]).
  split.
  - destruct HA as (Fa & [A0|A1]).
    + assert (Z : rel (fmul al lg) 0 0).
      { assert (F : is_finite (fmul al lg) = true).
        { apply finite_mul; auto; [apply Q2|]. rewrite A0, Rmult_0_l, Rabs_R0. left. apply p2. }
        apply exact_rel; auto. destruct (fmul_R _ _ F) as (_ & _ & ->). rewrite A0, Rmult_0_l. apply rnd_0. }
      destruct Z as (FZ & dz & _ & EZ). rewrite Rmult_0_l in EZ. rewrite A0. unfold Rdiv. rewrite !Rmult_0_l.
      destruct P1 as (_ & e1 & He1 & Ep). apply abs_of in He1.
      assert (Y : B2R (fadd (f_of 1 0) x) <> 0) by (rewrite Ep; apply Rmult_integral_contrapositive; split; lra).
      destruct (finite_div (fmul al lg) (fadd (f_of 1 0) x) FZ Y) as (F & E).
      { rewrite EZ. unfold Rdiv. rewrite Rmult_0_l, Rabs_R0. left. apply p2. }
      eapply rel_weak; [apply exact_rel; [exact F|]|].
      * unfold q1, lg in *. rewrite E, EZ. unfold Rdiv. rewrite Rmult_0_l. apply rnd_0.
      * lra.
    + assert (WA : pw (B2R al) 100 3) by (split; simpl (2 ^ 3); lra).
      pose proof (pw_mul _ _ _ _ _ _ WA W2) as W4. destruct (pw_ok _ _ _ W4 ltac:(lia) ltac:(lia)) as (T4 & B4).
      pose proof (pw_div _ _ _ _ _ _ W4 Wp) as W5. destruct (pw_ok _ _ _ W5 ltac:(lia) ltac:(lia)) as (T5 & B5).
      pose proof (rel_fmul _ _ _ _ _ _ (exact_rel al (B2R al) Fa eq_refl) Q2 ltac:(lra) ltac:(lra) T4 B4) as Q4.
      eapply rel_weak in Q4; [|instantiate (1 := 1.001 * d + 8.21 * z + 1.003 * u); eapply Rle_trans; [apply err_mul; lra|lra]].
      eapply rel_weak; [apply (rel_fdiv _ _ _ _ _ _ Q4 P1); auto; lra|]. eapply Rle_trans; [apply err_div; lra|lra].
  - pose proof ta_alpha as [A0 A1].
    split; [apply Rmult_le_pos; [apply Rmult_le_pos; lra|left; apply Rinv_0_lt_compat; lra]|].
    apply Rle_trans with (8 * 2 ^ 54 * 2 ^ 35).
    + unfold Rdiv. apply Rmult_le_compat; [apply Rmult_le_pos; lra|left; apply Rinv_0_lt_compat; lra| |].
      * apply Rmult_le_compat; try lra. apply W2.
      * rewrite <- (Rinv_inv (2 ^ 35)). apply Rinv_le_contravar; [apply Rinv_0_lt_compat, p2|auto].
    + replace (8 * 2 ^ 54 * 2 ^ 35) with (2 ^ (3 + 54 + 35)) by (rewrite !pow_add; simpl (2 ^ 3); ring). apply Rle_pow; [lra|lia].
Qed.
Lemma ta_j : forall n, rel (@rt_jacobian (FS m) (@TA (FS m) n R al) x) (@rt_jacobian RS (TA n (B2R R : RS) (B2R al : RS)) v) (3 * d + 60 * u / (1 + v)) /\
  pw (@rt_jacobian RS (TA n (B2R R : RS) (B2R al : RS)) v) 600 600.
Proof.
  intro n. destruct ta_Rp as (Q1 & W1). destruct (ln2_rel m) as (Q3 & W3). destruct ta_q1 as (Q5 & B5). destruct ta_x as (V & G).
  pose proof u_pos. pose proof u_small. pose proof (dpos_pow m d AP). destruct ta_z as (Z1 & Z2).
  change (@rt_jacobian (FS m) (@TA (FS m) n R al) x)
    with (fmul (fdiv Rp (@ta_ln2 (FS m) : F64)) (fadd q1 (fdiv (f_of 1 0) (fsub (f_of 1 0) x)))).
  change (@rt_jacobian RS (TA n (B2R R : RS) (B2R al : RS)) v)
    with (B2R R * P / (@ta_ln2 RS : Rdefinitions.R) * (B2R al * ln ((1 + 1) / (1 - v)) / (1 + v) + 1 / (1 - v))).
  replace (1 + 1) with 2 by ring. fold L.
  pose proof (pw_div _ _ _ _ _ _ W1 W3) as W4. destruct (pw_ok _ _ _ W4 ltac:(lia) ltac:(lia)) as (T4 & B4). pose proof (pw_pos _ _ _ W3) as P3.
  pose proof (rel_fdiv _ _ _ _ _ _ Q1 Q3 ltac:(lra) ltac:(lra) ltac:(lra) T4 B4) as Q4.
  eapply rel_weak in Q4; [|instantiate (1 := 1.01 * d + 14.3 * u); eapply Rle_trans; [apply err_div; lra|lra]].
  destruct (pw_minus x V) as (Wm & _). fold v in Wm. pose proof (pw_div _ _ _ _ _ _ pw_1 Wm) as W6.
  destruct (pw_ok _ _ _ W6 ltac:(lia) ltac:(lia)) as (T6 & B6). pose proof (pw_pos _ _ _ Wm) as Pm.
  pose proof (one_minus x Fx (abs_1 _ V)) as M1. fold v in M1.
  pose proof (rel_fdiv _ _ _ _ _ _ one_rel M1 ltac:(lra) ltac:(lra) ltac:(lra) T6 B6) as Q6.
  set (e := 1.01 * d + 8.3 * z + 5.2 * u) in *.
  eapply rel_weak in Q6; [|instantiate (1 := e); unfold e; eapply Rle_trans; [apply err_div; lra|lra]].
  assert (W7 : pw (B2R al * L / (1 + v) + 1 / (1 - v)) 1 101).
  { split.
    - assert (/ 2 <= 1 / (1 - v)) by (unfold Rdiv; rewrite Rmult_1_l; apply Rinv_le_contravar; lra). simpl (2 ^ 1). lra.
    - destruct W6 as (_ & W6). change (2 ^ 101) with (2 * 2 ^ 100). assert (2 ^ (0 + 53) <= 2 ^ 100) by (apply Rle_pow; [lra|lia]). lra. }
  destruct (pw_ok _ _ _ W7 ltac:(lia) ltac:(lia)) as (T7 & B7). rewrite (Rabs_pos_eq _ (Rlt_le _ _ (pw_pos _ _ _ W7))) in B7.
  pose proof (rel_fadd_pos _ _ _ _ e Q5 Q6 ltac:(lra) (Rlt_le _ _ (pw_pos _ _ _ W6)) ltac:(unfold e; lra) B7) as Q7.
  eapply rel_weak in Q7; [|instantiate (1 := 1.01 * d + 8.3 * z + 6.3 * u); assert (e * u <= 1 / 1000 * u) by (apply Rmult_le_compat_r; unfold e; lra); unfold e in *; lra].
  pose proof (pw_mul _ _ _ _ _ _ W4 W7) as W8. destruct (pw_ok _ _ _ W8 ltac:(lia) ltac:(lia)) as (T8 & B8).
  split; [|apply (pw_weak _ _ _ _ _ W8); lia].
  eapply rel_weak; [apply (rel_fmul _ _ _ _ _ _ Q4 Q7); auto; lra|].
  replace (60 * u / (1 + v)) with (60 * z) by (unfold z, Rdiv; ring). eapply Rle_trans; [apply err_mul; lra|lra].
Qed.
End TreutlerAhlrichs.
