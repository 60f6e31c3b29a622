(** Finite binary64 operations as rounded real operations. *)
From Coq Require Import Bool ZArith Lia Reals Lra.
From Flocq Require Import IEEE754.BinarySingleNaN Core Relative Plus_error.
From Verif Require Import Base.Scalar Base.FScalar Spec.RuleSpec.

Definition rnd (x : R) : R := round radix2 (FLT_exp (-1074) 53) ZnearestE x.

Definition fsub (x y : F64) : F64 := @Bminus 53 1024 Hprec Hmax mode_NE x y.
Definition fdiv (x y : F64) : F64 := @Bdiv 53 1024 Hprec Hmax mode_NE x y.

Lemma rnd_mono : forall x y, (x <= y)%R -> (rnd x <= rnd y)%R.
Proof.
  intros x y H. unfold rnd. apply round_le; auto.
  - apply FLT_exp_valid. exact Hprec.
  - apply valid_rnd_N.
Qed.

Lemma rnd_0 : rnd 0 = 0%R.
Proof. unfold rnd. apply round_0. apply valid_rnd_N. Qed.

Lemma rnd_B2R : forall x : F64, rnd (B2R x) = B2R x.
Proof.
  intro x. unfold rnd. apply round_generic. apply valid_rnd_N.
  exact (generic_format_B2R 53 1024 x).
Qed.

Lemma overflow_not_finite : forall (b : F64) s,
  B2SF b = binary_overflow 53 1024 mode_NE s -> is_finite b = false.
Proof. intros b s H. destruct b; auto; destruct s; discriminate H. Qed.

Lemma fadd_R : forall x y : F64, is_finite (fadd x y) = true ->
  is_finite x = true /\ is_finite y = true /\ B2R (fadd x y) = rnd (B2R x + B2R y).
Proof.
  intros x y H. unfold fadd in *.
  assert (F : is_finite x = true /\ is_finite y = true).
  { destruct x as [|[]| |], y as [|[]| |]; try discriminate H; auto. }
  destruct F as [Fx Fy]. do 2 (split; auto).
  pose proof (Bplus_correct 53 1024 Hprec Hmax mode_NE x y Fx Fy) as C.
  destruct (Rlt_bool _ _); [exact (proj1 C)|].
  destruct C as [C _]. apply overflow_not_finite in C. congruence.
Qed.

Lemma fadd_finite : forall x y : F64, is_finite x = true -> is_finite y = true ->
  (Rabs (rnd (B2R x + B2R y)) < bpow radix2 1024)%R -> is_finite (fadd x y) = true.
Proof.
  intros x y Fx Fy H. unfold fadd.
  pose proof (Bplus_correct 53 1024 Hprec Hmax mode_NE x y Fx Fy) as C.
  rewrite Rlt_bool_true in C by exact H. apply C.
Qed.

Lemma fsub_R : forall x y : F64, is_finite (fsub x y) = true ->
  is_finite x = true /\ is_finite y = true /\ B2R (fsub x y) = rnd (B2R x - B2R y).
Proof.
  intros x y H. unfold fsub in *.
  assert (F : is_finite x = true /\ is_finite y = true).
  { destruct x as [|[]| |], y as [|[]| |]; try discriminate H; auto. }
  destruct F as [Fx Fy]. do 2 (split; auto).
  pose proof (Bminus_correct 53 1024 Hprec Hmax mode_NE x y Fx Fy) as C.
  destruct (Rlt_bool _ _); [exact (proj1 C)|].
  destruct C as [C _]. apply overflow_not_finite in C. congruence.
Qed.

Lemma fmul_R : forall x y : F64, is_finite (fmul x y) = true ->
  is_finite x = true /\ is_finite y = true /\ B2R (fmul x y) = rnd (B2R x * B2R y).
Proof.
  intros x y H. unfold fmul in *.
  assert (F : is_finite x = true /\ is_finite y = true).
  { destruct x as [|[]| |], y as [|[]| |]; try discriminate H; auto. }
  destruct F as [Fx Fy]. do 2 (split; auto).
  pose proof (Bmult_correct 53 1024 Hprec Hmax mode_NE x y) as C.
  destruct (Rlt_bool _ _); [exact (proj1 C)|].
  apply overflow_not_finite in C. congruence.
Qed.

Lemma fmul_finite : forall x y : F64, is_finite x = true -> is_finite y = true ->
  (Rabs (rnd (B2R x * B2R y)) < bpow radix2 1024)%R -> is_finite (fmul x y) = true.
Proof.
  intros x y Fx Fy H. unfold fmul.
  pose proof (Bmult_correct 53 1024 Hprec Hmax mode_NE x y) as C.
  rewrite Rlt_bool_true in C by exact H. destruct C as (_ & C & _).
  etransitivity; [exact C|]. rewrite Fx, Fy. auto.
Qed.

Lemma fdiv_R : forall x y : F64, is_finite (fdiv x y) = true -> B2R y <> 0%R ->
  is_finite x = true /\ B2R (fdiv x y) = rnd (B2R x / B2R y).
Proof.
  intros x y H Hy. unfold fdiv in *.
  pose proof (Bdiv_correct 53 1024 Hprec Hmax mode_NE x y Hy) as C.
  destruct (Rlt_bool _ _).
  - destruct C as (C1 & C2 & _). split; [|exact C1]. rewrite <- C2. exact H.
  - apply overflow_not_finite in C. congruence.
Qed.

Lemma f_of_R : forall z, is_finite (f_of z 0) = true -> B2R (f_of z 0) = rnd (IZR z).
Proof.
  intros z H. unfold f_of in *.
  pose proof (binary_normalize_correct 53 1024 Hprec Hmax mode_NE z 0 false) as C. cbv zeta in C.
  replace (F2R (Float radix2 z 0)) with (IZR z) in C by (unfold F2R; simpl; ring).
  destruct (Rlt_bool _ _); [exact (proj1 C)|].
  apply overflow_not_finite in C. congruence.
Qed.

Lemma f_of_finite : forall z, (Rabs (rnd (IZR z)) < bpow radix2 1024)%R -> is_finite (f_of z 0) = true.
Proof.
  intros z H. unfold f_of.
  pose proof (binary_normalize_correct 53 1024 Hprec Hmax mode_NE z 0 false) as C. cbv zeta in C.
  replace (F2R (Float radix2 z 0)) with (IZR z) in C by (unfold F2R; simpl; ring).
  rewrite Rlt_bool_true in C by exact H. apply C.
Qed.

Lemma finite_lt : forall x : F64, (Rabs (B2R x) < bpow radix2 1024)%R.
Proof. apply abs_B2R_lt_emax. Qed.

Lemma f_of_small : forall z, (Z.abs z <= 2 ^ 53)%Z ->
  is_finite (f_of z 0) = true /\ B2R (f_of z 0) = IZR z.
Proof.
  intros z Hz.
  assert (E : rnd (IZR z) = IZR z).
  { unfold rnd. apply round_generic; [apply valid_rnd_N|].
    destruct (Z.eq_dec (Z.abs z) (2 ^ 53)) as [He|He].
    - assert (G : generic_format radix2 (FLT_exp (-1074) 53) (bpow radix2 53)).
      { apply generic_format_FLT_bpow; [exact Hprec|lia]. }
      assert (E : IZR (2 ^ 53) = bpow radix2 53) by (rewrite <- (IZR_Zpower radix2) by lia; auto).
      destruct (Z.abs_spec z) as [[_ Ha]|[_ Ha]].
      + rewrite <- Ha, He, E. exact G.
      + replace z with (- (2 ^ 53))%Z by lia. rewrite opp_IZR, E. apply generic_format_opp. exact G.
    - apply generic_format_FLT. exists (Float radix2 z 0).
      + unfold F2R. simpl. ring.
      + change (Z.abs z < 2 ^ 53)%Z. lia.
      + simpl. lia. }
  assert (F : is_finite (f_of z 0) = true).
  { apply f_of_finite. rewrite E, <- abs_IZR.
    apply Rle_lt_trans with (IZR (2 ^ 53)). apply IZR_le; auto.
    change (IZR (Zpower radix2 53) < bpow radix2 1024)%R.
    rewrite IZR_Zpower by lia. apply bpow_lt. lia. }
  split; auto. rewrite f_of_R; auto.
Qed.

(** Error bounds. *)
Definition u := (/ 2 ^ 53)%R.

Lemma bpow_u : (/ 2 * bpow radix2 (-53 + 1))%R = u.
Proof. unfold u. simpl. lra. Qed.

Lemma rnd_err : forall x, exists e t, (Rabs e <= u)%R /\ (Rabs t <= bpow radix2 (-1075))%R /\
  rnd x = (x * (1 + e) + t)%R.
Proof.
  intro x. destruct (error_N_FLT radix2 (-1074) 53 ltac:(lia) (fun z => negb (Z.even z)) x)
    as (e & t & He & Ht & _ & E).
  exists e, t. assert (He' : (Rabs e <= u)%R) by (rewrite <- bpow_u; exact He). repeat split; auto.
  replace (bpow radix2 (-1075)) with (/ 2 * bpow radix2 (-1074))%R; auto.
  change (-1075)%Z with (-1 + -1074)%Z. rewrite bpow_plus. simpl (bpow radix2 (-1)). lra.
Qed.

Lemma rnd_add_err : forall x y : F64, exists e, (Rabs e <= u)%R /\
  rnd (B2R x + B2R y) = ((B2R x + B2R y) * (1 + e))%R.
Proof.
  intros x y.
  destruct (@FLT_plus_error_N_ex radix2 (-1074) 53 Hprec (fun z => negb (Z.even z)) (B2R x) (B2R y)
     (generic_format_B2R 53 1024 x) (generic_format_B2R 53 1024 y)) as (e & He & E).
  exists e. split; [|exact E]. eapply Rle_trans; [exact He|].
  change (u_ro radix2 53) with (/ 2 * bpow radix2 (-53 + 1))%R. rewrite bpow_u. unfold Rdiv.
  assert (0 < u)%R by (unfold u; apply Rinv_0_lt_compat; lra).
  rewrite <- (Rmult_1_r u) at 3. apply Rmult_le_compat_l; [lra|].
  rewrite <- Rinv_1. apply Rinv_le_contravar; lra.
Qed.
