(** C44: decimal literals are rounded correctly. *)
From Coq Require Import ZArith Bool Reals Lra Lia.
From Flocq Require Import IEEE754.BinarySingleNaN Core Round_odd.
From Verif Require Import Base.Scalar Base.FScalar Spec.FloatSpec Proofs.FloatOps Proofs.FloatSphere Proofs.FloatErr.
Local Open Scope R_scope.

(** Exponents for rounding to odd with last place 2^-j or below. *)
Definition odd_exp (j e : Z) : Z := Z.min (- j) (FLT_exp (-1074) 53 e - 2).
Lemma odd_valid : forall j, Valid_exp (odd_exp j).
Proof. intros j e. unfold odd_exp, FLT_exp. split; [lia|]. intro H. split; [lia|]. intros l Hl. lia. Qed.
Lemma odd_NE : forall j, Exists_NE radix2 (odd_exp j).
Proof. intros j. right. intros e. unfold odd_exp, FLT_exp. split; lia. Qed.
Lemma flt_NE : Exists_NE radix2 (FLT_exp (-1074) 53).
Proof. right. intros e. unfold FLT_exp. split; lia. Qed.
Lemma flt_valid : Valid_exp (FLT_exp (-1074) 53).
Proof. exact (@FLT_exp_valid (-1074) 53 Hprec). Qed.

Lemma round_odd_rnd : forall j x, rnd (round radix2 (odd_exp j) Zrnd_odd x) = rnd x.
Proof.
  intros j x. unfold rnd.
  exact (@round_N_odd radix2 eq_refl (FLT_exp (-1074) 53) (odd_exp j) _ flt_valid flt_NE (odd_valid j) (odd_NE j)
    ltac:(intro e; unfold odd_exp; lia) x).
Qed.

(** Quotient with a sticky bit is rounding to odd. *)
Lemma sticky : forall a D, (0 <= a)%Z -> (0 < D)%Z ->
  Zrnd_odd (2 * IZR a / IZR D) = (2 * (a / D) + (if a mod D =? 0 then 0 else 1))%Z.
Proof.
  intros a D Ha HD. pose proof (Z.div_mod a D ltac:(lia)) as E. pose proof (Z.mod_pos_bound a D HD) as Hr.
  set (q := (a / D)%Z) in *. set (r := (a mod D)%Z) in *.
  assert (D0 : 0 < IZR D) by (apply IZR_lt; lia).
  assert (Y : 2 * IZR a / IZR D = IZR (2 * q) + 2 * IZR r / IZR D).
  { rewrite E, plus_IZR, !mult_IZR. field. lra. }
  rewrite Y. destruct (Z.eqb_spec r 0) as [->|Hn].
  - replace (IZR (2 * q) + 2 * 0 / IZR D) with (IZR (2 * q)) by (field; lra).
    unfold Zrnd_odd. rewrite Zfloor_IZR. destruct (Req_EM_T _ _); [lia|congruence].
  - assert (R0 : 0 < 2 * IZR r / IZR D < 2).
    { assert (0 < IZR r < IZR D) by (split; apply IZR_lt; lia). split; [apply Rdiv_lt_0_compat; lra|].
      apply Rmult_lt_reg_r with (IZR D); auto. unfold Rdiv. rewrite Rmult_assoc, Rinv_l by lra. lra. }
    set (y := 2 * IZR r / IZR D) in *.
    destruct (Rlt_le_dec y 1) as [L|L].
    + assert (F : Zfloor (IZR (2 * q) + y) = (2 * q)%Z) by (apply Zfloor_imp; rewrite plus_IZR; lra).
      unfold Zrnd_odd. rewrite F. destruct (Req_EM_T _ _) as [X|X]; [lra|]. rewrite Z.even_mul. cbn [Z.even orb].
      apply Zceil_imp. rewrite plus_IZR, minus_IZR, plus_IZR. lra.
    + assert (F : Zfloor (IZR (2 * q) + y) = (2 * q + 1)%Z) by (apply Zfloor_imp; rewrite !plus_IZR; lra).
      unfold Zrnd_odd. rewrite F. destruct (Req_EM_T _ _) as [X|X]; [reflexivity|].
      rewrite Z.even_add, Z.even_mul. cbn. reflexivity.
Qed.

Lemma f_of_rnd : forall z e, Rabs (IZR z * bpow radix2 e) <= 2 ^ 901 ->
  is_finite (f_of z e) = true /\ B2R (f_of z e) = rnd (IZR z * bpow radix2 e).
Proof.
  intros z e H. unfold f_of. pose proof (binary_normalize_correct 53 1024 Hprec Hmax mode_NE z e false) as C. cbv zeta in C.
  change (SpecFloat.fexp 53 1024) with (FLT_exp (-1074) 53) in C. simpl (round_mode _) in C.
  rewrite Rlt_bool_true in C; [destruct C as (C1 & C2 & _); auto|].
  apply rnd_bound. eapply Rle_trans; [exact H|]. apply Rle_trans with (bpow radix2 901).
  - change (bpow radix2 901) with (IZR (2 ^ 901)). rewrite pow_IZR. apply Rle_refl.
  - apply bpow_le. lia.
Qed.

Lemma f_dec_pos : forall m d, (0 < m)%Z -> (0 <= d)%Z -> IZR m / IZR (10 ^ d) <= 2 ^ 900 ->
  is_finite (f_dec m d) = true /\ B2R (f_dec m d) = rnd (IZR m / IZR (10 ^ d)).
Proof.
  intros m d Hm Hd B. unfold f_dec. set (D := (10 ^ d)%Z) in *.
  assert (HD : (0 < D)%Z) by (apply Z.pow_pos_nonneg; lia).
  pose proof (Z.log2_spec D HD) as [L1 L2]. pose proof (Z.log2_nonneg D) as L0.
  rewrite Z.max_r by lia. set (k := (60 + Z.log2 D)%Z) in *. rewrite Z.abs_eq, Z.sgn_pos by lia. rewrite Z.mul_1_l.
  set (a := (m * 2 ^ k)%Z). assert (Ha : (0 <= a)%Z) by (apply Z.mul_nonneg_nonneg; [lia|apply Z.pow_nonneg; lia]).
  rewrite <- (sticky a D Ha HD).
  assert (D0 : 0 < IZR D) by (apply IZR_lt; lia). assert (m0 : 1 <= IZR m) by (apply IZR_le; lia).
  set (x := IZR m / IZR D) in *.
  assert (x0 : 0 < x) by (apply Rdiv_lt_0_compat; lra).
  assert (Mx : (- Z.log2 D <= mag radix2 x)%Z).
  { apply mag_ge_bpow. rewrite Rabs_pos_eq by lra.
    apply Rle_trans with (/ IZR D).
    - replace (- Z.log2 D - 1)%Z with (- (Z.succ (Z.log2 D)))%Z by lia. rewrite bpow_opp. apply Rinv_le_contravar; auto.
      rewrite <- IZR_Zpower by lia. apply IZR_le. change (radix_val radix2) with 2%Z. lia.
    - unfold x, Rdiv. rewrite <- (Rmult_1_l (/ IZR D)) at 1. apply Rmult_le_compat_r; auto. left. apply Rinv_0_lt_compat; auto. }
  assert (CE : cexp radix2 (odd_exp (k + 1)) x = (- (k + 1))%Z).
  { unfold cexp, odd_exp, FLT_exp. assert (K : k = (60 + Z.log2 D)%Z) by reflexivity. lia. }
  assert (E : IZR (Zrnd_odd (2 * IZR a / IZR D)) * bpow radix2 (- (k + 1)) = round radix2 (odd_exp (k + 1)) Zrnd_odd x).
  { unfold round, scaled_mantissa. rewrite CE. unfold F2R. cbn [Fnum Fexp]. do 2 f_equal. f_equal.
    unfold x, a. rewrite Z.opp_involutive, mult_IZR, (bpow_plus radix2 k 1), <- (IZR_Zpower radix2 k) by lia.
    simpl (bpow radix2 1). change (radix_val radix2) with 2%Z. change (IZR (Z.pow_pos 2 1)) with 2. field. lra. }
  assert (SB : 2 * IZR a / IZR D = x * (2 * IZR (2 ^ k))).
  { unfold x, a. rewrite mult_IZR. field. lra. }
  destruct (f_of_rnd (Zrnd_odd (2 * IZR a / IZR D)) (- (k + 1))) as (F & V).
  { rewrite sticky by auto. set (s := (if (a mod D =? 0)%Z then 0 else 1)%Z).
    assert (0 <= s <= 1)%Z by (unfold s; destruct (_ =? _)%Z; lia).
    pose proof (Z.div_mod a D ltac:(lia)) as Ea. pose proof (Z.mod_pos_bound a D HD) as Hr. pose proof (Z.div_pos a D Ha HD).
    assert (Q : IZR (a / D) <= IZR a / IZR D).
    { apply Rmult_le_reg_r with (IZR D); auto. unfold Rdiv. rewrite Rmult_assoc, Rinv_l, Rmult_1_r by lra.
      rewrite <- mult_IZR. apply IZR_le. lia. }
    assert (P0 : 0 < bpow radix2 (- (k + 1))) by apply bpow_gt_0.
    assert (P1 : bpow radix2 (- (k + 1)) <= 1) by (change 1 with (bpow radix2 0); apply bpow_le; lia).
    assert (P2 : bpow radix2 (- (k + 1)) * (2 * IZR (2 ^ k)) = 1).
    { change (2 ^ k)%Z with (radix_val radix2 ^ k)%Z. rewrite (IZR_Zpower radix2 k) by lia.
      change 2 with (bpow radix2 1). rewrite <- !bpow_plus. replace (- (k + 1) + (1 + k))%Z with 0%Z by lia. reflexivity. }
    rewrite plus_IZR, mult_IZR. assert (0 <= IZR s <= 1) by (split; [apply (IZR_le 0)|apply (IZR_le s 1)]; lia).
    assert (0 <= IZR (a / D)) by (apply (IZR_le 0); lia).
    rewrite Rabs_pos_eq by (apply Rmult_le_pos; lra).
    apply Rle_trans with (x + 1); [|assert (1 <= 2 ^ 900) by (apply pow_R1_Rle; lra); simpl (2 ^ 901); change (2 * 2 ^ 900) with (2 * 2 ^ 900) in *; lra].
    rewrite Rmult_plus_distr_r. apply Rplus_le_compat.
    - apply Rle_trans with (2 * IZR a / IZR D * bpow radix2 (- (k + 1))).
      + apply Rmult_le_compat_r; lra.
      + rewrite SB. rewrite Rmult_assoc, (Rmult_comm (2 * _)), P2. lra.
    - apply Rle_trans with (1 * 1); [apply Rmult_le_compat; lra|lra]. }
  split; [exact F|]. rewrite V, E. apply round_odd_rnd.
Qed.

Lemma f_dec_zero : forall d, is_finite (f_dec 0 d) = true /\ B2R (f_dec 0 d) = 0.
Proof.
  intro d. unfold f_dec. cbn [Z.sgn Z.mul]. destruct (f_of_rnd 0 (- (Z.max 0 (60 + Z.log2 (10 ^ d)) + 1))) as (F & V).
  - rewrite Rmult_0_l, Rabs_R0. apply pow_le. lra.
  - split; [exact F|]. rewrite V, Rmult_0_l. apply rnd_0.
Qed.
