(** Error propagation for finite binary64 operations, without overflow. *)
From Coq Require Import Bool ZArith Lia Reals Lra Psatz.
From Flocq Require Import IEEE754.BinarySingleNaN Core Relative.
From Verif Require Import Base.Scalar Base.FScalar Spec.RuleSpec Spec.FloatSpec Proofs.FloatOps Proofs.FloatSphere Proofs.PiBounds.
Local Open Scope R_scope.

Definition fsqrt (x : F64) : F64 := @Bsqrt 53 1024 Hprec Hmax mode_NE x.

Lemma abs_of : forall x e, Rabs x <= e -> - e <= x <= e.
Proof. intros. apply Rabs_le_inv. auto. Qed.

(** The real number x, rounded, is finite when |x| <= 2^1000. *)
Lemma rnd_bound : forall x, Rabs x <= bpow radix2 1000 -> Rabs (rnd x) < bpow radix2 1024.
Proof.
  intros x H. apply Rle_lt_trans with (bpow radix2 1000); [|apply bpow_lt; lia].
  unfold rnd. apply abs_round_le_generic; auto.
  - apply FLT_exp_valid. exact Hprec.
  - apply valid_rnd_N.
  - apply generic_format_FLT_bpow; [exact Hprec|lia].
Qed.

Lemma big_pow : forall x, Rabs x <= 2 ^ 900 -> Rabs x <= bpow radix2 1000.
Proof.
  intros x H. eapply Rle_trans; [exact H|]. replace (2 ^ 900) with (bpow radix2 900).
  - apply bpow_le. lia.
  - change (bpow radix2 900) with (IZR (2 ^ 900)). rewrite pow_IZR. reflexivity.
Qed.

(** x is finite and its value is v (1 + d) with |d| <= e. *)
Definition rel (x : F64) (v e : R) : Prop :=
  is_finite x = true /\ exists d, Rabs d <= e /\ B2R x = v * (1 + d).
(** x is finite and within e of v. *)
Definition near (x : F64) (v e : R) : Prop := is_finite x = true /\ Rabs (B2R x - v) <= e.

Lemma rel_near : forall x v e, rel x v e -> near x v (e * Rabs v).
Proof.
  intros x v e (F & d & Hd & E). split; [exact F|]. rewrite E.
  replace (v * (1 + d) - v) with (d * v) by ring. rewrite Rabs_mult.
  apply Rmult_le_compat_r; [apply Rabs_pos|auto].
Qed.
Lemma rel_weak : forall x v e e', rel x v e -> e <= e' -> rel x v e'.
Proof. intros x v e e' (F & d & Hd & E) H. split; auto. exists d. split; [lra|auto]. Qed.
Lemma near_weak : forall x v e e', near x v e -> e <= e' -> near x v e'.
Proof. intros x v e e' (F & H) H'. split; auto. lra. Qed.
Lemma exact_rel : forall x v, is_finite x = true -> B2R x = v -> rel x v 0.
Proof. intros x v F E. split; auto. exists 0. rewrite Rabs_R0. split; [lra|]. rewrite E. ring. Qed.
Lemma int_rel : forall z, (Z.abs z <= 2 ^ 53)%Z -> rel (f_of z 0) (IZR z) 0.
Proof. intros z H. destruct (f_of_small z H) as [F E]. apply exact_rel; auto. Qed.

Lemma finite_mul : forall x y : F64, is_finite x = true -> is_finite y = true ->
  Rabs (B2R x * B2R y) <= 2 ^ 900 -> is_finite (fmul x y) = true.
Proof. intros x y Fx Fy H. apply fmul_finite; auto. apply rnd_bound, big_pow, H. Qed.
Lemma finite_add : forall x y : F64, is_finite x = true -> is_finite y = true ->
  Rabs (B2R x + B2R y) <= 2 ^ 900 -> is_finite (fadd x y) = true.
Proof. intros x y Fx Fy H. apply fadd_finite; auto. apply rnd_bound, big_pow, H. Qed.
Lemma finite_sub : forall x y : F64, is_finite x = true -> is_finite y = true ->
  Rabs (B2R x - B2R y) <= 2 ^ 900 -> is_finite (fsub x y) = true /\ B2R (fsub x y) = rnd (B2R x - B2R y).
Proof.
  intros x y Fx Fy H. unfold fsub.
  pose proof (Bminus_correct 53 1024 Hprec Hmax mode_NE x y Fx Fy) as C.
  rewrite Rlt_bool_true in C by exact (rnd_bound _ (big_pow _ H)). destruct C as (C1 & C2 & _). auto.
Qed.
Lemma finite_div : forall x y : F64, is_finite x = true -> B2R y <> 0 ->
  Rabs (B2R x / B2R y) <= 2 ^ 900 -> is_finite (fdiv x y) = true /\ B2R (fdiv x y) = rnd (B2R x / B2R y).
Proof.
  intros x y Fx Hy H. unfold fdiv.
  pose proof (Bdiv_correct 53 1024 Hprec Hmax mode_NE x y Hy) as C.
  rewrite Rlt_bool_true in C by exact (rnd_bound _ (big_pow _ H)). destruct C as (C1 & C2 & _). rewrite Fx in C2. auto.
Qed.
Lemma sqrt_correct : forall x : F64, is_finite x = true -> 0 <= B2R x ->
  is_finite (fsqrt x) = true /\ B2R (fsqrt x) = rnd (sqrt (B2R x)).
Proof.
  intros x Fx H. unfold fsqrt. destruct (Bsqrt_correct 53 1024 Hprec Hmax mode_NE x) as (C1 & C2 & _).
  split; [|exact C1]. rewrite C2. destruct x as [s|[]| |[] mm e B]; auto; try discriminate Fx.
  exfalso. assert (B2R (@B754_finite 53 1024 true mm e B) < 0); [|lra].
  simpl. apply F2R_lt_0. simpl. lia.
Qed.

Definition tiny_ok (v : R) : Prop := bpow radix2 (-1000) <= Rabs v.
Lemma tiny_1022 : forall v d, tiny_ok v -> Rabs d <= / 2 -> bpow radix2 (-1022) <= Rabs (v * (1 + d)) \/ v * (1 + d) = 0.
Proof.
  intros v d H Hd. left. rewrite Rabs_mult. apply abs_of in Hd. unfold tiny_ok in H.
  rewrite (Rabs_pos_eq (1 + d)) by lra.
  apply Rle_trans with (bpow radix2 (-1000) * / 2).
  - change (/ 2) with (bpow radix2 (-1)). rewrite <- bpow_plus. apply bpow_le. lia.
  - assert (0 < bpow radix2 (-1000)) by apply bpow_gt_0. apply Rmult_le_compat; lra.
Qed.

(** Product and quotient of values known up to a relative error. *)
Lemma rel_fmul : forall x y v w e e', rel x v e -> rel y w e' -> e <= 1 / 1000 -> e' <= 1 / 1000 ->
  tiny_ok (v * w) -> Rabs (v * w) <= 2 ^ 899 -> rel (fmul x y) (v * w) (e + e' + e * e' + u * (1 + e) * (1 + e')).
Proof.
  intros x y v w e e' (Fx & d & Hd & Ex) (Fy & d' & Hd' & Ey) He He' Hs Hb.
  pose proof u_pos as U. pose proof u_small as U1.
  pose proof (abs_of _ _ Hd) as Hd1. pose proof (abs_of _ _ Hd') as Hd1'.
  assert (P : B2R x * B2R y = (v * w) * (1 + (d + d' + d * d'))) by (rewrite Ex, Ey; ring).
  assert (D : Rabs (d + d' + d * d') <= e + e' + e * e').
  { eapply Rle_trans; [apply Rabs_triang|]. apply Rplus_le_compat.
    - eapply Rle_trans; [apply Rabs_triang|]. lra.
    - rewrite Rabs_mult. apply Rmult_le_compat; auto; apply Rabs_pos. }
  set (D0 := d + d' + d * d') in *.
  assert (D2 : Rabs D0 <= / 2) by nra.
  assert (F : is_finite (fmul x y) = true).
  { apply finite_mul; auto. rewrite P, Rabs_mult. apply abs_of in D2.
    rewrite (Rabs_pos_eq (1 + D0)) by lra. replace (2 ^ 900) with (2 ^ 899 * 2) by (change (2 ^ 900) with (2 * 2 ^ 899); ring).
    apply Rmult_le_compat; [apply Rabs_pos|lra|auto|lra]. }
  split; [exact F|]. destruct (fmul_R _ _ F) as (_ & _ & ->). rewrite P.
  destruct (rel_mul _ (tiny_1022 _ _ Hs D2)) as (e3 & He3 & ->).
  exists (D0 + e3 * (1 + D0)). split; [|ring].
  eapply Rle_trans; [apply Rabs_triang|]. apply Rplus_le_compat; [exact D|].
  rewrite Rabs_mult, Rmult_assoc. apply Rmult_le_compat; auto; try apply Rabs_pos.
  replace (1 + D0) with ((1 + d) * (1 + d')) by (unfold D0; ring). rewrite Rabs_mult.
  apply Rmult_le_compat; try apply Rabs_pos; rewrite Rabs_pos_eq; lra.
Qed.
Lemma rel_fdiv : forall x y v w e e', rel x v e -> rel y w e' -> e <= 1 / 1000 -> e' <= 1 / 1000 -> w <> 0 ->
  tiny_ok (v / w) -> Rabs (v / w) <= 2 ^ 899 -> rel (fdiv x y) (v / w) (e + 2 * e' + 2 * e * e' + u * 2).
Proof.
  intros x y v w e e' (Fx & d & Hd & Ex) (Fy & d' & Hd' & Ey) He He' Hw Hs Hb.
  pose proof u_pos as U. pose proof u_small as U1.
  pose proof (abs_of _ _ Hd) as Hd1. pose proof (abs_of _ _ Hd') as Hd1'.
  assert (e0 : 0 <= e) by (eapply Rle_trans; [apply Rabs_pos|exact Hd]).
  assert (e0' : 0 <= e') by (eapply Rle_trans; [apply Rabs_pos|exact Hd']).
  assert (Y : B2R y <> 0) by (rewrite Ey; apply Rmult_integral_contrapositive; split; [auto|lra]).
  set (D0 := (1 + d) / (1 + d') - 1).
  assert (P : B2R x / B2R y = (v / w) * (1 + D0)) by (rewrite Ex, Ey; unfold D0; field; split; [lra|auto]).
  assert (D : Rabs D0 <= e + 2 * e' + 2 * e * e' /\ Rabs D0 <= / 2 /\ 1 + D0 <= 2).
  { unfold D0. replace ((1 + d) / (1 + d') - 1) with ((d - d') * / (1 + d')) by (field; lra).
    assert (I : 0 < / (1 + d') <= 1 + 2 * e').
    { split; [apply Rinv_0_lt_compat; lra|]. apply Rmult_le_reg_l with (1 + d'); [lra|]. rewrite Rinv_r by lra. nra. }
    assert (A : Rabs ((d - d') * / (1 + d')) <= (e + e') * (1 + 2 * e')).
    { rewrite Rabs_mult. apply Rmult_le_compat; try apply Rabs_pos.
      - unfold Rminus. eapply Rle_trans; [apply Rabs_triang|]. rewrite Rabs_Ropp. lra.
      - rewrite Rabs_pos_eq; lra. }
    assert (B : (e + e') * (1 + 2 * e') <= e + 2 * e' + 2 * e * e') by nra.
    split; [lra|]. assert ((e + e') * (1 + 2 * e') <= / 2) by nra. split; [lra|].
    pose proof (abs_of _ _ A). lra. }
  destruct D as (D & D2 & D3).
  assert (Q : Rabs (B2R x / B2R y) <= 2 ^ 900).
  { rewrite P, Rabs_mult. pose proof (abs_of _ _ D2). rewrite (Rabs_pos_eq (1 + D0)) by lra.
    replace (2 ^ 900) with (2 ^ 899 * 2) by (change (2 ^ 900) with (2 * 2 ^ 899); ring). apply Rmult_le_compat; [apply Rabs_pos|lra|auto|lra]. }
  destruct (finite_div x y Fx Y Q) as (F & E). split; [exact F|]. rewrite E, P.
  destruct (rel_mul _ (tiny_1022 _ _ Hs D2)) as (e3 & He3 & ->).
  exists (D0 + e3 * (1 + D0)). split; [|ring].
  eapply Rle_trans; [apply Rabs_triang|]. apply Rplus_le_compat; [exact D|].
  rewrite Rabs_mult. pose proof (abs_of _ _ D2). rewrite (Rabs_pos_eq (1 + D0)) by lra.
  apply Rmult_le_compat; auto; try apply Rabs_pos; lra.
Qed.

(** Absolute errors. *)
Lemma near_fmul : forall x y v w e e' K K', near x v e -> near y w e' -> Rabs (B2R x) <= K -> Rabs w <= K' ->
  Rabs (B2R y) <= K' -> K * K' <= 2 ^ 900 ->
  near (fmul x y) (v * w) (K * e' + K' * e + u * (K * K') + tiny).
Proof.
  intros x y v w e e' K K' [Fx Hx] [Fy Hy] HK HK' Hy' Hb.
  assert (K0 : 0 <= K) by (eapply Rle_trans; [apply Rabs_pos|exact HK]).
  assert (K0' : 0 <= K') by (eapply Rle_trans; [apply Rabs_pos|exact HK']).
  assert (M : Rabs (B2R x * B2R y) <= K * K') by (rewrite Rabs_mult; apply Rmult_le_compat; auto; apply Rabs_pos).
  assert (F : is_finite (fmul x y) = true) by (apply finite_mul; auto; lra).
  split; [exact F|]. destruct (fmul_R _ _ F) as (_ & _ & ->).
  destruct (rnd_err (B2R x * B2R y)) as (e1 & t & He1 & Ht & ->).
  replace (B2R x * B2R y * (1 + e1) + t - v * w)
    with ((B2R x * (B2R y - w) + w * (B2R x - v)) + (B2R x * B2R y * e1 + t)) by ring.
  pose proof u_pos. rewrite tiny_half. assert (0 < bpow radix2 (-1075)) by apply bpow_gt_0.
  eapply Rle_trans; [apply Rabs_triang|].
  assert (A1 : Rabs (B2R x * (B2R y - w) + w * (B2R x - v)) <= K * e' + K' * e).
  { eapply Rle_trans; [apply Rabs_triang|]. rewrite !Rabs_mult.
    apply Rplus_le_compat; apply Rmult_le_compat; auto; apply Rabs_pos. }
  assert (A2 : Rabs (B2R x * B2R y * e1 + t) <= u * (K * K') + bpow radix2 (-1075)).
  { eapply Rle_trans; [apply Rabs_triang|]. apply Rplus_le_compat; [|auto].
    rewrite (Rabs_mult _ e1), Rmult_comm. apply Rmult_le_compat; auto; apply Rabs_pos. }
  lra.
Qed.
Lemma near_fadd : forall x y v w e e' K, near x v e -> near y w e' -> Rabs (B2R x + B2R y) <= K -> K <= 2 ^ 900 ->
  near (fadd x y) (v + w) (e + e' + u * K).
Proof.
  intros x y v w e e' K [Fx Hx] [Fy Hy] HK Hb.
  assert (F : is_finite (fadd x y) = true) by (apply finite_add; auto; lra).
  split; [exact F|]. destruct (fadd_R _ _ F) as (_ & _ & ->).
  destruct (rnd_add_err x y) as (e1 & He1 & ->). pose proof u_pos.
  replace ((B2R x + B2R y) * (1 + e1) - (v + w)) with ((B2R x - v) + (B2R y - w) + (B2R x + B2R y) * e1) by ring.
  eapply Rle_trans; [apply Rabs_triang|]. apply Rplus_le_compat.
  - eapply Rle_trans; [apply Rabs_triang|]. lra.
  - rewrite Rabs_mult, Rmult_comm. apply Rmult_le_compat; auto; apply Rabs_pos.
Qed.
Lemma rnd_sub_err : forall x y : F64, exists e, Rabs e <= u /\ rnd (B2R x - B2R y) = (B2R x - B2R y) * (1 + e).
Proof. intros x y. destruct (rnd_add_err x (Bopp y)) as (e & He & E). rewrite B2R_Bopp in E. exists e. auto. Qed.
Lemma near_fsub : forall x y v w e e' K, near x v e -> near y w e' -> Rabs (B2R x - B2R y) <= K -> K <= 2 ^ 900 ->
  near (fsub x y) (v - w) (e + e' + u * K).
Proof.
  intros x y v w e e' K [Fx Hx] [Fy Hy] HK Hb.
  destruct (finite_sub x y Fx Fy ltac:(lra)) as (F & E). split; [exact F|]. rewrite E.
  destruct (rnd_sub_err x y) as (e1 & He1 & ->). pose proof u_pos.
  replace ((B2R x - B2R y) * (1 + e1) - (v - w)) with ((B2R x - v) + - (B2R y - w) + (B2R x - B2R y) * e1) by ring.
  eapply Rle_trans; [apply Rabs_triang|]. apply Rplus_le_compat.
  - eapply Rle_trans; [apply Rabs_triang|]. rewrite Rabs_Ropp. lra.
  - rewrite Rabs_mult, Rmult_comm. apply Rmult_le_compat; auto; apply Rabs_pos.
Qed.
Lemma sqrt_gt_tiny : forall x : F64, 0 < B2R x -> bpow radix2 (-1022) <= sqrt (B2R x).
Proof.
  intros x H. apply Rle_trans with (bpow radix2 (-537)); [apply bpow_le; lia|].
  replace (bpow radix2 (-537)) with (sqrt (bpow radix2 (-1074))).
  - apply sqrt_le_1_alt. pose proof (generic_format_B2R 53 1024 x) as G.
    apply (generic_format_ge_bpow radix2 (FLT_exp (-1074) 53) (-1074)); auto.
    intro e. unfold FLT_exp. lia.
  - apply sqrt_lem_1; try (left; apply bpow_gt_0). rewrite <- bpow_plus. reflexivity.
Qed.
(** Square root. *)
Lemma fsqrt_err : forall x : F64, is_finite x = true -> 0 <= B2R x ->
  is_finite (fsqrt x) = true /\ exists e, Rabs e <= u /\ B2R (fsqrt x) = sqrt (B2R x) * (1 + e).
Proof.
  intros x F H. destruct (sqrt_correct x F H) as (F' & E). split; [exact F'|]. rewrite E. apply rel_mul.
  destruct (Req_dec (B2R x) 0) as [Z|Z]; [right; rewrite Z; apply sqrt_0|left].
  rewrite Rabs_pos_eq by apply sqrt_pos. apply sqrt_gt_tiny. lra.
Qed.

(** The constant M_PI. *)
Definition fpi : F64 := f_of 884279719003555 (-48).
Lemma f_of_exact : forall z e, (Z.abs z < 2 ^ 53)%Z -> (-1000 <= e <= 900)%Z ->
  is_finite (f_of z e) = true /\ B2R (f_of z e) = IZR z * bpow radix2 e.
Proof.
  intros z e Hz He. unfold f_of.
  pose proof (binary_normalize_correct 53 1024 Hprec Hmax mode_NE z e false) as C. cbv zeta in C.
  assert (G : round radix2 (FLT_exp (-1074) 53) ZnearestE (F2R (Float radix2 z e)) = IZR z * bpow radix2 e).
  { rewrite round_generic; [reflexivity|apply valid_rnd_N|]. apply generic_format_FLT. exists (Float radix2 z e); auto.
    simpl. lia. }
  change (SpecFloat.fexp 53 1024) with (FLT_exp (-1074) 53) in C. simpl (round_mode _) in C. rewrite G in C.
  rewrite Rlt_bool_true in C; [destruct C as (C1 & C2 & _); auto|].
  rewrite Rabs_mult, (Rabs_pos_eq (bpow radix2 e)) by (left; apply bpow_gt_0). rewrite <- abs_IZR.
  apply Rlt_le_trans with (bpow radix2 53 * bpow radix2 e).
  - apply Rmult_lt_compat_r; [apply bpow_gt_0|]. change (bpow radix2 53) with (IZR (2 ^ 53)). apply IZR_lt. auto.
  - rewrite <- bpow_plus. apply bpow_le. lia.
Qed.
Lemma fpi_rel : rel fpi PI u.
Proof.
  destruct (f_of_exact 884279719003555 (-48) eq_refl ltac:(lia)) as (F & E). split; [exact F|].
  exists (B2R fpi / PI - 1). split; [|field; pose proof PI_RGT_0; lra].
  unfold fpi. rewrite E. unfold u. change (bpow radix2 (-48)) with (/ IZR (2 ^ 48)).
  replace (IZR (2 ^ 48)) with 281474976710656 by reflexivity.
  pose proof pi_bounds as [L U]. assert (P : 0 < PI) by lra.
  apply Rabs_le. split; apply Rmult_le_reg_r with PI; auto; unfold Rdiv; rewrite Rmult_minus_distr_r, Rmult_assoc, Rinv_l by lra; lra.
Qed.
