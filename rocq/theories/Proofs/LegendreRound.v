(** C45: rounding errors of the Legendre recurrence in binary64. *)
From Coq Require Import List Bool Arith ZArith Lia Reals Lra Psatz.
From Flocq Require Import IEEE754.BinarySingleNaN Core.
From Verif Require Import Base.Outcome Base.Scalar Base.RScalar Base.FScalar Model.Primitive Spec.RuleSpec Spec.Sums Spec.RealRules
  Spec.FloatSpec Spec.LibmSpec Proofs.FloatOps Proofs.FloatSphere Proofs.FloatErr Proofs.ChebFloat Proofs.Legendre.
Import ListNotations.
Local Open Scope R_scope.

(** One operation, absolute error. *)
Lemma tiny_u40 : 0 < tiny /\ tiny <= u / 1000000.
Proof.
  split; [apply bpow_gt_0|]. eapply Rle_trans; [apply tiny_u|]. pose proof u_pos. apply Rmult_le_compat_l; [lra|].
  rewrite <- (Rmult_1_l (/ 2 ^ 60)). lra.
Qed.
Lemma mul_abs : forall (x y : F64) K, is_finite x = true -> is_finite y = true -> Rabs (B2R x * B2R y) <= K -> K <= 2 ^ 900 ->
  is_finite (fmul x y) = true /\ Rabs (B2R (fmul x y) - B2R x * B2R y) <= u * K + tiny.
Proof.
  intros x y K Fx Fy H HK. assert (F : is_finite (fmul x y) = true) by (apply finite_mul; auto; lra). split; auto.
  destruct (fmul_R _ _ F) as (_ & _ & ->). destruct (rnd_err (B2R x * B2R y)) as (e & t & He & Ht & ->).
  set (v := B2R x * B2R y) in *. replace (v * (1 + e) + t - v) with (v * e + t) by ring.
  eapply Rle_trans; [apply Rabs_triang|]. rewrite Rabs_mult. pose proof (Rabs_pos v). pose proof (Rabs_pos e).
  rewrite tiny_half. assert (0 < bpow radix2 (-1075)) by apply bpow_gt_0. nra.
Qed.
Lemma div_abs : forall (x y : F64) K, is_finite x = true -> B2R y <> 0 -> Rabs (B2R x / B2R y) <= K -> K <= 2 ^ 900 ->
  is_finite (fdiv x y) = true /\ Rabs (B2R (fdiv x y) - B2R x / B2R y) <= u * K + tiny.
Proof.
  intros x y K Fx Fy H HK. destruct (finite_div x y Fx Fy ltac:(lra)) as (F & ->). split; auto.
  destruct (rnd_err (B2R x / B2R y)) as (e & t & He & Ht & ->).
  set (v := B2R x / B2R y) in *. replace (v * (1 + e) + t - v) with (v * e + t) by ring.
  eapply Rle_trans; [apply Rabs_triang|]. rewrite Rabs_mult. pose proof (Rabs_pos v). pose proof (Rabs_pos e).
  rewrite tiny_half. assert (0 < bpow radix2 (-1075)) by apply bpow_gt_0. nra.
Qed.
Lemma sub_abs : forall (x y : F64) K, is_finite x = true -> is_finite y = true -> Rabs (B2R x - B2R y) <= K -> K <= 2 ^ 900 ->
  is_finite (fsub x y) = true /\ Rabs (B2R (fsub x y) - (B2R x - B2R y)) <= u * K.
Proof.
  intros x y K Fx Fy H HK. destruct (finite_sub x y Fx Fy ltac:(lra)) as (F & ->). split; auto.
  destruct (rnd_sub_err x y) as (e & He & ->). set (v := B2R x - B2R y) in *.
  replace (v * (1 + e) - v) with (v * e) by ring. rewrite Rabs_mult. pose proof (Rabs_pos v). pose proof (Rabs_pos e). nra.
Qed.
Lemma big900 : forall K, K <= 2 ^ 60 -> K <= 2 ^ 900.
Proof. intros K H. eapply Rle_trans; [exact H|]. apply Rle_pow; [lra|lia]. Qed.
Lemma pow60 : 1000000000000000000 <= 2 ^ 60.
Proof. lra. Qed.

(** One step of the recurrence. *)
Lemma step_err : forall (x p p1 : F64) (m : nat), (1 <= m)%nat -> (Z.of_nat m <= 2 ^ 20)%Z ->
  is_finite x = true -> is_finite p = true -> is_finite p1 = true ->
  Rabs (B2R x) <= 1 -> Rabs (B2R p) <= 1.01 -> Rabs (B2R p1) <= 1.01 ->
  Rabs (((2 * INR m - 1) * B2R x * B2R p - (INR m - 1) * B2R p1) / INR m) <= 1.01 ->
  let p' := fdiv (fsub (fmul (fmul (fsub (fmul (f_of 2 0) (f_of (Z.of_nat m) 0)) (f_of 1 0)) x) p)
                       (fmul (fsub (f_of (Z.of_nat m) 0) (f_of 1 0)) p1)) (f_of (Z.of_nat m) 0) in
  is_finite p' = true /\
  Rabs (B2R p' - ((2 * INR m - 1) * B2R x * B2R p - (INR m - 1) * B2R p1) / INR m) <= 8 * u.
Proof.
  intros x p p1 m H1 Hm Fx Fp Fq Bx Bp Bq HT p'. pose proof u_pos as U0. pose proof u_small as U1.
  destruct tiny_u40 as (T0 & T1).
  assert (M1 : 1 <= INR m) by (apply (le_INR 1); auto).
  assert (M2 : INR m <= 1100000).
  { rewrite INR_IZR_INZ. apply Rle_trans with (IZR (2 ^ 20)); [apply IZR_le; exact Hm|]. change (2 ^ 20)%Z with 1048576%Z. lra. }
  assert (EM : IZR (Z.of_nat m) = INR m) by (symmetry; apply INR_IZR_INZ).
  destruct (int_rel (Z.of_nat m) ltac:(lia)) as (Fm & dm & Hd & Em).
  assert (dm = 0) by (pose proof (abs_of _ _ Hd); lra). subst dm. rewrite EM, Rplus_0_r, Rmult_1_r in Em.
  assert (A1 : is_finite (fsub (fmul (f_of 2 0) (f_of (Z.of_nat m) 0)) (f_of 1 0)) = true /\
               B2R (fsub (fmul (f_of 2 0) (f_of (Z.of_nat m) 0)) (f_of 1 0)) = 2 * INR m - 1).
  { destruct (fsub_int _ (2 * Z.of_nat m) 1 (fmul_int 2 (Z.of_nat m) ltac:(lia) ltac:(lia) ltac:(lia)) ltac:(lia) ltac:(lia))
      as (F & d & Hd' & E). assert (d = 0) by (pose proof (abs_of _ _ Hd'); lra). subst d. split; auto.
    rewrite E, minus_IZR, mult_IZR, EM. ring. }
  assert (A2 : is_finite (fsub (f_of (Z.of_nat m) 0) (f_of 1 0)) = true /\
               B2R (fsub (f_of (Z.of_nat m) 0) (f_of 1 0)) = INR m - 1).
  { destruct (fsub_int _ (Z.of_nat m) 1 (int_rel (Z.of_nat m) ltac:(lia)) ltac:(lia) ltac:(lia))
      as (F & d & Hd' & E). assert (d = 0) by (pose proof (abs_of _ _ Hd'); lra). subst d. split; auto.
    rewrite E, minus_IZR, EM. ring. }
  destruct A1 as (Fc & Ec). destruct A2 as (Fe & Ee).
  set (c := fsub (fmul (f_of 2 0) (f_of (Z.of_nat m) 0)) (f_of 1 0)) in *.
  set (e := fsub (f_of (Z.of_nat m) 0) (f_of 1 0)) in *. set (fm := f_of (Z.of_nat m) 0) in *.
  set (M := INR m) in *. clearbody c e fm M. clear H1 Hm EM.
  set (X := B2R x) in *. set (P := B2R p) in *. set (Q := B2R p1) in *.
  pose proof (pow60) as P60.
  (* c * x *)
  destruct (mul_abs c x (2 * M - 1) Fc Fx) as (F1 & E1).
  { rewrite Ec, Rabs_mult, (Rabs_pos_eq (2 * M - 1)) by lra. fold X. nra. }
  { apply big900. lra. }
  rewrite Ec in E1. fold X in E1.
  set (a := fmul c x) in *. 
  assert (Ba : Rabs (B2R a) <= (2 * M - 1) * 1.001).
  { replace (B2R a) with ((B2R a - (2 * M - 1) * X) + (2 * M - 1) * X) by ring. eapply Rle_trans; [apply Rabs_triang|].
    rewrite (Rabs_mult (2 * M - 1)), (Rabs_pos_eq (2 * M - 1)) by lra. nra. }
  destruct (mul_abs a p ((2 * M - 1) * 1.02) F1 Fp) as (F2 & E2).
  { rewrite Rabs_mult. fold P. apply Rle_trans with ((2 * M - 1) * 1.001 * 1.01); [apply Rmult_le_compat; auto using Rabs_pos|nra]. }
  { apply big900. lra. }
  fold P in E2. set (b := fmul a p) in *.
  assert (Eb : Rabs (B2R b - (2 * M - 1) * X * P) <= 2.04 * u * (2 * M - 1) + 3 * tiny).
  { replace (B2R b - (2 * M - 1) * X * P) with ((B2R b - B2R a * P) + (B2R a - (2 * M - 1) * X) * P) by ring.
    eapply Rle_trans; [apply Rabs_triang|]. rewrite (Rabs_mult (B2R a - _)).
    assert (Rabs (B2R a - (2 * M - 1) * X) * Rabs P <= (u * (2 * M - 1) + tiny) * 1.01)
      by (apply Rmult_le_compat; auto using Rabs_pos). nra. }
  destruct (mul_abs e p1 ((M - 1) * 1.01) Fe Fq) as (F3 & E3).
  { rewrite Ee, Rabs_mult, (Rabs_pos_eq (M - 1)) by lra. fold Q. apply Rmult_le_compat_l; lra. }
  { apply big900. lra. }
  rewrite Ee in E3. fold Q in E3. set (g := fmul e p1) in *.
  set (W := (2 * M - 1) * X * P - (M - 1) * Q) in *.
  assert (BW : Rabs W <= 1.01 * M).
  { replace W with (W / M * M) by (field; lra). rewrite Rabs_mult, (Rabs_pos_eq M) by lra. apply Rmult_le_compat_r; lra. }
  assert (Ebg : Rabs (B2R b - B2R g - W) <= 2.04 * u * (2 * M - 1) + 1.01 * u * (M - 1) + 4 * tiny).
  { unfold W. replace (B2R b - B2R g - ((2 * M - 1) * X * P - (M - 1) * Q)) with
      ((B2R b - (2 * M - 1) * X * P) - (B2R g - (M - 1) * Q)) by ring.
    eapply Rle_trans; [apply Rabs_triang|]. rewrite Rabs_Ropp. lra. }
  assert (SM : 2.04 * u * (2 * M - 1) + 1.01 * u * (M - 1) + 4 * tiny <= 5.1 * u * M).
  { assert (0 <= u * M) by nra. nra. }
  destruct (sub_abs b g (1.02 * M) F2 F3) as (F4 & E4).
  { replace (B2R b - B2R g) with ((B2R b - B2R g - W) + W) by ring. eapply Rle_trans; [apply Rabs_triang|]. nra. }
  { apply big900. lra. }
  set (s := fsub b g) in *.
  assert (Es : Rabs (B2R s - W) <= 6.12 * u * M).
  { replace (B2R s - W) with ((B2R s - (B2R b - B2R g)) + (B2R b - B2R g - W)) by ring.
    eapply Rle_trans; [apply Rabs_triang|]. lra. }
  assert (Em' : B2R fm <> 0) by (rewrite Em; lra).
  assert (Eq : Rabs (B2R s / M - W / M) <= 6.12 * u).
  { replace (B2R s / M - W / M) with ((B2R s - W) / M) by (field; lra). unfold Rdiv.
    rewrite Rabs_mult, Rabs_inv, (Rabs_pos_eq M) by lra. apply Rmult_le_reg_r with M; [lra|].
    rewrite Rmult_assoc, Rinv_l, Rmult_1_r by lra. lra. }
  destruct (div_abs s fm 1.02 F4 Em') as (F5 & E5).
  { rewrite Em. replace (B2R s / M) with ((B2R s / M - W / M) + W / M) by ring. eapply Rle_trans; [apply Rabs_triang|]. lra. }
  { apply big900. lra. }
  split; [exact F5|]. rewrite Em in E5. fold p' in E5.
  replace (B2R p' - W / M) with ((B2R p' - B2R s / M) + (B2R s / M - W / M)) by ring.
  eapply Rle_trans; [apply Rabs_triang|]. lra.
Qed.

(** The quadratic form a^2 - 2xab + b^2 is not increased by a step of the recurrence. *)
Definition en (x a b : R) : R := a * a - 2 * x * (a * b) + b * b.
Lemma en_step : forall x a b M T, -1 <= x <= 1 -> 1 <= M -> en x a b <= T ->
  en x (((2 * M - 1) * x * a - (M - 1) * b) / M) a <= T.
Proof.
  intros x a b M T Hx HM H. eapply Rle_trans; [|exact H].
  set (a' := ((2 * M - 1) * x * a - (M - 1) * b) / M).
  assert (E : a' - x * a = (1 - / M) * (x * a - b)) by (unfold a'; field; lra).
  replace (en x a' a) with ((a' - x * a) * (a' - x * a) + (1 - x * x) * (a * a)) by (unfold en; ring).
  replace (en x a b) with ((x * a - b) * (x * a - b) + (1 - x * x) * (a * a)) by (unfold en; ring).
  rewrite E. apply Rplus_le_compat_r.
  assert (K : 0 <= 1 - / M <= 1).
  { assert (0 < / M) by (apply Rinv_0_lt_compat; lra). assert (/ M <= 1) by (rewrite <- Rinv_1; apply Rinv_le_contravar; lra). lra. }
  replace ((1 - / M) * (x * a - b) * ((1 - / M) * (x * a - b))) with ((1 - / M) * (1 - / M) * ((x * a - b) * (x * a - b))) by ring.
  assert (Q : 0 <= (x * a - b) * (x * a - b)) by exact (Rle_0_sqr _).
  set (k := 1 - / M) in *. clearbody k. set (y := (x * a - b) * (x * a - b)) in *. clearbody y.
  assert (k * k <= 1) by nra. nra.
Qed.
Lemma sq_abs : forall a T, 0 <= T -> a * a <= T * T -> Rabs a <= T.
Proof. intros a T HT H. apply Rabs_le. split; nra. Qed.
Lemma en_bounds : forall x a b T s, -1 <= x <= 1 -> 0 <= T -> 0 < s -> s * s <= 1 - x * x -> en x a b <= T * T ->
  Rabs a <= T / s /\ Rabs b <= T / s /\ Rabs (x * a - b) <= T /\ Rabs (a - x * b) <= T.
Proof.
  intros x a b T s Hx HT Hs Hs2 H.
  assert (K : forall c d, en x c d <= T * T -> Rabs c <= T / s /\ Rabs (x * c - d) <= T).
  { intros c d G.
    replace (en x c d) with ((x * c - d) * (x * c - d) + (1 - x * x) * (c * c)) in G by (unfold en; ring).
    assert (0 <= c * c) by exact (Rle_0_sqr _). assert (0 <= (x * c - d) * (x * c - d)) by exact (Rle_0_sqr _). split.
    - replace (Rabs c) with (Rabs (c * s) / s).
      + apply Rmult_le_compat_r; [left; apply Rinv_0_lt_compat; auto|]. apply sq_abs; auto.
        replace (c * s * (c * s)) with (s * s * (c * c)) by ring. nra.
      + rewrite Rabs_mult, (Rabs_pos_eq s) by lra. field. lra.
    - apply sq_abs; auto. nra. }
  destruct (K a b H) as (K1 & K2). destruct (K b a) as (K3 & K4).
  { replace (en x b a) with (en x a b) by (unfold en; ring). auto. }
  repeat split; auto. rewrite Rabs_minus_sym. exact K4.
Qed.
Lemma en_add : forall x a b T d, -1 <= x <= 1 -> 0 <= T -> 0 <= d -> en x a b <= T * T -> forall t, Rabs t <= d ->
  en x (a + t) b <= (T + d) * (T + d).
Proof.
  intros x a b T d Hx HT Hd H t Ht.
  replace (en x (a + t) b) with (en x a b + 2 * (t * (a - x * b)) + t * t) by (unfold en; ring).
  assert (K : Rabs (a - x * b) <= T).
  { apply sq_abs; auto. replace (en x a b) with ((a - x * b) * (a - x * b) + (1 - x * x) * (b * b)) in H by (unfold en; ring).
    assert (0 <= b * b) by exact (Rle_0_sqr _). assert (0 <= 1 - x * x) by nra.
    pose proof (Rmult_le_pos (1 - x * x) (b * b) ltac:(lra) ltac:(lra)). lra. }
  assert (t * (a - x * b) <= d * T).
  { eapply Rle_trans; [apply Rle_abs|]. rewrite Rabs_mult. apply Rmult_le_compat; auto using Rabs_pos. }
  assert (t * t <= d * d) by (apply Rsqr_le_abs_1; rewrite (Rabs_pos_eq d); auto). nra.
Qed.

(** The loop: after k steps the error, measured by the form, is at most 8uk. *)
Lemma loop_err : forall lib (x : F64) s n, is_finite x = true -> -1 <= B2R x <= 1 -> 0 < s -> s * s <= 1 - B2R x * B2R x ->
  (Z.of_nat n <= 2 ^ 20)%Z -> 8 * u * INR n <= 0.005 * s ->
  forall k m (p p1 p2 : F64), (m + k = n)%nat -> is_finite p = true -> is_finite p1 = true ->
  en (B2R x) (B2R p - Pn m (B2R x)) (B2R p1 - Pm m (B2R x)) <= (8 * u * INR m) * (8 * u * INR m) ->
  exists q q1 q2 : F64, @legendre_loop (FS lib) x k (S m) p p1 p2 = (q, q1, q2) /\
    is_finite q = true /\ is_finite q1 = true /\
    en (B2R x) (B2R q - Pn n (B2R x)) (B2R q1 - Pm n (B2R x)) <= (8 * u * INR n) * (8 * u * INR n).
Proof.
  intros lib x s n Fx Hx Hs Hs2 Hn Hbig. pose proof u_pos as U0.
  induction k as [|k IH]; intros m p p1 p2 Hmk Fp Fp1 He.
  - exists p, p1, p2. replace n with m by lia. repeat split; auto.
  - set (X := B2R x) in *.
    assert (Mn : INR m <= INR n) by (apply le_INR; lia). pose proof (pos_INR m) as M0. pose proof (S_INR m) as SM.
    assert (T0 : 0 <= 8 * u * INR m) by nra.
    destruct (en_bounds X _ _ (8 * u * INR m) s Hx T0 Hs Hs2 He) as (B1 & B2 & _ & _).
    assert (SB : forall j, (j <= n)%nat -> 8 * u * INR j / s <= 0.005).
    { intros j Hj. apply Rmult_le_reg_r with s; auto. unfold Rdiv. rewrite Rmult_assoc, Rinv_l, Rmult_1_r by lra.
      pose proof (le_INR _ _ Hj). nra. }
    pose proof (SB m ltac:(lia)) as SB1.
    assert (PB : Rabs (B2R p) <= 1.01).
    { replace (B2R p) with ((B2R p - Pn m X) + Pn m X) by ring. eapply Rle_trans; [apply Rabs_triang|].
      pose proof (Pn_bound m X Hx). lra. }
    assert (QB : Rabs (B2R p1) <= 1.01).
    { replace (B2R p1) with ((B2R p1 - Pm m X) + Pm m X) by ring. eapply Rle_trans; [apply Rabs_triang|].
      assert (Rabs (Pm m X) <= 1). { destruct m as [|m']; [simpl; rewrite Rabs_R0; lra|apply (Pn_bound m' X Hx)]. } lra. }
    set (T := ((2 * INR (S m) - 1) * X * B2R p - (INR (S m) - 1) * B2R p1) / INR (S m)).
    assert (ET : T - Pn (S m) X = ((2 * INR (S m) - 1) * X * (B2R p - Pn m X) - (INR (S m) - 1) * (B2R p1 - Pm m X)) / INR (S m)).
    { unfold T. pose proof (Pn_rec m X) as Rc. pose proof (INR_S_pos m).
      replace (Pn (S m) X) with (INR (S m) * Pn (S m) X / INR (S m)) by (field; lra). rewrite Rc, SM. field. lra. }
    assert (HS : 1 <= INR (S m)) by lra.
    pose proof (en_step X _ _ (INR (S m)) _ Hx HS He) as He'. rewrite <- ET in He'.
    assert (BT : Rabs T <= 1.01).
    { destruct (en_bounds X _ _ (8 * u * INR m) s Hx T0 Hs Hs2 He') as (B3 & _).
      replace T with ((T - Pn (S m) X) + Pn (S m) X) by ring. eapply Rle_trans; [apply Rabs_triang|].
      pose proof (Pn_bound (S m) X Hx). lra. }
    destruct (step_err x p p1 (S m) ltac:(lia) ltac:(lia) Fx Fp Fp1 ltac:(apply Rabs_le; exact Hx) PB QB BT) as (F' & E').
    fold X T in E'.
    set (p' := fdiv (fsub (fmul (fmul (fsub (fmul (f_of 2 0) (f_of (Z.of_nat (S m)) 0)) (f_of 1 0)) x) p)
                       (fmul (fsub (f_of (Z.of_nat (S m)) 0) (f_of 1 0)) p1)) (f_of (Z.of_nat (S m)) 0)) in *.
    assert (HE : en X (B2R p' - Pn (S m) X) (B2R p - Pm (S m) X) <= 8 * u * INR (S m) * (8 * u * INR (S m))).
    { replace (8 * u * INR (S m)) with (8 * u * INR m + 8 * u) by (rewrite SM; ring).
      replace (B2R p' - Pn (S m) X) with ((T - Pn (S m) X) + (B2R p' - T)) by ring.
      apply en_add; auto; lra. }
    destruct (IH (S m) p' p p1 ltac:(lia) F' Fp HE) as (q & q1 & q2 & EQ & R').
    exists q, q1, q2. split; [|exact R']. rewrite <- EQ. reflexivity.
Qed.

(** eval_Pn: the value, and the product n * (x P_n - P_(n-1)) that gives the derivative. *)
Lemma loop_full : forall lib (x : F64) s n, is_finite x = true -> -1 <= B2R x <= 1 -> 0 < s -> s * s <= 1 - B2R x * B2R x ->
  (Z.of_nat n <= 2 ^ 20)%Z -> 8 * u * INR n <= 0.005 * s ->
  exists q q1 q2 : F64, @legendre_loop (FS lib) x n 1 (f_of 1 0) (f_of 0 0) (f_of 0 0) = (q, q1, q2) /\
    is_finite q = true /\ is_finite q1 = true /\
    Rabs (B2R q - Pn n (B2R x)) <= 8 * u * INR n / s /\ Rabs (B2R q1 - Pm n (B2R x)) <= 8 * u * INR n / s /\
    Rabs ((B2R x * B2R q - B2R q1) - (B2R x * Pn n (B2R x) - Pm n (B2R x))) <= 8 * u * INR n.
Proof.
  intros lib x s n Fx Hx Hs Hs2 Hn Hbig.
  destruct (f_of_small 1 ltac:(lia)) as (F1 & E1). destruct (f_of_small 0 ltac:(lia)) as (F0 & E0).
  destruct (loop_err lib x s n Fx Hx Hs Hs2 Hn Hbig n 0 (f_of 1 0) (f_of 0 0) (f_of 0 0) ltac:(lia) F1 F0)
    as (q & q1 & q2 & EQ & Fq & Fq1 & He).
  { rewrite E1, E0. simpl (Pn 0 _). simpl (Pm 0 _). unfold en. simpl (INR 0). right. ring. }
  exists q, q1, q2. split; [exact EQ|]. split; auto. split; auto.
  assert (T0 : 0 <= 8 * u * INR n) by (pose proof u_pos; pose proof (pos_INR n); nra).
  destruct (en_bounds _ _ _ (8 * u * INR n) s Hx T0 Hs Hs2 He) as (B1 & B2 & B3 & _).
  repeat split; auto.
  replace (B2R x * B2R q - B2R q1 - (B2R x * Pn n (B2R x) - Pm n (B2R x))) with
    (B2R x * (B2R q - Pn n (B2R x)) - (B2R q1 - Pm n (B2R x))) by ring. exact B3.
Qed.
