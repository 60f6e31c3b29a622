(** C42: the Gauss-Chebyshev rule of the third kind in binary64 with an accurate math library. *)
From Coq Require Import List Bool Arith ZArith Lia Reals Lra Psatz.
From Flocq Require Import IEEE754.BinarySingleNaN Core.
From Verif Require Import Base.Outcome Base.Scalar Base.RScalar Base.FScalar Model.Primitive Spec.RuleSpec Spec.Sums Spec.RealRules
  Spec.FloatSpec Spec.LibmSpec Proofs.FloatOps Proofs.FloatSphere Proofs.FloatErr Proofs.Tab Proofs.PrimitiveFacts
  Proofs.ChebReal Proofs.SumFacts Proofs.PiBounds Proofs.ChebFloat.
Import ListNotations.
Local Open Scope R_scope.

Lemma half_float : forall m, (@shalf (FS m) : F64) = f_of 1 (-1).
Proof. intro m. apply B2SF_inj. vm_compute. reflexivity. Qed.
Lemma half_rel : forall m, rel (@shalf (FS m) : F64) (/ 2) 0.
Proof.
  intro m. rewrite half_float. destruct (f_of_exact 1 (-1) ltac:(simpl; lia) ltac:(lia)) as (F & E).
  apply exact_rel; auto. rewrite E. simpl. lra.
Qed.

Lemma gc3_angle : forall m n j, (j < n)%nat -> (Z.of_nat (2 * n + 2) <= 2 ^ 53)%Z ->
  rel (@gc3_t (FS m) n j) (th3 n j / 2) (7 * u).
Proof.
  intros m n j Hj Hn. pose proof (step_rel (2 * n + 1) ltac:(lia) ltac:(lia)) as (Hs & Rs). pose proof u_pos. pose proof u_small.
  assert (P0 : 0 < / 2 ^ 53) by (apply Rinv_0_lt_compat, pow_lt; lra).
  assert (P1 : / 2 ^ 54 = / 2 ^ 53 / 2) by (change 54%nat with (1 + 53)%nat; rewrite pow_add, Rinv_mult; simpl (2 ^ 1); field; apply pow_nonzero; lra).
  assert (I1 : 1 <= INR (2 * (n - j) - 1)) by (apply (le_INR 1); lia).
  assert (I2 : INR (2 * (n - j) - 1) <= 2 ^ 53) by (apply INR_2p; lia).
  assert (A : rel (fmul (@shalf (FS m)) (f_of (Z.of_nat (2 * (n - j) - 1)) 0)) (/ 2 * INR (2 * (n - j) - 1)) u).
  { eapply rel_weak; [apply (rel_fmul _ _ _ _ _ _ (half_rel m) (nat_rel (2 * (n - j) - 1) ltac:(lia))); try lra|lra].
    - apply tiny_ok_1. rewrite Rabs_pos_eq by lra. apply Rle_trans with (/ 2 ^ 53); [apply Rinv_le_contravar; [apply pow_lt; lra|apply Rle_pow; [lra|lia]]|]. unfold u in *. lra.
    - apply big_199. rewrite Rabs_pos_eq by lra. apply Rle_trans with (2 ^ 53); [lra|apply Rle_pow; [lra|lia]]. }
  assert (T : / 2 * INR (2 * (n - j) - 1) * (PI / INR (2 * n + 1)) = th3 n j / 2).
  { unfold th3. replace (2 * (n - j) - 1)%nat with (2 * (n - 1 - j) + 1)%nat by lia. rewrite (plus_INR (2 * (n - 1 - j)) 1), mult_INR.
    change (INR 2) with 2. simpl (INR 1). field. apply not_0_INR. lia. }
  pose proof (th3_range n j Hj) as R0. pose proof PI_4.
  assert (L : / 2 ^ 54 <= th3 n j / 2).
  { rewrite <- T. rewrite P1. apply Rle_trans with (/ 2 * 1 * / 2 ^ 53); [lra|].
    apply Rmult_le_compat; try lra. }
  change (@gc3_t (FS m) n j) with (fmul (fmul (@shalf (FS m)) (f_of (Z.of_nat (2 * (n - j) - 1)) 0)) (fdiv fpi (f_of (Z.of_nat (2 * n + 1)) 0))).
  rewrite <- T. eapply rel_weak; [apply (rel_fmul _ _ _ _ _ _ A Hs); try lra|nra].
  - rewrite T. apply th_tiny. lra.
  - rewrite T. apply th_tiny. lra.
Qed.

(** (1 + a) (1 + b) - 1. *)
Lemma one_mul : forall a b ea eb, Rabs a <= ea -> Rabs b <= eb -> Rabs ((1 + a) * (1 + b) - 1) <= ea + eb + ea * eb.
Proof.
  intros a b ea eb Ha Hb. replace ((1 + a) * (1 + b) - 1) with (a + b + a * b) by ring.
  eapply Rle_trans; [apply Rabs_triang|]. rewrite Rabs_mult.
  pose proof (Rabs_triang a b). pose proof (Rabs_pos a). pose proof (Rabs_pos b).
  assert (Rabs a * Rabs b <= ea * eb) by (apply Rmult_le_compat; auto). lra.
Qed.
Lemma sqrt_one : forall e k, Rabs e <= k -> k <= 1 / 2 -> Rabs (sqrt (1 + e) - 1) <= k.
Proof.
  intros e k He Hk. apply abs_of in He. assert (0 <= k) by lra. apply Rabs_le. split.
  - apply Rplus_le_reg_r with 1. replace (- k + 1) with (1 - k) by ring. replace (sqrt (1 + e) - 1 + 1) with (sqrt (1 + e)) by ring.
    apply Rle_trans with (sqrt ((1 - k) * (1 - k))); [rewrite sqrt_square; lra|]. apply sqrt_le_1_alt. nra.
  - apply Rplus_le_reg_r with 1. replace (sqrt (1 + e) - 1 + 1) with (sqrt (1 + e)) by ring.
    apply Rle_trans with (sqrt ((1 + k) * (1 + k))); [|rewrite sqrt_square; lra]. apply sqrt_le_1_alt. nra.
Qed.

Lemma tiny_ok_2 : forall v, / 2 ^ 200 <= Rabs v -> tiny_ok v.
Proof.
  intros v H. unfold tiny_ok. eapply Rle_trans; [|exact H].
  replace (/ 2 ^ 200) with (bpow radix2 (-200)); [apply bpow_le; lia|].
  change (bpow radix2 (-200)) with (/ IZR (2 ^ 200)). f_equal. rewrite pow_IZR. reflexivity.
Qed.
Lemma inv_pow_le : forall a b, (a <= b)%nat -> / 2 ^ b <= / 2 ^ a.
Proof. intros a b H. apply Rinv_le_contravar; [apply pow_lt; lra|apply Rle_pow; [lra|lia]]. Qed.

(** One entry: the cosine ch is known within E of c = cos t, and c is much larger than E. *)
Section Entry.
Variables (ph ch : F64) (p t E : R).
Hypothesis Hp : rel ph p (3 * u).
Hypothesis Rp : / 2 ^ 53 <= p <= 4.
Hypothesis Ht : 0 < t < PI / 2.
Hypothesis Fc : is_finite ch = true.
Hypothesis Bc : Rabs (B2R ch) <= 1.
Hypothesis Ec : Rabs (B2R ch - cos t) <= E.
Hypothesis HE : 2 * u <= E.
Hypothesis HC : 500 * E <= cos t.
Let xh := fmul ch ch.
Let wh := fmul (fmul (fmul (f_of 2 0) ph) xh) (fsqrt (fdiv (fsub (f_of 1 0) xh) xh)).

Lemma entry_node : is_finite xh = true /\ 0 < B2R xh <= 1 /\ B2R xh = cos t * cos t * (B2R xh / (cos t * cos t)) /\
  Rabs (B2R xh - cos t * cos t) <= 2.1 * E + 2 * u /\ Rabs (sqrt (B2R xh) / cos t - 1) <= (1.01 * E + u) / cos t /\
  / 2 ^ 120 <= B2R xh.
Proof.
  pose proof u_pos as U. pose proof u_small as U1. set (c := cos t) in *. pose proof (COS_bound t) as CB. fold c in CB.
  set (y := B2R ch) in *. pose proof (abs_of _ _ Ec) as Ec'. pose proof (abs_of _ _ Bc) as Bc'.
  assert (E0 : 0 < E) by lra. assert (c0 : 0 < c) by lra. assert (y0 : 499 * E <= y) by lra.
  assert (Y2 : 499 * E * (499 * E) <= y * y) by (apply Rmult_le_compat; lra).
  assert (Yu : 900 * u * (900 * u) <= y * y) by (apply Rmult_le_compat; lra).
  assert (Yt : / 2 ^ 100 <= y * y). { unfold u in Yu. lra. }
  assert (Y1 : 0 < y * y <= 1) by (split; nra).
  assert (F1 : is_finite xh = true).
  { apply finite_mul; auto. fold y. rewrite Rabs_pos_eq by lra. apply Rle_trans with 1; [lra|]. apply pow_R1_Rle. lra. }
  assert (R1 : rel xh (y * y) u).
  { eapply rel_weak; [apply (rel_fmul ch ch y y 0 0)|lra]; try lra; try (apply exact_rel; auto).
    - apply tiny_ok_2. rewrite Rabs_pos_eq by lra. pose proof (inv_pow_le 100 200 ltac:(lia)). lra.
    - apply big_199. rewrite Rabs_pos_eq by lra. apply Rle_trans with 1; [lra|]. apply pow_R1_Rle. lra. }
  destruct R1 as (_ & e & He & Ex). pose proof (abs_of _ _ He) as He'.
  assert (X1 : B2R xh <= 1).
  { destruct (fmul_R _ _ F1) as (_ & _ & E1). fold xh y in E1. rewrite E1.
    replace 1 with (rnd 1); [apply rnd_mono; lra|]. destruct (f_of_small 1 ltac:(lia)) as [_ O]. rewrite <- O. apply rnd_B2R. }
  assert (X0 : 0 < B2R xh) by (rewrite Ex; apply Rmult_lt_0_compat; lra).
  assert (S : sqrt (B2R xh) = y * sqrt (1 + e)).
  { rewrite Ex, sqrt_mult by lra. rewrite sqrt_square by lra. reflexivity. }
  split; [exact F1|]. split; [lra|]. split; [field; lra|]. split; [|split].
  - rewrite Ex. replace (y * y * (1 + e) - c * c) with ((y - c) * (y + c) + y * y * e) by ring.
    eapply Rle_trans; [apply Rabs_triang|]. rewrite !Rabs_mult. rewrite (Rabs_pos_eq (y + c)), (Rabs_pos_eq y) by lra.
    assert (Rabs (y - c) * (y + c) <= E * 2) by (apply Rmult_le_compat; try lra; apply Rabs_pos).
    assert (y * y * Rabs e <= 1 * u) by (apply Rmult_le_compat; try lra; apply Rabs_pos). lra.
  - rewrite S. apply Rmult_le_reg_r with c; [lra|]. unfold Rdiv at 2. rewrite Rmult_assoc, Rinv_l, Rmult_1_r by lra.
    rewrite <- (Rabs_pos_eq c) at 2 by lra. rewrite <- Rabs_mult.
    replace ((y * sqrt (1 + e) / c - 1) * c) with ((y - c) * sqrt (1 + e) + c * (sqrt (1 + e) - 1)) by (field; lra).
    pose proof (sqrt_one e u He ltac:(lra)) as Q. pose proof (abs_of _ _ Q) as Q'.
    eapply Rle_trans; [apply Rabs_triang|]. rewrite !Rabs_mult. rewrite (Rabs_pos_eq c), (Rabs_pos_eq (sqrt (1 + e))) by (try apply sqrt_pos; lra).
    assert (Rabs (y - c) * sqrt (1 + e) <= E * 1.01) by (apply Rmult_le_compat; try lra; try apply Rabs_pos; apply sqrt_pos).
    assert (c * Rabs (sqrt (1 + e) - 1) <= 1 * u) by (apply Rmult_le_compat; try lra; apply Rabs_pos). lra.
  - rewrite Ex. apply Rle_trans with (/ 2 ^ 100 * / 2); [lra|]. apply Rmult_le_compat; lra.
Qed.

Lemma entry_weight : is_finite wh = true /\
  Rabs (B2R wh - p * sin (2 * t)) <= p * sin (2 * t) * ((4 * E + 20 * u) / (cos t * (sin t * sin t))).
Proof.
  pose proof u_pos as U. pose proof u_small as U1. destruct entry_node as (F1 & X01 & _ & Xn & Xs & Xl).
  set (c := cos t) in *. set (s := sin t) in *. pose proof (COS_bound t) as CB. fold c in CB. pose proof (SIN_bound t) as SB. fold s in SB.
  assert (E0 : 0 < E) by lra. assert (c0 : 0 < c) by lra. assert (E1 : E <= / 500) by lra.
  assert (s0 : 0 < s) by (apply sin_gt_0; pose proof PI_RGT_0; lra).
  assert (SS : c * c + s * s = 1) by (pose proof (sin2_cos2 t) as Q; unfold Rsqr in Q; fold s c in Q; lra).
  assert (S2 : 0 < s * s <= 1) by (split; [apply Rmult_lt_0_compat; lra|rewrite <- (Rmult_1_l 1); apply Rmult_le_compat; lra]).
  assert (C2 : 0 < c * (s * s) <= 1) by (split; [apply Rmult_lt_0_compat; lra|rewrite <- (Rmult_1_l 1); apply Rmult_le_compat; lra]).
  set (x := B2R xh) in *.
  assert (UU : 0 <= u * u <= u / 1000) by (split; nra).
  destruct (f_of_small 1 ltac:(lia)) as [FO O].
  (* 1 - x *)
  destruct (finite_sub (f_of 1 0) xh FO F1) as (F2 & E2).
  { fold x. rewrite O. rewrite Rabs_pos_eq by lra. apply Rle_trans with 1; [lra|]. apply pow_R1_Rle. lra. }
  destruct (rnd_sub_err (f_of 1 0) xh) as (e2 & He2 & E2'). rewrite E2' in E2. rewrite O in E2. fold x in E2. clear E2'.
  pose proof (abs_of _ _ He2) as He2'.
  (* (1 - x) / x *)
  assert (G0 : 0 <= (1 - x) / x) by (apply Rmult_le_pos; [lra|left; apply Rinv_0_lt_compat; lra]).
  assert (I1 : / x <= 2 ^ 120).
  { rewrite <- (Rinv_inv (2 ^ 120)). apply Rinv_le_contravar; auto. apply Rinv_0_lt_compat, pow_lt. lra. }
  assert (I0 : 1 <= / x) by (rewrite <- Rinv_1 at 1; apply Rinv_le_contravar; lra).
  destruct (finite_div (fsub (f_of 1 0) xh) xh F2) as (F3 & E3).
  { fold x. lra. }
  { fold x. rewrite E2. rewrite Rabs_pos_eq.
    - apply Rle_trans with (2 * 2 ^ 120); [|change (2 * 2 ^ 120) with (2 ^ 121); apply Rle_pow; [lra|lia]]. unfold Rdiv.
      assert (0 <= (1 - x) * (1 + e2) <= 1 * 2) by (split; [apply Rmult_le_pos|apply Rmult_le_compat]; lra). apply Rmult_le_compat; lra.
    - unfold Rdiv. apply Rmult_le_pos; [apply Rmult_le_pos|]; lra. }
  fold x in E3. rewrite E2 in E3.
  assert (G3 : exists e3, Rabs e3 <= u /\ B2R (fdiv (fsub (f_of 1 0) xh) xh) = (1 - x) / x * ((1 + e2) * (1 + e3))).
  { destruct (Req_dec x 1) as [X1|X1].
    - exists 0. rewrite Rabs_R0. split; [lra|]. rewrite E3, X1. unfold Rdiv. rewrite Rminus_diag_eq by auto. rewrite !Rmult_0_l, rnd_0. ring.
    - assert (XD : u <= 1 - x).
      { assert (PO : ~ 1 - / 2 ^ 53 < x) by (intro K; pose proof (pred_one (Bopp xh)) as Q; rewrite B2R_Bopp in Q; fold x in Q;
          rewrite Ropp_involutive, Rabs_Ropp, (Rabs_pos_eq x) in Q by lra; specialize (Q ltac:(lra) K); lra). unfold u. lra. }
      destruct (rel_mul ((1 - x) * (1 + e2) / x)) as (e3 & He3 & E3').
      { left. rewrite Rabs_pos_eq.
        - apply Rle_trans with (u * / 2 * 1).
          + unfold u. replace (/ 2 ^ 53 * / 2 * 1) with (bpow radix2 (-54)); [apply bpow_le; lia|]. change (bpow radix2 (-54)) with (/ IZR (2 ^ 54)).
            rewrite Rmult_1_r, <- Rinv_mult. f_equal. replace (2 ^ 53 * 2) with (2 ^ 54) by (simpl; lra). rewrite pow_IZR. reflexivity.
          + unfold Rdiv. apply Rmult_le_compat; try lra. apply Rmult_le_compat; lra.
        - unfold Rdiv. apply Rmult_le_pos; [apply Rmult_le_pos|]; lra. }
      exists e3. split; [exact He3|]. rewrite E3, E3'. unfold Rdiv. ring. }
  destruct G3 as (e3 & He3 & E3q). clear E3. pose proof (abs_of _ _ He3) as He3'.
  pose proof (one_mul e2 e3 u u He2 He3) as H23. set (h := (1 + e2) * (1 + e3) - 1) in *.
  assert (Hh : Rabs h <= 3 * u) by lra. clear H23. pose proof (abs_of _ _ Hh) as Hh'.
  replace ((1 + e2) * (1 + e3)) with (1 + h) in E3q by (unfold h; ring).
  destruct (fsqrt_err _ F3) as (F4 & e4 & He4 & E4); [rewrite E3q; apply Rmult_le_pos; lra|].
  rewrite E3q, sqrt_mult in E4 by lra. set (r := fsqrt (fdiv (fsub (f_of 1 0) xh) xh)) in *.
  pose proof (sqrt_one h (3 * u) Hh ltac:(lra)) as Q1.
  pose proof (one_mul (sqrt (1 + h) - 1) e4 (3 * u) u Q1 He4) as Q2.
  set (k := (1 + (sqrt (1 + h) - 1)) * (1 + e4) - 1) in *.
  assert (Er : B2R r = sqrt ((1 - x) / x) * (1 + k)) by (rewrite E4; unfold k; ring).
  assert (Hk : Rabs k <= 5 * u) by lra. clear Q1 Q2 E4. pose proof (abs_of _ _ Hk) as Hk'.
  (* 2 p x *)
  pose proof (inv_pow_le 53 200 ltac:(lia)) as V1. assert (V0 : 0 < / 2 ^ 53) by (apply Rinv_0_lt_compat, pow_lt; lra).
  assert (R2 : rel (fmul (f_of 2 0) ph) (2 * p) (5 * u)).
  { eapply rel_weak; [apply (rel_fmul _ _ _ _ _ _ (int_rel 2 ltac:(lia)) Hp); try lra|lra].
    - apply tiny_ok_2. rewrite Rabs_pos_eq; lra.
    - apply big_199. rewrite Rabs_pos_eq by lra. apply Rle_trans with (2 ^ 3); [simpl; lra|apply Rle_pow; [lra|lia]]. }
  assert (PX : / 2 ^ 200 <= 2 * p * x).
  { apply Rle_trans with (2 * / 2 ^ 53 * / 2 ^ 120); [|apply Rmult_le_compat; try lra; apply Rlt_le, Rinv_0_lt_compat, pow_lt; lra].
    rewrite Rmult_assoc, <- Rinv_mult, <- pow_add. pose proof (inv_pow_le (53 + 120) 200 ltac:(lia)).
    assert (0 < / 2 ^ (53 + 120)) by (apply Rinv_0_lt_compat, pow_lt; lra). lra. }
  assert (PX8 : 2 * p * x <= 8) by (apply Rle_trans with (2 * p * 1); [apply Rmult_le_compat_l|]; lra).
  assert (R3 : rel (fmul (fmul (f_of 2 0) ph) xh) (2 * p * x) (7 * u)).
  { eapply rel_weak; [apply (rel_fmul _ _ _ _ _ _ R2 (exact_rel xh x F1 eq_refl)); try lra|lra].
    - apply tiny_ok_2. rewrite Rabs_pos_eq; lra.
    - apply big_199. rewrite Rabs_pos_eq by lra. apply Rle_trans with (2 ^ 3); [simpl; lra|apply Rle_pow; [lra|lia]]. }
  destruct R3 as (F5 & e5 & He5 & E5). pose proof (abs_of _ _ He5) as He5'. set (a := fmul (fmul (f_of 2 0) ph) xh) in *.
  pose proof (sqrt_pos ((1 - x) / x)) as SP. set (q := sqrt ((1 - x) / x)) in *.
  assert (q1 : q <= 2 ^ 120).
  { unfold q. apply Rle_trans with (sqrt (2 ^ 120 * 2 ^ 120)); [|rewrite sqrt_square; [lra|apply pow_le; lra]].
    apply sqrt_le_1_alt. unfold Rdiv. assert (1 <= 2 ^ 120) by (apply pow_R1_Rle; lra). apply Rmult_le_compat; lra. }
  assert (AR : B2R a * B2R r = 2 * p * x * q * ((1 + e5) * (1 + k))) by (rewrite E5, Er; ring).
  pose proof (one_mul e5 k (7 * u) (5 * u) He5 Hk) as H5k. set (g := (1 + e5) * (1 + k) - 1) in *.
  assert (Hg : Rabs g <= 13 * u) by lra. clear H5k. pose proof (abs_of _ _ Hg) as Hg'.
  replace ((1 + e5) * (1 + k)) with (1 + g) in AR by (unfold g; ring).
  assert (PQ : 0 <= 2 * p * x * q) by (apply Rmult_le_pos; lra).
  assert (F6 : is_finite wh = true).
  { apply finite_mul; auto. fold a r. rewrite AR, Rabs_pos_eq by (apply Rmult_le_pos; lra).
    apply Rle_trans with (8 * 2 ^ 120 * 2); [|apply Rle_trans with (2 ^ (4 + 120)); [rewrite pow_add; simpl (2 ^ 4); lra|apply Rle_pow; [lra|lia]]].
    apply Rmult_le_compat; try lra. apply Rmult_le_compat; lra. }
  destruct (fmul_R _ _ F6) as (_ & _ & E6). fold a r in E6. change (fmul a r) with wh in E6. rewrite AR in E6.
  assert (G6 : exists e6, Rabs e6 <= u /\ B2R wh = 2 * p * x * q * (1 + g) * (1 + e6)).
  { rewrite E6. apply rel_mul. destruct (Req_dec x 1) as [X1|X1].
    - right. unfold q. rewrite X1. unfold Rdiv. rewrite Rminus_diag_eq, Rmult_0_l, sqrt_0 by auto. ring.
    - left. assert (XD : u <= 1 - x).
      { assert (PO : ~ 1 - / 2 ^ 53 < x) by (intro K; pose proof (pred_one (Bopp xh)) as Q; rewrite B2R_Bopp in Q; fold x in Q;
          rewrite Ropp_involutive, Rabs_Ropp, (Rabs_pos_eq x) in Q by lra; specialize (Q ltac:(lra) K); lra). unfold u. lra. }
      assert (UQ : u <= q).
      { unfold q. apply Rle_trans with (sqrt (u * u)); [rewrite sqrt_square; lra|]. apply sqrt_le_1_alt. unfold Rdiv. apply Rmult_le_compat; lra. }
      rewrite Rabs_pos_eq by (apply Rmult_le_pos; lra).
      apply Rle_trans with (/ 2 ^ 200 * / 2 ^ 53 * / 2).
      + rewrite <- Rinv_mult, <- pow_add. replace (/ 2 ^ (200 + 53) * / 2) with (bpow radix2 (-254)); [apply bpow_le; lia|].
        change (bpow radix2 (-254)) with (/ IZR (2 ^ 254)). rewrite <- Rinv_mult. f_equal. replace (2 ^ (200 + 53) * 2) with (2 ^ (1 + (200 + 53)))
          by (rewrite (pow_add 2 1), pow_1; ring). rewrite pow_IZR. reflexivity.
      + unfold u in UQ. apply Rmult_le_compat; try lra.
        apply Rmult_le_compat; lra. }
  destruct G6 as (e6 & He6 & E6'). clear E6. pose proof (one_mul g e6 (13 * u) u Hg He6) as Hz. set (z := (1 + g) * (1 + e6) - 1) in *.
  assert (Hz' : Rabs z <= 15 * u) by lra. clear Hz.
  (* x q = sqrt x sqrt (1 - x) *)
  assert (XQ : x * q = sqrt x * sqrt (1 - x)).
  { unfold q, Rdiv. rewrite sqrt_mult by lra. rewrite <- (sqrt_sqrt x) at 1 by lra. rewrite sqrt_inv.
    assert (0 < sqrt x) by (apply sqrt_lt_R0; lra). field. lra. }
  set (al := sqrt x / c - 1) in *. assert (Sx : sqrt x = c * (1 + al)) by (unfold al; field; lra).
  set (be := sqrt (1 - x) / s - 1). assert (Sb : sqrt (1 - x) = s * (1 + be)) by (unfold be; field; lra).
  assert (Hb : Rabs be <= (2.1 * E + 2 * u) / (s * s)).
  { apply Rmult_le_reg_r with (s * s); [lra|]. unfold Rdiv. rewrite Rmult_assoc, Rinv_l, Rmult_1_r by lra.
    eapply Rle_trans; [|exact Xn]. rewrite <- (Rabs_pos_eq (s * s)) by lra. rewrite <- Rabs_mult.
    pose proof (sqrt_pos (1 - x)) as Q0. pose proof (sqrt_sqrt (1 - x) ltac:(lra)) as QQ.
    replace (be * (s * s)) with ((sqrt (1 - x) - s) * s) by (unfold be; field; lra).
    replace (x - c * c) with (- ((sqrt (1 - x) - s) * (sqrt (1 - x) + s))) by (rewrite Rmult_minus_distr_r, !Rmult_plus_distr_l; lra).
    rewrite Rabs_Ropp, !Rabs_mult. apply Rmult_le_compat_l; [apply Rabs_pos|]. rewrite !Rabs_pos_eq; lra. }
  rewrite sin_2a. fold s c.
  assert (WV : B2R wh = p * (2 * s * c) * ((1 + al) * (1 + be) * (1 + z))).
  { rewrite E6'. replace (2 * p * x * q * (1 + g) * (1 + e6)) with (2 * p * (x * q) * ((1 + g) * (1 + e6))) by ring. rewrite XQ, Sx, Sb. unfold z. ring. }
  split; [exact F6|]. rewrite WV.
  replace (p * (2 * s * c) * ((1 + al) * (1 + be) * (1 + z)) - p * (2 * s * c)) with (p * (2 * s * c) * ((1 + al) * (1 + be) * (1 + z) - 1)) by ring.
  assert (V : 0 <= p * (2 * s * c)) by (apply Rmult_le_pos; [lra|apply Rmult_le_pos; lra]).
  rewrite Rabs_mult, (Rabs_pos_eq (p * (2 * s * c))) by exact V. apply Rmult_le_compat_l; [exact V|].
  set (A := (1.01 * E + u) / c) in *. set (B := (2.1 * E + 2 * u) / (s * s)) in *.
  assert (A1 : A <= 4 / 1000).
  { unfold A. apply Rmult_le_reg_r with c; [lra|]. unfold Rdiv at 1. rewrite Rmult_assoc, Rinv_l, Rmult_1_r by lra. lra. }
  assert (A0 : 0 <= A) by (eapply Rle_trans; [apply Rabs_pos|exact Xs]). assert (B0 : 0 <= B) by (eapply Rle_trans; [apply Rabs_pos|exact Hb]).
  pose proof (one_mul al be A B Xs Hb) as H1. set (m := (1 + al) * (1 + be) - 1) in *.
  replace ((1 + al) * (1 + be) * (1 + z) - 1) with ((1 + m) * (1 + z) - 1) by (unfold m; ring).
  assert (AB : 0 <= A * B <= 4 / 1000 * B) by (split; [apply Rmult_le_pos; lra|apply Rmult_le_compat_r; lra]).
  assert (H1' : Rabs m <= A + 1.004 * B) by lra.
  pose proof (one_mul m z (A + 1.004 * B) (15 * u) H1' Hz') as H2. eapply Rle_trans; [exact H2|].
  assert (H3 : A + 1.004 * B + 15 * u + (A + 1.004 * B) * (15 * u) <= 1.001 * A + 1.005 * B + 15 * u).
  { assert ((A + 1.004 * B) * (15 * u) <= (A + 1.004 * B) * (/ 2000)) by (apply Rmult_le_compat_l; lra). lra. }
  eapply Rle_trans; [exact H3|].
  apply Rmult_le_reg_r with (c * (s * s)); [lra|]. unfold Rdiv. rewrite Rmult_assoc, Rinv_l, Rmult_1_r by lra.
  replace ((1.001 * A + 1.005 * B + 15 * u) * (c * (s * s))) with (1.001 * (A * c) * (s * s) + 1.005 * (B * (s * s)) * c + 15 * u * (c * (s * s))) by ring.
  replace (A * c) with (1.01 * E + u) by (unfold A; field; lra). replace (B * (s * s)) with (2.1 * E + 2 * u) by (unfold B; field; lra).
  assert (1.001 * (1.01 * E + u) * (s * s) <= 1.001 * (1.01 * E + u) * 1) by (apply Rmult_le_compat_l; lra).
  assert (1.005 * (2.1 * E + 2 * u) * c <= 1.005 * (2.1 * E + 2 * u) * 1) by (apply Rmult_le_compat_l; lra).
  assert (15 * u * (c * (s * s)) <= 15 * u * 1) by (apply Rmult_le_compat_l; lra). lra.
Qed.
End Entry.

Definition Eof (d : R) : R := d + 23 * u.

(** The smallest cosine. *)
Lemma cos3_low : forall n j, (j < n)%nat -> 3 / 2 / INR (2 * n + 1) <= cos (th3 n j / 2).
Proof.
  intros n j Hj. pose proof (INR_pos (2 * n + 1) ltac:(lia)) as N0. pose proof PI_RGT_0. assert (P3 : 3 < PI) by (pose proof pi_coarse; lra).
  set (h := PI / INR (2 * n + 1)). assert (h0 : 0 < h) by (apply Rdiv_lt_0_compat; lra).
  assert (T : th3 n j / 2 <= PI / 2 - h).
  { unfold th3. replace ((2 * INR (n - 1 - j) + 1) * PI / INR (2 * n + 1)) with ((2 * INR (n - 1 - j) + 1) * h) by (unfold h; field; lra).
    replace (PI / 2) with (INR (2 * n + 1) * h / 2) by (unfold h; field; lra).
    assert (INR (n - 1 - j) <= INR n - 1) by (change 1 with (INR 1); rewrite <- minus_INR by lia; apply le_INR; lia).
    replace (INR (2 * n + 1)) with (2 * INR n + 1) by (rewrite plus_INR, mult_INR; simpl; ring).
    assert ((2 * INR (n - 1 - j) + 1) * h <= (2 * (INR n - 1) + 1) * h) by (apply Rmult_le_compat_r; lra). lra. }
  pose proof (th3_range n j Hj). rewrite <- sin_shift. pose proof (sin_half (PI / 2 - th3 n j / 2) ltac:(lra)) as S.
  assert (3 / 2 / INR (2 * n + 1) <= h / 2).
  { unfold h. replace (PI / INR (2 * n + 1) / 2) with (PI / 2 / INR (2 * n + 1)) by (field; lra).
    apply Rmult_le_compat_r; [left; apply Rinv_0_lt_compat; lra|lra]. }
  lra.
Qed.

Lemma gc3_entry : forall m d n j, accurate m d -> INR (2 * n + 1) * Eof d <= / 1000 ->
  (Z.of_nat (2 * n + 2) <= 2 ^ 53)%Z -> (j < n)%nat ->
  (is_finite (@gc3_x (FS m) n j : F64) = true /\ 0 < B2R (@gc3_x (FS m) n j : F64) <= 1 /\
   Rabs (B2R (@gc3_x (FS m) n j : F64) - (1 + cos (th3 n j)) / 2) <= 3 * d + 52 * u) /\
  (is_finite (@gc3_w (FS m) n j : F64) = true /\
   Rabs (B2R (@gc3_w (FS m) n j : F64) - PI / INR (2 * n + 1) * sin (th3 n j)) <=
     PI / INR (2 * n + 1) * sin (th3 n j) * ((4 * d + 112 * u) / (sqrt ((1 + cos (th3 n j)) / 2) * (1 - (1 + cos (th3 n j)) / 2)))).
Proof.
  intros m d n j A HE Hn Hj. pose proof (acc_pos m d A) as d0. pose proof u_pos as U. pose proof u_small as U1.
  pose proof (INR_pos (2 * n + 1) ltac:(lia)) as N0. pose proof (th3_range n j Hj) as Th. pose proof PI_RGT_0.
  pose proof (gc3_angle m n j Hj Hn) as Ta.
  destruct (cos_near m d _ _ _ A Ta ltac:(lra) ltac:(lra)) as ((K0 & K1) & K2 & _).
  set (t := th3 n j / 2) in *. assert (T2 : th3 n j = 2 * t) by (unfold t; field).
  set (ch := m_cos m (@gc3_t (FS m) n j)) in *.
  assert (C0 : 500 * Eof d <= cos t).
  { eapply Rle_trans; [|apply cos3_low; exact Hj]. apply Rmult_le_reg_r with (INR (2 * n + 1)); [lra|].
    replace (3 / 2 / INR (2 * n + 1) * INR (2 * n + 1)) with (3 / 2) by (field; lra). lra. }
  assert (E1 : Rabs (B2R ch - cos t) <= Eof d) by (unfold Eof; lra).
  assert (E2 : 2 * u <= Eof d) by (unfold Eof; lra).
  destruct (step_rel (2 * n + 1) ltac:(lia) ltac:(lia)) as (Hs & Rs).
  destruct (entry_node ch t (Eof d) K0 K2 E1 E2 C0) as (F1 & X01 & _ & Xn & _).
  destruct (entry_weight (fdiv fpi (f_of (Z.of_nat (2 * n + 1)) 0)) ch (PI / INR (2 * n + 1)) t (Eof d) Hs Rs ltac:(unfold t in *; lra) K0 K2 E1 E2 C0) as (F2 & Wn).
  assert (CC : (1 + cos (th3 n j)) / 2 = cos t * cos t) by (rewrite T2, half_cos; reflexivity).
  assert (c0 : 0 < cos t) by lra.
  rewrite CC. split; [split; [exact F1|split; [exact X01|]]|split; [exact F2|]].
  - eapply Rle_trans; [exact Xn|]. unfold Eof. lra.
  - rewrite sqrt_square by lra. replace (1 - cos t * cos t) with (sin t * sin t) by (pose proof (sin2_cos2 t) as Q; unfold Rsqr in Q; lra).
    rewrite T2. replace (4 * d + 112 * u) with (4 * Eof d + 20 * u) by (unfold Eof; ring). exact Wn.
Qed.

Lemma ok_inj : forall A (x y : A), Ok x = Ok y -> x = y.
Proof. intros A x y H. injection H. auto. Qed.
Lemma close_tab : forall n (fx fw x w : nat -> R) ex ew,
  (forall j, (j < n)%nat -> Rabs (fx j - x j) <= ex /\ Rabs (fw j - w j) <= ew (x j) (w j)) ->
  close_rules (tab n fx, tab n fw) (tab n x, tab n w) ex ew.
Proof.
  intros n fx fw x w ex ew H. unfold close_rules. cbn [fst snd]. rewrite !tab_length. split; [auto|]. split; [auto|].
  intros i a b c e Ha Hb Hc He. assert (J : (i < n)%nat).
  { apply Nat.nlt_ge. intro. rewrite (proj2 (nth_error_None _ _)) in Ha; [discriminate|]. rewrite tab_length; lia. }
  rewrite nth_error_tab in Ha, Hb, Hc, He by auto. injection Ha as <-. injection Hb as <-. injection Hc as <-. injection He as <-.
  apply H. exact J.
Qed.

Lemma gc3_float : forall m d n qf q, accurate m d -> INR (2 * n + 1) * (d + 23 * u) <= / 1000 -> (Z.of_nat (2 * n + 2) <= 2 ^ 53)%Z ->
  @gc3_generate (FS m) n = Ok qf -> @gc3_generate RS n = Ok q ->
  all_finite qf /\ (forall x, In x (fst (real_rule qf)) -> 0 < x <= 1) /\
  close_rules (real_rule qf) q (3 * d + 52 * u) (fun x w => w * ((4 * d + 112 * u) / (sqrt x * (1 - x)))).
Proof.
  intros m d n qf q A HE Hn Hf Hq. rewrite gc3_real in Hq. apply ok_inj in Hq. subst q. rewrite gc3_closed in Hf. apply ok_inj in Hf. subst qf.
  pose proof (fun j Hj => gc3_entry m d n j A HE Hn Hj) as K.
  split; [|split].
  - intros x [I|I]; cbn [fst snd] in I; apply In_tab in I; destruct I as (j & Hj & ->); destruct (K j Hj) as ((K1 & _) & (K2 & _)); auto.
  - intros x I. unfold real_rule in I. cbn [fst] in I. apply in_map_iff in I. destruct I as (y & <- & I).
    apply In_tab in I. destruct I as (j & Hj & ->). apply (K j Hj).
  - unfold real_rule. cbn [fst snd]. rewrite !map_tab. apply close_tab. intros j Hj. destruct (K j Hj) as ((_ & _ & K1) & (_ & K2)).
    split; [exact K1|exact K2].
Qed.

(** The sum of the weights over sqrt x * (1 - x). *)
Lemma gc3_sum : forall n q, (1 <= n)%nat -> @gc3_generate RS n = Ok q ->
  apply_rule q (fun x => / (sqrt x * (1 - x))) <= 8 * (1 + ln (INR n)).
Proof.
  intros n q Hn Hq. rewrite gc3_real in Hq. apply ok_inj in Hq. subst q. pose proof PI_RGT_0. pose proof (INR_pos (2 * n + 1) ltac:(lia)) as N0.
  unfold apply_rule, wsum. cbn [fst snd]. rewrite combine_tab, map_tab. cbn [fst snd].
  set (h := PI / INR (2 * n + 1)). assert (h0 : 0 < h) by (apply Rdiv_lt_0_compat; lra).
  apply Rle_trans with (Rsum (tab n (fun j => 8 * / INR (n - 1 - j + 1)))).
  - unfold tab. apply Rsum_le. intros j Hj. apply in_seq in Hj. assert (Hj' : (j < n)%nat) by lia. clear Hj. rename Hj' into Hj. pose proof (th3_range n j Hj) as Th. set (t := th3 n j / 2). assert (T2 : th3 n j = 2 * t) by (unfold t; field).
    rewrite T2, <- half_cos. assert (Ht : 0 < t < PI / 2) by (unfold t; lra).
    assert (c0 : 0 < cos t) by (apply cos_gt_0; lra). assert (s0 : 0 < sin t) by (apply sin_gt_0; lra).
    rewrite sqrt_square by lra. replace (1 - cos t * cos t) with (sin t * sin t) by (pose proof (sin2_cos2 t) as Q; unfold Rsqr in Q; lra).
    rewrite sin_2a. replace (h * (2 * sin t * cos t) * / (cos t * (sin t * sin t))) with (2 * h * / sin t) by (field; lra).
    pose proof (sin_half t ltac:(lra)) as S. assert (I : / sin t <= 2 * / t).
    { replace (2 * / t) with (/ (t / 2)) by (field; lra). apply Rinv_le_contravar; lra. }
    apply Rle_trans with (2 * h * (2 * / t)); [apply Rmult_le_compat_l; lra|].
    assert (TE : t = (2 * INR (n - 1 - j) + 1) * h / 2) by (unfold t, th3, h; field; lra).
    assert (J0 : 0 <= INR (n - 1 - j)) by apply pos_INR.
    rewrite TE, plus_INR. simpl (INR 1). set (a := INR (n - 1 - j)) in *.
    replace (2 * h * (2 * / ((2 * a + 1) * h / 2))) with (8 * / (2 * a + 1)) by (field; lra).
    apply Rmult_le_compat_l; [lra|]. apply Rinv_le_contravar; lra.
  - rewrite Rsum_tab_mult_l. apply Rmult_le_compat_l; [lra|].
    rewrite (Rsum_tab_rev n (fun j => / INR (j + 1))). apply harmonic; auto.
Qed.

(** Functions known on [0,1] only. *)
Lemma tame_even : forall f M L, tame01 f M L -> tame 1 (fun x => f (Rabs x)) M L /\ 0 <= M /\ 0 <= L.
Proof.
  intros f M L (T1 & T2).
  assert (K : forall x, -1 <= x <= 1 -> 0 <= Rabs x <= 1) by (intros x H; split; [apply Rabs_pos|apply Rabs_le; lra]).
  assert (L0 : 0 <= L).
  { specialize (T2 1 0 ltac:(lra) ltac:(lra)). rewrite Rminus_0_r, Rabs_R1 in T2. pose proof (Rabs_pos (f 1 - f 0)). lra. }
  split; [|split; [specialize (T1 0 ltac:(lra)); pose proof (Rabs_pos (f 0)); lra|exact L0]]. split.
  - intros x H. apply T1, K, H.
  - intros x y Hx Hy. eapply Rle_trans; [apply T2; apply K; auto|]. apply Rmult_le_compat_l; [exact L0|]. apply Rabs_triang_inv2.
Qed.
Lemma apply_even : forall (q : list R * list R) f, (forall x, In x (fst q) -> 0 <= x) -> apply_rule q (fun x => f (Rabs x)) = apply_rule q f.
Proof.
  intros [xs ws] f H. unfold apply_rule, wsum. cbn [fst snd] in *. apply Rsum_ext. intros [x w] I. cbn [fst snd].
  rewrite Rabs_pos_eq; auto. apply H. eapply in_combine_l. exact I.
Qed.

Lemma gc3_fsum : forall m d n qf q f M L, accurate m d -> (1 <= n)%nat -> INR (2 * n + 1) * (d + 23 * u) <= / 1000 ->
  (Z.of_nat (2 * n + 2) <= 2 ^ 53)%Z ->
  @gc3_generate (FS m) n = Ok qf -> @gc3_generate RS n = Ok q -> tame01 f M L ->
  Rabs (apply_rule (real_rule qf) f - apply_rule q f) <= 8 * (1 + ln (INR n)) * (M * (4 * d + 112 * u) + L * (3 * d + 52 * u)).
Proof.
  intros m d n qf q f M L A Hn HE HN Hf Hq T0.
  destruct (gc3_float m d n qf q A HE HN Hf Hq) as (_ & B & C). pose proof (acc_pos m d A) as d0. pose proof u_pos.
  destruct (gc3_good n q Hq) as (G1 & G2 & _ & G3 & G4). pose proof (gc3_sum n q Hn Hq) as S.
  destruct (tame_even f M L T0) as (T & M0 & L0).
  rewrite <- (apply_even (real_rule qf) f), <- (apply_even q f).
  2: { intros x Hx. specialize (G3 x Hx). lra. }
  2: { intros x Hx. specialize (B x Hx). lra. }
  eapply Rle_trans; [eapply (close_sum 1); eauto|].
  - congruence.
  - intros x Hx. specialize (B x Hx). lra.
  - intros x Hx. specialize (G3 x Hx). lra.
  - intros w Hw. specialize (G4 w Hw). lra.
  - set (K := M * (4 * d + 112 * u) + L * (3 * d + 52 * u)).
    assert (K0 : 0 <= K) by (unfold K; apply Rplus_le_le_0_compat; apply Rmult_le_pos; lra).
    apply Rle_trans with (apply_rule q (fun x => / (sqrt x * (1 - x))) * K); [|apply Rmult_le_compat_r; auto].
    unfold apply_rule, wsum. rewrite <- Rsum_mult_r. apply Rsum_le. intros [x w] Hxw. cbn [fst snd].
    pose proof (in_combine_l _ _ _ _ Hxw) as Ix. pose proof (in_combine_r _ _ _ _ Hxw) as Iw.
    specialize (G3 x Ix). specialize (G4 w Iw). unfold K.
    assert (s0 : 0 < sqrt x) by (apply sqrt_lt_R0; lra). assert (s1 : sqrt x <= 1) by (rewrite <- sqrt_1; apply sqrt_le_1_alt; lra).
    assert (I : 1 <= / (sqrt x * (1 - x))).
    { rewrite <- Rinv_1 at 1; apply Rinv_le_contravar; [apply Rmult_lt_0_compat; lra|].
      rewrite <- (Rmult_1_l 1) at 2. apply Rmult_le_compat; lra. }
    replace (w * / (sqrt x * (1 - x)) * (M * (4 * d + 112 * u) + L * (3 * d + 52 * u)))
      with (M * (w * ((4 * d + 112 * u) / (sqrt x * (1 - x)))) + L * (3 * d + 52 * u) * w * / (sqrt x * (1 - x))) by (unfold Rdiv; ring).
    apply Rplus_le_compat_l. rewrite <- (Rmult_1_r (L * (3 * d + 52 * u) * w)) at 1. apply Rmult_le_compat_l; [|exact I].
    apply Rmult_le_pos; [apply Rmult_le_pos; lra|lra].
Qed.

(** Moderate sizes. *)
Lemma gc3_size : forall n d, (Z.of_nat n <= 2 ^ 20)%Z -> d <= / 2 ^ 50 -> INR (2 * n + 1) * (d + 23 * u) <= / 1000.
Proof.
  intros n d Hn Hd. assert (INR (2 * n + 1) <= 2 ^ 22).
  { rewrite INR_IZR_INZ, pow_IZR. apply IZR_le. change (2 ^ Z.of_nat 22)%Z with (4 * 2 ^ 20)%Z. lia. }
  pose proof (pos_INR (2 * n + 1)). unfold u. apply Rle_trans with (2 ^ 22 * (/ 2 ^ 50 + 23 * / 2 ^ 53)); [|lra].
  apply Rle_trans with (INR (2 * n + 1) * (/ 2 ^ 50 + 23 * / 2 ^ 53)); [apply Rmult_le_compat_l; lra|apply Rmult_le_compat_r; lra].
Qed.

Lemma gc3_shape : forall m d n qf, accurate m d -> d <= / 2 ^ 50 -> (Z.of_nat n <= 2 ^ 20)%Z ->
  @gc3_generate (FS m) n = Ok qf -> good_rule n 0 1 (real_rule qf).
Proof.
  intros m d n [xs ws] A Hd Hn Hf. pose proof u_pos as U. pose proof (acc_pos m d A) as d0.
  assert (Q : exists q : list R * list R, @gc3_generate RS n = Ok q) by (rewrite gc3_real; eauto). destruct Q as (q & Hq).
  destruct (gc3_float m d n _ q A (gc3_size n d Hn Hd) ltac:(lia) Hf Hq) as (_ & B & (L1 & L2 & C)).
  rewrite gc3_real in Hq. apply ok_inj in Hq. subst q. cbn [fst snd real_rule] in *. unfold real_rule in *. cbn [fst snd] in *. rewrite tab_length in L1, L2.
  pose proof (INR_pos (2 * n + 1) ltac:(lia)) as N0. pose proof PI_RGT_0. assert (P3 : 3 < PI) by (pose proof pi_coarse; lra).
  assert (Bn : INR (2 * n + 1) <= 5 / 2 * 2 ^ 20).
  { apply Rle_trans with (IZR (2 * 2 ^ 20 + 1)); [rewrite INR_IZR_INZ; apply IZR_le; lia|]. simpl. lra. }
  set (h := PI / INR (2 * n + 1)). assert (h0 : 0 < h) by (apply Rdiv_lt_0_compat; lra).
  assert (h1 : 3 / (5 / 2 * 2 ^ 20) <= h).
  { unfold h, Rdiv. apply Rmult_le_compat; try lra. apply Rinv_le_contravar; lra. }
  assert (h2 : 3 / (5 / 2 * 2 ^ 20) * (3 / (5 / 2 * 2 ^ 20)) <= h * h) by (apply Rmult_le_compat; lra).
  assert (T1 : 3 * d + 52 * u < h * h / 16) by (unfold u in *; lra).
  assert (Th : forall j, (j < n)%nat -> h <= th3 n j <= PI - h).
  { intros j Hj. unfold th3. assert (0 <= INR (n - 1 - j) <= INR n - 1).
    { split; [apply pos_INR|]. change 1 with (INR 1). rewrite <- minus_INR by lia. apply le_INR. lia. }
    set (c := INR (n - 1 - j)) in *. replace ((2 * c + 1) * PI / INR (2 * n + 1)) with ((2 * c + 1) * h) by (unfold h; field; lra).
    assert (EN : PI = (2 * INR n + 1) * h) by (unfold h; rewrite plus_INR, mult_INR; simpl (INR 2); simpl (INR 1); field; pose proof (pos_INR n); lra).
    rewrite EN. split.
    - rewrite <- (Rmult_1_l h) at 1. apply Rmult_le_compat_r; lra.
    - replace ((2 * INR n + 1) * h - h) with ((2 * INR n) * h) by ring. apply Rmult_le_compat_r; lra. }
  assert (Td : forall i j, (i < j < n)%nat -> th3 n j + h <= th3 n i).
  { intros i j Hij. unfold th3. assert (INR (n - 1 - j) + 1 <= INR (n - 1 - i)) by (rewrite <- S_INR; apply le_INR; lia).
    set (c := INR (n - 1 - j)) in *. set (e := INR (n - 1 - i)) in *.
    replace ((2 * c + 1) * PI / INR (2 * n + 1)) with ((2 * c + 1) * h) by (unfold h; field; lra).
    replace ((2 * e + 1) * PI / INR (2 * n + 1)) with ((2 * e + 1) * h) by (unfold h; field; lra).
    replace ((2 * c + 1) * h + h) with ((2 * c + 2) * h) by ring. apply Rmult_le_compat_r; lra. }
  assert (N : forall i x, nth_error (map B2R xs) i = Some x -> (i < n)%nat /\ Rabs (x - (1 + cos (th3 n i)) / 2) <= 3 * d + 52 * u).
  { intros i x Hx. assert (J : (i < n)%nat) by (rewrite <- L1; apply nth_error_Some; rewrite Hx; discriminate). split; auto.
    destruct (nth_error (map B2R ws) i) as [w|] eqn:Hw; [|apply nth_error_None in Hw; lia].
    apply (C i x _ w _ Hx (nth_error_tab n _ i J) Hw (nth_error_tab n _ i J)). }
  repeat split; cbn [fst snd]; auto.
  - intros i j x y Hij Hx Hy. destruct (N _ _ Hx) as (Ji & Kx). destruct (N _ _ Hy) as (Jj & Ky).
    apply abs_of in Kx. apply abs_of in Ky.
    pose proof (cos_sep (th3 n j) (th3 n i) h h0 (proj1 (Th j Jj)) (Td i j ltac:(lia)) (proj2 (Th i Ji))). lra.
  - apply B. exact H0.
  - apply In_nth_error in H0. destruct H0 as (i & Hi). destruct (N _ _ Hi) as (Ji & Kx). apply abs_of in Kx.
    pose proof (cos_end (th3 n i) h h0 (Th i Ji)). lra.
  - intros w Hw. apply In_nth_error in Hw. destruct Hw as (i & Hi).
    assert (J : (i < n)%nat) by (rewrite <- L2; apply nth_error_Some; rewrite Hi; discriminate).
    destruct (nth_error (map B2R xs) i) as [x|] eqn:Hx; [|apply nth_error_None in Hx; lia].
    destruct (C i x _ w _ Hx (nth_error_tab n _ i J) Hi (nth_error_tab n _ i J)) as (_ & K). apply abs_of in K.
    pose proof (Th i J) as Ti. pose proof (sin_low (th3 n i) h ltac:(lra) Ti) as S1.
    set (t := th3 n i / 2) in *. assert (T2 : th3 n i = 2 * t) by (unfold t; field).
    rewrite T2 in K. rewrite <- half_cos in K.
    assert (c0 : h / 4 <= cos t).
    { rewrite <- sin_shift. pose proof (sin_half (PI / 2 - t) ltac:(unfold t in *; lra)). unfold t in *. lra. }
    assert (s0 : h / 4 <= sin t) by (pose proof (sin_half t ltac:(unfold t in *; lra)); unfold t in *; lra).
    pose proof (COS_bound t). pose proof (SIN_bound t).
    rewrite sqrt_square in K by lra. assert (SS : 1 - cos t * cos t = sin t * sin t) by (pose proof (sin2_cos2 t) as Q; unfold Rsqr in Q; lra).
    rewrite SS in K.
    assert (D : h * h / 32 <= cos t * (sin t * sin t)).
    { assert (h3 : h <= 4) by (unfold h; apply Rmult_le_reg_r with (INR (2 * n + 1)); [lra|]; replace (PI / INR (2 * n + 1) * INR (2 * n + 1)) with PI by (field; lra);
        assert (1 <= INR (2 * n + 1)) by (apply (le_INR 1); lia); pose proof PI_4; lra).
      destruct (Rle_lt_dec (/ 2) (cos t)).
      - assert (h / 4 * (h / 4) <= sin t * sin t) by (apply Rmult_le_compat; lra).
        assert (/ 2 * (h / 4 * (h / 4)) <= cos t * (sin t * sin t)) by (apply Rmult_le_compat; try lra; apply Rmult_le_pos; lra). lra.
      - assert (cos t * cos t <= / 2 * / 2) by (apply Rmult_le_compat; lra).
        assert (h / 4 * (3 / 4) <= cos t * (sin t * sin t)) by (apply Rmult_le_compat; lra).
        assert (h * h <= 4 * h) by (apply Rmult_le_compat_r; lra). lra. }
    assert (Q : (4 * d + 112 * u) / (cos t * (sin t * sin t)) < 1).
    { assert (0 < cos t * (sin t * sin t)) by (assert (0 < h * h) by (apply Rmult_lt_0_compat; lra); lra).
      apply Rmult_lt_reg_r with (cos t * (sin t * sin t)); [lra|]. unfold Rdiv. rewrite Rmult_assoc, Rinv_l, Rmult_1_l, Rmult_1_r by lra. unfold u in *. lra. }
    rewrite <- T2 in K. fold h in K. set (r := (4 * d + 112 * u) / (cos t * (sin t * sin t))) in *.
    assert (V : 0 < h * sin (th3 n i)) by (apply Rmult_lt_0_compat; lra).
    assert (h * sin (th3 n i) * r < h * sin (th3 n i) * 1) by (apply Rmult_lt_compat_l; auto). lra.
Qed.

(** Large sizes: the last node is 1 and its weight is zero. *)
Lemma zero_weight3 : forall m d, accurate m d -> d <= / 2 ^ 54 -> exists n qf (x w : F64),
  @gc3_generate (FS m) n = Ok qf /\ nth_error (fst qf) (n - 1) = Some x /\ nth_error (snd qf) (n - 1) = Some w /\ B2R x = 1 /\ B2R w = 0.
Proof.
  intros m d A Hd. destruct big_nat as (n & Hn).
  exists n. rewrite gc3_closed. eexists. exists (@gc3_x (FS m) n (n - 1)), (@gc3_w (FS m) n (n - 1)). split; [reflexivity|]. cbn [fst snd].
  rewrite !nth_error_tab by lia. split; [reflexivity|]. split; [reflexivity|].
  destruct (f_of_small 1 ltac:(lia)) as [FO O]. assert (O1 : rnd 1 = 1) by (rewrite <- O; apply rnd_B2R).
  assert (C : is_finite (m_cos m (@gc3_t (FS m) n (n - 1))) = true /\ B2R (m_cos m (@gc3_t (FS m) n (n - 1))) = 1).
  { destruct (gc3_angle m n (n - 1) ltac:(lia) ltac:(lia)) as (F & dd & Hdd & E).
    set (t := @gc3_t (FS m) n (n - 1)) in *.
    assert (P : 3 < PI <= 3.15) by (pose proof pi_coarse; lra).
    assert (T : 0 <= th3 n (n - 1) / 2 <= / 2 ^ 29).
    { unfold th3. replace (n - 1 - (n - 1))%nat with 0%nat by lia. simpl (INR 0).
      assert (N1 : 2 ^ 30 <= INR (2 * n + 1)).
      { rewrite INR_IZR_INZ, pow_IZR. apply IZR_le. change (2 ^ Z.of_nat 30)%Z with (2 ^ 30)%Z. lia. }
      assert (I1 : 0 < / INR (2 * n + 1) <= / 2 ^ 30) by (assert (0 < 2 ^ 30) by (apply pow_lt; lra); split; [apply Rinv_0_lt_compat; lra|apply Rinv_le_contravar; lra]).
      replace ((2 * 0 + 1) * PI / INR (2 * n + 1) / 2) with (PI / 2 * / INR (2 * n + 1)) by (field; lra).
      assert (PI / 2 * / INR (2 * n + 1) <= 2 * / 2 ^ 30) by (apply Rmult_le_compat; lra).
      split; [apply Rmult_le_pos; lra|]. lra. }
    pose proof u_small. apply abs_of in Hdd.
    assert (Td : 0 <= B2R t <= / 2 ^ 28).
    { rewrite E. split; [apply Rmult_le_pos; lra|]. apply Rle_trans with (/ 2 ^ 29 * 2); [apply Rmult_le_compat; lra|lra]. }
    destruct (A t F) as ((F1 & B1 & C1) & _); [lra|].
    split; [exact F1|].
    pose proof (pred_one (Bopp (m_cos m t))) as PO. rewrite B2R_Bopp, Rabs_Ropp, Ropp_involutive in PO.
    assert (Q : cos (B2R t) >= 1 - / 2 ^ 56).
    { replace (B2R t) with (2 * (B2R t / 2)) by field. rewrite cos_2a_sin.
      pose proof (sin_lip (B2R t / 2) 0) as S. rewrite sin_0, !Rminus_0_r in S.
      set (z := B2R t / 2) in *. assert (Rabs z <= / 2 ^ 29) by (unfold z; rewrite Rabs_pos_eq; lra).
      assert (SS : sin z * sin z <= / 2 ^ 29 * / 2 ^ 29).
      { rewrite <- (Rabs_pos_eq (sin z * sin z)) by nra. rewrite Rabs_mult. apply Rmult_le_compat; try apply Rabs_pos; lra. }
      lra. }
    apply abs_of in C1. specialize (PO B1 ltac:(lra)). lra. }
  destruct C as (FC & EC). set (c := m_cos m (@gc3_t (FS m) n (n - 1))) in *.
  change (@gc3_x (FS m) n (n - 1)) with (fmul c c).
  assert (F1 : is_finite (fmul c c) = true).
  { apply finite_mul; auto. rewrite EC. replace (1 * 1) with 1 by ring. rewrite Rabs_R1. apply pow_R1_Rle. lra. }
  destruct (fmul_R _ _ F1) as (_ & _ & E1). rewrite EC in E1. replace (1 * 1) with 1 in E1 by ring. rewrite O1 in E1.
  split; [exact E1|].
  destruct (step_rel (2 * n + 1) ltac:(lia) ltac:(lia)) as (Hs & Rs). pose proof u_pos. pose proof u_small.
  set (pp := fdiv fpi (f_of (Z.of_nat (2 * n + 1)) 0)) in *.
  change (@gc3_w (FS m) n (n - 1)) with (fmul (fmul (fmul (f_of 2 0) pp) (fmul c c)) (fsqrt (fdiv (fsub (f_of 1 0) (fmul c c)) (fmul c c)))).
  destruct (finite_sub (f_of 1 0) (fmul c c) FO F1) as (F2 & E2).
  { rewrite O, E1, Rminus_diag_eq, Rabs_R0 by auto. apply pow_le. lra. }
  rewrite O, E1, Rminus_diag_eq, rnd_0 in E2 by auto.
  destruct (finite_div (fsub (f_of 1 0) (fmul c c)) (fmul c c) F2) as (F3 & E3).
  { rewrite E1. lra. }
  { rewrite E2. unfold Rdiv. rewrite Rmult_0_l, Rabs_R0. apply pow_le. lra. }
  rewrite E2 in E3. unfold Rdiv in E3. rewrite Rmult_0_l, rnd_0 in E3.
  destruct (sqrt_correct _ F3) as (F4 & E4); [rewrite E3; lra|]. rewrite E3, sqrt_0, rnd_0 in E4.
  assert (V1 : / 2 ^ 200 <= / 2 ^ 53) by (apply inv_pow_le; lia). assert (V0 : 0 < / 2 ^ 53) by (apply Rinv_0_lt_compat, pow_lt; lra).
  assert (R2 : rel (fmul (f_of 2 0) pp) (2 * (PI / INR (2 * n + 1))) (5 * u)).
  { assert (UU : 0 <= u * u <= u / 1000) by (split; nra). eapply rel_weak; [apply (rel_fmul _ _ _ _ _ _ (int_rel 2 ltac:(lia)) Hs); try lra|lra].
    - apply tiny_ok_2. rewrite Rabs_pos_eq; lra.
    - apply big_199. rewrite Rabs_pos_eq by lra. replace (2 ^ 60) with (8 * 2 ^ 57) by (simpl; lra).
      assert (1 <= 2 ^ 57) by (apply pow_R1_Rle; lra). lra. }
  destruct R2 as (F5 & d5 & Hd5 & E5). apply abs_of in Hd5.
  assert (F6 : is_finite (fmul (fmul (f_of 2 0) pp) (fmul c c)) = true).
  { apply finite_mul; auto. rewrite E1, E5, Rmult_1_r, Rabs_pos_eq by (apply Rmult_le_pos; lra).
    apply Rle_trans with (8 * 2); [apply Rmult_le_compat; lra|]. apply Rle_trans with (2 ^ 4); [simpl; lra|apply Rle_pow; [lra|lia]]. }
  assert (F7 : is_finite (fmul (fmul (fmul (f_of 2 0) pp) (fmul c c)) (fsqrt (fdiv (fsub (f_of 1 0) (fmul c c)) (fmul c c)))) = true).
  { apply finite_mul; auto. rewrite E4, Rmult_0_r, Rabs_R0. apply pow_le. lra. }
  destruct (fmul_R _ _ F7) as (_ & _ & E7). rewrite E4, Rmult_0_r, rnd_0 in E7. exact E7.
Qed.

(** A concrete rule. *)
Lemma gc3_ex : exists qf q, @gc3_generate (FS rounded_libm) 5 = Ok qf /\ @gc3_generate RS 5 = Ok q /\
  INR 11 * (/ 2 ^ 54 + 23 * ulp53) <= / 1000 /\ tame01 (fun x => x * x) 1 2 /\ good_rule 5 0 1 (real_rule qf) /\
  Rabs (apply_rule (real_rule qf) (fun x => x * x) - apply_rule q (fun x => x * x)) <= / 10 ^ 11.
Proof.
  destruct (gc3_generate (S := FS rounded_libm) 5) as [qf| | | |] eqn:Ef; try (rewrite gc3_closed in Ef; discriminate).
  destruct (gc3_generate (S := RS) 5) as [q| | | |] eqn:Eq; try (rewrite gc3_closed in Eq; discriminate).
  assert (T : tame01 (fun x => x * x) 1 2).
  { split.
    - intros x Hx. rewrite Rabs_pos_eq; nra.
    - intros x y Hx Hy. replace (x * x - y * y) with ((x + y) * (x - y)) by ring. rewrite Rabs_mult.
      apply Rmult_le_compat_r; [apply Rabs_pos|]. rewrite Rabs_pos_eq; lra. }
  pose proof rounded_accurate as A.
  assert (D : / 2 ^ 54 <= / 2 ^ 50) by (apply inv_pow_le; lia).
  pose proof (gc3_size 5 (/ 2 ^ 54) ltac:(simpl; lia) D) as Z.
  exists qf, q. split; [auto|]. split; [auto|]. split; [exact Z|]. split; [exact T|]. split.
  - eapply (gc3_shape rounded_libm _ 5 qf A D); [simpl; lia|exact Ef].
  - eapply Rle_trans; [apply (gc3_fsum rounded_libm _ 5 qf q _ 1 2 A ltac:(lia) Z ltac:(simpl; lia) Ef Eq T)|].
    unfold u. replace (INR 5) with 5 by (simpl; lra).
    assert (K : ln 5 <= 4).
    { rewrite <- (ln_exp 4). apply Rcomplements.ln_le; [lra|]. pose proof (exp_ineq1 4 ltac:(lra)). lra. }
    set (l := ln 5) in *. set (e := 1 * (4 * / 2 ^ 54 + 112 * / 2 ^ 53) + 2 * (3 * / 2 ^ 54 + 52 * / 2 ^ 53)).
    assert (0 <= e) by (unfold e; lra). apply Rle_trans with (8 * 5 * e); [apply Rmult_le_compat_r; lra|]. unfold e. lra.
Qed.
