(** C46: the Gauss-Lobatto rule in binary64. *)
From Coq Require Import List Bool Arith ZArith Lia Reals Lra Psatz.
From Coquelicot Require Import Coquelicot.
From Flocq Require Import IEEE754.BinarySingleNaN Core.
From Verif Require Import Base.Outcome Base.Scalar Base.RScalar Base.FScalar Model.Primitive Spec.Sums Spec.RealRules
  Spec.LegendreSpec Spec.RuleSpec Spec.FloatSpec Spec.LibmSpec Proofs.Tab Proofs.SumFacts Proofs.PrimitiveFacts
  Proofs.ChebReal Proofs.ChebInt Proofs.ChebExact Proofs.Legendre Proofs.LegendreZeros Proofs.LegendreAngles Proofs.GLNewton
  Proofs.GLRule Proofs.Lobatto Proofs.LobattoAngles Proofs.LobattoNewton Proofs.LobattoRule Proofs.FloatOps Proofs.FloatErr
  Proofs.FloatSphere Proofs.ChebFloat Proofs.ChebFloat3 Proofs.LegendreRound Proofs.GLBasin Proofs.GLFloat Proofs.GLFloatRule
  Proofs.LobFloat.
Import ListNotations.
Local Open Scope R_scope.

Lemma lmul_eq : forall a b c, 0 < c -> a * c <= b * c -> a <= b.
Proof. intros a b c Hc H. apply Rmult_le_reg_r with c; auto. Qed.

Section Rule.
Variables (lib : libm) (d : R) (m : nat) (z y : nat -> R).
Hypothesis A : accurate lib d.
Hypothesis Hd : d * (INR m + 1) ^ 2 <= 1 / 2000.
Hypothesis Hm : (1 <= m)%nat.
Hypothesis Hn : (Z.of_nat m < 16384)%Z.
Hypothesis Hz : zeros m z.
Hypothesis Hy : lnodes m y.
Hypothesis Hi : forall i, (0 < i < m)%nat -> z (i - 1)%nat < y i < z i.
Let M := INR m.
Let N := INR m + 1.
Let sq := sqrt N.
Let U := u * (N * N) * sq.

Lemma lbasin_ex : forall k, (0 < k)%nat -> (2 * k <= m)%nat ->
  exists B dl, lbasin m (y k) (z (k - 1)%nat) (z k) ((-1) ^ (m - k)) B dl /\ Rabs (- cos (gam m k) - y k) + / 1000 / (M * M) <= dl.
Proof.
  intros k H0 Hk.
  assert (M2 : 2 <= M) by (pose proof (le_INR 2 m ltac:(lia)) as E; simpl in E; unfold M; lra).
  assert (MM : 4 <= M * M) by (apply Rle_trans with (2 * 2); [lra|apply Rmult_le_compat; lra]).
  set (rho := / 1000 / (M * M)).
  assert (R1 : rho * (M * M) = / 1000) by (unfold rho; field; lra).
  assert (R0 : 0 < rho) by (unfold rho; apply Rdiv_lt_0_compat; lra).
  assert (R2 : rho <= / 4000) by (apply (lmul_eq _ _ (M * M)); lra).
  assert (LM : M * (M + 1) <= 1.5 * (M * M)) by (clear - M2; nra).
  assert (L0 : 0 < M * (M + 1)) by (apply Rmult_lt_0_compat; lra).
  pose proof Hy as (_ & _ & _ & Dy). pose proof Hz as (Z1 & Z2 & Z3).
  assert (SG : (-1) ^ (m - k) * (-1) ^ (m - k) = 1) by apply pow_m1_sq.
  assert (NN : (M + 1) * (M + 1) = M * (M + 1) + (M + 1)) by ring.
  destruct (Nat.eq_dec (2 * k) m) as [E|E].
  - assert (Y0 : y k = 0).
    { pose proof (lnodes_sym m y k Hm Hy ltac:(lia)) as Q. replace (m - k)%nat with k in Q by lia. lra. }
    assert (G0 : cos (gam m k) = 0).
    { replace (gam m k) with (PI / 2); [apply cos_PI2|]. unfold gam. pose proof M2 as M2'. unfold M in M2'. rewrite <- E in M2' |- *.
      rewrite mult_INR in *. simpl (INR 2) in *. field. lra. }
    exists (1.001 * (M * (M + 1))), rho. split.
    2:{ rewrite G0, Y0, Ropp_0, Rminus_0_r, Rabs_R0. lra. }
    assert (XX : forall x, Rabs (x - y k) <= rho -> 0.9999 <= 1 - x * x <= 1).
    { intros x Hx. rewrite Y0, Rminus_0_r in Hx. apply abs_of in Hx.
      assert (0 <= x * x <= / 4000 * / 4000) by (clear - Hx R2; split; nra). lra. }
    unfold lbasin. split; [lia|]. split; [exact SG|]. split; [apply Dy; lia|]. split; [apply Hi; lia|].
    split; [apply Z3; lia|]. split; [apply Z3; lia|]. split; [intros x Hx; apply (lob_sign m z Hm Hz k x); [lia|exact Hx]|].
    split; [lra|]. split; [lra|]. split.
    { intros x Hx. specialize (XX x Hx). split; [lra|]. fold M.
      replace (1.001 * (M * (M + 1)) * (1 - x * x)) with (M * (M + 1) * (1.001 * (1 - x * x))) by ring.
      rewrite <- (Rmult_1_r (M * (M + 1))) at 1. apply Rmult_le_compat_l; lra. }
    split.
    { apply Rle_trans with (1.001 * (1.5 * (M * M)) * (rho * rho)).
      - apply Rmult_le_compat_r; [apply Rle_0_sqr|lra].
      - replace (1.001 * (1.5 * (M * M)) * (rho * rho)) with (1.001 * 1.5 * rho * (rho * (M * M))) by ring. rewrite R1. lra. }
    split; [fold M; lra|]. split.
    { intros x Hx. specialize (XX x Hx). fold M. apply Rle_trans with (4 * 0.9999); [lra|]. apply Rmult_le_compat; lra. }
    fold M. apply Rle_trans with ((M + 1) * (M + 1) * 9).
    + lra.
    + apply Rmult_le_compat_l; [lra|]. apply Rle_trans with (3 * 3); [lra|apply Rmult_le_compat; lra].
  - assert (Hk' : (2 * k < m)%nat) by lia.
    pose proof (start_close m z y Hm Hz Hy Hi k H0 Hk') as (Da & Db).
    pose proof (gam_range m z y Hm Hz Hy Hi k H0 Hk') as GR.
    assert (CP : cos (psi m y k) = - y k).
    { transitivity (y (m - k)%nat); [eapply cos_psi; eauto; lia|apply lnodes_sym; auto; lia]. }
    pose proof (sin_gam m k GR H0 Hm) as SGm.
    rewrite CP in Da, Db. set (c := cos (gam m k)) in *. set (s := sin (gam m k)) in *. set (dl := c - - y k) in *.
    fold M in SGm, Db.
    assert (s0 : 0 < s) by (apply sin_gt_0; lra). assert (cs : c * c + s * s = 1) by (pose proof (sin2_cos2 (gam m k)) as Q; unfold Rsqr in Q; fold s c in Q; lra).
    assert (c0 : 0 < c) by (apply cos_gt_0; lra).
    assert (yk : y k < 0).
    { assert (P1 : psi m y k < PI / 2) by (eapply psi_half; eauto).
      assert (0 < psi m y k < PI) by (eapply psi_range; eauto; lia).
      assert (0 < cos (psi m y k)) by (apply cos_gt_0; lra). lra. }
    assert (ss : 0 < s * s <= 1) by (split; [apply Rmult_lt_0_compat; auto|pose proof (Rle_0_sqr c) as Q; unfold Rsqr in Q; lra]).
    assert (c1 : c <= 1) by (pose proof (COS_bound (gam m k)) as Q; fold c in Q; lra).
    assert (Rs : rho <= 0.00032 * (s * s)).
    { apply (lmul_eq _ _ (M * M)); [lra|]. rewrite R1. lra. }
    assert (DS : dl <= 0.5 * (s * s)).
    { assert (K1 : M * M * (dl * dl) <= 0.79 * (s * s)).
      { eapply Rle_trans; [|exact Db]. apply Rmult_le_compat_r; [apply Rle_0_sqr|]. lra. }
      assert (K2 : (M * M) * (dl * dl) * (M * M) <= 0.79 * (s * s) * (M * M)) by (apply Rmult_le_compat_r; lra).
      assert (K3 : dl * dl <= (0.5 * (s * s)) * (0.5 * (s * s))).
      { apply (lmul_eq _ _ (M * M)); [lra|].
        replace (0.5 * (s * s) * (0.5 * (s * s)) * (M * M)) with (0.25 * (s * s) * (M * M * (s * s))) by lra.
        assert (0.25 * (s * s) * 3.2 <= 0.25 * (s * s) * (M * M * (s * s))) by (apply Rmult_le_compat_l; lra). lra. }
      clear - K3 Da ss. nra. }
    set (L := M * (M + 1)) in *. set (t := 0.999 * (s * s)). assert (t0 : 0 < t) by (unfold t; lra).
    set (B := L / t).
    assert (B0 : 0 < B) by (apply Rdiv_lt_0_compat; auto).
    assert (Bt : B * t = L) by (unfold B; field; lra).
    assert (XX : forall x, Rabs (x - y k) <= dl + rho -> t <= 1 - x * x).
    { intros x Hx. apply abs_of in Hx. unfold dl in Hx.
      assert (AX : Rabs x <= c + rho) by (apply Rabs_le; lra).
      assert (x * x <= (c + rho) * (c + rho)).
      { rewrite <- (Rabs_pos_eq (x * x)) by apply Rle_0_sqr. rewrite Rabs_mult. apply Rmult_le_compat; auto using Rabs_pos. }
      assert (c * rho <= 1 * rho) by (apply Rmult_le_compat_r; lra).
      assert (rho * rho <= 1 * rho) by (apply Rmult_le_compat_r; lra).
      replace ((c + rho) * (c + rho)) with (c * c + 2 * (c * rho) + rho * rho) in H by ring. unfold t. lra. }
    exists B, (dl + rho). split.
    2:{ rewrite Rabs_left1; unfold dl in *; lra. }
    unfold lbasin. split; [lia|]. split; [exact SG|]. split; [apply Dy; lia|]. split; [apply Hi; lia|].
    split; [apply Z3; lia|]. split; [apply Z3; lia|]. split; [intros x Hx; apply (lob_sign m z Hm Hz k x); [lia|exact Hx]|].
    split; [lra|]. split; [lra|]. split.
    { intros x Hx. specialize (XX x Hx). split; [lra|]. fold M. fold L. rewrite <- Bt. apply Rmult_le_compat_l; lra. }
    split.
    { apply (lmul_eq _ _ t); auto. replace (B * ((dl + rho) * (dl + rho)) * t) with (B * t * ((dl + rho) * (dl + rho))) by ring. rewrite Bt.
      replace (L * ((dl + rho) * (dl + rho))) with (L * (dl * dl) + L * rho * (2 * dl + rho)) by ring.
      assert (LR : L * rho <= 0.0015).
      { apply Rle_trans with (1.5 * (M * M) * rho); [apply Rmult_le_compat_r; lra|].
        replace (1.5 * (M * M) * rho) with (1.5 * (rho * (M * M))) by ring. lra. }
      assert (L * rho * (2 * dl + rho) <= 0.0015 * (2 * dl + rho)) by (apply Rmult_le_compat_r; lra).
      unfold t. lra. }
    split.
    { fold M. rewrite Rmult_plus_distr_r. rewrite R1. assert (0 <= dl * (M * M)) by (apply Rmult_le_pos; lra). lra. }
    split.
    { intros x Hx. specialize (XX x Hx). fold M. apply Rle_trans with (M * M * t); [unfold t; lra|]. apply Rmult_le_compat_l; lra. }
    fold M. fold L.
    apply (lmul_eq _ _ t); auto. replace (3.19 * B * t) with (3.19 * (B * t)) by ring. rewrite Bt.
    assert (Mt : 3.19 <= M * M * t) by (unfold t; lra).
    apply Rle_trans with (L * (M * M * t)); [rewrite (Rmult_comm 3.19); apply Rmult_le_compat_l; lra|].
    replace ((M + 1) * (M + 1) * ((M + 1) * (M + 1)) * t) with (((M + 1) * (M + 1)) * ((M + 1) * (M + 1) * t)) by ring.
    assert (M * M <= (M + 1) * (M + 1)) by (apply Rmult_le_compat; lra).
    apply Rmult_le_compat; try lra. apply Rmult_le_compat_r; lra.
Qed.

Lemma langle_rel : forall k, (0 < k)%nat -> (2 * k <= m)%nat ->
  rel (fdiv (fmul (f_of (Z.of_nat (S m - 1 - k)) 0) fpi) (fsub (f_of (Z.of_nat (S m)) 0) (f_of 1 0))) (PI - gam m k) (8 * u).
Proof.
  intros k H0 Hk. pose proof u_pos as u0. pose proof u_small as u1.
  pose proof (nat_rel (S m - 1 - k) ltac:(lia)) as RA. replace (S m - 1 - k)%nat with (m - k)%nat in * by lia.
  assert (RB : rel (fsub (f_of (Z.of_nat (S m)) 0) (f_of 1 0)) M 0).
  { pose proof (fsub_int (f_of (Z.of_nat (S m)) 0) (Z.of_nat (S m)) 1 (int_rel (Z.of_nat (S m)) ltac:(lia)) ltac:(lia) ltac:(lia)) as K.
    replace (Z.of_nat (S m) - 1)%Z with (Z.of_nat m) in K by lia. rewrite IZR_INR in K. exact K. }
  pose proof (le_INR 1 (m - k) ltac:(lia)) as I1. change (INR 1) with 1 in I1.
  pose proof (nat16 (m - k) ltac:(lia)) as I2. pose proof (nat16 m Hn) as M3. fold M in M3.
  assert (M1 : 1 <= M) by (apply (le_INR 1); auto).
  pose proof PI_bounds as P.
  assert (T20 : / 2 ^ 60 <= 0.0001).
  { apply Rle_trans with (/ 2 ^ 20); [apply Rinv_le_contravar; [apply pow_lt; lra|apply Rle_pow; [lra|lia]]|lra]. }
  assert (B20 : 200000 <= 2 ^ 899) by (apply Rle_trans with (2 ^ 20); [lra|apply Rle_pow; [lra|lia]]).
  assert (PK : 2 <= INR (m - k) * PI <= 65536).
  { split; [apply Rle_trans with (1 * 3); [lra|]; apply Rmult_le_compat; lra|].
    apply Rle_trans with (16384 * 4); [apply Rmult_le_compat; lra|lra]. }
  assert (C : rel (fmul (f_of (Z.of_nat (m - k)) 0) fpi) (INR (m - k) * PI) (3.1 * u)).
  { eapply rel_weak; [apply (rel_fmul _ _ _ _ _ _ RA fpi_rel); try lra|].
    - apply tiny_ok_1. rewrite Rabs_pos_eq by lra. lra.
    - rewrite Rabs_pos_eq by lra. lra.
    - assert (u * u <= u / 1000) by nra. lra. }
  assert (V : INR (m - k) * PI / M = PI - gam m k).
  { rewrite minus_INR by lia. unfold gam. fold M. field. lra. }
  assert (PH : 0.0001 <= PI - gam m k <= 200000).
  { rewrite <- V. split; apply (lmul_eq _ _ M); try lra;
      replace (INR (m - k) * PI / M * M) with (INR (m - k) * PI) by (field; lra); nra. }
  rewrite <- V. eapply rel_weak; [apply (rel_fdiv _ _ _ _ _ _ C RB); try lra|].
  - rewrite V. apply tiny_ok_1. rewrite Rabs_pos_eq by lra. lra.
  - rewrite V, Rabs_pos_eq by lra. lra.
  - lra.
Qed.

Lemma lguess_float : forall k, (0 < k)%nat -> (2 * k <= m)%nat ->
  is_finite (@lob_guess (FS lib) (S m) k : F64) = true /\
  Rabs (B2R (@lob_guess (FS lib) (S m) k : F64) - - cos (gam m k)) <= / 1000 / (M * M).
Proof.
  intros k H0 Hk. pose proof u_pos as u0. pose proof u_small as u1.
  pose proof PI_RGT_0 as P0. pose proof (le_INR 1 m Hm) as M1. change (INR 1) with 1 in M1. fold M in M1.
  assert (GR : 0 < gam m k < PI).
  { unfold gam. fold M. pose proof (le_INR 1 k ltac:(lia)) as k1. change (INR 1) with 1 in k1.
    pose proof (lt_INR k m ltac:(lia)) as km. fold M in km.
    split; [apply Rdiv_lt_0_compat; nra|]. apply Rmult_lt_reg_r with M; [lra|].
    replace (INR k * PI / M * M) with (INR k * PI) by (field; lra). nra. }
  destruct (cos_near lib d _ _ _ A (langle_rel k H0 Hk) ltac:(lra) ltac:(lra)) as ((F & C) & _).
  split; [exact F|].
  rewrite cos_minus, cos_PI, sin_PI in C.
  replace (-1 * cos (gam m k) + 0 * sin (gam m k)) with (- cos (gam m k)) in C by ring.
  eapply Rle_trans; [exact C|].
  fold N in Hd. assert (EN : N = M + 1) by reflexivity.
  assert (MN : M * M <= N * N) by (apply Rmult_le_compat; lra).
  assert (NB : N * N <= 16384 * 16384) by (pose proof (nat16 m Hn) as Q; fold M in Q; apply Rmult_le_compat; lra).
  assert (M0 : 0 < M * M) by (apply Rmult_lt_0_compat; lra).
  apply (lmul_eq _ _ (M * M)); auto. replace (/ 1000 / (M * M) * (M * M)) with (/ 1000) by (field; lra).
  assert (d0 : 0 <= d).
  { destruct (A (f_of 0 0)) as ((_ & _ & C1) & _).
    - destruct (f_of_small 0 ltac:(lia)); auto.
    - destruct (f_of_small 0 ltac:(lia)) as (_ & ->). pose proof PI_RGT_0. try split; lra.
    - eapply Rle_trans; [apply Rabs_pos|exact C1]. }
  replace (N ^ 2) with (N * N) in Hd by ring.
  assert (u * (N * N) <= / 9007199254740992 * (16384 * 16384)) by (apply Rmult_le_compat; try lra; unfold u; lra).
  apply Rle_trans with ((d + 8 * u * 3.15) * (N * N)); [|lra]. apply Rmult_le_compat_l; lra.
Qed.

(** The common factor 2 / (n (n-1)) of the weights, stored at the two ends. *)
Definition lfac : F64 := fdiv (f_of 2 0) (fmul (f_of (Z.of_nat (S m)) 0) (fsub (f_of (Z.of_nat (S m)) 0) (f_of 1 0))).
Lemma lfac_rel : rel lfac (2 / (N * M)) (2 * u) /\ / 2 ^ 30 <= 2 / (N * M) <= 1.
Proof.
  pose proof u_pos as u0. pose proof u_small as u1. pose proof (nat16 m Hn) as M3. fold M in M3.
  pose proof (le_INR 1 m Hm) as M1. change (INR 1) with 1 in M1. fold M in M1. assert (EN : N = M + 1) by reflexivity.
  pose proof (fsub_int (f_of (Z.of_nat (S m)) 0) (Z.of_nat (S m)) 1 (int_rel (Z.of_nat (S m)) ltac:(lia)) ltac:(lia) ltac:(lia)) as RB.
  replace (Z.of_nat (S m) - 1)%Z with (Z.of_nat m) in RB by lia. rewrite IZR_INR in RB. fold M in RB.
  pose proof (nat_rel (S m) ltac:(lia)) as RA. rewrite S_INR in RA. fold N in RA.
  assert (NM : 2 <= N * M <= 2 ^ 29).
  { split; [apply Rle_trans with (2 * 1); [lra|apply Rmult_le_compat; lra]|].
    apply Rle_trans with (16384 * 16384); [apply Rmult_le_compat; lra|lra]. }
  assert (T60 : / 2 ^ 60 <= / 2 ^ 30) by (apply Rinv_le_contravar; [apply pow_lt; lra|apply Rle_pow; [lra|lia]]).
  assert (B899 : 2 ^ 29 <= 2 ^ 899) by (apply Rle_pow; [lra|lia]).
  assert (T30 : / 2 ^ 30 <= 1) by (rewrite <- Rinv_1; apply Rinv_le_contravar; [lra|apply pow_R1_Rle; lra]).
  assert (C0 : rel (fmul (f_of (Z.of_nat (S m)) 0) (fsub (f_of (Z.of_nat (S m)) 0) (f_of 1 0))) (N * M) 0).
  { assert (EF : forall x : F64, rel x M 0 -> rel (fmul (f_of (Z.of_nat (S m)) 0) x) (N * M) 0).
    { intros x (Fx & e & He & Ex). assert (e = 0) by (apply abs_in in He; lra). subst e. rewrite Rplus_0_r, Rmult_1_r in Ex.
      pose proof (fmul_int (Z.of_nat (S m)) (Z.of_nat m) ltac:(lia) ltac:(lia) ltac:(nia)) as (FI & e2 & He2 & EI).
      assert (e2 = 0) by (apply abs_in in He2; lra). subst e2. rewrite Rplus_0_r, Rmult_1_r in EI.
      destruct (f_of_small (Z.of_nat m) ltac:(lia)) as (Fm & Em). rewrite IZR_INR in Em. fold M in Em.
      destruct (f_of_small (Z.of_nat (S m)) ltac:(lia)) as (FSm & ESm). rewrite IZR_INR, S_INR in ESm. fold N in ESm.
      assert (FX : is_finite (fmul (f_of (Z.of_nat (S m)) 0) x) = true).
      { apply finite_mul; auto. rewrite ESm, Ex, Rabs_pos_eq by lra. apply Rle_trans with (2 ^ 29); [lra|apply Rle_pow; [lra|lia]]. }
      split; auto. exists 0. split; [rewrite Rabs_R0; lra|].
      destruct (fmul_R _ _ FX) as (_ & _ & ->). destruct (fmul_R _ _ FI) as (_ & _ & EI').
      rewrite EI' in EI. rewrite ESm, Em in EI. rewrite ESm, Ex, EI. rewrite mult_IZR, !IZR_INR, S_INR. fold N M. ring. }
    apply EF. exact RB. }
  assert (LB : / 2 ^ 30 <= 2 / (N * M) <= 1).
  { split.
    - apply (lmul_eq _ _ (N * M)); [lra|]. replace (2 / (N * M) * (N * M)) with 2 by (field; lra).
      apply Rle_trans with (/ 2 ^ 30 * 2 ^ 29); [|lra]. apply Rmult_le_compat_l; lra.
    - apply (lmul_eq _ _ (N * M)); [lra|]. replace (2 / (N * M) * (N * M)) with 2 by (field; lra). lra. }
  split; auto.
  pose proof (int_rel 2 ltac:(lia)) as R2.
  eapply rel_weak; [apply (rel_fdiv _ _ _ _ _ _ R2 C0); try lra|lra].
  - apply tiny_ok_1. rewrite Rabs_pos_eq by lra. lra.
  - rewrite Rabs_pos_eq by lra. lra.
Qed.

Lemma liter_float : forall k (v : F64 * F64), (0 < k)%nat -> (2 * k <= m)%nat -> @lob_newton (FS lib) (S m) 100 (lob_guess (S m) k) = Some v ->
  is_finite (fst v) = true /\ Rabs (B2R (fst v) - y k) <= 24 * u * sq /\
  z (k - 1)%nat < B2R (fst v) < z k /\ rel (@lob_w (FS lib) (S m) v) (lob_weight m (y k)) (45 * U).
Proof.
  intros k v H0 Hk H. destruct (lbasin_ex k H0 Hk) as (B & dl & BS & Eh).
  destruct (lguess_float k H0 Hk) as (F & J).
  assert (J2 : Rabs (B2R (@lob_guess (FS lib) (S m) k : F64) - y k) <= dl).
  { replace (B2R (@lob_guess (FS lib) (S m) k : F64) - y k) with
      ((B2R (@lob_guess (FS lib) (S m) k : F64) - - cos (gam m k)) + (- cos (gam m k) - y k)) by ring.
    eapply Rle_trans; [apply Rabs_triang|]. lra. }
  destruct (literate lib m _ _ _ _ _ _ BS Hn 100 _ v F J2 H) as (S1 & S2 & S3 & Rp).
  fold N sq U in S2, Rp. split; auto. split; auto. split; auto.
  pose proof (lU_facts m _ _ _ _ _ _ BS Hn) as ((U0 & U1) & U2 & _). pose proof (p0_lower m _ _ _ _ _ _ BS Hn) as P0.
  fold N sq U in U0, U1, U2, P0. pose proof u_pos as u0. pose proof u_small as u1.
  pose proof (lsq_facts m _ _ _ _ _ _ BS Hn) as (ES & Q1 & Q2). fold N sq in ES, Q1, Q2.
  destruct lfac_rel as (RF & LB). pose proof (le_INR 1 m Hm) as M1. change (INR 1) with 1 in M1. fold M in M1.
  assert (EN : N = M + 1) by reflexivity. pose proof (nat16 m Hn) as M3. fold M in M3.
  assert (SG : (-1) ^ (m - k) * (-1) ^ (m - k) = 1) by apply pow_m1_sq.
  set (p0 := (-1) ^ (m - k) * Pn m (y k)) in P0.
  assert (PP : p0 * p0 = Pn m (y k) * Pn m (y k)).
  { unfold p0. transitivity ((-1) ^ (m - k) * (-1) ^ (m - k) * (Pn m (y k) * Pn m (y k))); [ring|rewrite SG; ring]. }
  assert (PL : 0.00002 <= p0 * p0 <= 1).
  { destruct P0 as ((P01 & P02) & P03). split.
    - assert (K : 0.49 <= (sq * p0) * (sq * p0)) by (apply Rle_trans with (0.707 * 0.707); [lra|apply Rmult_le_compat; lra]).
      replace (sq * p0 * (sq * p0)) with (sq * sq * (p0 * p0)) in K by ring. rewrite ES in K.
      assert (0 <= p0 * p0) by apply Rle_0_sqr.
      assert (N * (p0 * p0) <= 16384 * (p0 * p0)) by (apply Rmult_le_compat_r; lra). lra.
    - apply Rle_trans with (1 * 1); [apply Rmult_le_compat; lra|lra]. }
  rewrite PP in PL.
  assert (T60 : / 2 ^ 60 <= / 2 ^ 30) by (apply Rinv_le_contravar; [apply pow_lt; lra|apply Rle_pow; [lra|lia]]).
  assert (T30 : / 2 ^ 30 <= 0.00001) by lra.
  assert (B899 : 2 ^ 29 <= 2 ^ 899) by (apply Rle_pow; [lra|lia]).
  assert (R2 : rel (fmul (snd v) (snd v)) (Pn m (y k) * Pn m (y k)) (21.7 * U)).
  { eapply rel_weak; [apply (rel_fmul _ _ _ _ _ _ Rp Rp); try lra|].
    - apply tiny_ok_1. rewrite Rabs_pos_eq by lra. lra.
    - rewrite Rabs_pos_eq by lra. lra.
    - assert (U * U <= 0.000004 * U) by (apply Rmult_le_compat_r; lra).
      assert (K1 : u * (1 + 10.8 * U) <= u * 1.001) by (apply Rmult_le_compat_l; lra).
      assert (K2 : u * (1 + 10.8 * U) * (1 + 10.8 * U) <= u * 1.001 * 1.001).
      { apply Rmult_le_compat; try lra. apply Rmult_le_pos; lra. }
      replace (10.8 * U * (10.8 * U)) with (116.64 * (U * U)) by lra. lra. }
  assert (EW : 2 / (N * M) / (Pn m (y k) * Pn m (y k)) = lob_weight m (y k)).
  { unfold lob_weight. fold M. rewrite EN. field. repeat split; try lra. intro Q. rewrite Q in PL. lra. }
  assert (WB : / 2 ^ 30 <= lob_weight m (y k) <= 50000).
  { rewrite <- EW. split; apply (lmul_eq _ _ (Pn m (y k) * Pn m (y k))); try lra; unfold Rdiv; rewrite (Rmult_assoc (2 * / (N * M))), Rinv_l, Rmult_1_r by lra;
      unfold Rdiv in LB.
    - assert (/ 2 ^ 30 * (Pn m (y k) * Pn m (y k)) <= / 2 ^ 30 * 1) by (apply Rmult_le_compat_l; lra). lra.
    - assert (50000 * 0.00002 <= 50000 * (Pn m (y k) * Pn m (y k))) by (apply Rmult_le_compat_l; lra). lra. }
  pose proof (rel_fdiv _ _ _ _ _ _ RF R2) as RW. rewrite EW in RW.
  assert (RW' : rel (fdiv lfac (fmul (snd v) (snd v))) (lob_weight m (y k)) (45 * U)).
  { eapply rel_weak; [apply RW; try lra|].
    - apply tiny_ok_1. rewrite Rabs_pos_eq by lra. lra.
    - rewrite Rabs_pos_eq by lra. lra.
    - assert (2 * (2 * u) * (21.7 * U) <= 2 * (2 * u) * 1) by (apply Rmult_le_compat_l; lra). lra. }
  exact RW'.
Qed.

Variable r : nat -> F64 * F64.
Hypothesis Hr : forall k, (1 <= k < S m - S m / 2)%nat -> @lob_newton (FS lib) (S m) 100 (lob_guess (S m) k) = Some (r k).
Definition lX (j : nat) : R := B2R (@lob_pt (FS lib) (S m) r j : F64).
Definition lW (j : nat) : R := B2R (@lob_wt (FS lib) (S m) r j : F64).

Lemma one_val : is_finite (f_of 1 0) = true /\ B2R (f_of 1 0) = 1.
Proof. apply (f_of_small 1). lia. Qed.
Lemma lX_cases : forall j, (j <= m)%nat -> is_finite (@lob_pt (FS lib) (S m) r j : F64) = true /\
  ((j = 0%nat /\ lX j = -1) \/ (j = m /\ lX j = 1) \/
   ((0 < j < m)%nat /\ Rabs (lX j - y j) <= 24 * u * sq /\ z (j - 1)%nat < lX j < z j)).
Proof.
  intros j Hj. pose proof (half_cases (S m)) as HC. destruct one_val as (F1 & E1). unfold lX, lob_pt.
  replace (S m - 1)%nat with m by lia.
  assert (us : 0 <= 24 * u * sq) by (pose proof u_pos; pose proof (sqrt_pos N) as Q; fold sq in Q; apply Rmult_le_pos; lra).
  assert (OPP : forall (x : F64) a b e c, is_finite x = true -> Rabs (B2R x - a) <= e -> b < B2R x < c ->
    is_finite (Bopp x) = true /\ Rabs (B2R (Bopp x) - - a) <= e /\ - c < B2R (Bopp x) < - b).
  { intros x a b e c Fx Ex Bx. rewrite is_finite_Bopp, B2R_Bopp. split; auto. split; [|lra].
    replace (- B2R x - - a) with (- (B2R x - a)) by ring. rewrite Rabs_Ropp. exact Ex. }
  destruct (Nat.eqb_spec j m) as [->|nm]; [split; [exact F1|right; left; split; [auto|exact E1]]|].
  destruct (Nat.eqb_spec j 0) as [->|n0].
  { split; [change (is_finite (Bopp (f_of 1 0)) = true); rewrite is_finite_Bopp; exact F1|]. left. split; auto.
    change (B2R (Bopp (f_of 1 0)) = -1). rewrite B2R_Bopp, E1. ring. }
  assert (up : (m < 2 * j)%nat -> is_finite (Bopp (fst (r (m - j)%nat))) = true /\
     Rabs (B2R (Bopp (fst (r (m - j)%nat))) - y j) <= 24 * u * sq /\ z (j - 1)%nat < B2R (Bopp (fst (r (m - j)%nat))) < z j).
  { intro L. destruct (liter_float (m - j) (r (m - j)%nat) ltac:(lia) ltac:(lia) (Hr (m - j)%nat ltac:(lia))) as (F & E & Bt & _).
    pose proof (OPP _ _ _ _ _ F E Bt) as K.
    pose proof (lnodes_sym m y (m - j) Hm Hy ltac:(lia)) as Q. replace (m - (m - j))%nat with j in Q by lia. rewrite <- Q in K.
    pose proof (zeros_sym m z j Hz ltac:(lia)) as Q1. pose proof (zeros_sym m z (j - 1)%nat Hz ltac:(lia)) as Q2.
    replace (m - 1 - j)%nat with (m - j - 1)%nat in Q1 by lia. replace (m - 1 - (j - 1))%nat with (m - j)%nat in Q2 by lia.
    rewrite Q1, Q2, !Ropp_involutive in K. exact K. }
  assert (lo : (2 * j < m)%nat -> is_finite (fst (r j)) = true /\ Rabs (B2R (fst (r j)) - y j) <= 24 * u * sq /\
     z (j - 1)%nat < B2R (fst (r j)) < z j).
  { intro L. destruct (liter_float j (r j) ltac:(lia) ltac:(lia) (Hr j ltac:(lia))) as (F & E & Bt & _). auto. }
  destruct (Nat.eqb_spec j (S m / 2)) as [Ej|Ej].
  - destruct (Nat.odd (S m)) eqn:Ho.
    + pose proof (odd_half (S m) Ho). rewrite andb_true_l.
      destruct (f_of_small 0 ltac:(lia)) as (F0 & E0).
      split; [exact F0|]. right; right. split; [lia|].
      pose proof (lnodes_sym m y j Hm Hy Hj) as Q. replace (m - j)%nat with j in Q by lia.
      change (Rabs (B2R (f_of 0 0) - y j) <= 24 * u * sq /\ z (j - 1)%nat < B2R (f_of 0 0) < z j). rewrite E0.
      replace (y j) with 0 by lra. split; [rewrite Rminus_eq_0, Rabs_R0; exact us|].
      pose proof (Hi j ltac:(lia)). lra.
    + pose proof (even_half (S m) Ho). rewrite andb_false_l.
      destruct (Nat.ltb_spec j (S m / 2)); [lia|]. destruct (up ltac:(lia)) as (K1 & K2). split; [exact K1|]. right; right. split; [lia|exact K2].
  - rewrite andb_false_r. destruct (Nat.ltb_spec j (S m / 2)).
    + destruct (lo ltac:(lia)) as (K1 & K2). split; [exact K1|]. right; right. split; [lia|exact K2].
    + destruct (up ltac:(lia)) as (K1 & K2). split; [exact K1|]. right; right. split; [lia|exact K2].
Qed.

Lemma lU_small : 0 < U <= 0.000004 /\ u <= 0.18 * U.
Proof.
  pose proof (nat16 m Hn) as M3. fold M in M3. pose proof (le_INR 1 m Hm) as M1. change (INR 1) with 1 in M1. fold M in M1.
  assert (EN : N = M + 1) by reflexivity. pose proof u_pos as u0.
  assert (E : sq * sq = N) by (apply sqrt_sqrt; lra). assert (S0 : 0 <= sq) by apply sqrt_pos.
  assert (S1 : 1.414 <= sq <= 128) by (clear - E S0 M1 M3 EN; split; nra).
  assert (A0 : 4 <= N * N <= 16384 * 16384) by (split; [apply Rle_trans with (2 * 2); [lra|]|]; try apply Rmult_le_compat; lra).
  assert (A1 : 4 * u <= u * (N * N)) by (rewrite Rmult_comm; apply Rmult_le_compat_l; lra).
  assert (A2 : u * (N * N) <= u * (16384 * 16384)) by (apply Rmult_le_compat_l; lra).
  assert (A3 : u * (N * N) * sq <= u * (16384 * 16384) * 128) by (apply Rmult_le_compat; lra).
  assert (A4 : u * (16384 * 16384) * 128 <= 0.000004) by (unfold u; lra).
  assert (A5 : u * (N * N) * 1.414 <= u * (N * N) * sq) by (apply Rmult_le_compat_l; lra).
  unfold U. lra.
Qed.

Lemma lW_rel : forall j, (j <= m)%nat -> rel (@lob_wt (FS lib) (S m) r j) (lob_weight m (y j)) (45 * U).
Proof.
  intros j Hj. pose proof (half_cases (S m)) as HC. pose proof Hy as (Y0 & Y1 & _). unfold lob_wt. replace (S m - 1)%nat with m by lia.
  destruct lU_small as ((U0 & U1) & U2). destruct lfac_rel as (RF & _).
  assert (RE : forall x : R, x = -1 \/ x = 1 -> rel lfac (lob_weight m x) (45 * U)).
  { intros x Hx. replace (lob_weight m x) with (2 / (N * M)); [eapply rel_weak; [exact RF|lra]|].
    unfold N, M. rewrite (W_end m). destruct Hx as [->| ->]; auto. replace (-1) with (- (1)) by ring. symmetry. apply lweight_opp. }
  destruct (Nat.eqb_spec j m) as [->|nm]; [cbn [orb]; apply RE; auto|].
  destruct (Nat.eqb_spec j 0) as [->|n0]; [cbn [orb]; apply RE; auto|]. cbn [orb].
  destruct (Nat.leb_spec (S m / 2) j) as [L|L].
  - destruct (liter_float (m - j) (r (m - j)%nat) ltac:(lia) ltac:(lia) (Hr (m - j)%nat ltac:(lia))) as (_ & _ & _ & W).
    rewrite (lnodes_sym m y j Hm Hy Hj), lweight_opp in W. exact W.
  - destruct (liter_float j (r j) ltac:(lia) ltac:(lia) (Hr j ltac:(lia))) as (_ & _ & _ & W). exact W.
Qed.
End Rule.

Lemma lob_float_data : forall lib d n (qf : list F64 * list F64), accurate lib d -> d * INR n ^ 2 <= 1 / 2000 ->
  (2 <= n)%nat -> (Z.of_nat n <= 16384)%Z -> @lob_generate (FS lib) n = Ok qf ->
  exists y x w, lnodes (n - 1) y /\ real_rule qf = (tab n x, tab n w) /\ all_finite qf /\
  (forall i, (i < n)%nat -> Rabs (x i - y i) <= 24 * sqrt (INR n) * u) /\
  x 0%nat = -1 /\ x (n - 1)%nat = 1 /\
  (forall i j, (i < j < n)%nat -> x i < x j) /\
  (forall i, (i < n)%nat -> 0 < w i) /\
  (forall i, (i < n)%nat -> Rabs (w i - lob_weight (n - 1) (y i)) <= 45 * INR n ^ 2 * sqrt (INR n) * u * lob_weight (n - 1) (y i)).
Proof.
  intros lib d [|m] qf A Hd n2 Hn G; [lia|]. replace (S m - 1)%nat with m by lia. assert (Hm : (1 <= m)%nat) by lia.
  assert (Hn' : (Z.of_nat m < 16384)%Z) by lia. rewrite S_INR in *.
  destruct (zeros_exist m) as (z & Hz). destruct (lnodes_exist m z Hm Hz) as (y & Hy & Hi).
  destruct (lob_choice (S := FS lib) (S m)) as [(r & Hr)|(i & Hi' & E)].
  2:{ pose proof (lob_generate_Throw (S := FS lib) (S m) i Hi' E) as T. rewrite G in T. discriminate T. }
  assert (EQ : qf = (tab (S m) (@lob_pt (FS lib) (S m) r), tab (S m) (@lob_wt (FS lib) (S m) r))).
  { pose proof (lob_generate_Ok (S := FS lib) (S m) r n2 Hr) as T. apply ok_inj. rewrite <- G. exact T. }
  subst qf. exists y, (lX lib m r), (lW lib m r).
  pose proof (lX_cases lib d m z y A Hd Hm Hn' Hz Hy Hi r Hr) as XC.
  pose proof (lW_rel lib d m z y A Hd Hm Hn' Hz Hy Hi r Hr) as WR.
  destruct (lU_small m Hm Hn') as ((U0 & U1) & _).
  set (N := INR m + 1) in *. set (sq := sqrt N) in *. set (U := u * (N * N) * sq) in *.
  assert (us : 0 <= 24 * sq * u) by (pose proof u_pos; pose proof (sqrt_pos N) as Q; fold sq in Q; apply Rmult_le_pos; lra).
  split; [exact Hy|]. pose proof Hy as (Y0 & Y1 & _). split; [unfold real_rule; cbn [fst snd]; rewrite !map_tab; reflexivity|]. split.
  { intros t [Ht|Ht]; cbn [fst snd] in Ht; apply In_tab in Ht; destruct Ht as (i & Hi' & ->); [apply XC; lia|apply WR; lia]. }
  assert (X0 : lX lib m r 0%nat = -1) by (destruct (XC 0%nat ltac:(lia)) as (_ & [(_ & E)|[(E1 & E)|(E1 & _)]]); [exact E|lia|lia]).
  assert (X1 : lX lib m r m = 1) by (destruct (XC m ltac:(lia)) as (_ & [(E1 & E)|[(_ & E)|(E1 & _)]]); [lia|exact E|lia]).
  split.
  { intros i Hi'. replace (24 * sq * u) with (24 * u * sq) in * by ring.
    destruct (XC i ltac:(lia)) as (_ & [(-> & E)|[(-> & E)|(_ & E & _)]]); [rewrite E, Y0, Rminus_eq_0, Rabs_R0; exact us|rewrite E, Y1, Rminus_eq_0, Rabs_R0; exact us|exact E]. }
  split; [exact X0|]. split; [exact X1|].
  pose proof Hz as (Z1 & Z2 & _).
  assert (BT : forall j, (0 < j < m)%nat -> z (j - 1)%nat < lX lib m r j < z j).
  { intros j Hj. destruct (XC j ltac:(lia)) as (_ & [(E1 & E)|[(E1 & E)|(_ & _ & E)]]); [lia|lia|exact E]. }
  assert (IN : forall j, (0 < j < m)%nat -> -1 < lX lib m r j < 1).
  { intros j Hj. pose proof (BT j Hj). pose proof (Z1 (j - 1)%nat ltac:(lia)). pose proof (Z1 j ltac:(lia)). lra. }
  split.
  { intros i j Hij. destruct (Nat.eq_dec i 0) as [->|].
    - rewrite X0. destruct (Nat.eq_dec j m) as [->|]; [rewrite X1; lra|]. apply IN. lia.
    - destruct (Nat.eq_dec j m) as [->|]; [rewrite X1; apply IN; lia|].
      pose proof (BT i ltac:(lia)). pose proof (BT j ltac:(lia)).
      destruct (Nat.eq_dec i (j - 1)) as [->|]; [lra|]. specialize (Z2 i (j - 1)%nat ltac:(lia)). lra. }
  assert (WE : forall i, (i < S m)%nat -> exists e, Rabs e <= 45 * U /\ lW lib m r i = lob_weight m (y i) * (1 + e)).
  { intros i Hi'. destruct (WR i ltac:(lia)) as (_ & e & H1 & H2). exists e. split; [exact H1|exact H2]. }
  split.
  { intros i Hi'. destruct (WE i Hi') as (e & H1 & ->). apply abs_in in H1. apply Rmult_lt_0_compat; [|lra].
    apply (lweight_pos m y); auto. lia. }
  intros i Hi'. destruct (WE i Hi') as (e & H1 & ->). pose proof (lweight_pos m y i Hm Hy ltac:(lia)) as GP.
  replace (lob_weight m (y i) * (1 + e) - lob_weight m (y i)) with (e * lob_weight m (y i)) by ring.
  rewrite Rabs_mult, (Rabs_pos_eq (lob_weight m (y i))) by lra. apply Rmult_le_compat_r; [lra|].
  replace (45 * N ^ 2 * sq * u) with (45 * U) by (unfold U; ring). exact H1.
Qed.

Lemma lob_float : forall lib d n (qf : list F64 * list F64) g, accurate lib d -> d * INR n ^ 2 <= 1 / 2000 ->
  (2 <= n)%nat -> (Z.of_nat n <= 16384)%Z -> @lob_generate (FS lib) n = Ok qf -> lobatto_rule n g ->
  all_finite qf /\ good_closed_rule n (real_rule qf) /\
  rule_close (24 * sqrt (INR n) * u) (45 * INR n ^ 2 * sqrt (INR n) * u) (real_rule qf) g.
Proof.
  intros lib d n qf g A Hd n2 Hn G Hg. destruct (lob_float_data lib d n qf A Hd n2 Hn G) as (y & x & w & Hy & E & F & X1 & X2 & X3 & X4 & W1 & W2).
  split; auto. rewrite E. destruct n as [|m]; [lia|]. replace (S m - 1)%nat with m in * by lia.
  rewrite (lobatto_rule_unique (S m) g (lideal m y) n2 Hg (lideal_rule m y ltac:(lia) Hy)). split.
  - apply closed_tab; auto. replace (S m - 1)%nat with m by lia. exact X3.
  - apply rule_close_tab; auto.
Qed.

Lemma lob_float_error : forall lib d n (qf : list F64 * list F64) g (f f1 : R -> R) K L, accurate lib d -> d * INR n ^ 2 <= 1 / 2000 ->
  (2 <= n)%nat -> (Z.of_nat n <= 16384)%Z -> @lob_generate (FS lib) n = Ok qf -> lobatto_rule n g ->
  (forall t, -1 <= t <= 1 -> is_derive f t (f1 t)) -> (forall t, -1 <= t <= 1 -> Rabs (f t) <= K) ->
  (forall t, -1 <= t <= 1 -> Rabs (f1 t) <= L) ->
  Rabs (apply_rule (real_rule qf) f - apply_rule g f) <= (90 * INR n ^ 2 * K + 48 * L) * sqrt (INR n) * u.
Proof.
  intros lib d n qf g f f1 K L A Hd n2 Hn G Hg Df FK FL.
  destruct (lob_float_data lib d n qf A Hd n2 Hn G) as (y & x & w & Hy & E & F & X1 & X2 & X3 & X4 & W1 & W2).
  destruct n as [|m]; [lia|]. replace (S m - 1)%nat with m in * by lia. assert (Hm : (1 <= m)%nat) by lia.
  rewrite E, (lobatto_rule_unique (S m) g (lideal m y) n2 Hg (lideal_rule m y Hm Hy)). unfold lideal. rewrite !rule_tab.
  assert (S2 : Rsum (tab (S m) (fun i => lob_weight m (y i))) = 2).
  { pose proof (lob_exact m y (fun _ => 1) Hm Hy) as Gx.
    rewrite (Rsum_tab_ext (S m) _ (fun i => lob_weight m (y i) * 1)) by (intros; ring).
    assert (C : is_RInt (fun _ : R => 1) (-1) 1 2).
    { evar_last; [apply (is_RInt_const (V := R_NormedModule))|]. unfold scal; simpl; unfold mult; simpl; req; ring. }
    rewrite <- (is_RInt_unique _ _ _ _ C). symmetry. apply is_RInt_unique. apply Gx.
    apply (ispoly_weaken 1); [apply ispoly_const|lia]. }
  assert (XR : forall t : nat -> R, t 0%nat = -1 -> t m = 1 -> (forall i j, (i < j < S m)%nat -> t i < t j) ->
     forall i, (i < S m)%nat -> -1 <= t i <= 1).
  { intros t T0 T1 TI i H. destruct (Nat.eq_dec i 0) as [->|]; [lra|]. destruct (Nat.eq_dec i m) as [->|]; [lra|].
    rewrite <- T0, <- T1. split; left; apply TI; lia. }
  eapply Rle_trans; [apply (close_error (S m) (24 * sqrt (INR (S m)) * u) (45 * INR (S m) ^ 2 * sqrt (INR (S m)) * u) x w y
     (fun i => lob_weight m (y i)) f f1 K L); auto|].
  - pose proof u_pos. pose proof (sqrt_pos (INR (S m))). apply Rmult_le_pos; lra.
  - apply XR; try apply Hy. intros i j Hij. apply Hy. lia.
  - intros i H. left. apply lweight_pos; auto. lia.
  - rewrite S2. apply Req_le. ring.
Qed.

Lemma lob_float_poly : forall lib d n (qf : list F64 * list F64) p K L, accurate lib d -> d * INR n ^ 2 <= 1 / 2000 ->
  (2 <= n)%nat -> (Z.of_nat n <= 16384)%Z -> @lob_generate (FS lib) n = Ok qf -> deg_le p (2 * n - 3) ->
  (forall t, -1 <= t <= 1 -> Rabs (peval p t) <= K) -> (forall t, -1 <= t <= 1 -> Rabs (Derive (peval p) t) <= L) ->
  Rabs (apply_rule (real_rule qf) (peval p) - RInt (peval p) (-1) 1) <= (90 * INR n ^ 2 * K + 48 * L) * sqrt (INR n) * u.
Proof.
  intros lib d n qf p K L A Hd n2 Hn G Hp HK HL. destruct (lobatto_exists n n2) as (g & Hg).
  assert (E : RInt (peval p) (-1) 1 = apply_rule g (peval p)).
  { apply is_RInt_unique. apply Hg. unfold deg_le in Hp. lia. }
  rewrite E. apply (lob_float_error lib d n qf g (peval p) (Derive (peval p))); auto.
  intros t _. apply Derive_correct. clear. induction p as [|a p IH]; [apply ex_derive_const|]. simpl.
  apply (ex_derive_plus (K := R_AbsRing) (V := R_NormedModule) (fun _ => a) (fun x => x * peval p x)); [apply ex_derive_const|].
  apply (ex_derive_mult (fun x => x) (peval p)); [apply ex_derive_id|apply IH].
Qed.

(** ** Four points *)
Lemma lobatto_four : lobatto_rule 4 ([-1; - / sqrt 5; / sqrt 5; 1], [1 / 6; 5 / 6; 5 / 6; 1 / 6]).
Proof.
  set (a := / sqrt 5).
  assert (S5 : 0 < sqrt 5) by (apply sqrt_lt_R0; lra).
  assert (a0 : 0 < a) by (apply Rinv_0_lt_compat; auto).
  assert (aa : a * a = / 5) by (unfold a; rewrite <- Rinv_mult; rewrite sqrt_sqrt by lra; reflexivity).
  assert (a1 : a < 1) by nra.
  set (y := fun i : nat => match i with O => -1 | 1%nat => - a | 2%nat => a | _ => 1 end).
  assert (D3 : forall t, t * t = / 5 -> dP 3 t = 0).
  { intros t Ht. transitivity (15 / 2 * (t * t) - 3 / 2); [simpl; field|rewrite Ht; lra]. }
  assert (P3 : forall t, t * t = / 5 -> Pn 3 t = - t).
  { intros t Ht. transitivity (5 / 2 * (t * t) * t - 3 / 2 * t); [simpl; field|rewrite Ht; lra]. }
  assert (Hy : lnodes 3 y).
  { split; [reflexivity|]. split; [reflexivity|]. split.
    - intros [|[|[|[|i]]]] [|[|[|[|j]]]] H; try lia; unfold y; lra.
    - intros [|[|[|i]]] H; try lia; apply D3; unfold y; lra. }
  pose proof (lideal_rule 3 y ltac:(lia) Hy) as G.
  assert (WA : forall t, t * t = / 5 -> lob_weight 3 t = 5 / 6).
  { intros t Ht. unfold lob_weight. rewrite (P3 t Ht). replace (- t * - t) with (t * t) by ring. rewrite Ht. simpl. field. }
  replace ([-1; - a; a; 1], [1 / 6; 5 / 6; 5 / 6; 1 / 6]) with (lideal 3 y); auto.
  assert (E0 : lob_weight 3 (-1) = 1 / 6) by (unfold lob_weight; simpl; field).
  assert (E3 : lob_weight 3 1 = 1 / 6) by (unfold lob_weight; simpl; field).
  unfold lideal, tab. cbn [map seq]. unfold y. rewrite E0, E3, (WA a aa), (WA (- a)) by lra. reflexivity.
Qed.

Definition lex_angle : F64 := fdiv (fmul (f_of 2 0) fpi) (fsub (f_of 4 0) (f_of 1 0)).
Definition lex_cos : F64 := f_of (-32767) (-16).
Definition lex_lib : libm := mkLibm (fun x => if Beqb x lex_angle then lex_cos else m_cos rounded_libm x)
  (m_sin rounded_libm) (m_log rounded_libm) (m_pow rounded_libm).

Lemma lex_accurate : accurate lex_lib (/ 50000).
Proof.
  intros x F H. pose proof (rounded_accurate x F H) as ((C1 & C2 & C3) & (S1 & S2 & S3)).
  assert (D : / 2 ^ 54 <= / 50000) by (apply Rinv_le_contravar; lra).
  split; [|repeat split; auto; cbn [lex_lib m_sin] in *; lra].
  cbn [lex_lib m_cos]. destruct (Beqb x lex_angle) eqn:E; [|repeat split; auto; lra].
  destruct (langle_rel 3 ltac:(lia) ltac:(lia) 1 ltac:(lia) ltac:(lia)) as (FA & e & He & VA).
  change (fdiv (fmul (f_of (Z.of_nat (4 - 1 - 1)) 0) fpi) (fsub (f_of (Z.of_nat 4) 0) (f_of 1 0))) with lex_angle in FA, VA.
  rewrite Beqb_correct in E by auto.
  assert (EX : B2R x = B2R lex_angle) by (revert E; case Req_bool_spec; auto; discriminate).
  destruct (f_of_exact (-32767) (-16) eq_refl ltac:(lia)) as (FC & VC). fold lex_cos in FC, VC.
  change (bpow radix2 (-16)) with (/ IZR (2 ^ 16)) in VC. change (2 ^ 16)%Z with 65536%Z in VC.
  split; auto. rewrite VC. split; [apply Rabs_le; lra|]. rewrite EX.
  assert (GG : PI - gam 3 1 = 2 * (PI / 3)) by (unfold gam; simpl; field). rewrite GG in VA.
  pose proof cos_2PI3 as CC. pose proof PI_bounds as P. pose proof u_pos. 
  assert (LP : Rabs (cos (B2R lex_angle) - cos (2 * (PI / 3))) <= 0.000001).
  { eapply Rle_trans; [apply cos_lip|]. rewrite VA. replace (2 * (PI / 3) * (1 + e) - 2 * (PI / 3)) with (2 * (PI / 3) * e) by ring.
    rewrite Rabs_mult, (Rabs_pos_eq (2 * (PI / 3))) by lra. apply Rle_trans with (3 * (8 * u)); [|unfold u; lra].
    apply Rmult_le_compat; try lra; auto. apply Rabs_pos. }
  rewrite CC in LP. apply abs_in in LP. apply Rabs_le. lra.
Qed.

Lemma lex_runs : exists qf : list F64 * list F64, @lob_generate (FS lex_lib) 4 = Ok qf.
Proof.
  assert (G : @lob_guess (FS lex_lib) 4 1 = lex_cos).
  { change (@lob_guess (FS lex_lib) 4 1) with (if Beqb lex_angle lex_angle then lex_cos else m_cos rounded_libm lex_angle).
    assert (E : Beqb lex_angle lex_angle = true) by (vm_compute; reflexivity). rewrite E. reflexivity. }
  assert (T : forall lib, match @lob_newton (FS lib) 4 100 lex_cos with Some _ => true | None => false end = true).
  { intro lib. vm_compute. reflexivity. }
  specialize (T lex_lib). destruct (@lob_newton (FS lex_lib) 4 100 lex_cos) as [v|] eqn:EN; [|discriminate T].
  eexists. apply (lob_generate_Ok (S := FS lex_lib) 4 (fun _ => v) ltac:(lia)). intros idx Hi.
  assert (idx = 1)%nat as -> by (cbn in Hi; lia). rewrite G. exact EN.
Qed.

Lemma lex_rule : accurate lex_lib (/ 50000) /\ / 50000 * INR 4 ^ 2 <= 1 / 2000 /\
  exists qf : list F64 * list F64, @lob_generate (FS lex_lib) 4 = Ok qf /\
    rule_close (48 * u) (1440 * u) (real_rule qf) ([-1; - / sqrt 5; / sqrt 5; 1], [1 / 6; 5 / 6; 5 / 6; 1 / 6]).
Proof.
  split; [exact lex_accurate|]. assert (D : / 50000 * INR 4 ^ 2 <= 1 / 2000) by (simpl; lra). split; [exact D|].
  destruct lex_runs as (qf & E). exists qf. split; auto.
  destruct (lob_float lex_lib (/ 50000) 4 qf _ lex_accurate D ltac:(lia) ltac:(lia) E lobatto_four) as (_ & _ & C).
  assert (S4 : sqrt (INR 4) = 2) by (replace (INR 4) with (2 * 2) by (simpl; ring); apply sqrt_square; lra).
  rewrite S4 in C. replace (24 * 2 * u) with (48 * u) in C by ring.
  replace (45 * INR 4 ^ 2 * 2 * u) with (1440 * u) in C by (simpl; ring). exact C.
Qed.
