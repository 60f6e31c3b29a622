(** C42: the modified Gauss-Chebyshev rule of second kind in binary64. *)
From Coq Require Import List Bool Arith ZArith Lia Reals Lra Psatz.
From Flocq Require Import IEEE754.BinarySingleNaN Core.
From Coquelicot Require Rcomplements.
From Verif Require Import Base.Outcome Base.Scalar Base.RScalar Base.FScalar Model.Primitive Spec.RuleSpec Spec.Sums Spec.RealRules
  Spec.FloatSpec Spec.LibmSpec Proofs.FloatOps Proofs.FloatSphere Proofs.FloatErr Proofs.Tab Proofs.PrimitiveFacts
  Proofs.ChebReal Proofs.SumFacts Proofs.PerezJorda Proofs.ChebFloat Proofs.PiBounds.
Import ListNotations.
Local Open Scope R_scope.

Lemma near_abs : forall x v e K, near x v e -> Rabs v + e <= K -> Rabs (B2R x) <= K.
Proof.
  intros x v e K [_ H] B. replace (B2R x) with (v + (B2R x - v)) by ring.
  eapply Rle_trans; [apply Rabs_triang|]. lra.
Qed.
Lemma tiny_u1 : tiny <= u.
Proof.
  eapply Rle_trans; [apply tiny_u|]. pose proof u_pos. rewrite <- (Rmult_1_r u) at 2. apply Rmult_le_compat_l; [lra|].
  rewrite <- Rinv_1. apply Rinv_le_contravar; [lra|apply pow_R1_Rle; lra].
Qed.
Definition f2pi : F64 := f_of 5734161139222659 (-53).
Lemma f2pi_near : near f2pi (2 / PI) u.
Proof.
  destruct (f_of_exact 5734161139222659 (-53) eq_refl ltac:(lia)) as (F & E). split; [exact F|].
  unfold f2pi. rewrite E. unfold u. change (bpow radix2 (-53)) with (/ IZR (2 ^ 53)).
  replace (IZR (2 ^ 53)) with 9007199254740992 by reflexivity. pose proof two_over_pi. apply Rabs_le. lra.
Qed.

Section Node.
Variables (n i : nat) (ch sh : F64) (t E : R).
Hypothesis Hn : (Z.of_nat (2 * n + 2) <= 2 ^ 53)%Z.
Hypothesis Hi : (1 <= i <= n)%nat.
Hypothesis Et : t = INR i * PI / INR (n + 1).
Hypothesis Hc : near ch (cos t) E.
Hypothesis Bc : Rabs (B2R ch) <= 1.
Hypothesis Hs : near sh (sin t) E.
Hypothesis Bs : Rabs (B2R sh) <= 1.
Hypothesis HE : E <= 1 / 1000.

Let ss := fmul sh sh.
Let E0 : 0 <= E.
Proof. destruct Hc as (_ & K). eapply Rle_trans; [apply Rabs_pos|exact K]. Qed.
Let Sb : Rabs (sin t) <= 1.
Proof. apply Rabs_le. apply SIN_bound. Qed.
Let Cb : Rabs (cos t) <= 1.
Proof. apply Rabs_le. apply COS_bound. Qed.
Let S2 : 0 <= sin t * sin t <= 1.
Proof. pose proof (abs_of _ _ Sb). nra. Qed.
Let pow200 : 4 <= 2 ^ 900.
Proof. apply Rle_trans with (2 ^ 2); [simpl; lra|]. apply Rle_pow; [lra|lia]. Qed.

Lemma ss_near : near ss (sin t * sin t) (2 * E + 2 * u) /\ Rabs (B2R ss) <= 1.01.
Proof.
  pose proof u_pos. pose proof u_small. pose proof tiny_u1.
  assert (N : near ss (sin t * sin t) (2 * E + 2 * u)).
  { eapply near_weak; [apply (near_fmul _ _ _ _ _ _ 1 1 Hs Hs Bs Sb Bs); lra|lra]. }
  split; [exact N|]. apply (near_abs _ _ _ _ N). rewrite Rabs_pos_eq; lra.
Qed.

Lemma bulk_near :
  near (fmul (fmul (fmul f2pi (fadd (f_of 1 0) (fmul (fdiv (f_of 2 0) (f_of 3 0)) ss))) ch) sh)
    (2 / PI * (1 + 2 / 3 * (sin t * sin t)) * cos t * sin t) (3.05 * E + 14 * u).
Proof.
  pose proof u_pos as U. pose proof u_small as U1. pose proof tiny_u1 as TU. destruct ss_near as (N1 & B1).
  assert (A : near (fdiv (f_of 2 0) (f_of 3 0)) (2 / 3) (2 * u)).
  { eapply near_weak; [apply rel_near; apply (rel_fdiv _ _ _ _ 0 0 (int_rel 2 ltac:(lia)) (int_rel 3 ltac:(lia))); try lra|].
    - apply tiny_ok_1. rewrite Rabs_pos_eq by lra. lra.
    - apply big_199. rewrite Rabs_pos_eq by lra. apply Rle_trans with 1; [lra|apply pow_R1_Rle; lra].
    - rewrite Rabs_pos_eq by lra. lra. }
  assert (BA : Rabs (B2R (fdiv (f_of 2 0) (f_of 3 0))) <= 0.67) by (apply (near_abs _ _ _ _ A); rewrite Rabs_pos_eq; lra).
  assert (N2 : near (fmul (fdiv (f_of 2 0) (f_of 3 0)) ss) (2 / 3 * (sin t * sin t)) (1.34 * E + 6 * u)).
  { eapply near_weak; [apply (near_fmul _ _ _ _ _ _ 0.67 1.01 A N1 BA); [rewrite Rabs_pos_eq; lra|exact B1|lra]|lra]. }
  assert (B2 : Rabs (B2R (fmul (fdiv (f_of 2 0) (f_of 3 0)) ss)) <= 0.68) by (apply (near_abs _ _ _ _ N2); rewrite Rabs_pos_eq by lra; lra).
  destruct (f_of_small 1 ltac:(lia)) as [FO O].
  assert (NO : near (f_of 1 0) 1 0) by (split; [exact FO|rewrite O, Rminus_diag_eq, Rabs_R0 by reflexivity; lra]).
  assert (N3 : near (fadd (f_of 1 0) (fmul (fdiv (f_of 2 0) (f_of 3 0)) ss)) (1 + 2 / 3 * (sin t * sin t)) (1.34 * E + 8 * u)).
  { eapply near_weak; [apply (near_fadd _ _ _ _ _ _ 1.7 NO N2); [|lra]|lra]. rewrite O. apply abs_of in B2. apply Rabs_le. lra. }
  assert (B3 : Rabs (B2R (fadd (f_of 1 0) (fmul (fdiv (f_of 2 0) (f_of 3 0)) ss))) <= 1.68) by (apply (near_abs _ _ _ _ N3); rewrite Rabs_pos_eq by lra; lra).
  assert (P : 0.63 <= 2 / PI <= 0.6367) by (pose proof two_over_pi; lra).
  assert (BP : Rabs (B2R f2pi) <= 0.637) by (apply (near_abs _ _ _ _ f2pi_near); rewrite Rabs_pos_eq; lra).
  set (b := 1 + 2 / 3 * (sin t * sin t)) in *. assert (Bb : 1 <= b <= 1.67) by (unfold b; lra).
  assert (N4 : near (fmul f2pi (fadd (f_of 1 0) (fmul (fdiv (f_of 2 0) (f_of 3 0)) ss))) (2 / PI * b) (0.86 * E + 9 * u)).
  { eapply near_weak; [apply (near_fmul _ _ _ _ _ _ 0.637 1.68 f2pi_near N3 BP); [rewrite Rabs_pos_eq; lra|exact B3|lra]|lra]. }
  assert (V4 : 0 <= 2 / PI * b <= 1.07) by nra.
  assert (B4 : Rabs (B2R (fmul f2pi (fadd (f_of 1 0) (fmul (fdiv (f_of 2 0) (f_of 3 0)) ss)))) <= 1.08) by (apply (near_abs _ _ _ _ N4); rewrite Rabs_pos_eq by lra; lra).
  set (y4 := fmul f2pi _) in *.
  assert (N5 : near (fmul y4 ch) (2 / PI * b * cos t) (1.95 * E + 11.1 * u)).
  { eapply near_weak; [apply (near_fmul _ _ _ _ _ _ 1.08 1 N4 Hc B4 Cb Bc); lra|lra]. }
  assert (V5 : Rabs (2 / PI * b * cos t) <= 1.07).
  { rewrite Rabs_mult, (Rabs_pos_eq (2 / PI * b)) by lra. pose proof (Rabs_pos (cos t)). nra. }
  assert (B5 : Rabs (B2R (fmul y4 ch)) <= 1.08) by (apply (near_abs _ _ _ _ N5); lra).
  eapply near_weak; [apply (near_fmul _ _ _ _ _ _ 1.08 1 N5 Hs B5 Sb Bs); lra|lra].
Qed.

Lemma oon_rel : rel (fdiv (f_of 1 0) (f_of (Z.of_nat (n + 1)) 0)) (1 / INR (n + 1)) (2 * u) /\ / 2 ^ 53 <= 1 / INR (n + 1) <= 1 / 2.
Proof.
  pose proof (INR_2p (n + 1) ltac:(lia)) as B. assert (B1 : 2 <= INR (n + 1)) by (change 2 with (INR 2); apply le_INR; lia).
  pose proof u_pos. pose proof u_small.
  assert (R0 : / 2 ^ 53 <= 1 / INR (n + 1) <= 1 / 2).
  { unfold Rdiv. rewrite !Rmult_1_l. split; apply Rinv_le_contravar; lra. }
  split; [|exact R0].
  eapply rel_weak; [apply (rel_fdiv _ _ _ _ 0 0 (int_rel 1 ltac:(lia)) (nat_rel (n + 1) ltac:(lia))); try lra|lra].
  - apply tiny_ok_1. rewrite Rabs_pos_eq by lra. eapply Rle_trans; [|apply R0]. apply Rinv_le_contravar; [apply pow_lt; lra|]. apply Rle_pow; [lra|lia].
  - apply big_199. rewrite Rabs_pos_eq by lra. apply Rle_trans with 1; [lra|apply pow_R1_Rle; lra].
Qed.

Lemma base_near :
  near (fsub (f_of 1 0) (fmul (fmul (f_of 2 0) (f_of (Z.of_nat i) 0)) (fdiv (f_of 1 0) (f_of (Z.of_nat (n + 1)) 0))))
    (1 - 2 * t / PI) (9 * u) /\ Rabs (1 - 2 * t / PI) <= 1.
Proof.
  pose proof u_pos. pose proof u_small. destruct oon_rel as (R1 & R2).
  assert (I1 : 1 <= INR i <= INR (n + 1) - 1).
  { split; [apply (le_INR 1); lia|]. rewrite plus_INR. simpl (INR 1). apply Rle_trans with (INR n); [apply le_INR; lia|lra]. }
  assert (NP : 0 < INR (n + 1)) by lra.
  assert (M : rel (fmul (f_of 2 0) (f_of (Z.of_nat i) 0)) (2 * INR i) 0).
  { replace (2 * INR i) with (IZR (2 * Z.of_nat i)) by (rewrite mult_IZR, IZR_INR; reflexivity). apply fmul_int; lia. }
  assert (V : 2 * INR i * (1 / INR (n + 1)) = 2 * t / PI) by (rewrite Et; field; split; [lra|apply PI_ne]).
  assert (VB : / 2 ^ 53 <= 2 * t / PI <= 2).
  { rewrite <- V. split.
    - apply Rle_trans with (1 * (1 / INR (n + 1))); [lra|]. apply Rmult_le_compat_r; lra.
    - apply Rmult_le_reg_r with (INR (n + 1)); [lra|]. replace (2 * INR i * (1 / INR (n + 1)) * INR (n + 1)) with (2 * INR i) by (field; lra). lra. }
  assert (P0 : 0 < / 2 ^ 53) by (apply Rinv_0_lt_compat, pow_lt; lra).
  assert (N1 : near (fmul (fmul (f_of 2 0) (f_of (Z.of_nat i) 0)) (fdiv (f_of 1 0) (f_of (Z.of_nat (n + 1)) 0))) (2 * t / PI) (6.5 * u)).
  { rewrite <- V. eapply near_weak; [apply rel_near; apply (rel_fmul _ _ _ _ _ _ M R1); try lra|].
    - rewrite V. apply tiny_ok_1. rewrite Rabs_pos_eq by lra. eapply Rle_trans; [|apply VB]. apply Rinv_le_contravar; [apply pow_lt; lra|]. apply Rle_pow; [lra|lia].
    - rewrite V. apply big_199. rewrite Rabs_pos_eq by lra. apply Rle_trans with (2 ^ 1); [lra|apply Rle_pow; [lra|lia]].
    - rewrite V, Rabs_pos_eq by lra. nra. }
  destruct (f_of_small 1 ltac:(lia)) as [FO O].
  assert (NO : near (f_of 1 0) 1 0) by (split; [exact FO|rewrite O, Rminus_diag_eq, Rabs_R0 by reflexivity; lra]).
  split; [|apply Rabs_le; lra].
  eapply near_weak; [apply (near_fsub _ _ _ _ _ _ 1.1 NO N1); [|lra]|lra].
  rewrite O. destruct N1 as (_ & N1). apply abs_of in N1. apply Rabs_le. lra.
Qed.

Lemma node_near :
  near (fadd (fsub (f_of 1 0) (fmul (fmul (f_of 2 0) (f_of (Z.of_nat i) 0)) (fdiv (f_of 1 0) (f_of (Z.of_nat (n + 1)) 0))))
     (fmul (fmul (fmul f2pi (fadd (f_of 1 0) (fmul (fdiv (f_of 2 0) (f_of 3 0)) ss))) ch) sh))
    (perez_jorda t) (3.05 * E + 26 * u).
Proof.
  pose proof u_pos. pose proof u_small. destruct base_near as (N1 & B1). pose proof bulk_near as N2.
  unfold perez_jorda. replace (sin t ^ 2) with (sin t * sin t) by ring.
  assert (V2 : Rabs (2 / PI * (1 + 2 / 3 * (sin t * sin t)) * cos t * sin t) <= 1.07).
  { assert (P : 0.63 <= 2 / PI <= 0.6367) by (pose proof two_over_pi; lra). rewrite !Rabs_mult.
    rewrite (Rabs_pos_eq (2 / PI)), (Rabs_pos_eq (1 + 2 / 3 * (sin t * sin t))) by lra.
    pose proof (Rabs_pos (cos t)). pose proof (Rabs_pos (sin t)).
    assert (0 <= Rabs (cos t) * Rabs (sin t) <= 1) by (split; [apply Rmult_le_pos; auto|nra]).
    assert (0 <= 2 / PI * (1 + 2 / 3 * (sin t * sin t)) <= 1.07) by (split; nra). nra. }
  eapply near_weak; [apply (near_fadd _ _ _ _ _ _ 2.5 N1 N2); [|lra]|lra].
  destruct N1 as (_ & N1). destruct N2 as (_ & N2). apply abs_of in N1, N2, B1, V2. apply Rabs_le. lra.
Qed.

Lemma coef_rel : rel (fdiv (fdiv (f_of 16 0) (f_of 3 0)) (fadd (f_of (Z.of_nat n) 0) (f_of 1 0))) (16 / 3 / INR (n + 1)) (5 * u) /\
  / 2 ^ 53 <= 16 / 3 / INR (n + 1) <= 3.
Proof.
  pose proof u_pos. pose proof u_small. destruct oon_rel as (_ & R2).
  assert (NP : 0 < INR (n + 1)) by (apply lt_0_INR; lia). assert (P0 : 0 < / 2 ^ 53) by (apply Rinv_0_lt_compat, pow_lt; lra).
  assert (A : rel (fdiv (f_of 16 0) (f_of 3 0)) (16 / 3) (2 * u)).
  { eapply rel_weak; [apply (rel_fdiv _ _ _ _ 0 0 (int_rel 16 ltac:(lia)) (int_rel 3 ltac:(lia))); try lra|lra].
    - apply tiny_ok_1. rewrite Rabs_pos_eq by lra. lra.
    - apply big_199. rewrite Rabs_pos_eq by lra. apply Rle_trans with (2 ^ 3); [lra|apply Rle_pow; [lra|lia]]. }
  destruct (int_ok (Z.of_nat n) ltac:(lia)) as [Fn En]. destruct (int_ok 1 ltac:(lia)) as [F1 E1]. destruct (int_ok (Z.of_nat (n + 1)) ltac:(lia)) as [Fm Em].
  assert (SE : IZR (Z.of_nat n) + IZR 1 = IZR (Z.of_nat (n + 1))) by (rewrite <- plus_IZR; f_equal; lia).
  assert (B : rel (fadd (f_of (Z.of_nat n) 0) (f_of 1 0)) (INR (n + 1)) 0).
  { assert (F : is_finite (fadd (f_of (Z.of_nat n) 0) (f_of 1 0)) = true).
    { apply finite_add; auto. rewrite En, E1, SE, IZR_INR. pose proof (INR_2p (n + 1) ltac:(lia)). rewrite Rabs_pos_eq by lra.
      eapply Rle_trans; [eassumption|]. apply Rle_pow; [lra|lia]. }
    apply exact_rel; auto. destruct (fadd_R _ _ F) as (_ & _ & ->). rewrite En, E1, SE, <- Em, rnd_B2R, Em. apply IZR_INR. }
  assert (RC : / 2 ^ 53 <= 16 / 3 / INR (n + 1) <= 3).
  { replace (16 / 3 / INR (n + 1)) with (16 / 3 * (1 / INR (n + 1))) by (field; lra). split; nra. }
  split; [|exact RC]. eapply rel_weak; [apply (rel_fdiv _ _ _ _ _ _ A B); try lra|lra].
  - apply tiny_ok_1. rewrite Rabs_pos_eq by lra. eapply Rle_trans; [|apply RC]. apply Rinv_le_contravar; [apply pow_lt; lra|]. apply Rle_pow; [lra|lia].
  - apply big_199. rewrite Rabs_pos_eq by lra. apply Rle_trans with (2 ^ 2); [lra|apply Rle_pow; [lra|lia]].
Qed.

Lemma weight_near4 :
  near (fmul (fmul (fdiv (fdiv (f_of 16 0) (f_of 3 0)) (fadd (f_of (Z.of_nat n) 0) (f_of 1 0))) ss) ss)
    (PI / INR (n + 1) * pjd t) (16 / 3 / INR (n + 1) * (4.1 * E + 15 * u)).
Proof.
  pose proof u_pos as U. pose proof u_small as U1. destruct coef_rel as (A & RC). destruct ss_near as (N1 & B1).
  set (c := 16 / 3 / INR (n + 1)) in *. set (chat := fdiv _ _) in *.
  assert (P0 : 0 < / 2 ^ 53) by (apply Rinv_0_lt_compat, pow_lt; lra).
  assert (TC : tiny <= u * c).
  { eapply Rle_trans; [apply tiny_u|]. apply Rmult_le_compat_l; [lra|]. eapply Rle_trans; [|apply RC]. apply Rinv_le_contravar; [apply pow_lt; lra|]. apply Rle_pow; [lra|lia]. }
  pose proof (rel_near _ _ _ A) as A'. rewrite (Rabs_pos_eq c) in A' by lra.
  assert (BA : Rabs (B2R chat) <= 1.01 * c) by (apply (near_abs _ _ _ _ A'); rewrite Rabs_pos_eq by lra; nra).
  assert (N2 : near (fmul chat ss) (c * (sin t * sin t)) (c * (2.02 * E + 10 * u))).
  { eapply near_weak; [apply (near_fmul _ _ _ _ _ _ (1.01 * c) 1.01 A' N1 BA); [rewrite Rabs_pos_eq; lra|exact B1|lra]|]. nra. }
  assert (B2 : Rabs (B2R (fmul chat ss)) <= 1.02 * c).
  { apply (near_abs _ _ _ _ N2). rewrite Rabs_pos_eq by (apply Rmult_le_pos; lra).
    assert (c * (sin t * sin t) <= c * 1) by (apply Rmult_le_compat_l; lra).
    assert (c * (2.02 * E + 10 * u) <= c * 0.02) by (apply Rmult_le_compat_l; lra). lra. }
  assert (V : PI / INR (n + 1) * pjd t = c * (sin t * sin t) * (sin t * sin t)).
  { unfold pjd, c. assert (0 < INR (n + 1)) by (apply lt_0_INR; lia). field. split; [lra|apply PI_ne]. }
  rewrite V. eapply near_weak; [apply (near_fmul _ _ _ _ _ _ (1.02 * c) 1.01 N2 N1 B2); [rewrite Rabs_pos_eq; lra|exact B1|lra]|].
  assert (0 <= c * E) by (apply Rmult_le_pos; lra). assert (0 < c * u) by (apply Rmult_lt_0_compat; lra).
  replace (1.02 * c * (2 * E + 2 * u) + 1.01 * (c * (2.02 * E + 10 * u)) + u * (1.02 * c * 1.01) + tiny)
    with (c * E * (1.02 * 2 + 1.01 * 2.02) + c * u * (1.02 * 2 + 1.01 * 10 + 1.02 * 1.01) + tiny) by ring.
  replace (c * (4.1 * E + 15 * u)) with (c * E * 4.1 + c * u * 15) by ring. lra.
Qed.
End Node.

Lemma gc2m_angle : forall n i, (1 <= i <= n)%nat -> (Z.of_nat (2 * n + 2) <= 2 ^ 53)%Z ->
  rel (fmul (fmul (f_of (Z.of_nat i) 0) fpi) (fdiv (f_of 1 0) (f_of (Z.of_nat (n + 1)) 0))) (INR i * PI / INR (n + 1)) (7 * u).
Proof.
  intros n i Hi Hn. pose proof u_pos. pose proof u_small. destruct (oon_rel n i Hn Hi) as (R1 & R2).
  assert (I1 : 1 <= INR i <= INR (n + 1) - 1).
  { split; [apply (le_INR 1); lia|]. rewrite plus_INR. simpl (INR 1). apply Rle_trans with (INR n); [apply le_INR; lia|lra]. }
  pose proof (INR_2p i ltac:(lia)) as I2. assert (P : 3 < PI <= 3.15) by (pose proof pi_coarse; lra).
  assert (A : rel (fmul (f_of (Z.of_nat i) 0) fpi) (INR i * PI) (3 * u)).
  { eapply rel_weak; [apply (rel_fmul _ _ _ _ _ _ (nat_rel i ltac:(lia)) fpi_rel); try lra|nra].
    - apply tiny_ok_1. rewrite Rabs_pos_eq by nra. apply Rle_trans with 1; [|nra]. rewrite <- Rinv_1. apply Rinv_le_contravar; [lra|apply pow_R1_Rle; lra].
    - apply big_199. rewrite Rabs_pos_eq by nra. apply Rle_trans with (2 ^ 53 * 2 ^ 2); [apply Rmult_le_compat; lra|]. rewrite <- pow_add. apply Rle_pow; [lra|lia]. }
  assert (V : INR i * PI * (1 / INR (n + 1)) = INR i * PI / INR (n + 1)) by (field; lra). rewrite <- V.
  assert (VB : / 2 ^ 54 <= INR i * PI * (1 / INR (n + 1)) <= 4).
  { split.
    - apply Rle_trans with (1 * (1 / INR (n + 1))); [|apply Rmult_le_compat_r; nra]. rewrite Rmult_1_l. eapply Rle_trans; [|apply R2].
      apply Rinv_le_contravar; [apply pow_lt; lra|]. apply Rle_pow; [lra|lia].
    - apply Rmult_le_reg_r with (INR (n + 1)); [lra|]. replace (INR i * PI * (1 / INR (n + 1)) * INR (n + 1)) with (INR i * PI) by (field; lra). nra. }
  eapply rel_weak; [apply (rel_fmul _ _ _ _ _ _ A R1); try lra; apply th_tiny; exact VB|nra].
Qed.

Lemma gc2m_half : forall m d n j, accurate m d -> d <= 1 / 2000 -> (Z.of_nat (2 * n + 2) <= 2 ^ 53)%Z -> (j < n)%nat ->
  near (@gc2m_x (FS m) n j) (perez_jorda (th2 n j)) (4 * d + 100 * u) /\
  near (@gc2m_w (FS m) n j) (PI / INR (n + 1) * pjd (th2 n j)) (16 / 3 / INR (n + 1) * (5 * d + 110 * u)).
Proof.
  intros m d n j A Hd Hn Hj. pose proof u_pos. pose proof u_small. pose proof (acc_pos m d A).
  destruct (cos_near m d _ _ _ A (gc2m_angle n (n - j) ltac:(lia) Hn) (th2_range n j Hj) ltac:(lra)) as (K1 & K2 & K3 & K4).
  apply (near_weak _ _ _ (d + 23 * u)) in K1; [|lra]. apply (near_weak _ _ _ (d + 23 * u)) in K3; [|lra].
  split.
  - refine (near_weak _ _ _ _ (node_near n (n - j) _ _ (th2 n j) (d + 23 * u) Hn ltac:(lia) eq_refl K1 K2 K3 K4 ltac:(lra)) _). lra.
  - refine (near_weak _ _ _ _ (weight_near4 n (n - j) _ _ (th2 n j) (d + 23 * u) Hn ltac:(lia) K1 K3 K4 ltac:(lra)) _).
    apply Rmult_le_compat_l; [|lra]. destruct (coef_rel n 1 Hn ltac:(lia)) as (_ & R). pose proof (Rinv_0_lt_compat _ (pow_lt 2 53 ltac:(lra))). lra.
Qed.

Lemma ok_eq : forall A (x y : A), Ok x = Ok y -> x = y.
Proof. intros A x y H. injection H as H. exact H. Qed.

Lemma some_eq : forall A (x y : A), Some x = Some y -> x = y.
Proof. intros A x y H. injection H as H. exact H. Qed.

Lemma gc2m_float : forall m d n qf q, accurate m d -> d <= 1 / 2000 -> (Z.of_nat (2 * n + 2) <= 2 ^ 53)%Z ->
  @gc2m_generate (FS m) n = Ok qf -> @gc2m_generate RS n = Ok q ->
  all_finite qf /\ close_rules (real_rule qf) q (4 * d + 100 * u) (fun _ _ => 16 / 3 / INR (n + 1) * (5 * d + 110 * u)).
Proof.
  intros m d n qf q A Hd Hn Hf Hq. rewrite gc2m_real in Hq. apply ok_eq in Hq. subst q. rewrite gc2m_closed in Hf. apply ok_eq in Hf. subst qf.
  pose proof u_pos as U. pose proof u_small as U1. pose proof (acc_pos m d A) as d0.
  assert (H : forall j, (j < n)%nat ->
    near (@mirror (FS m) n (@gc2m_x (FS m) n) (fun i => Bopp (@gc2m_x (FS m) n i)) (f_of 0 0) j) (perez_jorda (th2 n j)) (4 * d + 100 * u) /\
    near (@mirror (FS m) n (@gc2m_w (FS m) n) (@gc2m_w (FS m) n) (fdiv (fdiv (f_of 16 0) (f_of 3 0)) (fadd (f_of (Z.of_nat n) 0) (f_of 1 0))) j)
      (PI / INR (n + 1) * pjd (th2 n j)) (16 / 3 / INR (n + 1) * (5 * d + 110 * u))).
  { intros j Hj. unfold mirror. destruct (Nat.ltb_spec j (n / 2)); [apply gc2m_half; auto|].
    destruct (Nat.leb_spec (n - n / 2) j).
    - destruct (gc2m_half m d n (n - 1 - j) A Hd Hn ltac:(lia)) as ((F & N) & W). rewrite (th2_mirror n (n - 1 - j) j) by lia. split.
      + split; [rewrite is_finite_Bopp; exact F|]. rewrite B2R_Bopp, pj_reflect. 
        match goal with |- Rabs (- ?a - - ?b) <= _ => replace (- a - - b) with (- (a - b)) by ring end. rewrite Rabs_Ropp. exact N.
      + unfold pjd in *. rewrite sin_PI_x. exact W.
    - assert (J : (j + j + 1 = n)%nat).
      { destruct (Nat.odd n) eqn:Ho; [pose proof (odd_half n Ho)|pose proof (even_half n Ho)]; lia. }
      pose proof (th2_mirror n j j J). replace (th2 n j) with (PI / 2) by lra. pose proof PI_ne as PN. split.
      + destruct (f_of_small 0 ltac:(lia)) as [F0 O0]. split; [exact F0|]. rewrite O0. unfold perez_jorda. rewrite cos_PI2.
        replace (0 - (1 - 2 * (PI / 2) / PI + 2 / PI * (1 + 2 / 3 * sin (PI / 2) ^ 2) * 0 * sin (PI / 2))) with 0 by (field; auto).
        rewrite Rabs_R0. lra.
      + destruct (coef_rel n 1 Hn ltac:(lia)) as (R & RB). pose proof (rel_near _ _ _ R) as N.
        pose proof (Rinv_0_lt_compat _ (pow_lt 2 53 ltac:(lra))). rewrite (Rabs_pos_eq (16 / 3 / INR (n + 1))) in N by lra.
        unfold pjd. rewrite sin_PI2. assert (NP : 0 < INR (n + 1)) by (apply lt_0_INR; lia).
        replace (PI / INR (n + 1) * (16 / (3 * PI) * 1 ^ 4)) with (16 / 3 / INR (n + 1)) by (field; split; [auto|lra]).
        apply (near_weak _ _ _ _ N). rewrite Rmult_comm. apply Rmult_le_compat_l; lra. }
  split.
  - intros x [K|K]; cbn [fst snd] in K; apply In_tab in K; destruct K as (j & Hj & ->); apply (H j Hj).
  - unfold close_rules, real_rule. cbn [fst snd]. rewrite !map_tab, !tab_length. split; [auto|split; [auto|]]. intros i x x' w w' Hx Hx' Hw Hw'.
    assert (J : (i < n)%nat).
    { apply Nat.nlt_ge. intro. rewrite (proj2 (nth_error_None _ _)) in Hx; [discriminate|]. rewrite tab_length; lia. }
    rewrite nth_error_tab in Hx, Hx', Hw, Hw' by auto. apply some_eq in Hx, Hx', Hw, Hw'. subst x x' w w'.
    destruct (H i J) as ((_ & H1) & (_ & H2)). exact (conj H1 H2).
Qed.

Lemma gc2m_sum : forall m d n (qf : list F64 * list F64) (q : list R * list R) f M L, accurate m d -> d <= 1 / 2000 -> (2 <= n)%nat -> (Z.of_nat (2 * n + 2) <= 2 ^ 53)%Z ->
  @gc2m_generate (FS m) n = Ok qf -> @gc2m_generate RS n = Ok q -> tame 2 f M L ->
  Rabs (apply_rule (real_rule qf) f - apply_rule q f) <= 16 / 3 * (M * (5 * d + 110 * u)) + 2 * (L * (4 * d + 100 * u)).
Proof.
  intros m d n qf q f M L A Hd Hn HN Hf Hq T. destruct (gc2m_float m d n qf q A Hd HN Hf Hq) as (_ & C).
  pose proof u_pos. pose proof u_small. pose proof (acc_pos m d A) as d0.
  destruct (gc2m_good n q Hq) as ((G1 & G2 & _ & G3 & G4) & _).
  assert (M0 : 0 <= M) by (destruct T as (T & _); specialize (T 0 ltac:(lra)); pose proof (Rabs_pos (f 0)); lra).
  assert (L0 : 0 <= L).
  { destruct T as (_ & T). specialize (T 1 0 ltac:(lra) ltac:(lra)). rewrite Rminus_0_r, Rabs_R1 in T. pose proof (Rabs_pos (f 1 - f 0)). lra. }
  eapply Rle_trans; [eapply (close_sum 2); eauto|].
  - congruence.
  - intros x Hx. apply In_nth_error in Hx. destruct Hx as (i & Hi). destruct C as (L1 & L2 & C).
    assert (J : (i < n)%nat) by (rewrite <- G1, <- L1; apply nth_error_Some; rewrite Hi; discriminate).
    destruct (nth_error (fst q) i) as [x'|] eqn:Ex; [|apply nth_error_None in Ex; lia].
    destruct (nth_error (snd (real_rule qf)) i) as [w|] eqn:Ew; [|apply nth_error_None in Ew; lia].
    destruct (nth_error (snd q) i) as [w'|] eqn:Ew'; [|apply nth_error_None in Ew'; lia].
    destruct (C _ _ _ _ _ Hi Ex Ew Ew') as (K & _). apply abs_of in K. specialize (G3 x' (nth_error_In _ _ Ex)). lra.
  - intros x Hx. specialize (G3 x Hx). lra.
  - intros w Hw. specialize (G4 w Hw). lra.
  - cbn [fst snd]. rewrite Rsum_plus. apply Rplus_le_compat.
    + rewrite Rsum_const, combine_length, G1, G2, Nat.min_id. set (K := M * _).
      assert (NP : 0 < INR (n + 1)) by (apply lt_0_INR; lia). assert (INR n <= INR (n + 1)) by (apply le_INR; lia).
      assert (K' : K = 16 / 3 * (M * (5 * d + 110 * u)) * / INR (n + 1)) by (unfold K; field; lra). rewrite K'.
      assert (P : 0 <= 16 / 3 * (M * (5 * d + 110 * u))) by (apply Rmult_le_pos; [lra|]; apply Rmult_le_pos; lra).
      set (V := 16 / 3 * (M * (5 * d + 110 * u))) in *.
      replace (INR n * (V * / INR (n + 1))) with (V * (INR n * / INR (n + 1))) by ring.
      rewrite <- (Rmult_1_r V) at 2. apply Rmult_le_compat_l; auto. apply Rmult_le_reg_r with (INR (n + 1)); [lra|].
      rewrite Rmult_assoc, Rinv_l by lra. lra.
    + pose proof (gc2m_const n q (L * (4 * d + 100 * u)) Hn Hq) as K. unfold apply_rule, wsum in K.
      rewrite <- K. right. f_equal. apply map_ext. intros [a b]. cbn [fst snd]. ring.
Qed.

Lemma cheb_ex : exists qf q, @gc1_generate (FS rounded_libm) 5 = Ok qf /\ @gc1_generate RS 5 = Ok q /\
  accurate rounded_libm (/ 2 ^ 54) /\ tame 1 exp 3 3 /\ good_rule 5 (-1) 1 (real_rule qf) /\
  Rabs (apply_rule (real_rule qf) exp - apply_rule q exp) <= / 10 ^ 11.
Proof.
  destruct (gc1_generate (S := FS rounded_libm) 5) as [qf| | | |] eqn:Ef; try (rewrite gc1_closed in Ef; discriminate).
  destruct (gc1_generate (S := RS) 5) as [q| | | |] eqn:Eq; try (rewrite gc1_closed in Eq; discriminate).
  assert (T : tame 1 exp 3 3).
  { assert (B : forall x, x <= 1 -> 0 < exp x <= 3).
    { intros x Hx. split; [apply exp_pos|]. apply Rle_trans with (exp 1); [|apply exp_le_3].
      destruct Hx as [Hx| ->]; [left; apply exp_increasing; auto|lra]. }
    split.
    - intros x Hx. specialize (B x ltac:(lra)). rewrite Rabs_pos_eq; lra.
    - intros x y Hx Hy. destruct (MVT_abs exp exp y x) as (c & E & Hc); [intros; apply derivable_pt_lim_exp|].
      rewrite E. apply Rmult_le_compat_r; [apply Rabs_pos|].
      assert (c <= 1) by (destruct Hc as (_ & Hc); eapply Rle_trans; [exact Hc|]; apply Rmax_lub; lra).
      specialize (B c H). rewrite Rabs_pos_eq; lra. }
  pose proof rounded_accurate as A.
  exists qf, q. split; [auto|]. split; [auto|]. split; [exact A|]. split; [exact T|]. split.
  - eapply (cheb_good true rounded_libm _ 5 qf A); [|simpl; lia|exact Ef]. apply Rinv_le_contravar; [apply pow_lt; lra|apply Rle_pow; [lra|lia]].
  - eapply Rle_trans; [apply (cheb_sum true rounded_libm _ 5 qf q exp 3 3 A); auto; simpl; lra || lia|].
    unfold u. replace (INR 5) with 5 by (simpl; lra). 
    assert (K : ln 5 <= 4).
    { rewrite <- (ln_exp 4). apply Rcomplements.ln_le; [lra|]. pose proof (exp_ineq1 4 ltac:(lra)). lra. }
    nra.
Qed.
