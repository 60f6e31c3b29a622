(** C46: the Newton iteration of the Gauss-Lobatto rule in binary64. *)
From Coq Require Import List Bool Arith ZArith Lia Reals Lra Psatz.
From Flocq Require Import IEEE754.BinarySingleNaN Core.
From Verif Require Import Base.Outcome Base.Scalar Base.RScalar Base.FScalar Model.Primitive Spec.RuleSpec Spec.Sums Spec.RealRules
  Spec.FloatSpec Spec.LibmSpec Proofs.FloatOps Proofs.FloatSphere Proofs.FloatErr Proofs.ChebFloat Proofs.Legendre
  Proofs.LegendreZeros Proofs.LegendreRound Proofs.GLNewton Proofs.GLBasin Proofs.PrimitiveFacts Proofs.Lobatto
  Proofs.LobattoNewton Proofs.GLFloat.
Import ListNotations.
Local Open Scope R_scope.

(** A critical point [y] of P_m with an interval around it, wider than rounding errors, on which Newton's step for
    x P_m - P_(m-1) contracts. *)
Definition lbasin (m : nat) (y zl zr sg B dl : R) : Prop :=
  (2 <= m)%nat /\ sg * sg = 1 /\ dP m y = 0 /\ zl < y < zr /\ Pn m zl = 0 /\ Pn m zr = 0 /\
  (forall x, zl < x < zr -> 0 < sg * Pn m x) /\ 0 <= dl <= 0.6 /\ 0 <= B /\
  (forall x, Rabs (x - y) <= dl -> 0 < 1 - x * x /\ INR m * (INR m + 1) <= B * (1 - x * x)) /\
  B * (dl * dl) <= 0.8 /\ / 1000 <= dl * (INR m * INR m) /\
  (forall x, Rabs (x - y) <= dl -> 3.19 <= INR m * INR m * (1 - x * x)) /\
  3.19 * B <= (INR m + 1) * (INR m + 1) * ((INR m + 1) * (INR m + 1)).

Section Step.
Variables (lib : libm) (m : nat) (y zl zr sg B dl : R).
Hypothesis BS : lbasin m y zl zr sg B dl.
Hypothesis Hn : (Z.of_nat m < 16384)%Z.
Let M := INR m.
Let N := INR m + 1.
Let sq := sqrt N.
Let U := u * (N * N) * sq.
Let p0 := sg * Pn m y.

Lemma l_step : forall x, Rabs (x - y) <= dl ->
  zl < x < zr /\ 0 < sg * Pn m x <= p0 /\ p0 * (1 - B * ((x - y) * (x - y)) / 2) <= sg * Pn m x /\
  Rabs (lstep m x - y) <= 2 / 3 * Rabs (x - y) /\ Rabs (x - y) <= Rabs (lstep m x - x) <= 5 / 3 * Rabs (x - y).
Proof.
  destruct BS as (A1 & A2 & A3 & A4 & A5 & A6 & A7 & A8 & A9 & A10 & A11 & _).
  apply (lob_step m y zl zr sg B dl ltac:(lia) A2 A3 A4 A5 A6 A7 A9 A10 A11).
Qed.

Lemma lN_range : 3 <= N <= 16384 /\ 2 <= M /\ N = M + 1.
Proof.
  destruct BS as (A1 & _). unfold N, M. split; [split|split].
  - pose proof (le_INR _ _ A1) as E. simpl in E. lra.
  - rewrite <- S_INR, INR_IZR_INZ. apply IZR_le. lia.
  - pose proof (le_INR _ _ A1) as E. simpl in E. lra.
  - reflexivity.
Qed.
Lemma lsq_facts : sq * sq = N /\ 1.732 <= sq <= 128.
Proof.
  destruct lN_range as (NR & _). assert (E : sq * sq = N) by (apply sqrt_sqrt; lra). assert (0 <= sq) by apply sqrt_pos.
  split; auto. split; nra.
Qed.
Lemma lU_facts : 0 < U <= 0.000004 /\ u <= 0.065 * U /\ u * sq * (N * N) = U.
Proof.
  destruct lN_range as (NR & _). destruct lsq_facts as (E & S1 & S2). pose proof u_pos as U0. unfold U.
  assert (A : 9 <= N * N <= 16384 * 16384) by nra.
  assert (A1 : 0 < u * (N * N)) by nra.
  assert (A2 : u * (N * N) <= u * (16384 * 16384)) by (apply Rmult_le_compat_l; lra).
  assert (A3 : u * (N * N) * sq <= u * (16384 * 16384) * 128) by (apply Rmult_le_compat; lra).
  assert (A4 : u * (16384 * 16384) * 128 <= 0.000004) by (unfold u; lra).
  assert (A5 : u * 9 <= u * (N * N)) by (apply Rmult_le_compat_l; lra).
  assert (A6 : u * (N * N) * 1.732 <= u * (N * N) * sq) by (apply Rmult_le_compat_l; lra).
  split; [split; [|lra]|split; [lra|ring]]. apply Rmult_lt_0_compat; lra.
Qed.
Lemma lus : 0 < u * sq /\ u <= 0.578 * (u * sq) /\ u * sq <= 0.12 * U.
Proof.
  destruct lN_range as (NR & _). destruct lsq_facts as (E & S1 & S2). destruct lU_facts as (_ & _ & EU). pose proof u_pos as U0.
  assert (A : 0 < u * sq) by (apply Rmult_lt_0_compat; lra). split; auto. split.
  - replace (0.578 * (u * sq)) with (u * (0.578 * sq)) by ring. rewrite <- (Rmult_1_r u) at 1. apply Rmult_le_compat_l; lra.
  - assert (9 <= N * N) by nra. assert (u * sq * 9 <= u * sq * (N * N)) by (apply Rmult_le_compat_l; lra). lra.
Qed.

(** The extreme values of P_m are not small. *)
Lemma p0_lower : 0 < p0 <= 1 /\ 0.707 <= sq * p0.
Proof.
  destruct lN_range as (NR & M2 & EN). destruct lsq_facts as (E & S1 & S2).
  destruct BS as (A1 & SG & A3 & A4 & A5 & A6 & A7 & A8 & A9 & A10 & A11 & _).
  assert (P0 : 0 < p0) by (apply A7; lra).
  assert (PP : p0 * p0 = Pn m y * Pn m y).
  { unfold p0. transitivity (sg * sg * (Pn m y * Pn m y)); [ring|rewrite SG; ring]. }
  assert (K : N / 2 <= Pn m y * Pn m y * (M * N)).
  { assert (G : forall t, 0 <= t -> dP m t = 0 -> N / 2 <= Pn m t * Pn m t * (M * N)).
    { intros t Ht D. pose proof (energy_mono m 0 t ltac:(lra) Ht) as EM. cbv beta in EM. rewrite D in EM.
      pose proof (energy_zero m ltac:(lia)) as E0. pose proof (leg_A m 0) as LA.
      assert (D0 : dP m 0 = INR m * Pm m 0) by lra. rewrite D0 in EM. unfold M, N. lra. }
    destruct (Rle_dec 0 y) as [Y|Y]; [apply G; auto|].
    assert (DO : dP m (- y) = 0).
    { pose proof (leg_A m y) as L1. pose proof (leg_A m (- y)) as L2. rewrite A3 in L1.
      destruct (A10 y ltac:(rewrite Rminus_eq_0, Rabs_R0; lra)) as (W1 & _).
      assert (PM : Pm m (- y) = - (-1) ^ m * Pm m y).
      { destruct m as [|m']; [lia|]. change (Pm (S m') (- y)) with (Pn m' (- y)). change (Pm (S m') y) with (Pn m' y).
        rewrite Pn_opp. simpl. ring. }
      rewrite PM, Pn_opp in L2. apply Rmult_eq_reg_l with (1 - y * y); [|lra].
      replace (1 - - y * - y) with (1 - y * y) in L2 by ring.
      rewrite L2, Rmult_0_r. transitivity ((-1) ^ m * - ((1 - y * y) * 0)); [rewrite L1; ring|ring]. }
    pose proof (G (- y) ltac:(lra) DO) as K. rewrite Pn_opp in K.
    replace ((-1) ^ m * Pn m y * ((-1) ^ m * Pn m y)) with (Pn m y * Pn m y) in K; auto.
    transitivity ((-1) ^ m * (-1) ^ m * (Pn m y * Pn m y)); [rewrite pow_m1_sq|]; ring. }
  rewrite <- PP in K.
  assert (K1 : / 2 <= p0 * p0 * M).
  { apply Rmult_le_reg_r with N; [lra|]. lra. }
  assert (K2 : / 2 <= (sq * p0) * (sq * p0)).
  { replace (sq * p0 * (sq * p0)) with (p0 * p0 * (sq * sq)) by ring. rewrite E, EN.
    assert (0 <= p0 * p0) by (apply Rle_0_sqr). lra. }
  assert (0 < sq * p0) by (apply Rmult_lt_0_compat; lra).
  split; [|nra]. split; auto.
  destruct (A10 y ltac:(rewrite Rminus_eq_0, Rabs_R0; lra)) as (W1 & _).
  assert (Y1 : -1 <= y <= 1) by (split; nra).
  pose proof (Pn_bound m y Y1) as PB. apply abs_of in PB.
  assert (p0 * p0 <= 1) by (rewrite PP; nra). nra.
Qed.

Lemma lP_facts : forall x, Rabs (x - y) <= dl -> 0.6 * p0 <= Rabs (Pn m x) /\ Rabs (Pn m x) <= 1 /\ Pn m x <> 0 /\ -1 < x < 1.
Proof.
  intros x Hx. destruct (l_step x Hx) as (_ & (P1 & P2) & P3 & _). destruct p0_lower as ((Q0 & Q1) & _).
  destruct BS as (A1 & SG & A3 & A4 & A5 & A6 & A7 & A8 & A9 & A10 & A11 & _).
  destruct (A10 x Hx) as (W1 & _). assert (X1 : -1 < x < 1) by (split; nra).
  assert (E : Rabs (Pn m x) = sg * Pn m x).
  { assert (E : Rabs sg = 1). { clear - SG. unfold Rabs. destruct (Rcase_abs sg); nra. }
    rewrite <- (Rabs_pos_eq (sg * Pn m x)) by lra. rewrite Rabs_mult, E. ring. }
  assert (D2 : (x - y) * (x - y) <= dl * dl).
  { pose proof (abs_of _ _ Hx). nra. }
  assert (BX : B * ((x - y) * (x - y)) <= 0.8) by (eapply Rle_trans; [|exact A11]; apply Rmult_le_compat_l; auto).
  assert (p0 * 0.6 <= p0 * (1 - B * ((x - y) * (x - y)) / 2)) by (apply Rmult_le_compat_l; lra).
  rewrite E. split; [lra|]. split; [lra|]. split; auto. intro E0. rewrite E0, Rmult_0_r in P1. lra.
Qed.

Lemma leval_float : forall x : F64, is_finite x = true -> Rabs (B2R x - y) <= dl ->
  exists p d q1 : F64, @eval_Pn (FS lib) x m = (p, d, q1) /\ is_finite q1 = true /\ Rabs (B2R p) <= 1.001 /\ Rabs (B2R q1) <= 1.001 /\
    Rabs (B2R x * B2R p - B2R q1 - gg m (B2R x)) <= 8 * u * M /\ rel p (Pn m (B2R x)) (10.7 * U).
Proof.
  intros x Fx Jx. set (X := B2R x) in *.
  destruct lN_range as (NR & M2 & EN). destruct lsq_facts as (ES & S1 & S2). destruct lU_facts as ((U0 & U1) & U2 & EU).
  pose proof u_pos as u0. destruct p0_lower as ((Q0 & Q1) & Q2). destruct (lP_facts X Jx) as (P1 & P2 & P3 & X1).
  destruct BS as (A1 & SG & A3 & A4 & A5 & A6 & A7 & A8 & A9 & A10 & A11 & A12 & A13 & A14).
  pose proof (A13 X Jx) as W. fold M in W.
  set (s := 1.78 / M). assert (s0 : 0 < s) by (apply Rdiv_lt_0_compat; lra).
  assert (MM : 4 <= M * M) by (apply Rle_trans with (2 * 2); [lra|apply Rmult_le_compat; lra]).
  assert (sM : s * M = 1.78) by (unfold s; field; lra).
  assert (ss : s * s <= 1 - X * X).
  { apply Rmult_le_reg_l with (M * M); [lra|]. replace (M * M * (s * s)) with ((s * M) * (s * M)) by ring. rewrite sM. lra. }
  assert (uNN : u * (N * N) * sq = U) by reflexivity.
  assert (uNN0 : 0 < u * (N * N)) by (apply Rmult_lt_0_compat; [lra|apply Rmult_lt_0_compat; lra]).
  assert (uNN1 : u * (N * N) * 1.732 <= U) by (rewrite <- uNN; apply Rmult_le_compat_l; lra).
  assert (uMM : u * (M * M) <= u * (N * N)) by (apply Rmult_le_compat_l; [lra|]; apply Rmult_le_compat; lra).
  assert (Is : / s = M / 1.78) by (unfold s; field; lra).
  assert (ER : 8 * u * M / s <= 4.5 * (u * (N * N))).
  { unfold Rdiv. rewrite Is. replace (8 * u * M * (M / 1.78)) with (8 / 1.78 * (u * (M * M))) by (field; lra).
    assert (0 < u * (M * M)) by (apply Rmult_lt_0_compat; lra).
    apply Rle_trans with (4.5 * (u * (M * M))); [apply Rmult_le_compat_r; lra|lra]. }
  assert (SM : 8 * u * INR m <= 0.005 * s).
  { fold M. apply Rmult_le_reg_r with (/ s); [apply Rinv_0_lt_compat; auto|]. rewrite (Rmult_assoc 0.005), Rinv_r by lra.
    change (8 * u * M * / s) with (8 * u * M / s). lra. }
  destruct (loop_full lib x s m Fx ltac:(fold X; lra) s0 ss ltac:(lia) SM) as (p & q1 & q2 & EQ & Fp & Fq & Ep & Eq & Ea).
  fold X M in Ep, Eq, Ea.
  assert (Bp : Rabs (B2R p) <= 1.001).
  { replace (B2R p) with ((B2R p - Pn m X) + Pn m X) by ring. eapply Rle_trans; [apply Rabs_triang|]. lra. }
  assert (Bq : Rabs (B2R q1) <= 1.001).
  { replace (B2R q1) with ((B2R q1 - Pm m X) + Pm m X) by ring. eapply Rle_trans; [apply Rabs_triang|].
    assert (Rabs (Pm m X) <= 1). { destruct m as [|m']; [simpl; rewrite Rabs_R0; lra|apply (Pn_bound m' X ltac:(lra))]. } lra. }
  unfold eval_Pn. change (@legendre_loop (FS lib) x m 1 Scalar.s1 Scalar.s0 Scalar.s0) with (@legendre_loop (FS lib) x m 1 (f_of 1 0) (f_of 0 0) (f_of 0 0)).
  rewrite EQ. eexists p, _, q1. split; [reflexivity|]. split; auto. split; auto. split; auto. split; [exact Ea|].
  apply rel_abs; auto. eapply Rle_trans; [exact Ep|]. eapply Rle_trans; [exact ER|].
  apply Rle_trans with (10.7 * U * (0.6 * p0)); [|apply Rmult_le_compat_l; lra].
  rewrite <- uNN. replace (10.7 * (u * (N * N) * sq) * (0.6 * p0)) with ((u * (N * N)) * (6.42 * (sq * p0))) by lra.
  rewrite (Rmult_comm 4.5). apply Rmult_le_compat_l; lra.
Qed.

(** One Newton step. *)
Lemma lnewton_float : forall x p q1 : F64, is_finite x = true -> Rabs (B2R x - y) <= dl -> is_finite q1 = true ->
  Rabs (B2R p) <= 1.001 -> Rabs (B2R q1) <= 1.001 ->
  Rabs (B2R x * B2R p - B2R q1 - gg m (B2R x)) <= 8 * u * M -> rel p (Pn m (B2R x)) (10.7 * U) ->
  let z := fsub x (fdiv (fsub (fmul x p) q1) (fmul (f_of (Z.of_nat (S m)) 0) p)) in
  is_finite z = true /\ Rabs (B2R z - lstep m (B2R x)) <= 21 * u * sq + 18.5 * U * Rabs (B2R x - y).
Proof.
  intros x p q1 Fx Jx Fq Bp Bq Ea Rp z. set (X := B2R x) in *.
  destruct lN_range as (NR & M2 & EN). destruct lsq_facts as (ES & S1 & S2). destruct lU_facts as ((U0 & U1) & U2 & EU).
  destruct lus as (us0 & us1 & us2).
  pose proof u_pos as u0. pose proof u_small as u1. destruct tiny_u40 as (T0 & T1).
  destruct p0_lower as ((Q0 & Q1) & Q2). destruct (lP_facts X Jx) as (P1 & P2 & P3 & X1).
  destruct (l_step X Jx) as (_ & _ & _ & _ & _ & LS).
  assert (D6 : Rabs (X - y) <= 0.6) by (destruct BS as (_ & _ & _ & _ & _ & _ & _ & A8 & _); lra).
  pose proof (Rabs_pos (X - y)) as DP.
  assert (BX : Rabs X <= 1) by (apply Rabs_le; lra).
  assert (Fp : is_finite p = true) by apply Rp.
  (* the numerator *)
  destruct (mul_abs x p 1.002 Fx Fp) as (Fxp & Exp).
  { rewrite Rabs_mult. fold X. rewrite <- (Rmult_1_l 1.002). apply Rmult_le_compat; auto using Rabs_pos. lra. }
  { apply big900. lra. }
  fold X in Exp.
  assert (Bxp : Rabs (X * B2R p) <= 1.001) by (rewrite Rabs_mult; rewrite <- (Rmult_1_l 1.001); apply Rmult_le_compat; auto using Rabs_pos).
  destruct (sub_abs (fmul x p) q1 2.1 Fxp Fq) as (Fnum & Enum).
  { replace (B2R (fmul x p) - B2R q1) with ((B2R (fmul x p) - X * B2R p) + X * B2R p + - B2R q1) by ring.
    eapply Rle_trans; [apply Rabs_triang|]. rewrite Rabs_Ropp.
    assert (Rabs (B2R (fmul x p) - X * B2R p + X * B2R p) <= 1.05) by (eapply Rle_trans; [apply Rabs_triang|]; lra). lra. }
  { apply big900. lra. }
  set (num := fsub (fmul x p) q1) in *.
  assert (Enum2 : Rabs (B2R num - gg m X) <= 8 * u * N).
  { replace (B2R num - gg m X) with ((B2R num - (B2R (fmul x p) - B2R q1)) + (B2R (fmul x p) - X * B2R p) + (X * B2R p - B2R q1 - gg m X)) by ring.
    eapply Rle_trans; [apply Rabs_triang|]. eapply Rle_trans; [apply Rplus_le_compat_r, Rabs_triang|].
    rewrite EN. lra. }
  (* the denominator *)
  assert (EIN : INR (S m) = N) by (unfold N; apply S_INR).
  pose proof (nat_rel (S m) ltac:(lia)) as RN. rewrite EIN in RN.
  assert (NPl : 0.4242 * sq <= Rabs (N * Pn m X)).
  { rewrite Rabs_mult, (Rabs_pos_eq N) by lra. rewrite <- ES.
    apply Rle_trans with (sq * (sq * (0.6 * p0))).
    - rewrite (Rmult_comm 0.4242). apply Rmult_le_compat_l; lra.
    - rewrite <- Rmult_assoc. apply Rmult_le_compat_l; [nra|lra]. }
  assert (NPu : Rabs (N * Pn m X) <= 16384).
  { rewrite Rabs_mult, (Rabs_pos_eq N) by lra. apply Rle_trans with (16384 * 1); [apply Rmult_le_compat; try lra; apply Rabs_pos|lra]. }
  destruct (mid_tiny (N * Pn m X) ltac:(lra)) as (TO & BG).
  pose proof (rel_fmul _ _ _ _ 0 (10.7 * U) RN Rp ltac:(lra) ltac:(lra) TO BG) as Rd.
  assert (Rd' : rel (fmul (f_of (Z.of_nat (S m)) 0) p) (N * Pn m X) (10.8 * U)).
  { eapply rel_weak; [exact Rd|]. assert (u * (1 + 0) * (1 + 10.7 * U) <= u * 1.1) by (rewrite Rplus_0_r, Rmult_1_r; apply Rmult_le_compat_l; lra). lra. }
  clear Rd. set (den := fmul (f_of (Z.of_nat (S m)) 0) p) in *.
  destruct Rd' as (Fd & de & Hde & Ed). apply abs_of in Hde.
  set (NP := N * Pn m X) in *.
  assert (NP0 : NP <> 0) by (apply Rmult_integral_contrapositive; split; [lra|auto]).
  set (q := gg m X / NP). set (g := (B2R num - gg m X) / NP).
  assert (Eq : B2R num / B2R den = (q + g) / (1 + de)).
  { rewrite Ed. unfold q, g. field. split; auto. lra. }
  assert (LE : lstep m X = X - q) by reflexivity.
  assert (Bq0 : Rabs q <= 5 / 3 * Rabs (X - y)).
  { rewrite LE in LS. replace (X - q - X) with (- q) in LS by ring. rewrite Rabs_Ropp in LS. exact LS. }
  assert (G : Rabs g <= 18.87 * (u * sq)).
  { unfold g, Rdiv. rewrite Rabs_mult, Rabs_inv. assert (0 < Rabs NP) by (apply Rabs_pos_lt; auto).
    apply Rmult_le_reg_r with (Rabs NP); auto. rewrite Rmult_assoc, Rinv_l, Rmult_1_r by lra.
    eapply Rle_trans; [exact Enum2|]. apply Rle_trans with (18.87 * (u * sq) * (0.4242 * sq)).
    - replace (18.87 * (u * sq) * (0.4242 * sq)) with (8.004654 * (u * (sq * sq))) by lra. rewrite ES.
      assert (0 <= u * N) by (apply Rmult_le_pos; lra). lra.
    - apply Rmult_le_compat_l; lra. }
  set (k := / (1 + de)).
  assert (K : 0.9999 <= k <= 1.0001).
  { unfold k. split; [apply Rmult_le_reg_r with (1 + de); [lra|]; rewrite Rinv_l by lra; lra|].
    apply Rmult_le_reg_r with (1 + de); [lra|]; rewrite Rinv_l by lra; lra. }
  assert (KD : (q + g) / (1 + de) - q = k * g - k * de * q) by (unfold k; field; lra).
  assert (E2 : Rabs (B2R num / B2R den - q) <= 18.9 * (u * sq) + 18.1 * U * Rabs (X - y)).
  { rewrite Eq, KD. eapply Rle_trans; [apply Rabs_triang|]. rewrite Rabs_Ropp, !Rabs_mult, (Rabs_pos_eq k) by lra.
    assert (k * Rabs g <= 1.0001 * (18.87 * (u * sq))) by (apply Rmult_le_compat; try lra; apply Rabs_pos).
    assert (k * Rabs de <= 10.81 * U).
    { apply Rle_trans with (1.0001 * (10.8 * U)); [|lra]. apply Rmult_le_compat; try lra; [apply Rabs_pos|apply Rabs_le; lra]. }
    assert (k * Rabs de * Rabs q <= 10.81 * U * (5 / 3 * Rabs (X - y))).
    { apply Rmult_le_compat; auto using Rabs_pos. apply Rmult_le_pos; [lra|apply Rabs_pos]. }
    assert (0 <= U * Rabs (X - y)) by (apply Rmult_le_pos; lra). lra. }
  assert (UX : U * Rabs (X - y) <= 0.0000024).
  { apply Rle_trans with (0.000004 * 0.6); [|lra]. apply Rmult_le_compat; lra. }
  assert (Q3 : Rabs (B2R num / B2R den) <= 1.001).
  { replace (B2R num / B2R den) with ((B2R num / B2R den - q) + q) by ring. eapply Rle_trans; [apply Rabs_triang|]. lra. }
  destruct (div_abs num den 1.001 Fnum) as (Fdv & Edv); auto.
  { rewrite Ed. apply Rmult_integral_contrapositive. split; auto. lra. }
  { apply big900. lra. }
  assert (Q4 : Rabs (B2R (fdiv num den)) <= 1.002).
  { replace (B2R (fdiv num den)) with ((B2R (fdiv num den) - B2R num / B2R den) + B2R num / B2R den) by ring.
    eapply Rle_trans; [apply Rabs_triang|]. lra. }
  destruct (sub_abs x (fdiv num den) 2.1 Fx Fdv) as (Fz & Ez).
  { fold X. eapply Rle_trans; [apply Rabs_triang|]. rewrite Rabs_Ropp. lra. }
  { apply big900. lra. }
  fold z in Fz, Ez. split; auto. fold X in Ez. rewrite LE.
  replace (B2R z - (X - q)) with
    ((B2R z - (X - B2R (fdiv num den))) - (B2R (fdiv num den) - B2R num / B2R den) - (B2R num / B2R den - q)) by ring.
  eapply Rle_trans; [apply Rabs_triang|]. rewrite Rabs_Ropp.
  eapply Rle_trans; [apply Rplus_le_compat_r, Rabs_triang|]. rewrite Rabs_Ropp.
  assert (0 <= U * Rabs (X - y)) by (apply Rmult_le_pos; lra). lra.
Qed.

(** What the iteration returns. *)
Definition lsettled (v : F64 * F64) : Prop :=
  is_finite (fst v) = true /\ Rabs (B2R (fst v) - y) <= 24 * u * sq /\ zl < B2R (fst v) < zr /\
  rel (snd v) (Pn m y) (10.8 * U).

Lemma literate : forall it (z : F64) v, is_finite z = true -> Rabs (B2R z - y) <= dl ->
  @lob_newton (FS lib) (S m) it z = Some v -> lsettled v.
Proof.
  destruct lN_range as (NR & M2 & EN). destruct lsq_facts as (ES & S1 & S2). destruct lU_facts as ((U0 & U1) & U2 & EU).
  destruct lus as (us0 & us1 & us2). pose proof u_pos as u0. pose proof u_small as u1.
  assert (NN0 : 0 < N * N) by (apply Rmult_lt_0_compat; lra).
  induction it as [|it IH]; intros z v Fz Jz H; [discriminate H|].
  cbn [lob_newton] in H. replace (S m - 1)%nat with m in H by lia.
  destruct (leval_float z Fz Jz) as (p & d & q1 & EE & Fq & Bp & Bq & Ea & Rp).
  rewrite EE in H.
  destruct (lnewton_float z p q1 Fz Jz Fq Bp Bq Ea Rp) as (Fz' & Ez').
  match type of H with (if @sleb _ (@sabs _ (@ssub _ ?a _)) _ then _ else _) = _ =>
    change a with (fsub z (fdiv (fsub (fmul z p) q1) (fmul (f_of (Z.of_nat (S m)) 0) p))) in H end.
  set (z' := fsub z (fdiv (fsub (fmul z p) q1) (fmul (f_of (Z.of_nat (S m)) 0) p))) in *. set (X := B2R z) in *.
  pose proof (Rabs_pos (X - y)) as DP.
  destruct (l_step X Jz) as (LZ & (LP1 & LP2) & LP3 & LS1 & LS2).
  assert (EW : Rabs (B2R z' - lstep m X) <= 21 * (u * sq) + 0.0001 * Rabs (X - y)).
  { eapply Rle_trans; [exact Ez'|]. assert (18.5 * U * Rabs (X - y) <= 0.0001 * Rabs (X - y)) by (apply Rmult_le_compat_r; lra). lra. }
  assert (Jz' : Rabs (B2R z' - y) <= dl).
  { replace (B2R z' - y) with ((B2R z' - lstep m X) + (lstep m X - y)) by ring. eapply Rle_trans; [apply Rabs_triang|].
    destruct BS as (A1 & SG & A3 & A4 & A5 & A6 & A7 & A8 & A9 & A10 & A11 & A12 & A13 & A14). fold M in A12.
    assert (21 * (u * sq) <= 0.3 * dl); [|lra].
    assert (MM : 0 < M * M) by (apply Rmult_lt_0_compat; lra).
    apply Rmult_le_reg_r with (M * M); auto.
    apply Rle_trans with (21 * U); [|lra].
    rewrite <- EU, Rmult_assoc. apply Rmult_le_compat_l; [lra|]. apply Rmult_le_compat_l; [lra|]. apply Rmult_le_compat; lra. }
  change (@sabs (FS lib) (@ssub (FS lib) z' z)) with (@Babs 53 1024 (fsub z' z)) in H.
  destruct (@sleb (FS lib) (Babs (fsub z' z)) seps) eqn:EL.
  2:{ apply (IH z' v Fz' Jz' H). }
  injection H as <-.
  change (Bleb (@Babs 53 1024 (fsub z' z)) (f_of 1 (-52)) = true) in EL.
  destruct (lP_facts X Jz) as (P1 & P2 & P3 & X2). destruct (lP_facts _ Jz') as (_ & _ & _ & X2').
  destruct (finite_sub z' z Fz' Fz) as (Fs & Es).
  { apply big900. fold X. apply Rle_trans with 2; [apply Rabs_le; lra|lra]. }
  destruct (eps_val m) as (Fe & Ee).
  rewrite Bleb_correct in EL by (auto; rewrite is_finite_Babs; auto).
  rewrite B2R_Babs, Es, Ee in EL. apply Rle_bool_true_iff in EL || (revert EL; case Rle_bool_spec; [intros EL _|discriminate]).
  destruct (rnd_sub_err z' z) as (de & Hde & ER). rewrite ER in EL. fold X in EL.
  assert (T : Rabs (B2R z' - X) <= 2.01 * u).
  { rewrite Rabs_mult in EL. apply abs_of in Hde. rewrite (Rabs_pos_eq (1 + de)) in EL by lra.
    pose proof (Rabs_pos (B2R z' - X)) as P.
    assert (Rabs (B2R z' - X) * 0.999 <= Rabs (B2R z' - X) * (1 + de)) by (apply Rmult_le_compat_l; lra). lra. }
  assert (T2 : Rabs (X - y) <= 22.3 * (u * sq)).
  { assert (Rabs (lstep m X - X) <= Rabs (B2R z' - X) + Rabs (B2R z' - lstep m X)).
    { replace (lstep m X - X) with ((B2R z' - X) - (B2R z' - lstep m X)) by ring. eapply Rle_trans; [apply Rabs_triang|]. rewrite Rabs_Ropp. lra. }
    lra. }
  split; [exact Fz'|]. cbn [fst snd]. split.
  { replace (B2R z' - y) with ((B2R z' - X) + (X - y)) by ring. eapply Rle_trans; [apply Rabs_triang|]. lra. }
  split; [apply (l_step _ Jz')|].
  destruct Rp as (Fp & dp & Hdp & Edp). split; auto. fold X in Edp. apply abs_of in Hdp.
  destruct p0_lower as ((Q0 & Q1) & Q2).
  destruct BS as (A1 & SG & A3 & A4 & A5 & A6 & A7 & A8 & A9 & A10 & A11 & A12 & A13 & A14). fold N in A14.
  assert (SN : sg <> 0) by (intro E; rewrite E in SG; lra).
  set (b := B * ((X - y) * (X - y)) / 2) in *.
  assert (Hb : 0 <= b <= 0.001 * U).
  { assert (X22 : 0 <= (X - y) * (X - y) <= 22.3 * (u * sq) * (22.3 * (u * sq))) 
      by (split; [apply Rle_0_sqr|]; rewrite <- (Rabs_pos_eq ((X - y) * (X - y))) by apply Rle_0_sqr; rewrite Rabs_mult; apply Rmult_le_compat; auto).
    unfold b. split; [assert (0 <= B * ((X - y) * (X - y))) by (apply Rmult_le_pos; lra); lra|].
    assert (K1 : B * ((X - y) * (X - y)) <= B * (22.3 * (u * sq) * (22.3 * (u * sq)))) by (apply Rmult_le_compat_l; lra).
    assert (K2 : 3.19 * B * ((u * sq) * (u * sq)) <= N * N * (N * N) * ((u * sq) * (u * sq))).
    { apply Rmult_le_compat_r; auto. apply Rmult_le_pos; lra. }
    replace (N * N * (N * N) * ((u * sq) * (u * sq))) with (U * U) in K2 by (rewrite <- EU; ring).
    assert (U * U <= 0.000004 * U) by (apply Rmult_le_compat_r; lra).
    replace (B * (22.3 * (u * sq) * (22.3 * (u * sq)))) with (497.29 * (B * ((u * sq) * (u * sq)))) in K1 by lra. lra. }
  set (c := (sg * Pn m X - p0) / p0).
  assert (C : - (0.001 * U) <= c <= 0).
  { unfold c. split.
    - apply Rmult_le_reg_r with p0; auto. unfold Rdiv. rewrite (Rmult_assoc (sg * Pn m X - p0)), Rinv_l, Rmult_1_r by lra.
      assert (p0 * b <= p0 * (0.001 * U)) by (apply Rmult_le_compat_l; lra). lra.
    - apply Rmult_le_reg_r with p0; auto. unfold Rdiv. rewrite (Rmult_assoc (sg * Pn m X - p0)), Rinv_l, Rmult_1_r by lra. lra. }
  assert (EX : Pn m X = Pn m y * (1 + c)).
  { apply Rmult_eq_reg_l with sg; auto. rewrite <- Rmult_assoc. fold p0. unfold c. field. lra. }
  exists (c + dp + c * dp). split; [|rewrite Edp, EX; ring].
  assert (Rabs (c * dp) <= 0.01 * U).
  { rewrite Rabs_mult. apply Rle_trans with ((0.001 * U) * 1).
    - apply Rmult_le_compat; try apply Rabs_pos; apply Rabs_le; lra.
    - lra. }
  apply abs_of in H. apply Rabs_le. lra.
Qed.
End Step.
