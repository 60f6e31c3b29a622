(** C45: the Newton iteration of the Gauss-Legendre rule in binary64. *)
From Coq Require Import List Bool Arith ZArith Lia Reals Lra Psatz.
From Flocq Require Import IEEE754.BinarySingleNaN Core.
From Verif Require Import Base.Outcome Base.Scalar Base.RScalar Base.FScalar Model.Primitive Spec.RuleSpec Spec.Sums Spec.RealRules
  Spec.FloatSpec Spec.LibmSpec Proofs.FloatOps Proofs.FloatSphere Proofs.FloatErr Proofs.ChebFloat Proofs.Legendre
  Proofs.LegendreZeros Proofs.LegendreRound Proofs.GLNewton Proofs.GLBasin Proofs.PrimitiveFacts.
Import ListNotations.
Local Open Scope R_scope.

Lemma rel_abs : forall (x : F64) v e, is_finite x = true -> v <> 0 -> Rabs (B2R x - v) <= e * Rabs v -> rel x v e.
Proof.
  intros x v e F V H. split; auto. exists ((B2R x - v) / v). split; [|field; auto].
  unfold Rdiv. rewrite Rabs_mult, Rabs_inv. assert (0 < Rabs v) by (apply Rabs_pos_lt; auto).
  apply Rmult_le_reg_r with (Rabs v); auto. rewrite Rmult_assoc, Rinv_l, Rmult_1_r by lra. exact H.
Qed.
Lemma mid_tiny : forall v, 0.01 <= Rabs v <= 1000000000000000 -> tiny_ok v /\ Rabs v <= 2 ^ 899.
Proof.
  intros v H. split.
  - apply tiny_ok_1. eapply Rle_trans; [|apply H]. rewrite <- (Rmult_1_l (/ 2 ^ 60)). lra.
  - eapply Rle_trans; [apply H|]. apply Rle_trans with (2 ^ 60); [lra|]. apply Rle_pow; [lra|lia].
Qed.

Section Step.
Variables (lib : libm) (n : nat) (r h sg : R).
Hypothesis B : basin n r h sg.
Hypothesis Hn : (Z.of_nat n < 16384)%Z.
Let m := sg * dP n r.
Let N := INR n + 1.
Let sq := sqrt N.
Let U := u * (N * N) * sq.
Let Q := 1 - r * r.
Let s := sqrt (Q / 1.25).

Lemma N_range : 2 <= N <= 16384.
Proof.
  destruct B as (B1 & _). unfold N. split.
  - pose proof (le_INR _ _ B1) as E. simpl in E. lra.
  - rewrite <- S_INR, INR_IZR_INZ. apply IZR_le. lia.
Qed.
Lemma sq_facts : sq * sq = N /\ 1.414 <= sq <= 128.
Proof.
  pose proof N_range as NR. assert (E : sq * sq = N) by (apply sqrt_sqrt; lra). assert (0 <= sq) by apply sqrt_pos.
  split; auto. split; nra.
Qed.
Lemma U_facts : 0 < U <= 0.000004 /\ u <= 0.18 * U /\ u * (N * N) <= 0.7073 * U /\ u * sq <= 0.25 * U.
Proof.
  pose proof N_range as NR. destruct sq_facts as (E & S1 & S2). pose proof u_pos as U0. unfold U.
  assert (A : 4 <= N * N <= 16384 * 16384) by nra.
  assert (A1 : 0 < u * (N * N)) by nra.
  assert (A2 : u * (N * N) <= u * (16384 * 16384)) by (apply Rmult_le_compat_l; lra).
  assert (A3 : u * (N * N) * sq <= u * (16384 * 16384) * 128) by (apply Rmult_le_compat; lra).
  assert (A4 : u * (16384 * 16384) * 128 <= 0.000004) by (unfold u; lra).
  assert (A5 : 4 * u <= u * (N * N)) by nra.
  assert (A6 : u * (N * N) * 1.414 <= u * (N * N) * sq) by (apply Rmult_le_compat_l; lra).
  assert (A7 : u * sq * 4 <= u * sq * (N * N)) by (apply Rmult_le_compat_l; nra).
  repeat split; try lra; nra.
Qed.
Lemma Q_facts : 0 < Q <= 1 /\ 3.6 <= N * N * Q.
Proof.
  destruct B as (B1 & B2 & B3 & B4 & B5 & B6 & B7 & B8 & B9 & B10 & B11 & B12). unfold Q.
  assert (r < 1) by lra. split; [|exact B9]. clear - B3 H. split; nra.
Qed.
Lemma s_facts : 0 < s <= 1 /\ s * s = Q / 1.25 /\ 1.69 <= N * s.
Proof.
  destruct Q_facts as ((Q0 & Q1) & Q2). pose proof N_range as NR.
  assert (E : s * s = Q / 1.25) by (apply sqrt_sqrt; lra).
  assert (S0 : 0 < s) by (apply sqrt_lt_R0; lra).
  split; [split; auto; nra|]. split; auto.
  assert (K : 2.88 <= (N * s) * (N * s)).
  { replace ((N * s) * (N * s)) with (N * N * (s * s)) by ring. rewrite E. lra. }
  assert (0 < N * s) by nra. nra.
Qed.
Lemma m_pos : 0 < m.
Proof. destruct B as (B1 & B2 & B3 & B4 & B5 & B6 & B7 & _). exact B7. Qed.
Lemma ms_facts : 0.62 * sq <= m * s /\ 0.87 <= m.
Proof.
  destruct s_facts as ((S0 & S1) & S2 & _). destruct sq_facts as (E & Q1 & _). pose proof m_pos as M0.
  pose proof (use_slope n r h sg B) as K. fold m N Q in K.
  assert (K2 : 0.4 * (sq * sq) <= (m * s) * (m * s)).
  { replace ((m * s) * (m * s)) with (s * s * (m * m)) by ring. rewrite S2, E.
    replace (Q / 1.25 * (m * m)) with (Q * (m * m) * / 1.25) by (unfold Rdiv; generalize (/ 1.25); intro; ring). lra. }
  assert (A : 0.62 * sq <= m * s). { assert (0 < m * s) by nra. nra. }
  split; auto. assert (m * s <= m * 1) by (apply Rmult_le_compat_l; lra). lra.
Qed.

Lemma eval_float : forall x : F64, is_finite x = true -> inJ n r h (B2R x) ->
  exists p d q1 : F64, @eval_Pn (FS lib) x n = (p, d, q1) /\ is_finite p = true /\
    Rabs (B2R p - Pn n (B2R x)) <= 13 * u * sq * m /\ rel d (dP n (B2R x)) (10 * U).
Proof.
  intros x Fx Jx. set (X := B2R x) in *.
  pose proof N_range as NR. destruct sq_facts as (ES & S1 & S2). destruct U_facts as ((U0 & U1) & U2 & U3 & U4).
  destruct Q_facts as ((Q0 & Q1) & Q2). destruct s_facts as ((s0 & s1) & Es & Ns). destruct ms_facts as (MS & M1).
  pose proof u_pos as u0. pose proof u_small as u1. destruct tiny_u40 as (T0 & T1). pose proof m_pos as M0.
  destruct (use_sq n r h sg B X Jx) as (X1 & X2). fold Q in X1. rewrite <- Es in X1.
  destruct (use_f1 n r h sg B X Jx) as (D1 & D2). fold m in D1, D2.
  assert (EN : INR n = N - 1) by (unfold N; ring).
  assert (N2s : 2.85 <= N * N * (s * s)).
  { rewrite Es. replace (N * N * (Q / 1.25)) with (N * N * Q * / 1.25) by (unfold Rdiv; generalize (/ 1.25); intro; ring). lra. }
  assert (ss0 : 0 < s * s) by (apply Rmult_lt_0_compat; auto).
  assert (NN0 : 0 < N * N) by (apply Rmult_lt_0_compat; lra).
  assert (NN1 : N * N <= 16384 * 16384) by (apply Rmult_le_compat; lra).
  assert (SM : 8 * u * INR n <= 0.0001 * s).
  { apply Rmult_le_reg_l with N; [lra|]. rewrite EN.
    replace (N * (8 * u * (N - 1))) with (8 * (u * (N * N)) - 8 * (u * N)) by ring.
    replace (N * (0.0001 * s)) with (0.0001 * (N * s)) by ring.
    assert (0 <= u * N) by (apply Rmult_le_pos; lra). lra. }
  destruct (loop_full lib x s n Fx ltac:(fold X; lra) s0 X1 ltac:(lia) ltac:(lra)) as (p & q1 & q2 & EQ & Fp & Fq & Ep & Eq & Ea).
  fold X in Ep, Eq, Ea.
  assert (SMs : 8 * u * INR n / s <= 0.0001).
  { apply Rmult_le_reg_r with s; auto. unfold Rdiv. rewrite Rmult_assoc, Rinv_l, Rmult_1_r by lra. lra. }
  assert (Bp : Rabs (B2R p) <= 1.001).
  { replace (B2R p) with ((B2R p - Pn n X) + Pn n X) by ring. eapply Rle_trans; [apply Rabs_triang|].
    pose proof (Pn_bound n X ltac:(lra)). lra. }
  assert (Bq : Rabs (B2R q1) <= 1.001).
  { replace (B2R q1) with ((B2R q1 - Pm n X) + Pm n X) by ring. eapply Rle_trans; [apply Rabs_triang|].
    assert (Rabs (Pm n X) <= 1). { destruct n as [|n']; [simpl; rewrite Rabs_R0; lra|apply (Pn_bound n' X ltac:(lra))]. } lra. }
  assert (BX : Rabs X <= 1) by (apply Rabs_le; lra).
  set (A0 := X * Pn n X - Pm n X) in *.
  destruct (f_of_small 1 ltac:(lia)) as (F1 & E1).
  (* the numerator *)
  destruct (mul_abs x p 1.002 Fx Fp) as (Fxp & Exp).
  { rewrite Rabs_mult. fold X. rewrite <- (Rmult_1_l 1.002). apply Rmult_le_compat; auto using Rabs_pos. lra. }
  { apply big900. lra. }
  fold X in Exp.
  assert (Bxp : Rabs (X * B2R p) <= 1.001) by (rewrite Rabs_mult; rewrite <- (Rmult_1_l 1.001); apply Rmult_le_compat; auto using Rabs_pos).
  destruct (sub_abs (fmul x p) q1 2.1 Fxp Fq) as (Fnum & Enum).
  { replace (B2R (fmul x p) - B2R q1) with ((B2R (fmul x p) - X * B2R p) + X * B2R p + - B2R q1) by ring.
    eapply Rle_trans; [apply Rabs_triang|]. rewrite Rabs_Ropp. 
    assert (Rabs (B2R (fmul x p) - X * B2R p + X * B2R p) <= 1.05) by (eapply Rle_trans; [apply Rabs_triang|]; lra). lra. }
  { apply big900. lra. }
  set (num := fsub (fmul x p) q1) in *.
  assert (Enum2 : Rabs (B2R num - A0) <= 8 * u * N).
  { replace (B2R num - A0) with ((B2R num - (B2R (fmul x p) - B2R q1)) + (B2R (fmul x p) - X * B2R p) + ((X * B2R p - B2R q1) - A0)) by ring.
    eapply Rle_trans; [apply Rabs_triang|]. eapply Rle_trans; [apply Rplus_le_compat_r, Rabs_triang|].
    rewrite EN in Ea. lra. }
  assert (LA : INR n * A0 = - ((1 - X * X) * dP n X)) by (unfold A0; rewrite leg_A; ring).
  assert (SGD : Rabs (dP n X) = sg * dP n X).
  { destruct B as (_ & SG & _). assert (E : Rabs sg = 1).
    { clear - SG. unfold Rabs. destruct (Rcase_abs sg); nra. }
    rewrite <- (Rabs_pos_eq (sg * dP n X)) by lra. rewrite Rabs_mult, E. ring. }
  assert (NA : INR n * Rabs A0 = (1 - X * X) * (sg * dP n X)).
  { rewrite <- (Rabs_pos_eq (INR n)) by apply pos_INR. rewrite <- Rabs_mult, LA, Rabs_Ropp, Rabs_mult, SGD.
    rewrite (Rabs_pos_eq (1 - X * X)); [ring|lra]. }
  assert (A1 : 0.61 * (s * sq) <= N * Rabs A0).
  { apply Rle_trans with (INR n * Rabs A0); [|apply Rmult_le_compat_r; [apply Rabs_pos|lra]]. rewrite NA.
    apply Rle_trans with ((s * s) * (0.99 * m)).
    - replace (s * s * (0.99 * m)) with (s * (0.99 * (m * s))) by ring. replace (0.61 * (s * sq)) with (s * (0.61 * sq)) by ring.
      apply Rmult_le_compat_l; lra.
    - apply Rmult_le_compat; lra. }
  assert (A0p : 0 < Rabs A0).
  { assert (0 < s * sq) by (apply Rmult_lt_0_compat; lra). assert (G : 0 < N * Rabs A0) by lra.
    apply Rmult_lt_reg_l with N; [lra|]. rewrite Rmult_0_r. exact G. }
  assert (A0n : A0 <> 0) by (intro E; rewrite E, Rabs_R0 in A0p; lra).
  assert (Rnum : rel num A0 (8 * U)).
  { apply rel_abs; auto. eapply Rle_trans; [exact Enum2|].
    replace (8 * U * Rabs A0) with ((8 * u * N) * (sq * (N * Rabs A0))) by (unfold U; ring).
    rewrite <- (Rmult_1_r (8 * u * N)) at 1. apply Rmult_le_compat_l; [apply Rmult_le_pos; lra|].
    apply Rle_trans with (sq * (0.61 * (s * sq))); [|apply Rmult_le_compat_l; lra].
    replace (sq * (0.61 * (s * sq))) with (0.61 * (sq * sq * s)) by ring. rewrite ES. lra. }
  (* the denominator *)
  destruct (mul_abs x x 1 Fx Fx) as (Fxx & Exx).
  { rewrite Rabs_mult. fold X. rewrite <- (Rmult_1_l 1). apply Rmult_le_compat; auto using Rabs_pos. }
  { apply big900. lra. }
  fold X in Exx.
  assert (XX : 0 <= X * X <= 1) by (split; [exact (Rle_0_sqr X)|lra]).
  destruct (sub_abs (fmul x x) (f_of 1 0) (Rabs (B2R (fmul x x) - B2R (f_of 1 0))) Fxx F1 ltac:(lra)) as (Fden & Eden).
  { apply big900. rewrite E1. eapply Rle_trans; [apply Rabs_triang|]. rewrite Rabs_Ropp, Rabs_R1.
    replace (B2R (fmul x x)) with ((B2R (fmul x x) - X * X) + X * X) by ring.
    pose proof (Rabs_triang (B2R (fmul x x) - X * X) (X * X)) as K. rewrite (Rabs_pos_eq (X * X)) in K by lra. lra. }
  set (den := fsub (fmul x x) (f_of 1 0)) in *. rewrite E1 in Eden.
  assert (DN : Rabs (X * X - 1) = 1 - X * X) by (rewrite Rabs_left1; lra).
  assert (X3 : 2.85 <= N * N * (1 - X * X)).
  { eapply Rle_trans; [exact N2s|]. apply Rmult_le_compat_l; [lra|lra]. }
  assert (Rden : rel den (X * X - 1) (0.5 * U)).
  { apply rel_abs; auto; [lra|]. rewrite DN.
    set (w := B2R (fmul x x) - 1) in *.
    assert (W : Rabs (w - (X * X - 1)) <= 1.01 * u).
    { unfold w. replace (B2R (fmul x x) - 1 - (X * X - 1)) with (B2R (fmul x x) - X * X) by ring. lra. }
    assert (W2 : Rabs w <= (1 - X * X) + 1.01 * u).
    { replace w with ((w - (X * X - 1)) + (X * X - 1)) by ring. eapply Rle_trans; [apply Rabs_triang|]. lra. }
    replace (B2R den - (X * X - 1)) with ((B2R den - w) + (w - (X * X - 1))) by ring.
    eapply Rle_trans; [apply Rabs_triang|].
    apply Rle_trans with (u * ((1 - X * X) + 1.01 * u) + 1.01 * u).
    { apply Rplus_le_compat; auto. eapply Rle_trans; [exact Eden|]. apply Rmult_le_compat_l; lra. }
    apply Rle_trans with (u * (1 - X * X) + 1.011 * u).
    { assert (u * u <= 0.000001 * u) by (apply Rmult_le_compat_r; lra). rewrite Rmult_plus_distr_l.
      replace (u * (1.01 * u)) with (1.01 * (u * u)) by ring. lra. }
    assert (1.011 * u <= 0.36 * (u * (N * N)) * (1 - X * X)).
    { replace (0.36 * (u * (N * N)) * (1 - X * X)) with (u * (0.36 * (N * N * (1 - X * X)))) by ring.
      rewrite (Rmult_comm 1.011). apply Rmult_le_compat_l; lra. }
    assert (u * (1 - X * X) <= 0.18 * U * (1 - X * X)) by (apply Rmult_le_compat_r; lra).
    assert (0.36 * (u * (N * N)) * (1 - X * X) <= 0.26 * U * (1 - X * X)) by (apply Rmult_le_compat_r; lra). lra. }
  assert (n1 : 1 <= INR n) by lra.
  assert (QB : 1 <= Rabs (INR n / (X * X - 1)) <= 420000000000000).
  { unfold Rdiv. rewrite Rabs_mult, Rabs_inv, DN, (Rabs_pos_eq (INR n)) by lra.
    assert (I0 : 0 < / (1 - X * X)) by (apply Rinv_0_lt_compat; lra).
    assert (I1 : 1 <= / (1 - X * X)) by (rewrite <- Rinv_1 at 1; apply Rinv_le_contravar; lra).
    assert (I2 : / (1 - X * X) <= N * N).
    { apply Rmult_le_reg_r with (1 - X * X); [lra|]. rewrite Rinv_l by lra. lra. }
    split; [apply Rle_trans with (1 * 1); [lra|apply Rmult_le_compat; lra]|].
    apply Rle_trans with (16384 * (16384 * 16384)); [|lra]. apply Rmult_le_compat; lra. }
  destruct (mid_tiny (INR n / (X * X - 1)) ltac:(lra)) as (TO & BG).
  pose proof (rel_fdiv _ _ _ _ 0 (0.5 * U) (nat_rel n ltac:(lia)) Rden ltac:(lra) ltac:(lra) ltac:(lra) TO BG) as Rq.
  assert (Rq' : rel (fdiv (f_of (Z.of_nat n) 0) den) (INR n / (X * X - 1)) (1.5 * U)) by (eapply rel_weak; [exact Rq|lra]).
  assert (VW : A0 * (INR n / (X * X - 1)) = dP n X) by (apply eval_dP; lra).
  assert (DB : 0.01 <= Rabs (A0 * (INR n / (X * X - 1))) <= 1000000000000000).
  { split; [rewrite VW, SGD; lra|]. rewrite Rabs_mult.
    assert (Rabs A0 <= 2.1).
    { unfold A0. eapply Rle_trans; [apply Rabs_triang|]. rewrite Rabs_Ropp, Rabs_mult.
      assert (Rabs (Pm n X) <= 1). { destruct n as [|n']; [simpl; rewrite Rabs_R0; lra|apply (Pn_bound n' X ltac:(lra))]. }
      pose proof (Pn_bound n X ltac:(lra)) as PB. 
      assert (Rabs X * Rabs (Pn n X) <= 1 * 1) by (apply Rmult_le_compat; auto using Rabs_pos). lra. }
    apply Rle_trans with (2.1 * 420000000000000); [|lra]. apply Rmult_le_compat; auto using Rabs_pos; lra. }
  destruct (mid_tiny _ DB) as (TO2 & BG2).
  pose proof (rel_fmul _ _ _ _ (8 * U) (1.5 * U) Rnum Rq' ltac:(lra) ltac:(lra) TO2 BG2) as Rd. rewrite VW in Rd.
  exists p, (fmul num (fdiv (f_of (Z.of_nat n) 0) den)), q1.
  split.
  { unfold eval_Pn. change (@legendre_loop (FS lib) x n 1 Scalar.s1 Scalar.s0 Scalar.s0) with (@legendre_loop (FS lib) x n 1 (f_of 1 0) (f_of 0 0) (f_of 0 0)).
    rewrite EQ. reflexivity. }
  split; auto. split.
  - eapply Rle_trans; [exact Ep|]. apply Rmult_le_reg_r with s; auto. unfold Rdiv. rewrite Rmult_assoc, Rinv_l, Rmult_1_r by lra.
    apply Rle_trans with (13 * u * sq * (0.62 * sq)).
    + replace (13 * u * sq * (0.62 * sq)) with (8.06 * u * (sq * sq)) by lra. rewrite ES, EN.
      assert (0 <= u * N) by (apply Rmult_le_pos; lra). lra.
    + rewrite (Rmult_assoc (13 * u * sq)). apply Rmult_le_compat_l; [apply Rmult_le_pos; lra|exact MS].
  - eapply rel_weak; [exact Rd|]. assert (U * U <= 0.000004 * U) by (apply Rmult_le_compat_r; lra).
    assert (K1 : u * (1 + 8 * U) <= u * 1.001) by (apply Rmult_le_compat_l; lra).
    assert (K2 : u * (1 + 8 * U) * (1 + 1.5 * U) <= u * 1.001 * 1.001).
    { apply Rmult_le_compat; try lra. apply Rmult_le_pos; lra. }
    replace (8 * U * (1.5 * U)) with (12 * (U * U)) by lra. lra.
Qed.

Lemma dist_small : forall x, inJ n r h x -> Rabs (x - r) <= 0.43.
Proof.
  intros x Hx. destruct B as (B1 & B2 & B3 & B4 & B5 & B6 & B7 & B8 & B9 & B10 & B11 & B12).
  pose proof (inJ_dist n r h B1 B4 x Hx) as D. pose proof (h_N n r h B1 B3 B4 B5 B10) as HN. pose proof (rho_N n B1) as RN.
  fold N in HN, RN, D. pose proof N_range as NR. assert (4 <= N * N) by (apply Rle_trans with (2 * 2); [lra|apply Rmult_le_compat; lra]).
  assert (0 < / 1000 / (N * N)) by (apply Rdiv_lt_0_compat; lra).
  set (rh := / 1000 / (N * N)) in *. clearbody rh.
  assert (rh <= 0.00025) by nra. assert (h <= 0.4175) by nra. lra.
Qed.

(** One Newton step. *)
Lemma newton_float : forall (x p d : F64), is_finite x = true -> inJ n r h (B2R x) -> is_finite p = true ->
  Rabs (B2R p - Pn n (B2R x)) <= 13 * u * sq * m -> rel d (dP n (B2R x)) (10 * U) ->
  is_finite (fsub x (fdiv p d)) = true /\
  Rabs (B2R (fsub x (fdiv p d)) - (B2R x - Pn n (B2R x) / dP n (B2R x))) <= 15 * u * sq + 13 * U * Rabs (B2R x - r).
Proof.
  intros x p d Fx Jx Fp Ep (Fd & dl & Hdl & Ed). set (X := B2R x) in *.
  destruct sq_facts as (ES & S1 & S2). destruct U_facts as ((U0 & U1) & U2 & U3 & U4).
  pose proof u_pos as u0. pose proof u_small as u1. destruct tiny_u40 as (T0 & T1). pose proof m_pos as M0.
  destruct (use_f1 n r h sg B X Jx) as (D1 & D2). fold m in D1, D2.
  destruct (use_sq n r h sg B X Jx) as (_ & X2).
  destruct (use_quot n r h sg B X Jx) as (DN & _). pose proof (use_q n r h sg B X Jx) as QB.
  pose proof (dist_small X Jx) as DS. pose proof (Rabs_pos (X - r)) as DP.
  apply abs_of in Hdl.
  assert (SGD : Rabs (dP n X) = sg * dP n X).
  { destruct B as (_ & SG & _). assert (E : Rabs sg = 1).
    { clear - SG. unfold Rabs. destruct (Rcase_abs sg); nra. }
    rewrite <- (Rabs_pos_eq (sg * dP n X)) by lra. rewrite Rabs_mult, E. ring. }
  set (q := Pn n X / dP n X) in *. set (e := B2R p - Pn n X) in *.
  assert (E1 : B2R p / B2R d = (q + e / dP n X) / (1 + dl)).
  { rewrite Ed. unfold q, e. field. split; auto. lra. }
  set (g := e / dP n X) in *.
  assert (G : Rabs g <= 13.14 * u * sq).
  { unfold g, Rdiv. rewrite Rabs_mult, Rabs_inv, SGD. apply Rmult_le_reg_r with (sg * dP n X); [lra|].
    rewrite Rmult_assoc, Rinv_l, Rmult_1_r by lra. eapply Rle_trans; [exact Ep|].
    assert (0 < u * sq) by (apply Rmult_lt_0_compat; lra).
    apply Rle_trans with (13.14 * u * sq * (0.99 * m)).
    - replace (13 * u * sq * m) with (13 * ((u * sq) * m)) by ring. replace (13.14 * u * sq * (0.99 * m)) with (13.0086 * ((u * sq) * m)) by lra.
      assert (0 < u * sq * m) by (apply Rmult_lt_0_compat; lra). lra.
    - apply Rmult_le_compat_l; lra. }
  assert (US : 0 < u * sq) by (apply Rmult_lt_0_compat; lra).
  assert (US1 : u <= 0.7073 * (u * sq)) by (replace (0.7073 * (u * sq)) with (u * (0.7073 * sq)) by ring; rewrite <- (Rmult_1_r u) at 1; apply Rmult_le_compat_l; lra).
  set (k := / (1 + dl)).
  assert (K : 0.9999 <= k <= 1.0001).
  { unfold k. split; [apply Rmult_le_reg_r with (1 + dl); [lra|]; rewrite Rinv_l by lra; lra|].
    apply Rmult_le_reg_r with (1 + dl); [lra|]; rewrite Rinv_l by lra; lra. }
  assert (KD : (q + g) / (1 + dl) - q = k * g - k * dl * q) by (unfold k; field; lra).
  assert (E2 : Rabs (B2R p / B2R d - q) <= 13.15 * (u * sq) + 12.5 * U * Rabs (X - r)).
  { rewrite E1, KD. eapply Rle_trans; [apply Rabs_triang|]. rewrite Rabs_Ropp, !Rabs_mult, (Rabs_pos_eq k) by lra.
    assert (k * Rabs g <= 1.0001 * (13.14 * u * sq)) by (apply Rmult_le_compat; try lra; apply Rabs_pos).
    assert (k * Rabs dl <= 10.01 * U).
    { apply Rle_trans with (1.0001 * (10 * U)); [|lra]. apply Rmult_le_compat; try lra; [apply Rabs_pos|apply Rabs_le; lra]. }
    assert (k * Rabs dl * Rabs q <= 10.01 * U * (1.23 * Rabs (X - r))).
    { apply Rmult_le_compat; auto using Rabs_pos. apply Rmult_le_pos; [lra|apply Rabs_pos]. }
    assert (0 <= U * Rabs (X - r)) by (apply Rmult_le_pos; lra). lra. }
  assert (UX : U * Rabs (X - r) <= 0.000002).
  { apply Rle_trans with (0.000004 * 0.43); [|lra]. apply Rmult_le_compat; lra. }
  assert (Q2 : Rabs (B2R p / B2R d) <= 0.54).
  { replace (B2R p / B2R d) with ((B2R p / B2R d - q) + q) by ring. eapply Rle_trans; [apply Rabs_triang|].
    assert (u * sq <= 0.000001) by lra. lra. }
  destruct (div_abs p d 0.54 Fp) as (Fq & Eq); auto.
  { rewrite Ed. apply Rmult_integral_contrapositive. split; auto. lra. }
  { apply big900. lra. }
  assert (Q3 : Rabs (B2R (fdiv p d)) <= 0.55).
  { replace (B2R (fdiv p d)) with ((B2R (fdiv p d) - B2R p / B2R d) + B2R p / B2R d) by ring.
    eapply Rle_trans; [apply Rabs_triang|]. lra. }
  destruct (sub_abs x (fdiv p d) 1.6 Fx Fq) as (Fz & Ez).
  { fold X. eapply Rle_trans; [apply Rabs_triang|]. rewrite Rabs_Ropp. assert (Rabs X <= 1) by (apply Rabs_le; lra). lra. }
  { apply big900. lra. }
  split; auto. fold X in Ez.
  replace (B2R (fsub x (fdiv p d)) - (X - q)) with
    ((B2R (fsub x (fdiv p d)) - (X - B2R (fdiv p d))) - (B2R (fdiv p d) - B2R p / B2R d) - (B2R p / B2R d - q)) by ring.
  eapply Rle_trans; [apply Rabs_triang|]. rewrite Rabs_Ropp.
  eapply Rle_trans; [apply Rplus_le_compat_r, Rabs_triang|]. rewrite Rabs_Ropp.
  assert (0 <= U * Rabs (X - r)) by (apply Rmult_le_pos; lra). lra.
Qed.

(** What the iteration returns. *)
Definition settled (v : F64 * F64) : Prop :=
  is_finite (fst v) = true /\ Rabs (B2R (fst v) - r) <= 16 * u * sq /\
  rel (snd v) (dP n r) (41 * U).

Lemma eps_val : is_finite (f_of 1 (-52)) = true /\ B2R (f_of 1 (-52)) = 2 * u.
Proof.
  destruct (f_of_exact 1 (-52) eq_refl ltac:(lia)) as (F & E). split; auto. rewrite E.
  change (bpow radix2 (-52)) with (/ IZR (2 ^ 52)). change (2 ^ 52)%Z with 4503599627370496%Z. unfold u. lra.
Qed.

Lemma iterate : forall it (z : F64) v, is_finite z = true -> inJ n r h (B2R z) ->
  @gl_newton (FS lib) n it z = Some v -> settled v.
Proof.
  destruct sq_facts as (ES & S1 & S2). destruct U_facts as ((U0 & U1) & U2 & U3 & U4).
  pose proof u_pos as u0. pose proof u_small as u1. pose proof N_range as NR.
  assert (US : 0 < u * sq) by (apply Rmult_lt_0_compat; lra).
  assert (US1 : u <= 0.7073 * (u * sq)) by (replace (0.7073 * (u * sq)) with (u * (0.7073 * sq)) by ring; rewrite <- (Rmult_1_r u) at 1; apply Rmult_le_compat_l; lra).
  assert (UN : (u * sq) * (N * N) = U) by (unfold U; ring).
  assert (NN0 : 0 < N * N) by (apply Rmult_lt_0_compat; lra).
  induction it as [|it IH]; intros z v Fz Jz H; [discriminate H|].
  cbn [gl_newton] in H. destruct (eval_float z Fz Jz) as (p & d & q1 & EE & Fp & Ep & Rd).
  rewrite EE in H.
  destruct (newton_float z p d Fz Jz Fp Ep Rd) as (Fz' & Ez').
  change (@ssub (FS lib) z (@Scalar.sdiv (FS lib) p d)) with (fsub z (fdiv p d)) in H.
  set (z' := fsub z (fdiv p d)) in *. set (X := B2R z) in *.
  pose proof (Rabs_pos (X - r)) as DP.
  assert (EW : Rabs (B2R z' - (X - Pn n X / dP n X)) <= 15 * u * sq + 0.0015 * Rabs (X - r)).
  { eapply Rle_trans; [exact Ez'|]. assert (13 * U * Rabs (X - r) <= 0.0015 * Rabs (X - r)) by (apply Rmult_le_compat_r; lra). lra. }
  assert (E0 : 15 * u * sq * ((INR n + 1) * (INR n + 1)) <= / 2000).
  { fold N. replace (15 * u * sq * (N * N)) with (15 * (u * sq * (N * N))) by ring. rewrite UN. lra. }
  pose proof (use_stay n r h sg B X (B2R z') (15 * u * sq) Jz E0 EW) as Jz'.
  change (@sabs (FS lib) (@ssub (FS lib) z' z)) with (@Babs 53 1024 (fsub z' z)) in H.
  destruct (@sleb (FS lib) (Babs (fsub z' z)) seps) eqn:EL.
  2:{ apply (IH z' v Fz' Jz' H). }
  injection H as <-.
  change (Bleb (@Babs 53 1024 (fsub z' z)) (f_of 1 (-52)) = true) in EL.
  destruct (use_sq n r h sg B X Jz) as (_ & X2). destruct (use_sq n r h sg B _ Jz') as (_ & X2').
  destruct (finite_sub z' z Fz' Fz) as (Fs & Es).
  { apply big900. fold X. apply Rle_trans with 2; [apply Rabs_le; lra|lra]. }
  destruct eps_val as (Fe & Ee).
  rewrite Bleb_correct in EL by (auto; rewrite is_finite_Babs; auto).
  rewrite B2R_Babs, Es, Ee in EL. apply Rle_bool_true_iff in EL || (revert EL; case Rle_bool_spec; [intros EL _|discriminate]).
  destruct (rnd_sub_err z' z) as (dl & Hdl & ER). rewrite ER in EL. fold X in EL.
  assert (T : Rabs (B2R z' - X) <= 2.01 * u).
  { rewrite Rabs_mult in EL. apply abs_of in Hdl. rewrite (Rabs_pos_eq (1 + dl)) in EL by lra.
    pose proof (Rabs_pos (B2R z' - X)) as P.
    assert (Rabs (B2R z' - X) * 0.999 <= Rabs (B2R z' - X) * (1 + dl)) by (apply Rmult_le_compat_l; lra). lra. }
  destruct (use_final n r h sg B X (B2R z') (15 * u * sq) (2.01 * u) Jz ltac:(lra) EW T) as (FA & FB).
  specialize (FB _ Ez'). fold N in FB.
  assert (FA' : Rabs (X - r) <= 25 * (u * sq)) by lra.
  assert (SQ : N * N * (Rabs (X - r) * Rabs (X - r)) <= 625 * U * (u * sq)).
  { apply Rle_trans with (N * N * ((25 * (u * sq)) * (25 * (u * sq)))).
    - apply Rmult_le_compat_l; [lra|]. apply Rmult_le_compat; auto.
    - right. rewrite <- UN. ring. }
  assert (UU : U * (u * sq) <= 0.000004 * (u * sq)) by (apply Rmult_le_compat_r; lra).
  split; [exact Fz'|]. split.
  - cbn [fst]. eapply Rle_trans; [exact FB|].
    assert (13 * U * Rabs (X - r) <= 13 * U * (25 * (u * sq))) by (apply Rmult_le_compat_l; lra).
    replace (1.23 * (N * N) * (Rabs (X - r) * Rabs (X - r))) with (1.23 * (N * N * (Rabs (X - r) * Rabs (X - r)))) by ring. lra.
  - cbn [snd]. destruct Rd as (Fd & de & Hde & Ed). apply abs_of in Hde. fold X in Ed.
    pose proof (use_f1 n r h sg B X Jz) as (D1 & D2). fold m in D1, D2.
    assert (Jr : inJ n r h r).
    { destruct B as (B1 & B2 & B3 & B4 & B5 & B6 & B7 & B8 & B9 & B10 & B11 & B12). apply inJ_r; auto. }
    pose proof (use_lip n r h sg B X r Jz Jr) as LP. fold m N in LP. pose proof m_pos as M0.
    assert (SG : sg * sg = 1) by apply B. assert (SN : sg <> 0) by (intro E; rewrite E in SG; lra).
    set (c := (sg * dP n X - m) / m).
    assert (C : Rabs c <= 30.3 * U).
    { unfold c, Rdiv. rewrite Rabs_mult, Rabs_inv, (Rabs_pos_eq m) by lra. apply Rmult_le_reg_r with m; auto.
      rewrite Rmult_assoc, Rinv_l, Rmult_1_r by lra. eapply Rle_trans; [exact LP|].
      apply Rle_trans with (1.21 * m * (N * N) * (25 * (u * sq))).
      - apply Rmult_le_compat_l; auto. apply Rmult_le_pos; lra.
      - replace (1.21 * m * (N * N) * (25 * (u * sq))) with (1.21 * 25 * U * m) by (rewrite <- UN; ring).
        apply Rmult_le_compat_r; lra. }
    apply abs_of in C.
    assert (EX : dP n X = dP n r * (1 + c)).
    { apply Rmult_eq_reg_l with sg; auto. rewrite <- Rmult_assoc. fold m. unfold c. field. lra. }
    split; auto. exists (c + de + c * de). split; [|rewrite Ed, EX; ring].
    assert (Rabs (c * de) <= 0.01 * U).
    { rewrite Rabs_mult. apply Rle_trans with ((30.3 * U) * (10 * U)).
      - apply Rmult_le_compat; try apply Rabs_pos; apply Rabs_le; lra.
      - assert (U * U <= 0.000004 * U) by (apply Rmult_le_compat_r; lra).
        replace (30.3 * U * (10 * U)) with (303 * (U * U)) by lra. lra. }
    apply abs_of in H. apply Rabs_le. lra.
Qed.

(** The weight computed from it. *)
Lemma weight_float : forall v, settled v -> -1 < B2R (fst v) < 1 /\ rel (@gl_w (FS lib) v) (gauss_w n r) (200 * U).
Proof.
  intros (z & d) (Fz & Ez & Rd). cbn [fst snd] in *. set (X := B2R z) in *.
  destruct sq_facts as (ES & S1 & S2). destruct U_facts as ((U0 & U1) & U2 & U3 & U4).
  pose proof u_pos as u0. pose proof u_small as u1. destruct tiny_u40 as (T0 & T1). pose proof N_range as NR.
  destruct Q_facts as ((Q0 & Q1) & Q2). pose proof m_pos as M0.
  assert (US : 0 < u * sq) by (apply Rmult_lt_0_compat; lra).
  assert (US1 : u <= 0.7073 * (u * sq)) by (replace (0.7073 * (u * sq)) with (u * (0.7073 * sq)) by ring; rewrite <- (Rmult_1_r u) at 1; apply Rmult_le_compat_l; lra).
  assert (UN : (u * sq) * (N * N) = U) by (unfold U; ring).
  assert (NN0 : 0 < N * N) by (apply Rmult_lt_0_compat; lra).
  assert (r0 : 0 <= r) by apply B.
  assert (r1 : r < 1) by (destruct B as (B1 & B2 & B3 & B4 & B5 & _); lra).
  assert (UQ : u * sq <= U * Q / 3.6).
  { apply Rmult_le_reg_r with (N * N); auto. rewrite UN. replace (U * Q / 3.6 * (N * N)) with (U * (N * N * Q * / 3.6)) by (unfold Rdiv; generalize (/ 3.6); intro; ring).
    rewrite <- (Rmult_1_r U) at 1. apply Rmult_le_compat_l; lra. }
  assert (UQ2 : U * Q <= 0.000004 * Q) by (apply Rmult_le_compat_r; lra).
  apply abs_of in Ez.
  assert (Q3 : Q <= 2 * (1 - r)). { unfold Q. replace (1 - r * r) with ((1 - r) * (1 + r)) by ring. rewrite (Rmult_comm 2). apply Rmult_le_compat_l; lra. }
  assert (XB : -1 < X < 1) by lra.
  split; auto.
  assert (BX : Rabs X <= 1) by (apply Rabs_le; lra).
  assert (ZR : Rabs (X * X - r * r) <= 32.5 * (u * sq)).
  { replace (X * X - r * r) with ((X - r) * (X + r)) by ring. rewrite Rabs_mult.
    apply Rle_trans with (16 * u * sq * 2.01); [|lra]. apply Rmult_le_compat; try apply Rabs_pos; apply Rabs_le; lra. }
  destruct (f_of_small 1 ltac:(lia)) as (F1 & E1).
  destruct (mul_abs z z 1 Fz Fz) as (Fzz & Ezz).
  { rewrite Rabs_mult. fold X. apply Rle_trans with (1 * 1); [|lra]. apply Rmult_le_compat; auto using Rabs_pos. }
  { apply big900. lra. }
  fold X in Ezz.
  assert (W : Rabs (1 - B2R (fmul z z) - Q) <= 33.3 * (u * sq)).
  { unfold Q. replace (1 - B2R (fmul z z) - (1 - r * r)) with (- (B2R (fmul z z) - X * X) - (X * X - r * r)) by ring.
    eapply Rle_trans; [apply Rabs_triang|]. rewrite !Rabs_Ropp. lra. }
  assert (W' := W). apply abs_of in W'.
  destruct (sub_abs (f_of 1 0) (fmul z z) (1.001 * Q) F1 Fzz) as (Fc & Ec).
  { rewrite E1. apply Rabs_le. lra. }
  { apply big900. lra. }
  rewrite E1 in Ec. set (c := fsub (f_of 1 0) (fmul z z)) in *.
  assert (Rc : rel c Q (10 * U)).
  { apply rel_abs; auto; [lra|]. rewrite (Rabs_pos_eq Q) by lra.
    replace (B2R c - Q) with ((B2R c - (1 - B2R (fmul z z))) + (1 - B2R (fmul z z) - Q)) by ring.
    eapply Rle_trans; [apply Rabs_triang|].
    assert (u * (1.001 * Q) <= 0.18 * U * (1.001 * Q)) by (apply Rmult_le_compat_r; lra). lra. }
  pose proof (use_slope n r h sg B) as SL. fold N Q m in SL.
  assert (SG : sg * sg = 1) by apply B.
  assert (MD : m * m = dP n r * dP n r) by (unfold m; replace (sg * dP n r * (sg * dP n r)) with (sg * sg * (dP n r * dP n r)) by ring; rewrite SG; ring).
  assert (SGD : Rabs (dP n r) = m).
  { assert (E : Rabs sg = 1). { clear - SG. unfold Rabs. destruct (Rcase_abs sg); nra. }
    rewrite <- (Rabs_pos_eq m) by lra. unfold m. rewrite Rabs_mult, E. ring. }
  assert (MB : m <= 2000000000000).
  { pose proof (leg_A n r) as LA. 
    assert (Rz : Pn n r = 0) by apply B. rewrite Rz in LA.
    assert (PB : Rabs (Pm n r) <= 1). { destruct n as [|n']; [simpl; rewrite Rabs_R0; lra|apply (Pn_bound n' r ltac:(lra))]. }
    assert (K : Q * m <= N).
    { rewrite <- SGD. rewrite <- (Rabs_pos_eq Q) by lra. rewrite <- Rabs_mult. unfold Q. rewrite LA.
      rewrite Rmult_0_r, Rminus_0_r, Rabs_mult, (Rabs_pos_eq (INR n)) by apply pos_INR.
      apply Rle_trans with (INR n * 1); [apply Rmult_le_compat_l; [apply pos_INR|exact PB]|unfold N; lra]. }
    assert (K2 : N * N * (Q * m) <= 16384 * 16384 * 16384).
    { apply Rmult_le_compat; try lra. apply Rmult_le_pos; lra. apply Rmult_le_compat; lra. }
    assert (K3 : 3.6 * m <= N * N * Q * m) by (apply Rmult_le_compat_r; lra).
    rewrite Rmult_assoc in K3. lra. }
  assert (M1 : 0.87 <= m) by apply ms_facts.
  assert (QM : 0.000001 <= Q * m).
  { assert (Q * (m * m) <= Q * m * 2000000000000 ) by (rewrite Rmult_assoc; apply Rmult_le_compat_l; [lra|]; apply Rmult_le_compat_l; lra).
    destruct ms_facts as (MS & _). destruct s_facts as ((s0 & s1') & Es & Ns).
    assert (K : s * (0.62 * sq) <= s * (m * s)) by (apply Rmult_le_compat_l; lra).
    assert (K2 : s * (m * s) = Q * m * / 1.25).
    { replace (s * (m * s)) with (s * s * m) by ring. rewrite Es. unfold Rdiv. generalize (/ 1.25). intro. ring. }
    assert (K3 : 0.0001 <= s).
    { apply Rmult_le_reg_l with N; [lra|]. assert (N * 0.0001 <= 16384 * 0.0001) by (apply Rmult_le_compat_r; lra). lra. }
    assert (K4 : 0.0001 * 0.87 <= s * (0.62 * sq)) by (apply Rmult_le_compat; lra). lra. }
  assert (QMD : 0.000001 <= Rabs (Q * dP n r) <= 2000000000000).
  { rewrite Rabs_mult, SGD, (Rabs_pos_eq Q) by lra. split; [lra|]. apply Rle_trans with (1 * m); [apply Rmult_le_compat_r; lra|lra]. }
  assert (TT : forall v, 0.000001 <= Rabs v <= 4000000000000000000000000 -> tiny_ok v /\ Rabs v <= 2 ^ 899).
  { intros v Hv. split.
    - apply tiny_ok_1. eapply Rle_trans; [|apply Hv]. rewrite <- (Rmult_1_l (/ 2 ^ 60)). lra.
    - eapply Rle_trans; [apply Hv|]. apply Rle_trans with (2 ^ 90); [lra|]. apply Rle_pow; [lra|lia]. }
  destruct (TT (Q * dP n r) ltac:(lra)) as (TO1 & BG1).
  pose proof (rel_fmul _ _ _ _ (10 * U) (41 * U) Rc Rd ltac:(lra) ltac:(lra) TO1 BG1) as R1.
  assert (UU : U * U <= 0.000004 * U) by (apply Rmult_le_compat_r; lra).
  assert (RR : forall a b, 0 <= a <= 60 -> 0 <= b <= 60 -> u * (1 + a * U) * (1 + b * U) <= 0.2 * U).
  { intros a b Ha Hb. assert (a * U <= 60 * U) by (apply Rmult_le_compat_r; lra). assert (b * U <= 60 * U) by (apply Rmult_le_compat_r; lra).
    assert (0 <= a * U) by (apply Rmult_le_pos; lra). assert (0 <= b * U) by (apply Rmult_le_pos; lra).
    apply Rle_trans with (0.18 * U * 1.001 * 1.001); [|lra]. repeat apply Rmult_le_compat; try lra. apply Rmult_le_pos; lra. }
  assert (R1' : rel (fmul c d) (Q * dP n r) (52 * U)).
  { eapply rel_weak; [exact R1|]. pose proof (RR 10 41 ltac:(lra) ltac:(lra)). replace (10 * U * (41 * U)) with (410 * (U * U)) by ring. lra. }
  assert (QD2 : 0.000001 <= Rabs (Q * dP n r * dP n r) <= 4000000000000000000000000).
  { rewrite Rabs_mult, SGD. split.
    - rewrite Rabs_mult, SGD, (Rabs_pos_eq Q) by lra. rewrite Rmult_assoc. lra.
    - apply Rle_trans with (2000000000000 * 2000000000000); [|lra]. apply Rmult_le_compat; try lra. }
  destruct (TT _ QD2) as (TO2 & BG2).
  pose proof (rel_fmul _ _ _ _ (52 * U) (41 * U) R1' Rd ltac:(lra) ltac:(lra) TO2 BG2) as R2.
  assert (R2' : rel (fmul (fmul c d) d) (Q * dP n r * dP n r) (94 * U)).
  { eapply rel_weak; [exact R2|]. pose proof (RR 52 41 ltac:(lra) ltac:(lra)). replace (52 * U * (41 * U)) with (2132 * (U * U)) by ring. lra. }
  assert (QN : Q * dP n r * dP n r <> 0) by (intro E; rewrite E, Rabs_R0 in QD2; lra).
  assert (GW : 0.0000000000000000000000001 <= Rabs (2 / (Q * dP n r * dP n r)) <= 2).
  { unfold Rdiv. rewrite Rabs_mult, Rabs_inv, (Rabs_pos_eq 2) by lra. set (y := Rabs (Q * dP n r * dP n r)) in *.
    assert (Y1 : 1 <= y).
    { unfold y. rewrite Rmult_assoc, <- MD. rewrite Rabs_pos_eq; [lra|]. apply Rmult_le_pos; [lra|apply Rmult_le_pos; lra]. }
    assert (/ y <= 1) by (rewrite <- Rinv_1; apply Rinv_le_contravar; lra).
    assert (/ 4000000000000000000000000 <= / y) by (apply Rinv_le_contravar; lra). lra. }
  assert (TO3 : tiny_ok (2 / (Q * dP n r * dP n r)) /\ Rabs (2 / (Q * dP n r * dP n r)) <= 2 ^ 899).
  { split.
    - unfold tiny_ok. eapply Rle_trans; [|apply GW]. apply Rle_trans with (bpow radix2 (-100)); [apply bpow_le; lia|].
      change (bpow radix2 (-100)) with (/ IZR (2 ^ 100)). change (2 ^ 100)%Z with 1267650600228229401496703205376%Z. lra.
    - eapply Rle_trans; [apply GW|]. apply Rle_trans with (2 ^ 1); [lra|]. apply Rle_pow; [lra|lia]. }
  destruct TO3 as (TO3 & BG3).
  pose proof (rel_fdiv _ _ _ _ 0 (94 * U) (int_rel 2 ltac:(lia)) R2' ltac:(lra) ltac:(lra) QN TO3 BG3) as R3.
  change (@gl_w (FS lib) (z, d)) with (fdiv (f_of 2 0) (fmul (fmul c d) d)). unfold gauss_w. fold Q.
  eapply rel_weak; [exact R3|]. lra.
Qed.
End Step.
