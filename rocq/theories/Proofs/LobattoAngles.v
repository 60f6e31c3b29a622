(** Location of the zeros of P_m': k PI / m <= psi_k <= (k + 1/4) PI / (m + 1/2). *)
From Coq Require Import List Bool Arith ZArith Lia Reals Lra Psatz.
From Coquelicot Require Import Coquelicot.
From Verif Require Import Spec.Sums Spec.RealRules Proofs.Tab Proofs.SumFacts Proofs.ChebReal
  Proofs.Legendre Proofs.LegendreZeros Proofs.LegendreAngles Proofs.GLNewton Proofs.GLRule Proofs.Lobatto.
Import ListNotations.
Local Open Scope R_scope.

Definition DD (n : nat) (t : R) : R := (1 - cos t * cos t) * dP n (cos t).
Definition vv (n : nat) (t : R) : R := DD n t / sqrt (sin t).
Definition vv1 (n : nat) (t : R) : R :=
  INR n * (INR n + 1) * (sqrt (sin t) * Pn n (cos t)) - cos t * DD n t / (2 * (sin t * sqrt (sin t))).
Definition qv (n : nat) (t : R) : R := (INR n + /2) * (INR n + /2) - 3 / (4 * (sin t * sin t)).

Lemma DD_derive : forall n t, is_derive (DD n) t (- sin t * (- (INR n * (INR n + 1)) * Pn n (cos t))).
Proof. intros n t. unfold DD. apply (comp_cos (fun x => (1 - x * x) * dP n x)). apply leg_ode. Qed.

Lemma vv_derive : forall n t, 0 < t < PI -> is_derive (vv n) t (vv1 n t).
Proof.
  intros n t Ht. assert (S0 : 0 < sin t) by (apply sin_gt_0; lra).
  assert (Q0 : 0 < sqrt (sin t)) by (apply sqrt_lt_R0; auto).
  unfold vv. evar_last.
  - apply (is_derive_div (DD n) (fun t => sqrt (sin t))); [apply DD_derive|apply sqrt_sin_derive; auto|lra].
  - unfold vv1. pose proof (sqrt_sqrt (sin t) ltac:(lra)) as SQ. req.
    set (r := sqrt (sin t)) in *. rewrite <- SQ. field. lra.
Qed.

Lemma vv1_derive : forall n t, 0 < t < PI -> is_derive (vv1 n) t (- qv n t * vv n t).
Proof.
  intros n t Ht. assert (S0 : 0 < sin t) by (apply sin_gt_0; lra).
  assert (Q0 : 0 < sqrt (sin t)) by (apply sqrt_lt_R0; auto).
  unfold vv1. evar_last.
  - apply (is_derive_minus (K := R_AbsRing) (V := R_NormedModule)
      (fun t => INR n * (INR n + 1) * (sqrt (sin t) * Pn n (cos t)))
      (fun t => cos t * DD n t / (2 * (sin t * sqrt (sin t))))).
    + apply is_derive_scal.
      apply (is_derive_mult (K := R_AbsRing) (fun t => sqrt (sin t)) (fun t => Pn n (cos t)));
        [apply sqrt_sin_derive; auto|apply comp_cos, Pn_derive|intros; apply Rmult_comm].
    + apply (is_derive_div (fun t => cos t * DD n t) (fun t => 2 * (sin t * sqrt (sin t)))); [| |nra].
      * apply (is_derive_mult (K := R_AbsRing) cos (DD n)); [apply is_derive_cos|apply DD_derive|intros; apply Rmult_comm].
      * apply is_derive_scal. apply (is_derive_mult (K := R_AbsRing) sin (fun t => sqrt (sin t)));
          [apply is_derive_sin|apply sqrt_sin_derive; auto|intros; apply Rmult_comm].
  - unfold minus, plus, opp, mult; simpl. req. unfold qv, vv, DD.
    pose proof (sin2_cos2 t) as SC. unfold Rsqr in SC. pose proof (sqrt_sqrt (sin t) ltac:(lra)) as SQ.
    set (r := sqrt (sin t)) in *. set (p := Pn n (cos t)). set (d := dP n (cos t)). set (N := INR n).
    rewrite <- SQ in *. set (c := cos t) in *.
    assert (C2 : c * c = 1 - r * r * (r * r)) by lra.
    replace ((1 - c * c) * d) with (r * r * (r * r) * d) by (rewrite C2; ring).
    apply Rmult_eq_reg_r with (4 * (r * r * r)); [|nra].
    field_simplify; [|lra|lra].
    replace (c ^ 2) with (1 - r * r * (r * r)) by (simpl; lra). field; lra.
Qed.

Lemma x_cos_sin : forall x, 0 <= x <= PI -> x * cos x <= sin x.
Proof.
  intros x Hx. destruct (Req_dec x 0) as [->|N]; [rewrite sin_0; lra|].
  destruct (MVT_cor2 (fun x => sin x - x * cos x) (fun x => x * sin x) 0 x) as (c & E & Hc); [lra| |].
  - intros t _. apply is_derive_Reals. auto_derive; auto. ring.
  - rewrite sin_0 in E. assert (0 <= sin c) by (apply sin_ge_0; lra).
    assert (0 <= c * sin c * (x - 0)) by (apply Rmult_le_pos; [apply Rmult_le_pos|]; lra). lra.
Qed.

Lemma PI_fine : 3.14 < PI < 3.15.
Proof.
  destruct (PI_2_3_7_ineq 2) as (A & B). unfold PI_2_3_7_tg, tg_alt, Ratan_seq in *. simpl in A, B. lra.
Qed.

(** The numerical inequality behind psi_k >= k PI / m; [mm], [kk] stand for m and k. *)
Lemma psi_numbers : forall mm kk N a, 1 <= kk -> 2 * kk + 1 <= mm -> (kk = 1 \/ 2 <= kk) -> (kk = 1 \/ 4 * kk - 1 <= mm \/ mm <= 4 * kk - 2) ->
  N = mm + / 2 -> a = (kk - / 4) * (PI / N) ->
  PI / (16 * N * (sin a * sin a)) + cos a / sin a / 2 <= PI * (mm - 2 * kk) * N / (4 * mm).
Proof.
  intros mm kk N a K1 K2 K3 K4 EN Ea. pose proof PI_fine as PI0.
  assert (N0 : 3.5 <= N) by lra. set (d := mm - 2 * kk). assert (D1 : 1 <= d) by (unfold d; lra).
  assert (G0 : 0 < PI / N) by (apply Rdiv_lt_0_compat; lra).
  assert (EG : PI / N * N = PI) by (field; lra). set (g := PI / N) in *.
  assert (a0 : 0 < a) by (rewrite Ea; apply Rmult_lt_0_compat; lra).
  assert (ah : PI / 2 - a = (d + 1) / 2 * g) by (rewrite Ea, <- EG; unfold d; rewrite EN; field).
  assert (a2 : a < PI / 2) by nra.
  assert (Sa : 0 < sin a) by (apply sin_gt_0; lra). assert (Ca : 0 < cos a) by (apply cos_gt_0; lra).
  assert (LH : PI * d / 4 <= PI * d * N / (4 * mm)).
  { apply Rmult_le_reg_r with (4 * mm); [lra|]. replace (PI * d * N / (4 * mm) * (4 * mm)) with (PI * d * N) by (field; lra).
    replace (PI * d / 4 * (4 * mm)) with (PI * d * mm) by field. apply Rmult_le_compat_l; [|lra].
    apply Rmult_le_pos; lra. }
  destruct (Rle_lt_dec (PI / 4) a) as [Q|Q].
  - assert (S4 : / 2 <= sin a * sin a).
    { assert (sin (PI / 4) <= sin a) by (apply sin_incr_1; lra). rewrite sin_PI4 in H.
      assert (0 < 1 / sqrt 2) by (apply Rdiv_lt_0_compat; [lra|apply sqrt_lt_R0; lra]).
      assert (1 / sqrt 2 * (1 / sqrt 2) = / 2).
      { pose proof (sqrt_sqrt 2 ltac:(lra)) as E. assert (sqrt 2 <> 0) by (intro E0; rewrite E0 in E; lra).
        rewrite <- E at 3. field. auto. }
      nra. }
    assert (S7 : 0.7 <= sin a) by nra.
    assert (Cb : cos a <= (d + 1) / 2 * g).
    { rewrite <- ah. rewrite <- (sin_shift a). apply Rlt_le. apply sin_lt_x. lra. }
    assert (A1 : PI / (16 * N * (sin a * sin a)) <= PI / (8 * N)).
    { apply Rmult_le_compat_l; [lra|]. apply Rinv_le_contravar; [lra|]. nra. }
    assert (A2 : PI / (8 * N) = g / 8) by (unfold g; field; lra).
    assert (A3 : cos a / sin a <= (d + 1) / 2 * g / (7 / 10)).
    { apply Rmult_le_compat; [lra|left; apply Rinv_0_lt_compat; lra|auto|apply Rinv_le_contravar; lra]. }
    assert (g <= 0.9).
    { apply Rmult_le_reg_r with N; [lra|]. rewrite EG. lra. }
    eapply Rle_trans; [|exact LH]. fold d. nra.
  - assert (SL : (4 / 5) * (a * a) <= sin a * sin a).
    { pose proof (sin_lower a ltac:(lra)) as L. assert (a * a <= 0.6202) by nra.
      assert (0.8966 * a <= sin a) by nra. nra. }
    set (b := kk - / 4) in *.
    assert (B0 : 3 / 4 <= b) by (unfold b; lra).
    assert (A1 : PI / (16 * N * (sin a * sin a)) <= PI / (16 * N * ((4 / 5) * (a * a)))).
    { apply Rmult_le_compat_l; [lra|]. apply Rinv_le_contravar; [|].
      - apply Rmult_lt_0_compat; [lra|nra].
      - apply Rmult_le_compat_l; [lra|auto]. }
    assert (A2 : PI / (16 * N * ((4 / 5) * (a * a))) = N / ((64 / 5) * PI * (b * b))).
    { rewrite Ea. unfold g. field. repeat split; lra. }
    assert (A3 : cos a / sin a <= / a).
    { pose proof (x_cos_sin a ltac:(lra)) as X. apply Rmult_le_reg_r with (a * sin a); [nra|].
      replace (cos a / sin a * (a * sin a)) with (a * cos a) by (field; lra).
      replace (/ a * (a * sin a)) with (sin a) by (field; lra). auto. }
    assert (A4 : / a / 2 = N / (2 * PI * b)) by (rewrite Ea; unfold g; field; repeat split; lra).
    assert (Bq : b * b > 0) by nra.
    assert (F : / (2 * b) + / ((64 / 5) * (b * b)) <= PI * PI * d / (4 * mm)).
    { assert (P2 : 9.85 <= PI * PI) by nra.
      assert (E1 : 2.46 * (d / mm) <= PI * PI * d / (4 * mm)).
      { replace (PI * PI * d / (4 * mm)) with (PI * PI / 4 * (d / mm)) by (field; lra).
        apply Rmult_le_compat_r; [|lra]. apply Rlt_le, Rdiv_lt_0_compat; lra. }
      eapply Rle_trans; [|exact E1].
      destruct K3 as [->|K3].
      - replace b with (3 / 4) by (unfold b; lra).
        assert (/ 3 <= d / mm).
        { apply Rmult_le_reg_r with mm; [lra|]. replace (d / mm * mm) with d by (field; lra). unfold d in *. lra. }
        lra.
      - assert (m4 : 4 * kk - 1 <= mm).
        { destruct K4 as [K4|[K4|K4]]; [lra|auto|]. exfalso.
          (* a < PI/4 forces b < N/4 *)
          assert (b * g < N * g / 4) by (rewrite Rmult_comm in EG; rewrite EG; rewrite <- Ea; lra).
          assert (b < N / 4) by (apply Rmult_lt_reg_r with g; [auto|lra]).
          unfold b in *. lra. }
        assert (3 / 7 <= d / mm).
        { apply Rmult_le_reg_r with mm; [lra|]. replace (d / mm * mm) with d by (field; lra). unfold d in *. lra. }
        assert (/ (2 * b) <= / (2 * (7 / 4))) by (apply Rinv_le_contravar; unfold b; lra).
        assert (b1 : (7 / 4) * (7 / 4) <= b * b) by (unfold b; nra).
        assert (/ ((64 / 5) * (b * b)) <= / ((64 / 5) * (7 / 4 * (7 / 4)))) by (apply Rinv_le_contravar; lra).
        lra. }
    fold d.
    assert (F2 : N / ((64 / 5) * PI * (b * b)) + N / (2 * PI * b) <= PI * d * N / (4 * mm)).
    { replace (N / ((64 / 5) * PI * (b * b)) + N / (2 * PI * b)) with (N / PI * (/ (2 * b) + / ((64 / 5) * (b * b)))) by (field; repeat split; lra).
      replace (PI * d * N / (4 * mm)) with (N / PI * (PI * PI * d / (4 * mm))) by (field; repeat split; lra).
      apply Rmult_le_compat_l; auto. apply Rlt_le, Rdiv_lt_0_compat; lra. }
    lra.
Qed.

Lemma cos_diff : forall c h, cos (c - h) - cos (c + h) = 2 * (sin c * sin h).
Proof. intros c h. rewrite cos_minus, cos_plus. ring. Qed.

Section Psi.
Variables (m : nat) (z y : nat -> R).
Hypothesis Hm : (1 <= m)%nat.
Hypothesis Hz : zeros m z.
Hypothesis Hy : lnodes m y.
Hypothesis Hi : forall i, (0 < i < m)%nat -> z (i - 1)%nat < y i < z i.

Definition psi (k : nat) : R := acos (y (m - k)%nat).
Let N := NN m.

Lemma cos_psi : forall k, (0 < k < m)%nat -> cos (psi k) = y (m - k)%nat.
Proof. intros k Hk. apply cos_acos. pose proof (lnodes_range m y (m - k) Hy ltac:(lia)). lra. Qed.
Lemma psi_range : forall k, (0 < k < m)%nat -> 0 < psi k < PI.
Proof. intros k Hk. apply acos_bound_lt. apply (lnodes_range m y); auto. lia. Qed.
Lemma psi_incr : forall i j, (0 < i)%nat -> (i < j < m)%nat -> psi i < psi j.
Proof.
  intros i j H0 H. pose proof (psi_range i ltac:(lia)). pose proof (psi_range j ltac:(lia)).
  apply cos_decreasing_0; try lra. rewrite !cos_psi by lia. apply Hy. lia.
Qed.
Lemma psi_sym : forall k, (0 < k < m)%nat -> psi (m - k) = PI - psi k.
Proof.
  intros k Hk. unfold psi. replace (m - (m - k))%nat with k by lia.
  rewrite (lnodes_sym m y k) by (auto; lia). rewrite acos_opp. ring.
Qed.

Lemma psi_th : forall k, (0 < k < m)%nat -> th m z (k - 1) < psi k < th m z k.
Proof.
  intros k Hk. pose proof (psi_range k Hk). pose proof (th_range m z Hz (k - 1) ltac:(lia)).
  pose proof (th_range m z Hz k ltac:(lia)). destruct (Hi (m - k)%nat ltac:(lia)) as (A & B).
  split; apply cos_decreasing_0; try lra; rewrite cos_psi, cos_th by (auto; lia).
  - replace (m - 1 - (k - 1))%nat with (m - k)%nat by lia. auto.
  - replace (m - 1 - k)%nat with (m - k - 1)%nat by lia. auto.
Qed.

(** Sign of P_m' between consecutive nodes. *)
Lemma dP_between : forall k t, (0 < k)%nat -> (S k < m)%nat -> psi k < t < psi (S k) -> 0 < (-1) ^ k * dP m (cos t).
Proof.
  intros k t H0 H1 Ht. pose proof (psi_range k ltac:(lia)) as R1. pose proof (psi_range (S k) ltac:(lia)) as R2.
  pose proof (psi_th k ltac:(lia)) as (_ & T1). pose proof (psi_th (S k) ltac:(lia)) as (T2 & _).
  replace (S k - 1)%nat with k in T2 by lia.
  pose proof (dP_sign m z k Hz ltac:(lia)) as S0. rewrite <- (cos_th m z Hz k) in S0 by lia.
  assert (NZ : forall x, psi k < x < psi (S k) -> dP m (cos x) <> 0).
  { intros x Hx E.
    assert (Cx : -1 < cos x < 1).
    { rewrite <- cos_0, <- cos_PI. split; apply cos_decreasing_1; lra. }
    destruct (lnodes_all m y (cos x) Hm Hy E Cx) as (i & Hii & Ei).
    replace i with (m - (m - i))%nat in Ei by lia. rewrite <- cos_psi in Ei by lia.
    assert (Ep : psi (m - i) = x).
    { pose proof (psi_range (m - i) ltac:(lia)). apply cos_inj; lra. }
    destruct (Nat.lt_total (m - i) k) as [L|[L|L]].
    - pose proof (psi_incr (m - i) k ltac:(lia) ltac:(lia)). lra.
    - rewrite L in Ep. lra.
    - destruct (Nat.eq_dec (m - i) (S k)) as [L'|L']; [rewrite L' in Ep; lra|].
      pose proof (psi_incr (S k) (m - i) ltac:(lia) ltac:(lia)). lra. }
  destruct (Rlt_le_dec 0 ((-1) ^ k * dP m (cos t))) as [|Le]; auto. exfalso.
  assert (Lt : (-1) ^ k * dP m (cos t) < 0).
  { destruct Le as [|E]; auto. exfalso. apply (NZ t Ht). pose proof (pow_m1_sq k).
    apply Rmult_integral in E. destruct E as [E|E]; auto. rewrite E in H. lra. }
  assert (Cc : continuity (fun t => (-1) ^ k * dP m (cos t))).
  { apply (continuity_scal (fun t => dP m (cos t))). apply (continuity_comp cos (dP m)); [apply continuity_cos|apply dP_continuity]. }
  destruct (Rlt_le_dec t (th m z k)) as [Q|Q].
  - destruct (IVT (fun t => (-1) ^ k * dP m (cos t)) t (th m z k)) as (x & Hx & E); auto.
    apply (NZ x); [lra|]. apply Rmult_integral in E. destruct E as [E|E]; auto. rewrite E in S0. lra.
  - assert (Q' : th m z k < t) by (destruct Q as [|E]; auto; subst t; lra).
    destruct (IVT (fun t => - ((-1) ^ k * dP m (cos t))) (th m z k) t) as (x & Hx & E); auto; try lra.
    + apply (continuity_opp (fun t => (-1) ^ k * dP m (cos t))); auto.
    + apply (NZ x); [lra|]. assert (E' : (-1) ^ k * dP m (cos x) = 0) by lra.
      apply Rmult_integral in E'. destruct E' as [E'|E']; auto. rewrite E' in S0. lra.
Qed.

Lemma psi_gap : forall k, (0 < k)%nat -> (S k < m)%nat -> PI / N <= psi (S k) - psi k.
Proof.
  intros k H0 H1. pose proof (psi_range k ltac:(lia)) as R1. pose proof (psi_range (S k) ltac:(lia)) as R2.
  set (s := (-1) ^ k).
  assert (D0 : forall j, (0 < j < m)%nat -> DD m (psi j) = 0).
  { intros j Hj. unfold DD. rewrite cos_psi by lia. destruct Hy as (_ & _ & _ & D). rewrite D by lia. ring. }
  apply (sturm_lower (fun t => s * vv m t) (fun t => s * vv1 m t) (qv m)).
  - apply NN_pos.
  - apply psi_incr; lia.
  - intros t Ht. apply is_derive_scal, vv_derive. lra.
  - intros t Ht. evar_last; [apply is_derive_scal, vv1_derive; lra|]. req. ring.
  - unfold vv. rewrite D0 by lia. unfold Rdiv. ring.
  - unfold vv. rewrite D0 by lia. unfold Rdiv. ring.
  - intros t Ht. unfold vv, DD. pose proof (dP_between k t H0 H1 Ht) as P. fold s in P.
    assert (St : 0 < sin t) by (apply sin_gt_0; lra).
    assert (0 < sqrt (sin t)) by (apply sqrt_lt_R0; auto).
    pose proof (sin2_cos2 t) as SC. unfold Rsqr in SC.
    replace (s * ((1 - cos t * cos t) * dP m (cos t) / sqrt (sin t))) with
      ((1 - cos t * cos t) * (s * dP m (cos t)) / sqrt (sin t)) by (unfold Rdiv; ring).
    apply Rdiv_lt_0_compat; auto. apply Rmult_lt_0_compat; nra.
  - intros t Ht. unfold qv. assert (St : 0 < sin t) by (apply sin_gt_0; lra).
    assert (0 < 3 / (4 * (sin t * sin t))) by (apply Rdiv_lt_0_compat; nra). unfold N, NN. lra.
  - unfold vv1. rewrite D0 by lia. rewrite Rmult_0_r. unfold Rdiv. rewrite Rmult_0_l, Rminus_0_r.
    pose proof (psi_th (S k) ltac:(lia)) as T. replace (S k - 1)%nat with k in T by lia.
    pose proof (between_sign m z Hz k (psi (S k)) ltac:(lia) T) as P. simpl pow in P. fold s in P.
    assert (0 < sqrt (sin (psi (S k)))) by (apply sqrt_lt_R0, sin_gt_0; lra).
    pose proof (INR_pos m ltac:(lia)).
    assert (0 < INR m * (INR m + 1) * (sqrt (sin (psi (S k))) * (-1 * s * Pn m (cos (psi (S k)))))).
    { apply Rmult_lt_0_compat; [nra|]. apply Rmult_lt_0_compat; auto. }
    lra.
Qed.

Lemma psi_diff : forall d k, (0 < k)%nat -> (k + d < m)%nat -> INR d * (PI / N) <= psi (k + d) - psi k.
Proof.
  induction d as [|d IH]; intros k H0 Hk.
  - rewrite Nat.add_0_r. simpl. lra.
  - pose proof (IH k H0 ltac:(lia)) as A. pose proof (psi_gap (k + d) ltac:(lia) ltac:(lia)) as B.
    replace (S (k + d)) with (k + S d)%nat in B by lia. rewrite S_INR. lra.
Qed.

Lemma psi_upper : forall k, (0 < k)%nat -> (2 * k < m)%nat -> psi k <= (INR k + 1 / 4) * (PI / N).
Proof.
  intros k H0 Hk. pose proof (psi_diff (m - 2 * k) k H0 ltac:(lia)) as D.
  replace (k + (m - 2 * k))%nat with (m - k)%nat in D by lia. rewrite psi_sym in D by lia.
  rewrite minus_INR, mult_INR in D by lia. simpl (INR 2) in D.
  pose proof (NN_n m) as E. fold N in E. rewrite E in D.
  assert (N0 : 0 < N) by apply NN_pos.
  assert (PI = N * (PI / N)) by (field; lra). set (g := PI / N) in *. nra.
Qed.

Lemma psi_half : forall k, (0 < k)%nat -> (2 * k < m)%nat -> psi k < PI / 2.
Proof.
  intros k H0 Hk. pose proof (psi_incr k (m - k) H0 ltac:(lia)) as A. rewrite psi_sym in A by lia. lra.
Qed.

Lemma psi_mid : forall k, (0 < k)%nat -> (2 * k = m)%nat -> psi k = PI / 2.
Proof.
  intros k H0 Hk. pose proof (psi_sym k ltac:(lia)) as A. replace (m - k)%nat with k in A by lia. lra.
Qed.

(** Comparison on the half hump left of psi_k. *)
Lemma psi_lower_raw : forall k M, (0 < k)%nat -> (2 * k < m)%nat -> 0 < M ->
  (forall t, th m z (k - 1) <= t <= psi k -> qq m t <= M * M) ->
  th m z (k - 1) + PI / 2 / M - cos (psi k) / sin (psi k) / (2 * (M * M)) <= psi k.
Proof.
  intros k M H0 Hk M0 Q. pose proof (psi_th k ltac:(lia)) as (T1 & T2).
  pose proof (psi_range k ltac:(lia)) as R1. pose proof (psi_half k H0 Hk) as R2.
  pose proof (th_range m z Hz (k - 1) ltac:(lia)) as R3.
  set (a := th m z (k - 1)) in *. set (p := psi k) in *. pose proof PI_RGT_0 as P0.
  assert (Sp : 0 < sin p) by (apply sin_gt_0; lra). assert (Cp : 0 < cos p) by (apply cos_gt_0; lra).
  set (ct := cos p / sin p). assert (Ct : 0 < ct) by (apply Rdiv_lt_0_compat; auto).
  assert (M2 : 0 < ct / (2 * (M * M))) by (apply Rdiv_lt_0_compat; nra).
  set (f := M * (p - a)). assert (f0 : 0 < f) by (unfold f; apply Rmult_lt_0_compat; lra).
  assert (EP : p = a + f / M) by (unfold f; field; lra).
  destruct (Rle_lt_dec (PI / 2) f) as [Qf|Qf].
  { assert (PI / 2 / M <= f / M) by (apply Rmult_le_compat_r; [left; apply Rinv_0_lt_compat|]; auto). lra. }
  set (s := (-1) ^ k). set (u := fun t => s * uu m t). set (u1 := fun t => s * uu1 m t).
  assert (W : 0 <= Wr u u1 a M p).
  { destruct (MVT_cor2 (Wr u u1 a M) (fun t => (M * M - qq m t) * (u t * sin (M * (t - a)))) a p) as (x & E & Hx); [lra| |].
    { intros t Ht. apply is_derive_Reals. apply (Wr_derive u u1 (qq m) a p M); auto.
      - intros x Hx. apply is_derive_scal, uu_derive. lra.
      - intros x Hx. evar_last; [apply is_derive_scal, uu1_derive; lra|]. unfold u. req. ring. }
    rewrite Wr_a in E.
    2:{ unfold u, uu, a. rewrite cos_th by (auto; lia). rewrite (proj2 (proj2 Hz)) by lia. ring. }
    assert (0 <= (M * M - qq m x) * (u x * sin (M * (x - a))) * (p - a)); [|lra].
    apply Rmult_le_pos; [|lra]. apply Rmult_le_pos; [specialize (Q x ltac:(lra)); lra|].
    apply Rmult_le_pos.
    - unfold u, uu. assert (0 < sqrt (sin x)) by (apply sqrt_lt_R0, sin_gt_0; lra).
      pose proof (between_sign m z Hz (k - 1) x ltac:(lia)) as B. replace (S (k - 1)) with k in B by lia.
      specialize (B ltac:(fold a; lra)). fold s in B. nra.
    - apply sin_ge_0; [apply Rmult_le_pos; lra|]. assert (M * (x - a) <= M * (p - a)) by (apply Rmult_le_compat_l; lra).
      fold f in H. lra. }
  pose proof (between_sign m z Hz (k - 1) p ltac:(lia)) as B. replace (S (k - 1)) with k in B by lia.
  specialize (B ltac:(fold a; lra)). fold s in B.
  assert (Dp : dP m (cos p) = 0).
  { unfold p. rewrite cos_psi by lia. destruct Hy as (_ & _ & _ & D). apply D. lia. }
  assert (W' : M * cos f <= ct / 2 * sin f).
  { unfold Wr, u, u1, uu, uu1 in W. fold f in W. rewrite Dp in W.
    pose proof (sqrt_sqrt (sin p) ltac:(lra)) as SQ. assert (Sq : 0 < sqrt (sin p)) by (apply sqrt_lt_R0; auto).
    set (r := sqrt (sin p)) in *. unfold ct. rewrite <- SQ. set (P := Pn m (cos p)) in *.
    assert (E : s * (cos p / (2 * r) * P - (1 - cos p * cos p) * 0 / r) * sin f - s * (r * P) * (M * cos f) =
      (s * P) * r * (cos p / (r * r) / 2 * sin f - M * cos f)) by (field; lra).
    rewrite E in W. 
    apply Rnot_lt_le. intro Lt. assert (0 < (s * P) * r) by (apply Rmult_lt_0_compat; auto). nra. }
  set (rho := PI / 2 - f).
  assert (Hr : 0 < rho < PI / 2) by (unfold rho; lra).
  assert (Cf : cos f = sin rho) by (unfold rho; rewrite sin_shift; auto).
  assert (Sf : sin f = cos rho) by (unfold rho; rewrite cos_shift; auto).
  rewrite Cf, Sf in W'. pose proof (x_cos_sin rho ltac:(lra)) as X. assert (Cr : 0 < cos rho) by (apply cos_gt_0; lra).
  assert (Rm : M * rho <= ct / 2).
  { apply Rmult_le_reg_r with (cos rho); auto. nra. }
  assert (f / M = PI / 2 / M - rho / M) by (unfold rho; field; lra).
  assert (rho / M <= ct / (2 * (M * M))).
  { apply Rmult_le_reg_r with (M * M); [nra|]. replace (rho / M * (M * M)) with (M * rho) by (field; lra).
    replace (ct / (2 * (M * M)) * (M * M)) with (ct / 2) by (field; lra). auto. }
  lra.
Qed.

Definition gam (k : nat) : R := INR k * PI / INR m.

Lemma psi_lower : forall k, (0 < k)%nat -> (2 * k < m)%nat -> gam k <= psi k.
Proof.
  intros k H0 Hk. pose proof (psi_th k ltac:(lia)) as (T1 & T2).
  pose proof (psi_half k H0 Hk) as R2. pose proof (th_lower m z Hz (k - 1) ltac:(lia)) as T3.
  pose proof (phi_pos m (k - 1)) as T4. pose proof PI_RGT_0 as P0.
  assert (N0 : 0 < N) by apply NN_pos.
  set (a := phi m (k - 1)) in *.
  assert (Ea : a = (INR k - / 4) * (PI / N)).
  { unfold a, phi. rewrite minus_INR by lia. simpl (INR 1). fold N. unfold Rdiv. lra. }
  assert (Sa : 0 < sin a) by (apply sin_gt_0; lra).
  set (s2 := sin a * sin a) in *. assert (S2 : 0 < s2) by (unfold s2; nra).
  set (M := N + / (8 * N * s2)).
  assert (I0 : 0 < / (8 * N * s2)) by (apply Rinv_0_lt_compat, Rmult_lt_0_compat; nra).
  assert (M0 : 0 < M) by (unfold M; lra).
  pose proof (psi_lower_raw k M H0 Hk M0) as L.
  assert (Q : forall t, th m z (k - 1) <= t <= psi k -> qq m t <= M * M).
  { intros t Ht. unfold qq. fold (NN m). fold N.
    assert (St : sin a <= sin t) by (apply sin_incr_1; lra).
    assert (/ (4 * (sin t * sin t)) <= / (4 * s2)) by (unfold s2; apply Rinv_le_contravar; nra).
    assert (M * M = N * N + / (4 * s2) + / (8 * N * s2) * / (8 * N * s2)) by (unfold M; field; lra).
    assert (0 < / (8 * N * s2) * / (8 * N * s2)) by (apply Rmult_lt_0_compat; auto). lra. }
  specialize (L Q).
  assert (PM : PI / 2 / N - PI / (16 * N * s2) / (N * N) <= PI / 2 / M).
  { set (x := / (8 * (N * N) * s2)). assert (X0 : 0 < x) by (apply Rinv_0_lt_compat, Rmult_lt_0_compat; nra).
    assert (EM : M = N * (1 + x)) by (unfold M, x; field; lra).
    replace (PI / (16 * N * s2) / (N * N)) with (PI / 2 / N * x) by (unfold x; field; lra).
    replace (PI / 2 / M) with (PI / 2 / N * / (1 + x)) by (rewrite EM; field; lra).
    assert (0 < PI / 2 / N) by (apply Rdiv_lt_0_compat; lra).
    assert (1 - x <= / (1 + x)).
    { apply Rmult_le_reg_r with (1 + x); [lra|]. rewrite Rinv_l by lra. nra. }
    nra. }
  assert (CM : cos (psi k) / sin (psi k) / (2 * (M * M)) <= cos a / sin a / 2 / (N * N)).
  { assert (Sp : sin a <= sin (psi k)) by (apply sin_incr_1; lra).
    assert (Cp : cos (psi k) <= cos a) by (apply cos_decr_1; lra).
    assert (0 < cos (psi k)) by (apply cos_gt_0; lra).
    replace (cos a / sin a / 2 / (N * N)) with (cos a / sin a * / (2 * (N * N))) by (field; lra).
    apply Rmult_le_compat.
    - apply Rlt_le, Rdiv_lt_0_compat; lra.
    - apply Rlt_le, Rinv_0_lt_compat. nra.
    - apply Rmult_le_compat; try lra; [apply Rlt_le, Rinv_0_lt_compat; lra|apply Rinv_le_contravar; lra].
    - assert (N <= M) by (unfold M; lra). apply Rinv_le_contravar; nra. }
  assert (mk : 2 * INR k + 1 <= INR m).
  { replace (2 * INR k + 1) with (INR (2 * k + 1)) by (rewrite plus_INR, mult_INR; simpl; ring). apply le_INR. lia. }
  assert (k1 : 1 <= INR k) by (change 1 with (INR 1); apply le_INR; lia).
  pose proof (psi_numbers (INR m) (INR k) N a k1 mk) as PN.
  assert (F : PI / (16 * N * s2) + cos a / sin a / 2 <= PI * (INR m - 2 * INR k) * N / (4 * INR m)).
  { apply PN; auto.
    - destruct (Nat.eq_dec k 1) as [->|]; [left; reflexivity|right]. change 2 with (INR 2). apply le_INR. lia.
    - destruct (Nat.le_gt_cases (4 * k) (m + 1)) as [G|G].
      + right; left. assert (INR (4 * k) <= INR (m + 1)) by (apply le_INR; lia).
        rewrite plus_INR, mult_INR in H. simpl in H. lra.
      + right; right. assert (INR (m + 1) + 1 <= INR (4 * k)).
        { rewrite <- S_INR. apply le_INR. lia. }
        rewrite plus_INR, mult_INR in H. simpl in H. lra. }
  assert (EQ : a + PI / 2 / N - gam k = PI * (INR m - 2 * INR k) * N / (4 * INR m) / (N * N)).
  { rewrite Ea. unfold gam. pose proof (NN_n m) as E. fold N in E.
    assert (INR m <> 0) by lra. rewrite E in *. field. lra. }
  assert (FD : PI / (16 * N * s2) / (N * N) + cos a / sin a / 2 / (N * N) <=
     PI * (INR m - 2 * INR k) * N / (4 * INR m) / (N * N)).
  { replace (PI / (16 * N * s2) / (N * N) + cos a / sin a / 2 / (N * N)) with
      ((PI / (16 * N * s2) + cos a / sin a / 2) / (N * N)) by (unfold Rdiv; ring).
    apply Rmult_le_compat_r; auto. apply Rlt_le, Rinv_0_lt_compat. nra. }
  lra.
Qed.

Lemma gam_range : forall k, (0 < k)%nat -> (2 * k < m)%nat -> 0 < gam k < PI / 2.
Proof.
  intros k H0 Hk. pose proof (psi_lower k H0 Hk). pose proof (psi_half k H0 Hk). split; [|lra].
  unfold gam. pose proof PI_RGT_0. pose proof (INR_pos k H0). pose proof (INR_pos m ltac:(lia)).
  apply Rdiv_lt_0_compat; nra.
Qed.

(** The distance from the starting point to the node. *)
Lemma start_close : forall k, (0 < k)%nat -> (2 * k < m)%nat ->
  let d := cos (gam k) - cos (psi k) in
  0 <= d /\ INR m * (INR m + 1) * (d * d) <= 0.79 * (sin (gam k) * sin (gam k)).
Proof.
  intros k H0 Hk d. pose proof (psi_lower k H0 Hk) as A. pose proof (psi_upper k H0 Hk) as B.
  pose proof (psi_half k H0 Hk) as C. pose proof (gam_range k H0 Hk) as G. pose proof PI_fine as P0.
  assert (N0 : 0 < N) by apply NN_pos.
  set (pm := (INR k + 1 / 4) * (PI / N)) in *. set (D := pm - gam k).
  pose proof (INR_pos k H0) as K0. pose proof (INR_pos m ltac:(lia)) as M0.
  assert (mk : 2 * INR k + 1 <= INR m).
  { replace (2 * INR k + 1) with (INR (2 * k + 1)) by (rewrite plus_INR, mult_INR; simpl; ring). apply le_INR. lia. }
  assert (k1 : 1 <= INR k) by (change 1 with (INR 1); apply le_INR; lia).
  pose proof (NN_n m) as EN. fold N in EN.
  assert (ED : D = PI * (INR m - 2 * INR k) / (4 * INR m * N)).
  { unfold D, pm, gam. rewrite EN in *. field. lra. }
  assert (D0 : 0 < D) by (rewrite ED; apply Rdiv_lt_0_compat; apply Rmult_lt_0_compat; lra).
  assert (pmh : pm <= PI / 2).
  { unfold pm. apply Rmult_le_reg_r with N; auto. replace ((INR k + 1 / 4) * (PI / N) * N) with ((INR k + 1 / 4) * PI) by (field; lra).
    nra. }
  assert (ND : N * D <= 0.7875).
  { rewrite ED. replace (N * (PI * (INR m - 2 * INR k) / (4 * INR m * N))) with (PI / 4 * ((INR m - 2 * INR k) / INR m)) by (field; lra).
    assert (0 <= (INR m - 2 * INR k) / INR m <= 1).
    { split; [apply Rlt_le, Rdiv_lt_0_compat; lra|]. apply Rmult_le_reg_r with (INR m); auto.
      replace ((INR m - 2 * INR k) / INR m * INR m) with (INR m - 2 * INR k) by (field; lra). lra. }
    nra. }
  assert (DG : D <= gam k / 4).
  { rewrite ED. unfold gam. apply Rmult_le_reg_r with (4 * INR m * N); [nra|].
    replace (PI * (INR m - 2 * INR k) / (4 * INR m * N) * (4 * INR m * N)) with (PI * (INR m - 2 * INR k)) by (field; lra).
    replace (INR k * PI / INR m / 4 * (4 * INR m * N)) with (PI * (INR k * N)) by (field; lra).
    apply Rmult_le_compat_l; [lra|]. nra. }
  assert (Sg : 0 < sin (gam k)) by (apply sin_gt_0; lra). assert (Cg : 0 < cos (gam k)) by (apply cos_gt_0; lra).
  assert (dn : 0 <= d).
  { unfold d. assert (cos (psi k) <= cos (gam k)); [|lra]. apply cos_decr_1; lra. }
  split; auto.
  assert (du : d <= (9 / 8) * D * sin (gam k)).
  { assert (d <= cos (gam k) - cos pm).
    { unfold d. assert (cos pm <= cos (psi k)); [|lra]. apply cos_decr_1; lra. }
    assert (E : cos (gam k) - cos pm = 2 * (sin (gam k + D / 2) * sin (D / 2))).
    { rewrite <- cos_diff. f_equal; f_equal; unfold D; lra. }
    assert (s1 : 0 <= sin (D / 2) <= D / 2).
    { split; [apply sin_ge_0; lra|]. apply Rlt_le, sin_lt_x. lra. }
    assert (s2 : sin (gam k + D / 2) <= sin (gam k) * (9 / 8)).
    { rewrite sin_plus. pose proof (COS_bound (D / 2)) as (_ & cb). pose proof (x_cos_sin (gam k) ltac:(lra)) as X.
      assert (sin (gam k) * cos (D / 2) <= sin (gam k)) by nra.
      assert (cos (gam k) * sin (D / 2) <= cos (gam k) * (gam k / 8)) by (apply Rmult_le_compat_l; lra).
      lra. }
    assert (0 < sin (gam k + D / 2)) by (apply sin_gt_0; unfold D in *; lra).
    assert (sin (gam k + D / 2) * sin (D / 2) <= sin (gam k) * (9 / 8) * (D / 2)) by (apply Rmult_le_compat; lra).
    lra. }
  assert (LN : INR m * (INR m + 1) <= N * N) by (rewrite EN; lra).
  assert (d2 : d * d <= ((9 / 8) * D * sin (gam k)) * ((9 / 8) * D * sin (gam k))) by (apply Rmult_le_compat; auto).
  apply Rle_trans with (N * N * (((9 / 8) * D * sin (gam k)) * ((9 / 8) * D * sin (gam k)))).
  - apply Rmult_le_compat; auto; nra.
  - replace (N * N * ((9 / 8) * D * sin (gam k) * ((9 / 8) * D * sin (gam k)))) with
      (((9 / 8) * (N * D)) * ((9 / 8) * (N * D)) * (sin (gam k) * sin (gam k))) by ring.
    apply Rmult_le_compat_r; [nra|]. assert (0 < N * D) by nra. nra.
Qed.
End Psi.
