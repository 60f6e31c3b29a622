(** Angles of the zeros of P_n: Sturm comparison and bounds. *)
From Coq Require Import List Bool Arith ZArith Lia Reals Lra Psatz Machin.
From Coquelicot Require Import Coquelicot.
From Verif Require Import Proofs.ChebReal Proofs.Legendre Proofs.LegendreZeros.
Import ListNotations.
Local Open Scope R_scope.

Lemma PI_bounds : 3.1 < PI < 3.2.
Proof.
  destruct (PI_2_3_7_ineq 1) as (A & B). unfold PI_2_3_7_tg, tg_alt, Ratan_seq in *. simpl in A, B. lra.
Qed.

Lemma sin_lower : forall a, 0 <= a <= 2 -> a - a ^ 3 / 6 <= sin a.
Proof.
  intros a Ha. pose proof PI_bounds. destruct (sin_bound a 0) as (A & _); [lra|lra|].
  unfold sin_approx, sin_term in A. simpl in A. simpl. lra.
Qed.

(** Sturm comparison for u'' = - q u. *)
Section Sturm.
Variables (u u1 q : R -> R) (a b M : R).
Hypothesis M0 : 0 < M.
Hypothesis ab : a < b.
Hypothesis Du : forall t, a <= t <= b -> is_derive u t (u1 t).
Hypothesis Du1 : forall t, a <= t <= b -> is_derive u1 t (- q t * u t).
Hypothesis ua : u a = 0.
Hypothesis ub : u b = 0.
Hypothesis upos : forall t, a < t < b -> 0 < u t.

Definition Wr (t : R) : R := u1 t * sin (M * (t - a)) - u t * (M * cos (M * (t - a))).

Lemma Wr_derive : forall t, a <= t <= b -> is_derive Wr t ((M * M - q t) * (u t * sin (M * (t - a)))).
Proof.
  intros t Ht. unfold Wr. evar_last.
  - apply (is_derive_minus (K := R_AbsRing) (V := R_NormedModule)
      (fun t => u1 t * sin (M * (t - a))) (fun t => u t * (M * cos (M * (t - a))))).
    + apply (is_derive_mult (K := R_AbsRing) u1 (fun t => sin (M * (t - a)))); [apply Du1; auto| |intros; apply Rmult_comm].
      instantiate (1 := M * cos (M * (t - a))). auto_derive; auto. change (t + - a) with (t - a). ring.
    + apply (is_derive_mult (K := R_AbsRing) u (fun t => M * cos (M * (t - a)))); [apply Du; auto| |intros; apply Rmult_comm].
      instantiate (1 := - (M * (M * sin (M * (t - a))))). auto_derive; auto. change (t + - a) with (t - a). ring.
  - unfold minus, plus, opp, mult; simpl. req. ring.
Qed.

Lemma Wr_a : Wr a = 0.
Proof. unfold Wr. replace (a - a) with 0 by ring. rewrite Rmult_0_r, sin_0, ua. ring. Qed.

Lemma sturm_upper : (forall t, a < t < b -> M * M < q t) -> b - a < PI / M.
Proof.
  intro Q. apply Rnot_le_lt. intro H. pose proof PI_RGT_0 as P0. set (c := a + PI / M).
  assert (Pm : 0 < PI / M) by (apply Rdiv_lt_0_compat; auto).
  destruct (MVT_cor2 Wr (fun t => (M * M - q t) * (u t * sin (M * (t - a)))) a c) as (x & E & Hx); [unfold c; lra| |].
  { intros t Ht. apply is_derive_Reals, Wr_derive. unfold c in Ht. lra. }
  assert (Hc : Wr c = u c * M).
  { unfold Wr, c. replace (M * (a + PI / M - a)) with PI by (field; lra). rewrite sin_PI, cos_PI. ring. }
  assert (Uc : 0 <= u c).
  { destruct (Req_dec c b) as [-> |N]; [lra|]. apply Rlt_le, upos. unfold c in *. lra. }
  rewrite Wr_a, Hc in E.
  assert (Sx : 0 < sin (M * (x - a))).
  { apply sin_gt_0; [apply Rmult_lt_0_compat; lra|]. apply Rmult_lt_reg_r with (/ M); [apply Rinv_0_lt_compat; auto|].
    replace (M * (x - a) * / M) with (x - a) by (field; lra). change (PI * / M) with (PI / M). unfold c in Hx. lra. }
  assert (Ux : 0 < u x) by (apply upos; unfold c in Hx; lra).
  specialize (Q x ltac:(unfold c in Hx; lra)).
  assert (0 < (q x - M * M) * (u x * sin (M * (x - a))) * (c - a)).
  { apply Rmult_lt_0_compat; [|lra]. apply Rmult_lt_0_compat; [lra|]. apply Rmult_lt_0_compat; auto. }
  nra.
Qed.

Lemma sturm_lower : (forall t, a < t < b -> q t <= M * M) -> u1 b < 0 -> PI / M <= b - a.
Proof.
  intros Q N. apply Rnot_lt_le. intro H. pose proof PI_RGT_0 as P0.
  assert (S : forall t, a < t <= b -> 0 < sin (M * (t - a))).
  { intros t Ht. apply sin_gt_0; [apply Rmult_lt_0_compat; lra|].
    apply Rmult_lt_reg_r with (/ M); [apply Rinv_0_lt_compat; auto|].
    replace (M * (t - a) * / M) with (t - a) by (field; lra). change (PI * / M) with (PI / M). lra. }
  destruct (MVT_cor2 Wr (fun t => (M * M - q t) * (u t * sin (M * (t - a)))) a b ab) as (x & E & Hx).
  { intros t Ht. apply is_derive_Reals, Wr_derive. auto. }
  rewrite Wr_a in E. unfold Wr in E at 1. rewrite ub in E.
  pose proof (S b ltac:(lra)). pose proof (S x ltac:(lra)). pose proof (upos x Hx). specialize (Q x Hx).
  assert (0 <= (M * M - q x) * (u x * sin (M * (x - a))) * (b - a)).
  { apply Rmult_le_pos; [|lra]. apply Rmult_le_pos; [lra|]. apply Rlt_le, Rmult_lt_0_compat; auto. }
  assert (u1 b * sin (M * (b - a)) < 0) by nra. lra.
Qed.
End Sturm.

(** u(t) = sqrt(sin t) P_n(cos t). *)
Definition uu (n : nat) (t : R) : R := sqrt (sin t) * Pn n (cos t).
Definition uu1 (n : nat) (t : R) : R :=
  cos t / (2 * sqrt (sin t)) * Pn n (cos t) - (1 - cos t * cos t) * dP n (cos t) / sqrt (sin t).
Definition qq (n : nat) (t : R) : R := (INR n + /2) * (INR n + /2) + / (4 * (sin t * sin t)).

Lemma comp_cos : forall (f : R -> R) t d, is_derive f (cos t) d -> is_derive (fun t => f (cos t)) t (- sin t * d).
Proof.
  intros f t d H. evar_last.
  - apply (is_derive_comp f cos t); [exact H|apply is_derive_cos].
  - unfold scal; simpl; unfold mult; simpl. req. ring.
Qed.

Lemma sqrt_sin_derive : forall t, 0 < t < PI -> is_derive (fun t => sqrt (sin t)) t (cos t / (2 * sqrt (sin t))).
Proof.
  intros t Ht. assert (0 < sin t) by (apply sin_gt_0; lra). auto_derive; auto. field.
  apply Rgt_not_eq, sqrt_lt_R0; auto.
Qed.

Lemma uu_derive : forall n t, 0 < t < PI -> is_derive (uu n) t (uu1 n t).
Proof.
  intros n t Ht. assert (S0 : 0 < sin t) by (apply sin_gt_0; lra).
  assert (Q0 : 0 < sqrt (sin t)) by (apply sqrt_lt_R0; auto).
  unfold uu. evar_last.
  - apply (is_derive_mult (K := R_AbsRing) (fun t => sqrt (sin t)) (fun t => Pn n (cos t)));
      [apply sqrt_sin_derive; auto|apply comp_cos, Pn_derive|intros; apply Rmult_comm].
  - unfold plus, mult; simpl. req. unfold uu1.
    pose proof (sin2_cos2 t) as SC. unfold Rsqr in SC. pose proof (sqrt_sqrt (sin t) ltac:(lra)) as SQ.
    replace (1 - cos t * cos t) with (sin t * (sqrt (sin t) * sqrt (sin t))) by (rewrite SQ; lra).
    field. lra.
Qed.

Lemma uu1_derive : forall n t, 0 < t < PI -> is_derive (uu1 n) t (- qq n t * uu n t).
Proof.
  intros n t Ht. assert (S0 : 0 < sin t) by (apply sin_gt_0; lra).
  assert (Q0 : 0 < sqrt (sin t)) by (apply sqrt_lt_R0; auto).
  unfold uu1. evar_last.
  - apply (is_derive_minus (K := R_AbsRing) (V := R_NormedModule)
      (fun t => cos t / (2 * sqrt (sin t)) * Pn n (cos t)) (fun t => (1 - cos t * cos t) * dP n (cos t) / sqrt (sin t))).
    + apply (is_derive_mult (K := R_AbsRing) (fun t => cos t / (2 * sqrt (sin t))) (fun t => Pn n (cos t)));
        [|apply comp_cos, Pn_derive|intros; apply Rmult_comm].
      apply (is_derive_div cos (fun t => 2 * sqrt (sin t))); [apply is_derive_cos| |lra].
      apply is_derive_scal, sqrt_sin_derive; auto.
    + apply (is_derive_div (fun t => (1 - cos t * cos t) * dP n (cos t)) (fun t => sqrt (sin t)));
        [|apply sqrt_sin_derive; auto|lra].
      apply (comp_cos (fun x => (1 - x * x) * dP n x)). apply leg_ode.
  - unfold minus, plus, opp, mult; simpl. req. unfold qq, uu.
    pose proof (sin2_cos2 t) as SC. unfold Rsqr in SC. pose proof (sqrt_sqrt (sin t) ltac:(lra)) as SQ.
    set (r := sqrt (sin t)) in *. set (p := Pn n (cos t)). set (d := dP n (cos t)). set (N := INR n).
    rewrite <- SQ in *. set (c := cos t) in *.
    assert (C2 : c * c = 1 - r * r * (r * r)) by lra.
    replace ((1 - c * c) * d) with (r * r * (r * r) * d) by (rewrite C2; ring).
    apply Rmult_eq_reg_r with (4 * (r * r * r)); [|nra].
    field_simplify; [|lra|lra].
    replace (c ^ 2) with (1 - r * r * (r * r)) by (simpl; lra). field.
Qed.

Lemma zeros_le : forall n z z', zeros n z -> zeros n z' -> forall i, (i < n)%nat ->
  (forall j, (j < i)%nat -> z j = z' j) -> z i <= z' i.
Proof.
  intros n z z' H H' i Hi IH. destruct (zeros_all n z (z' i) H) as (j & Hj & E); [apply H'; auto|].
  rewrite <- E. destruct (Nat.lt_total j i) as [L|[->|L]]; [|lra|].
  - exfalso. rewrite IH in E by auto. pose proof (proj1 (proj2 H') j i ltac:(lia)). lra.
  - apply Rlt_le, H. lia.
Qed.

Lemma zeros_unique : forall n z z', zeros n z -> zeros n z' -> forall i, (i < n)%nat -> z i = z' i.
Proof.
  intros n z z' H H' i. induction i as [i IH] using lt_wf_ind. intro Hi. apply Rle_antisym.
  - apply (zeros_le n); auto. intros j Hj. apply IH; lia.
  - apply (zeros_le n); auto. intros j Hj. symmetry. apply IH; lia.
Qed.

Lemma zeros_sym : forall n z i, zeros n z -> (i < n)%nat -> z (n - 1 - i)%nat = - z i.
Proof.
  intros n z i H Hi. pose proof H as (Z1 & Z2 & Z3).
  assert (H' : zeros n (fun i => - z (n - 1 - i)%nat)).
  { split; [|split].
    - intros j Hj. specialize (Z1 (n - 1 - j)%nat ltac:(lia)). lra.
    - intros a b Hab. specialize (Z2 (n - 1 - b)%nat (n - 1 - a)%nat ltac:(lia)). lra.
    - intros j Hj. rewrite Pn_opp, Z3 by lia. ring. }
  pose proof (zeros_unique n z _ H H' i Hi) as E. cbv beta in E. lra.
Qed.

Lemma dP_sign : forall n z k, zeros n z -> (k < n)%nat -> 0 < (-1) ^ k * dP n (z (n - 1 - k)%nat).
Proof.
  intros n z k H Hk. destruct n as [|n]; [lia|]. destruct (interlace n) as (w & z' & Hw & Hz' & I).
  set (i := (S n - 1 - k)%nat). rewrite (zeros_unique _ z z' H Hz' i) by lia.
  pose proof (CD_pos n (z' i)) as C. rewrite (proj2 (proj2 Hz')) in C by lia.
  assert (P : 0 < (-1) ^ (n - i) * Pn n (z' i)).
  { pose proof Hz' as (Z1 & Z2 & Z3). apply (zeros_sign n i w); auto; [lia| |].
    - intros j Hj. destruct (I j ltac:(lia)) as (A & B). destruct (Nat.eq_dec i (S j)) as [-> |N]; auto.
      pose proof (Z2 (S j) i ltac:(lia)). lra.
    - intros j Hj. destruct (I j ltac:(lia)) as (A & B). destruct (Nat.eq_dec i j) as [-> |N]; auto.
      pose proof (Z2 i j ltac:(lia)). lra. }
  replace (n - i)%nat with k in P by lia.
  rewrite Rmult_0_r, Rminus_0_r in C. pose proof (pow_m1_sq k).
  set (s := (-1) ^ k) in *. set (d := dP (S n) (z' i)) in *. set (p := Pn n (z' i)) in *.
  assert (0 < (s * d) * (s * p)). { replace (s * d * (s * p)) with (s * s * (d * p)) by ring. rewrite H0. lra. }
  nra.
Qed.

Section Angles.
Variables (n : nat) (z : nat -> R).
Hypothesis Hz : zeros n z.

Definition th (k : nat) : R := acos (z (n - 1 - k)%nat).
Definition NN : R := INR n + / 2.
Definition phi (k : nat) : R := (INR k + 3 / 4) * (PI / NN).

Lemma NN_pos : 0 < NN.
Proof. unfold NN. pose proof (pos_INR n). lra. Qed.

Lemma th_range : forall k, (k < n)%nat -> 0 < th k < PI.
Proof. intros k Hk. apply acos_bound_lt. apply Hz. lia. Qed.
Lemma cos_th : forall k, (k < n)%nat -> cos (th k) = z (n - 1 - k)%nat.
Proof. intros k Hk. apply cos_acos. pose proof (proj1 Hz (n - 1 - k)%nat ltac:(lia)). lra. Qed.
Lemma th_incr : forall i j, (i < j < n)%nat -> th i < th j.
Proof.
  intros i j H. pose proof (th_range i ltac:(lia)). pose proof (th_range j ltac:(lia)).
  apply cos_decreasing_0; try lra. rewrite !cos_th by lia. apply Hz. lia.
Qed.
Lemma th_sym : forall k, (k < n)%nat -> th (n - 1 - k) = PI - th k.
Proof.
  intros k Hk. unfold th. rewrite (zeros_sym n z (n - 1 - k)) by (auto; lia). apply acos_opp.
Qed.

(** Sign right of the k-th largest zero. *)
Lemma right_sign : forall k x, (k < n)%nat -> z (n - 1 - k)%nat < x -> (k = 0%nat \/ x < z (n - k)%nat) ->
  0 < (-1) ^ k * Pn n x.
Proof.
  intros k x Hk L U. pose proof Hz as (Z1 & Z2 & Z3).
  replace k with (n - (n - k))%nat at 1 by lia. apply (zeros_sign n (n - k) z); auto; [lia| |].
  - intros i Hi. destruct (Nat.eq_dec i (n - 1 - k)) as [-> |N]; auto. pose proof (Z2 i (n - 1 - k)%nat ltac:(lia)). lra.
  - intros i Hi. destruct U as [->|U]; [lia|]. destruct (Nat.eq_dec i (n - k)) as [-> |N]; auto.
    pose proof (Z2 (n - k)%nat i ltac:(lia)). lra.
Qed.

Lemma between_sign : forall k t, (S k < n)%nat -> th k < t < th (S k) -> 0 < (-1) ^ S k * Pn n (cos t).
Proof.
  intros k t Hk Ht. pose proof (th_range k ltac:(lia)). pose proof (th_range (S k) ltac:(lia)).
  apply right_sign; auto.
  - rewrite <- cos_th by lia. apply cos_decreasing_1; lra.
  - right. replace (n - S k)%nat with (n - 1 - k)%nat by lia. rewrite <- cos_th by lia. apply cos_decreasing_1; lra.
Qed.

Section Gap.
Variable k : nat.
Hypothesis Hk : (S k < n)%nat.
Let s := (-1) ^ S k.
Let u := fun t => s * uu n t.
Let u1 := fun t => s * uu1 n t.

Lemma gap_hyps : th k < th (S k) /\
  (forall t, th k <= t <= th (S k) -> is_derive u t (u1 t)) /\
  (forall t, th k <= t <= th (S k) -> is_derive u1 t (- qq n t * u t)) /\
  u (th k) = 0 /\ u (th (S k)) = 0 /\ (forall t, th k < t < th (S k) -> 0 < u t) /\ u1 (th (S k)) < 0.
Proof.
  pose proof (th_range k ltac:(lia)) as R1. pose proof (th_range (S k) ltac:(lia)) as R2.
  pose proof Hz as (Z1 & Z2 & Z3).
  split; [apply th_incr; lia|]. split; [|split; [|split; [|split; [|split]]]].
  - intros t Ht. apply is_derive_scal, uu_derive. lra.
  - intros t Ht. evar_last; [apply is_derive_scal, uu1_derive; lra|]. unfold u. req. ring.
  - unfold u, uu. rewrite cos_th, Z3 by lia. ring.
  - unfold u, uu. rewrite cos_th, Z3 by lia. ring.
  - intros t Ht. unfold u, uu. pose proof (between_sign k t Hk Ht) as P. fold s in P.
    assert (0 < sqrt (sin t)) by (apply sqrt_lt_R0, sin_gt_0; lra). nra.
  - unfold u1, uu1. rewrite cos_th by lia. rewrite Z3 by lia. rewrite Rmult_0_r, Rminus_0_l.
    pose proof (dP_sign n z (S k) Hz Hk) as P. fold s in P.
    assert (0 < sqrt (sin (th (S k)))) by (apply sqrt_lt_R0, sin_gt_0; lra).
    specialize (Z1 (n - 1 - S k)%nat ltac:(lia)). set (x := z (n - 1 - S k)%nat) in *.
    assert (0 < (1 - x * x) * (s * dP n x) / sqrt (sin (th (S k)))).
    { apply Rdiv_lt_0_compat; auto. apply Rmult_lt_0_compat; [nra|auto]. }
    replace (s * - ((1 - x * x) * dP n x / sqrt (sin (th (S k))))) with
      (- ((1 - x * x) * (s * dP n x) / sqrt (sin (th (S k))))) by (unfold Rdiv; ring). lra.
Qed.

Lemma gap_upper : th (S k) - th k < PI / NN.
Proof.
  destruct gap_hyps as (A & B & C & D & E & F & G).
  apply (sturm_upper u u1 (qq n)); auto; [apply NN_pos|].
  intros t Ht. unfold qq. fold NN. pose proof (th_range k ltac:(lia)). pose proof (th_range (S k) ltac:(lia)).
  assert (0 < sin t) by (apply sin_gt_0; lra).
  assert (0 < / (4 * (sin t * sin t))) by (apply Rinv_0_lt_compat; nra). lra.
Qed.

Lemma gap_lower : th (S k) <= PI - th k ->
  PI / NN - (th (S k) - th k) <= PI / NN / (8 * (NN * NN) * (sin (th k) * sin (th k))).
Proof.
  intro Hs. destruct gap_hyps as (A & B & C & D & E & F & G). pose proof NN_pos as N0.
  pose proof (th_range k ltac:(lia)) as R1. pose proof (th_range (S k) ltac:(lia)) as R2.
  assert (Sk : 0 < sin (th k)) by (apply sin_gt_0; lra).
  set (sk := sin (th k)) in *. set (M := NN + / (8 * NN * (sk * sk))).
  assert (I0 : 0 < / (8 * NN * (sk * sk))) by (apply Rinv_0_lt_compat, Rmult_lt_0_compat; nra).
  assert (L : PI / M <= th (S k) - th k).
  { apply (sturm_lower u u1 (qq n)); auto; [unfold M; lra|].
    intros t Ht. unfold qq. fold NN.
    assert (St : sk <= sin t).
    { unfold sk. destruct (Rle_lt_dec t (PI / 2)) as [Q|Q].
      - apply sin_incr_1; lra.
      - rewrite <- (sin_PI_x t). apply sin_incr_1; lra. }
    assert (/ (4 * (sin t * sin t)) <= / (4 * (sk * sk))) by (apply Rinv_le_contravar; nra).
    assert (M * M = NN * NN + / (4 * (sk * sk)) + / (8 * NN * (sk * sk)) * / (8 * NN * (sk * sk))).
    { unfold M. field. split; lra. }
    assert (0 < / (8 * NN * (sk * sk)) * / (8 * NN * (sk * sk))) by (apply Rmult_lt_0_compat; auto). lra. }
  assert (PI / NN - PI / M <= PI / NN / (8 * (NN * NN) * (sk * sk))); [|lra].
  pose proof PI_RGT_0. assert (M0 : 0 < M) by (unfold M; lra).
  assert (EM : M = NN * (1 + / (8 * (NN * NN) * (sk * sk)))) by (unfold M; field; split; lra).
  set (y := / (8 * (NN * NN) * (sk * sk))) in *.
  assert (Hy : 0 < y).
  { unfold y. apply Rinv_0_lt_compat. apply Rmult_lt_0_compat; nra. }
  unfold Rdiv at 3. fold y. rewrite EM.
  replace (PI / (NN * (1 + y))) with (PI / NN * / (1 + y)) by (field; lra).
  assert (0 < PI / NN) by (apply Rdiv_lt_0_compat; auto).
  assert (1 - y <= / (1 + y)).
  { apply Rmult_le_reg_r with (1 + y); [lra|]. rewrite Rinv_l by lra. nra. }
  nra.
Qed.
End Gap.

Lemma th_diff : forall d k, (k + S d < n)%nat -> th (k + S d) - th k < INR (S d) * (PI / NN).
Proof.
  induction d as [|d IH]; intros k Hk.
  - replace (k + 1)%nat with (S k) in * by lia. pose proof (gap_upper k Hk). simpl. lra.
  - pose proof (IH k ltac:(lia)) as A. pose proof (gap_upper (k + S d) ltac:(lia)) as B.
    replace (S (k + S d)) with (k + S (S d))%nat in B by lia. rewrite (S_INR (S d)). lra.
Qed.

Lemma NN_n : INR n = NN - / 2.
Proof. unfold NN. ring. Qed.

Lemma th_lower : forall k, (2 * k + 1 < n)%nat -> phi k < th k.
Proof.
  intros k Hk. pose proof (th_diff (n - 2 - 2 * k) k ltac:(lia)) as D.
  replace (k + S (n - 2 - 2 * k))%nat with (n - 1 - k)%nat in D by lia. rewrite th_sym in D by lia.
  replace (S (n - 2 - 2 * k)) with (n - 1 - 2 * k)%nat in D by lia.
  rewrite !minus_INR, mult_INR, NN_n in D by lia. simpl (INR 2) in D. simpl (INR 1) in D.
  unfold phi. pose proof NN_pos.
  assert (PI = NN * (PI / NN)) by (field; lra). set (g := PI / NN) in *. nra.
Qed.

Lemma th_mid : forall k, (2 * k + 1 = n)%nat -> th k = PI / 2 /\ phi k = PI / 2.
Proof.
  intros k Hk. pose proof (th_sym k ltac:(lia)) as E. replace (n - 1 - k)%nat with k in E by lia. split; [lra|].
  unfold phi. pose proof NN_pos. assert (INR k = (NN - 3 / 2) / 2).
  { assert (NN = 2 * INR k + 1 + / 2) by (unfold NN; rewrite <- Hk, plus_INR, mult_INR; simpl; ring). lra. }
  rewrite H0. field. lra.
Qed.

Lemma th_half : forall k, (2 * k + 1 < n)%nat -> th k < PI / 2.
Proof.
  intros k Hk. pose proof (th_incr k (n - 1 - k) ltac:(lia)) as A. rewrite th_sym in A by lia. lra.
Qed.

Lemma phi_pos : forall k, 0 < phi k.
Proof.
  intro k. unfold phi. pose proof NN_pos. pose proof PI_RGT_0. pose proof (pos_INR k).
  apply Rmult_lt_0_compat; [lra|]. apply Rdiv_lt_0_compat; auto.
Qed.

Lemma phi_S : forall k, phi (S k) = phi k + PI / NN.
Proof. intro k. unfold phi. rewrite S_INR. ring. Qed.

Definition Bd (p : R) : R := (cos p / sin p + PI / NN / (sin p * sin p)) / (8 * (NN * NN)).

Lemma Bd_step : forall a, 0 < a -> a + PI / NN <= PI / 2 ->
  Bd (a + PI / NN) + PI / NN / (8 * (NN * NN) * (sin a * sin a)) <= Bd a.
Proof.
  intros a Ha Hb. pose proof NN_pos as N0. pose proof PI_RGT_0 as P0. set (g := PI / NN) in *.
  assert (G0 : 0 < g) by (apply Rdiv_lt_0_compat; auto). set (b := a + g) in *.
  assert (Sa : 0 < sin a) by (apply sin_gt_0; unfold b in *; lra).
  assert (Sb : 0 < sin b) by (apply sin_gt_0; unfold b in *; lra).
  destruct (MVT_cor2 (fun t => - (cos t / sin t)) (fun t => / (sin t * sin t)) a b) as (x & E & Hx); [unfold b; lra| |].
  { intros t Ht. apply is_derive_Reals. assert (0 < sin t) by (apply sin_gt_0; unfold b in *; lra).
    auto_derive; [lra|]. pose proof (sin2_cos2 t) as SC. unfold Rsqr in SC.
    transitivity ((sin t * sin t + cos t * cos t) / (sin t * sin t)); [field; lra|]. rewrite SC. field. lra. }
  assert (Sx : sin x <= sin b) by (apply sin_incr_1; unfold b in *; lra).
  assert (S0 : 0 < sin x) by (apply sin_gt_0; unfold b in *; lra).
  assert (I : / (sin b * sin b) <= / (sin x * sin x)) by (apply Rinv_le_contravar; nra).
  replace (b - a) with g in E by (unfold b; ring). unfold Bd. fold g.
  assert (K : cos b / sin b + g / (sin b * sin b) <= cos a / sin a).
  { unfold Rdiv at 2. nra. }
  assert (0 < 8 * (NN * NN)) by nra.
  replace (g / (8 * (NN * NN) * (sin a * sin a))) with (g / (sin a * sin a) / (8 * (NN * NN))) by (field; split; lra).
  unfold Rdiv at 1 4 5 8. rewrite <- Rmult_plus_distr_r. apply Rmult_le_compat_r; [apply Rlt_le, Rinv_0_lt_compat; auto|].
  unfold Rdiv in *. lra.
Qed.

Lemma phi_le_half : forall k, (2 * k + 1 < n)%nat -> phi k <= PI / 2 - PI / NN / 2.
Proof.
  intros k Hk. unfold phi. pose proof NN_pos. pose proof PI_RGT_0.
  assert (INR k <= (NN - 5 / 2) / 2).
  { assert (INR (2 * k + 2) <= INR n) by (apply le_INR; lia). rewrite plus_INR, mult_INR, NN_n in H1. simpl in H1. lra. }
  assert (0 < PI / NN) by (apply Rdiv_lt_0_compat; auto).
  assert (PI = NN * (PI / NN)) by (field; lra). set (g := PI / NN) in *. nra.
Qed.

Lemma defect : forall k, (2 * k + 1 < n)%nat ->
  PI / NN - (th (S k) - th k) <= PI / NN / (8 * (NN * NN) * (sin (phi k) * sin (phi k))).
Proof.
  intros k Hk. pose proof NN_pos as N0. pose proof PI_RGT_0 as P0.
  pose proof (th_lower k Hk). pose proof (th_half k Hk). pose proof (phi_pos k).
  eapply Rle_trans.
  - apply (gap_lower k); [lia|]. destruct (Nat.eq_dec (S k) (n - 1 - k)) as [E|N].
    + rewrite E, th_sym by lia. lra.
    + pose proof (th_incr (S k) (n - 1 - k) ltac:(lia)). rewrite th_sym in H2 by lia. lra.
  - apply Rmult_le_compat_l; [apply Rlt_le, Rdiv_lt_0_compat; auto|].
    assert (0 < sin (phi k)) by (apply sin_gt_0; lra).
    assert (sin (phi k) <= sin (th k)) by (apply sin_incr_1; lra).
    apply Rinv_le_contravar; [apply Rmult_lt_0_compat; nra|]. apply Rmult_le_compat_l; nra.
Qed.

Lemma th_upper : forall d k, (n = 2 * (k + d) + 1 \/ n = 2 * (k + d) + 2)%nat -> th k - phi k <= Bd (phi k).
Proof.
  pose proof NN_pos as N0. pose proof PI_RGT_0 as P0.
  assert (G0 : 0 < PI / NN) by (apply Rdiv_lt_0_compat; auto).
  induction d as [|d IH]; intros k Hk.
  - destruct Hk as [Hk|Hk].
    + destruct (th_mid k ltac:(lia)) as (A & B). rewrite A, B. unfold Bd. rewrite cos_PI2, sin_PI2.
      apply Rle_trans with 0; [lra|]. apply Rlt_le, Rdiv_lt_0_compat; [|nra]. unfold Rdiv in *. lra.
    + pose proof (defect k ltac:(lia)) as Df. pose proof (phi_le_half k ltac:(lia)). pose proof (phi_pos k).
      replace (S k) with (n - 1 - k)%nat in Df by lia. rewrite th_sym in Df by lia.
      assert (E : phi k = PI / 2 - PI / NN / 2).
      { unfold phi. assert (INR k = (NN - 5 / 2) / 2).
        { assert (INR n = INR (2 * k + 2)) by (f_equal; lia). rewrite NN_n, plus_INR, mult_INR in H1. simpl in H1. lra. }
        rewrite H1. field. lra. }
      assert (0 < sin (phi k)) by (apply sin_gt_0; lra). assert (0 <= cos (phi k)) by (apply cos_ge_0; lra).
      unfold Bd. set (c := cos (phi k)) in *. set (s := sin (phi k)) in *.
      assert (P : 0 < PI / NN / (8 * (NN * NN) * (s * s))).
      { apply Rdiv_lt_0_compat; auto. apply Rmult_lt_0_compat; nra. }
      assert (0 <= c / s) by (apply Rmult_le_pos; [auto|apply Rlt_le, Rinv_0_lt_compat; auto]).
      assert (0 <= c / s / (8 * (NN * NN))).
      { apply Rmult_le_pos; [auto|apply Rlt_le, Rinv_0_lt_compat; nra]. }
      replace ((c / s + PI / NN / (s * s)) / (8 * (NN * NN))) with
        (c / s / (8 * (NN * NN)) + PI / NN / (8 * (NN * NN) * (s * s))) by (field; split; lra).
      lra.
  - specialize (IH (S k) ltac:(lia)). pose proof (defect k ltac:(lia)) as Df.
    assert (phi (S k) <= PI / 2).
    { destruct (Nat.eq_dec n (2 * S k + 1)) as [E|N].
      - destruct (th_mid (S k) ltac:(lia)). lra.
      - pose proof (phi_le_half (S k) ltac:(lia)). lra. }
    rewrite phi_S in *. pose proof (Bd_step (phi k) (phi_pos k) H). lra.
Qed.

Section Numbers.
Variable k : nat.
Hypothesis Hk : (2 * k + 1 < n)%nat.
Let p := phi k.
Let D := th k - phi k.
Let s := NN * sin p.

Lemma NN_25 : 5 / 2 <= NN.
Proof. unfold NN. assert (INR 2 <= INR n) by (apply le_INR; lia). simpl in H. lra. Qed.

Lemma g_bounds : 0 < PI / NN <= 1.28.
Proof.
  pose proof NN_25. pose proof PI_bounds. split; [apply Rdiv_lt_0_compat; lra|].
  apply Rmult_le_reg_r with NN; [lra|]. unfold Rdiv. rewrite Rmult_assoc, Rinv_l by lra. lra.
Qed.

Lemma p_range : 3 / 4 * (PI / NN) <= p <= PI / 2 - PI / NN / 2.
Proof.
  split; [|apply phi_le_half; auto]. unfold p, phi. pose proof (pos_INR k). pose proof g_bounds. nra.
Qed.

Lemma s_lower : 1.9 <= s.
Proof.
  pose proof NN_25. pose proof PI_bounds. pose proof g_bounds. pose proof p_range. unfold s.
  set (g := PI / NN) in *. assert (E : NN * g = PI) by (unfold g; field; lra).
  set (y := 3 / 4 * g) in *. assert (Y : 0 < y <= 0.96) by (unfold y; lra).
  assert (A : sin y <= sin p) by (apply sin_incr_1; lra).
  assert (B : y - y ^ 3 / 6 <= sin y) by (apply sin_lower; lra).
  assert (C : 0.846 * y <= y - y ^ 3 / 6).
  { assert (0 <= y * (0.9216 - y * y)) by (apply Rmult_le_pos; nra). simpl. lra. }
  assert (NN * (0.846 * y) <= NN * sin p) by (apply Rmult_le_compat_l; lra).
  assert (NN * y = 3 / 4 * PI) by (unfold y; rewrite <- E; ring). lra.
Qed.

Lemma sp_pos : 0 < sin p.
Proof. pose proof s_lower. pose proof NN_25. unfold s in H. nra. Qed.

Lemma cs_lower : 1.1 <= cos p * s.
Proof.
  pose proof NN_25. pose proof PI_bounds. pose proof g_bounds. pose proof p_range. unfold s.
  set (g := PI / NN) in *. assert (E : NN * g = PI) by (unfold g; field; lra).
  assert (A : sin g <= sin (2 * p)).
  { destruct (Rle_lt_dec (2 * p) (PI / 2)) as [Q|Q].
    - apply sin_incr_1; lra.
    - rewrite <- (sin_PI_x (2 * p)). apply sin_incr_1; lra. }
  rewrite sin_2a in A.
  assert (B : g - g ^ 3 / 6 <= sin g) by (apply sin_lower; lra).
  assert (C : 0.726 * g <= g - g ^ 3 / 6).
  { assert (0 <= g * (1.6384 - g * g)) by (apply Rmult_le_pos; nra). simpl. lra. }
  assert (NN * (0.726 * g) <= NN * (2 * sin p * cos p)) by (apply Rmult_le_compat_l; lra).
  assert (NN * (0.726 * g) = 0.726 * PI) by (rewrite <- E; ring). nra.
Qed.

Lemma D_pos : 0 < D.
Proof. unfold D. pose proof (th_lower k Hk). lra. Qed.

Lemma cp_range : 0 < cos p <= 1.
Proof.
  pose proof g_bounds. pose proof p_range. split; [apply cos_gt_0; lra|]. apply COS_bound.
Qed.

(** N D <= (c/s + PI/s^2)/8. *)
Lemma ND_bound : 8 * (NN * D) * (s * s) <= cos p * s + PI.
Proof.
  assert (U : D <= Bd p).
  { unfold D, p. apply (th_upper ((n - 1) / 2 - k)).
    pose proof (Nat.div_mod (n - 1) 2 ltac:(lia)). pose proof (Nat.mod_upper_bound (n - 1) 2 ltac:(lia)). lia. }
  pose proof NN_25. pose proof sp_pos as SP. unfold Bd in U. unfold s.
  assert (K : 0 <= 8 * NN * (NN * sin p * (NN * sin p))).
  { apply Rmult_le_pos; [lra|apply Rle_0_sqr]. }
  apply (Rmult_le_compat_l _ _ _ K) in U.
  replace (8 * NN * (NN * sin p * (NN * sin p)) * ((cos p / sin p + PI / NN / (sin p * sin p)) / (8 * (NN * NN))))
    with (cos p * (NN * sin p) + PI) in U by (field; split; lra).
  nra.
Qed.

Lemma ND_small : NN * D <= 0.18.
Proof.
  pose proof ND_bound. pose proof s_lower. pose proof cp_range. pose proof PI_bounds. pose proof NN_25. pose proof D_pos.
  assert (0 < NN * D) by nra. set (y := NN * D) in *.
  assert (cos p * s <= 1 * s) by (apply Rmult_le_compat_r; lra).
  assert (8 * y * (s * s) <= s + 3.2) by lra.
  assert (s + 3.2 <= 1.44 * (s * s)) by nra. nra.
Qed.

Lemma Dcot_small : D * cos p <= 0.094 * sin p.
Proof.
  pose proof ND_bound as B. pose proof s_lower as SL. pose proof cp_range as C. pose proof PI_bounds. pose proof NN_25.
  pose proof D_pos. pose proof sp_pos.
  assert (NN * (D * cos p) <= 0.094 * s); [|unfold s in *; nra].
  assert (cos p * s <= 1 * s) by (apply Rmult_le_compat_r; lra).
  assert (0 <= 8 * (NN * D) * (s * s)).
  { apply Rmult_le_pos; [|apply Rle_0_sqr]. apply Rmult_le_pos; [lra|]. apply Rmult_le_pos; lra. }
  assert (8 * (NN * D) * cos p * (s * s) <= s + 3.2).
  { replace (8 * (NN * D) * cos p * (s * s)) with (8 * (NN * D) * (s * s) * cos p) by ring. nra. }
  assert (s + 3.2 <= 0.752 * s * (s * s)).
  { assert (3.61 <= s * s) by nra. assert (1 + 3.2 / 1.9 <= 0.752 * 3.61) by lra.
    assert (3.2 <= 3.2 / 1.9 * s) by lra. nra. }
  nra.
Qed.

Lemma th_le_half : th k <= PI / 2.
Proof. apply Rlt_le, th_half; auto. Qed.

Lemma sin_diff : sin (th k) <= sin p + D * cos p.
Proof.
  pose proof D_pos. pose proof th_le_half. pose proof p_range. pose proof g_bounds. assert (ED : D = th k - p) by reflexivity. clearbody D p.
  destruct (MVT_cor2 sin cos p (th k)) as (x & E & Hx); [lra|intros; apply derivable_pt_lim_sin|].
  assert (cos x <= cos p) by (apply cos_decr_1; lra). nra.
Qed.

Lemma cos_diff : cos p - cos (th k) <= D * sin (th k).
Proof.
  pose proof D_pos. pose proof th_le_half. pose proof p_range. pose proof g_bounds. assert (ED : D = th k - p) by reflexivity. clearbody D p.
  destruct (MVT_cor2 cos (fun x => - sin x) p (th k)) as (x & E & Hx); [lra|intros; apply derivable_pt_lim_cos|].
  assert (sin x <= sin (th k)) by (apply sin_incr_1; lra). nra.
Qed.

Lemma sin_ratio : 0 < sin p <= sin (th k) /\ sin (th k) * sin (th k) <= 1.2 * (sin p * sin p).
Proof.
  pose proof sp_pos. pose proof sin_diff. pose proof Dcot_small. pose proof D_pos. pose proof th_le_half.
  pose proof p_range. pose proof g_bounds.
  assert (sin p <= sin (th k)) by (apply sin_incr_1; assert (ED : D = th k - p) by reflexivity; clearbody D p; lra).
  split; [lra|]. assert (sin (th k) <= 1.094 * sin p) by lra. nra.
Qed.

Lemma cos_large : 1.2 * (NN * NN) * (D * sin (th k)) <= cos (th k).
Proof.
  pose proof cos_diff as CD. pose proof sin_diff as SD. pose proof Dcot_small as DC. pose proof ND_bound as NB.
  pose proof s_lower as SL. pose proof cs_lower as CS. pose proof cp_range as C. pose proof PI_bounds as PB.
  pose proof NN_25 as N25. pose proof D_pos as DP. pose proof sp_pos as SP.
  set (c := cos p) in *. set (S := sin (th k)) in *.
  assert (A : S <= 1.094 * sin p) by lra.
  (* D S <= 1.094 (c + PI / s) / (8 N^2) *)
  assert (B : 8 * (NN * NN) * (D * S) * s <= 1.094 * (c * s + PI)).
  { apply Rle_trans with (8 * (NN * NN) * (D * (1.094 * sin p)) * s).
    - apply Rmult_le_compat_r; [lra|]. apply Rmult_le_compat_l; [nra|]. apply Rmult_le_compat_l; lra.
    - replace (8 * (NN * NN) * (D * (1.094 * sin p)) * s) with (1.094 * (8 * (NN * D) * (s * s))) by (unfold s; ring). lra. }
  assert (P : 0 <= D * S).
  { apply Rmult_le_pos; [lra|]. unfold S. apply sin_ge_0; pose proof (th_range k ltac:(lia)); lra. }
  assert (Q : (1 + 1.2 * (NN * NN)) * (D * S) <= 1.36 * (NN * NN) * (D * S)).
  { apply Rmult_le_compat_r; auto. nra. }
  assert (R : 8 * ((1.36 * (NN * NN)) * (D * S)) * s <= 8 * c * s) by nra.
  assert ((1.36 * (NN * NN)) * (D * S) <= c) by nra. nra.
Qed.
End Numbers.
End Angles.
