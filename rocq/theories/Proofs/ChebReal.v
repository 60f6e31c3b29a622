(** The Gauss-Chebyshev rules in exact arithmetic: angles, order, positivity. *)
From Coq Require Import List Bool Arith ZArith Lia Reals Lra Psatz.
From Verif Require Import Base.Outcome Base.Scalar Base.RScalar Model.Primitive
  Spec.Sums Spec.RealRules Proofs.Tab Proofs.SumFacts Proofs.PrimitiveFacts Proofs.TrigSums.
Import ListNotations.
Local Open Scope R_scope.

Lemma mirror_eq : forall n (p q g : nat -> R) m,
  (forall j, (j < n / 2)%nat -> p j = g j) ->
  (forall j, (j < n / 2)%nat -> q j = g (n - 1 - j)%nat) ->
  (forall k, n = (2 * k + 1)%nat -> m = g k) ->
  forall j, (j < n)%nat -> @mirror RS n p q m j = g j.
Proof.
  intros n p q g m Hp Hq Hm j Hj. unfold mirror.
  destruct (Nat.ltb_spec j (n / 2)); [apply Hp; auto|].
  destruct (Nat.leb_spec (n - n / 2) j).
  - pose proof (half_le n). rewrite Hq by lia. f_equal. lia.
  - destruct (Nat.odd n) eqn:Ho.
    + pose proof (odd_half n Ho). assert (j = n / 2)%nat by lia. subst j. apply Hm. auto.
    + pose proof (even_half n Ho). lia.
Qed.

Lemma IZR_INR : forall n, IZR (Z.of_nat n) = INR n.
Proof. intro. symmetry. apply INR_IZR_INZ. Qed.

Lemma INR_pos : forall n, (0 < n)%nat -> 0 < INR n.
Proof. intros. apply lt_0_INR. lia. Qed.

(** A rule parametrised by decreasing angles in (0,PI). *)
Lemma sin_sqrt : forall t, 0 <= t <= PI -> sqrt (1 - cos t * cos t) = sin t.
Proof.
  intros t Ht. pose proof (sin2 t) as E. unfold Rsqr in E. rewrite <- E.
  apply sqrt_square. apply sin_ge_0; tauto.
Qed.

Lemma cos_reflect : forall t, - cos t = cos (PI - t).
Proof. intro. rewrite cos_minus, cos_PI, sin_PI. lra. Qed.

Lemma good_tab : forall n a b (x w : nat -> R),
  (forall i, (i < n)%nat -> a < x i < b) -> (forall i, (i < n)%nat -> 0 < w i) ->
  (forall i j, (i < j < n)%nat -> x i < x j) -> good_rule n a b (tab n x, tab n w).
Proof.
  intros n a b x w Hx Hw Hm. unfold good_rule. cbn [fst snd]. rewrite !tab_length.
  split; [auto|split; [auto|split; [|split]]].
  - intros i j u v Hij Hu Hv.
    assert (Hj : (j < n)%nat).
    { apply Nat.nlt_ge. intro. rewrite (proj2 (nth_error_None _ _)) in Hv; [discriminate|].
      rewrite tab_length; lia. }
    rewrite nth_error_tab in Hu, Hv by lia. injection Hu as <-; injection Hv as <-. apply Hm; lia.
  - intros v Hv. apply In_tab in Hv. destruct Hv as (i & Hi & ->). auto.
  - intros v Hv. apply In_tab in Hv. destruct Hv as (i & Hi & ->). auto.
Qed.

Lemma symmetric_tab : forall n (x w : nat -> R),
  (forall i j, (i + j + 1 = n)%nat -> x j = - x i /\ w j = w i) ->
  symmetric_rule (tab n x, tab n w).
Proof.
  intros n x w H i j a b v u Hij. cbn [fst snd] in *. rewrite tab_length in Hij.
  rewrite !nth_error_tab by lia. intros [= <-] [= <-] [= <-] [= <-]. auto.
Qed.

(** First kind. *)
Definition th1 (n j : nat) : R := (2 * INR (n - 1 - j) + 1) * PI / (2 * INR n).

Lemma th1_range : forall n j, (j < n)%nat -> 0 < th1 n j < PI.
Proof.
  intros n j H. pose proof (INR_pos n ltac:(lia)). pose proof PI_RGT_0. unfold th1.
  assert (0 <= INR (n - 1 - j) <= INR n - 1).
  { split; [apply pos_INR|]. change 1 with (INR 1). rewrite <- minus_INR by lia. apply le_INR. lia. }
  split.
  - apply Rmult_lt_0_compat; [nra|]. apply Rinv_0_lt_compat. lra.
  - apply Rmult_lt_reg_r with (2 * INR n); [lra|]. unfold Rdiv. rewrite Rmult_assoc, Rinv_l by lra. nra.
Qed.

Lemma th1_decr : forall n i j, (i < j < n)%nat -> th1 n j < th1 n i.
Proof.
  intros n i j H. pose proof (INR_pos n ltac:(lia)). pose proof PI_RGT_0. unfold th1.
  apply Rmult_lt_compat_r. apply Rinv_0_lt_compat; lra. apply Rmult_lt_compat_r; auto.
  apply Rplus_lt_compat_r. apply Rmult_lt_compat_l; [lra|]. apply lt_INR. lia.
Qed.

Lemma th1_mirror : forall n i j, (i + j + 1 = n)%nat -> th1 n j = PI - th1 n i.
Proof.
  intros n i j H. pose proof (INR_pos n ltac:(lia)). unfold th1.
  replace (n - 1 - j)%nat with i by lia. replace (n - 1 - i)%nat with j by lia.
  subst n. rewrite !plus_INR in *. simpl (INR 1) in *. field. lra.
Qed.

Lemma gc1_real : forall n, @gc1_generate RS n =
  Ok (tab n (fun j => cos (th1 n j)), tab n (fun j => PI / INR n * sin (th1 n j))).
Proof.
  intro n. rewrite gc1_closed. f_equal.
  assert (X : forall j, (j < n)%nat -> @gc1_x RS n j = cos (th1 n j)).
  { intros j Hj. unfold gc1_x, gc1_t, th1. cbn. unfold sofN. cbn. change (carrier RS) with R in *.
    f_equal. rewrite !IZR_INR. pose proof (INR_pos n ltac:(lia)).
    replace (n - j)%nat with (S (n - 1 - j)) by lia. rewrite S_INR. field. lra. }
  assert (W : forall j, (j < n)%nat -> @gc1_w RS n j = PI / INR n * sin (th1 n j)).
  { intros j Hj. unfold gc1_w. rewrite X by auto. unfold sofN. cbn. rewrite IZR_INR.
    change (PI / INR n * sqrt (1 - cos (th1 n j) * cos (th1 n j)) = PI / INR n * sin (th1 n j)).
    rewrite sin_sqrt; auto. pose proof (th1_range n j Hj). lra. }
  f_equal; apply tab_ext; intros j Hj;
    [refine (mirror_eq n _ _ (fun j => cos (th1 n j)) _ _ _ _ j Hj)
    |refine (mirror_eq n _ _ (fun j => PI / INR n * sin (th1 n j)) _ _ _ _ j Hj)].
  - intros i Hi. pose proof (half_lt n i Hi). apply X; lia.
  - intros i Hi. pose proof (half_lt n i Hi). rewrite X by lia. cbn.
    rewrite cos_reflect. f_equal. symmetry. apply th1_mirror. lia.
  - intros k Hk. pose proof (th1_mirror n k k ltac:(lia)).
    replace (th1 n k) with (PI / 2) by lra. rewrite cos_PI2. reflexivity.
  - intros i Hi. pose proof (half_lt n i Hi). apply W; lia.
  - intros i Hi. pose proof (half_lt n i Hi). rewrite W by lia.
    rewrite (th1_mirror n i (n - 1 - i)) by lia. rewrite sin_PI_x. reflexivity.
  - intros k Hk. pose proof (th1_mirror n k k ltac:(lia)).
    replace (th1 n k) with (PI / 2) by lra. rewrite sin_PI2. unfold sofN. cbn. rewrite IZR_INR.
    change (PI / INR n = PI / INR n * 1). lra.
Qed.

Lemma angle_good : forall n (th : nat -> R) (w : nat -> R),
  (forall j, (j < n)%nat -> 0 < th j < PI) -> (forall i j, (i < j < n)%nat -> th j < th i) ->
  (forall j, (j < n)%nat -> 0 < w j) ->
  good_rule n (-1) 1 (tab n (fun j => cos (th j)), tab n w).
Proof.
  intros n th w Hr Hd Hw. apply good_tab; auto.
  - intros i Hi. specialize (Hr i Hi). rewrite <- cos_PI at 1. rewrite <- cos_0.
    split; apply cos_decreasing_1; lra.
  - intros i j Hij. pose proof (Hr i ltac:(lia)). pose proof (Hr j ltac:(lia)).
    apply cos_decreasing_1; try lra. apply Hd; auto.
Qed.

Lemma gc1_good : forall n q, @gc1_generate RS n = Ok q -> good_rule n (-1) 1 q /\ symmetric_rule q.
Proof.
  intros n q H. rewrite gc1_real in H. injection H as <-. split.
  - apply angle_good; [apply th1_range|apply th1_decr|].
    intros j Hj. pose proof (th1_range n j Hj). apply Rmult_lt_0_compat.
    + apply Rmult_lt_0_compat; [apply PI_RGT_0|]. apply Rinv_0_lt_compat, INR_pos; lia.
    + apply sin_gt_0; lra.
  - apply symmetric_tab. intros i j Hij. rewrite (th1_mirror n i j) by auto.
    rewrite <- cos_reflect, sin_PI_x. auto.
Qed.

(** Second kind. *)
Definition th2 (n j : nat) : R := INR (n - j) * PI / INR (n + 1).

Lemma th2_range : forall n j, (j < n)%nat -> 0 < th2 n j < PI.
Proof.
  intros n j H. pose proof (INR_pos (n + 1) ltac:(lia)). pose proof PI_RGT_0. unfold th2.
  pose proof (INR_pos (n - j) ltac:(lia)).
  assert (INR (n - j) < INR (n + 1)) by (apply lt_INR; lia).
  split.
  - apply Rmult_lt_0_compat; [nra|]. apply Rinv_0_lt_compat. lra.
  - apply Rmult_lt_reg_r with (INR (n + 1)); [lra|]. unfold Rdiv. rewrite Rmult_assoc, Rinv_l by lra. nra.
Qed.

Lemma th2_decr : forall n i j, (i < j < n)%nat -> th2 n j < th2 n i.
Proof.
  intros n i j H. pose proof (INR_pos (n + 1) ltac:(lia)). pose proof PI_RGT_0. unfold th2.
  apply Rmult_lt_compat_r. apply Rinv_0_lt_compat; lra. apply Rmult_lt_compat_r; auto.
  apply lt_INR. lia.
Qed.

Lemma th2_mirror : forall n i j, (i + j + 1 = n)%nat -> th2 n j = PI - th2 n i.
Proof.
  intros n i j H. pose proof (INR_pos (n + 1) ltac:(lia)). unfold th2.
  replace (n - j)%nat with (i + 1)%nat by lia. replace (n - i)%nat with (j + 1)%nat by lia.
  subst n. rewrite !plus_INR in *. simpl (INR 1) in *. field. lra.
Qed.

Lemma gc2_real : forall n, @gc2_generate RS n =
  Ok (tab n (fun j => cos (th2 n j)), tab n (fun j => PI / INR (n + 1) * sin (th2 n j))).
Proof.
  intro n. rewrite gc2_closed. f_equal.
  assert (X : forall j, (j < n)%nat -> @gc2_x RS n j = cos (th2 n j)).
  { intros j Hj. unfold gc2_x, th2. cbn. unfold sofN. cbn. change (carrier RS) with R in *.
    f_equal. rewrite !IZR_INR. unfold Rdiv. ring. }
  assert (W : forall j, (j < n)%nat -> @gc2_w RS n j = PI / INR (n + 1) * sin (th2 n j)).
  { intros j Hj. unfold gc2_w. rewrite X by auto. unfold sofN. cbn. rewrite IZR_INR.
    change (PI / INR (n + 1) * sqrt (1 - cos (th2 n j) * cos (th2 n j)) = PI / INR (n + 1) * sin (th2 n j)).
    rewrite sin_sqrt; auto. pose proof (th2_range n j Hj). lra. }
  f_equal; apply tab_ext; intros j Hj;
    [refine (mirror_eq n _ _ (fun j => cos (th2 n j)) _ _ _ _ j Hj)
    |refine (mirror_eq n _ _ (fun j => PI / INR (n + 1) * sin (th2 n j)) _ _ _ _ j Hj)].
  - intros i Hi. pose proof (half_lt n i Hi). apply X; lia.
  - intros i Hi. pose proof (half_lt n i Hi). rewrite X by lia. cbn.
    rewrite cos_reflect. f_equal. symmetry. apply th2_mirror. lia.
  - intros k Hk. pose proof (th2_mirror n k k ltac:(lia)).
    replace (th2 n k) with (PI / 2) by lra. rewrite cos_PI2. reflexivity.
  - intros i Hi. pose proof (half_lt n i Hi). apply W; lia.
  - intros i Hi. pose proof (half_lt n i Hi). rewrite W by lia.
    rewrite (th2_mirror n i (n - 1 - i)) by lia. rewrite sin_PI_x. reflexivity.
  - intros k Hk. pose proof (th2_mirror n k k ltac:(lia)).
    replace (th2 n k) with (PI / 2) by lra. rewrite sin_PI2. unfold sofN. cbn. rewrite IZR_INR.
    change (PI / INR (n + 1) = PI / INR (n + 1) * 1). lra.
Qed.

Lemma gc2_good : forall n q, @gc2_generate RS n = Ok q -> good_rule n (-1) 1 q /\ symmetric_rule q.
Proof.
  intros n q H. rewrite gc2_real in H. injection H as <-. split.
  - apply angle_good; [apply th2_range|apply th2_decr|].
    intros j Hj. pose proof (th2_range n j Hj). apply Rmult_lt_0_compat.
    + apply Rmult_lt_0_compat; [apply PI_RGT_0|]. apply Rinv_0_lt_compat, INR_pos; lia.
    + apply sin_gt_0; lra.
  - apply symmetric_tab. intros i j Hij. rewrite (th2_mirror n i j) by auto.
    rewrite <- cos_reflect, sin_PI_x. auto.
Qed.

(** Third kind: angles in (0,PI/2). *)
Definition th3 (n j : nat) : R := (2 * INR (n - 1 - j) + 1) * PI / INR (2 * n + 1).

Lemma th3_range : forall n j, (j < n)%nat -> 0 < th3 n j < PI.
Proof.
  intros n j H. pose proof (INR_pos (2 * n + 1) ltac:(lia)). pose proof PI_RGT_0. unfold th3.
  assert (0 <= INR (n - 1 - j)) by (apply pos_INR).
  assert (2 * INR (n - 1 - j) + 1 < INR (2 * n + 1)).
  { replace (2 * INR (n - 1 - j) + 1) with (INR (2 * (n - 1 - j) + 1))
      by (rewrite plus_INR, mult_INR; simpl; ring). apply lt_INR. lia. }
  split.
  - apply Rmult_lt_0_compat; [nra|]. apply Rinv_0_lt_compat. lra.
  - apply Rmult_lt_reg_r with (INR (2 * n + 1)); [lra|]. unfold Rdiv. rewrite Rmult_assoc, Rinv_l by lra. nra.
Qed.

Lemma th3_decr : forall n i j, (i < j < n)%nat -> th3 n j < th3 n i.
Proof.
  intros n i j H. pose proof (INR_pos (2 * n + 1) ltac:(lia)). pose proof PI_RGT_0. unfold th3.
  apply Rmult_lt_compat_r. apply Rinv_0_lt_compat; lra. apply Rmult_lt_compat_r; auto.
  apply Rplus_lt_compat_r. apply Rmult_lt_compat_l; [lra|]. apply lt_INR. lia.
Qed.

Lemma half_cos : forall t, cos t * cos t = (1 + cos (2 * t)) / 2.
Proof. intro. rewrite cos_2a_cos. lra. Qed.

Lemma sqrt_ratio : forall t, 0 < t < PI / 2 ->
  sqrt ((1 - cos t * cos t) / (cos t * cos t)) = sin t / cos t.
Proof.
  intros t Ht. pose proof PI_RGT_0. assert (0 < sin t) by (apply sin_gt_0; lra).
  assert (0 < cos t) by (apply cos_gt_0; lra).
  pose proof (sin2 t) as E. unfold Rsqr in E. rewrite <- E.
  replace (sin t * sin t / (cos t * cos t)) with ((sin t / cos t) * (sin t / cos t)) by (field; lra).
  apply sqrt_square. apply Rlt_le, Rmult_lt_0_compat; auto. apply Rinv_0_lt_compat; auto.
Qed.

Lemma gc3_real : forall n, @gc3_generate RS n =
  Ok (tab n (fun j => (1 + cos (th3 n j)) / 2), tab n (fun j => PI / INR (2 * n + 1) * sin (th3 n j))).
Proof.
  intro n. rewrite gc3_closed. f_equal.
  assert (T : forall j, (j < n)%nat -> @gc3_t RS n j = th3 n j / 2).
  { intros j Hj. 
    transitivity (5 / 10 * IZR (Z.of_nat (2 * (n - j) - 1)) * (PI / IZR (Z.of_nat (2 * n + 1))));
      [reflexivity|]. unfold th3.
    rewrite !IZR_INR. pose proof (INR_pos (2 * n + 1) ltac:(lia)).
    replace (2 * (n - j) - 1)%nat with (2 * (n - 1 - j) + 1)%nat by lia.
    rewrite (plus_INR (2 * (n - 1 - j))), mult_INR. change (INR 2) with 2. simpl (INR 1).
    rs_eq. field. lra. }
  f_equal; apply tab_ext; intros j Hj.
  - unfold gc3_x. rewrite T by auto. cbn. rewrite half_cos. do 3 f_equal. lra.
  - unfold gc3_w, gc3_x. rewrite T by auto. pose proof (th3_range n j Hj).
    set (t := th3 n j / 2). assert (Ht : 0 < t < PI / 2) by (unfold t; lra).
    replace (th3 n j) with (2 * t) by (unfold t; lra).
    transitivity (2 * (PI / INR (2 * n + 1)) * (cos t * cos t) *
        sqrt ((1 - cos t * cos t) / (cos t * cos t))).
    { cbn. unfold sofN, s2, s1. cbn. rewrite !IZR_INR. reflexivity. }
    rewrite sqrt_ratio by auto. rewrite sin_2a.
    assert (0 < cos t) by (apply cos_gt_0; lra). rs_eq. field. split; [|lra].
    apply Rgt_not_eq, INR_pos. lia.
Qed.

Lemma gc3_good : forall n q, @gc3_generate RS n = Ok q -> good_rule n 0 1 q.
Proof.
  intros n q H. rewrite gc3_real in H. injection H as <-.
  assert (C : forall j, (j < n)%nat -> -1 < cos (th3 n j) < 1).
  { intros i Hi. pose proof (th3_range n i Hi). rewrite <- cos_PI at 1. rewrite <- cos_0.
    split; apply cos_decreasing_1; lra. }
  apply good_tab.
  - intros i Hi. specialize (C i Hi). lra.
  - intros j Hj. pose proof (th3_range n j Hj). apply Rmult_lt_0_compat.
    + apply Rmult_lt_0_compat; [apply PI_RGT_0|]. apply Rinv_0_lt_compat, INR_pos; lia.
    + apply sin_gt_0; lra.
  - intros i j Hij. pose proof (th3_range n i ltac:(lia)). pose proof (th3_range n j ltac:(lia)).
    assert (cos (th3 n i) < cos (th3 n j)) by (apply cos_decreasing_1; try lra; apply th3_decr; auto).
    lra.
Qed.
