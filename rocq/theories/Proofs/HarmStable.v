(** Stability of the recurrences for [geg] and [cpow] under rounding. *)
From Coq Require Import Reals Lra Lia Psatz List ZArith.
From Verif Require Import Spec.SphereInt Proofs.SphereIntFacts.
Local Open Scope R_scope.

(** One form of the recurrence for every index. *)
Definition gegp (m n : nat) (z : R) : R := match n with O => 0 | S n' => geg m n' z end.

Lemma geg_step : forall m n z, geg m (S n) z =
  ((2 * INR n + 2 * INR m + 1) * z * geg m n z - INR n * gegp m n z) / (INR n + 2 * INR m + 1).
Proof.
  intros m n z. pose proof (pos_INR m). destruct n as [|n].
  - simpl. field. lra.
  - rewrite geg_SS. cbn [gegp]. rewrite !S_INR. pose proof (pos_INR n). field. lra.
Qed.

Lemma beta_range : forall m n : nat, 0 <= INR n / (INR n + 2 * INR m + 1) <= 1.
Proof.
  intros m n. pose proof (pos_INR m). pose proof (pos_INR n). split.
  - apply Rmult_le_pos; [lra|]. left. apply Rinv_0_lt_compat. lra.
  - apply (Rmult_le_reg_r (INR n + 2 * INR m + 1)); [lra|].
    replace (INR n / (INR n + 2 * INR m + 1) * (INR n + 2 * INR m + 1)) with (INR n) by (field; lra). lra.
Qed.

(** Energy of a pair of consecutive values. *)
Definition energy (z e e' : R) : R := (z * e - e') * (z * e - e') + (1 - z * z) * (e * e).

Lemma energy_step : forall z e e' b d q D, -1 <= z <= 1 -> 0 <= b <= 1 -> 0 <= q -> Rabs d <= D ->
  energy z e e' <= q * q -> energy z ((1 + b) * z * e - b * e' + d) e <= (q + D) * (q + D).
Proof.
  intros z e e' b d q D Hz Hb Hq Hd He. unfold energy in *.
  set (u := z * e - e') in *.
  replace (z * ((1 + b) * z * e - b * e' + d) - e) with (z * (b * u + d) - (1 - z * z) * e)
    by (unfold u; ring).
  replace ((1 + b) * z * e - b * e' + d) with (z * e + (b * u + d)) by (unfold u; ring).
  set (t := b * u + d).
  replace ((z * t - (1 - z * z) * e) * (z * t - (1 - z * z) * e) + (1 - z * z) * ((z * e + t) * (z * e + t)))
    with (t * t + (1 - z * z) * (e * e)) by ring.
  assert (Hz2 : 0 <= 1 - z * z) by nra.
  assert (He2 : 0 <= e * e) by nra.
  assert (Hp : 0 <= (1 - z * z) * (e * e)) by (apply Rmult_le_pos; auto).
  assert (Hu : Rabs u <= q).
  { apply Rabs_le. split; nra. }
  assert (Ht : Rabs t <= Rabs u + D).
  { unfold t. eapply Rle_trans; [apply Rabs_triang|]. rewrite Rabs_mult, (Rabs_pos_eq b) by lra.
    pose proof (Rabs_pos u). nra. }
  assert (Ht2 : t * t <= (Rabs u + D) * (Rabs u + D)).
  { pose proof (Rabs_pos t). replace (t * t) with (Rabs t * Rabs t); [nra|].
    rewrite <- Rabs_mult. apply Rabs_pos_eq. nra. }
  assert (Eu : u * u = Rabs u * Rabs u).
  { rewrite <- Rabs_mult. symmetry. apply Rabs_pos_eq. nra. }
  pose proof (Rabs_pos u). pose proof (Rabs_pos d). rewrite Eu in He. nra.
Qed.

(** Perturbed recurrence: the error after n steps is at most D n^2. *)
Definition stable (z D : R) (n : nat) (e e' : R) : Prop :=
  energy z e e' <= (INR n * D) * (INR n * D) /\ Rabs e <= INR n * INR n * D.

Lemma stable_0 : forall z D, stable z D 0 0 0.
Proof. intros z D. unfold stable, energy. simpl. rewrite Rabs_R0. split; nra. Qed.

Lemma stable_S : forall z D n e e' b d, -1 <= z <= 1 -> 0 <= b <= 1 -> Rabs d <= D ->
  stable z D n e e' -> stable z D (S n) ((1 + b) * z * e - b * e' + d) e.
Proof.
  intros z D n e e' b d Hz Hb Hd [He Ha]. pose proof (pos_INR n) as Hn. pose proof (Rabs_pos d) as Hd0.
  assert (HD : 0 <= D) by lra.
  rewrite <- Nat.add_1_r. unfold stable. rewrite plus_INR. simpl (INR 1). split.
  - replace ((INR n + 1) * D) with (INR n * D + D) by ring.
    apply energy_step; auto. nra.
  - set (u := z * e - e').
    replace ((1 + b) * z * e - b * e' + d) with (z * e + (b * u + d)) by (unfold u; ring).
    assert (Hz2 : 0 <= 1 - z * z) by nra.
    assert (He2 : 0 <= (1 - z * z) * (e * e)) by (apply Rmult_le_pos; nra).
    unfold energy in He. fold u in He.
    assert (Hq : 0 <= INR n * D) by nra.
    assert (Hu : Rabs u <= INR n * D) by (apply Rabs_le; split; nra).
    eapply Rle_trans; [apply Rabs_triang|]. eapply Rle_trans; [apply Rplus_le_compat_l, Rabs_triang|].
    rewrite !Rabs_mult, (Rabs_pos_eq b) by lra.
    assert (Hz1 : Rabs z <= 1) by (apply Rabs_le; lra).
    pose proof (Rabs_pos e). pose proof (Rabs_pos u). pose proof (Rabs_pos z).
    assert (Rabs z * Rabs e <= Rabs e) by nra. assert (b * Rabs u <= Rabs u) by nra. nra.
Qed.

Lemma geg_bound : forall m n z, -1 <= z <= 1 -> Rabs (geg m n z) <= 1.
Proof.
  intros m n z Hz.
  enough (Rabs (geg m n z) <= 1 /\
    (z * geg m (S n) z - geg m n z) * (z * geg m (S n) z - geg m n z)
      + (1 - z * z) * (geg m (S n) z * geg m (S n) z) <= 1 - z * z /\ Rabs (geg m (S n) z) <= 1) by tauto.
  induction n as [|n (I1 & I2 & I3)].
  - simpl. rewrite Rabs_R1. split; [lra|]. split; [nra|]. apply Rabs_le. lra.
  - split; [exact I3|].
    set (a := geg m (S n) z) in *. set (a' := geg m n z) in *.
    pose proof (beta_range m (S n)) as Hb. set (b := INR (S n) / (INR (S n) + 2 * INR m + 1)) in *.
    assert (E : geg m (S (S n)) z = (1 + b) * z * a - b * a' + 0).
    { rewrite geg_step. cbn [gegp]. fold a a'. unfold b. pose proof (pos_INR (S n)). pose proof (pos_INR m).
      field. lra. }
    rewrite E.
    assert (Hs : 0 <= 1 - z * z) by nra.
    assert (Q : energy z ((1 + b) * z * a - b * a' + 0) a
                <= (sqrt (1 - z * z) + 0) * (sqrt (1 - z * z) + 0)).
    { apply energy_step; auto; [apply sqrt_pos|rewrite Rabs_R0; lra|].
      rewrite sqrt_sqrt by auto. exact I2. }
    replace ((sqrt (1 - z * z) + 0) * (sqrt (1 - z * z) + 0)) with (1 - z * z) in Q
      by (rewrite Rplus_0_r, sqrt_sqrt; auto).
    split; [exact Q|].
    unfold energy in Q. set (c := (1 + b) * z * a - b * a' + 0) in *.
    assert (0 <= (z * c - a) * (z * c - a)) by (apply Rle_0_sqr).
    destruct (Req_dec (z * z) 1) as [Hz1|Hz1].
    + assert (Hu : z * a - a' = 0).
      { assert (0 <= (z * a - a') * (z * a - a')) by apply Rle_0_sqr.
        assert ((z * a - a') * (z * a - a') = 0) by nra. nra. }
      assert (Ec : c = z * a) by (unfold c; replace a' with (z * a) by lra; ring).
      rewrite Ec, Rabs_mult. pose proof (Rabs_pos a). pose proof (Rabs_pos z).
      assert (Rabs z <= 1) by (apply Rabs_le; lra). nra.
    + assert (c * c <= 1) by nra. apply Rabs_le. split; nra.
Qed.
