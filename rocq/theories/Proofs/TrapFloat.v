(** The uniform trapezoid rule as stored in binary64: errors of all nodes and weights. *)
From Coq Require Import List Bool Arith ZArith Lia Reals Lra Psatz.
From Coquelicot Require Import Coquelicot.
From Flocq Require Import IEEE754.BinarySingleNaN Core.
From Verif Require Import Base.Outcome Base.Scalar Base.RScalar Base.FScalar Model.Primitive
  Spec.Sums Spec.RuleSpec Spec.FloatSpec Spec.RealRules Spec.LibmSpec Spec.BoundFloatSpec Spec.TrapFloatSpec
  Proofs.Tab Proofs.SumFacts Proofs.PrimitiveFacts Proofs.FloatOps Proofs.FloatErr Proofs.BoundFloat
  Proofs.UniformFloat Proofs.TrapReal.
Import ListNotations.
Local Open Scope R_scope.

Lemma least_bpow : bpow radix2 (-1074) = least.
Proof.
  unfold least. change (bpow radix2 (-1074)) with (/ IZR (2 ^ 1074)). rewrite pow_IZR. reflexivity.
Qed.

Lemma half_f : forall m, is_finite (@shalf (FS m) : F64) = true /\ B2R (@shalf (FS m) : F64) = / 2.
Proof.
  intro m. change (@shalf (FS m) : F64) with (f_dec 5 1).
  assert (E : B2SF (f_dec 5 1) = SpecFloat.S754_finite false 4503599627370496 (-53)) by (vm_compute; reflexivity).
  rewrite <- SF2R_B2SF, <- is_finite_SF_B2SF, E. split; [reflexivity|].
  unfold SF2R, F2R. cbn [Fnum Fexp cond_Zopp].
  change (bpow radix2 (-53)) with (/ IZR (2 ^ 53)).
  change (IZR (2 ^ 53)) with 9007199254740992. change (IZR (Z.pos 4503599627370496)) with 4503599627370496. lra.
Qed.

(** Product of three rounding factors. *)
Lemma three : forall e0 e1 e2, Rabs e0 <= u -> Rabs e1 <= u -> Rabs e2 <= u ->
  Rabs ((1 + e0) * (1 + e1) - 1) <= 2.001 * u /\ Rabs ((1 + e0) * (1 + e1) * (1 + e2) - 1) <= 3.01 * u.
Proof.
  intros e0 e1 e2 H0 H1 H2. pose proof u_tiny as U.
  assert (UU : u * u <= / 10 ^ 15 * u) by (apply Rmult_le_compat_r; lra).
  assert (K1 : Rabs ((1 + e0) * (1 + e1) - 1) <= 2.001 * u).
  { replace ((1 + e0) * (1 + e1) - 1) with (e0 + e1 + e0 * e1) by ring.
    eapply Rle_trans; [apply Rabs_triang|]. eapply Rle_trans.
    apply Rplus_le_compat_r. apply Rabs_triang. rewrite Rabs_mult.
    assert (Rabs e0 * Rabs e1 <= u * u) by (apply Rmult_le_compat; auto using Rabs_pos). lra. }
  split; [exact K1|].
  replace ((1 + e0) * (1 + e1) * (1 + e2) - 1)
    with (((1 + e0) * (1 + e1) - 1) + e2 + ((1 + e0) * (1 + e1) - 1) * e2) by ring.
  eapply Rle_trans; [apply Rabs_triang|]. eapply Rle_trans.
  apply Rplus_le_compat_r. apply Rabs_triang. rewrite Rabs_mult.
  assert (Rabs ((1 + e0) * (1 + e1) - 1) * Rabs e2 <= 2.001 * u * u)
    by (apply Rmult_le_compat; auto using Rabs_pos). lra.
Qed.

Section T.
Variables (n : nat) (lo up : F64).
Hypothesis Hn : (2 <= n)%nat.
Hypothesis Hb : (Z.of_nat n <= 2 ^ 53)%Z.
Hypothesis Pl : plain_bound lo.
Hypothesis Pu : plain_bound up.
Hypothesis Hlt : B2R lo <= B2R up.

Let N := IZR (Z.of_nat (n - 1)).
Let D := B2R up - B2R lo.
Let h := bpow radix2 (-1075).

Lemma N_ge : 1 <= N.
Proof. apply IZR_le. lia. Qed.
Lemma N_le : N <= 2 ^ 53.
Proof. unfold N. replace (2 ^ 53) with (IZR (2 ^ 53)) by (rewrite pow_IZR; reflexivity). apply IZR_le. lia. Qed.
Lemma h_small : 0 < h /\ N * h <= / 2.
Proof.
  unfold h. assert (H : 0 < bpow radix2 (-1075)) by apply bpow_gt_0. split; [exact H|].
  apply Rle_trans with (2 ^ 53 * bpow radix2 (-1075)); [apply Rmult_le_compat_r; [lra|exact N_le]|].
  replace (2 ^ 53) with (bpow radix2 53) by (change (bpow radix2 53) with (IZR (2 ^ 53)); rewrite pow_IZR; reflexivity).
  rewrite <- bpow_plus. apply Rle_trans with (bpow radix2 (-1)); [apply bpow_le; lia|]. right. reflexivity.
Qed.
Lemma D_bound : 0 <= D <= 2 ^ 801.
Proof.
  destruct Pl as (_ & A). destruct Pu as (_ & B). apply Rabs_le_inv in A, B. unfold D.
  change (2 ^ 801) with (2 * 2 ^ 800). lra.
Qed.
Lemma big : 2 ^ 801 * 2 + 2 ^ 800 + 4 <= 2 ^ 900.
Proof.
  apply Rle_trans with (2 ^ 805); [|apply pow2_le; lia].
  change (2 ^ 805) with (2 * (2 * (2 * (2 * 2 ^ 801)))). change (2 ^ 801) with (2 * 2 ^ 800).
  pose proof (pow_R1_Rle 2 800 ltac:(lra)). lra.
Qed.

(** The step. *)
Lemma step_f : is_finite (ufd n lo up) = true /\ exists e0 e1 t1, Rabs e0 <= u /\ Rabs e1 <= u /\ Rabs t1 <= h /\
  B2R (ufd n lo up) = D / N * ((1 + e0) * (1 + e1)) + t1.
Proof.
  pose proof N_ge as NG. pose proof D_bound as DB. pose proof big as BG. pose proof u_tiny as U.
  assert (DA : Rabs D <= 2 ^ 801) by (rewrite Rabs_pos_eq; lra).
  destruct Pl as (Fl & _). destruct Pu as (Fu & _).
  assert (P8 : 0 < 2 ^ 800) by apply p2. assert (P81 : 0 < 2 ^ 801) by apply p2.
  destruct (finite_sub up lo Fu Fl) as (Fs & Es); [fold D; lra|].
  destruct (f_of_small (Z.of_nat (n - 1)) ltac:(lia)) as (FN & EN). fold N in EN.
  destruct (rnd_sub_err up lo) as (e0 & H0 & E0). fold D in E0, Es. rewrite E0 in Es.
  pose proof (abs_of _ _ H0) as A0.
  assert (S2 : Rabs (B2R (fsub up lo)) <= 2 ^ 801 * 2).
  { rewrite Es, Rabs_mult. apply Rmult_le_compat; auto using Rabs_pos. apply Rabs_le. lra. }
  destruct (finite_div (fsub up lo) (f_of (Z.of_nat (n - 1)) 0) Fs) as (Fd & Ed).
  - rewrite EN. lra.
  - rewrite EN. unfold Rdiv. rewrite Rabs_mult. rewrite (Rabs_pos_eq (/ N)) by (apply Rlt_le, Rinv_0_lt_compat; lra).
    assert (/ N <= 1) by (rewrite <- Rinv_1; apply Rinv_le_contravar; lra).
    apply Rle_trans with (Rabs (B2R (fsub up lo)) * 1); [apply Rmult_le_compat_l; auto using Rabs_pos|]. lra.
  - split; [exact Fd|]. rewrite EN in Ed. destruct (rnd_err (B2R (fsub up lo) / N)) as (e1 & t1 & H1 & T1 & E1).
    exists e0, e1, t1. repeat split; auto. unfold ufd. rewrite Ed, E1, Es. field. lra.
Qed.

Lemma step_near : Rabs (B2R (ufd n lo up) - D / N) <= 2.001 * u * (D / N) + h.
Proof.
  destruct step_f as (_ & e0 & e1 & t1 & H0 & H1 & T1 & ->). destruct (three e0 e1 0 H0 H1) as (K & _).
  { rewrite Rabs_R0. pose proof u_tiny; lra. }
  pose proof N_ge. pose proof D_bound. assert (0 <= D / N) by (apply Rmult_le_pos; [lra|apply Rlt_le, Rinv_0_lt_compat; lra]).
  replace (D / N * ((1 + e0) * (1 + e1)) + t1 - D / N) with (D / N * ((1 + e0) * (1 + e1) - 1) + t1) by ring.
  eapply Rle_trans; [apply Rabs_triang|]. apply Rplus_le_compat; [|exact T1].
  rewrite Rabs_mult, (Rabs_pos_eq (D / N)), Rmult_comm by auto. apply Rmult_le_compat_r; auto.
Qed.

Lemma step_pos : 0 <= B2R (ufd n lo up).
Proof.
  destruct step_f as (F & _). pose proof N_ge as NG. unfold ufd in *.
  destruct (f_of_small (Z.of_nat (n - 1)) ltac:(lia)) as (FN & EN). fold N in EN.
  destruct (fdiv_R _ _ F) as (Fs & E); [rewrite EN; lra|]. rewrite E, EN.
  destruct (fsub_R _ _ Fs) as (_ & _ & Es).
  apply rnd_pos. apply Rmult_le_pos; [|apply Rlt_le, Rinv_0_lt_compat; lra]. rewrite Es. apply rnd_pos. lra.
Qed.

(** Node i. *)
Lemma node_f : forall i, (i < n)%nat ->
  is_finite (ufx n lo up i) = true /\
  Rabs (B2R (ufx n lo up i) - (B2R lo + IZR (Z.of_nat i) * (D / N)))
  <= u * Rabs (B2R lo + IZR (Z.of_nat i) * (D / N)) + 4 * u * (IZR (Z.of_nat i) * (D / N)) + (IZR (Z.of_nat i) + 1) * (2 * h).
Proof.
  intros i Hi. pose proof N_ge as NG. pose proof D_bound as DB. pose proof big as BG. pose proof u_tiny as U.
  destruct h_small as (H0h & Hh). destruct step_f as (Fd & e0 & e1 & t1 & H0 & H1 & T1 & Ed).
  destruct (f_of_small (Z.of_nat i) ltac:(lia)) as (Fi & Ei).
  set (I := IZR (Z.of_nat i)) in *. assert (I0 : 0 <= I) by (apply IZR_le; lia).
  assert (IN : I <= N) by (apply IZR_le; lia).
  assert (P8 : 0 < 2 ^ 800) by apply p2. assert (P81 : 0 < 2 ^ 801) by apply p2.
  set (s := I * (D / N)).
  assert (S0 : 0 <= D / N) by (apply Rmult_le_pos; [lra|apply Rlt_le, Rinv_0_lt_compat; lra]).
  assert (SD : 0 <= s <= D).
  { unfold s. split; [apply Rmult_le_pos; auto|]. replace D with (N * (D / N)) at 2 by (field; lra). apply Rmult_le_compat_r; auto. }
  destruct (three e0 e1 0 H0 H1) as (K2 & _); [rewrite Rabs_R0; lra|].
  set (k2 := (1 + e0) * (1 + e1) - 1) in *.
  assert (It : Rabs (I * t1) <= I * h) by (rewrite Rabs_mult, (Rabs_pos_eq I) by auto; apply Rmult_le_compat_l; auto).
  assert (Ih : I * h <= / 2) by (eapply Rle_trans; [|exact Hh]; apply Rmult_le_compat_r; lra).
  assert (Pe : I * B2R (ufd n lo up) = s * (1 + k2) + I * t1) by (rewrite Ed; unfold s, k2; ring).
  assert (Pb : Rabs (I * B2R (ufd n lo up)) <= 1.01 * 2 ^ 801 + 1).
  { rewrite Pe. eapply Rle_trans; [apply Rabs_triang|]. rewrite Rabs_mult, (Rabs_pos_eq s) by lra.
    pose proof (abs_of _ _ K2). assert (Rabs (1 + k2) <= 1.01) by (apply Rabs_le; lra).
    assert (s * Rabs (1 + k2) <= 2 ^ 801 * 1.01) by (apply Rmult_le_compat; auto using Rabs_pos; lra). lra. }
  assert (Fp : is_finite (fmul (f_of (Z.of_nat i) 0) (ufd n lo up)) = true).
  { apply finite_mul; auto. rewrite Ei. lra. }
  destruct (fmul_R _ _ Fp) as (_ & _ & Ep). rewrite Ei in Ep.
  destruct (rnd_err (I * B2R (ufd n lo up))) as (e2 & t2 & H2 & T2 & E2). rewrite E2 in Ep.
  fold h in T2. pose proof (abs_of _ _ H2) as A2.
  assert (Pb' : Rabs (B2R (fmul (f_of (Z.of_nat i) 0) (ufd n lo up))) <= 1.1 * 2 ^ 801 + 3).
  { rewrite Ep. eapply Rle_trans; [apply Rabs_triang|]. rewrite Rabs_mult.
    assert (Rabs (1 + e2) <= 1.01) by (apply Rabs_le; lra).
    assert (Rabs (I * B2R (ufd n lo up)) * Rabs (1 + e2) <= (1.01 * 2 ^ 801 + 1) * 1.01) by (apply Rmult_le_compat; auto using Rabs_pos).
    assert (h <= / 2) by (eapply Rle_trans; [|exact Hh]; rewrite <- (Rmult_1_l h) at 1; apply Rmult_le_compat_r; lra). lra. }
  destruct Pl as (Fl & Bl).
  assert (Fx : is_finite (ufx n lo up i) = true).
  { unfold ufx. apply finite_add; auto. eapply Rle_trans; [apply Rabs_triang|]. lra. }
  split; [exact Fx|]. unfold ufx in *. destruct (fadd_R _ _ Fx) as (_ & _ & Ex).
  destruct (rnd_add_err lo (fmul (f_of (Z.of_nat i) 0) (ufd n lo up))) as (e3 & H3 & E3). rewrite E3 in Ex. rewrite Ex, Ep, Pe.
  destruct (three e0 e1 e2 H0 H1 H2) as (_ & K3).
  set (a := B2R lo) in *.
  set (k3 := (1 + e0) * (1 + e1) * (1 + e2) - 1) in *.
  replace ((a + ((s * (1 + k2) + I * t1) * (1 + e2) + t2)) * (1 + e3) - (a + s))
    with (e3 * (a + s) + (s * k3 + I * t1 * (1 + e2) + t2) * (1 + e3)) by (unfold k3, k2; ring).
  pose proof (abs_of _ _ H3) as A3. clearbody s k3 k2 a I.
  assert (B2 : Rabs (1 + e2) <= 1.001) by (apply Rabs_le; lra).
  assert (B3 : Rabs (1 + e3) <= 1.001) by (apply Rabs_le; lra).
  assert (C1 : Rabs (s * k3) <= s * (3.01 * u)) by (rewrite Rabs_mult, (Rabs_pos_eq s) by lra; apply Rmult_le_compat_l; lra).
  assert (C2 : Rabs (I * t1 * (1 + e2)) <= I * h * 1.001) by (rewrite Rabs_mult; apply Rmult_le_compat; auto using Rabs_pos).
  assert (C3 : Rabs (s * k3 + I * t1 * (1 + e2) + t2) <= s * (3.01 * u) + I * h * 1.001 + h).
  { eapply Rle_trans; [apply Rabs_triang|]. apply Rplus_le_compat; auto.
    eapply Rle_trans; [apply Rabs_triang|]. apply Rplus_le_compat; auto. }
  eapply Rle_trans; [apply Rabs_triang|]. rewrite !Rabs_mult.
  assert (C4 : Rabs e3 * Rabs (a + s) <= u * Rabs (a + s)) by (apply Rmult_le_compat_r; auto using Rabs_pos).
  assert (C5 : Rabs (s * k3 + I * t1 * (1 + e2) + t2) * Rabs (1 + e3) <= (s * (3.01 * u) + I * h * 1.001 + h) * 1.001)
    by (apply Rmult_le_compat; auto using Rabs_pos).
  assert (0 <= s * u) by (apply Rmult_le_pos; lra). assert (0 <= I * h) by (apply Rmult_le_pos; lra).
  lra.
Qed.

(** Half a step. *)
Lemma half_step : forall m, let w := fmul (ufd n lo up) (@shalf (FS m)) in
  is_finite w = true /\ 0 <= B2R w /\ Rabs (B2R w - D / N / 2) <= 4 * u * (D / N / 2) + 2 * h.
Proof.
  intros m w. destruct (half_f m) as (Fh & Eh). destruct step_f as (Fd & e0 & e1 & t1 & H0 & H1 & T1 & Ed).
  pose proof step_pos as SP. pose proof step_near as SN. pose proof u_tiny as U. pose proof D_bound as DB. pose proof big as BG.
  pose proof N_ge as NG. destruct h_small as (H0h & Hh).
  assert (P8 : 0 < 2 ^ 800) by apply p2.
  assert (S0 : 0 <= D / N) by (apply Rmult_le_pos; [lra|apply Rlt_le, Rinv_0_lt_compat; lra]).
  assert (SD : D / N <= D).
  { unfold Rdiv. rewrite <- (Rmult_1_r D) at 2. apply Rmult_le_compat_l; [lra|]. rewrite <- Rinv_1. apply Rinv_le_contravar; lra. }
  assert (H1h : h <= / 2) by (eapply Rle_trans; [|exact Hh]; rewrite <- (Rmult_1_l h) at 1; apply Rmult_le_compat_r; lra).
  assert (UD : u * (D / N) <= / 10 ^ 15 * (D / N)) by (apply Rmult_le_compat_r; lra).
  assert (SB : B2R (ufd n lo up) <= 1.01 * 2 ^ 801 + 1) by (apply abs_of in SN; lra).
  assert (P81 : 0 < 2 ^ 801) by apply p2.
  assert (Fw : is_finite w = true).
  { unfold w. apply finite_mul; auto. rewrite Eh, Rabs_pos_eq by (apply Rmult_le_pos; lra). lra. }
  split; [exact Fw|]. unfold w in *. destruct (fmul_R _ _ Fw) as (_ & _ & Ew). rewrite Eh in Ew. rewrite Ew.
  split; [apply rnd_pos; apply Rmult_le_pos; lra|].
  destruct (rnd_err (B2R (ufd n lo up) * / 2)) as (e2 & t2 & H2 & T2 & ->). fold h in T2. rewrite Ed.
  destruct (three e0 e1 e2 H0 H1 H2) as (_ & K3). set (k3 := (1 + e0) * (1 + e1) * (1 + e2) - 1) in *.
  set (s := D / N) in *.
  replace ((s * ((1 + e0) * (1 + e1)) + t1) * / 2 * (1 + e2) + t2 - s / 2)
    with (s / 2 * k3 + (t1 * (1 + e2) / 2 + t2)) by (unfold k3; field).
  pose proof (abs_of _ _ H2) as A2. clearbody k3 s.
  eapply Rle_trans; [apply Rabs_triang|]. apply Rplus_le_compat.
  - rewrite Rabs_mult, (Rabs_pos_eq (s / 2)), Rmult_comm by lra. apply Rmult_le_compat_r; lra.
  - eapply Rle_trans; [apply Rabs_triang|]. unfold Rdiv. rewrite !Rabs_mult, (Rabs_pos_eq (/ 2)) by lra.
    assert (Rabs t1 * Rabs (1 + e2) <= h * 1.001) by (apply Rmult_le_compat; auto using Rabs_pos; apply Rabs_le; lra). lra.
Qed.
End T.
