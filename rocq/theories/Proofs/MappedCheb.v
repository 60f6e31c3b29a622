(** Stored Gauss-Chebyshev rules of the second kind on finite intervals. *)
From Coq Require Import List Bool Arith ZArith Lia Reals Lra Psatz.
From Coquelicot Require Import Coquelicot.
From Flocq Require Import IEEE754.BinarySingleNaN.
From Verif Require Import Base.Outcome Base.Scalar Base.RScalar Base.FScalar Model.Primitive Model.BoundFloat
  Spec.Sums Spec.RealRules Spec.ErrorSpec Spec.FloatSpec Spec.LibmSpec Spec.BoundFloatSpec Spec.MappedSpec
  Proofs.PrimitiveFacts Proofs.LegendreAngles Proofs.BoundFloat Proofs.ChebReal Proofs.ChebFloat Proofs.AngleErr Proofs.Mapped Proofs.MappedGauss Proofs.MappedEx.
Import ListNotations.
Local Open Scope R_scope.

Lemma PI_cube : PI ^ 3 <= 33.
Proof.
  pose proof PI_bounds. pose proof PI_RGT_0. apply Rle_trans with (3.2 ^ 3); [apply pow_incr; lra|lra].
Qed.

Lemma ln_20 : forall n, (1 <= n)%nat -> (Z.of_nat n <= 2 ^ 20)%Z -> ln (INR n) <= 1048576.
Proof.
  intros n n1 Hn. assert (P : 0 < INR n) by (apply lt_0_INR; lia).
  assert (B : INR n <= 1048576). { rewrite INR_IZR_INZ. apply IZR_le in Hn. exact Hn. }
  pose proof (exp_ineq1_le (ln (INR n))) as E. rewrite exp_ln in E by lra. lra.
Qed.

Section Second.
Variables (m : libm) (d : R) (n : nat) (qf : list F64 * list F64).
Hypothesis Hm : accurate m d.
Hypothesis Hd : d <= / 2 ^ 50.
Hypothesis n1 : (1 <= n)%nat.
Hypothesis Hn : (Z.of_nat n <= 2 ^ 20)%Z.
Hypothesis G : @gc2_generate (FS m) n = Ok qf.

Lemma d_small : d <= 1 / 2000.
Proof. eapply Rle_trans; [exact Hd|]. simpl. lra. Qed.

(** Against the integral over [-1,1]. *)
Lemma gc2_stored_error : forall F M0 M1 M2 L, smooth (-1) 1 2 F M2 -> (forall x, -1 <= x <= 1 -> Rabs (F 0%nat x) <= M0) ->
  (forall x, -1 <= x <= 1 -> Rabs (F 1%nat x) <= M1) -> lipschitz (-1) 1 L (F 0%nat) ->
  Rabs (apply_rule (real_rule qf) (F 0%nat) - RInt (F 0%nat) (-1) 1) <=
    PI ^ 3 * (M0 + 3 * M1 + M2) / (12 * INR (n + 1) ^ 2) + 8 * (1 + ln (INR n)) * (M0 * (2 * d + 56 * ulp53) + L * (d + 23 * ulp53)).
Proof.
  intros F M0 M1 M2 L S B0 B1 FL.
  assert (Q : exists q, @gc2_generate RS n = Ok q) by (rewrite gc2_real; eauto). destruct Q as (q & Hq).
  pose proof (gc2_second F M0 M1 M2 S B0 B1 n q Hq) as E.
  assert (T : tame 1 (F 0%nat) M0 L) by (split; [exact B0|exact FL]).
  pose proof (cheb_sum false m d n qf q (F 0%nat) M0 L Hm d_small n1 ltac:(lia) G Hq T) as C.
  replace (apply_rule (real_rule qf) (F 0%nat) - RInt (F 0%nat) (-1) 1) with
    ((apply_rule q (F 0%nat) - RInt (F 0%nat) (-1) 1) + (apply_rule (real_rule qf) (F 0%nat) - apply_rule q (F 0%nat))) by ring.
  eapply Rle_trans; [apply Rabs_triang|]. apply Rplus_le_compat; [exact E|exact C].
Qed.

Definition ones (k : nat) (_ : R) : R := match k with O => 1 | _ => 0 end.

Lemma gc2_stored : stored n qf.
Proof.
  assert (Q : exists q, @gc2_generate RS n = Ok q) by (rewrite gc2_real; eauto). destruct Q as (q & Hq).
  destruct (cheb_close false m d n qf q Hm d_small ltac:(lia) G Hq) as (F & X & _).
  destruct (cheb_good false m d n qf Hm Hd Hn G) as (Lx & Lw & _ & _ & PW).
  unfold stored. split; [exact F|]. unfold real_rule in Lx, Lw. cbn [fst snd] in Lx, Lw. rewrite map_length in Lx, Lw.
  split; [exact Lx|]. split; [exact Lw|]. split; [exact X|]. split; [exact PW|].
  assert (E := gc2_stored_error ones 1 0 0 0). cbn [ones] in E.
  assert (E' : Rabs (apply_rule (real_rule qf) (fun _ => 1) - RInt (fun _ => 1) (-1) 1) <=
    PI ^ 3 * (1 + 3 * 0 + 0) / (12 * INR (n + 1) ^ 2) + 8 * (1 + ln (INR n)) * (1 * (2 * d + 56 * ulp53) + 0 * (d + 23 * ulp53))).
  { apply E.
    - split; [|intros; simpl; rewrite Rabs_R0; lra]. intros k t _ _. destruct k; simpl; apply (is_derive_const (K := R_AbsRing) (V := R_NormedModule)).
    - intros. rewrite Rabs_R1. lra.
    - intros. rewrite Rabs_R0. lra.
    - exact one_lip. }
  rewrite one_int in E'. apply Rabs_le_between in E'.
  assert (A : PI ^ 3 * (1 + 3 * 0 + 0) / (12 * INR (n + 1) ^ 2) <= 0.7).
  { assert (2 <= INR (n + 1)) by (change 2 with (INR 2); apply le_INR; lia).
    assert (48 <= 12 * INR (n + 1) ^ 2) by (simpl; nra). pose proof PI_cube.
    apply Rmult_le_reg_r with (12 * INR (n + 1) ^ 2); [lra|]. unfold Rdiv. rewrite Rmult_assoc, Rinv_l by lra. lra. }
  pose proof (ln_20 n n1 Hn) as B. pose proof (acc_pos m d Hm) as d0.
  assert (l0 : 0 <= ln (INR n)). { rewrite <- ln_1. apply ln_le; [lra|]. change 1 with (INR 1). apply le_INR. lia. }
  assert (U : 2 * d + 56 * ulp53 <= / 10 ^ 12). { pose proof (proj2 u_tiny). unfold ulp53 in *. simpl in *. lra. }
  assert (P : 0 <= 2 * d + 56 * ulp53) by (pose proof ulp_pos; lra).
  assert (C : 8 * (1 + ln (INR n)) * (1 * (2 * d + 56 * ulp53) + 0 * (d + 23 * ulp53)) <= 0.1).
  { rewrite Rmult_1_l, Rmult_0_l, Rplus_0_r. apply Rle_trans with (8 * 1048577 * / 10 ^ 12); [|simpl; lra].
    apply Rmult_le_compat; lra. }
  lra.
Qed.

Section Interval.
Variables (dbg : bool) (lo up : F64) (q' : list F64 * list F64).
Hypothesis Hl : plain_bound lo.
Hypothesis Hu : plain_bound up.
Hypothesis Lt : Bltb lo up = true.
Hypothesis Mp : maps_f64 m dbg lo up qf q'.
Let h := (B2R up - B2R lo) / 2.

Lemma gc2_map_second : forall F M0 M1 M2 L, smooth (B2R lo) (B2R up) 2 F M2 ->
  (forall x, B2R lo <= x <= B2R up -> Rabs (F 1%nat x) <= M1) ->
  (forall x, B2R lo - spill lo up <= x <= B2R up + spill lo up -> Rabs (F 0%nat x) <= M0) ->
  lipschitz (B2R lo - spill lo up) (B2R up + spill lo up) L (F 0%nat) ->
  Rabs (apply_rule (real_rule q') (F 0%nat) - RInt (F 0%nat) (B2R lo) (B2R up)) <=
    h * (PI ^ 3 * (M0 + 3 * (h * M1) + h ^ 2 * M2) / (12 * INR (n + 1) ^ 2)) +
    (h * (8 * (1 + ln (INR n)) * (M0 * (2 * d + 56 * ulp53) + h * L * (d + 23 * ulp53))) + move_error n lo up M0 L).
Proof.
  intros F M0 M1 M2 L S B1 FK FL.
  pose proof (comp_smooth lo up Hl Hu Lt 2 F M2 S) as S'. pose proof (h_pos lo up Hl Hu Lt) as HP. fold h in S', HP.
  pose proof (comp_bound lo up Hl Hu Lt (F 0%nat) M0 FK) as B0. pose proof (comp_lip lo up Hl Hu Lt (F 0%nat) L FL) as L'. fold h in B0, L'.
  set (c := (B2R up + B2R lo) / 2) in *.
  assert (E : Rabs (apply_rule (real_rule qf) (fun x => F 0%nat (h * x + c)) - RInt (fun x => F 0%nat (h * x + c)) (-1) 1) <=
    PI ^ 3 * (M0 + 3 * (h * M1) + h ^ 2 * M2) / (12 * INR (n + 1) ^ 2) + 8 * (1 + ln (INR n)) * (M0 * (2 * d + 56 * ulp53) + h * L * (d + 23 * ulp53))).
  { assert (S2 : smooth (-1) 1 2 (fun k x => match k with O => F 0%nat (h * x + c) | _ => h ^ k * F k (h * x + c) end) (h ^ 2 * M2)).
    { destruct S' as (D & B). split; [|exact B]. intros k t Hk Ht. specialize (D k t Hk Ht). destruct k as [|k]; [|exact D].
      revert D. apply is_derive_ext. intros x. rewrite pow_O. apply Rmult_1_l. }
    apply (gc2_stored_error _ M0 (h * M1) (h ^ 2 * M2) (h * L) S2 B0); [|exact L'].
    intros x Hx. rewrite pow_1, Rabs_mult, (Rabs_pos_eq h) by lra. apply Rmult_le_compat_l; [lra|]. apply B1. apply (aff_in lo up Hl Hu Lt x Hx). }
  eapply Rle_trans; [apply (mapped_error m dbg lo up n qf Hl Hu Lt gc2_stored q' (F 0%nat) M0 L _ Mp FK FL E)|].
  fold h. apply Req_le. ring.
Qed.
End Interval.
End Second.

(** exp on [0,2] with a thousand stored points. *)
Lemma ln_small : forall n, (n = 1000)%nat -> 0 <= ln (INR n) <= 999.
Proof.
  intros n ->. assert (E : INR 1000 = 1000) by (rewrite INR_IZR_INZ; reflexivity). rewrite E. split.
  - rewrite <- ln_1. apply ln_le; lra.
  - pose proof (exp_ineq1_le (ln 1000)) as X. rewrite exp_ln in X by lra. lra.
Qed.

Lemma exp_int : RInt exp 0 2 = exp 2 - 1.
Proof.
  apply is_RInt_unique. replace (exp 2 - 1) with (minus (exp 2) (exp 0)) by (unfold minus, plus, opp; simpl; rewrite exp_0; ring).
  apply (is_RInt_derive exp exp).
  - intros; apply is_derive_exp.
  - intros; apply (ex_derive_continuous (V := R_NormedModule)). exists (exp x). apply is_derive_exp.
Qed.

Lemma ex_cheb_interval : exists qf q' : list F64 * list F64, @gc2_generate (FS rounded_libm) 1000 = Ok qf /\ maps_f64 rounded_libm true b0 b2 qf q' /\
  Rabs (apply_rule (real_rule q') exp - (exp 2 - 1)) <= / 1000.
Proof.
  destruct (gc2_generate (S := FS rounded_libm) 1000) as [qf| | | |] eqn:G; try (rewrite gc2_closed in G; discriminate).
  assert (D : / 2 ^ 54 <= / 2 ^ 50) by (apply Rinv_le_contravar; [apply pow_lt; lra|apply Rle_pow; [lra|lia]]).
  destruct b_plain as (P0 & P2 & L). assert (N : (Z.of_nat 1000 <= 2 ^ 20)%Z) by (vm_compute; discriminate).
  assert (N1 : (1 <= 1000)%nat) by lia.
  destruct (map_runs rounded_libm true b0 b2 1000 qf P0 P2 L (gc2_stored _ _ 1000 qf rounded_accurate D N1 N G)) as (q' & M).
  exists qf, q'. split; auto. split; auto. pose proof spill_small as SS. pose proof (spill_pos b0 b2) as SP.
  pose proof (gc2_map_second _ _ 1000 qf rounded_accurate D N1 N G true b0 b2 q' P0 P2 L M (fun _ => exp) 27 27 27 27) as E. cbv beta zeta in E.
  assert (Ex : forall x, B2R b0 - spill b0 b2 <= x <= B2R b2 + spill b0 b2 -> Rabs (exp x) <= 27).
  { intros x Hx. rewrite (proj2 b2_val) in Hx. apply exp_27. lra. }
  assert (Ez : forall x, B2R b0 <= x <= B2R b2 -> Rabs (exp x) <= 27) by (intros; apply Ex; lra).
  specialize (E (conj (fun _ t _ _ => is_derive_exp t) Ez) Ez Ex exp_lip).
  rewrite (proj2 b0_val), (proj2 b2_val), exp_int in E. eapply Rle_trans; [exact E|]. clear E.
  replace ((2 - 0) / 2) with 1 by lra.
  unfold move_error, extent. rewrite (proj2 b0_val), (proj2 b2_val), Rabs_R0, (Rabs_pos_eq 2), Rmax_right by lra.
  assert (S2 : spill b0 b2 <= / 10 ^ 13).
  { unfold spill, extent. rewrite (proj2 b0_val), (proj2 b2_val), Rabs_R0, (Rabs_pos_eq 2), Rmax_right by lra.
    pose proof tiny_lt. assert (ulp53 <= / 10 ^ 15) by (exact (proj2 u_tiny)). simpl in *. lra. }
  destruct (ln_small 1000 eq_refl) as (l0 & l1). set (l := ln (INR 1000)) in *.
  assert (E1 : INR 1000 = 1000) by (rewrite INR_IZR_INZ; reflexivity).
  assert (E2 : INR (1000 + 1) = 1001) by (rewrite INR_IZR_INZ; reflexivity). rewrite E2, E1.
  pose proof PI_cube as PC. assert (U : ulp53 <= / 10 ^ 15) by (exact (proj2 u_tiny)). pose proof ulp_pos as U0. pose proof tiny_lt as T.
  assert (V : 27 * (2 * / 2 ^ 54 + 56 * ulp53) + 1 * 27 * (/ 2 ^ 54 + 23 * ulp53) <= / 10 ^ 11) by (simpl in *; lra).
  assert (V0 : 0 <= 27 * (2 * / 2 ^ 54 + 56 * ulp53) + 1 * 27 * (/ 2 ^ 54 + 23 * ulp53)).
  { assert (0 < / 2 ^ 54) by (apply Rinv_0_lt_compat, pow_lt; lra). lra. }
  set (v := 27 * (2 * / 2 ^ 54 + 56 * ulp53) + 1 * 27 * (/ 2 ^ 54 + 23 * ulp53)) in *.
  assert (W : 8 * (1 + l) * v <= 8 * 1000 * / 10 ^ 11) by (apply Rmult_le_compat; lra).
  assert (A : PI ^ 3 * (27 + 3 * (1 * 27) + 1 ^ 2 * 27) / (12 * 1001 ^ 2) <= 0.0004).
  { apply Rmult_le_reg_r with (12 * 1001 ^ 2); [lra|]. unfold Rdiv. rewrite Rmult_assoc, Rinv_l by lra. lra. }
  simpl in *. lra.
Qed.
