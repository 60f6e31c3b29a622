(** Stored Gauss-Legendre and Gauss-Lobatto rules on finite intervals. *)
From Coq Require Import List Bool Arith ZArith Lia Reals Lra Psatz.
From Coquelicot Require Import Coquelicot.
From Flocq Require Import IEEE754.BinarySingleNaN.
From Verif Require Import Base.Outcome Base.Scalar Base.RScalar Base.FScalar Model.Primitive Model.BoundFloat
  Spec.Sums Spec.RealRules Spec.LegendreSpec Spec.ErrorSpec Spec.FloatSpec Spec.LibmSpec Spec.BoundFloatSpec Spec.MappedSpec
  Proofs.GLRule Proofs.LobattoRule Proofs.GLFloatRule Proofs.LobFloatRule Proofs.GaussError Proofs.GaussErrorFloat Proofs.Mapped.
Import ListNotations.
Local Open Scope R_scope.

Lemma one_int : RInt (fun _ : R => 1) (-1) 1 = 2.
Proof. rewrite RInt_const. unfold scal; simpl; unfold mult; simpl. ring. Qed.

Lemma sqrt_16384 : forall N, 0 <= N <= 16384 -> sqrt N <= 128.
Proof. intros N H. replace 128 with (sqrt (128 * 128)) by (apply sqrt_square; lra). apply sqrt_le_1_alt. lra. Qed.

Lemma small_round : forall N K, 0 <= N <= 16384 -> 0 <= K <= 400 -> K * N ^ 2 * sqrt N * ulp53 <= 1.
Proof.
  intros N K H HK. pose proof (sqrt_16384 N H). pose proof (sqrt_pos N). unfold ulp53.
  assert (A : K * N ^ 2 * sqrt N <= 400 * 16384 ^ 2 * 128).
  { apply Rmult_le_compat; try lra; [apply Rmult_le_pos; [lra|apply pow_le; lra]|].
    apply Rmult_le_compat; try lra; [apply pow_le; lra|]. apply pow_incr. lra. }
  apply Rmult_le_reg_r with (2 ^ 53); [apply pow_lt; lra|]. rewrite Rmult_assoc, Rinv_l, Rmult_1_r by (apply pow_nonzero; lra).
  eapply Rle_trans; [exact A|]. rewrite Rmult_1_l. simpl. lra.
Qed.

Lemma one_within : within (-1) 1 0 (fun _ => 1) (peval [1]).
Proof. intros x _. simpl. rewrite Rmult_0_r, Rplus_0_r. replace (1 - 1) with 0 by ring. rewrite Rabs_R0. lra. Qed.

Lemma one_bound : forall x : R, -1 <= x <= 1 -> Rabs 1 <= 1.
Proof. intros. rewrite Rabs_R1. lra. Qed.

Lemma one_lip : lipschitz (-1) 1 0 (fun _ => 1).
Proof. intros x y _ _. replace (1 - 1) with 0 by ring. rewrite Rabs_R0. lra. Qed.

Section Legendre.
Variables (m : libm) (d : R) (n : nat) (qf : list F64 * list F64).
Hypothesis Hm : accurate m d.
Hypothesis Hd : d * (INR n + 1) ^ 2 <= 1 / 2000.
Hypothesis n1 : (1 <= n)%nat.
Hypothesis Hn : (Z.of_nat n < 16384)%Z.
Hypothesis G : @gl_generate (FS m) n = Ok qf.

Lemma gl_N : 0 <= INR n + 1 <= 16384.
Proof. pose proof (pos_INR n). pose proof (nat16 n Hn). lra. Qed.

Lemma gl_stored : stored n qf.
Proof.
  destruct (gauss_exists n n1) as (g & Hg). destruct (gl_float m d n qf g Hm Hd n1 Hn G Hg) as (F & (Lx & Lw & _ & PX & PW) & _).
  unfold stored. split; [exact F|]. unfold real_rule in Lx, Lw. cbn [fst snd] in Lx, Lw. rewrite map_length in Lx, Lw.
  split; [exact Lx|]. split; [exact Lw|]. split; [intros x Hx; specialize (PX x Hx); lra|]. split; [exact PW|].
  pose proof (gl_best m d n qf Hm Hd n1 Hn G (fun _ => 1) [1] 1 0 0 one_bound one_lip ltac:(unfold deg_le; simpl; lia) one_within) as E.
  rewrite one_int in E. apply Rabs_le_between in E. pose proof (small_round (INR n + 1) 400 gl_N ltac:(lra)) as S.
  replace (4 * 0 + (400 * (INR n + 1) ^ 2 * 1 + 32 * 0) * sqrt (INR n + 1) * ulp53) with (400 * (INR n + 1) ^ 2 * sqrt (INR n + 1) * ulp53) in E by ring. lra.
Qed.

Section Interval.
Variables (dbg : bool) (lo up : F64) (q' : list F64 * list F64).
Hypothesis Hl : plain_bound lo.
Hypothesis Hu : plain_bound up.
Hypothesis Lt : Bltb lo up = true.
Hypothesis Mp : maps_f64 m dbg lo up qf q'.
Let h := (B2R up - B2R lo) / 2.

Lemma gl_map_smooth : forall F M K L, smooth (B2R lo) (B2R up) (2 * n) F M ->
  (forall x, B2R lo - spill lo up <= x <= B2R up + spill lo up -> Rabs (F 0%nat x) <= K) ->
  lipschitz (B2R lo - spill lo up) (B2R up + spill lo up) L (F 0%nat) ->
  Rabs (apply_rule (real_rule q') (F 0%nat) - RInt (F 0%nat) (B2R lo) (B2R up)) <=
    8 * M * h ^ (2 * n + 1) / (2 ^ (2 * n) * INR (fact (2 * n))) +
    (h * (400 * (INR n + 1) ^ 2 * K + 32 * (h * L)) * sqrt (INR n + 1) * ulp53 + move_error n lo up K L).
Proof.
  intros F M K L S FK FL.
  destruct (smooth_approx (2 * n) _ _ ltac:(lia) (comp_smooth lo up Hl Hu Lt (2 * n) F M S)) as (p & Lp & W).
  fold h in W. set (e := 2 * (h ^ (2 * n) * M) / (2 ^ (2 * n) * INR (fact (2 * n)))) in *.
  assert (E := gl_best m d n qf Hm Hd n1 Hn G _ p K (h * L) e (comp_bound lo up Hl Hu Lt (F 0%nat) K FK) (comp_lip lo up Hl Hu Lt (F 0%nat) L FL)
    ltac:(unfold deg_le; lia)).
  fold h in E.
  assert (W' : within (-1) 1 e (fun x => F 0%nat (h * x + (B2R up + B2R lo) / 2)) (peval p)).
  { intros x Hx. specialize (W x Hx). cbv beta in W. rewrite pow_O, Rmult_1_l in W. exact W. }
  specialize (E W').
  eapply Rle_trans; [apply (mapped_error m dbg lo up n qf Hl Hu Lt gl_stored q' (F 0%nat) K L _ Mp FK FL E)|].
  fold h. unfold e. apply Req_le. rewrite pow_add, pow_1. field. split; [apply not_0_INR, fact_neq_0|apply pow_nonzero; lra].
Qed.

Lemma gl_map_lip : forall f K L,
  (forall x, B2R lo - spill lo up <= x <= B2R up + spill lo up -> Rabs (f x) <= K) ->
  lipschitz (B2R lo - spill lo up) (B2R up + spill lo up) L f ->
  Rabs (apply_rule (real_rule q') f - RInt f (B2R lo) (B2R up)) <=
    4 * L * h ^ 2 / sqrt (INR (2 * n - 1)) +
    (h * (400 * (INR n + 1) ^ 2 * K + 32 * (h * L)) * sqrt (INR n + 1) * ulp53 + move_error n lo up K L).
Proof.
  intros f K L FK FL.
  assert (E := gl_lip m d n qf Hm Hd n1 Hn G _ K (h * L) (comp_bound lo up Hl Hu Lt f K FK) (comp_lip lo up Hl Hu Lt f L FL)).
  fold h in E.
  eapply Rle_trans; [apply (mapped_error m dbg lo up n qf Hl Hu Lt gl_stored q' f K L _ Mp FK FL E)|].
  fold h. apply Req_le. field. apply Rgt_not_eq, sqrt_lt_R0, lt_0_INR. lia.
Qed.
End Interval.
End Legendre.

Section Lobatto.
Variables (m : libm) (d : R) (n : nat) (qf : list F64 * list F64).
Hypothesis Hm : accurate m d.
Hypothesis Hd : d * INR n ^ 2 <= 1 / 2000.
Hypothesis n2 : (2 <= n)%nat.
Hypothesis Hn : (Z.of_nat n <= 16384)%Z.
Hypothesis G : @lob_generate (FS m) n = Ok qf.

Lemma lob_N : 0 <= INR n <= 16384.
Proof. split; [apply pos_INR|]. rewrite INR_IZR_INZ. apply IZR_le. exact Hn. Qed.

Lemma lob_stored : stored n qf.
Proof.
  destruct (lobatto_exists n n2) as (g & Hg). destruct (lob_float m d n qf g Hm Hd n2 Hn G Hg) as (F & GC & _).
  pose proof GC as (Lx & Lw & _ & _ & _ & PW).
  unfold stored. split; [exact F|]. unfold real_rule in Lx, Lw. cbn [fst snd] in Lx, Lw. rewrite map_length in Lx, Lw.
  split; [exact Lx|]. split; [exact Lw|]. split; [intros x Hx; apply (closed_nodes n _ x n2 GC Hx)|]. split; [exact PW|].
  pose proof (lob_best m d n qf Hm Hd n2 Hn G (fun _ => 1) [1] 1 0 0 one_bound one_lip ltac:(unfold deg_le; simpl; lia) one_within) as E.
  rewrite one_int in E. apply Rabs_le_between in E. pose proof (small_round (INR n) 90 lob_N ltac:(lra)) as S.
  replace (4 * 0 + (90 * INR n ^ 2 * 1 + 48 * 0) * sqrt (INR n) * ulp53) with (90 * INR n ^ 2 * sqrt (INR n) * ulp53) in E by ring. lra.
Qed.

Section Interval.
Variables (dbg : bool) (lo up : F64) (q' : list F64 * list F64).
Hypothesis Hl : plain_bound lo.
Hypothesis Hu : plain_bound up.
Hypothesis Lt : Bltb lo up = true.
Hypothesis Mp : maps_f64 m dbg lo up qf q'.
Let h := (B2R up - B2R lo) / 2.

Lemma lob_map_smooth : forall F M K L, smooth (B2R lo) (B2R up) (2 * n - 2) F M ->
  (forall x, B2R lo - spill lo up <= x <= B2R up + spill lo up -> Rabs (F 0%nat x) <= K) ->
  lipschitz (B2R lo - spill lo up) (B2R up + spill lo up) L (F 0%nat) ->
  Rabs (apply_rule (real_rule q') (F 0%nat) - RInt (F 0%nat) (B2R lo) (B2R up)) <=
    8 * M * h ^ (2 * n - 1) / (2 ^ (2 * n - 2) * INR (fact (2 * n - 2))) +
    (h * (90 * INR n ^ 2 * K + 48 * (h * L)) * sqrt (INR n) * ulp53 + move_error n lo up K L).
Proof.
  intros F M K L S FK FL.
  destruct (smooth_approx (2 * n - 2) _ _ ltac:(lia) (comp_smooth lo up Hl Hu Lt (2 * n - 2) F M S)) as (p & Lp & W).
  fold h in W. set (e := 2 * (h ^ (2 * n - 2) * M) / (2 ^ (2 * n - 2) * INR (fact (2 * n - 2)))) in *.
  assert (E := lob_best m d n qf Hm Hd n2 Hn G _ p K (h * L) e (comp_bound lo up Hl Hu Lt (F 0%nat) K FK) (comp_lip lo up Hl Hu Lt (F 0%nat) L FL)
    ltac:(unfold deg_le; lia)).
  fold h in E.
  assert (W' : within (-1) 1 e (fun x => F 0%nat (h * x + (B2R up + B2R lo) / 2)) (peval p)).
  { intros x Hx. specialize (W x Hx). cbv beta in W. rewrite pow_O, Rmult_1_l in W. exact W. }
  specialize (E W').
  eapply Rle_trans; [apply (mapped_error m dbg lo up n qf Hl Hu Lt lob_stored q' (F 0%nat) K L _ Mp FK FL E)|].
  fold h. unfold e. replace (2 * n - 1)%nat with (2 * n - 2 + 1)%nat by lia. apply Req_le. rewrite pow_add, pow_1. field. split; [apply not_0_INR, fact_neq_0|apply pow_nonzero; lra].
Qed.

Lemma lob_map_lip : forall f K L,
  (forall x, B2R lo - spill lo up <= x <= B2R up + spill lo up -> Rabs (f x) <= K) ->
  lipschitz (B2R lo - spill lo up) (B2R up + spill lo up) L f ->
  Rabs (apply_rule (real_rule q') f - RInt f (B2R lo) (B2R up)) <=
    4 * L * h ^ 2 / sqrt (INR (2 * n - 3)) +
    (h * (90 * INR n ^ 2 * K + 48 * (h * L)) * sqrt (INR n) * ulp53 + move_error n lo up K L).
Proof.
  intros f K L FK FL.
  assert (E := lob_lip m d n qf Hm Hd n2 Hn G _ K (h * L) (comp_bound lo up Hl Hu Lt f K FK) (comp_lip lo up Hl Hu Lt f L FL)).
  fold h in E.
  eapply Rle_trans; [apply (mapped_error m dbg lo up n qf Hl Hu Lt lob_stored q' f K L _ Mp FK FL E)|].
  fold h. apply Req_le. field. apply Rgt_not_eq, sqrt_lt_R0, lt_0_INR. lia.
Qed.
End Interval.
End Lobatto.
