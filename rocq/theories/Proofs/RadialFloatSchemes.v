(** C43: error bounds for the four radial schemes in binary64. *)
From Coq Require Import List Bool Arith ZArith Reals Lra Lia Psatz.
From Flocq Require Import IEEE754.BinarySingleNaN Core.
From Verif Require Import Base.Outcome Base.Scalar Base.RScalar Base.FScalar Model.Primitive Model.Radial
  Spec.RuleSpec Spec.RealRules Spec.FloatSpec Spec.LibmSpec Spec.RadialSpec Proofs.Tab Proofs.PrimitiveFacts Proofs.Sizes
  Proofs.FloatOps Proofs.FloatSphere Proofs.PiBounds Proofs.FloatErr Proofs.ChebReal Proofs.TrapReal Proofs.ChebFloat Proofs.RadialReal
  Proofs.RadialRule Proofs.RadialFloat Proofs.RadialFloatRule.
Import ListNotations.
Local Open Scope R_scope.

(** A stored weight times a computed Jacobian. *)
Lemma weight_mul : forall (wh jh : F64) w ew Jy Jx ej t' et, rel wh w ew -> rel jh Jy ej -> pw Jy 600 600 -> pw w 60 3 ->
  Jy = Jx * (1 + t') -> Rabs t' <= et -> ew <= 1 / 1000 -> ej <= 1 / 1000 ->
  rel (fmul wh jh) (w * Jx) ((ew + ej + ew * ej + u * (1 + ew) * (1 + ej)) + et + (ew + ej + ew * ej + u * (1 + ew) * (1 + ej)) * et).
Proof.
  intros wh jh w ew Jy Jx ej t' et Hw Hj PJ Pw E Ht He Hej.
  pose proof (pw_mul _ _ _ _ _ _ Pw PJ) as W. destruct (pw_ok _ _ _ W ltac:(lia) ltac:(lia)) as (T & B).
  apply (rel_trans _ (w * Jy) _ _ _ t'); auto; [apply rel_fmul; auto|rewrite E; ring].
Qed.
Lemma weight_err : forall ew ej et, 0 <= ew <= 1 / 1000 -> 0 <= ej <= 1 / 1000 -> 0 <= et <= 1 / 1000 ->
  (ew + ej + ew * ej + u * (1 + ew) * (1 + ej)) + et + (ew + ej + ew * ej + u * (1 + ew) * (1 + ej)) * et <= 1.01 * (ew + ej) + et + 1.01 * u.
Proof.
  intros ew ej et Hw Hj Ht. pose proof (err_mul ew ej Hw Hj) as M. pose proof u_pos. pose proof u_small.
  set (z := ew + ej + ew * ej + u * (1 + ew) * (1 + ej)) in *.
  assert (0 <= z).
  { unfold z. assert (0 <= ew * ej) by (apply Rmult_le_pos; lra). assert (0 <= u * (1 + ew) * (1 + ej)) by (repeat apply Rmult_le_pos; lra). lra. }
  assert (z * et <= z * (1 / 1000)) by (apply Rmult_le_compat_l; lra). lra.
Qed.
Lemma err_trans : forall e e', 0 <= e <= 1 / 1000 -> 0 <= e' <= 1 / 10 -> e + e' + e * e' <= 1.1 * e + e'.
Proof. intros. nra. Qed.
(** 1 - x^2 at the Chebyshev nodes. *)
Lemma cheb_cond : forall n i, (i < n)%nat -> let x := cos (th2 n i) in
  -1 < x < 1 /\ 2 <= (1 - x * x) * (INR (n + 1) * INR (n + 1)) /\ (1 - x * x) = sin (th2 n i) * sin (th2 n i) /\ 2 <= INR (n + 1) /\
  1.5 / INR (n + 1) <= sin (th2 n i) <= 1.
Proof.
  intros n i Hi x. assert (N : 2 <= INR (n + 1)) by (apply (le_INR 2); lia).
  pose proof pi_coarse as P. set (h := PI / INR (n + 1)).
  assert (h0 : 0 < h) by (apply Rdiv_lt_0_compat; lra).
  assert (Hh : h * INR (n + 1) = PI) by (unfold h; field; lra).
  assert (R0 : h <= th2 n i <= PI - h).
  { unfold th2. assert (1 <= INR (n - i)) by (apply (le_INR 1); lia). assert (INR (n - i) <= INR (n + 1) - 1).
    { rewrite plus_INR. simpl (INR 1). replace (INR n + 1 - 1) with (INR n) by ring. apply le_INR. lia. }
    replace (INR (n - i) * PI / INR (n + 1)) with (INR (n - i) * h) by (unfold h; field; lra). rewrite <- Hh. split; nra. }
  pose proof (sin_low (th2 n i) h ltac:(lra) R0) as S. pose proof (SIN_bound (th2 n i)) as SB.
  assert (E : 1 - x * x = sin (th2 n i) * sin (th2 n i)) by (unfold x; pose proof (sin2_cos2 (th2 n i)) as Q; unfold Rsqr in Q; lra).
  assert (Q : h / 2 * (h / 2) <= sin (th2 n i) * sin (th2 n i)) by (apply Rmult_le_compat; lra).
  split; [assert (0 < 1 - x * x) by (rewrite E; nra); nra|]. split; [|split; [exact E|split; [exact N|]]].
  - rewrite E. set (K := INR (n + 1)) in *. assert (K * K * (h / 2 * (h / 2)) <= K * K * (sin (th2 n i) * sin (th2 n i))) by (apply Rmult_le_compat_l; nra).
    replace (K * K * (h / 2 * (h / 2))) with (h * K * (h * K) / 4) in H by field. rewrite Hh in H. nra.
  - split; [|lra]. apply Rle_trans with (h / 2); [|exact S]. unfold h, Rdiv. rewrite (Rmult_comm (PI * _)), <- Rmult_assoc.
    apply Rmult_le_compat_r; [left; apply Rinv_0_lt_compat; lra|lra].
Qed.
Section ChebRules.
Variables (m : libm) (d : R) (t : rtraits (FS m)) (i : nat).
Hypotheses (A : accurate m d) (Hd : d <= / 2 ^ 50) (Hn : (Z.of_nat (rt_npts t) <= 2 ^ 18)%Z)
  (Hb : base_inclusive t = false) (Hi : (i < rt_npts t)%nat).
Let n := rt_npts t.
Let N := INR (n + 1).
Let xh : F64 := @base_pt (FS m) t (i + base_off t).
Let wh : F64 := @base_wt (FS m) t (i + base_off t).
Let x := cos (th2 n i).
Let w := PI / INR (n + 1) * sin (th2 n i).
Let q := (d + 23 * u) / (1 - x * x).
Lemma cheb_entry : is_finite xh = true /\ -1 < x < 1 /\ Rabs (B2R xh - x) <= d + 23 * u /\
  (0 < q /\ q <= (d / 2 + 11.5 * u) * (N * N)) /\ (2 <= N /\ N <= 2 ^ 18 + 1) /\
  rel wh w ((d + 28 * u) * (N * N)) /\ pw w 60 3 /\ (d + 28 * u) * (N * N) <= 1 / 3000 /\ 1 / (N * N) <= 1 + x.
Proof.
  assert (d1 : d <= 1 / 2000) by lra. pose proof (acc_pos m d A) as d0. pose proof u_pos as U.
  destruct (cheb_base m d t i A d1 ltac:(lia) Hb Hi) as ((F & X) & B & (Fw & W)).
  destruct (cheb_cond n i Hi) as (Rx & C & E & N2 & S).
  change (cos (th2 n i)) with x in Rx, C, E. change (cos (th2 (rt_npts t) i)) with x in X, W. change (INR (n + 1)) with N in C, N2, S.
  change (PI / INR (rt_npts t + 1) * sin (th2 (rt_npts t) i)) with w in W.
  assert (Nb : N <= 2 ^ 18 + 1).
  { unfold N. rewrite plus_INR. simpl (INR 1). apply Rplus_le_compat_r. rewrite INR_IZR_INZ, pow_IZR. apply IZR_le. exact Hn. }
  assert (NN : N * N <= (2 ^ 18 + 1) * (2 ^ 18 + 1)) by (apply Rmult_le_compat; lra).
  assert (I : 0 < / (1 - x * x) <= N * N / 2).
  { assert (0 < 1 - x * x) by nra. split; [apply Rinv_0_lt_compat; auto|]. apply Rmult_le_reg_l with (1 - x * x); auto. rewrite Rinv_r by lra. lra. }
  assert (Q : 0 < q /\ q <= (d / 2 + 11.5 * u) * (N * N)).
  { unfold q, Rdiv in *. split; [apply Rmult_lt_0_compat; lra|].
    apply Rle_trans with ((d + 23 * u) * (N * N * / 2)); [apply Rmult_le_compat_l; lra|lra]. }
  assert (QW : (d + 28 * u) * (N * N) <= 1 / 3000).
  { apply Rle_trans with ((/ 2 ^ 50 + 28 * u) * ((2 ^ 18 + 1) * (2 ^ 18 + 1))); [apply Rmult_le_compat; nra|unfold u; lra]. }
  pose proof pi_coarse as P.
  assert (PW : pw w 60 3).
  { unfold w. change (INR (n + 1)) with N.
    assert (/ 2 ^ 21 <= / N <= 1) by (split; [apply Rinv_le_contravar; lra|]; rewrite <- Rinv_1; apply Rinv_le_contravar; lra).
    unfold Rdiv in *. split.
    - apply Rle_trans with (3 * / 2 ^ 21 * (1.5 * / 2 ^ 21)); [lra|]. apply Rmult_le_compat; try lra; apply Rmult_le_compat; lra.
    - apply Rle_trans with (4 * 1 * 1); [|simpl; lra]. apply Rmult_le_compat; try lra; nra. }
  assert (RW : rel wh w ((d + 28 * u) * (N * N))).
  { split; [exact Fw|]. pose proof (pw_pos _ _ _ PW). exists ((B2R wh - w) / w). split; [|field; lra].
    unfold Rdiv. rewrite Rabs_mult, Rabs_inv, (Rabs_pos_eq w) by lra. apply Rmult_le_reg_r with w; auto. rewrite Rmult_assoc, Rinv_l by lra.
    rewrite Rmult_1_r. eapply Rle_trans; [exact W|]. rewrite Rmult_comm. apply Rmult_le_compat_r; [lra|].
    unfold Rdiv in *. apply Rle_trans with ((2 * d + 56 * u) * (N * N * / 2)); [apply Rmult_le_compat_l; lra|lra]. }
  assert (G : 1 / (N * N) <= 1 + x).
  { apply Rmult_le_reg_r with (N * N); [nra|]. unfold Rdiv. rewrite Rmult_assoc, Rinv_l by nra. assert ((1 - x * x) * (N * N) <= 2 * ((1 + x) * (N * N))); [|lra].
    replace (2 * ((1 + x) * (N * N))) with (2 * (1 + x) * (N * N)) by ring. apply Rmult_le_compat_r; nra. }
  exact (conj F (conj Rx (conj X (conj Q (conj (conj N2 Nb) (conj RW (conj PW (conj QW G)))))))).
Qed.
End ChebRules.
Lemma becke_rule : forall m d n (R : F64) (qf : list F64 * list F64) (q : list Rdefinitions.R * list Rdefinitions.R),
  accurate m d -> accurate_pow m d -> d <= / 2 ^ 50 -> (Z.of_nat n <= 2 ^ 18)%Z -> sane_scale R ->
  @radial_generate (FS m) (@Becke (FS m) n R) = Ok qf -> @radial_generate RS (Becke n (B2R R : RS)) = Ok q ->
  rel_rules qf q ((3 * d + 60 * u) * INR (n + 1) ^ 2) ((5 * d + 100 * u) * INR (n + 1) ^ 2).
Proof.
  intros m d n R qf q A AP Hd Hn HR. apply (assemble m (@Becke (FS m) n R)). cbn [rt_npts real_traits].
  intros i Hi. destruct (cheb_entry m d (@Becke (FS m) n R) i A Hd Hn eq_refl Hi) as (F & Rx & X & Q & N2 & W & PW & QW & _).
  cbn [rt_npts] in *. change (bx (Becke n (B2R R : RS)) i) with (cos (th2 n i)).
  change (bw (Becke n (B2R R : RS)) i) with (PI / INR (n + 1) * sin (th2 n i)).
  set (x := cos (th2 n i)) in *. set (N := INR (n + 1)) in *. set (w := PI / N * sin (th2 n i)) in *.
  unfold rad_pt, rad_wt. set (xh := @base_pt (FS m) (@Becke (FS m) n R) (i + base_off (@Becke (FS m) n R)) : F64) in *.
  set (wh := @base_wt (FS m) (@Becke (FS m) n R) (i + base_off (@Becke (FS m) n R)) : F64) in *.
  assert (NN : 4 <= N * N) by nra. replace (N ^ 2) with (N * N) by ring. set (K := N * N) in *.
  pose proof u_pos as U. pose proof u_small as U1. pose proof (acc_pos m d A) as d0.
  assert (dK : d <= d * K / 4) by nra. assert (uK : u <= u * K / 4) by nra.
  destruct (shift_y x (B2R xh) _ Rx X ltac:(lra)) as (Y & _).
  destruct (becke_shift x (B2R xh) _ Rx X ltac:(lra) n (B2R R)) as (t & t' & Ht & Ht' & E & E').
  set (k := (d + 23 * u) / (1 - x * x)) in *.
  split.
  - eapply rel_weak; [apply (rel_trans _ _ _ _ _ t (becke_r m n R xh HR F Y) E Ht)|].
    eapply Rle_trans; [apply err_trans; lra|]. lra.
  - destruct (becke_j m d n R xh AP ltac:(lra) HR F Y) as (J & PJ). rewrite Jr_eq in J, PJ.
    eapply rel_weak; [apply (weight_mul _ _ _ _ _ _ _ _ _ W J PJ PW E' Ht'); lra|].
    eapply Rle_trans; [apply weight_err; lra|]. lra.
Qed.
Lemma ta_rule : forall m d n (R al : F64) (qf : list F64 * list F64) (q : list Rdefinitions.R * list Rdefinitions.R),
  accurate m d -> accurate_pow m d -> accurate_log m d -> d <= / 2 ^ 50 -> (Z.of_nat n <= 2 ^ 16)%Z -> sane_scale R -> sane_alpha al ->
  @radial_generate (FS m) (@TA (FS m) n R al) = Ok qf -> @radial_generate RS (TA n (B2R R : RS) (B2R al : RS)) = Ok q ->
  rel_rules qf q ((12 * d + 300 * u) * INR (n + 1) ^ 2) ((16 * d + 400 * u) * INR (n + 1) ^ 2).
Proof.
  intros m d n R al qf q A AP AL Hd Hn HR HA. apply (assemble m (@TA (FS m) n R al)). cbn [rt_npts real_traits].
  intros i Hi. destruct (cheb_entry m d (@TA (FS m) n R al) i A Hd ltac:(cbn [rt_npts]; lia) eq_refl Hi) as (F & Rx & X & Q & N2 & W & PW & QW & G).
  cbn [rt_npts] in *. change (bx (TA n (B2R R : RS) (B2R al : RS)) i) with (cos (th2 n i)).
  change (bw (TA n (B2R R : RS) (B2R al : RS)) i) with (PI / INR (n + 1) * sin (th2 n i)).
  set (x := cos (th2 n i)) in *. set (w := PI / INR (n + 1) * sin (th2 n i)) in *.
  assert (Nb : INR (n + 1) <= 2 ^ 16 + 1).
  { rewrite plus_INR. simpl (INR 1). apply Rplus_le_compat_r. rewrite INR_IZR_INZ, pow_IZR. apply IZR_le. exact Hn. }
  set (N := INR (n + 1)) in *.
  unfold rad_pt, rad_wt. set (xh := @base_pt (FS m) (@TA (FS m) n R al) (i + base_off (@TA (FS m) n R al)) : F64) in *.
  set (wh := @base_wt (FS m) (@TA (FS m) n R al) (i + base_off (@TA (FS m) n R al)) : F64) in *.
  assert (NN : 4 <= N * N) by nra. replace (N ^ 2) with (N * N) by ring.
  assert (KB : N * N <= (2 ^ 16 + 1) * (2 ^ 16 + 1)) by (apply Rmult_le_compat; lra). set (K := N * N) in *.
  pose proof u_pos as U. pose proof u_small as U1. pose proof (acc_pos m d A) as d0.
  assert (dK : d <= d * K / 4) by nra. assert (uK : u <= u * K / 4) by nra.
  assert (QB : (d / 2 + 11.5 * u) * K <= 1 / 100000).
  { apply Rle_trans with ((/ 2 ^ 50 / 2 + 11.5 * u) * ((2 ^ 16 + 1) * (2 ^ 16 + 1))); [apply Rmult_le_compat; lra|unfold u; lra]. }
  assert (UB : u * K <= / 2 ^ 20).
  { apply Rle_trans with (u * ((2 ^ 16 + 1) * (2 ^ 16 + 1))); [apply Rmult_le_compat_l; lra|unfold u; lra]. }
  destruct (shift_y x (B2R xh) _ Rx X ltac:(lra)) as (Y & _ & Y2).
  pose proof (shift_b x (B2R xh) _ Rx X) as SB.
  assert (HA' : 0 <= B2R al <= 8) by (exact (ta_alpha al HA)).
  destruct (ta_shift x (B2R xh) _ Rx X ltac:(lra) n (B2R R) (B2R al) HA' ltac:(lra)) as (t & t' & Ht & Ht' & E & E').
  set (k := (d + 23 * u) / (1 - x * x)) in *.
  assert (G2 : 0.99 / K <= 1 + B2R xh).
  { rewrite Y2. apply abs_of in SB. unfold Rdiv in *. rewrite Rmult_comm. apply Rmult_le_compat; try lra. left. apply Rinv_0_lt_compat. lra. }
  assert (G3 : / 2 ^ 35 <= 1 + B2R xh).
  { eapply Rle_trans; [|exact G2]. unfold Rdiv. apply Rle_trans with (0.99 * / ((2 ^ 16 + 1) * (2 ^ 16 + 1))); [lra|].
    apply Rmult_le_compat_l; [lra|]. apply Rinv_le_contravar; lra. }
  assert (Z : u / (1 + B2R xh) <= 1.02 * (u * K)).
  { unfold Rdiv. apply Rmult_le_reg_r with (1 + B2R xh); [lra|]. rewrite Rmult_assoc, Rinv_l by lra.
    assert (1 <= 1.02 * (K * (1 + B2R xh))); [|nra].
    assert (K * (0.99 / K) <= K * (1 + B2R xh)) by (apply Rmult_le_compat_l; lra). replace (K * (0.99 / K)) with 0.99 in H by (field; lra). lra. }
  assert (Z0 : 0 < u / (1 + B2R xh)) by (apply Rdiv_lt_0_compat; lra).
  split.
  - pose proof (ta_r m d R al xh AP AL ltac:(lra) HR HA F ltac:(lra) n) as H.
    eapply rel_weak; [apply (rel_trans _ _ _ _ _ t H E Ht)|].
    eapply Rle_trans; [apply err_trans; lra|]. lra.
  - destruct (ta_j m d R al xh AP AL ltac:(lra) HR HA F ltac:(lra) n) as (J & PJ). rewrite Jr_eq in J, PJ.
    eapply rel_weak; [apply (weight_mul _ _ _ _ _ _ _ _ _ W J PJ PW E' Ht'); lra|].
    eapply Rle_trans; [apply weight_err; lra|]. lra.
Qed.
(** The inclusive rules. *)
Lemma bx_unif : forall t i, base_inclusive t = true -> bx t i = INR (S i) / INR (rt_npts t + 1) /\ bw t i = 1 / INR (rt_npts t + 1).
Proof. intros t i H. unfold bx, bw. rewrite H. split; [|reflexivity]. unfold ux. field. apply not_0_INR. lia. Qed.
Section UnifRules.
Variables (m : libm) (t : rtraits (FS m)) (i : nat).
Hypotheses (Hn : (Z.of_nat (rt_npts t) <= 2 ^ 30)%Z) (Hb : base_inclusive t = true) (Hi : (i < rt_npts t)%nat).
Let n := rt_npts t.
Let N := INR (n + 1).
Let xh : F64 := @base_pt (FS m) t (i + base_off t).
Let wh : F64 := @base_wt (FS m) t (i + base_off t).
Let x := INR (S i) / INR (n + 1).
Let w := 1 / INR (n + 1).
Lemma unif_entry : is_finite xh = true /\ (exists dl, Rabs dl <= 3.01 * u /\ B2R xh = x * (1 + dl)) /\ (2 <= N /\ N <= 2 ^ 30 + 1) /\
  1 / N <= x /\ 1 / N <= 1 - x /\ 0.999 / N <= B2R xh /\ 0.999 / N <= 1 - B2R xh /\ rel wh w (2 * u) /\ pw w 60 3.
Proof.
  destruct (unif_base m t i ltac:(lia) Hb Hi) as ((F & dl & Hdl & E) & W). pose proof u_pos as U.
  change (B2R xh = x * (1 + dl)) in E. change (rel wh w (2 * u)) in W.
  assert (N2 : 2 <= N) by (apply (le_INR 2); unfold n; lia).
  assert (Nb : N <= 2 ^ 30 + 1).
  { unfold N. rewrite plus_INR. simpl (INR 1). apply Rplus_le_compat_r. rewrite INR_IZR_INZ, pow_IZR. apply IZR_le. exact Hn. }
  assert (I0 : 0 < / N) by (apply Rinv_0_lt_compat; lra).
  assert (I1 : 1 <= INR (S i) <= N - 1).
  { split; [apply (le_INR 1); lia|]. unfold N. rewrite plus_INR. simpl (INR 1). replace (INR n + 1 - 1) with (INR n) by ring. apply le_INR. unfold n. lia. }
  assert (X1 : 1 / N <= x) by (unfold x; apply Rmult_le_compat_r; [change (INR (n + 1)) with N|]; lra).
  assert (X2 : 1 / N <= 1 - x).
  { unfold x. change (INR (n + 1)) with N. replace (1 - INR (S i) / N) with ((N - INR (S i)) / N) by (field; lra). apply Rmult_le_compat_r; lra. }
  assert (I2 : / (2 ^ 30 + 1) <= / N <= / 2) by (split; apply Rinv_le_contravar; lra).
  assert (UN : 3.01 * u <= 0.0001 * / N) by (unfold u; lra).
  apply abs_of in Hdl as Hd. unfold Rdiv in X1, X2 |- *. rewrite E.
  assert (PW : pw w 60 3).
  { unfold w. change (INR (n + 1)) with N. unfold Rdiv. split; [|simpl]; lra. }
  assert (x0 : 0 < x) by lra. assert (x1 : x < 1) by lra.
  assert (XD : - (0.0001 * / N) <= x * dl <= 0.0001 * / N).
  { assert (Rabs (x * dl) <= 0.0001 * / N); [|apply abs_of; auto]. rewrite Rabs_mult, (Rabs_pos_eq x) by lra.
    apply Rle_trans with (1 * (3.01 * u)); [|lra]. apply Rmult_le_compat; try lra. apply Rabs_pos. }
  split; [exact F|]. split; [exists dl; auto|]. split; [auto|]. split; [exact X1|]. split; [exact X2|].
  rewrite Rmult_plus_distr_l, Rmult_1_r. split; [lra|]. split; [lra|]. split; [exact W|exact PW].
Qed.
End UnifRules.
Lemma mhl_rule : forall m d M n (R : F64) (qf : list F64 * list F64) (q : list Rdefinitions.R * list Rdefinitions.R),
  accurate_pow m d -> d <= / 2 ^ 50 -> (1 <= M <= 8)%nat -> (Z.of_nat n <= 2 ^ 30)%Z -> sane_scale R ->
  @radial_generate (FS m) (@MHL (FS m) M n R) = Ok qf -> @radial_generate RS (MHL M n (B2R R : RS)) = Ok q ->
  rel_rules qf q (3 * d + (7 * INR M + 2) * u * INR (n + 1)) (5 * d + (9 * INR M + 7) * u * INR (n + 1)).
Proof.
  intros m d M n R qf q AP Hd HM Hn HR. apply (assemble m (@MHL (FS m) M n R)). cbn [rt_npts real_traits].
  intros i Hi. destruct (unif_entry m (@MHL (FS m) M n R) i Hn eq_refl Hi) as (F & (dl & Hdl & EX) & N2 & X1 & X2 & Y1 & Y2 & W & PW).
  cbn [rt_npts] in *. destruct (bx_unif (MHL M n (B2R R : RS)) i eq_refl) as (Ex & Ew). rewrite Ex, Ew. cbn [rt_npts].
  unfold rad_pt, rad_wt. set (xh := @base_pt (FS m) (@MHL (FS m) M n R) (i + base_off (@MHL (FS m) M n R)) : F64) in *.
  set (wh := @base_wt (FS m) (@MHL (FS m) M n R) (i + base_off (@MHL (FS m) M n R)) : F64) in *.
  set (x := INR (S i) / INR (n + 1)) in *. set (N := INR (n + 1)) in *.
  pose proof u_pos as U. pose proof u_small as U1. pose proof (dpos_pow m d AP) as d0.
  assert (I0 : 0 < / N) by (apply Rinv_0_lt_compat; lra). assert (I2 : / (2 ^ 30 + 1) <= / N) by (apply Rinv_le_contravar; lra).
  unfold Rdiv in X1, X2, Y1, Y2. rewrite Rmult_1_l in X1, X2.
  assert (M1 : 1 <= INR M <= 8).
  { split; [apply (le_INR 1); lia|]. replace 8 with (INR 8) by (simpl; lra). apply le_INR. lia. }
  assert (Q : 3.01 * u / (1 - x) <= 3.01 * (u * N)).
  { unfold Rdiv. rewrite Rmult_assoc. apply Rmult_le_compat_l; [lra|]. apply Rmult_le_compat_l; [lra|].
    rewrite <- (Rinv_inv N). apply Rinv_le_contravar; lra. }
  assert (Q0 : 0 < 3.01 * u / (1 - x)) by (apply Rdiv_lt_0_compat; lra).
  assert (UN : u * N <= 1 / 1000000).
  { apply Rle_trans with (u * (2 ^ 30 + 1)); [apply Rmult_le_compat_l; lra|unfold u; lra]. }
  destruct (mhl_shift x dl _ ltac:(lra) Hdl M n (B2R R) HM ltac:(lra)) as (t & t' & Ht & Ht' & E & E').
  rewrite <- EX in E, E'. set (k := 3.01 * u / (1 - x)) in *.
  assert (K1 : 0 < INR M * k <= INR M * (3.01 * (u * N))) by (split; [apply Rmult_lt_0_compat|apply Rmult_le_compat_l]; lra).
  assert (K2 : INR M * (u * N) <= 8 * (u * N)) by (apply Rmult_le_compat_r; lra).
  assert (K3 : 0 < INR M * u) by (apply Rmult_lt_0_compat; lra).
  assert (K4 : INR M * u * 2 <= INR M * u * N) by (apply Rmult_le_compat_l; lra).
  assert (K5 : u * 2 <= u * N) by (apply Rmult_le_compat_l; lra).
  split.
  - eapply rel_weak; [apply (rel_trans _ _ _ _ _ t (mhl_r m d M n R xh AP ltac:(lra) HM HR F ltac:(lra)) E Ht)|].
    eapply Rle_trans; [apply err_trans; lra|]. lra.
  - destruct (mhl_j m d M n R xh AP ltac:(lra) HM HR F ltac:(lra)) as (J & PJ). rewrite Jr_eq in J, PJ.
    eapply rel_weak; [apply (weight_mul _ _ _ _ _ _ _ _ _ W J PJ PW E' Ht'); lra|].
    eapply Rle_trans; [apply weight_err; lra|]. lra.
Qed.
Lemma mk_rule : forall m d n (R : F64) (qf : list F64 * list F64) (q : list Rdefinitions.R * list Rdefinitions.R),
  accurate_log m d -> d <= / 2 ^ 50 -> (n <= 4000)%nat -> sane_scale R ->
  @radial_generate (FS m) (@MK (FS m) n R) = Ok qf -> @radial_generate RS (MK n (B2R R : RS)) = Ok q ->
  rel_rules qf q (3 * d + 13 * u * INR (n + 1) ^ 3) (30 * u * INR (n + 1)).
Proof.
  intros m d n R qf q AL Hd Hn HR. apply (assemble m (@MK (FS m) n R)). cbn [rt_npts real_traits].
  intros i Hi. destruct (unif_entry m (@MK (FS m) n R) i ltac:(cbn [rt_npts]; lia) eq_refl Hi) as (F & (dl & Hdl & EX) & N2 & X1 & X2 & Y1 & Y2 & W & PW).
  cbn [rt_npts] in *. destruct (bx_unif (MK n (B2R R : RS)) i eq_refl) as (Ex & Ew). rewrite Ex, Ew. cbn [rt_npts].
  unfold rad_pt, rad_wt. set (xh := @base_pt (FS m) (@MK (FS m) n R) (i + base_off (@MK (FS m) n R)) : F64) in *.
  set (wh := @base_wt (FS m) (@MK (FS m) n R) (i + base_off (@MK (FS m) n R)) : F64) in *.
  assert (Nb : INR (n + 1) <= 4001).
  { replace 4001 with (INR 4001) by (rewrite INR_IZR_INZ; reflexivity). apply le_INR. lia. }
  set (x := INR (S i) / INR (n + 1)) in *. set (N := INR (n + 1)) in *.
  pose proof u_pos as U. pose proof u_small as U1. pose proof (dpos_log m d AL) as d0.
  assert (I0 : 0 < / N) by (apply Rinv_0_lt_compat; lra). assert (I2 : / 4001 <= / N) by (apply Rinv_le_contravar; lra).
  unfold Rdiv in X1, X2, Y1, Y2. rewrite Rmult_1_l in X1, X2.
  pose proof (cube_lt x ltac:(lra)) as C. assert (XC : x * x * x <= x) by (assert (x * x <= x) by nra; nra).
  assert (Q : 3.01 * u / (1 - x * x * x) <= 3.01 * (u * N)).
  { unfold Rdiv. rewrite Rmult_assoc. apply Rmult_le_compat_l; [lra|]. apply Rmult_le_compat_l; [lra|].
    rewrite <- (Rinv_inv N). apply Rinv_le_contravar; lra. }
  assert (Q0 : 0 < 3.01 * u / (1 - x * x * x)) by (apply Rdiv_lt_0_compat; lra).
  assert (UN : u * N <= 1 / 1000000000).
  { apply Rle_trans with (u * 4001); [apply Rmult_le_compat_l; lra|unfold u; lra]. }
  destruct (mk_shift x dl _ ltac:(lra) Hdl n (B2R R) ltac:(lra)) as (t & t' & Ht & Ht' & E & E').
  rewrite <- EX in E, E'. set (k := 3.01 * u / (1 - x * x * x)) in *. set (y := B2R xh) in *.
  pose proof (cube_lt y ltac:(lra)) as CY. assert (YC : y * y * y <= y) by (assert (y * y <= y) by nra; nra).
  assert (K5 : u * 2 <= u * N) by (apply Rmult_le_compat_l; lra).
  assert (N3 : u * N * 4 <= u * N ^ 3) by (replace (u * N ^ 3) with (u * N * (N * N)) by ring; apply Rmult_le_compat_l; nra).
  assert (N3b : u * N ^ 3 <= 1 / 100000).
  { apply Rle_trans with (u * 4001 ^ 3); [apply Rmult_le_compat_l; [lra|apply pow_incr; lra]|unfold u; lra]. }
  assert (HL : 0.99 / N ^ 3 <= y * y * y).
  { assert (Z : (0.999 * / N) * (0.999 * / N) * (0.999 * / N) <= y * y * y).
    { apply Rmult_le_compat; try lra; [apply Rmult_le_pos; lra|]. apply Rmult_le_compat; lra. }
    eapply Rle_trans; [|exact Z]. unfold Rdiv. replace (/ N ^ 3) with (/ N * / N * / N) by (field; lra).
    assert (0 < / N * / N * / N) by (repeat apply Rmult_lt_0_compat; lra). lra. }
  assert (HH : 0.999 / N <= 1 - y * y * y) by (unfold Rdiv; lra).
  assert (Z1 : u / (1 - y * y * y) <= 1.002 * (u * N)).
  { unfold Rdiv. replace (1.002 * (u * N)) with (u * (1.002 * N)) by ring. apply Rmult_le_compat_l; [lra|].
    rewrite <- (Rinv_inv (1.002 * N)). apply Rinv_le_contravar; [apply Rinv_0_lt_compat; lra|]. eapply Rle_trans; [|exact HH].
    rewrite Rinv_mult. unfold Rdiv. apply Rmult_le_compat_r; lra. }
  assert (Z2 : u / (y * y * y * (1 - y * y * y)) <= 2.05 * (u * N ^ 3)).
  { set (c := y * y * y) in *. replace (2.05 * (u * N ^ 3)) with (u * (2.05 * N ^ 3)) by ring. apply Rmult_le_compat_l; [lra|].
    assert (P3 : 0 < N ^ 3) by (apply pow_lt; lra).
    assert (B : 0.99 / N ^ 3 / 2 <= c * (1 - c)).
    { destruct (Rle_lt_dec c (1 / 2)).
      - unfold Rdiv in *. apply Rmult_le_compat; try lra. apply Rmult_le_pos; [lra|]. left. apply Rinv_0_lt_compat. lra.
      - assert (0.99 / N ^ 3 <= 1 - c).
        { eapply Rle_trans; [|exact HH]. unfold Rdiv. apply Rmult_le_compat; try lra; [left; apply Rinv_0_lt_compat; lra|].
          apply Rinv_le_contravar; [lra|]. assert (1 <= N * N) by nra. replace (N ^ 3) with (N * N * N) by ring. nra. }
        rewrite Rmult_comm. unfold Rdiv in *. apply Rmult_le_compat; try lra. apply Rmult_le_pos; [lra|]. left. apply Rinv_0_lt_compat. lra. }
    rewrite <- (Rinv_inv (2.05 * N ^ 3)). apply Rinv_le_contravar; [apply Rinv_0_lt_compat; lra|]. eapply Rle_trans; [|exact B].
    rewrite Rinv_mult. unfold Rdiv. assert (0 < / N ^ 3) by (apply Rinv_0_lt_compat; lra). nra. }
  assert (Z0 : 0 < u / (y * y * y * (1 - y * y * y))) by (apply Rdiv_lt_0_compat; [lra|]; apply Rmult_lt_0_compat; lra).
  assert (Z00 : 0 < u / (1 - y * y * y)) by (apply Rdiv_lt_0_compat; lra).
  assert (HY : / 2 ^ 12 <= y <= 1 - / 2 ^ 40) by lra.
  split.
  - pose proof (mk_r m R xh HR F HY d n AL ltac:(lra)) as H. fold y in H.
    replace (4 * u / (y * y * y * (1 - y * y * y))) with (4 * (u / (y * y * y * (1 - y * y * y)))) in H by (unfold Rdiv; ring).
    eapply rel_weak; [apply (rel_trans _ _ _ _ _ t H E Ht)|].
    eapply Rle_trans; [apply err_trans; lra|]. lra.
  - destruct (mk_j m R xh HR F HY n) as (J & PJ). rewrite Jr_eq in J, PJ. fold y in J, PJ.
    replace (11 * u / (1 - y * y * y)) with (11 * (u / (1 - y * y * y))) in J by (unfold Rdiv; ring).
    eapply rel_weak; [apply (weight_mul _ _ _ _ _ _ _ _ _ W J PJ PW E' Ht'); lra|].
    eapply Rle_trans; [apply weight_err; lra|]. lra.
Qed.
