(** C43: stored radii are positive and strictly increasing, stored weights positive. *)
From Coq Require Import List Bool Arith ZArith Reals Lra Lia Psatz.
From Flocq Require Import IEEE754.BinarySingleNaN Core.
From Verif Require Import Base.Outcome Base.Scalar Base.RScalar Base.FScalar Model.Primitive Model.Radial
  Spec.RuleSpec Spec.RealRules Spec.FloatSpec Spec.LibmSpec Spec.RadialSpec Proofs.Tab Proofs.PrimitiveFacts Proofs.Sizes
  Proofs.FloatOps Proofs.FloatSphere Proofs.PiBounds Proofs.FloatErr Proofs.ChebReal Proofs.TrapReal Proofs.ChebFloat Proofs.RadialReal
  Proofs.RadialRule Proofs.RadialFloat Proofs.RadialFloatRule Proofs.RadialFloatSchemes.
Import ListNotations.
Local Open Scope R_scope.

(** How fast the exact maps grow. *)
Lemma ln_concave : forall a t, 0 < a -> 0 <= t <= 1 -> t * ln a <= ln (1 - t + t * a).
Proof.
  intros a t Ha Ht. set (p := 1 - t + t * a). assert (P : 0 < p) by (unfold p; nra).
  assert (T : forall b, 0 < b -> ln b <= ln p + (b - p) / p).
  { intros b Hb. pose proof (ln_le_sub (b / p) ltac:(apply Rdiv_lt_0_compat; auto)) as H. unfold Rdiv in H.
    rewrite ln_mult, ln_Rinv in H; auto; [|apply Rinv_0_lt_compat; auto]. replace ((b - p) / p) with (b * / p - 1) by (field; lra). lra. }
  pose proof (T a Ha) as H1. pose proof (T 1 Rlt_0_1) as H2. rewrite ln_1 in H2.
  assert (t * ln a <= t * (ln p + (a - p) / p)) by (apply Rmult_le_compat_l; lra).
  assert (0 <= (1 - t) * (ln p + (1 - p) / p)) by (apply Rmult_le_pos; lra).
  assert (E : t * ((a - p) / p) + (1 - t) * ((1 - p) / p) = 0) by (unfold p; field; fold p; lra). lra.
Qed.
Lemma log_grows : forall c c', 0 < c <= c' -> c' < 1 -> - ln (1 - c) * (c' / c) <= - ln (1 - c').
Proof.
  intros c c' Hc Hc'. pose proof (ln_concave (1 - c') (c / c') ltac:(lra)) as H.
  replace (1 - c / c' + c / c' * (1 - c')) with (1 - c) in H by (field; lra).
  assert (L : 0 <= c / c' <= 1).
  { split; [apply Rmult_le_pos; [lra|left; apply Rinv_0_lt_compat; lra]|]. apply Rmult_le_reg_r with c'; [lra|]. unfold Rdiv. rewrite Rmult_assoc, Rinv_l by lra. lra. }
  specialize (H L). assert (P : 0 < c' / c) by (apply Rdiv_lt_0_compat; lra).
  assert (c' / c * (c / c' * ln (1 - c')) <= c' / c * ln (1 - c)) by (apply Rmult_le_compat_l; lra).
  replace (c' / c * (c / c' * ln (1 - c'))) with (ln (1 - c')) in H0 by (field; lra). lra.
Qed.
Lemma Tr_grows : forall t y y', rt_valid t -> base_lo t < y -> y < y' -> y' < 1 ->
  Tr t y * (1 + (y' - y) / (y - base_lo t)) <= Tr t y'.
Proof.
  intros t y y' V Hy Hyy Hy'. pose proof (Tr_pos t y V ltac:(lra)) as T0.
  destruct t as [n R|M n R|n R|n R al]; cbn [base_lo rt_valid] in *; unfold Tr in *.
  - replace (1 + (y' - y) / (y - -1)) with ((1 + y') / (1 + y)) by (field; lra).
    replace (R * (1 + y) / (1 - y) * ((1 + y') / (1 + y))) with (R * (1 + y') / (1 - y)) by (field; lra).
    apply Rmult_le_compat_l; [nra|]. apply Rinv_le_contravar; lra.
  - destruct V as (HM & HR). rewrite Rminus_0_r in *. replace (1 + (y' - y) / y) with (y' / y) by (field; lra).
    rewrite Rmult_assoc. apply Rmult_le_compat_l; [lra|].
    assert (Z : 0 < y / (1 - y)) by (apply Rdiv_lt_0_compat; lra).
    assert (B : 1 <= y' / y).
    { apply Rmult_le_reg_r with y; [lra|]. unfold Rdiv. rewrite Rmult_assoc, Rinv_l by lra. lra. }
    apply Rle_trans with ((y / (1 - y) * (y' / y)) ^ M).
    + rewrite Rpow_mult_distr. apply Rmult_le_compat_l; [apply pow_le; lra|].
      rewrite <- (pow_1 (y' / y)) at 1. apply Rle_pow; auto.
    + apply pow_incr. split; [apply Rmult_le_pos; lra|]. replace (y / (1 - y) * (y' / y)) with (y' / (1 - y)) by (field; lra).
      apply Rmult_le_compat_l; [lra|]. apply Rinv_le_contravar; lra.
  - rewrite Rminus_0_r in *. replace (1 + (y' - y) / y) with (y' / y) by (field; lra).
    pose proof (cube_lt y ltac:(lra)) as C. pose proof (cube_lt y' ltac:(lra)) as C'.
    assert (CC : y * y * y <= y' * y' * y').
    { apply Rmult_le_compat; try lra; [apply Rmult_le_pos; lra|]. apply Rmult_le_compat; lra. }
    pose proof (log_grows (y * y * y) (y' * y' * y') ltac:(lra) ltac:(lra)) as G.
    assert (L : 0 <= - ln (1 - y * y * y)) by (pose proof (ln_le_sub (1 - y * y * y) ltac:(lra)); lra).
    assert (Q : y' / y <= y' * y' * y' / (y * y * y)).
    { replace (y' * y' * y' / (y * y * y)) with (y' / y * (y' / y) * (y' / y)) by (field; lra).
      assert (B1 : 1 <= y' / y) by (apply Rmult_le_reg_r with y; [lra|]; unfold Rdiv; rewrite Rmult_assoc, Rinv_l by lra; lra).
      set (b := y' / y) in *. clearbody b. assert (1 <= b * b) by nra. nra. }
    assert (- ln (1 - y * y * y) * (y' / y) <= - ln (1 - y * y * y) * (y' * y' * y' / (y * y * y))) by (apply Rmult_le_compat_l; lra).
    replace (- R * ln (1 - y * y * y) * (y' / y)) with (R * (- ln (1 - y * y * y) * (y' / y))) by ring.
    replace (- R * ln (1 - y' * y' * y')) with (R * - ln (1 - y' * y' * y')) by ring. apply Rmult_le_compat_l; lra.
  - destruct V as (HR & Ha). replace (1 + (y' - y) / (y - -1)) with ((1 + y') / (1 + y)) by (field; lra). pose proof ln2c_pos as LC.
    assert (E : forall z, z < 1 -> ln ((1 + 1) / (1 - z)) = - ln (1 - (1 + z) / 2)).
    { intros z Hz. replace ((1 + 1) / (1 - z)) with (/ (1 - (1 + z) / 2)) by (field; lra). apply ln_Rinv. lra. }
    rewrite !E by lra. pose proof (log_grows ((1 + y) / 2) ((1 + y') / 2) ltac:(lra) ltac:(lra)) as G.
    replace ((1 + y') / 2 / ((1 + y) / 2)) with ((1 + y') / (1 + y)) in G by (field; lra).
    assert (P : Rpower (1 + y) al <= Rpower (1 + y') al).
    { destruct (Rle_lt_or_eq_dec _ _ Ha) as [H|<-]; [|rewrite !Rpower_O; lra]. left. apply Rlt_Rpower_l; lra. }
    assert (L : 0 <= - ln (1 - (1 + y) / 2)) by (pose proof (ln_le_sub (1 - (1 + y) / 2) ltac:(lra)); lra).
    assert (P0 : 0 < Rpower (1 + y) al) by apply exp_pos.
    assert (B : 0 < (1 + y') / (1 + y)) by (apply Rdiv_lt_0_compat; lra).
    set (l := - ln (1 - (1 + y) / 2)) in *. set (l' := - ln (1 - (1 + y') / 2)) in *. set (b := (1 + y') / (1 + y)) in *.
    replace (R * Rpower (1 + y) al * l / ln2c * b) with (R / ln2c * (Rpower (1 + y) al * (l * b))) by (field; lra).
    replace (R * Rpower (1 + y') al * l' / ln2c) with (R / ln2c * (Rpower (1 + y') al * l')) by (field; lra).
    apply Rmult_le_compat_l; [left; apply Rdiv_lt_0_compat; lra|]. apply Rmult_le_compat; try lra. apply Rmult_le_pos; lra.
Qed.

(** Computed values of well separated numbers are ordered. *)
Lemma rel_sep : forall a b v v' e e' g, rel a v e -> rel b v' e' -> 0 < v -> v * (1 + g) <= v' -> 0 <= e' <= 1 / 1000 -> e <= 1 / 1000 ->
  1.01 * (e + e') < g -> B2R a < B2R b.
Proof.
  intros a b v v' e e' g (_ & s & Hs & Ea) (_ & s' & Hs' & Eb) Hv H He' He Hg. rewrite Ea, Eb. apply abs_of in Hs. apply abs_of in Hs'.
  assert (0 <= g) by lra. apply Rle_lt_trans with (v * (1 + e)); [apply Rmult_le_compat_l; lra|].
  apply Rlt_le_trans with (v * (1 + g) * (1 - e')).
  - rewrite Rmult_assoc. apply Rmult_lt_compat_l; auto. assert (g * e' <= g * (1 / 1000)) by (apply Rmult_le_compat_l; lra). lra.
  - apply Rle_trans with (v' * (1 - e')); [apply Rmult_le_compat_r; lra|]. apply Rmult_le_compat_l; [nra|lra].
Qed.
Lemma pos_of_close : forall x v e, 0 < v -> - (e * v) <= x - v <= e * v -> e < 1 -> 0 < x.
Proof. intros x v e Hv H He. assert (0 < (1 - e) * v) by (apply Rmult_lt_0_compat; lra). lra. Qed.
Lemma assemble_good : forall m (t : rtraits (FS m)) er ew (qf : list F64 * list F64), rt_valid (real_traits t) ->
  (forall q : list R * list R, @radial_generate (FS m) t = Ok qf -> @radial_generate RS (real_traits t) = Ok q -> rel_rules qf q er ew) -> er < 1 -> ew < 1 ->
  (forall i j, (i < j < rt_npts t)%nat -> B2R (@rad_pt (FS m) t i : F64) < B2R (@rad_pt (FS m) t j : F64)) ->
  @radial_generate (FS m) t = Ok qf -> good_radial (rt_npts t) qf.
Proof.
  intros m t er ew qf V H He Hw HS Hf. 
  assert (Q0 : exists q : list R * list R, @radial_generate RS (real_traits t) = Ok q) by (exact (radial_total (real_traits t))).
  destruct Q0 as (q & Hq).
  assert (N : rt_npts (real_traits t) = rt_npts t) by (destruct t; reflexivity).
  destruct (H q Hf Hq) as (L1 & L2 & C1 & C2). destruct (radial_shape _ _ V Hq) as (K1 & K2 & _ & P1 & P2). rewrite N in *.
  change (length (fst q) = rt_npts t) in K1. change (length (snd q) = rt_npts t) in K2.
  assert (X1 : forall x, In x (fst qf) -> is_finite x = true /\ 0 < B2R x).
  { intros x Hx. apply In_nth_error in Hx. destruct Hx as (i & Hi).
    destruct (nth_error (fst q) i) as [v|] eqn:Ev; [|apply nth_error_None in Ev; assert (i < length (fst qf))%nat by (apply nth_error_Some; rewrite Hi; discriminate); lia].
    pose proof (P1 v (nth_error_In _ _ Ev)) as Pv. destruct (C1 i x v Hi Ev) as (F & Q). split; [exact F|]. rewrite (Rabs_pos_eq v) in Q by (left; exact Pv). apply abs_of in Q.
    apply (pos_of_close _ v _ Pv Q). lra. }
  assert (X2 : forall x, In x (snd qf) -> is_finite x = true /\ 0 < B2R x).
  { intros x Hx. apply In_nth_error in Hx. destruct Hx as (i & Hi).
    destruct (nth_error (snd q) i) as [v|] eqn:Ev; [|apply nth_error_None in Ev; assert (i < length (snd qf))%nat by (apply nth_error_Some; rewrite Hi; discriminate); lia].
    pose proof (P2 v (nth_error_In _ _ Ev)) as Pv. destruct (C2 i x v Hi Ev) as (F & Q). split; [exact F|]. rewrite (Rabs_pos_eq v) in Q by (left; exact Pv). apply abs_of in Q.
    apply (pos_of_close _ v _ Pv Q). lra. }
  split; [intros x [Hx|Hx]; [apply X1|apply X2]; exact Hx|]. split; [lia|]. split; [lia|]. split; [|split; [apply X1|apply X2]].
  intros i j x y Hij Hx Hy. assert (J : (j < rt_npts t)%nat).
  { rewrite <- K1, <- L1. apply nth_error_Some. rewrite Hy. discriminate. }
  rewrite radial_closed in Hf. injection Hf as <-. cbn [fst snd] in *.
  pose proof (eq_trans (eq_sym (nth_error_tab (rt_npts t) (@rad_pt (FS m) t) i ltac:(lia))) Hx) as Ex. injection Ex as <-.
  pose proof (eq_trans (eq_sym (nth_error_tab (rt_npts t) (@rad_pt (FS m) t) j J)) Hy) as Ey. injection Ey as <-. apply HS. lia.
Qed.

(** Separation of the stored base nodes. *)
Lemma cheb_gap : forall m d (t : rtraits (FS m)) i j, accurate m d -> d <= / 2 ^ 50 -> (Z.of_nat (rt_npts t) <= 2 ^ 18)%Z ->
  base_inclusive t = false -> (i < j < rt_npts t)%nat ->
  1 / (INR (rt_npts t + 1) * INR (rt_npts t + 1)) <= B2R (@base_pt (FS m) t (j + base_off t) : F64) - B2R (@base_pt (FS m) t (i + base_off t) : F64).
Proof.
  intros m d t i j A Hd Hn Hb Hij. set (n := rt_npts t) in *.
  destruct (cheb_entry m d t i A Hd Hn Hb ltac:(fold n; lia)) as (_ & _ & X & _ & NB & _).
  destruct (cheb_entry m d t j A Hd Hn Hb ltac:(fold n; lia)) as (_ & _ & Y & _). fold n in X, Y, NB.
  pose proof u_pos as U. pose proof (acc_pos m d A) as d0. set (N := INR (n + 1)) in *. pose proof pi_coarse as P.
  set (h := PI / N). assert (h0 : 0 < h) by (apply Rdiv_lt_0_compat; lra). assert (Hh : h * N = PI) by (unfold h; field; lra).
  assert (TI : forall k, th2 n k = INR (n - k) * h) by (intro k; unfold th2, h; fold N; field; lra).
  assert (EN : N = INR n + 1) by (unfold N; rewrite plus_INR; simpl; lra).
  assert (I1 : 1 <= INR (n - j)) by (apply (le_INR 1); lia). assert (I2 : INR (n - j) + 1 <= INR (n - i)) by (rewrite <- S_INR; apply le_INR; lia).
  assert (I3 : INR (n - i) <= INR n) by (apply le_INR; lia).
  pose proof (cos_sep (th2 n j) (th2 n i) h h0) as S. rewrite (TI i), (TI j) in S. rewrite TI in X, Y.
  assert (B1 : h <= INR (n - j) * h) by nra. assert (B2 : INR (n - j) * h + h <= INR (n - i) * h) by nra.
  assert (B3 : INR (n - i) * h <= PI - h) by (rewrite <- Hh, EN; nra). specialize (S B1 B2 B3).
  apply abs_of in X. apply abs_of in Y.
  assert (H2 : 9 / (N * N) <= h * h).
  { unfold h. replace (PI / N * (PI / N)) with (PI * PI / (N * N)) by (field; lra). apply Rmult_le_compat_r; [left; apply Rinv_0_lt_compat; nra|nra]. }
  assert (NN : N * N <= (2 ^ 18 + 1) * (2 ^ 18 + 1)) by (apply Rmult_le_compat; lra).
  assert (I4 : / ((2 ^ 18 + 1) * (2 ^ 18 + 1)) <= / (N * N)) by (apply Rinv_le_contravar; nra).
  unfold Rdiv in *. unfold u in *. lra.
Qed.
Lemma becke_good : forall m d n (R : F64) (qf : list F64 * list F64),
  accurate m d -> accurate_pow m d -> d <= / 2 ^ 50 -> (Z.of_nat n <= 2 ^ 18)%Z -> sane_scale R ->
  @radial_generate (FS m) (@Becke (FS m) n R) = Ok qf -> good_radial n qf.
Proof.
  intros m d n R qf A AP Hd Hn HR. pose proof u_pos as U. pose proof u_small as U1. pose proof (acc_pos m d A) as d0.
  assert (Nb : INR (n + 1) <= 2 ^ 18 + 1).
  { rewrite plus_INR. simpl (INR 1). apply Rplus_le_compat_r. rewrite INR_IZR_INZ, pow_IZR. apply IZR_le. exact Hn. }
  assert (N1 : 1 <= INR (n + 1)) by (apply (le_INR 1); lia).
  assert (NN : INR (n + 1) ^ 2 <= (2 ^ 18 + 1) ^ 2) by (apply pow_incr; lra).
  assert (V : rt_valid (Becke n (B2R R : RS))) by (exact (pw_pos _ _ _ (sane_pw R HR))).
  apply (assemble_good m (@Becke (FS m) n R) _ _ qf V (fun q => becke_rule m d n R qf q A AP Hd Hn HR)).
  - apply Rle_lt_trans with ((3 * / 2 ^ 50 + 60 * u) * (2 ^ 18 + 1) ^ 2); [apply Rmult_le_compat; try lra; apply pow_le; lra|unfold u; lra].
  - apply Rle_lt_trans with ((5 * / 2 ^ 50 + 100 * u) * (2 ^ 18 + 1) ^ 2); [apply Rmult_le_compat; try lra; apply pow_le; lra|unfold u; lra].
  - intros i j Hij. pose proof (cheb_gap m d (@Becke (FS m) n R) i j A Hd Hn eq_refl Hij) as G. cbn [rt_npts] in Hij, G.
    destruct (cheb_entry m d (@Becke (FS m) n R) i A Hd Hn eq_refl ltac:(cbn [rt_npts]; lia)) as (Fx & Rx & X & Qx & _ & _ & _ & W & _).
    destruct (cheb_entry m d (@Becke (FS m) n R) j A Hd Hn eq_refl ltac:(cbn [rt_npts]; lia)) as (Fy & Ry & Y & Qy & _). cbn [rt_npts] in *.
    unfold rad_pt. set (xh := @base_pt (FS m) (@Becke (FS m) n R) (i + base_off (@Becke (FS m) n R)) : F64) in *.
    set (yh := @base_pt (FS m) (@Becke (FS m) n R) (j + base_off (@Becke (FS m) n R)) : F64) in *.
    set (K := INR (n + 1) * INR (n + 1)) in *.
    destruct (shift_y _ (B2R xh) _ Rx X ltac:(nra)) as (Hx & _). destruct (shift_y _ (B2R yh) _ Ry Y ltac:(nra)) as (Hy & _).
    assert (KB : K <= (2 ^ 18 + 1) ^ 2) by (unfold K; lra). assert (K1 : 1 <= K) by (unfold K; nra).
    assert (IK : / (2 ^ 18 + 1) ^ 2 <= / K) by (apply Rinv_le_contravar; lra). unfold Rdiv in G. rewrite Rmult_1_l in G.
    assert (GA : B2R xh < B2R yh) by lra.
    pose proof (Tr_grows _ (B2R xh) (B2R yh) V ltac:(cbn [base_lo]; lra) GA ltac:(lra)) as T. cbn [base_lo] in T.
    apply (rel_sep _ _ _ _ _ _ _ (becke_r m n R xh HR Fx Hx) (becke_r m n R yh HR Fy Hy) (Tr_pos _ (B2R xh) V ltac:(cbn [base_lo]; lra)) T); try lra.
    apply Rlt_le_trans with ((B2R yh - B2R xh) / 2); [unfold u in *; lra|]. unfold Rdiv. apply Rmult_le_compat_l; [lra|]. apply Rinv_le_contravar; lra.
Qed.
Lemma ta_good : forall m d n (R al : F64) (qf : list F64 * list F64),
  accurate m d -> accurate_pow m d -> accurate_log m d -> d <= / 2 ^ 50 -> (Z.of_nat n <= 2 ^ 16)%Z -> sane_scale R -> sane_alpha al ->
  @radial_generate (FS m) (@TA (FS m) n R al) = Ok qf -> good_radial n qf.
Proof.
  intros m d n R al qf A AP AL Hd Hn HR HA. pose proof u_pos as U. pose proof u_small as U1. pose proof (acc_pos m d A) as d0.
  assert (Nb : INR (n + 1) <= 2 ^ 16 + 1).
  { rewrite plus_INR. simpl (INR 1). apply Rplus_le_compat_r. rewrite INR_IZR_INZ, pow_IZR. apply IZR_le. exact Hn. }
  assert (N1 : 1 <= INR (n + 1)) by (apply (le_INR 1); lia).
  assert (NN : INR (n + 1) ^ 2 <= (2 ^ 16 + 1) ^ 2) by (apply pow_incr; lra).
  assert (HA' : 0 <= B2R al <= 8) by (exact (ta_alpha al HA)).
  assert (V : rt_valid (TA n (B2R R : RS) (B2R al : RS))) by (split; [exact (pw_pos _ _ _ (sane_pw R HR))|lra]).
  apply (assemble_good m (@TA (FS m) n R al) _ _ qf V (fun q => ta_rule m d n R al qf q A AP AL Hd Hn HR HA)).
  - apply Rle_lt_trans with ((12 * / 2 ^ 50 + 300 * u) * (2 ^ 16 + 1) ^ 2); [apply Rmult_le_compat; try lra; apply pow_le; lra|unfold u; lra].
  - apply Rle_lt_trans with ((16 * / 2 ^ 50 + 400 * u) * (2 ^ 16 + 1) ^ 2); [apply Rmult_le_compat; try lra; apply pow_le; lra|unfold u; lra].
  - assert (Hn' : (Z.of_nat n <= 2 ^ 18)%Z) by lia.
    intros i j Hij. pose proof (cheb_gap m d (@TA (FS m) n R al) i j A Hd Hn' eq_refl Hij) as G. cbn [rt_npts] in Hij, G.
    destruct (cheb_entry m d (@TA (FS m) n R al) i A Hd Hn' eq_refl ltac:(cbn [rt_npts]; lia)) as (Fx & Rx & X & Qx & _ & _ & _ & W & Gx).
    destruct (cheb_entry m d (@TA (FS m) n R al) j A Hd Hn' eq_refl ltac:(cbn [rt_npts]; lia)) as (Fy & Ry & Y & Qy & _ & _ & _ & _ & Gy). cbn [rt_npts] in *.
    unfold rad_pt. set (xh := @base_pt (FS m) (@TA (FS m) n R al) (i + base_off (@TA (FS m) n R al)) : F64) in *.
    set (yh := @base_pt (FS m) (@TA (FS m) n R al) (j + base_off (@TA (FS m) n R al)) : F64) in *.
    set (K := INR (n + 1) * INR (n + 1)) in *.
    destruct (shift_y _ (B2R xh) _ Rx X ltac:(nra)) as (Hx & _). destruct (shift_y _ (B2R yh) _ Ry Y ltac:(nra)) as (Hy & _).
    apply abs_of in X. apply abs_of in Y.
    assert (KB : K <= (2 ^ 16 + 1) ^ 2) by (unfold K; lra). assert (K1 : 1 <= K) by (unfold K; nra).
    assert (IK : / (2 ^ 16 + 1) ^ 2 <= / K) by (apply Rinv_le_contravar; lra). unfold Rdiv in G, Gx, Gy. rewrite Rmult_1_l in G, Gx, Gy.
    assert (GA : B2R xh < B2R yh) by lra.
    assert (LX : / 2 ^ 35 <= 1 + B2R xh) by (unfold u in *; lra). assert (LY : / 2 ^ 35 <= 1 + B2R yh) by lra.
    pose proof (Tr_grows _ (B2R xh) (B2R yh) V ltac:(cbn [base_lo]; lra) GA ltac:(lra)) as T. cbn [base_lo] in T.
    pose proof (ta_r m d R al xh AP AL ltac:(lra) HR HA Fx ltac:(lra) n) as TX.
    pose proof (ta_r m d R al yh AP AL ltac:(lra) HR HA Fy ltac:(lra) n) as TY.
    assert (I : 0 < / (1 + B2R yh) <= / (1 + B2R xh)) by (split; [apply Rinv_0_lt_compat; lra|apply Rinv_le_contravar; lra]).
    assert (I35 : / (1 + B2R xh) <= 2 ^ 35) by (rewrite <- (Rinv_inv (2 ^ 35)); apply Rinv_le_contravar; [apply Rinv_0_lt_compat, p2|lra]).
    assert (D1 : 0 < 45 * u / (1 + B2R yh) <= 45 * u / (1 + B2R xh)) by (split; [apply Rmult_lt_0_compat; lra|apply Rmult_le_compat_l; lra]).
    assert (D2 : 45 * u / (1 + B2R xh) <= 45 * u * 2 ^ 35) by (apply Rmult_le_compat_l; lra).
    assert (D3 : 45 * u * 2 ^ 35 <= 1 / 2000) by (unfold u; lra).
    apply (rel_sep _ _ _ _ _ _ _ TX TY (Tr_pos _ (B2R xh) V ltac:(cbn [base_lo]; lra)) T); try lra.
    apply Rle_lt_trans with (1.01 * (2 * (3 * d + 45 * u / (1 + B2R xh)))); [lra|].
    replace (3 * d + 45 * u / (1 + B2R xh)) with ((3 * d * (1 + B2R xh) + 45 * u) / (1 + B2R xh)) by (field; lra).
    replace (B2R xh - -1) with (1 + B2R xh) by ring. unfold Rdiv. rewrite <- !Rmult_assoc. apply Rmult_lt_compat_r; [lra|].
    assert (d * (1 + B2R xh) <= d * 2) by (apply Rmult_le_compat_l; lra). unfold u in *. lra.
Qed.
Lemma unif_gap : forall m (t : rtraits (FS m)) i j, (Z.of_nat (rt_npts t) <= 2 ^ 30)%Z -> base_inclusive t = true -> (i < j < rt_npts t)%nat ->
  0.99 / INR (rt_npts t + 1) <= B2R (@base_pt (FS m) t (j + base_off t) : F64) - B2R (@base_pt (FS m) t (i + base_off t) : F64).
Proof.
  intros m t i j Hn Hb Hij. destruct (unif_entry m t i Hn Hb ltac:(lia)) as (_ & (dx & Hdx & Ex) & NB & Xa & Xb & _).
  destruct (unif_entry m t j Hn Hb ltac:(lia)) as (_ & (dy & Hdy & Ey) & _ & Ya & Yb & _). rewrite Ex, Ey.
  set (N := INR (rt_npts t + 1)) in *. pose proof u_pos as U. assert (I0 : 0 < / N) by (apply Rinv_0_lt_compat; lra).
  assert (I2 : / (2 ^ 30 + 1) <= / N <= / 2) by (split; apply Rinv_le_contravar; lra).
  assert (S : INR (Datatypes.S i) / N + / N <= INR (Datatypes.S j) / N).
  { replace (INR (Datatypes.S i) / N + / N) with ((INR (Datatypes.S i) + 1) / N) by (field; lra). apply Rmult_le_compat_r; [lra|].
    rewrite <- S_INR. apply le_INR. lia. }
  set (x := INR (Datatypes.S i) / N) in *. set (y := INR (Datatypes.S j) / N) in *. unfold Rdiv in *.
  assert (B : forall z e, 0 < z < 1 -> Rabs e <= 3.01 * u -> - (3.01 * u) <= z * e <= 3.01 * u).
  { intros z e Hz He. apply abs_of. rewrite Rabs_mult, (Rabs_pos_eq z) by lra. apply Rle_trans with (1 * (3.01 * u)); [|lra].
    apply Rmult_le_compat; try lra. apply Rabs_pos. }
  pose proof (B x dx ltac:(lra) Hdx). pose proof (B y dy ltac:(lra) Hdy). unfold u in *. lra.
Qed.
Lemma mhl_good : forall m d M n (R : F64) (qf : list F64 * list F64),
  accurate_pow m d -> d <= / 2 ^ 50 -> (1 <= M <= 8)%nat -> (Z.of_nat n <= 2 ^ 30)%Z -> sane_scale R ->
  @radial_generate (FS m) (@MHL (FS m) M n R) = Ok qf -> good_radial n qf.
Proof.
  intros m d M n R qf AP Hd HM Hn HR. pose proof u_pos as U. pose proof u_small as U1. pose proof (dpos_pow m d AP) as d0.
  assert (Nb : INR (n + 1) <= 2 ^ 30 + 1).
  { rewrite plus_INR. simpl (INR 1). apply Rplus_le_compat_r. rewrite INR_IZR_INZ, pow_IZR. apply IZR_le. exact Hn. }
  assert (N1 : 1 <= INR (n + 1)) by (apply (le_INR 1); lia).
  assert (M1 : 1 <= INR M <= 8).
  { split; [apply (le_INR 1); lia|]. replace 8 with (INR 8) by (simpl; lra). apply le_INR. lia. }
  assert (V : rt_valid (MHL M n (B2R R : RS))) by (split; [lia|exact (pw_pos _ _ _ (sane_pw R HR))]).
  assert (MU : INR M * u <= 8 * u) by (apply Rmult_le_compat_r; lra).
  apply (assemble_good m (@MHL (FS m) M n R) _ _ qf V (fun q => mhl_rule m d M n R qf q AP Hd HM Hn HR)).
  - apply Rle_lt_trans with (3 * / 2 ^ 50 + 58 * u * (2 ^ 30 + 1)); [apply Rplus_le_compat; [lra|]; apply Rmult_le_compat; nra|unfold u; lra].
  - apply Rle_lt_trans with (5 * / 2 ^ 50 + 79 * u * (2 ^ 30 + 1)); [apply Rplus_le_compat; [lra|]; apply Rmult_le_compat; nra|unfold u; lra].
  - intros i j Hij. pose proof (unif_gap m (@MHL (FS m) M n R) i j Hn eq_refl Hij) as G. cbn [rt_npts] in Hij, G.
    destruct (unif_entry m (@MHL (FS m) M n R) i Hn eq_refl ltac:(cbn [rt_npts]; lia)) as (Fx & _ & _ & _ & _ & Xa & Xb & _).
    destruct (unif_entry m (@MHL (FS m) M n R) j Hn eq_refl ltac:(cbn [rt_npts]; lia)) as (Fy & _ & _ & _ & _ & Ya & Yb & _). cbn [rt_npts] in *.
    unfold rad_pt. set (xh := @base_pt (FS m) (@MHL (FS m) M n R) (i + base_off (@MHL (FS m) M n R)) : F64) in *.
    set (yh := @base_pt (FS m) (@MHL (FS m) M n R) (j + base_off (@MHL (FS m) M n R)) : F64) in *.
    set (N := INR (n + 1)) in *. assert (I2 : / (2 ^ 30 + 1) <= / N) by (apply Rinv_le_contravar; lra). unfold Rdiv in G, Xa, Xb, Ya, Yb.
    assert (GA : B2R xh < B2R yh) by lra. assert (Hx : / 2 ^ 60 <= B2R xh < 1) by lra. assert (Hy : / 2 ^ 60 <= B2R yh < 1) by lra.
    pose proof (Tr_grows _ (B2R xh) (B2R yh) V ltac:(cbn [base_lo]; lra) GA ltac:(lra)) as T. cbn [base_lo] in T.
    apply (rel_sep _ _ _ _ _ _ _ (mhl_r m d M n R xh AP ltac:(lra) HM HR Fx Hx) (mhl_r m d M n R yh AP ltac:(lra) HM HR Fy Hy)
      (Tr_pos _ (B2R xh) V ltac:(cbn [base_lo]; lra)) T); try nra.
    apply Rlt_le_trans with (B2R yh - B2R xh); [unfold u in *; lra|]. rewrite Rminus_0_r. rewrite <- (Rmult_1_r (B2R yh - B2R xh)) at 1.
    apply Rmult_le_compat_l; [lra|]. rewrite <- Rinv_1 at 1. apply Rinv_le_contravar; lra.
Qed.
Lemma mk_cube : forall n y, (n <= 4000)%nat -> 0.999 / INR (n + 1) <= y -> 0.999 / INR (n + 1) <= 1 - y -> u / (y * y * y * (1 - y * y * y)) <= 2.05 * (u * INR (n + 1) ^ 3).
Proof.
  intros n y Hn Y1 Y2. assert (N1 : 1 <= INR (n + 1)) by (apply (le_INR 1); lia). set (N := INR (n + 1)) in *. pose proof u_pos as U.
  assert (I0 : 0 < / N) by (apply Rinv_0_lt_compat; lra). unfold Rdiv in Y1, Y2.
  pose proof (cube_lt y ltac:(lra)) as CY. assert (YC : y * y * y <= y) by (assert (y * y <= y) by nra; nra).
  assert (HL : 0.99 / N ^ 3 <= y * y * y).
  { assert (Z : (0.999 * / N) * (0.999 * / N) * (0.999 * / N) <= y * y * y).
    { apply Rmult_le_compat; try lra; [apply Rmult_le_pos; lra|]. apply Rmult_le_compat; lra. }
    eapply Rle_trans; [|exact Z]. unfold Rdiv. replace (/ N ^ 3) with (/ N * / N * / N) by (field; lra).
    assert (0 < / N * / N * / N) by (repeat apply Rmult_lt_0_compat; lra). lra. }
  assert (HH : 0.999 / N <= 1 - y * y * y) by (unfold Rdiv; lra).
  set (c := y * y * y) in *. replace (2.05 * (u * N ^ 3)) with (u * (2.05 * N ^ 3)) by ring. apply Rmult_le_compat_l; [lra|].
  assert (P3 : 0 < N ^ 3) by (apply pow_lt; lra).
  assert (B : 0.99 / N ^ 3 / 2 <= c * (1 - c)).
  { destruct (Rle_lt_dec c (1 / 2)).
    - unfold Rdiv in *. apply Rmult_le_compat; try lra. apply Rmult_le_pos; [lra|]. left. apply Rinv_0_lt_compat. lra.
    - assert (0.99 / N ^ 3 <= 1 - c).
      { eapply Rle_trans; [|exact HH]. unfold Rdiv. apply Rmult_le_compat; try lra; [left; apply Rinv_0_lt_compat; lra|].
        apply Rinv_le_contravar; [lra|]. assert (1 <= N * N) by nra. replace (N ^ 3) with (N * N * N) by ring. nra. }
      rewrite Rmult_comm. unfold Rdiv in *. apply Rmult_le_compat; try lra. apply Rmult_le_pos; [lra|]. left. apply Rinv_0_lt_compat. lra. }
  rewrite <- (Rinv_inv (2.05 * N ^ 3)). apply Rinv_le_contravar; [apply Rinv_0_lt_compat; lra|]. eapply Rle_trans; [|exact B].
  rewrite Rinv_mult. unfold Rdiv. assert (0 < / N ^ 3) by (apply Rinv_0_lt_compat; lra). nra.
Qed.
Lemma mk_good : forall m d n (R : F64) (qf : list F64 * list F64),
  accurate_log m d -> d <= / 2 ^ 50 -> (n <= 4000)%nat -> sane_scale R ->
  @radial_generate (FS m) (@MK (FS m) n R) = Ok qf -> good_radial n qf.
Proof.
  intros m d n R qf AL Hd Hn HR. pose proof u_pos as U. pose proof u_small as U1. pose proof (dpos_log m d AL) as d0.
  assert (Nb : INR (n + 1) <= 4001).
  { replace 4001 with (INR 4001) by (rewrite INR_IZR_INZ; reflexivity). apply le_INR. lia. }
  assert (N1 : 1 <= INR (n + 1)) by (apply (le_INR 1); lia).
  assert (V : rt_valid (MK n (B2R R : RS))) by (exact (pw_pos _ _ _ (sane_pw R HR))).
  assert (N3 : u * INR (n + 1) ^ 3 <= 1 / 140000).
  { apply Rle_trans with (u * 4001 ^ 3); [apply Rmult_le_compat_l; [lra|apply pow_incr; lra]|unfold u; lra]. }
  assert (Hz : (Z.of_nat n <= 2 ^ 30)%Z) by lia.
  apply (assemble_good m (@MK (FS m) n R) _ _ qf V (fun q => mk_rule m d n R qf q AL Hd Hn HR)).
  - lra.
  - apply Rle_lt_trans with (30 * u * 4001); [apply Rmult_le_compat_l; lra|unfold u; lra].
  - intros i j Hij. pose proof (unif_gap m (@MK (FS m) n R) i j Hz eq_refl Hij) as G. cbn [rt_npts] in Hij, G.
    destruct (unif_entry m (@MK (FS m) n R) i Hz eq_refl ltac:(cbn [rt_npts]; lia)) as (Fx & _ & _ & _ & _ & Xa & Xb & _).
    destruct (unif_entry m (@MK (FS m) n R) j Hz eq_refl ltac:(cbn [rt_npts]; lia)) as (Fy & _ & _ & _ & _ & Ya & Yb & _). cbn [rt_npts] in *.
    unfold rad_pt. set (xh := @base_pt (FS m) (@MK (FS m) n R) (i + base_off (@MK (FS m) n R)) : F64) in *.
    set (yh := @base_pt (FS m) (@MK (FS m) n R) (j + base_off (@MK (FS m) n R)) : F64) in *.
    pose proof (mk_cube n _ Hn Xa Xb) as CX. pose proof (mk_cube n _ Hn Ya Yb) as CY.
    set (N := INR (n + 1)) in *. assert (I2 : / 4001 <= / N) by (apply Rinv_le_contravar; lra). unfold Rdiv in G, Xa, Xb, Ya, Yb.
    assert (GA : B2R xh < B2R yh) by lra. assert (Hx : / 2 ^ 12 <= B2R xh <= 1 - / 2 ^ 40) by lra. assert (Hy : / 2 ^ 12 <= B2R yh <= 1 - / 2 ^ 40) by lra.
    pose proof (Tr_grows _ (B2R xh) (B2R yh) V ltac:(cbn [base_lo]; lra) GA ltac:(lra)) as T. cbn [base_lo] in T.
    pose proof (mk_r m R xh HR Fx Hx d n AL ltac:(lra)) as TX. pose proof (mk_r m R yh HR Fy Hy d n AL ltac:(lra)) as TY.
    set (x := B2R xh) in *. set (y := B2R yh) in *.
    assert (EX : 4 * u / (x * x * x * (1 - x * x * x)) = 4 * (u / (x * x * x * (1 - x * x * x)))) by (unfold Rdiv; ring).
    assert (EY : 4 * u / (y * y * y * (1 - y * y * y)) = 4 * (u / (y * y * y * (1 - y * y * y)))) by (unfold Rdiv; ring).
    pose proof (cube_lt y ltac:(lra)) as C2.
    assert (Z0 : 0 < u / (y * y * y * (1 - y * y * y))) by (apply Rdiv_lt_0_compat; [lra|]; apply Rmult_lt_0_compat; lra).
    apply (rel_sep _ _ _ _ _ _ _ TX TY (Tr_pos _ x V ltac:(cbn [base_lo]; lra)) T); try lra.
    apply Rlt_le_trans with (y - x); [lra|]. rewrite Rminus_0_r. rewrite <- (Rmult_1_r (y - x)) at 1.
    apply Rmult_le_compat_l; [lra|]. rewrite <- Rinv_1 at 1. apply Rinv_le_contravar; lra.
Qed.
