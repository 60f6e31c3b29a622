(** C43: sums over stored radial rules, a vanishing first radius, and a correctly rounded library. *)
From Coq Require Import List Bool Arith ZArith Reals Lra Lia Psatz.
From Flocq Require Import IEEE754.BinarySingleNaN Core.
From Verif Require Import Base.Outcome Base.Scalar Base.RScalar Base.FScalar Model.Primitive Model.Radial
  Spec.Sums Spec.RuleSpec Spec.RealRules Spec.FloatSpec Spec.LibmSpec Spec.RadialSpec Proofs.Tab Proofs.PrimitiveFacts Proofs.Sizes
  Proofs.FloatOps Proofs.FloatSphere Proofs.PiBounds Proofs.FloatErr Proofs.ChebReal Proofs.TrapReal Proofs.ChebFloat Proofs.RadialReal
  Proofs.RadialRule Proofs.RadialFloat Proofs.RadialFloatRule Proofs.RadialFloatSchemes Proofs.RadialFloatShape.
Import ListNotations.
Local Open Scope R_scope.

Lemma rel_sum : forall f g er ew xs ws (xf wf : list F64), tempered f g -> 0 <= er <= / 2 -> 0 <= ew ->
  rel_rules (xf, wf) (xs, ws) er ew -> (forall x, In x xs -> 0 < x) -> (forall w, In w ws -> 0 < w) ->
  Rabs (apply_rule (real_rule (xf, wf)) f - apply_rule (xs, ws) f) <= (er + ew + er * ew) * apply_rule (xs, ws) g.
Proof.
  intros f g er ew xs ws xf wf (B & T) He Hw. revert ws xf wf. unfold apply_rule, real_rule. cbn [fst snd].
  induction xs as [|x xs IH]; intros ws xf wf (L1 & L2 & C1 & C2) Px Pw; cbn [fst snd] in *.
  - destruct xf; [|discriminate L1]. unfold wsum. simpl. rewrite Rminus_eq_0, Rabs_R0. lra.
  - destruct xf as [|a xf]; [discriminate L1|]. destruct ws as [|w ws]; destruct wf as [|b wf]; try discriminate L2.
    { unfold wsum. simpl. rewrite Rminus_eq_0, Rabs_R0. lra. }
    injection L1 as L1. injection L2 as L2. cbn [map].
    change (Rabs ((B2R b * f (B2R a) + wsum f (map B2R xf) (map B2R wf)) - (w * f x + wsum f xs ws)) <= (er + ew + er * ew) * (w * g x + wsum g xs ws)).
    assert (R1 : rel_rules (xf, wf) (xs, ws) er ew).
    { split; [exact L1|]. split; [exact L2|]. split; intros i; [apply (C1 (S i))|apply (C2 (S i))]. }
    specialize (IH ws xf wf R1 (fun z Hz => Px z (or_intror Hz)) (fun z Hz => Pw z (or_intror Hz))).
    pose proof (Px x (or_introl eq_refl)) as X0. pose proof (Pw w (or_introl eq_refl)) as W0.
    destruct (rel_of_close _ _ _ (proj1 He) (C1 0%nat a x eq_refl eq_refl)) as (_ & s & Hs & Ea).
    destruct (rel_of_close _ _ _ Hw (C2 0%nat b w eq_refl eq_refl)) as (_ & t & Ht & Eb). rewrite Ea, Eb.
    pose proof (B x X0) as Bx. pose proof (T x s X0 ltac:(lra)) as Tx. assert (G0 : 0 <= g x) by (eapply Rle_trans; [apply Rabs_pos|exact Bx]).
    set (D := f (x * (1 + s)) - f x) in *.
    replace (w * (1 + t) * f (x * (1 + s)) + wsum f (map B2R xf) (map B2R wf) - (w * f x + wsum f xs ws))
      with (w * (t * f x + (1 + t) * D) + (wsum f (map B2R xf) (map B2R wf) - wsum f xs ws)) by (unfold D; ring).
    eapply Rle_trans; [apply Rabs_triang|]. rewrite (Rmult_plus_distr_l _ (w * g x)). apply Rplus_le_compat; [|exact IH].
    rewrite Rabs_mult, (Rabs_pos_eq w) by lra.
    assert (K : Rabs (t * f x + (1 + t) * D) <= (er + ew + er * ew) * g x); [|nra].
    eapply Rle_trans; [apply Rabs_triang|]. rewrite !Rabs_mult.
    assert (Rabs t * Rabs (f x) <= ew * g x) by (apply Rmult_le_compat; auto; apply Rabs_pos).
    assert (K1 : Rabs D <= g x * er) by (eapply Rle_trans; [exact Tx|apply Rmult_le_compat_l; auto]).
    assert (K2 : Rabs (1 + t) <= 1 + ew) by (eapply Rle_trans; [apply Rabs_triang|rewrite Rabs_R1; lra]).
    assert (Rabs (1 + t) * Rabs D <= (1 + ew) * (g x * er)) by (apply Rmult_le_compat; auto; apply Rabs_pos). lra.
Qed.
Lemma radial_float_sum : forall m (t : rtraits (FS m)) f g er ew (qf : list F64 * list F64) (q : list R * list R),
  rt_valid (real_traits t) -> tempered f g -> 0 <= er <= / 2 -> 0 <= ew ->
  @radial_generate RS (real_traits t) = Ok q -> rel_rules qf q er ew ->
  Rabs (apply_rule (real_rule qf) f - apply_rule q f) <= (er + ew + er * ew) * apply_rule q g.
Proof.
  intros m t f g er ew [xf wf] q V T He Hw Hq H. destruct (radial_shape _ _ V Hq) as (_ & _ & _ & P1 & P2).
  destruct q as [xs ws]. apply rel_sum; auto.
Qed.
Lemma temper_exp : tempered (fun r => exp (- r)) (fun r => (1 + r) * exp (- (r / 2))).
Proof.
  assert (P : forall r, 0 < r -> exp (- r) <= exp (- (r / 2))).
  { intros r Hr. left. apply exp_increasing. lra. }
  split; intros r.
  - intro Hr. pose proof (exp_pos (- r)). pose proof (exp_pos (- (r / 2))). rewrite Rabs_pos_eq by lra. specialize (P r Hr). nra.
  - intros s Hr Hs. pose proof (exp_pos (- (r / 2))) as E0. apply Rle_trans with (r * Rabs s * exp (- (r / 2))).
    + apply abs_of in Hs as Hs'.
      assert (Q : forall a b, 0 <= a <= b -> Rabs (exp (- b) - exp (- a)) <= (b - a) * exp (- a)).
      { intros a b Hab. pose proof (exp_ineq1_le (- (b - a))) as I. replace (exp (- b)) with (exp (- a) * exp (- (b - a))) by (rewrite <- exp_plus; f_equal; ring).
        pose proof (exp_pos (- a)). assert (exp (- (b - a)) <= 1) by (rewrite <- exp_0; destruct (Req_dec a b) as [->|]; [right; f_equal; ring|left; apply exp_increasing; lra]).
        apply Rabs_le. split; nra. }
      destruct (Rle_lt_dec 0 s) as [S|S].
      * eapply Rle_trans; [apply Q; nra|]. rewrite (Rabs_pos_eq s) by lra. specialize (P r Hr). assert (0 <= r * s) by nra.
        replace (r * (1 + s) - r) with (r * s) by ring. apply Rmult_le_compat_l; lra.
      * rewrite Rabs_minus_sym. eapply Rle_trans; [apply Q; nra|]. rewrite (Rabs_left s) by lra. assert (0 <= r * - s) by nra.
        replace (r - r * (1 + s)) with (r * - s) by ring. apply Rmult_le_compat_l; [auto|].
        destruct (Req_dec (r / 2) (r * (1 + s))) as [<-|]; [lra|]. left. apply exp_increasing. nra.
    + pose proof (Rabs_pos s). assert (0 <= exp (- (r / 2)) * Rabs s) by nra. lra.
Qed.

(** Mura-Knowles rules with more than 2^18 points start at radius zero. *)
Lemma rnd_near_one : forall x : F64, is_finite x = true -> 0 < B2R x -> B2R x < / 2 ^ 54 ->
  is_finite (fsub (f_of 1 0) x) = true /\ B2R (fsub (f_of 1 0) x) = 1.
Proof.
  intros x F H0 H. destruct (f_of_small 1 ltac:(lia)) as (F1 & E1).
  assert (B : Rabs (B2R (f_of 1 0) - B2R x) <= 2 ^ 900).
  { rewrite E1. pose proof (Rle_pow 2 0 900 ltac:(lra) ltac:(lia)). simpl (2 ^ 0) in *. rewrite Rabs_pos_eq; lra. }
  destruct (finite_sub _ _ F1 F B) as (F2 & E2). split; [exact F2|]. set (z := fsub (f_of 1 0) x) in *. rewrite E1 in E2.
  assert (G1 : generic_format radix2 (FLT_exp (-1074) 53) 1) by (change 1 with (bpow radix2 0); apply generic_format_FLT_bpow; [exact Hprec|lia]).
  assert (N : Rabs (B2R z - (1 - B2R x)) <= Rabs (1 - (1 - B2R x))).
  { rewrite E2. destruct (@round_N_pt radix2 (FLT_exp (-1074) 53) (@FLT_exp_valid (-1074) 53 Hprec) (fun x => negb (Z.even x)) (1 - B2R x)) as (_ & K). exact (K 1 G1). }
  replace (1 - (1 - B2R x)) with (B2R x) in N by ring. rewrite (Rabs_pos_eq (B2R x)) in N by lra. apply abs_of in N.
  destruct (Rtotal_order (B2R z) 1) as [L|[L|L]]; [|exact L|lra].
  destruct (gap_one z ltac:(lra)). lra.
Qed.
Lemma mk_zero_radius : forall m d n (R : F64) (qf : list F64 * list F64), accurate_log m d -> is_finite R = true ->
  (2 ^ 18 <= Z.of_nat n)%Z -> (Z.of_nat (n + 2) <= 2 ^ 50)%Z -> @radial_generate (FS m) (@MK (FS m) n R) = Ok qf ->
  exists x : F64, nth_error (fst qf) 0 = Some x /\ B2R x = 0.
Proof.
  intros m d n R qf AL FR Hn1 Hn2 Hf. rewrite radial_closed in Hf. injection Hf as <-. cbn [fst rt_npts].
  exists (@rad_pt (FS m) (@MK (FS m) n R) 0 : F64). split; [exact (nth_error_tab n (@rad_pt (FS m) (@MK (FS m) n R)) 0 ltac:(lia))|].
  destruct (unif_base m (@MK (FS m) n R) 0 Hn2 eq_refl ltac:(cbn [rt_npts]; lia)) as ((F & dl & Hdl & E) & _). cbn [rt_npts] in *.
  unfold rad_pt. set (x := @base_pt (FS m) (@MK (FS m) n R) (0 + base_off (@MK (FS m) n R)) : F64) in *.
  assert (N1 : 2 ^ 18 + 1 <= INR (n + 1)).
  { rewrite plus_INR. simpl (INR 1). apply Rplus_le_compat_r. rewrite INR_IZR_INZ, pow_IZR. apply IZR_le. exact Hn1. }
  assert (N2 : INR (n + 1) <= 2 ^ 50) by (rewrite INR_IZR_INZ, pow_IZR; apply IZR_le; change (Z.of_nat 2) with 2%Z; lia).
  set (N := INR (n + 1)) in *. simpl (INR 1) in E. pose proof u_pos as U. pose proof u_small as U1. apply abs_of in Hdl.
  assert (I : / 2 ^ 50 <= / N <= / (2 ^ 18 + 1)) by (split; apply Rinv_le_contravar; lra).
  set (v := B2R x) in *. assert (V : / 2 ^ 51 <= v <= 1.000001 * / (2 ^ 18 + 1)) by (
    rewrite E; unfold Rdiv; rewrite Rmult_1_l; assert (/ N * (- (1 / 10000000)) <= / N * dl <= / N * (1 / 10000000)) by (split; apply Rmult_le_compat_l; unfold u in *; lra); lra).
  assert (W : pw v 51 0) by (split; [lra|simpl; lra]). pose proof (pw_mul _ _ _ _ _ _ W W) as W2. pose proof (pw_mul _ _ _ _ _ _ W2 W) as W3.
  destruct (pw_ok _ _ _ W2 ltac:(lia) ltac:(lia)) as (T2 & B2'). destruct (pw_ok _ _ _ W3 ltac:(lia) ltac:(lia)) as (T3 & B3).
  pose proof (exact_rel x v F eq_refl) as EX.
  assert (Q2 : rel (fmul x x) (v * v) (1.01 * u)) by (eapply rel_weak; [apply (rel_fmul _ _ _ _ _ _ EX EX); auto; lra|nra]).
  assert (Q3 : rel (fmul (fmul x x) x) (v * v * v) (2.1 * u)) by (eapply rel_weak; [apply (rel_fmul _ _ _ _ _ _ Q2 EX); auto; lra|nra]).
  destruct Q3 as (FC & s & Hs & EC). apply abs_of in Hs. pose proof (pw_pos _ _ _ W3) as P3.
  assert (C : v * v * v <= 1.000001 * / (2 ^ 18 + 1) * (1.000001 * / (2 ^ 18 + 1)) * (1.000001 * / (2 ^ 18 + 1))).
  { assert (0 <= v) by lra. apply Rmult_le_compat; try lra; [apply Rmult_le_pos; lra|]. apply Rmult_le_compat; lra. }
  destruct (rnd_near_one (fmul (fmul x x) x) FC) as (F1 & E1).
  { rewrite EC. apply Rmult_lt_0_compat; lra. }
  { rewrite EC. apply Rle_lt_trans with (v * v * v * (1 + 2.1 * u)); [apply Rmult_le_compat_l; lra|].
    apply Rle_lt_trans with (1.000001 * / (2 ^ 18 + 1) * (1.000001 * / (2 ^ 18 + 1)) * (1.000001 * / (2 ^ 18 + 1)) * (1 + 2.1 * u)).
    - apply Rmult_le_compat_r; lra.
    - unfold u. lra. }
  destruct (AL _ F1 ltac:(rewrite E1; lra)) as (FL & HL). rewrite E1, ln_1, Rabs_R0, Rmult_0_r, Rminus_0_r in HL.
  assert (L0 : B2R (m_log m (fsub (f_of 1 0) (fmul (fmul x x) x))) = 0) by (apply abs_of in HL; lra).
  change (@rt_transform (FS m) (@MK (FS m) n R) x) with (fmul (Bopp R) (m_log m (fsub (f_of 1 0) (fmul (fmul x x) x)))).
  assert (FP : is_finite (fmul (Bopp R) (m_log m (fsub (f_of 1 0) (fmul (fmul x x) x)))) = true).
  { apply finite_mul; auto; [rewrite is_finite_Bopp; exact FR|]. rewrite L0, Rmult_0_r, Rabs_R0. apply pow_le. lra. }
  destruct (fmul_R _ _ FP) as (_ & _ & ->). rewrite L0, Rmult_0_r. apply rnd_0.
Qed.
Lemma mk_not_good : forall m d (R : F64), accurate_log m d -> sane_scale R ->
  exists n (qf : list F64 * list F64), @radial_generate (FS m) (@MK (FS m) n R) = Ok qf /\ ~ good_radial n qf.
Proof.
  intros m d R AL HR.
  assert (K : exists n, (2 ^ 18 <= Z.of_nat n)%Z /\ (Z.of_nat (n + 2) <= 2 ^ 50)%Z).
  { exists (Z.to_nat (2 ^ 18)). rewrite Nat2Z.inj_add, Z2Nat.id; lia. }
  destruct K as (n & K1 & K2). exists n.
  assert (Q : exists qf : list F64 * list F64, @radial_generate (FS m) (@MK (FS m) n R) = Ok qf) by (eexists; exact (radial_closed _)).
  destruct Q as (qf & Hq). exists qf. split; [exact Hq|]. intros (_ & _ & _ & _ & P & _).
  destruct (mk_zero_radius m d n R qf AL (proj1 HR) K1 K2 Hq) as (x & Hx & E).
  pose proof (P x (nth_error_In _ _ Hx)). lra.
Qed.

(** The correctly rounded library. *)
Lemma round64_gen : forall x, Rabs x <= bpow radix2 1000 -> is_finite (round64 x) = true /\ B2R (round64 x) = rnd x.
Proof.
  intros x H. pose proof (rnd_bound x H) as B. unfold round64, f_of.
  pose proof (binary_normalize_correct 53 1024 Hprec Hmax mode_NE (ZnearestE (scaled_mantissa radix2 (FLT_exp (-1074) 53) x))
     (cexp radix2 (FLT_exp (-1074) 53) x) false) as C. cbv zeta in C.
  change (F2R (Float radix2 (ZnearestE (scaled_mantissa radix2 (FLT_exp (-1074) 53) x)) (cexp radix2 (FLT_exp (-1074) 53) x))) with (rnd x) in C.
  change (round radix2 (SpecFloat.fexp 53 1024) (round_mode mode_NE) (rnd x)) with (rnd (rnd x)) in C.
  assert (RR : rnd (rnd x) = rnd x) by (unfold rnd; apply round_generic; [apply valid_rnd_N|apply generic_format_round; [apply FLT_exp_valid; exact Hprec|apply valid_rnd_N]]).
  rewrite RR in C. rewrite Rlt_bool_true in C by exact B. destruct C as (C1 & C2 & _). auto.
Qed.
Lemma round64_close : forall v, Rabs v <= 2 ^ 900 -> (v = 0 \/ tiny_ok v) -> rel_close (round64 v) v (/ 2 ^ 53).
Proof.
  intros v H T. destruct (round64_gen v (big_pow _ H)) as (F & E). split; [exact F|]. rewrite E.
  destruct (rel_mul v) as (e & He & ->).
  { destruct T as [T|T]; [right; exact T|left]. eapply Rle_trans; [|exact T]. apply bpow_le. lia. }
  replace (v * (1 + e) - v) with (e * v) by ring. rewrite Rabs_mult. apply Rmult_le_compat_r; [apply Rabs_pos|].
  unfold u in He. exact He.
Qed.
Lemma rounded_pow : accurate_pow rounded_libm (/ 2 ^ 53).
Proof.
  intros x y Fx Fy Hx H. assert (W : pw (Rpower (B2R x) (B2R y)) 500 500) by exact H.
  destruct (pw_ok _ _ _ W ltac:(lia) ltac:(lia)) as (T & B). apply round64_close; [|right; exact T].
  eapply Rle_trans; [exact B|]. apply Rle_pow; [lra|lia].
Qed.
Lemma ln_bpow : forall e, Rabs (ln (bpow radix2 e)) <= Rabs (IZR e).
Proof.
  intro e. assert (L : ln (bpow radix2 e) = IZR e * ln 2).
  { rewrite bpow_powerRZ. change (IZR radix2) with 2. rewrite powerRZ_Rpower by lra. unfold Rpower. apply ln_exp. }
  rewrite L, Rabs_mult. assert (0 < ln 2) by (rewrite <- ln_1; apply ln_increasing; lra). pose proof (ln_le_sub 2 ltac:(lra)).
  rewrite (Rabs_pos_eq (ln 2)) by lra. pose proof (Rabs_pos (IZR e)). nra.
Qed.
Lemma ln_gap : forall x : F64, 0 < B2R x -> B2R x <> 1 -> / 2 ^ 54 <= Rabs (ln (B2R x)).
Proof.
  intros x H0 H1. destruct (Rlt_le_dec (B2R x) 1) as [L|L].
  - destruct (gap_one x ltac:(lra)) as (G & _). pose proof (ln_le_sub (B2R x) H0). rewrite Rabs_left1 by lra. lra.
  - assert (G : 1 + / 2 ^ 52 <= B2R x).
    { assert (G1 : generic_format radix2 (FLT_exp (-1074) 53) (bpow radix2 0)) by (apply generic_format_FLT_bpow; [exact Hprec|lia]).
      assert (S : succ radix2 (FLT_exp (-1074) 53) (bpow radix2 0) <= B2R x).
      { apply succ_le_lt; auto; [apply FLT_exp_valid; exact Hprec|apply (generic_format_B2R 53 1024 x)|]. change (bpow radix2 0) with 1. lra. }
      rewrite succ_eq_pos in S by apply bpow_ge_0. rewrite ulp_bpow in S. change (FLT_exp (-1074) 53 (0 + 1)) with (-52)%Z in S.
      change (bpow radix2 0) with 1 in S. replace (/ 2 ^ 52) with (bpow radix2 (-52)); [exact S|].
      change (-52)%Z with (- (52))%Z. rewrite bpow_opp. f_equal. change (bpow radix2 52) with (IZR (2 ^ 52)). rewrite pow_IZR. reflexivity. }
    assert (I : 0 < / B2R x) by (apply Rinv_0_lt_compat; lra).
    pose proof (ln_le_sub (/ B2R x) I) as Q. rewrite ln_Rinv in Q by auto.
    assert (/ B2R x <= / (1 + / 2 ^ 52)) by (apply Rinv_le_contravar; lra).
    assert (/ (1 + / 2 ^ 52) <= 1 - / 2 ^ 54).
    { apply Rmult_le_reg_l with (1 + / 2 ^ 52); [lra|]. rewrite Rinv_r by lra. lra. }
    rewrite Rabs_pos_eq; lra.
Qed.
Lemma rounded_log : accurate_log rounded_libm (/ 2 ^ 53).
Proof.
  intros x Fx Hx. assert (LB : bpow radix2 (-1074) <= B2R x).
  { apply (generic_format_ge_bpow radix2 (FLT_exp (-1074) 53)); [intro e; apply Z.le_max_r|exact Hx|apply (generic_format_B2R 53 1024 x)]. }
  pose proof (finite_lt x) as UB. rewrite Rabs_pos_eq in UB by lra.
  assert (BL : Rabs (ln (B2R x)) <= 2 ^ 11).
  { pose proof (ln_bpow 1024) as A1. pose proof (ln_bpow (-1074)) as A2.
    rewrite (Rabs_pos_eq 1024) in A1 by lra. rewrite (Rabs_left (-1074)) in A2 by lra. apply abs_of in A1. apply abs_of in A2.
    assert (ln (B2R x) < ln (bpow radix2 1024)) by (apply ln_increasing; auto).
    assert (ln (bpow radix2 (-1074)) <= ln (B2R x)).
    { destruct (Rle_lt_or_eq_dec _ _ LB) as [L|<-]; [left; apply ln_increasing; auto; apply bpow_gt_0|lra]. }
    apply Rabs_le. simpl (2 ^ 11). lra. }
  apply round64_close.
  - eapply Rle_trans; [exact BL|]. apply Rle_pow; [lra|lia].
  - destruct (Req_dec (B2R x) 1) as [->|N]; [left; apply ln_1|right].
    assert (W : pw (Rabs (ln (B2R x))) 54 11) by (split; [apply ln_gap; auto|exact BL]).
    destruct (pw_ok _ _ _ W ltac:(lia) ltac:(lia)) as (T & _). unfold tiny_ok in *. rewrite Rabs_Rabsolu in T. exact T.
Qed.
Lemma accurate_weak : forall m d d', accurate m d -> d <= d' -> accurate m d'.
Proof. intros m d d' A H x F Hx. destruct (A x F Hx) as ((A1 & A2 & A3) & (B1 & B2' & B3)). repeat split; auto; lra. Qed.
Lemma rules_weak : forall qf q er ew er' ew', rel_rules qf q er ew -> er <= er' -> ew <= ew' -> rel_rules qf q er' ew'.
Proof.
  intros qf q er ew er' ew' (L1 & L2 & C1 & C2) H1 H2. split; [exact L1|]. split; [exact L2|]. split; intros i x v Hx Hv.
  - destruct (C1 i x v Hx Hv) as (F & K). split; [exact F|]. eapply Rle_trans; [exact K|]. apply Rmult_le_compat_r; [apply Rabs_pos|auto].
  - destruct (C2 i x v Hx Hv) as (F & K). split; [exact F|]. eapply Rle_trans; [exact K|]. apply Rmult_le_compat_r; [apply Rabs_pos|auto].
Qed.
Definition ex_R : F64 := f_of 2 0.
Definition ex_al : F64 := f_of 1 0.
Definition ex_ok (t : rtraits (FS rounded_libm)) : Prop :=
  exists (qf : list F64 * list F64) (q : list R * list R), @radial_generate (FS rounded_libm) t = Ok qf /\
    @radial_generate RS (real_traits t) = Ok q /\ rel_rules qf q (/ 10 ^ 10) (/ 10 ^ 10) /\ good_radial 30 qf.
Lemma ex_build : forall t : rtraits (FS rounded_libm), rt_npts t = 30%nat ->
  (forall (qf : list F64 * list F64) (q : list R * list R), @radial_generate (FS rounded_libm) t = Ok qf ->
     @radial_generate RS (real_traits t) = Ok q -> rel_rules qf q (/ 10 ^ 10) (/ 10 ^ 10)) ->
  (forall qf : list F64 * list F64, @radial_generate (FS rounded_libm) t = Ok qf -> good_radial 30 qf) -> ex_ok t.
Proof.
  intros t Hn H K. destruct (radial_total (real_traits t)) as (q & Hq).
  assert (Q : exists qf : list F64 * list F64, @radial_generate (FS rounded_libm) t = Ok qf) by (eexists; exact (radial_closed _)).
  destruct Q as (qf & Hf). exists qf, q. auto.
Qed.
Lemma radial_float_ex : accurate rounded_libm (/ 2 ^ 53) /\ accurate_pow rounded_libm (/ 2 ^ 53) /\ accurate_log rounded_libm (/ 2 ^ 53) /\
  sane_scale ex_R /\ sane_alpha ex_al /\ tempered (fun r => exp (- r)) (fun r => (1 + r) * exp (- (r / 2))) /\
  ex_ok (@Becke (FS rounded_libm) 30 ex_R) /\ ex_ok (@MHL (FS rounded_libm) 2 30 ex_R) /\
  ex_ok (@MK (FS rounded_libm) 30 ex_R) /\ ex_ok (@TA (FS rounded_libm) 30 ex_R ex_al).
Proof.
  assert (A : accurate rounded_libm (/ 2 ^ 53)) by (apply (accurate_weak _ _ _ rounded_accurate); lra).
  assert (SR : sane_scale ex_R).
  { destruct (f_of_small 2 ltac:(lia)) as (F & E). split; [exact F|]. unfold ex_R. rewrite E. split; lra. }
  assert (SA : sane_alpha ex_al).
  { destruct (f_of_small 1 ltac:(lia)) as (F & E). split; [exact F|]. right. unfold ex_al. rewrite E. split; lra. }
  assert (D : / 2 ^ 53 <= / 2 ^ 50) by lra. pose proof rounded_pow as P. pose proof rounded_log as L.
  assert (N : INR (30 + 1) = 31) by (simpl; lra). assert (M : INR 2 = 2) by (simpl; lra).
  split; [exact A|]. split; [exact P|]. split; [exact L|]. split; [exact SR|]. split; [exact SA|]. split; [exact temper_exp|].
  split; [|split; [|split]]; (apply ex_build; [reflexivity| |]); intros.
  - eapply rules_weak; [apply (becke_rule rounded_libm (/ 2 ^ 53) 30 ex_R); auto; lia| |]; rewrite N; unfold u; lra.
  - apply (becke_good rounded_libm (/ 2 ^ 53) 30 ex_R); auto; lia.
  - eapply rules_weak; [apply (mhl_rule rounded_libm (/ 2 ^ 53) 2 30 ex_R); auto; lia| |]; rewrite N, M; unfold u; lra.
  - apply (mhl_good rounded_libm (/ 2 ^ 53) 2 30 ex_R); auto; lia.
  - eapply rules_weak; [apply (mk_rule rounded_libm (/ 2 ^ 53) 30 ex_R); auto; lia| |]; rewrite N; unfold u; lra.
  - apply (mk_good rounded_libm (/ 2 ^ 53) 30 ex_R); auto; lia.
  - eapply rules_weak; [apply (ta_rule rounded_libm (/ 2 ^ 53) 30 ex_R ex_al); auto; lia| |]; rewrite N; unfold u; lra.
  - apply (ta_good rounded_libm (/ 2 ^ 53) 30 ex_R ex_al); auto; lia.
Qed.

(** The maps and Jacobians alone. *)
Lemma becke_map : forall m n (R x : F64), sane_scale R -> is_finite x = true -> -1 < B2R x < 1 ->
  rel_close (@rt_transform (FS m) (@Becke (FS m) n R) x) (@rt_transform RS (Becke n (B2R R : RS)) (B2R x)) (7 * u).
Proof. intros. apply close_of_rel. apply becke_r; auto. Qed.
Lemma becke_jac : forall m d n (R x : F64), accurate_pow m d -> d <= 1 / 4000 -> sane_scale R ->
  is_finite x = true -> -1 < B2R x < 1 ->
  rel_close (@rt_jacobian (FS m) (@Becke (FS m) n R) x) (@rt_jacobian RS (Becke n (B2R R : RS)) (B2R x)) (3 * d + 9 * u).
Proof. intros. apply close_of_rel. apply becke_j; auto. Qed.
Lemma mhl_map : forall m d M n (R x : F64), accurate_pow m d -> d <= 1 / 4000 -> (1 <= M <= 8)%nat -> sane_scale R ->
  is_finite x = true -> / 2 ^ 60 <= B2R x < 1 ->
  rel_close (@rt_transform (FS m) (@MHL (FS m) M n R) x) (@rt_transform RS (MHL M n (B2R R : RS)) (B2R x))
    (2 * d + (5 * INR M + 2) * u) /\
  rel_close (@rt_jacobian (FS m) (@MHL (FS m) M n R) x) (@rt_jacobian RS (MHL M n (B2R R : RS)) (B2R x))
    (4 * d + (3 * INR M + 9) * u).
Proof. intros. split; apply close_of_rel; [apply mhl_r; auto|apply mhl_j; auto]. Qed.
Lemma mk_map : forall m d n (R x : F64), accurate_log m d -> d <= 1 / 4000 -> sane_scale R ->
  is_finite x = true -> / 2 ^ 12 <= B2R x <= 1 - / 2 ^ 40 ->
  let c := B2R x * B2R x * B2R x in
  rel_close (@rt_transform (FS m) (@MK (FS m) n R) x) (@rt_transform RS (MK n (B2R R : RS)) (B2R x))
    (2 * d + 4 * u / (c * (1 - c))) /\
  rel_close (@rt_jacobian (FS m) (@MK (FS m) n R) x) (@rt_jacobian RS (MK n (B2R R : RS)) (B2R x)) (11 * u / (1 - c)).
Proof. intros. split; apply close_of_rel; [apply mk_r; auto|apply mk_j; auto]. Qed.
Lemma ta_map : forall m d n (R al x : F64), accurate_pow m d -> accurate_log m d -> d <= 1 / 8000 -> sane_scale R ->
  sane_alpha al -> is_finite x = true -> -1 + / 2 ^ 35 <= B2R x < 1 ->
  rel_close (@rt_transform (FS m) (@TA (FS m) n R al) x) (@rt_transform RS (TA n (B2R R : RS) (B2R al : RS)) (B2R x))
    (3 * d + 45 * u / (1 + B2R x)) /\
  rel_close (@rt_jacobian (FS m) (@TA (FS m) n R al) x) (@rt_jacobian RS (TA n (B2R R : RS) (B2R al : RS)) (B2R x))
    (3 * d + 60 * u / (1 + B2R x)).
Proof. intros. split; apply close_of_rel; [apply ta_r; auto|apply ta_j; auto]. Qed.
