(** Concrete cases for stored rules on intervals and half lines. *)
From Coq Require Import List Bool Arith ZArith Lia Reals Lra Psatz.
From Coquelicot Require Import Coquelicot.
From Flocq Require Import Core.Raux IEEE754.BinarySingleNaN.
From Verif Require Import Base.Outcome Base.Scalar Base.RScalar Base.FScalar Model.Primitive Model.BoundFloat
  Spec.Sums Spec.RealRules Spec.RadialSpec Spec.ErrorSpec Spec.FloatSpec Spec.LibmSpec Spec.BoundFloatSpec Spec.MappedSpec
  Proofs.LobattoRule Proofs.GLFloatRule Proofs.LobFloatRule Proofs.GaussError Proofs.BoundFloat Proofs.BoundFloatThm Proofs.Mapped Proofs.MappedGauss Proofs.MappedHalf.
Import ListNotations.
Local Open Scope R_scope.

Definition b0 : F64 := f_of 0 0.
Definition b1 : F64 := f_of 1 0.
Definition b2 : F64 := f_of 2 0.

Lemma small_plain : forall x : F64, is_finite x = true -> Rabs (B2R x) <= 2 -> plain_bound x.
Proof. intros x F H. split; auto. eapply Rle_trans; [exact H|]. rewrite <- (pow_1 2) at 1. apply Rle_pow; [lra|lia]. Qed.

Lemma b0_val : is_finite b0 = true /\ B2R b0 = 0.
Proof. split; reflexivity. Qed.
Lemma b1_val : is_finite b1 = true /\ B2R b1 = 1.
Proof. exact one_ok. Qed.
Lemma b2_val : is_finite b2 = true /\ B2R b2 = 2.
Proof. exact two_ok. Qed.

Lemma b_plain : plain_bound b0 /\ plain_bound b2 /\ Bltb b0 b2 = true.
Proof.
  split; [|split; [|reflexivity]]; apply small_plain; try reflexivity.
  - rewrite (proj2 b0_val), Rabs_R0. lra.
  - rewrite (proj2 b2_val), Rabs_pos_eq; lra.
Qed.

Lemma spill_small : spill b0 b2 <= 1.
Proof.
  unfold spill, extent. rewrite (proj2 b0_val), (proj2 b2_val), Rabs_R0, (Rabs_pos_eq 2), Rmax_right by lra.
  pose proof tiny_lt. assert (ulp53 <= / 10 ^ 15) by (exact (proj2 u_tiny)). simpl in *. lra.
Qed.

Lemma exp_27 : forall t, t <= 3 -> Rabs (exp t) <= 27.
Proof.
  intros t Ht. rewrite Rabs_pos_eq by (left; apply exp_pos). apply Rle_trans with (exp 3).
  - destruct (Rle_lt_or_eq_dec t 3 Ht) as [H| ->]; [left; apply exp_increasing; auto|lra].
  - pose proof exp_le_3. replace 3 with (1 + 1 + 1) at 1 by lra. rewrite !exp_plus. pose proof (exp_pos 1).
    assert (exp 1 * exp 1 <= 9) by nra. nra.
Qed.

Lemma exp_lip : lipschitz (B2R b0 - spill b0 b2) (B2R b2 + spill b0 b2) 27 exp.
Proof.
  pose proof spill_small. pose proof (spill_pos b0 b2). rewrite (proj2 b0_val), (proj2 b2_val).
  intros x y Hx Hy. destruct (MVT_gen exp x y exp) as (c & Hc & E).
  - intros. apply is_derive_exp.
  - intros. apply continuity_pt_filterlim. apply (ex_derive_continuous (V := R_NormedModule)). exists (exp x0). apply is_derive_exp.
  - rewrite Rabs_minus_sym, E, Rabs_mult, (Rabs_minus_sym y x). apply Rmult_le_compat_r; [apply Rabs_pos|].
    apply exp_27. revert Hc. unfold Rmin, Rmax. destruct (Rle_dec x y); lra.
Qed.

(** exp on [0,2] with two stored points. *)
Lemma ex_interval : exists qf q' : list F64 * list F64, @gl_generate (FS ex_lib) 2 = Ok qf /\ maps_f64 ex_lib true b0 b2 qf q' /\
  smooth (B2R b0) (B2R b2) 4 (fun _ => exp) 27 /\
  (forall x, B2R b0 - spill b0 b2 <= x <= B2R b2 + spill b0 b2 -> Rabs (exp x) <= 27) /\
  lipschitz (B2R b0 - spill b0 b2) (B2R b2 + spill b0 b2) 27 exp.
Proof.
  destruct ex_rule as (A & D & qf & G & _). destruct b_plain as (P0 & P2 & L).
  destruct (map_runs ex_lib true b0 b2 2 qf P0 P2 L (gl_stored ex_lib _ 2 qf A D ltac:(lia) ltac:(lia) G)) as (q' & M).
  exists qf, q'. split; auto. split; auto. pose proof spill_small. pose proof (spill_pos b0 b2). split.
  - split; [intros; apply is_derive_exp|]. intros t Ht. rewrite (proj2 b2_val) in Ht. apply exp_27. lra.
  - split; [|exact exp_lip]. intros x Hx. rewrite (proj2 b2_val) in Hx. apply exp_27. lra.
Qed.

Lemma ex_lobatto_interval : exists qf q' : list F64 * list F64, @lob_generate (FS lex_lib) 4 = Ok qf /\ maps_f64 lex_lib true b0 b2 qf q'.
Proof.
  destruct lex_rule as (A & D & qf & G & _). destruct b_plain as (P0 & P2 & L).
  destruct (map_runs lex_lib true b0 b2 4 qf P0 P2 L (lob_stored lex_lib _ 4 qf A D ltac:(lia) ltac:(lia) G)) as (q' & M). eauto.
Qed.

(** The third inverse power on a half line. *)
Definition cubic (r : R) : R := / (1 + r) ^ 3.

Lemma cubic_decays : decaying 1 3 cubic.
Proof.
  unfold cubic. split.
  - intros r Hr. assert (0 < (1 + r) ^ 3) by (apply pow_lt; lra). rewrite Rabs_pos_eq by (left; apply Rinv_0_lt_compat; auto).
    replace (/ (1 + r) ^ 3 * (1 + r) ^ 2) with (/ (1 + r)) by (field; lra). rewrite <- Rinv_1. apply Rinv_le_contravar; lra.
  - intros r s H. set (q := (1 + r) / (1 + s)).
    assert (Q0 : 0 <= q) by (unfold q; apply Rmult_le_pos; [lra|left; apply Rinv_0_lt_compat; lra]).
    assert (Q1 : 1 - q <= s - r). { unfold q. replace (1 - (1 + r) / (1 + s)) with ((s - r) * / (1 + s)) by (field; lra).
      rewrite <- (Rmult_1_r (s - r)) at 2. apply Rmult_le_compat_l; [lra|]. rewrite <- Rinv_1. apply Rinv_le_contravar; lra. }
    assert (Q2 : q <= 1). { unfold q. apply Rmult_le_reg_r with (1 + s); [lra|]. unfold Rdiv. rewrite Rmult_assoc, Rinv_l by lra. lra. }
    assert (0 < (1 + r) ^ 3) by (apply pow_lt; lra).
    rewrite <- (Rabs_pos_eq ((1 + r) ^ 3)) at 2 by lra. rewrite <- Rabs_mult.
    replace ((/ (1 + s) ^ 3 - / (1 + r) ^ 3) * (1 + r) ^ 3) with (- (1 - q * q * q)) by (unfold q; field; lra).
    rewrite Rabs_Ropp. assert (q * q <= 1) by nra. assert (0 <= q * q) by nra. assert (q * q * q <= 1) by nra. rewrite Rabs_pos_eq by lra.
    assert (1 - q * q * q <= 3 * (1 - q)) by nra. lra.
Qed.

Definition up_f (y : R) : R := / y ^ 3.
Definition low_f (y : R) : R := / (- y) ^ 3.

Lemma up_decays : decaying 1 3 (fun r => up_f (B2R b1 + r)).
Proof. rewrite (proj2 b1_val). exact cubic_decays. Qed.

Definition bm : F64 := Bopp b1.
Lemma bm_val : is_finite bm = true /\ B2R bm = -1.
Proof. split; [reflexivity|]. unfold bm. rewrite B2R_Bopp, (proj2 b1_val). lra. Qed.

Lemma low_shape : forall r, low_f (B2R bm - r) = cubic r.
Proof. intro r. rewrite (proj2 bm_val). unfold low_f, cubic. replace (- (-1 - r)) with (1 + r) by ring. reflexivity. Qed.

Lemma low_decays : decaying 1 3 (fun r => low_f (B2R bm - r)).
Proof.
  destruct cubic_decays as (A & B). split.
  - intros r Hr. rewrite low_shape. apply A, Hr.
  - intros r s H. rewrite !low_shape. apply B, H.
Qed.

Lemma pull_up : forall x, -1 < x < 1 -> (1 - x) / 4 = up_f (B2R b1 + (1 + x) / (1 - x)) * (2 / ((1 - x) * (1 - x))).
Proof. intros x Hx. rewrite (proj2 b1_val). unfold up_f. replace (1 + (1 + x) / (1 - x)) with (2 / (1 - x)) by (field; lra). field. lra. Qed.

Lemma pull_low : forall x, -1 < x < 1 -> (1 + x) / 4 = low_f (B2R bm - (1 - x) / (1 + x)) * (2 / ((1 + x) * (1 + x))).
Proof. intros x Hx. rewrite low_shape. unfold cubic. replace (1 + (1 - x) / (1 + x)) with (2 / (1 + x)) by (field; lra). field. lra. Qed.

Lemma lin_facts : forall s, Rabs s = 1 -> (forall x, -1 <= x <= 1 -> Rabs ((1 + s * x) / 4) <= 1 / 2) /\ lipschitz (-1) 1 (1 / 4) (fun x => (1 + s * x) / 4) /\
  within (-1) 1 0 (fun x => (1 + s * x) / 4) (peval [1 / 4; s / 4]) /\ RInt (fun x => (1 + s * x) / 4) (-1) 1 = 1 / 2.
Proof.
  intros s Hs. split; [|split; [|split]].
  - intros x Hx. assert (Rabs (s * x) <= 1) by (rewrite Rabs_mult, Hs, Rmult_1_l; apply Rabs_le; lra). apply Rabs_le. apply Rabs_le_between in H. lra.
  - intros x y _ _. replace ((1 + s * x) / 4 - (1 + s * y) / 4) with (1 / 4 * s * (x - y)) by field. rewrite !Rabs_mult, Hs, (Rabs_pos_eq (1 / 4)); lra.
  - intros x _. simpl. replace ((1 + s * x) / 4 - (1 / 4 + x * (s / 4 + x * 0))) with 0 by field. rewrite Rabs_R0. lra.
  - apply is_RInt_unique. evar_last.
    { apply (is_RInt_derive (V := R_CompleteNormedModule) (fun x => x / 4 + s * x * x / 8) (fun x => (1 + s * x) / 4)).
      - intros x _. auto_derive; [auto|]. field.
      - intros x _. apply (ex_derive_continuous (V := R_NormedModule)). auto_derive. auto. }
    unfold minus, plus, opp; simpl. field.
Qed.

Lemma half_small : half_error 2 0 1 3 (1 / 2) (1 / 4) 1 <= / 10000.
Proof.
  unfold half_error. replace (INR 2 + 1) with 3 by (simpl; lra).
  assert (S3 : sqrt 3 <= 2) by (replace 2 with (sqrt (2 * 2)) by (apply sqrt_square; lra); apply sqrt_le_1_alt; lra).
  assert (U : 0 < ulp53 <= / 10 ^ 15) by exact u_tiny. pose proof (sqrt_pos 3).
  assert ((400 * 3 ^ 2 * (1 / 2) + 32 * (1 / 4)) * sqrt 3 * ulp53 <= (400 * 3 ^ 2 * (1 / 2) + 32 * (1 / 4)) * 2 * ulp53).
  { apply Rmult_le_compat_r; [lra|]. apply Rmult_le_compat_l; lra. }
  simpl in *. lra.
Qed.

(** Two stored points: the integral of y^-3 over [1,infinity) is found. *)
Lemma ex_up : exists qf q' : list F64 * list F64, @gl_generate (FS ex_lib) 2 = Ok qf /\ maps_f64 ex_lib true b1 f_inf qf q' /\
  half_line_integral (fun r => up_f (B2R b1 + r)) (1 / 2) /\ Rabs (apply_rule (real_rule q') up_f - 1 / 2) <= / 10000.
Proof.
  destruct ex_rule as (A & D & qf & G & _).
  assert (B : Rabs (B2R b1) <= 2 ^ 40). { rewrite (proj2 b1_val), Rabs_R1. apply pow_R1_Rle. lra. }
  destruct (up_runs ex_lib _ 2 qf A D ltac:(lia) ltac:(lia) G true b1 (proj1 b1_val) B) as (q' & M).
  destruct (lin_facts (-1) ltac:(rewrite Rabs_left; lra)) as (F1 & F2 & F3 & F4).
  pose proof (up_best ex_lib _ 2 qf A D ltac:(lia) ltac:(lia) G true b1 (proj1 b1_val) B q' up_f (fun x => (1 + -1 * x) / 4) [1 / 4; -1 / 4] 1 3 (1 / 2) (1 / 4) 0
    M up_decays) as E.
  destruct E as (E1 & E2); auto; [|unfold deg_le; simpl; lia|].
  - intros x Hx. rewrite <- pull_up by auto. field.
  - exists qf, q'. split; auto. split; auto. rewrite F4 in E1, E2. split; [exact E1|].
    rewrite (proj2 b1_val), Rabs_R1 in E2. eapply Rle_trans; [exact E2|exact half_small].
Qed.

(** The same on (-infinity,-1]: the sum is close to minus the integral. *)
Lemma ex_low : exists qf q' : list F64 * list F64, @gl_generate (FS ex_lib) 2 = Ok qf /\ maps_f64 ex_lib true (Bopp f_inf) bm qf q' /\
  half_line_integral (fun r => low_f (B2R bm - r)) (1 / 2) /\ apply_rule (real_rule q') low_f < - (499 / 1000).
Proof.
  destruct ex_rule as (A & D & qf & G & _).
  assert (B : Rabs (B2R bm) <= 2 ^ 40). { rewrite (proj2 bm_val), Rabs_left by lra. replace (- -1) with 1 by lra. apply pow_R1_Rle. lra. }
  destruct (low_runs ex_lib _ 2 qf A D ltac:(lia) ltac:(lia) G true bm (proj1 bm_val) B) as (q' & M).
  destruct (lin_facts 1 ltac:(rewrite Rabs_pos_eq; lra)) as (F1 & F2 & F3 & F4).
  pose proof (low_best ex_lib _ 2 qf A D ltac:(lia) ltac:(lia) G true bm (proj1 bm_val) B q' low_f (fun x => (1 + 1 * x) / 4) [1 / 4; 1 / 4] 1 3 (1 / 2) (1 / 4) 0
    M low_decays) as E.
  destruct E as (E1 & E2); auto; [|unfold deg_le; simpl; lia|].
  - intros x Hx. rewrite <- pull_low by auto. field.
  - exists qf, q'. split; auto. split; auto. rewrite F4 in E1, E2. split; [exact E1|].
    rewrite (proj2 bm_val) in E2. replace (Rabs (-1)) with 1 in E2 by (rewrite Rabs_left; lra).
    assert (E3 := Rle_trans _ _ _ E2 half_small).
    apply Rabs_le_between in E3. lra.
Qed.

(** Lobatto rules on half lines: the end node goes to infinity. *)
Lemma map_nth : forall m dbg lo up (q q' : list F64 * list F64) i x w, maps_f64 m dbg lo up q q' ->
  nth_error (fst q) i = Some x -> nth_error (snd q) i = Some w ->
  exists y v, In y (fst q') /\ In v (snd q') /\ transform_f64 m dbg lo up x w = Ok (y, v).
Proof.
  intros m dbg lo up (xs, ws) (ys, vs) i x w (_ & _ & F). cbn [fst snd] in *. revert xs ws ys vs F.
  induction i as [|i IH]; intros [|a xs] [|c ws] ys vs F Hx Hw; try discriminate; cbn [combine] in F; inversion F as [|p b la lb Hab F' E1 E2]; subst.
  - destruct ys as [|y ys], vs as [|v vs]; cbn [combine] in E2; try discriminate. injection E2 as -> ->. injection Hx as ->. injection Hw as ->.
    exists y, v. split; [left; auto|]. split; [left; auto|]. exact Hab.
  - destruct ys as [|y ys], vs as [|v vs]; cbn [combine] in E2; try discriminate. injection E2 as -> ->.
    destruct (IH xs ws ys vs F' Hx Hw) as (y' & v' & H1 & H2 & H3). exists y', v'. split; [right; auto|]. split; [right; auto|]. exact H3.
Qed.

Lemma is_one : forall x : F64, is_finite x = true -> B2R x = 1 -> x = f_of 1 0.
Proof.
  intros x F E. apply B2R_Bsign_inj; auto; [rewrite E; symmetry; apply one_ok|].
  destruct x as [s|s| |s mm e H]; try discriminate F.
  - exfalso. simpl in E. lra.
  - destruct s; [|reflexivity]. exfalso. simpl in E. 
    pose proof (Float_prop.F2R_lt_0 Zaux.radix2 (Defs.Float Zaux.radix2 (Z.neg mm) e) eq_refl) as H0. cbn in *. lra.
Qed.

Lemma lob_half : forall m d n (qf q' : list F64 * list F64) dbg (lo : F64),
  accurate m d -> d * INR n ^ 2 <= 1 / 2000 -> (2 <= n)%nat -> (Z.of_nat n <= 16384)%Z -> @lob_generate (FS m) n = Ok qf ->
  is_finite lo = true -> maps_f64 m dbg lo f_inf qf q' -> In f_inf (fst q') /\ In f_inf (snd q').
Proof.
  intros m d n qf q' dbg lo A D n2 Hn G Fl M. destruct (lobatto_exists n n2) as (g & Hg).
  destruct (lob_float m d n qf g A D n2 Hn G Hg) as (F & (Lx & Lw & _ & E1 & _ & PW) & _).
  unfold real_rule in Lx, Lw, E1, PW. cbn [fst snd] in *. rewrite map_length in Lx, Lw.
  rewrite nth_error_map in E1. destruct (nth_error (fst qf) (n - 1)) as [x|] eqn:X; [|discriminate]. injection E1 as E1.
  destruct (nth_error (snd qf) (n - 1)) as [w|] eqn:W. 2:{ apply nth_error_None in W. lia. }
  assert (Fx : is_finite x = true) by (apply F; left; apply nth_error_In with (n - 1)%nat; auto).
  assert (Fw : is_finite w = true) by (apply F; right; apply nth_error_In with (n - 1)%nat; auto).
  assert (W0 : 0 < B2R w) by (apply PW, in_map; apply nth_error_In with (n - 1)%nat; auto).
  destruct (map_nth m dbg lo f_inf qf q' (n - 1) x w M X W) as (y & v & Hy & Hv & T).
  rewrite (is_one x Fx E1) in T.
  assert (Bw : Bltb (f_of 0 0) w = true).
  { rewrite (Bltb_correct 53 1024 (f_of 0 0) w) by auto. apply Rlt_bool_true. exact W0. }
  destruct (ends_thm m dbg lo w Fl Fw Bw) as (T' & _).
  assert (E : Ok (y, v) = Ok (f_inf, f_inf)) by (etransitivity; [symmetry; exact T|exact T']). injection E as -> ->. auto.
Qed.
