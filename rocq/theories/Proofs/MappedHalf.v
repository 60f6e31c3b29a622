(** The stored Gauss-Legendre rule on half lines. *)
From Coq Require Import List Bool Arith ZArith Lia Reals Lra Psatz.
From Coquelicot Require Import Coquelicot.
From Flocq Require Import Core.Raux IEEE754.BinarySingleNaN.
From Verif Require Import Base.Outcome Base.Scalar Base.RScalar Base.FScalar Model.Primitive Model.Radial Model.BoundFloat
  Spec.Sums Spec.RealRules Spec.LegendreSpec Spec.RadialSpec Spec.RadialErrSpec Spec.ErrorSpec Spec.FloatSpec Spec.LibmSpec Spec.BoundFloatSpec Spec.MappedSpec
  Proofs.Tab Proofs.Legendre Proofs.LegendreZeros Proofs.GLRule Proofs.GLFloatRule Proofs.GaussError Proofs.GaussErrorFloat Proofs.RadialReal Proofs.RadialErr
  Proofs.BoundFloat Proofs.BoundFloatThm Proofs.Mapped Proofs.MappedGauss.
Import ListNotations.
Local Open Scope R_scope.

(** Gauss weights are not small. *)
Lemma slope_upper : forall n z, -1 < z < 1 -> Pn n z = 0 -> (1 - z * z) * dP n z * dP n z <= INR n * (INR n + 1).
Proof.
  assert (A : forall n z, 0 <= z < 1 -> Pn n z = 0 -> (1 - z * z) * dP n z * dP n z <= INR n * (INR n + 1)).
  { intros n z Hz Z. pose proof (energy_mono n z 1 (proj1 Hz) ltac:(lra)) as E. rewrite Z, Pn_1 in E. lra. }
  intros n z Hz Z. destruct (Rle_lt_dec 0 z); [apply A; auto; lra|].
  assert (Z' : Pn n (- z) = 0) by (rewrite Pn_opp, Z; ring).
  pose proof (A n (- z) ltac:(lra) Z') as E. rewrite dP_opp in E.
  assert (S : (-1) ^ n * (-1) ^ n = 1) by (rewrite <- Rpow_mult_distr; replace (-1 * -1) with 1 by ring; apply pow1).
  replace ((1 - - z * - z) * - ((-1) ^ n * dP n z) * - ((-1) ^ n * dP n z)) with ((1 - z * z) * dP n z * dP n z * ((-1) ^ n * (-1) ^ n)) in E by ring.
  rewrite S, Rmult_1_r in E. exact E.
Qed.

Lemma gauss_w_low : forall n z i, (1 <= n)%nat -> zeros n z -> (i < n)%nat -> 2 / (INR n * (INR n + 1)) <= gauss_w n (z i).
Proof.
  intros n z i n1 Hz Hi. pose proof (gauss_w_pos n z i n1 Hz Hi) as P. pose proof Hz as (A & _ & Z).
  pose proof (slope_upper n (z i) (A i Hi) (Z i Hi)) as S. unfold gauss_w in *.
  assert (N : 0 < INR n) by (apply lt_0_INR; lia).
  assert (0 < INR n * (INR n + 1)) by nra.
  set (D := (1 - z i * z i) * dP n (z i) * dP n (z i)) in *.
  assert (0 < D). { destruct (Rle_lt_dec D 0) as [[H0|H0]|H0]; auto; exfalso.
    - assert (2 / D < 0) by (unfold Rdiv; pose proof (Rinv_lt_0_compat D H0); lra). lra.
    - rewrite H0 in P. unfold Rdiv in P. rewrite Rinv_0 in P. lra. }
  unfold Rdiv. apply Rmult_le_compat_l; [lra|]. apply Rinv_le_contravar; auto.
Qed.

Lemma decay_pos : forall K L F, decaying K L F -> 0 <= K /\ 0 <= L.
Proof.
  intros K L F (DK & DL). split.
  - pose proof (DK 0 ltac:(lra)) as A. pose proof (Rabs_pos (F 0)). rewrite Rplus_0_r, pow1, Rmult_1_r in A. lra.
  - pose proof (DL 0 1 ltac:(lra)) as A. rewrite Rplus_0_r, pow1, Rmult_1_r, Rminus_0_r, Rmult_1_r in A. pose proof (Rabs_pos (F 1 - F 0)). lra.
Qed.

Lemma Bleb_le : forall a b : F64, is_finite a = true -> is_finite b = true -> Bleb a b = true -> B2R a <= B2R b.
Proof. intros a b Fa Fb H. rewrite (Bleb_correct 53 1024 a b Fa Fb) in H. destruct (Raux.Rle_bool_spec (B2R a) (B2R b)); [assumption|discriminate]. Qed.

(** One pair: r the distance from the finite bound, ry the stored one. *)
Lemma half_pair : forall F K L b r ry w v, decaying K L F -> 0 <= b <= 2 ^ 40 -> 0 <= r -> 0 <= ry ->
  Rabs (ry - r) <= 8 * ulp53 * (b + r) -> 0 < w -> Rabs (v - w * ((1 + r) ^ 2 / 2)) <= 13 * ulp53 * (w * ((1 + r) ^ 2 / 2)) ->
  Rabs (v * F ry - w * ((1 + r) ^ 2 / 2) * F r) <= (26 * K + 32 * (1 + b) * L) * ulp53 * w.
Proof.
  intros F K L b r ry w v (DK & DL) Hb Hr Hy E Hw Ev. set (J := (1 + r) ^ 2 / 2) in *.
  pose proof ulp_pos as UP.
  assert (L0 : 0 <= L). { pose proof (DL 0 1 ltac:(lra)) as A. rewrite Rplus_0_r, pow1, Rmult_1_r, Rminus_0_r, Rmult_1_r in A. pose proof (Rabs_pos (F 1 - F 0)). lra. }
  assert (US : 8 * ulp53 * (2 ^ 40 + 1) <= / 2). { unfold ulp53. apply Rmult_le_reg_r with (2 ^ 53); [apply pow_lt; lra|].
    replace (8 * / 2 ^ 53 * (2 ^ 40 + 1) * 2 ^ 53) with (8 * (2 ^ 40 + 1)) by (field; apply pow_nonzero; lra). simpl. lra. }
  assert (D1 : 8 * ulp53 * (b + r) <= (1 + r) / 2).
  { apply Rle_trans with (8 * ulp53 * ((2 ^ 40 + 1) * (1 + r))); [apply Rmult_le_compat_l; [lra|]; assert (0 < 2 ^ 40) by (apply pow_lt; lra); nra|].
    rewrite <- Rmult_assoc. replace ((1 + r) / 2) with (/ 2 * (1 + r)) by field. apply Rmult_le_compat_r; lra. }
  assert (D2 : 8 * ulp53 * (b + r) <= 8 * ulp53 * ((1 + b) * (1 + r))) by (apply Rmult_le_compat_l; [lra|nra]).
  assert (Ry : (1 + r) / 2 <= 1 + ry) by (apply Rabs_le_between in E; lra).
  assert (T1 : J * Rabs (F ry) <= 2 * K).
  { eapply Rle_trans; [|apply Rmult_le_compat_l; [lra|exact (DK ry Hy)]]. pose proof (Rabs_pos (F ry)).
    replace (2 * (Rabs (F ry) * (1 + ry) ^ 2)) with (2 * (1 + ry) ^ 2 * Rabs (F ry)) by ring. apply Rmult_le_compat_r; [lra|].
    unfold J. assert (((1 + r) / 2) ^ 2 <= (1 + ry) ^ 2) by (apply pow_incr; lra). simpl in *. lra. }
  assert (T2 : J * Rabs (F ry - F r) <= 32 * (1 + b) * L * ulp53).
  { set (mn := Rmin ry r). assert (M0 : 0 <= mn) by (apply Rmin_glb; auto). assert (M1 : (1 + r) / 2 <= 1 + mn).
    { unfold mn, Rmin. destruct (Rle_dec ry r); lra. }
    assert (A : Rabs (F ry - F r) * (1 + mn) ^ 3 <= L * Rabs (ry - r)).
    { unfold mn, Rmin. destruct (Rle_dec ry r) as [Q|Q].
      - rewrite Rabs_minus_sym, (Rabs_minus_sym ry), (Rabs_pos_eq (r - ry)) by lra. apply DL. lra.
      - rewrite (Rabs_pos_eq (ry - r)) by lra. apply DL. lra. }
    assert (B : L * Rabs (ry - r) <= L * (8 * ulp53 * ((1 + b) * (1 + r)))) by (apply Rmult_le_compat_l; lra).
    assert (C : ((1 + r) / 2) ^ 3 <= (1 + mn) ^ 3) by (apply pow_incr; lra).
    pose proof (Rabs_pos (F ry - F r)) as AP. set (D := Rabs (F ry - F r)) in *.
    apply Rmult_le_reg_r with (1 + r); [lra|]. 
    assert (D * ((1 + r) / 2) ^ 3 <= D * (1 + mn) ^ 3) by (apply Rmult_le_compat_l; lra).
    replace (J * D * (1 + r)) with (4 * (D * ((1 + r) / 2) ^ 3)) by (unfold J; field).
    replace (32 * (1 + b) * L * ulp53 * (1 + r)) with (4 * (L * (8 * ulp53 * ((1 + b) * (1 + r))))) by ring. lra. }
  assert (J0 : 0 <= J) by (unfold J; apply Rmult_le_pos; [apply pow_le; lra|lra]).
  replace (v * F ry - w * J * F r) with ((v - w * J) * F ry + w * (J * (F ry - F r))) by ring.
  eapply Rle_trans; [apply Rabs_triang|]. rewrite !Rabs_mult, (Rabs_pos_eq w), (Rabs_pos_eq J) by lra.
  apply Rle_trans with (13 * ulp53 * (w * J) * Rabs (F ry) + w * (32 * (1 + b) * L * ulp53)).
  - apply Rplus_le_compat; [apply Rmult_le_compat_r; [apply Rabs_pos|exact Ev]|apply Rmult_le_compat_l; lra].
  - replace (13 * ulp53 * (w * J) * Rabs (F ry)) with (13 * ulp53 * w * (J * Rabs (F ry))) by ring.
    assert (13 * ulp53 * w * (J * Rabs (F ry)) <= 13 * ulp53 * w * (2 * K)).
    { apply Rmult_le_compat_l; auto. apply Rmult_le_pos; lra. }
    lra.
Qed.

Lemma decay_cont : forall K L F r, decaying K L F -> 0 < r -> continuous F r.
Proof.
  intros K L F r (_ & DL) Hr.
  assert (L0 : 0 <= L). { pose proof (DL 0 1 ltac:(lra)) as A. rewrite Rplus_0_r, pow1, Rmult_1_r, Rminus_0_r, Rmult_1_r in A. pose proof (Rabs_pos (F 1 - F 0)). lra. }
  assert (A : forall s, 0 <= s -> Rabs (F s - F r) <= L * Rabs (s - r)).
  { assert (B : forall a b, 0 <= a <= b -> Rabs (F b - F a) <= L * (b - a)).
    { intros a b H. eapply Rle_trans; [|apply (DL a b H)]. rewrite <- (Rmult_1_r (Rabs (F b - F a))) at 1. apply Rmult_le_compat_l; [apply Rabs_pos|]. apply pow_R1_Rle. lra. }
    intros s Hs. destruct (Rle_lt_dec s r).
    - rewrite Rabs_minus_sym, (Rabs_minus_sym s), (Rabs_pos_eq (r - s)) by lra. apply B. lra.
    - rewrite (Rabs_pos_eq (s - r)) by lra. apply B. lra. }
  apply continuity_pt_filterlim. intros e He.
  exists (Rmin r (e / (L + 1))). split; [apply Rmin_pos; auto; apply Rdiv_lt_0_compat; lra|].
  intros y (_ & Hy). simpl in *. unfold R_dist in *.
  pose proof (Rmin_l r (e / (L + 1))). pose proof (Rmin_r r (e / (L + 1))).
  assert (Hd : Rabs (y - r) < r) by lra. apply Rabs_lt_between in Hd.
  eapply Rle_lt_trans; [apply A; lra|]. apply Rle_lt_trans with (L * (e / (L + 1))). { apply Rmult_le_compat_l; lra. }
  apply Rmult_lt_reg_r with (L + 1); [lra|]. replace (L * (e / (L + 1)) * (L + 1)) with (L * e) by (field; lra). nra.
Qed.

(** The half-line integral in the variable of [-1,1]. *)
Lemma half_integral : forall K L LG F G, decaying K L F -> lipschitz (-1) 1 LG G ->
  (forall x, -1 < x < 1 -> G x = F ((1 + x) / (1 - x)) * (2 / ((1 - x) * (1 - x)))) -> half_line_integral F (RInt G (-1) 1).
Proof.
  intros K L LG F G D GL E. rewrite <- clamp_int.
  apply (pull_integral (Becke 1 (1 : RS)) F (clamp G)); [simpl; lra| |intros; apply (clamp_cont G LG); auto].
  split; [intros r Hr; apply (decay_cont K L); auto|]. intros x Hx. simpl in Hx.
  rewrite (is_derive_unique _ _ _ (proj1 (radial_derive (Becke 1 (1 : RS)) x ltac:(simpl; lra) Hx))), Jr_eq, (Tr_eq (Becke 1 (1 : RS)) x).
  unfold Tr, Jr. rewrite clamp_in, E by lra. replace (1 * (1 + x) / (1 - x)) with ((1 + x) / (1 - x)) by (field; lra).
  replace (1 * 2 / (1 - x) ^ 2) with (2 / ((1 - x) * (1 - x))) by (field; lra). reflexivity.
Qed.

Section Legendre.
Variables (m : libm) (d : R) (n : nat) (qf : list F64 * list F64).
Hypothesis Hm : accurate m d.
Hypothesis Hd : d * (INR n + 1) ^ 2 <= 1 / 2000.
Hypothesis n1 : (1 <= n)%nat.
Hypothesis Hn : (Z.of_nat n < 16384)%Z.
Hypothesis G : @gl_generate (FS m) n = Ok qf.

Lemma gl_inside : forall x, In x (fst qf) -> inside x.
Proof.
  intros x H. destruct (gauss_exists n n1) as (g & Hg). destruct (gl_float m d n qf g Hm Hd n1 Hn G Hg) as (F & (_ & _ & _ & PX & _) & _).
  split; [apply F; auto|]. apply PX, in_real, H.
Qed.

Lemma gl_moderate : forall w, In w (snd qf) -> moderate w /\ 0 < B2R w.
Proof.
  intros w H. destruct (stored_weight n qf w (gl_stored m d n qf Hm Hd n1 Hn G) H) as (F & W0 & W3).
  split; [|exact W0]. split; [exact F|]. rewrite Rabs_pos_eq by lra. split.
  2:{ eapply Rle_trans; [exact W3|]. assert (2 ^ 2 <= 2 ^ 700) by (apply Rle_pow; [lra|lia]). lra. }
  destruct (gl_float_data m d n qf Hm Hd n1 Hn G) as (z & x & v & Hz & E & _ & _ & _ & _ & _ & WV).
  pose proof (in_real _ _ H) as H1. change (map B2R (snd qf)) with (snd (real_rule qf)) in H1. rewrite E in H1. cbn [snd] in H1.
  apply In_tab in H1. destruct H1 as (i & Hi & Ei). pose proof (WV i Hi) as B. rewrite <- Ei in B.
  pose proof (gauss_w_low n z i n1 Hz Hi) as GW. pose proof (gl_N n Hn) as NN.
  change FloatOps.u with ulp53 in B.
  pose proof (small_round (INR n + 1) 400 NN ltac:(lra)) as S.
  set (e := 200 * (INR n + 1) ^ 2 * sqrt (INR n + 1) * ulp53) in *.
  assert (e <= / 2). { unfold e. lra. }
  assert (0 < INR n) by (apply lt_0_INR; lia).
  assert (P : / 2 ^ 28 <= / (INR n * (INR n + 1))).
  { apply Rinv_le_contravar; [nra|]. replace (2 ^ 28) with (16384 * 16384) by (simpl; lra). apply Rmult_le_compat; lra. }
  assert (Q : 2 / (INR n * (INR n + 1)) = 2 * / (INR n * (INR n + 1))) by reflexivity.
  apply Rabs_le_between in B.
  assert (gw : 0 < gauss_w n (z i)) by (apply (gauss_w_pos n z); auto).
  assert (e * gauss_w n (z i) <= / 2 * gauss_w n (z i)) by (apply Rmult_le_compat_r; lra).
  assert (/ 2 ^ 700 <= / 2 ^ 28) by (apply pow2_inv_le; lia). lra.
Qed.

Lemma gl_pos3 : apply_rule (real_rule qf) (fun _ => 1) <= 3.
Proof. apply (gl_stored m d n qf Hm Hd n1 Hn G). Qed.

Lemma gl_lengths : length (fst qf) = length (snd qf).
Proof. destruct (gl_stored m d n qf Hm Hd n1 Hn G) as (_ & A & B & _). congruence. Qed.

Section Up.
Variables (dbg : bool) (lo : F64).
Hypothesis Hl : is_finite lo = true.
Hypothesis Hb : Rabs (B2R lo) <= 2 ^ 40.

Lemma lo_plain : plain_bound lo.
Proof. split; auto. eapply Rle_trans; [exact Hb|]. apply Rle_pow; [lra|lia]. Qed.

Lemma up_runs : exists q', maps_f64 m dbg lo f_inf qf q'.
Proof.
  apply maps_exist; [apply gl_lengths|]. intros x w Hx Hw.
  destruct (up_thm m dbg lo x w lo_plain (gl_inside x Hx) (proj1 (gl_moderate w Hw))) as (y & v & E & _). eauto.
Qed.

Lemma up_close : forall q' f g K L, maps_f64 m dbg lo f_inf qf q' -> decaying K L (fun r => f (B2R lo + r)) ->
  (forall x, -1 < x < 1 -> g x = f (B2R lo + (1 + x) / (1 - x)) * (2 / ((1 - x) * (1 - x)))) ->
  Rabs (apply_rule (real_rule q') f - apply_rule (real_rule qf) g) <= (78 * K + 96 * (1 + Rabs (B2R lo)) * L) * ulp53.
Proof.
  intros q' f g K L (_ & _ & F) D E. rewrite !rule_pairs. set (b := Rabs (B2R lo)) in *.
  destruct (decay_pos _ _ _ D) as (K0 & L0).
  pose proof ulp_pos as UP. assert (b0 : 0 <= b) by apply Rabs_pos.
  set (A := (26 * K + 32 * (1 + b) * L) * ulp53).
  assert (A0 : 0 <= A). { unfold A. apply Rmult_le_pos; [|lra]. assert (0 <= 32 * (1 + b) * L) by (apply Rmult_le_pos; lra). lra. }
  assert (P := pairs_close _ 1 A 0 f g _ _ F). rewrite Rmult_1_l in P.
  eapply Rle_trans; [apply P|].
  - intros a c Ha Hac. destruct (in_pairs qf a Ha) as (Hx & Hw). pose proof (gl_inside _ Hx) as Ix. destruct (gl_moderate _ Hw) as (Mw & W0).
    destruct (up_thm m dbg lo (fst a) (snd a) lo_plain Ix Mw) as (y & v & Eq & Fy & Ly & Ey & (Fv & Ev)).
    assert (Eb : Ok c = Ok (y, v)) by (etransitivity; [symmetry; exact Hac|exact Eq]). injection Eb as Eb. subst c. cbn [fst snd].
    set (x := B2R (fst a)) in *. set (w := B2R (snd a)) in *. pose proof (proj2 Ix) as Hx1. fold x in Hx1.
    set (r := (1 + x) / (1 - x)) in *.
    assert (R0 : 0 <= r) by (unfold r; apply Rmult_le_pos; [lra|left; apply Rinv_0_lt_compat; lra]).
    assert (JJ : 2 / ((1 - x) * (1 - x)) = (1 + r) ^ 2 / 2) by (unfold r; field; lra).
    rewrite JJ in Ev. rewrite (E x Hx1). fold r. rewrite JJ.
    assert (J0 : 0 <= (1 + r) ^ 2 / 2) by (apply Rmult_le_pos; [apply pow_le; lra|lra]).
    rewrite (Rabs_pos_eq (w * _)) in Ev by (apply Rmult_le_pos; lra).
    apply Bleb_le in Ly; auto.
    pose proof (half_pair (fun r => f (B2R lo + r)) K L b r (B2R y - B2R lo) w (B2R v) D (conj b0 Hb) R0 ltac:(lra)) as HP. cbv beta in HP.
    replace (B2R lo + (B2R y - B2R lo)) with (B2R y) in HP by ring.
    replace (B2R y - B2R lo - r) with (B2R y - (B2R lo + r)) in HP by ring.
    specialize (HP Ey W0 Ev). fold A in HP.
    replace (B2R v * f (B2R y) - 1 * (w * (f (B2R lo + r) * ((1 + r) ^ 2 / 2)))) with (B2R v * f (B2R y) - w * ((1 + r) ^ 2 / 2) * f (B2R lo + r)) by ring.
    rewrite Rplus_0_r. exact HP.
  - pose proof (rule_pairs qf (fun _ => 1)) as E1. rewrite <- E1. rewrite Rmult_0_r, Rplus_0_r.
    eapply Rle_trans; [apply Rmult_le_compat_l; [exact A0|exact gl_pos3]|]. unfold A. apply Req_le. ring.
Qed.

Lemma up_best : forall q' f g p K L KG LG e, maps_f64 m dbg lo f_inf qf q' -> decaying K L (fun r => f (B2R lo + r)) ->
  (forall x, -1 < x < 1 -> g x = f (B2R lo + (1 + x) / (1 - x)) * (2 / ((1 - x) * (1 - x)))) ->
  (forall x, -1 <= x <= 1 -> Rabs (g x) <= KG) -> lipschitz (-1) 1 LG g -> deg_le p (2 * n - 1) -> within (-1) 1 e g (peval p) ->
  half_line_integral (fun r => f (B2R lo + r)) (RInt g (-1) 1) /\
    Rabs (apply_rule (real_rule q') f - RInt g (-1) 1) <= half_error n e K L KG LG (Rabs (B2R lo)).
Proof.
  intros q' f g p K L KG LG e M D E GK GL Dp W. split; [apply (half_integral K L LG _ g D GL E)|].
  pose proof (up_close q' f g K L M D E) as A. pose proof (gl_best m d n qf Hm Hd n1 Hn G g p KG LG e GK GL Dp W) as B.
  replace (apply_rule (real_rule q') f - RInt g (-1) 1) with ((apply_rule (real_rule qf) g - RInt g (-1) 1) + (apply_rule (real_rule q') f - apply_rule (real_rule qf) g)) by ring.
  eapply Rle_trans; [apply Rabs_triang|]. unfold half_error. lra.
Qed.
End Up.

Section Low.
Variables (dbg : bool) (up : F64).
Hypothesis Hl : is_finite up = true.
Hypothesis Hb : Rabs (B2R up) <= 2 ^ 40.

Lemma low_runs : exists q', maps_f64 m dbg (Bopp f_inf) up qf q'.
Proof.
  apply maps_exist; [apply gl_lengths|]. intros x w Hx Hw.
  destruct (low_thm m dbg up x w (lo_plain up Hl Hb) (gl_inside x Hx) (proj1 (gl_moderate w Hw))) as (y & v & E & _). eauto.
Qed.

Lemma low_close : forall q' f g K L, maps_f64 m dbg (Bopp f_inf) up qf q' -> decaying K L (fun r => f (B2R up - r)) ->
  (forall x, -1 < x < 1 -> g x = f (B2R up - (1 - x) / (1 + x)) * (2 / ((1 + x) * (1 + x)))) ->
  Rabs (apply_rule (real_rule q') f - - apply_rule (real_rule qf) g) <= (78 * K + 96 * (1 + Rabs (B2R up)) * L) * ulp53.
Proof.
  intros q' f g K L (_ & _ & F) D E. rewrite !rule_pairs. set (b := Rabs (B2R up)) in *.
  destruct (decay_pos _ _ _ D) as (K0 & L0).
  pose proof ulp_pos as UP. assert (b0 : 0 <= b) by apply Rabs_pos.
  set (A := (26 * K + 32 * (1 + b) * L) * ulp53).
  assert (A0 : 0 <= A). { unfold A. apply Rmult_le_pos; [|lra]. assert (0 <= 32 * (1 + b) * L) by (apply Rmult_le_pos; lra). lra. }
  assert (P := pairs_close _ (-1) A 0 f g _ _ F).
  match type of P with _ -> Rabs (?s - _ * ?t) <= _ => replace (s - - t) with (s - -1 * t) by ring end.
  eapply Rle_trans; [apply P|].
  - intros a c Ha Hac. destruct (in_pairs qf a Ha) as (Hx & Hw). pose proof (gl_inside _ Hx) as Ix. destruct (gl_moderate _ Hw) as (Mw & W0).
    destruct (low_thm m dbg up (fst a) (snd a) (lo_plain up Hl Hb) Ix Mw) as (y & v & Eq & Fy & Ly & Ey & (Fv & Ev)).
    assert (Eb : Ok c = Ok (y, v)) by (etransitivity; [symmetry; exact Hac|exact Eq]). injection Eb as Eb. subst c. cbn [fst snd].
    set (x := B2R (fst a)) in *. set (w := B2R (snd a)) in *. pose proof (proj2 Ix) as Hx1. fold x in Hx1.
    set (r := (1 - x) / (1 + x)) in *.
    assert (R0 : 0 <= r) by (unfold r; apply Rmult_le_pos; [lra|left; apply Rinv_0_lt_compat; lra]).
    assert (JJ : 2 / ((1 + x) * (1 + x)) = (1 + r) ^ 2 / 2) by (unfold r; field; lra).
    assert (JN : - 2 / ((1 + x) * (1 + x)) = - ((1 + r) ^ 2 / 2)) by (rewrite <- JJ; field; lra).
    rewrite JN in Ev. rewrite (E x Hx1). fold r. rewrite JJ.
    assert (J0 : 0 <= (1 + r) ^ 2 / 2) by (apply Rmult_le_pos; [apply pow_le; lra|lra]).
    set (J := (1 + r) ^ 2 / 2) in *.
    replace (Rabs (w * - J)) with (w * J) in Ev by (rewrite Ropp_mult_distr_r_reverse, Rabs_Ropp, Rabs_pos_eq; [reflexivity|apply Rmult_le_pos; lra]).
    assert (Ev' : Rabs (- B2R v - w * J) <= 13 * ulp53 * (w * J)).
    { replace (- B2R v - w * J) with (- (B2R v - w * - J)) by ring. rewrite Rabs_Ropp. exact Ev. }
    apply Bleb_le in Ly; auto.
    pose proof (half_pair (fun r => f (B2R up - r)) K L b r (B2R up - B2R y) w (- B2R v) D (conj b0 Hb) R0 ltac:(lra)) as HP. cbv beta in HP.
    replace (B2R up - (B2R up - B2R y)) with (B2R y) in HP by ring.
    replace (B2R up - B2R y - r) with (- (B2R y - (B2R up - r))) in HP by ring. rewrite Rabs_Ropp in HP.
    specialize (HP Ey W0 Ev'). fold A J in HP.
    replace (B2R v * f (B2R y) - -1 * (w * (f (B2R up - r) * J))) with (- (- B2R v * f (B2R y) - w * J * f (B2R up - r))) by ring.
    rewrite Rplus_0_r, Rabs_Ropp. exact HP.
  - pose proof (rule_pairs qf (fun _ => 1)) as E1. rewrite <- E1. rewrite Rmult_0_r, Rplus_0_r.
    eapply Rle_trans; [apply Rmult_le_compat_l; [exact A0|exact gl_pos3]|]. unfold A. apply Req_le. ring.
Qed.

Lemma int_opp : forall g LG, lipschitz (-1) 1 LG g -> RInt (fun x => g (- x)) (-1) 1 = RInt g (-1) 1.
Proof.
  intros g LG GL.
  assert (Eg : ex_RInt g (-1) 1).
  { apply (ex_RInt_ext (clamp g)); [intros x Hx; rewrite Rmin_left, Rmax_right in Hx by lra; apply clamp_in; lra|].
    apply (ex_RInt_continuous (V := R_CompleteNormedModule)). intros; apply (clamp_cont g LG); auto. }
  apply (RInt_correct (V := R_CompleteNormedModule)) in Eg. apply (is_RInt_swap (V := R_NormedModule)) in Eg.
  replace 1 with (- (-1)) in Eg at 1 by lra. replace (-1) with (- (1)) in Eg at 2 by lra.
  pose proof (is_RInt_opp (V := R_NormedModule) _ _ _ _ (is_RInt_comp_opp (V := R_NormedModule) g (-1) 1 _ Eg)) as A.
  apply is_RInt_unique. rewrite opp_opp in A. eapply is_RInt_ext; [|exact A]. intros x _. apply opp_opp.
Qed.

Lemma low_best : forall q' f g p K L KG LG e, maps_f64 m dbg (Bopp f_inf) up qf q' -> decaying K L (fun r => f (B2R up - r)) ->
  (forall x, -1 < x < 1 -> g x = f (B2R up - (1 - x) / (1 + x)) * (2 / ((1 + x) * (1 + x)))) ->
  (forall x, -1 <= x <= 1 -> Rabs (g x) <= KG) -> lipschitz (-1) 1 LG g -> deg_le p (2 * n - 1) -> within (-1) 1 e g (peval p) ->
  half_line_integral (fun r => f (B2R up - r)) (RInt g (-1) 1) /\
    Rabs (apply_rule (real_rule q') f - - RInt g (-1) 1) <= half_error n e K L KG LG (Rabs (B2R up)).
Proof.
  intros q' f g p K L KG LG e M D E GK GL Dp W. split.
  - rewrite <- (int_opp g LG GL). apply (half_integral K L LG _ (fun x => g (- x)) D).
    + intros x y Hx Hy. eapply Rle_trans; [apply GL; lra|]. replace (- x - - y) with (- (x - y)) by ring. rewrite Rabs_Ropp. lra.
    + intros x Hx. rewrite E by lra. replace (1 - - x) with (1 + x) by ring. replace (1 + - x) with (1 - x) by ring. reflexivity.
  - pose proof (low_close q' f g K L M D E) as A. pose proof (gl_best m d n qf Hm Hd n1 Hn G g p KG LG e GK GL Dp W) as B.
    replace (apply_rule (real_rule q') f - - RInt g (-1) 1) with (- (apply_rule (real_rule qf) g - RInt g (-1) 1) + (apply_rule (real_rule q') f - - apply_rule (real_rule qf) g)) by ring.
    eapply Rle_trans; [apply Rabs_triang|]. rewrite Rabs_Ropp. unfold half_error. lra.
Qed.
End Low.
End Legendre.
