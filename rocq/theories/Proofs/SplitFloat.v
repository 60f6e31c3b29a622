(** The cuts of an interval of binary64 numbers that has a binary64 number inside. *)
From Coq Require Import Bool ZArith Lia Reals Lra Psatz.
From Flocq Require Import IEEE754.BinarySingleNaN Core Relative Plus_error Sterbenz.
From Verif Require Import Base.Scalar Base.FScalar Spec.RuleSpec Spec.FloatSpec Proofs.FloatOps Proofs.FloatSphere Proofs.FloatErr.
Local Open Scope R_scope.

Definition fmt (x : R) : Prop := generic_format radix2 (FLT_exp (-1074) 53) x.
Definition eta : R := bpow radix2 (-1074).

Lemma eta_pos : 0 < eta. Proof. apply bpow_gt_0. Qed.
Lemma half_eta : bpow radix2 (-1075) = eta / 2.
Proof.
  unfold eta. change (-1075)%Z with (-1 + -1074)%Z. rewrite bpow_plus. simpl (bpow radix2 (-1)). lra.
Qed.

Lemma fmt_B2R : forall x : F64, fmt (B2R x).
Proof. intro x. exact (generic_format_B2R 53 1024 x). Qed.
Lemma fmt_rnd : forall x, fmt (rnd x).
Proof. intro x. apply generic_format_round; [apply FLT_exp_valid; exact Hprec|apply valid_rnd_N]. Qed.
Lemma rnd_fmt : forall x, fmt x -> rnd x = x.
Proof. intros x H. apply round_generic; [apply valid_rnd_N|exact H]. Qed.

(** Numbers of the format are integer multiples of eta; odd ones are small. *)
Lemma fmt_multiple : forall x, fmt x -> exists k : Z, x = IZR k * eta /\ ((Z.abs k > 2 ^ 53)%Z -> Z.even k = true).
Proof.
  intros x H. apply FLT_format_generic in H; [|exact Hprec]. destruct H as [f Ef Hm He].
  assert (Hm' : (Z.abs (Fnum f) < 2 ^ 53)%Z) by exact Hm.
  exists (Fnum f * 2 ^ (Fexp f + 1074))%Z. split.
  - rewrite Ef. unfold F2R. rewrite mult_IZR. rewrite (IZR_Zpower radix2) by lia.
    rewrite Rmult_assoc. unfold eta. rewrite <- bpow_plus. f_equal. f_equal. lia.
  - intro Hk. destruct (Z.eq_dec (Fexp f) (-1074)) as [E|E].
    + rewrite E in Hk. simpl in Hk. lia.
    + rewrite Z.even_mul, (Z.even_pow 2) by lia. simpl. apply orb_true_r.
Qed.

Lemma fmt_small : forall k : Z, (Z.abs k <= 2 ^ 53)%Z -> fmt (IZR k * eta).
Proof.
  intros k Hk. destruct (Z.eq_dec (Z.abs k) (2 ^ 53)) as [He|He].
  - assert (G : fmt (bpow radix2 (-1021))) by (apply generic_format_FLT_bpow; [exact Hprec|lia]).
    assert (E : IZR (2 ^ 53) * eta = bpow radix2 (-1021)).
    { change (2 ^ 53)%Z with (Zpower radix2 53). rewrite IZR_Zpower by lia. unfold eta.
      rewrite <- bpow_plus. reflexivity. }
    destruct (Z.abs_spec k) as [[_ Ha]|[_ Ha]].
    + rewrite <- Ha, He, E. exact G.
    + replace k with (- (2 ^ 53))%Z by lia. rewrite opp_IZR, Ropp_mult_distr_l_reverse, E.
      apply generic_format_opp. exact G.
  - apply generic_format_FLT. exists (Float radix2 k (-1074)).
    + unfold F2R. reflexivity.
    + change (Z.abs k < 2 ^ 53)%Z. lia.
    + simpl. lia.
Qed.

Lemma fmt_even : forall k : Z, (Z.abs k <= 2 ^ 53)%Z -> fmt (IZR (2 * k) * eta).
Proof.
  intros k Hk. replace (IZR (2 * k) * eta) with (IZR k * eta * bpow radix2 1).
  - destruct (Z.eq_dec (Z.abs k) (2 ^ 53)) as [He|He].
    + assert (G : fmt (bpow radix2 (-1020))) by (apply generic_format_FLT_bpow; [exact Hprec|lia]).
      assert (E : IZR (2 ^ 53) * eta * bpow radix2 1 = bpow radix2 (-1020)).
      { change (2 ^ 53)%Z with (Zpower radix2 53). rewrite IZR_Zpower by lia. unfold eta.
        rewrite <- !bpow_plus. reflexivity. }
      destruct (Z.abs_spec k) as [[_ Ha]|[_ Ha]].
      * rewrite <- Ha, He, E. exact G.
      * replace k with (- (2 ^ 53))%Z by lia. rewrite opp_IZR, !Ropp_mult_distr_l_reverse, E.
        apply generic_format_opp. exact G.
    + apply generic_format_FLT. exists (Float radix2 k (-1073)).
      * unfold F2R, eta. rewrite Rmult_assoc, <- bpow_plus. reflexivity.
      * change (Z.abs k < 2 ^ 53)%Z. lia.
      * simpl. lia.
  - rewrite mult_IZR. simpl (bpow radix2 1). lra.
Qed.

(** A number of the format strictly inside makes the extent at least two eta. *)
Lemma extent : forall x y z, fmt x -> fmt y -> fmt z -> x < y < z -> 2 * eta <= z - x.
Proof.
  intros x y z Hx Hy Hz H. destruct (fmt_multiple x Hx) as (a & -> & _).
  destruct (fmt_multiple y Hy) as (b & -> & _). destruct (fmt_multiple z Hz) as (c & -> & _).
  pose proof eta_pos as HP.
  assert (a < b)%Z by (apply lt_IZR; nra). assert (b < c)%Z by (apply lt_IZR; nra).
  assert (2 <= IZR c - IZR a) by (rewrite <- minus_IZR; apply IZR_le; lia). nra.
Qed.

(** Halving a number of the format is exact except for small odd multiples of eta. *)
Lemma half_exact : forall x, fmt x -> fmt (x / 2) \/
  exists k : Z, x = IZR k * eta /\ (Z.abs k < 2 ^ 53)%Z /\ Z.odd k = true.
Proof.
  intros x H. assert (H' := H). apply FLT_format_generic in H'; [|exact Hprec]. destruct H' as [f Ef Hm He].
  assert (Hm' : (Z.abs (Fnum f) < 2 ^ 53)%Z) by exact Hm.
  destruct (Z.eq_dec (Fexp f) (-1074)) as [E|E].
  - destruct (Z.odd (Fnum f)) eqn:O.
    + right. exists (Fnum f). split; auto. rewrite Ef. unfold F2R. rewrite E. reflexivity.
    + left. rewrite <- Z.negb_even, negb_false_iff in O. apply Z.even_spec in O. destruct O as [k Ek].
      replace (x / 2) with (IZR k * eta); [apply fmt_small; lia|].
      rewrite Ef. unfold F2R. rewrite E, Ek, mult_IZR. unfold eta. lra.
  - left. apply generic_format_FLT. exists (Float radix2 (Fnum f) (Fexp f - 1)); simpl.
    + rewrite Ef. unfold F2R. simpl. change (Fexp f - 1)%Z with (Fexp f + -1)%Z. rewrite bpow_plus.
      simpl (bpow radix2 (-1)). lra.
    + exact Hm.
    + lia.
Qed.

Lemma u_tiny : 0 < u /\ u <= 1 / 1000.
Proof. pose proof u_pos. pose proof u_small. lra. Qed.

(** The first cut of an interval that is not narrow compared with its ends. *)
Lemma wide_cut : forall (l r : F64) np, np = 2 \/ np = 3 ->
  2 * eta <= B2R r - B2R l -> Rabs (B2R l) <= 2 * (B2R r - B2R l) ->
  B2R l < rnd (B2R l + rnd (rnd (B2R r - B2R l) / np)) < B2R r.
Proof.
  intros l r np Hnp HD HM. pose proof eta_pos as EP. pose proof u_tiny as [U0 U1].
  set (L := B2R l) in *. set (U := B2R r) in *. set (D := U - L) in *.
  assert (E1 : exists e, Rabs e <= u /\ rnd D = D * (1 + e)).
  { destruct (rnd_add_err r (@Bopp 53 1024 l)) as (e & He & E). exists e. split; auto.
    rewrite B2R_Bopp in E. exact E. }
  destruct E1 as (e1 & He1 & E1). rewrite E1.
  destruct (rnd_err (D * (1 + e1) / np)) as (e2 & t & He2 & Ht & E2).
  set (d := rnd (D * (1 + e1) / np)) in *.
  rewrite half_eta in Ht.
  apply abs_of in He1, He2, Ht, HM.
  assert (HD0 : 0 < D) by lra.
  assert (Hd : D / 13 <= d <= 10 * D / 13).
  { rewrite E2. 
    assert (Q : 998 / 1000 <= (1 + e1) * (1 + e2) <= 1003 / 1000).
    { clear - He1 He2 U0 U1. assert (A1 : - (1/1000) <= e1 <= 1/1000) by lra.
      assert (A2 : - (1/1000) <= e2 <= 1/1000) by lra. clear - A1 A2. nra. }
    assert (P : 998 / 1000 * D <= D * (1 + e1) * (1 + e2) <= 1003 / 1000 * D).
    { rewrite Rmult_assoc, !(Rmult_comm D). clear - Q HD0. destruct Q as [Q1 Q2].
      split; apply Rmult_le_compat_r; lra. }
    replace (D * (1 + e1) / np * (1 + e2)) with (D * (1 + e1) * (1 + e2) / np) by (unfold Rdiv; ring).
    destruct Hnp as [-> | ->]; lra. }
  assert (E3 : exists e, Rabs e <= u /\ rnd (L + d) = (L + d) * (1 + e)).
  { destruct (@FLT_plus_error_N_ex radix2 (-1074) 53 Hprec (fun z => negb (Z.even z)) L d
     (fmt_B2R l) (fmt_rnd _)) as (e & He & E).
    exists e. split; [|exact E]. eapply Rle_trans; [exact He|].
    change (u_ro radix2 53) with (/ 2 * bpow radix2 (-53 + 1))%R. rewrite bpow_u. unfold Rdiv.
    rewrite <- (Rmult_1_r u) at 3. apply Rmult_le_compat_l; [lra|].
    rewrite <- Rinv_1. apply Rinv_le_contravar; lra. }
  destruct E3 as (e3 & He3 & E3). rewrite E3. apply abs_of in He3.
  assert (Rabs ((L + d) * e3) <= D * 3 / 1000).
  { rewrite Rabs_mult. assert (Rabs (L + d) <= 3 * D) by (apply Rabs_le; lra).
    assert (Rabs e3 <= 1 / 1000) by (apply Rabs_le; lra).
    replace (D * 3 / 1000) with (3 * D * (1 / 1000)) by lra.
    apply Rmult_le_compat; auto; apply Rabs_pos. }
  apply abs_of in H. replace ((L + d) * (1 + e3)) with (L + d + (L + d) * e3) by ring.
  unfold D in *. lra.
Qed.

(** Rounding of multiples of eta next to 2^53 eta, by computation. *)
Lemma f_of_eta : forall z : Z, (Z.abs z <= 2 ^ 54)%Z -> fmt (IZR z * eta) ->
  is_finite (f_of z (-1074)) = true /\ B2R (f_of z (-1074)) = IZR z * eta.
Proof.
  intros z Hz Hf. unfold f_of.
  pose proof (binary_normalize_correct 53 1024 Hprec Hmax mode_NE z (-1074) false) as C. cbv zeta in C.
  change (F2R (Float radix2 z (-1074))) with (IZR z * eta) in C.
  change (round radix2 (SpecFloat.fexp 53 1024) (round_mode mode_NE) (IZR z * eta)) with (rnd (IZR z * eta)) in C.
  rewrite (rnd_fmt _ Hf) in C.
  rewrite Rlt_bool_true in C; [destruct C as (C1 & C2 & _); auto|].
  rewrite Rabs_mult, <- abs_IZR, (Rabs_pos_eq eta) by apply Rlt_le, eta_pos.
  apply Rle_lt_trans with (IZR (2 ^ 54) * eta).
  - apply Rmult_le_compat_r; [apply Rlt_le, eta_pos|]. apply IZR_le. auto.
  - change (2 ^ 54)%Z with (Zpower radix2 54). rewrite IZR_Zpower by lia. unfold eta.
    rewrite <- bpow_plus. apply bpow_lt. lia.
Qed.

Lemma tie_up : rnd (IZR (2 ^ 53 + 1) * eta) < IZR (2 ^ 53 + 2) * eta.
Proof.
  destruct (f_of_eta (2 ^ 53 - 1)) as [F1 E1]; [lia|apply fmt_small; lia|].
  destruct (f_of_eta 2) as [F2 E2]; [lia|apply fmt_small; lia|].
  destruct (f_of_eta (2 ^ 53 + 2)) as [F3 E3]; [lia|apply (fmt_even (2 ^ 52 + 1)); lia|].
  assert (C : is_finite (fadd (f_of (2 ^ 53 - 1) (-1074)) (f_of 2 (-1074))) = true) by (vm_compute; reflexivity).
  assert (B : Bltb (fadd (f_of (2 ^ 53 - 1) (-1074)) (f_of 2 (-1074))) (f_of (2 ^ 53 + 2) (-1074)) = true) by (vm_compute; reflexivity).
  rewrite Bltb_correct in B by auto. apply fadd_R in C. destruct C as (_ & _ & C).
  rewrite C, E1, E2, E3 in B. 
  replace (IZR (2 ^ 53 - 1) * eta + IZR 2 * eta) with (IZR (2 ^ 53 + 1) * eta) in B
    by (rewrite <- Rmult_plus_distr_r, <- plus_IZR; reflexivity).
  destruct (Rlt_bool_spec (rnd (IZR (2 ^ 53 + 1) * eta)) (IZR (2 ^ 53 + 2) * eta)); [auto|discriminate].
Qed.
Lemma rnd_opp : forall x, rnd (- x) = - rnd x.
Proof. intro x. unfold rnd. apply round_NE_opp. Qed.
Lemma tie_down : IZR (- (2 ^ 53 + 2)) * eta < rnd (IZR (- (2 ^ 53 + 1)) * eta).
Proof.
  rewrite !opp_IZR, !Ropp_mult_distr_l_reverse, rnd_opp. apply Ropp_lt_contravar, tie_up.
Qed.

Lemma rnd_le_fmt : forall x y, fmt y -> x <= y -> rnd x <= y.
Proof. intros x y Hy H. rewrite <- (rnd_fmt y Hy). apply rnd_mono. auto. Qed.
Lemma rnd_ge_fmt : forall x y, fmt y -> y <= x -> y <= rnd x.
Proof. intros x y Hy H. rewrite <- (rnd_fmt y Hy). apply rnd_mono. auto. Qed.

Lemma succ_gt : forall x, x < succ radix2 (FLT_exp (-1074) 53) x.
Proof.
  intro x. destruct (Req_dec x 0) as [-> |N].
  - rewrite succ_0, ulp_FLT_small; [apply bpow_gt_0|exact Hprec|]. rewrite Rabs_R0. apply bpow_gt_0.
  - apply succ_gt_id. auto.
Qed.
Lemma pred_lt : forall x, pred radix2 (FLT_exp (-1074) 53) x < x.
Proof. intro x. unfold pred. pose proof (succ_gt (- x)). lra. Qed.

(** The middle of an interval whose extent is exact. *)
Lemma narrow_cut : forall L F U, fmt L -> fmt F -> fmt U -> L < F < U -> fmt (U - L) ->
  L < rnd (L + rnd ((U - L) / 2)) < U.
Proof.
  intros L F U HL HF HU H HD. pose proof eta_pos as EP.
  pose proof (extent _ _ _ HL HF HU H) as HX.
  pose proof (FLT_exp_valid (-1074) 53 (prec_gt_0_ := Hprec)) as VE.
  destruct (half_exact _ HD) as [HE|(k & Ek & Hk & Ok)].
  - rewrite (rnd_fmt _ HE). replace (L + (U - L) / 2) with ((L + U) / 2) by lra.
    assert (SL : succ radix2 (FLT_exp (-1074) 53) L <= F) by (apply succ_le_lt; auto; apply H).
    assert (PU : F <= pred radix2 (FLT_exp (-1074) 53) U) by (apply pred_ge_gt; auto; apply H).
    split.
    + apply Rlt_le_trans with (succ radix2 (FLT_exp (-1074) 53) L); [apply succ_gt|].
      apply round_N_ge_midp; auto.
      * apply generic_format_succ; auto.
      * rewrite pred_succ by auto. lra.
    + apply Rle_lt_trans with (pred radix2 (FLT_exp (-1074) 53) U); [|apply pred_lt].
      apply round_N_le_midp; auto.
      * apply generic_format_pred; auto.
      * rewrite succ_pred by auto. lra.
  - (* a small odd multiple of eta *)
    destruct (fmt_multiple _ HL) as (a & EA & Ha). destruct (fmt_multiple _ HU) as (b & EB & Hb).
    destruct (fmt_multiple _ (fmt_rnd ((U - L) / 2))) as (j & Ej & _).
    assert (Kab : k = (b - a)%Z).
    { apply eq_IZR. rewrite minus_IZR. apply Rmult_eq_reg_r with eta; [|lra]. rewrite <- Ek, EA, EB. lra. }
    assert (K3 : (3 <= k)%Z).
    { assert (2 <= k)%Z by (apply le_IZR; rewrite Ek in HX; nra).
      destruct (Z.eq_dec k 2) as [-> |]; [discriminate|lia]. }
    assert (J : (2 * j - 1 <= k <= 2 * j + 1)%Z).
    { destruct (Z.odd_spec k) as [OS _]. destruct (OS Ok) as [h Eh].
      assert (B1 : rnd ((U - L) / 2) <= IZR (h + 1) * eta).
      { apply rnd_le_fmt; [apply fmt_small; lia|]. rewrite Ek, Eh, !plus_IZR, mult_IZR. lra. }
      assert (B2 : IZR h * eta <= rnd ((U - L) / 2)).
      { apply rnd_ge_fmt; [apply fmt_small; lia|]. rewrite Ek, Eh, !plus_IZR, mult_IZR. lra. }
      rewrite Ej in B1, B2. assert (j <= h + 1)%Z by (apply le_IZR; nra).
      assert (h <= j)%Z by (apply le_IZR; nra). lia. }
    rewrite Ej. replace (L + IZR j * eta) with (IZR (a + j) * eta) by (rewrite EA, plus_IZR; ring).
    assert (LT : forall x y, (x < y)%Z -> IZR x * eta < IZR y * eta).
    { intros x y Hxy. apply Rmult_lt_compat_r; [auto|apply IZR_lt; auto]. }
    assert (LE : forall x y, (x <= y)%Z -> IZR x * eta <= IZR y * eta).
    { intros x y Hxy. apply Rmult_le_compat_r; [lra|apply IZR_le; auto]. }
    rewrite EA, EB. subst k. rewrite Z.odd_sub in Ok.
    destruct (Z_le_gt_dec (Z.abs (a + j)) (2 ^ 53)) as [S|S].
    + rewrite (rnd_fmt _ (fmt_small _ S)). split; apply LT; lia.
    + destruct (Z_lt_le_dec 0 (a + j)) as [P|P].
      * assert (Eb : Z.even b = true) by (apply Hb; lia).
        rewrite <- (Z.negb_even b), Eb in Ok. simpl in Ok.
        assert (A53 : ~ (Z.abs a > 2 ^ 53)%Z).
        { intro A. specialize (Ha A). rewrite <- Z.negb_even, Ha in Ok. discriminate. }
        assert (A53' : a <> (2 ^ 53)%Z) by (intros ->; discriminate).
        apply Z.even_spec in Eb. destruct Eb as [h Eh].
        split.
        -- apply Rlt_le_trans with (IZR (2 ^ 53) * eta); [apply LT; lia|].
           apply rnd_ge_fmt; [apply fmt_small; lia|]. apply LE. lia.
        -- destruct (Z.eq_dec (b - a) 3) as [E3|E3].
           ++ assert (b = 2 ^ 53 + 2)%Z by lia. assert (a + j = 2 ^ 53 + 1)%Z by lia.
              rewrite H0, H1. exact tie_up.
           ++ apply Rle_lt_trans with (IZR (2 * (h - 1)) * eta); [|apply LT; lia].
              apply rnd_le_fmt; [apply fmt_even; lia|]. apply LE. lia.
      * assert (Ea : Z.even a = true) by (apply Ha; lia).
        rewrite <- (Z.negb_even a), Ea in Ok. simpl in Ok. rewrite xorb_false_r in Ok.
        assert (B53 : ~ (Z.abs b > 2 ^ 53)%Z).
        { intro A. specialize (Hb A). rewrite <- Z.negb_even, Hb in Ok. discriminate. }
        assert (B53' : b <> (- 2 ^ 53)%Z) by (intros ->; discriminate).
        apply Z.even_spec in Ea. destruct Ea as [h Eh].
        split.
        -- destruct (Z.eq_dec (b - a) 3) as [E3|E3].
           ++ assert (a = - (2 ^ 53 + 2))%Z by lia. assert (a + j = - (2 ^ 53 + 1))%Z by lia.
              rewrite H1, H0. exact tie_down.
           ++ apply Rlt_le_trans with (IZR (2 * (h + 1)) * eta); [apply LT; lia|].
              apply rnd_ge_fmt; [apply fmt_even; lia|]. apply LE. lia.
        -- apply Rle_lt_trans with (IZR (- 2 ^ 53) * eta); [|apply LT; lia].
           apply rnd_le_fmt; [apply fmt_small; lia|]. apply LE. lia.
Qed.

(** The middle of any interval with a number of the format inside. *)
Lemma mid_cut : forall l f r : F64, B2R l < B2R f < B2R r ->
  B2R l < rnd (B2R l + rnd (rnd (B2R r - B2R l) / 2)) < B2R r.
Proof.
  intros l f r H. pose proof (extent _ _ _ (fmt_B2R l) (fmt_B2R f) (fmt_B2R r) H) as HX.
  pose proof (FLT_exp_valid (-1074) 53 (prec_gt_0_ := Hprec)) as VE.
  assert (NARROW : fmt (B2R r - B2R l) -> B2R l < rnd (B2R l + rnd (rnd (B2R r - B2R l) / 2)) < B2R r).
  { intro HF. rewrite (rnd_fmt _ HF). apply narrow_cut with (B2R f); auto using fmt_B2R. }
  destruct (Rle_lt_dec (Rabs (B2R l)) (2 * (B2R r - B2R l))) as [W|N]; [apply wide_cut; auto|].
  pose proof eta_pos. apply NARROW.
  destruct (Rle_lt_dec 0 (B2R l)) as [P|P].
  - rewrite Rabs_pos_eq in N by auto. apply sterbenz; [auto|apply FLT_exp_monotone|apply fmt_B2R|apply fmt_B2R|]. lra.
  - rewrite Rabs_left in N by auto.
    replace (B2R r - B2R l) with (- B2R l - - B2R r) by ring.
    apply sterbenz; [auto|apply FLT_exp_monotone|apply generic_format_opp, fmt_B2R|apply generic_format_opp, fmt_B2R|]. lra.
Qed.
