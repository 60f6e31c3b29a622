(** C42: Gauss-Chebyshev rules in binary64 with an accurate math library. *)
From Coq Require Import List Bool Arith ZArith Lia Reals Lra Psatz.
From Flocq Require Import IEEE754.BinarySingleNaN Core.
From Verif Require Import Base.Outcome Base.Scalar Base.RScalar Base.FScalar Model.Primitive Spec.RuleSpec Spec.Sums Spec.RealRules
  Spec.FloatSpec Spec.LibmSpec Proofs.FloatOps Proofs.FloatSphere Proofs.FloatErr Proofs.Tab Proofs.PrimitiveFacts
  Proofs.ChebReal Proofs.SumFacts Proofs.PiBounds.
Import ListNotations.
Local Open Scope R_scope.

Lemma cos_lip : forall a b, Rabs (cos a - cos b) <= Rabs (a - b).
Proof.
  intros a b. destruct (Req_dec a b) as [->|H]; [rewrite !Rminus_diag_eq, Rabs_R0 by auto; lra|].
  destruct (MVT_abs cos (fun x => - sin x) b a) as (c & E & _).
  - intros. apply derivable_pt_lim_cos.
  - rewrite E. rewrite <- (Rmult_1_l (Rabs (a - b))) at 2. apply Rmult_le_compat_r; [apply Rabs_pos|].
    rewrite Rabs_Ropp. apply Rabs_le. apply SIN_bound.
Qed.
Lemma sin_lip : forall a b, Rabs (sin a - sin b) <= Rabs (a - b).
Proof.
  intros a b. destruct (Req_dec a b) as [->|H]; [rewrite !Rminus_diag_eq, Rabs_R0 by auto; lra|].
  destruct (MVT_abs sin cos b a) as (c & E & _).
  - intros. apply derivable_pt_lim_sin.
  - rewrite E. rewrite <- (Rmult_1_l (Rabs (a - b))) at 2. apply Rmult_le_compat_r; [apply Rabs_pos|].
    apply Rabs_le. apply COS_bound.
Qed.

Lemma tiny_ok_1 : forall v, / 2 ^ 60 <= Rabs v -> tiny_ok v.
Proof.
  intros v H. unfold tiny_ok. eapply Rle_trans; [|exact H].
  replace (/ 2 ^ 60) with (bpow radix2 (-60)); [apply bpow_le; lia|].
  change (bpow radix2 (-60)) with (/ IZR (2 ^ 60)). f_equal. rewrite pow_IZR. reflexivity.
Qed.
Lemma big_199 : forall v, Rabs v <= 2 ^ 60 -> Rabs v <= 2 ^ 899.
Proof. intros v H. eapply Rle_trans; [exact H|]. apply Rle_pow; [lra|lia]. Qed.
Lemma tiny_u : tiny <= u * / 2 ^ 60.
Proof.
  unfold tiny. replace (u * / 2 ^ 60) with (bpow radix2 (-113)); [apply bpow_le; lia|].
  change (-113)%Z with (-53 + -60)%Z. rewrite bpow_plus. unfold u.
  change (bpow radix2 (-53)) with (/ IZR (2 ^ 53)). change (bpow radix2 (-60)) with (/ IZR (2 ^ 60)).
  f_equal; f_equal; rewrite pow_IZR; reflexivity.
Qed.
Lemma nat_rel : forall n, (Z.of_nat n <= 2 ^ 53)%Z -> rel (f_of (Z.of_nat n) 0) (INR n) 0.
Proof. intros n H. rewrite INR_IZR_INZ. apply int_rel. lia. Qed.
Lemma INR_2p : forall n, (Z.of_nat n <= 2 ^ 53)%Z -> INR n <= 2 ^ 53.
Proof. intros n H. rewrite INR_IZR_INZ, pow_IZR. apply IZR_le. exact H. Qed.

(** pi / N. *)
Lemma step_rel : forall n, (1 <= n)%nat -> (Z.of_nat n <= 2 ^ 53)%Z ->
  rel (fdiv fpi (f_of (Z.of_nat n) 0)) (PI / INR n) (3 * u) /\ / 2 ^ 53 <= PI / INR n <= 4.
Proof.
  intros n H1 H2. pose proof (INR_2p n H2) as B. assert (B1 : 1 <= INR n) by (apply (le_INR 1); auto).
  pose proof u_pos. pose proof u_small. pose proof PI_RGT_0. pose proof PI_4. pose proof PI2_1.
  assert (R0 : / 2 ^ 53 <= PI / INR n <= 4).
  { split.
    - apply Rle_trans with (1 / INR n).
      + unfold Rdiv. rewrite Rmult_1_l. apply Rinv_le_contravar; lra.
      + apply Rmult_le_compat_r; [left; apply Rinv_0_lt_compat; lra|lra].
    - apply Rmult_le_reg_r with (INR n); [lra|]. unfold Rdiv. rewrite Rmult_assoc, Rinv_l by lra. nra. }
  split; [|exact R0].
  eapply rel_weak; [apply (rel_fdiv _ _ _ _ u 0 fpi_rel (nat_rel n H2)); try lra|lra].
  - apply tiny_ok_1. rewrite Rabs_pos_eq by lra. eapply Rle_trans; [|apply R0]. apply Rinv_le_contravar; [apply pow_lt; lra|].
    apply Rle_pow; [lra|lia].
  - apply big_199. rewrite Rabs_pos_eq by lra. simpl. lra.
Qed.

(** The weight p * sqrt(1 - x * x) from a node within E of cos t. *)
Section Weight.
Variables (N : nat) (ph xh : F64) (p t E : R).
Hypothesis Hp : rel ph p (3 * u).
Hypothesis Rp : / 2 ^ 53 <= p <= 4.
Hypothesis Ht : 0 < t < PI.
Hypothesis Fx : is_finite xh = true.
Hypothesis Bx : Rabs (B2R xh) <= 1.
Hypothesis Ex : Rabs (B2R xh - cos t) <= E.
Hypothesis HE : E <= 1 / 1000.
Let wh := fmul ph (fsqrt (fsub (f_of 1 0) (fmul xh xh))).

Lemma weight_near : is_finite wh = true /\ Rabs (B2R wh - p * sin t) <= p * sin t * ((2 * E + 10 * u) / (1 - cos t * cos t)).
Proof.
  pose proof u_pos as U. pose proof u_small as U1.
  assert (S0 : 0 < sin t) by (apply sin_gt_0; lra).
  assert (S1 : sin t <= 1) by (apply SIN_bound).
  assert (E0 : 0 <= E) by (eapply Rle_trans; [apply Rabs_pos|exact Ex]).
  assert (SS : 1 - cos t * cos t = sin t * sin t).
  { pose proof (sin2_cos2 t) as Q. unfold Rsqr in Q. lra. }
  set (x := B2R xh) in *. pose proof (abs_of _ _ Bx) as Bx'.
  assert (Xx : 0 <= x * x <= 1) by nra.
  assert (F1 : is_finite (fmul xh xh) = true).
  { apply finite_mul; auto. fold x. rewrite Rabs_pos_eq by lra. apply Rle_trans with 1; [lra|]. apply pow_R1_Rle. lra. }
  destruct (fmul_R _ _ F1) as (_ & _ & E1). fold x in E1.
  assert (R1 : 0 <= rnd (x * x) <= 1).
  { split; [rewrite <- rnd_0; apply rnd_mono; lra|].
    replace 1 with (rnd 1); [apply rnd_mono; lra|]. destruct (f_of_small 1 ltac:(lia)) as [_ O]. rewrite <- O. apply rnd_B2R. }
  assert (N1 : Rabs (rnd (x * x) - x * x) <= 2 * u).
  { destruct (rnd_err (x * x)) as (e & h & He & Hh & ->).
    replace (x * x * (1 + e) + h - x * x) with (x * x * e + h) by ring.
    eapply Rle_trans; [apply Rabs_triang|]. rewrite Rabs_mult, (Rabs_pos_eq (x * x)) by lra.
    assert (Rabs h <= u).
    { eapply Rle_trans; [exact Hh|]. pose proof tiny_half. pose proof tiny_u.
      assert (u * / 2 ^ 60 <= u * 1) by (apply Rmult_le_compat_l; [lra|]; rewrite <- Rinv_1; apply Rinv_le_contravar; [lra|apply pow_R1_Rle; lra]).
      assert (0 < bpow radix2 (-1075)) by apply bpow_gt_0. lra. }
    pose proof (Rabs_pos e). nra. }
  destruct (f_of_small 1 ltac:(lia)) as [FO O].
  destruct (finite_sub (f_of 1 0) (fmul xh xh) FO F1) as (F2 & E2).
  { rewrite O, E1. rewrite Rabs_pos_eq by lra. apply Rle_trans with 1; [lra|]. apply pow_R1_Rle. lra. }
  destruct (rnd_sub_err (f_of 1 0) (fmul xh xh)) as (e2 & He2 & E2'). rewrite E2' in E2. rewrite O, E1 in E2.
  set (z := 1 - rnd (x * x)) in *. assert (Z0 : 0 <= z <= 1) by (unfold z; lra).
  pose proof (abs_of _ _ He2) as He2'.
  assert (P2 : 0 <= B2R (fsub (f_of 1 0) (fmul xh xh))) by (rewrite E2; apply Rmult_le_pos; lra).
  destruct (fsqrt_err _ F2 P2) as (F3 & e3 & He3 & E3). rewrite E2 in E3.
  set (s := fsqrt (fsub (f_of 1 0) (fmul xh xh))) in *.
  rewrite sqrt_mult in E3 by lra.
  (* s = sqrt z * (1 + g) with |g| <= 2 u *)
  assert (G : exists g, Rabs g <= 3 * u /\ B2R s = sqrt z * (1 + g)).
  { exists (sqrt (1 + e2) * (1 + e3) - 1). split; [|rewrite E3; ring].
    assert (Q : 1 - u <= sqrt (1 + e2) <= 1 + u).
    { split.
      - apply Rle_trans with (sqrt ((1 - u) * (1 - u))); [rewrite sqrt_square; lra|]. apply sqrt_le_1_alt. nra.
      - apply Rle_trans with (sqrt ((1 + u) * (1 + u))); [|rewrite sqrt_square; lra]. apply sqrt_le_1_alt. nra. }
    pose proof (abs_of _ _ He3). apply Rabs_le. split; nra. }
  destruct G as (g & Hg & Es). clear E3.
  assert (Zn : Rabs (z - sin t * sin t) <= 2 * E + 2 * u).
  { rewrite <- SS. unfold z. replace (1 - rnd (x * x) - (1 - cos t * cos t)) with (- (rnd (x * x) - x * x) + - ((x - cos t) * (x + cos t))) by ring.
    eapply Rle_trans; [apply Rabs_triang|]. rewrite !Rabs_Ropp, Rabs_mult.
    assert (Rabs (x + cos t) <= 2).
    { eapply Rle_trans; [apply Rabs_triang|]. assert (Rabs (cos t) <= 1) by (apply Rabs_le; apply COS_bound). lra. }
    assert (Rabs (x - cos t) * Rabs (x + cos t) <= E * 2) by (apply Rmult_le_compat; auto; apply Rabs_pos). lra. }
  assert (Sz : Rabs (sqrt z - sin t) <= (2 * E + 2 * u) / sin t).
  { pose proof (sqrt_pos z). pose proof (sqrt_sqrt z ltac:(lra)) as QQ.
    apply Rmult_le_reg_r with (sin t); [lra|]. unfold Rdiv. rewrite Rmult_assoc, Rinv_l, Rmult_1_r by lra.
    apply Rle_trans with (Rabs (sqrt z - sin t) * (sqrt z + sin t)).
    - apply Rmult_le_compat_l; [apply Rabs_pos|lra].
    - rewrite <- (Rabs_pos_eq (sqrt z + sin t)) at 1 by lra. rewrite <- Rabs_mult.
      replace ((sqrt z - sin t) * (sqrt z + sin t)) with (z - sin t * sin t) by (rewrite <- QQ at 1; ring). exact Zn. }
  assert (Sz1 : 0 <= sqrt z <= 1).
  { split; [apply sqrt_pos|]. rewrite <- sqrt_1. apply sqrt_le_1_alt. lra. }
  destruct Hp as (Fp & dp & Hdp & Ep). pose proof (abs_of _ _ Hdp) as Hdp'. pose proof (abs_of _ _ Hg) as Hg'.
  assert (Pos : 0 < / 2 ^ 53) by (apply Rinv_0_lt_compat; apply pow_lt; lra).
  assert (Bs : 0 <= B2R s <= 2) by (rewrite Es; split; nra).
  assert (Bp : 0 <= B2R ph <= 5) by (rewrite Ep; split; nra).
  assert (F : is_finite wh = true).
  { unfold wh. apply finite_mul; auto. rewrite Rabs_pos_eq by (apply Rmult_le_pos; lra). apply Rle_trans with 10; [nra|].
    apply Rle_trans with (2 ^ 4); [simpl; lra|]. apply Rle_pow; [lra|lia]. }
  split; [exact F|]. destruct (fmul_R _ _ F) as (_ & _ & Ew). fold s in Ew. unfold wh. fold s. rewrite Ew.
  destruct (rnd_err (B2R ph * B2R s)) as (e5 & t5 & He5 & Ht5 & ->). pose proof (abs_of _ _ He5) as He5'.
  (* total relative factor *)
  rewrite Ep, Es.
  set (f := (1 + dp) * (1 + g) * (1 + e5) - 1).
  assert (Hf : Rabs f <= 7 * u + u / 2).
  { unfold f. assert (A : - (6 * u + 10 * u * u) <= (1 + dp) * (1 + g) - 1 <= 6 * u + 10 * u * u) by (split; nra).
    set (h := (1 + dp) * (1 + g) - 1) in *. replace ((1 + dp) * (1 + g)) with (1 + h) by (unfold h; ring).
    assert (U2 : u * u <= u / 1000) by (clear - U U1; nra).
    assert (B7 : Rabs (h * e5) <= 7 * u * u).
    { rewrite Rabs_mult. apply Rmult_le_compat; [apply Rabs_pos|apply Rabs_pos| |exact He5]. apply Rabs_le. lra. }
    apply abs_of in B7. apply Rabs_le. lra. }
  replace (p * (1 + dp) * (sqrt z * (1 + g)) * (1 + e5) + t5 - p * sin t)
    with (p * (sqrt z - sin t) + p * sqrt z * f + t5) by (unfold f; ring).
  assert (T5 : Rabs t5 <= u * p / 2).
  { eapply Rle_trans; [exact Ht5|]. pose proof tiny_half as TH. pose proof tiny_u as TU.
    assert (u * / 2 ^ 60 <= u * p).
    { apply Rmult_le_compat_l; [lra|]. eapply Rle_trans; [|apply Rp]. apply Rinv_le_contravar; [apply pow_lt; lra|]. apply Rle_pow; [lra|lia]. }
    lra. }
  replace (p * sin t * ((2 * E + 10 * u) / (1 - cos t * cos t))) with (p * ((2 * E + 10 * u) / sin t)) by (rewrite SS; field; lra).
  assert (I : 1 <= / sin t) by (rewrite <- Rinv_1; apply Rinv_le_contravar; lra).
  eapply Rle_trans; [apply Rabs_triang|]. apply Rle_trans with (p * ((2 * E + 2 * u) / sin t) + p * (7 * u + u / 2) + u * p / 2).
  - apply Rplus_le_compat; [|exact T5]. eapply Rle_trans; [apply Rabs_triang|]. apply Rplus_le_compat.
    + rewrite Rabs_mult, (Rabs_pos_eq p) by lra. apply Rmult_le_compat_l; lra.
    + rewrite !Rabs_mult, (Rabs_pos_eq p), (Rabs_pos_eq (sqrt z)) by lra. rewrite Rmult_assoc. apply Rmult_le_compat_l; [lra|].
      pose proof (Rabs_pos f). nra.
  - unfold Rdiv. assert (u <= u * / sin t) by nra.
    replace (p * ((2 * E + 2 * u) * / sin t) + p * (7 * u + u * / 2) + u * p * / 2)
      with (p * ((2 * E + 2 * u) * / sin t + 8 * u)) by (field; lra).
    apply Rmult_le_compat_l; [lra|]. nra.
Qed.
End Weight.

(** The mirrored rule built from half of the nodes. *)
Section Rule.
Variables (m : libm) (n : nat) (xh : nat -> F64) (ph : F64) (p E : R) (th : nat -> R).
Hypothesis Hp : rel ph p (3 * u).
Hypothesis Rp : / 2 ^ 53 <= p <= 4.
Hypothesis HE : E <= 1 / 1000.
Hypothesis Ht : forall j, (j < n)%nat -> 0 < th j < PI.
Hypothesis Hm : forall i j, (i + j + 1 = n)%nat -> th j = PI - th i.
Hypothesis Hx : forall j, (j < n)%nat -> near (xh j) (cos (th j)) E /\ Rabs (B2R (xh j)) <= 1.
Let wh (j : nat) : F64 := fmul ph (fsqrt (fsub (f_of 1 0) (fmul (xh j) (xh j)))).

Lemma rule_node : forall j, (j < n)%nat ->
  near (@mirror (FS m) n xh (fun i => Bopp (xh i)) (f_of 0 0) j) (cos (th j)) E /\
  Rabs (B2R (@mirror (FS m) n xh (fun i => Bopp (xh i)) (f_of 0 0) j)) <= 1.
Proof.
  intros j Hj. unfold mirror. destruct (Nat.ltb_spec j (n / 2)); [apply Hx; auto|].
  destruct (Nat.leb_spec (n - n / 2) j).
  - destruct (Hx (n - 1 - j) ltac:(lia)) as ((F & H1) & H2). rewrite B2R_Bopp, Rabs_Ropp. split; [|exact H2].
    split; [rewrite is_finite_Bopp; exact F|]. rewrite B2R_Bopp. rewrite (Hm (n - 1 - j) j) by lia.
    rewrite <- cos_reflect. replace (- B2R (xh (n - 1 - j)) - - cos (th (n - 1 - j))) with (- (B2R (xh (n - 1 - j)%nat) - cos (th (n - 1 - j)%nat))) by ring.
    rewrite Rabs_Ropp. exact H1.
  - destruct (f_of_small 0 ltac:(lia)) as [F0 O0]. unfold near. rewrite O0, Rabs_R0. split; [split; [exact F0|]|lra].
    assert (J : (j + j + 1 = n)%nat).
    { destruct (Nat.odd n) eqn:Ho; [pose proof (odd_half n Ho)|pose proof (even_half n Ho)]; lia. }
    pose proof (Hm j j J). replace (th j) with (PI / 2) by lra. rewrite cos_PI2, Rminus_0_r, Rabs_R0.
    destruct (Hx j Hj) as ((_ & K) & _). eapply Rle_trans; [apply Rabs_pos|exact K].
Qed.
Lemma rule_weight : forall j, (j < n)%nat ->
  near (@mirror (FS m) n wh wh ph j) (p * sin (th j)) (p * sin (th j) * ((2 * E + 10 * u) / (1 - cos (th j) * cos (th j)))).
Proof.
  assert (W : forall j, (j < n)%nat -> near (wh j) (p * sin (th j)) (p * sin (th j) * ((2 * E + 10 * u) / (1 - cos (th j) * cos (th j))))).
  { intros j Hj. destruct (Hx j Hj) as ((F & H1) & H2). apply weight_near; auto. }
  intros j Hj. unfold mirror. destruct (Nat.ltb_spec j (n / 2)); [apply W; auto|].
  destruct (Nat.leb_spec (n - n / 2) j).
  - pose proof (W (n - 1 - j)%nat ltac:(lia)) as K. rewrite (Hm (n - 1 - j) j) by lia. rewrite sin_PI_x.
    rewrite <- cos_reflect. replace (- cos (th (n - 1 - j)) * - cos (th (n - 1 - j))) with (cos (th (n - 1 - j)%nat) * cos (th (n - 1 - j)%nat)) by ring.
    exact K.
  - assert (J : (j + j + 1 = n)%nat).
    { destruct (Nat.odd n) eqn:Ho; [pose proof (odd_half n Ho)|pose proof (even_half n Ho)]; lia. }
    pose proof (Hm j j J). replace (th j) with (PI / 2) by lra. rewrite cos_PI2, sin_PI2.
    apply near_weak with (3 * u * p).
    + pose proof (rel_near _ _ _ Hp) as K. rewrite Rmult_1_r. rewrite (Rabs_pos_eq p) in K; [exact K|].
      pose proof (pow_lt 2 53 ltac:(lra)) as T. apply Rinv_0_lt_compat in T. lra.
    + destruct (Hx j Hj) as ((_ & K) & _). assert (0 <= E) by (eapply Rle_trans; [apply Rabs_pos|exact K]).
      pose proof (pow_lt 2 53 ltac:(lra)) as T. apply Rinv_0_lt_compat in T. pose proof u_pos.
      replace ((2 * E + 10 * u) / (1 - 0 * 0)) with (2 * E + 10 * u) by field. nra.
Qed.
End Rule.

(** Angles. *)
Lemma int_ok : forall z, (Z.abs z <= 2 ^ 53)%Z -> is_finite (f_of z 0) = true /\ B2R (f_of z 0) = IZR z.
Proof. exact f_of_small. Qed.
Lemma fmul_int : forall a b, (Z.abs a <= 2 ^ 53)%Z -> (Z.abs b <= 2 ^ 53)%Z -> (Z.abs (a * b) <= 2 ^ 53)%Z ->
  rel (fmul (f_of a 0) (f_of b 0)) (IZR (a * b)) 0.
Proof.
  intros a b Ha Hb Hab. destruct (int_ok a Ha) as [Fa Ea]. destruct (int_ok b Hb) as [Fb Eb]. destruct (int_ok _ Hab) as [Fc Ec].
  assert (B : Rabs (IZR (a * b)) <= 2 ^ 900).
  { rewrite <- abs_IZR. apply Rle_trans with (IZR (2 ^ 53)); [apply IZR_le; auto|]. change (IZR (2 ^ 53)) with (IZR (2 ^ Z.of_nat 53)); rewrite <- (pow_IZR 2 53). apply Rle_pow; [lra|lia]. }
  assert (F : is_finite (fmul (f_of a 0) (f_of b 0)) = true) by (apply finite_mul; auto; rewrite Ea, Eb, <- mult_IZR; exact B).
  apply exact_rel; auto. destruct (fmul_R _ _ F) as (_ & _ & ->). rewrite Ea, Eb, <- mult_IZR, <- Ec. apply rnd_B2R.
Qed.
Lemma fsub_int : forall (x : F64) a b, rel x (IZR a) 0 -> (Z.abs b <= 2 ^ 53)%Z -> (Z.abs (a - b) <= 2 ^ 53)%Z ->
  rel (fsub x (f_of b 0)) (IZR (a - b)) 0.
Proof.
  intros x a b (Fa & dd & Hd & Ea) Hb Hab. destruct (int_ok b Hb) as [Fb Eb]. destruct (int_ok _ Hab) as [Fc Ec].
  assert (dd = 0) by (pose proof (abs_of _ _ Hd); lra). subst dd. rewrite Rplus_0_r, Rmult_1_r in Ea.
  assert (B : Rabs (IZR (a - b)) <= 2 ^ 900).
  { rewrite <- abs_IZR. apply Rle_trans with (IZR (2 ^ 53)); [apply IZR_le; auto|]. change (IZR (2 ^ 53)) with (IZR (2 ^ Z.of_nat 53)); rewrite <- (pow_IZR 2 53). apply Rle_pow; [lra|lia]. }
  destruct (finite_sub x (f_of b 0) Fa Fb) as (F & R'); [rewrite Ea, Eb, <- minus_IZR; exact B|].
  apply exact_rel; auto. rewrite R', Ea, Eb, <- minus_IZR, <- Ec. apply rnd_B2R.
Qed.

Lemma cos_near : forall m d (x : F64) t e, accurate m d -> rel x t e -> 0 < t < PI -> e <= 1 / 1000 ->
  near (m_cos m x) (cos t) (d + e * 3.15) /\ Rabs (B2R (m_cos m x)) <= 1 /\
  near (m_sin m x) (sin t) (d + e * 3.15) /\ Rabs (B2R (m_sin m x)) <= 1.
Proof.
  intros m d x t e A (F & dd & Hd & E) Ht He. pose proof (abs_of _ _ Hd) as Hd'.
  assert (P : PI <= 3.15) by (pose proof pi_coarse; lra). assert (e0 : 0 <= e) by (eapply Rle_trans; [apply Rabs_pos|exact Hd]).
  destruct (A x F ltac:(rewrite E; split; nra)) as ((F1 & B1 & C1) & (F2 & B2 & C2)).
  assert (D : Rabs (B2R x - t) <= e * 3.15).
  { rewrite E. replace (t * (1 + dd) - t) with (dd * t) by ring. rewrite Rabs_mult, (Rabs_pos_eq t) by lra.
    apply Rmult_le_compat; try lra. apply Rabs_pos. }
  repeat split; auto.
  - replace (B2R (m_cos m x) - cos t) with ((B2R (m_cos m x) - cos (B2R x)) + (cos (B2R x) - cos t)) by ring.
    eapply Rle_trans; [apply Rabs_triang|]. pose proof (cos_lip (B2R x) t). lra.
  - replace (B2R (m_sin m x) - sin t) with ((B2R (m_sin m x) - sin (B2R x)) + (sin (B2R x) - sin t)) by ring.
    eapply Rle_trans; [apply Rabs_triang|]. pose proof (sin_lip (B2R x) t). lra.
Qed.

Lemma th_tiny : forall v, / 2 ^ 54 <= v <= 4 -> tiny_ok v /\ Rabs v <= 2 ^ 899.
Proof.
  intros v H. assert (0 < / 2 ^ 54) by (apply Rinv_0_lt_compat, pow_lt; lra). rewrite (Rabs_pos_eq v) by lra. split.
  - apply tiny_ok_1. rewrite Rabs_pos_eq by lra. eapply Rle_trans; [|apply H]. apply Rinv_le_contravar; [apply pow_lt; lra|]. apply Rle_pow; [lra|lia].
  - apply Rle_trans with (2 ^ 2); [simpl; lra|]. apply Rle_pow; [lra|lia].
Qed.

Lemma gc1_angle : forall m n j, (j < n)%nat -> (Z.of_nat (2 * n + 2) <= 2 ^ 53)%Z ->
  rel (@gc1_t (FS m) n (n - j)) (th1 n j) (7 * u).
Proof.
  intros m n j Hj Hn. pose proof (step_rel n ltac:(lia) ltac:(lia)) as (Hs & Rs). pose proof u_pos. pose proof u_small.
  assert (P0 : 0 < / 2 ^ 53) by (apply Rinv_0_lt_compat, pow_lt; lra).
  assert (P1 : / 2 ^ 54 = / 2 ^ 53 / 2) by (change 54%nat with (1 + 53)%nat; rewrite pow_add, Rinv_mult; simpl (2 ^ 1); field; apply pow_nonzero; lra).
  unfold gc1_t.
  assert (A : rel (fsub (fmul (f_of 2 0) (f_of (Z.of_nat (n - j)) 0)) (f_of 1 0)) (IZR (2 * Z.of_nat (n - j) - 1)) 0).
  { apply fsub_int; [|lia|lia]. apply fmul_int; lia. }
  assert (B : rel (fdiv (fdiv fpi (f_of (Z.of_nat n) 0)) (f_of 2 0)) (PI / INR n / 2) (5 * u)).
  { eapply rel_weak; [apply (rel_fdiv _ _ _ _ _ _ Hs (int_rel 2 ltac:(lia))); try lra|lra].
    - apply th_tiny. lra.
    - apply th_tiny. lra. }
  assert (T : IZR (2 * Z.of_nat (n - j) - 1) * (PI / INR n / 2) = th1 n j).
  { unfold th1. replace (n - j)%nat with (Datatypes.S (n - 1 - j)) by lia. rewrite minus_IZR, mult_IZR, IZR_INR, S_INR. field.
    apply not_0_INR. lia. }
  pose proof (th1_range n j Hj) as R0. pose proof PI_4.
  assert (L : / 2 ^ 54 <= th1 n j).
  { rewrite <- T. apply Rle_trans with (1 * (PI / INR n / 2)); [lra|]. apply Rmult_le_compat_r; [lra|]. apply IZR_le. lia. }
  rewrite <- T. eapply rel_weak; [apply (rel_fmul _ _ _ _ _ _ A B); try lra|nra].
  - rewrite T. apply th_tiny. lra.
  - rewrite T. apply th_tiny. lra.
Qed.
Lemma gc2_angle : forall n j, (j < n)%nat -> (Z.of_nat (2 * n + 2) <= 2 ^ 53)%Z ->
  rel (fmul (f_of (Z.of_nat (n - j)) 0) (fdiv fpi (f_of (Z.of_nat (n + 1)) 0))) (th2 n j) (7 * u).
Proof.
  intros n j Hj Hn. pose proof (step_rel (n + 1) ltac:(lia) ltac:(lia)) as (Hs & Rs). pose proof u_pos. pose proof u_small.
  assert (P0 : 0 < / 2 ^ 53) by (apply Rinv_0_lt_compat, pow_lt; lra).
  assert (P1 : / 2 ^ 54 <= / 2 ^ 53) by (apply Rinv_le_contravar; [apply pow_lt; lra|apply Rle_pow; [lra|lia]]).
  assert (T : INR (n - j) * (PI / INR (n + 1)) = th2 n j) by (unfold th2, Rdiv; ring).
  pose proof (th2_range n j Hj) as R0. pose proof PI_4.
  assert (L : / 2 ^ 54 <= th2 n j).
  { rewrite <- T. apply Rle_trans with (1 * (PI / INR (n + 1))); [lra|]. apply Rmult_le_compat_r; [lra|]. apply (le_INR 1). lia. }
  rewrite <- T. eapply rel_weak; [apply (rel_fmul _ _ _ _ _ _ (nat_rel (n - j) ltac:(lia)) Hs); try lra|nra].
  - rewrite T. apply th_tiny. lra.
  - rewrite T. apply th_tiny. lra.
Qed.

(** The rules of first and second kind: nodes cos(th j), weights p sin(th j). *)
Lemma angle_rule : forall m n (xh : nat -> F64) (ph : F64) p d th (qf : list F64 * list F64) (q : list R * list R),
  rel ph p (3 * u) -> / 2 ^ 53 <= p <= 4 -> d <= 1 / 2000 ->
  (forall j, (j < n)%nat -> 0 < th j < PI) -> (forall i j, (i + j + 1 = n)%nat -> th j = PI - th i) ->
  (forall j, (j < n)%nat -> near (xh j) (cos (th j)) (d + 23 * u) /\ Rabs (B2R (xh j)) <= 1) ->
  qf = (tab n (@mirror (FS m) n xh (fun i => Bopp (xh i)) (f_of 0 0)),
        tab n (@mirror (FS m) n (fun j => fmul ph (fsqrt (fsub (f_of 1 0) (fmul (xh j) (xh j)))))
                 (fun j => fmul ph (fsqrt (fsub (f_of 1 0) (fmul (xh j) (xh j))))) ph)) ->
  q = (tab n (fun j => cos (th j)), tab n (fun j => p * sin (th j))) ->
  all_finite qf /\ (forall x, In x (fst (real_rule qf)) -> -1 <= x <= 1) /\
  close_rules (real_rule qf) q (d + 23 * u) (fun x w => w * ((2 * d + 56 * u) / (1 - x * x))).
Proof.
  intros m n xh ph p d th qf q Hp Rp Hd Ht Hm Hx -> ->.
  pose proof u_small as U. assert (HE : d + 23 * u <= 1 / 1000) by lra.
  pose proof (rule_node m n xh (d + 23 * u) th Hm Hx) as N.
  pose proof (rule_weight m n xh ph p (d + 23 * u) th Hp Rp HE Ht Hm Hx) as W.
  split; [|split].
  - intros x [K|K]; cbn [fst snd] in K; apply In_tab in K; destruct K as (j & Hj & ->); [apply N|apply W]; auto.
  - intros x K. unfold real_rule in K. cbn [fst] in K. apply in_map_iff in K. destruct K as (y & <- & K).
    apply In_tab in K. destruct K as (j & Hj & ->). destruct (N j Hj) as (_ & K). apply abs_of in K. lra.
  - unfold close_rules, real_rule. cbn [fst snd]. rewrite !map_tab, !tab_length. repeat split.
    + intros. assert (J : (i < n)%nat).
      { apply Nat.nlt_ge. intro. rewrite (proj2 (nth_error_None _ _)) in H0; [discriminate|]. rewrite tab_length; lia. }
      rewrite nth_error_tab in H, H0 by auto. injection H as <-. injection H0 as <-. apply (N i J).
    + intros. assert (J : (i < n)%nat).
      { apply Nat.nlt_ge. intro. rewrite (proj2 (nth_error_None _ _)) in H0; [discriminate|]. rewrite tab_length; lia. }
      rewrite nth_error_tab in H0, H1, H2 by auto. injection H0 as <-. injection H1 as <-. injection H2 as <-.
      destruct (W i J) as (_ & K). replace (2 * d + 56 * u) with (2 * (d + 23 * u) + 10 * u) by ring. exact K.
Qed.

Definition cheb12 (S : Scalar) : list (nat -> outcome (list S * list S)) := [@gc1_generate S; @gc2_generate S].

Lemma gc1_float : forall m d n qf q, accurate m d -> d <= 1 / 2000 -> (Z.of_nat (2 * n + 2) <= 2 ^ 53)%Z ->
  @gc1_generate (FS m) n = Ok qf -> @gc1_generate RS n = Ok q ->
  all_finite qf /\ (forall x, In x (fst (real_rule qf)) -> -1 <= x <= 1) /\
  close_rules (real_rule qf) q (d + 23 * u) (fun x w => w * ((2 * d + 56 * u) / (1 - x * x))).
Proof.
  intros m d n qf q A Hd Hn Hf Hq. rewrite gc1_real in Hq. injection Hq as <-.
  destruct (Nat.eq_dec n 0) as [->|N0].
  { rewrite gc1_closed in Hf. injection Hf as <-. split; [|split].
    - intros x [[]|[]].
    - intros x [].
    - repeat split; destruct i; discriminate. }
  rewrite gc1_closed in Hf. injection Hf as <-. pose proof (step_rel n ltac:(lia) ltac:(lia)) as (Hs & Rs).
  eapply (angle_rule m n (@gc1_x (FS m) n) (fdiv fpi (f_of (Z.of_nat n) 0)) (PI / INR n) d (th1 n)); auto.
  - apply th1_range.
  - apply th1_mirror.
  - intros j Hj. pose proof u_pos. pose proof u_small.
    destruct (cos_near m d _ _ _ A (gc1_angle m n j Hj Hn) (th1_range n j Hj) ltac:(lra)) as (K1 & K2 & _).
    split; [|exact K2]. apply (near_weak _ _ _ _ K1). lra.
Qed.
Lemma gc2_float : forall m d n qf q, accurate m d -> d <= 1 / 2000 -> (Z.of_nat (2 * n + 2) <= 2 ^ 53)%Z ->
  @gc2_generate (FS m) n = Ok qf -> @gc2_generate RS n = Ok q ->
  all_finite qf /\ (forall x, In x (fst (real_rule qf)) -> -1 <= x <= 1) /\
  close_rules (real_rule qf) q (d + 23 * u) (fun x w => w * ((2 * d + 56 * u) / (1 - x * x))).
Proof.
  intros m d n qf q A Hd Hn Hf Hq. rewrite gc2_real in Hq. injection Hq as <-.
  rewrite gc2_closed in Hf. injection Hf as <-. pose proof (step_rel (n + 1) ltac:(lia) ltac:(lia)) as (Hs & Rs).
  eapply (angle_rule m n (@gc2_x (FS m) n) (fdiv fpi (f_of (Z.of_nat (n + 1)) 0)) (PI / INR (n + 1)) d (th2 n)); auto.
  - apply th2_range.
  - apply th2_mirror.
  - intros j Hj. pose proof u_pos. pose proof u_small.
    destruct (cos_near m d _ _ _ A (gc2_angle n j Hj Hn) (th2_range n j Hj) ltac:(lra)) as (K1 & K2 & _).
    split; [|exact K2]. apply (near_weak _ _ _ _ K1). lra.
Qed.

(** Sums over close rules. *)
Lemma close_sum : forall r (q q' : list R * list R) ex ew f M L, close_rules q q' ex ew ->
  length (fst q') = length (snd q') ->
  (forall x, In x (fst q) -> - r <= x <= r) -> (forall x, In x (fst q') -> - r <= x <= r) ->
  (forall w, In w (snd q') -> 0 <= w) -> tame r f M L -> 0 <= L ->
  Rabs (apply_rule q f - apply_rule q' f) <= Rsum (map (fun p => M * ew (fst p) (snd p) + L * ex * snd p) (combine (fst q') (snd q'))).
Proof.
  intros r [xs ws] [xs' ws'] ex ew f M L (L1 & L2 & C) L3 B B' P (F1 & F2) L0. unfold apply_rule, wsum. cbn [fst snd] in *.
  revert ws xs' ws' L1 L2 L3 C B B' P. induction xs as [|x xs IH]; intros [|w ws] [|x' xs'] [|w' ws'] L1 L2 L3 C B B' P;
    cbn [length] in *; try lia; cbn [combine map Rsum fold_right].
  - rewrite Rminus_0_r, Rabs_R0. lra.
  - specialize (IH ws xs' ws' ltac:(lia) ltac:(lia) ltac:(lia)).
    assert (T : Rabs (Rsum (map (fun pw => snd pw * f (fst pw)) (combine xs ws)) - Rsum (map (fun pw => snd pw * f (fst pw)) (combine xs' ws')))
      <= Rsum (map (fun p => M * ew (fst p) (snd p) + L * ex * snd p) (combine xs' ws'))).
    { apply IH.
      - intros i; intros. apply (C (Datatypes.S i)); assumption.
      - intros; apply B; right; auto.
      - intros; apply B'; right; auto.
      - intros; apply P; right; auto. }
    destruct (C 0%nat x x' w w' eq_refl eq_refl eq_refl eq_refl) as (D1 & D2).
    pose proof (B x (or_introl eq_refl)) as Bx. pose proof (B' x' (or_introl eq_refl)) as Bx'. pose proof (P w' (or_introl eq_refl)) as Pw.
    cbn [fst snd]. fold (Rsum (map (fun pw => snd pw * f (fst pw)) (combine xs ws))).
    fold (Rsum (map (fun pw => snd pw * f (fst pw)) (combine xs' ws'))).
    fold (Rsum (map (fun p => M * ew (fst p) (snd p) + L * ex * snd p) (combine xs' ws'))).
    match goal with |- Rabs (?a + ?b - (?c + ?e)) <= _ => replace (a + b - (c + e)) with ((w - w') * f x + w' * (f x - f x') + (b - e)) by ring end.
    eapply Rle_trans; [apply Rabs_triang|]. apply Rplus_le_compat; [|exact T].
    eapply Rle_trans; [apply Rabs_triang|]. rewrite !Rabs_mult, (Rabs_pos_eq w') by auto.
    pose proof (F1 x Bx). pose proof (F2 x x' Bx Bx'). pose proof (Rabs_pos (f x)). pose proof (Rabs_pos (w - w')).
    apply Rplus_le_compat.
    + rewrite Rmult_comm. apply Rmult_le_compat; auto.
    + replace (L * ex * w') with (w' * (L * ex)) by ring. apply Rmult_le_compat_l; auto. eapply Rle_trans; [eassumption|].
      apply Rmult_le_compat_l; auto.
Qed.

Lemma sin_half : forall t, 0 <= t <= PI / 2 -> t / 2 <= sin t.
Proof.
  intros t H. pose proof PI_RGT_0. assert (P : PI <= 3.15) by (pose proof pi_coarse; lra).
  destruct (SIN t ltac:(lra) ltac:(lra)) as (K & _). eapply Rle_trans; [|exact K].
  assert (E : sin_lb t = t - t * (t * t) / 6 + t * (t * t) * (t * t) / 120 - t * (t * t) * (t * t) * (t * t) / 5040).
  { unfold sin_lb, sin_approx, sum_f_R0, sin_term. rewrite !INR_IZR_INZ. simpl (Z.of_nat _). simpl (pow _ _). field. }
  rewrite E. assert (Y : 0 <= t * t <= 2.5) by nra. set (y := t * t) in *.
  assert (Q : 0 <= 1 / 2 - y / 6 + y * y / 120 - y * y * y / 5040) by nra.
  replace (t - t * y / 6 + t * y * y / 120 - t * y * y * y / 5040) with (t / 2 + t * (1 / 2 - y / 6 + y * y / 120 - y * y * y / 5040)) by field.
  assert (0 <= t * (1 / 2 - y / 6 + y * y / 120 - y * y * y / 5040)) by (apply Rmult_le_pos; lra). lra.
Qed.

Lemma inv_sin : forall t, 0 < t < PI -> / sin t <= 2 * / t + 2 * / (PI - t).
Proof.
  intros t H. assert (0 < sin t) by (apply sin_gt_0; lra).
  assert (0 < / t) by (apply Rinv_0_lt_compat; lra). assert (0 < / (PI - t)) by (apply Rinv_0_lt_compat; lra).
  assert (K : forall s, 0 < s -> s / 2 <= sin t -> / sin t <= 2 * / s).
  { intros s Hs Hk. replace (2 * / s) with (/ (s / 2)) by (field; lra). apply Rinv_le_contravar; lra. }
  destruct (Rle_lt_dec t (PI / 2)).
  - pose proof (K t ltac:(lra) ltac:(apply sin_half; lra)). lra.
  - pose proof (K (PI - t) ltac:(lra) ltac:(rewrite <- sin_PI_x; apply sin_half; lra)). lra.
Qed.
Lemma harmonic : forall n, (1 <= n)%nat -> Rsum (tab n (fun i => / INR (i + 1))) <= 1 + ln (INR n).
Proof.
  intros n Hn. induction Hn as [|n Hn IH].
  - simpl. rewrite ln_1, Rinv_1. lra.
  - rewrite Rsum_tab_S. assert (P : 0 < INR n) by (apply lt_0_INR; lia).
    assert (K : / INR (n + 1) <= ln (INR (Datatypes.S n)) - ln (INR n)); [|lra].
    replace (n + 1)%nat with (Datatypes.S n) by lia. rewrite S_INR. set (v := INR n) in *.
    assert (Q : ln (v / (v + 1)) <= v / (v + 1) - 1).
    { assert (0 < v / (v + 1)) by (apply Rdiv_lt_0_compat; lra).
      destruct (Req_dec (v / (v + 1)) 1) as [E|E]; [rewrite E, ln_1; lra|].
      rewrite <- (exp_ln (v / (v + 1))) at 2 by auto. 
      destruct (Req_dec (ln (v / (v + 1))) 0) as [Z|Z]; [rewrite Z, exp_0; lra|].
      pose proof (exp_ineq1 (ln (v / (v + 1))) Z). lra. }
    unfold Rdiv in Q at 1. rewrite ln_mult, ln_Rinv in Q by (try apply Rinv_0_lt_compat; lra).
    replace (v / (v + 1) - 1) with (- / (v + 1)) in Q by (field; lra). lra.
Qed.

Lemma angle_sum : forall n p th, 0 < p ->
  (forall j, (j < n)%nat -> 0 < th j < PI) -> (forall i j, (i + j + 1 = n)%nat -> th j = PI - th i) ->
  apply_rule (tab n (fun j => cos (th j)), tab n (fun j => p * sin (th j))) (fun x => / (1 - x * x))
  <= Rsum (tab n (fun j => 4 * p * / th j)).
Proof.
  intros n p th Hp Ht Hm. unfold apply_rule. cbn [fst snd]. rewrite wsum_tab.
  apply Rle_trans with (Rsum (tab n (fun j => 2 * p * / th j + 2 * p * / th (n - 1 - j)%nat))).
  - unfold tab. apply Rsum_le. intros j Hj. apply in_seq in Hj. pose proof (Ht j ltac:(lia)) as T.
    rewrite (Hm j (n - 1 - j)%nat) by lia. assert (0 < sin (th j)) by (apply sin_gt_0; lra).
    replace (1 - cos (th j) * cos (th j)) with (sin (th j) * sin (th j)) by (pose proof (sin2_cos2 (th j)) as Q; unfold Rsqr in Q; lra).
    replace (p * sin (th j) * / (sin (th j) * sin (th j))) with (p * / sin (th j)) by (field; lra).
    pose proof (inv_sin (th j) T). 
    replace (2 * p * / th j + 2 * p * / (PI - th j)) with (p * (2 * / th j + 2 * / (PI - th j))) by ring.
    apply Rmult_le_compat_l; lra.
  - rewrite Rsum_tab_plus. rewrite (Rsum_tab_rev n (fun j => 2 * p * / th j)). rewrite <- Rsum_tab_plus.
    right. apply Rsum_tab_ext. intros. ring.
Qed.
Lemma gc1_sum : forall n q, (1 <= n)%nat -> @gc1_generate RS n = Ok q ->
  apply_rule q (fun x => / (1 - x * x)) <= 8 * (1 + ln (INR n)).
Proof.
  intros n q Hn Hq. rewrite gc1_real in Hq. injection Hq as <-. pose proof PI_RGT_0. pose proof (INR_pos n ltac:(lia)).
  eapply Rle_trans; [apply angle_sum; [apply Rdiv_lt_0_compat; lra|apply th1_range|apply th1_mirror]|].
  apply Rle_trans with (8 * Rsum (tab n (fun i => / INR (i + 1)))); [|pose proof (harmonic n Hn); lra].
  rewrite <- Rsum_tab_mult_l. rewrite <- (Rsum_tab_rev n (fun i => 8 * / INR (i + 1))).
  unfold tab. apply Rsum_le. intros j Hj. apply in_seq in Hj. unfold th1.
  rewrite plus_INR. simpl (INR 1). pose proof (pos_INR (n - 1 - j)). set (k := INR (n - 1 - j)) in *.
  replace (4 * (PI / INR n) * / ((2 * k + 1) * PI / (2 * INR n))) with (8 * / (2 * k + 1)) by (field; lra).
  apply Rmult_le_compat_l; [lra|]. apply Rinv_le_contravar; lra.
Qed.
Lemma gc2_sum : forall n q, (1 <= n)%nat -> @gc2_generate RS n = Ok q ->
  apply_rule q (fun x => / (1 - x * x)) <= 8 * (1 + ln (INR n)).
Proof.
  intros n q Hn Hq. rewrite gc2_real in Hq. injection Hq as <-. pose proof PI_RGT_0. pose proof (INR_pos (n + 1) ltac:(lia)).
  eapply Rle_trans; [apply angle_sum; [apply Rdiv_lt_0_compat; lra|apply th2_range|apply th2_mirror]|].
  apply Rle_trans with (8 * Rsum (tab n (fun i => / INR (i + 1)))); [|pose proof (harmonic n Hn); lra].
  rewrite <- Rsum_tab_mult_l. rewrite <- (Rsum_tab_rev n (fun i => 8 * / INR (i + 1))).
  unfold tab. apply Rsum_le. intros j Hj. apply in_seq in Hj. unfold th2.
  replace (n - 1 - j + 1)%nat with (n - j)%nat by lia. pose proof (INR_pos (n - j) ltac:(lia)). set (k := INR (n - j)) in *.
  replace (4 * (PI / INR (n + 1)) * / (k * PI / INR (n + 1))) with (4 * / k) by (field; lra).
  apply Rmult_le_compat_r; [|lra]. left. apply Rinv_0_lt_compat. lra.
Qed.

Definition gens (S : Scalar) (k : bool) : nat -> outcome (list S * list S) := if k then @gc1_generate S else @gc2_generate S.

Lemma cheb_close : forall k m d n qf q, accurate m d -> d <= 1 / 2000 -> (Z.of_nat (2 * n + 2) <= 2 ^ 53)%Z ->
  gens (FS m) k n = Ok qf -> gens RS k n = Ok q ->
  all_finite qf /\ (forall x, In x (fst (real_rule qf)) -> -1 <= x <= 1) /\
  close_rules (real_rule qf) q (d + 23 * u) (fun x w => w * ((2 * d + 56 * u) / (1 - x * x))).
Proof. intros [] m d n qf q; [apply gc1_float|apply gc2_float]. Qed.

Lemma acc_pos : forall m d, accurate m d -> 0 <= d.
Proof.
  intros m d A. destruct (f_of_small 0 ltac:(lia)) as [F E]. destruct (A _ F ltac:(rewrite E; lra)) as ((_ & _ & K) & _).
  eapply Rle_trans; [apply Rabs_pos|exact K].
Qed.

Lemma cheb_sum : forall k m d n qf q f M L, accurate m d -> d <= 1 / 2000 -> (1 <= n)%nat -> (Z.of_nat (2 * n + 2) <= 2 ^ 53)%Z ->
  gens (FS m) k n = Ok qf -> gens RS k n = Ok q -> tame 1 f M L ->
  Rabs (apply_rule (real_rule qf) f - apply_rule q f) <= 8 * (1 + ln (INR n)) * (M * (2 * d + 56 * u) + L * (d + 23 * u)).
Proof.
  intros k m d n qf q f M L A Hd Hn HN Hf Hq T.
  destruct (cheb_close k m d n qf q A Hd HN Hf Hq) as (_ & B & C). pose proof (acc_pos m d A) as d0. pose proof u_pos.
  assert (G : good_rule n (-1) 1 q) by (destruct k; [apply (gc1_good n q Hq)|apply (gc2_good n q Hq)]).
  destruct G as (G1 & G2 & _ & G3 & G4).
  assert (S : apply_rule q (fun x => / (1 - x * x)) <= 8 * (1 + ln (INR n))) by (destruct k; [apply (gc1_sum n q Hn Hq)|apply (gc2_sum n q Hn Hq)]).
  assert (M0 : 0 <= M) by (destruct T as (T & _); specialize (T 0 ltac:(lra)); pose proof (Rabs_pos (f 0)); lra).
  assert (L0 : 0 <= L).
  { destruct T as (_ & T). specialize (T 1 0 ltac:(lra) ltac:(lra)). rewrite Rminus_0_r, Rabs_R1 in T. pose proof (Rabs_pos (f 1 - f 0)). lra. }
  eapply Rle_trans; [eapply (close_sum 1); eauto|].
  - congruence.
  - intros x Hx. specialize (G3 x Hx). lra.
  - intros w Hw. specialize (G4 w Hw). lra.
  - set (K := M * (2 * d + 56 * u) + L * (d + 23 * u)).
    assert (K0 : 0 <= K) by (unfold K; apply Rplus_le_le_0_compat; apply Rmult_le_pos; lra).
    apply Rle_trans with (apply_rule q (fun x => / (1 - x * x)) * K); [|apply Rmult_le_compat_r; auto].
    unfold apply_rule, wsum. rewrite <- Rsum_mult_r. apply Rsum_le. intros [x w] Hxw. cbn [fst snd].
    pose proof (in_combine_l _ _ _ _ Hxw) as Ix. pose proof (in_combine_r _ _ _ _ Hxw) as Iw.
    specialize (G3 x Ix). specialize (G4 w Iw). unfold K.
    assert (I : 1 <= / (1 - x * x)) by (rewrite <- Rinv_1 at 1; apply Rinv_le_contravar; nra).
    replace (w * / (1 - x * x) * (M * (2 * d + 56 * u) + L * (d + 23 * u)))
      with (M * (w * ((2 * d + 56 * u) / (1 - x * x))) + L * (d + 23 * u) * w * / (1 - x * x)) by (unfold Rdiv; ring).
    apply Rplus_le_compat_l. rewrite <- (Rmult_1_r (L * (d + 23 * u) * w)) at 1. apply Rmult_le_compat_l; [|exact I].
    apply Rmult_le_pos; [apply Rmult_le_pos; lra|lra].
Qed.

(** Moderate sizes: the stored rule keeps the order of the nodes and the signs of the weights. *)
Lemma sin_low : forall t h, 0 <= h -> h <= t <= PI - h -> h / 2 <= sin t.
Proof.
  intros t h Hh Ht. destruct (Rle_lt_dec t (PI / 2)).
  - pose proof (sin_half t ltac:(lra)). lra.
  - rewrite <- sin_PI_x. pose proof (sin_half (PI - t) ltac:(lra)). lra.
Qed.
Lemma cos_sep : forall a b h, 0 < h -> h <= a -> a + h <= b -> b <= PI - h -> h * h / 4 <= cos a - cos b.
Proof.
  intros a b h Hh Ha Hab Hb. rewrite form2.
  replace ((a - b) / 2) with (- ((b - a) / 2)) by lra. rewrite sin_neg.
  pose proof (sin_low ((a + b) / 2) h ltac:(lra) ltac:(lra)) as S1. pose proof (sin_half ((b - a) / 2) ltac:(lra)) as S2.
  replace (-2 * - sin ((b - a) / 2) * sin ((a + b) / 2)) with (2 * (sin ((b - a) / 2) * sin ((a + b) / 2))) by ring.
  assert (h / 4 * (h / 2) <= sin ((b - a) / 2) * sin ((a + b) / 2)) by (apply Rmult_le_compat; lra). lra.
Qed.
Lemma cos_end : forall t h, 0 < h -> h <= t <= PI - h -> -1 + h * h / 8 <= cos t <= 1 - h * h / 8.
Proof.
  assert (K : forall t h, 0 < h -> h <= t <= PI - h -> cos t <= 1 - h * h / 8).
  { intros t h Hh Ht. replace t with (2 * (t / 2)) by field. rewrite cos_2a_sin.
    pose proof (sin_half (t / 2) ltac:(lra)). assert (h / 4 * (h / 4) <= sin (t / 2) * sin (t / 2)) by (apply Rmult_le_compat; lra). lra. }
  intros t h Hh Ht. split; [|apply K; auto]. pose proof (K (PI - t) h Hh ltac:(lra)) as Q. rewrite <- cos_reflect in Q. lra.
Qed.

Lemma close_good : forall n h p th (q : list R * list R) E D, 0 < h -> 0 < p ->
  (forall j, (j < n)%nat -> h <= th j <= PI - h) -> (forall i j, (i < j < n)%nat -> th j + h <= th i) ->
  close_rules q (tab n (fun j => cos (th j)), tab n (fun j => p * sin (th j))) E (fun x w => w * (D / (1 - x * x))) ->
  E < h * h / 8 -> 0 <= D < h * h / 4 -> good_rule n (-1) 1 q.
Proof.
  intros n h p th [xs ws] E D Hh Hp Ht Hd (L1 & L2 & C) HE HD. cbn [fst snd] in *. rewrite tab_length in L1, L2.
  assert (N : forall i x, nth_error xs i = Some x -> (i < n)%nat /\ Rabs (x - cos (th i)) <= E).
  { intros i x Hx. assert (J : (i < n)%nat) by (rewrite <- L1; apply nth_error_Some; rewrite Hx; discriminate). split; auto.
    destruct (nth_error ws i) as [w|] eqn:Hw; [|apply nth_error_None in Hw; lia].
    apply (C i x _ w _ Hx (nth_error_tab n _ i J) Hw (nth_error_tab n _ i J)). }
  repeat split; cbn [fst snd]; auto.
  - intros i j x y Hij Hx Hy. destruct (N _ _ Hx) as (Ji & Kx). destruct (N _ _ Hy) as (Jj & Ky).
    apply abs_of in Kx. apply abs_of in Ky.
    pose proof (cos_sep (th j) (th i) h Hh (proj1 (Ht j Jj)) (Hd i j ltac:(lia)) (proj2 (Ht i Ji))). lra.
  - apply In_nth_error in H. destruct H as (i & Hi). destruct (N _ _ Hi) as (Ji & Kx). apply abs_of in Kx.
    pose proof (cos_end (th i) h Hh (Ht i Ji)). lra.
  - apply In_nth_error in H. destruct H as (i & Hi). destruct (N _ _ Hi) as (Ji & Kx). apply abs_of in Kx.
    pose proof (cos_end (th i) h Hh (Ht i Ji)). lra.
  - intros w Hw. apply In_nth_error in Hw. destruct Hw as (i & Hi).
    assert (J : (i < n)%nat) by (rewrite <- L2; apply nth_error_Some; rewrite Hi; discriminate).
    destruct (nth_error xs i) as [x|] eqn:Hx; [|apply nth_error_None in Hx; lia].
    destruct (C i x _ w _ Hx (nth_error_tab n _ i J) Hi (nth_error_tab n _ i J)) as (_ & K). apply abs_of in K.
    pose proof (sin_low (th i) h ltac:(lra) (Ht i J)) as S1.
    assert (Q : D / (1 - cos (th i) * cos (th i)) < 1).
    { replace (1 - cos (th i) * cos (th i)) with (sin (th i) * sin (th i)) by (pose proof (sin2_cos2 (th i)) as Q; unfold Rsqr in Q; lra).
      assert (h / 2 * (h / 2) <= sin (th i) * sin (th i)) by (apply Rmult_le_compat; lra).
      apply Rmult_lt_reg_r with (sin (th i) * sin (th i)); [nra|]. unfold Rdiv. rewrite Rmult_assoc, Rinv_l by nra. lra. }
    assert (0 < p * sin (th i)) by (apply Rmult_lt_0_compat; lra).
    set (v := p * sin (th i)) in *. set (r := D / (1 - cos (th i) * cos (th i))) in *. nra.
Qed.

Lemma ok_eq : forall A (x y : A), Ok x = Ok y -> x = y.
Proof. intros A x y H. injection H as H. exact H. Qed.

Lemma cheb_good : forall k m d n qf, accurate m d -> d <= / 2 ^ 50 -> (Z.of_nat n <= 2 ^ 20)%Z ->
  gens (FS m) k n = Ok qf -> good_rule n (-1) 1 (real_rule qf).
Proof.
  intros k m d n qf A Hd Hn Hf. pose proof u_pos as U. pose proof (acc_pos m d A) as d0.
  assert (d1 : d <= 1 / 2000) by lra.
  assert (Q : exists q, gens RS k n = Ok q) by (destruct k; unfold gens; [rewrite gc1_real|rewrite gc2_real]; eauto).
  destruct Q as (q & Hq). destruct (cheb_close k m d n qf q A d1 ltac:(lia) Hf Hq) as (_ & _ & C).
  destruct (Nat.eq_dec n 0) as [->|N0].
  { destruct k; unfold gens in *; [rewrite gc1_closed in Hf|rewrite gc2_closed in Hf]; apply ok_eq in Hf; subst qf;
      (repeat split; [intros [|i]; discriminate|destruct H|destruct H|intros w []]). }
  assert (Pn : 1 <= INR n) by (apply (le_INR 1); lia).
  assert (Bn : INR n <= 2 ^ 20) by (rewrite INR_IZR_INZ, pow_IZR; apply IZR_le; exact Hn).
  pose proof PI_RGT_0. assert (P3 : 3 < PI) by (pose proof pi_coarse; lra).
  set (h := PI / (2 * INR n)). assert (h0 : 0 < h) by (apply Rdiv_lt_0_compat; lra).
  assert (h1 : 3 / 2 / 2 ^ 20 <= h).
  { unfold h. replace (PI / (2 * INR n)) with (PI / 2 * / INR n) by (field; lra). unfold Rdiv at 1.
    apply Rmult_le_compat; try lra. apply Rinv_le_contravar; lra. }
  assert (h2 : (3 / 2 / 2 ^ 20) * (3 / 2 / 2 ^ 20) <= h * h) by (apply Rmult_le_compat; lra).
  assert (T1 : d + 23 * u < h * h / 8) by (unfold u in *; lra).
  assert (T2 : 0 <= 2 * d + 56 * u < h * h / 4) by (unfold u in *; lra).
  destruct k; unfold gens in Hq.
  - rewrite gc1_real in Hq. injection Hq as <-.
    eapply (close_good n h (PI / INR n) (th1 n)); eauto; [apply Rdiv_lt_0_compat; lra| |].
    + intros j Hj. unfold th1, h. assert (0 <= INR (n - 1 - j) <= INR n - 1).
      { split; [apply pos_INR|]. change 1 with (INR 1). rewrite <- minus_INR by lia. apply le_INR. lia. }
      set (c := INR (n - 1 - j)) in *.
      replace ((2 * c + 1) * PI / (2 * INR n)) with ((2 * c + 1) * h) by (unfold h; field; lra).
      replace (PI - PI / (2 * INR n)) with ((2 * (INR n - 1) + 1) * h) by (unfold h; field; lra). fold h. split; nra.
    + intros i j Hij. unfold th1, h. assert (INR (n - 1 - j) + 1 <= INR (n - 1 - i)) by (rewrite <- S_INR; apply le_INR; lia).
      set (c := INR (n - 1 - j)) in *. set (e := INR (n - 1 - i)) in *.
      replace ((2 * c + 1) * PI / (2 * INR n)) with ((2 * c + 1) * h) by (unfold h; field; lra).
      replace ((2 * e + 1) * PI / (2 * INR n)) with ((2 * e + 1) * h) by (unfold h; field; lra). fold h. nra.
  - rewrite gc2_real in Hq. injection Hq as <-. assert (Pn1 : INR (n + 1) = INR n + 1) by (rewrite plus_INR; reflexivity).
    set (g := PI / INR (n + 1)). assert (g0 : h <= g).
    { unfold g, h. rewrite Pn1. unfold Rdiv. apply Rmult_le_compat_l; [lra|]. apply Rinv_le_contravar; lra. }
    eapply (close_good n h (PI / INR (n + 1)) (th2 n)); eauto; [apply Rdiv_lt_0_compat; lra| |].
    + intros j Hj. unfold th2. assert (1 <= INR (n - j) <= INR n) by (split; [apply (le_INR 1); lia|apply le_INR; lia]).
      set (c := INR (n - j)) in *.
      replace (c * PI / INR (n + 1)) with (c * g) by (unfold g; field; lra).
      assert (EE : PI = (INR n + 1) * g) by (unfold g; rewrite Pn1; field; lra). split; [nra|]. rewrite EE. nra.
    + intros i j Hij. unfold th2. assert (INR (n - j) + 1 <= INR (n - i)) by (rewrite <- S_INR; apply le_INR; lia).
      set (c := INR (n - j)) in *. set (e := INR (n - i)) in *.
      replace (c * PI / INR (n + 1)) with (c * g) by (unfold g; field; lra).
      replace (e * PI / INR (n + 1)) with (e * g) by (unfold g; field; lra). nra.
Qed.

(** A correctly rounded library. *)
Definition round64 (x : R) : F64 :=
  f_of (ZnearestE (scaled_mantissa radix2 (FLT_exp (-1074) 53) x)) (cexp radix2 (FLT_exp (-1074) 53) x).
Lemma round64_ok : forall x, Rabs x <= 1 -> is_finite (round64 x) = true /\ B2R (round64 x) = rnd x /\ Rabs (rnd x) <= 1 /\
  Rabs (rnd x - x) <= / 2 ^ 54.
Proof.
  intros x H. assert (O : rnd 1 = 1) by (destruct (f_of_small 1 ltac:(lia)) as [_ O]; rewrite <- O; apply rnd_B2R).
  assert (B : Rabs (rnd x) <= 1).
  { apply abs_of in H. apply Rabs_le. split.
    - replace (- (1)) with (rnd (-1)); [apply rnd_mono; lra|]. replace (- (1)) with (-1) by lra. destruct (f_of_small (-1) ltac:(lia)) as [_ O']. rewrite <- O'. apply rnd_B2R.
    - rewrite <- O. apply rnd_mono. lra. }
  assert (E : Rabs (rnd x - x) <= / 2 ^ 54).
  { destruct (Req_dec (Rabs x) 1) as [E1|E1].
    - replace (rnd x) with x; [rewrite Rminus_diag_eq, Rabs_R0 by auto; left; apply Rinv_0_lt_compat, pow_lt; lra|].
      symmetry. destruct (Rcase_abs x) as [N|N]; [rewrite Rabs_left in E1 by auto|rewrite Rabs_right in E1 by auto].
      + replace x with (-1) by lra. destruct (f_of_small (-1) ltac:(lia)) as [_ O']. rewrite <- O'. apply rnd_B2R.
      + replace x with 1 by lra. exact O.
    - unfold rnd. eapply Rle_trans; [apply error_le_half_ulp; apply FLT_exp_valid; exact Hprec|].
      destruct (Req_dec x 0) as [->|X0].
      + rewrite ulp_FLT_0 by exact Hprec. replace (/ 2) with (bpow radix2 (-1)) by reflexivity. rewrite <- bpow_plus.
        replace (/ 2 ^ 54) with (bpow radix2 (-54)); [apply bpow_le; lia|].
        change (bpow radix2 (-54)) with (/ IZR (2 ^ 54)). f_equal. rewrite pow_IZR. reflexivity.
      + rewrite ulp_neq_0 by auto. replace (/ 2) with (bpow radix2 (-1)) by reflexivity. rewrite <- bpow_plus.
        replace (/ 2 ^ 54) with (bpow radix2 (-54)).
        2: change (bpow radix2 (-54)) with (/ IZR (2 ^ 54)); f_equal; rewrite pow_IZR; reflexivity.
        apply bpow_le. unfold cexp, FLT_exp.
        assert (G : (mag radix2 x <= 0)%Z) by (apply mag_le_bpow; auto; simpl (bpow radix2 0); lra). lia. }
  split; [|split; [|split]]; auto.
  all: unfold round64, f_of;
    pose proof (binary_normalize_correct 53 1024 Hprec Hmax mode_NE (ZnearestE (scaled_mantissa radix2 (FLT_exp (-1074) 53) x))
       (cexp radix2 (FLT_exp (-1074) 53) x) false) as C; cbv zeta in C;
    change (F2R (Float radix2 (ZnearestE (scaled_mantissa radix2 (FLT_exp (-1074) 53) x)) (cexp radix2 (FLT_exp (-1074) 53) x))) with (rnd x) in C;
    change (round radix2 (SpecFloat.fexp 53 1024) (round_mode mode_NE) (rnd x)) with (rnd (rnd x)) in C;
    assert (RR : rnd (rnd x) = rnd x) by (unfold rnd; apply round_generic; [apply valid_rnd_N|apply generic_format_round; [apply FLT_exp_valid; exact Hprec|apply valid_rnd_N]]);
    rewrite RR in C; rewrite Rlt_bool_true in C by (eapply Rle_lt_trans; [exact B|]; change 1 with (bpow radix2 0); apply bpow_lt; lia);
    destruct C as (C1 & C2 & _); auto.
Qed.
Definition rounded_libm : libm := mkLibm (fun x => round64 (cos (B2R x))) (fun x => round64 (sin (B2R x)))
  (fun x => round64 (ln (B2R x))) (fun x y => round64 (Rpower (B2R x) (B2R y))).
Lemma rounded_accurate : accurate rounded_libm (/ 2 ^ 54).
Proof.
  intros x F H. unfold rounded_libm, m_cos, m_sin.
  destruct (round64_ok (cos (B2R x))) as (A1 & A2 & A3 & A4); [apply Rabs_le; apply COS_bound|].
  destruct (round64_ok (sin (B2R x))) as (B1 & B2' & B3 & B4); [apply Rabs_le; apply SIN_bound|].
  rewrite A2, B2'. auto.
Qed.

(** At 2^30 - 1 nodes the first node of the rule of second kind is -1 and its weight 0. *)
Lemma pred_one : forall v : F64, Rabs (B2R v) <= 1 -> 1 - / 2 ^ 53 < - B2R v -> B2R v = -1.
Proof.
  intros v H K. apply abs_of in H. destruct (Req_dec (- B2R v) 1) as [E|E]; [lra|exfalso].
  assert (G : generic_format radix2 (FLT_exp (-1074) 53) (- B2R v)) by (apply generic_format_opp; apply (generic_format_B2R 53 1024 v)).
  assert (G1 : generic_format radix2 (FLT_exp (-1074) 53) (bpow radix2 0)) by (apply generic_format_FLT_bpow; [exact Hprec|lia]).
  assert (L : - B2R v <= pred radix2 (FLT_exp (-1074) 53) (bpow radix2 0)).
  { apply pred_ge_gt; auto. apply FLT_exp_valid; exact Hprec. simpl (bpow radix2 0). lra. }
  rewrite pred_bpow in L. change (FLT_exp (-1074) 53 0) with (-53)%Z in L. change (bpow radix2 0) with 1 in L.
  replace (bpow radix2 (-53)) with (/ 2 ^ 53) in L; [lra|].
  change (bpow radix2 (-53)) with (/ IZR (2 ^ 53)). f_equal. rewrite pow_IZR. reflexivity.
Qed.
Lemma big_nat : exists n, Z.of_nat n = (2 ^ 30 - 1)%Z.
Proof. exists (Z.to_nat (2 ^ 30 - 1)). apply Z2Nat.id. lia. Qed.
Lemma zero_weight : forall m d, accurate m d -> d <= / 2 ^ 54 -> exists n qf (x w : F64),
  @gc2_generate (FS m) n = Ok qf /\ nth_error (fst qf) 0 = Some x /\ nth_error (snd qf) 0 = Some w /\ B2R x = -1 /\ B2R w = 0.
Proof.
  intros m d A Hd. destruct big_nat as (n & Hn).
  assert (N2 : (0 < n / 2)%nat) by (apply Nat.div_str_pos; lia).
  exists n. rewrite gc2_closed. eexists. exists (@gc2_x (FS m) n 0), (@gc2_w (FS m) n 0). split; [reflexivity|]. cbn [fst snd].
  rewrite !nth_error_tab by lia. unfold mirror. rewrite (proj2 (Nat.ltb_lt 0 (n / 2)) N2).
  assert (X : is_finite (@gc2_x (FS m) n 0 : F64) = true /\ B2R (@gc2_x (FS m) n 0 : F64) = -1).
  { destruct (gc2_angle n 0 ltac:(lia) ltac:(lia)) as (F & dd & Hdd & E).
    set (t := fmul (f_of (Z.of_nat (n - 0)) 0) (fdiv fpi (f_of (Z.of_nat (n + 1)) 0))) in *.
    change (@gc2_x (FS m) n 0) with (m_cos m t).
    assert (T : th2 n 0 = PI - PI / 2 ^ 30).
    { unfold th2. rewrite Nat.sub_0_r, plus_INR. simpl (INR 1). rewrite INR_IZR_INZ, Hn. change (2 ^ 30 - 1)%Z with 1073741823%Z.
      replace (2 ^ 30) with 1073741824 by (simpl; lra). field. }
    assert (P : 3 < PI <= 3.15) by (pose proof pi_coarse; lra).
    assert (Td : Rabs (PI - B2R t) <= / 2 ^ 28).
    { rewrite E, T. replace (PI - (PI - PI / 2 ^ 30) * (1 + dd)) with (PI / 2 ^ 30 - (PI - PI / 2 ^ 30) * dd) by ring.
      unfold u in Hdd. apply abs_of in Hdd. set (a := PI / 2 ^ 30). assert (0 < a < 3.2 / 2 ^ 30) by (unfold a; lra).
      assert (- (4 * (7 * / 2 ^ 53)) <= (PI - a) * dd <= 4 * (7 * / 2 ^ 53)) by (split; nra).
      apply Rabs_le. lra. }
    destruct (A t F) as ((F1 & B1 & C1) & _).
    { rewrite E. apply abs_of in Td. rewrite E in Td. lra. }
    split; [exact F1|]. apply pred_one; auto.
    assert (Q : - cos (B2R t) >= 1 - / 2 ^ 56).
    { rewrite cos_reflect. replace (PI - B2R t) with (2 * ((PI - B2R t) / 2)) by field. rewrite cos_2a_sin.
      pose proof (sin_lip ((PI - B2R t) / 2) 0) as S. rewrite sin_0, !Rminus_0_r in S.
      set (z := (PI - B2R t) / 2) in *. assert (Rabs z <= / 2 ^ 29).
      { unfold z. unfold Rdiv. rewrite Rabs_mult, (Rabs_pos_eq (/ 2)) by lra. lra. }
      assert (SS : sin z * sin z <= / 2 ^ 29 * / 2 ^ 29).
      { rewrite <- (Rabs_pos_eq (sin z * sin z)) by nra. rewrite Rabs_mult. apply Rmult_le_compat; try apply Rabs_pos; lra. }
      lra. }
    apply abs_of in C1. lra. }
  destruct X as (FX & EX). repeat split; auto.
  unfold gc2_w. set (xx := @gc2_x (FS m) n 0) in *.
  assert (F1 : is_finite (fmul xx xx) = true).
  { apply finite_mul; auto. rewrite EX. replace (-1 * -1) with 1 by ring. rewrite Rabs_R1. apply pow_R1_Rle. lra. }
  destruct (f_of_small 1 ltac:(lia)) as [FO O]. assert (O1 : rnd 1 = 1) by (rewrite <- O; apply rnd_B2R).
  destruct (fmul_R _ _ F1) as (_ & _ & E1). rewrite EX in E1. replace (-1 * -1) with 1 in E1 by ring. rewrite O1 in E1.
  destruct (finite_sub (f_of 1 0) (fmul xx xx) FO F1) as (F2 & E2).
  { rewrite O, E1, Rminus_diag_eq, Rabs_R0 by auto. apply pow_le. lra. }
  rewrite O, E1, Rminus_diag_eq, rnd_0 in E2 by auto.
  destruct (sqrt_correct _ F2) as (F3 & E3); [rewrite E2; lra|]. rewrite E2, sqrt_0, rnd_0 in E3.
  destruct (step_rel (n + 1) ltac:(lia) ltac:(lia)) as ((Fp & _) & _).
  set (pp := fdiv fpi (f_of (Z.of_nat (n + 1)) 0)) in *.
  change (B2R (fmul pp (fsqrt (fsub (f_of 1 0) (fmul xx xx)))) = 0).
  assert (F4 : is_finite (fmul pp (fsqrt (fsub (f_of 1 0) (fmul xx xx)))) = true).
  { apply finite_mul; auto. rewrite E3, Rmult_0_r, Rabs_R0. apply pow_le. lra. }
  destruct (fmul_R _ _ F4) as (_ & _ & E4). rewrite E3, Rmult_0_r, rnd_0 in E4. exact E4.
Qed.
