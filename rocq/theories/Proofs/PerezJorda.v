(** The modified second-kind rule as a trapezoid rule; convergence of the second-kind rules. *)
From Coq Require Import List Bool Arith ZArith Lia Reals Lra Psatz.
From Coquelicot Require Import Coquelicot.
From Verif Require Import Base.Outcome Base.Scalar Base.RScalar Model.Primitive
  Spec.Sums Spec.RealRules Proofs.Tab Proofs.SumFacts Proofs.PrimitiveFacts Proofs.TrigSums
  Proofs.ChebReal Proofs.ChebInt Proofs.ChebExact Proofs.TrapReal.
Import ListNotations.
Local Open Scope R_scope.

Definition pjd (t : R) : R := 16 / (3 * PI) * sin t ^ 4.

Lemma PI_ne : PI <> 0.
Proof. apply Rgt_not_eq, PI_RGT_0. Qed.

Lemma pj_derive : forall t, is_derive perez_jorda t (- pjd t).
Proof.
  intro t. unfold perez_jorda, pjd. auto_derive; auto.
  assert (E : cos t * cos t = 1 - sin t * sin t) by (pose proof (sin2_cos2 t) as E; unfold Rsqr in E; lra).
  pose proof PI_ne as P.
  transitivity (- (2 / PI) + 2 / PI * (4 / 3 * (sin t * sin t) * (cos t * cos t)
     + (1 + 2 / 3 * (sin t * sin t)) * (cos t * cos t) - (1 + 2 / 3 * (sin t * sin t)) * (sin t * sin t))).
  - field. auto.
  - rewrite E. field. auto.
Qed.

Lemma pj_0 : perez_jorda 0 = 1.
Proof. unfold perez_jorda. rewrite sin_0. field. apply PI_ne. Qed.

Lemma pj_PI : perez_jorda PI = -1.
Proof. unfold perez_jorda. rewrite sin_PI. field. apply PI_ne. Qed.

Lemma pj_reflect : forall t, perez_jorda (PI - t) = - perez_jorda t.
Proof.
  intro t. unfold perez_jorda. rewrite sin_PI_x, <- cos_reflect. field. apply PI_ne.
Qed.

Lemma pjd_pos : forall t, 0 < t < PI -> 0 < pjd t.
Proof.
  intros t H. unfold pjd. assert (0 < sin t) by (apply sin_gt_0; lra). pose proof PI_RGT_0.
  apply Rmult_lt_0_compat; [apply Rdiv_lt_0_compat; lra|]. apply pow_lt; auto.
Qed.

Lemma pj_decr : forall s t, 0 <= s -> s < t -> t <= PI -> perez_jorda t < perez_jorda s.
Proof.
  intros s t Hs Hst Ht.
  destruct (MVT_cor2 perez_jorda (fun t => - pjd t) s t Hst) as (c & E & Hc).
  { intros c _. apply is_derive_Reals. apply pj_derive. }
  assert (0 < pjd c) by (apply pjd_pos; lra). nra.
Qed.

Lemma pj_range : forall t, 0 < t < PI -> -1 < perez_jorda t < 1.
Proof.
  intros t H. split; [rewrite <- pj_PI|rewrite <- pj_0]; apply pj_decr; lra.
Qed.

Lemma pj_range_le : forall t, 0 <= t <= PI -> -1 <= perez_jorda t <= 1.
Proof.
  intros t [[H0| <-] [HP| ->]].
  - pose proof (pj_range t). lra.
  - rewrite pj_PI. lra.
  - rewrite pj_0. lra.
  - rewrite pj_PI. lra.
Qed.

Lemma two_pi_R : @s2pi RS = 2 / PI.
Proof. reflexivity. Qed.

Lemma sZ_R : forall z, @sofZ RS z = IZR z.
Proof. reflexivity. Qed.

Lemma gc2m_real : forall n, @gc2m_generate RS n =
  Ok (tab n (fun j => perez_jorda (th2 n j)), tab n (fun j => PI / INR (n + 1) * pjd (th2 n j))).
Proof.
  intro n. rewrite gc2m_closed. f_equal. pose proof PI_ne as PN.
  assert (Pn : INR (n + 1) <> 0) by (apply Rgt_not_eq, INR_pos; lia).
  assert (X : forall j, (j < n)%nat -> @gc2m_x RS n j = perez_jorda (th2 n j)).
  { intros j Hj. unfold gc2m_x. rewrite !sofN_R.
    transitivity (1 - 2 * INR (n - j) * (1 / INR (n + 1)) +
      2 / PI * (1 + 2 / 3 * (sin (INR (n - j) * PI * (1 / INR (n + 1))) * sin (INR (n - j) * PI * (1 / INR (n + 1)))))
       * cos (INR (n - j) * PI * (1 / INR (n + 1))) * sin (INR (n - j) * PI * (1 / INR (n + 1)))); [reflexivity|].
    replace (INR (n - j) * PI * (1 / INR (n + 1))) with (th2 n j) by (unfold th2; field; auto).
    replace (2 * INR (n - j) * (1 / INR (n + 1))) with (2 * th2 n j / PI) by (unfold th2; field; auto).
    unfold perez_jorda. rs_eq. ring. }
  assert (W : forall j, (j < n)%nat -> @gc2m_w RS n j = PI / INR (n + 1) * pjd (th2 n j)).
  { intros j Hj. unfold gc2m_w. rewrite !sofN_R.
    transitivity (16 / 3 / (INR n + 1) * (sin (INR (n - j) * PI * (1 / INR (n + 1))) * sin (INR (n - j) * PI * (1 / INR (n + 1))))
       * (sin (INR (n - j) * PI * (1 / INR (n + 1))) * sin (INR (n - j) * PI * (1 / INR (n + 1))))); [reflexivity|].
    replace (INR (n - j) * PI * (1 / INR (n + 1))) with (th2 n j) by (unfold th2; field; auto).
    unfold pjd. rewrite plus_INR in *. simpl (INR 1) in *. rs_eq. field. auto. }
  f_equal; apply tab_ext; intros j Hj;
    [refine (mirror_eq n _ _ (fun j => perez_jorda (th2 n j)) _ _ _ _ j Hj)
    |refine (mirror_eq n _ _ (fun j => PI / INR (n + 1) * pjd (th2 n j)) _ _ _ _ j Hj)].
  - intros i Hi. pose proof (half_lt n i Hi). apply X; lia.
  - intros i Hi. pose proof (half_lt n i Hi). rewrite X by lia.
    rewrite (th2_mirror n i (n - 1 - i)) by lia. rewrite pj_reflect. reflexivity.
  - intros k Hk. pose proof (th2_mirror n k k ltac:(lia)).
    replace (th2 n k) with (PI / 2) by lra. unfold perez_jorda. rewrite cos_PI2.
    transitivity 0; [reflexivity|]. rs_eq. field. auto.
  - intros i Hi. pose proof (half_lt n i Hi). apply W; lia.
  - intros i Hi. pose proof (half_lt n i Hi). rewrite W by lia.
    rewrite (th2_mirror n i (n - 1 - i)) by lia. unfold pjd. rewrite sin_PI_x. reflexivity.
  - intros k Hk. pose proof (th2_mirror n k k ltac:(lia)).
    replace (th2 n k) with (PI / 2) by lra. unfold pjd. rewrite sin_PI2, sofN_R.
    transitivity (16 / 3 / (INR n + 1)); [reflexivity|].
    rewrite plus_INR in *. simpl (INR 1) in *. rs_eq. field. auto.
Qed.

Lemma gc2m_good : forall n q, @gc2m_generate RS n = Ok q -> good_rule n (-1) 1 q /\ symmetric_rule q.
Proof.
  intros n q H. rewrite gc2m_real in H. injection H as <-. split.
  - apply good_tab.
    + intros j Hj. apply pj_range, th2_range; auto.
    + intros j Hj. apply Rmult_lt_0_compat.
      * apply Rdiv_lt_0_compat; [apply PI_RGT_0|]. apply INR_pos; lia.
      * apply pjd_pos, th2_range; auto.
    + intros i j Hij. pose proof (th2_range n i ltac:(lia)). pose proof (th2_range n j ltac:(lia)).
      apply pj_decr; try lra. apply th2_decr; auto.
  - apply symmetric_tab. intros i j Hij. rewrite (th2_mirror n i j) by auto.
    rewrite pj_reflect. unfold pjd. rewrite sin_PI_x. auto.
Qed.

(** A rule over the angles th2 is the trapezoid rule on [0,PI] of an integrand vanishing at the ends. *)
Lemma th2_trapezoid : forall n u g, @uniform_generate RS (n + 2) 0 PI = Ok u -> g 0 = 0 -> g PI = 0 ->
  Rsum (tab n (fun j => PI / INR (n + 1) * g (th2 n j))) = apply_rule u g.
Proof.
  intros n u g H G0 GP. replace (n + 2)%nat with (S (n + 1)) in H by lia.
  rewrite uniform_real in H by lia. injection H as <-. rewrite rule_tab.
  rewrite Rsum_tab_S. replace (n + 1)%nat with (S n) at 1 by lia. rewrite tab_S_l.
  change (Rsum (?a :: ?l)) with (a + Rsum l).
  rewrite ux_first, ux_last, G0, GP by lia.
  rewrite (Rsum_tab_ext n (fun i => uw (n + 1) 0 PI (S i) * g (ux (n + 1) 0 PI (S i)))
    (fun i => (fun k => PI / INR (n + 1) * g (INR (k + 1) * PI / INR (n + 1))) i)).
  2:{ intros i Hi. unfold uw, ux. destruct (Nat.eqb_spec (S i) 0); [lia|]. destruct (Nat.eqb_spec (S i) (n + 1)); [lia|].
      cbn [orb]. rewrite Rminus_0_r, Rplus_0_l. replace (i + 1)%nat with (S i) by lia. f_equal. f_equal. unfold Rdiv. ring. }
  rewrite <- (Rsum_tab_rev n (fun k => PI / INR (n + 1) * g (INR (k + 1) * PI / INR (n + 1)))).
  unfold Rsum at 2. cbn [fold_right]. rewrite !Rmult_0_r, Rplus_0_r, Rplus_0_l.
  apply Rsum_tab_ext. intros j Hj. unfold th2. replace (n - 1 - j + 1)%nat with (n - j)%nat by lia. reflexivity.
Qed.

Lemma gc2m_trapezoid : forall n q u f, @gc2m_generate RS n = Ok q -> @uniform_generate RS (n + 2) 0 PI = Ok u ->
  apply_rule q f = apply_rule u (fun t => f (perez_jorda t) * pjd t).
Proof.
  intros n q u f H U. rewrite gc2m_real in H. injection H as <-. rewrite rule_tab.
  rewrite <- (th2_trapezoid n u _ U).
  - apply Rsum_tab_ext. intros. ring.
  - unfold pjd. rewrite sin_0. ring.
  - unfold pjd. rewrite sin_PI. ring.
Qed.

Lemma gc2_trapezoid : forall n q u f, @gc2_generate RS n = Ok q -> @uniform_generate RS (n + 2) 0 PI = Ok u ->
  apply_rule q f = apply_rule u (fun t => f (cos t) * sin t).
Proof.
  intros n q u f H U. rewrite gc2_real in H. injection H as <-. rewrite rule_tab.
  rewrite <- (th2_trapezoid n u _ U).
  - apply Rsum_tab_ext. intros. ring.
  - rewrite sin_0. ring.
  - rewrite sin_PI. ring.
Qed.

(** Substitution in the integral. *)
Lemma subst_integral : forall f (k dk : R -> R), k 0 = 1 -> k PI = -1 ->
  (forall t, is_derive k t (- dk t)) -> (forall t, continuous dk t) ->
  (forall t, 0 <= t <= PI -> -1 <= k t <= 1) ->
  (forall x, -1 <= x <= 1 -> continuous f x) ->
  is_RInt (fun t => f (k t) * dk t) 0 PI (RInt f (-1) 1).
Proof.
  intros f k dk K0 KP D C Rg Cf. pose proof PI_RGT_0.
  pose proof (is_RInt_comp f k (fun t => - dk t) PI 0) as I. rewrite K0, KP in I.
  assert (J : is_RInt (fun t => scal (- dk t) (f (k t))) PI 0 (RInt f (-1) 1)).
  { apply I.
    - intros t Ht. rewrite Rmin_right, Rmax_left in Ht by lra. apply Cf, Rg; lra.
    - intros t Ht. split; auto. apply (continuous_opp (V := R_NormedModule)). auto. }
  apply (is_RInt_opp (V := R_NormedModule)) in J. apply (is_RInt_swap (V := R_NormedModule)) in J.
  unfold opp in J; simpl in J. rewrite Ropp_involutive in J.
  eapply is_RInt_ext; [|exact J]. intros t _. unfold scal; simpl. unfold mult; simpl. rs_eq. ring.
Qed.

Lemma angle_converges : forall (gen : nat -> outcome (list R * list R)) f (k dk : R -> R),
  (forall n q u, gen n = Ok q -> @uniform_generate RS (n + 2) 0 PI = Ok u ->
     apply_rule q f = apply_rule u (fun t => f (k t) * dk t)) ->
  k 0 = 1 -> k PI = -1 ->
  (forall t, is_derive k t (- dk t)) -> (forall t, continuous dk t) ->
  (forall t, 0 <= t <= PI -> -1 <= k t <= 1) ->
  (forall x, -1 <= x <= 1 -> continuous f x) ->
  rules_converge (fun n q => gen n = Ok q) f (RInt f (-1) 1).
Proof.
  intros gen f k dk T K0 KP D C Rg Cf eps He.
  destruct (uniform_converges 0 PI (fun t => f (k t) * dk t) PI_RGT_0) with (eps := eps) as (N & HN); auto.
  { intros t Ht. apply (continuous_mult (K := R_AbsRing)); auto.
    apply (continuous_comp k f); [|apply Cf, Rg; auto].
    apply (ex_derive_continuous (K := R_AbsRing) (V := R_NormedModule)). exists (- dk t). auto. }
  exists N. intros n q Hn H.
  assert (U : @uniform_generate RS (n + 2) 0 PI = Ok (tab (n + 2) (ux (n + 1) 0 PI), tab (n + 2) (uw (n + 1) 0 PI))).
  { replace (n + 2)%nat with (S (n + 1)) by lia. apply uniform_real. lia. }
  rewrite (T n q _ H U). specialize (HN (n + 2)%nat _ ltac:(lia) U).
  pose proof (RI_unique _ _ _ _ (subst_integral f k dk K0 KP D C Rg Cf)) as E.
  change (RInt (fun t => f (k t) * dk t) 0 PI = RInt f (-1) 1 :> R) in E.
  eapply Rle_lt_trans; [|exact HN]. apply Req_le. f_equal. f_equal. symmetry. exact E.
Qed.

Lemma gc2m_converges : forall f, (forall x, -1 <= x <= 1 -> continuous f x) ->
  rules_converge (fun n q => @gc2m_generate RS n = Ok q) f (RInt f (-1) 1).
Proof.
  intros f Cf. apply (angle_converges (@gc2m_generate RS) f perez_jorda pjd); auto.
  - intros n q u. apply gc2m_trapezoid.
  - apply pj_0.
  - apply pj_PI.
  - apply pj_derive.
  - intro t. apply (ex_derive_continuous (K := R_AbsRing) (V := R_NormedModule)). unfold pjd. auto_derive; auto.
  - apply pj_range_le.
Qed.

Lemma gc2_converges : forall f, (forall x, -1 <= x <= 1 -> continuous f x) ->
  rules_converge (fun n q => @gc2_generate RS n = Ok q) f (RInt f (-1) 1).
Proof.
  intros f Cf. apply (angle_converges (@gc2_generate RS) f cos sin); auto.
  - intros n q u. apply gc2_trapezoid.
  - apply cos_0.
  - apply cos_PI.
  - intro t. auto_derive; auto. ring.
  - apply continuous_sin.
  - intros. apply COS_bound.
Qed.

(** Constants and odd integrands. *)
Definition s4c (k : nat) : R :=
  match k with O => 3 / 8 | 2%nat => - / 2 | 4%nat => / 8 | _ => 0 end.

Lemma sin4 : forall t, sin t ^ 4 = cpoly 4 s4c t.
Proof.
  intro t. unfold cpoly, tab, Rsum, s4c. simpl.
  replace ((1 + 1 + 1 + 1) * t) with (2 * (2 * t)) by ring. replace ((1 + 1) * t) with (2 * t) by ring.
  rewrite Rmult_0_l, cos_0. rewrite (cos_2a_cos (2 * t)), (cos_2a_sin t). field.
Qed.

Lemma gc2m_const : forall n q c, (2 <= n)%nat -> @gc2m_generate RS n = Ok q -> apply_rule q (fun _ => c) = 2 * c.
Proof.
  intros n q c Hn H. rewrite gc2m_real in H. injection H as <-. rewrite rule_tab.
  assert (Pn : INR (n + 1) <> 0) by (apply Rgt_not_eq, INR_pos; lia). pose proof PI_ne.
  rewrite (Rsum_tab_ext n _ (fun j => c * (16 / 3) / INR (n + 1) * cpoly 4 s4c (th2 n j))).
  2:{ intros j Hj. unfold pjd. rewrite sin4. field. auto. }
  rewrite Rsum_tab_mult_l.
  rewrite (Rsum_tab_ext n _ (fun j => (fun i => cpoly 4 s4c (INR (i + 1) * PI / INR (n + 1))) (n - 1 - j)%nat)).
  2:{ intros j Hj. cbv beta. unfold th2. do 4 f_equal. lia. }
  rewrite (Rsum_tab_rev n (fun i => cpoly 4 s4c (INR (i + 1) * PI / INR (n + 1)))).
  pose proof (trap_rule 4 (n + 1) s4c ltac:(lia) ltac:(lia)) as T.
  replace (n + 1 - 1)%nat with n in T by lia. rewrite T.
  rewrite <- !sin4, sin_0, sin_PI. unfold s4c. field. auto.
Qed.

Lemma symmetric_odd : forall n (x w : nat -> R) f, symmetric_rule (tab n x, tab n w) ->
  (forall y, f (- y) = - f y) -> apply_rule (tab n x, tab n w) f = 0.
Proof.
  intros n x w f Hs Hf. rewrite rule_tab.
  pose proof (Rsum_tab_rev n (fun i => w i * f (x i))) as R.
  rewrite (Rsum_tab_ext n _ (fun i => -1 * (w i * f (x i)))) in R.
  - rewrite Rsum_tab_mult_l in R. lra.
  - intros i Hi.
    destruct (Hs i (n - 1 - i)%nat (x i) (x (n - 1 - i)%nat) (w i) (w (n - 1 - i)%nat)) as (E1 & E2);
      cbn [fst snd]; rewrite ?tab_length, ?nth_error_tab by lia; auto; try lia.
    rewrite E1, E2, Hf. ring.
Qed.

Lemma gc2m_odd : forall n q f, @gc2m_generate RS n = Ok q -> (forall y, f (- y) = - f y) -> apply_rule q f = 0.
Proof.
  intros n q f H Hf. pose proof (proj2 (gc2m_good n q H)) as S.
  rewrite gc2m_real in H. injection H as <-. apply symmetric_odd; auto.
Qed.

Lemma gc2m_one : exists q, @gc2m_generate RS 1 = Ok q /\ apply_rule q (fun _ => 1) = 8 / 3.
Proof.
  eexists. split; [apply gc2m_real|]. rewrite rule_tab. unfold tab, Rsum, pjd, th2. simpl.
  replace (1 * PI / (1 + 1)) with (PI / 2) by field. rewrite sin_PI2. field. apply PI_ne.
Qed.

(** Uniform rule with textbook panels, statement level. *)
Lemma uniform_textbook : forall n lo up q f, (2 <= n)%nat -> @uniform_generate RS n lo up = Ok q ->
  let h := (up - lo) / INR (n - 1) in
  apply_rule q f =
  Rsum (map (fun i => h * (f (lo + INR i * h) + f (lo + INR (i + 1) * h)) / 2) (seq 0 (n - 1))).
Proof.
  intros n lo up q f Hn H h. destruct n as [|m]; [lia|].
  rewrite (uniform_textbook_m m lo up q f ltac:(lia) H). unfold h.
  replace (S m - 1)%nat with m by lia. apply Rsum_tab_ext. intros i Hi. unfold ux.
  replace (i + 1)%nat with (S i) by lia. reflexivity.
Qed.

Lemma uniform_converge : forall lo up f, lo < up -> (forall x, lo <= x <= up -> continuous f x) ->
  rules_converge (fun n q => @uniform_generate RS n lo up = Ok q) f (RInt f lo up).
Proof. intros lo up f L C eps He. destruct (uniform_converges lo up f L C eps He) as (N & H). eauto. Qed.

Lemma gc2m_weights : forall n q, @gc2m_generate RS n = Ok q ->
  forall i x w, nth_error (fst q) i = Some x -> nth_error (snd q) i = Some w ->
    exists t d, t = INR (n - i) * PI / INR (n + 1) /\ 0 < t < PI /\ x = perez_jorda t /\
      is_derive perez_jorda t d /\ w = PI / INR (n + 1) * Rabs d.
Proof.
  intros n q H i x w Hx Hw. rewrite gc2m_real in H. injection H as <-. cbn [fst snd] in *.
  assert (Hi : (i < n)%nat).
  { rewrite <- (tab_length n (fun j => perez_jorda (th2 n j))). apply nth_error_Some. intro K.
    pose proof (eq_trans (eq_sym Hx) K). discriminate. }
  rewrite nth_error_tab in Hx, Hw by auto. injection Hx as <-. injection Hw as <-.
  exists (th2 n i), (- pjd (th2 n i)). pose proof (th2_range n i Hi).
  repeat split; try lra; try apply pj_derive.
  rewrite Rabs_Ropp, Rabs_pos_eq; auto. apply Rlt_le, pjd_pos. auto.
Qed.

Lemma gc2m_subst : forall f, (forall x, -1 <= x <= 1 -> continuous f x) ->
  is_RInt (fun t => f (perez_jorda t) * Rabs (Derive perez_jorda t)) 0 PI (RInt f (-1) 1).
Proof.
  intros f C. eapply is_RInt_ext.
  2:{ apply (subst_integral f perez_jorda pjd); auto.
      - apply pj_0.
      - apply pj_PI.
      - apply pj_derive.
      - intro t. apply (ex_derive_continuous (K := R_AbsRing) (V := R_NormedModule)). unfold pjd. auto_derive; auto.
      - apply pj_range_le. }
  intros t Ht. rewrite Rmin_left, Rmax_right in Ht by (pose proof PI_RGT_0; lra).
  cbv beta. rewrite (is_derive_unique _ _ _ (pj_derive t)), Rabs_Ropp, Rabs_pos_eq; auto.
  apply Rlt_le, pjd_pos; auto.
Qed.

Lemma gc2m_trap : forall n q u f, @gc2m_generate RS n = Ok q -> @uniform_generate RS (n + 2) 0 PI = Ok u ->
  apply_rule q f = apply_rule u (fun t => f (perez_jorda t) * Rabs (Derive perez_jorda t)).
Proof.
  intros n q u f H U. rewrite (gc2m_trapezoid n q u f H U). unfold apply_rule.
  apply wsum_ext. intros t Ht.
  replace (n + 2)%nat with (S (n + 1)) in U by lia. rewrite uniform_real in U by lia. injection U as <-.
  cbn [fst] in Ht. apply In_tab in Ht. destruct Ht as (i & Hi & ->).
  pose proof (ux_range (n + 1) 0 PI i ltac:(lia) ltac:(lia) PI_RGT_0).
  rewrite (is_derive_unique _ _ _ (pj_derive _)), Rabs_Ropp, Rabs_pos_eq; auto.
  unfold pjd. pose proof PI_RGT_0. apply Rmult_le_pos; [apply Rlt_le, Rdiv_lt_0_compat; lra|].
  apply pow_le, sin_ge_0; lra.
Qed.
