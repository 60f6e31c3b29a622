(** The uniform trapezoid rule over the reals. *)
From Coq Require Import List Bool Arith ZArith Lia Reals Lra Psatz.
From Coquelicot Require Import Coquelicot.
From Verif Require Import Base.Outcome Base.Scalar Base.RScalar Model.Primitive
  Spec.Sums Spec.RealRules Proofs.Tab Proofs.SumFacts Proofs.PrimitiveFacts
  Proofs.ChebReal Proofs.ChebInt Proofs.ChebExact.
Import ListNotations.
Local Open Scope R_scope.

Definition ux (m : nat) (lo up : R) (i : nat) : R := lo + INR i * ((up - lo) / INR m).
Definition uw (m : nat) (lo up : R) (i : nat) : R :=
  if (Nat.eqb i 0 || Nat.eqb i m)%bool then (up - lo) / INR m / 2 else (up - lo) / INR m.

Lemma sofN_R : forall n, @sofN RS n = INR n.
Proof. intro n. unfold sofN. apply IZR_INR. Qed.

Lemma half_R : @shalf RS = / 2.
Proof. unfold shalf. cbn [sdec]. transitivity (5 / IZR (10 ^ 1)); [reflexivity|]. rs_eq. simpl. field. Qed.

Lemma dx_R : forall m lo up, @uni_dx RS (S m) lo up = (up - lo) / INR m.
Proof.
  intros. unfold uni_dx. rewrite sofN_R. replace (S m - 1)%nat with m by lia. reflexivity.
Qed.

Lemma uniform_real : forall m lo up, (1 <= m)%nat ->
  @uniform_generate RS (S m) lo up = Ok (tab (S m) (ux m lo up), tab (S m) (uw m lo up)).
Proof.
  intros m lo up Hm. rewrite uniform_closed by lia. f_equal; f_equal.
  - apply tab_ext; intros j Hj. unfold uni_pt, ux. rewrite dx_R, sofN_R. reflexivity.
  - apply tab_ext; intros j Hj. unfold uni_wt, uw. rewrite dx_R, half_R.
    replace (S m - 1)%nat with m by lia.
    destruct (Nat.eqb_spec j 0); destruct (Nat.eqb_spec j m); cbn [orb]; subst; try lia; reflexivity.
Qed.

Section Panels.
Variables (m : nat) (h : R) (g : nat -> R).

Definition wg i := (if (Nat.eqb i 0 || Nat.eqb i m)%bool then h / 2 else h) * g i.

Lemma first_part : forall k, (k <= m)%nat -> (1 <= k)%nat ->
  Rsum (tab k wg) = Rsum (tab (k - 1) (fun i => h * (g i + g (S i)) / 2)) + h / 2 * g (k - 1)%nat.
Proof.
  induction k as [|k IH]; intros Hk H1; [lia|].
  destruct (Nat.eq_dec k 0) as [->|N].
  - rewrite Rsum_tab_S. cbn [tab seq map Rsum Nat.sub]. unfold wg. simpl. unfold Rsum; simpl. lra.
  - rewrite Rsum_tab_S, IH by lia. replace (S k - 1)%nat with (S (k - 1)) by lia.
    rewrite Rsum_tab_S. replace (S (k - 1)) with k by lia. unfold wg.
    destruct (Nat.eqb_spec k 0); destruct (Nat.eqb_spec k m); try lia. cbn [orb]. field.
Qed.

Lemma all_part : (1 <= m)%nat ->
  Rsum (tab (S m) wg) = Rsum (tab m (fun i => h * (g i + g (S i)) / 2)).
Proof.
  intro Hm. rewrite Rsum_tab_S, first_part by lia.
  destruct m as [|k] eqn:E; [lia|]. replace (S k - 1)%nat with k by lia.
  rewrite Rsum_tab_S. rewrite <- E. unfold wg. rewrite E.
  destruct (Nat.eqb_spec (S k) 0); [lia|]. rewrite Nat.eqb_refl. cbn [orb]. field.
Qed.
End Panels.

Lemma uniform_textbook_m : forall m lo up q f, (1 <= m)%nat -> @uniform_generate RS (S m) lo up = Ok q ->
  apply_rule q f = Rsum (tab m (fun i => (up - lo) / INR m * (f (ux m lo up i) + f (ux m lo up (S i))) / 2)).
Proof.
  intros m lo up q f Hm H. rewrite uniform_real in H by auto. injection H as <-.
  rewrite rule_tab. rewrite <- (all_part m ((up - lo) / INR m) (fun i => f (ux m lo up i)) Hm).
  reflexivity.
Qed.

Lemma ux_step : forall m lo up i, ux m lo up (S i) = ux m lo up i + (up - lo) / INR m.
Proof. intros. unfold ux. rewrite S_INR. ring. Qed.

Lemma ux_first : forall m lo up, ux m lo up 0 = lo.
Proof. intros. unfold ux. simpl. ring. Qed.

Lemma ux_last : forall m lo up, (1 <= m)%nat -> ux m lo up m = up.
Proof. intros. unfold ux. field. apply Rgt_not_eq, INR_pos. lia. Qed.

Lemma ux_range : forall m lo up i, (1 <= m)%nat -> (i <= m)%nat -> lo < up -> lo <= ux m lo up i <= up.
Proof.
  intros m lo up i Hm Hi L. pose proof (INR_pos m ltac:(lia)). apply le_INR in Hi. pose proof (pos_INR i).
  assert (0 < (up - lo) / INR m) by (apply Rdiv_lt_0_compat; lra).
  assert (ux m lo up i <= ux m lo up m) by (unfold ux; nra).
  rewrite ux_last in * by auto. split; auto. unfold ux. nra.
Qed.

(** Splitting the integral over the panels. *)
Lemma panels : forall m lo up f, (1 <= m)%nat -> lo < up -> (forall x, lo <= x <= up -> continuous f x) ->
  RInt f lo up = Rsum (tab m (fun i => RInt f (ux m lo up i) (ux m lo up (S i)))).
Proof.
  intros m lo up f Hm L C.
  assert (E : forall i j, (i <= m)%nat -> (j <= m)%nat -> ex_RInt f (ux m lo up i) (ux m lo up j)).
  { intros i j Hi Hj. apply (ex_RInt_continuous (V := R_CompleteNormedModule)). intros z Hz. apply C.
    pose proof (ux_range m lo up i Hm Hi L). pose proof (ux_range m lo up j Hm Hj L).
    revert Hz. unfold Rmin, Rmax. destruct (Rle_dec _ _); lra. }
  assert (K : forall k, (k <= m)%nat -> RInt f (ux m lo up 0) (ux m lo up k) =
    Rsum (tab k (fun i => RInt f (ux m lo up i) (ux m lo up (S i))))).
  { induction k as [|k IH]; intro Hk.
    - unfold tab; simpl. rewrite RInt_point. reflexivity.
    - rewrite Rsum_tab_S.
      transitivity (RInt f (ux m lo up 0) (ux m lo up k) + RInt f (ux m lo up k) (ux m lo up (S k))).
      + symmetry. apply (RInt_Chasles (V := R_CompleteNormedModule) f); apply E; lia.
      + apply Rplus_eq_compat_r. apply IH. lia. }
  specialize (K m (le_n m)). rewrite ux_first, ux_last in K by auto. exact K.
Qed.

Lemma Rsum_tab_abs_le : forall n f g B, (forall i, (i < n)%nat -> Rabs (f i - g i) <= B) ->
  Rabs (Rsum (tab n f) - Rsum (tab n g)) <= INR n * B.
Proof.
  induction n as [|n IH]; intros f g B H.
  - unfold tab; simpl. rewrite Rminus_diag_eq, Rabs_R0 by auto. lra.
  - rewrite !Rsum_tab_S, S_INR. specialize (IH f g B (fun i Hi => H i (Nat.lt_lt_succ_r _ _ Hi))).
    specialize (H n (Nat.lt_succ_diag_r n)).
    replace (Rsum (tab n f) + f n - (Rsum (tab n g) + g n)) with
      ((Rsum (tab n f) - Rsum (tab n g)) + (f n - g n)) by ring.
    eapply Rle_trans; [apply Rabs_triang|]. lra.
Qed.

Lemma uniform_error_from_panels : forall m lo up q f B, (1 <= m)%nat -> lo < up ->
  @uniform_generate RS (S m) lo up = Ok q -> (forall x, lo <= x <= up -> continuous f x) ->
  (forall x y, lo <= x -> y <= up -> y = x + (up - lo) / INR m ->
     Rabs ((up - lo) / INR m * (f x + f y) / 2 - RInt f x y) <= B) ->
  Rabs (apply_rule q f - RInt f lo up) <= INR m * B.
Proof.
  intros m lo up q f B Hm L H C P. rewrite (uniform_textbook_m m lo up q f Hm H), (panels m lo up f) by auto.
  apply Rsum_tab_abs_le. intros i Hi. apply P.
  - apply ux_range; auto; lia.
  - apply ux_range; auto; lia.
  - apply ux_step.
Qed.

(** Convergence. *)
Lemma panel_cont : forall f x y e, x < y -> (forall t, x <= t <= y -> continuous f t) ->
  (forall s t, x <= s <= y -> x <= t <= y -> Rabs (f s - f t) <= e) ->
  Rabs ((y - x) * (f x + f y) / 2 - RInt f x y) <= (y - x) * e.
Proof.
  intros f x y e L C O. set (c := (f x + f y) / 2).
  assert (E : ex_RInt f x y).
  { apply (ex_RInt_continuous (V := R_CompleteNormedModule)). intros z Hz.
    rewrite Rmin_left, Rmax_right in Hz by lra. auto. }
  assert (D : RInt (fun t => c - f t) x y = (y - x) * (f x + f y) / 2 - RInt f x y).
  { rewrite (RInt_minus (V := R_CompleteNormedModule) (fun _ => c) f).
    - rewrite RInt_const. unfold minus, plus, opp, scal; simpl. unfold mult; simpl. unfold c.
      match goal with |- @eq _ ?a ?b => change (@eq R a b) end. field.
    - apply ex_RInt_const.
    - auto. }
  rewrite <- D. apply (norm_RInt_le_const (V := R_NormedModule) (fun t => c - f t)); [lra| |].
  - intros t Ht. unfold norm; simpl. unfold abs; simpl. unfold c.
    replace ((f x + f y) / 2 - f t) with ((f x - f t) / 2 + (f y - f t) / 2) by field.
    eapply Rle_trans; [apply Rabs_triang|]. unfold Rdiv. rewrite !Rabs_mult, (Rabs_pos_eq (/ 2)) by lra.
    pose proof (O x t). pose proof (O y t). lra.
  - apply (RInt_correct (V := R_CompleteNormedModule)).
    apply (ex_RInt_minus (V := R_NormedModule) (fun _ => c) f); auto. apply ex_RInt_const.
Qed.

Lemma uniform_converges : forall lo up f, lo < up -> (forall x, lo <= x <= up -> continuous f x) ->
  forall eps, 0 < eps -> exists N, forall n q, (N <= n)%nat -> @uniform_generate RS n lo up = Ok q ->
    Rabs (apply_rule q f - RInt f lo up) < eps.
Proof.
  intros lo up f L C eps He.
  set (e := eps / (2 * (up - lo))). assert (0 < e) as Pe by (apply Rdiv_lt_0_compat; lra).
  destruct (unifcont_normed_1d f lo up C (mkposreal e Pe)) as (d & Hd).
  destruct (nfloor_ex ((up - lo) / d)) as (N & _ & HN).
  { apply Rlt_le, Rdiv_lt_0_compat; [lra|apply cond_pos]. }
  exists (N + 2)%nat. intros n q Hn H. destruct n as [|m]; [lia|].
  assert (Hm : (N + 1 <= m)%nat) by lia. pose proof (INR_pos m ltac:(lia)) as Pm.
  assert (Hh : (up - lo) / INR m < d).
  { apply le_INR in Hm. rewrite plus_INR in Hm. simpl (INR 1) in Hm.
    apply Rmult_lt_reg_r with (INR m); auto. unfold Rdiv. rewrite Rmult_assoc, Rinv_l, Rmult_1_r by lra.
    pose proof (cond_pos d). assert (up - lo = (up - lo) / d * d) by (field; lra). nra. }
  assert (Ph : 0 < (up - lo) / INR m) by (apply Rdiv_lt_0_compat; lra).
  eapply Rle_lt_trans.
  - apply (uniform_error_from_panels m lo up q f ((up - lo) / INR m * e)); auto; [lia|].
    intros x y Hx Hy E. replace ((up - lo) / INR m) with (y - x) by lra.
    apply panel_cont; [lra| |].
    + intros t Ht. apply C. lra.
    + intros s t Hs Ht. apply Rlt_le. apply (Hd t s); try lra.
      unfold ball; simpl. unfold AbsRing_ball, abs, minus, plus, opp; simpl.
      apply Rabs_def1; lra.
  - unfold e. replace (INR m * ((up - lo) / INR m * (eps / (2 * (up - lo))))) with (eps / 2) by (field; lra). lra.
Qed.

(** The O(h^2) error bound. *)
Lemma convex_le : forall (g g1 g2 : R -> R) x y, x < y ->
  (forall t, x <= t <= y -> is_derive g t (g1 t)) -> (forall t, x <= t <= y -> is_derive g1 t (g2 t)) ->
  (forall t, x <= t <= y -> 0 <= g2 t) -> g x <= 0 -> g y <= 0 ->
  forall t, x <= t <= y -> g t <= 0.
Proof.
  intros g g1 g2 x y L D1 D2 P Gx Gy t Ht.
  assert (M : forall (k k1 : R -> R) a b, x <= a -> a < b -> b <= y -> (forall t, x <= t <= y -> is_derive k t (k1 t)) ->
    exists c, a <= c <= b /\ k b - k a = k1 c * (b - a)).
  { intros k k1 a b Ha Hab Hb D. destruct (MVT_gen k a b k1) as (c & Hc & E).
    - intros z Hz. apply D. rewrite Rmin_left, Rmax_right in Hz by lra. lra.
    - intros z Hz. rewrite Rmin_left, Rmax_right in Hz by lra. apply derivable_continuous_pt.
      exists (k1 z). apply is_derive_Reals. apply D. lra.
    - rewrite Rmin_left, Rmax_right in Hc by lra. eauto. }
  destruct (Rle_dec (g t) 0) as [|Hn]; auto. exfalso.
  assert (x < t < y). { split; apply Rnot_le_lt; intro; [assert (t = x) by lra|assert (t = y) by lra]; subst t; lra. }
  destruct (M g g1 x t) as (c1 & Hc1 & E1); auto; try lra.
  destruct (M g g1 t y) as (c2 & Hc2 & E2); auto; try lra.
  assert (0 < g1 c1) by (apply Rnot_le_lt; intro; nra).
  assert (g1 c2 < 0) by (apply Rnot_le_lt; intro; nra).
  assert (c1 < c2). { destruct (Rle_lt_dec c2 c1); auto. assert (c1 = c2) by lra. subst. lra. }
  destruct (M g1 g2 c1 c2) as (c3 & Hc3 & E3); auto; try lra.
  assert (0 <= g2 c3) by (apply P; lra). nra.
Qed.

Lemma is_RInt_bump : forall M x y, is_RInt (fun t => M / 2 * ((t - x) * (y - t))) x y (M * (y - x) ^ 3 / 12).
Proof.
  intros M x y.
  replace (M * (y - x) ^ 3 / 12) with
    ((fun t => M / 2 * (- (t * t * t) / 3 + (x + y) * (t * t) / 2 - x * y * t)) y -
     (fun t => M / 2 * (- (t * t * t) / 3 + (x + y) * (t * t) / 2 - x * y * t)) x) by field.
  apply (is_RInt_derive (V := R_CompleteNormedModule)
    (fun t => M / 2 * (- (t * t * t) / 3 + (x + y) * (t * t) / 2 - x * y * t))).
  - intros t _. auto_derive; auto. field.
  - intros t _. apply (ex_derive_continuous (K := R_AbsRing) (V := R_NormedModule)). auto_derive; auto.
Qed.

Lemma is_RInt_affine : forall a b x y, is_RInt (fun t => a + b * t) x y ((y - x) * (a + b * x + (a + b * y)) / 2).
Proof.
  intros a b x y.
  replace ((y - x) * (a + b * x + (a + b * y)) / 2) with
    ((fun t => a * t + b * (t * t) / 2) y - (fun t => a * t + b * (t * t) / 2) x) by field.
  apply (is_RInt_derive (V := R_CompleteNormedModule) (fun t => a * t + b * (t * t) / 2)).
  - intros t _. auto_derive; auto. field.
  - intros t _. apply (ex_derive_continuous (K := R_AbsRing) (V := R_NormedModule)). auto_derive; auto.
Qed.

Lemma panel_C2 : forall (f f1 f2 : R -> R) x y M, x < y ->
  (forall t, x <= t <= y -> is_derive f t (f1 t)) -> (forall t, x <= t <= y -> is_derive f1 t (f2 t)) ->
  (forall t, x <= t <= y -> Rabs (f2 t) <= M) ->
  Rabs ((y - x) * (f x + f y) / 2 - RInt f x y) <= M * (y - x) ^ 3 / 12.
Proof.
  intros f f1 f2 x y M L D1 D2 B.
  set (b := (f y - f x) / (y - x)). set (a := f x - b * x).
  assert (Ea : a + b * x = f x) by (unfold a; ring).
  assert (Eb : a + b * y = f y) by (unfold a, b; field; lra).
  assert (U : forall t, x <= t <= y -> f t - (a + b * t) - M / 2 * ((t - x) * (y - t)) <= 0).
  { apply (convex_le _ (fun t => f1 t - b - M / 2 * (y + x - 2 * t)) (fun t => f2 t + M)); auto.
    - intros t Ht. auto_derive. exists (f1 t); auto. 
      assert (E : Derive (fun x0 => f x0) t = f1 t) by (apply is_derive_unique; auto). rewrite E. field.
    - intros t Ht. auto_derive. exists (f2 t); auto.
      assert (E : Derive (fun x0 => f1 x0) t = f2 t) by (apply is_derive_unique; auto). rewrite E. field.
    - intros t Ht. specialize (B t Ht). apply Rabs_le_between in B. lra.
    - rewrite Ea. lra.
    - rewrite Eb. lra. }
  assert (V : forall t, x <= t <= y -> (a + b * t) - f t - M / 2 * ((t - x) * (y - t)) <= 0).
  { apply (convex_le _ (fun t => b - f1 t - M / 2 * (y + x - 2 * t)) (fun t => M - f2 t)); auto.
    - intros t Ht. auto_derive. exists (f1 t); auto. 
      assert (E : Derive (fun x0 => f x0) t = f1 t) by (apply is_derive_unique; auto). rewrite E. field.
    - intros t Ht. auto_derive. exists (f2 t); auto.
      assert (E : Derive (fun x0 => f1 x0) t = f2 t) by (apply is_derive_unique; auto). rewrite E. field.
    - intros t Ht. specialize (B t Ht). apply Rabs_le_between in B. lra.
    - rewrite Ea. lra.
    - rewrite Eb. lra. }
  assert (E : ex_RInt f x y).
  { apply (ex_RInt_continuous (V := R_CompleteNormedModule)). intros z Hz.
    rewrite Rmin_left, Rmax_right in Hz by lra.
    apply (ex_derive_continuous (K := R_AbsRing) (V := R_NormedModule)). exists (f1 z). apply D1. lra. }
  apply (RInt_correct (V := R_CompleteNormedModule)) in E.
  pose proof (is_RInt_affine a b x y) as A. rewrite Ea, Eb in A.
  pose proof (is_RInt_bump M x y) as P.
  apply Rabs_le_between. split.
  - pose proof (is_RInt_le _ _ x y _ _ (Rlt_le _ _ L) E (is_RInt_plus (V := R_NormedModule) _ _ _ _ _ _ A P)) as K.
    simpl in K. unfold plus in K; simpl in K.
    assert (RInt f x y <= (y - x) * (f x + f y) / 2 + M * (y - x) ^ 3 / 12); [|simpl in *; lra].
    apply K. intros t Ht. specialize (U t). lra.
  - pose proof (is_RInt_le _ _ x y _ _ (Rlt_le _ _ L) A (is_RInt_plus (V := R_NormedModule) _ _ _ _ _ _ E P)) as K.
    simpl in K. unfold plus in K; simpl in K.
    assert ((y - x) * (f x + f y) / 2 <= RInt f x y + M * (y - x) ^ 3 / 12); [|simpl in *; lra].
    apply K. intros t Ht. specialize (V t). lra.
Qed.

Lemma uniform_C2 : forall n lo up q (f f1 f2 : R -> R) M, (2 <= n)%nat -> lo < up ->
  @uniform_generate RS n lo up = Ok q ->
  (forall t, lo <= t <= up -> is_derive f t (f1 t)) -> (forall t, lo <= t <= up -> is_derive f1 t (f2 t)) ->
  (forall t, lo <= t <= up -> Rabs (f2 t) <= M) ->
  Rabs (apply_rule q f - RInt f lo up) <= M * (up - lo) ^ 3 / (12 * INR (n - 1) ^ 2).
Proof.
  intros n lo up q f f1 f2 M Hn L H D1 D2 B. destruct n as [|m]; [lia|].
  replace (S m - 1)%nat with m by lia. pose proof (INR_pos m ltac:(lia)) as Pm.
  replace (M * (up - lo) ^ 3 / (12 * INR m ^ 2)) with (INR m * (M * ((up - lo) / INR m) ^ 3 / 12)) by (field; lra).
  assert (Ph : 0 < (up - lo) / INR m) by (apply Rdiv_lt_0_compat; lra).
  apply (uniform_error_from_panels m lo up q f); auto; [lia| |].
  - intros x Hx. apply (ex_derive_continuous (K := R_AbsRing) (V := R_NormedModule)). exists (f1 x). auto.
  - intros x y Hx Hy E. replace ((up - lo) / INR m) with (y - x) by lra.
    apply (panel_C2 f f1 f2); [lra|..]; intros; [apply D1|apply D2|apply B]; lra.
Qed.

Lemma uniform_affine : forall n lo up q a b, (2 <= n)%nat -> @uniform_generate RS n lo up = Ok q ->
  is_RInt (fun x => a + b * x) lo up (apply_rule q (fun x => a + b * x)).
Proof.
  intros n lo up q a b Hn H. destruct n as [|m]; [lia|]. assert (Hm : (1 <= m)%nat) by lia.
  pose proof (INR_pos m ltac:(lia)) as Pm.
  rewrite (uniform_textbook_m m lo up q _ Hm H).
  replace (Rsum _) with ((up - lo) * (a + b * lo + (a + b * up)) / 2); [apply is_RInt_affine|].
  rewrite (Rsum_tab_ext m _ (fun i => 
     (fun k => a * ux m lo up k + b / 2 * (ux m lo up k * ux m lo up k)) (S i) -
     (fun k => a * ux m lo up k + b / 2 * (ux m lo up k * ux m lo up k)) i)).
  2:{ intros i Hi. cbv beta. rewrite ux_step. field. lra. }
  assert (T : forall (g : nat -> R) k, Rsum (tab k (fun i => g (S i) - g i)) = g k - g 0%nat).
  { intros g k. induction k as [|k IH]. unfold tab; simpl; ring. rewrite Rsum_tab_S, IH. ring. }
  rewrite (T (fun k => a * ux m lo up k + b / 2 * (ux m lo up k * ux m lo up k))).
  rewrite ux_first, ux_last by auto. field.
Qed.

Lemma uniform_shape : forall n lo up q, (2 <= n)%nat -> lo < up -> @uniform_generate RS n lo up = Ok q ->
  length (fst q) = n /\ length (snd q) = n /\
  nth_error (fst q) 0 = Some lo /\ nth_error (fst q) (n - 1) = Some up /\
  (forall i x y, nth_error (fst q) i = Some x -> nth_error (fst q) (S i) = Some y ->
     y - x = (up - lo) / INR (n - 1)) /\
  (forall w, In w (snd q) -> 0 < w) /\ Rsum (snd q) = up - lo.
Proof.
  intros n lo up q Hn L H. pose proof H as H'. destruct n as [|m]; [lia|]. assert (Hm : (1 <= m)%nat) by lia.
  pose proof (INR_pos m ltac:(lia)) as Pm.
  rewrite uniform_real in H by auto. injection H as <-. cbn [fst snd]. rewrite !tab_length.
  replace (S m - 1)%nat with m by lia. repeat split; auto.
  - rewrite nth_error_tab by lia. f_equal. apply ux_first.
  - rewrite nth_error_tab by lia. f_equal. apply ux_last; auto.
  - intros i x y Hx Hy.
    assert (S i < S m)%nat.
    { rewrite <- (tab_length (S m) (ux m lo up)). apply nth_error_Some. intro K. pose proof (eq_trans (eq_sym Hy) K). discriminate. }
    rewrite nth_error_tab in Hx, Hy by lia. injection Hx as <-. injection Hy as <-. rewrite ux_step. ring.
  - intros w Hw. apply In_tab in Hw as (i & Hi & ->). unfold uw.
    assert (Ph : 0 < (up - lo) / INR m) by (apply Rdiv_lt_0_compat; lra).
    destruct (_ || _)%bool; lra.
  - pose proof (uniform_affine (S m) lo up _ 1 0 Hn H') as A.
    pose proof (is_RInt_affine 1 0 lo up) as B. apply RI_unique in A, B. rewrite A in B. clear A.
    rewrite rule_tab in B. etransitivity; [|etransitivity; [exact B|field]].
    apply Rsum_tab_ext. intros. ring.
Qed.
