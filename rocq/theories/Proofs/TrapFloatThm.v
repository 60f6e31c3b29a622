(** The uniform trapezoid rule as stored in binary64: whole rule, integrals, shape, exceptions. *)
From Coq Require Import List Bool Arith ZArith Lia Reals Lra Psatz.
From Coquelicot Require Import Coquelicot.
From Flocq Require Import IEEE754.BinarySingleNaN Core.
From Verif Require Import Base.Outcome Base.Scalar Base.RScalar Base.FScalar Model.Primitive
  Spec.Sums Spec.RuleSpec Spec.FloatSpec Spec.RealRules Spec.ErrorSpec Spec.LibmSpec Spec.BoundFloatSpec Spec.TrapFloatSpec
  Proofs.Tab Proofs.SumFacts Proofs.PrimitiveFacts Proofs.FloatOps Proofs.FloatErr Proofs.ChebFloat Proofs.BoundFloat
  Proofs.UniformFloat Proofs.TrapReal Proofs.TrapFloat.
Import ListNotations.
Local Open Scope R_scope.

Definition trap_pre (n : nat) (lo up : F64) : Prop :=
  (2 <= n)%nat /\ (Z.of_nat n <= 2 ^ 53)%Z /\ plain_bound lo /\ plain_bound up /\ B2R lo < B2R up.

Lemma half_least : bpow radix2 (-1075) = least / 2.
Proof. rewrite <- least_bpow, bpow_double. field. Qed.

Lemma least_pos : 0 < least.
Proof. rewrite <- least_bpow. apply bpow_gt_0. Qed.

Definition uw_f (m : libm) (n : nat) (lo up : F64) (i : nat) : F64 := @uni_wt (FS m) n lo up i.

Lemma stored : forall m n (lo up : F64), (1 <= n)%nat ->
  @uniform_generate (FS m) n lo up = Ok (tab n (ufx n lo up), tab n (uw_f m n lo up)).
Proof. intros m n lo up Hn. apply (@uniform_closed (FS m) n lo up Hn). Qed.

Lemma weight_f : forall m n lo up i, trap_pre n lo up -> (i < n)%nat ->
  is_finite (uw_f m n lo up i) = true /\ 0 <= B2R (uw_f m n lo up i) /\
  Rabs (B2R (uw_f m n lo up i) - trap_weight (B2R lo) (B2R up) n i) <= 4 * eps * trap_weight (B2R lo) (B2R up) n i + least.
Proof.
  intros m n lo up i (Hn & Hb & Pl & Pu & L) Hi.
  destruct (half_step n lo up Hn Hb Pl Pu (Rlt_le _ _ L) m) as (F1 & P1 & E1).
  destruct (step_f n lo up Hn Hb Pl Pu (Rlt_le _ _ L)) as (F2 & _).
  pose proof (step_pos n lo up Hn Hb Pl Pu (Rlt_le _ _ L)) as P2. pose proof (step_near n lo up Hn Hb Pl Pu (Rlt_le _ _ L)) as E2.
  rewrite half_least in *. replace (IZR (Z.of_nat (n - 1))) with (INR (n - 1)) in * by apply INR_IZR_INZ.
  change u with eps in *. pose proof least_pos as LP.
  unfold uw_f, uni_wt, trap_weight.
  change (@uni_dx (FS m) n lo up) with (ufd n lo up).
  change (@smul (FS m) (ufd n lo up) (@shalf (FS m))) with (fmul (ufd n lo up) (@shalf (FS m))).
  set (s := (B2R up - B2R lo) / INR (n - 1)) in *.
  assert (S0 : 0 <= s).
  { apply Rmult_le_pos; [lra|]. apply Rlt_le, Rinv_0_lt_compat. apply lt_0_INR. lia. }
  assert (U : 0 < eps) by (exact (proj1 u_tiny)). assert (0 <= eps * s) by (apply Rmult_le_pos; lra).
  destruct (Nat.eqb_spec i 0) as [N0|N0]; destruct (Nat.eqb_spec i (n - 1)) as [N1|N1]; try lia; cbn [orb].
  - split; [exact F1|]. split; [exact P1|]. eapply Rle_trans; [exact E1|lra].
  - split; [exact F1|]. split; [exact P1|]. eapply Rle_trans; [exact E1|lra].
  - split; [exact F2|]. split; [exact P2|]. eapply Rle_trans; [exact E2|lra].
Qed.

Lemma node_all : forall n lo up i, trap_pre n lo up -> (i < n)%nat ->
  let X := trap_node (B2R lo) (B2R up) n i in
  is_finite (ufx n lo up i) = true /\ B2R lo <= X <= B2R up /\
  Rabs (B2R (ufx n lo up i) - X) <= eps * Rabs X + 4 * eps * (X - B2R lo) + (INR i + 1) * least.
Proof.
  intros n lo up i (Hn & Hb & Pl & Pu & L) Hi X.
  destruct (node_f n lo up Hn Hb Pl Pu (Rlt_le _ _ L) i Hi) as (F & E).
  rewrite half_least in E. replace (IZR (Z.of_nat (n - 1))) with (INR (n - 1)) in E by apply INR_IZR_INZ.
  replace (IZR (Z.of_nat i)) with (INR i) in E by apply INR_IZR_INZ. fold (trap_node (B2R lo) (B2R up) n i) in E. fold X in E.
  split; [exact F|]. split.
  - pose proof (ux_range (n - 1) (B2R lo) (B2R up) i ltac:(lia) ltac:(lia) L) as R. exact R.
  - change u with eps in E. eapply Rle_trans; [exact E|]. unfold X, trap_node. lra.
Qed.

Lemma node_drift : forall n lo up i, trap_pre n lo up -> (i < n)%nat ->
  Rabs (B2R (ufx n lo up i) - trap_node (B2R lo) (B2R up) n i) <= drift (B2R lo) (B2R up) n.
Proof.
  intros n lo up i P Hi. destruct (node_all n lo up i P Hi) as (_ & R & E).
  set (X := trap_node (B2R lo) (B2R up) n i) in *. eapply Rle_trans; [exact E|]. unfold drift.
  assert (U : 0 < eps) by (exact (proj1 u_tiny)). pose proof least_pos.
  assert (Rabs X <= Rmax (Rabs (B2R lo)) (Rabs (B2R up))) by (apply RmaxAbs; lra).
  assert (INR i + 1 <= INR n) by (rewrite <- S_INR; apply le_INR; lia).
  apply Rplus_le_compat; [apply Rplus_le_compat|].
  - apply Rmult_le_compat_l; lra.
  - apply Rmult_le_compat_l; lra.
  - apply Rmult_le_compat_r; lra.
Qed.

Theorem trap_rule : forall m n (lo up : F64), (2 <= n)%nat -> (Z.of_nat n <= 2 ^ 53)%Z -> plain_bound lo -> plain_bound up -> B2R lo < B2R up ->
  exists q : list F64 * list F64, @uniform_generate (FS m) n lo up = Ok q /\ length (fst q) = n /\ length (snd q) = n /\ all_finite q /\
  (forall i x, nth_error (fst q) i = Some x -> let X := trap_node (B2R lo) (B2R up) n i in
     Rabs (B2R x - X) <= eps * Rabs X + 4 * eps * (X - B2R lo) + (INR i + 1) * least) /\
  (forall i w, nth_error (snd q) i = Some w -> let W := trap_weight (B2R lo) (B2R up) n i in
     0 <= B2R w /\ Rabs (B2R w - W) <= 4 * eps * W + least).
Proof.
  intros m n lo up Hn Hb Pl Pu L. assert (P : trap_pre n lo up) by (repeat split; auto; apply Pl || apply Pu).
  exists (tab n (ufx n lo up), tab n (uw_f m n lo up)). cbn [fst snd]. rewrite !tab_length.
  assert (B : forall A (g : nat -> A) i x, nth_error (tab n g) i = Some x -> (i < n)%nat /\ x = g i).
  { intros A g i x Hx. assert (Hi : (i < n)%nat).
    { rewrite <- (tab_length n g). apply nth_error_Some. rewrite Hx. discriminate. }
    split; [exact Hi|]. rewrite nth_error_tab in Hx by exact Hi. injection Hx as <-. reflexivity. }
  split; [apply stored; lia|]. split; [reflexivity|]. split; [reflexivity|]. split; [|split].
  - intros x [Hx|Hx]; cbn [fst snd] in Hx; apply In_tab in Hx; destruct Hx as (i & Hi & ->).
    + apply node_all; auto.
    + apply weight_f; auto.
  - intros i x Hx. apply B in Hx. destruct Hx as (Hi & ->). apply node_all; auto.
  - intros i w Hw. apply B in Hw. destruct Hw as (Hi & ->). apply weight_f; auto.
Qed.

(** Sums. *)
Lemma Rsum_tab_abs : forall n f g c, (forall i, (i < n)%nat -> Rabs (f i - g i) <= c i) ->
  Rabs (Rsum (tab n f) - Rsum (tab n g)) <= Rsum (tab n c).
Proof.
  induction n as [|n IH]; intros f g c H.
  - unfold tab; simpl. rewrite Rminus_diag_eq, Rabs_R0 by auto. unfold Rsum; simpl; lra.
  - rewrite !Rsum_tab_S. specialize (IH f g c (fun i Hi => H i (Nat.lt_lt_succ_r _ _ Hi))).
    specialize (H n (Nat.lt_succ_diag_r n)).
    replace (Rsum (tab n f) + f n - (Rsum (tab n g) + g n)) with
      ((Rsum (tab n f) - Rsum (tab n g)) + (f n - g n)) by ring.
    eapply Rle_trans; [apply Rabs_triang|]. lra.
Qed.

Lemma trap_exact : forall n a b, (2 <= n)%nat ->
  @uniform_generate RS n a b = Ok (tab n (trap_node a b n), tab n (trap_weight a b n)).
Proof.
  intros n a b Hn. destruct n as [|k]; [lia|]. rewrite (uniform_real k a b) by lia. unfold trap_node, trap_weight, ux, uw.
  replace (S k - 1)%nat with k by lia. reflexivity.
Qed.

Lemma weight_sum : forall n a b, (2 <= n)%nat -> a < b -> Rsum (tab n (trap_weight a b n)) = b - a.
Proof.
  intros n a b Hn L.
  pose proof (is_RInt_unique _ _ _ _ (uniform_affine n a b _ 1 0 Hn (trap_exact n a b Hn))) as U.
  rewrite (is_RInt_unique _ _ _ _ (is_RInt_affine 1 0 a b)) in U.
  unfold apply_rule in U. cbn [fst snd] in U. rewrite wsum_tab in U.
  transitivity ((b - a) * (1 + 0 * a + (1 + 0 * b)) / 2); [|field]. rewrite U.
  apply Rsum_tab_ext. intros. ring.
Qed.

Lemma lip_nonneg : forall a b L f, a < b -> lipschitz a b L f -> 0 <= L.
Proof.
  intros a b L f H Lf. pose proof (Lf a b ltac:(lra) ltac:(lra)) as E. pose proof (Rabs_pos (f a - f b)).
  rewrite (Rabs_left (a - b)) in E by lra. apply Rmult_le_reg_r with (b - a); lra.
Qed.

Lemma drift_pos : forall a b n, a < b -> 0 <= drift a b n.
Proof.
  intros a b n H. unfold drift. assert (U : 0 < eps) by (exact (proj1 u_tiny)). pose proof least_pos.
  pose proof (pos_INR n). pose proof (Rabs_pos a). pose proof (Rmax_l (Rabs a) (Rabs b)).
  apply Rplus_le_le_0_compat; [apply Rplus_le_le_0_compat|]; apply Rmult_le_pos; lra.
Qed.

Theorem trap_tracks : forall m n (lo up : F64) (q : list F64 * list F64), (2 <= n)%nat -> (Z.of_nat n <= 2 ^ 53)%Z -> plain_bound lo -> plain_bound up ->
  B2R lo < B2R up -> @uniform_generate (FS m) n lo up = Ok q ->
  forall r, @uniform_generate RS n (B2R lo) (B2R up) = Ok r ->
  forall f K L, let a := B2R lo in let b := B2R up in let d := drift a b n in
  (forall x, a - d <= x <= b + d -> Rabs (f x) <= K) -> lipschitz (a - d) (b + d) L f ->
  Rabs (apply_rule (real_rule q) f - apply_rule r f) <= (4 * eps * (b - a) + INR n * least) * K + d * (b - a) * L.
Proof.
  intros m n lo up q Hn Hb Pl Pu Hlt Hq r Hr f K L a b d HK HL.
  assert (P : trap_pre n lo up) by (repeat split; auto; apply Pl || apply Pu).
  rewrite stored in Hq by lia. apply ok_eq in Hq. subst q. rewrite (trap_exact n _ _ Hn) in Hr. apply ok_eq in Hr. subst r.
  unfold real_rule, apply_rule. cbn [fst snd]. rewrite !map_tab, !wsum_tab.
  fold a b. pose proof (drift_pos a b n Hlt) as D0. fold d in D0.
  assert (L0 : 0 <= L) by (apply (lip_nonneg (a - d) (b + d) L f); auto; unfold a, b; lra).
  assert (U : 0 < eps) by (exact (proj1 u_tiny)). pose proof least_pos as LP.
  eapply Rle_trans.
  - apply (Rsum_tab_abs n _ _ (fun i => trap_weight a b n i * (4 * eps * K + d * L) + least * K)).
    intros i Hi. destruct (weight_f m n lo up i P Hi) as (_ & W0 & WE). pose proof (node_drift n lo up i P Hi) as XE.
    destruct (node_all n lo up i P Hi) as (_ & XR & _). fold a b in WE, XE, XR. fold d in XE.
    set (W := trap_weight a b n i) in *. set (w := B2R (uw_f m n lo up i)) in *.
    set (X := trap_node a b n i) in *. set (x := B2R (ufx n lo up i)) in *.
    pose proof (abs_of _ _ XE). assert (RX : a - d <= X <= b + d) by lra. assert (Rx : a - d <= x <= b + d) by lra.
    assert (Wp : 0 <= W).
    { unfold W, trap_weight. assert (0 <= (b - a) / INR (n - 1)).
      { apply Rmult_le_pos; [unfold a, b; lra|]. apply Rlt_le, Rinv_0_lt_compat, lt_0_INR. lia. }
      destruct (Nat.eqb i 0 || Nat.eqb i (n - 1))%bool; lra. }
    replace (w * f x - W * f X) with ((w - W) * f x + W * (f x - f X)) by ring.
    eapply Rle_trans; [apply Rabs_triang|]. rewrite !Rabs_mult, (Rabs_pos_eq W) by exact Wp.
    assert (A1 : Rabs (w - W) * Rabs (f x) <= (4 * eps * W + least) * K) by (apply Rmult_le_compat; auto using Rabs_pos).
    assert (A2 : W * Rabs (f x - f X) <= W * (L * d)).
    { apply Rmult_le_compat_l; [exact Wp|]. eapply Rle_trans; [apply HL; auto|]. apply Rmult_le_compat_l; auto. }
    lra.
  - right. rewrite Rsum_tab_plus, Rsum_tab_const.
    rewrite (Rsum_tab_ext n (fun i => trap_weight a b n i * (4 * eps * K + d * L)) (fun i => (4 * eps * K + d * L) * trap_weight a b n i)) by (intros; ring).
    rewrite Rsum_tab_mult_l, weight_sum by auto. ring.
Qed.

Theorem trap_smooth : forall m n (lo up : F64) (q : list F64 * list F64), (2 <= n)%nat -> (Z.of_nat n <= 2 ^ 53)%Z -> plain_bound lo -> plain_bound up ->
  B2R lo < B2R up -> @uniform_generate (FS m) n lo up = Ok q ->
  forall F M K L, let a := B2R lo in let b := B2R up in let d := drift a b n in
  smooth a b 2 F M ->
  (forall x, a - d <= x <= b + d -> Rabs (F 0%nat x) <= K) -> lipschitz (a - d) (b + d) L (F 0%nat) ->
  Rabs (apply_rule (real_rule q) (F 0%nat) - RInt (F 0%nat) a b) <=
    M * (b - a) ^ 3 / (12 * INR (n - 1) ^ 2) + ((4 * eps * (b - a) + INR n * least) * K + d * (b - a) * L).
Proof.
  intros m n lo up q Hn Hb Pl Pu Hlt Hq F M K L a b d (S1 & S2) HK HL.
  pose proof (trap_tracks m n lo up q Hn Hb Pl Pu Hlt Hq _ (trap_exact n a b Hn) _ K L HK HL) as T. fold a b in T. fold d in T.
  pose proof (uniform_C2 n a b _ (F 0%nat) (F 1%nat) (F 2%nat) M Hn Hlt (trap_exact n a b Hn)
    (fun t Ht => S1 0%nat t ltac:(lia) Ht) (fun t Ht => S1 1%nat t ltac:(lia) Ht) S2) as E.
  match goal with |- Rabs (?x - ?z) <= _ => match type of T with Rabs (_ - ?y) <= _ => replace (x - z) with ((y - z) + (x - y)) by ring end end.
  eapply Rle_trans; [apply Rabs_triang|]. lra.
Qed.

(** Lipschitz integrands. *)
Lemma lip_cont : forall a b L f x, lipschitz a b L f -> 0 <= L -> a < x < b -> continuous f x.
Proof.
  intros a b L f x H L0 Hx. apply continuity_pt_filterlim. intros e He.
  exists (Rmin (e / (L + 1)) (Rmin (x - a) (b - x))). split.
  - repeat apply Rmin_pos; try lra. apply Rdiv_lt_0_compat; lra.
  - intros y (_ & Hy). unfold R_dist in *. cbn in *. unfold R_dist in *.
    assert (Y1 : Rabs (y - x) < e / (L + 1)) by (eapply Rlt_le_trans; [exact Hy|apply Rmin_l]).
    assert (Y2 : Rabs (y - x) < Rmin (x - a) (b - x)) by (eapply Rlt_le_trans; [exact Hy|apply Rmin_r]).
    assert (Y3 : Rabs (y - x) < x - a) by (eapply Rlt_le_trans; [exact Y2|apply Rmin_l]).
    assert (Y4 : Rabs (y - x) < b - x) by (eapply Rlt_le_trans; [exact Y2|apply Rmin_r]).
    apply Rabs_def2 in Y3. apply Rabs_def2 in Y4.
    eapply Rle_lt_trans; [apply H; lra|].
    apply Rle_lt_trans with (L * (e / (L + 1))).
    + apply Rmult_le_compat_l; lra.
    + apply Rmult_lt_reg_r with (L + 1); [lra|]. replace (L * (e / (L + 1)) * (L + 1)) with (L * e) by (field; lra). lra.
Qed.

Lemma trap_lip_exact : forall n a b f L r d, (2 <= n)%nat -> a < b -> 0 < d -> lipschitz (a - d) (b + d) L f -> @uniform_generate RS n a b = Ok r ->
  Rabs (apply_rule r f - RInt f a b) <= L * (b - a) ^ 2 / INR (n - 1).
Proof.
  intros n a b f L r d Hn Hlt Hd HL Hr. destruct n as [|k]; [lia|].
  assert (L0 : 0 <= L) by (apply (lip_nonneg (a - d) (b + d) L f); auto; lra).
  replace (S k - 1)%nat with k by lia. assert (Pk : 0 < INR k) by (apply lt_0_INR; lia).
  assert (Ph : 0 < (b - a) / INR k) by (apply Rdiv_lt_0_compat; lra).
  assert (C : forall x, a <= x <= b -> continuous f x) by (intros x Hx; apply (lip_cont (a - d) (b + d) L); auto; lra).
  pose proof (uniform_error_from_panels k a b r f ((b - a) / INR k * (L * ((b - a) / INR k))) ltac:(lia) Hlt Hr C) as E.
  eapply Rle_trans; [apply E|].
  - intros x y Hx Hy Exy. replace ((b - a) / INR k) with (y - x) by lra. apply panel_cont; [lra| |].
    + intros t Ht. apply C. lra.
    + intros s t Hs Ht. eapply Rle_trans; [apply HL; lra|]. apply Rmult_le_compat_l; [exact L0|]. apply Rabs_le. lra.
  - right. field. lra.
Qed.

Lemma drift_lt : forall a b n, a < b -> (2 <= n)%nat -> 0 < drift a b n.
Proof.
  intros a b n H Hn. unfold drift. assert (U : 0 < eps) by (exact (proj1 u_tiny)). pose proof least_pos.
  pose proof (pos_INR n). pose proof (Rabs_pos a). pose proof (Rmax_l (Rabs a) (Rabs b)).
  apply Rplus_lt_le_0_compat; [apply Rplus_le_lt_0_compat|].
  - apply Rmult_le_pos; lra.
  - apply Rmult_lt_0_compat; lra.
  - apply Rmult_le_pos; lra.
Qed.

Theorem trap_lip : forall m n (lo up : F64) (q : list F64 * list F64), (2 <= n)%nat -> (Z.of_nat n <= 2 ^ 53)%Z -> plain_bound lo -> plain_bound up ->
  B2R lo < B2R up -> @uniform_generate (FS m) n lo up = Ok q ->
  forall f K L, let a := B2R lo in let b := B2R up in let d := drift a b n in
  (forall x, a - d <= x <= b + d -> Rabs (f x) <= K) -> lipschitz (a - d) (b + d) L f ->
  Rabs (apply_rule (real_rule q) f - RInt f a b) <=
    L * (b - a) ^ 2 / INR (n - 1) + ((4 * eps * (b - a) + INR n * least) * K + d * (b - a) * L).
Proof.
  intros m n lo up q Hn Hb Pl Pu Hlt Hq f K L a b d HK HL.
  pose proof (trap_tracks m n lo up q Hn Hb Pl Pu Hlt Hq _ (trap_exact n a b Hn) _ K L HK HL) as T. fold a b in T. fold d in T.
  pose proof (trap_lip_exact n a b f L _ d Hn Hlt (drift_lt a b n Hlt Hn) HL (trap_exact n a b Hn)) as E.
  match goal with |- Rabs (?x - ?z) <= _ => match type of T with Rabs (_ - ?y) <= _ => replace (x - z) with ((y - z) + (x - y)) by ring end end.
  eapply Rle_trans; [apply Rabs_triang|]. lra.
Qed.

(** Shape, when the step is larger than twice the drift. *)
Theorem trap_shape : forall m n (lo up : F64) (q : list F64 * list F64), (2 <= n)%nat -> (Z.of_nat n <= 2 ^ 53)%Z -> plain_bound lo -> plain_bound up ->
  B2R lo < B2R up -> @uniform_generate (FS m) n lo up = Ok q ->
  2 * drift (B2R lo) (B2R up) n < (B2R up - B2R lo) / INR (n - 1) ->
  (forall i j x y, (i < j)%nat -> nth_error (fst q) i = Some x -> nth_error (fst q) j = Some y -> Bltb x y = true) /\
  (forall w, In w (snd q) -> 0 < B2R w).
Proof.
  intros m n lo up q Hn Hb Pl Pu Hlt Hq Hs.
  assert (P : trap_pre n lo up) by (repeat split; auto; apply Pl || apply Pu).
  rewrite stored in Hq by lia. apply ok_eq in Hq. subst q. cbn [fst snd].
  set (s := (B2R up - B2R lo) / INR (n - 1)) in *.
  assert (U : 0 < eps <= / 10 ^ 15) by (exact u_tiny). pose proof least_pos as LP. split.
  - intros i j x y Hij Hx Hy.
    assert (Hj : (j < n)%nat).
    { rewrite <- (tab_length n (ufx n lo up)). apply nth_error_Some. rewrite Hy. discriminate. }
    rewrite nth_error_tab in Hx, Hy by lia. injection Hx as <-; injection Hy as <-.
    destruct (node_all n lo up i P ltac:(lia)) as (Fi & _). destruct (node_all n lo up j P Hj) as (Fj & _).
    pose proof (node_drift n lo up i P ltac:(lia)) as Ei. pose proof (node_drift n lo up j P Hj) as Ej.
    rewrite Bltb_correct by auto. apply Rlt_bool_true. apply abs_of in Ei. apply abs_of in Ej.
    unfold trap_node in Ei, Ej. fold s in Ei, Ej.
    assert (INR i + 1 <= INR j) by (rewrite <- S_INR; apply le_INR; lia).
    pose proof (drift_pos _ _ n Hlt).
    assert (s * (INR i + 1) <= s * INR j) by (apply Rmult_le_compat_l; lra). lra.
  - intros w Hw. apply In_tab in Hw. destruct Hw as (i & Hi & ->). destruct (weight_f m n lo up i P Hi) as (_ & _ & E).
    assert (D : 2 * least <= drift (B2R lo) (B2R up) n).
    { unfold drift. pose proof (Rabs_pos (B2R lo)). pose proof (Rmax_l (Rabs (B2R lo)) (Rabs (B2R up))).
      assert (2 <= INR n) by (change 2 with (INR 2); apply le_INR; lia).
      assert (0 <= eps * Rmax (Rabs (B2R lo)) (Rabs (B2R up))) by (apply Rmult_le_pos; lra).
      assert (0 <= 4 * eps * (B2R up - B2R lo)) by (apply Rmult_le_pos; lra).
      assert (2 * least <= INR n * least) by (apply Rmult_le_compat_r; lra). lra. }
    unfold trap_weight in E. fold s in E. apply abs_of in E. assert (eps * s <= / 10 ^ 15 * s) by (apply Rmult_le_compat_r; lra).
    destruct (Nat.eqb i 0 || Nat.eqb i (n - 1))%bool; lra.
Qed.

(** The total weight. *)
Theorem trap_total : forall m n (lo up : F64) (q : list F64 * list F64), (2 <= n)%nat -> (Z.of_nat n <= 2 ^ 53)%Z -> plain_bound lo -> plain_bound up ->
  B2R lo < B2R up -> @uniform_generate (FS m) n lo up = Ok q ->
  Rabs (Rsum (map B2R (snd q)) - (B2R up - B2R lo)) <= 4 * eps * (B2R up - B2R lo) + INR n * least.
Proof.
  intros m n lo up q Hn Hb Pl Pu Hlt Hq.
  assert (P : trap_pre n lo up) by (repeat split; auto; apply Pl || apply Pu).
  rewrite stored in Hq by lia. apply ok_eq in Hq. subst q. cbn [fst snd]. rewrite map_tab.
  rewrite <- (weight_sum n (B2R lo) (B2R up) Hn Hlt) at 1.
  eapply Rle_trans; [apply (Rsum_tab_abs n _ _ (fun i => 4 * eps * trap_weight (B2R lo) (B2R up) n i + least)); intros i Hi; apply weight_f; auto|].
  right. rewrite Rsum_tab_plus, Rsum_tab_mult_l, Rsum_tab_const, weight_sum by auto. reflexivity.
Qed.
