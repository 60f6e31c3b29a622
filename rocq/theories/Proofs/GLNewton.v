(** The Legendre evaluation and the Newton iteration of the Gauss-Legendre rule, in exact arithmetic. *)
From Coq Require Import List Bool Arith ZArith Lia Reals Lra Psatz.
From Coquelicot Require Import Coquelicot.
From Verif Require Import Base.Outcome Base.Scalar Base.RScalar Model.Primitive Spec.Sums Spec.RealRules
  Proofs.Tab Proofs.SumFacts Proofs.PrimitiveFacts Proofs.ChebReal Proofs.ChebInt Proofs.Legendre
  Proofs.LegendreZeros Proofs.LegendreAngles.
Import ListNotations.
Local Open Scope R_scope.

Lemma loop_Pn : forall k m x q, exists q',
  @legendre_loop RS x k (S m) (Pn m x) (Pm m x) q = (Pn (m + k) x, Pm (m + k) x, q').
Proof.
  induction k as [|k IH]; intros m x q.
  - exists q. rewrite Nat.add_0_r. reflexivity.
  - destruct (IH (S m) x (Pm m x)) as (q' & E). exists q'.
    replace (m + S k)%nat with (S m + k)%nat by lia. rewrite <- E.
    cbn [legendre_loop]. cbv zeta. f_equal.
    transitivity (((2 * IZR (Z.of_nat (S m)) - 1) * x * Pn m x - (IZR (Z.of_nat (S m)) - 1) * Pm m x) / IZR (Z.of_nat (S m)));
      [reflexivity|].
    rewrite IZR_INR. pose proof (Pn_rec m x) as Rc. pose proof (INR_S_pos m). rewrite S_INR in *.
    apply Rmult_eq_reg_l with (INR m + 1); [|lra]. unfold Rdiv.
    rewrite (Rmult_comm _ (/ _)), <- Rmult_assoc, Rinv_r by lra. req. rewrite Rc. ring.
Qed.

Lemma eval_Pn_real : forall n x, @eval_Pn RS x n =
  (Pn n x, (x * Pn n x - Pm n x) * (INR n / (x * x - 1)), Pm n x).
Proof.
  intros n x. unfold eval_Pn. destruct (loop_Pn n 0 x 0) as (q & E). cbn [Nat.add] in E.
  change (@legendre_loop RS x n 1 s1 s0 s0) with (@legendre_loop RS x n 1 (Pn 0 x) (Pm 0 x) 0).
  rewrite E. transitivity (Pn n x, (x * Pn n x - Pm n x) * (IZR (Z.of_nat n) / (x * x - 1)), Pm n x); [reflexivity|].
  rewrite IZR_INR. reflexivity.
Qed.

Lemma eval_dP : forall n x, x * x <> 1 -> (x * Pn n x - Pm n x) * (INR n / (x * x - 1)) = dP n x.
Proof.
  intros n x H. pose proof (leg_A n x) as A. apply Rmult_eq_reg_l with (1 - x * x); [|lra].
  rewrite A. field. lra.
Qed.

Lemma newton_unfold : forall n it x, x * x <> 1 -> @gl_newton RS n (S it) x =
  if Rleb (Rabs (x - Pn n x / dP n x - x)) (/ 2 ^ 52) then Some (x - Pn n x / dP n x, dP n x)
  else @gl_newton RS n it (x - Pn n x / dP n x).
Proof. intros n it x H. cbn [gl_newton]. rewrite eval_Pn_real, eval_dP by auto. reflexivity. Qed.

Lemma Rleb_true : forall x y, x <= y -> Rleb x y = true.
Proof. intros. unfold Rleb. destruct (Rle_dec x y); auto; lra. Qed.

Lemma derive_mono : forall (f df : R -> R) a b, a <= b -> (forall x, is_derive f x (df x)) ->
  (forall x, a <= x <= b -> 0 <= df x) -> f a <= f b.
Proof.
  intros f df a b Hab Hd Hp. destruct Hab as [Hab|E]; [|subst; lra].
  destruct (MVT_gen f a b df) as (c & Hc & E).
  - intros x _. apply Hd.
  - intros x _. apply derivable_continuous_pt. exists (df x). apply is_derive_Reals. apply Hd.
  - rewrite Rmin_left, Rmax_right in Hc by lra. specialize (Hp c Hc). nra.
Qed.

(** A Newton iteration started to the right of a zero r of P_n, on a stretch where the signed
    polynomial is positive, increasing and convex. *)
Section Newton.
Variables (n : nat) (r x0 sg : R).
Let f := fun x => sg * Pn n x.
Let f1 := fun x => sg * dP n x.
Let m := f1 r.
Let L := INR n * (INR n + 1).
Hypothesis SG : sg * sg = 1.
Hypothesis R0 : 0 < r < x0.
Hypothesis X0 : x0 < 1.
Hypothesis Zr : Pn n r = 0.
Hypothesis M0 : 0 < m.
Hypothesis H1 : 1 - r * r <= 1.2 * (1 - x0 * x0).
Hypothesis H2 : 1.2 * L * ((x0 - r) * (x0 - r)) <= 0.04 * (1 - r * r).
Hypothesis H3 : 1.2 * L * (x0 - r) <= r.
Hypothesis H4 : forall x, r < x <= x0 -> 0 <= f x.

Lemma L0 : 0 <= L.
Proof. unfold L. pose proof (pos_INR n). nra. Qed.

Lemma f_der : forall x, is_derive f x (f1 x).
Proof. intro x. unfold f, f1. apply (is_derive_scal (Pn n) x sg), Pn_derive. Qed.

Lemma f_r : f r = 0.
Proof. unfold f. rewrite Zr. ring. Qed.

Lemma f_nonneg : forall x, r <= x <= x0 -> 0 <= f x.
Proof. intros x [[H|H] Hx]; [apply H4; lra|subst x; rewrite f_r; lra]. Qed.

Lemma g_der : forall x, is_derive (fun x => (1 - x * x) * f1 x) x (- L * f x).
Proof.
  intro x. apply (is_derive_ext (fun x => sg * ((1 - x * x) * dP n x))); [intro; unfold f1; req; ring|].
  evar_last; [apply (is_derive_scal (fun x => (1 - x * x) * dP n x) x sg), leg_ode|].
  unfold L, f. req. ring.
Qed.

Lemma one_sq : forall x, r <= x <= x0 -> 1 - x * x <= 1 - r * r <= 1.2 * (1 - x * x) /\ 0 < 1 - x * x.
Proof. intros x Hx. nra. Qed.

Lemma g_upper : forall x, r <= x <= x0 -> (1 - x * x) * f1 x <= (1 - r * r) * m.
Proof.
  intros x Hx.
  assert (K : - ((1 - r * r) * f1 r) <= - ((1 - x * x) * f1 x)).
  { apply (derive_mono (fun x => - ((1 - x * x) * f1 x)) (fun x => - (- L * f x))); try lra.
    - intro y. apply (is_derive_opp (K := R_AbsRing) (V := R_NormedModule) (fun x => (1 - x * x) * f1 x)), g_der.
    - intros y Hy. pose proof (f_nonneg y ltac:(lra)). pose proof L0. nra. }
  fold m in K. lra.
Qed.

Lemma f1_upper : forall x, r <= x <= x0 -> f1 x <= 1.2 * m.
Proof.
  intros x Hx. pose proof (g_upper x Hx). destruct (one_sq x Hx) as ((A & B) & C).
  apply Rmult_le_reg_l with (1 - x * x); auto. nra.
Qed.

Lemma f_upper : forall x, r <= x <= x0 -> f x <= 1.2 * m * (x - r).
Proof.
  intros x Hx.
  assert (K : 1.2 * m * (r - r) - f r <= 1.2 * m * (x - r) - f x).
  { apply (derive_mono (fun x => 1.2 * m * (x - r) - f x) (fun x => 1.2 * m - f1 x)); try lra.
    - intro y. evar_last.
      + apply (is_derive_minus (K := R_AbsRing) (V := R_NormedModule) (fun x => 1.2 * m * (x - r)) f y (1.2 * m) (f1 y)); [|apply f_der].
        auto_derive; auto. ring.
      + reflexivity.
    - intros y Hy. pose proof (f1_upper y ltac:(lra)). lra. }
  rewrite f_r in K. lra.
Qed.

Lemma g_lower : forall x, r <= x <= x0 -> (1 - r * r) * m - 1.2 * L * m * ((x - r) * (x - r)) <= (1 - x * x) * f1 x.
Proof.
  intros x Hx. pose proof L0.
  assert (K : (1 - r * r) * f1 r + 1.2 * L * m * (x0 - r) * (r - r) <= (1 - x * x) * f1 x + 1.2 * L * m * (x - r) * (x - r)).
  { destruct (MVT_gen (fun y => (1 - y * y) * f1 y) r x (fun y => - L * f y)) as (c & Hc & E).
    - intros y _. apply g_der.
    - intros y _. apply derivable_continuous_pt. exists (- L * f y). apply is_derive_Reals. apply g_der.
    - rewrite Rmin_left, Rmax_right in Hc by lra.
      pose proof (f_upper c ltac:(lra)). pose proof (f_nonneg c ltac:(lra)).
      assert (f c <= 1.2 * m * (x - r)) by nra.
      assert (L * f c * (x - r) <= L * (1.2 * m * (x - r)) * (x - r)).
      { apply Rmult_le_compat_r; [lra|]. apply Rmult_le_compat_l; auto. }
      nra. }
  fold m in K. lra.
Qed.

Lemma f1_lower : forall x, r <= x <= x0 -> 0.96 * m <= f1 x.
Proof.
  intros x Hx. pose proof (g_lower x Hx) as G. destruct (one_sq x Hx) as ((A & B) & C). pose proof L0.
  assert ((x - r) * (x - r) <= (x0 - r) * (x0 - r)) by nra.
  assert (1.2 * L * m * ((x - r) * (x - r)) <= 0.04 * (1 - r * r) * m).
  { apply Rle_trans with (1.2 * L * m * ((x0 - r) * (x0 - r))).
    - apply Rmult_le_compat_l; auto. nra.
    - replace (1.2 * L * m * ((x0 - r) * (x0 - r))) with (1.2 * L * ((x0 - r) * (x0 - r)) * m) by ring.
      apply Rmult_le_compat_r; lra. }
  apply Rmult_le_reg_l with (1 - x * x); auto. nra.
Qed.

Lemma f2_nonneg : forall x, r <= x <= x0 -> 0 <= sg * Derive (dP n) x.
Proof.
  intros x Hx. destruct (one_sq x Hx) as ((A & B) & C). pose proof (leg_ode2 n x) as E. pose proof L0.
  pose proof (f1_lower x Hx). pose proof (f_upper x Hx). pose proof (f_nonneg x Hx).
  apply Rmult_le_reg_l with (1 - x * x); auto. rewrite Rmult_0_r.
  replace ((1 - x * x) * (sg * Derive (dP n) x)) with (sg * ((1 - x * x) * Derive (dP n) x)) by ring.
  rewrite E. fold L.
  replace (sg * (2 * x * dP n x - L * Pn n x)) with (2 * x * f1 x - L * f x) by (unfold f, f1; ring).
  assert (L * f x <= L * (1.2 * m * (x - r))) by (apply Rmult_le_compat_l; auto).
  assert (1.2 * L * (x - r) <= r) by nra.
  assert (L * (1.2 * m * (x - r)) <= m * r).
  { replace (L * (1.2 * m * (x - r))) with (m * (1.2 * L * (x - r))) by ring. apply Rmult_le_compat_l; lra. }
  assert (r * (0.96 * m) <= x * f1 x) by nra. nra.
Qed.

Lemma f1_mono : forall x y, r <= x <= y -> y <= x0 -> f1 x <= f1 y.
Proof.
  intros x y Hx Hy. apply (derive_mono f1 (fun x => sg * Derive (dP n) x)); try lra.
  - intro t. unfold f1. apply (is_derive_scal (dP n) t sg). apply Derive_correct. apply dP_ex.
  - intros t Ht. apply f2_nonneg. lra.
Qed.

Lemma f1_m : forall x, r <= x <= x0 -> m <= f1 x.
Proof. intros x Hx. apply f1_mono; lra. Qed.

Lemma f_lower : forall x, r <= x <= x0 -> m * (x - r) <= f x <= f1 x * (x - r).
Proof.
  intros x Hx. destruct (MVT_gen f r x f1) as (c & Hc & E).
  - intros y _. apply f_der.
  - intros y _. apply derivable_continuous_pt. exists (f1 y). apply is_derive_Reals. apply f_der.
  - rewrite Rmin_left, Rmax_right in Hc by lra. rewrite f_r, Rminus_0_r in E. rewrite E.
    pose proof (f1_m c ltac:(lra)). pose proof (f1_mono c x ltac:(lra) ltac:(lra)). nra.
Qed.

Definition nstep (x : R) : R := x - Pn n x / dP n x.

Lemma nstep_bounds : forall x, r <= x <= x0 ->
  r <= nstep x <= x /\ nstep x - r <= (x - r) / 2 /\ x - nstep x <= x - r /\ x - r <= 1.2 * (x - nstep x).
Proof.
  intros x Hx. pose proof (f1_m x Hx). pose proof (f1_upper x Hx). destruct (f_lower x Hx) as (A & B).
  assert (D : 0 < f1 x) by lra.
  assert (SN : sg <> 0) by (intro E; rewrite E in SG; lra).
  assert (DN : dP n x <> 0) by (intro E; unfold f1 in D; rewrite E in D; lra).
  assert (Q : Pn n x / dP n x = f x / f1 x) by (unfold f, f1; field; auto).
  unfold nstep. rewrite Q. set (q := f x / f1 x).
  assert (Eq : q * f1 x = f x) by (unfold q; field; lra).
  assert (q <= x - r) by (apply Rmult_le_reg_r with (f1 x); lra).
  assert (x - r <= 1.2 * q).
  { apply Rmult_le_reg_r with (f1 x); auto. replace (1.2 * q * f1 x) with (1.2 * f x) by (rewrite <- Eq; ring).
    apply Rle_trans with (1.2 * (m * (x - r))); [|lra].
    replace (1.2 * (m * (x - r))) with ((1.2 * m) * (x - r)) by ring. rewrite Rmult_comm.
    apply Rmult_le_compat_r; lra. }
  lra.
Qed.

Lemma newton_ok : forall it x, r <= x <= x0 -> x - r <= 2 ^ it * (/ 2 ^ 52) ->
  exists z zo, @gl_newton RS n (S it) x = Some (z, dP n zo) /\ r <= z <= zo /\ zo <= x0 /\
    z - r <= / 2 ^ 52 /\ zo - r <= 1.2 * / 2 ^ 52 /\ nstep zo = z.
Proof.
  assert (E0 : 0 < / 2 ^ 52) by (apply Rinv_0_lt_compat, pow_lt; lra).
  induction it as [|it IH]; intros x Hx Hd.
  - pose proof (nstep_bounds x Hx) as (A & B & C & D). rewrite newton_unfold by nra. fold (nstep x).
    simpl (2 ^ 0) in Hd. rewrite Rleb_true by (rewrite Rabs_left1; lra).
    exists (nstep x), x. repeat split; try reflexivity; lra.
  - pose proof (nstep_bounds x Hx) as (A & B & C & D). rewrite newton_unfold by nra. fold (nstep x).
    unfold Rleb. destruct (Rle_dec (Rabs (nstep x - x)) (/ 2 ^ 52)) as [Q|Q].
    + rewrite Rabs_left1 in Q by lra. exists (nstep x), x. repeat split; try reflexivity; lra.
    + apply IH; [lra|]. change (2 ^ S it) with (2 * 2 ^ it) in Hd. lra.
Qed.
End Newton.

(** Weight produced from a last iterate [zo] and its Newton image [z], against the Gauss weight at r. *)
Lemma weight_bounds : forall n r x0 sg z zo e,
  sg * sg = 1 -> 0 < r < x0 -> x0 < 1 -> Pn n r = 0 -> 0 < sg * dP n r ->
  1 - r * r <= 1.2 * (1 - x0 * x0) ->
  1.2 * (INR n * (INR n + 1)) * ((x0 - r) * (x0 - r)) <= 0.04 * (1 - r * r) ->
  1.2 * (INR n * (INR n + 1)) * (x0 - r) <= r ->
  (forall x, r < x <= x0 -> 0 <= sg * Pn n x) ->
  r <= z <= zo -> zo <= x0 -> z - r <= e -> zo - r <= 1.2 * e ->
  0 < 2 / ((1 - z * z) * dP n zo * dP n zo) /\
  Rabs (2 / ((1 - z * z) * dP n zo * dP n zo) - gauss_w n r) <= 4.8 * e / (1 - r * r) * gauss_w n r.
Proof.
  intros n r x0 sg z zo e SG R0 X0 Zr M0 H1 H2 H3 H4 Hz Hzo E1 E2.
  assert (A : sg * dP n r <= sg * dP n zo) by (apply (f1_m n r x0 sg); auto; lra).
  assert (B : (1 - zo * zo) * (sg * dP n zo) <= (1 - r * r) * (sg * dP n r)) by (apply (g_upper n r x0 sg); auto; lra).
  unfold gauss_w.
  replace ((1 - z * z) * dP n zo * dP n zo) with ((1 - z * z) * ((sg * dP n zo) * (sg * dP n zo)))
    by (transitivity ((1 - z * z) * dP n zo * dP n zo * (sg * sg)); [ring|rewrite SG; ring]).
  replace ((1 - r * r) * dP n r * dP n r) with ((1 - r * r) * ((sg * dP n r) * (sg * dP n r)))
    by (transitivity ((1 - r * r) * dP n r * dP n r * (sg * sg)); [ring|rewrite SG; ring]).
  set (m := sg * dP n r) in *. set (d := sg * dP n zo) in *. clearbody m d. clear H4 H2 H3 SG Zr.
  assert (Pr : 0 < 1 - r * r) by nra. assert (Pz : 0 < 1 - z * z) by nra. assert (Po : 0 < 1 - zo * zo) by nra.
  assert (P1 : 1 - r * r <= 1.2 * (1 - z * z)) by nra.
  assert (Pw : 0 < (1 - z * z) * (d * d)) by (apply Rmult_lt_0_compat; nra).
  assert (Pg : 0 < (1 - r * r) * (m * m)) by (apply Rmult_lt_0_compat; nra).
  split; [apply Rdiv_lt_0_compat; lra|].
  set (G := 2 / ((1 - r * r) * (m * m))). set (W := 2 / ((1 - z * z) * (d * d))).
  assert (HG : 0 < G) by (apply Rdiv_lt_0_compat; lra).
  assert (HW : 0 < W) by (apply Rdiv_lt_0_compat; lra).
  assert (EG : G * ((1 - r * r) * (m * m)) = 2) by (unfold G; field; lra).
  assert (EW : W * ((1 - z * z) * (d * d)) = 2) by (unfold W; field; lra).
  set (c := 4.8 * e / (1 - r * r)). assert (Ec : c * (1 - r * r) = 4.8 * e) by (unfold c; field; lra).
  assert (C0 : 0 <= c) by (unfold c; apply Rmult_le_pos; [lra|left; apply Rinv_0_lt_compat; lra]).
  clearbody G W c.
  apply Rabs_le. split.
  - (* W >= (1 - c) G *)
    destruct (Rle_lt_dec 1 c) as [Hc|Hc]; [nra|].
    assert (Q : (1 - c) * (1 - r * r) * (1 - r * r) <= (1 - zo * zo) * (1 - zo * zo)).
    { assert (1 - r * r - 2.4 * e <= 1 - zo * zo) by nra.
      destruct (Rle_lt_dec 0 (1 - r * r - 2.4 * e)).
      - apply Rle_trans with ((1 - r * r - 2.4 * e) * (1 - r * r - 2.4 * e)); [|nra].
        replace ((1 - c) * (1 - r * r) * (1 - r * r)) with ((1 - r * r) * (1 - r * r) - c * (1 - r * r) * (1 - r * r)) by ring.
        rewrite Ec. nra.
      - assert (1 - r * r <= c * (1 - r * r)) by lra. nra. }
    assert (T : (1 - zo * zo) * (1 - zo * zo) * (d * d) <= (1 - r * r) * (1 - r * r) * (m * m)).
    { replace ((1 - zo * zo) * (1 - zo * zo) * (d * d)) with (((1 - zo * zo) * d) * ((1 - zo * zo) * d)) by ring.
      replace ((1 - r * r) * (1 - r * r) * (m * m)) with (((1 - r * r) * m) * ((1 - r * r) * m)) by ring.
      assert (0 < (1 - zo * zo) * d) by nra. nra. }
    (* (1-c) d^2 <= m^2 *)
    assert (U : (1 - c) * (d * d) <= m * m).
    { apply Rmult_le_reg_l with ((1 - r * r) * (1 - r * r)); [nra|].
      apply Rle_trans with ((1 - zo * zo) * (1 - zo * zo) * (d * d)); [|exact T].
      replace ((1 - r * r) * (1 - r * r) * ((1 - c) * (d * d))) with ((1 - c) * (1 - r * r) * (1 - r * r) * (d * d)) by ring.
      apply Rmult_le_compat_r; [nra|exact Q]. }
    assert (V : (1 - c) * G <= W).
    { apply Rmult_le_reg_r with ((1 - z * z) * (d * d)); auto. rewrite EW. rewrite <- EG.
      replace ((1 - c) * G * ((1 - z * z) * (d * d))) with (G * ((1 - z * z) * ((1 - c) * (d * d)))) by ring.
      apply Rmult_le_compat_l; [lra|].
      apply Rle_trans with ((1 - z * z) * (m * m)); [apply Rmult_le_compat_l; lra|].
      apply Rmult_le_compat_r; nra. }
    nra.
  - assert (V : W <= (1 + c) * G).
    { apply Rmult_le_reg_r with ((1 - z * z) * (d * d)); auto. rewrite EW. rewrite <- EG.
      replace ((1 + c) * G * ((1 - z * z) * (d * d))) with (G * ((1 + c) * (1 - z * z) * (d * d))) by ring.
      apply Rmult_le_compat_l; [lra|].
      apply Rmult_le_compat; try nra. }
    nra.
Qed.

Definition eps52 : R := / 2 ^ 52.

Lemma eps52_pos : 0 < eps52.
Proof. apply Rinv_0_lt_compat, pow_lt. lra. Qed.

Lemma gl_guess_real : forall n k, @gl_guess RS n k = cos (phi n k).
Proof.
  intros n k. transitivity (cos (PI * (IZR (Z.of_nat (k + 1)) - 25 / 100) / (IZR (Z.of_nat n) + / 2))); [|].
  - unfold gl_guess. cbv zeta. cbn -[Z.of_nat]. f_equal. f_equal. f_equal. unfold shalf. cbn. lra.
  - rewrite !IZR_INR, plus_INR. f_equal. unfold phi, NN. cbn [INR]. field.
    pose proof (pos_INR n). lra.
Qed.

Section Roots.
Variables (n : nat) (z : nat -> R).
Hypothesis Hz : zeros n z.

Lemma th_phi_S : forall k, (2 * k + 1 < n)%nat -> th n z k < phi n (S k).
Proof.
  intros k Hk. rewrite phi_S. pose proof (ND_small n z Hz k Hk) as A. pose proof (NN_25 n k Hk) as B.
  pose proof PI_bounds. 
  assert ((th n z k - phi n k) * NN n < PI / NN n * NN n).
  { replace (PI / NN n * NN n) with PI by (field; lra). lra. }
  assert (th n z k - phi n k < PI / NN n) by (apply Rmult_lt_reg_r with (NN n); lra). lra.
Qed.

Lemma phi_range : forall k, (2 * k + 1 <= n)%nat -> 0 < phi n k <= PI / 2.
Proof.
  intros k Hk. split; [apply phi_pos|]. destruct (Nat.eq_dec (2 * k + 1) n) as [E|E].
  - destruct (th_mid n z Hz k E) as (_ & ->). lra.
  - pose proof (phi_le_half n k ltac:(lia)). pose proof PI_RGT_0.
    assert (0 < PI / NN n) by (apply Rdiv_lt_0_compat; [lra|apply NN_pos]). lra.
Qed.

Definition rt (k : nat) : R := z (n - 1 - k)%nat.

Lemma cos_dec : forall a b, 0 <= a -> a < b -> b <= PI -> cos b < cos a.
Proof. intros. apply cos_decreasing_1; lra. Qed.

Lemma next_below : forall k, (2 * k + 1 < n)%nat -> cos (phi n (S k)) < rt k.
Proof.
  intros k Hk. unfold rt. rewrite <- (cos_th n z Hz k) by lia. pose proof (th_range n z Hz k ltac:(lia)).
  pose proof (th_phi_S k Hk).
  apply cos_dec; [lra|auto|]. rewrite phi_S. pose proof (phi_le_half n k Hk). pose proof PI_bounds.
  pose proof (g_bounds n k Hk). lra.
Qed.

Lemma newton_hyps : forall k, (2 * k + 1 < n)%nat ->
  let r := rt k in let x0 := cos (phi n k) in let sg := (-1) ^ k in
  sg * sg = 1 /\ 0 < r < x0 /\ x0 < 1 /\ Pn n r = 0 /\ 0 < sg * dP n r /\
  1 - r * r <= 1.2 * (1 - x0 * x0) /\
  1.2 * (INR n * (INR n + 1)) * ((x0 - r) * (x0 - r)) <= 0.04 * (1 - r * r) /\
  1.2 * (INR n * (INR n + 1)) * (x0 - r) <= r /\
  (forall x, r < x <= x0 -> 0 <= sg * Pn n x) /\
  3.6 <= (INR n + 1) * (INR n + 1) * (1 - r * r).
Proof.
  intros k Hk r x0 sg.
  assert (Er : r = cos (th n z k)) by (symmetry; apply (cos_th n z Hz k); lia).
  pose proof (th_range n z Hz k ltac:(lia)) as T. pose proof (th_half n z Hz k Hk) as T2.
  pose proof (th_lower n z Hz k Hk) as T3. pose proof (phi_range k ltac:(lia)) as T4.
  pose proof (sin2_cos2 (th n z k)) as S1. pose proof (sin2_cos2 (phi n k)) as S2. unfold Rsqr in S1, S2.
  destruct (sin_ratio n z Hz k Hk) as (R1 & R2). pose proof (ND_small n z Hz k Hk) as D1.
  pose proof (D_pos n z Hz k Hk) as D2. pose proof (cos_diff n z Hz k Hk) as D3. pose proof (cos_large n z Hz k Hk) as D4.
  pose proof (NN_25 n k Hk) as N1. pose proof (s_lower n k Hk) as S3.
  pose proof (NN_n n) as EN. pose proof PI_RGT_0 as PI0.
  assert (rx : r < x0) by (rewrite Er; unfold x0; apply cos_dec; lra).
  assert (r0 : 0 < r) by (rewrite Er; apply cos_gt_0; lra).
  rewrite <- Er in *. fold x0 in S2, D3.
  set (st := sin (th n z k)) in *. set (sp := sin (phi n k)) in *. set (D := th n z k - phi n k) in *.
  set (N := NN n) in *. 
  assert (LN : INR n * (INR n + 1) <= N * N) by (rewrite EN; lra).
  assert (L0 : 0 <= INR n * (INR n + 1)) by (pose proof (pos_INR n); nra).
  assert (DS : 0 < D * st) by nra.
  split; [apply pow_m1_sq|]. split; [lra|]. split.
  { unfold x0. rewrite <- cos_0. apply cos_dec; lra. }
  split; [apply Hz; lia|]. split; [apply dP_sign; auto; lia|].
  split; [nra|]. split.
  { apply Rle_trans with (1.2 * (N * N) * ((D * st) * (D * st))).
    - apply Rmult_le_compat; try nra.
    - replace (1.2 * (N * N) * (D * st * (D * st))) with (1.2 * ((N * D) * (N * D)) * (st * st)) by ring.
      replace (1 - r * r) with (st * st) by lra. apply Rmult_le_compat_r; [nra|].
      assert (0 < N * D) by nra. nra. }
  split.
  { apply Rle_trans with (1.2 * (N * N) * (D * st)); [|exact D4]. apply Rmult_le_compat; try nra. }
  split.
  { intros x Hx. left. apply (right_sign n z Hz); [lia|apply Hx|]. destruct k as [|k']; [auto|right].
    apply Rle_lt_trans with x0; [apply Hx|].
    pose proof (next_below k' ltac:(lia)) as Q. unfold rt in Q.
    replace (n - S k')%nat with (n - 1 - k')%nat by lia. exact Q. }
  replace (1 - r * r) with (st * st) by lra.
  apply Rle_trans with ((N * sp) * (N * sp)); [nra|].
  replace (N * sp * (N * sp)) with ((N * N) * (sp * sp)) by ring.
  apply Rmult_le_compat; try nra.
Qed.

(** What the iteration for index k returns. *)
Definition gl_res (k : nat) (v : R * R) : Prop :=
  @gl_newton RS n 100 (gl_guess n k) = Some v /\
  rt k <= fst v <= cos (phi n k) /\ fst v - rt k <= eps52 /\ ((2 * k + 1)%nat = n -> fst v = 0) /\
  fst v < 1 /\ ((2 * k + 1 < n)%nat -> 0 < fst v) /\
  0 < @gl_w RS v /\
  Rabs (@gl_w RS v - gauss_w n (rt k)) <= 2 * ((INR n + 1) * (INR n + 1)) * eps52 * gauss_w n (rt k).

Lemma gl_w_real : forall v, @gl_w RS v = 2 / ((1 - fst v * fst v) * snd v * snd v).
Proof. reflexivity. Qed.

Lemma gl_iter : forall k, (2 * k + 1 <= n)%nat -> exists v, gl_res k v.
Proof.
  intros k Hk. pose proof eps52_pos as E0. destruct (Nat.eq_dec (2 * k + 1) n) as [E|E].
  - destruct (th_mid n z Hz k E) as (T1 & T2). 
    assert (R0 : rt k = 0).
    { unfold rt. rewrite <- (cos_th n z Hz k) by lia. rewrite T1. apply cos_PI2. }
    assert (P0 : Pn n 0 = 0) by (pose proof (proj2 (proj2 Hz) (n - 1 - k)%nat ltac:(lia)) as Q; fold (rt k) in Q; rewrite R0 in Q; exact Q).
    exists (0, dP n 0). unfold gl_res. cbn [fst snd]. rewrite gl_w_real. cbn [fst snd].
    rewrite gl_guess_real, T2, cos_PI2, R0. 
    pose proof (zero_slope n 0 ltac:(lia) P0) as ZS.
    split.
    { change 100%nat with (S 99). rewrite newton_unfold by lra. rewrite P0.
      replace (0 - 0 / dP n 0) with 0 by (unfold Rdiv; ring). rewrite Rminus_eq_0, Rabs_R0.
      rewrite Rleb_true by (fold eps52; lra). reflexivity. }
    split; [lra|]. split; [lra|]. split; [auto|]. split; [lra|]. split; [lia|].
    split; [apply Rdiv_lt_0_compat; lra|]. fold (gauss_w n 0). rewrite Rminus_eq_0, Rabs_R0.
    assert (0 < gauss_w n 0) by (apply Rdiv_lt_0_compat; lra). pose proof (pos_INR n).
    apply Rmult_le_pos; [|lra]. apply Rmult_le_pos; [|lra]. nra.
  - assert (Hk' : (2 * k + 1 < n)%nat) by lia.
    destruct (newton_hyps k Hk') as (SG & R0 & X0 & Zr & M0 & H1 & H2 & H3 & H4 & SL).
    destruct (newton_ok n (rt k) (cos (phi n k)) ((-1) ^ k) SG R0 X0 Zr M0 H1 H2 H3 H4 99 (cos (phi n k)))
      as (zz & zo & E1 & E2 & E3 & E4 & E5 & _); [lra| |].
    { apply Rle_trans with 1; [lra|]. replace (2 ^ 99) with (2 ^ 47 * 2 ^ 52) by (rewrite <- pow_add; reflexivity).
      rewrite Rmult_assoc, Rinv_r by (apply pow_nonzero; lra). rewrite Rmult_1_r. apply pow_R1_Rle. lra. }
    fold eps52 in E4, E5.
    destruct (weight_bounds n (rt k) (cos (phi n k)) ((-1) ^ k) zz zo eps52) as (W1 & W2); auto.
    exists (zz, dP n zo). unfold gl_res. cbn [fst snd]. rewrite gl_w_real. cbn [fst snd].
    rewrite gl_guess_real. split; [exact E1|]. split; [lra|]. split; [lra|]. split; [lia|]. split; [lra|].
    split; [intros _; lra|]. split; [auto|]. eapply Rle_trans; [exact W2|].
    pose proof (gauss_w_pos n z (n - 1 - k) ltac:(lia) Hz ltac:(lia)) as GP. fold (rt k) in GP.
    apply Rmult_le_compat_r; [lra|].
    assert (Pr : 0 < 1 - rt k * rt k) by nra.
    apply Rmult_le_reg_r with (1 - rt k * rt k); auto.
    replace (4.8 * eps52 / (1 - rt k * rt k) * (1 - rt k * rt k)) with (4.8 * eps52) by (field; lra).
    nra.
Qed.

Lemma gl_results : exists v, forall k, (k < n - n / 2)%nat -> gl_res k (v k).
Proof.
  apply (finite_choice _ gl_res (0, 0)). intros k Hk. apply gl_iter.
  destruct (Nat.odd n) eqn:Ho; [pose proof (odd_half n Ho)|pose proof (even_half n Ho)]; lia.
Qed.
End Roots.
