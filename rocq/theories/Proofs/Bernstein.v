(** Approximation of Lipschitz and of continuous functions by polynomials (Bernstein). *)
From Coq Require Import List Bool Arith ZArith Lia Reals Lra Psatz.
From Coquelicot Require Import Coquelicot.
From Verif Require Import Spec.Sums Spec.RealRules Spec.ErrorSpec Proofs.Legendre.
Import ListNotations.
Local Open Scope R_scope.

(** Mean of g over the position after n steps from j, each step upwards with probability y. *)
Fixpoint walk (n : nat) (g : nat -> R) (j : nat) (y : R) : R :=
  match n with O => g j | S n => (1 - y) * walk n g j y + y * walk n g (S j) y end.

Lemma walk_poly : forall n g j, ispoly (S n) (walk n g j).
Proof.
  induction n as [|n IH]; intros g j; [apply ispoly_const|].
  apply (ispoly_ext _ (fun y => walk n g j y + (-1 * (y * walk n g j y) + y * walk n g (S j) y))).
  - apply ispoly_add; [apply (ispoly_weaken (S n)); auto|]. apply ispoly_add; [apply ispoly_scal|]; apply ispoly_x; auto.
  - intro y. cbn [walk]. ring.
Qed.

Lemma walk_le : forall n g h j y, 0 <= y <= 1 -> (forall i, (j <= i <= j + n)%nat -> g i <= h i) -> walk n g j y <= walk n h j y.
Proof.
  induction n as [|n IH]; intros g h j y Hy H; cbn [walk]; [apply H; lia|].
  apply Rplus_le_compat; apply Rmult_le_compat_l; try lra; apply IH; auto; intros; apply H; lia.
Qed.

Lemma walk_lin : forall n g h a b j y, walk n (fun i => a * g i + b * h i) j y = a * walk n g j y + b * walk n h j y.
Proof. induction n as [|n IH]; intros; cbn [walk]; [reflexivity|]. rewrite !IH. ring. Qed.

Lemma walk_one : forall n c j y, walk n (fun _ => c) j y = c.
Proof. induction n as [|n IH]; intros; cbn [walk]; [reflexivity|]. rewrite !IH. ring. Qed.

Lemma walk_ext : forall n g h j y, (forall i, (j <= i <= j + n)%nat -> g i = h i) -> walk n g j y = walk n h j y.
Proof.
  induction n as [|n IH]; intros g h j y H; cbn [walk]; [apply H; lia|]. rewrite (IH g h j), (IH g h (S j)); auto; intros; apply H; lia.
Qed.

(** Second moment about any value c. *)
Lemma walk_mean : forall n j y, walk n INR j y = INR j + INR n * y.
Proof. induction n as [|n IH]; intros; cbn [walk]; [simpl; ring|]. rewrite !IH, !S_INR. ring. Qed.

Lemma walk_square : forall n j y, walk n (fun i => INR i * INR i) j y = INR n * y * (1 - y) + (INR j + INR n * y) * (INR j + INR n * y).
Proof. induction n as [|n IH]; intros; cbn [walk]; [simpl; ring|]. rewrite !IH, !S_INR. ring. Qed.

Lemma walk_var : forall n y, (1 <= n)%nat -> walk n (fun i => (INR i / INR n - y) * (INR i / INR n - y)) 0 y = y * (1 - y) / INR n.
Proof.
  intros n y Hn. assert (N : 0 < INR n) by (apply (lt_INR 0); lia).
  rewrite (walk_ext n _ (fun i => 1 * (/ (INR n * INR n) * (INR i * INR i) + (- 2 * y / INR n) * INR i) + y * y * 1)).
  2:{ intros i _. field. lra. }
  rewrite (walk_lin n (fun i => / (INR n * INR n) * (INR i * INR i) + (- 2 * y / INR n) * INR i) (fun _ => 1) 1 (y * y)).
  rewrite (walk_lin n (fun i => INR i * INR i) INR), walk_one, walk_mean, walk_square. simpl (INR 0). field. lra.
Qed.

Lemma walk_abs : forall n g j y, 0 <= y <= 1 -> Rabs (walk n g j y) <= walk n (fun i => Rabs (g i)) j y.
Proof.
  intros n g j y Hy. apply Rabs_le. split.
  - rewrite <- (Rmult_1_l (walk n (fun i => Rabs (g i)) j y)), Ropp_mult_distr_l.
    replace (- (1) * walk n (fun i => Rabs (g i)) j y) with (walk n (fun i => -1 * Rabs (g i) + 0 * Rabs (g i)) j y) by (rewrite walk_lin; ring).
    apply walk_le; auto. intros i _. pose proof (Rle_abs (- g i)). rewrite Rabs_Ropp in H. lra.
  - apply walk_le; auto. intros. apply Rle_abs.
Qed.

(** Lipschitz functions on [0,1]. *)
Lemma bern_lip : forall n (f : R -> R) L y, (1 <= n)%nat -> lipschitz 0 1 L f -> 0 <= L -> 0 <= y <= 1 ->
  Rabs (f y - walk n (fun i => f (INR i / INR n)) 0 y) <= L / (2 * sqrt (INR n)).
Proof.
  intros n f L y Hn HL L0 Hy. assert (N : 0 < INR n) by (apply (lt_INR 0); lia).
  assert (Q : 0 < sqrt (INR n)) by (apply sqrt_lt_R0; auto). assert (QQ : sqrt (INR n) * sqrt (INR n) = INR n) by (apply sqrt_sqrt; lra).
  set (s := / (2 * sqrt (INR n))).
  assert (S0 : 0 < s) by (apply Rinv_0_lt_compat; lra).
  replace (f y - walk n (fun i => f (INR i / INR n)) 0 y) with (walk n (fun i => f y * 1 + -1 * f (INR i / INR n)) 0 y).
  2:{ rewrite (walk_lin n (fun _ => 1)), walk_one. ring. }
  eapply Rle_trans; [apply walk_abs; auto|].
  eapply Rle_trans; [apply (walk_le n _ (fun i => L / (2 * s) * ((INR i / INR n - y) * (INR i / INR n - y)) + L * s / 2 * 1)); auto|].
  - intros i Hi. assert (I : 0 <= INR i / INR n <= 1).
    { split; [apply Rmult_le_pos; [apply pos_INR|left; apply Rinv_0_lt_compat; auto]|].
      apply Rmult_le_reg_r with (INR n); auto. unfold Rdiv. rewrite Rmult_assoc, Rinv_l by lra. rewrite Rmult_1_l, Rmult_1_r. apply le_INR. lia. }
    replace (f y * 1 + -1 * f (INR i / INR n)) with (f y - f (INR i / INR n)) by ring.
    eapply Rle_trans; [apply HL; auto|]. rewrite Rabs_minus_sym. set (v := INR i / INR n - y) in *.
    replace (L / (2 * s) * (v * v) + L * s / 2 * 1) with (L * ((v * v / s + s) / 2)) by (field; lra).
    apply Rmult_le_compat_l; auto.
    assert (E : 2 * (Rabs v * s) <= v * v + s * s).
    { pose proof (Rle_0_sqr (Rabs v - s)) as P. unfold Rsqr in P. pose proof (Rabs_mult v v) as A.
      rewrite (Rabs_pos_eq (v * v)) in A by nra. nra. }
    apply Rmult_le_reg_r with (2 * s); [lra|]. replace ((v * v / s + s) / 2 * (2 * s)) with (v * v + s * s) by (field; lra). lra.
  - rewrite (walk_lin n (fun i => (INR i / INR n - y) * (INR i / INR n - y)) (fun _ => 1)), walk_one, walk_var by auto.
    assert (E : L / (2 * s) * (y * (1 - y) / INR n) <= L / (2 * s) * (/ (4 * INR n))).
    { apply Rmult_le_compat_l; [apply Rmult_le_pos; auto; left; apply Rinv_0_lt_compat; lra|].
      unfold Rdiv. rewrite Rinv_mult. apply Rmult_le_compat_r; [left; apply Rinv_0_lt_compat; auto|]. pose proof (Rle_0_sqr (y - / 2)) as P. unfold Rsqr in P. lra. }
    eapply Rle_trans; [apply Rplus_le_compat_r, E|]. apply Req_le. unfold s. rewrite <- QQ at 2. field. lra.
Qed.

(** Continuous functions on [0,1]. *)
Lemma bern_cont : forall (f : R -> R) e, 0 < e -> (forall x, 0 <= x <= 1 -> continuous f x) ->
  exists n0, forall n y, (n0 <= n)%nat -> (1 <= n)%nat -> 0 <= y <= 1 -> Rabs (f y - walk n (fun i => f (INR i / INR n)) 0 y) <= e.
Proof.
  intros f e He C.
  assert (C' : forall x, 0 <= x <= 1 -> continuity_pt f x) by (intros x Hx; apply continuity_pt_filterlim, C, Hx).
  destruct (continuity_ab_maj (fun x => Rabs (f x)) 0 1 ltac:(lra)) as (xm & HM & _).
  { intros x Hx. apply (continuity_pt_comp f Rabs); auto. apply Rcontinuity_abs. }
  set (K := Rabs (f xm)). assert (K0 : 0 <= K) by apply Rabs_pos.
  destruct (unifcont_1d f 0 1 C (mkposreal (e / 2) ltac:(lra))) as (dl & Hd).
  assert (D0 := cond_pos dl). set (d := pos dl) in *.
  destruct (nfloor_ex (2 * K / (d * d * e))) as (n0 & Hn0).
  { apply Rmult_le_pos; [lra|]. left. apply Rinv_0_lt_compat. apply Rmult_lt_0_compat; auto. apply Rmult_lt_0_compat; auto. }
  exists (S n0). intros n y Hn n1 Hy. assert (N : 0 < INR n) by (apply (lt_INR 0); lia).
  replace (f y - walk n (fun i => f (INR i / INR n)) 0 y) with (walk n (fun i => f y * 1 + -1 * f (INR i / INR n)) 0 y).
  2:{ rewrite (walk_lin n (fun _ => 1)), walk_one. ring. }
  eapply Rle_trans; [apply walk_abs; auto|].
  eapply Rle_trans; [apply (walk_le n _ (fun i => 2 * K / (d * d) * ((INR i / INR n - y) * (INR i / INR n - y)) + e / 2 * 1)); auto|].
  - intros i Hi. assert (I : 0 <= INR i / INR n <= 1).
    { split; [apply Rmult_le_pos; [apply pos_INR|left; apply Rinv_0_lt_compat; auto]|].
      apply Rmult_le_reg_r with (INR n); auto. unfold Rdiv. rewrite Rmult_assoc, Rinv_l by lra. rewrite Rmult_1_l, Rmult_1_r. apply le_INR. lia. }
    replace (f y * 1 + -1 * f (INR i / INR n)) with (f y - f (INR i / INR n)) by ring.
    set (v := INR i / INR n - y) in *.
    assert (DD : 0 < d * d) by (apply Rmult_lt_0_compat; auto).
    assert (T : 0 <= 2 * K / (d * d) * (v * v)).
    { apply Rmult_le_pos; [apply Rmult_le_pos; [lra|left; apply Rinv_0_lt_compat; auto]|nra]. }
    destruct (Rlt_dec (Rabs v) d) as [Near|Far].
    + pose proof (Hd y (INR i / INR n) Hy I Near) as B. simpl in B. unfold ball in B; simpl in B. unfold AbsRing_ball, abs, minus, plus, opp in B; simpl in B.
      rewrite Rabs_minus_sym. unfold Rminus. lra.
    + assert (A : Rabs (f y - f (INR i / INR n)) <= 2 * K).
      { eapply Rle_trans; [apply Rabs_triang|]. rewrite Rabs_Ropp. pose proof (HM y Hy). pose proof (HM _ I). unfold K. lra. }
      assert (V : d * d <= v * v).
      { apply Rnot_lt_le in Far. pose proof (Rabs_mult v v) as Q. rewrite (Rabs_pos_eq (v * v)) in Q by nra. rewrite Q. apply Rmult_le_compat; lra. }
      assert (B : 2 * K <= 2 * K / (d * d) * (v * v)).
      { apply Rmult_le_reg_r with (d * d); auto. replace (2 * K / (d * d) * (v * v) * (d * d)) with (2 * K * (v * v)) by (field; lra).
        apply Rmult_le_compat_l; lra. }
      lra.
  - rewrite (walk_lin n (fun i => (INR i / INR n - y) * (INR i / INR n - y)) (fun _ => 1)), walk_one, walk_var by auto.
    assert (DD : 0 < d * d) by (apply Rmult_lt_0_compat; auto).
    assert (E : 2 * K / (d * d) * (y * (1 - y) / INR n) <= 2 * K / (d * d) * (/ (4 * INR n))).
    { apply Rmult_le_compat_l; [apply Rmult_le_pos; [lra|left; apply Rinv_0_lt_compat; lra]|].
      unfold Rdiv. rewrite Rinv_mult. apply Rmult_le_compat_r; [left; apply Rinv_0_lt_compat; auto|]. pose proof (Rle_0_sqr (y - / 2)) as P. unfold Rsqr in P. lra. }
    assert (B : 2 * K / (d * d * e) <= INR n).
    { destruct Hn0 as (_ & Hn0). apply le_INR in Hn. rewrite S_INR in Hn. lra. }
    assert (G : 2 * K / (d * d) <= INR n * e).
    { apply Rmult_le_compat_r with (r := e) in B; [|lra]. replace (2 * K / (d * d * e) * e) with (2 * K / (d * d)) in B by (field; lra). lra. }
    assert (H : 2 * K / (d * d) * (/ (4 * INR n)) <= INR n * e * (/ (4 * INR n))).
    { apply Rmult_le_compat_r; auto. left. apply Rinv_0_lt_compat. lra. }
    replace (INR n * e * (/ (4 * INR n))) with (e / 4) in H by (field; lra). lra.
Qed.

(** On any interval. *)
Lemma walk_affine : forall n g al be, be <> 0 -> exists p, (length p <= S n)%nat /\ forall x, peval p x = walk n g 0 ((x - al) / be).
Proof.
  intros n g al be Hb.
  assert (G : forall d f, ispoly d f -> ispoly d (fun x => f ((x - al) / be))).
  { intros d f (p & L & E). revert d f L E. induction p as [|a p IH]; intros d f L E.
    - exists []. split; [simpl; lia|]. intro. rewrite E. reflexivity.
    - destruct d as [|d]; [simpl in L; lia|]. simpl in L.
      specialize (IH d (peval p) ltac:(lia) (fun x => eq_refl)).
      apply (ispoly_ext _ (fun x => a + (/ be * (x * peval p ((x - al) / be)) + - al / be * peval p ((x - al) / be)))).
      + apply ispoly_add; [apply (ispoly_weaken 1); [apply ispoly_const|lia]|].
        apply ispoly_add; [apply ispoly_scal, (ispoly_x d (fun x => peval p ((x - al) / be))); auto|].
        apply (ispoly_weaken d); [apply ispoly_scal; auto|lia].
      + intro x. rewrite E. cbn [peval]. field. auto. }
  destruct (G (S n) (walk n g 0) (walk_poly n g 0)) as (p & L & E). exists p. split; [exact L|]. intro x. rewrite <- E. reflexivity.
Qed.

Theorem lip_approx : forall n a b L f, (1 <= n)%nat -> a < b -> lipschitz a b L f ->
  exists p, (length p <= S n)%nat /\ within a b (L * (b - a) / (2 * sqrt (INR n))) f (peval p).
Proof.
  intros n a b L f Hn ab HL. set (g := fun i => f (a + (b - a) * (INR i / INR n))).
  destruct (walk_affine n g a (b - a) ltac:(lra)) as (p & Lp & E). exists p. split; auto. intros x Hx. rewrite E.
  assert (L0 : 0 <= L).
  { specialize (HL a b ltac:(lra) ltac:(lra)). rewrite (Rabs_minus_sym a b), (Rabs_pos_eq (b - a)) in HL by lra.
    pose proof (Rabs_pos (f a - f b)). apply Rmult_le_reg_r with (b - a); lra. }
  set (y := (x - a) / (b - a)). assert (Ex : x = a + (b - a) * y) by (unfold y; field; lra).
  assert (Hy : 0 <= y <= 1).
  { unfold y. split; apply Rmult_le_reg_r with (b - a); try lra; unfold Rdiv; rewrite Rmult_assoc, Rinv_l by lra; lra. }
  rewrite Ex. apply (bern_lip n (fun y => f (a + (b - a) * y)) (L * (b - a)) y); auto.
  - intros u v Hu Hv. eapply Rle_trans; [apply HL; nra|]. replace (a + (b - a) * u - (a + (b - a) * v)) with ((b - a) * (u - v)) by ring.
    rewrite Rabs_mult, (Rabs_pos_eq (b - a)) by lra. lra.
  - apply Rmult_le_pos; lra.
Qed.

Theorem cont_approx : forall a b f e, a < b -> 0 < e -> (forall x, a <= x <= b -> continuous f x) ->
  exists n0, forall n, (n0 <= n)%nat -> (1 <= n)%nat -> exists p, (length p <= S n)%nat /\ within a b e f (peval p).
Proof.
  intros a b f e ab He C.
  destruct (bern_cont (fun y => f (a + (b - a) * y)) e He) as (n0 & H).
  { intros x Hx. apply (continuous_comp (fun y => a + (b - a) * y) f).
    - apply (ex_derive_continuous (K := R_AbsRing) (V := R_NormedModule)). auto_derive; auto.
    - apply C. nra. }
  exists n0. intros n Hn n1. set (g := fun i => f (a + (b - a) * (INR i / INR n))).
  destruct (walk_affine n g a (b - a) ltac:(lra)) as (p & Lp & E). exists p. split; auto. intros x Hx. rewrite E.
  set (y := (x - a) / (b - a)). assert (Ex : x = a + (b - a) * y) by (unfold y; field; lra).
  assert (Hy : 0 <= y <= 1).
  { unfold y. split; apply Rmult_le_reg_r with (b - a); try lra; unfold Rdiv; rewrite Rmult_assoc, Rinv_l by lra; lra. }
  rewrite Ex. apply (H n y); auto.
Qed.
