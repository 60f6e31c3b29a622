(** Trigonometric sums and polynomials in cos. *)
From Coq Require Import List Arith Lia Reals Lra Psatz.
From Verif Require Import Spec.Sums Spec.RealRules Proofs.Tab Proofs.SumFacts.
Import ListNotations.
Local Open Scope R_scope.

Lemma tele : forall n (F : nat -> R), Rsum (tab n (fun i => F (S i) - F i)) = F n - F 0%nat.
Proof.
  induction n; intro F. unfold Rsum; simpl; lra.
  rewrite Rsum_tab_S, IHn. lra.
Qed.

(** Sum of cosines in arithmetic progression. *)
Lemma cos_sum : forall n a y,
  2 * sin (y / 2) * Rsum (tab n (fun i => cos (a + INR i * y)))
  = sin (a + (INR n - 1 / 2) * y) - sin (a - y / 2).
Proof.
  intros n a y. rewrite <- Rsum_tab_mult_l.
  transitivity (Rsum (tab n (fun i => (fun j => sin (a + (INR j - 1 / 2) * y)) (S i)
     - (fun j => sin (a + (INR j - 1 / 2) * y)) i))).
  - apply Rsum_tab_ext. intros i _. cbv beta. rewrite S_INR.
    replace (a + (INR i + 1 - 1 / 2) * y) with ((a + INR i * y) + y / 2) by lra.
    replace (a + (INR i - 1 / 2) * y) with ((a + INR i * y) - y / 2) by lra.
    rewrite sin_plus, sin_minus. ring.
  - rewrite (tele n (fun j => sin (a + (INR j - 1 / 2) * y))). simpl INR.
    f_equal. f_equal. lra.
Qed.

Lemma sin_INR_PI : forall k, sin (INR k * PI) = 0.
Proof.
  induction k. simpl. rewrite Rmult_0_l. apply sin_0.
  rewrite S_INR, Rmult_plus_distr_r, Rmult_1_l, neg_sin, IHk. lra.
Qed.

Lemma sin_ne : forall k N, (0 < k < 2 * N)%nat -> sin (INR k * PI / INR N / 2) <> 0.
Proof.
  intros k N H. assert (0 < INR N) by (apply lt_0_INR; lia).
  assert (0 < INR k) by (apply lt_0_INR; lia).
  assert (INR k < 2 * INR N) by (change 2 with (INR 2); rewrite <- mult_INR; apply lt_INR; lia).
  pose proof PI_RGT_0. apply Rgt_not_eq. apply sin_gt_0.
  - apply Rmult_lt_0_compat; [|lra]. apply Rmult_lt_0_compat; [nra|].
    apply Rinv_0_lt_compat; auto.
  - replace PI with (2 * INR N * PI / INR N / 2) at 2 by (field; lra).
    apply Rmult_lt_compat_r; [lra|]. apply Rmult_lt_compat_r; [apply Rinv_0_lt_compat; auto|]. nra.
Qed.

(** midpoints: sum over theta_i = (2i+1) PI/(2N), i < N *)
Lemma cos_mid : forall k N, (0 < k < 2 * N)%nat ->
  Rsum (tab N (fun i => cos (INR k * ((2 * INR i + 1) * PI / (2 * INR N))))) = 0.
Proof.
  intros k N H. assert (0 < INR N) by (apply lt_0_INR; lia).
  pose proof (sin_ne k N H) as Hs. set (y := INR k * PI / INR N) in *.
  apply Rmult_eq_reg_l with (2 * sin (y / 2)); [|lra]. rewrite Rmult_0_r.
  rewrite (Rsum_tab_ext _ _ (fun i => cos (y / 2 + INR i * y))).
  2:{ intros i _. f_equal. unfold y. field. lra. }
  rewrite cos_sum. replace (y / 2 + (INR N - 1 / 2) * y) with (INR k * PI) by (unfold y; field; lra).
  rewrite sin_INR_PI. replace (y / 2 - y / 2) with 0 by lra. rewrite sin_0. lra.
Qed.

(** trapezoid: sum over i PI/N, 0 < i < N *)
Lemma cos_trap : forall k N, (0 < k < 2 * N)%nat ->
  Rsum (tab (N - 1) (fun i => cos (INR k * (INR (i + 1) * PI / INR N)))) = - (1 + cos (INR k * PI)) / 2.
Proof.
  intros k N H. assert (0 < INR N) by (apply lt_0_INR; lia).
  pose proof (sin_ne k N H) as Hs. set (y := INR k * PI / INR N) in *.
  apply Rmult_eq_reg_l with (2 * sin (y / 2)); [|lra].
  rewrite (Rsum_tab_ext _ _ (fun i => cos (y + INR i * y))).
  2:{ intros i _. f_equal. rewrite plus_INR. simpl (INR 1). unfold y. field. lra. }
  rewrite cos_sum. rewrite minus_INR by lia. simpl (INR 1).
  replace (y + (INR N - 1 - 1 / 2) * y) with (INR k * PI - y / 2) by (unfold y; field; lra).
  rewrite sin_minus, sin_INR_PI. replace (y - y / 2) with (y / 2) by lra. lra.
Qed.

(** third kind: (2i+1) PI/(2n+1), i < n *)
Lemma cos_third : forall k n, (0 < k < 2 * n + 1)%nat ->
  Rsum (tab n (fun i => cos (INR k * ((2 * INR i + 1) * PI / INR (2 * n + 1))))) = - cos (INR k * PI) / 2.
Proof.
  intros k n H. assert (Hp : 0 < INR (2 * n + 1)) by (apply lt_0_INR; lia).
  assert (Hs : sin (INR (2 * k) * PI / INR (2 * n + 1) / 2) <> 0) by (apply sin_ne; lia).
  rewrite mult_INR in Hs. change (INR 2) with 2 in Hs.
  set (y := 2 * INR k * PI / INR (2 * n + 1)).
  apply Rmult_eq_reg_l with (2 * sin (y / 2)); [|fold y in Hs; lra].
  rewrite (Rsum_tab_ext _ _ (fun i => cos (y / 2 + INR i * y))).
  2:{ intros i _. f_equal. unfold y. field. lra. }
  rewrite cos_sum.
  replace (y / 2 + (INR n - 1 / 2) * y) with (INR k * PI - y / 2).
  2:{ unfold y. rewrite plus_INR, mult_INR. change (INR 2) with 2. simpl (INR 1).
      rewrite plus_INR, mult_INR in Hp. change (INR 2) with 2 in Hp. simpl (INR 1) in Hp. field. lra. }
  rewrite sin_minus, sin_INR_PI. replace (y / 2 - y / 2) with 0 by lra. rewrite sin_0. lra.
Qed.

(** Cosine polynomials. *)
Definition cpoly (d : nat) (c : nat -> R) (t : R) : R := Rsum (tab (S d) (fun k => c k * cos (INR k * t))).

Definition is_cpoly (d : nat) (F : R -> R) : Prop := exists c, forall t, F t = cpoly d c t.

Lemma cpoly_mon : forall d d' F, (d <= d')%nat -> is_cpoly d F -> is_cpoly d' F.
Proof.
  intros d d' F Hd (c & H). exists (fun k => if (k <=? d)%nat then c k else 0).
  intro t. rewrite H. unfold cpoly. replace (S d') with (S d + (d' - d))%nat by lia.
  rewrite tab_app, Rsum_app.
  rewrite (Rsum_tab_ext (d' - d) _ (fun _ => 0)).
  - rewrite Rsum_tab_const, Rmult_0_r, Rplus_0_r. apply Rsum_tab_ext. intros i Hi.
    destruct (Nat.leb_spec i d); [auto|lia].
  - intros i Hi. destruct (Nat.leb_spec (S d + i) d); [lia|]. lra.
Qed.

Lemma cpoly_const : forall a, is_cpoly 0 (fun _ => a).
Proof.
  intro a. exists (fun _ => a). intro t. unfold cpoly, Rsum. simpl.
  rewrite Rmult_0_l, cos_0. lra.
Qed.

Lemma cpoly_plus : forall d F G, is_cpoly d F -> is_cpoly d G -> is_cpoly d (fun t => F t + G t).
Proof.
  intros d F G (c & Hc) (e & He). exists (fun k => c k + e k). intro t. rewrite Hc, He.
  unfold cpoly. rewrite <- Rsum_tab_plus. apply Rsum_tab_ext. intros. lra.
Qed.

Lemma cpoly_scal : forall d a F, is_cpoly d F -> is_cpoly d (fun t => a * F t).
Proof.
  intros d a F (c & Hc). exists (fun k => a * c k). intro t. rewrite Hc.
  unfold cpoly. rewrite <- Rsum_tab_mult_l. apply Rsum_tab_ext. intros. lra.
Qed.

Lemma cpoly_cosk : forall k, is_cpoly k (fun t => cos (INR k * t)).
Proof.
  intro k. exists (fun i => if (i =? k)%nat then 1 else 0). intro t. unfold cpoly.
  rewrite Rsum_tab_S, Nat.eqb_refl.
  rewrite (Rsum_tab_ext k _ (fun _ => 0)). rewrite Rsum_tab_const. lra.
  intros i Hi. destruct (Nat.eqb_spec i k); [lia|]. lra.
Qed.

Lemma cpoly_ext : forall d F G, (forall t, F t = G t) -> is_cpoly d F -> is_cpoly d G.
Proof. intros d F G H (c & Hc). exists c. intro t. rewrite <- H. auto. Qed.

Lemma cpoly_sum : forall d n (F : nat -> R -> R), (forall k, (k < n)%nat -> is_cpoly d (F k)) ->
  is_cpoly d (fun t => Rsum (tab n (fun k => F k t))).
Proof.
  induction n; intros F H.
  - apply (cpoly_mon 0); [lia|]. apply (cpoly_const 0).
  - apply (cpoly_ext d (fun t => Rsum (tab n (fun k => F k t)) + F n t)).
    + intro t. rewrite Rsum_tab_S. auto.
    + apply cpoly_plus; auto.
Qed.

Lemma cpoly_cos : forall d F, is_cpoly d F -> is_cpoly (S d) (fun t => cos t * F t).
Proof.
  intros d F (c & Hc).
  apply (cpoly_ext (S d) (fun t => Rsum (tab (S d) (fun k => c k * (cos t * cos (INR k * t)))))).
  { intro t. rewrite Hc. unfold cpoly. rewrite <- Rsum_tab_mult_l. apply Rsum_tab_ext. intros; lra. }
  apply cpoly_sum. intros k Hk. apply cpoly_scal.
  destruct k.
  - apply (cpoly_ext (S d) (fun t => cos (INR 1 * t))).
    + intro t. simpl. rewrite Rmult_0_l, cos_0, Rmult_1_l. lra.
    + apply (cpoly_mon 1); [lia|]. apply cpoly_cosk.
  - apply (cpoly_ext (S d) (fun t => / 2 * (cos (INR (S (S k)) * t) + cos (INR k * t)))).
    + intro t. rewrite !S_INR.
      replace ((INR k + 1 + 1) * t) with ((INR k + 1) * t + t) by ring.
      replace (INR k * t) with ((INR k + 1) * t - t) by ring.
      rewrite cos_plus, cos_minus. lra.
    + apply cpoly_scal. apply cpoly_plus.
      * apply (cpoly_mon (S (S k))); [lia|]. apply cpoly_cosk.
      * apply (cpoly_mon k); [lia|]. apply cpoly_cosk.
Qed.

(** A polynomial of degree d at (a + b cos t) is a cosine polynomial of degree d. *)
Lemma poly_cos : forall a b p d, deg_le p d -> is_cpoly d (fun t => peval p (a + b * cos t)).
Proof.
  intros a b. induction p as [|x p IH]; intros d H.
  - apply (cpoly_mon 0); [lia|]. exact (cpoly_const 0).
  - unfold deg_le in *. simpl in H.
    destruct d.
    + destruct p; [|simpl in H; lia].
      apply (cpoly_ext 0 (fun _ => x)). intro t; simpl; lra. apply cpoly_const.
    + specialize (IH d ltac:(lia)).
      apply (cpoly_ext (S d) (fun t => x + (a * peval p (a + b * cos t)
         + b * (cos t * peval p (a + b * cos t))))).
      { intro t. simpl. ring. }
      apply cpoly_plus. apply (cpoly_mon 0); [lia|]; apply cpoly_const.
      apply cpoly_plus; [apply (cpoly_mon d); [lia|]; apply cpoly_scal; auto|].
      apply cpoly_scal, cpoly_cos; auto.
Qed.

Lemma cpoly_split : forall d c t,
  cpoly d c t = c 0%nat + Rsum (tab d (fun k => c (S k) * cos (INR (S k) * t))).
Proof.
  intros d c t. unfold cpoly. rewrite tab_S_l. unfold Rsum at 1. simpl.
  rewrite Rmult_0_l, cos_0, Rmult_1_r. reflexivity.
Qed.

Lemma Rsum_tab_swap : forall n m (f : nat -> nat -> R),
  Rsum (tab n (fun i => Rsum (tab m (fun k => f i k)))) = Rsum (tab m (fun k => Rsum (tab n (fun i => f i k)))).
Proof. intros. unfold tab. apply Rsum_swap. Qed.

(** Sum of a cosine polynomial over any set of abscissas. *)
Lemma cpoly_nodes : forall d c n (th : nat -> R),
  Rsum (tab n (fun i => cpoly d c (th i)))
  = INR n * c 0%nat + Rsum (tab d (fun k => c (S k) * Rsum (tab n (fun i => cos (INR (S k) * th i))))).
Proof.
  intros d c n th.
  rewrite (Rsum_tab_ext n _ (fun i => c 0%nat + Rsum (tab d (fun k => c (S k) * cos (INR (S k) * th i)))))
    by (intros; apply cpoly_split).
  rewrite Rsum_tab_plus, Rsum_tab_const. f_equal. rewrite Rsum_tab_swap.
  apply Rsum_tab_ext. intros k _. apply Rsum_tab_mult_l.
Qed.

Lemma mid_rule : forall d N c, (0 < N)%nat -> (d < 2 * N)%nat ->
  Rsum (tab N (fun i => cpoly d c ((2 * INR i + 1) * PI / (2 * INR N)))) = INR N * c 0%nat.
Proof.
  intros d N c HN Hd. rewrite cpoly_nodes.
  rewrite (Rsum_tab_ext d _ (fun _ => 0)). rewrite Rsum_tab_const; lra.
  intros k Hk. rewrite cos_mid by lia. lra.
Qed.

Lemma cpoly_0 : forall d c, cpoly d c 0 = c 0%nat + Rsum (tab d (fun k => c (S k))).
Proof.
  intros. rewrite cpoly_split. f_equal. apply Rsum_tab_ext. intros. rewrite Rmult_0_r, cos_0. lra.
Qed.

Lemma trap_rule : forall d N c, (0 < N)%nat -> (d < 2 * N)%nat ->
  Rsum (tab (N - 1) (fun i => cpoly d c (INR (i + 1) * PI / INR N)))
  = INR N * c 0%nat - (cpoly d c 0 + cpoly d c PI) / 2.
Proof.
  intros d N c HN Hd. rewrite cpoly_nodes, cpoly_0, cpoly_split.
  rewrite (Rsum_tab_ext d _ (fun k => - / 2 * (c (S k) + c (S k) * cos (INR (S k) * PI)))).
  2:{ intros k Hk. rewrite cos_trap by lia. lra. }
  rewrite Rsum_tab_mult_l, Rsum_tab_plus, minus_INR by lia. simpl (INR 1). lra.
Qed.

Lemma third_rule : forall d n c, (d < 2 * n + 1)%nat ->
  Rsum (tab n (fun i => cpoly d c ((2 * INR i + 1) * PI / INR (2 * n + 1))))
  = (INR n + / 2) * c 0%nat - cpoly d c PI / 2.
Proof.
  intros d n c Hd. rewrite cpoly_nodes, cpoly_split.
  rewrite (Rsum_tab_ext d _ (fun k => - / 2 * (c (S k) * cos (INR (S k) * PI)))).
  2:{ intros k Hk. rewrite cos_third by lia. lra. }
  rewrite Rsum_tab_mult_l. lra.
Qed.
