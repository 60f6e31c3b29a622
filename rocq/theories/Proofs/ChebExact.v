(** Exactness of the Gauss-Chebyshev rules. *)
From Coq Require Import List Bool Arith ZArith Lia Reals Lra Psatz.
From Coquelicot Require Import Coquelicot.
From Verif Require Import Base.Outcome Base.Scalar Base.RScalar Model.Primitive
  Spec.Sums Spec.RealRules Proofs.Tab Proofs.SumFacts Proofs.PrimitiveFacts Proofs.TrigSums
  Proofs.ChebReal Proofs.ChebInt.
Import ListNotations.
Local Open Scope R_scope.

Lemma rule_tab : forall n (x w : nat -> R) f,
  apply_rule (tab n x, tab n w) f = Rsum (tab n (fun i => w i * f (x i))).
Proof. intros. unfold apply_rule. cbn [fst snd]. apply wsum_tab. Qed.

Lemma continuous_cosp : forall p a b t, continuous (fun t => peval p (a + b * cos t)) t.
Proof.
  intros p a b t. apply (continuous_comp (fun t => a + b * cos t) (peval p)).
  - apply (ex_derive_continuous (K := R_AbsRing) (V := R_NormedModule)). auto_derive; auto.
  - apply continuous_peval.
Qed.

Lemma sqrt_1mx2_pos : forall x, -1 < x < 1 -> 0 < sqrt (1 - x * x).
Proof. intros. apply sqrt_lt_R0. nra. Qed.

Lemma continuous_s : forall x, continuous (fun x => sqrt (1 - x * x)) x.
Proof.
  intros x. apply (continuous_comp (fun x => 1 - x * x) sqrt).
  - apply (ex_derive_continuous (K := R_AbsRing) (V := R_NormedModule)). auto_derive; auto.
  - apply continuous_sqrt.
Qed.

Lemma improper_at : forall al be a b f h I, a = al - be -> b = al + be -> 0 < be ->
  (forall t, 0 < t < PI -> be * sin t * f (al + be * cos t) = h t) ->
  (forall x, a < x < b -> continuous f x) -> (forall t, continuous h t) ->
  is_RInt h 0 PI I -> open_integral f a b I.
Proof. intros al be a b f h I -> ->. apply improper. Qed.

Lemma gc1_exact : forall n p q, (1 <= n)%nat -> @gc1_generate RS n = Ok q -> deg_le p (2 * n - 1) ->
  open_integral (fun x => peval p x / sqrt (1 - x * x)) (-1) 1
    (apply_rule q (fun x => peval p x / sqrt (1 - x * x))).
Proof.
  intros n p q Hn H Hp. rewrite gc1_real in H. injection H as <-.
  destruct (poly_cos 0 1 p _ Hp) as (c & Hc).
  pose proof (INR_pos n ltac:(lia)) as Pn.
  assert (E : apply_rule (tab n (fun j => cos (th1 n j)), tab n (fun j => PI / INR n * sin (th1 n j)))
     (fun x => peval p x / sqrt (1 - x * x)) = PI * c 0%nat).
  { rewrite rule_tab.
    rewrite (Rsum_tab_ext n _ (fun j => PI / INR n * cpoly (2 * n - 1) c (th1 n j))).
    2:{ intros j Hj. pose proof (th1_range n j Hj). rewrite <- Hc, Rplus_0_l, Rmult_1_l.
        rewrite sin_sqrt by lra. assert (0 < sin (th1 n j)) by (apply sin_gt_0; lra). field. lra. }
    rewrite Rsum_tab_mult_l. unfold th1.
    rewrite (Rsum_tab_rev n (fun i => cpoly (2 * n - 1) c ((2 * INR i + 1) * PI / (2 * INR n)))).
    rewrite mid_rule by lia. field. lra. }
  rewrite E. 
  apply (improper_at 0 1) with (h := fun t => peval p (0 + 1 * cos t)); try lra.

  - intros t Ht. rewrite Rplus_0_l, !Rmult_1_l, sin_sqrt by lra.
    assert (0 < sin t) by (apply sin_gt_0; lra). field. lra.
  - intros x Hx. apply (continuous_mult (K := R_AbsRing)). apply continuous_peval.
    apply continuous_Rinv_comp. apply continuous_s. apply Rgt_not_eq, sqrt_1mx2_pos. lra.
  - intro t. apply continuous_cosp.
  - eapply is_RInt_ext; [|apply is_RInt_cpoly]. intros; symmetry; apply Hc.
Qed.

Lemma sin2_cpoly : forall d F, is_cpoly d F -> is_cpoly (S (S d)) (fun t => sin t * sin t * F t).
Proof.
  intros d F H. apply (cpoly_ext _ (fun t => F t + -1 * (cos t * (cos t * F t)))).
  - intro t. pose proof (sin2 t) as E. unfold Rsqr in E. rewrite E. ring.
  - apply cpoly_plus. apply (cpoly_mon d); auto. apply cpoly_scal. do 2 apply cpoly_cos. auto.
Qed.

Lemma gc2_exact : forall n p q, (1 <= n)%nat -> @gc2_generate RS n = Ok q -> deg_le p (2 * n - 1) ->
  is_RInt (fun x => peval p x * sqrt (1 - x * x)) (-1) 1
    (apply_rule q (fun x => peval p x * sqrt (1 - x * x))).
Proof.
  intros n p q Hn H Hp. rewrite gc2_real in H. injection H as <-.
  destruct (sin2_cpoly _ _ (poly_cos 0 1 p _ Hp)) as (c & Hc).
  pose proof (INR_pos (n + 1) ltac:(lia)) as Pn.
  set (d := S (S (2 * n - 1))) in *.
  assert (Z : cpoly d c 0 = 0 /\ cpoly d c PI = 0).
  { rewrite <- !Hc, sin_0, sin_PI. split; ring. }
  assert (E : apply_rule (tab n (fun j => cos (th2 n j)), tab n (fun j => PI / INR (n + 1) * sin (th2 n j)))
     (fun x => peval p x * sqrt (1 - x * x)) = PI * c 0%nat).
  { rewrite rule_tab.
    rewrite (Rsum_tab_ext n _ (fun j => PI / INR (n + 1) * cpoly d c (th2 n j))).
    2:{ intros j Hj. pose proof (th2_range n j Hj). rewrite <- Hc, Rplus_0_l, Rmult_1_l.
        rewrite sin_sqrt by lra. ring. }
    rewrite Rsum_tab_mult_l.
    rewrite (Rsum_tab_ext n _ (fun j => (fun i => cpoly d c (INR (i + 1) * PI / INR (n + 1))) (n - 1 - j)%nat)).
    2:{ intros j Hj. cbv beta. unfold th2. do 4 f_equal. lia. }
    rewrite (Rsum_tab_rev n (fun i => cpoly d c (INR (i + 1) * PI / INR (n + 1)))).
    pose proof (trap_rule d (n + 1) c ltac:(lia) ltac:(unfold d; lia)) as T.
    replace (n + 1 - 1)%nat with n in T by lia. rewrite T. destruct Z as [-> ->]. field. lra. }
  rewrite E.
  set (f := fun x => peval p x * sqrt (1 - x * x)).
  assert (Cf : forall x, continuous f x).
  { intro x. apply (continuous_mult (K := R_AbsRing)). apply continuous_peval. apply continuous_s. }
  assert (Ef : ex_RInt f (-1) 1) by (apply (ex_RInt_continuous (V := R_CompleteNormedModule)); auto).
  apply (RInt_correct (V := R_CompleteNormedModule)) in Ef.
  replace (PI * c 0%nat) with (RInt f (-1) 1); auto.
  pose proof (is_RInt_comp f cos (fun t => - sin t) PI 0) as C.
  rewrite cos_PI, cos_0 in C.
  assert (C' : is_RInt (fun t => - cpoly d c t) PI 0 (RInt f (-1) 1)).
  { eapply is_RInt_ext; [|apply C].
    - intros t Ht. rewrite Rmin_right, Rmax_left in Ht by (pose proof PI_RGT_0; lra).
      unfold scal; simpl; unfold mult; simpl. unfold f. rewrite <- Hc, Rplus_0_l, Rmult_1_l.
      rewrite sin_sqrt by lra. ring.
    - intros; apply Cf.
    - intros t Ht. split; [auto_derive; auto; ring|].
      apply (ex_derive_continuous (K := R_AbsRing) (V := R_NormedModule)). auto_derive; auto. }
  apply (is_RInt_opp (V := R_NormedModule)) in C'. apply (is_RInt_swap (V := R_NormedModule)) in C'.
  apply RI_unique in C'.
  assert (D : is_RInt (fun y : R => opp (- cpoly d c y)) 0 PI (PI * c 0%nat)).
  { eapply is_RInt_ext; [|apply is_RInt_cpoly]. intros. unfold opp; simpl. symmetry; apply Ropp_involutive. }
  apply RI_unique in D. pose proof (eq_trans (eq_sym C') D) as K. unfold opp in K; simpl in K.
  rewrite !Ropp_involutive in K. exact K.
Qed.

Lemma gc3_exact : forall n p q, (1 <= n)%nat -> @gc3_generate RS n = Ok q -> deg_le p (2 * n - 1) ->
  open_integral (fun x => peval p x * sqrt (x / (1 - x))) 0 1
    (apply_rule q (fun x => peval p x * sqrt (x / (1 - x)))).
Proof.
  intros n p q Hn H Hp. rewrite gc3_real in H. injection H as <-.
  assert (Hp' : deg_le (0 :: p) (2 * n)) by (unfold deg_le in *; simpl in *; lia).
  destruct (poly_cos (/ 2) (/ 2) _ _ Hp') as (c & Hc).
  pose proof (INR_pos (2 * n + 1) ltac:(lia)) as Pn.
  assert (K : forall t, 0 < t < PI -> sin t * sqrt ((1 + cos t) / 2 / (1 - (1 + cos t) / 2)) = 1 + cos t).
  { intros t Ht. set (u := t / 2). assert (Hu : 0 < u < PI / 2) by (unfold u; lra).
    replace t with (2 * u) by (unfold u; lra). rewrite <- half_cos.
    assert (0 < sin u) by (apply sin_gt_0; lra). assert (0 < cos u) by (apply cos_gt_0; lra).
    pose proof (sin2 u) as E. unfold Rsqr in E.
    replace (cos u * cos u / (1 - cos u * cos u)) with ((cos u / sin u) * (cos u / sin u)) by (rewrite <- E; field; lra).
    rewrite sqrt_square by (apply Rlt_le, Rmult_lt_0_compat; auto; apply Rinv_0_lt_compat; auto).
    rewrite sin_2a. rewrite cos_2a_cos. field. lra. }
  assert (E : apply_rule (tab n (fun j => (1 + cos (th3 n j)) / 2), tab n (fun j => PI / INR (2 * n + 1) * sin (th3 n j)))
     (fun x => peval p x * sqrt (x / (1 - x))) = PI * c 0%nat).
  { rewrite rule_tab.
    rewrite (Rsum_tab_ext n _ (fun j => 2 * PI / INR (2 * n + 1) * cpoly (2 * n) c (th3 n j))).
    2:{ intros j Hj. pose proof (th3_range n j Hj). rewrite <- Hc. cbn [peval]. rewrite Rplus_0_l.
        replace (/ 2 + / 2 * cos (th3 n j)) with ((1 + cos (th3 n j)) / 2) by field.
        pose proof (K _ H) as Kt. set (x := (1 + cos (th3 n j)) / 2) in *.
        transitivity (PI / INR (2 * n + 1) * (sin (th3 n j) * sqrt (x / (1 - x))) * peval p x); [ring|].
        rewrite Kt. unfold x. field. lra. }
    rewrite Rsum_tab_mult_l. unfold th3.
    rewrite (Rsum_tab_rev n (fun i => cpoly (2 * n) c ((2 * INR i + 1) * PI / INR (2 * n + 1)))).
    rewrite third_rule by lia.
    assert (Z : cpoly (2 * n) c PI = 0).
    { rewrite <- Hc. cbn [peval]. rewrite cos_PI. ring. }
    rewrite Z. rewrite plus_INR, mult_INR in *. change (INR 2) with 2 in *. simpl (INR 1) in *. field. lra. }
  match goal with |- open_integral _ _ _ ?z => replace z with (PI * c 0%nat) by (symmetry; exact E) end. 
  apply (improper_at (/ 2) (/ 2)) with (h := fun t => peval (0 :: p) (/ 2 + / 2 * cos t)); try lra.

  - intros t Ht. cbn [peval]. rewrite Rplus_0_l.
    replace (/ 2 + / 2 * cos t) with ((1 + cos t) / 2) by field.
    pose proof (K t Ht) as Kt. nra.
  - intros x Hx. apply (continuous_mult (K := R_AbsRing)). apply continuous_peval.
    apply (continuous_comp (fun x => x / (1 - x)) sqrt); [|apply continuous_sqrt].
    apply (ex_derive_continuous (K := R_AbsRing) (V := R_NormedModule)). auto_derive; auto. lra.
  - intro t. apply continuous_cosp.
  - eapply is_RInt_ext; [|apply is_RInt_cpoly]. intros; symmetry; apply Hc.
Qed.
