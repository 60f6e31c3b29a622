(** Error of the Gauss-type rules for any integrand: near-best, smooth, Lipschitz, continuous. *)
From Coq Require Import List Bool Arith ZArith Lia Reals Lra Psatz.
From Coquelicot Require Import Coquelicot.
From Verif Require Import Base.Outcome Base.Scalar Base.RScalar Model.Primitive
  Spec.Sums Spec.RealRules Spec.LegendreSpec Spec.ErrorSpec
  Proofs.Tab Proofs.SumFacts Proofs.ChebReal Proofs.ChebInt Proofs.ChebExact Proofs.Legendre Proofs.Interp Proofs.Bernstein.
Import ListNotations.
Local Open Scope R_scope.

Lemma wsum_diff : forall xs ws (f g e : R -> R), (forall x, In x xs -> Rabs (f x - g x) <= e x) -> (forall w, In w ws -> 0 < w) ->
  Rabs (wsum f xs ws - wsum g xs ws) <= wsum e xs ws.
Proof.
  unfold wsum, Rsum. induction xs as [|x xs IH]; intros [|w ws] f g e H P; simpl; try (rewrite Rminus_0_r, Rabs_R0; lra).
  specialize (IH ws f g e (fun y Hy => H y (or_intror Hy)) (fun v Hv => P v (or_intror Hv))).
  specialize (H x (or_introl eq_refl)). specialize (P w (or_introl eq_refl)).
  set (A := fold_right Rplus 0 _) in *. set (B := fold_right Rplus 0 (map (fun pw => snd pw * g (fst pw)) _)) in *.
  replace (w * f x + A - (w * g x + B)) with (w * (f x - g x) + (A - B)) by ring.
  eapply Rle_trans; [apply Rabs_triang|]. apply Rplus_le_compat; auto. rewrite Rabs_mult, (Rabs_pos_eq w) by lra.
  apply Rmult_le_compat_l; lra.
Qed.

Lemma wsum_scal : forall xs ws (f : R -> R) c, wsum (fun x => c * f x) xs ws = c * wsum f xs ws.
Proof.
  unfold wsum, Rsum. induction xs as [|x xs IH]; intros [|w ws] f c; simpl; try ring. rewrite IH. ring.
Qed.

Lemma wsum_fext : forall xs ws (f g : R -> R), (forall x, In x xs -> f x = g x) -> wsum f xs ws = wsum g xs ws.
Proof.
  unfold wsum, Rsum. induction xs as [|x xs IH]; intros [|w ws] f g H; simpl; auto.
  rewrite (H x (or_introl eq_refl)), (IH ws f g); auto. intros y Hy. apply H. right. auto.
Qed.

Lemma cont_int : forall (f : R -> R) a b, a <= b -> (forall x, a <= x <= b -> continuous f x) -> ex_RInt f a b.
Proof.
  intros f a b ab C. apply (ex_RInt_continuous (V := R_CompleteNormedModule)).
  intros z Hz. apply C. rewrite Rmin_left, Rmax_right in Hz by lra. exact Hz.
Qed.

(** Rules with positive weights that are exact for a proper integral with weight function v. *)
Lemma best_proper : forall a b q (f v : R -> R) p d, a < b -> (forall w, In w (snd q) -> 0 < w) -> (forall x, In x (fst q) -> a <= x <= b) ->
  (forall x, a <= x <= b -> continuous f x) -> (forall x, a <= x <= b -> continuous v x) -> (forall x, a <= x <= b -> 0 <= v x) ->
  within a b d f (peval p) ->
  is_RInt v a b (apply_rule q v) -> is_RInt (fun x => peval p x * v x) a b (apply_rule q (fun x => peval p x * v x)) ->
  Rabs (apply_rule q (fun x => f x * v x) - RInt (fun x => f x * v x) a b) <= 2 * d * apply_rule q v.
Proof.
  intros a b q f v p d ab PW PX Cf Cv V0 W E1 Ep.
  assert (A : Rabs (apply_rule q (fun x => f x * v x) - apply_rule q (fun x => peval p x * v x)) <= d * apply_rule q v).
  { unfold apply_rule. rewrite <- wsum_scal. apply wsum_diff; auto. intros x Hx. rewrite <- Rmult_minus_distr_r, Rabs_mult.
    rewrite (Rabs_pos_eq (v x)) by auto. apply Rmult_le_compat_r; auto. }
  assert (Ef : ex_RInt (fun x => f x * v x) a b).
  { apply cont_int; [lra|]. intros x Hx. apply (continuous_mult (K := R_AbsRing)); auto. }
  pose proof (is_RInt_unique _ _ _ _ Ep) as Up. pose proof (is_RInt_unique _ _ _ _ E1) as U1.
  assert (B : Rabs (RInt (fun x => peval p x * v x) a b - RInt (fun x => f x * v x) a b) <= d * apply_rule q v).
  { change (Rabs (minus (RInt (fun x => peval p x * v x) a b) (RInt (fun x => f x * v x) a b)) <= d * apply_rule q v).
    rewrite <- (RInt_minus (V := R_CompleteNormedModule)); [|eexists; exact Ep|auto].
    eapply Rle_trans; [apply abs_RInt_le; [lra|]|].
    - apply (ex_RInt_minus (V := R_NormedModule)); [eexists; exact Ep|auto].
    - rewrite <- U1. change (d * RInt v a b) with (scal d (RInt v a b)). rewrite <- (RInt_scal (V := R_CompleteNormedModule)) by (eexists; exact E1).
      apply RInt_le; [lra| | |].
      + apply (ex_RInt_norm (fun t => minus (peval p t * v t) (f t * v t))).
        apply (ex_RInt_minus (V := R_NormedModule)); [eexists; exact Ep|auto].
      + apply (ex_RInt_scal (V := R_NormedModule)). eexists; exact E1.
      + intros x Hx. unfold minus, plus, opp, scal; simpl. unfold mult; simpl.
        replace (peval p x * v x + - (f x * v x)) with (- ((f x - peval p x) * v x)) by ring. rewrite Rabs_Ropp, Rabs_mult.
        rewrite (Rabs_pos_eq (v x)) by (apply V0; lra). apply Rmult_le_compat_r; [apply V0; lra|]. apply W. lra. }
  rewrite Up in B. replace (2 * d * apply_rule q v) with (d * apply_rule q v + d * apply_rule q v) by ring.
  eapply Rle_trans; [|apply Rplus_le_compat; [exact A|exact B]].
  replace (apply_rule q (fun x => f x * v x) - RInt (fun x => f x * v x) a b) with
    ((apply_rule q (fun x => f x * v x) - apply_rule q (fun x => peval p x * v x)) +
     (apply_rule q (fun x => peval p x * v x) - RInt (fun x => f x * v x) a b)) by ring.
  apply Rabs_triang.
Qed.

(** No weight function: 4 d. *)
Lemma exact_two : forall D q, (1 <= D)%nat -> exact_below D q -> apply_rule q (fun _ => 1) = 2.
Proof.
  intros D q HD E. specialize (E [1] HD). 
  assert (C : is_RInt (peval [1]) (-1) 1 2).
  { apply (is_RInt_ext (fun _ => 1)); [intros; simpl; ring|]. evar_last; [apply (is_RInt_const (V := R_NormedModule))|].
    unfold scal; simpl; unfold mult; simpl. ring. }
  pose proof (is_RInt_unique _ _ _ _ E) as U. pose proof (is_RInt_unique _ _ _ _ C) as U'. rewrite U' in U.
  transitivity (apply_rule q (peval [1])); [|auto]. apply wsum_fext. intros. simpl. ring.
Qed.

Lemma best_plain : forall D q (f : R -> R) p d, (1 <= D)%nat -> exact_below D q -> (forall w, In w (snd q) -> 0 < w) ->
  (forall x, In x (fst q) -> -1 <= x <= 1) -> (forall x, -1 <= x <= 1 -> continuous f x) -> (length p <= D)%nat ->
  within (-1) 1 d f (peval p) -> Rabs (apply_rule q f - RInt f (-1) 1) <= 4 * d.
Proof.
  intros D q f p d HD E PW PX Cf Lp W. pose proof (exact_two D q HD E) as T.
  pose proof (best_proper (-1) 1 q f (fun _ => 1) p d ltac:(lra) PW PX Cf) as B.
  rewrite T in B. replace (4 * d) with (2 * d * 2) by ring.
  replace (apply_rule q f) with (apply_rule q (fun x => f x * 1)) by (apply wsum_fext; intros; ring).
  rewrite (RInt_ext f (fun x => f x * 1)) by (intros; symmetry; apply Rmult_1_r). apply B; auto.
  - intros. apply continuous_const.
  - intros. lra.
  - evar_last; [apply (is_RInt_const (V := R_NormedModule))|]. unfold scal; simpl; unfold mult; simpl. ring.
  - replace (apply_rule q (fun x => peval p x * 1)) with (apply_rule q (peval p)) by (apply wsum_fext; intros; ring).
    apply (is_RInt_ext (peval p)); [intros; symmetry; apply Rmult_1_r|]. apply E. exact Lp.
Qed.

Lemma gauss_best : forall n g (f : R -> R) p d, (1 <= n)%nat -> gauss_rule n g -> (forall x, -1 <= x <= 1 -> continuous f x) ->
  deg_le p (2 * n - 1) -> within (-1) 1 d f (peval p) -> Rabs (apply_rule g f - RInt f (-1) 1) <= 4 * d.
Proof.
  intros n g f p d Hn ((_ & _ & _ & PX & PW) & E) C L W. apply (best_plain (2 * n) g f p d); auto; [lia| |unfold deg_le in L; lia].
  intros x Hx. specialize (PX x Hx). lra.
Qed.

Lemma closed_nodes : forall n q x, (2 <= n)%nat -> good_closed_rule n q -> In x (fst q) -> -1 <= x <= 1.
Proof.
  intros n q x Hn (L & _ & A & B & I & _) Hx. apply In_nth_error in Hx. destruct Hx as (i & Hi).
  assert (Li : (i < n)%nat) by (rewrite <- L; apply nth_error_Some; congruence).
  split.
  - destruct (Nat.eq_dec i 0) as [->|]; [rewrite A in Hi; injection Hi; lra|]. left. apply (I 0%nat i); auto. lia.
  - destruct (Nat.eq_dec i (n - 1)) as [->|]; [rewrite B in Hi; injection Hi; lra|]. left. apply (I i (n - 1)%nat); auto. lia.
Qed.

Lemma lobatto_best : forall n g (f : R -> R) p d, (2 <= n)%nat -> lobatto_rule n g -> (forall x, -1 <= x <= 1 -> continuous f x) ->
  deg_le p (2 * n - 3) -> within (-1) 1 d f (peval p) -> Rabs (apply_rule g f - RInt f (-1) 1) <= 4 * d.
Proof.
  intros n g f p d Hn (G & E) C L W. apply (best_plain (2 * n - 2) g f p d); auto; [lia| | |unfold deg_le in L; lia].
  - destruct G as (_ & _ & _ & _ & _ & PW). auto.
  - intros x. apply (closed_nodes n); auto.
Qed.

(** Consequences of smoothness. *)
Lemma smooth_cont : forall a b N F M x, (1 <= N)%nat -> smooth a b N F M -> a <= x <= b -> continuous (F 0%nat) x.
Proof.
  intros a b N F M x HN (D & _) Hx. apply (ex_derive_continuous (K := R_AbsRing) (V := R_NormedModule)).
  exists (F 1%nat x). apply D; auto.
Qed.

Lemma smooth_lip : forall a b N F M L, (1 <= N)%nat -> smooth a b N F M -> (forall t, a <= t <= b -> Rabs (F 1%nat t) <= L) ->
  lipschitz a b L (F 0%nat).
Proof.
  intros a b N F M L HN (D & D2) B x y Hx Hy.
  destruct (MVT_gen (F 0%nat) y x (F 1%nat)) as (c & Hc & E).
  - intros t Ht. apply D; [lia|]. assert (a <= Rmin y x) by (apply Rmin_glb; lra). assert (Rmax y x <= b) by (apply Rmax_lub; lra). lra.
  - intros t Ht. apply continuity_pt_filterlim. apply (smooth_cont a b N F M); auto; [split; auto|].
    assert (a <= Rmin y x) by (apply Rmin_glb; lra). assert (Rmax y x <= b) by (apply Rmax_lub; lra). lra.
  - rewrite E, Rabs_mult. apply Rmult_le_compat_r; [apply Rabs_pos|]. apply B.
    assert (a <= Rmin y x) by (apply Rmin_glb; lra). assert (Rmax y x <= b) by (apply Rmax_lub; lra). lra.
Qed.

Lemma smooth_approx : forall N F M, (1 <= N)%nat -> smooth (-1) 1 N F M ->
  exists p, (length p <= N)%nat /\ within (-1) 1 (2 * M / (2 ^ N * INR (fact N))) (F 0%nat) (peval p).
Proof.
  intros N F M HN S. destruct (cheb_approx N F M 0 1 HN ltac:(lra)) as (p & L & W).
  - replace (0 - 1) with (-1) by ring. replace (0 + 1) with 1 by ring. exact S.
  - exists p. split; auto. replace (0 - 1) with (-1) in W by ring. replace (0 + 1) with 1 in W by ring.
    rewrite pow1, Rmult_1_r in W. exact W.
Qed.

(** Lipschitz functions are continuous inside; here they are extended by constants. *)
Definition clamp (f : R -> R) (x : R) : R := f (Rmax (-1) (Rmin x 1)).
Lemma clamp_in : forall f x, -1 <= x <= 1 -> clamp f x = f x.
Proof. intros f x Hx. unfold clamp. rewrite Rmin_left, Rmax_right by lra. reflexivity. Qed.

Lemma clamp_range : forall x, -1 <= Rmax (-1) (Rmin x 1) <= 1.
Proof. intro x. split; [apply Rmax_l|]. apply Rmax_lub; [lra|apply Rmin_r]. Qed.

Lemma clamp_dist : forall x y, Rabs (Rmax (-1) (Rmin x 1) - Rmax (-1) (Rmin y 1)) <= Rabs (x - y).
Proof. intros x y. unfold Rmax, Rmin. repeat destruct Rle_dec; unfold Rabs; repeat destruct Rcase_abs; lra. Qed.

Lemma clamp_cont : forall f L x, lipschitz (-1) 1 L f -> continuous (clamp f) x.
Proof.
  intros f L x H.
  assert (L0 : 0 <= L).
  { specialize (H (-1) 1 ltac:(lra) ltac:(lra)). replace (Rabs (-1 - 1)) with 2 in H by (unfold Rabs; destruct Rcase_abs; lra).
    pose proof (Rabs_pos (f (-1) - f 1)). lra. }
  apply continuity_pt_filterlim. intros e He. exists (e / (L + 1)). split; [apply Rdiv_lt_0_compat; lra|].
  intros y (_ & Hy). simpl in *. unfold R_dist in *. unfold clamp. eapply Rle_lt_trans; [apply H; apply clamp_range|].
  eapply Rle_lt_trans; [apply Rmult_le_compat_l; [auto|apply clamp_dist]|].
  apply Rmult_lt_compat_r with (r := L + 1) in Hy; [|lra]. unfold Rdiv in Hy. rewrite Rmult_assoc, Rinv_l, Rmult_1_r in Hy by lra.
  pose proof (Rabs_pos (y - x)). nra.
Qed.

Lemma clamp_lip : forall f L, lipschitz (-1) 1 L f -> lipschitz (-1) 1 L (clamp f).
Proof. intros f L H x y Hx Hy. rewrite !clamp_in by auto. apply H; auto. Qed.

Lemma clamp_int : forall f, RInt (clamp f) (-1) 1 = RInt f (-1) 1.
Proof. intro f. apply RInt_ext. intros x Hx. rewrite Rmin_left, Rmax_right in Hx by lra. apply clamp_in. lra. Qed.

Lemma clamp_apply : forall f q, (forall x, In x (fst q) -> -1 <= x <= 1) -> apply_rule q (clamp f) = apply_rule q f.
Proof. intros f q H. apply wsum_fext. intros x Hx. apply clamp_in; auto. Qed.

Lemma lip_approx1 : forall n L f, (1 <= n)%nat -> lipschitz (-1) 1 L f ->
  exists p, (length p <= S n)%nat /\ within (-1) 1 (L / sqrt (INR n)) f (peval p).
Proof.
  intros n L f Hn H. destruct (lip_approx n (-1) 1 L f Hn ltac:(lra) H) as (p & Lp & W). exists p. split; auto.
  assert (0 < sqrt (INR n)) by (apply sqrt_lt_R0; apply (lt_INR 0); lia).
  replace (L / sqrt (INR n)) with (L * (1 - -1) / (2 * sqrt (INR n))) by (field; lra). exact W.
Qed.

(** Exact Gauss and Lobatto rules. *)
Lemma gauss_smooth : forall n g F M, (1 <= n)%nat -> gauss_rule n g -> smooth (-1) 1 (2 * n) F M ->
  Rabs (apply_rule g (F 0%nat) - RInt (F 0%nat) (-1) 1) <= 8 * M / (2 ^ (2 * n) * INR (fact (2 * n))).
Proof.
  intros n g F M Hn G S. destruct (smooth_approx (2 * n) F M ltac:(lia) S) as (p & L & W).
  replace (8 * M / (2 ^ (2 * n) * INR (fact (2 * n)))) with (4 * (2 * M / (2 ^ (2 * n) * INR (fact (2 * n))))) by (unfold Rdiv; ring).
  apply (gauss_best n g (F 0%nat) p); auto; [|unfold deg_le; lia]. intros x Hx. apply (smooth_cont (-1) 1 (2 * n) F M); auto. lia.
Qed.

Lemma lobatto_smooth : forall n g F M, (2 <= n)%nat -> lobatto_rule n g -> smooth (-1) 1 (2 * n - 2) F M ->
  Rabs (apply_rule g (F 0%nat) - RInt (F 0%nat) (-1) 1) <= 8 * M / (2 ^ (2 * n - 2) * INR (fact (2 * n - 2))).
Proof.
  intros n g F M Hn G S. destruct (smooth_approx (2 * n - 2) F M ltac:(lia) S) as (p & L & W).
  replace (8 * M / (2 ^ (2 * n - 2) * INR (fact (2 * n - 2)))) with (4 * (2 * M / (2 ^ (2 * n - 2) * INR (fact (2 * n - 2))))) by (unfold Rdiv; ring).
  apply (lobatto_best n g (F 0%nat) p); auto; [|unfold deg_le; lia]. intros x Hx. apply (smooth_cont (-1) 1 (2 * n - 2) F M); auto. lia.
Qed.

Lemma gauss_lip : forall n g L f, (1 <= n)%nat -> gauss_rule n g -> lipschitz (-1) 1 L f ->
  Rabs (apply_rule g f - RInt f (-1) 1) <= 4 * L / sqrt (INR (2 * n - 1)).
Proof.
  intros n g L f Hn G H. destruct (lip_approx1 (2 * n - 1) L (clamp f) ltac:(lia) (clamp_lip f L H)) as (p & Lp & W).
  rewrite <- clamp_int, <- (clamp_apply f g).
  - replace (4 * L / sqrt (INR (2 * n - 1))) with (4 * (L / sqrt (INR (2 * n - 1)))) by (unfold Rdiv; ring).
    apply (gauss_best n g (clamp f) p); auto; [|unfold deg_le; lia]. intros x _. apply (clamp_cont f L); auto.
  - destruct G as ((_ & _ & _ & PX & _) & _). intros x Hx. specialize (PX x Hx). lra.
Qed.

Lemma lobatto_lip : forall n g L f, (2 <= n)%nat -> lobatto_rule n g -> lipschitz (-1) 1 L f ->
  Rabs (apply_rule g f - RInt f (-1) 1) <= 4 * L / sqrt (INR (2 * n - 3)).
Proof.
  intros n g L f Hn G H. destruct (lip_approx1 (2 * n - 3) L (clamp f) ltac:(lia) (clamp_lip f L H)) as (p & Lp & W).
  rewrite <- clamp_int, <- (clamp_apply f g).
  - replace (4 * L / sqrt (INR (2 * n - 3))) with (4 * (L / sqrt (INR (2 * n - 3)))) by (unfold Rdiv; ring).
    apply (lobatto_best n g (clamp f) p); auto; [|unfold deg_le; lia]. intros x _. apply (clamp_cont f L); auto.
  - intro x. apply (closed_nodes n); auto. apply G.
Qed.

Lemma gauss_converge : forall f, (forall x, -1 <= x <= 1 -> continuous f x) ->
  rules_converge (fun n q => (1 <= n)%nat /\ gauss_rule n q) f (RInt f (-1) 1).
Proof.
  intros f C e He. destruct (cont_approx (-1) 1 f (e / 8) ltac:(lra) ltac:(lra) C) as (n0 & H).
  exists (S n0). intros n q Hn (H1 & G). destruct (H (2 * n - 1)%nat ltac:(lia) ltac:(lia)) as (p & L & W).
  pose proof (gauss_best n q f p (e / 8) H1 G C ltac:(unfold deg_le; lia) W). lra.
Qed.

Lemma lobatto_converge : forall f, (forall x, -1 <= x <= 1 -> continuous f x) ->
  rules_converge (fun n q => (2 <= n)%nat /\ lobatto_rule n q) f (RInt f (-1) 1).
Proof.
  intros f C e He. destruct (cont_approx (-1) 1 f (e / 8) ltac:(lra) ltac:(lra) C) as (n0 & H).
  exists (n0 + 3)%nat. intros n q Hn (H1 & G). destruct (H (2 * n - 3)%nat ltac:(lia) ltac:(lia)) as (p & L & W).
  pose proof (lobatto_best n q f p (e / 8) H1 G C ltac:(unfold deg_le; lia) W). lra.
Qed.

(** Rules close to an exact one. *)
Lemma pair_tab : forall (q : list R * list R) n, length (fst q) = n -> length (snd q) = n -> q = (tab n (fun i => nth i (fst q) 0), tab n (fun i => nth i (snd q) 0)).
Proof. intros (x, w) n A B. cbn [fst snd] in *. rewrite <- A at 1. rewrite <- B. rewrite <- !list_tab. reflexivity. Qed.

Lemma close_tab : forall n dx dw (x w y v : nat -> R) K L f, 0 <= L ->
  (forall i, (i < n)%nat -> Rabs (x i - y i) <= dx /\ Rabs (w i - v i) <= dw * v i /\ -1 <= x i <= 1 /\ -1 <= y i <= 1 /\ 0 < v i) ->
  (forall x, -1 <= x <= 1 -> Rabs (f x) <= K) -> lipschitz (-1) 1 L f ->
  Rabs (Rsum (tab n (fun i => w i * f (x i))) - Rsum (tab n (fun i => v i * f (y i)))) <= (dw * K + dx * L) * Rsum (tab n (fun i => v i * 1)).
Proof.
  intros n dx dw x w y v K L f L0 N FK FL. induction n as [|n IH].
  - unfold tab, Rsum. simpl. rewrite Rminus_0_r, Rabs_R0. lra.
  - rewrite !Rsum_tab_S. specialize (IH (fun i Hi => N i ltac:(lia))). destruct (N n ltac:(lia)) as (A & B & X & Y & V).
    set (P := Rsum (tab n (fun i => w i * f (x i)))) in *. set (Q := Rsum (tab n (fun i => v i * f (y i)))) in *. set (T := Rsum _) in *.
    replace (P + w n * f (x n) - (Q + v n * f (y n))) with (P - Q + ((w n - v n) * f (x n) + v n * (f (x n) - f (y n)))) by ring.
    eapply Rle_trans; [apply Rabs_triang|]. rewrite Rmult_plus_distr_l. apply Rplus_le_compat; auto.
    eapply Rle_trans; [apply Rabs_triang|]. rewrite !Rabs_mult, (Rabs_pos_eq (v n)) by lra.
    replace ((dw * K + dx * L) * (v n * 1)) with (dw * v n * K + v n * (L * dx)) by ring.
    apply Rplus_le_compat.
    + apply Rmult_le_compat; auto using Rabs_pos.
    + apply Rmult_le_compat_l; [lra|]. eapply Rle_trans; [apply FL; auto|]. apply Rmult_le_compat_l; auto.
Qed.

Lemma close_lip : forall n dx dw q g K L f, length (fst q) = n -> length (snd q) = n -> rule_close dx dw q g ->
  (forall x, In x (fst q) -> -1 <= x <= 1) -> (forall x, In x (fst g) -> -1 <= x <= 1) -> (forall w, In w (snd g) -> 0 < w) ->
  (forall x, -1 <= x <= 1 -> Rabs (f x) <= K) -> lipschitz (-1) 1 L f ->
  Rabs (apply_rule q f - apply_rule g f) <= (dw * K + dx * L) * apply_rule g (fun _ => 1).
Proof.
  intros n dx dw q g K L f Lx Lw (Cx & Cw & Hx & Hw) Rq Rg Pg FK FL.
  assert (L0 : 0 <= L).
  { pose proof (FL (-1) 1 ltac:(lra) ltac:(lra)) as A. replace (Rabs (-1 - 1)) with 2 in A by (unfold Rabs; destruct Rcase_abs; lra).
    pose proof (Rabs_pos (f (-1) - f 1)). lra. }
  rewrite (pair_tab q n Lx Lw), (pair_tab g n ltac:(congruence) ltac:(congruence)), !rule_tab.
  apply (close_tab n dx dw (fun i => nth i (fst q) 0) (fun i => nth i (snd q) 0) (fun i => nth i (fst g) 0) (fun i => nth i (snd g) 0)); auto.
  intros i Hi. split; [|split; [|split; [|split]]].
  - apply (Hx i); apply nth_error_nth'; lia.
  - apply (Hw i); apply nth_error_nth'; lia.
  - apply Rq, nth_In; lia.
  - apply Rg, nth_In; lia.
  - apply Pg, nth_In; lia.
Qed.

(** Chebyshev rules: integrals with a weight function, after the substitution x = al + be cos t. *)
Lemma open_unique : forall f a b I J, open_integral f a b I -> open_integral f a b J -> I = J.
Proof.
  intros f a b I J HI HJ. unfold open_integral in *.
  apply (is_RInt_gen_unique (V := R_CompleteNormedModule)) in HI. apply (is_RInt_gen_unique (V := R_CompleteNormedModule)) in HJ. congruence.
Qed.

Section Substituted.
Variables (al be a b : R) (om rho : R -> R) (W : R) (q : list R * list R) (D : nat).
Hypothesis Ha : a = al - be.
Hypothesis Hb : b = al + be.
Hypothesis Hbe : 0 < be.
Hypothesis Hrho : forall t, 0 < t < PI -> be * sin t * om (al + be * cos t) = rho t.
Hypothesis Com : forall x, a < x < b -> continuous om x.
Hypothesis om0 : forall x, a < x < b -> 0 <= om x.
Hypothesis Crho : forall t, continuous rho t.
Hypothesis rho0 : forall t, 0 < t < PI -> 0 <= rho t.
Hypothesis HW : is_RInt rho 0 PI W.
Hypothesis Pw : forall w, In w (snd q) -> 0 < w.
Hypothesis Px : forall x, In x (fst q) -> a < x < b.
Hypothesis Dpos : (1 <= D)%nat.
Hypothesis Exact : forall p, (length p <= D)%nat -> open_integral (fun x => peval p x * om x) a b (apply_rule q (fun x => peval p x * om x)).

Lemma angle_in : forall t, a <= al + be * cos t <= b.
Proof. intro t. pose proof (COS_bound t). subst. nra. Qed.

Lemma angle_cont : forall f, (forall x, a <= x <= b -> continuous f x) -> forall t, continuous (fun t => rho t * f (al + be * cos t)) t.
Proof.
  intros f C t. apply (continuous_mult (K := R_AbsRing)); auto. apply (continuous_comp (fun t => al + be * cos t) f).
  - apply (ex_derive_continuous (K := R_AbsRing) (V := R_NormedModule)). auto_derive; auto.
  - apply C, angle_in.
Qed.

Lemma angle_int : forall f, (forall x, a <= x <= b -> continuous f x) ->
  open_integral (fun x => f x * om x) a b (RInt (fun t => rho t * f (al + be * cos t)) 0 PI).
Proof.
  intros f C. apply (improper_at al be a b _ (fun t => rho t * f (al + be * cos t))); auto.
  - intros t Ht. rewrite <- Hrho by auto. ring.
  - intros x Hx. apply (continuous_mult (K := R_AbsRing)); auto. apply C. lra.
  - apply angle_cont; auto.
  - apply (RInt_correct (V := R_CompleteNormedModule)). pose proof PI_RGT_0. apply cont_int; [lra|]. intros. apply angle_cont; auto.
Qed.

Lemma mass : apply_rule q om = W.
Proof.
  assert (C1 : forall x, a <= x <= b -> continuous (peval [1]) x) by (intros; apply continuous_peval).
  pose proof (open_unique _ _ _ _ _ (Exact [1] Dpos) (angle_int (peval [1]) C1)) as E.
  transitivity (apply_rule q (fun x => peval [1] x * om x)); [apply wsum_fext; intros; simpl; ring|]. rewrite E.
  rewrite <- (is_RInt_unique _ _ _ _ HW). apply RInt_ext. intros t _. simpl. ring.
Qed.

Lemma best_open : forall f p d, (forall x, a <= x <= b -> continuous f x) -> (length p <= D)%nat -> within a b d f (peval p) ->
  exists I, open_integral (fun x => f x * om x) a b I /\ Rabs (apply_rule q (fun x => f x * om x) - I) <= 2 * d * W.
Proof.
  intros f p d C L Wi. exists (RInt (fun t => rho t * f (al + be * cos t)) 0 PI). split; [apply angle_int; auto|].
  pose proof PI_RGT_0 as PP.
  assert (Cp : forall x, a <= x <= b -> continuous (peval p) x) by (intros; apply continuous_peval).
  pose proof (open_unique _ _ _ _ _ (Exact p L) (angle_int (peval p) Cp)) as E.
  assert (A : Rabs (apply_rule q (fun x => f x * om x) - apply_rule q (fun x => peval p x * om x)) <= d * W).
  { rewrite <- mass. unfold apply_rule. rewrite <- wsum_scal. apply wsum_diff; auto. intros x Hx. specialize (Px x Hx).
    rewrite <- Rmult_minus_distr_r, Rabs_mult, (Rabs_pos_eq (om x)) by auto. apply Rmult_le_compat_r; auto. apply Wi. lra. }
  assert (EI : forall g, (forall x, a <= x <= b -> continuous g x) -> ex_RInt (fun t => rho t * g (al + be * cos t)) 0 PI).
  { intros g Cg. apply cont_int; [lra|]. intros. apply angle_cont; auto. }
  assert (B : Rabs (RInt (fun t => rho t * peval p (al + be * cos t)) 0 PI - RInt (fun t => rho t * f (al + be * cos t)) 0 PI) <= d * W).
  { change (Rabs (minus (RInt (fun t => rho t * peval p (al + be * cos t)) 0 PI) (RInt (fun t => rho t * f (al + be * cos t)) 0 PI)) <= d * W).
    rewrite <- (RInt_minus (V := R_CompleteNormedModule)); [|apply EI; auto|apply EI; auto].
    eapply Rle_trans; [apply abs_RInt_le; [lra|]|].
    - apply (ex_RInt_minus (V := R_NormedModule)); apply EI; auto.
    - rewrite <- (is_RInt_unique _ _ _ _ HW). change (d * RInt rho 0 PI) with (scal d (RInt rho 0 PI)).
      rewrite <- (RInt_scal (V := R_CompleteNormedModule)) by (eexists; exact HW). apply RInt_le; [lra| | |].
      + apply (ex_RInt_norm (fun t => minus (rho t * peval p (al + be * cos t)) (rho t * f (al + be * cos t)))).
        apply (ex_RInt_minus (V := R_NormedModule)); apply EI; auto.
      + apply (ex_RInt_scal (V := R_NormedModule)). eexists; exact HW.
      + intros t Ht. unfold minus, plus, opp, scal; simpl. unfold mult; simpl. set (x := al + be * cos t).
        replace (rho t * peval p x + - (rho t * f x)) with (- ((f x - peval p x) * rho t)) by ring. rewrite Rabs_Ropp, Rabs_mult.
        rewrite (Rabs_pos_eq (rho t)) by (apply rho0; lra). apply Rmult_le_compat_r; [apply rho0; lra|]. apply Wi. apply angle_in. }
  rewrite <- E in B. replace (2 * d * W) with (d * W + d * W) by ring.
  eapply Rle_trans; [|apply Rplus_le_compat; [exact A|exact B]].
  match goal with |- Rabs (?u - ?w) <= Rabs (_ - ?v) + _ => replace (u - w) with (u - v + (v - w)) by ring end. apply Rabs_triang.
Qed.
End Substituted.

Lemma sqrt_om_cont : forall x, -1 < x < 1 -> continuous (fun x => / sqrt (1 - x * x)) x.
Proof. intros x Hx. apply continuous_Rinv_comp; [apply continuous_s|]. apply Rgt_not_eq, sqrt_1mx2_pos. lra. Qed.

Lemma gc1_best : forall n q (f : R -> R) p d, (1 <= n)%nat -> @gc1_generate RS n = Ok q -> (forall x, -1 <= x <= 1 -> continuous f x) ->
  deg_le p (2 * n - 1) -> within (-1) 1 d f (peval p) ->
  exists I, open_integral (fun x => f x / sqrt (1 - x * x)) (-1) 1 I /\
    Rabs (apply_rule q (fun x => f x / sqrt (1 - x * x)) - I) <= 2 * d * PI.
Proof.
  intros n q f p d Hn H C L W. destruct (gc1_good n q H) as ((_ & _ & _ & PX & PW) & _).
  apply (best_open 0 1 (-1) 1 (fun x => / sqrt (1 - x * x)) (fun _ => 1) PI q (2 * n)) with (p := p); auto; try lra; try lia.
  - intros t Ht. rewrite Rplus_0_l, !Rmult_1_l, sin_sqrt by lra. assert (0 < sin t) by (apply sin_gt_0; lra). field. lra.
  - apply sqrt_om_cont.
  - intros x Hx. left. apply Rinv_0_lt_compat, sqrt_1mx2_pos. auto.
  - intro. apply continuous_const.
  - intros. lra.
  - evar_last; [apply (is_RInt_const (V := R_NormedModule))|]. unfold scal; simpl; unfold mult; simpl. ring.
  - intros p0 L0. apply (gc1_exact n p0 q Hn H). unfold deg_le. lia.
  - unfold deg_le in L. lia.
Qed.

Lemma gc3_om : forall t, 0 < t < PI -> / 2 * sin t * sqrt ((/ 2 + / 2 * cos t) / (1 - (/ 2 + / 2 * cos t))) = (1 + cos t) / 2.
Proof.
  intros t Ht. set (u := t / 2). assert (Hu : 0 < u < PI / 2) by (unfold u; lra).
  replace (/ 2 + / 2 * cos t) with ((1 + cos t) / 2) by field.
  replace t with (2 * u) by (unfold u; lra). rewrite <- half_cos.
  assert (0 < sin u) by (apply sin_gt_0; lra). assert (0 < cos u) by (apply cos_gt_0; lra).
  pose proof (sin2 u) as E. unfold Rsqr in E.
  replace (cos u * cos u / (1 - cos u * cos u)) with ((cos u / sin u) * (cos u / sin u)) by (rewrite <- E; field; lra).
  rewrite sqrt_square by (apply Rlt_le, Rmult_lt_0_compat; auto; apply Rinv_0_lt_compat; auto).
  rewrite sin_2a. field. lra.
Qed.

Lemma gc3_best : forall n q (f : R -> R) p d, (1 <= n)%nat -> @gc3_generate RS n = Ok q -> (forall x, 0 <= x <= 1 -> continuous f x) ->
  deg_le p (2 * n - 1) -> within 0 1 d f (peval p) ->
  exists I, open_integral (fun x => f x * sqrt (x / (1 - x))) 0 1 I /\
    Rabs (apply_rule q (fun x => f x * sqrt (x / (1 - x))) - I) <= d * PI.
Proof.
  intros n q f p d Hn H C L W. destruct (gc3_good n q H) as (_ & _ & _ & PX & PW).
  replace (d * PI) with (2 * d * (PI / 2)) by field.
  apply (best_open (/ 2) (/ 2) 0 1 (fun x => sqrt (x / (1 - x))) (fun t => (1 + cos t) / 2) (PI / 2) q (2 * n)) with (p := p); auto; try lra; try lia.
  - apply gc3_om.
  - intros x Hx. apply (continuous_comp (fun x => x / (1 - x)) sqrt); [|apply continuous_sqrt].
    apply (ex_derive_continuous (K := R_AbsRing) (V := R_NormedModule)). auto_derive; auto. lra.
  - intros x Hx. apply sqrt_pos.
  - intro t. apply (ex_derive_continuous (K := R_AbsRing) (V := R_NormedModule)). auto_derive; auto.
  - intros t _. pose proof (COS_bound t). lra.
  - evar_last.
    + apply (is_RInt_derive (V := R_CompleteNormedModule) (fun t => t / 2 + sin t / 2) (fun t => (1 + cos t) / 2)).
      * intros t _. auto_derive; auto. field.
      * intros t _. apply (ex_derive_continuous (K := R_AbsRing) (V := R_NormedModule)). auto_derive; auto.
    + unfold minus, plus, opp; simpl. rewrite sin_PI, sin_0. field.
  - intros p0 L0. apply (gc3_exact n p0 q Hn H). unfold deg_le. lia.
  - unfold deg_le in L. lia.
Qed.

Lemma gc2_best : forall n q (f : R -> R) p d, (1 <= n)%nat -> @gc2_generate RS n = Ok q -> (forall x, -1 <= x <= 1 -> continuous f x) ->
  deg_le p (2 * n - 1) -> within (-1) 1 d f (peval p) ->
  Rabs (apply_rule q (fun x => f x * sqrt (1 - x * x)) - RInt (fun x => f x * sqrt (1 - x * x)) (-1) 1) <= d * PI.
Proof.
  intros n q f p d Hn H C L W. destruct (gc2_good n q H) as ((_ & _ & _ & PX & PW) & _).
  assert (M : forall n q, (1 <= n)%nat -> @gc2_generate RS n = Ok q -> is_RInt (fun x => sqrt (1 - x * x)) (-1) 1 (apply_rule q (fun x => sqrt (1 - x * x)))).
  { intros m q' Hm E. pose proof (gc2_exact m [1] q' Hm E ltac:(unfold deg_le; simpl; lia)) as X.
    replace (apply_rule q' (fun x => sqrt (1 - x * x))) with (apply_rule q' (fun x => peval [1] x * sqrt (1 - x * x))) by (apply wsum_fext; intros; simpl; ring).
    eapply is_RInt_ext; [|exact X]. intros; simpl. ring. }
  assert (V : apply_rule q (fun x => sqrt (1 - x * x)) = PI / 2).
  { rewrite <- (is_RInt_unique _ _ _ _ (M n q Hn H)). rewrite (is_RInt_unique _ _ _ _ (M 1%nat _ (le_n 1) (gc2_real 1))).
    rewrite rule_tab. unfold tab, Rsum, th2. simpl. replace (1 * PI / (1 + 1)) with (PI / 2) by field.
    rewrite cos_PI2, sin_PI2, Rmult_0_l, Rminus_0_r, sqrt_1. field. }
  replace (d * PI) with (2 * d * apply_rule q (fun x => sqrt (1 - x * x))) by (rewrite V; field).
  apply (best_proper (-1) 1 q f (fun x => sqrt (1 - x * x)) p d); auto; try lra.
  - intros x Hx. specialize (PX x Hx). lra.
  - intros x _. apply continuous_s.
  - intros x _. apply sqrt_pos.
  - apply (M n q); auto.
  - apply (gc2_exact n p q); auto.
Qed.

Lemma gc1_smooth : forall n q F M, (1 <= n)%nat -> @gc1_generate RS n = Ok q -> smooth (-1) 1 (2 * n) F M ->
  exists I, open_integral (fun x => F 0%nat x / sqrt (1 - x * x)) (-1) 1 I /\
    Rabs (apply_rule q (fun x => F 0%nat x / sqrt (1 - x * x)) - I) <= 4 * PI * M / (2 ^ (2 * n) * INR (fact (2 * n))).
Proof.
  intros n q F M Hn H S. destruct (smooth_approx (2 * n) F M ltac:(lia) S) as (p & L & W).
  destruct (gc1_best n q (F 0%nat) p _ Hn H (fun x => smooth_cont (-1) 1 (2 * n) F M x ltac:(lia) S) ltac:(unfold deg_le; lia) W) as (I & A & B).
  exists I. split; auto. eapply Rle_trans; [exact B|]. apply Req_le. unfold Rdiv. ring.
Qed.

Lemma gc2_smooth : forall n q F M, (1 <= n)%nat -> @gc2_generate RS n = Ok q -> smooth (-1) 1 (2 * n) F M ->
  Rabs (apply_rule q (fun x => F 0%nat x * sqrt (1 - x * x)) - RInt (fun x => F 0%nat x * sqrt (1 - x * x)) (-1) 1)
    <= 2 * PI * M / (2 ^ (2 * n) * INR (fact (2 * n))).
Proof.
  intros n q F M Hn H S. destruct (smooth_approx (2 * n) F M ltac:(lia) S) as (p & L & W).
  pose proof (gc2_best n q (F 0%nat) p _ Hn H (fun x => smooth_cont (-1) 1 (2 * n) F M x ltac:(lia) S) ltac:(unfold deg_le; lia) W) as B.
  eapply Rle_trans; [exact B|]. apply Req_le. unfold Rdiv. ring.
Qed.

Lemma gc3_smooth : forall n q F M, (1 <= n)%nat -> @gc3_generate RS n = Ok q -> smooth 0 1 (2 * n) F M ->
  exists I, open_integral (fun x => F 0%nat x * sqrt (x / (1 - x))) 0 1 I /\
    Rabs (apply_rule q (fun x => F 0%nat x * sqrt (x / (1 - x))) - I) <= 2 * PI * M / (4 ^ (2 * n) * INR (fact (2 * n))).
Proof.
  intros n q F M Hn H S. destruct (cheb_approx (2 * n) F M (/ 2) (/ 2) ltac:(lia) ltac:(lra)) as (p & L & W).
  { replace (/ 2 - / 2) with 0 by lra. replace (/ 2 + / 2) with 1 by lra. exact S. }
  replace (/ 2 - / 2) with 0 in W by lra. replace (/ 2 + / 2) with 1 in W by lra.
  destruct (gc3_best n q (F 0%nat) p _ Hn H (fun x => smooth_cont 0 1 (2 * n) F M x ltac:(lia) S) ltac:(unfold deg_le; lia) W) as (I & A & B).
  exists I. split; auto. eapply Rle_trans; [exact B|]. apply Req_le.
  replace 4 with (2 * 2) by ring. rewrite Rpow_mult_distr, pow_inv.
  assert (2 ^ (2 * n) <> 0) by (apply pow_nonzero; lra). pose proof (INR_fact_lt_0 (2 * n)). assert (INR (fact (2 * n)) <> 0) by lra. field. auto.
Qed.

Lemma gc1_converge : forall f, (forall x, -1 <= x <= 1 -> continuous f x) ->
  exists I, open_integral (fun x => f x / sqrt (1 - x * x)) (-1) 1 I /\
    rules_converge (fun n q => (1 <= n)%nat /\ @gc1_generate RS n = Ok q) (fun x => f x / sqrt (1 - x * x)) I.
Proof.
  intros f C.
  assert (B : forall e, 0 < e -> exists n0, forall n q, (n0 <= n)%nat -> (1 <= n)%nat -> @gc1_generate RS n = Ok q ->
    exists I, open_integral (fun x => f x / sqrt (1 - x * x)) (-1) 1 I /\ Rabs (apply_rule q (fun x => f x / sqrt (1 - x * x)) - I) < e).
  { intros e He. pose proof PI_RGT_0 as PP. pose proof PI_4 as P4. destruct (cont_approx (-1) 1 f (e / 10) ltac:(lra) ltac:(lra) C) as (n0 & H).
    exists n0. intros n q Hn H1 G. destruct (H (2 * n - 1)%nat ltac:(lia) ltac:(lia)) as (p & L & W).
    destruct (gc1_best n q f p (e / 10) H1 G C ltac:(unfold deg_le; lia) W) as (I & A & D). exists I. split; auto. nra. }
  destruct (B 1 ltac:(lra)) as (n1 & B1). destruct (B1 (S n1) _ ltac:(lia) ltac:(lia) (gc1_real (S n1))) as (I & A & _).
  exists I. split; auto. intros e He. destruct (B e He) as (n0 & H). exists n0. intros n q Hn (H1 & G).
  destruct (H n q Hn H1 G) as (J & A' & D). rewrite (open_unique _ _ _ _ _ A A'). exact D.
Qed.

Lemma gc3_converge : forall f, (forall x, 0 <= x <= 1 -> continuous f x) ->
  exists I, open_integral (fun x => f x * sqrt (x / (1 - x))) 0 1 I /\
    rules_converge (fun n q => (1 <= n)%nat /\ @gc3_generate RS n = Ok q) (fun x => f x * sqrt (x / (1 - x))) I.
Proof.
  intros f C.
  assert (B : forall e, 0 < e -> exists n0, forall n q, (n0 <= n)%nat -> (1 <= n)%nat -> @gc3_generate RS n = Ok q ->
    exists I, open_integral (fun x => f x * sqrt (x / (1 - x))) 0 1 I /\ Rabs (apply_rule q (fun x => f x * sqrt (x / (1 - x))) - I) < e).
  { intros e He. pose proof PI_RGT_0 as PP. pose proof PI_4 as P4. destruct (cont_approx 0 1 f (e / 10) ltac:(lra) ltac:(lra) C) as (n0 & H).
    exists n0. intros n q Hn H1 G. destruct (H (2 * n - 1)%nat ltac:(lia) ltac:(lia)) as (p & L & W).
    destruct (gc3_best n q f p (e / 10) H1 G C ltac:(unfold deg_le; lia) W) as (I & A & D). exists I. split; auto. nra. }
  destruct (B 1 ltac:(lra)) as (n1 & B1). destruct (B1 (S n1) _ ltac:(lia) ltac:(lia) (gc3_real (S n1))) as (I & A & _).
  exists I. split; auto. intros e He. destruct (B e He) as (n0 & H). exists n0. intros n q Hn (H1 & G).
  destruct (H n q Hn H1 G) as (J & A' & D). rewrite (open_unique _ _ _ _ _ A A'). exact D.
Qed.

Lemma gc2_converge : forall f, (forall x, -1 <= x <= 1 -> continuous f x) ->
  rules_converge (fun n q => (1 <= n)%nat /\ @gc2_generate RS n = Ok q) (fun x => f x * sqrt (1 - x * x)) (RInt (fun x => f x * sqrt (1 - x * x)) (-1) 1).
Proof.
  intros f C e He. pose proof PI_RGT_0 as PP. pose proof PI_4 as P4. destruct (cont_approx (-1) 1 f (e / 10) ltac:(lra) ltac:(lra) C) as (n0 & H).
  exists n0. intros n q Hn (H1 & G). destruct (H (2 * n - 1)%nat ltac:(lia) ltac:(lia)) as (p & L & W).
  pose proof (gc2_best n q f p (e / 10) H1 G C ltac:(unfold deg_le; lia) W). nra.
Qed.
