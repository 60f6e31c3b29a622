(** Facts about weighted sums. *)
From Coq Require Import List Reals Arith Lia Lra Permutation.
From Verif Require Import Model.Quadrature Spec.Sums Proofs.Tab.
Import ListNotations.
Local Open Scope R_scope.

Lemma Rsum_app : forall l l', Rsum (l ++ l') = Rsum l + Rsum l'.
Proof. unfold Rsum; induction l; intros; simpl; [lra|]. rewrite IHl; lra. Qed.

Lemma Rsum_perm : forall l l', Permutation l l' -> Rsum l = Rsum l'.
Proof. unfold Rsum; induction 1; simpl; lra. Qed.

Lemma Rsum_mult_l : forall A c (f : A -> R) l,
  Rsum (map (fun x => c * f x) l) = c * Rsum (map f l).
Proof. unfold Rsum; induction l; simpl; [lra|]. rewrite IHl; lra. Qed.

Lemma Rsum_mult_r : forall A c (f : A -> R) l,
  Rsum (map (fun x => f x * c) l) = Rsum (map f l) * c.
Proof. unfold Rsum; induction l; simpl; [lra|]. rewrite IHl; lra. Qed.

Lemma Rsum_plus : forall A (f g : A -> R) l,
  Rsum (map (fun x => f x + g x) l) = Rsum (map f l) + Rsum (map g l).
Proof. unfold Rsum; induction l; simpl; [lra|]. rewrite IHl; lra. Qed.

Lemma Rsum_ext : forall A (f g : A -> R) l,
  (forall x, In x l -> f x = g x) -> Rsum (map f l) = Rsum (map g l).
Proof. intros; f_equal; apply map_ext_in; auto. Qed.

Lemma Rsum_zero : forall A (l : list A), Rsum (map (fun _ => 0) l) = 0.
Proof. unfold Rsum; induction l; simpl; [lra|]. rewrite IHl; lra. Qed.

Lemma Rsum_const : forall A c (l : list A), Rsum (map (fun _ => c) l) = INR (length l) * c.
Proof.
  unfold Rsum. induction l; [simpl; lra|].
  change (length (a :: l)) with (S (length l)). rewrite S_INR.
  simpl. rewrite IHl; lra.
Qed.

Lemma Rsum_nonneg : forall A (f : A -> R) l,
  (forall x, In x l -> 0 <= f x) -> 0 <= Rsum (map f l).
Proof.
  unfold Rsum. induction l; intros H; simpl; [lra|].
  pose proof (H a (or_introl eq_refl)). assert (0 <= Rsum (map f l)).
  { apply IHl; intros; apply H; right; auto. } unfold Rsum in *. lra.
Qed.

Lemma Rsum_le : forall A (f g : A -> R) l,
  (forall x, In x l -> f x <= g x) -> Rsum (map f l) <= Rsum (map g l).
Proof.
  unfold Rsum. induction l; intros H; simpl; [lra|].
  pose proof (H a (or_introl eq_refl)).
  assert (fold_right Rplus 0 (map f l) <= fold_right Rplus 0 (map g l)).
  { apply IHl; intros; apply H; right; auto. } lra.
Qed.

Lemma Rsum_Rabs : forall A (f : A -> R) l,
  Rabs (Rsum (map f l)) <= Rsum (map (fun x => Rabs (f x)) l).
Proof.
  unfold Rsum. induction l; simpl. rewrite Rabs_R0; lra.
  eapply Rle_trans; [apply Rabs_triang|]. lra.
Qed.

Lemma Rsum_swap : forall A B (f : A -> B -> R) la lb,
  Rsum (map (fun a => Rsum (map (fun b => f a b) lb)) la)
  = Rsum (map (fun b => Rsum (map (fun a => f a b) la)) lb).
Proof.
  induction la; intros lb; simpl.
  - symmetry; apply Rsum_zero.
  - unfold Rsum at 1; simpl. fold (Rsum (map (fun a => Rsum (map (fun b => f a b) lb)) la)).
    rewrite IHla. rewrite <- Rsum_plus. apply Rsum_ext. intros b _. reflexivity.
Qed.

Lemma Rsum_flat_map : forall A B (f : B -> R) (g : A -> list B) l,
  Rsum (map f (flat_map g l)) = Rsum (map (fun a => Rsum (map f (g a))) l).
Proof.
  induction l; simpl; auto. rewrite map_app, Rsum_app, IHl. reflexivity.
Qed.

Lemma Rsum_rev : forall l, Rsum (rev l) = Rsum l.
Proof. intros; apply Rsum_perm; apply Permutation_sym, Permutation_rev. Qed.

(** Indexed sums. *)
Lemma Rsum_tab_S : forall n f, Rsum (tab (S n) f) = Rsum (tab n f) + f n.
Proof. intros; rewrite tab_S, Rsum_app; unfold Rsum at 2; simpl; lra. Qed.

Lemma Rsum_tab_ext : forall n f g, (forall i, (i < n)%nat -> f i = g i) ->
  Rsum (tab n f) = Rsum (tab n g).
Proof. intros; f_equal; apply tab_ext; auto. Qed.

Lemma Rsum_tab_mult_l : forall n c f, Rsum (tab n (fun i => c * f i)) = c * Rsum (tab n f).
Proof. intros; unfold tab; rewrite Rsum_mult_l; auto. Qed.

Lemma Rsum_tab_plus : forall n f g,
  Rsum (tab n (fun i => f i + g i)) = Rsum (tab n f) + Rsum (tab n g).
Proof. intros; unfold tab; apply Rsum_plus. Qed.

Lemma Rsum_tab_rev : forall n f, Rsum (tab n (fun i => f (n - 1 - i)%nat)) = Rsum (tab n f).
Proof. intros; rewrite <- rev_tab; apply Rsum_rev. Qed.

Lemma Rsum_tab_const : forall n c, Rsum (tab n (fun _ => c)) = INR n * c.
Proof. intros; unfold tab; rewrite Rsum_const, seq_length; auto. Qed.

(** Weighted sums. *)
Lemma wsum_tab : forall P (f : P -> R) n p w,
  wsum f (tab n p) (tab n w) = Rsum (tab n (fun i => w i * f (p i))).
Proof. intros; unfold wsum; rewrite combine_tab, map_tab; reflexivity. Qed.

Lemma wsum_app : forall P (f : P -> R) p p' w w', length p = length w ->
  wsum f (p ++ p') (w ++ w') = wsum f p w + wsum f p' w'.
Proof.
  unfold wsum. induction p; destruct w; intros w' H; simpl in *; try discriminate.
  - unfold Rsum; simpl; lra.
  - injection H as H. specialize (IHp p' w w' H). unfold Rsum in *; simpl. rewrite IHp. lra.
Qed.

Lemma wsum_ext : forall P (f g : P -> R) p w,
  (forall x, In x p -> f x = g x) -> wsum f p w = wsum g p w.
Proof.
  intros. unfold wsum. apply Rsum_ext. intros [a b] Hin. simpl. f_equal. apply H.
  eapply in_combine_l; eauto.
Qed.

Lemma wsum_plus : forall P (f g : P -> R) p w,
  wsum (fun x => f x + g x) p w = wsum f p w + wsum g p w.
Proof.
  intros; unfold wsum; rewrite <- Rsum_plus; apply Rsum_ext; intros; lra.
Qed.

Lemma wsum_scal : forall P c (f : P -> R) p w,
  wsum (fun x => c * f x) p w = c * wsum f p w.
Proof.
  intros; unfold wsum; rewrite <- Rsum_mult_l; apply Rsum_ext; intros; lra.
Qed.

Lemma wsum_perm : forall P (f : P -> R) p w p' w',
  Permutation (combine p w) (combine p' w') -> wsum f p w = wsum f p' w'.
Proof. intros; unfold wsum; apply Rsum_perm, Permutation_map; auto. Qed.

Lemma wsum_map_pts : forall P Q (f : Q -> R) (g : P -> Q) p w,
  wsum f (map g p) w = wsum (fun x => f (g x)) p w.
Proof.
  unfold wsum. induction p; destruct w; simpl; auto.
  specialize (IHp w). unfold Rsum in *; simpl. rewrite IHp. reflexivity.
Qed.
