(** compare, clone and cast of radial traits. *)
From Coq Require Import List Bool Arith Reals.
From Verif Require Import Base.Outcome Base.Scalar Base.RScalar Model.Quadrature Model.Radial
  Spec.TraitsSpec.
Import ListNotations.

Lemma rkind_eqb_eq : forall a b, rkind_eqb a b = true <-> a = b.
Proof.
  destruct a, b; simpl; split; intro H; try discriminate; try congruence; auto.
  - apply Nat.eqb_eq in H; congruence.
  - injection H as ->. apply Nat.eqb_refl.
Qed.

Section Any.
Context {S : Scalar}.

Lemma compare_iff : forall a b : rtraits S, rt_compare a b = true <-> same_traits a b.
Proof.
  intros a b. unfold same_traits.
  destruct a, b; simpl; split; intro H; try discriminate;
    try (destruct H as (E & _); discriminate E).
  - apply andb_prop in H. destruct H as [H1 H2]. apply Nat.eqb_eq in H1. repeat split; auto.
  - destruct H as (_ & -> & H). inversion H; subst. rewrite Nat.eqb_refl; auto.
  - destruct (Nat.eqb_spec M M0); [|discriminate]. subst.
    apply andb_prop in H. destruct H as [H1 H2]. apply Nat.eqb_eq in H1. repeat split; auto.
  - destruct H as (E & -> & H). injection E as ->. inversion H; subst.
    rewrite !Nat.eqb_refl; auto.
  - apply andb_prop in H. destruct H as [H1 H2]. apply Nat.eqb_eq in H1. repeat split; auto.
  - destruct H as (_ & -> & H). inversion H; subst. rewrite Nat.eqb_refl; auto.
  - apply andb_prop in H. destruct H as [H1 H2].
    apply andb_prop in H1. destruct H1 as [H0 H1].
    apply Nat.eqb_eq in H0. repeat split; auto.
  - destruct H as (_ & -> & H). inversion H; subst. inversion H5; subst.
    rewrite Nat.eqb_refl. simpl. rewrite H3, H4. auto.
Qed.

Lemma Forall2_sym : forall A (R : A -> A -> Prop), (forall x y, R x y -> R y x) ->
  forall l m, Forall2 R l m -> Forall2 R m l.
Proof. intros A R HR l m H; induction H; constructor; auto. Qed.

Lemma Forall2_trans : forall A (R : A -> A -> Prop), (forall x y z, R x y -> R y z -> R x z) ->
  forall l m k, Forall2 R l m -> Forall2 R m k -> Forall2 R l k.
Proof.
  intros A R HR l m k H. revert k. induction H; intros k Hk; inversion Hk; subst; constructor; eauto.
Qed.

Lemma compare_sym : (forall x y : S, seqb x y = true -> seqb y x = true) ->
  forall a b : rtraits S, rt_compare a b = rt_compare b a.
Proof.
  intros Hs a b.
  assert (G : forall a b : rtraits S, rt_compare a b = true -> rt_compare b a = true).
  { intros x y H. apply compare_iff in H. apply compare_iff. destruct H as (H1 & H2 & H3).
    repeat split; auto. revert H3. apply Forall2_sym. intros u v. apply (Hs u v). }
  destruct (rt_compare a b) eqn:E; destruct (rt_compare b a) eqn:E'; auto.
  - apply G in E; congruence.
  - apply G in E'; congruence.
Qed.

Lemma compare_trans :
  (forall x y z : S, seqb x y = true -> seqb y z = true -> seqb x z = true) ->
  forall a b c : rtraits S,
  rt_compare a b = true -> rt_compare b c = true -> rt_compare a c = true.
Proof.
  intros Ht a b c H H'. apply compare_iff in H, H'. apply compare_iff.
  destruct H as (H1 & H2 & H3), H' as (H1' & H2' & H3').
  repeat split; try congruence. revert H3 H3'. apply Forall2_trans. exact Ht.
Qed.

Lemma compare_refl_iff : forall a : rtraits S,
  rt_compare a a = true <-> Forall (fun x => seqb x x = true) (rt_params a).
Proof.
  intros a. rewrite compare_iff. unfold same_traits. split.
  - intros (_ & _ & H). induction (rt_params a); inversion H; subst; constructor; auto.
  - intro H. repeat split; auto. induction H; constructor; auto.
Qed.

Lemma clone_same : forall a : rtraits S,
  rkind_of (rt_clone a) = rkind_of a /\ rt_npts (rt_clone a) = rt_npts a /\
  rt_params (rt_clone a) = rt_params a /\
  (forall b, rt_compare (rt_clone a) b = rt_compare a b) /\
  radial_generate (rt_clone a) = radial_generate a.
Proof. destruct a; simpl; repeat split; auto. Qed.

Lemma cast_iff : forall k (t : rtraits S),
  (rkind_of t = k -> rt_cast k t = Ok t) /\
  (rkind_of t <> k -> rt_cast k t = Throw ExBadCast).
Proof.
  intros k t. unfold rt_cast. destruct (rkind_eqb k (rkind_of t)) eqn:E.
  - apply rkind_eqb_eq in E. split; intro H; congruence.
  - split; auto. intro H. symmetry in H. apply rkind_eqb_eq in H. congruence.
Qed.
End Any.

Lemma Reqb_eq : forall x y, Reqb x y = true <-> x = y.
Proof. intros x y; unfold Reqb; destruct (Req_EM_T x y); split; congruence. Qed.

Lemma compare_R : forall a b : rtraits RS, rt_compare a b = true <-> a = b.
Proof.
  intros a b. rewrite compare_iff. unfold same_traits. split; [|intros ->].
  - intros (H1 & H2 & H3).
    destruct a, b; simpl in *; try discriminate;
      repeat match goal with
      | H : Forall2 _ (_ :: _) _ |- _ => inversion H; clear H; subst
      | H : Reqb _ _ = true |- _ => apply Reqb_eq in H
      | H : KMHL _ = KMHL _ |- _ => injection H as ->
      end; subst; auto.
  - repeat split; auto. induction (rt_params b); constructor; auto. apply Reqb_eq; auto.
Qed.
