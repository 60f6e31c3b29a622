(** Angular construction. *)
From Coq Require Import ZArith List Bool Lia Arith.
From Verif Require Import Base.Outcome Base.Scalar Model.Quadrature Model.S2Tables Model.S2
  Spec.QuadSpec Proofs.Sizes Proofs.S2Facts.
Import ListNotations.
Local Open Scope Z_scope.
Local Opaque npts_by_algebraic_order algebraic_order_by_npts next_algebraic_order grid_selected.

Lemma lookups_monotone_iff : forall f o o',
  npts_by_algebraic_order f o <> -1 -> npts_by_algebraic_order f o' <> -1 ->
  (o < o' <-> npts_by_algebraic_order f o < npts_by_algebraic_order f o').
Proof.
  intros f o o' H H'. split; intro L.
  - apply lookups_monotone; auto.
  - destruct (Z.lt_trichotomy o o') as [C|[C|C]]; auto.
    + subst; lia.
    + pose proof (lookups_monotone f o' o H' H C). lia.
Qed.

Lemma next_order_full : forall f o, exists M,
  npts_by_algebraic_order f M <> -1 /\
  (forall s, npts_by_algebraic_order f s <> -1 -> s <= M) /\
  npts_by_algebraic_order f (next_algebraic_order f o) <> -1 /\
  (o <= M -> o <= next_algebraic_order f o /\
     forall s, npts_by_algebraic_order f s <> -1 -> o <= s -> next_algebraic_order f o <= s) /\
  (M < o -> next_algebraic_order f o = M).
Proof.
  intros f o. exists (max_order f).
  destruct (next_order_spec f o) as (A & B & C & D & E).
  exact (conj E (conj D (conj A (conj B C)))).
Qed.

Lemma next_fixed_iff : forall f o,
  next_algebraic_order f o = o <-> npts_by_algebraic_order f o <> -1.
Proof.
  intros f o. destruct (next_order_spec f o) as (A & B & C & D & E). split.
  - intro H. rewrite H in A. exact A.
  - intro H. destruct (B (D o H)) as [B1 B2]. specialize (B2 o H). lia.
Qed.

Lemma angular_supported : forall (S : Scalar) dbg (grids : afam -> Z -> @static_grid S) f n,
  algebraic_order_by_npts f (Z.of_nat n) <> -1 ->
  length (fst (grids f (Z.of_nat n))) = n -> length (snd (grids f (Z.of_nat n))) = n ->
  exists q, construct dbg (s2_generate grids f n) = Ok q /\ sized n q /\
    qpoints q = fst (grids f (Z.of_nat n)) /\
    qweights q = map (fun w => if match f with LebedevLaikov | Delley => true | _ => false end
                               then (w * (sofZ 4 * spi))%S else w)
                     (snd (grids f (Z.of_nat n))).
Proof.
  intros S dbg grids f n H L1 L2.
  assert (E : grid_selected f (Z.of_nat n) = Some (Z.of_nat n)) by (apply dispatch_iff; auto).
  rewrite (s2_selected grids f n _ E L1 L2).
  rewrite construct_Ok by (rewrite map_length; congruence).
  eexists. split; [reflexivity|]. split; [apply sized_intro; auto; rewrite map_length; auto|].
  split; [reflexivity|]. simpl. apply map_ext. intro w. unfold ang_wt. destruct f; reflexivity.
Qed.

Lemma angular_unsupported : forall (S : Scalar) dbg (grids : afam -> Z -> @static_grid S) f n,
  algebraic_order_by_npts f (Z.of_nat n) = -1 ->
  exists q, construct dbg (s2_generate grids f n) = Ok q /\ sized n q /\
    Forall (fun p => p = pt3_0) (qpoints q) /\
    Forall (fun w => w = s0 \/ w = (s0 * (sofZ 4 * spi))%S) (qweights q).
Proof.
  intros S dbg grids f n H. rewrite (s2_unselected grids f n) by (apply dispatch_none; auto).
  rewrite construct_Ok by (rewrite !repeat_length; auto).
  eexists. split; [reflexivity|].
  split; [apply sized_intro; rewrite repeat_length; auto|]. simpl. split.
  - apply Forall_forall. intros p Hp. apply repeat_spec in Hp; auto.
  - apply Forall_forall. intros w Hw. apply repeat_spec in Hw. unfold ang_wt in Hw.
    destruct (scales_weights f); auto.
Qed.

Lemma angular_silent : exists f n,
  algebraic_order_by_npts f (Z.of_nat n) = -1 /\
  forall (S : Scalar) dbg (grids : afam -> Z -> @static_grid S),
    exists q, construct dbg (s2_generate grids f n) = Ok q.
Proof.
  exists LebedevLaikov, 7%nat. assert (E : algebraic_order_by_npts LebedevLaikov (Z.of_nat 7) = -1)
    by (vm_compute; reflexivity). split; auto. intros S dbg grids.
  destruct (angular_unsupported S dbg grids LebedevLaikov 7 E) as (q & Q & _). eauto.
Qed.
