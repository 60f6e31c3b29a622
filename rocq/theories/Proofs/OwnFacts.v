(** Ownership of radial traits by specification objects. *)
From Coq Require Import List Bool Arith ZArith Lia.
From Verif Require Import Base.Outcome Base.OutcomeFacts Base.Scalar Model.Quadrature
  Model.Primitive Model.Radial Model.S2 Model.Composite Model.Factory Model.SpecHeap
  Spec.OwnSpec Proofs.HeapFacts Proofs.FactoryFacts.
Import ListNotations.
Local Open Scope nat_scope.

Section Own.
Context {S : Scalar}.
Variable grids : afam -> Z -> @static_grid S.
Variable dbg : bool.
Notation vobj := (obj (rtraits S)).

Definition inv (m : memory S) (vs : list (option (obj nat))) : Prop :=
  (forall a, live m a <-> exists v, owns vs v a) /\
  (forall v w a, owns vs v a -> owns vs w a -> v = w).

Definition show (m : memory S) (vs : list (option (obj nat))) : list (option vobj) :=
  map (option_map (look m)) vs.

Definition has (x : option (obj nat)) (a : nat) : Prop :=
  match x with Some o => o_traits o = Some a | None => False end.

Lemma owns_has : forall vs v a, owns vs v a <-> exists x, nth_error vs v = Some x /\ has x a.
Proof.
  intros. split.
  - intros (o & H & E). exists (Some o). auto.
  - intros ([o|] & H & E); [|destruct E]. exists o. auto.
Qed.

Lemma owns_upd : forall vs i x v a, i < length vs ->
  (owns (upd vs i x) v a <-> (v = i /\ has x a) \/ (v <> i /\ owns vs v a)).
Proof.
  intros vs i x v a H. rewrite !owns_has, nth_error_upd by auto.
  destruct (Nat.eqb_spec v i) as [->|N].
  - split.
    + intros (y & E & Hy). injection E as <-. auto.
    + intros [[_ Hx]|[N _]]; [exists x; auto|congruence].
  - split; [intro; right; auto|intros [[E _]|[_ H']]; [congruence|auto]].
Qed.

Lemma owns_app : forall vs x v a,
  owns (vs ++ [x]) v a <-> (v = length vs /\ has x a) \/ owns vs v a.
Proof.
  intros vs x v a. rewrite !owns_has. split.
  - intros (y & E & Hy). destruct (Nat.lt_ge_cases v (length vs)) as [L|L].
    + rewrite nth_error_app1 in E by auto. right. exists y. auto.
    + rewrite nth_error_app2 in E by auto.
      destruct (v - length vs) as [|k] eqn:D; [|destruct k; discriminate].
      injection E as <-. left. split; [lia|auto].
  - intros [[-> Hx]|(y & E & Hy)].
    + exists x. rewrite nth_error_app2, Nat.sub_diag by auto. auto.
    + exists y. rewrite nth_error_app1; auto. apply nth_error_Some. congruence.
Qed.

Lemma owns_lt : forall vs v a, owns vs v a -> v < length vs.
Proof. intros vs v a (o & H & _). apply nth_error_Some. congruence. Qed.

Lemma live_lt : forall (m : memory S) a, live m a -> a < length m.
Proof. intros m a (t & H). apply nth_error_Some. congruence. Qed.

Lemma live_app : forall (m : memory S) x a,
  live (m ++ [x]) a <-> (a = length m /\ x <> None) \/ live m a.
Proof.
  intros m x a. unfold live. destruct (Nat.lt_ge_cases a (length m)) as [L|L].
  - rewrite nth_error_app1 by auto. split; [auto|intros [[E _]|]; [lia|auto]].
  - rewrite nth_error_app2 by auto. split.
    + intros (t & E). destruct (a - length m) as [|k] eqn:D; [|destruct k; discriminate].
      left. split; [lia|]. injection E as ->. discriminate.
    + intros [[-> H]|(t & E)].
      * rewrite Nat.sub_diag. destruct x as [t|]; [exists t; auto|congruence].
      * exfalso. assert (a < length m) by (apply nth_error_Some; congruence). lia.
Qed.

Lemma live_upd : forall (m : memory S) i x a, i < length m ->
  (live (upd m i x) a <-> (a = i /\ x <> None) \/ (a <> i /\ live m a)).
Proof.
  intros m i x a H. unfold live. rewrite nth_error_upd by auto.
  destruct (Nat.eqb_spec a i) as [->|N].
  - split.
    + intros (t & E). injection E as ->. left. split; auto. discriminate.
    + intros [[_ Hx]|[N _]]; [|congruence]. destruct x as [t|]; [exists t; auto|congruence].
  - split; [intro; right; auto|intros [[E _]|[_ H']]; [congruence|auto]].
Qed.

(** How the shown values change. *)
Lemma show_ext : forall m m' vs,
  (forall v a, owns vs v a -> nth_error m a = nth_error m' a) -> show m vs = show m' vs.
Proof.
  intros m m' vs. unfold show. induction vs as [|x r IH]; intro H; [auto|].
  simpl. f_equal.
  - destruct x as [o|]; [|auto]. simpl. f_equal. unfold look. f_equal.
    destruct (o_traits o) as [a|] eqn:E; [|auto].
    rewrite (H 0 a); [auto|]. exists o. auto.
  - apply IH. intros v a (o & E & Ho). apply (H (Datatypes.S v) a). exists o. auto.
Qed.

Lemma show_put : forall m vs i x, show m (upd vs i x) = put (show m vs) i (option_map (look m) x).
Proof.
  intros m vs. unfold show. induction vs as [|y r IH]; intros i x; destruct i; simpl; auto.
  f_equal. apply IH.
Qed.

Lemma show_app : forall m vs x, show m (vs ++ [x]) = show m vs ++ [option_map (look m) x].
Proof. intros. unfold show. rewrite map_app. auto. Qed.

Lemma show_len : forall m vs, length (show m vs) = length vs.
Proof. intros. unfold show. apply map_length. Qed.

Lemma put_put : forall (vs : list (option vobj)) v x y, put (put vs v x) v y = put vs v y.
Proof. induction vs as [|z r IH]; intros v x y; destruct v; simpl; auto. f_equal. auto. Qed.

Lemma put_same : forall (vs : list (option vobj)) v x, nth_error vs v = Some x -> put vs v x = vs.
Proof.
  induction vs as [|z r IH]; intros v x H; destruct v; simpl in *; try discriminate.
  - congruence.
  - f_equal. auto.
Qed.

(** Elementary changes of a state. *)
Lemma inv_dead : forall k m vs, inv m vs ->
  inv (m ++ repeat None k) vs /\ show (m ++ repeat None k) vs = show m vs.
Proof.
  intros k m vs [I1 I2]. split.
  - split; [|auto]. intro a. rewrite <- I1. unfold live. split.
    + intros (t & E). exists t. destruct (Nat.lt_ge_cases a (length m)) as [L|L].
      * rewrite nth_error_app1 in E; auto.
      * rewrite nth_error_app2 in E by auto. apply nth_error_In, repeat_spec in E. discriminate.
    + intros (t & E). exists t. rewrite nth_error_app1; auto. apply nth_error_Some. congruence.
  - symmetry. apply show_ext. intros v a H. rewrite nth_error_app1; auto.
    apply live_lt, I1. exists v. auto.
Qed.

Lemma inv_null : forall m vs d, inv m vs -> inv m (vs ++ [Some (mkObj None d)]).
Proof.
  intros m vs d [I1 I2]. split.
  - intro a. rewrite I1. split; intros (v & H); exists v; rewrite owns_app in *;
      [auto|destruct H as [[_ H]|H]; [discriminate H|auto]].
  - intros v w a Hv Hw. rewrite owns_app in *.
    destruct Hv as [[_ H]|Hv]; [discriminate H|]. destruct Hw as [[_ H]|Hw]; [discriminate H|].
    eauto.
Qed.

(** A null variable gets a fresh block. *)
Lemma inv_give : forall m vs i o t d, inv m vs ->
  nth_error vs i = Some (Some o) -> o_traits o = None ->
  inv (m ++ [Some t]) (upd vs i (Some (mkObj (Some (length m)) d))) /\
  show (m ++ [Some t]) (upd vs i (Some (mkObj (Some (length m)) d)))
    = put (show m vs) i (Some (mkObj (Some t) d)).
Proof.
  intros m vs i o t d [I1 I2] E N.
  assert (L : i < length vs) by (apply nth_error_Some; congruence).
  assert (Ni : forall a, ~ owns vs i a).
  { intros a (o' & E' & H'). congruence. }
  assert (Nf : forall v, ~ owns vs v (length m)).
  { intros v H. assert (H' : live m (length m)) by (apply I1; exists v; auto).
    apply live_lt in H'. lia. }
  split; [split|].
  - intro a. rewrite live_app, I1. split.
    + intros [[-> _]|(v & H)].
      * exists i. rewrite owns_upd by auto. left. simpl. auto.
      * exists v. rewrite owns_upd by auto. right. split; auto. intros ->. eapply Ni; eauto.
    + intros (v & H). rewrite owns_upd in H by auto. destruct H as [[_ H]|[_ H]].
      * left. injection H as <-. split; auto. discriminate.
      * right. exists v. auto.
  - intros v w a Hv Hw. rewrite owns_upd in Hv, Hw by auto.
    destruct Hv as [[-> Hv]|[Nv Hv]], Hw as [[-> Hw]|[Nw Hw]]; auto.
    + injection Hv as <-. exfalso. eapply Nf; eauto.
    + injection Hw as <-. exfalso. eapply Nf; eauto.
    + eauto.
  - rewrite show_put. simpl. f_equal.
    + apply show_ext. intros v a H. rewrite nth_error_app1; auto.
      apply live_lt, I1. exists v. auto.
    + unfold look. simpl. rewrite nth_error_app2, Nat.sub_diag by auto. auto.
Qed.

Lemma upd_last : forall {A} (l : list A) x y, upd (l ++ [x]) (length l) y = l ++ [y].
Proof. induction l as [|z r IH]; intros; simpl; [auto|]. f_equal. apply IH. Qed.
Lemma put_last : forall (l : list (option vobj)) x y, put (l ++ [x]) (length l) y = l ++ [y].
Proof. induction l as [|z r IH]; intros; simpl; [auto|]. f_equal. apply IH. Qed.

(** A new variable with a fresh block. *)
Lemma inv_new : forall m vs t d, inv m vs ->
  inv (m ++ [Some t]) (vs ++ [Some (mkObj (Some (length m)) d)]) /\
  show (m ++ [Some t]) (vs ++ [Some (mkObj (Some (length m)) d)])
    = show m vs ++ [Some (mkObj (Some t) d)].
Proof.
  intros m vs t d I.
  assert (E : nth_error (vs ++ [Some (mkObj None d)]) (length vs) = Some (Some (mkObj (P := nat) None d)))
    by (rewrite nth_error_app2, Nat.sub_diag by auto; auto).
  destruct (inv_give m _ _ _ t d (inv_null m vs d I) E eq_refl) as [H1 H2].
  rewrite upd_last in H1, H2. split; [exact H1|].
  rewrite H2, show_app, <- (show_len m vs), put_last. auto.
Qed.

(** Changing members other than the traits. *)
Lemma inv_data : forall m vs i o d, inv m vs -> nth_error vs i = Some (Some o) ->
  inv m (upd vs i (Some (mkObj (o_traits o) d))) /\
  show m (upd vs i (Some (mkObj (o_traits o) d)))
    = put (show m vs) i (Some (mkObj (o_traits (look m o)) d)).
Proof.
  intros m vs i o d [I1 I2] E.
  assert (L : i < length vs) by (apply nth_error_Some; congruence).
  assert (Ho : forall v a, owns (upd vs i (Some (mkObj (o_traits o) d))) v a <-> owns vs v a).
  { intros v a. rewrite owns_upd by auto. simpl. split.
    - intros [[-> H]|[_ H]]; auto. exists o. auto.
    - intro H. destruct (Nat.eq_dec v i) as [->|N]; [left|right; auto].
      split; auto. destruct H as (o' & E' & H'). congruence. }
  split; [split|].
  - intro a. rewrite I1. split; intros (v & H); exists v; apply Ho; auto.
  - intros v w a Hv Hw. apply Ho in Hv, Hw. eauto.
  - rewrite show_put. auto.
Qed.

(** Deleting a variable's block and making the variable null or destroying it. *)
Lemma inv_drop : forall m vs i o x, inv m vs -> nth_error vs i = Some (Some o) ->
  (forall a, ~ has x a) ->
  exists m', h_free m (o_traits o) = Ok m' /\ length m' = length m /\
    inv m' (upd vs i x) /\ show m' (upd vs i x) = put (show m vs) i (option_map (look m) x) /\
    (forall r, h_free (m ++ r) (o_traits o) = Ok (m' ++ r)).
Proof.
  intros m vs i o x [I1 I2] E Hx.
  assert (L : i < length vs) by (apply nth_error_Some; congruence).
  destruct (o_traits o) as [a|] eqn:T.
  - assert (Oa : owns vs i a) by (exists o; auto).
    assert (La : live m a) by (apply I1; exists i; auto).
    assert (La' := live_lt _ _ La). destruct La as (t & Et).
    exists (upd m a None). simpl.
    assert (Eg : vget m a = Ok (Some t)) by (unfold vget; rewrite Et; auto).
    rewrite Eg. simpl. rewrite vset_Ok by auto.
    repeat split.
    + apply upd_length.
    + intros (t' & H). assert (H' : live (upd m a None) a0) by (exists t'; auto).
      rewrite live_upd in H' by auto. destruct H' as [[_ H']|[N H']]; [congruence|].
      apply I1 in H'. destruct H' as (v & H'). exists v. rewrite owns_upd by auto.
      right. split; auto. intros ->. apply N. destruct H' as (o' & E' & T'). congruence.
    + intros (v & H). rewrite owns_upd in H by auto. destruct H as [[_ H]|[N H]].
      * exfalso. eapply Hx; eauto.
      * rewrite live_upd by auto. right. split; [|apply I1; exists v; auto].
        intros ->. apply N. eapply I2; eauto.
    + intros v w b Hv Hw. rewrite owns_upd in Hv, Hw by auto.
      destruct Hv as [[_ Hv]|[_ Hv]]; [exfalso; eapply Hx; eauto|].
      destruct Hw as [[_ Hw]|[_ Hw]]; [exfalso; eapply Hx; eauto|]. eauto.
    + rewrite <- show_put. apply show_ext. intros v b H. rewrite owns_upd in H by auto.
      destruct H as [[_ H]|[N H]]; [exfalso; eapply Hx; eauto|].
      rewrite nth_error_upd by auto. destruct (Nat.eqb_spec b a) as [->|]; [|auto].
      exfalso. apply N. eapply I2; eauto.
    + intro r. rewrite vget_app1, Eg by auto. simpl.
      rewrite vset_Ok by (rewrite app_length; lia). f_equal.
      clear -La'. revert m La'. induction a as [|a IH]; intros [|y m] L; simpl in *; try lia; auto.
      f_equal. apply IH. lia.
  - exists m. simpl. repeat split; auto.
    + intro H. apply I1 in H. destruct H as (v & H). exists v. rewrite owns_upd by auto.
      right. split; auto. intros ->. destruct H as (o' & E' & T'). congruence.
    + intros (v & H). rewrite owns_upd in H by auto. destruct H as [[_ H]|[N H]].
      * exfalso. eapply Hx; eauto.
      * apply I1. exists v. auto.
    + intros v w b Hv Hw. rewrite owns_upd in Hv, Hw by auto.
      destruct Hv as [[_ Hv]|[_ Hv]]; [exfalso; eapply Hx; eauto|].
      destruct Hw as [[_ Hw]|[_ Hw]]; [exfalso; eapply Hx; eauto|]. eauto.
    + apply show_put.
Qed.

(** A pointer moves from one variable to a null one. *)
Lemma inv_move : forall m vs v w ov ow, inv m vs -> v <> w ->
  nth_error vs v = Some (Some ov) -> o_traits ov = None ->
  nth_error vs w = Some (Some ow) ->
  let vs' := upd (upd vs w (Some (mkObj None (o_data ow)))) v (Some (mkObj (o_traits ow) (o_data ov))) in
  inv m vs' /\
  show m vs' = put (put (show m vs) w (Some (mkObj None (o_data ow)))) v
                 (Some (mkObj (o_traits (look m ow)) (o_data ov))).
Proof.
  intros m vs v w ov ow [I1 I2] N Ev Tv Ew vs'.
  assert (Lv : v < length vs) by (apply nth_error_Some; congruence).
  assert (Lw : w < length vs) by (apply nth_error_Some; congruence).
  assert (Ho : forall u a, owns vs' u a <->
    (u = v /\ owns vs w a) \/ (u <> v /\ u <> w /\ owns vs u a)).
  { intros u a. unfold vs'. rewrite owns_upd by (rewrite upd_length; auto).
    rewrite owns_upd by auto. simpl. split.
    - intros [[-> H]|[Nu [[_ H]|[Nw H]]]]; [left|discriminate|right; auto].
      split; auto. exists ow. auto.
    - intros [[-> (o' & E' & H')]|(N1 & N2 & H)]; [left|right; auto].
      split; auto. congruence. }
  assert (Nv : forall a, ~ owns vs v a) by (intros a (o' & E' & H'); congruence).
  split; [split|].
  - intro a. rewrite I1. split; intros (u & H).
    + destruct (Nat.eq_dec u w) as [->|Nu].
      * exists v. apply Ho. auto.
      * exists u. apply Ho. right. repeat split; auto. intros ->. eapply Nv; eauto.
    + apply Ho in H. destruct H as [[-> H]|(_ & _ & H)]; eauto.
  - intros u u' a H H'. apply Ho in H, H'.
    destruct H as [[-> H]|(N1 & N2 & H)], H' as [[-> H']|(N1' & N2' & H')]; auto.
    + exfalso. apply N2'. eauto.
    + exfalso. apply N2. eauto.
    + eauto.
  - unfold vs'. rewrite !show_put. auto.
Qed.

(** Writing to a block through its owner. *)
Lemma inv_write : forall m vs v o a t, inv m vs ->
  nth_error vs v = Some (Some o) -> o_traits o = Some a ->
  inv (upd m a (Some t)) vs /\
  show (upd m a (Some t)) vs = put (show m vs) v (Some (mkObj (Some t) (o_data o))).
Proof.
  intros m vs v o a t [I1 I2] E T.
  assert (Oa : owns vs v a) by (exists o; auto).
  assert (La : live m a) by (apply I1; exists v; auto).
  assert (La' := live_lt _ _ La).
  split; [split; [|auto]|].
  - intro b. rewrite live_upd, <- I1 by auto. split.
    + intros [[-> _]|[_ H]]; auto.
    + intro H. destruct (Nat.eq_dec b a) as [->|]; [left; split; auto; discriminate|right; auto].
  - assert (Eq : show (upd m a (Some t)) vs
             = put (show (upd m a (Some t)) vs) v (Some (mkObj (Some t) (o_data o)))).
    { symmetry. apply put_same. unfold show. rewrite nth_error_map, E. simpl.
      unfold look. rewrite T, nth_error_upd, Nat.eqb_refl by auto. auto. }
    rewrite Eq.
    change (Some (mkObj (Some t) (o_data o))) with
      (option_map (fun x : vobj => x) (Some (mkObj (Some t) (o_data o)))).
    assert (P : forall x y : list (option vobj), length x = length y ->
      (forall u, u <> v -> nth_error x u = nth_error y u) ->
      forall z, put x v z = put y v z).
    { clear. revert v. intros v x. revert v. induction x as [|p x IH]; intros v [|q y] L H z;
        simpl in L; try lia; auto.
      destruct v as [|v]; simpl.
      - f_equal. clear IH. assert (H' : forall u, nth_error x u = nth_error y u)
          by (intro u; apply (H (Datatypes.S u)); lia).
        clear H. revert y L H'. induction x as [|a x IH]; intros [|b y] L H'; simpl in L; try lia; auto.
        f_equal; [specialize (H' 0); simpl in H'; congruence|]. apply IH; [lia|].
        intro u. apply (H' (Datatypes.S u)).
      - f_equal; [specialize (H 0 ltac:(lia)); simpl in H; congruence|].
        apply IH; [lia|]. intros u Hu. apply (H (Datatypes.S u)). lia. }
    apply P; [rewrite !show_len; auto|].
    intros u Hu. unfold show. rewrite !nth_error_map.
    destruct (nth_error vs u) as [[o'|]|] eqn:E'; simpl; auto.
    unfold look. destruct (o_traits o') as [b|] eqn:T'; auto.
    rewrite nth_error_upd by auto. destruct (Nat.eqb_spec b a) as [->|]; auto.
    exfalso. apply Hu. apply (I2 u v a); auto. exists o'. auto.
Qed.

End Own.
