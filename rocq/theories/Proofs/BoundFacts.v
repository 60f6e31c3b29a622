(** The interval transformation over the reals. *)
From Coq Require Import List Bool Arith ZArith Lia Reals Lra Psatz.
From Coquelicot Require Import Coquelicot.
From Verif Require Import Base.Outcome Base.Scalar Base.RScalar Model.BoundTransform Spec.Sums
  Spec.RealRules Spec.IntervalSpec.
Import ListNotations.
Local Open Scope R_scope.

Definition the_map (lo up : bound RS) (x : R) : R :=
  match lo, up with
  | BoundTransform.Finite lo, BoundTransform.Finite up => (up - lo) * x / 2 + (up + lo) / 2
  | BoundTransform.Finite lo, _ => lo + (1 + x) / (1 - x)
  | _, BoundTransform.Finite up => up - (1 - x) / (1 + x)
  | _, _ => x / (1 + x) / (1 - x)
  end.

Definition the_jac (lo up : bound RS) (x : R) : R :=
  match lo, up with
  | BoundTransform.Finite lo, BoundTransform.Finite up => (up - lo) / 2
  | BoundTransform.Finite lo, _ => 2 / ((1 - x) * (1 - x))
  | _, BoundTransform.Finite up => - 2 / ((1 + x) * (1 + x))
  | _, _ => (1 + x * x) / ((x * x - 1) * (x * x - 1))
  end.

Lemma the_result : forall dbg lo up x w, Rbar_lt (ext lo) (ext up) ->
  @transform_minus_one_to_one RS dbg lo up x w = Ok (the_map lo up x, w * the_jac lo up x).
Proof.
  intros dbg lo up x w L. unfold transform_minus_one_to_one.
  assert (B : @bound_ltb RS lo up = true).
  { destruct lo as [|lo|], up as [|up|]; simpl in *; auto; try tauto.
    unfold Rltb. destruct (Rlt_dec lo up); auto. }
  rewrite B. unfold cassert. replace (if dbg then _ else _) with (@Ok unit tt) by (destruct dbg; reflexivity).
  destruct lo as [|lo|], up as [|up|]; simpl in *; try tauto; reflexivity.
Qed.

Lemma map_derive : forall lo up x, Rbar_lt (ext lo) (ext up) -> -1 < x < 1 ->
  (~ left_infinite lo up -> is_derive (the_map lo up) x (the_jac lo up x)) /\
  (left_infinite lo up -> is_derive (the_map lo up) x (- the_jac lo up x)) /\
  (~ left_infinite lo up -> 0 < the_jac lo up x) /\
  (left_infinite lo up -> the_jac lo up x < 0).
Proof.
  intros lo up x L Hx. unfold left_infinite.
  assert (0 < (1 - x) * (1 - x)) by nra. assert (0 < (1 + x) * (1 + x)) by nra.
  assert (P : 0 < (x * x - 1) * (x * x - 1)) by (assert (x * x - 1 < 0) by nra; nra).
  destruct lo as [|lo|], up as [|up|]; simpl in *; try tauto; unfold the_map, the_jac; cbn [the_map the_jac];
  refine (conj _ (conj _ (conj _ _))); try (intros (A & u & B); discriminate); try (intro N; exfalso; apply N; eauto; fail).
  - intros _. auto_derive; [lra|]. field. lra.
  - intros _. assert (0 < / ((1 + x) * (1 + x))) by (apply Rinv_0_lt_compat; auto). unfold Rdiv. nra.
  - intros _. auto_derive; [lra|]. field. split; [nra|]. split; nra.
  - intros _. apply Rdiv_lt_0_compat; nra.
  - intros _. auto_derive; auto. field.
  - intros _. lra.
  - intros _. auto_derive; [lra|]. field. lra.
  - intros _. apply Rdiv_lt_0_compat; nra.
Qed.

Lemma map_onto : forall lo up, Rbar_lt (ext lo) (ext up) ->
  increasing_onto (the_map lo up) (-1) 1 (ext lo) (ext up).
Proof.
  intros lo up L. unfold increasing_onto, strictly_inside.
  assert (Inc : forall x y, -1 < x -> x < y -> y < 1 -> the_map lo up x < the_map lo up y).
  { intros x y Hx Hxy Hy.
    set (d := fun z => match lo, up with MinusInf, BoundTransform.Finite _ => - the_jac lo up z | _, _ => the_jac lo up z end).
    assert (D : forall z, -1 < z < 1 -> is_derive (the_map lo up) z (d z) /\ 0 < d z).
    { intros z Hz. destruct (map_derive lo up z L Hz) as (A & B & C & E). unfold d, left_infinite in *.
      destruct lo as [|lo'|], up as [|up'|]; simpl in L; try tauto.
      - assert (P : @MinusInf RS = MinusInf /\ exists u : RS, BoundTransform.Finite up' = BoundTransform.Finite u) by eauto.
        split; auto. specialize (E P). lra.
      - assert (P : ~ (@MinusInf RS = MinusInf /\ exists u : RS, PlusInf = BoundTransform.Finite u)) by (intros (_ & u & K); discriminate). auto.
      - assert (P : ~ (BoundTransform.Finite lo' = MinusInf /\ exists u : RS, BoundTransform.Finite up' = BoundTransform.Finite u)) by (intros (K & _); discriminate). auto.
      - assert (P : ~ (BoundTransform.Finite lo' = MinusInf /\ exists u : RS, PlusInf = BoundTransform.Finite u)) by (intros (K & _); discriminate). auto. }
    destruct (MVT_cor2 (the_map lo up) d x y Hxy) as (c & E & Hc).
    { intros c Hc. apply is_derive_Reals. apply D. lra. }
    destruct (D c ltac:(lra)) as (_ & P). nra. }
  split; [|split; [exact Inc|]].
  - intros x Hx. assert (0 < (1 + x) / (1 - x)) by (apply Rdiv_lt_0_compat; lra).
    assert (0 < (1 - x) / (1 + x)) by (apply Rdiv_lt_0_compat; lra).
    destruct lo as [|lo|], up as [|up|]; simpl in *; try tauto; split; auto; try lra; nra.
  - intros y (Hl & Hu). destruct lo as [|lo|], up as [|up|]; simpl in *; try tauto; unfold the_map.
    + exists (1 - 2 * (up - y) / (up - y + 1)).
      assert (E : 0 < 2 * (up - y) / (up - y + 1) < 2).
      { split. apply Rdiv_lt_0_compat; lra. apply Rmult_lt_reg_r with (up - y + 1); [lra|].
        unfold Rdiv. rewrite Rmult_assoc, Rinv_l by lra. lra. }
      split; [lra|]. field. split; lra.
    + (* y = x/(1-x^2) *)
      set (s := sqrt (1 + 4 * (y * y))).
      assert (S2 : s * s = 1 + 4 * (y * y)) by (apply sqrt_sqrt; nra).
      assert (S1 : 1 <= s) by (rewrite <- sqrt_1; apply sqrt_le_1_alt; nra).
      exists (2 * y / (1 + s)).
      assert (E : -1 < 2 * y / (1 + s) < 1).
      { assert (- (1 + s) < 2 * y < 1 + s) by (split; nra).
        split; (apply Rmult_lt_reg_r with (1 + s); [lra|]); unfold Rdiv; rewrite Rmult_assoc, Rinv_l by lra; lra. }
      split; auto.
      assert (Q : (2 * y / (1 + s)) * (2 * y / (1 + s)) = (s - 1) / (s + 1)).
      { replace (2 * y / (1 + s) * (2 * y / (1 + s))) with (4 * (y * y) / ((1 + s) * (1 + s))) by (field; lra).
        replace (4 * (y * y)) with ((s - 1) * (s + 1)) by lra. field. lra. }
      set (x := 2 * y / (1 + s)) in *.
      replace (x / (1 + x) / (1 - x)) with (x / (1 - x * x)) by (field; split; [lra|split; nra]).
      rewrite Q. unfold x. field. split; lra.
    + exists ((2 * y - (up + lo)) / (up - lo)). split; [|field; lra].
      split; (apply Rmult_lt_reg_r with (up - lo); [lra|]); unfold Rdiv; rewrite Rmult_assoc, Rinv_l by lra; lra.
    + exists (1 - 2 / (y - lo + 1)).
      assert (E : 0 < 2 / (y - lo + 1) < 2).
      { split. apply Rdiv_lt_0_compat; lra. apply Rmult_lt_reg_r with (y - lo + 1); [lra|].
        unfold Rdiv. rewrite Rmult_assoc, Rinv_l by lra. lra. }
      split; [lra|]. field. split; lra.
Qed.

Lemma transform_change : forall dbg lo up, Rbar_lt (ext lo) (ext up) ->
  exists T : R -> R, increasing_onto T (-1) 1 (ext lo) (ext up) /\
  forall x w, -1 < x < 1 -> exists v,
    @transform_minus_one_to_one RS dbg lo up x w = Ok (T x, v) /\
    exists d, is_derive T x d /\ 0 < d /\ (~ left_infinite lo up -> v = w * d) /\
      (left_infinite lo up -> v = - (w * d)).
Proof.
  intros dbg lo up L. exists (the_map lo up). split; [apply map_onto; auto|].
  intros x w Hx. exists (w * the_jac lo up x). split; [apply the_result; auto|].
  destruct (map_derive lo up x L Hx) as (A & B & C & D).
  assert (Dec : left_infinite lo up \/ ~ left_infinite lo up).
  { destruct lo as [|l|], up as [|u|]; try (right; intros (E & u' & F); discriminate). left. split; eauto. }
  destruct Dec as [P|P].
  - exists (- the_jac lo up x). specialize (D P). split; [auto|]. split; [lra|]. split; [tauto|]. intros _. rs_eq. ring.
  - exists (the_jac lo up x). refine (conj _ (conj _ (conj _ _))); auto. tauto.
Qed.

Lemma mapped_finite : forall dbg (lo up : R) q q' f, lo < up ->
  maps_rule dbg (BoundTransform.Finite (lo : RS)) (BoundTransform.Finite (up : RS)) q q' ->
  (let g := fun x => f ((up - lo) / 2 * x + (up + lo) / 2) in is_RInt g (-1) 1 (apply_rule q g)) ->
  is_RInt f lo up (apply_rule q' f).
Proof.
  intros dbg lo up q q' f L M I. cbv zeta in I.
  set (u := (up - lo) / 2) in *. set (v := (up + lo) / 2) in *. assert (0 < u) by (unfold u; lra).
  assert (E : apply_rule q' f = u * apply_rule q (fun x => f (u * x + v))).
  { unfold apply_rule, wsum. unfold maps_rule in M. revert M.
    generalize (combine (fst q) (snd q)) (combine (fst q') (snd q')).
    induction 1 as [|a b la lb Hab M IH]; [unfold Rsum; simpl; ring|].
    cbn [map]. unfold Rsum at 1 2. cbn [fold_right]. fold (Rsum (map (fun pw => snd pw * f (fst pw)) lb)).
    fold (Rsum (map (fun pw => snd pw * f (u * fst pw + v)) la)). rewrite IH.
    rewrite the_result in Hab by (simpl; auto). injection Hab as <-. destruct a as [x w].
    cbn [fst snd the_map the_jac]. fold u v.
    replace ((up - lo) * x / 2 + v) with (u * x + v) by (unfold u; field). ring. }
  rewrite E.
  apply (is_RInt_scal (V := R_NormedModule) _ _ _ u) in I.
  pose proof (is_RInt_comp_lin (V := R_NormedModule) (fun x => scal u (f (u * x + v))) (/ u) (- v / u) lo up
    (u * apply_rule q (fun x => f (u * x + v)))) as K2.
  replace (/ u * lo + - v / u) with (-1) in K2 by (unfold u, v; field; lra).
  replace (/ u * up + - v / u) with 1 in K2 by (unfold u, v; field; lra).
  specialize (K2 I).
  eapply is_RInt_ext; [|exact K2]. intros x Hx. unfold scal; simpl. unfold mult; simpl.
  replace (u * (/ u * x + - v / u) + v) with x by (field; lra).
  match goal with |- @eq _ ?a ?b => change (@eq R a b) end. field. lra.
Qed.

Lemma left_infinite_negative : forall dbg (u x w : R), -1 < x < 1 -> 0 < w ->
  exists y v, @transform_minus_one_to_one RS dbg MinusInf (BoundTransform.Finite (u : RS)) x w = Ok (y, v) /\ v < 0.
Proof.
  intros dbg u x w Hx Hw.
  destruct (transform_change dbg MinusInf (BoundTransform.Finite (u : RS)) I) as (T & _ & H).
  destruct (H x w Hx) as (v & E & d & _ & Pd & _ & N). exists (T x), v. split; auto.
  rewrite N by (split; eauto). assert (0 < w * d) by (apply Rmult_lt_0_compat; auto). lra.
Qed.

Lemma midpoint_ex :
  maps_rule true (BoundTransform.Finite (0 : RS)) (BoundTransform.Finite (4 : RS)) ([0], [2]) ([2], [4]) /\
  let g := fun x => (4 - 0) / 2 * x + (4 + 0) / 2 in is_RInt g (-1) 1 (apply_rule ([0], [2]) g).
Proof.
  split.
  - unfold maps_rule. cbn [fst snd combine]. constructor; [|constructor].
    rewrite the_result by (simpl; lra). cbn [fst snd the_map the_jac].
    assert (P : forall a b c d : R, a = c -> b = d -> Ok (a, b) = Ok (c, d)) by congruence.
    apply P; field.
  - cbv zeta. unfold apply_rule, wsum, Rsum. cbn [fst snd combine map fold_right].
    replace (2 * ((4 - 0) / 2 * 0 + (4 + 0) / 2) + 0) with
      ((1 * 1 + 2 * 1) - ((-1) * (-1) + 2 * (-1))) by field.
    apply (is_RInt_derive (V := R_CompleteNormedModule) (fun x => x * x + 2 * x)).
    + intros x _. auto_derive; auto. field.
    + intros x _. apply (ex_derive_continuous (K := R_AbsRing) (V := R_NormedModule)). auto_derive; auto.
Qed.
