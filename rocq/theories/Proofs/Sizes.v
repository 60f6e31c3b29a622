(** Sizes of all constructed quadratures (C01), for every scalar type. *)
From Coq Require Import List Bool Arith ZArith Lia.
From Verif Require Import Base.Outcome Base.OutcomeFacts Base.Scalar Model.Quadrature
  Model.Primitive Model.Radial Model.S2Tables Model.S2 Spec.QuadSpec
  Proofs.Tab Proofs.PrimitiveFacts.
Import ListNotations.

Lemma sized_intro : forall P W n (ps : list P) (ws : list W),
  length ps = n -> length ws = n -> sized n (mkQuad ps ws).
Proof.
  intros P W n ps ws Hp Hw. unfold sized, npts, point_at, weight_at, vat; cbn [qpoints qweights].
  do 3 (split; [assumption|]). split.
  - intros i Hi. split.
    + destruct (nth_error ps i) eqn:E; [eauto|]. apply nth_error_None in E; lia.
    + destruct (nth_error ws i) eqn:E; [eauto|]. apply nth_error_None in E; lia.
  - intros i Hi. rewrite (proj2 (nth_error_None ps i)), (proj2 (nth_error_None ws i)) by lia.
    auto.
Qed.

Lemma quad_of_Ok : forall P W dbg (ps : list P) (ws : list W),
  length ps = length ws -> quad_of dbg (ps, ws) = Ok (mkQuad ps ws).
Proof.
  intros P W dbg ps ws H. unfold quad_of, cassert; simpl.
  rewrite H, Nat.eqb_refl. destruct dbg; reflexivity.
Qed.

Lemma construct_Ok : forall P W dbg (ps : list P) (ws : list W),
  length ps = length ws -> construct dbg (Ok (ps, ws)) = Ok (mkQuad ps ws).
Proof. intros; unfold construct; simpl; apply quad_of_Ok; auto. Qed.

Lemma construct_sized : forall P W dbg n gen (f : nat -> P) (g : nat -> W),
  gen = Ok (tab n f, tab n g) ->
  exists q, construct dbg gen = Ok q /\ sized n q.
Proof.
  intros P W dbg n gen f g ->. rewrite construct_Ok by (rewrite !tab_length; auto).
  eexists; split; [reflexivity|]. apply sized_intro; apply tab_length.
Qed.

Section Sizes.
Context {S : Scalar}.
Local Open Scope scalar_scope.

Lemma uniform_sized : forall dbg n (lo up : S), (1 <= n)%nat ->
  exists q, construct dbg (uniform_generate n lo up) = Ok q /\ sized n q.
Proof. intros; eapply construct_sized; apply uniform_closed; auto. Qed.

Lemma uniform_zero_UB : forall dbg (lo up : S),
  construct dbg (uniform_generate 0 lo up) = UB.
Proof. reflexivity. Qed.

Lemma gc1_sized : forall dbg n,
  exists q, construct dbg (@gc1_generate S n) = Ok q /\ sized n q.
Proof. intros; eapply construct_sized; apply gc1_closed. Qed.

Lemma gc2_sized : forall dbg n,
  exists q, construct dbg (@gc2_generate S n) = Ok q /\ sized n q.
Proof. intros; eapply construct_sized; apply gc2_closed. Qed.

Lemma gc2m_sized : forall dbg n,
  exists q, construct dbg (@gc2m_generate S n) = Ok q /\ sized n q.
Proof. intros; eapply construct_sized; apply gc2m_closed. Qed.

Lemma gc3_sized : forall dbg n,
  exists q, construct dbg (@gc3_generate S n) = Ok q /\ sized n q.
Proof. intros; eapply construct_sized; apply gc3_closed. Qed.

Lemma gl_sized : forall dbg n,
  (exists q, construct dbg (@gl_generate S n) = Ok q /\ sized n q) \/
  construct dbg (@gl_generate S n) = Throw ExRuntime.
Proof.
  intros dbg n. destruct (gl_choice (S := S) n) as [[r Hr]|(i & Hi & Hn)].
  - left. eapply construct_sized. apply gl_generate_Ok; eauto.
  - right. unfold construct. rewrite (gl_generate_Throw n i Hi Hn). reflexivity.
Qed.

Lemma lob_sized : forall dbg n, (2 <= n)%nat ->
  (exists q, construct dbg (@lob_generate S n) = Ok q /\ sized n q) \/
  construct dbg (@lob_generate S n) = Throw ExRuntime.
Proof.
  intros dbg n H2. destruct (lob_choice (S := S) n) as [[r Hr]|(i & Hi & Hn)].
  - left. eapply construct_sized. apply lob_generate_Ok; eauto.
  - right. unfold construct. rewrite (lob_generate_Throw n i Hi Hn). reflexivity.
Qed.

Lemma lob_zero_UB : forall dbg, construct dbg (@lob_generate S 0) = UB.
Proof. reflexivity. Qed.

Lemma lob_one_sized : forall dbg,
  exists q, construct dbg (@lob_generate S 1) = Ok q /\ sized 1 q.
Proof.
  intro dbg. destruct dbg; (eexists; split; [reflexivity|apply sized_intro; reflexivity]).
Qed.

(** Base rule of a radial quadrature as functions of the index. *)
Definition base_n (t : rtraits S) : nat :=
  if base_inclusive t then (rt_npts t + 2)%nat else rt_npts t.
Definition base_off (t : rtraits S) : nat := if base_inclusive t then 1%nat else 0%nat.
Definition base_pt (t : rtraits S) (j : nat) : S :=
  if base_inclusive t then uni_pt (base_n t) s0 s1 j
  else mirror (base_n t) (gc2_x (base_n t)) (fun i => - gc2_x (base_n t) i) s0 j.
Definition base_wt (t : rtraits S) (j : nat) : S :=
  if base_inclusive t then uni_wt (base_n t) s0 s1 j
  else mirror (base_n t) (gc2_w (base_n t)) (gc2_w (base_n t))
              (spi / sofN (base_n t + 1)) j.

Lemma base_closed : forall (t : rtraits S),
  base_generate t (base_n t) = Ok (tab (base_n t) (base_pt t), tab (base_n t) (base_wt t)).
Proof.
  intros t. unfold base_generate, base_pt, base_wt, base_n.
  destruct (base_inclusive t).
  - unfold uniform01_generate. apply uniform_closed. lia.
  - apply gc2_closed.
Qed.

Definition rad_pt (t : rtraits S) (i : nat) : S :=
  rt_transform t (base_pt t (i + base_off t)%nat).
Definition rad_wt (t : rtraits S) (i : nat) : S :=
  base_wt t (i + base_off t)%nat * rt_jacobian t (base_pt t (i + base_off t)%nat).

Lemma for_range_ext : forall T lo hi (b1 b2 : nat -> T -> outcome T) s,
  (forall i s, (lo <= i < hi)%nat -> b1 i s = b2 i s) ->
  for_range lo hi b1 s = for_range lo hi b2 s.
Proof.
  intros T lo hi b1 b2 s H. unfold for_range.
  remember (hi - lo)%nat as k eqn:Hk. revert lo s H Hk.
  induction k; intros lo s H Hk; simpl; auto.
  rewrite H by lia. destruct (b2 lo s); simpl; auto. apply IHk; [|lia].
  intros; apply H; lia.
Qed.

Lemma radial_closed : forall (t : rtraits S),
  radial_generate t = Ok (tab (rt_npts t) (rad_pt t), tab (rt_npts t) (rad_wt t)).
Proof.
  intros t. unfold radial_generate.
  change (if base_inclusive t then Nat.add (rt_npts t) 2 else rt_npts t) with (base_n t).
  rewrite base_closed. cbn [bind].
  change (if base_inclusive t then 1%nat else 0%nat) with (base_off t).
  rewrite fresh_tab. unfold arrays.
  erewrite for_range_ext; [apply (fill_store_loop (rt_npts t) (rad_pt t) (rad_wt t))|].
  intros i s Hi. assert (Hb : (i + base_off t < base_n t)%nat).
  { unfold base_off, base_n; destruct (base_inclusive t); lia. }
  rewrite !vget_tab by auto. reflexivity.
Qed.

Lemma radial_sized : forall dbg (t : rtraits S),
  exists q, construct dbg (radial_generate t) = Ok q /\ sized (rt_npts t) q.
Proof. intros; eapply construct_sized; apply radial_closed. Qed.

(** Angular grids. *)
Lemma copy_over_Ok : forall A (src dst : list A), (length src <= length dst)%nat ->
  copy_over src dst = Ok (src ++ skipn (length src) dst).
Proof.
  induction src as [|x src IH]; intros [|y dst] H; simpl in *; auto; try lia.
  rewrite IH by lia. reflexivity.
Qed.

Lemma scale_loop : forall n (f : nat -> S) (c : S),
  for_range 0 n (fun i ws => let* w := vget ws i in vset ws i (w * c)) (tab n f)
  = Ok (tab n (fun i => f i * c)).
Proof. intros n f c. apply (update_loop S n (fun _ w => w * c) f). Qed.

Definition ang_wt (f : afam) (w : S) : S :=
  if scales_weights f then w * (sofZ 4 * spi) else w.

(** A selected grid of the right size is copied verbatim, weights scaled. *)
Lemma s2_selected : forall (grids : afam -> Z -> @static_grid S) f n m,
  grid_selected f (Z.of_nat n) = Some m ->
  length (fst (grids f m)) = n -> length (snd (grids f m)) = n ->
  s2_generate grids f n = Ok (fst (grids f m), map (ang_wt f) (snd (grids f m))).
Proof.
  intros grids f n m Hs Hp Hw. unfold s2_generate. rewrite Hs.
  unfold copy_grid. cbn [fst snd].
  rewrite !copy_over_Ok by (rewrite repeat_length; lia). cbn [bind].
  rewrite !skipn_all2 by (rewrite repeat_length; lia). rewrite !app_nil_r.
  unfold ang_wt. destruct (scales_weights f).
  - cbn [fst snd].
    assert (E : snd (grids f m) = tab n (fun i => nth i (snd (grids f m)) s0))
      by (rewrite <- Hw; apply list_tab).
    set (g := fun i => nth i (snd (grids f m)) s0) in E. rewrite E, scale_loop.
    cbn [bind]. rewrite map_tab. reflexivity.
  - rewrite map_id. reflexivity.
Qed.

(** With no grid selected, the vectors keep their zeros. *)
Lemma s2_unselected : forall (grids : afam -> Z -> @static_grid S) f n,
  grid_selected f (Z.of_nat n) = None ->
  s2_generate grids f n = Ok (repeat pt3_0 n, repeat (ang_wt f s0) n).
Proof.
  intros grids f n Hs. unfold s2_generate. rewrite Hs. cbn [bind].
  unfold ang_wt. destruct (scales_weights f); [|reflexivity].
  cbn [fst snd]. rewrite (repeat_tab n s0), scale_loop. cbn [bind].
  rewrite (repeat_tab n (s0 * _)). reflexivity.
Qed.

Lemma s2_sized : forall dbg (grids : afam -> Z -> @static_grid S) f n,
  (forall m, grid_selected f (Z.of_nat n) = Some m ->
     length (fst (grids f m)) = n /\ length (snd (grids f m)) = n) ->
  exists q, construct dbg (s2_generate grids f n) = Ok q /\ sized n q.
Proof.
  intros dbg grids f n H. destruct (grid_selected f (Z.of_nat n)) as [m|] eqn:E.
  - destruct (H m eq_refl) as [Hp Hw].
    rewrite (s2_selected grids f n m E Hp Hw).
    rewrite construct_Ok by (rewrite map_length; congruence).
    eexists; split; [reflexivity|]. apply sized_intro; auto. rewrite map_length; auto.
  - rewrite (s2_unselected grids f n E).
    rewrite construct_Ok by (rewrite !repeat_length; auto).
    eexists; split; [reflexivity|]. apply sized_intro; apply repeat_length.
Qed.

End Sizes.

Lemma copy_same : forall P W n (q : quad P W), sized n q ->
  sized n (quad_copy q) /\ qpoints (quad_copy q) = qpoints q
  /\ qweights (quad_copy q) = qweights q.
Proof. intros P W n [ps ws] H. unfold quad_copy; simpl. auto. Qed.

Lemma move_same : forall P W n (q : quad P W), sized n q ->
  sized n (fst (quad_move q)) /\ qpoints (fst (quad_move q)) = qpoints q
  /\ qweights (fst (quad_move q)) = qweights q /\ sized 0 (snd (quad_move q)).
Proof.
  intros P W n [ps ws] H. unfold quad_move; simpl. repeat (split; [auto; fail|]).
  apply sized_intro; reflexivity.
Qed.
