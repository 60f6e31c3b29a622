(** Programs over specification objects refine their value semantics. *)
From Coq Require Import List Bool Arith ZArith Lia.
From Verif Require Import Base.Outcome Base.OutcomeFacts Base.Scalar Model.Quadrature
  Model.Primitive Model.Radial Model.S2 Model.Composite Model.Factory Model.SpecHeap
  Spec.OwnSpec Proofs.HeapFacts Proofs.FactoryFacts Proofs.OwnFacts.
Import ListNotations.
Local Open Scope nat_scope.

Section Own.
Context {S : Scalar}.
Variable grids : afam -> Z -> @static_grid S.
Variable dbg : bool.
Notation vobj := (obj (rtraits S)).

Definition valid (m : memory S) (o : obj nat) : Prop :=
  forall a, o_traits o = Some a -> live m a.

(** What a call that works on the heap [m] leaves: deleted temporaries and then what it
    returns. *)
Definition gives {A B} (tail : nat -> B -> memory S * A) (m : memory S)
  (r : outcome (memory S * (A + exn))) (vr : outcome B) : Prop :=
  match vr with
  | Ok b => exists k, r = Ok (m ++ repeat None k ++ fst (tail (length m + k) b),
                              inl (snd (tail (length m + k) b)))
  | Throw e => exists k, r = Ok (m ++ repeat None k, inr e)
  | AssertFail => r = AssertFail
  | UB => r = UB
  | OutOfFuel => r = OutOfFuel
  end.

Lemma deref_live : forall (m : memory S) o, valid m o ->
  h_deref m (o_traits o) = traits_of (look m o).
Proof.
  intros m o V. unfold traits_of, look, valid in *. simpl. destruct (o_traits o) as [a|]; [|auto].
  destruct (V a eq_refl) as (t & E). simpl. unfold vget. rewrite E. auto.
Qed.

Lemma free_mid : forall (m : memory S) t r,
  h_free (m ++ Some t :: r) (Some (length m)) = Ok (m ++ None :: r).
Proof.
  intros m t r. simpl. unfold vget. rewrite nth_error_app2, Nat.sub_diag by auto. simpl.
  rewrite vset_Ok by (rewrite app_length; simpl; lia). f_equal.
  induction m as [|x m IH]; simpl; [auto|]. f_equal. auto.
Qed.

Lemma by_value_gives : forall A B (tail : nat -> B -> memory S * A) m o body vr,
  valid m o -> copy_data (o_data o) = Ok (o_data o) ->
  (forall m1 c, look m1 c = look m o -> valid m1 c -> gives tail m1 (body m1 c) vr) ->
  gives tail m (by_value m o body) vr.
Proof.
  intros A B tail m o body vr V D H. unfold by_value, h_copy. rewrite D. cbn [bind].
  destruct (o_traits o) as [a|] eqn:T.
  - destruct (V a T) as (t & E). unfold h_clone, h_deref, vget. rewrite E.
    cbn [bind h_alloc]. rewrite clone_id.
    set (c := mkObj (Some (length m)) (o_data o)).
    assert (L : look (m ++ [Some t]) c = look m o).
    { unfold look, c. simpl. rewrite T, E, nth_error_app2, Nat.sub_diag by auto. auto. }
    assert (Vc : valid (m ++ [Some t]) c).
    { intros b Hb. injection Hb as <-. exists t.
      rewrite nth_error_app2, Nat.sub_diag by auto. auto. }
    specialize (H _ _ L Vc). unfold gives in *. destruct vr as [b|e| | |].
    + destruct H as (k & ->). cbn [bind].
      change (o_traits c) with (Some (length m)).
      rewrite <- app_assoc. cbn [app]. rewrite free_mid. cbn [bind].
      exists (Datatypes.S k). rewrite app_length. simpl length.
      replace (length m + 1 + k) with (length m + Datatypes.S k) by lia. auto.
    + destruct H as (k & ->). cbn [bind]. change (o_traits c) with (Some (length m)).
      rewrite <- app_assoc. cbn [app]. rewrite free_mid. cbn [bind].
      exists (Datatypes.S k). auto.
    + rewrite H. auto.
    + rewrite H. auto.
    + rewrite H. auto.
  - unfold h_clone. cbn [bind]. set (c := mkObj None (o_data o)).
    assert (L : look m c = look m o) by (unfold look, c; rewrite T; auto).
    assert (Vc : valid m c) by (intros b Hb; discriminate).
    specialize (H _ _ L Vc). unfold gives in *. destruct vr as [b|e| | |].
    + destruct H as (k & ->). exists k. auto.
    + destruct H as (k & ->). exists k. auto.
    + rewrite H. auto.
    + rewrite H. auto.
    + rewrite H. auto.
Qed.

Definition ptail (n : nat) (v : vobj) : memory S * obj nat :=
  ([o_traits v], mkObj (Some n) (o_data v)).
Definition gtail (n : nat) (g : sphobj S) : memory S * sphobj S := ([], g).

Lemma look_data : forall (m : memory S) o, o_data (look m o) = o_data o.
Proof. auto. Qed.

Lemma make_gives : forall m rq (t : rtraits S) rs,
  gives ptail m (h_make m rq t rs) (Ok (mkObj (Some t) (DP (Some rq) rs))).
Proof.
  intros. exists 0. unfold h_make, h_alloc. rewrite clone_id. simpl. rewrite Nat.add_0_r. auto.
Qed.

Lemma impl_gives : forall k low med f m u, valid m u ->
  gives ptail m (h_scheme_impl k low med f m u)
    (match o_data u with
     | DP _ _ => UB
     | DU rq _ asz =>
       let* t := traits_of (look m u) in
       Ok (mkObj (Some t) (DP (Some rq)
             [mkRegion 0 (rt_npts t / k + 1) (AQ f) low;
              mkRegion (rt_npts t / k + 1) (rt_npts t / 2 + 1) (AQ f) med;
              mkRegion (rt_npts t / 2 + 1) (rt_npts t) (AQ f) asz]))
     end).
Proof.
  intros k low med f m u V. unfold h_scheme_impl.
  destruct (o_data u) as [rq aq asz|rq rs] eqn:D.
  - apply by_value_gives; [auto|rewrite D; auto|]. intros m1 c L Vc.
    assert (Dc : o_data c = DU rq aq asz)
      by (rewrite <- D, <- (look_data m1 c), L; auto).
    rewrite Dc, deref_live, L by auto. unfold traits_of.
    destruct (o_traits (look m u)) as [t|]; [apply make_gives|reflexivity].
  - destruct rq as [rq|].
    + apply by_value_gives; [auto|rewrite D; auto|]. intros m1 c L Vc.
      assert (Dc : o_data c = DP (Some rq) rs)
        by (rewrite <- D, <- (look_data m1 c), L; auto).
      rewrite Dc. reflexivity.
    + unfold by_value, h_copy. rewrite D. reflexivity.
Qed.

Lemma robust_total : forall f n,
  (exists p, robust_sizes f n = Ok p) \/ (exists e, robust_sizes f n = Throw e).
Proof.
  intros. unfold robust_sizes. destruct (Z.ltb _ 0); [right|left]; eexists; reflexivity.
Qed.

Lemma robust_gives : forall m u, valid m u ->
  gives ptail m (h_robust m u) (v_prune CallRobust (look m u)).
Proof.
  intros m u V. unfold h_robust, v_prune. rewrite look_data.
  destruct (o_data u) as [rq aq asz|rq rs] eqn:D.
  - apply by_value_gives; [auto|rewrite D; auto|]. intros m1 c L Vc.
    assert (Dc : o_data c = DU rq aq asz)
      by (rewrite <- D, <- (look_data m1 c), L; auto).
    rewrite Dc. unfold robust_psi4_pruning_scheme. cbn [u_aq u_asz u_traits].
    destruct aq as [f|]; [|exists 0; simpl; rewrite app_nil_r; auto].
    destruct (robust_total f asz) as [([low med] & ->)|(e & ->)]; cbn [bind catch];
      [|exists 0; simpl; rewrite app_nil_r; auto].
    assert (G := impl_gives 4 low med f m1 c Vc). rewrite Dc, L in G.
    unfold traits_of, deref_traits in *. cbn [u_traits] in *.
    destruct (o_traits (look m u)) as [t|]; [|exact G]. cbn [bind] in *. rewrite clone_id. exact G.
  - unfold by_value, h_copy. rewrite D. destruct rq; [|reflexivity].
    cbn [copy_data bind]. destruct (o_traits u) as [a|] eqn:T; [|reflexivity].
    destruct (V a T) as (t & E). simpl. unfold vget. rewrite E. reflexivity.
Qed.

Lemma treutler_gives : forall m u, valid m u ->
  gives ptail m (h_treutler m u) (v_prune CallTreutler (look m u)).
Proof.
  intros m u V. unfold h_treutler, v_prune. rewrite look_data.
  destruct (o_data u) as [rq aq asz|rq rs] eqn:D.
  - apply by_value_gives; [auto|rewrite D; auto|]. intros m1 c L Vc.
    assert (Dc : o_data c = DU rq aq asz)
      by (rewrite <- D, <- (look_data m1 c), L; auto).
    rewrite Dc. unfold treutler_pruning_scheme. cbn [u_aq u_traits].
    destruct aq as [f|]; [|exists 0; simpl; rewrite app_nil_r; auto].
    destruct (treutler_sizes f) as [low med].
    assert (G := impl_gives 3 low med f m1 c Vc). rewrite Dc, L in G.
    unfold traits_of, deref_traits in *. cbn [u_traits] in *.
    destruct (o_traits (look m u)) as [t|]; [|exact G]. cbn [bind] in *. rewrite clone_id. exact G.
  - unfold by_value, h_copy. rewrite D. destruct rq; [|reflexivity].
    cbn [copy_data bind]. destruct (o_traits u) as [a|] eqn:T; [|reflexivity].
    destruct (V a T) as (t & E). simpl. unfold vget. rewrite E. reflexivity.
Qed.

Lemma create_gives : forall sch m u, valid m u ->
  gives ptail m (h_create sch m u) (v_prune (CallCreate sch) (look m u)).
Proof.
  intros sch m u V. unfold h_create, v_prune. rewrite look_data.
  destruct (o_data u) as [rq aq asz|rq rs] eqn:D.
  - apply by_value_gives; [auto|rewrite D; auto|]. intros m1 c L Vc.
    assert (Dc : o_data c = DU rq aq asz)
      by (rewrite <- D, <- (look_data m1 c), L; auto).
    rewrite Dc. unfold create_pruned_spec. cbn [u_traits].
    assert (HT : match o_traits c with None => o_traits (look m u) = None
                 | Some _ => exists t, o_traits (look m u) = Some t end).
    { rewrite <- L. unfold look. simpl. destruct (o_traits c) as [a|] eqn:T; [|auto].
      destruct (Vc a T) as (t & E). rewrite E. eauto. }
    destruct (o_traits c) as [a|] eqn:T.
    + destruct HT as (t & HT). rewrite HT. destruct sch.
      * rewrite <- T, deref_live, L by auto. unfold traits_of. rewrite HT. cbn [bind].
        rewrite clone_id. apply make_gives.
      * assert (G := robust_gives m1 c Vc). unfold v_prune in G.
        rewrite look_data, Dc, L, HT in G. exact G.
      * assert (G := treutler_gives m1 c Vc). unfold v_prune in G.
        rewrite look_data, Dc, L, HT in G. exact G.
    + rewrite HT. exists 0. simpl. rewrite app_nil_r. auto.
  - unfold by_value, h_copy. rewrite D. destruct rq; [|reflexivity].
    cbn [copy_data bind]. destruct (o_traits u) as [a|] eqn:T; [|reflexivity].
    destruct (V a T) as (t & E). simpl. unfold vget. rewrite E. reflexivity.
Qed.

Lemma prune_gives : forall c m u, valid m u ->
  gives ptail m (h_prune c m u) (v_prune c (look m u)).
Proof.
  intros [| |sch] m u V; [apply robust_gives|apply treutler_gives|apply create_gives]; auto.
Qed.

(** What is pruned always has traits. *)
Lemma prune_traits : forall c (o v : vobj), v_prune c o = Ok v -> exists t, o_traits v = Some t.
Proof.
  intros c o v H. unfold v_prune in H. destruct (o_data o) as [rq aq n|]; [|discriminate].
  apply bind_Ok_inv in H. destruct H as (p & H & E). injection E as <-. simpl.
  assert (R : forall u : unpruned_spec S, robust_psi4_pruning_scheme u = Ok p ->
            exists t, p_traits p = Some t).
  { intros u Hu. unfold robust_psi4_pruning_scheme in Hu. destruct (u_aq u); [|discriminate].
    apply bind_Ok_inv in Hu. destruct Hu as ([low med] & _ & Hu).
    apply bind_Ok_inv in Hu. destruct Hu as (t & _ & Hu). injection Hu as <-. simpl. eauto. }
  assert (T : forall u : unpruned_spec S, treutler_pruning_scheme u = Ok p ->
            exists t, p_traits p = Some t).
  { intros u Hu. unfold treutler_pruning_scheme in Hu. destruct (u_aq u); [|discriminate].
    destruct (treutler_sizes f) as [low med].
    apply bind_Ok_inv in Hu. destruct Hu as (t & _ & Hu). injection Hu as <-. simpl. eauto. }
  destruct c as [| |sch]; eauto.
  unfold create_pruned_spec in H. destruct (u_traits _); [|discriminate].
  destruct sch; eauto. injection H as <-. simpl. eauto.
Qed.

Lemma grid_gives : forall m o, valid m o ->
  gives gtail m (h_grid grids dbg m o) (v_grid grids dbg (look m o)).
Proof.
  intros m u V. unfold h_grid, v_grid. rewrite look_data.
  assert (C : copy_data (o_data u) = Ok (o_data u) \/ exists rs, o_data u = DP None rs).
  { destruct (o_data u) as [| [q|] rs]; [left; auto|left; auto|right; eauto]. }
  destruct C as [C|(rs & D)].
  - apply by_value_gives; [auto..|]. intros m1 c L Vc.
    assert (Dc : o_data c = o_data u) by (rewrite <- (look_data m1 c), L; auto).
    rewrite Dc, <- L.
    destruct (o_traits c) as [a|] eqn:T.
    + rewrite <- T, deref_live by auto. destruct (Vc a T) as (t & E).
      assert (HT : o_traits (look m1 c) = Some t) by (unfold look; simpl; rewrite T, E; auto).
      unfold traits_of, generate_grid_unpruned, generate_grid_pruned. rewrite HT. cbn [bind].
      destruct (o_data u) as [rq aq n|[rq|] rs]; [| |discriminate C].
      * simpl. destruct (generate_unpruned_grid _ _ _ _ _ _); simpl; auto;
          exists 0; simpl; rewrite app_nil_r; auto.
      * simpl. destruct (generate_pruned_grid _ _ _ _ _); simpl; auto;
          exists 0; simpl; rewrite app_nil_r; auto.
    + assert (HT : o_traits (look m1 c) = None) by (unfold look; simpl; rewrite T; auto).
      unfold generate_grid_unpruned, generate_grid_pruned. rewrite HT.
      destruct (o_data u) as [rq aq n|[rq|] rs]; [| |discriminate C];
        simpl; exists 0; simpl; rewrite app_nil_r; auto.
  - unfold by_value, h_copy. rewrite D. reflexivity.
Qed.

Lemma eq_gives : forall m a b, valid m a -> valid m b -> h_eq m a b = v_eq (look m a) (look m b).
Proof.
  intros m a b Va Vb. unfold h_eq, v_eq. rewrite !look_data.
  destruct (o_data a) as [|[qa|] ra]; auto. destruct (o_data b) as [|[qb|] rb]; auto.
  unfold pruned_spec_eqb. simpl p_rq. simpl p_regions. simpl p_traits.
  rewrite !deref_live by auto. unfold traits_of.
  destruct (radial_quad_eqb qa qb); [|auto].
  unfold look. simpl o_traits.
  destruct (o_traits a) as [x|] eqn:Ta.
  - destruct (Va x Ta) as (t & E). rewrite E.
    destruct (o_traits b) as [y|] eqn:Tb; [|auto].
    destruct (Vb y Tb) as (t' & E'). rewrite E'. auto.
  - destruct (o_traits b) as [y|] eqn:Tb; [|auto].
    destruct (Vb y Tb) as (t' & E'). rewrite E'. auto.
Qed.

(** One step. *)
Definition sim (r : outcome (state S * result S)) (vr : outcome (list (option vobj) * result S))
  : Prop :=
  match r, vr with
  | Ok (s, x), Ok (vs, y) => x = y /\ observe s = vs /\ inv (mem s) (vars s)
  | AssertFail, AssertFail | UB, UB | OutOfFuel, OutOfFuel => True
  | _, _ => False
  end.

Lemma getv_show : forall (m : memory S) vs v, inv m vs ->
  (exists o, getv vs v = Ok o /\ nth_error vs v = Some (Some o) /\
     value_of (show m vs) v = Ok (look m o) /\ valid m o) \/
  (getv vs v = UB /\ value_of (show m vs) v = UB).
Proof.
  intros m vs v [I1 I2]. unfold getv, value_of, show, vget. rewrite nth_error_map.
  destruct (nth_error vs v) as [[o|]|] eqn:E; simpl; auto.
  left. exists o. repeat split; auto. intros a T. apply I1. exists v, o. auto.
Qed.

Lemma src_show : forall (m : memory S) vs src, inv m vs ->
  h_src (mkSt m vs) src = source (show m vs) src.
Proof.
  intros m vs [t|w] I; [auto|]. simpl.
  destruct (getv_show m vs w I) as [(o & -> & _ & -> & V)|[-> ->]]; [|auto].
  simpl. apply deref_live. auto.
Qed.

Lemma source_cases : forall (vs : list (option vobj)) src, (exists t : rtraits S, source vs src = Ok t) \/ source vs src = UB.
Proof.
  intros vs [t|w]; [left; exists t; reflexivity|]. simpl. unfold value_of, traits_of.
  destruct (nth_error vs w) as [[o|]|]; simpl; auto. destruct (o_traits o); eauto.
Qed.

Lemma vset_set : forall {A} (l : list A) i x y, nth_error l i = Some x -> vset l i y = Ok (upd l i y).
Proof. intros A l i x y H. apply vset_Ok, nth_error_Some. congruence. Qed.

Lemma look_null : forall (m : memory S) d,
  option_map (look m) (Some (mkObj None d)) = Some (mkObj None d).
Proof. auto. Qed.

Lemma upd_upd : forall {A} (l : list A) i x y, upd (upd l i x) i y = upd l i y.
Proof. induction l as [|z r IH]; intros i x y; destruct i; simpl; auto. f_equal. auto. Qed.

Ltac get I v o E :=
  let V := fresh "V" in let A := fresh "A" in let B := fresh "B" in
  destruct (getv_show _ _ v I) as [(o & A & E & B & V)|[A B]]; rewrite A, B; clear A B;
  cbn [bind]; [|exact Logic.I].

Lemma step_sim : forall s c, inv (mem s) (vars s) ->
  sim (step grids dbg s c) (vstep grids dbg (observe s) c).
Proof.
  intros [m vs] c I. change (observe (mkSt m vs)) with (show m vs). cbn [mem vars] in I.
  destruct c; cbn [step vstep mem vars].
  - rewrite src_show by auto. destruct (source_cases (show m vs) src) as [(t & ->)| ->];
      cbn [bind]; [|exact Logic.I]. unfold h_alloc. rewrite clone_id.
    destruct (inv_new m vs t (DU rq aq asz) I) as [H1 H2]. repeat split; auto; apply H1.
  - rewrite src_show by auto. destruct (source_cases (show m vs) src) as [(t & ->)| ->];
      cbn [bind]; [|exact Logic.I]. unfold h_alloc. rewrite clone_id.
    destruct (inv_new m vs t (DP (Some rq) rs) I) as [H1 H2]. repeat split; auto; apply H1.
  - get I w o E. rewrite (vset_set _ _ _ _ E). cbn [bind].
    assert (Lw : w < length vs) by (apply nth_error_Some; congruence).
    assert (Ew : nth_error (vs ++ [Some (mkObj None (DP (Some rq) rs))]) w = Some (Some o))
      by (rewrite nth_error_app1; auto).
    assert (Ev : nth_error (vs ++ [Some (mkObj None (DP (Some rq) rs))]) (length vs)
                 = Some (Some (mkObj (P := nat) None (DP (Some rq) rs))))
      by (rewrite nth_error_app2, Nat.sub_diag by auto; auto).
    destruct (inv_move m _ (length vs) w _ _ (inv_null m vs (DP (Some rq) rs) I)
                ltac:(lia) Ev eq_refl Ew) as [H1 H2].
    assert (U : upd (vs ++ [Some (mkObj None (DP (Some rq) rs))]) w (Some (mkObj None (o_data o)))
            = upd vs w (Some (mkObj None (o_data o))) ++ [Some (mkObj None (DP (Some rq) rs))]).
    { clear -Lw. revert w Lw. induction vs as [|y r IH]; intros [|w] L; simpl in *; try lia; auto.
      f_equal. apply IH. lia. }
    rewrite U in H1, H2. cbn [o_data] in H1, H2.
    assert (Lu : length vs = length (upd vs w (Some (mkObj (P := nat) None (o_data o)))))
      by (rewrite upd_length; auto).
    rewrite Lu, upd_last in H1. rewrite Lu, upd_last in H2.
    split; [auto|]. split; [|exact H1].
    change (observe _) with (show m (upd vs w (Some (mkObj None (o_data o))) ++
      [Some (mkObj (o_traits o) (DP (Some rq) rs))])).
    rewrite show_app, show_put. auto.
  - split; [auto|]. split; [|apply inv_null; auto].
    change (observe _) with (show m (vs ++ [Some (mkObj None (DP None []))])).
    rewrite show_app. auto.
  - split; [auto|]. split; [|apply inv_null; auto].
    change (observe _) with (show m (vs ++ [Some (mkObj None (DP (Some (RQOther 0)) []))])).
    rewrite show_app. auto.
  - get I w o E. unfold h_copy, readable. rewrite look_data.
    assert (C : copy_data (o_data o) = Ok (o_data o) \/ exists rs, o_data o = DP None rs).
    { destruct (o_data o) as [| [q|] rs]; [left; auto|left; auto|right; eauto]. }
    destruct C as [C|(rs & D)]; [|rewrite D; exact Logic.I].
    rewrite C. cbn [bind].
    replace (match o_data o with DP None _ => UB | _ => Ok (look m o) end) with (Ok (look m o))
      by (destruct (o_data o) as [| [q|] rs]; auto; discriminate C).
    unfold h_clone. destruct (o_traits o) as [a|] eqn:T.
    + rewrite <- T, deref_live by auto. destruct (V a T) as (t & Et).
      assert (Lo : look m o = mkObj (Some t) (o_data o)) by (unfold look; rewrite T, Et; auto).
      rewrite Lo. cbn [traits_of o_traits bind]. unfold h_alloc. rewrite clone_id. cbn [bind].
      destruct (inv_new m vs t (o_data o) I) as [H1 H2]. repeat split; auto; apply H1.
    + cbn [bind]. split; [auto|]. split; [|apply inv_null; auto].
      change (observe _) with (show m (vs ++ [Some (mkObj None (o_data o))])).
      rewrite show_app. unfold look. rewrite T. auto.
  - get I v ov Ev. get I w ow Ew. unfold is_pruned. rewrite !look_data.
    destruct (o_data ov) as [|qv rv] eqn:Dv; [exact Logic.I|].
    destruct (o_data ow) as [|qw rw] eqn:Dw; [exact Logic.I|].
    cbn [pruned_only bind]. unfold readable. rewrite look_data, Dw.
    destruct qw as [qw|]; [|exact Logic.I]. cbn [copy_data bind].
    assert (Lv : v < length vs) by (apply nth_error_Some; congruence).
    set (d := DP (Some qw) rw) in *.
    destruct (inv_drop m vs v ov (Some (mkObj None d)) I Ev) as
      (m' & F & Lm & I' & Sh & Fr); [intros a H; discriminate H|].
    destruct (o_traits ow) as [a|] eqn:T.
    + unfold h_clone. rewrite <- T, deref_live by auto.
      match goal with Vw : valid m ow |- _ => destruct (Vw a T) as (t & Et) end.
      assert (Lo : look m ow = mkObj (Some t) d) by (unfold look; rewrite T, Et, Dw; auto).
      rewrite Lo. cbn [traits_of o_traits bind]. unfold h_alloc. rewrite clone_id. cbn [bind].
      rewrite Fr. cbn [bind]. rewrite (vset_set _ _ _ _ Ev). cbn [bind].
      assert (En : nth_error (upd vs v (Some (mkObj None d))) v = Some (Some (mkObj (P := nat) None d)))
        by (rewrite nth_error_upd, Nat.eqb_refl by auto; auto).
      destruct (inv_give m' _ v _ t d I' En eq_refl) as [H1 H2].
      rewrite upd_upd, Lm in H1. rewrite upd_upd, Lm, Sh, put_put in H2.
      split; [auto|]. split; [exact H2|exact H1].
    + cbn [h_clone bind]. rewrite F. cbn [bind]. rewrite (vset_set _ _ _ _ Ev). cbn [bind].
      split; [auto|]. split; [|exact I'].
      change (observe _) with (show m' (upd vs v (Some (mkObj None d)))). rewrite Sh.
      unfold look. rewrite T, Dw. auto.
  - get I w ow Ew. rewrite (vset_set _ _ _ _ Ew). cbn [bind].
    assert (Lw : w < length vs) by (apply nth_error_Some; congruence).
    destruct (Nat.eq_dec v w) as [->|N].
    + assert (G : getv (upd vs w (Some (mkObj None (o_data ow)))) w = Ok (mkObj None (o_data ow))).
      { unfold getv. rewrite vget_upd_same by auto. auto. }
      rewrite G. cbn [bind h_free o_traits o_data].
      assert (Vv : value_of (show m vs) w = Ok (look m ow))
        by (unfold value_of, show; rewrite nth_error_map, Ew; auto).
      rewrite Vv. cbn [bind].
      rewrite vset_Ok by (rewrite upd_length; auto). cbn [bind]. rewrite upd_upd.
      destruct (inv_data m vs w ow (o_data ow) I Ew) as [H1 H2].
      split; [auto|]. split; [|exact H1]. rewrite put_put. exact H2.
    + destruct (getv_show m vs v I) as [(ov & A & Ev & B & Vv)|[A B]].
      2:{ rewrite B. assert (G : getv (upd vs w (Some (mkObj None (o_data ow)))) v = UB).
          { unfold getv in *. rewrite vget_upd_other by auto. exact A. }
          rewrite G. exact Logic.I. }
      rewrite B. cbn [bind].
      assert (G : getv (upd vs w (Some (mkObj None (o_data ow)))) v = Ok ov).
      { unfold getv in *. rewrite vget_upd_other by auto. exact A. }
      rewrite G. cbn [bind].
      destruct (inv_drop m vs v ov (Some (mkObj None (o_data ov))) I Ev) as
        (m' & F & Lm & I' & Sh & Fr); [intros a H; discriminate H|].
      rewrite F. cbn [bind].
      assert (Lv : v < length vs) by (apply nth_error_Some; congruence).
      rewrite vset_Ok by (rewrite upd_length; auto). cbn [bind].
      assert (Ev' : nth_error (upd vs v (Some (mkObj None (o_data ov)))) v
                    = Some (Some (mkObj (P := nat) None (o_data ov))))
        by (rewrite nth_error_upd, Nat.eqb_refl by auto; auto).
      assert (Ew' : nth_error (upd vs v (Some (mkObj None (o_data ov)))) w = Some (Some ow)).
      { rewrite nth_error_upd by auto. destruct (Nat.eqb_spec w v); [congruence|auto]. }
      destruct (inv_move m' _ v w _ _ I' N Ev' eq_refl Ew') as [H1 H2]. cbn [o_data] in H1, H2.
      assert (C : forall x y z, upd (upd (upd vs v x) w y) v z = upd (upd vs w y) v z).
      { clear -N. revert v w N. induction vs as [|e r IH]; intros [|v] [|w] N x y z; simpl; auto;
          try congruence; f_equal; [apply upd_upd|apply IH; congruence]. }
      assert (C' : forall x y z (l : list (option vobj)),
                put (put (put l v x) w y) v z = put (put l w y) v z).
      { clear -N. intros x y z l. revert v w N.
        induction l as [|e r IH]; intros [|v] [|w] N; simpl; auto; try congruence.
        all: f_equal; first [apply put_put | apply IH; congruence]. }
      rewrite C in H1, H2. rewrite Sh, C' in H2.
      split; [auto|]. split; [|exact H1].
      change (show m' (upd (upd vs w (Some (mkObj None (o_data ow)))) v
                (Some (mkObj (o_traits ow) (o_data ov)))) =
              put (put (show m vs) w (Some (mkObj None (o_data ow)))) v
                (Some (mkObj (o_traits (look m ow)) (o_data ov)))).
      rewrite H2. do 3 f_equal.
      assert (Q : nth_error (show m' (upd vs v (Some (mkObj None (o_data ov))))) w
                = nth_error (show m vs) w).
      { rewrite Sh. clear -N. revert w N. generalize (show m vs) as l.
        intros l. revert v. induction l as [|e r IH]; intros [|v] [|w] N; simpl; auto; congruence || auto. }
      unfold show in Q. rewrite !nth_error_map, Ew', Ew in Q. simpl in Q. congruence.
  - get I v o E.
    destruct (inv_drop m vs v o (Some (mkObj None (o_data o))) I E) as
      (m' & F & Lm & I' & Sh & Fr); [intros a H; discriminate H|].
    assert (Lv : v < length vs) by (apply nth_error_Some; congruence).
    destruct t as [t|].
    + unfold h_alloc. rewrite Fr. cbn [bind]. rewrite (vset_set _ _ _ _ E). cbn [bind].
      assert (En : nth_error (upd vs v (Some (mkObj None (o_data o)))) v
                   = Some (Some (mkObj (P := nat) None (o_data o))))
        by (rewrite nth_error_upd, Nat.eqb_refl by auto; auto).
      destruct (inv_give m' _ v _ t (o_data o) I' En eq_refl) as [H1 H2].
      rewrite upd_upd, Lm in H1. rewrite upd_upd, Lm, Sh, put_put in H2.
      split; [auto|]. split; [exact H2|exact H1].
    + rewrite F. cbn [bind]. rewrite (vset_set _ _ _ _ E). cbn [bind].
      split; [auto|]. split; [exact Sh|exact I'].
  - get I v o E. rewrite deref_live by auto. unfold traits_of.
    destruct (o_traits o) as [a|] eqn:T.
    + destruct (V a T) as (t0 & Et).
      assert (Lo : o_traits (look m o) = Some t0) by (unfold look; simpl; rewrite T, Et; auto).
      rewrite Lo. cbn [bind]. destruct (rkind_eqb (rkind_of t) (rkind_of t0)).
      * rewrite (vset_set _ _ _ _ Et). cbn [bind].
        destruct (inv_write m vs v o a t I E T) as [H1 H2].
        split; [auto|]. split; [exact H2|exact H1].
      * split; [auto|]. split; [reflexivity|exact I].
    + assert (Lo : o_traits (look m o) = None) by (unfold look; simpl; rewrite T; auto).
      rewrite Lo. exact Logic.I.
  - get I v o E. rewrite (vset_set _ _ _ _ E). cbn [bind].
    destruct (inv_data m vs v o (set_rq (o_data o) rq) I E) as [H1 H2].
    split; [auto|]. split; [exact H2|exact H1].
  - get I v o E. rewrite look_data. destruct (o_data o) as [|q r]; [exact Logic.I|].
    cbn [set_regions bind]. rewrite (vset_set _ _ _ _ E). cbn [bind].
    destruct (inv_data m vs v o (DP q rs) I E) as [H1 H2].
    split; [auto|]. split; [exact H2|exact H1].
  - get I v o E. rewrite look_data. destruct (o_data o) as [q x y|]; [|exact Logic.I].
    cbn [set_angular bind]. rewrite (vset_set _ _ _ _ E). cbn [bind].
    destruct (inv_data m vs v o (DU q aq asz) I E) as [H1 H2].
    split; [auto|]. split; [exact H2|exact H1].
  - get I v o E.
    destruct (inv_drop m vs v o None I E) as (m' & F & Lm & I' & Sh & Fr); [intros a H; destruct H|].
    rewrite F. cbn [bind]. rewrite (vset_set _ _ _ _ E). cbn [bind].
    split; [auto|]. split; [exact Sh|exact I'].
  - get I v o E. get I w o' E'. rewrite eq_gives by auto.
    assert (C : (exists b, v_eq (look m o) (look m o') = Ok b) \/ v_eq (look m o) (look m o') = UB).
    { unfold v_eq. rewrite !look_data. destruct (o_data o) as [|[x|]]; auto.
      destruct (o_data o') as [|[y|]]; eauto. }
    destruct C as [(b & ->)| ->]; cbn [bind]; [|exact Logic.I].
    split; [auto|]. split; [reflexivity|exact I].
  - get I v o E. assert (G := prune_gives c m o V).
    destruct (v_prune c (look m o)) as [p|e| | |] eqn:P; cbn [gives catch bind] in *.
    + destruct G as (k & ->). cbn [bind].
      destruct (prune_traits _ _ _ P) as (t & Tt).
      destruct (inv_dead k m vs I) as [D1 D2].
      destruct (inv_new (m ++ repeat None k) vs t (o_data p) D1) as [H1 H2].
      rewrite app_length, repeat_length, D2, <- app_assoc in H2.
      rewrite app_length, repeat_length, <- app_assoc in H1.
      unfold ptail. cbn [fst snd]. rewrite Tt.
      split; [auto|]. split; [|exact H1].
      replace p with (mkObj (Some t) (o_data p)) at 2 by (destruct p; simpl in *; subst; auto).
      exact H2.
    + destruct G as (k & ->). cbn [bind]. destruct (inv_dead k m vs I) as [D1 D2].
      split; [auto|]. split; [exact D2|exact D1].
    + rewrite G. exact Logic.I.
    + rewrite G. exact Logic.I.
    + rewrite G. exact Logic.I.
  - get I v o E. assert (G := grid_gives m o V).
    destruct (v_grid grids dbg (look m o)) as [p|e| | |] eqn:P; cbn [gives catch bind] in *.
    + destruct G as (k & ->). cbn [bind]. destruct (inv_dead k m vs I) as [D1 D2].
      unfold gtail. cbn [fst snd]. rewrite app_nil_r.
      split; [auto|]. split; [exact D2|exact D1].
    + destruct G as (k & ->). cbn [bind]. destruct (inv_dead k m vs I) as [D1 D2].
      split; [auto|]. split; [exact D2|exact D1].
    + rewrite G. exact Logic.I.
    + rewrite G. exact Logic.I.
    + rewrite G. exact Logic.I.
Qed.

Lemma inv0 : inv (S := S) [] [].
Proof.
  split.
  - intro a. split; [intros (t & H)|intros (v & o & H & _)].
    + destruct a; discriminate.
    + destruct v; discriminate.
  - intros v w a (o & H & _). destruct v; discriminate.
Qed.

Lemma run_sim : forall prog s, inv (mem s) (vars s) ->
  (let* (s', rs) := run grids dbg s prog in Ok (observe s', rs)) = vrun grids dbg (observe s) prog /\
  forall s' rs, run grids dbg s prog = Ok (s', rs) -> inv (mem s') (vars s').
Proof.
  induction prog as [|c prog IH]; intros s I; simpl.
  - split; auto. intros s' rs H. injection H as <- <-. auto.
  - assert (H := step_sim s c I). unfold sim in H.
    destruct (step grids dbg s c) as [[s1 x]|e| | |], (vstep grids dbg (observe s) c) as [[vs y]|e'| | |];
      try contradiction; cbn [bind]; try (split; [reflexivity|discriminate]).
    destruct H as (-> & <- & I1). destruct (IH s1 I1) as [R1 R2].
    rewrite <- R1. destruct (run grids dbg s1 prog) as [[s2 rs]|e| | |]; cbn [bind];
      try (split; [reflexivity|discriminate]).
    split; auto. intros s' rs' H. injection H as <- <-. eauto.
Qed.

Theorem values : forall prog,
  (let* (s, rs) := run grids dbg st0 prog in Ok (observe s, rs)) = vrun grids dbg [] prog.
Proof. intro prog. exact (proj1 (run_sim prog st0 inv0)). Qed.

Theorem owners : forall prog s rs, run grids dbg st0 prog = Ok (s, rs) ->
  (forall a, live (mem s) a <-> exists v, owns (vars s) v a) /\
  (forall v w a, owns (vars s) v a -> owns (vars s) w a -> v = w).
Proof. intros prog s rs H. exact (proj2 (run_sim prog st0 inv0) s rs H). Qed.

Theorem no_leak : forall prog s rs, run grids dbg st0 prog = Ok (s, rs) ->
  (forall v, v < length (vars s) -> nth_error (vars s) v = Some None) ->
  forall a, ~ live (mem s) a.
Proof.
  intros prog s rs H D a L. destruct (owners prog s rs H) as [O _]. apply O in L.
  destruct L as (v & L). assert (Lv := owns_lt _ _ _ L). destruct L as (o & E & _).
  rewrite (D v Lv) in E. discriminate.
Qed.

Lemma put_other : forall (l : list (option vobj)) v u x, u <> v ->
  nth_error (put l v x) u = nth_error l u.
Proof.
  induction l as [|y r IH]; intros [|v] [|u] x N; simpl; auto; congruence || auto.
Qed.
Lemma put_length : forall (l : list (option vobj)) v x, length (put l v x) = length l.
Proof. induction l as [|y r IH]; intros [|v] x; simpl; auto. Qed.
Lemma app_keep : forall (l : list (option vobj)) x u, u < length l ->
  nth_error (l ++ [x]) u = nth_error l u.
Proof. intros. apply nth_error_app1. auto. Qed.

Lemma vstep_keep : forall vs c vs' r u, vstep grids dbg vs c = Ok (vs', r) ->
  u < length vs -> ~ In u (targets c) -> nth_error vs' u = nth_error vs u.
Proof.
  intros vs c vs' r u H L N.
  destruct c; cbn [vstep targets] in *;
    repeat match goal with
    | H : bind _ _ = Ok _ |- _ =>
        let x := fresh "x" in let E := fresh "E" in apply bind_Ok_inv in H; destruct H as (x & E & H)
    | H : (if ?b then _ else _) = Ok _ |- _ => destruct b
    | x : (_ + _)%type |- _ => destruct x
    end;
    injection H as <- <-; simpl in N;
    repeat first [ reflexivity
                 | rewrite put_other by (intro; subst; apply N; auto)
                 | rewrite app_keep by (rewrite ?put_length; auto) ].
Qed.

Theorem independent : forall prog s rs c s' r v, run grids dbg st0 prog = Ok (s, rs) ->
  step grids dbg s c = Ok (s', r) -> v < length (vars s) -> ~ In v (targets c) ->
  nth_error (observe s') v = nth_error (observe s) v.
Proof.
  intros prog s rs c s' r v H Hs L N.
  assert (I := proj2 (run_sim prog st0 inv0) s rs H).
  assert (G := step_sim s c I). rewrite Hs in G. unfold sim in G.
  destruct (vstep grids dbg (observe s) c) as [[vs y]|e'| | |] eqn:E; try contradiction.
  destruct G as (-> & <- & _). eapply vstep_keep; eauto.
  unfold observe. rewrite map_length. auto.
Qed.

End Own.

Section OwnMore.
Context {S : Scalar}.
Variable grids : afam -> Z -> @static_grid S.
Variable dbg : bool.

(** After an assignment both variables show the same value, also when they are the same
    variable. *)
Theorem assigned : forall prog s rs v w s' r, run grids dbg st0 prog = Ok (s, rs) ->
  step grids dbg s (OAssign v w) = Ok (s', r) ->
  nth_error (observe s') v = nth_error (observe s) w /\
  (forall u, u <> v -> nth_error (observe s') u = nth_error (observe s) u).
Proof.
  intros prog s rs v w s' r H Hs.
  assert (I := proj2 (run_sim grids dbg prog st0 inv0) s rs H).
  assert (G := step_sim grids dbg s (OAssign v w) I). rewrite Hs in G. unfold sim in G.
  destruct (vstep grids dbg (observe s) (OAssign v w)) as [[vs y]|e'| | |] eqn:E; try contradiction.
  destruct G as (-> & <- & _). cbn [vstep] in E.
  apply bind_Ok_inv in E. destruct E as (old & Eo & E).
  apply bind_Ok_inv in E. destruct E as (o & Ew & E).
  apply bind_Ok_inv in E. destruct E as (x1 & _ & E).
  apply bind_Ok_inv in E. destruct E as (x2 & _ & E).
  apply bind_Ok_inv in E. destruct E as (o' & Er & E).
  assert (o' = o) as -> by (unfold readable in Er; destruct (o_data o) as [|[q|]]; congruence).
  assert (Ev : observe s' = put (observe s) v (Some o)) by congruence. rewrite Ev.
  split; [|intros u N; apply put_other; auto].
  unfold value_of in Eo, Ew. destruct (nth_error (observe s) w) as [[z|]|]; try discriminate.
  injection Ew as ->. destruct (nth_error (observe s) v) as [[z'|]|] eqn:Ev'; try discriminate.
  clear -Ev'. revert v Ev'. generalize (observe s) as l.
  induction l as [|y l IH]; intros [|v] E; simpl in *; try discriminate; auto.
Qed.

(** A specification without traits whose [radial_quad] has a value is refused. *)
Theorem unset_raises : forall prog s rs v o, run grids dbg st0 prog = Ok (s, rs) ->
  nth_error (observe s) v = Some (Some o) -> o_traits o = None ->
  (forall rs, o_data o <> DP None rs) ->
  exists s', step grids dbg s (OGrid v) = Ok (s', RRaised ExRuntime) /\ observe s' = observe s.
Proof.
  intros prog s rs v o H E T D.
  assert (I := proj2 (run_sim grids dbg prog st0 inv0) s rs H).
  assert (G := step_sim grids dbg s (OGrid v) I). unfold sim in G. cbn [vstep] in G.
  unfold value_of in G. rewrite E in G. cbn [bind] in G.
  assert (X : v_grid grids dbg o = Throw ExRuntime).
  { unfold v_grid. destruct (o_data o) as [|[q|] l]; [..|exfalso; eapply D; eauto];
      unfold generate_grid_unpruned, generate_grid_pruned; simpl; rewrite T; auto. }
  rewrite X in G. cbn [catch bind] in G.
  destruct (step grids dbg s (OGrid v)) as [[s1 x]|e| | |]; try contradiction.
  destruct G as (-> & Eo & _). exists s1. auto.
Qed.

(** A default-initialised one is not. *)
Theorem default_ub :
  run grids dbg st0 [ODefault; OGrid 0] = UB /\ run grids dbg st0 [ODefault; OCopy 0] = UB /\
  run grids dbg st0 [ODefault; OEq 0 0] = UB.
Proof. repeat split. Qed.

End OwnMore.
