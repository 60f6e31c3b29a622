(** Partitions and pruned spherical quadratures. *)
From Coq Require Import List Bool Arith ZArith Lia Permutation.
From Verif Require Import Base.Outcome Base.OutcomeFacts Base.Scalar Model.Quadrature
  Model.S2 Model.Composite Spec.QuadSpec Spec.SphereSpec Proofs.Tab Proofs.Sizes
  Proofs.CompositeFacts.
Import ListNotations.

(** ** Lists *)
Lemma combine_map_l : forall A B C (f : A -> C) (l : list A) (m : list B),
  combine (map f l) m = map (fun p => (f (fst p), snd p)) (combine l m).
Proof. induction l; destruct m; simpl; intros; auto. f_equal; auto. Qed.

Lemma combine_app : forall A B (l l' : list A) (m m' : list B), length l = length m ->
  combine (l ++ l') (m ++ m') = combine l m ++ combine l' m'.
Proof. induction l; destruct m; simpl; intros; try discriminate; auto. f_equal; auto. Qed.

Lemma flat_map_perm_swap : forall A B C (f : A -> B -> C) la lb,
  Permutation (flat_map (fun b => map (fun a => f a b) la) lb)
              (flat_map (fun a => map (fun b => f a b) lb) la).
Proof.
  intros A B C f la lb. induction lb as [|b lb IH]; simpl.
  - induction la; simpl; auto.
  - etransitivity; [apply Permutation_app_head, IH|]. clear IH.
    induction la as [|a la IH]; simpl; auto.
    constructor. etransitivity; [|apply Permutation_app_head, IH].
    rewrite !app_assoc. apply Permutation_app_tail. apply Permutation_app_comm.
Qed.

Lemma firstn_combine : forall A B k (l : list A) (m : list B),
  firstn k (combine l m) = combine (firstn k l) (firstn k m).
Proof. induction k; destruct l, m; simpl; intros; auto. f_equal; auto. Qed.

Lemma skipn_combine : forall A B k (l : list A) (m : list B),
  skipn k (combine l m) = combine (skipn k l) (skipn k m).
Proof.
  induction k; destruct l, m; simpl; intros; auto.
  destruct (skipn k l); auto.
Qed.

Section Pruned.
Context {S : Scalar}.
Local Open Scope scalar_scope.
Notation pt3 := (@pt3 S).

(** Nodes of the spherical product, in storage order. *)
Lemma sph_nodes_grid : forall cen (r : rquad S) (a : aquad S),
  length (qpoints r) = length (qweights r) ->
  length (qpoints a) = length (qweights a) ->
  combine (map (shift_pt cen) (sph_points r a)) (sph_weights r a)
  = grid (fun rw uv => sphere_node cen rw uv) (nodes r) (nodes a).
Proof.
  intros cen [rp rw] [ap aw] Hr Ha. unfold sph_points, sph_weights, nodes.
  cbn [qpoints qweights] in *. revert aw Ha.
  induction ap as [|u ap IH]; intros [|v aw] Ha; try discriminate; [reflexivity|].
  injection Ha as Ha. unfold grid in *. cbn [combine flat_map].
  rewrite map_app, combine_app.
  - f_equal; [|apply IH; auto]. clear -Hr. revert rw Hr.
    induction rp as [|x rp IH]; intros [|w rw] Hr; try discriminate; [reflexivity|].
    injection Hr as Hr. cbn [map combine]. f_equal; [|apply IH; auto].
    destruct u as [[ux uy] uz], cen as [[cx cy] cz]. reflexivity.
  - rewrite !map_length, combine_length. lia.
Qed.

Lemma sph_nodes_shells : forall cen (r : rquad S) (a : aquad S),
  length (qpoints r) = length (qweights r) ->
  length (qpoints a) = length (qweights a) ->
  Permutation (combine (map (shift_pt cen) (sph_points r a)) (sph_weights r a))
              (flat_map (fun rw => shell cen rw a) (nodes r)).
Proof.
  intros. rewrite sph_nodes_grid by auto. unfold grid, shell.
  apply (flat_map_perm_swap _ _ _ (sphere_node cen)).
Qed.

(** ** Acceptance of partitions *)
Lemma add_quads_inv : forall n args (p p' : rgp S), (1 <= n)%nat ->
  add_quads true n args p = Ok p' ->
  length (rgp_idx p) = length (rgp_quads p) ->
  (rgp_idx p = [] \/ (hd 0 (rgp_idx p) = 0 /\ increasing (rgp_idx p)
     /\ last (rgp_idx p) 0 < n))%nat ->
  exists idx, rgp_idx p' = idx ++ [n] /\ idx = rgp_idx p ++ map fst args /\
    rgp_quads p' = rgp_quads p ++ map snd args /\
    (0 < length idx)%nat /\ hd 0%nat idx = 0%nat /\ increasing idx /\
    (last idx 0 < n)%nat.
Proof.
  intros n args. induction args as [|[i q] args IH]; intros p p' Hn H Hl Hinv; simpl in H.
  - unfold finalize in H. destruct (rgp_idx p) as [|i0 l] eqn:E; [discriminate|].
    destruct Hinv as [?|(Hh & Hi & Hla)]; [discriminate|].
    destruct (Nat.eqb_spec (last (i0 :: l) 0) n) as [He|He]; [lia|].
    injection H as <-. exists (i0 :: l). cbn [rgp_idx rgp_quads map].
    rewrite !app_nil_r. repeat split; auto. simpl; lia.
  - apply bind_Ok_inv in H. destruct H as (p1 & H1 & H2).
    unfold add_quad in H1. apply bind_Ok_inv in H1. destruct H1 as ([] & Hc & H1).
    injection H1 as <-.
    assert (Hstep : (rgp_idx p ++ [i] = [] \/ (hd 0 (rgp_idx p ++ [i]) = 0 /\
       increasing (rgp_idx p ++ [i]) /\ last (rgp_idx p ++ [i]) 0 < n))%nat).
    { right. unfold cassert in Hc.
      destruct (rgp_idx p) as [|i0 l] eqn:E.
      - destruct (Nat.eqb_spec i 0); [|discriminate]. subst. simpl. repeat split; lia.
      - destruct Hinv as [?|(Hh & Hi & Hla)]; [discriminate|].
        destruct (Nat.ltb_spec (last (i0 :: l) 0) i) as [H3|H3]; [|discriminate].
        destruct (Nat.eqb_spec n 0); [lia|]. cbn [orb andb] in Hc.
        destruct (Nat.ltb_spec i (n - 1)) as [H4|H4]; [|discriminate].
        split; [exact Hh|]. split; [|rewrite last_last; lia].
        clear - Hi H3. revert i0 Hi H3. induction l as [|j l IHl]; intros i0 Hi H3; simpl in *.
        + split; auto.
        + destruct Hi as [Hi1 Hi2]. split; auto. apply IHl; auto. }
    apply IH in H2; auto.
    + destruct H2 as (idx & E1 & E2 & E3 & E4).
      exists idx. cbn [rgp_idx rgp_quads] in *. rewrite <- app_assoc in *.
      split; [auto|]. split; [auto|]. split; auto.
    + cbn [rgp_idx rgp_quads]. rewrite !app_length, Hl. reflexivity.
Qed.

Lemma rgp_construct_inv : forall n args (p : rgp S), (1 <= n)%nat ->
  rgp_construct true n args = Ok p ->
  rgp_idx p = map fst args ++ [n] /\ rgp_quads p = map snd args /\
  args <> [] /\ hd 0%nat (map fst args) = 0%nat /\ increasing (map fst args) /\
  (last (map fst args) 0 < n)%nat.
Proof.
  intros n args p Hn H. unfold rgp_construct in H.
  apply add_quads_inv in H; auto.
  destruct H as (idx & E1 & E2 & E3 & E4 & E5 & E6 & E7).
  simpl in E2, E3. subst idx. repeat split; auto.
  intros ->. simpl in E4. lia.
Qed.

Lemma ranges_cover : forall l n lo, hd lo l = lo -> l <> [] -> increasing l ->
  (last l 0 < n)%nat -> covers lo n (ranges_of l n).
Proof.
  induction l as [|i l IH]; intros n lo Hh Hne Hi Hla; [congruence|].
  simpl in Hh. subst i. simpl. destruct l as [|j l].
  - simpl in *. auto.
  - destruct Hi as [Hi1 Hi2]. split; [auto|]. split; [auto|].
    apply IH; auto. discriminate.
Qed.

Lemma rgp_ranges_spec : forall n (args : list (nat * aquad S)), args <> [] ->
  rgp_ranges (mkRgp (map fst args ++ [n]) (map snd args))
  = Ok (combine (ranges_of (map fst args) n) (map snd args)).
Proof.
  intros n args Hne. unfold rgp_ranges. cbn [rgp_quads].
  rewrite rgp_walk_spec; rewrite ?map_length; auto; try lia.
  destruct args; [congruence|simpl; lia].
Qed.

Lemma ranges_of_fst : forall l n, map fst (ranges_of l n) = l.
Proof. induction l as [|i l IH]; intro n; simpl; auto. f_equal; auto. Qed.

Theorem partition_covers : forall n args (p : rgp S), (1 <= n)%nat ->
  rgp_construct true n args = Ok p ->
  exists rs, rgp_ranges p = Ok (combine rs (map snd args)) /\
    map fst rs = map fst args /\ covers 0 n rs.
Proof.
  intros n args p Hn H. destruct (rgp_construct_inv n args p Hn H)
    as (E1 & E2 & E3 & E4 & E5 & E6).
  exists (ranges_of (map fst args) n). destruct p as [idx qs]; simpl in *. subst.
  split; [apply rgp_ranges_spec; auto|]. split.
  - apply ranges_of_fst.
  - apply ranges_cover; auto. destruct args; [congruence|discriminate].
Qed.

(** Acceptance is exactly: first start 0, strictly increasing, later starts below
    n - 1. *)
Lemma add_quads_accept : forall n args (p : rgp S), (1 <= n)%nat ->
  rgp_idx p <> [] ->
  increasing (last (rgp_idx p) 0%nat :: map fst args) ->
  Forall (fun i => (i < n - 1)%nat) (map fst args) ->
  exists p', add_quads true n args p = Ok p'.
Proof.
  intros n args. induction args as [|[i q] args IH]; intros p Hn Hne Hi Hf.
  - simpl. unfold finalize. destruct (rgp_idx p); [congruence|].
    destruct (Nat.eqb _ _); eauto.
  - cbn [add_quads map fst] in *. inversion Hf as [|? ? Hf1 Hf2]; subst.
    destruct Hi as [Hi1 Hi2].
    unfold add_quad. destruct (rgp_idx p) as [|i0 l] eqn:E; [congruence|].
    rewrite (proj2 (Nat.ltb_lt _ _) Hi1).
    rewrite (proj2 (Nat.ltb_lt _ _) Hf1). rewrite orb_true_r. simpl andb. cbn [cassert bind].
    apply IH; auto; cbn [rgp_idx].
    + destruct l; discriminate.
    + rewrite last_last. exact Hi2.
Qed.

Lemma add_quads_reject : forall n args (p p' : rgp S), (1 <= n)%nat ->
  add_quads true n args p = Ok p' ->  rgp_idx p <> [] ->
  Forall (fun i => (i < n - 1)%nat) (map fst args).
Proof.
  intros n args. induction args as [|[i q] args IH]; intros p p' Hn H Hne; [constructor|].
  cbn [add_quads map fst] in *. apply bind_Ok_inv in H. destruct H as (p1 & H1 & H2).
  unfold add_quad in H1. apply bind_Ok_inv in H1. destruct H1 as ([] & Hc & H1).
  injection H1 as <-. destruct (rgp_idx p) as [|i0 l] eqn:E; [congruence|].
  unfold cassert in Hc.
  destruct (Nat.ltb_spec (last (i0 :: l) 0) i); [|discriminate].
  destruct (Nat.eqb_spec n 0); [lia|]. cbn [orb andb] in Hc.
  destruct (Nat.ltb_spec i (n - 1)); [|discriminate].
  constructor; auto. apply (IH _ _ Hn H2). cbn [rgp_idx]. destruct l; discriminate.
Qed.

Theorem partition_accepted_iff : forall n (args : list (nat * aquad S)), (1 <= n)%nat ->
  (exists p, rgp_construct true n args = Ok p) <->
  (exists rest, map fst args = 0%nat :: rest /\ increasing (0%nat :: rest) /\
     Forall (fun i => (i < n - 1)%nat) rest).
Proof.
  intros n args Hn. split.
  - intros [p H]. destruct (rgp_construct_inv n args p Hn H)
      as (E1 & E2 & E3 & E4 & E5 & E6).
    destruct args as [|[i q] args]; [congruence|]. simpl in E4. subst i.
    exists (map fst args). split; [reflexivity|]. split; [exact E5|].
    unfold rgp_construct in H. cbn [add_quads] in H. apply bind_Ok_inv in H.
    destruct H as (p1 & H1 & H2). apply (add_quads_reject n args p1 p); auto.
    unfold add_quad in H1. simpl in H1. injection H1 as <-. discriminate.
  - intros (rest & E & Hi & Hf). destruct args as [|[i q] args]; [discriminate|].
    simpl in E. injection E as -> <-.
    unfold rgp_construct. cbn [add_quads]. unfold add_quad. cbn [rgp_idx rgp_empty Nat.eqb cassert bind app rgp_quads].
    apply add_quads_accept; auto; cbn [rgp_idx]; discriminate.
Qed.

(** Rejected partitions fire the assertion (never UB) when something was added. *)
Lemma add_quads_outcomes : forall n args (p : rgp S), rgp_idx p <> [] ->
  (exists p', add_quads true n args p = Ok p') \/ add_quads true n args p = AssertFail.
Proof.
  intros n args. induction args as [|[i q] args IH]; intros p Hne.
  - simpl. unfold finalize. destruct (rgp_idx p); [congruence|].
    left. destruct (Nat.eqb _ _); eauto.
  - cbn [add_quads]. unfold add_quad. destruct (rgp_idx p) as [|i0 l] eqn:E; [congruence|].
    unfold cassert. match goal with |- context [if ?c then Ok tt else AssertFail] => destruct c end.
    + cbn [bind]. apply IH. cbn [rgp_idx]. destruct l; discriminate.
    + right; reflexivity.
Qed.

Lemma rgp_construct_outcomes : forall n (args : list (nat * aquad S)), args <> [] ->
  (exists p, rgp_construct true n args = Ok p) \/ rgp_construct true n args = AssertFail.
Proof.
  intros n [|[i q] args] H; [congruence|]. unfold rgp_construct. cbn [add_quads].
  unfold add_quad. cbn [rgp_idx rgp_empty]. unfold cassert.
  destruct (Nat.eqb_spec i 0); [|right; reflexivity]. cbn [bind].
  apply add_quads_outcomes. discriminate.
Qed.

(** ** Pruned generation *)
Definition seg (r : rquad S) (b e : nat) : rquad S :=
  mkQuad (firstn (e - b) (skipn b (qpoints r))) (firstn (e - b) (skipn b (qweights r))).

Lemma seg_wf : forall r b e, length (qpoints r) = length (qweights r) ->
  length (qpoints (seg r b e)) = length (qweights (seg r b e)).
Proof. intros; unfold seg; simpl. rewrite !firstn_length, !skipn_length; lia. Qed.

Lemma pruned_region_closed : forall dbg r b e (a : aquad S),
  length (qpoints r) = length (qweights r) ->
  length (qpoints a) = length (qweights a) ->
  (b < e)%nat -> (e <= npts r)%nat ->
  pruned_region dbg r ((b, e), a)
  = Ok (sph_points (seg r b e) a, sph_weights (seg r b e) a).
Proof.
  intros dbg r b e a Hr Ha Hbe He. unfold pruned_region.
  rewrite subquad_Ok by auto.
  rewrite construct_Ok by (rewrite !firstn_length, !skipn_length; lia). cbn [bind].
  fold (seg r b e). apply sph_weighted_closed; auto. apply seg_wf; auto.
Qed.

Definition region_pts (r : rquad S) (rg : (nat * nat) * aquad S) : list pt3 :=
  sph_points (seg r (fst (fst rg)) (snd (fst rg))) (snd rg).
Definition region_wts (r : rquad S) (rg : (nat * nat) * aquad S) : list S :=
  sph_weights (seg r (fst (fst rg)) (snd (fst rg))) (snd rg).

Definition good_region (r : rquad S) (rg : (nat * nat) * aquad S) : Prop :=
  (fst (fst rg) < snd (fst rg))%nat /\ (snd (fst rg) <= npts r)%nat /\
  length (qpoints (snd rg)) = length (qweights (snd rg)).

Lemma pruned_loop_closed : forall dbg r (p : rgp S) fuel ii qi rgs acc,
  length (qpoints r) = length (qweights r) ->
  rgp_walk fuel p ii qi = Ok rgs -> Forall (good_region r) rgs ->
  pruned_loop fuel dbg r p ii qi acc
  = Ok (fst acc ++ flat_map (region_pts r) rgs, snd acc ++ flat_map (region_wts r) rgs).
Proof.
  intros dbg r p fuel. induction fuel as [|fuel IH]; intros ii qi rgs acc Hr Hw Hg.
  - simpl in *. destruct (rgp_idx p); [discriminate|].
    destruct (_ && _); [|discriminate]. injection Hw as <-. simpl.
    rewrite !app_nil_r. destruct acc; reflexivity.
  - assert (Hne : rgp_idx p <> []).
    { intro E. simpl in Hw. rewrite E in Hw. discriminate. }
    rewrite rgp_walk_step in Hw by auto. rewrite pruned_loop_step by auto.
    destruct (_ && _).
    + injection Hw as <-. simpl. rewrite !app_nil_r. destruct acc; reflexivity.
    + apply bind_Ok_inv in Hw. destruct Hw as (i0 & E0 & Hw). rewrite E0. cbn [bind].
      apply bind_Ok_inv in Hw. destruct Hw as (i1 & E1 & Hw). rewrite E1. cbn [bind].
      apply bind_Ok_inv in Hw. destruct Hw as (q & E2 & Hw). rewrite E2. cbn [bind].
      apply bind_Ok_inv in Hw. destruct Hw as (rest & E3 & Hw). injection Hw as <-.
      inversion Hg as [|? ? [G1 [G2 G3]] Hg']; subst. cbn [fst snd] in *.
      rewrite pruned_region_closed by auto. cbn [bind].
      rewrite (IH _ _ _ _ Hr E3 Hg'). cbn [flat_map fst snd].
      unfold region_pts at 2, region_wts at 2. cbn [fst snd].
      rewrite !app_assoc. reflexivity.
Qed.

Theorem pruned_closed : forall dbg r (p : rgp S) rgs cen,
  length (qpoints r) = length (qweights r) ->
  rgp_ranges p = Ok rgs -> Forall (good_region r) rgs ->
  pruned_generate dbg r p cen
  = Ok (map (shift_pt cen) (flat_map (region_pts r) rgs), flat_map (region_wts r) rgs).
Proof.
  intros dbg r p rgs cen Hr Hw Hg. unfold pruned_generate.
  rewrite (pruned_loop_closed dbg r p _ 0 0 rgs ([], []) Hr Hw Hg).
  cbn [bind fst snd app]. rewrite shift_grid_closed. reflexivity.
Qed.

Lemma seg_npts : forall r b e, (b <= e)%nat -> (e <= npts r)%nat -> npts (seg r b e) = (e - b)%nat.
Proof.
  intros r b e H1 H2. unfold npts, seg in *; simpl. rewrite firstn_length, skipn_length. lia.
Qed.

Definition region_size (rg : (nat * nat) * aquad S) : nat :=
  ((snd (fst rg) - fst (fst rg)) * npts (snd rg))%nat.

Lemma region_lengths : forall r rg, length (qpoints r) = length (qweights r) ->
  good_region r rg ->
  length (region_pts r rg) = region_size rg /\ length (region_wts r rg) = region_size rg.
Proof.
  intros r [[b e] a] Hr (G1 & G2 & G3). unfold region_pts, region_wts, region_size.
  cbn [fst snd] in *.
  destruct (sph_lengths (seg r b e) a (seg_wf r b e Hr) G3) as [-> ->].
  rewrite seg_npts by lia. auto.
Qed.

Lemma flat_lengths : forall r rgs, length (qpoints r) = length (qweights r) ->
  Forall (good_region r) rgs ->
  length (flat_map (region_pts r) rgs) = list_sum (map region_size rgs) /\
  length (flat_map (region_wts r) rgs) = list_sum (map region_size rgs).
Proof.
  intros r rgs Hr Hg. induction Hg as [|rg rgs G Hg [IH1 IH2]]; simpl; auto.
  destruct (region_lengths r rg Hr G). rewrite !app_length. lia.
Qed.

Theorem pruned_construct_closed : forall dbg r (p : rgp S) rgs cen,
  length (qpoints r) = length (qweights r) ->
  rgp_ranges p = Ok rgs -> Forall (good_region r) rgs ->
  pruned_construct dbg r p cen
  = Ok (mkSph (mkQuad (map (shift_pt cen) (flat_map (region_pts r) rgs))
                      (flat_map (region_wts r) rgs)) cen).
Proof.
  intros dbg r p rgs cen Hr Hw Hg. unfold pruned_construct.
  rewrite (pruned_closed dbg r p rgs cen Hr Hw Hg).
  destruct (flat_lengths r rgs Hr Hg).
  rewrite construct_Ok by (rewrite map_length; congruence). reflexivity.
Qed.

(** Nodes of the radial rule in [b, e). *)
Lemma nodes_seg : forall (r : rquad S) b e,
  nodes (seg r b e) = firstn (e - b) (skipn b (nodes r)).
Proof. intros; unfold nodes, seg; simpl. rewrite skipn_combine, firstn_combine; auto. Qed.

Theorem pruned_nodes : forall r cen rgs,
  length (qpoints r) = length (qweights r) -> Forall (good_region r) rgs ->
  Permutation
    (combine (map (shift_pt cen) (flat_map (region_pts r) rgs)) (flat_map (region_wts r) rgs))
    (flat_map (fun rg => flat_map (fun rw => shell cen rw (snd rg))
                 (firstn (snd (fst rg) - fst (fst rg)) (skipn (fst (fst rg)) (nodes r)))) rgs).
Proof.
  intros r cen rgs Hr Hg. induction Hg as [|rg rgs G Hg IH]; simpl; auto.
  rewrite map_app, combine_app.
  - apply Permutation_app; auto. rewrite <- nodes_seg.
    destruct G as (G1 & G2 & G3).
    apply sph_nodes_shells; auto. apply seg_wf; auto.
  - rewrite map_length. destruct (region_lengths r rg Hr G). congruence.
Qed.

Lemma covers_le : forall rs lo hi, covers lo hi rs -> (lo <= hi)%nat.
Proof.
  induction rs as [|[b e] rs IH]; simpl; intros lo hi H; [lia|].
  destruct H as (-> & H1 & H2). apply IH in H2. lia.
Qed.

Lemma covers_good : forall rs (qs : list (aquad S)) lo (r : rquad S),
  covers lo (npts r) rs ->
  Forall (fun a => length (qpoints a) = length (qweights a)) qs ->
  Forall (good_region r) (combine rs qs).
Proof.
  induction rs as [|[b e] rs IH]; intros [|a qs] lo r Hc Hq; simpl; auto.
  simpl in Hc. destruct Hc as (-> & H1 & H2). inversion Hq; subst.
  constructor.
  - unfold good_region; simpl. split; auto. split; auto. apply covers_le in H2; auto.
  - eapply IH; eauto.
Qed.

Lemma covers_concat : forall A rs lo hi (l : list A), covers lo hi rs -> length l = hi ->
  flat_map (fun be => firstn (snd be - fst be) (skipn (fst be) l)) rs = skipn lo l.
Proof.
  induction rs as [|[b e] rs IH]; simpl; intros lo hi l Hc Hl.
  - subst. rewrite skipn_all; auto.
  - destruct Hc as (-> & H1 & H2). rewrite (IH e hi l H2 Hl).
    pose proof (covers_le _ _ _ H2).
    rewrite <- (firstn_skipn (e - lo) (skipn lo l)) at 2.
    rewrite skipn_plus. replace (lo + (e - lo))%nat with e by lia. reflexivity.
Qed.

End Pruned.
