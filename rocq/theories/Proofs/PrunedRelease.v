(** Pruned grids with assertions switched off. *)
From Coq Require Import List Bool Arith ZArith Lia Permutation.
From Verif Require Import Base.Outcome Base.OutcomeFacts Base.Scalar Model.Quadrature
  Model.Radial Model.S2Tables Model.S2 Model.Composite Model.Factory Spec.QuadSpec Spec.SphereSpec
  Spec.FactorySpec Proofs.Sizes Proofs.CompositeFacts Proofs.PrunedFacts Proofs.CompositeProps
  Proofs.CompositeEdge Proofs.FactoryFacts Proofs.PruningFacts Proofs.FactoryEx.
Import ListNotations.
Local Open Scope nat_scope.

Lemma slices_ranges : forall l n, slices l n = ranges_of l n.
Proof.
  induction l as [|i l IH]; intro n; [reflexivity|]. cbn [slices ranges_of].
  rewrite IH. destruct l; reflexivity.
Qed.

Section Release.
Context {S : Scalar}.

Definition fine_region (r : rquad S) (rg : (nat * nat) * aquad S) : Prop :=
  fst (fst rg) <= snd (fst rg) /\ snd (fst rg) <= npts r.
Definition wf_region (rg : (nat * nat) * aquad S) : Prop :=
  length (qpoints (snd rg)) = length (qweights (snd rg)).

Lemma release_region : forall (r : rquad S) rg,
  length (qpoints r) = length (qweights r) -> wf_region rg ->
  (fine_region r rg -> pruned_region false r rg = Ok (region_pts r rg, region_wts r rg)) /\
  (~ fine_region r rg -> pruned_region false r rg = UB).
Proof.
  intros r [[b e] a] Hr Ha. unfold wf_region, fine_region, region_pts, region_wts in *.
  cbn [fst snd] in *. split.
  - intros [H1 H2]. destruct (Nat.eq_dec b e) as [->|Hne].
    + unfold pruned_region, subquad_generate, cassert. cbn [bind].
      unfold npts in H2. rewrite <- Hr, Nat.leb_refl, (proj2 (Nat.leb_le _ _) H2). cbn [andb].
      rewrite construct_Ok by (rewrite !firstn_length, !skipn_length; lia). cbn [bind].
      apply sph_weighted_closed; auto. apply (seg_wf r e e); auto.
    + apply pruned_region_closed; auto. lia.
  - intro H. unfold pruned_region, subquad_generate, cassert. cbn [bind].
    unfold npts in H. rewrite <- Hr.
    destruct (Nat.leb_spec b e); cbn [andb]; [|reflexivity].
    destruct (Nat.leb_spec e (length (qpoints r))); cbn [andb]; [|reflexivity]. elim H. split; auto.
Qed.

Lemma release_loop : forall (r : rquad S) (p : rgp S) fuel ii qi rgs acc,
  length (qpoints r) = length (qweights r) ->
  rgp_walk fuel p ii qi = Ok rgs -> Forall wf_region rgs ->
  (Forall (fine_region r) rgs -> pruned_loop fuel false r p ii qi acc
     = Ok (fst acc ++ flat_map (region_pts r) rgs, snd acc ++ flat_map (region_wts r) rgs)) /\
  (~ Forall (fine_region r) rgs -> pruned_loop fuel false r p ii qi acc = UB).
Proof.
  intros r p fuel. induction fuel as [|fuel IH]; intros ii qi rgs acc Hr Hw Hg.
  - simpl in *. destruct (rgp_idx p); [discriminate|].
    destruct (_ && _); [|discriminate]. injection Hw as <-. simpl.
    rewrite !app_nil_r. split; [destruct acc; reflexivity|]. intro H; elim H; constructor.
  - assert (Hne : rgp_idx p <> []).
    { intro E. simpl in Hw. rewrite E in Hw. discriminate. }
    rewrite rgp_walk_step in Hw by auto. rewrite pruned_loop_step by auto.
    destruct (_ && _).
    + injection Hw as <-. simpl. rewrite !app_nil_r.
      split; [destruct acc; reflexivity|]. intro H; elim H; constructor.
    + apply bind_Ok_inv in Hw. destruct Hw as (i0 & E0 & Hw). rewrite E0. cbn [bind].
      apply bind_Ok_inv in Hw. destruct Hw as (i1 & E1 & Hw). rewrite E1. cbn [bind].
      apply bind_Ok_inv in Hw. destruct Hw as (q & E2 & Hw). rewrite E2. cbn [bind].
      apply bind_Ok_inv in Hw. destruct Hw as (rest & E3 & Hw). injection Hw as <-.
      inversion Hg as [|? ? G Hg']; subst.
      destruct (release_region r ((i0, i1), q) Hr G) as [R1 R2]. split.
      * intro F. inversion F as [|? ? F1 F2]; subst. rewrite (R1 F1). cbn [bind].
        rewrite (proj1 (IH _ _ _ _ Hr E3 Hg') F2). cbn [flat_map fst snd].
        rewrite !app_assoc. reflexivity.
      * intro F.
        destruct (le_dec i0 i1) as [L|L]; [destruct (le_dec i1 (npts r)) as [L'|L']|].
        -- rewrite R1 by (split; auto). cbn [bind].
           apply (proj2 (IH _ _ _ _ Hr E3 Hg')). intro F2. apply F. constructor; auto. split; auto.
        -- rewrite R2; [reflexivity|]. intros [_ X]. auto.
        -- rewrite R2; [reflexivity|]. intros [X _]. auto.
Qed.

(** The index list is not extended when its last entry is already [n]: the walk leaves it. *)
Lemma release_overrun : forall (r : rquad S) (idx : list nat) (qs : list (aquad S)) fuel k acc,
  length (qpoints r) = length (qweights r) -> Forall (fun a : aquad S => length (qpoints a) = length (qweights a)) qs ->
  length idx = length qs -> idx <> [] -> k < length qs -> length qs - k < fuel ->
  pruned_loop fuel false r (mkRgp idx qs) k k acc = UB.
Proof.
  intros r idx qs fuel. induction fuel as [|fuel IH]; intros k acc Hr Hq Hl Hne Hk Hf; [lia|].
  rewrite pruned_loop_step by auto. cbn [rgp_idx rgp_quads].
  replace (Nat.eqb k (length qs)) with false by (symmetry; apply Nat.eqb_neq; lia).
  rewrite andb_false_r. unfold vget.
  destruct (nth_error idx k) as [i|] eqn:E1; [|reflexivity]. cbn [bind].
  destruct (nth_error idx (k + 1)) as [i'|] eqn:E2; [|reflexivity]. cbn [bind].
  destruct (nth_error qs k) as [q|] eqn:E3; [|reflexivity]. cbn [bind].
  assert (k + 1 < length idx) by (apply nth_error_Some; congruence).
  assert (G : wf_region ((i, i'), q)).
  { unfold wf_region. cbn [snd]. rewrite Forall_forall in Hq. apply Hq. eapply nth_error_In; eauto. }
  destruct (release_region r ((i, i'), q) Hr G) as [R1 R2].
  destruct (le_dec i i') as [L|L]; [destruct (le_dec i' (npts r)) as [L'|L']|].
  - rewrite R1 by (split; auto). cbn [bind]. apply IH; auto; lia.
  - rewrite R2; [reflexivity|]. intros [_ X]. auto.
  - rewrite R2; [reflexivity|]. intros [X _]. auto.
Qed.

Lemma add_quads_release : forall n (args : list (nat * aquad S)) p,
  add_quads false n args p
  = finalize n (mkRgp (rgp_idx p ++ map fst args) (rgp_quads p ++ map snd args)).
Proof.
  intros n args. induction args as [|[i q] args IH]; intro p.
  - cbn [add_quads map]. rewrite !app_nil_r. destruct p; reflexivity.
  - cbn [add_quads]. unfold add_quad, cassert. cbn [bind]. rewrite IH. cbn [rgp_idx rgp_quads map fst snd].
    rewrite <- !app_assoc. reflexivity.
Qed.

Lemma construct_release : forall n (args : list (nat * aquad S)),
  rgp_construct false n args
  = match args with
    | [] => UB
    | _ => if Nat.eqb (last (map fst args) 0) n then Ok (mkRgp (map fst args) (map snd args))
           else Ok (mkRgp (map fst args ++ [n]) (map snd args))
    end.
Proof.
  intros n args. unfold rgp_construct. rewrite add_quads_release. unfold finalize.
  cbn [rgp_idx rgp_quads rgp_empty app]. destruct args as [|[i q] args]; reflexivity.
Qed.

Lemma fine_slices : forall l n (qs : list (aquad S)) (r : rquad S), length l = length qs -> npts r = n -> l <> [] ->
  (Forall (fine_region r) (combine (ranges_of l n) qs) <-> nondecreasing l /\ last l 0 <= n).
Proof.
  intros l n qs r Hl Hn. revert qs Hl. induction l as [|i l IH]; intros [|q qs] Hl Hne; try discriminate; [congruence|].
  cbn [ranges_of combine]. destruct l as [|j l].
  - destruct qs; [|discriminate]. cbn [combine ranges_of nondecreasing last]. split.
    + intro F. inversion F as [|? ? [F1 F2] _]; subst. cbn [fst snd] in *. auto.
    + intros [_ H]. constructor; [|constructor]. split; cbn [fst snd]; lia.
  - assert (Hl' : length (j :: l) = length qs) by (simpl in *; lia).
    specialize (IH qs Hl' ltac:(discriminate)).
    change (last (i :: j :: l) 0) with (last (j :: l) 0).
    change (nondecreasing (i :: j :: l)) with (i <= j /\ nondecreasing (j :: l)). split.
    + intro F. inversion F as [|? ? [F1 F2] F3]; subst. apply IH in F3. cbn [fst snd] in *. tauto.
    + intros [[H1 H2] H3]. constructor; [|apply IH; auto].
      split; cbn [fst snd]; auto.
      assert (X : forall m j0, nondecreasing (j0 :: m) -> j0 <= last (j0 :: m) 0).
      { clear. induction m as [|x m IHm]; intros j0 H; [simpl; auto|].
        change (last (j0 :: x :: m) 0) with (last (x :: m) 0). destruct H as [H H'].
        specialize (IHm x H'). lia. }
      specialize (X l j H2). lia.
Qed.

Lemma release_flat : forall (r : rquad S) rgs c, length (qpoints r) = length (qweights r) ->
  Forall wf_region rgs -> Forall (fine_region r) rgs ->
  length (flat_map (region_pts r) rgs) = list_sum (map (@region_size S) rgs) /\
  length (flat_map (region_wts r) rgs) = list_sum (map (@region_size S) rgs) /\
  Permutation
    (combine (map (shift_pt c) (flat_map (region_pts r) rgs)) (flat_map (region_wts r) rgs))
    (flat_map (fun rg => flat_map (fun rw => shell c rw (snd rg))
                 (firstn (snd (fst rg) - fst (fst rg)) (skipn (fst (fst rg)) (nodes r)))) rgs).
Proof.
  intros r rgs c Hr Hw Hg. induction Hg as [|[[b e] a] rgs [G1 G2] Hg IH]; [simpl; auto|].
  inversion Hw as [|? ? W1 W2]; subst. destruct (IH W2) as (I1 & I2 & I3). unfold wf_region in W1.
  cbn [fst snd] in *.
  assert (L : length (region_pts r ((b, e), a)) = region_size ((b, e), a) /\
              length (region_wts r ((b, e), a)) = region_size ((b, e), a)).
  { unfold region_pts, region_wts, region_size. cbn [fst snd].
    destruct (sph_lengths (seg r b e) a (seg_wf r b e Hr) W1) as [-> ->].
    rewrite seg_npts by lia. auto. }
  destruct L as [L1 L2]. simpl flat_map. simpl map. simpl list_sum. rewrite !app_length.
  split; [lia|]. split; [lia|].
  rewrite map_app, combine_app by (rewrite map_length; congruence).
  apply Permutation_app; auto. rewrite <- nodes_seg. apply sph_nodes_shells; auto. apply seg_wf; auto.
Qed.

(** Complete description of pruned construction without assertions. *)
Lemma pruned_release : forall nr (r : rquad S) args c,
  sized nr r -> Forall (fun ia => exists na, sized na (snd ia)) args ->
  let idx := map fst args in
  (idx <> [] /\ nondecreasing idx /\ last idx 0 < nr ->
   exists o, (let* p := rgp_construct false nr args in pruned_construct false r p c) = Ok o /\
     sph_center o = c /\
     sized (list_sum (map (fun ra => (snd (fst ra) - fst (fst ra)) * npts (snd ra))
                        (combine (slices idx nr) (map snd args)))) (sph_quad o) /\
     Permutation (nodes (sph_quad o))
       (flat_map (fun ra => flat_map (fun rw => shell c rw (snd ra))
           (firstn (snd (fst ra) - fst (fst ra)) (skipn (fst (fst ra)) (nodes r))))
         (combine (slices idx nr) (map snd args)))) /\
  (~ (idx <> [] /\ nondecreasing idx /\ last idx 0 < nr) ->
   (let* p := rgp_construct false nr args in pruned_construct false r p c) = UB).
Proof.
  intros nr r args c Hr Ha idx. pose proof (sized_wf _ _ _ _ Hr) as Wr.
  assert (Hn : npts r = nr) by apply (sized_npts _ _ _ _ Hr).
  assert (Wq : Forall (fun a : aquad S => length (qpoints a) = length (qweights a)) (map snd args)).
  { apply Forall_forall. intros a H. apply in_map_iff in H. destruct H as (ia & <- & Hia).
    rewrite Forall_forall in Ha. destruct (Ha _ Hia) as (na & Hna). apply (sized_wf _ _ _ _ Hna). }
  assert (Ww : Forall wf_region (combine (ranges_of idx nr) (map snd args))).
  { apply Forall_forall. intros [be a] H. apply in_combine_r in H. rewrite Forall_forall in Wq. apply Wq. auto. }
  assert (Hl : length idx = length (map snd args)) by (unfold idx; rewrite !map_length; auto).
  assert (Dn : args = [] \/ args <> []) by (destruct args; [left; reflexivity|right; discriminate]).
  destruct Dn as [Dn|Hne].
  { split; [intros (X & _); elim X; unfold idx; rewrite Dn; reflexivity|].
    intros _. rewrite construct_release, Dn. reflexivity. }
  assert (Hni : idx <> []) by (unfold idx; destruct args; [congruence|discriminate]).
  assert (Ec : rgp_construct false nr args
    = if Nat.eqb (last idx 0) nr then Ok (mkRgp idx (map snd args))
      else Ok (mkRgp (idx ++ [nr]) (map snd args))).
  { rewrite construct_release. unfold idx. destruct args; [congruence|reflexivity]. }
  rewrite !Ec, !slices_ranges.
  set (qs := map snd args) in *.
  assert (HW : rgp_ranges (mkRgp (idx ++ [nr]) qs) = Ok (combine (ranges_of idx nr) qs))
    by (apply rgp_ranges_spec; auto).
  split.
  - intros (_ & Hi & Hla).
    destruct (Nat.eqb_spec (last idx 0) nr) as [E|E]; [lia|]. cbn [bind].
    assert (F : Forall (fine_region r) (combine (ranges_of idx nr) qs))
      by (apply fine_slices; auto; split; auto; lia).
    unfold pruned_construct, pruned_generate.
    rewrite (proj1 (release_loop r _ _ 0 0 _ ([], []) Wr HW Ww) F). cbn [bind fst snd app].
    rewrite shift_grid_closed. destruct (release_flat r _ c Wr Ww F) as (F1 & F2 & F3).
    cbn [bind]. rewrite construct_Ok by (rewrite map_length; congruence). cbn [bind].
    eexists. split; [reflexivity|]. split; [reflexivity|]. split; [|exact F3].
    apply sized_intro; [rewrite map_length|]; auto.
  - intro H. unfold pruned_construct, pruned_generate.
    destruct (Nat.eqb_spec (last idx 0) nr) as [E|E]; cbn [bind].
    + assert (0 < length qs) by (rewrite <- Hl; destruct idx; [congruence|simpl; lia]).
      rewrite (release_overrun r idx qs); auto; cbn [rgp_quads]; lia.
    + rewrite (proj2 (release_loop r _ _ 0 0 _ ([], []) Wr HW Ww)); [reflexivity|].
      intro F. apply fine_slices in F; auto. apply H. split; [auto|]. split; [tauto|]. lia.
Qed.

End Release.

Lemma three_regions_release : forall (S : Scalar) (grids : afam -> Z -> @static_grid S),
  data_sized grids -> forall rq k (t : rtraits S) f d z1 z2 z3,
  In (rq, k) schemes -> rkind_of t = k -> 2 <= d ->
  let n := rt_npts t in
  let p := mkPruned rq (Some t)
      [mkRegion 0 (n / d + 1) (AQ f) z1; mkRegion (n / d + 1) (n / 2 + 1) (AQ f) z2;
       mkRegion (n / 2 + 1) n (AQ f) z3] in
  (n < 3 -> generate_grid_pruned grids false p = UB) /\
  (3 <= n -> exists o, generate_grid_pruned grids false p = Ok o /\
     sized ((n / d + 1) * Z.to_nat z1 + (n / 2 - n / d) * Z.to_nat z2
            + (n - (n / 2 + 1)) * Z.to_nat z3) (sph_quad o)).
Proof.
  intros S grids D rq k t f d z1 z2 z3 Hin Hk Hd n p.
  destruct (pruned_direct grids D false rq k t f (p_regions p) Hin Hk)
    as (r & quads & _ & R2 & Q & E); [discriminate|repeat constructor|].
  change (mkPruned rq (Some t) (p_regions p)) with p in E.
  cbn [p p_regions] in Q.
  inversion Q as [|? q1 ? ? [_ S1] Q3]; subst. inversion Q3 as [|? q2 ? ? [_ S2] Q4]; subst.
  inversion Q4 as [|? q3 ? ? [_ S3] Q5]; subst. inversion Q5; subst. clear Q Q3 Q4 Q5.
  cbn [r_asz] in S1, S2, S3.
  cbn [p p_regions map r_st combine] in E. fold n in E, R2.
  destruct (pruned_release n r [(0, q1); (n / d + 1, q2); (n / 2 + 1, q3)] (s0, s0, s0) R2) as [P1 P2].
  { repeat constructor; cbn [snd]; eauto. }
  cbn [map fst snd] in P1, P2. change (last [0; n / d + 1; n / 2 + 1] 0) with (n / 2 + 1) in P1, P2.
  pose proof (Nat.div_mod n 2 ltac:(lia)). pose proof (Nat.mod_upper_bound n 2 ltac:(lia)).
  assert (n / d <= n / 2) by (apply Nat.div_le_compat_l; lia).
  rewrite E. split; intro Hn.
  - apply P2. intros (_ & _ & X). lia.
  - destruct P1 as (o & O1 & _ & O3 & _).
    { split; [discriminate|]. split; [cbn [nondecreasing]; lia|lia]. }
    exists o. split; [exact O1|].
    match type of O3 with sized ?a _ => replace a with ((n / d + 1) * Z.to_nat z1 + (n / 2 - n / d) * Z.to_nat z2
            + (n - (n / 2 + 1)) * Z.to_nat z3) in O3 end; [exact O3|].
    cbn [slices combine map hd fst snd]. rewrite list_sum3.
    rewrite (sized_npts _ _ _ _ S1), (sized_npts _ _ _ _ S2), (sized_npts _ _ _ _ S3).
    replace (n / 2 + 1 - (n / d + 1)) with (n / 2 - n / d) by lia. rewrite Nat.sub_0_r. reflexivity.
Qed.

Lemma scheme_release : forall (S : Scalar) (grids : afam -> Z -> @static_grid S),
  data_sized grids -> forall sch (u : unpruned_spec S) p t k f,
  sch = Robust \/ sch = Treutler ->
  u_traits u = Some t -> u_aq u = AQ f -> In (u_rq u, k) schemes -> rkind_of t = k ->
  create_pruned_spec sch u = Ok p ->
  (rt_npts t < 3 -> generate_grid_pruned grids false p = UB) /\
  (3 <= rt_npts t -> exists o, generate_grid_pruned grids false p = Ok o /\
     sized (list_sum (map (fun r => (r_en r - r_st r) * Z.to_nat (r_asz r)) (p_regions p))) (sph_quad o)).
Proof.
  intros S grids D sch u p t k f Hsch Ht Hf Hin Hk Hp.
  assert (G : exists d low med, 2 <= d /\
     p = mkPruned (u_rq u) (Some t)
       [mkRegion 0 (rt_npts t / d + 1) (AQ f) low;
        mkRegion (rt_npts t / d + 1) (rt_npts t / 2 + 1) (AQ f) med;
        mkRegion (rt_npts t / 2 + 1) (rt_npts t) (AQ f) (u_asz u)]).
  { destruct Hsch as [->| ->].
    - unfold create_pruned_spec in Hp. rewrite Ht in Hp. unfold robust_psi4_pruning_scheme in Hp.
      rewrite Hf in Hp. destruct (robust_sizes f (u_asz u)) as [[low med]| | | |]; try discriminate Hp.
      cbn [bind] in Hp. unfold deref_traits in Hp. rewrite Ht in Hp. cbn [bind] in Hp.
      rewrite clone_id in Hp. injection Hp as <-. exists 4, low, med. split; [lia|reflexivity].
    - destruct (treutler_regions u t f Ht Hf) as (low & med & E & _). rewrite E in Hp.
      injection Hp as <-. exists 3, low, med. split; [lia|reflexivity]. }
  destruct G as (d & low & med & Hd & ->).
  destruct (three_regions_release S grids D (u_rq u) k t f d low med (u_asz u) Hin Hk Hd) as [G1 G2].
  split; [exact G1|]. intro H. destruct (G2 H) as (o & O1 & O2). exists o. split; [exact O1|].
  cbn [p_regions map r_st r_en r_asz]. rewrite list_sum3.
  replace (rt_npts t / d + 1 - 0) with (rt_npts t / d + 1) by lia.
  replace (rt_npts t / 2 + 1 - (rt_npts t / d + 1)) with (rt_npts t / 2 - rt_npts t / d) by lia.
  exact O2.
Qed.

(** Without assertions a partition may leave out leading radial points. *)
Lemma release_drops : exists nr idx, nr = 3 /\ idx = [1] /\
  forall (S : Scalar) (r : rquad S) na (a : aquad S) c, sized nr r -> sized na a ->
  rgp_construct true nr (map (fun i => (i, a)) idx) = AssertFail /\
  exists o, (let* p := rgp_construct false nr (map (fun i => (i, a)) idx) in
             pruned_construct false r p c) = Ok o /\ sized ((nr - 1) * na) (sph_quad o).
Proof.
  exists 3, [1]. split; [reflexivity|]. split; [reflexivity|]. intros S r na a c Hr Ha.
  split; [reflexivity|].
  destruct (pruned_release 3 r [(1, a)] c Hr) as [P _]; [repeat constructor; eauto|].
  destruct P as (o & O1 & _ & O3 & _); [cbn; repeat split; auto; discriminate|].
  exists o. split; [exact O1|]. cbn [map fst snd slices hd combine] in O3. unfold list_sum in O3.
  cbn [fold_right] in O3. rewrite (sized_npts _ _ _ _ Ha), Nat.add_0_r in O3. exact O3.
Qed.
