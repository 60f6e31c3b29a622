(** Factories: direct construction, errors, regions, specification equality. *)
From Coq Require Import Bool Arith ZArith List Lia Permutation Reals.
From Verif Require Import Base.Outcome Base.OutcomeFacts Base.Scalar Base.RScalar Model.Quadrature
  Model.Radial Model.S2Tables Model.S2 Model.Composite Model.Factory
  Spec.QuadSpec Spec.SphereSpec Spec.TraitsSpec Spec.FactorySpec
  Proofs.Sizes Proofs.S2Facts Proofs.TraitsFacts Proofs.CompositeFacts Proofs.PrunedFacts
  Proofs.CompositeProps.
Import ListNotations.
Local Open Scope nat_scope.

Local Opaque npts_by_algebraic_order algebraic_order_by_npts next_algebraic_order.

Lemma afam_eqb_eq : forall f g, afam_eqb f g = true <-> f = g.
Proof. destruct f, g; simpl; split; intro; congruence. Qed.

Lemma radial_quad_eqb_eq : forall a b, radial_quad_eqb a b = true <-> a = b.
Proof.
  destruct a, b; simpl; split; intro H; try congruence.
  - apply N.eqb_eq in H; congruence.
  - injection H as ->. apply N.eqb_refl.
Qed.

Lemma angular_quad_eqb_eq : forall a b, angular_quad_eqb a b = true <-> a = b.
Proof.
  destruct a, b; simpl; split; intro H; try congruence.
  - apply afam_eqb_eq in H; congruence.
  - injection H as ->. apply afam_eqb_eq; auto.
  - apply N.eqb_eq in H; congruence.
  - injection H as ->. apply N.eqb_refl.
Qed.

Lemma region_eqb_eq : forall a b, region_eqb a b = true <-> a = b.
Proof.
  intros [s e q z] [s' e' q' z']. unfold region_eqb; cbn [r_st r_en r_aq r_asz].
  rewrite !andb_true_iff, !Nat.eqb_eq, angular_quad_eqb_eq, Z.eqb_eq. split.
  - intros (((-> & ->) & ->) & ->). auto.
  - intro H. injection H as -> -> -> ->. auto.
Qed.

Lemma list_eqb_eq : forall A (eqb : A -> A -> bool), (forall x y, eqb x y = true <-> x = y) ->
  forall l m, list_eqb eqb l m = true <-> l = m.
Proof.
  intros A eqb H. induction l as [|x l IH]; destruct m as [|y m]; simpl; split; intro E;
    try congruence.
  - apply andb_prop in E. destruct E as [E1 E2]. apply H in E1. apply IH in E2. congruence.
  - injection E as -> ->. rewrite (proj2 (H y y)), (proj2 (IH m)); auto.
Qed.

Section Any.
Context {S : Scalar}.
Variable grids : afam -> Z -> @static_grid S.

(** Direct construction. *)
Lemma radial_direct : forall dbg rq k (t : rtraits S), In (rq, k) schemes -> rkind_of t = k ->
  radial_factory_generate dbg rq t = construct dbg (radial_generate t).
Proof.
  intros dbg rq k t Hin Hk.
  assert (C : radial_construct dbg k t = construct dbg (radial_generate t)).
  { unfold radial_construct. rewrite (proj1 (cast_iff k t) Hk). auto. }
  rewrite <- C. cbn [In schemes] in Hin.
  repeat (destruct Hin as [Hin|Hin]; [injection Hin as <- <-; reflexivity|]). destruct Hin.
Qed.

Lemma radial_bad_cast : forall dbg rq k (t : rtraits S), In (rq, k) schemes -> rkind_of t <> k ->
  radial_factory_generate dbg rq t = Throw ExBadCast.
Proof.
  intros dbg rq k t Hin Hk.
  assert (C : radial_construct dbg k t = Throw ExBadCast).
  { unfold radial_construct. rewrite (proj2 (cast_iff k t) Hk). auto. }
  rewrite <- C. cbn [In schemes] in Hin.
  repeat (destruct Hin as [Hin|Hin]; [injection Hin as <- <-; reflexivity|]). destruct Hin.
Qed.

Lemma unknown_other : forall rq, (forall k, ~ In (rq, k) schemes) -> exists c, rq = RQOther c.
Proof.
  intros [| | | |c] H; try (edestruct H; simpl; auto 10; fail). eauto.
Qed.

Lemma radial_unknown : forall dbg rq (t : rtraits S), (forall k, ~ In (rq, k) schemes) ->
  radial_factory_generate dbg rq t = Throw ExRuntime.
Proof. intros dbg rq t H. destruct (unknown_other rq H) as (c & ->). auto. Qed.

Lemma angular_direct : forall dbg f n,
  s2_factory_generate grids dbg (AQ f) n = construct dbg (s2_generate grids f n).
Proof. destruct f; reflexivity. Qed.

Lemma angular_ok : data_sized grids -> forall dbg f n,
  exists q, construct dbg (s2_generate grids f n) = Ok q /\ sized n q.
Proof.
  intros D dbg f n. apply s2_sized. intros m Hm. apply (proj1 (dispatch_iff _ _ _)) in Hm.
  destruct Hm as [-> Hm]. destruct (D f _ Hm) as [H1 H2]. rewrite Nat2Z.id in H1, H2. auto.
Qed.

Lemma unpruned_impl_eq : forall dbg rq (t : rtraits S) a,
  generate_unpruned_impl dbg rq t a
  = let* r := radial_factory_generate dbg rq t in spherical_construct dbg r a (s0, s0, s0).
Proof. destruct rq; reflexivity. Qed.

Lemma pruned_grid_eq : forall dbg rq (t : rtraits S) rs,
  generate_pruned_grid grids dbg rq t rs
  = let* r := radial_factory_generate dbg rq t in make_pruned_grid grids dbg r rs.
Proof. destruct rq; reflexivity. Qed.

Lemma unpruned_direct : data_sized grids -> forall dbg rq k (t : rtraits S) f n,
  In (rq, k) schemes -> rkind_of t = k ->
  exists r a o, construct dbg (radial_generate t) = Ok r /\
    construct dbg (s2_generate grids f n) = Ok a /\
    spherical_construct dbg r a (s0, s0, s0) = Ok o /\
    generate_grid_unpruned grids dbg (mkUnpruned rq (Some t) (AQ f) (Z.of_nat n)) = Ok o /\
    sized (rt_npts t * n) (sph_quad o).
Proof.
  intros D dbg rq k t f n Hin Hk.
  destruct (radial_sized dbg t) as (r & R1 & R2).
  destruct (angular_ok D dbg f n) as (a & A1 & A2).
  destruct (spherical_spec dbg _ _ r a (s0, s0, s0) R2 A2) as (o & O1 & _ & O3 & _).
  exists r, a, o. split; [auto|]. split; [auto|]. split; [auto|]. split; [|auto].
  unfold generate_grid_unpruned, generate_unpruned_grid. cbn [u_traits u_rq u_aq u_asz].
  unfold angular_construct. rewrite Nat2Z.id, A1. cbn [bind]. rewrite unpruned_impl_eq.
  rewrite (radial_direct dbg rq k t Hin Hk), R1. cbn [bind]. exact O1.
Qed.

Lemma unpruned_errors : data_sized grids -> forall dbg rq aq z,
  generate_grid_unpruned grids dbg (mkUnpruned rq None aq z) = Throw ExRuntime /\
  (forall (t : rtraits S),
    (forall f, aq <> AQ f) ->
     generate_grid_unpruned grids dbg (mkUnpruned rq (Some t) aq z) = Throw ExRuntime) /\
  (forall (t : rtraits S), (forall k, ~ In (rq, k) schemes) ->
     generate_grid_unpruned grids dbg (mkUnpruned rq (Some t) aq z) = Throw ExRuntime) /\
  (forall (t : rtraits S) f k, In (rq, k) schemes -> rkind_of t <> k -> aq = AQ f ->
     generate_grid_unpruned grids dbg (mkUnpruned rq (Some t) aq z) = Throw ExBadCast).
Proof.
  intros D dbg rq aq z. unfold generate_grid_unpruned, generate_unpruned_grid.
  cbn [u_traits u_rq u_aq u_asz]. split; [auto|]. split; [|split].
  - intros t H. destruct aq as [f|]; auto. destruct (H f); auto.
  - intros t H. destruct aq as [f|]; auto. unfold angular_construct.
    destruct (angular_ok D dbg f (Z.to_nat z)) as (a & A1 & A2). rewrite A1. cbn [bind].
    rewrite unpruned_impl_eq, radial_unknown; auto.
  - intros t f k H1 H2 ->. unfold angular_construct.
    destruct (angular_ok D dbg f (Z.to_nat z)) as (a & A1 & A2). rewrite A1. cbn [bind].
    rewrite unpruned_impl_eq, (radial_bad_cast dbg rq k); auto.
Qed.

(** make_radial_traits *)
Lemma make_traits_kind : forall rq k a (t : rtraits S), In (rq, k) schemes ->
  make_radial_traits rq a = Ok t -> rkind_of t = k.
Proof.
  intros rq k a t Hin H. cbn [In schemes] in Hin.
  repeat (destruct Hin as [Hin|Hin]; [injection Hin as <- <-; destruct a; simpl in H;
    try discriminate; injection H as <-; reflexivity|]). destruct Hin.
Qed.

(** Pruned grids *)
Lemma add_regions_eq : forall dbg f n rs (p : rgp S) quads,
  Forall2 (fun r a => construct dbg (s2_generate grids f (Z.to_nat (r_asz r))) = Ok a) rs quads ->
  (let* p := add_regions grids dbg f n rs p in finalize n p)
  = add_quads dbg n (combine (map r_st rs) quads) p.
Proof.
  intros dbg f n rs p quads H. revert p. induction H as [|r a rs quads H _ IH]; intro p; auto.
  cbn [add_regions map combine add_quads]. unfold angular_construct. rewrite H. cbn [bind].
  destruct (add_quad dbg n (r_st r) a p); cbn [bind]; auto.
Qed.

Lemma quads_exist : data_sized grids -> forall dbg f rs,
  exists quads : list (aquad S),
    Forall2 (fun r a => construct dbg (s2_generate grids f (Z.to_nat (r_asz r))) = Ok a) rs quads /\
    Forall2 (fun r a => sized (Z.to_nat (r_asz r)) a) rs quads.
Proof.
  intros D dbg f rs. induction rs as [|r rs (quads & H1 & H2)].
  - exists []. split; constructor.
  - destruct (angular_ok D dbg f (Z.to_nat (r_asz r))) as (a & A1 & A2).
    exists (a :: quads). split; constructor; auto.
Qed.

Lemma same_family : forall (f : afam) rs, Forall (fun r => r_aq r = AQ f) rs -> forall r0,
  r_aq r0 = AQ f -> existsb (fun r => negb (angular_quad_eqb (r_aq r) (r_aq r0))) rs = false.
Proof.
  intros f rs H r0 H0. induction H as [|r rs H _ IH]; auto. simpl. rewrite IH, H, H0.
  rewrite (proj2 (angular_quad_eqb_eq _ _) eq_refl). auto.
Qed.

Lemma bind_assoc : forall A B C (m : outcome A) (k : A -> outcome B) (l : B -> outcome C),
  bind (bind m k) l = bind m (fun x => bind (k x) l).
Proof. destruct m; auto. Qed.

Lemma pruned_direct : data_sized grids -> forall dbg rq k (t : rtraits S) f rs,
  In (rq, k) schemes -> rkind_of t = k -> rs <> [] -> Forall (fun r => r_aq r = AQ f) rs ->
  exists r (quads : list (aquad S)), construct dbg (radial_generate t) = Ok r /\ sized (rt_npts t) r /\
    Forall2 (fun reg a => construct dbg (s2_generate grids f (Z.to_nat (r_asz reg))) = Ok a
                          /\ sized (Z.to_nat (r_asz reg)) a) rs quads /\
    generate_grid_pruned grids dbg (mkPruned rq (Some t) rs)
    = let* p := rgp_construct dbg (rt_npts t) (combine (map r_st rs) quads) in
      pruned_construct dbg r p (s0, s0, s0).
Proof.
  intros D dbg rq k t f rs Hin Hk Hne Hf.
  destruct (radial_sized dbg t) as (r & R1 & R2).
  destruct (quads_exist D dbg f rs) as (quads & Q1 & Q2).
  exists r, quads. split; [auto|]. split; [auto|]. split.
  { clear - Q1 Q2. revert Q2. induction Q1; intro Q2; inversion Q2; subst; constructor; auto. }
  unfold generate_grid_pruned. cbn [p_traits p_rq p_regions]. rewrite pruned_grid_eq.
  rewrite (radial_direct dbg rq k t Hin Hk), R1. cbn [bind].
  unfold make_pruned_grid. destruct rs as [|r0 rs]; [congruence|].
  rewrite (same_family f _ Hf) by (inversion Hf; auto).
  assert (E0 : r_aq r0 = AQ f) by (inversion Hf; auto). rewrite E0.
  unfold make_pruned_grid_impl. rewrite (sized_npts _ _ _ _ R2). unfold rgp_construct.
  pose proof (add_regions_eq dbg f (rt_npts t) (r0 :: rs) rgp_empty quads Q1) as X.
  etransitivity; [|apply (f_equal (fun m => bind m (fun p => pruned_construct dbg r p (s0, s0, s0)))); exact X].
  rewrite bind_assoc. reflexivity.
Qed.

Lemma map_fst_combine : forall A B (l : list A) (m : list B), length l = length m ->
  map fst (combine l m) = l.
Proof. induction l; destruct m; simpl; intros; try discriminate; auto. f_equal; auto. Qed.
Lemma map_snd_combine : forall A B (l : list A) (m : list B), length l = length m ->
  map snd (combine l m) = m.
Proof. induction l; destruct m; simpl; intros; try discriminate; auto. f_equal; auto. Qed.

Definition accepted (n : nat) (starts : list nat) : Prop :=
  exists rest, starts = 0 :: rest /\ increasing (0 :: rest) /\ Forall (fun i => i < n - 1) rest.

Lemma Forall2_length' : forall A B (P : A -> B -> Prop) l m, Forall2 P l m -> length l = length m.
Proof. intros A B P l m H. induction H; simpl; auto. Qed.

Lemma pruned_regions : data_sized grids -> forall rq k (t : rtraits S) f rs,
  In (rq, k) schemes -> rkind_of t = k -> rs <> [] -> Forall (fun r => r_aq r = AQ f) rs ->
  1 <= rt_npts t ->
  (forall o, generate_grid_pruned grids true (mkPruned rq (Some t) rs) = Ok o ->
    exists r (quads : list (aquad S)) rgs,
      construct true (radial_generate t) = Ok r /\
      Forall2 (fun reg a => construct true (s2_generate grids f (Z.to_nat (r_asz reg))) = Ok a)
        rs quads /\
      map fst rgs = map r_st rs /\ covers 0 (rt_npts t) rgs /\
      sized (list_sum (map (fun ra => (snd (fst ra) - fst (fst ra)) * npts (snd ra))
                       (combine rgs quads))) (sph_quad o) /\
      Permutation (nodes (sph_quad o))
        (flat_map (fun ra => flat_map (fun rw => shell (s0, s0, s0) rw (snd ra))
            (firstn (snd (fst ra) - fst (fst ra)) (skipn (fst (fst ra)) (nodes r))))
          (combine rgs quads))) /\
  ((exists o, generate_grid_pruned grids true (mkPruned rq (Some t) rs) = Ok o) <->
   accepted (rt_npts t) (map r_st rs)) /\
  (~ accepted (rt_npts t) (map r_st rs) ->
   generate_grid_pruned grids true (mkPruned rq (Some t) rs) = AssertFail).
Proof.
  intros D rq k t f rs Hin Hk Hne Hf Hn.
  destruct (pruned_direct D true rq k t f rs Hin Hk Hne Hf) as (r & quads & R1 & R2 & Q & E).
  rewrite E. clear E.
  assert (L : length (map r_st rs) = length quads)
    by (rewrite map_length; apply (Forall2_length' _ _ _ _ _ Q)).
  assert (Hs : Forall (fun ia : nat * aquad S => exists na, sized na (snd ia))
                 (combine (map r_st rs) quads)).
  { clear - Q. induction Q as [|x y ? ? H]; simpl; constructor; auto. simpl.
    destruct H; eauto. }
  assert (Hne' : combine (map r_st rs) quads <> []).
  { destruct rs; [congruence|]. inversion Q; subst. discriminate. }
  pose proof (partition_accepted_iff (rt_npts t) (combine (map r_st rs) quads) Hn) as Acc.
  assert (F : map fst (combine (map r_st rs) quads : list (nat * aquad S)) = map r_st rs)
    by (apply map_fst_combine; auto).
  assert (G : map snd (combine (map r_st rs) quads : list (nat * aquad S)) = quads)
    by (apply map_snd_combine; auto).
  rewrite F in Acc. fold (accepted (rt_npts t) (map r_st rs)) in Acc.
  split; [|split].
  - intros o H. destruct (rgp_construct true (rt_npts t) (combine (map r_st rs) quads)) as [p| | | |] eqn:P;
      cbn [bind] in H; try discriminate.
    destruct (pruned_grid_spec true _ r _ p (s0, s0, s0) Hn R2 P Hs) as (o' & rgs & O1 & _ & _ & O4 & O5 & O6 & O7).
    rewrite O1 in H. injection H as <-.
    rewrite F in O4. rewrite G in O6, O7.
    exists r, quads, rgs. split; [auto|]. split.
    { clear - Q. induction Q as [|x y ? ? H]; constructor; tauto. }
    split; [auto|]. split; [auto|]. split; auto.
  - rewrite <- Acc. split.
    + intros (o & H). destruct (rgp_construct true (rt_npts t) (combine (map r_st rs) quads)) as [p| | | |];
        cbn [bind] in H; try discriminate. eauto.
    + intros (p & P). destruct (pruned_grid_spec true _ r _ p (s0, s0, s0) Hn R2 P Hs) as (o' & rgs & O1 & _).
      exists o'. rewrite P. exact O1.
  - intro H. destruct (rgp_construct_outcomes (rt_npts t) _ Hne') as [X|X].
    + apply Acc in X. tauto.
    + rewrite X. auto.
Qed.

Lemma pruned_errors : forall dbg rq k (t : rtraits S), In (rq, k) schemes -> rkind_of t = k ->
  generate_grid_pruned grids dbg (mkPruned rq (Some t) []) = Throw ExRuntime /\
  (forall rs r r', In r rs -> In r' rs -> r_aq r <> r_aq r' ->
     generate_grid_pruned grids dbg (mkPruned rq (Some t) rs) = Throw ExRuntime) /\
  (forall rs r, In r rs -> (forall f, r_aq r <> AQ f) ->
     generate_grid_pruned grids dbg (mkPruned rq (Some t) rs) = Throw ExRuntime).
Proof.
  intros dbg rq k t Hin Hk. destruct (radial_sized dbg t) as (q & R1 & R2).
  unfold generate_grid_pruned. cbn [p_traits p_rq p_regions].
  assert (E : forall rs, generate_pruned_grid grids dbg rq t rs = make_pruned_grid grids dbg q rs).
  { intro rs0. rewrite pruned_grid_eq, (radial_direct dbg rq k t Hin Hk), R1. auto. }
  split; [rewrite E; reflexivity|].
  assert (M : forall rs r r', In r rs -> In r' rs -> r_aq r <> r_aq r' ->
     make_pruned_grid grids dbg q rs = Throw ExRuntime).
  { intros rs r r' H1 H2 H3. unfold make_pruned_grid. destruct rs as [|r0 rs]; [destruct H1|].
    assert (X : existsb (fun r => negb (angular_quad_eqb (r_aq r) (r_aq r0))) (r0 :: rs) = true).
    { apply existsb_exists.
      destruct (angular_quad_eqb (r_aq r) (r_aq r0)) eqn:Er.
      - exists r'. split; auto. destruct (angular_quad_eqb (r_aq r') (r_aq r0)) eqn:Er'; auto.
        apply angular_quad_eqb_eq in Er, Er'. congruence.
      - exists r. split; auto. rewrite Er. auto. }
    rewrite X. auto. }
  split; [intros rs r r' H1 H2 H3; rewrite E; exact (M rs r r' H1 H2 H3)|].
  intros rs r H1 H2. rewrite E. clear E. destruct rs as [|r0 rs]; [destruct H1|].
  destruct (angular_quad_eqb (r_aq r) (r_aq r0)) eqn:Er.
  - apply angular_quad_eqb_eq in Er. unfold make_pruned_grid.
    destruct (existsb _ _); auto. destruct (r_aq r0) as [f|] eqn:Q; auto. destruct (H2 f); auto.
  - apply (M _ r r0); simpl; auto. intro X. apply angular_quad_eqb_eq in X. congruence.
Qed.

Lemma pruned_errors_radial : forall dbg rq (t : rtraits S) rs,
  generate_grid_pruned grids dbg (mkPruned rq None rs) = Throw ExRuntime /\
  ((forall k, ~ In (rq, k) schemes) ->
     generate_grid_pruned grids dbg (mkPruned rq (Some t) rs) = Throw ExRuntime) /\
  (forall k, In (rq, k) schemes -> rkind_of t <> k ->
     generate_grid_pruned grids dbg (mkPruned rq (Some t) rs) = Throw ExBadCast).
Proof.
  intros dbg rq t rs. unfold generate_grid_pruned. cbn [p_traits p_rq p_regions].
  split; [auto|]. split; intros; rewrite pruned_grid_eq.
  - rewrite radial_unknown; auto.
  - rewrite (radial_bad_cast dbg rq k); auto.
Qed.

(** idx_en plays no role. *)
Lemma regions_end_ignored : forall dbg rq (t : option (rtraits S)) rs rs',
  map (fun r => (r_st r, r_aq r, r_asz r)) rs = map (fun r => (r_st r, r_aq r, r_asz r)) rs' ->
  generate_grid_pruned grids dbg (mkPruned rq t rs) = generate_grid_pruned grids dbg (mkPruned rq t rs').
Proof.
  intros dbg rq [t|] rs rs' H; [|reflexivity]. unfold generate_grid_pruned.
  cbn [p_traits p_rq p_regions]. rewrite !pruned_grid_eq.
  destruct (radial_factory_generate dbg rq t) as [r| | | |]; auto. cbn [bind].
  assert (A : forall f n p, add_regions grids dbg f n rs p = add_regions grids dbg f n rs' p).
  { intros f n. revert rs' H. induction rs as [|x rs IH]; destruct rs' as [|y rs']; intros H p;
      try discriminate; auto. cbn [map] in H. injection H as H1 H2 H3 H4.
    cbn [add_regions]. rewrite H1, H3.
    destruct (angular_construct _ _ _ _); auto. cbn [bind].
    destruct (add_quad _ _ _ _ _); auto. cbn [bind]. apply IH; auto. }
  unfold make_pruned_grid. destruct rs as [|x rs], rs' as [|y rs']; try discriminate; auto.
  assert (B : existsb (fun r => negb (angular_quad_eqb (r_aq r) (r_aq x))) (x :: rs)
            = existsb (fun r => negb (angular_quad_eqb (r_aq r) (r_aq y))) (y :: rs')).
  { assert (Exy : r_aq x = r_aq y) by (cbn [map] in H; congruence). rewrite Exy.
    assert (H' : map r_aq (x :: rs) = map r_aq (y :: rs')).
    { apply (f_equal (map (fun p => snd (fst p)))) in H. rewrite !map_map in H. exact H. }
    clear - H'. revert H'. generalize (x :: rs) (y :: rs') (r_aq y). clear.
    intros l m q. revert m.
    induction l as [|a l IH]; destruct m as [|b m]; intro H; try discriminate; auto.
    cbn [map] in H. injection H as H1 H2. cbn [existsb]. rewrite H1, (IH m); auto. }
  rewrite B. assert (Exy : r_aq x = r_aq y) by (cbn [map] in H; congruence). rewrite Exy.
  clear B. destruct (existsb _ _); auto. destruct (r_aq y); auto.
  unfold make_pruned_grid_impl. rewrite A. auto.
Qed.

(** Specification equality *)
Lemma spec_eqb_iff : forall a b : pruned_spec S, pruned_spec_eqb a b = true <-> same_spec a b.
Proof.
  intros a b. unfold pruned_spec_eqb, same_spec.
  rewrite !andb_true_iff, radial_quad_eqb_eq, (list_eqb_eq _ _ region_eqb_eq).
  destruct (p_traits a), (p_traits b); rewrite ?compare_iff; intuition (discriminate || auto).
Qed.

Lemma spec_eqb_sym : (forall x y : S, seqb x y = true -> seqb y x = true) ->
  forall a b : pruned_spec S, pruned_spec_eqb a b = true -> pruned_spec_eqb b a = true.
Proof.
  intros Hs a b. rewrite !spec_eqb_iff. unfold same_spec. intros (H1 & H2 & H3).
  split; [auto|]. split; [|auto]. destruct (p_traits a), (p_traits b); auto.
  apply compare_iff. rewrite compare_sym by exact Hs. apply compare_iff. auto.
Qed.

Lemma spec_eqb_trans :
  (forall x y z : S, seqb x y = true -> seqb y z = true -> seqb x z = true) ->
  forall a b c : pruned_spec S,
  pruned_spec_eqb a b = true -> pruned_spec_eqb b c = true -> pruned_spec_eqb a c = true.
Proof.
  intros Ht a b c. rewrite !spec_eqb_iff. unfold same_spec. intros (H1 & H2 & H3) (G1 & G2 & G3).
  split; [congruence|]. split; [|congruence].
  destruct (p_traits a), (p_traits b), (p_traits c); try tauto.
  apply compare_iff. eapply compare_trans; [exact Ht| |]; apply compare_iff; eauto.
Qed.

Lemma clone_id : forall t : rtraits S, rt_clone t = t.
Proof. destruct t; auto. Qed.

Definition params (p : pruned_spec S) : list S :=
  match p_traits p with Some t => rt_params t | None => [] end.

Lemma spec_eqb_refl_iff : forall a : pruned_spec S,
  pruned_spec_eqb a a = true <-> Forall (fun x => seqb x x = true) (params a).
Proof.
  intro a. rewrite spec_eqb_iff. unfold same_spec, params. destruct (p_traits a) as [t|].
  - rewrite <- compare_refl_iff, compare_iff. tauto.
  - split; auto.
Qed.

Lemma spec_copy_id : forall a : pruned_spec S, pruned_copy a = a.
Proof. intros [q [t|] rs]; unfold pruned_copy; simpl; rewrite ?clone_id; auto. Qed.

Lemma spec_copy : forall a : pruned_spec S,
  p_rq (pruned_copy a) = p_rq a /\ p_regions (pruned_copy a) = p_regions a /\
  (forall b, pruned_spec_eqb (pruned_copy a) b = pruned_spec_eqb a b) /\
  (forall dbg, generate_grid_pruned grids dbg (pruned_copy a) = generate_grid_pruned grids dbg a).
Proof. intro a. rewrite spec_copy_id. auto. Qed.

End Any.

Lemma spec_eqb_R : forall a b : pruned_spec RS, pruned_spec_eqb a b = true <-> a = b.
Proof.
  intros a b. rewrite spec_eqb_iff. unfold same_spec. destruct a as [q t rs], b as [q' t' rs'].
  cbn [p_rq p_traits p_regions]. split.
  - intros (-> & H & ->). destruct t, t'; try tauto. apply compare_iff, compare_R in H. congruence.
  - intro H. injection H as -> -> ->. split; [auto|]. split; [|auto].
    destruct t'; auto. apply compare_iff, compare_R. auto.
Qed.
