(** Compositions of features leave integrals unchanged. *)
From Coq Require Import Bool Arith ZArith List Lia Permutation Reals Lra.
From Verif Require Import Base.Outcome Base.OutcomeFacts Base.Scalar Base.RScalar Model.Quadrature
  Model.Radial Model.S2Tables Model.S2 Model.Composite Model.Batcher Model.Heap Model.Factory
  Spec.QuadSpec Spec.Sums Spec.SphereSpec Spec.BatchSpec Spec.FactorySpec
  Proofs.Sizes Proofs.SumFacts Proofs.PrunedFacts Proofs.CompositeProps Proofs.BatchProps
  Proofs.BatchAccess Proofs.FactoryFacts.
Import ListNotations.
Local Open Scope nat_scope.

Lemma nth_error_ext : forall A (l m : list A), (forall i, nth_error l i = nth_error m i) -> l = m.
Proof.
  induction l as [|x l IH]; destruct m as [|y m]; intro H; auto.
  - specialize (H 0); discriminate.
  - specialize (H 0); discriminate.
  - f_equal; [specialize (H 0); simpl in H; congruence|].
    apply IH. intro i. exact (H (Datatypes.S i)).
Qed.

Lemma pieces_length : forall A idx (l : list A), length (pieces idx l) = length idx - 1.
Proof.
  intros A idx l. induction idx as [|i [|j r] IH]; auto.
  cbn [pieces length] in *. rewrite IH. simpl. lia.
Qed.

Lemma wsum_pieces : forall P (f : P -> R) idx ps ws, length ps = length ws ->
  Rsum (map (fun pw => wsum f (fst pw) (snd pw)) (combine (pieces idx ps) (pieces idx ws)))
  = wsum f (concat (pieces idx ps)) (concat (pieces idx ws)).
Proof.
  intros P f idx ps ws L. induction idx as [|i [|j r] IH]; [reflexivity|reflexivity|].
  change (pieces (i :: j :: r) ps) with (firstn (j - i) (skipn i ps) :: pieces (j :: r) ps).
  change (pieces (i :: j :: r) ws) with (firstn (j - i) (skipn i ws) :: pieces (j :: r) ws).
  cbn [combine map concat fst snd]. change (Rsum (?a :: ?b)) with (a + Rsum b)%R.
  rewrite IH, wsum_app; auto. rewrite !firstn_length, !skipn_length. lia.
Qed.

(** The value computed batch by batch. *)
Definition batched_sum (f : @pt3 RS -> R)
  (bs : list ((@pt3 RS * @pt3 RS) * (list (@pt3 RS) * list R))) : R :=
  Rsum (map (fun b => wsum f (fst (snd b)) (snd (snd b))) bs).

Lemma batched_sum_spec : forall n (o : sphobj RS) idx, sized n (sph_quad o) -> splits n idx ->
  concat (pieces idx (qpoints (sph_quad o))) = qpoints (sph_quad o) ->
  concat (pieces idx (qweights (sph_quad o))) = qweights (sph_quad o) ->
  exists bs, iterate_batches o idx = Ok bs /\
    forall f, batched_sum f bs = integrate f (sph_quad o).
Proof.
  intros n o idx HS HP Cp Cw.
  destruct (iterate_spec n o idx HS HP) as (bs & B1 & B2 & B3 & _).
  exists bs. split; [exact B1|]. intro f.
  assert (E : map (fun b => (fst (snd b), snd (snd b))) bs
    = combine (pieces idx (qpoints (sph_quad o))) (pieces idx (qweights (sph_quad o)))).
  { apply nth_error_ext. intro i.
    destruct (Nat.lt_ge_cases i (length idx - 1)) as [Hi|Hi].
    - destruct (nth_error bs i) as [[box [ps ws]]|] eqn:E; [|apply nth_error_None in E; lia].
      destruct (B3 i box ps ws E) as (_ & E1 & E2).
      rewrite (map_nth_error _ _ _ E). cbn [fst snd]. symmetry.
      clear - E1 E2. revert E1 E2. generalize (pieces idx (qpoints (sph_quad o))) (pieces idx (qweights (sph_quad o))).
      induction i as [|i IH]; intros l m; destruct l, m; simpl; intros; try discriminate; [congruence|auto].
    - rewrite !(proj2 (nth_error_None _ _)); auto.
      + rewrite combine_length, !pieces_length. lia.
      + rewrite map_length. lia. }
  unfold batched_sum.
  transitivity (Rsum (map (fun pw : list (@pt3 RS) * list R => wsum f (fst pw) (snd pw))
    (map (fun b => (fst (snd b), snd (snd b))) bs))); [rewrite map_map; reflexivity|].
  rewrite E. destruct HS as (_ & Lp & Lw & _).
  etransitivity; [apply wsum_pieces|].
  - etransitivity; [exact Lp|]. symmetry; exact Lw.
  - unfold integrate. etransitivity; [apply (f_equal (fun l => wsum f l _)); exact Cp|].
    apply (f_equal (fun l => wsum f _ l)). exact Cw.
Qed.

Lemma batched_integral : forall part, @conforming RS part ->
  forall n fuel maxsz (o o' : sphobj RS) idx, sized n (sph_quad o) ->
  batch_object part fuel maxsz o = Ok (o', idx) ->
  exists bs, iterate_batches o' idx = Ok bs /\
    forall f, batched_sum f bs = integrate f (sph_quad o).
Proof.
  intros part Hc n fuel maxsz o o' idx HS H.
  destruct (batch_object_perm part Hc n fuel maxsz o o' idx HS H) as (_ & _ & HS').
  destruct (batch_object_spec part Hc (fun _ => True) real_laws n fuel maxsz o o' idx HS) as (Hsp & _ & Cp & Cw & _); auto.
  { apply Forall_forall. intros p _. split; [exact I|split; exact I]. }
  destruct (batched_sum_spec n o' idx HS' Hsp Cp Cw) as (bs & B1 & B2).
  exists bs. split; [exact B1|]. intro f. rewrite B2.
  exact (batch_object_integrate part Hc n fuel maxsz o o' idx f HS H).
Qed.

Lemma compose_all : forall part, @conforming RS part ->
  forall dbg nr na (r : rquad RS) idx (a : aquad RS) (p : rgp RS) c, 1 <= nr ->
  sized nr r -> sized na a -> rgp_construct true nr (map (fun i => (i, a)) idx) = Ok p ->
  exists u o, spherical_construct dbg r a c = Ok u /\ pruned_construct dbg r p c = Ok o /\
    (forall f, integrate f (sph_quad o) = integrate f (sph_quad u)) /\
    forall x fuel maxsz x' bidx, x = u \/ x = o ->
      batch_object part fuel maxsz x = Ok (x', bidx) ->
      exists bs, iterate_batches x' bidx = Ok bs /\
        forall f, batched_sum f bs = integrate f (sph_quad u).
Proof.
  intros part Hc dbg nr na r idx a p c Hn Hr Ha Hp.
  destruct (pruned_uniform dbg nr na r idx a p c Hn Hr Ha Hp) as (o & u & O & U & P).
  exists u, o. split; [exact U|]. split; [exact O|].
  assert (E : forall f, integrate f (sph_quad o) = integrate f (sph_quad u))
    by (intro f; apply integrate_perm; exact P).
  split; [exact E|]. intros x fuel maxsz x' bidx Hx HB.
  destruct (spherical_spec dbg nr na r a c Hr Ha) as (u' & U' & _ & Su & _).
  rewrite U in U'. injection U' as <-.
  assert (So : exists m, sized m (sph_quad o)).
  { destruct (pruned_grid_spec dbg nr r _ p c Hn Hr Hp) as (o' & rs & O' & _ & _ & _ & _ & So & _).
    - apply Forall_forall. intros ia Hia. apply in_map_iff in Hia. destruct Hia as (i & <- & _).
      exists na. exact Ha.
    - rewrite O in O'. injection O' as <-. eexists. exact So. }
  destruct So as (m & So).
  destruct Hx as [->| ->].
  - exact (batched_integral part Hc _ fuel maxsz u x' bidx Su HB).
  - destruct (batched_integral part Hc _ fuel maxsz o x' bidx So HB) as (bs & B1 & B2).
    exists bs. split; [exact B1|]. intro f. rewrite B2. apply E.
Qed.

(** The same through the factory: regions that all use the unpruned angular rule. *)
Lemma compose_factory : forall (grids : afam -> Z -> @static_grid RS), data_sized grids ->
  forall rq k (t : rtraits RS) f n rs,
  In (rq, k) schemes -> rkind_of t = k -> 1 <= rt_npts t ->
  Forall (fun r => r_aq r = AQ f /\ r_asz r = Z.of_nat n) rs ->
  forall o, generate_grid_pruned grids true (mkPruned rq (Some t) rs) = Ok o ->
  exists u, generate_grid_unpruned grids true (mkUnpruned rq (Some t) (AQ f) (Z.of_nat n)) = Ok u /\
    forall g, integrate g (sph_quad o) = integrate g (sph_quad u).
Proof.
  intros grids D rq k t f n rs Hin Hk Hn Hrs o Ho.
  destruct (unpruned_direct grids D true rq k t f n Hin Hk) as (r & a & u & R1 & A1 & U1 & G & _).
  exists u. split; [exact G|].
  assert (Hne : rs <> []).
  { intros ->. destruct (pruned_errors grids true rq k t Hin Hk) as (X & _). rewrite X in Ho. discriminate. }
  destruct (pruned_direct grids D true rq k t f rs Hin Hk Hne) as (r' & quads & R1' & R2' & Q & E).
  { eapply Forall_impl; [|exact Hrs]. intros x Hx. apply Hx. }
  rewrite R1 in R1'. injection R1' as <-.
  assert (C : combine (map r_st rs) quads = map (fun i => (i, a)) (map r_st rs)).
  { clear - Q Hrs A1. induction Q as [|x y rs quads [Q1 _] _ IH]; auto.
    inversion Hrs as [|? ? [_ X] Y]; subst. rewrite X, Nat2Z.id, A1 in Q1. injection Q1 as <-.
    cbn [map combine]. f_equal. apply IH; auto. }
  assert (Sa : sized n a).
  { destruct (angular_ok grids D true f n) as (a' & A1' & A2'). rewrite A1 in A1'. injection A1' as <-. auto. }
  assert (E' : generate_grid_pruned grids true (mkPruned rq (Some t) rs)
    = let* p := rgp_construct true (rt_npts t) (map (fun i => (i, a)) (map r_st rs)) in
      pruned_construct true r p (s0, s0, s0)) by (rewrite <- C; exact E).
  rewrite E' in Ho. apply bind_Ok_inv in Ho. destruct Ho as (p & P1 & P2).
  destruct (pruned_uniform true _ _ r (map r_st rs) a p (s0, s0, s0) Hn R2' Sa P1) as (o' & u' & O1 & U1' & Pm).
  rewrite P2 in O1. injection O1 as <-. rewrite U1 in U1'. injection U1' as <-.
  intro g. apply integrate_perm. exact Pm.
Qed.
