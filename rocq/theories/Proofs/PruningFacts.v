(** Robust and Treutler pruning schemes. *)
From Coq Require Import Bool Arith ZArith List Lia Permutation.
From Verif Require Import Base.Outcome Base.OutcomeFacts Base.Scalar Model.Quadrature
  Model.Radial Model.S2Tables Model.S2 Model.Composite Model.Factory
  Spec.QuadSpec Spec.SphereSpec Spec.TraitsSpec Spec.FactorySpec
  Proofs.Sizes Proofs.S2Facts Proofs.AngularFacts Proofs.TraitsFacts Proofs.PrunedFacts
  Proofs.CompositeProps Proofs.FactoryFacts.
Import ListNotations.

Lemma table_small : forall f o, npts_by_algebraic_order f o <> (-1)%Z ->
  (0 < npts_by_algebraic_order f o < 2 ^ 63)%Z.
Proof.
  intros f o H.
  assert (X : (Z.ltb 0 (npts_by_algebraic_order f o) && Z.ltb (npts_by_algebraic_order f o) (2 ^ 63))%bool = true).
  { apply (Forall_table f (fun _ n => Z.ltb 0 n && Z.ltb n (2 ^ 63))); auto.
    destruct f; vm_compute; reflexivity. }
  apply andb_prop in X. destruct X as [X1 X2]. apply Z.ltb_lt in X1. apply Z.ltb_lt in X2. auto.
Qed.

Local Opaque npts_by_algebraic_order algebraic_order_by_npts next_algebraic_order.

Lemma base_size : forall f n, algebraic_order_by_npts f n <> (-1)%Z ->
  npts_by_algebraic_order f (algebraic_order_by_npts f n) = n /\ (0 < n < 2 ^ 63)%Z /\
  (0 < algebraic_order_by_npts f n)%Z.
Proof.
  intros f n H. destruct (proj2 (lookups_inverse f (algebraic_order_by_npts f n) n)) as [H1 H2]; auto.
  split; [auto|]. split.
  - rewrite <- H1. apply table_small. congruence.
  - destruct (proj2 (lookups_range f n)) as [X|X]; tauto.
Qed.

Lemma next_le : forall f o b, npts_by_algebraic_order f b <> (-1)%Z -> (o <= b)%Z ->
  npts_by_algebraic_order f (next_algebraic_order f o) <> (-1)%Z /\
  (npts_by_algebraic_order f (next_algebraic_order f o) <= npts_by_algebraic_order f b)%Z.
Proof.
  intros f o b Hb Ho. destruct (next_order_full f o) as (M & M1 & M2 & M3 & M4 & M5).
  split; [auto|]. assert (L : (next_algebraic_order f o <= b)%Z).
  { apply M4; auto. specialize (M2 b Hb). lia. }
  destruct (Z.eq_dec (next_algebraic_order f o) b) as [->|N]; [lia|].
  apply Z.lt_le_incl, lookups_monotone; auto. lia.
Qed.

Lemma next_supported : forall f o,
  npts_by_algebraic_order f (next_algebraic_order f o) <> (-1)%Z.
Proof. intros f o. destruct (next_order_full f o) as (M & _ & _ & H & _). auto. Qed.

Lemma to_size_npts : forall f o,
  to_size (npts_by_algebraic_order f (next_algebraic_order f o))
  = npts_by_algebraic_order f (next_algebraic_order f o).
Proof.
  intros f o. unfold to_size. apply Z.mod_small.
  pose proof (table_small f _ (next_supported f o)). lia.
Qed.

Section Any.
Context {S : Scalar}.
Variable grids : afam -> Z -> @static_grid S.

(** Orders of the inner regions. *)
Definition robust_med (b : Z) : Z := if Z.ltb 6 b then (b - 6)%Z else b.

Lemma robust_regions : forall (u : unpruned_spec S) t f,
  u_traits u = Some t -> u_aq u = AQ f -> algebraic_order_by_npts f (u_asz u) <> (-1)%Z ->
  exists low med,
    create_pruned_spec Robust u = Ok (mkPruned (u_rq u) (Some t)
      [mkRegion 0 (rt_npts t / 4 + 1) (AQ f) low;
       mkRegion (rt_npts t / 4 + 1) (rt_npts t / 2 + 1) (AQ f) med;
       mkRegion (rt_npts t / 2 + 1) (rt_npts t) (AQ f) (u_asz u)]) /\
    low = npts_by_algebraic_order f (next_algebraic_order f 7) /\
    med = npts_by_algebraic_order f (next_algebraic_order f
            (robust_med (algebraic_order_by_npts f (u_asz u)))) /\
    (med <= u_asz u)%Z /\
    (7 <= algebraic_order_by_npts f (u_asz u) -> low <= u_asz u)%Z.
Proof.
  intros u t f Ht Hf Hb. destruct (base_size f _ Hb) as (B1 & B2 & B3).
  eexists. eexists. split.
  { unfold create_pruned_spec. rewrite Ht. unfold robust_psi4_pruning_scheme. rewrite Hf.
    unfold robust_sizes, to_int64. replace (Z.leb (2 ^ 63) (u_asz u)) with false
      by (symmetry; apply Z.leb_gt; lia).
    replace (Z.ltb (algebraic_order_by_npts f (u_asz u)) 0) with false
      by (symmetry; apply Z.ltb_ge; lia).
    cbn [bind]. unfold deref_traits. rewrite Ht. cbn [bind]. rewrite clone_id.
    rewrite !to_size_npts. reflexivity. }
  split; [reflexivity|]. split; [reflexivity|].
  assert (Hb' : npts_by_algebraic_order f (algebraic_order_by_npts f (u_asz u)) <> (-1)%Z)
    by (rewrite B1; lia).
  split.
  - eapply Z.le_trans; [apply (next_le f _ _ Hb')|rewrite B1; lia].
    destruct (Z.ltb_spec 6 (algebraic_order_by_npts f (u_asz u))); lia.
  - intro H. eapply Z.le_trans; [apply (next_le f _ _ Hb'); auto|rewrite B1; lia].
Qed.

Lemma robust_invalid : forall (u : unpruned_spec S) t f,
  u_traits u = Some t -> u_aq u = AQ f -> (0 <= u_asz u < 2 ^ 64)%Z ->
  algebraic_order_by_npts f (u_asz u) = (-1)%Z ->
  create_pruned_spec Robust u = Throw ExRuntime.
Proof.
  intros u t f Ht Hf Hr Hb. unfold create_pruned_spec. rewrite Ht.
  unfold robust_psi4_pruning_scheme. rewrite Hf. unfold robust_sizes.
  replace (algebraic_order_by_npts f (to_int64 (u_asz u))) with (-1)%Z; [reflexivity|].
  unfold to_int64. destruct (Z.leb_spec (2 ^ 63) (u_asz u)); [|auto].
  destruct (Z.eq_dec (algebraic_order_by_npts f (u_asz u - 2 ^ 64)) (-1)) as [E|E]; auto.
  apply base_size in E. lia.
Qed.

Lemma treutler_regions : forall (u : unpruned_spec S) t f,
  u_traits u = Some t -> u_aq u = AQ f ->
  exists low med,
    create_pruned_spec Treutler u = Ok (mkPruned (u_rq u) (Some t)
      [mkRegion 0 (rt_npts t / 3 + 1) (AQ f) low;
       mkRegion (rt_npts t / 3 + 1) (rt_npts t / 2 + 1) (AQ f) med;
       mkRegion (rt_npts t / 2 + 1) (rt_npts t) (AQ f) (u_asz u)]) /\
    low = npts_by_algebraic_order f (next_algebraic_order f 7) /\
    med = npts_by_algebraic_order f (next_algebraic_order f 11) /\
    (low <= med)%Z /\
    (11 <= algebraic_order_by_npts f (u_asz u) -> med <= u_asz u)%Z.
Proof.
  intros u t f Ht Hf. eexists. eexists. split.
  { unfold create_pruned_spec. rewrite Ht. unfold treutler_pruning_scheme. rewrite Hf.
    unfold treutler_sizes, deref_traits. rewrite Ht. cbn [bind]. rewrite clone_id.
    rewrite !to_size_npts. reflexivity. }
  split; [reflexivity|]. split; [reflexivity|]. split.
  - apply next_le; [apply next_supported|].
    destruct (next_order_full f 11) as (M & M1 & M2 & M3 & M4 & M5).
    destruct (Z.le_gt_cases 11 M) as [H|H]; [destruct (M4 H); lia|].
    exfalso. assert (X : exists o, (11 <= o)%Z /\ npts_by_algebraic_order f o <> (-1)%Z).
    { exists 23%Z. split; [lia|]. destruct f; vm_compute; discriminate. }
    destruct X as (o & X1 & X2). specialize (M2 o X2). lia.
  - intro H. assert (Hb : algebraic_order_by_npts f (u_asz u) <> (-1)%Z) by lia.
    destruct (base_size f _ Hb) as (B1 & B2 & B3). 
    eapply Z.le_trans; [apply (next_le f 11 (algebraic_order_by_npts f (u_asz u))); auto|];
      rewrite B1; lia.
Qed.

Lemma robust_covers : forall n, 3 <= n ->
  covers 0 n [(0, n / 4 + 1); (n / 4 + 1, n / 2 + 1); (n / 2 + 1, n)].
Proof.
  intros n H. cbn [covers]. 
  pose proof (Nat.div_mod n 4 ltac:(lia)). pose proof (Nat.mod_upper_bound n 4 ltac:(lia)).
  pose proof (Nat.div_mod n 2 ltac:(lia)). pose proof (Nat.mod_upper_bound n 2 ltac:(lia)).
  repeat split; lia.
Qed.

Lemma treutler_covers : forall n, 4 <= n ->
  covers 0 n [(0, n / 3 + 1); (n / 3 + 1, n / 2 + 1); (n / 2 + 1, n)].
Proof.
  intros n H. cbn [covers].
  pose proof (Nat.div_mod n 3 ltac:(lia)). pose proof (Nat.mod_upper_bound n 3 ltac:(lia)).
  pose proof (Nat.div_mod n 2 ltac:(lia)). pose proof (Nat.mod_upper_bound n 2 ltac:(lia)).
  repeat split; lia.
Qed.

Lemma accepted_three : forall n d, 2 <= d -> (5 <= n -> n / d < n / 2) -> (n / d <= n / 2) ->
  accepted n [0; n / d + 1; n / 2 + 1] <-> 5 <= n.
Proof.
  intros n d Hd Hl Hle.
  pose proof (Nat.div_mod n 2 ltac:(lia)). pose proof (Nat.mod_upper_bound n 2 ltac:(lia)).
  unfold accepted. split.
  - intros (rest & E & _ & F). injection E as <-. rewrite Forall_forall in F. specialize (F (n / 2 + 1) ltac:(simpl; auto)). lia.
  - intro H5. exists [n / d + 1; n / 2 + 1]. split; [auto|]. specialize (Hl H5). cbn [increasing].
    split; [repeat split; lia|]. repeat constructor; lia.
Qed.

Lemma robust_accepted : forall n, accepted n [0; n / 4 + 1; n / 2 + 1] <-> 5 <= n.
Proof.
  intro n. apply accepted_three; [lia| |].
  - intro. pose proof (Nat.div_mod n 4 ltac:(lia)). pose proof (Nat.div_mod n 2 ltac:(lia)).
    pose proof (Nat.mod_upper_bound n 2 ltac:(lia)). lia.
  - apply Nat.div_le_compat_l. lia.
Qed.

Lemma treutler_accepted : forall n, accepted n [0; n / 3 + 1; n / 2 + 1] <-> 5 <= n.
Proof.
  intro n. apply accepted_three; [lia| |].
  - intro. pose proof (Nat.div_mod n 3 ltac:(lia)). pose proof (Nat.div_mod n 2 ltac:(lia)).
    pose proof (Nat.mod_upper_bound n 2 ltac:(lia)). lia.
  - apply Nat.div_le_compat_l. lia.
Qed.

Lemma three_regions_zero : data_sized grids -> forall rq k (t : rtraits S) f z1 z2 z3 e1 e2 e3,
  In (rq, k) schemes -> rkind_of t = k -> rt_npts t = 0 ->
  generate_grid_pruned grids true (mkPruned rq (Some t)
      [mkRegion 0 e1 (AQ f) z1; mkRegion 1 e2 (AQ f) z2; mkRegion 1 e3 (AQ f) z3]) = AssertFail.
Proof.
  intros D rq k t f z1 z2 z3 e1 e2 e3 Hin Hk Hn.
  destruct (pruned_direct grids D true rq k t f
    [mkRegion 0 e1 (AQ f) z1; mkRegion 1 e2 (AQ f) z2; mkRegion 1 e3 (AQ f) z3] Hin Hk)
    as (r & quads & _ & _ & Q & E); [discriminate|repeat constructor|].
  rewrite E. inversion Q as [|? q1 ? ? _ Q3]; subst. inversion Q3 as [|? q2 ? ? _ Q4]; subst.
  inversion Q4 as [|? q3 ? ? _ Q5]; subst. inversion Q5; subst. rewrite Hn. reflexivity.
Qed.

Lemma three_regions_pos : data_sized grids -> forall rq k (t : rtraits S) f d z1 z2 z3,
  In (rq, k) schemes -> rkind_of t = k -> 1 <= rt_npts t ->
  let n := rt_npts t in
  (accepted n [0; n / d + 1; n / 2 + 1] <-> 5 <= n) ->
  let p := mkPruned rq (Some t)
      [mkRegion 0 (n / d + 1) (AQ f) z1; mkRegion (n / d + 1) (n / 2 + 1) (AQ f) z2;
       mkRegion (n / 2 + 1) n (AQ f) z3] in
  ((exists o, generate_grid_pruned grids true p = Ok o) <-> 5 <= n) /\
  (n < 5 -> generate_grid_pruned grids true p = AssertFail) /\
  (forall o, generate_grid_pruned grids true p = Ok o ->
     npts (sph_quad o) = (n / d + 1) * Z.to_nat z1 + (n / 2 - n / d) * Z.to_nat z2
                         + (n - (n / 2 + 1)) * Z.to_nat z3).
Proof.
  intros D rq k t f d z1 z2 z3 Hin Hk Hn n Ha p.
  destruct (pruned_regions grids D rq k t f (p_regions p) Hin Hk) as (P1 & P2 & P3); auto;
    [discriminate|repeat constructor|].
  change (map r_st (p_regions p)) with [0; n / d + 1; n / 2 + 1] in *.
  change (mkPruned rq (Some t) (p_regions p)) with p in *.
  fold n in P1, P2, P3. split; [rewrite P2; auto|]. split.
  - intro H. apply P3. rewrite Ha. lia.
  - intros o Ho. destruct (P1 o Ho) as (r & quads & rgs & _ & Q & F & C & Z & _).
    destruct (quads_exist grids D true f (p_regions p)) as (quads' & Q1 & Q2).
    assert (Eq : quads' = quads).
    { clear - Q Q1. revert quads' Q1. induction Q; intros quads' Q1; inversion Q1; subst; auto.
      f_equal; [congruence|auto]. }
    subst quads'. cbn [p p_regions] in Q2.
    inversion Q2 as [|? q1 ? ? S1 Q3]; subst. inversion Q3 as [|? q2 ? ? S2 Q4]; subst.
    inversion Q4 as [|? q3 ? ? S3 Q5]; subst. inversion Q5; subst.
    destruct rgs as [|[b1 e1] [|[b2 e2] [|[b3 e3] [|]]]]; try discriminate F.
    injection F as -> -> ->. cbn [covers] in C. destruct C as (_ & C1 & <- & C2 & <- & C3 & C4). fold n in C4. rewrite C4 in *.
    cbn [combine map fst snd list_sum fold_right] in Z.
    apply (sized_npts _ _ _ _) in Z. rewrite Z.
    apply sized_npts in S1, S2, S3. cbn [r_asz] in S1, S2, S3. unfold list_sum; cbn [fold_right].
    transitivity ((n / d + 1 - 0) * npts q1 + ((n / 2 + 1 - (n / d + 1)) * npts q2
        + ((n - (n / 2 + 1)) * npts q3 + 0))); [reflexivity|].
    unfold aquad in *. rewrite S1, S2, S3.
    replace (n / 2 + 1 - (n / d + 1)) with (n / 2 - n / d) by lia. lia.
Qed.

Lemma three_regions_generate : data_sized grids -> forall rq k (t : rtraits S) f d z1 z2 z3,
  In (rq, k) schemes -> rkind_of t = k -> 2 <= d ->
  let n := rt_npts t in
  (accepted n [0; n / d + 1; n / 2 + 1] <-> 5 <= n) ->
  let p := mkPruned rq (Some t)
      [mkRegion 0 (n / d + 1) (AQ f) z1; mkRegion (n / d + 1) (n / 2 + 1) (AQ f) z2;
       mkRegion (n / 2 + 1) n (AQ f) z3] in
  ((exists o, generate_grid_pruned grids true p = Ok o) <-> 5 <= n) /\
  (n < 5 -> generate_grid_pruned grids true p = AssertFail) /\
  (forall o, generate_grid_pruned grids true p = Ok o ->
     npts (sph_quad o) = (n / d + 1) * Z.to_nat z1 + (n / 2 - n / d) * Z.to_nat z2
                         + (n - (n / 2 + 1)) * Z.to_nat z3).
Proof.
  intros D rq k t f d z1 z2 z3 Hin Hk Hd n Ha p. destruct (Nat.eq_dec (rt_npts t) 0) as [E|E].
  - assert (En : n = 0) by exact E.
    assert (X : generate_grid_pruned grids true p = AssertFail).
    { unfold p. rewrite En, !Nat.div_0_l by lia.
      exact (three_regions_zero D rq k t f z1 z2 z3 _ _ _ Hin Hk E). }
    rewrite X. split; [split|split]; auto.
    + intros (o & H). discriminate.
    + lia.
    + discriminate.
  - apply three_regions_pos with (k := k); auto. lia.
Qed.

Lemma unpruned_scheme : forall (u : unpruned_spec S) t, u_traits u = Some t ->
  create_pruned_spec Unpruned u = Ok (mkPruned (u_rq u) (Some t)
    [mkRegion 0 (rt_npts t) (u_aq u) (u_asz u)]).
Proof. intros u t H. unfold create_pruned_spec. rewrite H, clone_id. auto. Qed.

Lemma unpruned_scheme_grid : data_sized grids -> forall dbg rq k (t : rtraits S) f n,
  In (rq, k) schemes -> rkind_of t = k -> 1 <= rt_npts t ->
  exists o o', generate_grid_unpruned grids dbg (mkUnpruned rq (Some t) (AQ f) (Z.of_nat n)) = Ok o /\
    (let* p := create_pruned_spec Unpruned (mkUnpruned rq (Some t) (AQ f) (Z.of_nat n)) in
     generate_grid_pruned grids dbg p) = Ok o' /\
    Permutation (nodes (sph_quad o')) (nodes (sph_quad o)).
Proof.
  intros D dbg rq k t f n Hin Hk Hn.
  destruct (unpruned_direct grids D dbg rq k t f n Hin Hk) as (r & a & o & R1 & A1 & O1 & G & _).
  rewrite (unpruned_scheme _ t) by reflexivity. cbn [bind u_rq u_aq u_asz].
  destruct (pruned_direct grids D dbg rq k t f [mkRegion 0 (rt_npts t) (AQ f) (Z.of_nat n)] Hin Hk)
    as (r' & quads & R1' & R2' & Q & E); [discriminate|repeat constructor|].
  rewrite R1 in R1'. injection R1' as <-.
  inversion Q as [|? a' ? ? [A1' A2'] Q']; subst. inversion Q'; subst. cbn [r_asz] in A1', A2'.
  rewrite Nat2Z.id in A1', A2'. rewrite A1 in A1'. injection A1' as <-.
  assert (Acc : exists p, rgp_construct true (rt_npts t) (map (fun i => (i, a)) [0]) = Ok p).
  { apply (partition_accepted_iff (rt_npts t) (map (fun i => (i, a)) [0]) Hn).
    exists []. simpl. auto. }
  destruct Acc as (p & P).
  destruct (pruned_uniform dbg _ _ r [0] a p (s0, s0, s0) Hn R2' A2' P) as (o' & o'' & O1' & O2' & Pm).
  rewrite O1 in O2'. injection O2' as <-.
  exists o, o'. split; [exact G|]. split; [|exact Pm]. etransitivity; [exact E|].
  cbn [map combine r_st].
  assert (X : rgp_construct dbg (rt_npts t) [(0, a)] = Ok p).
  { revert P. unfold rgp_construct, add_quads, add_quad. simpl. destruct dbg; auto. }
  etransitivity; [apply (f_equal (fun m => bind m (fun p => pruned_construct dbg r p (s0, s0, s0)))); exact X|].
  exact O1'.
Qed.

End Any.
