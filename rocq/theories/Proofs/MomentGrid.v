(** Grids from the factory applied to a polynomial times a function of the distance. *)
From Coq Require Import List Bool Arith ZArith Reals Lra Lia Psatz Permutation.
From Coquelicot Require Import Coquelicot.
From Verif Require Import Base.Outcome Base.OutcomeFacts Base.Scalar Base.RScalar Model.Quadrature Model.Radial Model.S2Tables Model.S2
  Model.Composite Model.Factory Model.Grids Spec.QuadSpec Spec.Sums Spec.SphereSpec Spec.RealRules Spec.RadialSpec Spec.SphereReal
  Spec.SphereInt Spec.SpaceSpec Spec.FactorySpec Spec.PolySpec Spec.MomentSpec
  Proofs.Sizes Proofs.SumFacts Proofs.PrunedFacts Proofs.CompositeProps Proofs.FactoryFacts Proofs.RadialRule
  Proofs.PruningFacts Proofs.FactoryEx Proofs.SphereIntFacts Proofs.GridExact Proofs.NearSphere Proofs.GridFloat Proofs.Space Proofs.Moments.
Import ListNotations.
Local Open Scope R_scope.

(** ** Any grid made of shells *)
Lemma radial_sum_rule : forall (r : quad R R) f, radial_sum f (nodes r) = apply_rule (qpoints r, qweights r) f.
Proof. reflexivity. Qed.

Lemma fits_moment : forall d tol c g G P (t : rtraits RS) (r : quad R R) (a : quad (@pt3 RS) R), rt_valid t ->
  @radial_generate RS t = Ok (qpoints r, qweights r) -> works d tol a -> p3deg_le P d -> steady (/ 10 ^ 15) g G ->
  List.Forall (fits (moment c g P) c (fun x => sphere_int (fun u v w => moment c g P (at_radius c x (u, v, w))))
    (fun x => 2 * tol * (INR d + 1) ^ 2 * (p3mag P x * G x)) a) (nodes r).
Proof.
  intros d tol c g G P t r a V Hr Ha HP HG. destruct (radial_shape _ _ V Hr) as (_ & _ & _ & Pos & Wpos). cbn [fst snd] in Pos, Wpos.
  apply List.Forall_forall. intros [x w] Hin. unfold nodes in Hin. pose proof (in_combine_l _ _ _ _ Hin) as H1. pose proof (in_combine_r _ _ _ _ Hin) as H2.
  apply Pos in H1. apply Wpos in H2. split; cbn [fst snd]; [lra|]. apply shell_moment; auto. lra.
Qed.

(** ** Regions *)
Lemma pruned_built : forall {S : Scalar} (grids : afam -> Z -> @static_grid S) dbg rq k (t : rtraits S) f rs r (quads : list (aquad S)),
  In (rq, k) schemes -> rkind_of t = k ->
  List.Forall (fun r => r_aq r = AQ f) rs -> (1 <= rt_npts t)%nat -> accepted (rt_npts t) (map r_st rs) ->
  construct dbg (radial_generate t) = Ok r -> sized (rt_npts t) r ->
  Forall2 (fun reg a => construct dbg (s2_generate grids f (Z.to_nat (r_asz reg))) = Ok a /\ sized (Z.to_nat (r_asz reg)) a) rs quads ->
  exists p, rgp_construct true (rt_npts t) (combine (map r_st rs) quads) = Ok p /\ map snd (combine (map r_st rs) quads : list (nat * aquad S)) = quads /\
    generate_grid_pruned grids dbg (mkPruned rq (Some t) rs) = pruned_construct dbg r p (s0, s0, s0).
Proof.
  intros S grids dbg rq k t f rs r quads Hin Hk Hf Hn Hacc R1 R2 Q.
  assert (L : length (map r_st rs) = length quads) by (rewrite map_length; apply (Forall2_length' _ _ _ _ _ Q)).
  assert (F : map fst (combine (map r_st rs) quads : list (nat * aquad S)) = map r_st rs) by (apply map_fst_combine; auto).
  assert (G : map snd (combine (map r_st rs) quads : list (nat * aquad S)) = quads) by (apply map_snd_combine; auto).
  destruct (proj2 (partition_accepted_iff (rt_npts t) (combine (map r_st rs) quads : list (nat * aquad S)) Hn)) as (p & P).
  { rewrite F. exact Hacc. }
  exists p. split; [exact P|]. split; [exact G|].
  unfold generate_grid_pruned. cbn [p_traits p_rq p_regions]. rewrite pruned_grid_eq.
  rewrite (radial_direct dbg rq k t Hin Hk), R1. cbn [bind]. unfold make_pruned_grid.
  destruct rs as [|r0 rs]; [destruct Hacc as (rest & X & _); discriminate|].
  rewrite (same_family f _ Hf) by (inversion Hf; auto). assert (E0 : r_aq r0 = AQ f) by (inversion Hf; auto). rewrite E0.
  unfold make_pruned_grid_impl. rewrite (sized_npts _ _ _ _ R2).
  assert (Q1 : Forall2 (fun r a => construct dbg (s2_generate grids f (Z.to_nat (r_asz r))) = Ok a) (r0 :: rs) quads).
  { revert Q. apply Forall2_mono. intros x y H. apply H. }
  pose proof (add_regions_eq grids dbg f (rt_npts t) (r0 :: rs) rgp_empty quads Q1) as X.
  pose proof (rgp_any dbg _ _ p Hn P) as PD. unfold rgp_construct in PD. assert (X' := eq_trans X PD).
  pose proof (f_equal (fun m => bind m (fun p => pruned_construct dbg r p (s0, s0, s0))) X') as X2. cbn [bind] in X2.
  etransitivity; [|exact X2]. rewrite bind_assoc. reflexivity.
Qed.

Lemma regions_work : forall f d tol dbg rs, List.Forall (fun r => exact_for f d tol (r_asz r)) rs ->
  exists quads : list (aquad RS), Forall2 (fun reg a => construct dbg (s2_generate repo_grids f (Z.to_nat (r_asz reg))) = Ok a /\ sized (Z.to_nat (r_asz reg)) a) rs quads /\
    List.Forall (fun a => works d tol a) quads.
Proof.
  intros f d tol dbg rs H. induction H as [|r rs Hr _ (quads & Q1 & Q2)]; [exists []; split; constructor|].
  destruct (exact_works f d tol _ dbg Hr) as (a & A1 & A2 & A3). exists (a :: quads). split; constructor; auto.
Qed.

(** The shells of a pruned grid, the exact value of each region's rule included. *)
Lemma pruned_shells : forall dbg rq k (t : rtraits RS) f rs cs d tol, In (rq, k) schemes -> rkind_of t = k -> (1 <= rt_npts t)%nat ->
  List.Forall (fun r => r_aq r = AQ f /\ exact_for f d tol (r_asz r)) rs ->
  (exists rest, map r_st rs = 0%nat :: rest /\ increasing (0%nat :: rest) /\ List.Forall (fun i => (i < rt_npts t - 1)%nat) rest) ->
  exists o (r : quad R R) rgs (quads : list (quad (@pt3 RS) R)),
    (let* o := generate_grid_pruned repo_grids dbg (mkPruned rq (Some t) rs) in recenters o cs) = Ok o /\
    @radial_generate RS t = Ok (qpoints r, qweights r) /\
    Forall2 (fun reg a => construct dbg (s2_generate repo_grids f (Z.to_nat (r_asz reg))) = Ok a) rs quads /\
    List.Forall (works d tol) quads /\ covers 0 (@length (R * R) (@nodes R R r)) rgs /\ length rgs = length quads /\
    Permutation (@nodes (@pt3 RS) R (sph_quad o)) (flat_map (fun ra => flat_map (fun rw => @SphereSpec.shell RS (last cs (0, 0, 0)) rw (snd ra))
          (firstn (snd (fst ra) - fst (fst ra)) (skipn (fst (fst ra)) (@nodes R R r)))) (combine rgs quads)).
Proof.
  intros dbg rq k t f rs cs d tol Hin Hk Hn Hrs Hacc. set (c := last cs (0, 0, 0)).
  assert (F1 : List.Forall (fun r => r_aq r = AQ f) rs) by (revert Hrs; apply List.Forall_impl; tauto).
  assert (F2 : List.Forall (fun r => exact_for f d tol (r_asz r)) rs) by (revert Hrs; apply List.Forall_impl; tauto).
  destruct (regions_work f d tol dbg rs F2) as (quads & Q1 & Q2).
  destruct (radial_sized (S := RS) dbg t) as (r & R1 & R2). pose proof (construct_pair _ _ _ R1) as Gr.
  destruct (pruned_built (S := RS) repo_grids dbg rq k t f rs r quads Hin Hk F1 Hn Hacc R1 R2 Q1) as (p & P1 & P2 & P3).
  assert (Sz : List.Forall (fun ia => exists na, sized na (snd ia)) (combine (map r_st rs) quads : list (nat * aquad RS))).
  { apply List.Forall_forall. intros [i a] Hia. apply in_combine_r in Hia. cbn [snd]. rewrite List.Forall_forall in Q2. destruct (Q2 _ Hia) as ((na & Hna) & _). exists na. exact Hna. }
  pose proof (recenters_pruned dbg (rt_npts t) r _ p (0, 0, 0) cs Hn R2 P1 Sz) as RC.
  destruct (pruned_grid_spec (S := RS) dbg (rt_npts t) r _ p c Hn R2 P1 Sz) as (o & rgs & O1 & _ & O3 & O4 & O5 & O6 & O7).
  rewrite P2 in O7. exists o, r, rgs, quads.
  assert (LN : @length (R * R) (@nodes R R r) = rt_npts t).
  { destruct R2 as (_ & L1 & L2 & _). exact (eq_trans (combine_length _ _) (eq_trans (f_equal2 Nat.min L1 L2) (Nat.min_id _))). }
  split; [|split; [exact Gr|split; [|split; [exact Q2|split; [|split]]]]].
  - rewrite P3. etransitivity; [exact RC|exact O1].
  - revert Q1. apply Forall2_mono. intros x y H. apply H.
  - rewrite LN. exact O5.
  - apply (f_equal (@length _)) in O4. rewrite !map_length in O4. rewrite O4. apply (f_equal (@length _)) in P2. rewrite map_length in P2. exact P2.
  - exact O7.
Qed.

Lemma pruned_moment : forall dbg rq k (t : rtraits RS) f rs cs g G P d tol, In (rq, k) schemes -> rkind_of t = k -> rt_valid t -> (1 <= rt_npts t)%nat ->
  List.Forall (fun r => r_aq r = AQ f /\ exact_for f d tol (r_asz r)) rs ->
  (exists rest, map r_st rs = 0%nat :: rest /\ increasing (0%nat :: rest) /\ List.Forall (fun i => (i < rt_npts t - 1)%nat) rest) ->
  p3deg_le P d -> steady (/ 10 ^ 15) g G -> let c := last cs (0, 0, 0) in
  exists o q, (let* o := generate_grid_pruned repo_grids dbg (mkPruned rq (Some t) rs) in recenters o cs) = Ok o /\ @radial_generate RS t = Ok q /\
    Rabs (integrate (moment c g P) (sph_quad o) - apply_rule q (fun r => r * r * sphere_int (fun x y z => moment c g P (at_radius c r (x, y, z)))))
    <= apply_rule q (fun r => r * r * (2 * tol * (INR d + 1) ^ 2 * (p3mag P r * G r))).
Proof.
  intros dbg rq k t f rs cs g G P d tol Hin Hk V Hn Hrs Hacc HP HG c.
  destruct (pruned_shells dbg rq k t f rs cs d tol Hin Hk Hn Hrs Hacc) as (o & r & rgs & quads & O1 & Gr & _ & Q2 & O5 & LR & O7).
  exists o, (qpoints r, qweights r). split; [exact O1|]. split; [exact Gr|].
  rewrite <- !radial_sum_rule. rewrite integrate_nodes.
  pose proof (regions_sum (moment c g P) c (fun x => sphere_int (fun u v w => moment c g P (at_radius c x (u, v, w))))
    (fun x => 2 * tol * (INR d + 1) ^ 2 * (p3mag P x * G x)) (nodes r) rgs quads 0%nat O5 LR) as RS0. cbn [skipn] in RS0.
  assert (FT : List.Forall (fun a => List.Forall (fits (moment c g P) c (fun x => sphere_int (fun u v w => moment c g P (at_radius c x (u, v, w))))
    (fun x => 2 * tol * (INR d + 1) ^ 2 * (p3mag P x * G x)) a) (nodes r)) quads).
  { revert Q2. apply List.Forall_impl. intros a Ha. apply (fits_moment d tol c g G P t r a V Gr Ha HP HG). }
  specialize (RS0 FT).
  assert (E := Rsum_perm _ _ (Permutation_map (fun pw : @pt3 RS * R => snd pw * moment c g P (fst pw)) O7)).
  eapply Rle_trans; [|exact RS0]. right. f_equal. f_equal. exact E.
Qed.

Lemma unpruned_moment : forall dbg rq k (t : rtraits RS) f n cs g G P d tol, In (rq, k) schemes -> rkind_of t = k -> rt_valid t ->
  exact_for f d tol n -> p3deg_le P d -> steady (/ 10 ^ 15) g G -> let c := last cs (0, 0, 0) in
  exists o q, (let* o := generate_grid_unpruned repo_grids dbg (mkUnpruned rq (Some t) (AQ f) n) in recenters o cs) = Ok o /\ @radial_generate RS t = Ok q /\
    Rabs (integrate (moment c g P) (sph_quad o) - apply_rule q (fun r => r * r * sphere_int (fun x y z => moment c g P (at_radius c r (x, y, z)))))
    <= apply_rule q (fun r => r * r * (2 * tol * (INR d + 1) ^ 2 * (p3mag P r * G r))).
Proof.
  intros dbg rq k t f n cs g G P d tol Hin Hk V Hx HP HG c. subst k.
  destruct (exact_works f d tol n dbg Hx) as (a & A1 & A2 & A3).
  assert (Hn : n = Z.of_nat (Z.to_nat n)).
  { rewrite Z2Nat.id; [reflexivity|]. destruct Hx as (H & _). destruct n; try lia. exfalso. apply H. destruct f; reflexivity. }
  destruct (factory_unpruned repo_grids dbg rq t f (Z.to_nat n) a (0, 0, 0) Hin A1 eq_refl) as (r & R1 & U). rewrite <- Hn in U.
  destruct (radial_sized (S := RS) dbg t) as (r' & R1' & R2). rewrite R1 in R1'. injection R1' as <-. pose proof (construct_pair _ _ _ R1) as Gr.
  pose proof (recenters_spherical dbg _ _ r a (0, 0, 0) cs R2 A2) as RC.
  destruct (spherical_sum dbg _ _ r a c R2 A2) as (o & O1 & O2).
  exists o, (qpoints r, qweights r). split; [|split; [exact Gr|]].
  { rewrite U. etransitivity; [exact RC|exact O1]. }
  rewrite O2. unfold integrate at 1, apply_rule. cbn [fst snd].
  destruct (radial_shape _ _ V Gr) as (_ & _ & _ & Pos & Wpos). cbn [fst snd] in Pos, Wpos.
  apply wsum_bound; [|exact Wpos]. intros rad Hrad. specialize (Pos rad Hrad).
  rewrite <- Rmult_minus_distr_l, Rabs_mult, (Rabs_pos_eq (rad * rad)) by nra.
  apply Rmult_le_compat_l; [nra|]. apply shell_moment; auto. lra.
Qed.
