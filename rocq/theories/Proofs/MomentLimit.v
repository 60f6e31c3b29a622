(** Limits of grids with many radial points, and grids in binary64. *)
From Coq Require Import List Bool Arith ZArith Reals Lra Lia Psatz Permutation.
From Coquelicot Require Import Coquelicot.
From Verif Require Import Base.Outcome Base.OutcomeFacts Base.Scalar Base.RScalar Model.Quadrature Model.Radial Model.S2Tables Model.S2
  Model.Composite Model.Factory Model.Grids Spec.QuadSpec Spec.Sums Spec.SphereSpec Spec.RealRules Spec.RadialSpec Spec.SphereReal
  Spec.SphereInt Spec.SpaceSpec Spec.FactorySpec Spec.PolySpec Spec.MomentSpec
  Proofs.Sizes Proofs.SumFacts Proofs.PrunedFacts Proofs.CompositeProps Proofs.FactoryFacts Proofs.RadialRule
  Proofs.PruningFacts Proofs.FactoryEx Proofs.SphereIntFacts Proofs.GridExact Proofs.NearSphere Proofs.GridFloat Proofs.Space Proofs.Moments Proofs.MomentGrid.
Import ListNotations.
Local Open Scope R_scope.


(** ** The integral of a polynomial over the sphere is linear in the coefficients *)
Fixpoint p3dot (mu : nat * nat * nat -> R) (P : poly3) : R :=
  match P with [] => 0 | (c, m) :: Q => c * mu m + p3dot mu Q end.
Lemma hconst_app : forall a b, hconst (a ++ b) = hconst a + hconst b.
Proof. intros a b. induction a as [|[c [[s m] n]] a IH]; cbn [app hconst]; [ring|]. rewrite IH. ring. Qed.
Lemma hconst_scale : forall k a, hconst (hscale k a) = k * hconst a.
Proof. intros k a. unfold hscale. induction a as [|[c [[s m] n]] a IH]; cbn [map fst snd hconst]; [ring|]. rewrite IH. destruct s, (Nat.eqb (m + n) 0); ring. Qed.

Definition mono_int (m : nat * nat * nat) : R := sphere_int (p3eval [(1, m)]).
Lemma sphere_int_p3 : forall P, sphere_int (p3eval P) = p3dot mono_int P.
Proof.
  assert (K : forall P, exists h, (forall x y z, x * x + y * y + z * z = 1 -> p3eval P x y z = heval h x y z) /\ 4 * PI * hconst h = p3dot mono_int P).
  { induction P as [|[c [[i j] k]] P (h & H1 & H2)]; [exists []; split; [reflexivity|cbn; ring]|].
    destruct (polynomials_are_harmonics (i + j + k) [(1, (i, j, k))]) as (h0 & _ & H3).
    { intros c0 i0 j0 k0 [E|[]]. injection E as _ <- <- <-. lia. }
    exists (hscale c h0 ++ h). split.
    - intros x y z U. rewrite heval_app, heval_scale, <- H3, <- H1 by exact U. cbn [p3eval]. ring.
    - rewrite hconst_app, hconst_scale. cbn [p3dot]. rewrite <- H2. unfold mono_int. rewrite (sphere_int_ext _ _ H3), sphere_int_harm. ring. }
  intro P. destruct (K P) as (h & H1 & H2). rewrite (sphere_int_ext _ _ H1), sphere_int_harm. exact H2.
Qed.

Lemma tame_dot : forall t g mu P d, (forall k, (k <= d)%nat -> tame t (fun r => r ^ k * g r)) -> p3deg_le P d ->
  tame t (fun r => p3dot mu (p3scale (g r) r P)).
Proof.
  intros t g mu P d Hg HP. induction P as [|[c [[i j] k]] P IH].
  - apply (tame_ext _ (fun _ => 0)); [reflexivity|apply tame_0].
  - apply (tame_ext _ (fun r => c * mu (i, j, k) * (r ^ (i + j + k) * g r) + p3dot mu (p3scale (g r) r P))).
    { intro r. cbn [p3scale p3dot]. ring. }
    apply tame_plus.
    + apply tame_scal, Hg. apply (HP c). left. reflexivity.
    + apply IH. intros c0 i0 j0 k0 H0. apply (HP c0). right. exact H0.
Qed.
Lemma tame_mag : forall t g P d, (forall k, (k <= d)%nat -> tame t (fun r => r ^ k * g r)) -> p3deg_le P d -> tame t (fun r => p3mag P r * g r).
Proof.
  intros t g P d Hg HP. induction P as [|[c [[i j] k]] P IH].
  - apply (tame_ext _ (fun _ => 0)); [intro r; cbn; ring|apply tame_0].
  - apply (tame_ext _ (fun r => Rabs c * (r ^ (i + j + k) * g r) + p3mag P r * g r)).
    { intro r. cbn [p3mag]. ring. }
    apply tame_plus.
    + apply tame_scal, Hg. apply (HP c). left. reflexivity.
    + apply IH. intros c0 i0 j0 k0 H0. apply (HP c0). right. exact H0.
Qed.

Lemma moment_limits : forall t c g G P d tol, rt_valid t -> flat_start t -> p3deg_le P d ->
  (forall k, (k <= d)%nat -> tame t (fun r => r ^ k * g r)) -> (forall k, (k <= d)%nat -> tame t (fun r => r ^ k * G r)) ->
  exists I B, space_integral c (moment c g P) I /\ half_line_integral (fun r => r * r * (2 * tol * (INR d + 1) ^ 2 * (p3mag P r * G r))) B /\
    forall eps, 0 < eps -> exists N, forall n q v, (N <= n)%nat -> @radial_generate RS (with_npts t n) = Ok q ->
      Rabs (v - apply_rule q (fun r => r * r * sphere_int (fun x y z => moment c g P (at_radius c r (x, y, z)))))
        <= apply_rule q (fun r => r * r * (2 * tol * (INR d + 1) ^ 2 * (p3mag P r * G r))) -> Rabs (v - I) <= B + eps.
Proof.
  intros t c g G P d tol V FS HP Tg TG.
  destruct (tame_converges t (fun r => p3dot mono_int (p3scale (g r) r P)) V FS (tame_dot t g mono_int P d Tg HP)) as (I & HI & CI).
  destruct (tame_converges t (fun r => 2 * tol * (INR d + 1) ^ 2 * (p3mag P r * G r)) V FS) as (B & HB & CB).
  { apply tame_scal. apply (tame_mag t G P d TG HP). }
  assert (E : forall r, 0 <= r -> sphere_int (fun x y z => moment c g P (at_radius c r (x, y, z))) = p3dot mono_int (p3scale (g r) r P)).
  { intros r Hr. rewrite moment_sphere by exact Hr. apply sphere_int_p3. }
  exists I, B. split; [|split; [exact HB|]].
  - unfold space_integral, half_line_integral in *. refine (is_RInt_gen_ext _ _ _ _ HI).
    exists (fun x => 0 < x) (fun x => 0 < x).
    + exists (mkposreal 1 Rlt_0_1). intros y _ Hy. exact Hy.
    + exists 0. auto.
    + intros x y Hx Hy z Hz. cbn [fst snd] in Hz.
      assert (0 < z). { destruct Hz as [Hz _]. eapply Rle_lt_trans; [|exact Hz]. apply Rmin_glb; lra. }
      rewrite E by lra. reflexivity.
  - intros eps He. destruct (CI (eps / 2) ltac:(lra)) as (N1 & H1). destruct (CB (eps / 2) ltac:(lra)) as (N2 & H2).
    exists (max N1 N2). intros n q v Hge Gq Hv. specialize (H1 n q ltac:(lia) Gq). specialize (H2 n q ltac:(lia) Gq). apply Rabs_def2 in H2.
    destruct (radial_shape _ _ (with_npts_valid t n V) Gq) as (_ & _ & _ & Pos & _).
    assert (EQ : apply_rule q (fun r => r * r * sphere_int (fun x y z => moment c g P (at_radius c r (x, y, z))))
      = apply_rule q (fun r => r * r * p3dot mono_int (p3scale (g r) r P))).
    { unfold apply_rule. apply wsum_ext. intros r Hr. specialize (Pos r Hr). rewrite E by lra. reflexivity. }
    rewrite EQ in Hv.
    match type of Hv with Rabs (_ - ?Y) <= _ => replace (v - I) with ((v - Y) + (Y - I)) by ring end.
    eapply Rle_trans; [apply Rabs_triang|]. lra.
Qed.

(** ** The pruning schemes *)
Lemma scheme_spec : forall sch rq (t : rtraits RS) f n, (5 <= rt_npts t)%nat -> algebraic_order_by_npts f n <> (-1)%Z ->
  exists rs, create_pruned_spec sch (mkUnpruned rq (Some t) (AQ f) n) = Ok (mkPruned rq (Some t) rs) /\
    List.Forall (fun r => r_aq r = AQ f) rs /\ map r_asz rs = scheme_sizes sch f n /\ accepted (rt_npts t) (map r_st rs).
Proof.
  intros sch rq t f n Hn Ho.
  assert (PE : forall (p : pruned_spec RS) q o rs, p_rq p = q -> p_traits p = o -> p_regions p = rs -> p = mkPruned q o rs).
  { intros [a b c] q o rs. cbn. intros -> -> ->. reflexivity. }
  destruct sch.
  - exists [mkRegion 0 (rt_npts t) (AQ f) n]. split; [apply (unpruned_scheme (S := RS) (mkUnpruned rq (Some t) (AQ f) n) t eq_refl)|].
    split; [repeat constructor|]. split; [reflexivity|]. exists []. split; [reflexivity|]. split; [exact I|constructor].
  - destruct (robust_full RS (mkUnpruned rq (Some t) (AQ f) n) t f eq_refl eq_refl Ho) as (low & med & p & P1 & P2 & P3 & P4 & _ & L & M & _).
    rewrite (PE _ _ _ _ P2 P3 P4) in P1. cbn [u_rq u_asz] in *. eexists. split; [exact P1|]. split; [repeat constructor|].
    split; [cbn [map r_asz scheme_sizes]; rewrite L, M; reflexivity|]. apply (proj2 (robust_accepted (rt_npts t)) Hn).
  - destruct (treutler_full RS (mkUnpruned rq (Some t) (AQ f) n) t f eq_refl eq_refl) as (low & med & p & P1 & P2 & P3 & P4 & _ & L & M & _).
    rewrite (PE _ _ _ _ P2 P3 P4) in P1. cbn [u_rq u_asz] in *. eexists. split; [exact P1|]. split; [repeat constructor|].
    split; [cbn [map r_asz scheme_sizes]; rewrite L, M; reflexivity|]. apply (proj2 (treutler_accepted (rt_npts t)) Hn).
Qed.

Lemma scheme_moment : forall dbg sch rq k (t : rtraits RS) f n cs g G P d tol, In (rq, k) schemes -> rkind_of t = k -> rt_valid t -> (5 <= rt_npts t)%nat ->
  algebraic_order_by_npts f n <> (-1)%Z -> List.Forall (exact_for f d tol) (scheme_sizes sch f n) ->
  p3deg_le P d -> steady (/ 10 ^ 15) g G -> let c := last cs (0, 0, 0) in
  exists o q, (let* p := create_pruned_spec sch (mkUnpruned rq (Some t) (AQ f) n) in
               let* o := generate_grid_pruned repo_grids dbg p in recenters o cs) = Ok o /\ @radial_generate RS t = Ok q /\
    Rabs (integrate (moment c g P) (sph_quad o) - apply_rule q (fun r => r * r * sphere_int (fun x y z => moment c g P (at_radius c r (x, y, z)))))
    <= apply_rule q (fun r => r * r * (2 * tol * (INR d + 1) ^ 2 * (p3mag P r * G r))).
Proof.
  intros dbg sch rq k t f n cs g G P d tol Hin Hk V Hn Ho Hs HP HG c.
  destruct (scheme_spec sch rq t f n Hn Ho) as (rs & S1 & S2 & S3 & S4). rewrite S1. cbn [bind].
  apply (pruned_moment dbg rq k t f rs cs g G P d tol Hin Hk V ltac:(lia)); auto.
  apply List.Forall_forall. intros r Hr. split; [rewrite List.Forall_forall in S2; apply S2; exact Hr|].
  rewrite List.Forall_forall in Hs. apply Hs. rewrite <- S3. apply in_map. exact Hr.
Qed.

Lemma scheme_limit : forall dbg sch rq (t : rtraits RS) f n cs g G P d tol, In (rq, rkind_of t) schemes -> rt_valid t -> flat_start t ->
  algebraic_order_by_npts f n <> (-1)%Z -> List.Forall (exact_for f d tol) (scheme_sizes sch f n) -> p3deg_le P d -> steady (/ 10 ^ 15) g G ->
  (forall k, (k <= d)%nat -> tame t (fun r => r ^ k * g r)) -> (forall k, (k <= d)%nat -> tame t (fun r => r ^ k * G r)) ->
  let c := last cs (0, 0, 0) in
  exists I B, space_integral c (moment c g P) I /\ half_line_integral (fun r => r * r * (2 * tol * (INR d + 1) ^ 2 * (p3mag P r * G r))) B /\
    forall eps, 0 < eps -> exists N, forall m, (N <= m)%nat -> exists o,
      (let* p := create_pruned_spec sch (mkUnpruned rq (Some (with_npts t m)) (AQ f) n) in
       let* o := generate_grid_pruned repo_grids dbg p in recenters o cs) = Ok o /\
      Rabs (integrate (moment c g P) (sph_quad o) - I) <= B + eps.
Proof.
  intros dbg sch rq t f n cs g G P d tol Hin V FS Ho Hs HP HG Tg TG c.
  destruct (moment_limits t c g G P d tol V FS HP Tg TG) as (I & B & H1 & H2 & H3). exists I, B. split; [exact H1|]. split; [exact H2|].
  intros eps He. destruct (H3 eps He) as (N & HN). exists (max N 5). intros m Hm.
  assert (NP : rt_npts (with_npts t m) = m) by (destruct t; reflexivity).
  destruct (scheme_moment dbg sch rq (rkind_of t) (with_npts t m) f n cs g G P d tol Hin (rkind_with_npts t m) (with_npts_valid t m V) ltac:(rewrite NP; lia) Ho Hs HP HG)
    as (o & q & O1 & Q1 & O2).
  exists o. split; [exact O1|]. apply (HN m q _ ltac:(lia) Q1 O2).
Qed.

Lemma unpruned_limit : forall dbg rq (t : rtraits RS) f n cs g G P d tol, In (rq, rkind_of t) schemes -> rt_valid t -> flat_start t ->
  exact_for f d tol n -> p3deg_le P d -> steady (/ 10 ^ 15) g G ->
  (forall k, (k <= d)%nat -> tame t (fun r => r ^ k * g r)) -> (forall k, (k <= d)%nat -> tame t (fun r => r ^ k * G r)) ->
  let c := last cs (0, 0, 0) in
  exists I B, space_integral c (moment c g P) I /\ half_line_integral (fun r => r * r * (2 * tol * (INR d + 1) ^ 2 * (p3mag P r * G r))) B /\
    forall eps, 0 < eps -> exists N, forall m, (N <= m)%nat -> exists o,
      (let* o := generate_grid_unpruned repo_grids dbg (mkUnpruned rq (Some (with_npts t m)) (AQ f) n) in recenters o cs) = Ok o /\
      Rabs (integrate (moment c g P) (sph_quad o) - I) <= B + eps.
Proof.
  intros dbg rq t f n cs g G P d tol Hin V FS Hx HP HG Tg TG c.
  destruct (moment_limits t c g G P d tol V FS HP Tg TG) as (I & B & H1 & H2 & H3). exists I, B. split; [exact H1|]. split; [exact H2|].
  intros eps He. destruct (H3 eps He) as (N & HN). exists N. intros m Hm.
  destruct (unpruned_moment dbg rq (rkind_of t) (with_npts t m) f n cs g G P d tol Hin (rkind_with_npts t m) (with_npts_valid t m V) Hx HP HG)
    as (o & q & O1 & Q1 & O2).
  exists o. split; [exact O1|]. apply (HN m q _ Hm Q1 O2).
Qed.
