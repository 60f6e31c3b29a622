(** Symmetries in exact arithmetic and in binary64, and what follows for sums. *)
From Coq Require Import ZArith List Bool Arith Lia Permutation Reals Lra.
From Flocq Require Import IEEE754.BinarySingleNaN Core.
From Verif Require Import Base.Outcome Base.Scalar Base.FScalar Base.RScalar Model.Quadrature Model.S2Tables Model.S2 Model.GridCode
  Model.GridsAB Model.Grids Model.Radial Model.Composite Model.Factory
  Spec.QuadSpec Spec.SphereSpec Spec.SphereReal Spec.FactorySpec Spec.FloatSpec Spec.GridFloatSpec Spec.SymSpec Proofs.Sizes Proofs.AngularFacts Proofs.GridSym
  Proofs.PrunedFacts Proofs.CompositeFacts Proofs.CompositeProps Proofs.FactoryFacts Proofs.PruningFacts Proofs.FactoryEx Proofs.MirrorFacts Proofs.Symmetry.
Import ListNotations.

(** ** The arithmetics *)
Lemma sym_R : @sym_arith RS (fun x => x).
Proof.
  constructor; intros; try reflexivity.
  - rewrite !rval_lit. apply rval_neg.
  - apply Ropp_0.
  - symmetry. apply Ropp_mult_distr_r.
  - apply Rplus_0_r.
Qed.

Local Notation bmul := (@Bmult 53 1024 Hprec Hmax mode_NE).
Lemma bmul_opp : forall x y : F64, bmul x (Bopp y) = Bopp (bmul x y).
Proof.
  intros x y. destruct (is_finite (bmul x y)) eqn:H; [apply fmul_opp; exact H|].
  destruct (is_finite x) eqn:Fx; [destruct (is_finite y) eqn:Fy|].
  - pose proof (Bmult_correct 53 1024 Hprec Hmax mode_NE x y) as C1. pose proof (Bmult_correct 53 1024 Hprec Hmax mode_NE x (Bopp y)) as C2.
    assert (Er : round radix2 (SpecFloat.fexp 53 1024) (round_mode mode_NE) (B2R x * B2R (Bopp y))
       = (- round radix2 (SpecFloat.fexp 53 1024) (round_mode mode_NE) (B2R x * B2R y))%R).
    { rewrite B2R_Bopp. replace (B2R x * - B2R y)%R with (- (B2R x * B2R y))%R by ring. apply round_NE_opp. }
    rewrite Er, Rabs_Ropp in C2. destruct (Rlt_bool _ _).
    + destruct C1 as (_ & F1 & _). rewrite F1, Fx, Fy in H. discriminate H.
    + apply B2SF_inj. rewrite C2. assert (E : Bsign (Bopp y) = negb (Bsign y)) by (apply Bsign_Bopp; destruct y; try reflexivity; discriminate Fy).
      rewrite E. assert (G : forall (z : F64) s, B2SF z = binary_overflow 53 1024 mode_NE s -> B2SF (Bopp z) = binary_overflow 53 1024 mode_NE (negb s)).
      { intros z s. unfold binary_overflow. cbn [overflow_to_inf]. destruct z; cbn; intro Hz; inversion Hz; reflexivity. }
      symmetry. rewrite (G _ _ C1). f_equal. destruct (Bsign x), (Bsign y); reflexivity.
  - destruct x as [|[]| |], y as [|[]| |]; try discriminate Fx; try discriminate Fy; try reflexivity; destruct s; reflexivity.
  - destruct x as [|[]| |], y as [[]|[]| |[]]; try discriminate Fx; reflexivity.
Qed.

Lemma sym_F : forall m, @sym_arith (FS m) unsigned0.
Proof.
  intro m. constructor.
  - intros [s|s| |s a e H]; reflexivity.
  - intros [z e]. unfold lit_val, lneg. cbn [fst snd]. destruct z as [|p|p].
    + reflexivity.
    + reflexivity.
    + change (unsigned0 (f_dec (Z.pos p) e) = unsigned0 (Bopp (Bopp (f_dec (Z.pos p) e)))). rewrite Bopp_involutive. reflexivity.
  - reflexivity.
  - intros r [s|s| |s a e H]; destruct r as [t|t| |t b g K]; try reflexivity.
  - intros r x. change (unsigned0 (bmul r (Bopp x)) = unsigned0 (Bopp (bmul r x))). rewrite bmul_opp. reflexivity.
  - intros [s|s| |s a e H]; try reflexivity; destruct s; reflexivity.
Qed.

(** One object for all symmetries. *)
Lemma one_for_all : forall (T : Type) (m : outcome T) (Q : T -> Prop) (f : afam) (C : signed_perm -> T -> Prop), f <> Womersley ->
  (forall g, family_sym f g -> exists o, m = Ok o /\ Q o /\ C g o) -> exists o, m = Ok o /\ Q o /\ forall g, family_sym f g -> C g o.
Proof.
  intros T m Q f C Hf H. assert (I : family_sym f (mkSP XYZ false false false)) by (destruct f; cbn; [split; cbn; auto|exact I|exact I|congruence]).
  destruct (H _ I) as (o & O1 & O2 & _). exists o. split; [exact O1|]. split; [exact O2|]. intros g Hg. destruct (H g Hg) as (o' & O1' & _ & O3'). congruence.
Qed.

Lemma angular_exact : forall f dbg n, f <> Womersley ->
  exists q : quad (@pt3 RS) R, construct dbg (s2_generate (@repo_grids RS) f n) = Ok q /\ sized n q /\ forall g, family_sym f g -> carried_R g (nodes q).
Proof.
  intros f dbg n Hf. apply (one_for_all _ _ (sized n) f (fun g q => carried_R g (nodes q)) Hf). intros g Hg. exact (angular_sym (S := RS) (fun x => x) sym_R f dbg n g Hg).
Qed.
Lemma angular_float : forall m f dbg n, f <> Womersley ->
  exists q : aquad (FS m), construct dbg (s2_generate (@repo_grids (FS m)) f n) = Ok q /\ sized n q /\ forall g, family_sym f g -> carried_F g (nodes q).
Proof.
  intros m f dbg n Hf. apply (one_for_all _ _ (sized n) f (fun g (q : aquad (FS m)) => carried_F g (nodes q)) Hf). intros g Hg. exact (angular_sym (S := FS m) unsigned0 (sym_F m) f dbg n g Hg).
Qed.
Lemma unpruned_float : forall m dbg rq k (t : rtraits (FS m)) f n, In (rq, k) schemes -> rkind_of t = k -> f <> Womersley ->
  exists o, generate_grid_unpruned (@repo_grids (FS m)) dbg (mkUnpruned rq (Some t) (AQ f) (Z.of_nat n)) = Ok o /\
    sized (rt_npts t * n) (sph_quad o) /\ forall g, family_sym f g -> carried_F g (nodes (sph_quad o)).
Proof.
  intros m dbg rq k t f n Hin Hk Hf. apply (one_for_all _ _ (fun o : sphobj (FS m) => sized (rt_npts t * n) (sph_quad o)) f (fun g (o : sphobj (FS m)) => carried_F g (nodes (sph_quad o))) Hf).
  intros g Hg. exact (unpruned_sym (S := FS m) unsigned0 (sym_F m) dbg g rq k t f n Hin Hk Hg).
Qed.
Lemma pruned_float : forall m dbg rq k (t : rtraits (FS m)) f rs, In (rq, k) schemes -> rkind_of t = k -> (1 <= rt_npts t)%nat -> f <> Womersley ->
  Forall (fun r => r_aq r = AQ f) rs ->
  (exists rest, map r_st rs = 0%nat :: rest /\ increasing (0%nat :: rest) /\ List.Forall (fun i => (i < rt_npts t - 1)%nat) rest) ->
  exists o, generate_grid_pruned (@repo_grids (FS m)) dbg (mkPruned rq (Some t) rs) = Ok o /\ forall g, family_sym f g -> carried_F g (nodes (sph_quad o)).
Proof.
  intros m dbg rq k t f rs Hin Hk Hn Hf F Hacc.
  destruct (one_for_all _ (generate_grid_pruned (@repo_grids (FS m)) dbg (mkPruned rq (Some t) rs)) (fun _ => True) f (fun g (o : sphobj (FS m)) => carried_F g (nodes (sph_quad o))) Hf) as (o & O1 & _ & O2).
  - intros g Hg. destruct (pruned_sym (S := FS m) unsigned0 (sym_F m) dbg g rq k t f rs Hin Hk Hn Hg F Hacc) as (o & A & B). exists o. split; [exact A|]. split; [exact I|exact B].
  - exists o. split; assumption.
Qed.

(** ** Exact arithmetic, any centre *)
Lemma carried_about_0 : forall g l, carried_R g l -> carried_about (0, 0, 0)%R g l.
Proof.
  intros g l C. unfold carried_about, carried_R, carried in *.
  rewrite (map_ext _ (fun pw => (norm3 (fun x => x) (act Ropp g (fst pw)), snd pw))).
  - eapply perm_trans; [exact C|]. apply Permutation_refl'. rewrite <- map_id. apply map_ext. intros [[[x y] z] w]. reflexivity.
  - intros [[[x y] z] w]. cbn [fst snd]. f_equal. unfold act_about. rewrite !Rminus_0_r. destruct (act Ropp g (x, y, z)) as [[a b] c]. cbn [norm3]. rewrite !Rplus_0_r. reflexivity.
Qed.
Lemma combine_map_l : forall A B C (f : A -> C) (a : list A) (b : list B), combine (map f a) b = map (fun xy => (f (fst xy), snd xy)) (combine a b).
Proof. induction a; destruct b; cbn; auto. f_equal. auto. Qed.
Lemma act_shift : forall c c' g p, act_about c' g (@shift_pt RS (@pt_sub RS c' c) p) = @shift_pt RS (@pt_sub RS c' c) (act_about c g p).
Proof.
  intros [[cx cy] cz] [[dx dy] dz] g [[x y] z]. unfold act_about, shift_pt, pt_sub. cbn [sadd ssub RS].
  replace (x + (dx - cx) - dx)%R with (x - cx)%R by ring. replace (y + (dy - cy) - dy)%R with (y - cy)%R by ring. replace (z + (dz - cz) - dz)%R with (z - cz)%R by ring.
  destruct (act Ropp g (x - cx, y - cy, z - cz)%R) as [[a b] c]. apply triple_eq; rs_ring.
Qed.
Lemma moved : forall g cs (o o' : sphobj RS), carried_about (sph_center o) g (nodes (sph_quad o)) -> recenters o cs = Ok o' ->
  sph_center o' = last cs (sph_center o) /\ carried_about (sph_center o') g (nodes (sph_quad o')).
Proof.
  intros g cs o o' C H. rewrite recenters_closed in H. injection H as <-. cbn [sph_center sph_quad]. split; [reflexivity|].
  unfold nodes. cbn [qpoints qweights]. set (c' := last cs (sph_center o)). set (c := sph_center o) in *. unfold carried_about in *.
  assert (E : combine (map (shift_pt (pt_sub c' c)) (qpoints (sph_quad o))) (qweights (sph_quad o))
     = map (fun pw => (shift_pt (pt_sub c' c) (fst pw), snd pw)) (nodes (sph_quad o))) by apply combine_map_l.
  change (Permutation (map (fun pw : (R * R * R) * R => (act_about c' g (fst pw), snd pw)) (combine (map (@shift_pt RS (pt_sub c' c)) (qpoints (sph_quad o))) (qweights (sph_quad o))))
    (combine (map (@shift_pt RS (pt_sub c' c)) (qpoints (sph_quad o))) (qweights (sph_quad o)))).
  rewrite E. rewrite map_map. rewrite (map_ext _ (fun pw => (fun q => (@shift_pt RS (pt_sub c' c) (fst q), snd q)) (act_about c g (fst pw), snd pw))).
  - rewrite <- (map_map (fun pw => (act_about c g (fst pw), snd pw)) (fun q => (@shift_pt RS (pt_sub c' c) (fst q), snd q))). apply Permutation_map. exact C.
  - intros [p w]. cbn [fst snd]. exact (f_equal (fun q => (q, w)) (act_shift c c' g p)).
Qed.

Lemma unpruned_exact : forall dbg rq k (t : rtraits RS) f n cs, In (rq, k) schemes -> rkind_of t = k -> f <> Womersley ->
  exists o, (let* o := generate_grid_unpruned (@repo_grids RS) dbg (mkUnpruned rq (Some t) (AQ f) (Z.of_nat n)) in recenters o cs) = Ok o /\
    forall g, family_sym f g -> carried_about (last cs (0, 0, 0)%R) g (nodes (sph_quad o)).
Proof.
  intros dbg rq k t f n cs Hin Hk Hf.
  destruct (one_for_all _ (generate_grid_unpruned (@repo_grids RS) dbg (mkUnpruned rq (Some t) (AQ f) (Z.of_nat n)))
      (fun o : sphobj RS => sph_center o = (0, 0, 0)%R) f (fun g (o : sphobj RS) => carried_R g (nodes (sph_quad o))) Hf) as (o & O1 & O2 & O3).
  - intros g Hg. destruct (unpruned_sym (S := RS) (fun x => x) sym_R dbg g rq k t f n Hin Hk Hg) as (o & A & _ & B). exists o. split; [exact A|]. split; [|exact B].
    unfold generate_grid_unpruned, generate_unpruned_grid in A. cbn [u_traits u_rq u_aq u_asz] in A. destruct (angular_construct _ _ _ _); [|discriminate A..]. cbn [bind] in A.
    rewrite unpruned_impl_eq in A. destruct (radial_factory_generate _ _ _); [|discriminate A..]. cbn [bind] in A. unfold make_unpruned, spherical_construct in A.
    destruct (construct _ _); [|discriminate A..]. cbn [bind] in A. injection A as <-. reflexivity.
  - rewrite O1. cbn [bind]. exists (mkSph (mkQuad (map (shift_pt (pt_sub (last cs (sph_center o)) (sph_center o))) (qpoints (sph_quad o))) (qweights (sph_quad o))) (last cs (sph_center o))).
    pose proof (recenters_closed cs o) as E. split; [exact E|]. intros g Hg. assert (C0 : carried_about (sph_center o) g (nodes (sph_quad o))) by (rewrite O2; apply carried_about_0, O3, Hg).
    destruct (moved g cs o _ C0 E) as (M1 & M2). assert (LE : last cs (0, 0, 0)%R = last cs (sph_center o)) by (rewrite O2; reflexivity). rewrite LE. exact M2.
Qed.
Lemma pruned_exact : forall dbg rq k (t : rtraits RS) f rs cs, In (rq, k) schemes -> rkind_of t = k -> (1 <= rt_npts t)%nat -> f <> Womersley ->
  Forall (fun r => r_aq r = AQ f) rs ->
  (exists rest, map r_st rs = 0%nat :: rest /\ increasing (0%nat :: rest) /\ List.Forall (fun i => (i < rt_npts t - 1)%nat) rest) ->
  exists o, (let* o := generate_grid_pruned (@repo_grids RS) dbg (mkPruned rq (Some t) rs) in recenters o cs) = Ok o /\
    forall g, family_sym f g -> carried_about (last cs (0, 0, 0)%R) g (nodes (sph_quad o)).
Proof.
  intros dbg rq k t f rs cs Hin Hk Hn Hf F Hacc.
  destruct (one_for_all _ (generate_grid_pruned (@repo_grids RS) dbg (mkPruned rq (Some t) rs))
      (fun o : sphobj RS => sph_center o = (0, 0, 0)%R) f (fun g (o : sphobj RS) => carried_R g (nodes (sph_quad o))) Hf) as (o & O1 & O2 & O3).
  - intros g Hg. destruct (pruned_sym (S := RS) (fun x => x) sym_R dbg g rq k t f rs Hin Hk Hn Hg F Hacc) as (o & A & B). exists o. split; [exact A|]. split; [|exact B].
    unfold generate_grid_pruned in A. cbn [p_traits p_rq p_regions] in A. rewrite pruned_grid_eq in A. destruct (radial_factory_generate _ _ _); [|discriminate A..]. cbn [bind] in A.
    unfold make_pruned_grid in A. destruct rs as [|r0 rs]; [discriminate A|]. destruct (existsb _ _); [discriminate A|]. destruct (r_aq r0); [|discriminate A].
    unfold make_pruned_grid_impl in A. destruct (add_regions _ _ _ _ _ _); [|discriminate A..]. cbn [bind] in A. destruct (finalize _ _); [|discriminate A..]. cbn [bind] in A.
    unfold pruned_construct in A. destruct (construct _ _); [|discriminate A..]. cbn [bind] in A. injection A as <-. reflexivity.
  - rewrite O1. cbn [bind]. exists (mkSph (mkQuad (map (shift_pt (pt_sub (last cs (sph_center o)) (sph_center o))) (qpoints (sph_quad o))) (qweights (sph_quad o))) (last cs (sph_center o))).
    pose proof (recenters_closed cs o) as E. split; [exact E|]. intros g Hg. assert (C0 : carried_about (sph_center o) g (nodes (sph_quad o))) by (rewrite O2; apply carried_about_0, O3, Hg).
    destruct (moved g cs o _ C0 E) as (M1 & M2). assert (LE : last cs (0, 0, 0)%R = last cs (sph_center o)) by (rewrite O2; reflexivity). rewrite LE. exact M2.
Qed.

(** ** Sums *)
Local Open Scope R_scope.
Lemma wsum_perm : forall l l' f, Permutation l l' -> wsum l f = wsum l' f.
Proof.
  intros l l' f P. induction P; cbn [wsum fold_right]; auto.
  - fold (wsum l f). fold (wsum l' f). rewrite IHP. reflexivity.
  - ring.
  - congruence.
Qed.
Lemma wsum_map : forall (h : R * R * R -> R * R * R) l f, wsum (map (fun pw => (h (fst pw), snd pw)) l) f = wsum l (fun p => f (h p)).
Proof. intros h l f. induction l as [|x l IH]; cbn; [reflexivity|]. fold (wsum l (fun p => f (h p))). fold (wsum (map (fun pw => (h (fst pw), snd pw)) l) f). rewrite IH. reflexivity. Qed.
Lemma wsum_scal : forall l f k, wsum l (fun p => k * f p) = k * wsum l f.
Proof. intros l f k. induction l as [|x l IH]; cbn; [ring|]. fold (wsum l (fun p => k * f p)). fold (wsum l f). rewrite IH. ring. Qed.

Lemma wsum_ext : forall l f h, (forall p, f p = h p) -> wsum l f = wsum l h.
Proof. intros l f h H. induction l as [|x l IH]; cbn; [reflexivity|]. fold (wsum l f). fold (wsum l h). rewrite IH, H. reflexivity. Qed.

Lemma about_sum : forall c g l, carried_about c g l -> forall f, wsum l (fun p => f (act_about c g p)) = wsum l f.
Proof. intros c g l C f. rewrite <- (wsum_map (act_about c g)). apply wsum_perm. exact C. Qed.
Lemma about_odd : forall c g l, carried_about c g l -> forall f, (forall p, f (act_about c g p) = - f p) -> wsum l f = 0.
Proof.
  intros c g l C f H. pose proof (about_sum c g l C f) as E. assert (F : wsum l (fun p => f (act_about c g p)) = - wsum l f).
  { replace (- wsum l f) with (-1 * wsum l f) by ring. rewrite <- wsum_scal. apply wsum_ext. intro p. rewrite H. ring. }
  lra.
Qed.

(** ** Sums over stored grids *)
Lemma real_unsigned : forall x : F64, B2R (unsigned0 x) = B2R x.
Proof. intros [s|s| |s a e H]; reflexivity. Qed.
Lemma real_norm : forall p, real_pt (norm3 unsigned0 p) = real_pt p.
Proof. intros [[x y] z]. unfold real_pt, norm3, px, py, pz. cbn [fst snd]. rewrite !real_unsigned. reflexivity. Qed.
Lemma real_act : forall g p, real_pt (act Bopp g p) = act Ropp g (real_pt p).
Proof.
  intros [a bx by' bz] [[x y] z]. unfold act, real_pt, px, py, pz. cbn [sp_axes sp_x sp_y sp_z].
  destruct a; cbn [reorder fst snd]; destruct bx, by', bz; rewrite ?B2R_Bopp; reflexivity.
Qed.
Lemma real_carried : forall g l, carried_F g l -> carried_R g (map real_node l).
Proof.
  intros g l C. unfold carried_F, carried_R, carried in *. apply (Permutation_map real_node) in C. rewrite !map_map in *.
  rewrite (map_ext _ (fun pw => (norm3 (fun x => x) (act Ropp g (real_pt (fst pw))), B2R (snd pw)))) in C.
  - rewrite (map_ext (fun x => real_node (norm3 unsigned0 (fst x), snd x)) (fun pw => (norm3 (fun x => x) (real_pt (fst pw)), B2R (snd pw)))) in C; [exact C|].
    intros [p w]. unfold real_node. cbn [fst snd]. rewrite real_norm. destruct (real_pt p) as [[a b] c]. reflexivity.
  - intros [p w]. unfold real_node. cbn [fst snd]. rewrite real_norm, real_act. destruct (act Ropp g (real_pt p)) as [[a b] c]. reflexivity.
Qed.
Lemma act_about_0 : forall g p, act_about (0, 0, 0) g p = act Ropp g p.
Proof. intros g [[x y] z]. unfold act_about. rewrite !Rminus_0_r. destruct (act Ropp g (x, y, z)) as [[a b] c]. rewrite !Rplus_0_r. reflexivity. Qed.
Lemma float_sum : forall g l, carried_F g l -> forall f, wsum (map real_node l) (fun p => f (act Ropp g p)) = wsum (map real_node l) f.
Proof.
  intros g l C f. apply real_carried, carried_about_0 in C. rewrite <- (about_sum _ _ _ C f). apply wsum_ext. intro p. rewrite act_about_0. reflexivity.
Qed.
Lemma float_odd : forall g l, carried_F g l -> forall f, (forall p, f (act Ropp g p) = - f p) -> wsum (map real_node l) f = 0.
Proof. intros g l C f H. apply real_carried, carried_about_0 in C. apply (about_odd _ _ _ C). intro p. rewrite act_about_0. apply H. Qed.

(** ** Pruning schemes *)
Lemma schemes_float : forall m dbg sch rq k (t : rtraits (FS m)) f n, In (rq, k) schemes -> rkind_of t = k -> (5 <= rt_npts t)%nat -> f <> Womersley ->
  algebraic_order_by_npts f (Z.of_nat n) <> (-1)%Z ->
  exists o, (let* p := create_pruned_spec sch (mkUnpruned rq (Some t) (AQ f) (Z.of_nat n)) in generate_grid_pruned (@repo_grids (FS m)) dbg p) = Ok o /\
    forall g, family_sym f g -> carried_F g (nodes (sph_quad o)).
Proof.
  intros m dbg sch rq k t f n Hin Hk Hn Hf Ho.
  assert (X : exists rs, List.Forall (fun r => r_aq r = AQ f) rs /\ accepted (rt_npts t) (map r_st rs) /\
     create_pruned_spec sch (mkUnpruned rq (Some t) (AQ f) (Z.of_nat n)) = Ok (mkPruned rq (Some t) rs)).
  { assert (PE : forall (p : pruned_spec (FS m)) q o rs, p_rq p = q -> p_traits p = o -> p_regions p = rs -> p = mkPruned q o rs).
    { intros [a b c] q o rs. cbn. intros -> -> ->. reflexivity. }
    destruct sch.
    - exists [mkRegion 0 (rt_npts t) (AQ f) (Z.of_nat n)]. split; [|split].
      + repeat constructor.
      + exists []. split; [reflexivity|]. split; [exact I|apply List.Forall_nil].
      + apply (unpruned_scheme (S := FS m) (mkUnpruned rq (Some t) (AQ f) (Z.of_nat n)) t eq_refl).
    - destruct (robust_full (FS m) (mkUnpruned rq (Some t) (AQ f) (Z.of_nat n)) t f eq_refl eq_refl Ho) as (low & med & p & P1 & P2 & P3 & P4 & _).
      rewrite (PE _ _ _ _ P2 P3 P4) in P1. eexists. split; [|split; [|exact P1]]; [repeat constructor|]. apply (proj2 (robust_accepted (rt_npts t)) Hn).
    - destruct (treutler_full (FS m) (mkUnpruned rq (Some t) (AQ f) (Z.of_nat n)) t f eq_refl eq_refl) as (low & med & p & P1 & P2 & P3 & P4 & _).
      rewrite (PE _ _ _ _ P2 P3 P4) in P1. eexists. split; [|split; [|exact P1]]; [repeat constructor|]. apply (proj2 (treutler_accepted (rt_npts t)) Hn). }
  destruct X as (rs & F & A & E). rewrite E. cbn [bind]. apply (pruned_float m dbg rq k t f rs); auto. lia.
Qed.

(** ** Limits *)
Definition lit_differ (a b : lit) : bool := negb (fst a * 10 ^ snd b =? fst b * 10 ^ snd a)%Z && (0 <=? snd a)%Z && (0 <=? snd b)%Z.
Lemma lit_differ_sound : forall a b, lit_differ a b = true -> rval a <> rval b.
Proof.
  intros [m e] [n f] H E. unfold lit_differ in H. cbn [fst snd] in H. apply andb_prop in H. destruct H as [H H3]. apply andb_prop in H. destruct H as [H1 H2].
  apply Z.leb_le in H2, H3. apply negb_true_iff, Z.eqb_neq in H1. apply H1. unfold rval in E. cbn [fst snd] in E.
  assert (P : forall e, (0 <= e)%Z -> IZR (10 ^ e) <> 0) by (intros e0 He; apply IZR_neq; pose proof (Z.pow_pos_nonneg 10 e0); lia).
  apply eq_IZR. rewrite !mult_IZR. pose proof (P e H2) as Pe. pose proof (P f H3) as Pf. apply (f_equal (fun v => v * IZR (10 ^ e) * IZR (10 ^ f))) in E.
  replace (IZR m / IZR (10 ^ e) * IZR (10 ^ e) * IZR (10 ^ f)) with (IZR m * IZR (10 ^ f)) in E by (field; exact Pe).
  replace (IZR n / IZR (10 ^ f) * IZR (10 ^ e) * IZR (10 ^ f)) with (IZR n * IZR (10 ^ e)) in E by (field; exact Pf). exact E.
Qed.
Definition lit3_differ (p q : lit3) : bool :=
  let '(x, y, z) := p in let '(x', y', z') := q in lit_differ x x' || lit_differ y y' || lit_differ z z'.
Lemma lit3_differ_sound : forall p q, lit3_differ p q = true -> @lit3_val RS p <> lit3_val q.
Proof.
  intros [[x y] z] [[x' y'] z'] H E. unfold lit3_val in E. pose proof (f_equal (fun p => fst (fst p)) E) as E1. pose proof (f_equal (fun p => snd (fst p)) E) as E2.
  pose proof (f_equal snd E) as E3. cbn [fst snd] in E1, E2, E3. rewrite !rval_lit in E1, E2, E3.
  unfold lit3_differ in H. apply orb_prop in H. destruct H as [H|H]; [apply orb_prop in H; destruct H as [H|H]|]; apply lit_differ_sound in H; contradiction.
Qed.

Lemma in_pair : forall A B (a : list A) (b : list B) x, length a = length b -> In x a -> exists w, In (x, w) (combine a b).
Proof.
  induction a as [|y a IH]; intros [|v b] x L H; try discriminate L; [destruct H|]. destruct H as [->|H]; [exists v; left; reflexivity|].
  injection L as L. destruct (IH b x L H) as (w & W). exists w. right. exact W.
Qed.
Lemma ab_inversion : exists n q, algebraic_order_by_npts AhrensBeylkin (Z.of_nat n) <> (-1)%Z /\
  construct true (s2_generate (@repo_grids RS) AhrensBeylkin n) = Ok q /\ ~ carried_R sp_inversion (nodes q).
Proof.
  exists 72%nat. assert (H : algebraic_order_by_npts AhrensBeylkin (Z.of_nat 72) <> (-1)%Z) by (vm_compute; discriminate).
  assert (E : @repo_grids RS AhrensBeylkin (Z.of_nat 72) = coded_grid ab_72) by reflexivity.
  destruct (angular_supported RS true (@repo_grids RS) AhrensBeylkin 72 H) as (q & A1 & A2 & A3 & A4).
  { rewrite E. cbn [coded_grid fst]. rewrite map_length. reflexivity. }
  { rewrite E. cbn [coded_grid snd]. rewrite map_length. reflexivity. }
  exists q. split; [exact H|]. split; [exact A1|]. intro C.
  set (ps := coded_points ab_72) in *. set (p := nth 12 ps (o, o, o)).
  assert (Ip : In p ps) by (apply nth_In; vm_compute; repeat constructor).
  assert (D : forallb (fun r => lit3_differ (act lneg sp_inversion p) r) ps = true) by (vm_compute; reflexivity).
  assert (Q : qpoints q = map lit3_val ps) by (rewrite A3, E; reflexivity).
  assert (Iq : In (lit3_val p) (qpoints q)) by (rewrite Q; apply in_map; exact Ip).
  assert (Iw : exists w, In (lit3_val p, w) (nodes q)).
  { destruct A2 as (_ & L1 & L2 & _). apply in_pair; [congruence|exact Iq]. }
  destruct Iw as (w & Iw). unfold carried_R, carried in C.
  apply (Permutation_in (norm3 (fun x => x) (act Ropp sp_inversion (lit3_val p)), w)) in C.
  - apply in_map_iff in C. destruct C as ([r v] & C1 & C2). cbn [fst snd] in C1. apply in_combine_l in C2. rewrite Q in C2. apply in_map_iff in C2. destruct C2 as (d & D1 & D2).
    rewrite forallb_forall in D. specialize (D _ D2). apply lit3_differ_sound in D. apply D.
    pose proof (f_equal fst C1) as C3. cbn [fst] in C3. subst r. 
    assert (N3 : forall s : R * R * R, norm3 (fun x => x) s = s) by (intros [[? ?] ?]; reflexivity). rewrite !N3 in C3. rewrite C3. symmetry.
    pose proof (act_lit (S := RS) (fun x => x) sym_R sp_inversion p) as AL. etransitivity; [|exact (eq_trans (eq_sym (N3 _)) (eq_trans AL (N3 _)))]. reflexivity.
  - apply in_map_iff. exists (lit3_val p, w). split; [reflexivity|exact Iw].
Qed.

(** Shifting the axis points 2^-53 away from the origin to (1, 0, 0). *)
Definition ex_near : rquad (FS no_libm) := mkQuad [f_of 1 (-53)] [f_of 1 0].
Definition ex_c : @pt3 (FS no_libm) := (f_of 1 0, f_of 0 0, f_of 0 0).
Definition x_low : SpecFloat.spec_float := SpecFloat.S754_finite false 9007199254740991 (-53).
Definition x_one : SpecFloat.spec_float := SpecFloat.S754_finite false 4503599627370496 (-52).
Definition sf_eqb (a b : SpecFloat.spec_float) : bool :=
  match a, b with SpecFloat.S754_finite s m e, SpecFloat.S754_finite t n f => Bool.eqb s t && Pos.eqb m n && Z.eqb e f | _, _ => false end.
Lemma sf_eqb_eq : forall a b, sf_eqb a b = true -> a = b.
Proof.
  intros [| | |s m e] [| | |t n f] H; try discriminate H. cbn in H. apply andb_prop in H. destruct H as [H H3]. apply andb_prop in H. destruct H as [H1 H2].
  apply eqb_prop in H1. apply Pos.eqb_eq in H2. apply Z.eqb_eq in H3. congruence.
Qed.
Lemma x_values : SF2R radix2 x_low = 1 - / 2 ^ 53 /\ SF2R radix2 x_one = 1.
Proof. unfold SF2R, F2R, x_low, x_one. cbn. split; lra. Qed.

Lemma shift_breaks : exists (r : rquad (FS no_libm)) (a : aquad (FS no_libm)) c (o : sphobj (FS no_libm)),
  sized 1 r /\ construct true (s2_generate (@repo_grids (FS no_libm)) LebedevLaikov 6) = Ok a /\
  spherical_construct true r a c = Ok o /\ ~ carried_about (real_pt c) sp_inversion (map real_node (nodes (sph_quad o))).
Proof.
  assert (H : algebraic_order_by_npts LebedevLaikov (Z.of_nat 6) <> (-1)%Z) by (vm_compute; discriminate).
  assert (Rs : sized 1 ex_near) by (apply sized_intro; reflexivity).
  destruct (angular_supported (FS no_libm) true (@repo_grids (FS no_libm)) LebedevLaikov 6 H) as (a & A1 & A2 & A3 & A4); [vm_compute; reflexivity|vm_compute; reflexivity|].
  destruct (spherical_spec true 1 6 ex_near a ex_c Rs A2) as (o & O1 & _ & O3 & _).
  exists ex_near, a, ex_c, o. split; [exact Rs|]. split; [exact A1|]. split; [exact O1|]. intro C.
  rewrite (spherical_construct_closed true ex_near a ex_c (sized_wf _ _ _ _ Rs) (sized_wf _ _ _ _ A2)) in O1.
  assert (P : qpoints (sph_quad o) = map (shift_pt ex_c) (sph_points ex_near a)) by (injection O1 as <-; reflexivity).
  unfold sph_points in P. rewrite A3 in P. clear O1.
  assert (Lo : map (fun p => B2SF (px p)) (qpoints (sph_quad o)) = [x_one; x_low; x_one; x_one; x_one; x_one]).
  { rewrite P. vm_compute. reflexivity. }
  destruct x_values as (V1 & V2).
  assert (All : forall p, In p (qpoints (sph_quad o)) -> B2R (px p) = 1 - / 2 ^ 53 \/ B2R (px p) = 1).
  { intros p Hp. apply (in_map (fun p => B2SF (px p))) in Hp. rewrite Lo in Hp.
    assert (G : forall s, s = B2SF (px p) -> B2R (px p) = SF2R radix2 s) by (intros s ->; symmetry; apply SF2R_B2SF).
    cbn [In] in Hp. destruct Hp as [E|[E|[E|[E|[E|[E|[]]]]]]]; apply G in E; [right|left|right|right|right|right]; exact (eq_trans E V2) || exact (eq_trans E V1). }
  assert (Ex : exists p, In p (qpoints (sph_quad o)) /\ B2R (px p) = 1 - / 2 ^ 53).
  { assert (I : In x_low (map (fun p => B2SF (px p)) (qpoints (sph_quad o)))) by (rewrite Lo; right; left; reflexivity).
    apply in_map_iff in I. destruct I as (p & E & I). exists p. split; [exact I|]. exact (eq_trans (eq_sym (SF2R_B2SF 53 1024 (px p))) (eq_trans (f_equal (SF2R radix2) E) V1)). }
  destruct Ex as (p & Ip & Xp). destruct O3 as (_ & L1 & L2 & _). destruct (in_pair _ _ (qpoints (sph_quad o)) (qweights (sph_quad o)) p) as (w & Iw); [congruence|exact Ip|].
  unfold carried_about in C. apply (Permutation_in (act_about (real_pt ex_c) sp_inversion (real_pt p), B2R w)) in C.
  - apply in_map_iff in C. destruct C as ([q v] & E & Iq). unfold real_node in E. cbn [fst snd] in E. apply in_combine_l in Iq. apply All in Iq.
    pose proof (f_equal (fun z => fst (fst (fst z))) E) as E1. cbn [fst] in E1. assert (Xc : B2R (px ex_c) = 1) by (rewrite <- SF2R_B2SF; exact V2).
    assert (E2 : B2R (px q) = 1 + / 2 ^ 53).
    { refine (eq_trans E1 _). transitivity (- (B2R (px p) - B2R (px ex_c)) + B2R (px ex_c)); [reflexivity|]. rewrite Xc. refine (eq_trans (f_equal (fun v => - (v - 1) + 1) Xp) _). ring. }
    assert (U : 0 < / 2 ^ 53) by (apply Rinv_0_lt_compat, pow_lt; lra). assert (K : forall s e : R, (s = 1 - e \/ s = 1) -> s = 1 + e -> 0 < e -> False) by (intros s e [G|G] ? ?; lra). exact (K _ _ Iq E2 U).
  - apply in_map_iff. exists (real_pt p, B2R w). split; [reflexivity|]. apply in_map_iff. exists (p, w). split; [reflexivity|exact Iw].
Qed.
