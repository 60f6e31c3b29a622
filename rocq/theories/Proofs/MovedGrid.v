(** C59: whole recentred grids as stored, against the exact grid and against the integral over space. *)
From Coq Require Import ZArith List Bool Reals Lra Lia Psatz Permutation.
From Coquelicot Require Import Coquelicot.
From Flocq Require Import IEEE754.BinarySingleNaN.
From Verif Require Import Base.Outcome Base.OutcomeFacts Base.Scalar Base.RScalar Base.FScalar Model.Quadrature Model.Primitive Model.Radial Model.S2Tables Model.S2
  Model.Composite Model.Factory Model.Grids Spec.QuadSpec Spec.Sums Spec.SphereSpec Spec.RealRules Spec.RadialSpec Spec.SphereReal
  Spec.SphereInt Spec.SpaceSpec Spec.FactorySpec Spec.PolySpec Spec.MomentSpec Spec.FloatSpec Spec.LibmSpec Spec.GridFloatSpec
  Spec.ErrorSpec Spec.RadialErrSpec Spec.MovedSpec
  Proofs.Sizes Proofs.GaussError Proofs.Tab Proofs.SumFacts Proofs.RadialReal Proofs.RadialRule Proofs.RadialFloat Proofs.RadialFloatLib Proofs.SphereIntFacts Proofs.GridFloat Proofs.GridFloatSum
  Proofs.CompositeProps Proofs.GridExact Proofs.Space Proofs.Moments Proofs.MomentGrid Proofs.MomentLimit Proofs.MomentFloat Proofs.RadialErrGrid Proofs.Moved.
Import ListNotations.
Local Open Scope R_scope.

Section Factories.
Variables (m : libm) (d D : R) (cs : list (F64 * F64 * F64)).
Hypothesis A : accurate m d.
Hypothesis AP : accurate_pow m d.
Hypothesis AL : accurate_log m d.
Hypothesis Hd : d <= / 2 ^ 50.
Hypothesis HD : 0 <= D <= 2 ^ 900.
Hypothesis Hk : INR (length cs) <= 2 ^ 52.
Hypothesis Hcs : List.Forall (centre_within D) cs.
Notation moved_error t := (point_error d t + 8 * INR (length cs) * ulp53).
Notation near t o' o := (near_quads (moved_error t) D (last (map real_pt cs) (0, 0, 0)) (qpoints (sph_quad o')) (qweights (sph_quad o'))
      (qpoints (sph_quad o)) (qweights (sph_quad o)) (weight_error d t)).

Lemma error_unit : forall t : rtraits (FS m), sane_traits t -> 0 <= point_error d t <= / 1000 /\ 0 <= weight_error d t <= / 500.
Proof.
  intros t St. pose proof (acc_pow_pos m d AP) as D0. destruct (errors_small m d t (conj D0 Hd) St) as (E1 & E2).
  unfold point_error, weight_error, ulp53. lra.
Qed.

Lemma moved_unpruned : forall dbg rq k (t : rtraits (FS m)) f n, In (rq, k) schemes -> rkind_of t = k -> sane_traits t -> transcribed f n ->
  exists (o' : sphobj (FS m)) (o : sphobj RS),
    (let* g := generate_grid_unpruned (@repo_grids (FS m)) dbg (mkUnpruned rq (Some t) (AQ f) (Z.of_nat n)) in recenters g cs) = Ok o' /\
    (let* g := generate_grid_unpruned (@repo_grids RS) dbg (mkUnpruned rq (Some (real_traits t)) (AQ f) (Z.of_nat n)) in recenters g (map real_pt cs)) = Ok o /\
    near t o' o.
Proof.
  intros dbg rq k t f n Hin Hkd St Hf. destruct (error_unit t St) as (PE & _).
  destruct (grid_unpruned m d dbg rq k t f n A AP AL Hd Hin Hkd St Hf) as (gf & g & G1 & G2 & _ & _ & C).
  destruct (recentred m (point_error d t) (weight_error d t) D cs gf g ltac:(lra) HD Hk (unpruned_centre _ _ _ _ _ _ _ _ G1) (unpruned_centre _ _ _ _ _ _ _ _ G2) Hcs C) as (o' & o & R1 & R2 & R3 & R4).
  exists o', o. rewrite G1, G2. cbn [bind]. split; [exact R1|]. split; [exact R2|]. rewrite R3 in R4. exact R4.
Qed.
Lemma moved_pruned : forall dbg rq k (t : rtraits (FS m)) f rs, In (rq, k) schemes -> rkind_of t = k -> sane_traits t -> (1 <= rt_npts t)%nat ->
  List.Forall (fun r => r_aq r = AQ f /\ transcribed f (Z.to_nat (r_asz r))) rs ->
  (exists rest, map r_st rs = 0%nat :: rest /\ increasing (0%nat :: rest) /\ List.Forall (fun i => (i < rt_npts t - 1)%nat) rest) ->
  exists (o' : sphobj (FS m)) (o : sphobj RS),
    (let* g := generate_grid_pruned (@repo_grids (FS m)) dbg (mkPruned rq (Some t) rs) in recenters g cs) = Ok o' /\
    (let* g := generate_grid_pruned (@repo_grids RS) dbg (mkPruned rq (Some (real_traits t)) rs) in recenters g (map real_pt cs)) = Ok o /\
    near t o' o.
Proof.
  intros dbg rq k t f rs Hin Hkd St Hn Hrs Hacc. destruct (error_unit t St) as (PE & _).
  destruct (grid_pruned m d dbg rq k t f rs A AP AL Hd Hin Hkd St Hn Hrs Hacc) as (gf & g & G1 & G2 & C).
  destruct (recentred m (point_error d t) (weight_error d t) D cs gf g ltac:(lra) HD Hk (pruned_centre _ _ _ _ _ _ _ G1) (pruned_centre _ _ _ _ _ _ _ G2) Hcs C) as (o' & o & R1 & R2 & R3 & R4).
  exists o', o. rewrite G1, G2. cbn [bind]. split; [exact R1|]. split; [exact R2|]. rewrite R3 in R4. exact R4.
Qed.
Lemma scheme_centre : forall (S : Scalar) grids dbg sch (u : unpruned_spec S) o,
  (let* p := create_pruned_spec sch u in generate_grid_pruned grids dbg p) = Ok o -> sph_center o = (s0, s0, s0).
Proof. intros S grids dbg sch u o H. destruct (create_pruned_spec sch u); [|discriminate H..]. cbn [bind] in H. apply (pruned_centre_any S grids dbg _ o H). Qed.
Lemma moved_schemes : forall dbg sch rq k (t : rtraits (FS m)) f n, In (rq, k) schemes -> rkind_of t = k -> sane_traits t -> (5 <= rt_npts t)%nat ->
  transcribed f n -> algebraic_order_by_npts f (Z.of_nat n) <> (-1)%Z ->
  exists (o' : sphobj (FS m)) (o : sphobj RS),
    (let* p := create_pruned_spec sch (mkUnpruned rq (Some t) (AQ f) (Z.of_nat n)) in
     let* g := generate_grid_pruned (@repo_grids (FS m)) dbg p in recenters g cs) = Ok o' /\
    (let* p := create_pruned_spec sch (mkUnpruned rq (Some (real_traits t)) (AQ f) (Z.of_nat n)) in
     let* g := generate_grid_pruned (@repo_grids RS) dbg p in recenters g (map real_pt cs)) = Ok o /\
    near t o' o.
Proof.
  intros dbg sch rq k t f n Hin Hkd St Hn Hf Ho. destruct (error_unit t St) as (PE & _).
  destruct (grid_schemes m d dbg sch rq k t f n A AP AL Hd Hin Hkd St Hn Hf Ho) as (gf & g & G1 & G2 & C).
  destruct (recentred m (point_error d t) (weight_error d t) D cs gf g ltac:(lra) HD Hk (scheme_centre _ _ _ _ _ _ G1) (scheme_centre _ _ _ _ _ _ G2) Hcs C) as (o' & o & R1 & R2 & R3 & R4).
  exists o', o. destruct (create_pruned_spec sch (mkUnpruned rq (Some t) (AQ f) (Z.of_nat n))); [|discriminate G1..].
  destruct (create_pruned_spec sch (mkUnpruned rq (Some (real_traits t)) (AQ f) (Z.of_nat n))); [|discriminate G2..]. cbn [bind] in *.
  rewrite G1, G2. cbn [bind]. split; [exact R1|]. split; [exact R2|]. rewrite R3 in R4. exact R4.
Qed.
End Factories.

(** ** A radial envelope summed over the recentred exact grid *)
Lemma shell_radial : forall d tol (a : quad (@pt3 RS) R) G H c r W, works d tol a -> (forall x, 0 <= x -> 0 <= G x) -> covered (/ 1000) G H -> 0 <= r -> abs_weight a <= W ->
  Rsum (map (fun pw : @pt3 RS * R => Rabs (snd pw) * G (dist3 (at_radius c r (fst pw)) c)) (nodes a)) <= W * H r.
Proof.
  intros d tol a G H c r W ((n & Sz) & Nr & _ & _ & Sm) G0 Ge Hr HW.
  assert (Gr : 0 <= H r).
  { pose proof (Ge r 1 Hr) as Q. rewrite Rmult_1_r in Q. assert (Z : Rabs (1 - 1) <= / 1000) by (rewrite Rminus_diag_eq, Rabs_R0 by reflexivity; lra). specialize (Q Z). pose proof (G0 r Hr). lra. }
  assert (B : forall u, In u (qpoints a) -> G (dist3 (at_radius c r u) c) <= H r).
  { intros [[x y] z] Hin. rewrite List.Forall_forall in Nr. specialize (Nr _ Hin). destruct c as [[a0 b0] c0].
    rewrite (Space.dist_at_radius (a0, b0, c0) r x y z Hr).
    assert (S1 : Rabs (sqrt (x * x + y * y + z * z) - 1) <= PolyGrid.sph_err) by (apply Space.sqrt_near; [unfold PolyGrid.sph_err; lra|nra|exact Nr]).
    apply (Ge r _ Hr). unfold PolyGrid.sph_err in S1. lra. }
  assert (L : forall l : list (@pt3 RS * R), (forall u v, In (u, v) l -> G (dist3 (at_radius c r u) c) <= H r) ->
    Rsum (map (fun pw : @pt3 RS * R => Rabs (snd pw) * G (dist3 (at_radius c r (fst pw)) c)) l) <= H r * Rsum (map (fun pw => Rabs (snd pw)) l)).
  { unfold Rsum. induction l as [|[u v] l IH]; intro HH; cbn [map fold_right fst snd]; [lra|].
    rewrite Rmult_plus_distr_l. apply Rplus_le_compat; [|apply IH; intros u' v' H'; apply (HH u' v'); right; exact H'].
    rewrite Rmult_comm. apply Rmult_le_compat_r; [apply Rabs_pos|]. apply (HH u v). left. reflexivity. }
  eapply Rle_trans; [apply L; intros u v Hin; apply B; unfold nodes in Hin; apply in_combine_l in Hin; exact Hin|].
  assert (E : Rsum (map (fun pw : @pt3 RS * R => Rabs (snd pw)) (nodes a)) = abs_weight a).
  { unfold abs_weight. rewrite <- (sized_snd n a Sz), map_map. reflexivity. }
  rewrite E, Rmult_comm. apply Rmult_le_compat_r; assumption.
Qed.

Lemma sum3_nodes : forall (F : @pt3 RS -> R) (q : quad (@pt3 RS) R), sum3 (qpoints q) (qweights q) (fun x y z => F (x, y, z)) = integrate F q.
Proof.
  intros F q. rewrite integrate_nodes. unfold sum3, nodes, Rsum. f_equal. apply map_ext. intros [[[x y] z] w]. reflexivity.
Qed.
Lemma sum3_abs_nodes : forall (F : @pt3 RS -> R) (q : quad (@pt3 RS) R), sum3_abs (qpoints q) (qweights q) (fun x y z => F (x, y, z))
  = Rsum (map (fun pw : @pt3 RS * R => Rabs (snd pw) * F (fst pw)) (nodes q)).
Proof. intros F q. unfold sum3_abs, nodes, Rsum. f_equal. apply map_ext. intros [[[x y] z] w]. reflexivity. Qed.

(** The sum of a radial envelope over the exact grid is at most W times the radial rule. *)
Lemma scheme_radial : forall dbg sch rq k (t : rtraits RS) f n cs d tol W G H o, In (rq, k) schemes -> rkind_of t = k -> rt_valid t -> (5 <= rt_npts t)%nat ->
  algebraic_order_by_npts f n <> (-1)%Z -> List.Forall (fun s => exact_for f d tol s /\ weight_max f s <= W) (scheme_sizes sch f n) ->
  (forall x, 0 <= x -> 0 <= G x) -> covered (/ 1000) G H -> let c := last cs (0, 0, 0) in
  (let* p := create_pruned_spec sch (mkUnpruned rq (Some t) (AQ f) n) in let* o := generate_grid_pruned repo_grids dbg p in recenters o cs) = Ok o ->
  exists q, @radial_generate RS t = Ok q /\
    sum3_abs (qpoints (sph_quad o)) (qweights (sph_quad o)) (fun x y z => G (dist3 (x, y, z) c)) <= W * apply_rule q (fun r => r * r * H r).
Proof.
  intros dbg sch rq k t f n cs d tol W G H o Hin Hk V Hn Ho Hs G0 HC c O.
  destruct (scheme_spec sch rq t f n Hn Ho) as (rs & S1 & S2 & S3 & S4).
  assert (Hrs : List.Forall (fun r => r_aq r = AQ f /\ exact_for f d tol (r_asz r)) rs).
  { apply List.Forall_forall. intros r Hr. split; [rewrite List.Forall_forall in S2; apply S2; exact Hr|].
    rewrite List.Forall_forall in Hs. apply Hs. rewrite <- S3. apply in_map. exact Hr. }
  assert (Hws : List.Forall (fun r => weight_max f (r_asz r) <= W) rs).
  { apply List.Forall_forall. intros r Hr. rewrite List.Forall_forall in Hs. apply Hs. rewrite <- S3. apply in_map. exact Hr. }
  destruct (pruned_shells dbg rq k t f rs cs d tol Hin Hk ltac:(lia) Hrs S4) as (o' & r & rgs & quads & O1 & Gr & Qc & Q2 & O5 & LR & O7).
  assert (EO : o' = o) by (rewrite S1 in O; cbn [bind] in O; pose proof (eq_trans (eq_sym O1) O) as X; injection X as X; exact X). subst o'.
  exists (qpoints r, qweights r). split; [exact Gr|].
  set (b := fun x => W * H x). set (env := fun p : @pt3 RS => G (dist3 p c)).
  assert (FT : List.Forall (fun a => List.Forall (under env c b a) (nodes r)) quads).
  { destruct (radial_shape _ _ V Gr) as (_ & _ & _ & Pos & Wpos). cbn [fst snd] in Pos, Wpos.
    assert (WQ : List.Forall (fun a => abs_weight a <= W) quads).
    { clear -Qc Hws Hrs. revert Hws Hrs. induction Qc as [|reg a rs quads Ha Qc IH]; intros Hws Hrs; [constructor|].
      inversion Hws as [|? ? W1 W2]; subst. inversion Hrs as [|? ? [R0 R1] R2]; subst. constructor; [|apply IH; assumption].
      eapply Rle_trans; [|exact W1]. destruct R1 as (O & C & _).
      assert (Z0 : r_asz reg = Z.of_nat (Z.to_nat (r_asz reg))).
      { rewrite Z2Nat.id; [reflexivity|]. destruct (r_asz reg); try lia. exfalso. apply O. destruct f; reflexivity. }
      rewrite Z0. apply (weights_bounded f dbg); [rewrite <- Z0; exact O|exact C|exact Ha]. }
    apply List.Forall_forall. intros a Ha. rewrite List.Forall_forall in WQ, Q2. specialize (WQ a Ha). specialize (Q2 a Ha).
    apply List.Forall_forall. intros [x w] Hx'. unfold nodes in Hx'. pose proof (in_combine_l _ _ _ _ Hx') as H1. pose proof (in_combine_r _ _ _ _ Hx') as H2.
    apply Pos in H1. apply Wpos in H2. split; cbn [fst snd]; [lra|]. apply (shell_radial d tol a G H c x W Q2 G0 HC); [lra|exact WQ]. }
  pose proof (regions_abs env c b (nodes r) rgs quads 0%nat O5 LR FT) as C2. cbn [skipn] in C2.
  assert (PA := Rsum_perm _ _ (Permutation_map (fun pw : @pt3 RS * R => Rabs (snd pw) * env (fst pw)) O7)).
  change (fun x y z : R => G (dist3 (x, y, z) c)) with (fun x y z : R => env (x, y, z)). rewrite sum3_abs_nodes.
  eapply Rle_trans; [right; exact PA|]. eapply Rle_trans; [exact C2|]. right.
  etransitivity; [exact (radial_sum_rule r _)|]. unfold apply_rule. rewrite <- wsum_scal. apply wsum_fext. intros x _. unfold b. ring.
Qed.

Lemma moved_integral : forall m dl dbg sch rq k (t : rtraits (FS m)) f n cs g G P d tol W D E H I e J e' K e'',
  accurate m dl -> accurate_pow m dl -> accurate_log m dl -> dl <= / 2 ^ 50 -> 0 <= D <= 2 ^ 900 -> INR (length cs) <= 2 ^ 52 -> List.Forall (centre_within D) cs ->
  In (rq, k) schemes -> rkind_of t = k -> sane_traits t -> (5 <= rt_npts t)%nat -> algebraic_order_by_npts f n <> (-1)%Z ->
  List.Forall (fun s => exact_for f d tol s /\ weight_max f s <= W) (scheme_sizes sch f n) -> 0 <= tol -> 0 <= W ->
  p3deg_le P d -> steady (/ 10 ^ 15) g G -> let c := last (map real_pt cs) (0, 0, 0) in let s := point_error dl t + 8 * INR (length cs) * ulp53 in s <= / 500 ->
  tempered_about c D (/ 500) (moment c g P) (fun p => E (dist3 p c)) -> (forall r, 0 <= r -> 0 <= E r) -> covered (/ 1000) E H ->
  rated (real_traits t) (fun r => r * r * sphere_int (fun x y z => moment c g P (at_radius c r (x, y, z)))) I e ->
  rated (real_traits t) (fun r => r * r * (p3mag P r * G r)) J e' -> rated (real_traits t) (fun r => r * r * H r) K e'' ->
  exists o : sphobj (FS m),
    (let* p := create_pruned_spec sch (mkUnpruned rq (Some t) (AQ f) n) in
     let* g := generate_grid_pruned (@repo_grids (FS m)) dbg p in recenters g cs) = Ok o /\
    space_integral c (moment c g P) I /\
    Rabs (sum3 (map real_pt (qpoints (sph_quad o))) (map B2R (qweights (sph_quad o))) (fun x y z => moment c g P (x, y, z)) - I)
    <= e + 2 * tol * (INR d + 1) ^ 2 * (J + e') + 1.1 * W * (s + weight_error dl t) * (K + e'').
Proof.
  intros m dl dbg sch rq k t f n cs g G P d tol W D E H I e J e' K e'' A AP AL Hd HD Hk Hcs Hin Hkd St Hn Ho Hs T0 W0 HP HG c s Hsm TE E0 HC Rf RG RH.
  assert (L : In n (scheme_sizes sch f n)) by (destruct sch; cbn; auto).
  assert (Hx : exact_for f d tol n /\ weight_max f n <= W) by (rewrite List.Forall_forall in Hs; apply (Hs n L)).
  assert (N0 : n = Z.of_nat (Z.to_nat n)).
  { rewrite Z2Nat.id; [reflexivity|]. destruct n; try lia. exfalso. apply Ho. destruct f; reflexivity. }
  assert (TR : transcribed f (Z.to_nat n)) by (destruct Hx as ((_ & C & _) & _); intros ->; cbn [checked] in C; lia).
  pose proof Ho as Ho'. rewrite N0 in Ho'.
  destruct (moved_schemes m dl D cs A AP AL Hd HD Hk Hcs dbg sch rq k t f (Z.to_nat n) Hin Hkd St Hn TR Ho') as (o' & o & O1 & O2 & NQ).
  rewrite <- N0 in O1, O2. exists o'. split; [exact O1|]. split; [exact (proj1 Rf)|]. fold c s in NQ.
  assert (Hn' : (5 <= rt_npts (real_traits t))%nat) by (rewrite npts_real; exact Hn).
  assert (Hk' : rkind_of (real_traits t) = k) by (rewrite kind_real; exact Hkd).
  pose proof (sane_valid m t St) as V. destruct (error_unit m dl AP Hd t St) as (PE & WE).
  assert (S0 : 0 <= s).
  { unfold s, ulp53. apply Rplus_le_le_0_compat; [lra|]. apply Rmult_le_pos; [pose proof (pos_INR (length cs)); lra|]. apply Rlt_le, Rinv_0_lt_compat, pow_lt; lra. }
  pose proof (near_sum (moment c g P) (fun p => E (dist3 p c)) (/ 500) s (weight_error dl t) D c _ _ _ _ TE (conj S0 Hsm) (proj1 WE) NQ) as B1. cbv beta in B1.
  assert (Hs' : List.Forall (exact_for f d tol) (scheme_sizes sch f n)) by (revert Hs; apply List.Forall_impl; tauto).
  destruct (scheme_rate dbg sch rq k (real_traits t) f n (map real_pt cs) g G P d tol I e J e' Hin Hk' V Hn' Ho Hs' T0 HP HG Rf RG) as (o2 & O3 & _ & B2).
  assert (EO : o2 = o) by (pose proof (eq_trans (eq_sym O2) O3) as X; injection X as <-; reflexivity). subst o2. fold c in B2.
  destruct (scheme_radial dbg sch rq k (real_traits t) f n (map real_pt cs) d tol W E H o Hin Hk' V Hn' Ho Hs E0 HC O2) as (q & Q & B3). fold c in B3.
  pose proof (rated_le _ _ _ _ q RH Q) as EH. match type of B1 with Rabs (_ - ?Y) <= _ => assert (SN : Y = integrate (moment c g P) (sph_quad o)) by exact (sum3_nodes (moment c g P) (sph_quad o)); rewrite SN in B1; clear SN end.
  match type of B1 with Rabs (?X - ?Y) <= _ => replace (X - I) with ((X - Y) + (Y - I)) by ring end.
  eapply Rle_trans; [apply Rabs_triang|]. set (a := weight_error dl t) in *.
  match type of B3 with ?x <= W * ?y => set (X := x) in *; set (Y := y) in * end.
  assert (X0 : 0 <= X).
  { unfold X, sum3_abs. clear - E0. induction (combine _ _) as [|[v w] l IH]; cbn [map fold_right fst snd]; [lra|].
    apply Rplus_le_le_0_compat; [|exact IH]. apply Rmult_le_pos; [apply Rabs_pos|]. apply E0. destruct c as [[? ?] ?]. unfold dist3. apply sqrt_pos. }
  assert (Z1 : X <= W * (K + e'')) by (eapply Rle_trans; [exact B3|]; apply Rmult_le_compat_l; assumption).
  assert (Z2 : (s + a + s * a) * X <= 1.1 * W * (s + a) * (K + e'')).
  { assert (s * a <= / 500 * a) by (apply Rmult_le_compat_r; lra).
    apply Rle_trans with (1.1 * (s + a) * X); [apply Rmult_le_compat_r; lra|].
    replace (1.1 * W * (s + a) * (K + e'')) with (1.1 * (s + a) * (W * (K + e''))) by ring. apply Rmult_le_compat_l; [lra|exact Z1]. }
  lra.
Qed.
