(** Whole spherical grids in binary64: products, regions, factories. *)
From Coq Require Import ZArith List Bool Reals Lra Lia Psatz.
From Flocq Require Import IEEE754.BinarySingleNaN Core.
From Verif Require Import Base.Outcome Base.OutcomeFacts Base.Scalar Base.RScalar Base.FScalar Model.Quadrature Model.Radial Model.S2Tables Model.S2
  Model.Composite Model.Factory Model.Grids Spec.RuleSpec Spec.QuadSpec Spec.SphereSpec Spec.TraitsSpec Spec.FactorySpec Spec.FloatSpec Spec.LibmSpec Spec.GridFloatSpec
  Proofs.Tab Proofs.Sizes Proofs.TraitsFacts Proofs.CompositeFacts Proofs.PrunedFacts Proofs.CompositeProps Proofs.PrunedRelease Proofs.FactoryFacts Proofs.PruningFacts Proofs.FactoryEx
  Proofs.FloatOps Proofs.FloatSphere Proofs.FloatErr Proofs.RadialReal Proofs.RadialRule Proofs.RadialFloat Proofs.RadialFloatRule Proofs.RadialFloatSchemes
  Proofs.RadialBounds Proofs.AngularFloat.
Import ListNotations.
Local Open Scope R_scope.

(** ** Lists *)
Section Lists2.
Variables A A' B B' C C' : Type.
Lemma Forall2_nth : forall (P : A -> A' -> Prop) l l', length l = length l' ->
  (forall i x y, nth_error l i = Some x -> nth_error l' i = Some y -> P x y) -> Forall2 P l l'.
Proof.
  intros P l. induction l as [|x l IH]; intros [|y l'] L H; try discriminate; constructor.
  - apply (H 0%nat); reflexivity.
  - apply IH; [injection L; auto|]. intros i. apply (H (S i)).
Qed.
Lemma Forall2_mono : forall (P Q : A -> A' -> Prop) l l', (forall x y, P x y -> Q x y) -> Forall2 P l l' -> Forall2 Q l l'.
Proof. intros P Q l l' H F. induction F; constructor; auto. Qed.
Lemma Forall2_maps : forall (P : A -> A' -> Prop) (Q : B -> B' -> Prop) f f' l l', (forall x y, P x y -> Q (f x) (f' y)) ->
  Forall2 P l l' -> Forall2 Q (map f l) (map f' l').
Proof. intros P Q f f' l l' H F. induction F; cbn [map]; constructor; auto. Qed.
Lemma Forall2_combine : forall (P : A -> A' -> Prop) (Q : B -> B' -> Prop) l l', Forall2 P l l' -> forall k k', Forall2 Q k k' ->
  Forall2 (fun x y => P (fst x) (fst y) /\ Q (snd x) (snd y)) (combine l k) (combine l' k').
Proof.
  intros P Q l l' F. induction F as [|x y l l' H F IH]; intros k k' G; [constructor|]. destruct G; cbn [combine]; constructor; auto.
Qed.
Lemma Forall2_firstn : forall (P : A -> A' -> Prop) l l', Forall2 P l l' -> forall k, Forall2 P (firstn k l) (firstn k l').
Proof. intros P l l' F. induction F; intros [|k]; cbn [firstn]; constructor; auto. Qed.
Lemma Forall2_skipn : forall (P : A -> A' -> Prop) l l', Forall2 P l l' -> forall k, Forall2 P (skipn k l) (skipn k l').
Proof. intros P l l' F. induction F; intros [|k]; cbn [skipn]; try constructor; auto. Qed.
Lemma Forall2_flat_map : forall (P : A -> A' -> Prop) (Q : B -> B' -> Prop) f f' l l', (forall x y, P x y -> Forall2 Q (f x) (f' y)) ->
  Forall2 P l l' -> Forall2 Q (flat_map f l) (flat_map f' l').
Proof. intros P Q f f' l l' H F. induction F; cbn [flat_map]; [constructor|]. apply Forall2_app; auto. Qed.
End Lists2.
Lemma Forall2_grid : forall A A' B B' C C' (P : A -> A' -> Prop) (Q : B -> B' -> Prop) (W : C -> C' -> Prop) op op' la la' lb lb',
  (forall x x' y y', P x x' -> Q y y' -> W (op x y) (op' x' y')) -> Forall2 P la la' -> Forall2 Q lb lb' ->
  Forall2 W (grid op la lb) (grid op' la' lb').
Proof.
  intros A A' B B' C C' P Q W op op' la la' lb lb' H FA FB. unfold grid. apply (Forall2_flat_map _ _ _ _ Q); [|exact FB].
  intros y y' Hy. apply (Forall2_maps _ _ _ _ P); [|exact FA]. intros x x' Hx. apply H; auto.
Qed.

(** ** Radial rules *)
Definition radrel (er ew : R) (rf : quad F64 F64) (r : quad R R) : Prop :=
  Forall2 (lrel er 220 220) (qpoints rf) (qpoints r) /\ Forall2 (lrel ew 260 260) (qweights rf) (qweights r).

Lemma rel_rules_radrel : forall (qf : list F64 * list F64) t (q : list R * list R) er ew, rel_rules qf q er ew ->
  @radial_generate RS t = Ok q -> (forall i, (i < rt_npts t)%nat -> sized_pw t i) -> 0 <= er -> 0 <= ew ->
  Forall2 (lrel er 220 220) (fst qf) (fst q) /\ Forall2 (lrel ew 260 260) (snd qf) (snd q).
Proof.
  intros qf t q er ew (L1 & L2 & P & W) E S He Hw. rewrite radial_real in E. injection E as <-. cbn [fst snd] in *.
  split; apply Forall2_nth; auto.
  - intros i x v Hx Hv. assert (Hi : (i < rt_npts t)%nat) by (rewrite <- (tab_length (rt_npts t) (fun i => Tr t (bx t i))); apply nth_error_Some; congruence).
    split; [apply rel_of_close; [exact He|apply (P i); auto]|]. pose proof (nth_error_tab (rt_npts t) (fun i => Tr t (bx t i)) i Hi) as N.
    rewrite N in Hv. injection Hv as <-. apply pw_lim, S; auto.
  - intros i x v Hx Hv. assert (Hi : (i < rt_npts t)%nat) by (rewrite <- (tab_length (rt_npts t) (fun i => bw t i * Jr t (bx t i))); apply nth_error_Some; congruence).
    split; [apply rel_of_close; [exact Hw|apply (W i); auto]|]. pose proof (nth_error_tab (rt_npts t) (fun i => bw t i * Jr t (bx t i)) i Hi) as N.
    rewrite N in Hv. injection Hv as <-. apply pw_lim, S; auto.
Qed.

Lemma u_exact : u = / 2 ^ 53.
Proof. unfold u. rewrite pow_IZR. change (Z.of_nat 53) with 53%Z. simpl. reflexivity. Qed.
Lemma acc_pow_pos : forall m d, accurate_pow m d -> 0 <= d.
Proof.
  intros m d A. destruct (f_of_small 1 ltac:(lia)) as (F & E). specialize (A (f_of 1 0) (f_of 1 0) F F). rewrite !E in A.
  rewrite Rpower_1 in A by lra. destruct A as (_ & A).
  { lra. }
  { split; [rewrite <- Rinv_1; apply Rinv_le_contravar; [lra|]|]; apply pow_R1_Rle; lra. }
  rewrite (Rabs_pos_eq 1) in A by lra. pose proof (Rabs_pos (B2R (m_pow m (f_of 1 0) (f_of 1 0)) - 1)). lra.
Qed.

Lemma N_le : forall n k, (Z.of_nat n <= k)%Z -> 1 <= INR (n + 1) <= IZR (k + 1).
Proof. intros n k H. rewrite INR_IZR_INZ. split; apply IZR_le; lia. Qed.

Lemma errors_small : forall m d (t : rtraits (FS m)), 0 <= d <= / 2 ^ 50 -> sane_traits t ->
  0 <= radius_error d t <= 1 / 3000 /\ 0 <= radial_weight_error d t <= 1 / 2000.
Proof.
  intros m d t Hd H. pose proof u_exact as U. change u with ulp53 in U. set (v := ulp53) in *.
  assert (V : v = / 9007199254740992) by (rewrite U; apply f_equal; rewrite pow_IZR; reflexivity).
  assert (D : d <= 8 * v).
  { eapply Rle_trans; [apply Hd|]. rewrite V. replace (2 ^ 50) with 1125899906842624 by (rewrite pow_IZR; reflexivity). lra. }
  assert (Q : forall a b x k, 0 <= x -> x <= k -> 0 <= a -> a <= b -> 0 <= a * x <= b * k).
  { intros a b x k X K A B. split; [apply Rmult_le_pos; auto|apply Rmult_le_compat; auto]. }
  destruct t as [n R|M n R|n R|n R al]; cbn [sane_traits radius_error radial_weight_error] in *; fold v.
  - destruct H as (H & _). destruct (N_le _ _ H) as (N1 & N2). set (N := INR (n + 1)) in *.
    assert (P : 0 <= N ^ 2 <= 17190000000) by (split; [apply pow_le; lra|eapply Rle_trans; [apply pow_incr; split; [lra|exact N2]|simpl; lra]]).
    pose proof (Q (3 * d + 60 * v) (140 * v) (N ^ 2) 17190000000 ltac:(lra) ltac:(lra) ltac:(lra) ltac:(lra)).
    pose proof (Q (5 * d + 100 * v) (140 * v) (N ^ 2) 17190000000 ltac:(lra) ltac:(lra) ltac:(lra) ltac:(lra)). lra.
  - destruct H as (HM & H & _). destruct (N_le _ _ H) as (N1 & N2). set (N := INR (n + 1)) in *.
    assert (M2 : 1 <= INR M <= 2) by (split; [apply (le_INR 1)|apply (le_INR _ 2)]; lia).
    assert (P : 0 <= N <= 1073741825) by (split; [lra|exact N2]).
    pose proof (Q ((7 * INR M + 2) * v) (16 * v) N 1073741825 ltac:(lra) ltac:(lra) ltac:(nra) ltac:(nra)).
    pose proof (Q ((9 * INR M + 7) * v) (25 * v) N 1073741825 ltac:(lra) ltac:(lra) ltac:(nra) ltac:(nra)). lra.
  - destruct H as (H & _). destruct (N_le n 4000 ltac:(lia)) as (N1 & N2). change (4000 + 1)%Z with 4001%Z in N2. set (N := INR (n + 1)) in *.
    assert (P : 0 <= N ^ 3 <= 64100000000) by (split; [apply pow_le; lra|eapply Rle_trans; [apply pow_incr; split; [lra|exact N2]|simpl; lra]]).
    pose proof (Q (13 * v) (13 * v) (N ^ 3) 64100000000 ltac:(lra) ltac:(lra) ltac:(lra) ltac:(lra)).
    pose proof (Q (30 * v) (30 * v) N 4001 ltac:(lra) ltac:(lra) ltac:(lra) ltac:(lra)). lra.
  - destruct H as (H & _). destruct (N_le _ _ H) as (N1 & N2). set (N := INR (n + 1)) in *.
    assert (P : 0 <= N ^ 2 <= 4295200000) by (split; [apply pow_le; lra|eapply Rle_trans; [apply pow_incr; split; [lra|exact N2]|simpl; lra]]).
    pose proof (Q (12 * d + 300 * v) (600 * v) (N ^ 2) 4295200000 ltac:(lra) ltac:(lra) ltac:(lra) ltac:(lra)).
    pose proof (Q (16 * d + 400 * v) (600 * v) (N ^ 2) 4295200000 ltac:(lra) ltac:(lra) ltac:(lra) ltac:(lra)). lra.
Qed.

Lemma npts_real : forall m (t : rtraits (FS m)), rt_npts (real_traits t) = rt_npts t.
Proof. intros m [n R|M n R|n R|n R al]; reflexivity. Qed.
Lemma kind_real : forall m (t : rtraits (FS m)), rkind_of (real_traits t) = rkind_of t.
Proof. intros m [n R|M n R|n R|n R al]; reflexivity. Qed.

Lemma radial_rel : forall m d dbg (t : rtraits (FS m)), accurate m d -> accurate_pow m d -> accurate_log m d -> d <= / 2 ^ 50 -> sane_traits t ->
  exists rf r, construct dbg (@radial_generate (FS m) t) = Ok rf /\ construct dbg (@radial_generate RS (real_traits t)) = Ok r /\
    sized (rt_npts t) rf /\ sized (rt_npts t) r /\ radrel (radius_error d t) (radial_weight_error d t) rf r.
Proof.
  intros m d dbg t A AP AL Hd H. pose proof (acc_pow_pos m d AP) as D0. destruct (errors_small m d t (conj D0 Hd) H) as (E1 & E2).
  destruct (@radial_sized (FS m) dbg t) as (rf & R1 & R2). destruct (@radial_sized RS dbg (real_traits t)) as (r & S1 & S2). rewrite npts_real in S2.
  exists rf, r. split; [exact R1|]. split; [exact S1|]. split; [exact R2|]. split; [exact S2|].
  destruct (@radial_generate (FS m) t) as [qf| | | |] eqn:G; try discriminate.
  destruct (@radial_generate RS (real_traits t)) as [q| | | |] eqn:G'; try discriminate.
  assert (X : forall P W (g : list P * list W) (o : quad P W), construct dbg (Ok g) = Ok o -> qpoints o = fst g /\ qweights o = snd g).
  { clear. intros P W [gp gw] o C. unfold construct, quad_of in C. cbn [bind fst snd] in C. revert C. match goal with |- context [cassert dbg ?b] => destruct (cassert dbg b) end; cbn [bind]; intro C; try discriminate. injection C as <-. auto. }
  destruct (X _ _ _ _ R1) as (X1 & X2). destruct (X _ _ _ _ S1) as (Y1 & Y2). unfold radrel.
  assert (Z : Forall2 (lrel (radius_error d t) 220 220) (fst qf) (fst q) /\ Forall2 (lrel (radial_weight_error d t) 260 260) (snd qf) (snd q)).
  { assert (SP : forall s : F64, sane_scale s -> pw (B2R s) 100 100) by (intros s (_ & B); exact B).
    apply (rel_rules_radrel qf (real_traits t) q); [|exact G'| |lra|lra].
    - destruct t as [n R|M n R|n R|n R al]; cbn [sane_traits radius_error radial_weight_error real_traits] in *.
      + apply (becke_rule m d n R); tauto || lia.
      + apply (mhl_rule m d M n R); tauto || lia.
      + apply (mk_rule m d n R); tauto.
      + apply (ta_rule m d n R al); tauto.
    - rewrite npts_real. intros i Hi. destruct t as [n R|M n R|n R|n R al]; cbn [sane_traits real_traits rt_npts] in *.
      + apply becke_pw; [apply SP; tauto|exact Hi|lia].
      + apply mhl_pw; [tauto|apply SP; tauto|exact Hi|tauto].
      + apply mk_pw; [apply SP; tauto|exact Hi|tauto].
      + destruct H as (H & HR & (_ & HA) & HA2). apply ta_pw; [apply SP; exact HR| |exact Hi|lia].
        split; [|exact HA2]. destruct HA as [HA|(HA & _)]; [lra|]. assert (0 < / 2 ^ 100) by (apply Rinv_0_lt_compat, pow_lt; lra). lra. }
  split.
  - apply (F2_eq _ _ _ _ _ _ _ X1 Y1), Z.
  - apply (F2_eq _ _ _ _ _ _ _ X2 Y2), Z.
Qed.

(** ** Products *)
Definition point_bound (er : R) : R := 1.01 * er + 3 * u.
Definition weight_bound (er ew : R) : R := 1.01 * (ew + 2 * er) + 9 * u.
Definition relpt (e : R) (p : F64 * F64 * F64) (v : R * R * R) : Prop := rel (px p) (px v) e /\ rel (py p) (py v) e /\ rel (pz p) (pz v) e.

Section Products.
Variables (m : libm) (er ew : R).
Hypotheses (He : 0 <= er <= 1 / 3000) (Hw : 0 <= ew <= 1 / 2000).

Lemma coord_rel : forall (x y : F64) v w, lrel er 220 220 x v -> lrel u 140 100 y w -> rel (fmul x y) (v * w) (point_bound er).
Proof.
  intros x y v w A B. pose proof u_pos. pose proof u_small.
  destruct (lrel_mul _ _ _ _ _ _ _ _ _ _ A B ltac:(lra) ltac:(lra) ltac:(lia) ltac:(lia)) as (K & _).
  eapply rel_weak; [exact K|]. pose proof (err_mul er u ltac:(lra) ltac:(lra)). unfold point_bound. lra.
Qed.
Lemma scale_rel : forall (r : F64) (v : R) p q, lrel er 220 220 r v -> ptrel u p q ->
  relpt (point_bound er) (@scale_pt (FS m) r p : F64 * F64 * F64) (@scale_pt RS v q : R * R * R).
Proof. intros r v [[x y] z] [[x' y'] z'] A (B1 & B2 & B3). split; [|split]; apply coord_rel; auto. Qed.
Lemma wt_prod : forall (rw : F64 * F64) (vw : R * R) (y : F64) (w : R), lrel er 220 220 (fst rw) (fst vw) /\ lrel ew 260 260 (snd rw) (snd vw) ->
  lrel (4.1 * u) 140 104 y w -> rel (@sph_wt (FS m) rw y : F64) (@sph_wt RS vw w : R) (weight_bound er ew).
Proof.
  intros [r wr] [v wv] y w (A & B) C. cbn [fst snd] in *. pose proof u_pos. pose proof u_small.
  pose proof (lrel_mul _ _ _ _ _ _ _ _ _ _ B C ltac:(lra) ltac:(lra) ltac:(lia) ltac:(lia)) as K1.
  pose proof (err_mul ew (4.1 * u) ltac:(lra) ltac:(lra)) as M1.
  pose proof (lrel_mul _ _ _ _ _ _ _ _ _ _ A A ltac:(lra) ltac:(lra) ltac:(lia) ltac:(lia)) as K2.
  pose proof (err_mul er er ltac:(lra) ltac:(lra)) as M2.
  pose proof (lrel_weak _ _ _ (ew + 5.2 * u) _ _ _ _ K1 ltac:(lra) (le_n _) (le_n _)) as K1'.
  pose proof (lrel_weak _ _ _ (2.001 * er + 1.003 * u) _ _ _ _ K2 ltac:(lra) (le_n _) (le_n _)) as K2'.
  destruct (lrel_mul _ _ _ _ _ _ _ _ _ _ K1' K2' ltac:(lra) ltac:(lra) ltac:(lia) ltac:(lia)) as (K & _).
  pose proof (err_mul (ew + 5.2 * u) (2.001 * er + 1.003 * u) ltac:(lra) ltac:(lra)) as M3.
  change (@sph_wt (FS m) (r, wr) y) with (fmul (fmul wr y) (fmul r r)). change (@sph_wt RS (v, wv) w) with (wv * w * (v * v)).
  eapply rel_weak; [exact K|]. unfold weight_bound. lra.
Qed.

Variables (rf : quad F64 F64) (r : quad R R) (af : quad (F64 * F64 * F64) F64) (a : quad (R * R * R) R).
Hypotheses (HR : radrel er ew rf r) (HA : angrel af a).
Lemma product_rel : Forall2 (relpt (point_bound er)) (@sph_points (FS m) rf af) (@sph_points RS r a) /\
  Forall2 (fun x v => rel x v (weight_bound er ew)) (@sph_weights (FS m) rf af) (@sph_weights RS r a).
Proof.
  destruct HR as (R1 & R2). destruct HA as (A1 & A2). split.
  - unfold sph_points. apply (Forall2_grid _ _ _ _ _ _ (lrel er 220 220) (ptrel u)); auto. intros. apply scale_rel; auto.
  - unfold sph_weights. apply (Forall2_grid _ _ _ _ _ _ (fun x y => lrel er 220 220 (fst x) (fst y) /\ lrel ew 260 260 (snd x) (snd y)) (lrel (4.1 * u) 140 104)); auto.
    + intros. apply wt_prod; auto.
    + apply Forall2_combine; auto.
Qed.
End Products.

Lemma shift_rel : forall m e p v, relpt e p v ->
  close_pt e (@shift_pt (FS m) (s0, s0, s0) p : F64 * F64 * F64) (@shift_pt RS (s0, s0, s0) v : R * R * R).
Proof.
  intros m e [[x y] z] [[x' y'] z'] (A & B & C). cbn [px py pz fst snd] in A, B, C.
  assert (Z : forall (q : F64) (w : R), rel q w e -> rel_close (@sadd (FS m) q s0 : F64) (@sadd RS w s0 : R) e).
  { intros q w H. apply close_of_rel. change (@sadd RS w s0) with (w + 0). rewrite Rplus_0_r. apply add_zero. exact H. }
  split; [|split]; apply Z; assumption.
Qed.
Lemma close_grid : forall m e ew (pf : list (F64 * F64 * F64)) wf (p : list (R * R * R)) w,
  Forall2 (relpt e) pf p -> Forall2 (fun x v => rel x v ew) wf w ->
  close_quads (map (@shift_pt (FS m) (s0, s0, s0)) pf) wf (map (@shift_pt RS (s0, s0, s0)) p) w e ew.
Proof.
  intros m e ew pf wf p w A B. split.
  - apply (Forall2_maps _ _ _ _ (relpt e)); [|exact A]. intros. apply shift_rel. assumption.
  - apply (Forall2_mono _ _ _ _ _ _ (fun x v H => close_of_rel x v ew H) B).
Qed.
Lemma seg_rel : forall m er ew rf r b e, radrel er ew rf r -> radrel er ew (@seg (FS m) rf b e) (@seg RS r b e).
Proof. intros m er ew rf r b e (A & B). split; cbn [seg qpoints qweights]; apply Forall2_firstn, Forall2_skipn; assumption. Qed.

(** ** Factories *)
Lemma grid_unpruned : forall m d dbg rq k (t : rtraits (FS m)) f n, accurate m d -> accurate_pow m d -> accurate_log m d -> d <= / 2 ^ 50 ->
  In (rq, k) schemes -> rkind_of t = k -> sane_traits t -> transcribed f n ->
  exists (gf : sphobj (FS m)) (g : sphobj RS),
    generate_grid_unpruned (@repo_grids (FS m)) dbg (mkUnpruned rq (Some t) (AQ f) (Z.of_nat n)) = Ok gf /\
    generate_grid_unpruned (@repo_grids RS) dbg (mkUnpruned rq (Some (real_traits t)) (AQ f) (Z.of_nat n)) = Ok g /\
    sized (rt_npts t * n) (sph_quad gf) /\ sized (rt_npts t * n) (sph_quad g) /\
    close_quads (qpoints (sph_quad gf)) (qweights (sph_quad gf)) (qpoints (sph_quad g)) (qweights (sph_quad g)) (point_error d t) (weight_error d t).
Proof.
  intros m d dbg rq k t f n A AP AL Hd Hin Hk Ht Hf. pose proof (acc_pow_pos m d AP) as D0. destruct (errors_small m d t (conj D0 Hd) Ht) as (E1 & E2).
  destruct (radial_rel m d dbg t A AP AL Hd Ht) as (rf & r & R1 & R2 & R3 & R4 & R5).
  destruct (angular_rel m f dbg n Hf) as (af & a & A1 & A2 & A3 & A4 & A5).
  pose proof (sized_wf _ _ _ _ R3) as W1. pose proof (sized_wf _ _ _ _ R4) as W2. pose proof (sized_wf _ _ _ _ A3) as W3. pose proof (sized_wf _ _ _ _ A4) as W4.
  destruct (spherical_spec (S := FS m) dbg _ _ rf af (s0, s0, s0) R3 A3) as (gf & O1 & _ & O3 & _).
  destruct (spherical_spec (S := RS) dbg _ _ r a (s0, s0, s0) R4 A4) as (g & P1 & _ & P3 & _).
  exists gf, g. split; [|split; [|split; [exact O3|split; [exact P3|]]]].
  - unfold generate_grid_unpruned, generate_unpruned_grid. cbn [u_traits u_rq u_aq u_asz].
    unfold angular_construct. rewrite Nat2Z.id. rewrite A1. cbn [bind]. rewrite unpruned_impl_eq.
    rewrite (radial_direct dbg rq k t Hin Hk). rewrite R1. cbn [bind]. exact O1.
  - unfold generate_grid_unpruned, generate_unpruned_grid. cbn [u_traits u_rq u_aq u_asz].
    unfold angular_construct. rewrite Nat2Z.id. rewrite A2. cbn [bind]. rewrite unpruned_impl_eq.
    rewrite (radial_direct dbg rq k (real_traits t) Hin (eq_trans (kind_real m t) Hk)). rewrite R2. cbn [bind]. exact P1.
  - rewrite (spherical_construct_closed (S := FS m) dbg rf af (s0, s0, s0) W1 W3) in O1.
    rewrite (spherical_construct_closed (S := RS) dbg r a (s0, s0, s0) W2 W4) in P1.
    injection O1 as <-. injection P1 as <-. cbn [sph_quad qpoints qweights].
    destruct (product_rel m _ _ E1 E2 rf r af a R5 A5) as (Q1 & Q2). apply close_grid; assumption.
Qed.

Section PrunedValue.
Context {S : Scalar}.
Variable grids : afam -> Z -> @static_grid S.

Lemma rgp_any : forall dbg n (args : list (nat * aquad S)) p, (1 <= n)%nat -> rgp_construct true n args = Ok p -> rgp_construct dbg n args = Ok p.
Proof.
  intros [|] n args p Hn H; [exact H|]. destruct (rgp_construct_inv n args p Hn H) as (E1 & E2 & E3 & _ & _ & E6).
  rewrite construct_release. destruct args as [|x args]; [congruence|].
  destruct (Nat.eqb_spec (last (map fst (x :: args)) 0%nat) n) as [E|_]; [lia|]. destruct p as [i q]. cbn [rgp_idx rgp_quads] in *. subst. reflexivity.
Qed.

Lemma pruned_value : forall dbg rq k (t : rtraits S) f rs r (quads : list (aquad S)), In (rq, k) schemes -> rkind_of t = k ->
  List.Forall (fun r => r_aq r = AQ f) rs -> (1 <= rt_npts t)%nat -> accepted (rt_npts t) (map r_st rs) ->
  construct dbg (radial_generate t) = Ok r -> sized (rt_npts t) r ->
  Forall2 (fun reg a => construct dbg (s2_generate grids f (Z.to_nat (r_asz reg))) = Ok a /\ sized (Z.to_nat (r_asz reg)) a) rs quads ->
  let rgs := combine (ranges_of (map r_st rs) (rt_npts t)) quads in
  generate_grid_pruned grids dbg (mkPruned rq (Some t) rs)
  = Ok (mkSph (mkQuad (map (shift_pt (s0, s0, s0)) (flat_map (region_pts r) rgs)) (flat_map (region_wts r) rgs)) (s0, s0, s0)).
Proof.
  intros dbg rq k t f rs r quads Hin Hk Hf Hn Hacc R1 R2 Q rgs.
  assert (L : length (map r_st rs) = length quads) by (rewrite map_length; apply (Forall2_length' _ _ _ _ _ Q)).
  assert (F : map fst (combine (map r_st rs) quads : list (nat * aquad S)) = map r_st rs) by (apply map_fst_combine; auto). assert (G : map snd (combine (map r_st rs) quads : list (nat * aquad S)) = quads) by (apply map_snd_combine; auto).
  destruct (proj2 (partition_accepted_iff (rt_npts t) (combine (map r_st rs) quads : list (nat * aquad S)) Hn)) as (p & P).
  { rewrite F. exact Hacc. }
  pose proof (rgp_construct_inv (rt_npts t) _ p Hn P) as (E1 & E2 & E3 & E4 & E5 & E6).
  assert (HR : rgp_ranges p = Ok rgs).
  { destruct p as [pi pq]. cbn [rgp_idx rgp_quads] in *. subst pi pq. rewrite rgp_ranges_spec by exact E3. rewrite F, G. reflexivity. }
  assert (C : covers 0 (rt_npts t) (ranges_of (map r_st rs) (rt_npts t))).
  { rewrite <- F. apply ranges_cover; auto. destruct (combine (map r_st rs) quads); [congruence|discriminate]. }
  assert (GR : List.Forall (good_region r) rgs).
  { apply (covers_good _ quads 0 r); [rewrite (sized_npts _ _ _ _ R2); exact C|].
    clear - Q. induction Q as [|x y l l' H]; constructor; auto. apply (sized_wf _ _ _ _ (proj2 H)). }
  unfold generate_grid_pruned. cbn [p_traits p_rq p_regions]. rewrite pruned_grid_eq.
  rewrite (radial_direct dbg rq k t Hin Hk), R1. cbn [bind]. unfold make_pruned_grid.
  destruct rs as [|r0 rs]; [destruct Hacc as (rest & X & _); discriminate|].
  rewrite (same_family f _ Hf) by (inversion Hf; auto). assert (E0 : r_aq r0 = AQ f) by (inversion Hf; auto). rewrite E0.
  unfold make_pruned_grid_impl. rewrite (sized_npts _ _ _ _ R2).
  assert (Q1 : Forall2 (fun r a => construct dbg (s2_generate grids f (Z.to_nat (r_asz r))) = Ok a) (r0 :: rs) quads).
  { revert Q. apply Forall2_mono. intros x y H. apply H. }
  pose proof (add_regions_eq grids dbg f (rt_npts t) (r0 :: rs) rgp_empty quads Q1) as X.
  pose proof (rgp_any dbg _ _ p Hn P) as PD. unfold rgp_construct in PD. assert (X' := eq_trans X PD).
  etransitivity; [|apply (pruned_construct_closed dbg r p rgs (s0, s0, s0) (sized_wf _ _ _ _ R2) HR GR)].
  pose proof (f_equal (fun m => bind m (fun p => pruned_construct dbg r p (s0, s0, s0))) X') as X2. cbn [bind] in X2.
  etransitivity; [|exact X2].
  rewrite bind_assoc. reflexivity.
Qed.
End PrunedValue.

Lemma regions_rel : forall m f dbg rs, List.Forall (fun r => transcribed f (Z.to_nat (r_asz r))) rs ->
  exists (qf : list (aquad (FS m))) (q : list (aquad RS)),
    Forall2 (fun reg a => construct dbg (s2_generate (@repo_grids (FS m)) f (Z.to_nat (r_asz reg))) = Ok a /\ sized (Z.to_nat (r_asz reg)) a) rs qf /\
    Forall2 (fun reg a => construct dbg (s2_generate (@repo_grids RS) f (Z.to_nat (r_asz reg))) = Ok a /\ sized (Z.to_nat (r_asz reg)) a) rs q /\
    Forall2 angrel qf q.
Proof.
  intros m f dbg rs H. induction H as [|x rs Hx _ (qf & q & I1 & I2 & I3)].
  - exists [], []. split; [|split]; constructor.
  - destruct (angular_rel m f dbg _ Hx) as (af & a & A1 & A2 & A3 & A4 & A5). exists (af :: qf), (a :: q).
    split; [|split]; constructor; auto.
Qed.

Lemma grid_pruned : forall m d dbg rq k (t : rtraits (FS m)) f rs, accurate m d -> accurate_pow m d -> accurate_log m d -> d <= / 2 ^ 50 ->
  In (rq, k) schemes -> rkind_of t = k -> sane_traits t -> (1 <= rt_npts t)%nat ->
  List.Forall (fun r => r_aq r = AQ f /\ transcribed f (Z.to_nat (r_asz r))) rs ->
  (exists rest, map r_st rs = 0%nat :: rest /\ increasing (0%nat :: rest) /\ List.Forall (fun i => (i < rt_npts t - 1)%nat) rest) ->
  exists (gf : sphobj (FS m)) (g : sphobj RS),
    generate_grid_pruned (@repo_grids (FS m)) dbg (mkPruned rq (Some t) rs) = Ok gf /\
    generate_grid_pruned (@repo_grids RS) dbg (mkPruned rq (Some (real_traits t)) rs) = Ok g /\
    close_quads (qpoints (sph_quad gf)) (qweights (sph_quad gf)) (qpoints (sph_quad g)) (qweights (sph_quad g)) (point_error d t) (weight_error d t).
Proof.
  intros m d dbg rq k t f rs A AP AL Hd Hin Hk Ht Hn Hrs Hacc. pose proof (acc_pow_pos m d AP) as D0. destruct (errors_small m d t (conj D0 Hd) Ht) as (E1 & E2).
  assert (F1 : List.Forall (fun r => r_aq r = AQ f) rs) by (revert Hrs; apply Forall_impl; tauto).
  assert (F2 : List.Forall (fun r => transcribed f (Z.to_nat (r_asz r))) rs) by (revert Hrs; apply Forall_impl; tauto).
  destruct (radial_rel m d dbg t A AP AL Hd Ht) as (rf & r & R1 & R2 & R3 & R4 & R5).
  destruct (regions_rel m f dbg rs F2) as (qf & q & Q1 & Q2 & Q3).
  pose proof (pruned_value (S := FS m) repo_grids dbg rq k t f rs rf qf Hin Hk F1 Hn Hacc R1 R3 Q1) as V1.
  assert (V2 := pruned_value (S := RS) repo_grids dbg rq k (real_traits t) f rs r q Hin (eq_trans (kind_real m t) Hk) F1).
  rewrite npts_real in V2. specialize (V2 Hn Hacc R2 R4 Q2). cbv zeta in V1, V2.
  eexists. eexists. split; [exact V1|]. split; [exact V2|]. cbn [sph_quad qpoints qweights].
  set (rg := ranges_of (map r_st rs) (rt_npts t)).
  assert (RG : Forall2 (fun x y => fst x = fst y /\ angrel (snd x) (snd y)) (combine rg qf) (combine rg q)).
  { apply Forall2_combine; [|exact Q3]. clear. induction rg; constructor; auto. }
  apply close_grid; revert RG; apply Forall2_flat_map; intros [be x] [be' y] (E & X); cbn [fst snd] in E, X; subst be'; unfold region_pts, region_wts; cbn [fst snd];
    apply (product_rel m _ _ E1 E2); auto; apply seg_rel; exact R5.
Qed.

Lemma grid_schemes : forall m d dbg sch rq k (t : rtraits (FS m)) f n, accurate m d -> accurate_pow m d -> accurate_log m d -> d <= / 2 ^ 50 ->
  In (rq, k) schemes -> rkind_of t = k -> sane_traits t -> (5 <= rt_npts t)%nat -> transcribed f n -> algebraic_order_by_npts f (Z.of_nat n) <> (-1)%Z ->
  exists (gf : sphobj (FS m)) (g : sphobj RS),
    (let* p := create_pruned_spec sch (mkUnpruned rq (Some t) (AQ f) (Z.of_nat n)) in generate_grid_pruned (@repo_grids (FS m)) dbg p) = Ok gf /\
    (let* p := create_pruned_spec sch (mkUnpruned rq (Some (real_traits t)) (AQ f) (Z.of_nat n)) in generate_grid_pruned (@repo_grids RS) dbg p) = Ok g /\
    close_quads (qpoints (sph_quad gf)) (qweights (sph_quad gf)) (qpoints (sph_quad g)) (qweights (sph_quad g)) (point_error d t) (weight_error d t).
Proof.
  intros m d dbg sch rq k t f n A AP AL Hd Hin Hk Ht Hn Hf Ho.
  assert (X : exists rs, List.Forall (fun r => r_aq r = AQ f /\ transcribed f (Z.to_nat (r_asz r))) rs /\
    (exists rest, map r_st rs = 0%nat :: rest /\ increasing (0%nat :: rest) /\ List.Forall (fun i => (i < rt_npts t - 1)%nat) rest) /\
    create_pruned_spec sch (mkUnpruned rq (Some t) (AQ f) (Z.of_nat n)) = Ok (mkPruned rq (Some t) rs) /\
    create_pruned_spec sch (mkUnpruned rq (Some (real_traits t)) (AQ f) (Z.of_nat n)) = Ok (mkPruned rq (Some (real_traits t)) rs)).
  { assert (TL : transcribed f (Z.to_nat (npts_by_algebraic_order f (next_algebraic_order f 7))) /\
                 transcribed f (Z.to_nat (npts_by_algebraic_order f (next_algebraic_order f 11)))).
    { split; intros ->; vm_compute; lia. }
    destruct TL as (TL & TM). assert (TN : transcribed f (Z.to_nat (Z.of_nat n))) by (rewrite Nat2Z.id; exact Hf).
    assert (PE : forall (S : Scalar) (p : pruned_spec S) q o rs, p_rq p = q -> p_traits p = o -> p_regions p = rs -> p = mkPruned q o rs).
    { intros S0 [a b c] q o rs. cbn. intros -> -> ->. reflexivity. }
    destruct sch.
    - exists [mkRegion 0 (rt_npts t) (AQ f) (Z.of_nat n)]. split; [|split; [|split]].
      + apply List.Forall_cons; [split; [reflexivity|exact TN]|apply List.Forall_nil].
      + exists []. split; [reflexivity|]. split; [exact I|apply List.Forall_nil].
      + apply (unpruned_scheme (S := FS m) (mkUnpruned rq (Some t) (AQ f) (Z.of_nat n)) t eq_refl).
      + pose proof (unpruned_scheme (S := RS) (mkUnpruned rq (Some (real_traits t)) (AQ f) (Z.of_nat n)) (real_traits t) eq_refl) as Q.
        rewrite npts_real in Q. exact Q.
    - destruct (robust_full (FS m) (mkUnpruned rq (Some t) (AQ f) (Z.of_nat n)) t f eq_refl eq_refl Ho) as (low & med & p & P1 & P2 & P3 & P4 & _ & L & M & ML & _).
      destruct (robust_full RS (mkUnpruned rq (Some (real_traits t)) (AQ f) (Z.of_nat n)) (real_traits t) f eq_refl eq_refl Ho) as (low' & med' & p' & P1' & P2' & P3' & P4' & _ & L' & M' & _).
      rewrite (PE _ _ _ _ _ P2 P3 P4) in P1. rewrite (PE _ _ _ _ _ P2' P3' P4') in P1'. rewrite npts_real in P1'.
      cbn [u_rq u_asz] in *. rewrite L', M', <- L, <- M in P1'.
      eexists. split; [|split; [|split; [exact P1|exact P1']]].
      + repeat (apply List.Forall_cons; [split; [reflexivity|cbn [r_asz]; auto]|]); [rewrite L; exact TL| |apply List.Forall_nil].
        intros E. specialize (Hf E). lia.
      + apply (proj2 (robust_accepted (rt_npts t)) Hn).
    - destruct (treutler_full (FS m) (mkUnpruned rq (Some t) (AQ f) (Z.of_nat n)) t f eq_refl eq_refl) as (low & med & p & P1 & P2 & P3 & P4 & _ & L & M & ML & _).
      destruct (treutler_full RS (mkUnpruned rq (Some (real_traits t)) (AQ f) (Z.of_nat n)) (real_traits t) f eq_refl eq_refl) as (low' & med' & p' & P1' & P2' & P3' & P4' & _ & L' & M' & _).
      rewrite (PE _ _ _ _ _ P2 P3 P4) in P1. rewrite (PE _ _ _ _ _ P2' P3' P4') in P1'. rewrite npts_real in P1'.
      cbn [u_rq u_asz] in *. rewrite L', M', <- L, <- M in P1'.
      eexists. split; [|split; [|split; [exact P1|exact P1']]].
      + repeat (apply List.Forall_cons; [split; [reflexivity|cbn [r_asz]; auto]|]); [rewrite L; exact TL|rewrite M; exact TM|apply List.Forall_nil].
      + apply (proj2 (treutler_accepted (rt_npts t)) Hn). }
  destruct X as (rs & F & S & C1 & C2). rewrite C1, C2. cbn [bind]. apply (grid_pruned m d dbg rq k t f rs); auto. lia.
Qed.
