(** C59: stored grids recentred any number of times. *)
From Coq Require Import ZArith List Bool Reals Lra Lia Psatz Permutation.
From Coquelicot Require Import Coquelicot.
From Flocq Require Import IEEE754.BinarySingleNaN Core.
From Verif Require Import Base.Outcome Base.OutcomeFacts Base.Scalar Base.RScalar Base.FScalar Model.Quadrature Model.Radial Model.S2Tables Model.S2
  Model.Composite Model.Factory Model.GridCode Model.Grids Spec.RuleSpec Spec.QuadSpec Spec.SphereSpec Spec.SphereReal Spec.TraitsSpec Spec.FactorySpec
  Spec.FloatSpec Spec.LibmSpec Spec.GridFloatSpec Spec.MovedSpec
  Proofs.Sizes Proofs.CompositeFacts Proofs.CompositeProps Proofs.FactoryFacts Proofs.FloatOps Proofs.FloatSphere Proofs.GridFloat Proofs.GridFloatSum.
Import ListNotations.
Local Open Scope R_scope.

(** ** Adding a moderate number to a finite number never overflows *)
Lemma big_format : generic_format radix2 (FLT_exp (-1074) 53) (bpow radix2 1024 - bpow radix2 971).
Proof.
  apply generic_format_FLT. exists (Float radix2 (2 ^ 53 - 1) 971).
  - unfold F2R. cbn [Fnum Fexp]. rewrite minus_IZR. change (IZR (2 ^ 53)) with (bpow radix2 53). rewrite Rmult_minus_distr_r, <- bpow_plus. simpl (53 + 971)%Z. ring.
  - cbn [Fnum]. change (radix2 ^ 53)%Z with (2 ^ 53)%Z. lia.
  - cbn [Fexp]. lia.
Qed.
Lemma finite_below : forall x : F64, is_finite x = true -> Rabs (B2R x) <= bpow radix2 1024 - bpow radix2 971.
Proof.
  intros x _. exact (abs_B2R_le_emax_minus_prec 53 1024 Hprec x).
Qed.
Lemma succ_big : succ radix2 (FLT_exp (-1074) 53) (bpow radix2 1024 - bpow radix2 971) = bpow radix2 1024.
Proof.
  assert (E : pred radix2 (FLT_exp (-1074) 53) (bpow radix2 1024) = bpow radix2 1024 - bpow radix2 971).
  { rewrite pred_bpow. f_equal. }
  rewrite <- E. apply succ_pred; try (apply FLT_exp_valid; reflexivity). apply generic_format_bpow. unfold FLT_exp. simpl. lia.
Qed.
Lemma rnd_big : forall v, v < bpow radix2 1024 - bpow radix2 970 -> rnd v <= bpow radix2 1024 - bpow radix2 971.
Proof.
  intros v H. unfold rnd. apply round_N_le_midp; try (apply FLT_exp_valid; reflexivity); [exact big_format|].
  rewrite succ_big. replace (bpow radix2 971) with (2 * bpow radix2 970) by (symmetry; apply (bpow_plus radix2 1 970)). lra.
Qed.
Lemma add_moderate : forall x y : F64, is_finite x = true -> is_finite y = true -> Rabs (B2R y) <= bpow radix2 960 -> is_finite (fadd x y) = true.
Proof.
  intros x y Fx Fy H. unfold fadd. pose proof (Bplus_correct 53 1024 Hprec Hmax mode_NE x y Fx Fy) as C.
  rewrite Rlt_bool_true in C; [exact (proj1 (proj2 C))|].
  pose proof (finite_below x Fx) as B. set (v := B2R x + B2R y).
  assert (P : bpow radix2 960 < bpow radix2 970) by (apply bpow_lt; lia).
  assert (E : bpow radix2 971 = 2 * bpow radix2 970) by (symmetry; apply (bpow_plus radix2 1 970)).
  assert (P0 : 0 < bpow radix2 970) by apply bpow_gt_0.
  apply Rabs_le_between in B. apply Rabs_le_between in H.
  change (Rabs (rnd v) < bpow radix2 1024).
  assert (U : rnd v <= bpow radix2 1024 - bpow radix2 971) by (apply rnd_big; unfold v; lra).
  assert (L : rnd (- v) <= bpow radix2 1024 - bpow radix2 971) by (apply rnd_big; unfold v; lra).
  assert (N : rnd (- v) = - rnd v) by (unfold rnd; apply round_NE_opp). rewrite N in L.
  apply Rabs_def1; lra.
Qed.

(** ** Recentering keeps coordinates finite *)
Lemma sub_moderate : forall x y : F64, is_finite x = true -> is_finite y = true -> Rabs (B2R x) <= 2 ^ 900 -> Rabs (B2R y) <= 2 ^ 900 ->
  is_finite (fsub x y) = true /\ Rabs (B2R (fsub x y)) <= bpow radix2 960.
Proof.
  intros x y Fx Fy Hx Hy. unfold fsub. pose proof (Bminus_correct 53 1024 Hprec Hmax mode_NE x y Fx Fy) as C.
  assert (P9 : 2 ^ 900 = bpow radix2 900) by (symmetry; apply (bpow_powerRZ radix2 900)).
  assert (E : Rabs (B2R x - B2R y) <= bpow radix2 960).
  { unfold Rminus. eapply Rle_trans; [apply Rabs_triang|]. rewrite Rabs_Ropp. assert (2 * bpow radix2 900 = bpow radix2 901) by (symmetry; apply (bpow_plus radix2 1 900)).
    assert (bpow radix2 901 <= bpow radix2 960) by (apply bpow_le; lia). lra. }
  assert (B : Rabs (rnd (B2R x - B2R y)) <= bpow radix2 960).
  { unfold rnd. apply abs_round_le_generic; try (apply FLT_exp_valid; reflexivity); auto; try apply valid_rnd_N. apply generic_format_bpow. unfold FLT_exp. simpl. lia. }
  rewrite Rlt_bool_true in C.
  - destruct C as (C1 & C2 & _). split; [exact C2|]. rewrite C1. exact B.
  - change (Rabs (rnd (B2R x - B2R y)) < bpow radix2 1024). eapply Rle_lt_trans; [exact B|]. apply bpow_lt. lia.
Qed.

Definition all_finite (l : list (F64 * F64 * F64)) : Prop := List.Forall finite_pt l.
Lemma shift_finite : forall m (sh : F64 * F64 * F64) (p : F64 * F64 * F64), finite_pt p ->
  (forall ax, In ax axes -> is_finite (ax sh) = true /\ Rabs (B2R (ax sh)) <= bpow radix2 960) -> finite_pt (@shift_pt (FS m) sh p).
Proof.
  intros m [[a b] c] [[x y] z] Hp Hs ax Hax.
  destruct Hax as [<-|[<-|[<-|[]]]].
  - change (is_finite (fadd x a) = true). apply add_moderate; [apply (Hp px); cbn; auto|apply (Hs px); cbn; auto|apply (Hs px); cbn; auto].
  - change (is_finite (fadd y b) = true). apply add_moderate; [apply (Hp py); cbn; auto|apply (Hs py); cbn; auto|apply (Hs py); cbn; auto].
  - change (is_finite (fadd z c) = true). apply add_moderate; [apply (Hp pz); cbn; auto|apply (Hs pz); cbn; auto|apply (Hs pz); cbn; auto].
Qed.
Lemma recenters_finite : forall m (cs : list (@pt3 (FS m))) (o o' : sphobj (FS m)), centre_within (2 ^ 900) (sph_center o) -> List.Forall (centre_within (2 ^ 900)) cs ->
  all_finite (qpoints (sph_quad o)) -> recenters o cs = Ok o' -> all_finite (qpoints (sph_quad o')).
Proof.
  intros m cs. induction cs as [|c cs IH]; intros o o' Hc Hcs Hf H.
  - injection H as <-. exact Hf.
  - rewrite recenters_cons in H. inversion Hcs as [|? ? Hc1 Hcs']; subst.
    destruct (@pt_eqb (FS m) c (sph_center o)) eqn:E.
    + rewrite recenter_eq in H by exact E. cbn [bind] in H. apply (IH o o'); auto.
    + rewrite recenter_ne in H by exact E. cbn [bind] in H. eapply IH; [| | |exact H]; auto.
      cbn [sph_quad qpoints]. unfold all_finite in *. apply List.Forall_forall. intros q Hq. apply in_map_iff in Hq. destruct Hq as (p & <- & Hp).
      rewrite List.Forall_forall in Hf. apply shift_finite; [apply Hf; exact Hp|].
      intros ax Hax. destruct (Hc ax Hax) as (A1 & A2). destruct (Hc1 ax Hax) as (B1 & B2).
      assert (G : ax (@pt_sub (FS m) c (sph_center o)) = fsub (ax c) (ax (sph_center o))).
      { destruct c as [[cx cy] cz], (sph_center o) as [[ox oy] oz]. destruct Hax as [<-|[<-|[<-|[]]]]; reflexivity. }
      rewrite G. apply sub_moderate; assumption.
Qed.

(** ** Recentred grids against the exact recentred grid *)
Lemma power_linear : forall k, INR k <= 2 ^ 52 -> (1 + u) ^ k <= 1 + 2 * INR k * u.
Proof.
  assert (U : u = / 2 ^ 53) by reflexivity. pose proof u_pos as U0. induction k as [|k IH]; intro H; [simpl; lra|].
  rewrite S_INR in *. specialize (IH ltac:(lra)). cbn [pow]. pose proof (pos_INR k) as K0.
  assert (Q : 2 * INR k * u <= 1).
  { rewrite U. apply (Rmult_le_reg_r (2 ^ 53)); [lra|]. rewrite Rmult_assoc, Rinv_l by lra. lra. }
  apply Rle_trans with ((1 + u) * (1 + 2 * INR k * u)); [apply Rmult_le_compat_l; lra|].
  assert (u * (2 * INR k * u) <= u * 1) by (apply Rmult_le_compat_l; lra). lra.
Qed.

Lemma near_all : forall m ax ax', In (ax, ax') [(@px F64, @px R); (py, py); (pz, pz)] ->
  forall e D (cs : list (@pt3 (FS m))) (gf o' : sphobj (FS m)) (c : R) n i (p p' : F64 * F64 * F64) (v : R * R * R), 0 <= e <= 1 -> 0 <= D -> INR (length cs) <= 2 ^ 52 ->
  sized n (sph_quad gf) -> sph_center gf = (s0, s0, s0) -> List.Forall (centre_within D) cs -> recenters gf cs = Ok o' ->
  c = B2R (ax (last cs (sph_center gf))) ->
  point_at (sph_quad gf) i = Ok p -> point_at (sph_quad o') i = Ok p' -> is_finite (ax p') = true ->
  rel_close (ax p) (ax' v) e -> Rabs (B2R (ax p') - (ax' v + c)) <= (e + 8 * INR (length cs) * ulp53) * (Rabs (ax' v) + D).
Proof.
  intros m ax ax' Hax e D cs gf o' c n i p p' v He HD Hk Sz Cg Hcs Hr -> Hp Hp' F (Fp & R).
  assert (Ax : In ax (@axes F64)) by (cbn in Hax; destruct Hax as [X|[X|[X|[]]]]; injection X as <- <-; cbn; auto).
  assert (C0 : B2R (ax (sph_center gf)) = 0).
  { rewrite Cg. destruct Ax as [<-|[<-|[<-|[]]]]; reflexivity. }
  destruct (drift m ax Ax D (Rabs (ax' v)) n cs gf o' i p p' Sz Hr Hp Hp' F) with (x := ax' v) as (_ & A & B).
  - rewrite C0, Rabs_R0. exact HD.
  - intros c Hc. rewrite List.Forall_forall in Hcs. apply (Hcs c Hc ax Ax).
  - rewrite C0, Rminus_0_r. apply Rle_refl.
  - rewrite A, C0, Rminus_0_r in B. eapply Rle_trans; [exact B|]. clear B.
    pose proof (power_linear _ Hk) as PL. assert (P1 : 1 <= (1 + u) ^ length cs) by (apply pow_R1_Rle; pose proof u_pos; lra).
    set (X := (1 + u) ^ length cs) in *. set (V := Rabs (ax' v)) in *. assert (V0 : 0 <= V) by apply Rabs_pos.
    change ulp53 with u. set (k := INR (length cs) * u) in *.
    replace (2 * INR (length cs) * u) with (2 * k) in PL by (unfold k; ring). replace (8 * INR (length cs) * u) with (8 * k) by (unfold k; ring).
    assert (X * Rabs (B2R (ax p) - ax' v) <= X * (e * V)) by (apply Rmult_le_compat_l; [lra|exact R]).
    assert (E1 : X * (e * V) <= (1 + 2 * k) * (e * V)) by (apply Rmult_le_compat_r; [apply Rmult_le_pos; lra|exact PL]).
    assert (E2 : (X - 1) * (V + 4 * D) <= 2 * k * (V + 4 * D)) by (apply Rmult_le_compat_r; lra).
    assert (k0 : 0 <= k) by lra.
    assert (E3 : 2 * k * (e * V) <= 2 * k * (1 * V)) by (apply Rmult_le_compat_l; [lra|apply Rmult_le_compat_r; lra]).
    assert (0 <= e * D) by (apply Rmult_le_pos; lra). assert (0 <= k * V) by (apply Rmult_le_pos; lra). lra.
Qed.

Lemma recenters_shape : forall {S : Scalar} (cs : list (@pt3 S)) (ps : list (@pt3 S)) c, exists ps' c', length ps' = length ps /\
  forall ws, recenters (mkSph (mkQuad ps ws) c) cs = Ok (mkSph (mkQuad ps' ws) c').
Proof.
  intros S cs. induction cs as [|b cs IH]; intros ps c; [exists ps, c; split; reflexivity|].
  destruct (pt_eqb b c) eqn:E.
  - destruct (IH ps c) as (ps' & c' & L & H). exists ps', c'. split; [exact L|]. intro ws. rewrite recenters_cons, recenter_eq by exact E. apply H.
  - destruct (IH (map (shift_pt (pt_sub b c)) ps) b) as (ps' & c' & L & H). rewrite map_length in L. exists ps', c'. split; [exact L|].
    intro ws. rewrite recenters_cons, recenter_ne by exact E. cbn [bind sph_quad qpoints qweights sph_center]. apply H.
Qed.

Lemma Forall2_nth : forall A B (P : A -> B -> Prop) l l', length l = length l' ->
  (forall i x y, nth_error l i = Some x -> nth_error l' i = Some y -> P x y) -> Forall2 P l l'.
Proof.
  intros A B P l. induction l as [|a l IH]; intros [|b l'] L H; try discriminate; constructor.
  - apply (H 0%nat); reflexivity.
  - apply IH; [injection L; auto|]. intros i x y Hx Hy. apply (H (Datatypes.S i)); assumption.
Qed.
Lemma Forall2_nth_inv : forall A B (P : A -> B -> Prop) l l', Forall2 P l l' -> forall i x y, nth_error l i = Some x -> nth_error l' i = Some y -> P x y.
Proof.
  intros A B P l l' F. induction F as [|a b l l' Hab F IH]; intros [|i] x y Hx Hy; try discriminate.
  - injection Hx as <-. injection Hy as <-. exact Hab.
  - apply (IH i); assumption.
Qed.

Lemma recentred : forall m e ew D (cs : list (F64 * F64 * F64)) (gf : sphobj (FS m)) (g : sphobj RS), 0 <= e <= 1 -> 0 <= D <= 2 ^ 900 -> INR (length cs) <= 2 ^ 52 ->
  sph_center gf = (s0, s0, s0) -> sph_center g = (0, 0, 0) -> List.Forall (centre_within D) cs ->
  close_quads (qpoints (sph_quad gf)) (qweights (sph_quad gf)) (qpoints (sph_quad g)) (qweights (sph_quad g)) e ew ->
  exists (o' : sphobj (FS m)) (o : sphobj RS), recenters gf cs = Ok o' /\ recenters g (map real_pt cs) = Ok o /\ sph_center o = last (map real_pt cs) (0, 0, 0) /\
    near_quads (e + 8 * INR (length cs) * ulp53) D (sph_center o) (qpoints (sph_quad o')) (qweights (sph_quad o')) (qpoints (sph_quad o)) (qweights (sph_quad o)) ew.
Proof.
  intros m e ew D cs gf g He HD Hk Cf Cg Hcs (C1 & C2).
  destruct (recenters_shape (S := FS m) cs (qpoints (sph_quad gf)) (sph_center gf)) as (ps' & c' & L & H).
  pose proof (H (qweights (sph_quad gf))) as H1.
  replace (mkSph (mkQuad (qpoints (sph_quad gf)) (qweights (sph_quad gf))) (sph_center gf)) with gf in H1 by (destruct gf as [[? ?] ?]; reflexivity).
  eexists. eexists. split; [exact H1|]. split; [apply recenters_closed|]. cbn [sph_center sph_quad qpoints qweights]. rewrite Cg. split; [reflexivity|].
  set (c := last (map real_pt cs) (0, 0, 0)) in *. split; [|exact C2].
  assert (W9 : List.Forall (centre_within (2 ^ 900)) cs).
  { revert Hcs. apply List.Forall_impl. intros a Ha ax Hax. destruct (Ha ax Hax) as (A1 & A2). split; [exact A1|lra]. }
  assert (C9 : centre_within (2 ^ 900) (sph_center gf)).
  { rewrite Cf. intros ax Hax. assert (Z : Rabs 0 <= 2 ^ 900) by (rewrite Rabs_R0; apply pow_le; lra). destruct Hax as [<-|[<-|[<-|[]]]]; (split; [reflexivity|exact Z]). }
  assert (FI : all_finite ps').
  { refine (recenters_finite m cs gf _ C9 W9 _ H1). clear -C1. induction C1 as [|x v l l' (A1 & A2 & A3) C1 IH]; constructor; [|exact IH].
    intros ax Hax. destruct Hax as [<-|[<-|[<-|[]]]]; [apply A1|apply A2|apply A3]. }
  set (zs := map (fun _ : F64 * F64 * F64 => @s0 (FS m)) (qpoints (sph_quad gf))).
  pose proof (H zs) as H2. set (og := mkSph (mkQuad (qpoints (sph_quad gf)) zs) (sph_center gf) : sphobj (FS m)) in *.
  assert (Sz : sized (length (qpoints (sph_quad gf))) (sph_quad og)) by (apply sized_intro; [reflexivity|unfold zs; apply map_length]).
  assert (LC : forall ax ax', In (ax, ax') [(@px F64, @px R); (py, py); (pz, pz)] -> ax' c = B2R (ax (last cs (sph_center og)))).
  { intros ax ax' Hax. unfold c, og. cbn [sph_center]. rewrite Cf. clear -Hax. induction cs as [|b cs IH].
    - destruct Hax as [X|[X|[X|[]]]]; injection X as <- <-; reflexivity.
    - cbn [map]. rewrite !last_cons. destruct cs as [|b' cs]; [destruct Hax as [X|[X|[X|[]]]]; injection X as <- <-; reflexivity|].
      cbn [map] in *. rewrite !last_cons in *. exact IH. }
  apply Forall2_nth.
  - etransitivity; [exact L|]. etransitivity; [|symmetry; apply map_length]. clear -C1. induction C1; cbn; auto.
  - intros i p' v Hp' Hv. rewrite nth_error_map in Hv. destruct (nth_error (qpoints (sph_quad g)) i) as [v0|] eqn:V0; [|discriminate]. injection Hv as <-.
    assert (LT : (i < length (qpoints (sph_quad gf)))%nat) by (refine (eq_ind _ (fun k => (i < k)%nat) _ _ L); apply nth_error_Some; intro X; pose proof (eq_trans (eq_sym X) Hp'); discriminate).
    destruct (nth_error (qpoints (sph_quad gf)) i) as [p|] eqn:P; [|apply nth_error_Some in LT; contradiction].
    pose proof (Forall2_nth_inv _ _ _ _ _ C1 i p v0 P V0) as (R1 & R2 & R3).
    assert (P1 : point_at (sph_quad og) i = Ok p) by (unfold point_at, vat; cbn [og sph_quad qpoints]; rewrite P; reflexivity).
    assert (P2 : point_at (sph_quad (mkSph (mkQuad ps' zs) c' : sphobj (FS m))) i = Ok p') by (unfold point_at, vat; cbn [sph_quad qpoints]; change (match nth_error (ps' : list (F64 * F64 * F64)) i with Some v => Ok v | None => Throw ExOutOfRange end = Ok p'); rewrite Hp'; reflexivity).
    assert (Fp : finite_pt p') by (unfold all_finite in FI; rewrite List.Forall_forall in FI; apply FI; apply (nth_error_In _ i); exact Hp').
    assert (Q : forall ax ax', In (ax, ax') [(@px F64, @px R); (py, py); (pz, pz)] -> rel_close (ax p) (ax' v0) e -> In ax axes ->
      near_coord (e + 8 * INR (length cs) * ulp53) D (ax' c) (ax p') (ax' v0 + ax' c)).
    { intros ax ax' Hax R0 Ax. split; [apply Fp; exact Ax|].
      replace (ax' v0 + ax' c - ax' c) with (ax' v0) by ring.
      apply (near_all m ax ax' Hax e D cs og _ (ax' c) _ i p p' v0 He (proj1 HD) Hk Sz Cf Hcs H2 (LC ax ax' Hax) P1 P2 (Fp ax Ax) R0). }
    pose proof (Q px px ltac:(cbn; auto) R1 ltac:(cbn; auto)) as Q1. pose proof (Q py py ltac:(cbn; auto) R2 ltac:(cbn; auto)) as Q2.
    pose proof (Q pz pz ltac:(cbn; auto) R3 ltac:(cbn; auto)) as Q3. clear Q. set (sg := e + 8 * INR (length cs) * ulp53) in *.
    change (near_coord sg D (px c) (px p') (px (@shift_pt RS (@pt_sub RS c (0, 0, 0)) v0)) /\ near_coord sg D (py c) (py p') (py (@shift_pt RS (@pt_sub RS c (0, 0, 0)) v0)) /\
      near_coord sg D (pz c) (pz p') (pz (@shift_pt RS (@pt_sub RS c (0, 0, 0)) v0))).
    revert Q1 Q2 Q3. clearbody c. clear. destruct v0 as [[x y] z], c as [[a b] d]. intros Q1 Q2 Q3.
    assert (Y : forall x a : R, x + a = @sadd RS x (@ssub RS a 0)) by (intros x0 a0; change (x0 + a0 = x0 + (a0 - 0)); ring).
    split; [|split].
    + exact (eq_ind _ (near_coord _ D a (px p')) Q1 _ (Y x a)).
    + exact (eq_ind _ (near_coord _ D b (py p')) Q2 _ (Y y b)).
    + exact (eq_ind _ (near_coord _ D d (pz p')) Q3 _ (Y z d)).
Qed.

(** ** Sums *)
Lemma node_near : forall F G e s ew D c x w v w', tempered_about c D e F G -> 0 <= s <= e -> 0 <= ew ->
  near_coord s D (px c) (px x) (px v) /\ near_coord s D (py c) (py x) (py v) /\ near_coord s D (pz c) (pz x) (pz v) -> rel_close w w' ew ->
  Rabs (B2R w * F (real_pt x) - w' * F v) <= (s + ew + s * ew) * (Rabs w' * G v).
Proof.
  intros F G e s ew D c x w v w' (T1 & T2) He Hw (C1 & C2 & C3) CW.
  destruct (RadialFloat.rel_of_close _ _ _ Hw CW) as (_ & t & Ht & ->).
  assert (Dd : Rabs (F (real_pt x) - F v) <= s * G v).
  { apply T2; [exact He|]. intros ax Hax. destruct Hax as [<-|[<-|[<-|[]]]]; [apply C1|apply C2|apply C3]. }
  pose proof (T1 v) as B. set (f' := F (real_pt x)) in *. set (f := F v) in *. set (g := G v) in *.
  replace (w' * (1 + t) * f' - w' * f) with (w' * ((f' - f) + t * f + t * (f' - f))) by ring.
  rewrite Rabs_mult. replace ((s + ew + s * ew) * (Rabs w' * g)) with (Rabs w' * (s * g + ew * g + ew * (s * g))) by ring.
  apply Rmult_le_compat_l; [apply Rabs_pos|]. eapply Rle_trans; [apply Rabs_triang|]. eapply Rle_trans; [apply Rplus_le_compat_r, Rabs_triang|].
  rewrite !Rabs_mult. pose proof (Rabs_pos t). pose proof (Rabs_pos f). pose proof (Rabs_pos (f' - f)).
  apply Rplus_le_compat; [apply Rplus_le_compat|]; [exact Dd|apply Rmult_le_compat; auto|apply Rmult_le_compat; auto].
Qed.
Lemma near_sum : forall F G e s ew D c pf wf p w, tempered_about c D e F G -> 0 <= s <= e -> 0 <= ew -> near_quads s D c pf wf p w ew ->
  Rabs (sum3 (map real_pt pf) (map B2R wf) (fun x y z => F (x, y, z)) - sum3 p w (fun x y z => F (x, y, z)))
  <= (s + ew + s * ew) * sum3_abs p w (fun x y z => G (x, y, z)).
Proof.
  intros F G e s ew D c pf wf p w T He Hw (C & Dd). revert wf w Dd. induction C as [|x v pf p Hx C IH]; intros wf w Dd.
  - unfold sum3, sum3_abs. cbn [map combine fold_right]. rewrite Rminus_0_r, Rabs_R0, Rmult_0_r. lra.
  - destruct Dd as [|y w' wf w Hy Dd].
    + unfold sum3, sum3_abs. cbn [map combine fold_right]. rewrite Rminus_0_r, Rabs_R0, Rmult_0_r. lra.
    + specialize (IH wf w Dd). pose proof (node_near F G e s ew D c x y v w' T He Hw Hx Hy) as N. destruct v as [[v1 v2] v3].
      unfold sum3, sum3_abs in *. cbn [map combine fold_right fst snd real_pt px py pz] in *.
      match goal with |- Rabs ((?a + ?b) - (?c + ?d)) <= _ => replace ((a + b) - (c + d)) with ((a - c) + (b - d)) by ring end.
      eapply Rle_trans; [apply Rabs_triang|]. rewrite Rmult_plus_distr_l. apply Rplus_le_compat; [exact N|exact IH].
Qed.

(** ** Factories *)
Lemma pruned_centre : forall (S : Scalar) grids dbg rq (t : rtraits S) rs o, generate_grid_pruned grids dbg (mkPruned rq (Some t) rs) = Ok o -> sph_center o = (s0, s0, s0).
Proof.
  intros S grids dbg rq t rs o A.
  unfold generate_grid_pruned in A. cbn [p_traits p_rq p_regions] in A. rewrite pruned_grid_eq in A. destruct (radial_factory_generate _ _ _); [|discriminate A..]. cbn [bind] in A.
  unfold make_pruned_grid in A. destruct rs as [|r0 rs]; [discriminate A|]. destruct (existsb _ _); [discriminate A|]. destruct (r_aq r0); [|discriminate A].
  unfold make_pruned_grid_impl in A. destruct (add_regions _ _ _ _ _ _); [|discriminate A..]. cbn [bind] in A. destruct (finalize _ _); [|discriminate A..]. cbn [bind] in A.
  unfold pruned_construct in A. destruct (construct _ _); [|discriminate A..]. cbn [bind] in A. injection A as <-. reflexivity.
Qed.
Lemma unpruned_centre : forall (S : Scalar) grids dbg rq (t : rtraits S) f n o, generate_grid_unpruned grids dbg (mkUnpruned rq (Some t) (AQ f) n) = Ok o -> sph_center o = (s0, s0, s0).
Proof.
  intros S grids dbg rq t f n o A.
  unfold generate_grid_unpruned, generate_unpruned_grid in A. cbn [u_traits u_rq u_aq u_asz] in A. destruct (angular_construct _ _ _ _); [|discriminate A..]. cbn [bind] in A.
  rewrite unpruned_impl_eq in A. destruct (radial_factory_generate _ _ _); [|discriminate A..]. cbn [bind] in A. unfold make_unpruned, spherical_construct in A.
  destruct (construct _ _); [|discriminate A..]. cbn [bind] in A. injection A as <-. reflexivity.
Qed.

Lemma pruned_centre_any : forall (S : Scalar) grids dbg (p : pruned_spec S) o, generate_grid_pruned grids dbg p = Ok o -> sph_center o = (s0, s0, s0).
Proof. intros S grids dbg [rq [t|] rs] o H; [apply (pruned_centre S grids dbg rq t rs o H)|discriminate H]. Qed.
