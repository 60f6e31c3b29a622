(** Binary64 grids applied to a polynomial times a function of the distance from the centre. *)
From Coq Require Import List Bool Arith ZArith Reals Lra Lia Psatz Permutation.
From Coquelicot Require Import Coquelicot.
From Flocq Require Import IEEE754.BinarySingleNaN.
From Verif Require Import Base.Outcome Base.OutcomeFacts Base.Scalar Base.RScalar Base.FScalar Model.Quadrature Model.Radial Model.S2Tables Model.S2
  Model.Composite Model.Factory Model.Grids Spec.QuadSpec Spec.Sums Spec.SphereSpec Spec.RealRules Spec.RadialSpec Spec.SphereReal
  Spec.SphereInt Spec.SpaceSpec Spec.FactorySpec Spec.PolySpec Spec.MomentSpec Spec.FloatSpec Spec.LibmSpec Spec.GridFloatSpec
  Proofs.Sizes Proofs.SumFacts Proofs.PrunedFacts Proofs.CompositeProps Proofs.FactoryFacts Proofs.RadialRule
  Proofs.PruningFacts Proofs.FactoryEx Proofs.SphereIntFacts Proofs.GridExact Proofs.GridLoad Proofs.NearSphere Proofs.PiBounds
  Proofs.RadialFloat Proofs.GridFloat Proofs.PolyGrid Proofs.Space Proofs.Moments Proofs.MomentGrid Proofs.MomentLimit.
Import ListNotations.
Local Open Scope R_scope.

(** ** One node *)
Lemma scaled_dist : forall x y z a b c e, 0 <= e < 1 -> Rabs a <= e -> Rabs b <= e -> Rabs c <= e ->
  exists s, Rabs (s - 1) <= e /\
    sqrt ((x * (1 + a)) * (x * (1 + a)) + (y * (1 + b)) * (y * (1 + b)) + (z * (1 + c)) * (z * (1 + c))) = sqrt (x * x + y * y + z * z) * s.
Proof.
  intros x y z a b c e He Ha Hb Hc. set (q := x * x + y * y + z * z).
  set (q' := (x * (1 + a)) * (x * (1 + a)) + (y * (1 + b)) * (y * (1 + b)) + (z * (1 + c)) * (z * (1 + c))).
  assert (K : forall u v, Rabs v <= e -> (1 - e) * (1 - e) * (u * u) <= (u * (1 + v)) * (u * (1 + v)) <= (1 + e) * (1 + e) * (u * u)).
  { intros u v Hv. apply Rabs_le_between in Hv. replace ((u * (1 + v)) * (u * (1 + v))) with ((1 + v) * (1 + v) * (u * u)) by ring.
    assert (0 <= u * u) by nra. split; apply Rmult_le_compat_r; nra. }
  pose proof (K x a Ha) as KX. pose proof (K y b Hb) as KY. pose proof (K z c Hc) as KZ.
  assert (Q0 : 0 <= q) by (unfold q; nra).
  assert (B1 : (1 - e) * sqrt q <= sqrt q').
  { replace ((1 - e) * sqrt q) with (sqrt ((1 - e) * (1 - e) * q)); [apply sqrt_le_1_alt; unfold q, q'; lra|].
    rewrite sqrt_mult, sqrt_square by nra. reflexivity. }
  assert (B2 : sqrt q' <= (1 + e) * sqrt q).
  { replace ((1 + e) * sqrt q) with (sqrt ((1 + e) * (1 + e) * q)); [apply sqrt_le_1_alt; unfold q, q'; lra|].
    rewrite sqrt_mult, sqrt_square by nra. reflexivity. }
  pose proof (sqrt_pos q) as P. destruct (Req_dec (sqrt q) 0) as [Z|NZ].
  - exists 1. split; [rewrite Rminus_diag_eq, Rabs_R0 by reflexivity; lra|]. rewrite Z in *. lra.
  - exists (sqrt q' / sqrt q). assert (0 < sqrt q) by lra. split; [|field; exact NZ].
    assert (E : sqrt q' = sqrt q' / sqrt q * sqrt q) by (field; exact NZ). set (s := sqrt q' / sqrt q) in *.
    rewrite E in B1, B2. apply Rmult_le_reg_r in B1; [|assumption]. apply Rmult_le_reg_r in B2; [|assumption]. apply Rabs_le. lra.
Qed.

(** Every coordinate is at most the distance. *)
Lemma mono_dist : forall x y z i j k, let r := sqrt (x * x + y * y + z * z) in Rabs (x ^ i * y ^ j * z ^ k) <= r ^ (i + j + k).
Proof.
  intros x y z i j k r.
  assert (Q : forall t o, 0 <= o -> t * t + o = x * x + y * y + z * z -> Rabs t <= r).
  { intros t o Ho E. unfold r. rewrite <- E. rewrite <- sqrt_Rsqr_abs. apply sqrt_le_1_alt. unfold Rsqr. lra. }
  pose proof (Q x (y * y + z * z) ltac:(nra) ltac:(ring)) as X. pose proof (Q y (x * x + z * z) ltac:(nra) ltac:(ring)) as Y.
  pose proof (Q z (x * x + y * y) ltac:(nra) ltac:(ring)) as Z.
  assert (P : forall t e, Rabs t <= r -> 0 <= Rabs (t ^ e) <= r ^ e).
  { intros t e Ht. split; [apply Rabs_pos|]. rewrite <- RPow_abs. apply pow_incr. split; [apply Rabs_pos|exact Ht]. }
  destruct (P x i X) as (X0 & X1). destruct (P y j Y) as (Y0 & Y1). destruct (P z k Z) as (Z0 & Z1).
  rewrite !Rabs_mult, !pow_add. apply Rmult_le_compat; auto; [apply Rmult_le_pos; auto|]. apply Rmult_le_compat; auto.
Qed.
Lemma p3_dist : forall P x y z, Rabs (p3eval P x y z) <= p3mag P (sqrt (x * x + y * y + z * z)).
Proof.
  intros P x y z. induction P as [|[c [[i j] k]] P IH]; cbn [p3eval p3mag]; [rewrite Rabs_R0; lra|].
  eapply Rle_trans; [apply Rabs_triang|]. apply Rplus_le_compat; [|exact IH]. rewrite Rabs_mult. apply Rmult_le_compat_l; [apply Rabs_pos|apply mono_dist].
Qed.
Lemma p3_change : forall P d x y z a b c e, p3deg_le P d -> 0 <= e < 1 -> INR d * e <= / 101 -> Rabs a <= e -> Rabs b <= e -> Rabs c <= e ->
  Rabs (p3eval P (x * (1 + a)) (y * (1 + b)) (z * (1 + c)) - p3eval P x y z) <= 1.01 * (INR d * e) * p3mag P (sqrt (x * x + y * y + z * z)).
Proof.
  intros P d x y z a b c e HP He Hd Ha Hb Hc. induction P as [|[v [[i j] k]] P IH]; cbn [p3eval p3mag]; [rewrite Rminus_0_r, Rabs_R0; lra|].
  assert (HQ : p3deg_le P d) by (intros c0 i0 j0 k0 H0; apply (HP c0); right; exact H0). specialize (IH HQ).
  set (P' := p3eval P (x * (1 + a)) (y * (1 + b)) (z * (1 + c))) in *. set (P0 := p3eval P x y z) in *.
  set (g := (1 + a) ^ i * (1 + b) ^ j * (1 + c) ^ k).
  replace (v * ((x * (1 + a)) ^ i * (y * (1 + b)) ^ j * (z * (1 + c)) ^ k) + P' - (v * (x ^ i * y ^ j * z ^ k) + P0))
    with (v * ((x ^ i * y ^ j * z ^ k) * (g - 1)) + (P' - P0)) by (unfold g; rewrite !Rpow_mult_distr; ring).
  eapply Rle_trans; [apply Rabs_triang|]. rewrite (Rmult_plus_distr_l _ (Rabs v * _)). apply Rplus_le_compat; [|exact IH].
  assert (Hm : (i + j + k <= d)%nat) by (apply (HP v); left; reflexivity).
  pose proof (pow3_rel a b c e i j k d He Ha Hb Hc Hm Hd) as G. fold g in G. pose proof (mono_dist x y z i j k) as M. cbn zeta in M.
  rewrite (Rabs_mult v), (Rabs_mult (_ * _ * _) (g - 1)). set (r := sqrt (x * x + y * y + z * z)) in *.
  replace (1.01 * (INR d * e) * (Rabs v * r ^ (i + j + k))) with (Rabs v * (r ^ (i + j + k) * (1.01 * (INR d * e)))) by ring.
  apply Rmult_le_compat_l; [apply Rabs_pos|].
  apply Rmult_le_compat; try apply Rabs_pos; assumption.
Qed.

(** The envelope of the integrand. *)
Definition envelope (G : R -> R) (P : poly3) (p : @pt3 RS) : R := p3mag P (dist3 p (0, 0, 0)) * G (dist3 p (0, 0, 0)).

Lemma node_moment : forall g G P d x y z a b c w t e ew, p3deg_le P d -> steady (/ 1000) g G -> 0 <= e <= / 1000 -> 0 <= ew <= / 500 -> INR d * e <= / 101 ->
  Rabs a <= e -> Rabs b <= e -> Rabs c <= e -> Rabs t <= ew ->
  Rabs (w * (1 + t) * moment (0, 0, 0) g P (x * (1 + a), y * (1 + b), z * (1 + c)) - w * moment (0, 0, 0) g P (x, y, z))
  <= 1.02 * ((INR d + 1) * e + ew) * (Rabs w * envelope G P (x, y, z)).
Proof.
  intros g G P d x y z a b c w t e ew HP [G0 G1] He Hw Hd Ha Hb Hc Ht. unfold moment, envelope, dist3.
  rewrite !Rminus_0_r. destruct (scaled_dist x y z a b c e ltac:(lra) Ha Hb Hc) as (s & S1 & S2). rewrite S2.
  pose proof (p3_change P d x y z a b c e HP ltac:(lra) Hd Ha Hb Hc) as C. pose proof (p3_dist P x y z) as B.
  pose proof (sqrt_pos (x * x + y * y + z * z)) as R0. set (r := sqrt (x * x + y * y + z * z)) in *.
  set (p' := p3eval P (x * (1 + a)) (y * (1 + b)) (z * (1 + c))) in *. set (p := p3eval P x y z) in *. set (M := p3mag P r) in *.
  pose proof (G0 r R0) as B1. pose proof (G1 r s R0 ltac:(lra)) as B2. pose proof (pos_INR d) as D0.
  assert (B3 : Rabs (g (r * s) - g r) <= e * G r).
  { eapply Rle_trans; [exact B2|]. apply Rmult_le_compat_r; [pose proof (Rabs_pos (g r)); lra|exact S1]. }
  clear B2 S2 G0 G1. set (g' := g (r * s)) in *. set (g0 := g r) in *. set (H := G r) in *. clearbody g' g0 H p' p M. clear r R0.
  assert (H0 : 0 <= H) by (pose proof (Rabs_pos g0); lra). assert (M0 : 0 <= M) by (pose proof (Rabs_pos p); lra).
  assert (HM : 0 <= H * M) by (apply Rmult_le_pos; assumption).
  assert (PB : Rabs p' <= 1.01 * M).
  { replace p' with (p + (p' - p)) by ring. eapply Rle_trans; [apply Rabs_triang|]. assert (1.01 * (INR d * e) * M <= 0.01 * M) by (apply Rmult_le_compat_r; [exact M0|lra]). lra. }
  assert (F1 : Rabs (g' * p' - g0 * p) <= 1.01 * ((INR d + 1) * e) * (M * H)).
  { replace (g' * p' - g0 * p) with ((g' - g0) * p' + g0 * (p' - p)) by ring. eapply Rle_trans; [apply Rabs_triang|]. rewrite !Rabs_mult.
    apply Rle_trans with (e * H * (1.01 * M) + H * (1.01 * (INR d * e) * M)); [|right; ring].
    apply Rplus_le_compat; apply Rmult_le_compat; try apply Rabs_pos; assumption. }
  assert (F2 : Rabs (g0 * p) <= M * H).
  { rewrite Rabs_mult, Rmult_comm. apply Rmult_le_compat; try apply Rabs_pos; assumption. }
  replace (w * (1 + t) * (g' * p') - w * (g0 * p)) with (w * ((1 + t) * (g' * p' - g0 * p) + t * (g0 * p))) by ring.
  rewrite Rabs_mult. replace (1.02 * ((INR d + 1) * e + ew) * (Rabs w * (M * H))) with (Rabs w * (1.02 * ((INR d + 1) * e + ew) * (M * H))) by ring.
  apply Rmult_le_compat_l; [apply Rabs_pos|]. eapply Rle_trans; [apply Rabs_triang|]. rewrite (Rabs_mult (1 + t)), (Rabs_mult t).
  assert (T1 : Rabs (1 + t) <= 1 + / 500) by (eapply Rle_trans; [apply Rabs_triang|]; rewrite Rabs_R1; lra).
  assert (T2 : Rabs (1 + t) * Rabs (g' * p' - g0 * p) <= (1 + / 500) * (1.01 * ((INR d + 1) * e) * (M * H))).
  { apply Rmult_le_compat; try apply Rabs_pos; assumption. }
  assert (T3 : Rabs t * Rabs (g0 * p) <= ew * (M * H)).
  { apply Rmult_le_compat; try apply Rabs_pos; assumption. }
  assert (T4 : 0 <= (INR d + 1) * e * (M * H)) by (apply Rmult_le_pos; [apply Rmult_le_pos; lra|lra]).
  assert (T5 : 0 <= ew * (M * H)) by (apply Rmult_le_pos; lra). lra.
Qed.

Lemma close_moment : forall g G P d pf wf (ps : list (@pt3 RS)) ws e ew, p3deg_le P d -> steady (/ 1000) g G -> 0 <= e <= / 1000 -> 0 <= ew <= / 500 -> INR d * e <= / 101 ->
  close_quads pf wf ps ws e ew ->
  Rabs (sum3 (map real_pt pf) (map B2R wf) (fun x y z => moment (0, 0, 0) g P (x, y, z))
        - Rsum (map (fun pw : @pt3 RS * R => snd pw * moment (0, 0, 0) g P (fst pw)) (combine ps ws)))
  <= 1.02 * ((INR d + 1) * e + ew) * Rsum (map (fun pw : @pt3 RS * R => Rabs (snd pw) * envelope G P (fst pw)) (combine ps ws)).
Proof.
  intros g G P d pf wf ps ws e ew HP HG He Hw Hd (C & D). revert wf ws D. unfold sum3, Rsum. induction C as [|x v pf ps Hx C IH]; intros wf ws D.
  - cbn [map combine fold_right]. rewrite Rminus_0_r, Rabs_R0, Rmult_0_r. lra.
  - destruct D as [|y w wf ws Hy D].
    + cbn [map combine fold_right]. rewrite Rminus_0_r, Rabs_R0, Rmult_0_r. lra.
    + specialize (IH wf ws D). cbn [map combine fold_right fst snd].
      destruct v as [[vx vy] vz]. destruct Hx as (C1 & C2 & C3). cbn [px py pz fst snd] in C1, C2, C3.
      destruct (rel_of_close _ _ _ (proj1 He) C1) as (_ & a & Ha & E1). destruct (rel_of_close _ _ _ (proj1 He) C2) as (_ & b & Hb & E2).
      destruct (rel_of_close _ _ _ (proj1 He) C3) as (_ & c & Hc & E3). destruct (rel_of_close _ _ _ (proj1 Hw) Hy) as (_ & t & Ht & E4).
      pose proof (node_moment g G P d vx vy vz a b c w t e ew HP HG He Hw Hd Ha Hb Hc Ht) as N.
      unfold real_pt at 1 2 3. unfold px, py, pz in *. cbn [fst snd] in *. rewrite E1, E2, E3, E4.
      match goal with |- Rabs ((?a + ?b) - (?c + ?d)) <= _ => replace ((a + b) - (c + d)) with ((a - c) + (b - d)) by ring end.
      eapply Rle_trans; [apply Rabs_triang|]. rewrite (Rmult_plus_distr_l (1.02 * _)). apply Rplus_le_compat; [exact N|exact IH].
Qed.

(** ** The envelope summed over the exact grid *)
Lemma shell_abs : forall H c r w (a : quad (@pt3 RS) R), 0 <= w ->
  Rsum (map (fun pw : @pt3 RS * R => Rabs (snd pw) * H (fst pw)) (@SphereSpec.shell RS c (r, w) a))
  = w * (r * r * Rsum (map (fun pw : @pt3 RS * R => Rabs (snd pw) * H (at_radius c r (fst pw))) (nodes a))).
Proof.
  intros H c r w a Hw.
  assert (K : forall l : list (@pt3 RS * R), Rsum (map (fun pw : @pt3 RS * R => Rabs (snd pw) * H (fst pw)) (map (@sphere_node RS c (r, w)) l))
    = w * (r * r * Rsum (map (fun pw => Rabs (snd pw) * H (at_radius c r (fst pw))) l))); [|exact (K (nodes a))].
  intro l. unfold Rsum. induction l as [|[u v] l IH]; [cbn [map fold_right]; rewrite !Rmult_0_r; reflexivity|].
  cbn [map fold_right].
  assert (Q : fst (@sphere_node RS c (r, w) (u, v)) = at_radius c r u).
  { destruct c as [[cx cy] cz], u as [[x y] z]. simpl. apply triple_eq; rs_ring. }
  assert (Q' : Rabs (snd (@sphere_node RS c (r, w) (u, v))) = (w * Rabs v) * (r * r)).
  { destruct c as [[cx cy] cz], u as [[x y] z]. change (Rabs (w * v * (r * r)) = (w * Rabs v) * (r * r)).
    rewrite !Rabs_mult, (Rabs_pos_eq w) by exact Hw. rewrite <- (Rabs_mult r r), (Rabs_pos_eq (r * r)) by nra. reflexivity. }
  refine (eq_trans (f_equal2 Rplus (f_equal2 Rmult Q' (f_equal H Q)) IH) _). cbn [fst snd]. ring.
Qed.

Section Regions.
Variables (H : @pt3 RS -> R) (c : @pt3 RS) (b : R -> R).
Notation total := (fun l : list (@pt3 RS * R) => Rsum (map (fun pw => Rabs (snd pw) * H (fst pw)) l)).
Definition under (a : quad (@pt3 RS) R) (rw : R * R) : Prop :=
  0 <= snd rw /\ Rsum (map (fun pw : @pt3 RS * R => Rabs (snd pw) * H (at_radius c (fst rw) (fst pw))) (nodes a)) <= b (fst rw).
Lemma segment_abs : forall a l, List.Forall (under a) l ->
  total (flat_map (fun rw => @SphereSpec.shell RS c rw a) l) <= radial_sum (fun r => r * r * b r) l.
Proof.
  intros a l F. unfold radial_sum. induction F as [|[r w] l [Hw Hb] _ IH]; [unfold Rsum; cbn; lra|].
  cbn [fst snd] in Hw, Hb. cbn [flat_map map]. rewrite map_app, Rsum_app, shell_abs by exact Hw. cbn [fst snd].
  change (Rsum (?x :: ?l)) with (x + Rsum l). apply Rplus_le_compat; [|exact IH].
  apply Rmult_le_compat_l; [exact Hw|]. apply Rmult_le_compat_l; [nra|exact Hb].
Qed.
Lemma regions_abs : forall (nds : list (R * R)) rs (quads : list (quad (@pt3 RS) R)) lo, covers lo (length nds) rs -> length rs = length quads ->
  List.Forall (fun a => List.Forall (under a) nds) quads ->
  total (flat_map (fun ra => flat_map (fun rw => @SphereSpec.shell RS c rw (snd ra))
          (firstn (snd (fst ra) - fst (fst ra)) (skipn (fst (fst ra)) nds))) (combine rs quads))
  <= radial_sum (fun r => r * r * b r) (skipn lo nds).
Proof.
  intros nds rs. induction rs as [|[s e] rs IH]; intros [|a quads] lo C L F; try discriminate.
  - cbn in C. subst lo. cbn. rewrite skipn_all. unfold radial_sum, Rsum. cbn. lra.
  - destruct C as (-> & Hlt & C). injection L as L. inversion F as [|? ? Ha Hq]; subst. specialize (IH quads e C L Hq).
    cbn [combine flat_map fst snd]. rewrite map_app, Rsum_app.
    assert (Sp : skipn lo nds = firstn (e - lo) (skipn lo nds) ++ skipn e nds) by (apply skip_split; lia).
    rewrite Sp at 2. rewrite radial_sum_app. apply Rplus_le_compat; [|exact IH]. apply segment_abs.
    apply List.Forall_forall. intros x Hx. rewrite List.Forall_forall in Ha. apply Ha. apply In_part in Hx. exact Hx.
Qed.
End Regions.

(** Weights of the checked rules. *)
Lemma weights_bounded : forall f dbg n q, algebraic_order_by_npts f (Z.of_nat n) <> (-1)%Z -> checked f n ->
  construct dbg (s2_generate repo_grids f n) = Ok q -> abs_weight q <= weight_max f (Z.of_nat n).
Proof.
  intros f dbg n q Hn C Hq. destruct (angular_checked f dbg n Hn C) as (q' & Q1 & Q2 & Q3 & Q4 & B & B1 & B2).
  rewrite Hq in Q1. injection Q1 as <-.
  assert (T : f = Womersley -> (Z.of_nat n <= 513)%Z) by (intros ->; cbn [checked] in C; lia). pose proof pi_bounds as HPI.
  destruct (weight_signs dbg f n Hn T) as (q' & Q1' & [[Hp _]|[_ Hbad]]).
  - rewrite Hq in Q1'. injection Q1' as <-. pose proof (positive_weight _ _ _ _ Q2 Q4 Hp) as W.
    assert (tol_of f <= 1 / 100) by (destruct f; cbn [tol_of]; lra).
    assert (13 <= weight_max f (Z.of_nat n)) by (destruct f; cbn [weight_max]; try lra; match goal with |- context [if ?b then _ else _] => destruct b end; lra). lra.
  - destruct Hbad as [[-> HI]|[-> E]]; [|exfalso; cbn [checked] in C; lia].
    assert (W : weight_max LebedevLaikov (Z.of_nat n) = 600).
    { cbn [weight_max]. replace (existsb (Z.eqb (Z.of_nat n)) [74; 230; 266]%Z) with true; [reflexivity|]. symmetry. apply existsb_exists. exists (Z.of_nat n). split; [exact HI|apply Z.eqb_refl]. }
    rewrite W. apply Rle_trans with B; [|eapply Rle_trans; [exact B2|]; cbn [load_max]; destruct (Nat.eqb n 230); lra].
    pose proof (loaded_weight _ _ B1) as LW. unfold abs_weight. rewrite <- (sized_snd n q Q2), map_map. exact LW.
Qed.

(** ** Grids *)
Lemma shell_envelope : forall d tol (a : quad (@pt3 RS) R) g G H P r W, works d tol a -> p3deg_le P d -> steady (/ 1000) g G -> covered (/ 1000) G H -> 0 <= r -> abs_weight a <= W ->
  Rsum (map (fun pw : @pt3 RS * R => Rabs (snd pw) * envelope G P (at_radius (0, 0, 0) r (fst pw))) (nodes a)) <= 1.01 * W * (p3mag P r * H r).
Proof.
  intros d tol a g G H P r W ((n & Sz) & Nr & _ & _ & Sm) HP [G0 _] Ge Hr HW. set (K := p3mag P r * H r).
  assert (P0 : 0 <= p3mag P r) by (apply p3mag_pos; exact Hr).
  assert (Gr : 0 <= H r).
  { pose proof (Ge r 1 Hr) as Q. rewrite Rmult_1_r in Q. assert (Z : Rabs (1 - 1) <= / 1000) by (rewrite Rminus_diag_eq, Rabs_R0 by reflexivity; lra). specialize (Q Z). pose proof (G0 r Hr). pose proof (Rabs_pos (g r)). lra. }
  assert (K0 : 0 <= K) by (apply Rmult_le_pos; assumption).
  assert (B : forall u, In u (qpoints a) -> envelope G P (at_radius (0, 0, 0) r u) <= 1.01 * K).
  { intros [[x y] z] Hin. rewrite List.Forall_forall in Nr. specialize (Nr _ Hin). unfold envelope. rewrite dist_at_radius by exact Hr.
    assert (S1 : Rabs (sqrt (x * x + y * y + z * z) - 1) <= sph_err) by (apply Space.sqrt_near; [unfold sph_err; lra|nra|exact Nr]).
    set (s := sqrt (x * x + y * y + z * z)) in *. assert (s0 : 0 <= s) by apply sqrt_pos.
    pose proof (Ge r s Hr ltac:(unfold sph_err in S1; lra)) as G2.
    assert (M : p3mag P (r * s) <= 1.01 * p3mag P r).
    { clear -HP S1 Sm Hr s0. assert (E0 : 0 < sph_err) by (unfold sph_err; lra). induction P as [|[c [[i j] k]] P IH]; cbn [p3mag]; [lra|].
      rewrite Rmult_plus_distr_l. apply Rplus_le_compat; [|apply IH; intros c0 i0 j0 k0 H0; apply (HP c0); right; exact H0].
      assert (Hm : (i + j + k <= d)%nat) by (apply (HP c); left; reflexivity). set (m := (i + j + k)%nat) in *.
      assert (I : INR m * sph_err <= / 101) by (eapply Rle_trans; [|exact Sm]; apply Rmult_le_compat_r; [lra|apply le_INR; exact Hm]).
      pose proof (pow_near s sph_err m ltac:(lra) S1 I) as N. apply Rabs_le_between in N.
      rewrite Rpow_mult_distr. replace (1.01 * (Rabs c * r ^ m)) with (Rabs c * (r ^ m * 1.01)) by ring.
      apply Rmult_le_compat_l; [apply Rabs_pos|]. apply Rmult_le_compat_l; [apply pow_le; exact Hr|lra]. }
    apply Rle_trans with (1.01 * p3mag P r * H r); [|unfold K; lra].
    apply Rmult_le_compat; [apply p3mag_pos; apply Rmult_le_pos; assumption| |exact M|exact G2].
    pose proof (G0 (r * s) ltac:(apply Rmult_le_pos; assumption)) as Q. pose proof (Rabs_pos (g (r * s))). lra. }
  assert (L : forall l : list (@pt3 RS * R), (forall u v, In (u, v) l -> envelope G P (at_radius (0, 0, 0) r u) <= 1.01 * K) ->
    Rsum (map (fun pw : @pt3 RS * R => Rabs (snd pw) * envelope G P (at_radius (0, 0, 0) r (fst pw))) l) <= 1.01 * K * Rsum (map (fun pw => Rabs (snd pw)) l)).
  { unfold Rsum. induction l as [|[u v] l IH]; intro HH; cbn [map fold_right fst snd]; [lra|].
    rewrite Rmult_plus_distr_l. apply Rplus_le_compat; [|apply IH; intros u' v' H'; apply (HH u' v'); right; exact H'].
    rewrite Rmult_comm. apply Rmult_le_compat_r; [apply Rabs_pos|]. apply (HH u v). left. reflexivity. }
  eapply Rle_trans; [apply L; intros u v Hin; apply B; unfold nodes in Hin; apply in_combine_l in Hin; exact Hin|].
  assert (E : Rsum (map (fun pw : @pt3 RS * R => Rabs (snd pw)) (nodes a)) = abs_weight a).
  { unfold abs_weight. rewrite <- (sized_snd n a Sz), map_map. reflexivity. }
  rewrite E. apply Rle_trans with (1.01 * K * W); [apply Rmult_le_compat_l; lra|right; ring].
Qed.

Lemma steady_less : forall e e' g G, e' <= e -> steady e g G -> steady e' g G.
Proof. intros e e' g G H [A B]. split; [exact A|]. intros r s Hr Hs. apply B; [exact Hr|lra]. Qed.

Lemma sane_valid : forall m (t : rtraits (FS m)), sane_traits t -> rt_valid (real_traits t).
Proof.
  assert (P : 0 < / 2 ^ 100) by (apply Rinv_0_lt_compat, pow_lt; lra).
  intros m [n R|M n R|n R|n R al] H; cbn [sane_traits real_traits rt_valid] in *.
  - destruct H as (_ & _ & H). eapply Rlt_le_trans; [exact P|apply H].
  - destruct H as (HM & _ & _ & H). split; [lia|]. eapply Rlt_le_trans; [exact P|apply H].
  - destruct H as (_ & _ & H). eapply Rlt_le_trans; [exact P|apply H].
  - destruct H as (_ & (_ & H) & (_ & A) & _). split; [eapply Rlt_le_trans; [exact P|apply H]|].
    destruct A as [A|A]; [right; symmetry; exact A|]. eapply Rle_trans; [apply Rlt_le; exact P|apply A].
Qed.

Lemma scheme_float : forall m dl dbg sch rq k (t : rtraits (FS m)) f n g G H P d tol W,
  accurate m dl -> accurate_pow m dl -> accurate_log m dl -> dl <= / 2 ^ 50 ->
  In (rq, k) schemes -> rkind_of t = k -> sane_traits t -> (5 <= rt_npts t)%nat -> algebraic_order_by_npts f n <> (-1)%Z ->
  List.Forall (fun s => exact_for f d tol s /\ weight_max f s <= W) (scheme_sizes sch f n) ->
  p3deg_le P d -> steady (/ 1000) g G -> covered (/ 1000) G H -> INR d * point_error dl t <= / 101 -> let c := (0, 0, 0) in
  exists (gf : sphobj (FS m)) q,
    (let* p := create_pruned_spec sch (mkUnpruned rq (Some t) (AQ f) n) in generate_grid_pruned (@repo_grids (FS m)) dbg p) = Ok gf /\
    @radial_generate RS (real_traits t) = Ok q /\
    Rabs (sum3 (map real_pt (qpoints (sph_quad gf))) (map B2R (qweights (sph_quad gf))) (fun x y z => moment c g P (x, y, z))
          - apply_rule q (fun r => r * r * sphere_int (fun x y z => moment c g P (at_radius c r (x, y, z)))))
    <= apply_rule q (fun r => r * r * (p3mag P r * (2 * tol * (INR d + 1) ^ 2 * G r + 1.1 * W * ((INR d + 1) * point_error dl t + weight_error dl t) * H r))).
Proof.
  intros m dl dbg sch rq k t f n g G H P d tol W A AP AL Hdl Hin Hk St Hn Ho Hs HP HG HE Hd c.
  assert (L : In n (scheme_sizes sch f n)) by (destruct sch; cbn; auto).
  assert (Hx : exact_for f d tol n /\ weight_max f n <= W) by (rewrite List.Forall_forall in Hs; apply (Hs n L)).
  assert (N0 : n = Z.of_nat (Z.to_nat n)).
  { rewrite Z2Nat.id; [reflexivity|]. destruct n; try lia. exfalso. apply Ho. destruct f; reflexivity. }
  assert (TR : transcribed f (Z.to_nat n)) by (destruct Hx as ((_ & C & _) & _); intros ->; cbn [checked] in C; lia).
  rewrite N0 in Ho. destruct (grid_schemes m dl dbg sch rq k t f (Z.to_nat n) A AP AL Hdl Hin Hk St Hn TR Ho) as (gf & o & F1 & F2 & F3).
  rewrite <- N0 in *.
  assert (Hn' : (5 <= rt_npts (real_traits t))%nat) by (rewrite npts_real; exact Hn).
  assert (Hk' : rkind_of (real_traits t) = k) by (rewrite kind_real; exact Hk).
  destruct (scheme_spec sch rq (real_traits t) f n Hn' Ho) as (rs & S1 & S2 & S3 & S4).
  assert (Hrs : List.Forall (fun r => r_aq r = AQ f /\ exact_for f d tol (r_asz r)) rs).
  { apply List.Forall_forall. intros r Hr. split; [rewrite List.Forall_forall in S2; apply S2; exact Hr|].
    rewrite List.Forall_forall in Hs. apply Hs. rewrite <- S3. apply in_map. exact Hr. }
  assert (Hws : List.Forall (fun r => weight_max f (r_asz r) <= W) rs).
  { apply List.Forall_forall. intros r Hr. rewrite List.Forall_forall in Hs. apply Hs. rewrite <- S3. apply in_map. exact Hr. }
  destruct (pruned_shells dbg rq k (real_traits t) f rs [] d tol Hin Hk' ltac:(lia) Hrs S4) as (o' & r & rgs & quads & O1 & Gr & Qc & Q2 & O5 & LR & O7).
  assert (EO : o' = o).
  { rewrite S1 in F2. cbn [bind] in F2. rewrite F2 in O1. cbn in O1. injection O1 as <-. reflexivity. }
  subst o'. pose proof (sane_valid m t St) as V.
  exists gf, (qpoints r, qweights r). split; [exact F1|]. split; [exact Gr|].
  assert (D0 : 0 <= dl) by (apply (acc_pow_pos m dl AP)).
  destruct (errors_small m dl t ltac:(lra) St) as (E1 & E2).
  assert (PE : 0 <= point_error dl t <= / 1000) by (unfold point_error, ulp53; lra).
  assert (WE : 0 <= weight_error dl t <= / 500) by (unfold weight_error, ulp53; lra).
  pose proof (close_moment g G P d _ _ _ _ _ _ HP HG PE WE Hd F3) as C1.
  set (err := (INR d + 1) * point_error dl t + weight_error dl t) in *.
  assert (ER : 0 <= err) by (unfold err; pose proof (pos_INR d); nra).
  set (b := fun x => 1.01 * W * (p3mag P x * H x)).
  assert (FT : List.Forall (fun a => List.Forall (under (envelope G P) c b a) (nodes r)) quads).
  { destruct (radial_shape _ _ V Gr) as (_ & _ & _ & Pos & Wpos). cbn [fst snd] in Pos, Wpos.
    assert (WQ : List.Forall (fun a => abs_weight a <= W) quads).
    { clear -Qc Hws Hrs. revert Hws Hrs. induction Qc as [|reg a rs quads Ha Qc IH]; intros Hws Hrs; [constructor|].
      inversion Hws as [|? ? W1 W2]; subst. inversion Hrs as [|? ? [R0 R1] R2]; subst. constructor; [|apply IH; assumption].
      eapply Rle_trans; [|exact W1]. destruct R1 as (O & C & _).
      assert (Z0 : r_asz reg = Z.of_nat (Z.to_nat (r_asz reg))).
      { rewrite Z2Nat.id; [reflexivity|]. destruct (r_asz reg); try lia. exfalso. apply O. destruct f; reflexivity. }
      rewrite Z0. apply (weights_bounded f dbg); [rewrite <- Z0; exact O|exact C|exact Ha]. }
    apply List.Forall_forall. intros a Ha. rewrite List.Forall_forall in WQ, Q2. specialize (WQ a Ha). specialize (Q2 a Ha).
    apply List.Forall_forall. intros [x w] Hx'. unfold nodes in Hx'. pose proof (in_combine_l _ _ _ _ Hx') as H1. pose proof (in_combine_r _ _ _ _ Hx') as H2.
    apply Pos in H1. apply Wpos in H2. split; cbn [fst snd]; [lra|]. apply (shell_envelope d tol a g G H P x W Q2 HP HG HE); [lra|exact WQ]. }
  pose proof (regions_abs (envelope G P) c b (nodes r) rgs quads 0%nat O5 LR FT) as C2. cbn [skipn] in C2.
  assert (PA := Rsum_perm _ _ (Permutation_map (fun pw : @pt3 RS * R => Rabs (snd pw) * envelope G P (fst pw)) O7)).
  assert (C3 : Rsum (map (fun pw : @pt3 RS * R => Rabs (snd pw) * envelope G P (fst pw)) (combine (qpoints (sph_quad o)) (qweights (sph_quad o))))
    <= radial_sum (fun x => x * x * b x) (nodes r)).
  { eapply Rle_trans; [right; exact PA|exact C2]. }
  assert (HG' : steady (/ 10 ^ 15) g G) by (apply (steady_less (/ 1000)); [lra|exact HG]).
  destruct (pruned_moment dbg rq k (real_traits t) f rs [] g G P d tol Hin Hk' V ltac:(lia) Hrs S4 HP HG')
    as (o' & q' & M1 & M2 & M3). pose proof (eq_trans (eq_sym M1) O1) as OE. injection OE as ->. rewrite Gr in M2. injection M2 as <-.
  change (last [] (0, 0, 0)) with c in M3. rewrite integrate_nodes in M3.
  rewrite <- !radial_sum_rule in *.
  match type of M3 with Rabs (?e0 - ?i) <= ?x => set (I := i) in *; set (EX := e0) in *; set (X := x) in * end.
  match type of C1 with Rabs (?f0 - ?e0) <= _ => set (FL := f0) in *; change e0 with EX in C1 end.
  change (Rabs (FL - I) <= radial_sum (fun x => x * x * (p3mag P x * (2 * tol * (INR d + 1) ^ 2 * G x + 1.1 * W * err * H x))) (@nodes R R r)).
  replace (FL - I) with ((FL - EX) + (EX - I)) by ring. eapply Rle_trans; [apply Rabs_triang|].
  assert (W0 : 0 <= 13 <= W).
  { split; [lra|]. eapply Rle_trans; [|apply (proj2 Hx)]. unfold weight_max. destruct f; try lra. match goal with |- context [if ?b then _ else _] => destruct b end; lra. }
  apply Rle_trans with (1.02 * err * radial_sum (fun x => x * x * b x) (@nodes R R r) + X).
  - apply Rplus_le_compat; [|exact M3]. eapply Rle_trans; [exact C1|]. apply Rmult_le_compat_l; [lra|exact C3].
  - unfold X. destruct (radial_shape _ _ V Gr) as (_ & _ & _ & Pos & Wpos). cbn [fst snd] in Pos, Wpos.
    assert (NP : List.Forall (fun rw : R * R => 0 <= fst rw /\ 0 <= snd rw) (@nodes R R r)).
    { apply List.Forall_forall. intros [x w] Hx'. unfold nodes in Hx'. pose proof (in_combine_l _ _ _ _ Hx') as H1. pose proof (in_combine_r _ _ _ _ Hx') as H2.
      apply Pos in H1. apply Wpos in H2. cbn. lra. }
    clear -NP W0 ER HG HE. revert NP. generalize (@nodes R R r). intros l NP. unfold radial_sum, Rsum.
    induction NP as [|[x w] l [Hx Hw] NP IH]; cbn [map fold_right fst snd] in *; [lra|].
    assert (Q : 1.02 * err * (w * (x * x * b x)) + w * (x * x * (2 * tol * (INR d + 1) ^ 2 * (p3mag P x * G x)))
      <= w * (x * x * (p3mag P x * (2 * tol * (INR d + 1) ^ 2 * G x + 1.1 * W * err * H x)))).
    { unfold b. pose proof (p3mag_pos P x Hx) as P0. assert (G0 : 0 <= H x).
      { pose proof (HE x 1 Hx) as Z0. rewrite Rmult_1_r in Z0. assert (Z : Rabs (1 - 1) <= / 1000) by (rewrite Rminus_diag_eq, Rabs_R0 by reflexivity; lra). specialize (Z0 Z). pose proof (proj1 HG x Hx). pose proof (Rabs_pos (g x)). lra. }
     
      assert (K : 0 <= w * (x * x) * (W * err) * (p3mag P x * H x)) by (apply Rmult_le_pos; [apply Rmult_le_pos; [apply Rmult_le_pos; [exact Hw|nra]|apply Rmult_le_pos; lra]|apply Rmult_le_pos; assumption]). lra. }
    lra.
Qed.

(** ** Worked case: the tent max(0, 1 - r) *)
Definition tent_poly : poly3 := [(1, (1, 0, 2)%nat); (-2, (0, 3, 4)%nat); (5, (0, 0, 0)%nat)].
Lemma tent_moment_ex : let g := fun r => Rmax 0 (1 - 1 * r) in let G := fun r => Rmax 0 (6 - 2 * r) in let H := fun r => Rmax 0 (7 - 2 * r) in
  steady (/ 10 ^ 15) g G /\ steady (/ 1000) g G /\ covered (/ 1000) G H /\ p3deg_le tent_poly 7 /\
  forall (t : rtraits RS) k, rt_valid t -> SpaceSpec.tame t (fun r => r ^ k * g r) /\ SpaceSpec.tame t (fun r => r ^ k * G r).
Proof.
  intros g G H. assert (S : steady (/ 1000) g G).
  { split.
    - intros r Hr. unfold g, G. rewrite Rabs_pos_eq by apply Rmax_l. unfold Rmax. destruct (Rle_dec 0 (1 - 1 * r)), (Rle_dec 0 (6 - 2 * r)); lra.
    - intros r s Hr Hs. apply tent_scale; [|exact Hr|lra]. split; [apply Rabs_pos|lra]. }
  split; [apply (steady_less (/ 1000)); [lra|exact S]|]. split; [exact S|]. split; [|split].
  - intros r s Hr Hs. apply Rabs_le_between in Hs. unfold G, H, Rmax. destruct (Rle_dec 0 (6 - 2 * (r * s))), (Rle_dec 0 (7 - 2 * r)); nra.
  - intros c i j k [E|[E|[E|[]]]]; injection E as _ <- <- <-; lia.
  - intros t k V.
    assert (K : forall a b, 0 < b -> SpaceSpec.tame t (fun r => r ^ k * Rmax 0 (a - b * r))).
    { intros a b Hb. apply (compact_tame t _ (a / b) V).
      - intros r _. apply (continuous_mult (K := R_AbsRing) (fun r => r ^ k) (fun r => Rmax 0 (a - b * r))); [|apply pos_cont].
        apply (ex_derive_continuous (V := R_NormedModule)). auto_derive; auto.
      - intros r Hr. rewrite Rmax_left; [apply Rmult_0_r|]. assert (a <= b * r); [|lra]. apply (Rmult_le_compat_l b) in Hr; [|lra].
        replace (b * (a / b)) with a in Hr by (field; lra). exact Hr. }
    split; apply K; lra.
Qed.
Lemma tent_sizes_ex : scheme_sizes Robust LebedevLaikov 302 = [26; 194; 302]%Z /\ scheme_sizes Treutler LebedevLaikov 302 = [26; 50; 302]%Z /\
  List.Forall (fun s => exact_for LebedevLaikov 7 (2 / 10 ^ 13) s /\ weight_max LebedevLaikov s <= 13) [26; 194; 302]%Z.
Proof.
  split; [reflexivity|]. split; [reflexivity|].
  assert (K : forall s, In s [26; 194; 302]%Z -> exact_for LebedevLaikov 7 (2 / 10 ^ 13) s /\ weight_max LebedevLaikov s <= 13).
  { intros s [<-|[<-|[<-|[]]]]; (split; [split; [vm_compute; discriminate|split; [exact I|split; [vm_compute; discriminate|]]]|]);
      first [apply Rle_refl|cbn [weight_max existsb Z.eqb Pos.eqb orb]; lra]. }
  apply List.Forall_forall. exact K.
Qed.
