(** Spherical grids applied to a polynomial times a function of the distance. *)
From Coq Require Import List Bool Arith ZArith Reals Lra Lia Psatz Permutation.
From Coquelicot Require Import Coquelicot.
From Verif Require Import Base.Outcome Base.OutcomeFacts Base.Scalar Base.RScalar Model.Quadrature Model.Radial Model.S2Tables Model.S2
  Model.Composite Model.Factory Model.Grids Spec.QuadSpec Spec.Sums Spec.SphereSpec Spec.RealRules Spec.RadialSpec Spec.SphereReal
  Spec.SphereInt Spec.SpaceSpec Spec.FactorySpec Spec.PolySpec Spec.MomentSpec
  Proofs.Sizes Proofs.SumFacts Proofs.PrunedFacts Proofs.CompositeProps Proofs.FactoryFacts Proofs.RadialRule
  Proofs.SphereIntFacts Proofs.GridExact Proofs.GridLoad Proofs.NearSphere Proofs.PolyGrid Proofs.PiBounds Proofs.Space.
Import ListNotations.
Local Open Scope R_scope.

(** ** The polynomial a g(r) P has on a sphere *)
Fixpoint p3scale (a r : R) (P : poly3) : poly3 :=
  match P with
  | [] => []
  | (c, (i, j, k)) :: Q => (a * (c * r ^ (i + j + k)), (i, j, k)) :: p3scale a r Q
  end.
Lemma p3scale_eval : forall a r P x y z, p3eval (p3scale a r P) x y z = a * p3eval P (r * x) (r * y) (r * z).
Proof.
  intros a r P x y z. induction P as [|[c [[i j] k]] P IH]; cbn [p3scale p3eval]; [ring|]. rewrite IH, !Rpow_mult_distr, !pow_add. ring.
Qed.
Lemma p3scale_deg : forall a r P d, p3deg_le P d -> p3deg_le (p3scale a r P) d.
Proof.
  intros a r P d H c i j k Hin. induction P as [|[c' [[i' j'] k']] P IH]; cbn [p3scale] in Hin; [destruct Hin|]. destruct Hin as [E|Hin].
  - injection E as _ <- <- <-. apply (H c'). left. reflexivity.
  - apply IH; [|exact Hin]. intros c0 i0 j0 k0 H0. apply (H c0). right. exact H0.
Qed.
Lemma p3mag_pos : forall P r, 0 <= r -> 0 <= p3mag P r.
Proof.
  intros P r Hr. induction P as [|[c [[i j] k]] P IH]; cbn [p3mag]; [lra|]. pose proof (Rabs_pos c). pose proof (pow_le r (i + j + k) Hr). nra.
Qed.
Lemma p3scale_size : forall a r P, 0 <= r -> p3size (p3scale a r P) = Rabs a * p3mag P r.
Proof.
  intros a r P Hr. induction P as [|[c [[i j] k]] P IH]; cbn [p3scale p3size p3mag]; [ring|].
  rewrite IH, !Rabs_mult, (Rabs_pos_eq (r ^ _)) by (apply pow_le; exact Hr). ring.
Qed.
Lemma moment_at : forall c g P r x y z, 0 <= r ->
  moment c g P (at_radius c r (x, y, z)) = g (r * sqrt (x * x + y * y + z * z)) * p3eval (p3scale 1 r P) x y z.
Proof.
  intros [[a b] e] g P r x y z Hr. pose proof (dist_at_radius (a, b, e) r x y z Hr) as D. unfold moment. cbn [at_radius] in *. rewrite D.
  rewrite p3scale_eval, Rmult_1_l. f_equal.
  replace (a + r * x - a) with (r * x) by ring. replace (b + r * y - b) with (r * y) by ring. replace (e + r * z - e) with (r * z) by ring. reflexivity.
Qed.
Lemma moment_sphere : forall c g P r, 0 <= r ->
  sphere_int (fun x y z => moment c g P (at_radius c r (x, y, z))) = sphere_int (p3eval (p3scale (g r) r P)).
Proof.
  intros c g P r Hr. apply sphere_int_ext. intros x y z U. rewrite moment_at, U, sqrt_1, Rmult_1_r by exact Hr. rewrite !p3scale_eval. ring.
Qed.

(** ** Angular rules *)
Lemma loaded_weight : forall l B, loaded l B -> Rsum (map (fun vw => Rabs (snd vw)) l) <= B.
Proof.
  intros l B H. induction H as [|[[x y] z] w r k B Hk _ IH]; [unfold Rsum; cbn; lra|]. cbn [map snd]. unfold Rsum in *. cbn [fold_right].
  assert (1 <= k).
  { destruct Hk as [(_ & _ & _ & K)|[K1 K2]]; [exact K|]. eapply Rle_trans; [|exact K2]. rewrite <- Rinv_1. apply Rinv_le_contravar; nra. }
  pose proof (Rabs_pos w). nra.
Qed.
Lemma sized_snd : forall n (q : quad (@pt3 RS) R), sized n q -> map snd (nodes q) = qweights q.
Proof.
  intros n q (_ & H1 & H2 & _). unfold nodes. revert H1 H2. generalize (qpoints q) (qweights q). clear.
  intros ps ws H1 H2. assert (L : length ps = length ws) by (rewrite H1, H2; reflexivity). clear H1 H2. revert ws L.
  induction ps as [|a ps IH]; intros [|b ws] L; cbn in *; try discriminate; [reflexivity|]. f_equal. apply IH. lia.
Qed.

(** What is used of an angular rule. *)
Definition works (d : nat) (tol : R) (q : quad (@pt3 RS) R) : Prop :=
  (exists n, sized n q) /\ List.Forall (near_sphere sph_err) (qpoints q) /\
  (forall p, p3deg_le p d -> Rabs (s2_sum q (p3eval p) - sphere_int (p3eval p)) <= tol * (INR d + 1) ^ 2 * p3size p) /\
  1.01 * sph_err * abs_weight q <= tol /\ INR d * sph_err <= / 101.

Lemma exact_works : forall f d tol n dbg, exact_for f d tol n ->
  exists q : quad (@pt3 RS) R, construct dbg (s2_generate repo_grids f (Z.to_nat n)) = Ok q /\ sized (Z.to_nat n) q /\ works d tol q.
Proof.
  intros f d tol n dbg (H & C & Hd & T). 
  assert (Hn : (0 <= n)%Z).
  { destruct (Z.le_gt_cases 0 n) as [L|L]; [exact L|]. exfalso. apply H. destruct n; try lia. destruct f; reflexivity. }
  remember (Z.to_nat n) as k eqn:Ek. assert (En : n = Z.of_nat k) by lia. rewrite En in *. clear Ek En Hn n.
  destruct (angular_checked f dbg k H C) as (q & Q1 & Q2 & Q3 & Q4 & B & B1 & B2).
  destruct (poly_real f dbg k H C) as (q' & Q1' & _ & Q5). rewrite Q1 in Q1'. injection Q1' as <-.
  exists q. split; [exact Q1|]. split; [exact Q2|]. split; [exists k; exact Q2|]. split; [exact Q3|]. split; [|split].
  - intros p Hp. eapply Rle_trans; [apply (Q5 p d Hd Hp)|]. apply Rmult_le_compat_r; [apply p3size_pos|]. apply Rmult_le_compat_r; [apply pow2_ge_0|exact T].
  - pose proof (loaded_weight _ _ B1) as LW. assert (EW : Rsum (map (fun vw : R * R * R * R => Rabs (snd vw)) (nodes q)) = abs_weight q).
    { unfold abs_weight. rewrite <- (sized_snd k q Q2), map_map. reflexivity. }
    rewrite EW in LW.
    pose proof (loaded_nonneg _ _ B1) as B0. pose proof pi_bounds as HPI.
    pose proof (final_bound f k 0 B (1.1 * (0 + 5) * / 2 ^ 53 * B) ltac:(lra) ltac:(lra)) as FB.
    assert (E0 : 0 <= 1.1 * (0 + 5) * / 2 ^ 53 * B <= 1.1 * (0 + 5) * / 2 ^ 53 * B) by (split; [apply Rmult_le_pos; lra|lra]).
    specialize (FB E0). assert (0 <= tol_of f) by (destruct f; cbn [tol_of]; lra).
    assert (1.01 * sph_err * abs_weight q <= 1.01 * sph_err * B) by (apply Rmult_le_compat_l; [unfold sph_err; lra|exact LW]).
    assert (1.01 * sph_err * B <= 1.1 * (0 + 5) * / 2 ^ 53 * B) by (apply Rmult_le_compat_r; [exact B0|unfold sph_err; lra]).
    replace ((0 + 1) ^ 2) with 1 in FB by ring. lra.
  - pose proof (order_small f k H) as O. assert (L : (d <= order f k)%nat) by (unfold order; lia). apply le_INR in L. unfold sph_err. lra.
Qed.

Lemma p3_near : forall P d r x y z, p3deg_le P d -> near_sphere sph_err (x, y, z) -> INR d * sph_err <= / 101 -> 0 <= r ->
  Rabs (p3eval P (r * x) (r * y) (r * z)) <= 1.01 * p3mag P r.
Proof.
  intros P d r x y z HP Hn Hd Hr. induction P as [|[c [[i j] k]] P IH]; cbn [p3eval p3mag]; [rewrite Rabs_R0; lra|].
  eapply Rle_trans; [apply Rabs_triang|]. rewrite Rmult_plus_distr_l. apply Rplus_le_compat.
  - rewrite !Rpow_mult_distr. replace (c * (r ^ i * x ^ i * (r ^ j * y ^ j) * (r ^ k * z ^ k))) with ((c * r ^ (i + j + k)) * (x ^ i * y ^ j * z ^ k)) by (rewrite !pow_add; ring).
    rewrite Rabs_mult, (Rabs_mult c), (Rabs_pos_eq (r ^ _)) by (apply pow_le; exact Hr). rewrite Rmult_comm.
    apply Rmult_le_compat_r; [apply Rmult_le_pos; [apply Rabs_pos|apply pow_le; exact Hr]|].
    apply (mono_near x y z i j k d Hn); [apply (HP c); left; reflexivity|exact Hd].
  - apply IH. intros c0 i0 j0 k0 H0. apply (HP c0). right. exact H0.
Qed.

(** ** One shell *)
Lemma shell_moment : forall d tol (a : quad (@pt3 RS) R) c g G P r, works d tol a -> p3deg_le P d -> steady (/ 10 ^ 15) g G -> 0 <= r ->
  Rabs (integrate (fun u => moment c g P (at_radius c r u)) a - sphere_int (fun x y z => moment c g P (at_radius c r (x, y, z))))
  <= 2 * tol * (INR d + 1) ^ 2 * (p3mag P r * G r).
Proof.
  intros d tol a c g G P r (Sz & Nr & Ex & Wt & Sm) HP [G0 HG] Hr. rewrite moment_sphere by exact Hr.
  pose proof (Ex _ (p3scale_deg (g r) r P d HP)) as E1. rewrite p3scale_size in E1 by exact Hr.
  set (h := fun u : @pt3 RS => let '(x, y, z) := u in p3eval (p3scale (g r) r P) x y z).
  assert (E2 : integrate h a = s2_sum a (p3eval (p3scale (g r) r P))) by (unfold integrate; rewrite wsum_nsum; reflexivity).
  pose proof (p3mag_pos P r Hr) as M0. pose proof (G0 r Hr) as G1. pose proof (Rabs_pos (g r)) as G2. assert (G3 : 0 <= G r) by lra. pose proof (pos_INR d) as D0.
  assert (E3 : Rabs (integrate (fun u => moment c g P (at_radius c r u)) a - integrate h a) <= (1.01 * sph_err * (p3mag P r * G r)) * abs_weight a).
  { unfold integrate, abs_weight. apply wsum_near; [|unfold sph_err; apply Rmult_le_pos; [lra|apply Rmult_le_pos; lra]].
    intros [[x y] z] Hin. rewrite moment_at by exact Hr. unfold h. rewrite p3scale_eval.
    rewrite List.Forall_forall in Nr. specialize (Nr _ Hin).
    assert (S1 : Rabs (sqrt (x * x + y * y + z * z) - 1) <= sph_err).
    { apply Space.sqrt_near; [unfold sph_err; lra|nra|exact Nr]. }
    pose proof (HG r (sqrt (x * x + y * y + z * z)) Hr ltac:(unfold sph_err in S1; lra)) as S2.
    pose proof (p3_near P d r x y z HP Nr Sm Hr) as S3.
    rewrite p3scale_eval, Rmult_1_l, <- Rmult_minus_distr_r, Rabs_mult.
    pose proof (Rabs_pos (g (r * sqrt (x * x + y * y + z * z)) - g r)). pose proof (Rabs_pos (p3eval P (r * x) (r * y) (r * z))).
    apply Rle_trans with (sph_err * G r * (1.01 * p3mag P r)); [|right; ring].
    apply Rmult_le_compat; try assumption. eapply Rle_trans; [exact S2|]. apply Rmult_le_compat_r; assumption. }
  rewrite E2 in E3.
  match goal with |- Rabs (?A - ?C) <= _ => replace (A - C) with ((A - s2_sum a (p3eval (p3scale (g r) r P))) + (s2_sum a (p3eval (p3scale (g r) r P)) - C)) by ring end.
  eapply Rle_trans; [apply Rabs_triang|].
  assert (T0 : 0 <= tol).
  { eapply Rle_trans; [|exact Wt]. apply Rmult_le_pos; [unfold sph_err; lra|]. unfold abs_weight. clear. induction (qweights a) as [|w l IH]; unfold Rsum in *; cbn; [lra|]. pose proof (Rabs_pos w). lra. }
  assert (T1 : 0 <= tol * (INR d + 1) ^ 2) by (apply Rmult_le_pos; [exact T0|apply pow2_ge_0]).
  assert (E5 : tol * (INR d + 1) ^ 2 * (Rabs (g r) * p3mag P r) <= tol * (INR d + 1) ^ 2 * (p3mag P r * G r)).
  { apply Rmult_le_compat_l; [exact T1|]. rewrite Rmult_comm. apply Rmult_le_compat_l; assumption. }
  assert (E4 : 1.01 * sph_err * (p3mag P r * G r) * abs_weight a <= tol * (INR d + 1) ^ 2 * (p3mag P r * G r)).
  { replace (1.01 * sph_err * (p3mag P r * G r) * abs_weight a) with ((1.01 * sph_err * abs_weight a) * (p3mag P r * G r)) by ring.
    apply Rmult_le_compat_r; [apply Rmult_le_pos; assumption|]. apply Rle_trans with (tol * 1); [lra|]. apply Rmult_le_compat_l; [exact T0|]. nra. }
  lra.
Qed.

(** ** Grids of shells *)
Lemma skip_split : forall {A} (l : list A) a b, (a <= b)%nat -> skipn a l = firstn (b - a) (skipn a l) ++ skipn b l.
Proof.
  intros A l. induction l as [|x l IH]; intros a b H; [rewrite !skipn_nil, firstn_nil; reflexivity|]. destruct a as [|a].
  - cbn [skipn]. rewrite Nat.sub_0_r, firstn_skipn. reflexivity.
  - destruct b as [|b]; [lia|]. cbn [skipn]. rewrite Nat.sub_succ. apply IH. lia.
Qed.
Lemma In_part : forall {A} (l : list A) a k x, In x (firstn k (skipn a l)) -> In x l.
Proof.
  intros A l a k x H. rewrite <- (firstn_skipn a l). apply in_or_app. right. rewrite <- (firstn_skipn k (skipn a l)). apply in_or_app. left. exact H.
Qed.
Lemma integrate_nodes : forall {T} (f : T -> R) (q : quad T R), integrate f q = Rsum (map (fun pw => snd pw * f (fst pw)) (nodes q)).
Proof. reflexivity. Qed.
Lemma Rsum_app : forall a b, Rsum (a ++ b) = Rsum a + Rsum b.
Proof. intros a b. unfold Rsum. induction a as [|x a IH]; cbn; [ring|]. rewrite IH. ring. Qed.
Lemma Rsum_perm : forall a b, Permutation a b -> Rsum a = Rsum b.
Proof. intros a b H. unfold Rsum. induction H; cbn; lra. Qed.

Lemma shell_sum : forall F c r w (a : quad (@pt3 RS) R),
  Rsum (map (fun pw : @pt3 RS * R => snd pw * F (fst pw)) (@SphereSpec.shell RS c (r, w) a)) = w * (r * r * integrate (fun u => F (at_radius c r u)) a).
Proof.
  intros F c r w a.
  assert (K : forall l : list (@pt3 RS * R), Rsum (map (fun pw : @pt3 RS * R => snd pw * F (fst pw)) (map (@sphere_node RS c (r, w)) l))
    = w * (r * r * Rsum (map (fun pw => snd pw * F (at_radius c r (fst pw))) l))); [|exact (K (nodes a))].
  intro l. unfold Rsum. induction l as [|[u v] l IH]; [cbn [map fold_right]; rewrite !Rmult_0_r; reflexivity|].
  cbn [map fold_right].
  assert (Q : fst (@sphere_node RS c (r, w) (u, v)) = at_radius c r u).
  { destruct c as [[cx cy] cz], u as [[x y] z]. simpl. apply triple_eq; rs_ring. }
  assert (Q' : snd (@sphere_node RS c (r, w) (u, v)) = (w * v) * (r * r)).
  { destruct c as [[cx cy] cz], u as [[x y] z]. reflexivity. }
  refine (eq_trans (f_equal2 Rplus (f_equal2 Rmult Q' (f_equal F Q)) IH) _). cbn [fst snd]. ring.
Qed.

Definition radial_sum (f : R -> R) (l : list (R * R)) : R := Rsum (map (fun rw => snd rw * f (fst rw)) l).
Lemma radial_sum_app : forall f a b, radial_sum f (a ++ b) = radial_sum f a + radial_sum f b.
Proof. intros. unfold radial_sum. rewrite map_app. apply Rsum_app. Qed.

Section Regions.
Variables (F : @pt3 RS -> R) (c : @pt3 RS) (E b : R -> R).
Notation val := (fun l : list (@pt3 RS * R) => Rsum (map (fun pw => snd pw * F (fst pw)) l)).
Definition fits (a : quad (@pt3 RS) R) (rw : R * R) : Prop :=
  0 <= snd rw /\ Rabs (integrate (fun u => F (at_radius c (fst rw) u)) a - E (fst rw)) <= b (fst rw).

Lemma segment_sum : forall a l, List.Forall (fits a) l ->
  Rabs (val (flat_map (fun rw => @SphereSpec.shell RS c rw a) l) - radial_sum (fun r => r * r * E r) l) <= radial_sum (fun r => r * r * b r) l.
Proof.
  intros a l H. unfold radial_sum. induction H as [|[r w] l [Hw Hb] _ IH]; [unfold Rsum; cbn; rewrite Rminus_0_r, Rabs_R0; lra|].
  cbn [fst snd] in Hw, Hb. cbn [flat_map map]. rewrite map_app, Rsum_app. rewrite shell_sum. cbn [fst snd].
  change (Rsum (?x :: ?l)) with (x + Rsum l).
  set (A := integrate _ a) in *. match type of IH with Rabs (?v - ?x) <= ?y => set (V := v) in *; set (X := x) in *; set (Y := y) in * end.
  change (Rabs (w * (r * r * A) + V - (w * (r * r * E r) + X)) <= w * (r * r * b r) + Y).
  replace (w * (r * r * A) + V - (w * (r * r * E r) + X)) with (w * (r * r) * (A - E r) + (V - X)) by ring.
  eapply Rle_trans; [apply Rabs_triang|]. rewrite Rabs_mult, (Rabs_pos_eq (w * (r * r))) by nra.
  apply Rplus_le_compat; [|exact IH]. replace (w * (r * r * b r)) with (w * (r * r) * b r) by ring. apply Rmult_le_compat_l; [nra|exact Hb].
Qed.

Lemma regions_sum : forall (nds : list (R * R)) rs (quads : list (quad (@pt3 RS) R)) lo, covers lo (length nds) rs -> length rs = length quads ->
  List.Forall (fun a => List.Forall (fits a) nds) quads ->
  Rabs (val (flat_map (fun ra => flat_map (fun rw => @SphereSpec.shell RS c rw (snd ra))
          (firstn (snd (fst ra) - fst (fst ra)) (skipn (fst (fst ra)) nds))) (combine rs quads))
        - radial_sum (fun r => r * r * E r) (skipn lo nds))
  <= radial_sum (fun r => r * r * b r) (skipn lo nds).
Proof.
  intros nds rs. induction rs as [|[s e] rs IH]; intros [|a quads] lo C L H; try discriminate.
  - cbn in C. subst lo. cbn. rewrite skipn_all. unfold radial_sum, Rsum. cbn. rewrite Rminus_0_r, Rabs_R0. lra.
  - destruct C as (-> & Hlt & C). injection L as L. inversion H as [|? ? Ha Hq]; subst. specialize (IH quads e C L Hq).
    cbn [combine flat_map fst snd]. rewrite map_app, Rsum_app.
    assert (Sp : skipn lo nds = firstn (e - lo) (skipn lo nds) ++ skipn e nds).
    { apply skip_split. lia. }
    rewrite Sp at 2 3. rewrite !radial_sum_app.
    assert (Hs : List.Forall (fits a) (firstn (e - lo) (skipn lo nds))).
    { apply List.Forall_forall. intros x Hx. rewrite List.Forall_forall in Ha. apply Ha. apply In_part in Hx. exact Hx. }
    pose proof (segment_sum a _ Hs) as S1.
    match type of S1 with Rabs (?v - ?x) <= _ => set (V1 := v) in *; set (X1 := x) in * end.
    match type of IH with Rabs (?v - ?x) <= _ => set (V2 := v) in *; set (X2 := x) in * end.
    match goal with |- _ <= ?rhs => change (Rabs (V1 + V2 - (X1 + X2)) <= rhs) end.
    replace (V1 + V2 - (X1 + X2)) with ((V1 - X1) + (V2 - X2)) by ring. eapply Rle_trans; [apply Rabs_triang|]. lra.
Qed.
End Regions.
