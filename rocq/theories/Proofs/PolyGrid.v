(** Polynomials integrated by the angular grids, in exact arithmetic and in binary64. *)
From Coq Require Import ZArith List Bool Reals Lra Lia Psatz.
From Coquelicot Require Import Rcomplements.
From Flocq Require Import IEEE754.BinarySingleNaN.
From Verif Require Import Base.Outcome Base.Scalar Base.RScalar Base.FScalar Model.Quadrature Model.S2Tables Model.S2 Model.Composite
  Model.GridCode Model.Grids
  Spec.QuadSpec Spec.SphereSpec Spec.SphereInt Spec.PolySpec Spec.FloatSpec Spec.LibmSpec Spec.GridFloatSpec
  Proofs.PiBounds Proofs.GridExact Proofs.NearSphere Proofs.GridLoad Proofs.FloatErr Proofs.RadialFloat Proofs.ChebFloat3 Proofs.GridFloatSum.
Import ListNotations.
Local Open Scope R_scope.

Definition sph_err : R := 5 / 10000000000000000.
Ltac nn := repeat match goal with |- 0 <= _ * _ => apply Rmult_le_pos end.

(** ** The combination of harmonics against the polynomial *)
Lemma node_cap : forall p h d v k, p3deg_le p d -> hdeg_le h d ->
  (forall x y z, x * x + y * y + z * z = 1 -> p3eval p x y z = heval h x y z) ->
  INR d + 1 <= 1000000 -> cap v k -> near_sphere sph_err v ->
  let '(x, y, z) := v in Rabs (heval h x y z - p3eval p x y z) <= 1.01 * sph_err * (INR d * (INR d + 2)) * p3size p * k.
Proof.
  intros p h d [[x y] z] k Hp Hh Heq Hd Hc Hn. pose proof (pos_INR d) as D0. pose proof (p3size_pos p) as P0.
  assert (S0 : 0 < sph_err) by (unfold sph_err; lra).
  destruct Hc as [(X & Y & Z & K)|(Z & K)].
  - subst x y. rewrite Heq by lra. rewrite Rminus_diag_eq, Rabs_R0 by reflexivity.
    nn; lra.
  - unfold near_sphere in Hn. assert (Z0 : 0 < 1 - z * z) by lra.
    assert (I : / (1 - z * z) <= 10000).
    { replace 10000 with (/ / 10000) by (field). apply Rinv_le_contravar; lra. }
    assert (I0 : 0 < / (1 - z * z)) by (apply Rinv_0_lt_compat; exact Z0).
    eapply Rle_trans; [apply (node_error p h d x y z sph_err Hp Hh Heq Z0 Hn)|].
    + unfold Rdiv. unfold sph_err in *. nra.
    + unfold Rdiv. replace (1.01 * (sph_err * / (1 - z * z)) * (INR d * (INR d + 2)) * p3size p)
        with (1.01 * sph_err * (INR d * (INR d + 2)) * p3size p * / (1 - z * z)) by ring.
      apply Rmult_le_compat_l; [|exact K]. nn; lra.
Qed.

Lemma loaded_nonneg : forall l B, loaded l B -> 0 <= B.
Proof.
  intros l B H. induction H as [|[[x y] z] w r k B C H IH]; [lra|]. pose proof (Rabs_pos w).
  assert (0 <= k).
  { destruct C as [(_ & _ & _ & K)|(Z & K)]; [lra|]. assert (0 < / (1 - z * z)) by (apply Rinv_0_lt_compat; lra). lra. }
  nra.
Qed.

Lemma nodes_cap : forall p h d l B, p3deg_le p d -> hdeg_le h d ->
  (forall x y z, x * x + y * y + z * z = 1 -> p3eval p x y z = heval h x y z) ->
  INR d + 1 <= 1000000 -> loaded l B -> Forall (near_sphere sph_err) (map fst l) ->
  Rabs (nsum l (p3eval p) - nsum l (heval h)) <= 1.01 * sph_err * (INR d * (INR d + 2)) * p3size p * B.
Proof.
  intros p h d l B Hp Hh Heq Hd H. induction H as [|[[x y] z] w r k B C H IH]; intro F; cbn [nsum map fst] in *.
  - rewrite Rminus_diag_eq, Rabs_R0 by reflexivity. lra.
  - inversion F as [|? ? F1 F2]; subst. specialize (IH F2).
    pose proof (node_cap p h d (x, y, z) k Hp Hh Heq Hd C F1) as N. cbv beta iota in N.
    set (E := 1.01 * sph_err * (INR d * (INR d + 2)) * p3size p) in *.
    replace (w * p3eval p x y z + nsum r (p3eval p) - (w * heval h x y z + nsum r (heval h)))
      with (- (w * (heval h x y z - p3eval p x y z)) + (nsum r (p3eval p) - nsum r (heval h))) by ring.
    eapply Rle_trans; [apply Rabs_triang|]. rewrite Rabs_Ropp, Rabs_mult, Rmult_plus_distr_l.
    apply Rplus_le_compat; [|exact IH]. replace (E * (Rabs w * k)) with (Rabs w * (E * k)) by ring.
    apply Rmult_le_compat_l; [apply Rabs_pos|exact N].
Qed.

Lemma hdeg_weaken : forall h d e, hdeg_le h d -> (d <= e)%nat -> hdeg_le h e.
Proof. intros h d e H L c s m n I. pose proof (H c s m n I). lia. Qed.
Lemma integrates_less : forall tol d e q, integrates tol e q -> (d <= e)%nat -> integrates tol d q.
Proof. intros tol d e q H L h Hh. apply H. eapply hdeg_weaken; eauto. Qed.

Lemma sized_fst : forall n (q : quad (@pt3 RS) R), sized n q -> map fst (nodes q) = qpoints q.
Proof.
  intros n q (_ & H1 & H2 & _). unfold nodes. revert H1 H2. generalize (qpoints q) (qweights q). clear.
  intros ps ws H1 H2. assert (L : length ps = length ws) by (rewrite H1, H2; reflexivity). clear H1 H2. revert ws L.
  induction ps as [|a ps IH]; intros [|b ws] L; cbn in *; try discriminate; [reflexivity|]. f_equal. apply IH. lia.
Qed.

Lemma poly_sum : forall tol d (q : quad (@pt3 RS) R) n B p, sized n q -> Forall (near_sphere sph_err) (qpoints q) ->
  integrates tol d q -> loaded (nodes q) B -> INR d + 1 <= 1000000 -> p3deg_le p d ->
  Rabs (s2_sum q (p3eval p) - sphere_int (p3eval p)) <= (tol * (INR d + 1) + 1.01 * sph_err * (INR d * (INR d + 2)) * B) * p3size p.
Proof.
  intros tol d q n B p Hs Hn Hi Hl Hd Hp.
  destruct (polynomials_integrated tol d q Hi p (p3size p) Hp) as (h & H1 & H2 & H3); [intros; apply p3_bound; assumption|].
  rewrite <- (sized_fst n q Hs) in Hn.
  pose proof (nodes_cap p h d (nodes q) B Hp H1 H2 Hd Hl Hn) as N. fold (s2_sum q (p3eval p)) in N. fold (s2_sum q (heval h)) in N.
  replace (s2_sum q (p3eval p) - sphere_int (p3eval p)) with ((s2_sum q (p3eval p) - s2_sum q (heval h)) + (s2_sum q (heval h) - sphere_int (p3eval p))) by ring.
  eapply Rle_trans; [apply Rabs_triang|]. lra.
Qed.

(** ** Rounding *)
Lemma pow_rel : forall a u i, 0 <= u < 1 -> Rabs a <= u -> (1 - u) ^ i <= (1 + a) ^ i <= (1 + u) ^ i.
Proof. intros a u i Hu Ha. apply Rabs_le_between in Ha. split; apply pow_incr; lra. Qed.
Lemma pow3_rel : forall a b c u i j k d, 0 <= u < 1 -> Rabs a <= u -> Rabs b <= u -> Rabs c <= u -> (i + j + k <= d)%nat -> INR d * u <= / 101 ->
  Rabs ((1 + a) ^ i * (1 + b) ^ j * (1 + c) ^ k - 1) <= 1.01 * (INR d * u).
Proof.
  intros a b c u i j k d Hu Ha Hb Hc Hd Hdu.
  destruct (pow_rel a u i Hu Ha) as (A1 & A2). destruct (pow_rel b u j Hu Hb) as (B1 & B2). destruct (pow_rel c u k Hu Hc) as (C1 & C2).
  assert (P : forall e, 0 <= (1 - u) ^ e) by (intro e; apply pow_le; lra).
  assert (I : INR (i + j + k) * u <= INR d * u) by (apply Rmult_le_compat_r; [lra|apply le_INR; exact Hd]).
  assert (N1 : Rabs ((1 + u) ^ (i + j + k) - 1) <= 1.01 * (INR (i + j + k) * u)).
  { apply pow_near; [lra| |lra]. replace (1 + u - 1) with u by ring. rewrite Rabs_pos_eq; lra. }
  assert (N2 : Rabs ((1 - u) ^ (i + j + k) - 1) <= 1.01 * (INR (i + j + k) * u)).
  { apply pow_near; [lra| |lra]. replace (1 - u - 1) with (- u) by ring. rewrite Rabs_Ropp, Rabs_pos_eq; lra. }
  rewrite !pow_add in N1, N2. apply Rabs_le_between in N1. apply Rabs_le_between in N2.
  assert (U : (1 + a) ^ i * (1 + b) ^ j * (1 + c) ^ k <= (1 + u) ^ i * (1 + u) ^ j * (1 + u) ^ k).
  { pose proof (P i). pose proof (P j). pose proof (P k). apply Rmult_le_compat; [apply Rmult_le_pos; lra|lra| |lra]. apply Rmult_le_compat; lra. }
  assert (L : (1 - u) ^ i * (1 - u) ^ j * (1 - u) ^ k <= (1 + a) ^ i * (1 + b) ^ j * (1 + c) ^ k).
  { pose proof (P i). pose proof (P j). pose proof (P k). apply Rmult_le_compat; [apply Rmult_le_pos; lra|lra| |lra]. apply Rmult_le_compat; lra. }
  apply Rabs_le. lra.
Qed.

Lemma near_box : forall x y z, near_sphere sph_err (x, y, z) -> Rabs x <= 1 + sph_err /\ Rabs y <= 1 + sph_err /\ Rabs z <= 1 + sph_err.
Proof.
  intros x y z H. unfold near_sphere in H. apply Rabs_le_between in H. assert (0 < sph_err) by (unfold sph_err; lra).
  assert (K : forall t, t * t <= 1 + sph_err -> Rabs t <= 1 + sph_err) by (intros t Ht; apply Rabs_le; split; nra).
  repeat split; apply K; nra.
Qed.
Lemma mono_near : forall x y z i j k d, near_sphere sph_err (x, y, z) -> (i + j + k <= d)%nat -> INR d * sph_err <= / 101 ->
  Rabs (x ^ i * y ^ j * z ^ k) <= 1.01.
Proof.
  intros x y z i j k d H Hd Hs. destruct (near_box x y z H) as (X & Y & Z). assert (S0 : 0 < sph_err) by (unfold sph_err; lra).
  assert (Q : forall t e, Rabs t <= 1 + sph_err -> 0 <= Rabs (t ^ e) <= (1 + sph_err) ^ e).
  { intros t e Ht. split; [apply Rabs_pos|]. rewrite <- RPow_abs. apply pow_incr. split; [apply Rabs_pos|exact Ht]. }
  pose proof (Q x i X) as (X0 & X1). pose proof (Q y j Y) as (Y0 & Y1). pose proof (Q z k Z) as (Z0 & Z1).
  rewrite !Rabs_mult.
  assert (I : INR (i + j + k) * sph_err <= INR d * sph_err) by (apply Rmult_le_compat_r; [lra|apply le_INR; exact Hd]).
  assert (N1 : Rabs ((1 + sph_err) ^ (i + j + k) - 1) <= 1.01 * (INR (i + j + k) * sph_err)).
  { apply pow_near; [lra| |lra]. replace (1 + sph_err - 1) with sph_err by ring. rewrite Rabs_pos_eq; lra. }
  apply Rabs_le_between in N1. rewrite !pow_add in N1.
  apply Rle_trans with ((1 + sph_err) ^ i * (1 + sph_err) ^ j * (1 + sph_err) ^ k); [|lra].
  apply Rmult_le_compat; auto; [apply Rmult_le_pos; auto|]. apply Rmult_le_compat; auto.
Qed.

(** Change of a weighted monomial under relative changes u of the coordinates and 4.1 u of the weight. *)
Lemma p3_rel : forall p d x y z a b c t w u, p3deg_le p d -> near_sphere sph_err (x, y, z) -> INR d * sph_err <= / 101 ->
  0 <= u <= / 100000 -> INR d * u <= / 101 -> Rabs a <= u -> Rabs b <= u -> Rabs c <= u -> Rabs t <= 4.1 * u ->
  Rabs (w * (1 + t) * p3eval p (x * (1 + a)) (y * (1 + b)) (z * (1 + c)) - w * p3eval p x y z) <= Rabs w * (1.1 * (INR d + 5) * u * p3size p).
Proof.
  intros p d x y z a b c t w u Hp Hn Hds Hu Hdu Ha Hb Hc Ht. pose proof (pos_INR d) as D0.
  replace (w * (1 + t) * p3eval p (x * (1 + a)) (y * (1 + b)) (z * (1 + c)) - w * p3eval p x y z)
    with (w * ((1 + t) * p3eval p (x * (1 + a)) (y * (1 + b)) (z * (1 + c)) - p3eval p x y z)) by ring.
  rewrite Rabs_mult. apply Rmult_le_compat_l; [apply Rabs_pos|].
  induction p as [|[v [[i j] k]] p IH]; cbn [p3eval p3size].
  - replace ((1 + t) * 0 - 0) with 0 by ring. rewrite Rabs_R0. lra.
  - assert (Hq : p3deg_le p d) by (intros c0 a0 b0 g0 H0; apply (Hp c0 a0 b0 g0); right; exact H0). specialize (IH Hq).
    assert (Hm : (i + j + k <= d)%nat) by (apply (Hp v i j k); left; reflexivity).
    set (P' := p3eval p (x * (1 + a)) (y * (1 + b)) (z * (1 + c))) in *. set (P := p3eval p x y z) in *.
    set (g := (1 + a) ^ i * (1 + b) ^ j * (1 + c) ^ k). set (mo := x ^ i * y ^ j * z ^ k).
    replace ((1 + t) * (v * ((x * (1 + a)) ^ i * (y * (1 + b)) ^ j * (z * (1 + c)) ^ k) + P') - (v * mo + P))
      with (v * (mo * ((g - 1) + t + t * (g - 1))) + ((1 + t) * P' - P)) by (unfold g, mo; rewrite !Rpow_mult_distr; ring).
    eapply Rle_trans; [apply Rabs_triang|]. rewrite (Rmult_plus_distr_l _ (Rabs v)). apply Rplus_le_compat; [|exact IH].
    rewrite Rabs_mult, Rmult_comm. apply Rmult_le_compat_r; [apply Rabs_pos|]. rewrite Rabs_mult.
    pose proof (pow3_rel a b c u i j k d ltac:(lra) Ha Hb Hc Hm Hdu) as G. fold g in G.
    pose proof (mono_near x y z i j k d Hn Hm Hds) as Mo. fold mo in Mo.
    assert (T : Rabs (g - 1 + t + t * (g - 1)) <= 1.02 * (INR d + 5) * u).
    { eapply Rle_trans; [apply Rabs_triang|]. eapply Rle_trans; [apply Rplus_le_compat_r, Rabs_triang|]. rewrite Rabs_mult.
      pose proof (Rabs_pos t). pose proof (Rabs_pos (g - 1)). assert (Rabs (g - 1) <= / 50) by lra. 
      assert (Rabs t * Rabs (g - 1) <= 4.1 * u * / 50) by (apply Rmult_le_compat; lra). nra. }
    apply Rle_trans with (1.01 * (1.02 * (INR d + 5) * u)).
    + apply Rmult_le_compat; try apply Rabs_pos; assumption.
    + nra.
Qed.

Lemma close_sum : forall p d pf wf ps ws u, p3deg_le p d -> INR d * sph_err <= / 101 -> 0 <= u <= / 100000 -> INR d * u <= / 101 ->
  Forall (near_sphere sph_err) ps -> close_quads pf wf ps ws u (4.1 * u) -> forall B, loaded (combine ps ws) B ->
  Rabs (sum3 (map real_pt pf) (map B2R wf) (p3eval p) - nsum (combine ps ws) (p3eval p)) <= 1.1 * (INR d + 5) * u * p3size p * B.
Proof.
  intros p d pf wf ps ws u Hp Hds Hu Hdu Hn (C & D). revert Hn wf ws D.
  induction C as [|x v pf ps Hx C IH]; intros Hn wf ws D B HB.
  - inversion HB; subst. unfold sum3. cbn [map combine fold_right nsum]. rewrite Rminus_0_r, Rabs_R0. lra.
  - destruct D as [|y w wf ws Hy D].
    + inversion HB; subst. unfold sum3. cbn [map combine fold_right nsum]. rewrite Rminus_0_r, Rabs_R0. lra.
    + inversion Hn as [|? ? N1 N2]; subst. cbn [combine] in HB. inversion HB as [|? ? ? k B' K L]; subst.
      specialize (IH N2 wf ws D B' L). destruct v as [[vx vy] vz].
      destruct Hx as (C1 & C2 & C3). cbn [px py pz fst snd] in C1, C2, C3.
      destruct (rel_of_close _ _ _ (proj1 Hu) C1) as (_ & a & Ha & E1). destruct (rel_of_close _ _ _ (proj1 Hu) C2) as (_ & b & Hb & E2).
      destruct (rel_of_close _ _ _ (proj1 Hu) C3) as (_ & c & Hc & E3). assert (U4 : 0 <= 4.1 * u) by lra. destruct (rel_of_close _ _ _ U4 Hy) as (_ & t & Ht & E4).
      unfold sum3 in *. cbn [map combine fold_right nsum fst snd real_pt px py pz] in *. unfold px, py, pz in *. cbn [fst snd] in *.
      rewrite E1, E2, E3, E4. pose proof (p3_rel p d vx vy vz a b c t w u Hp N1 Hds Hu Hdu Ha Hb Hc Ht) as Q.
      set (E := 1.1 * (INR d + 5) * u * p3size p) in *.
      assert (E0 : 0 <= E) by (unfold E; pose proof (pos_INR d); pose proof (p3size_pos p); nn; lra).
      assert (K1 : 1 <= k).
      { destruct K as [(_ & _ & _ & K)|(Z & K)]; [exact K|]. eapply Rle_trans; [|exact K]. rewrite <- Rinv_1 at 1. apply Rinv_le_contravar; nra. }
      match goal with |- Rabs ((?a + ?b) - (?c + ?d)) <= _ => replace ((a + b) - (c + d)) with ((a - c) + (b - d)) by ring end.
      eapply Rle_trans; [apply Rabs_triang|]. rewrite (Rmult_plus_distr_l E). apply Rplus_le_compat; [|exact IH].
      eapply Rle_trans; [exact Q|]. rewrite (Rmult_comm E). rewrite Rmult_assoc. apply Rmult_le_compat_l; [apply Rabs_pos|]. nra.
Qed.

(** ** The grids *)
Lemma order_small : forall f n, algebraic_order_by_npts f (Z.of_nat n) <> (-1)%Z -> INR (order f n) + 1 <= 1000000.
Proof.
  intros f n H. assert (K : forall tab, forallb (fun p : Z * Z => (snd p <=? 1000)%Z) tab = true -> forall k, (switch tab k <= 1000)%Z).
  { induction tab as [|[a b] tab IH]; intros HF k; cbn [switch forallb snd] in *; [lia|]. apply andb_prop in HF. destruct HF as [H1 H2].
    apply Z.leb_le in H1. destruct (Z.eqb k a); [exact H1|apply IH; exact H2]. }
  assert (L : (algebraic_order_by_npts f (Z.of_nat n) <= 1000)%Z) by (destruct f; apply K; reflexivity).
  unfold order. rewrite INR_IZR_INZ, Z2Nat.inj_max || rewrite INR_IZR_INZ.
  assert (Q : (Z.of_nat (Z.to_nat (algebraic_order_by_npts f (Z.of_nat n))) <= 1000)%Z) by lia. apply IZR_le in Q. lra.
Qed.

Lemma final_bound : forall f n D B e, 0 <= D -> 0 <= B <= load_max f n -> 0 <= e <= 1.1 * (D + 5) * / 2 ^ 53 * B ->
  tol_of f * (D + 1) + 1.01 * sph_err * (D * (D + 2)) * B + e <= poly_tol f n * (D + 1) ^ 2.
Proof.
  intros f n D B e HD HB He. pose proof pi_bounds as HPI.
  assert (G : forall K t T, 0 <= B <= K -> t + (1.01 * sph_err + 1.1 * / 2 ^ 53) * K <= T -> 0 <= t ->
    t * (D + 1) + 1.01 * sph_err * (D * (D + 2)) * B + e <= T * (D + 1) ^ 2).
  { intros K t T HK HT Ht. set (a := 1.01 * sph_err) in *. set (b := 1.1 * / 2 ^ 53) in *.
    assert (A0 : 0 <= a) by (unfold a, sph_err; lra). assert (B0 : 0 <= b) by (unfold b; lra). assert (AB : 4 * b <= a) by (unfold a, b, sph_err; lra).
    assert (e <= b * (D + 5) * B) by (unfold b; lra).
    assert (Q : (D + 1) ^ 2 = D * (D + 2) + 1) by ring. rewrite Q.
    assert (D2 : 0 <= D * (D + 2)) by nra.
    apply Rle_trans with ((t + (a + b) * K) * (D * (D + 2) + 1)); [|apply Rmult_le_compat_r; lra].
    assert (M1 : a * (D * (D + 2)) * B <= a * (D * (D + 2)) * K) by (apply Rmult_le_compat_l; [apply Rmult_le_pos; lra|lra]).
    assert (M2 : b * (D + 5) * B <= b * (D + 5) * K) by (apply Rmult_le_compat_l; [apply Rmult_le_pos; lra|lra]).
    assert (M3 : t * (D + 1) <= t * (D * (D + 2) + 1)) by (apply Rmult_le_compat_l; [exact Ht|nra]).
    assert (M4 : b * (D + 5) * K <= b * (D * (D + 2) + 1) * K + a * K).
    { replace (b * (D * (D + 2) + 1) * K + a * K) with ((b * (D * (D + 2) + 1) + a) * K) by ring. apply Rmult_le_compat_r; [lra|]. nra. }
    lra. }
  unfold poly_tol, tol_of, load_max in *. destruct f; [| | destruct (Nat.eqb n 230)|].
  all: match type of HB with _ <= _ <= ?k => apply (G k); [exact HB| |lra] end; unfold sph_err; lra.
Qed.

Theorem poly_real : forall f dbg n, algebraic_order_by_npts f (Z.of_nat n) <> (-1)%Z -> checked f n ->
  exists q : quad (@pt3 RS) R, construct dbg (s2_generate repo_grids f n) = Ok q /\ sized n q /\
  forall p d, (Z.of_nat d <= algebraic_order_by_npts f (Z.of_nat n))%Z -> p3deg_le p d ->
    Rabs (s2_sum q (p3eval p) - sphere_int (p3eval p)) <= poly_tol f n * (INR d + 1) ^ 2 * p3size p.
Proof.
  intros f dbg n H C. destruct (angular_checked f dbg n H C) as (q & Q1 & Q2 & Q3 & Q4 & B & B1 & B2).
  exists q. split; [exact Q1|]. split; [exact Q2|]. intros p d Hd Hp.
  assert (Ho : (d <= order f n)%nat) by (unfold order; lia). assert (HI : INR d <= INR (order f n)) by (apply le_INR; exact Ho).
  pose proof (order_small f n H). eapply Rle_trans; [apply (poly_sum (tol_of f) d q n B p Q2 Q3 (integrates_less _ _ _ _ Q4 Ho) B1 ltac:(lra) Hp)|].
  apply Rmult_le_compat_r; [apply p3size_pos|]. pose proof (loaded_nonneg _ _ B1). pose proof (pos_INR d).
  pose proof (final_bound f n (INR d) B 0 ltac:(lra) ltac:(lra)) as G. rewrite Rplus_0_r in G. apply G. split; [lra|]. nn; lra.
Qed.

Theorem poly_float : forall m f dbg n, algebraic_order_by_npts f (Z.of_nat n) <> (-1)%Z -> checked f n ->
  exists q : aquad (FS m), construct dbg (s2_generate (@repo_grids (FS m)) f n) = Ok q /\ sized n q /\
  forall p d, (Z.of_nat d <= algebraic_order_by_npts f (Z.of_nat n))%Z -> p3deg_le p d ->
    Rabs (sum3 (map real_pt (qpoints q)) (map B2R (qweights q)) (p3eval p) - sphere_int (p3eval p)) <= poly_tol f n * (INR d + 1) ^ 2 * p3size p.
Proof.
  intros m f dbg n H C. destruct (angular_checked f dbg n H C) as (q & Q1 & Q2 & Q3 & Q4 & B & B1 & B2).
  assert (T : transcribed f n) by (intros ->; cbn [checked] in C; lia).
  destruct (grid_angular m f dbg n T) as (af & a & A1 & A2 & A3 & A4 & A5). rewrite Q1 in A2. apply ok_inj in A2. subst a.
  exists af. split; [exact A1|]. split; [exact A3|]. intros p d Hd Hp.
  assert (Ho : (d <= order f n)%nat) by (unfold order; lia). assert (HI : INR d <= INR (order f n)) by (apply le_INR; exact Ho).
  pose proof (order_small f n H) as Os. pose proof (pos_INR d) as D0.
  pose proof (poly_sum (tol_of f) d q n B p Q2 Q3 (integrates_less _ _ _ _ Q4 Ho) B1 ltac:(lra) Hp) as E1.
  assert (U : 0 <= ulp53 <= / 100000) by (unfold ulp53; lra).
  pose proof (close_sum p d _ _ _ _ ulp53 Hp ltac:(unfold sph_err; lra) U ltac:(unfold ulp53; lra) Q3 A5 B B1) as E2.
  fold (nodes q) in E2. fold (s2_sum q (p3eval p)) in E2.
  set (sf := sum3 (map real_pt (qpoints af)) (map B2R (qweights af)) (p3eval p)) in *.
  replace (sf - sphere_int (p3eval p)) with ((sf - s2_sum q (p3eval p)) + (s2_sum q (p3eval p) - sphere_int (p3eval p))) by ring.
  eapply Rle_trans; [apply Rabs_triang|].
  apply Rle_trans with ((tol_of f * (INR d + 1) + 1.01 * sph_err * (INR d * (INR d + 2)) * B + 1.1 * (INR d + 5) * ulp53 * B) * p3size p).
  - rewrite Rplus_comm, Rmult_plus_distr_r. apply Rplus_le_compat; [exact E1|]. eapply Rle_trans; [exact E2|]. right. ring.
  - apply Rmult_le_compat_r; [apply p3size_pos|]. pose proof (loaded_nonneg _ _ B1). apply final_bound; [exact D0|lra|].
    split; [|unfold ulp53; lra]. nn; unfold ulp53 in *; lra.
Qed.
