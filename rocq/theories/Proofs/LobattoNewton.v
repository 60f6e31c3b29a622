(** The Newton iteration of the Gauss-Lobatto rule, in exact arithmetic: it converges from the
    program's starting points within its 100 steps. *)
From Coq Require Import List Bool Arith ZArith Lia Reals Lra Psatz.
From Coquelicot Require Import Coquelicot.
From Verif Require Import Base.Outcome Base.Scalar Base.RScalar Model.Primitive Spec.Sums Spec.RealRules
  Proofs.Tab Proofs.SumFacts Proofs.PrimitiveFacts Proofs.ChebReal Proofs.ChebInt Proofs.Legendre
  Proofs.LegendreZeros Proofs.LegendreAngles Proofs.GLNewton Proofs.Lobatto Proofs.LobattoAngles.
Import ListNotations.
Local Open Scope R_scope.

(** One side of a hump of a solution of (w h')' = - L h. *)
Section Hump.
Variables (h h1 w k : R -> R) (L Mx B dl Z : R).
Hypothesis Hh : forall t, is_derive h t (h1 t).
Hypothesis Hg : forall t, is_derive (fun t => w t * h1 t) t (- L * h t).
Hypothesis Hk : forall t, is_derive k t (h t).
Hypothesis h10 : h1 0 = 0.
Hypothesis h0 : h 0 = Mx.
Hypothesis k0 : k 0 = 0.
Hypothesis M0 : 0 < Mx.
Hypothesis L0 : 0 <= L.
Hypothesis B0 : 0 <= B.
Hypothesis W : forall t, 0 <= t <= dl -> 0 < w t /\ L <= B * w t.
Hypothesis BD : B * (dl * dl) <= 0.8.
Hypothesis Z0 : 0 < Z.
Hypothesis ZP : forall t, 0 <= t <= Z -> 0 <= h t.
Hypothesis ZZ : h Z = 0.

Lemma hump_T : forall T, 0 <= T <= dl -> (forall t, 0 <= t <= T -> 0 <= h t) -> forall t, 0 <= t <= T ->
  h1 t <= 0 /\ h t <= Mx /\ Mx * (1 - B * (t * t) / 2) <= h t.
Proof.
  intros T HT HP.
  assert (A : forall t, 0 <= t <= T -> h1 t <= 0).
  { intros t Ht.
    assert (K : - (w 0 * h1 0) <= - (w t * h1 t)).
    { apply (derive_mono (fun t => - (w t * h1 t)) (fun t => - (- L * h t))); try lra.
      - intro s. apply (is_derive_opp (K := R_AbsRing) (V := R_NormedModule) (fun t => w t * h1 t)), Hg.
      - intros s Hs. pose proof (HP s ltac:(lra)). nra. }
    rewrite h10, Rmult_0_r in K. destruct (W t ltac:(lra)) as (w0 & _). nra. }
  assert (C : forall t, 0 <= t <= T -> h t <= Mx).
  { intros t Ht. assert (K : - h 0 <= - h t); [|lra].
    apply (derive_mono (fun t => - h t) (fun t => - h1 t)); try lra.
    - intro s. apply (is_derive_opp (K := R_AbsRing) (V := R_NormedModule) h), Hh.
    - intros s Hs. pose proof (A s ltac:(lra)). lra. }
  assert (D : forall t, 0 <= t <= T -> - (B * Mx * t) <= h1 t).
  { intros t Ht.
    assert (K : w 0 * h1 0 + L * Mx * 0 <= w t * h1 t + L * Mx * t).
    { apply (derive_mono (fun t => w t * h1 t + L * Mx * t) (fun t => - L * h t + L * Mx)); try lra.
      - intro s. apply (is_derive_plus (K := R_AbsRing) (V := R_NormedModule) (fun t => w t * h1 t) (fun t => L * Mx * t)); [apply Hg|].
        auto_derive; auto. ring.
      - intros s Hs. pose proof (C s ltac:(lra)). nra. }
    rewrite h10 in K. destruct (W t ltac:(lra)) as (w0 & wb).
    assert (Mt : 0 <= Mx * t) by (apply Rmult_le_pos; lra).
    assert (L * (Mx * t) <= B * w t * (Mx * t)) by (apply Rmult_le_compat_r; auto).
    apply Rmult_le_reg_l with (w t); auto. lra. }
  intros t Ht. split; [auto|]. split; [auto|].
  assert (K : h 0 + B * Mx / 2 * (0 * 0) <= h t + B * Mx / 2 * (t * t)).
  { apply (derive_mono (fun t => h t + B * Mx / 2 * (t * t)) (fun t => h1 t + B * Mx * t)); try lra.
    - intro s. apply (is_derive_plus (K := R_AbsRing) (V := R_NormedModule) h (fun t => B * Mx / 2 * (t * t))); [apply Hh|].
      auto_derive; auto. field.
    - intros s Hs. pose proof (D s ltac:(lra)). lra. }
  rewrite h0 in K. lra.
Qed.

Lemma hump_bt : forall t, 0 <= t <= dl -> 0 <= B * (t * t) <= 0.8.
Proof.
  intros t Ht. assert (0 <= t * t <= dl * dl) by nra. split; [apply Rmult_le_pos; lra|].
  eapply Rle_trans; [|exact BD]. apply Rmult_le_compat_l; lra.
Qed.

Lemma hump_Z : dl < Z.
Proof.
  destruct (Rlt_le_dec dl Z) as [H|H]; auto. exfalso.
  destruct (hump_T Z ltac:(lra) ZP Z ltac:(lra)) as (_ & _ & K). rewrite ZZ in K.
  pose proof (hump_bt Z ltac:(lra)). nra.
Qed.

Lemma hump : forall t, 0 <= t <= dl -> h1 t <= 0 /\ h t <= Mx /\ Mx * (1 - B * (t * t) / 2) <= h t.
Proof.
  pose proof hump_Z. intros t Ht. apply (hump_T dl); try lra. intros s Hs. apply ZP. lra.
Qed.

Lemma hump_step : forall t, 0 <= t <= dl -> 0 < h t /\ t <= k t / h t <= 5 / 3 * t.
Proof.
  intros t Ht. destruct (hump t Ht) as (A & C & D). pose proof (hump_bt t Ht) as Bt.
  assert (P : 0 < h t) by nra. split; auto.
  assert (K1 : k 0 - 0 * h t <= k t - t * h t).
  { apply (derive_mono (fun s => k s - s * h t) (fun s => h s - h t)); try lra.
    - intro s. evar_last.
      + apply (is_derive_minus (K := R_AbsRing) (V := R_NormedModule) k (fun s => s * h t) s (h s) (h t)); [apply Hk|].
        auto_derive; auto. ring.
      + reflexivity.
    - intros s Hs. assert (- h s <= - h t); [|lra].
      apply (derive_mono (fun t => - h t) (fun t => - h1 t)); try lra.
      + intro u. apply (is_derive_opp (K := R_AbsRing) (V := R_NormedModule) h), Hh.
      + intros u Hu. destruct (hump u ltac:(lra)). lra. }
  assert (K2 : Mx * 0 - k 0 <= Mx * t - k t).
  { apply (derive_mono (fun s => Mx * s - k s) (fun s => Mx - h s)); try lra.
    - intro s. evar_last.
      + apply (is_derive_minus (K := R_AbsRing) (V := R_NormedModule) (fun s => Mx * s) k s Mx (h s)); [|apply Hk].
        auto_derive; auto. ring.
      + reflexivity.
    - intros s Hs. destruct (hump s ltac:(lra)) as (_ & Q & _). lra. }
  rewrite k0 in *. split.
  - apply Rmult_le_reg_r with (h t); auto. unfold Rdiv. rewrite Rmult_assoc, Rinv_l by lra. lra.
  - apply Rmult_le_reg_r with (h t); auto. unfold Rdiv. rewrite (Rmult_assoc (k t)), Rinv_l by lra.
    assert (3 / 5 * Mx <= h t) by nra. nra.
Qed.
End Hump.

Lemma gg_derive : forall m x, (1 <= m)%nat -> is_derive (gg m) x ((INR m + 1) * Pn m x).
Proof.
  intros m x Hm. pose proof (INR_pos m Hm) as M.
  apply (is_derive_ext (fun x => - / INR m * ((1 - x * x) * dP m x))).
  - intro t. pose proof (gg_dP m t) as E. change (- / INR m * ((1 - t * t) * dP m t) = gg m t).
    apply Rmult_eq_reg_l with (INR m); [|lra]. rewrite E. field. lra.
  - evar_last; [apply (is_derive_scal (fun x => (1 - x * x) * dP m x) x (- / INR m)), leg_ode|].
    req. field. lra.
Qed.

Lemma affine_derive : forall (f : R -> R) y e t d, is_derive f (y + e * t) d -> is_derive (fun t => f (y + e * t)) t (e * d).
Proof.
  intros f y e t d H. evar_last.
  - apply (is_derive_comp (K := R_AbsRing) (V := R_NormedModule) f (fun t => y + e * t) t d e); auto.
    auto_derive; auto. ring.
  - reflexivity.
Qed.

Section LobNewton.
Variables (m : nat) (y zl zr sg B dl : R).
Let L := INR m * (INR m + 1).
Hypothesis Hm : (1 <= m)%nat.
Hypothesis SG : sg * sg = 1.
Hypothesis Dy : dP m y = 0.
Hypothesis Hzl : zl < y < zr.
Hypothesis Zl : Pn m zl = 0.
Hypothesis Zr : Pn m zr = 0.
Hypothesis Pos : forall x, zl < x < zr -> 0 < sg * Pn m x.
Hypothesis D0 : 0 <= dl.
Hypothesis B0 : 0 <= B.
Hypothesis W : forall x, Rabs (x - y) <= dl -> 0 < 1 - x * x /\ L <= B * (1 - x * x).
Hypothesis BD : B * (dl * dl) <= 0.8.

Definition lstep (x : R) : R := x - gg m x / ((INR m + 1) * Pn m x).

Lemma gg_y : gg m y = 0.
Proof.
  pose proof (gg_dP m y) as E. rewrite Dy, Rmult_0_r, Ropp_0 in E. pose proof (INR_pos m Hm).
  apply Rmult_eq_reg_l with (INR m); lra.
Qed.

Lemma side : forall e t, (e = 1 \/ e = -1) -> 0 <= t <= dl ->
  let x := y + e * t in
  zl < x < zr /\ 0 < sg * Pn m x <= sg * Pn m y /\ sg * Pn m y * (1 - B * (t * t) / 2) <= sg * Pn m x /\
  t <= e * (x - lstep x) <= 5 / 3 * t.
Proof.
  intros e t He Ht x. assert (ee : e * e = 1) by (destruct He; subst e; ring).
  set (h := fun t => sg * Pn m (y + e * t)). set (h1 := fun t => e * (sg * dP m (y + e * t))).
  set (w := fun t => 1 - (y + e * t) * (y + e * t)).
  set (k := fun t => e * sg / (INR m + 1) * gg m (y + e * t)).
  set (Z := if Rle_dec 0 e then zr - y else y - zl).
  pose proof (INR_pos m Hm) as M1.
  assert (Hh : forall t, is_derive h t (h1 t)).
  { intro s. unfold h, h1. evar_last.
    - apply (is_derive_scal (fun t => Pn m (y + e * t)) s sg), (affine_derive (Pn m)), Pn_derive.
    - req. ring. }
  assert (Hg : forall t, is_derive (fun t => w t * h1 t) t (- L * h t)).
  { intro s. apply (is_derive_ext (fun t => e * sg * ((1 - (y + e * t) * (y + e * t)) * dP m (y + e * t)))).
    - intro u. unfold w, h1. req. ring.
    - evar_last.
      + apply (is_derive_scal (fun t => (1 - (y + e * t) * (y + e * t)) * dP m (y + e * t)) s (e * sg)).
        apply (affine_derive (fun x => (1 - x * x) * dP m x)), leg_ode.
      + unfold L, h. req. transitivity (e * e * (- (INR m * (INR m + 1)) * (sg * Pn m (y + e * s)))); [ring|]. rewrite ee. ring. }
  assert (Hk : forall t, is_derive k t (h t)).
  { intro s. unfold k, h. evar_last.
    - apply (is_derive_scal (fun t => gg m (y + e * t)) s (e * sg / (INR m + 1))), (affine_derive (gg m)), gg_derive. auto.
    - req. transitivity (e * e * (sg * Pn m (y + e * s))); [field; lra|]. rewrite ee. ring. }
  assert (y0 : y + e * 0 = y) by ring.
  assert (h10 : h1 0 = 0) by (unfold h1; rewrite y0, Dy; ring).
  assert (k0 : k 0 = 0) by (unfold k; rewrite y0, gg_y; ring).
  assert (h0 : h 0 = sg * Pn m y) by (unfold h; rewrite y0; auto).
  assert (M0 : 0 < sg * Pn m y) by (apply Pos; lra).
  assert (L0 : 0 <= L) by (unfold L; nra).
  assert (Ww : forall t, 0 <= t <= dl -> 0 < w t /\ L <= B * w t).
  { intros s Hs. apply W. replace (y + e * s - y) with (e * s) by ring.
    destruct He; subst e; [rewrite Rabs_right; lra|rewrite Rabs_left1; lra]. }
  assert (Z0 : 0 < Z) by (unfold Z; destruct (Rle_dec 0 e); lra).
  assert (ZZ : h Z = 0).
  { unfold h, Z. destruct (Rle_dec 0 e) as [E|E]; destruct He as [E1|E1]; rewrite E1 in *; try lra.
    - replace (y + 1 * (zr - y)) with zr by ring. rewrite Zr. ring.
    - replace (y + -1 * (y - zl)) with zl by ring. rewrite Zl. ring. }
  assert (ZP : forall t, 0 <= t <= Z -> 0 <= h t).
  { intros s (Hs1 & [Hs|Hs]); [|rewrite Hs, ZZ; lra]. unfold h. apply Rlt_le, Pos. unfold Z in Hs.
    destruct (Rle_dec 0 e) as [E|E]; destruct He as [E1|E1]; rewrite E1 in *; lra. }
  pose proof (hump_Z h h1 w L (sg * Pn m y) B dl Z Hh Hg h10 h0 M0 L0 B0 Ww BD Z0 ZP ZZ) as HZ.
  destruct (hump h h1 w L (sg * Pn m y) B dl Z Hh Hg h10 h0 M0 L0 B0 Ww BD Z0 ZP ZZ t Ht) as (_ & Q2 & Q3).
  destruct (hump_step h h1 w k L (sg * Pn m y) B dl Z Hh Hg Hk h10 h0 k0 M0 L0 B0 Ww BD Z0 ZP ZZ t Ht) as (Q4 & Q5).
  unfold h in Q2, Q3, Q4. fold x in Q2, Q3, Q4.
  split.
  { unfold Z in HZ. unfold x. destruct (Rle_dec 0 e) as [E|E]; destruct He as [E1|E1]; rewrite E1 in *; lra. }
  split; [lra|]. split; [lra|].
  replace (e * (x - lstep x)) with (k t / h t); auto.
  unfold k, h, lstep. fold x. assert (Pn m x <> 0) by (intro E; rewrite E in Q4; lra).
  assert (sg <> 0) by (intro E; rewrite E in SG; lra). field. repeat split; auto. lra.
Qed.

(** One Newton step. *)
Lemma lob_step : forall x, Rabs (x - y) <= dl ->
  zl < x < zr /\ 0 < sg * Pn m x <= sg * Pn m y /\
  sg * Pn m y * (1 - B * ((x - y) * (x - y)) / 2) <= sg * Pn m x /\
  Rabs (lstep x - y) <= 2 / 3 * Rabs (x - y) /\
  Rabs (x - y) <= Rabs (lstep x - x) <= 5 / 3 * Rabs (x - y).
Proof.
  intros x Hx. destruct (Rle_lt_dec y x) as [H|H].
  - rewrite (Rabs_right (x - y)) in * by lra.
    destruct (side 1 (x - y) ltac:(auto) ltac:(lra)) as (A & C & D & E).
    replace (y + 1 * (x - y)) with x in * by ring. split; auto. split; auto. split; auto.
    split; [apply Rabs_le; lra|]. rewrite (Rabs_left1 (lstep x - x)) by lra. lra.
  - rewrite (Rabs_left (x - y)) in * by lra.
    destruct (side (-1) (- (x - y)) ltac:(auto) ltac:(lra)) as (A & C & D & E).
    replace (y + -1 * - (x - y)) with x in * by ring. split; auto. split; auto.
    split; [replace ((x - y) * (x - y)) with (- (x - y) * - (x - y)) by ring; auto|].
    split; [apply Rabs_le; lra|]. rewrite (Rabs_right (lstep x - x)) by lra. lra.
Qed.

Lemma lob_unfold : forall it x, @lob_newton RS (S m) (S it) x =
  if Rleb (Rabs (lstep x - x)) (/ 2 ^ 52) then Some (lstep x, Pn m x) else @lob_newton RS (S m) it (lstep x).
Proof.
  intros it x. cbn [lob_newton]. replace (S m - 1)%nat with m by lia. rewrite eval_Pn_real.
  transitivity (if Rleb (Rabs (x - (x * Pn m x - Pm m x) / (IZR (Z.of_nat (S m)) * Pn m x) - x)) (/ 2 ^ 52)
    then Some (x - (x * Pn m x - Pm m x) / (IZR (Z.of_nat (S m)) * Pn m x), Pn m x)
    else @lob_newton RS (S m) it (x - (x * Pn m x - Pm m x) / (IZR (Z.of_nat (S m)) * Pn m x))); [reflexivity|].
  rewrite IZR_INR, S_INR. fold (gg m x). fold (lstep x). reflexivity.
Qed.

Lemma lob_newton_ok : forall it x, Rabs (x - y) <= dl -> Rabs (x - y) <= (3 / 2) ^ it * (3 / 5 * / 2 ^ 52) ->
  exists zz zo, @lob_newton RS (S m) (S it) x = Some (zz, Pn m zo) /\
    Rabs (zz - y) <= / 2 ^ 52 /\ Rabs (zo - y) <= / 2 ^ 52 /\ Rabs (zz - y) <= dl /\ Rabs (zo - y) <= dl.
Proof.
  induction it as [|it IH]; intros x Hx Hb; rewrite lob_unfold; destruct (lob_step x Hx) as (_ & _ & _ & S1 & S2 & S3).
  - simpl in Hb. rewrite Rleb_true by lra. exists (lstep x), x. pose proof (Rabs_pos (x - y)).
    split; auto. repeat split; try lra.
  - unfold Rleb at 1. destruct (Rle_dec (Rabs (lstep x - x)) (/ 2 ^ 52)) as [G|G].
    + exists (lstep x), x. pose proof (Rabs_pos (x - y)). split; auto. repeat split; try lra.
    + apply IH.
      * pose proof (Rabs_pos (x - y)). lra.
      * cbn [pow] in Hb. lra.
Qed.
End LobNewton.

Lemma pow_start : 1 <= (3 / 2) ^ 99 * (3 / 5 * / 2 ^ 52).
Proof.
  assert (A : 2 ^ 7 <= (3 / 2) ^ 12) by (simpl; lra).
  assert (Q : (2 ^ 7) ^ 8 <= ((3 / 2) ^ 12) ^ 8) by (apply pow_incr; split; [simpl; lra|auto]).
  rewrite <- !pow_mult in Q. replace (99%nat) with (12 * 8 + 3)%nat by reflexivity. rewrite pow_add.
  replace (7 * 8)%nat with (52 + 4)%nat in Q by reflexivity. rewrite pow_add in Q.
  assert (0 < 2 ^ 52) by (apply pow_lt; lra). set (T := 2 ^ 52) in *. set (V := (3 / 2) ^ (12 * 8)) in *.
  apply Rmult_le_reg_r with T; auto. replace (V * (3 / 2) ^ 3 * (3 / 5 * / T) * T) with (V * ((3 / 2) ^ 3 * (3 / 5))) by (field; lra).
  simpl in *. lra.
Qed.
