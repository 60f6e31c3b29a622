(** C58: concrete integrands. *)
From Coq Require Import ZArith List Bool Reals Lra Lia Psatz.
From Coquelicot Require Import Coquelicot.
From Verif Require Import Base.Outcome Base.Scalar Base.RScalar Model.Primitive Model.Radial Spec.Sums Spec.RealRules Spec.RadialSpec
  Spec.SphereReal Spec.SphereInt Spec.SpaceSpec Spec.PolySpec Spec.MomentSpec Spec.LibmSpec Spec.ErrorSpec Spec.RadialErrSpec
  Proofs.ChebInt Proofs.RadialReal Proofs.RadialRule Proofs.Moments Proofs.RadialErr Proofs.AngleErr Proofs.RadialErrGrid.
Import ListNotations.
Local Open Scope R_scope.

Lemma pulled_intro : forall t f g, rt_valid t -> (forall r, 0 < r -> continuous f r) -> (forall x, base_lo t < x < 1 -> f (Tr t x) * Jr t x = g x) -> pulled t f g.
Proof.
  intros t f g V C E. split; auto. intros x H. rewrite <- (E x H).
  rewrite (is_derive_unique _ _ _ (proj1 (radial_derive t x V H))), Jr_eq, (Tr_eq t x). reflexivity.
Qed.

Lemma becke_tr : forall n x, x < 1 -> 1 + Tr (Becke n 1) x = 2 / (1 - x).
Proof. intros n x H. unfold Tr. field. lra. Qed.

(** 4 sqrt r / (1 + r)^3 under the Becke map: sqrt (1 - x^2). *)
Definition ex_root (r : R) : R := 4 * sqrt r / (1 + r) ^ 3.

Lemma ex_root_pulled : forall n, pulled (Becke n 1) ex_root (fun x => peval [1] x * sqrt (1 - x * x)).
Proof.
  intro n. apply pulled_intro; [simpl; lra| |].
  - intros r Hr. apply cont_auto. unfold ex_root. auto_derive. split; auto. split; auto. apply Rgt_not_eq. simpl. assert (0 < 1 + r) by lra. repeat apply Rmult_lt_0_compat; lra.
  - intros x Hx. simpl in Hx. unfold ex_root. rewrite becke_tr by lra.
    assert (E : sqrt (Tr (Becke n 1) x) = sqrt (1 - x * x) / (1 - x)).
    { replace (Tr (Becke n 1) x) with ((1 - x * x) / ((1 - x) * (1 - x))) by (unfold Tr; field; lra).
      rewrite sqrt_div by nra. rewrite sqrt_square by lra. reflexivity. }
    rewrite E. unfold Jr. simpl. field. lra.
Qed.

(** sqrt r / (2 (1 + sqrt r)^6) under the Murray-Handy-Laming map with m = 2: x^2 (1 - x)^2. *)
Definition ex_mhl (r : R) : R := sqrt r / (2 * (1 + sqrt r) ^ 6).
Definition ex_G (k : nat) (x : R) : R := match k with
  | O => x ^ 2 * (1 - x) ^ 2 | 1%nat => 2 * x - 6 * x ^ 2 + 4 * x ^ 3 | 2%nat => 2 - 12 * x + 12 * x ^ 2 | _ => -12 + 24 * x end.

Lemma ex_mhl_pulled : forall n, pulled (MHL 2 n 1) ex_mhl (ex_G 0).
Proof.
  intro n. apply pulled_intro; [simpl; split; [lia|lra]| |].
  - intros r Hr. apply cont_auto. unfold ex_mhl. auto_derive. split; auto. split; auto. split; auto. apply Rgt_not_eq.
    pose proof (sqrt_pos r). apply Rmult_lt_0_compat; [lra|]. repeat apply Rmult_lt_0_compat; lra.
  - intros x Hx. simpl in Hx. unfold ex_mhl, ex_G.
    assert (E : sqrt (Tr (MHL 2 n 1) x) = x / (1 - x)).
    { replace (Tr (MHL 2 n 1) x) with ((x / (1 - x)) * (x / (1 - x))) by (unfold Tr; simpl; field; lra).
      apply sqrt_square. apply Rlt_le, Rdiv_lt_0_compat; lra. }
    rewrite E. replace (1 + x / (1 - x)) with (/ (1 - x)) by (field; lra). unfold Jr. simpl. field. lra.
Qed.

Lemma ex_G_smooth : smooth 0 1 2 ex_G 2 /\ smooth 0 1 3 ex_G 12 /\ (forall x, 0 <= x <= 1 -> continuous (ex_G 3) x) /\
  ex_G 0 0 = 0 /\ ex_G 0 1 = 0 /\ (forall k, (1 <= k < 3)%nat -> Nat.odd k = true -> ex_G k 0 = ex_G k 1).
Proof.
  assert (D : forall k t, (k < 3)%nat -> is_derive (ex_G k) t (ex_G (S k) t)).
  { intros [|[|[|k]]] t Hk; try lia; unfold ex_G; auto_derive; auto; ring. }
  split; [|split; [|split; [|split; [|split]]]].
  - split; [intros; apply D; lia|]. intros x Hx. unfold ex_G. apply Rabs_le. split; nra.
  - split; [intros; apply D; lia|]. intros x Hx. unfold ex_G. apply Rabs_le. lra.
  - intros x _. apply cont_auto. unfold ex_G. auto_derive. auto.
  - unfold ex_G. ring.
  - unfold ex_G. ring.
  - intros [|[|[|k]]] Hk Ho; try lia; try discriminate. unfold ex_G. ring.
Qed.

(** r^2 / (1 + r)^5 under the Becke map: (1 + x)^2 (1 - x) / 16. *)
Definition ex_g (r : R) : R := / (1 + r) ^ 5.
Definition ex_f (r : R) : R := r * r * ex_g r.
Definition ex_F (k : nat) (x : R) : R := match k with
  | O => (1 + x) ^ 2 * (1 - x) / 16 | 1%nat => (1 + x) * (1 - 3 * x) / 16 | _ => (-2 - 6 * x) / 16 end.

Lemma ex_f_pulled : forall n, pulled (Becke n 1) ex_f (ex_F 0).
Proof.
  intro n. apply pulled_intro; [simpl; lra| |].
  - intros r Hr. apply cont_auto. unfold ex_f, ex_g. auto_derive. apply Rgt_not_eq. repeat apply Rmult_lt_0_compat; lra.
  - intros x Hx. simpl in Hx. unfold ex_f, ex_g, ex_F. rewrite becke_tr by lra. unfold Tr, Jr. simpl. field. lra.
Qed.

Lemma ex_F_smooth : smooth (-1) 1 2 ex_F (/ 2) /\ (forall x, -1 <= x <= 1 -> Rabs (ex_F 0 x) <= / 2) /\ (forall x, -1 <= x <= 1 -> Rabs (ex_F 1 x) <= / 2).
Proof.
  split; [split|split].
  - intros [|[|k]] t Hk _; try lia; unfold ex_F; auto_derive; auto; field.
  - intros x Hx. unfold ex_F. apply Rabs_le. lra.
  - intros x Hx. unfold ex_F. apply Rabs_le. assert (0 <= (1 + x) ^ 2 <= 4) by nra. split; [|nra].
    assert (0 <= (1 + x) ^ 2 * (1 - x)) by (apply Rmult_le_pos; lra). lra.
  - intros x Hx. unfold ex_F. apply Rabs_le. split; nra.
Qed.

Lemma ex_F_int : RInt (ex_F 0) (-1) 1 = / 12.
Proof.
  apply RI_unique. replace (/ 12) with (minus ((2 * (1 + 1) ^ 3 / 3 - (1 + 1) ^ 4 / 4) / 16) ((2 * (1 + -1) ^ 3 / 3 - (1 + -1) ^ 4 / 4) / 16)) by (unfold minus, plus, opp; simpl; field).
  apply (is_RInt_derive (fun x => (2 * (1 + x) ^ 3 / 3 - (1 + x) ^ 4 / 4) / 16)).
  - intros x _. unfold ex_F. auto_derive; auto. field.
  - intros x _. apply cont_auto. unfold ex_F. auto_derive. auto.
Qed.

Lemma ex_f_rated : forall n, rated (Becke n 1) ex_f (/ 12) (PI ^ 3 * (5 / 2) / (12 * INR (n + 1) ^ 2)).
Proof.
  intro n. rewrite <- ex_F_int. destruct ex_F_smooth as (S & B0 & B1).
  replace (5 / 2) with (/ 2 + 3 * / 2 + / 2) by field.
  apply (cheb_second (Becke n 1) ex_f ex_F (/ 2) (/ 2) (/ 2)); auto; [simpl; lra|simpl; auto|apply ex_f_pulled].
Qed.

(** The change of (1 + r)^-5 under relative changes of r. *)
Lemma ex_g_pos : forall r, 0 <= r -> 0 < ex_g r.
Proof. intros r H. unfold ex_g. apply Rinv_0_lt_compat, pow_lt. lra. Qed.

Lemma ex_g_ratio : forall r s a, 0 <= r -> 0 < a <= 1 -> a <= s -> ex_g (r * s) <= / a ^ 5 * ex_g r.
Proof.
  intros r s a Hr Ha Hs. unfold ex_g. rewrite <- Rinv_mult_distr by (apply pow_nonzero; nra). rewrite <- Rpow_mult_distr.
  apply Rinv_le_contravar; [apply pow_lt; nra|]. apply pow_incr. split; nra.
Qed.

Lemma ex_g_change : forall r s e, 0 <= r -> 0 < e < 1 -> Rabs (s - 1) <= e -> Rabs (ex_g (r * s) - ex_g r) <= Rabs (s - 1) * (5 / (1 - e) ^ 6 * ex_g r).
Proof.
  intros r s e Hr He Hs. apply Rabs_le_between in Hs.
  destruct (MVT_gen (fun u => ex_g (r * u)) 1 s (fun u => - 5 * r / (1 + r * u) ^ 6)) as (z & Hz & E).
  - intros u Hu. unfold ex_g. assert (0 < 1 + r * u) by (revert Hu; unfold Rmin, Rmax; destruct Rle_dec; nra).
    auto_derive; [apply Rgt_not_eq; repeat apply Rmult_lt_0_compat; lra|]. field. lra.
  - intros u Hu. apply continuity_pt_filterlim. change (continuous (fun v => ex_g (r * v)) u). apply cont_auto. unfold ex_g. assert (0 < 1 + r * u) by (revert Hu; unfold Rmin, Rmax; destruct Rle_dec; nra).
    auto_derive. apply Rgt_not_eq; repeat apply Rmult_lt_0_compat; lra.
  - rewrite Rmult_1_r in E. rewrite E, Rabs_mult, Rmult_comm. apply Rmult_le_compat_l; [apply Rabs_pos|].
    assert (Z : 1 - e <= z) by (revert Hz; unfold Rmin, Rmax; destruct Rle_dec; lra).
    assert (P : 0 < 1 + r * z) by nra.
    replace (-5 * r / (1 + r * z) ^ 6) with (- (5 * (r / (1 + r * z)) * ex_g (r * z))) by (unfold ex_g; field; lra).
    pose proof (ex_g_pos (r * z) ltac:(nra)) as G0. pose proof (ex_g_ratio r z (1 - e) Hr ltac:(lra) Z) as G1. pose proof (ex_g_pos r Hr) as G2.
    assert (Q : 0 <= r / (1 + r * z) <= / (1 - e)).
    { split; [apply Rmult_le_pos; [lra|apply Rlt_le, Rinv_0_lt_compat; lra]|].
      apply Rmult_le_reg_r with (1 + r * z); [lra|]. unfold Rdiv. rewrite Rmult_assoc, Rinv_l by lra.
      assert (W : r * (1 - e) <= 1 + r * z) by nra. apply (Rmult_le_compat_l (/ (1 - e))) in W; [|apply Rlt_le, Rinv_0_lt_compat; lra].
      eapply Rle_trans; [|exact W]. apply Req_le. field. lra. }
    rewrite Rabs_Ropp, Rabs_pos_eq by (apply Rmult_le_pos; lra).
    replace (5 / (1 - e) ^ 6 * ex_g r) with (5 * / (1 - e) * (/ (1 - e) ^ 5 * ex_g r)) by (field; lra).
    apply Rmult_le_compat; lra.
Qed.

Lemma ex_tempered : tempered ex_f (fun r => 1000 * ex_f r).
Proof.
  assert (F0 : forall r, 0 < r -> 0 < ex_f r). { intros r H. unfold ex_f. pose proof (ex_g_pos r ltac:(lra)). apply Rmult_lt_0_compat; nra. }
  split.
  - intros r Hr. pose proof (F0 r Hr). rewrite Rabs_pos_eq; lra.
  - intros r s Hr Hs. unfold ex_f. pose proof (ex_g_pos r ltac:(lra)) as G0.
    destruct (Rle_dec 0 (Rabs s)) as [_|n]; [|exfalso; apply n, Rabs_pos].
    pose proof (ex_g_change r (1 + s) (/ 2) ltac:(lra) ltac:(lra)) as C. replace (1 + s - 1) with s in C by ring. specialize (C Hs).
    replace (5 / (1 - / 2) ^ 6) with 320 in C by field.
    replace (r * (1 + s) * (r * (1 + s)) * ex_g (r * (1 + s)) - r * r * ex_g r) with
      (r * r * ((1 + s) ^ 2 * (ex_g (r * (1 + s)) - ex_g r) + s * (2 + s) * ex_g r)) by ring.
    rewrite Rabs_mult, (Rabs_pos_eq (r * r)) by nra.
    replace (1000 * (r * r * ex_g r) * Rabs s) with (r * r * (1000 * ex_g r * Rabs s)) by ring. apply Rmult_le_compat_l; [nra|].
    eapply Rle_trans; [apply Rabs_triang|]. rewrite !Rabs_mult. rewrite (Rabs_pos_eq (ex_g r)) by lra.
    apply Rabs_le_between in Hs as Hs'.
    assert (A : Rabs ((1 + s) ^ 2) <= 9 / 4) by (rewrite Rabs_pos_eq by apply pow2_ge_0; nra).
    assert (B : Rabs (2 + s) <= 5 / 2) by (apply Rabs_le; lra).
    assert (X : Rabs ((1 + s) ^ 2) * Rabs (ex_g (r * (1 + s)) - ex_g r) <= 9 / 4 * (Rabs s * (320 * ex_g r))) by (apply Rmult_le_compat; auto using Rabs_pos).
    assert (Y : Rabs s * Rabs (2 + s) <= Rabs s * (5 / 2)) by (apply Rmult_le_compat_l; auto using Rabs_pos).
    pose proof (Rmult_le_compat_r (ex_g r) _ _ (Rlt_le _ _ G0) Y). pose proof (Rmult_le_pos _ _ (Rabs_pos s) (Rlt_le _ _ G0)). lra.
Qed.

Lemma ex_steady : steady (/ 10 ^ 15) ex_g (fun r => 6 * ex_g r) /\ steady (/ 1000) ex_g (fun r => 6 * ex_g r) /\ covered (/ 1000) (fun r => 6 * ex_g r) (fun r => 7 * ex_g r).
Proof.
  assert (K : steady (/ 1000) ex_g (fun r => 6 * ex_g r)).
  { split.
    - intros r Hr. pose proof (ex_g_pos r Hr). rewrite Rabs_pos_eq; lra.
    - intros r s Hr Hs. eapply Rle_trans; [apply (ex_g_change r s (/ 1000)); auto; lra|].
      apply Rmult_le_compat_l; [apply Rabs_pos|]. apply Rmult_le_compat_r; [apply Rlt_le, ex_g_pos, Hr|]. lra. }
  split; [|split; [exact K|]].
  - destruct K as (A & B). split; auto. intros r s Hr Hs. apply B; auto. eapply Rle_trans; [exact Hs|]. apply Rinv_le_contravar; lra.
  - intros r s Hr Hs. apply Rabs_le_between in Hs. pose proof (ex_g_ratio r s (999 / 1000) Hr ltac:(lra) ltac:(lra)) as Q. pose proof (ex_g_pos r Hr). lra.
Qed.

Definition ex_one : poly3 := [(1, (0, 0, 0)%nat)].

Lemma sphere_const : forall c, sphere_int (fun _ _ _ => c) = 4 * PI * c.
Proof.
  intro c. unfold sphere_int.
  assert (E : RInt (fun th => c * sin th) 0 PI = 2 * c).
  { apply RI_unique. replace (2 * c) with (minus (- c * cos PI) (- c * cos 0)) by (rewrite cos_PI, cos_0; unfold minus, plus, opp; simpl; ring).
    apply (is_RInt_derive (fun x => - c * cos x)); intros x _; [auto_derive; auto; ring|apply cont_auto; auto_derive; auto]. }
  transitivity (RInt (fun _ : R => 2 * c) 0 (2 * PI)); [apply RInt_ext; intros; exact E|].
  rewrite RInt_const. unfold scal; simpl. unfold mult; simpl. match goal with |- @eq _ ?a ?b => change (@eq R a b) end. ring.
Qed.

Lemma ex_grid : forall n, rated (Becke n 1) (fun r => r * r * sphere_int (fun x y z => moment (0, 0, 0) ex_g ex_one (at_radius (0, 0, 0) r (x, y, z)))) (PI / 3)
    (4 * PI * (PI ^ 3 * (5 / 2) / (12 * INR (n + 1) ^ 2))) /\
  (forall a, 0 <= a -> rated (Becke n 1) (fun r => r * r * (p3mag ex_one r * (a * ex_g r))) (a / 12) (a * (PI ^ 3 * (5 / 2) / (12 * INR (n + 1) ^ 2)))).
Proof.
  intro n. assert (V : rt_valid (Becke n 1)) by (simpl; lra). pose proof PI_RGT_0 as PP. split.
  - replace (PI / 3) with (4 * PI * / 12) by field. pose proof (rated_scal _ _ _ _ (4 * PI) (ex_f_rated n)) as Q. rewrite (Rabs_pos_eq (4 * PI)) in Q by lra.
    apply (rated_ext _ _ _ _ _ V) with (2 := Q). intros r Hr. rewrite moment_sphere by lra.
    replace (sphere_int (p3eval (p3scale (ex_g r) r ex_one))) with (sphere_int (fun _ _ _ => ex_g r)).
    + rewrite sphere_const. unfold ex_f. ring.
    + f_equal. apply FunctionalExtensionality.functional_extensionality; intro x. apply FunctionalExtensionality.functional_extensionality; intro y.
      apply FunctionalExtensionality.functional_extensionality; intro z. unfold ex_one. simpl. ring.
  - intros a Ha. pose proof (rated_scal _ _ _ _ a (ex_f_rated n)) as Q. rewrite (Rabs_pos_eq a) in Q by lra.
    apply (rated_ext _ _ _ _ _ V) with (2 := Q). intros r Hr. unfold ex_f, ex_one. cbn [p3mag]. simpl (0 + 0 + 0)%nat. rewrite pow_O, Rabs_R1. ring.
Qed.

(** In the angle: sin^3 s (1 + cos s) / 16, and sin^4 s for the modified rule. *)
Definition ex_A (k : nat) (s : R) : R := match k with
  | O => ex_F 0 (cos s) * sin s
  | 1%nat => (3 * sin s ^ 2 * cos s * (1 + cos s) - sin s ^ 4) / 16
  | 2%nat => (6 * sin s * cos s ^ 2 - 3 * sin s ^ 3 + 6 * sin s * cos s ^ 3 - 10 * sin s ^ 3 * cos s) / 16
  | _ => (6 * cos s ^ 3 - 21 * sin s ^ 2 * cos s + 6 * cos s ^ 4 - 48 * sin s ^ 2 * cos s ^ 2 + 10 * sin s ^ 4) / 16 end.

Lemma pow_abs_1 : forall a k, -1 <= a <= 1 -> -1 <= a ^ k <= 1.
Proof. intros a k H. apply Rabs_le_between. rewrite <- RPow_abs. rewrite <- (pow1 k). apply pow_incr. split; [apply Rabs_pos|apply Rabs_le, H]. Qed.

Lemma mul_abs_1 : forall a b, -1 <= a <= 1 -> -1 <= b <= 1 -> -1 <= a * b <= 1.
Proof. intros. split; nra. Qed.

Lemma sin_cube : forall s, ex_A 0 s = sin s ^ 3 * (1 + cos s) / 16.
Proof. intro s. unfold ex_A, ex_F. pose proof (sin2_cos2 s) as E. unfold Rsqr in E. replace (sin s ^ 3) with (sin s * (1 - cos s * cos s)) by (replace (1 - cos s * cos s) with (sin s * sin s) by lra; ring). field. Qed.

Lemma ex_A_smooth : smooth 0 PI 3 ex_A 6 /\ (forall s, 0 <= s <= PI -> continuous (ex_A 3) s) /\ (forall j, (1 <= j < 3)%nat -> Nat.odd j = true -> ex_A j 0 = ex_A j PI).
Proof.
  split; [split|split].
  - intros [|[|[|k]]] s Hk _; try lia.
    + apply (is_derive_ext (fun s => sin s ^ 3 * (1 + cos s) / 16)); [intro; symmetry; apply sin_cube|]. unfold ex_A. auto_derive; auto. field.
    + unfold ex_A. auto_derive; auto. field.
    + unfold ex_A. auto_derive; auto. field.
  - intros s _. unfold ex_A. pose proof (SIN_bound s) as S. pose proof (COS_bound s) as C. apply Rabs_le.
    pose proof (pow_abs_1 _ 2 S). pose proof (pow_abs_1 _ 4 S). pose proof (pow_abs_1 _ 2 C). pose proof (pow_abs_1 _ 3 C). pose proof (pow_abs_1 _ 4 C).
    pose proof (mul_abs_1 (sin s ^ 2) (cos s) ltac:(auto) C). pose proof (mul_abs_1 (sin s ^ 2) (cos s ^ 2) ltac:(auto) ltac:(auto)).
    rewrite !(Rmult_assoc _ (sin s ^ 2)). lra.
  - intros s _. apply cont_auto. unfold ex_A. auto_derive. auto.
  - intros [|[|[|k]]] Hk Ho; try lia; try discriminate. unfold ex_A. rewrite sin_0, sin_PI, cos_0, cos_PI. field.
Qed.

Definition ex_B (k : nat) (s : R) : R := match k with
  | O => 1 * (16 / (3 * PI) * sin s ^ 4)
  | 1%nat => 16 / (3 * PI) * (4 * sin s ^ 3 * cos s)
  | 2%nat => 16 / (3 * PI) * (12 * sin s ^ 2 * cos s ^ 2 - 4 * sin s ^ 4)
  | _ => 16 / (3 * PI) * (24 * sin s * cos s ^ 3 - 40 * sin s ^ 3 * cos s) end.

Lemma ex_B_smooth : smooth 0 PI 3 ex_B (16 / (3 * PI) * 64) /\ (forall s, 0 <= s <= PI -> continuous (ex_B 3) s) /\ (forall j, (1 <= j < 3)%nat -> Nat.odd j = true -> ex_B j 0 = ex_B j PI).
Proof.
  pose proof PI_RGT_0 as P. split; [split|split].
  - intros [|[|[|k]]] s Hk _; try lia; unfold ex_B; auto_derive; auto; field; lra.
  - intros s _. unfold ex_B. pose proof (SIN_bound s) as S. pose proof (COS_bound s) as C. rewrite Rabs_mult, (Rabs_pos_eq (16 / (3 * PI))).
    2:{ apply Rlt_le, Rdiv_lt_0_compat; lra. }
    apply Rmult_le_compat_l; [apply Rlt_le, Rdiv_lt_0_compat; lra|]. apply Rabs_le.
    pose proof (mul_abs_1 _ _ S (pow_abs_1 _ 3 C)). pose proof (mul_abs_1 _ _ (pow_abs_1 _ 3 S) C). rewrite !Rmult_assoc. lra.
  - intros s _. apply cont_auto. unfold ex_B. auto_derive. auto.
  - intros [|[|[|k]]] Hk Ho; try lia; try discriminate. unfold ex_B. rewrite sin_0, sin_PI, cos_0, cos_PI. field. lra.
Qed.
