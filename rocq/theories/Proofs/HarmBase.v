(** Weighted sums of harmonics, moduli of powers, and the norms of the harmonics as quotients of integers. *)
From Coq Require Import ZArith List Bool Reals Lra Lia Psatz.
From Coquelicot Require Import Rcomplements.
From Verif Require Import Spec.SphereInt Proofs.SphereIntFacts Proofs.HarmStable.
Import ListNotations.
Local Open Scope R_scope.

(** Weighted sum of a harmonic over points (x, y, z, v). *)
Definition rpt : Type := (R * R * R * R)%type.
Fixpoint wsum (l : list rpt) (f : R -> R -> R -> R) : R :=
  match l with [] => 0 | (x, y, z, v) :: r => v * f x y z + wsum r f end.

Definition pt_ok (p : rpt) : Prop :=
  let '(x, y, z, v) := p in
  -1 <= z <= 1 /\ x * x + y * y <= (1 + / 4000) * (1 + / 4000) /\ Rabs v <= 1.

Lemma zdiv_down : forall a b : Z, (0 < b)%Z -> IZR (a / b) <= IZR a / IZR b < IZR (a / b) + 1.
Proof.
  intros a b Hb. assert (Hb' : 0 < IZR b) by (apply IZR_lt; auto).
  pose proof (Z.mul_div_le a b Hb) as H1. pose proof (Z.mul_succ_div_gt a b Hb) as H2.
  apply IZR_le in H1. apply IZR_lt in H2. rewrite mult_IZR in H1. rewrite mult_IZR, succ_IZR in H2.
  split.
  - apply (Rmult_le_reg_r (IZR b)); auto. replace (IZR a / IZR b * IZR b) with (IZR a) by (field; lra). lra.
  - apply (Rmult_lt_reg_r (IZR b)); auto. replace (IZR a / IZR b * IZR b) with (IZR a) by (field; lra). lra.
Qed.

(** ** The powers of x + iy *)
Definition rho : R := 1 + / 4000.

Lemma rho_pow : forall m, (m <= 1000)%nat -> rho ^ m <= 3 / 2.
Proof.
  intros m Hm.
  enough (forall k : nat, INR k <= 1000 -> rho ^ k <= 4000 / (4000 - INR k)).
  { assert (HI : INR m <= 1000) by (replace 1000 with (INR 1000) by (simpl; lra); apply le_INR; auto).
    eapply Rle_trans; [apply H; auto|].
    pose proof (pos_INR m). apply (Rmult_le_reg_r (4000 - INR m)); [lra|].
    replace (4000 / (4000 - INR m) * (4000 - INR m)) with 4000 by (field; lra). lra. }
  clear m Hm. induction k as [|k IH]; intro Hk; [simpl; lra|].
  rewrite S_INR in *. assert (Hk' : INR k <= 1000) by lra. specialize (IH Hk').
  pose proof (pos_INR k). simpl. unfold rho in *.
  eapply Rle_trans; [apply Rmult_le_compat_l; [lra|exact IH]|].
  apply (Rmult_le_reg_r ((4000 - INR k) * (4000 - (INR k + 1)))); [nra|].
  replace ((1 + / 4000) * (4000 / (4000 - INR k)) * ((4000 - INR k) * (4000 - (INR k + 1))))
    with (4001 * (4000 - (INR k + 1))) by (field; lra).
  replace (4000 / (4000 - (INR k + 1)) * ((4000 - INR k) * (4000 - (INR k + 1))))
    with (4000 * (4000 - INR k)) by (field; lra).
  lra.
Qed.
Lemma rho_ge1 : forall m, 1 <= rho ^ m.
Proof. intro m. apply pow_R1_Rle. unfold rho. lra. Qed.

(** Modulus, and its two properties. *)
Definition md (a b : R) : R := sqrt (a * a + b * b).
Lemma md_pos : forall a b, 0 <= md a b. Proof. intros. apply sqrt_pos. Qed.
Lemma md_sq : forall a b, md a b * md a b = a * a + b * b.
Proof. intros. apply sqrt_sqrt. nra. Qed.
Lemma md_l : forall a b, Rabs a <= md a b.
Proof.
  intros a b. rewrite <- (sqrt_Rsqr_abs a). apply sqrt_le_1_alt. unfold Rsqr. nra.
Qed.
Lemma md_r : forall a b, Rabs b <= md a b.
Proof.
  intros a b. rewrite <- (sqrt_Rsqr_abs b). apply sqrt_le_1_alt. unfold Rsqr. nra.
Qed.
Lemma md_triang : forall a b c d, md (a + c) (b + d) <= md a b + md c d.
Proof.
  intros. apply Rsqr_incr_0_var; [|pose proof (md_pos a b); pose proof (md_pos c d); lra].
  unfold Rsqr. rewrite md_sq.
  replace ((md a b + md c d) * (md a b + md c d)) with (md a b * md a b + md c d * md c d + 2 * (md a b * md c d)) by ring.
  rewrite !md_sq.
  assert (a * c + b * d <= md a b * md c d).
  { unfold md. rewrite <- sqrt_mult by nra. apply Rle_trans with (Rabs (a * c + b * d)); [apply Rle_abs|].
    rewrite <- (sqrt_Rsqr_abs (a * c + b * d)). apply sqrt_le_1_alt. unfold Rsqr.
    assert (0 <= (a * d - b * c) * (a * d - b * c)) by apply Rle_0_sqr. nra. }
  nra.
Qed.
Lemma md_mul : forall x y a b, md (x * a - y * b) (x * b + y * a) = md x y * md a b.
Proof. intros. unfold md. rewrite <- sqrt_mult by nra. f_equal. ring. Qed.
Lemma md_le : forall a b c, Rabs a <= c -> Rabs b <= c -> md a b <= 3 / 2 * c.
Proof.
  intros a b c Ha Hb. pose proof (Rabs_pos a). apply Rsqr_incr_0_var; [|lra]. unfold Rsqr. rewrite md_sq.
  replace (a * a) with (Rabs a * Rabs a) by (rewrite <- Rabs_mult; apply Rabs_pos_eq; nra).
  replace (b * b) with (Rabs b * Rabs b) by (rewrite <- Rabs_mult; apply Rabs_pos_eq; nra).
  pose proof (Rabs_pos b). nra.
Qed.
Lemma md_0 : forall a, md a 0 = Rabs a.
Proof. intro a. unfold md. rewrite Rmult_0_l, Rplus_0_r. apply sqrt_Rsqr_abs. Qed.

Lemma cpow_md : forall m x y, md x y <= rho -> md (fst (cpow m x y)) (snd (cpow m x y)) <= rho ^ m.
Proof.
  induction m as [|m IH]; intros x y H.
  - simpl. rewrite md_0, Rabs_R1. lra.
  - specialize (IH x y H). cbn [cpow]. destruct (cpow m x y) as [a b]. cbn [fst snd] in *.
    rewrite md_mul. simpl. apply Rmult_le_compat; auto using md_pos.
Qed.

Lemma pt_md : forall x y z v, pt_ok (x, y, z, v) -> md x y <= rho.
Proof.
  intros x y z v (_ & H & _). unfold md, rho. apply Rsqr_incr_0_var; [|lra].
  unfold Rsqr. rewrite sqrt_sqrt by nra. exact H.
Qed.

Definition num_of (m n : nat) : Z := (4 ^ Z.of_nat m * Z.of_nat (fact m) * Z.of_nat (fact m) * Z.of_nat (fact n))%Z.
Definition den_of (m n : nat) : Z := Z.of_nat (fact (n + 2 * m)).

Lemma norm_R : forall m n, harm_norm m n = sqrt (IZR (num_of m n) /
  (IZR (den_of m n) * IZR ((2 * Z.of_nat (m + n) + 1) * (if Nat.eqb m 0 then 1 else 2)))).
Proof.
  intros m n. unfold harm_norm, num_of, den_of. f_equal.
  rewrite !mult_IZR, <- !INR_IZR_INZ, plus_IZR, mult_IZR, <- INR_IZR_INZ.
  replace (IZR (4 ^ Z.of_nat m)) with (4 ^ m) by (rewrite <- pow_IZR; reflexivity).
  assert (INR (fact (n + 2 * m)) <> 0) by apply INR_fact_neq_0.
  assert (2 * INR (m + n) + 1 <> 0) by (pose proof (pos_INR (m + n)); lra).
  destruct (Nat.eqb m 0); simpl IZR; field; auto.
Qed.

Lemma harm_norm_00 : harm_norm 0 0 = 1.
Proof. unfold harm_norm. simpl. replace (1 * 1 * 1 * 1 * 1 / ((2 * 0 + 1) * 1)) with 1 by field. apply sqrt_1. Qed.

Lemma num_of_S : forall m n, (num_of m n * (Z.of_nat n + 1))%Z = num_of m (S n).
Proof.
  intros. unfold num_of. change (fact (S n)) with (S n * fact n)%nat. rewrite (Nat2Z.inj_mul (S n)), Nat2Z.inj_succ. ring.
Qed.
Lemma den_of_S : forall m n, (den_of m n * (Z.of_nat n + 2 * Z.of_nat m + 1))%Z = den_of m (S n).
Proof.
  intros. unfold den_of. change (S n + 2 * m)%nat with (S (n + 2 * m)).
  change (fact (S (n + 2 * m))) with (S (n + 2 * m) * fact (n + 2 * m))%nat.
  rewrite (Nat2Z.inj_mul (S _)), Nat2Z.inj_succ, Nat2Z.inj_add, Nat2Z.inj_mul. simpl (Z.of_nat 2). ring.
Qed.
Lemma num_of_m : forall m, (num_of m 0 * (4 * (Z.of_nat m + 1) * (Z.of_nat m + 1)))%Z = num_of (S m) 0.
Proof.
  intros. unfold num_of. change (fact (S m)) with (S m * fact m)%nat.
  rewrite (Nat2Z.inj_mul (S m)), Nat2Z.inj_succ, Z.pow_succ_r by lia. ring.
Qed.
Lemma den_of_m : forall m, (den_of m 0 * ((2 * Z.of_nat m + 1) * (2 * Z.of_nat m + 2)))%Z = den_of (S m) 0.
Proof.
  intros. unfold den_of. replace (0 + 2 * S m)%nat with (S (S (0 + 2 * m))) by lia.
  change (fact (S (S (0 + 2 * m)))) with (S (S (0 + 2 * m)) * (S (0 + 2 * m) * fact (0 + 2 * m)))%nat.
  rewrite !(Nat2Z.inj_mul (S _)), !Nat2Z.inj_succ, Nat2Z.inj_add, Nat2Z.inj_mul. simpl (Z.of_nat 2). simpl (Z.of_nat 0). ring.
Qed.

