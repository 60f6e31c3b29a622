(** Sizes of the exact radii and weights of a radial rule with moderate parameters. *)
From Coq Require Import List Bool Arith ZArith Reals Lra Lia Psatz.
From Flocq Require Import IEEE754.BinarySingleNaN Core.
From Verif Require Import Base.Outcome Base.Scalar Base.RScalar Base.FScalar Model.Primitive Model.Radial
  Spec.RuleSpec Spec.RealRules Spec.FloatSpec Spec.LibmSpec Spec.RadialSpec Spec.GridFloatSpec Proofs.Tab Proofs.PrimitiveFacts Proofs.Sizes
  Proofs.FloatOps Proofs.FloatSphere Proofs.PiBounds Proofs.FloatErr Proofs.ChebReal Proofs.TrapReal Proofs.ChebFloat Proofs.RadialReal
  Proofs.RadialRule Proofs.RadialFloat Proofs.RadialFloatRule Proofs.RadialFloatSchemes.
Import ListNotations.
Local Open Scope R_scope.

Lemma cheb_pw : forall n i, (i < n)%nat -> (Z.of_nat n <= 2 ^ 18)%Z -> let x := cos (th2 n i) in
  -1 < x < 1 /\ pw (1 - x) 38 1 /\ pw (1 + x) 38 1 /\ pw (PI / INR (n + 1) * sin (th2 n i)) 60 3.
Proof.
  intros n i Hi Hn x. destruct (cheb_cond n i Hi) as (Rx & C & _ & N2 & S). fold x in Rx, C.
  set (N := INR (n + 1)) in *. 
  assert (Nb : N <= 2 ^ 18 + 1).
  { unfold N. rewrite plus_INR. simpl (INR 1). apply Rplus_le_compat_r. rewrite INR_IZR_INZ, pow_IZR. apply IZR_le. exact Hn. }
  assert (NN : N * N <= 2 ^ 38) by (apply Rle_trans with ((2 ^ 18 + 1) * (2 ^ 18 + 1)); [apply Rmult_le_compat; lra|lra]).
  assert (Q : 2 / 2 ^ 38 <= 1 - x * x).
  { apply Rmult_le_reg_r with (2 ^ 38); [lra|]. unfold Rdiv. rewrite Rmult_assoc, Rinv_l, Rmult_1_r by lra.
    eapply Rle_trans; [exact C|]. apply Rmult_le_compat_l; [nra|exact NN]. }
  pose proof pi_coarse as P. split; [exact Rx|].
  split; [split; simpl (2 ^ 1); [|lra]; assert (1 - x * x <= 2 * (1 - x)) by nra; lra|].
  split; [split; simpl (2 ^ 1); [|lra]; assert (1 - x * x <= 2 * (1 + x)) by nra; lra|].
  assert (/ 2 ^ 21 <= / N <= 1) by (split; [apply Rinv_le_contravar; lra|]; rewrite <- Rinv_1; apply Rinv_le_contravar; lra).
  unfold Rdiv in *. split.
  - apply Rle_trans with (3 * / 2 ^ 21 * (1.5 * / 2 ^ 21)); [lra|]. apply Rmult_le_compat; try lra; apply Rmult_le_compat; lra.
  - apply Rle_trans with (4 * 1 * 1); [|simpl; lra]. apply Rmult_le_compat; try lra; nra.
Qed.
Lemma unif_pw : forall n i, (i < n)%nat -> (Z.of_nat n <= 2 ^ 30)%Z -> let x := ux (n + 1) 0 1 (S i) in
  0 < x < 1 /\ pw x 31 0 /\ pw (1 - x) 31 0 /\ pw (1 / INR (n + 1)) 31 0.
Proof.
  intros n i Hi Hn x. set (N := INR (n + 1)).
  assert (N1 : 1 <= N) by (apply (le_INR 1); lia).
  assert (Nb : N <= 2 ^ 31).
  { apply Rle_trans with (2 ^ 30 + 1); [|lra]. unfold N. rewrite plus_INR. simpl (INR 1). apply Rplus_le_compat_r. rewrite INR_IZR_INZ, pow_IZR. apply IZR_le. exact Hn. }
  assert (I : / 2 ^ 31 <= / N <= 1) by (split; [apply Rinv_le_contravar; lra|]; rewrite <- Rinv_1; apply Rinv_le_contravar; lra).
  assert (E : x = INR (S i) * / N) by (unfold x, ux; fold N; field; lra).
  assert (E' : 1 - x = INR (n - i) * / N).
  { rewrite E. replace (INR (n - i)) with (N - INR (S i)); [field; lra|]. unfold N. rewrite <- minus_INR by lia. f_equal. lia. }
  assert (J1 : 1 <= INR (S i) <= N - 1).
  { split; [apply (le_INR 1); lia|]. unfold N. rewrite plus_INR. simpl (INR 1). replace (INR n + 1 - 1) with (INR n) by ring. apply le_INR. lia. }
  assert (J2 : 1 <= INR (n - i)) by (apply (le_INR 1); lia).
  assert (X1 : / N <= x) by (rewrite E; nra). assert (X2 : / N <= 1 - x) by (rewrite E'; nra).
  split; [lra|]. unfold pw. simpl (2 ^ 0). unfold Rdiv. rewrite Rmult_1_l. split; [|split]; split; lra.
Qed.

(** Logarithms: between y and about sqrt. *)
Lemma ln_pos_bounds : forall c, 0 < c < 1 -> c <= - ln (1 - c) <= / (1 - c).
Proof.
  intros c Hc. split; [pose proof (ln_le_sub (1 - c) ltac:(lra)); lra|].
  assert (I : 0 < / (1 - c)) by (apply Rinv_0_lt_compat; lra). rewrite <- ln_Rinv by lra. pose proof (ln_le_sub (/ (1 - c)) I). lra.
Qed.
Lemma rpow_pw : forall v al, pw v 38 1 -> 0 <= al <= 2 -> pw (Rpower v al) 76 2.
Proof.
  intros v al H Ha. pose proof (pw_pos _ _ _ H) as V. destruct H as (H1 & H2).
  assert (A0 : al = 0 \/ 0 < al) by lra. destruct A0 as [->|A0].
  { rewrite Rpower_O by auto. split; [|simpl; lra]. rewrite <- Rinv_1. apply Rinv_le_contravar; [lra|]. apply pow_R1_Rle. lra. }
  split.
  - apply Rle_trans with (Rpower (/ 2 ^ 38) al).
    + apply Rle_trans with (Rpower (/ 2 ^ 38) 2).
      * replace 2 with (INR 2) at 3 by (simpl; lra). rewrite Rpower_pow by (apply Rinv_0_lt_compat, p2).
        rewrite pow_inv, <- pow_mult. apply Rle_refl.
      * unfold Rpower. assert (L : ln (/ 2 ^ 38) < 0) by (rewrite <- ln_1; apply ln_increasing; [apply Rinv_0_lt_compat, p2|lra]).
        assert (E : 2 * ln (/ 2 ^ 38) <= al * ln (/ 2 ^ 38)) by nra. destruct E as [E|E]; [left; apply exp_increasing; exact E|rewrite E; lra].
    + destruct H1 as [H1| <-]; [|lra]. left. apply Rlt_Rpower_l; [exact A0|]. split; [apply Rinv_0_lt_compat, p2|exact H1].
  - apply Rle_trans with (Rpower 2 al).
    + destruct H2 as [H2| ->]; [|simpl (2 ^ 1); rewrite Rmult_1_r; lra]. left. simpl (2 ^ 1) in H2. rewrite Rmult_1_r in H2. apply Rlt_Rpower_l; lra.
    + replace (2 ^ 2) with (Rpower 2 2).
      * destruct Ha as (_ & [Ha| ->]); [left; apply Rpower_lt; lra|lra].
      * replace 2 with (INR 2) at 2 by (simpl; lra). rewrite Rpower_pow by lra. reflexivity.
Qed.

Definition sized_pw (t : rtraits RS) (i : nat) : Prop :=
  pw (Tr t (bx t i)) 220 220 /\ pw (bw t i * Jr t (bx t i)) 260 260.
Lemma pw_of : forall v w a b, v = w -> pw w a b -> pw v a b.
Proof. intros v w a b ->. auto. Qed.
Lemma pw_2 : pw 2 0 1. Proof. split; simpl; lra. Qed.

Lemma becke_pw : forall n R i, pw R 100 100 -> (i < n)%nat -> (Z.of_nat n <= 2 ^ 18)%Z -> sized_pw (Becke n (R : RS)) i.
Proof.
  intros n R i HR Hi Hn. destruct (cheb_pw n i Hi Hn) as (Hx & A & B & W). unfold sized_pw.
  change (bx (Becke n (R : RS)) i) with (cos (th2 n i)). change (bw (Becke n (R : RS)) i) with (PI / INR (n + 1) * sin (th2 n i)).
  unfold Tr, Jr. set (x := cos (th2 n i)) in *. split.
  - eapply pw_weak; [apply pw_div; [apply pw_mul; [exact HR|exact B]|exact A]|lia|lia].
  - eapply pw_weak; [apply pw_mul; [exact W|apply pw_div; [apply pw_mul; [exact HR|exact pw_2]|apply pw_pow; exact A]]|simpl; lia|simpl; lia].
Qed.

Lemma mhl_pw : forall M n R i, (1 <= M <= 2)%nat -> pw R 100 100 -> (i < n)%nat -> (Z.of_nat n <= 2 ^ 30)%Z -> sized_pw (MHL M n (R : RS)) i.
Proof.
  intros M n R i HM HR Hi Hn. destruct (unif_pw n i Hi Hn) as (Hx & A & B & W). unfold sized_pw.
  change (bx (MHL M n (R : RS)) i) with (ux (n + 1) 0 1 (S i)). change (bw (MHL M n (R : RS)) i) with (1 / INR (n + 1)).
  unfold Tr, Jr. set (x := ux (n + 1) 0 1 (S i)) in *.
  assert (HM2 : M = 1%nat \/ M = 2%nat) by lia.
  assert (IM : pw (INR M) 0 1) by (destruct HM2 as [-> | ->]; split; simpl; lra).
  split.
  - eapply pw_weak; [apply pw_mul; [exact HR|apply pw_pow, pw_div; [exact A|exact B]]|nia|nia].
  - eapply pw_weak; [apply pw_mul; [exact W|apply pw_div; [apply pw_mul; [apply pw_mul; [exact HR|exact IM]|apply pw_pow; exact A]|apply pw_pow; exact B]]| |];
    destruct HM2 as [-> | ->]; simpl; lia.
Qed.
Lemma mk_pw : forall n R i, pw R 100 100 -> (i < n)%nat -> (n <= 4000)%nat -> sized_pw (MK n (R : RS)) i.
Proof.
  intros n R i HR Hi Hn. destruct (unif_pw n i Hi ltac:(lia)) as (Hx & A & B & W). unfold sized_pw.
  change (bx (MK n (R : RS)) i) with (ux (n + 1) 0 1 (S i)). change (bw (MK n (R : RS)) i) with (1 / INR (n + 1)).
  unfold Tr, Jr. set (x := ux (n + 1) 0 1 (S i)) in *. pose proof (cube_lt x Hx) as C.
  assert (XX : pw (x * x) 62 0) by (apply (pw_mul x x 31 0 31 0); exact A).
  assert (XC : pw (x * x * x) 93 0) by (apply (pw_mul (x * x) x 62 0 31 0); [exact XX|exact A]).
  assert (C1 : pw (1 - x * x * x) 31 0).
  { destruct B as (B1 & _). split; simpl (2 ^ 0); [|lra]. assert (x * x <= 1) by nra. nra. }
  assert (L : pw (- ln (1 - x * x * x)) 93 31).
  { destruct (ln_pos_bounds _ C) as (L1 & L2). destruct (pw_inv _ _ _ C1) as (_ & I). destruct XC. split; lra. }
  split.
  - apply (pw_of _ (R * - ln (1 - x * x * x))); [ring|]. eapply pw_weak; [apply pw_mul; [exact HR|exact L]|lia|lia].
  - eapply pw_weak; [apply pw_mul; [exact W|apply pw_div; [apply pw_mul; [apply (pw_mul R 3 100 100 0 2); [exact HR|split; simpl; lra]|exact XX]|exact C1]]|lia|lia].
Qed.
Lemma pw_plus : forall v w a b c, pw v a b -> 0 <= w <= 2 ^ c -> pw (v + w) a (S (Nat.max b c)).
Proof.
  intros v w a b c (H1 & H2) Hw. split; [lra|]. cbn [pow]. 
  pose proof (Rle_pow 2 b (Nat.max b c) ltac:(lra) ltac:(lia)). pose proof (Rle_pow 2 c (Nat.max b c) ltac:(lra) ltac:(lia)). lra.
Qed.
Lemma ta_pw : forall n R al i, pw R 100 100 -> 0 <= al <= 2 -> (i < n)%nat -> (Z.of_nat n <= 2 ^ 18)%Z -> sized_pw (TA n (R : RS) (al : RS)) i.
Proof.
  intros n R al i HR Ha Hi Hn. destruct (cheb_pw n i Hi Hn) as (Hx & A & B & W). unfold sized_pw.
  change (bx (TA n (R : RS) (al : RS)) i) with (cos (th2 n i)). change (bw (TA n (R : RS) (al : RS)) i) with (PI / INR (n + 1) * sin (th2 n i)).
  unfold Tr, Jr. set (x := cos (th2 n i)) in *. pose proof (rpow_pw _ _ B Ha) as P.
  assert (E : ln ((1 + 1) / (1 - x)) = - ln (1 - (1 + x) / 2)).
  { replace ((1 + 1) / (1 - x)) with (/ (1 - (1 + x) / 2)) by (field; lra). apply ln_Rinv. lra. }
  assert (C : 0 < (1 + x) / 2 < 1) by lra. 
  assert (L : pw (ln ((1 + 1) / (1 - x))) 39 39).
  { rewrite E. destruct (ln_pos_bounds _ C) as (L1 & L2).
    assert (A' : pw ((1 + x) / 2) 39 0) by (apply (pw_div (1 + x) 2 38 1 0 1) in B; [|exact pw_2]; destruct B as (B1 & B2); split; [exact B1|simpl (2 ^ 0); lra]).
    assert (B' : pw (1 - (1 + x) / 2) 39 0) by (destruct A as (A1 & A2); split; simpl (2 ^ 0); [|lra]; replace (1 - (1 + x) / 2) with ((1 - x) / 2) by field; cbn [pow] in *; lra).
    destruct (pw_inv _ _ _ B') as (_ & I). destruct A'. split; lra. }
  assert (C2 : pw ln2c 1 0) by (unfold ln2c; split; simpl; lra).
  split.
  - eapply pw_weak; [apply pw_div; [apply pw_mul; [apply pw_mul; [exact HR|exact P]|exact L]|exact C2]|lia|lia].
  - assert (Q : pw (al * ln ((1 + 1) / (1 - x)) / (1 + x) + 1 / (1 - x)) 1 80).
    { rewrite Rplus_comm. apply pw_weak with (a := 1%nat) (b := 79%nat); [|lia|lia].
      apply (pw_plus _ _ 1 38 78).
      - apply pw_weak with (a := (0 + 1)%nat) (b := (0 + 38)%nat); [apply pw_div; [exact pw_1|exact A]|lia|lia].
      - pose proof (pw_pos _ _ _ L) as L0. pose proof (pw_pos _ _ _ B) as B0. destruct (pw_inv _ _ _ B) as (_ & I). destruct L as (_ & L).
        assert (I0 : 0 < / (1 + x)) by (apply Rinv_0_lt_compat; lra). unfold Rdiv. split.
        + apply Rmult_le_pos; [apply Rmult_le_pos; lra|lra].
        + apply Rle_trans with (2 ^ 1 * 2 ^ 39 * 2 ^ 38); [|rewrite <- !pow_add; apply Rle_refl].
          apply Rmult_le_compat; try lra; [apply Rmult_le_pos; lra|]. apply Rmult_le_compat; simpl (2 ^ 1); lra. }
    eapply pw_weak; [apply pw_mul; [exact W|apply pw_mul; [apply pw_div; [apply pw_mul; [exact HR|exact P]|exact C2]|exact Q]]|lia|lia].
Qed.
