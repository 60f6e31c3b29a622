(** Loading points into the three-limb checker is sound. *)
From Coq Require Import ZArith List Bool Reals Lra Lia Psatz Uint63.
From Bignums Require Import BigN BigZ.
From Coquelicot Require Import Rcomplements.
From Verif Require Import Spec.SphereInt Proofs.SphereIntFacts Proofs.HarmBase
  Proofs.Limb Proofs.LimbCheck Proofs.LimbSound.
Import ListNotations.

Section Int.
Local Open Scope Z_scope.
Lemma int_of_spec : forall b, iv (int_of b) = BigZ.to_Z b mod Uint63.wB.
Proof.
  intro b. assert (D : forall t, iv (of_Z (BigZ.to_Z t)) = BigZ.to_Z t mod Uint63.wB) by (intro; apply Uint63.of_Z_spec).
  unfold int_of. destruct b as [nn|nn]; [|apply D]. destruct nn; try apply D.
  change (BigZ.to_Z (BigZ.Pos (BigN.N0 t))) with (iv t). symmetry. apply Z.mod_small. apply Uint63.to_Z_bounded.
Qed.

Lemma shr_spec : forall t k e, BigZ.to_Z k = e -> 0 <= e -> BigZ.to_Z (BigZ.shiftr t k) = BigZ.to_Z t / 2 ^ e.
Proof. intros t k e E He. rewrite BigZ.spec_shiftr, E. apply Z.shiftr_div_pow2. auto. Qed.
Lemma land_spec : forall t, BigZ.to_Z (BigZ.land t m59b) = BigZ.to_Z t mod B.
Proof.
  intro t. rewrite BigZ.spec_land. change (BigZ.to_Z m59b) with (Z.ones 59). rewrite Z.land_ones by lia. reflexivity.
Qed.

Lemma small_mod : forall a, 0 <= a < B -> a mod Uint63.wB = a.
Proof. intros. apply Z.mod_small. rewrite wB_eq. unfold B in *. lia. Qed.

Lemma split_spec : forall t, lim (split t) /\ cg (V (split t)) (BigZ.to_Z t).
Proof.
  intro t. unfold split, lim, V. rewrite !int_of_spec, !land_spec.
  rewrite (shr_spec _ 118%bigZ 118 eq_refl ltac:(lia)), (shr_spec _ 59%bigZ 59 eq_refl ltac:(lia)).
  set (n := BigZ.to_Z t). clearbody n.
  pose proof (Z.mod_pos_bound n B ltac:(reflexivity)) as M0.
  pose proof (Z.mod_pos_bound (n / 2 ^ 59) B ltac:(reflexivity)) as M1.
  rewrite !(small_mod (_ mod B)) by auto. split; [lia|].
  destruct (mod_k (n / 2 ^ 118)) as [k ->].
  replace (2 ^ 118) with (2 ^ 59 * 2 ^ 59) by reflexivity. rewrite <- Z.div_div by lia. change (2 ^ 59) with B.
  pose proof (Z.div_mod n B ltac:(discriminate)) as E0. pose proof (Z.div_mod (n / B) B ltac:(discriminate)) as E1.
  change (2 ^ 59) with B in *.
  exists k. rewrite W_eq. rewrite E0 at 4. rewrite E1 at 3. ring.
Qed.

Lemma split_in : forall t, 0 <= BigZ.to_Z t < N -> V (split t) = BigZ.to_Z t.
Proof. intros t H. destruct (split_spec t) as [A C]. apply (cg_in _ _ A C H). Qed.

Lemma split16_spec : forall t, 0 <= BigZ.to_Z t < N -> lim16 (split16 t) (BigZ.to_Z t).
Proof.
  intros t H. pose proof (split_in t H) as E. destruct (split_spec t) as [A _]. unfold split16.
  destruct (split t) as [h m l] eqn:Es. cbn [lim] in A. destruct A as [A1 A2].
  assert (Hh : iv h < B) by (apply (top_lim h m l); rewrite E; lia).
  cbn [lim16]. exists (iv h), (iv m), (iv l). rewrite !lsl4 by auto. cbn [V] in E.
  pose proof (Uint63.to_Z_bounded h). pose proof (Uint63.to_Z_bounded m). pose proof (Uint63.to_Z_bounded l).
  repeat split; try lia.
Qed.
End Int.

Local Open Scope R_scope.
Definition SR : R := IZR S190.
Lemma S190_R : SR = 65536 * UR.
Proof. unfold SR, UR. rewrite <- mult_IZR. reflexivity. Qed.

Lemma shr_R : forall t k e d, BigZ.to_Z k = e -> (0 <= e)%Z -> IZR (2 ^ e) = d ->
  IZR (BigZ.to_Z (BigZ.shiftr t k)) <= IZR (BigZ.to_Z t) / d < IZR (BigZ.to_Z (BigZ.shiftr t k)) + 1.
Proof.
  intros t k e d E He <-. rewrite (shr_spec t k e E He). apply zdiv_down. apply Z.pow_pos_nonneg; lia.
Qed.

Lemma pow190 : IZR (2 ^ 190) = SR. Proof. reflexivity. Qed.

Lemma bcpow_R : forall X Y x y, md X Y <= rho -> Rabs (IZR (BigZ.to_Z x) - SR * X) <= 1 -> Rabs (IZR (BigZ.to_Z y) - SR * Y) <= 1 ->
  forall j, (j <= 4)%nat ->
  Rabs (IZR (BigZ.to_Z (fst (bcpow j x y))) - SR * fst (cpow j X Y)) <= 10 * 3 ^ j /\
  Rabs (IZR (BigZ.to_Z (snd (bcpow j x y))) - SR * snd (cpow j X Y)) <= 10 * 3 ^ j.
Proof.
  intros X Y x y Hm Hx Hy. pose proof S190_R as ES. pose proof UR_big as HU.
  assert (HX : Rabs X <= 11 / 10) by (pose proof (md_l X Y); unfold rho in *; lra).
  assert (HY : Rabs Y <= 11 / 10) by (pose proof (md_r X Y); unfold rho in *; lra).
  assert (H3 : forall j, (j <= 4)%nat -> 1 <= 3 ^ j <= 81).
  { intros j Hj. destruct j as [|[|[|[|[|j]]]]]; simpl; try lra. lia. }
  assert (Step : forall (p q P Q s r : R) e, 1 <= e <= 81 -> Rabs P <= 3 / 2 -> Rabs Q <= 3 / 2 ->
    Rabs (p - SR * P) <= 10 * e -> Rabs (q - SR * Q) <= 10 * e ->
    forall x y, Rabs x <= 11 / 10 -> Rabs y <= 11 / 10 -> forall a b, Rabs (a - SR * x) <= 1 -> Rabs (b - SR * y) <= 1 ->
    s <= (a * p + b * q) / SR < s + 1 -> Rabs (s - SR * (x * P + y * Q)) <= 10 * (3 * e)).
  { intros p q P Q s r e He HP HQ Hp Hq x0 y0 Hx0 Hy0 a b Ha Hb Hs.
    assert (HS : 1000000 <= SR) by lra.
    set (d1 := p - SR * P) in *. set (d2 := q - SR * Q) in *. set (d3 := a - SR * x0) in *. set (d4 := b - SR * y0) in *.
    replace p with (SR * P + d1) in Hs by (unfold d1; ring). replace q with (SR * Q + d2) in Hs by (unfold d2; ring).
    replace a with (SR * x0 + d3) in Hs by (unfold d3; ring). replace b with (SR * y0 + d4) in Hs by (unfold d4; ring).
    set (g := (d3 * d1 + d4 * d2) / SR).
    assert (Hg : Rabs g <= 1).
    { unfold g, Rdiv. rewrite Rabs_mult, (Rabs_pos_eq (/ SR)) by (left; apply Rinv_0_lt_compat; lra).
      apply (Rmult_le_reg_r SR); [lra|]. rewrite Rmult_assoc, Rinv_l, Rmult_1_r by lra.
      eapply Rle_trans; [apply Rabs_triang|]. rewrite !Rabs_mult.
      assert (Rabs d3 * Rabs d1 <= 1 * (10 * e)) by (apply Rmult_le_compat; auto; apply Rabs_pos).
      assert (Rabs d4 * Rabs d2 <= 1 * (10 * e)) by (apply Rmult_le_compat; auto; apply Rabs_pos). lra. }
    replace (((SR * x0 + d3) * (SR * P + d1) + (SR * y0 + d4) * (SR * Q + d2)) / SR)
      with (SR * (x0 * P + y0 * Q) + (x0 * d1 + y0 * d2 + (d3 * P + d4 * Q) + g)) in Hs by (unfold g; field; lra).
    assert (T : forall u v k l, Rabs u <= k -> Rabs v <= l -> Rabs (u * v) <= k * l).
    { intros u v k l Hu Hv. rewrite Rabs_mult. apply Rmult_le_compat; auto; apply Rabs_pos. }
    pose proof (T _ _ _ _ Hx0 Hp) as T1. pose proof (T _ _ _ _ Hy0 Hq) as T2.
    pose proof (T _ _ _ _ Ha HP) as T3. pose proof (T _ _ _ _ Hb HQ) as T4.
    apply Rabs_le_between in T1. apply Rabs_le_between in T2. apply Rabs_le_between in T3. apply Rabs_le_between in T4.
    apply Rabs_le_between in Hg. apply Rabs_le. lra. }
  induction j as [|j IH]; intro Hj.
  - cbn [bcpow cpow fst snd]. change (BigZ.to_Z S190b) with S190. change (BigZ.to_Z BigZ.zero) with 0%Z. fold SR.
    simpl. replace (SR - SR * 1) with 0 by ring. replace (0 - SR * 0) with 0 by ring. rewrite Rabs_R0. lra.
  - destruct IH as [I1 I2]; [lia|]. specialize (H3 j ltac:(lia)).
    pose proof (cpow_md j X Y Hm) as Hc. pose proof (rho_pow j ltac:(lia)) as Hr.
    cbn [bcpow cpow]. destruct (bcpow j x y) as [a b]. destruct (cpow j X Y) as [P Q]. cbn [fst snd] in *.
    assert (HP : Rabs P <= 3 / 2) by (pose proof (md_l P Q); lra).
    assert (HQ : Rabs Q <= 3 / 2) by (pose proof (md_r P Q); lra).
    pose proof (shr_R (BigZ.sub (BigZ.mul x a) (BigZ.mul y b)) 190%bigZ 190 SR eq_refl ltac:(lia) pow190) as S1.
    pose proof (shr_R (BigZ.add (BigZ.mul x b) (BigZ.mul y a)) 190%bigZ 190 SR eq_refl ltac:(lia) pow190) as S2.
    rewrite BigZ.spec_sub, !BigZ.spec_mul, minus_IZR, !mult_IZR in S1.
    rewrite BigZ.spec_add, !BigZ.spec_mul, plus_IZR, !mult_IZR in S2.
    replace (10 * 3 ^ S j) with (10 * (3 * 3 ^ j)) by (simpl; ring). split.
    + replace (X * P - Y * Q) with (X * P + - Y * Q) by ring.
      eapply (Step _ _ P Q _ 0 (3 ^ j)); [exact H3|exact HP|exact HQ|exact I1|exact I2|exact HX|rewrite Rabs_Ropp; exact HY|exact Hx| |].
      * instantiate (1 := - IZR (BigZ.to_Z y)). replace (- IZR (BigZ.to_Z y) - SR * - Y) with (- (IZR (BigZ.to_Z y) - SR * Y)) by ring.
        rewrite Rabs_Ropp. exact Hy.
      * replace (IZR (BigZ.to_Z x) * IZR (BigZ.to_Z a) + - IZR (BigZ.to_Z y) * IZR (BigZ.to_Z b))
          with (IZR (BigZ.to_Z x) * IZR (BigZ.to_Z a) - IZR (BigZ.to_Z y) * IZR (BigZ.to_Z b)) by ring. exact S1.
    + eapply (Step _ _ Q P _ 0 (3 ^ j)); [exact H3|exact HQ|exact HP|exact I2|exact I1|exact HX|exact HY|exact Hx|exact Hy|exact S2].
Qed.

Lemma prep_load : forall st X Y z v x y zb vb, (1 <= st <= 4)%nat -> pt_ok (X, Y, z, v) -> 0 <= z ->
  Rabs (IZR (BigZ.to_Z x) - SR * X) <= 1 -> Rabs (IZR (BigZ.to_Z y) - SR * Y) <= 1 ->
  IZR (BigZ.to_Z zb) <= IZR N * z < IZR (BigZ.to_Z zb) + 1 -> Rabs (IZR (BigZ.to_Z vb) - UR * v) <= 1 ->
  prep st 0 (X, Y, z, v) (load st x y zb vb).
Proof.
  intros st X Y z v x y zb vb Hst Hp Hz Hx Hy Hzb Hvb. pose proof (pt_md _ _ _ _ Hp) as Hm.
  destruct (bcpow_R X Y x y Hm Hx Hy st ltac:(lia)) as [I1 I2].
  pose proof (cpow_md st X Y Hm) as Hc. pose proof (rho_pow st ltac:(lia)) as Hr.
  assert (H3 : 3 ^ st <= 81) by (destruct st as [|[|[|[|[|j]]]]]; simpl; try lra; lia).
  unfold prep, load. destruct (bcpow st x y) as [a b]. destruct (cpow st X Y) as [P Q]. cbn [fst snd] in *.
  cbn [p_z p_k p_x p_y p_e p_f p_r p_i].
  assert (HP : Rabs P <= 3 / 2) by (pose proof (md_l P Q); lra).
  assert (HQ : Rabs Q <= 3 / 2) by (pose proof (md_r P Q); lra).
  destruct Hp as (Hz' & _ & Hv). pose proof S190_R as ES. pose proof UR_big as HU. pose proof N_R as EN.
  set (A := IZR (BigZ.to_Z a)) in *. set (D := IZR (BigZ.to_Z b)) in *.
  assert (Sb : BigZ.to_Z (BigZ.mul 2%bigZ S190b) = (2 * S190)%Z) by reflexivity.
  apply Rabs_le_between in I1. apply Rabs_le_between in I2. apply Rabs_le_between in HP. apply Rabs_le_between in HQ.
  apply Rabs_le_between in Hvb. apply Rabs_le_between in Hv.
  assert (Zn : (0 <= BigZ.to_Z zb <= N)%Z).
  { split.
    - apply Z.lt_succ_r. rewrite <- Z.add_1_r. apply lt_IZR. rewrite plus_IZR. nra.
    - apply le_IZR. nra. }
  refine (conj _ (conj _ (conj _ (conj _ (conj _ (conj _ (conj _ (conj _ (conj _ (conj _ (conj _ _))))))))))).
  - set (t := BigZ.min zb (BigZ.sub Nb 1%bigZ)).
    assert (Et : BigZ.to_Z t = Z.min (BigZ.to_Z zb) (N - 1)) by (unfold t; rewrite BigZ.spec_min; reflexivity).
    assert (Rt : (0 <= BigZ.to_Z t < N)%Z) by (rewrite Et; unfold N in *; lia).
    exists (BigZ.to_Z t). split; [apply split16_spec; auto|].
    assert (Lt : (BigZ.to_Z zb - 1 <= BigZ.to_Z t <= BigZ.to_Z zb)%Z) by (rewrite Et; lia).
    destruct Lt as [L1 L2]. apply IZR_le in L1, L2. rewrite minus_IZR in L1. apply Rabs_le. lra.
  - apply split_spec.
  - pose proof (shr_R (BigZ.sub Nb zb) 2%bigZ 2 4 eq_refl ltac:(lia) eq_refl) as S1.
    set (t := BigZ.shiftr (BigZ.sub Nb zb) 2%bigZ) in *.
    rewrite BigZ.spec_sub, minus_IZR in S1. change (BigZ.to_Z Nb) with N in S1.
    destruct Zn as [Z1 Z2]. apply IZR_le in Z1, Z2.
    assert (Rt : (0 <= BigZ.to_Z t < N)%Z).
    { split.
      - apply Z.lt_succ_r. rewrite <- Z.add_1_r. apply lt_IZR. rewrite plus_IZR. lra.
      - apply lt_IZR. lra. }
    rewrite (split_in t Rt). rewrite EN in Hzb, S1. apply Rabs_le. lra.
  - pose proof (shr_R (BigZ.add (BigZ.mul 2%bigZ S190b) a) 15%bigZ 15 32768 eq_refl ltac:(lia) eq_refl) as S1.
    set (t := BigZ.shiftr _ 15%bigZ) in *. rewrite BigZ.spec_add, plus_IZR, Sb, mult_IZR in S1. fold SR A in S1.
    assert (Rt : (0 <= BigZ.to_Z t < N)%Z).
    { split; [apply Z.lt_succ_r; rewrite <- Z.add_1_r|]; apply lt_IZR; try rewrite plus_IZR; nra. }
    exists (BigZ.to_Z t). split; [apply split16_spec; auto|]. rewrite EN. rewrite ES in *. apply Rabs_le. lra.
  - pose proof (shr_R (BigZ.add (BigZ.mul 2%bigZ S190b) b) 15%bigZ 15 32768 eq_refl ltac:(lia) eq_refl) as S1.
    set (t := BigZ.shiftr _ 15%bigZ) in *. rewrite BigZ.spec_add, plus_IZR, Sb, mult_IZR in S1. fold SR D in S1.
    assert (Rt : (0 <= BigZ.to_Z t < N)%Z).
    { split; [apply Z.lt_succ_r; rewrite <- Z.add_1_r|]; apply lt_IZR; try rewrite plus_IZR; nra. }
    exists (BigZ.to_Z t). split; [apply split16_spec; auto|]. rewrite EN. rewrite ES in *. apply Rabs_le. lra.
  - apply split_spec.
  - set (t := BigZ.shiftr _ 16%bigZ). exists (BigZ.to_Z t). split; [apply split_spec|].
    pose proof (shr_R (BigZ.sub (BigZ.add (BigZ.mul 2%bigZ S190b) (BigZ.mul 2%bigZ b)) (BigZ.mul 2%bigZ a)) 16%bigZ 16 65536 eq_refl ltac:(lia) eq_refl) as S1.
    fold t in S1. rewrite BigZ.spec_sub, BigZ.spec_add, minus_IZR, plus_IZR, Sb, !BigZ.spec_mul, !mult_IZR in S1.
    change (BigZ.to_Z 2%bigZ) with 2%Z in S1. fold SR A D in S1. rewrite ES in *. apply Rabs_le. lra.
  - apply split_spec.
  - set (t := BigZ.shiftr _ 16%bigZ). exists (BigZ.to_Z t). split; [apply split_spec|].
    pose proof (shr_R (BigZ.sub (BigZ.sub (BigZ.mul 2%bigZ S190b) (BigZ.mul 2%bigZ a)) (BigZ.mul 2%bigZ b)) 16%bigZ 16 65536 eq_refl ltac:(lia) eq_refl) as S1.
    fold t in S1. rewrite !BigZ.spec_sub, !minus_IZR, Sb, !BigZ.spec_mul, !mult_IZR in S1.
    change (BigZ.to_Z 2%bigZ) with 2%Z in S1. fold SR A D in S1. rewrite ES in *. apply Rabs_le. lra.
  - apply split_spec.
  - apply split_spec.
  - set (t1 := BigZ.add vb (BigZ.mul 2%bigZ Ub)). set (t2 := BigZ.mul 2%bigZ Ub).
    assert (E2 : BigZ.to_Z t2 = (2 * U)%Z) by reflexivity.
    assert (E1 : BigZ.to_Z t1 = (BigZ.to_Z vb + 2 * U)%Z) by (unfold t1; rewrite BigZ.spec_add; fold t2; rewrite E2; reflexivity).
    rewrite (split_in t2) by (rewrite E2; unfold U, N; lia).
    rewrite (split_in t1).
    + rewrite E1, E2, plus_IZR, mult_IZR. fold UR. simpl cpow. cbn [fst snd].
      replace (2 * UR - UR * (v * 0 + 2)) with 0 by ring. rewrite md_0. simpl pow. simpl INR.
      apply Rabs_le. lra.
    + rewrite E1. apply in_range. rewrite plus_IZR, mult_IZR. fold UR. nra.
Qed.
