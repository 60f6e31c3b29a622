(** The Gauss-Lobatto rule the program computes in exact arithmetic. *)
From Coq Require Import List Bool Arith ZArith Lia Reals Lra Psatz.
From Coquelicot Require Import Coquelicot.
From Verif Require Import Base.Outcome Base.Scalar Base.RScalar Model.Primitive Spec.Sums Spec.RealRules Spec.LegendreSpec
  Proofs.Tab Proofs.SumFacts Proofs.PrimitiveFacts Proofs.ChebReal Proofs.ChebInt Proofs.ChebExact Proofs.Legendre
  Proofs.LegendreZeros Proofs.LegendreAngles Proofs.GLNewton Proofs.GLRule Proofs.Lobatto Proofs.LobattoAngles Proofs.LobattoNewton.
Import ListNotations.
Local Open Scope R_scope.

(** ** The ideal rule *)
Definition lideal (m : nat) (y : nat -> R) : list R * list R := (tab (S m) y, tab (S m) (fun i => lob_weight m (y i))).

Lemma closed_tab : forall n x w, (2 <= n)%nat -> x 0%nat = -1 -> x (n - 1)%nat = 1 ->
  (forall i j, (i < j < n)%nat -> x i < x j) -> (forall i, (i < n)%nat -> 0 < w i) ->
  good_closed_rule n (tab n x, tab n w).
Proof.
  intros n x w Hn A B C D. unfold good_closed_rule. cbn [fst snd]. rewrite !tab_length.
  split; auto. split; auto. split; [rewrite nth_error_tab by lia; congruence|].
  split; [rewrite nth_error_tab by lia; congruence|]. split.
  - intros i j a b Hij Ha Hb.
    assert (j < n)%nat by (rewrite <- (tab_length n x); apply nth_error_Some; congruence).
    rewrite nth_error_tab in Ha, Hb by lia. injection Ha as <-. injection Hb as <-. apply C. lia.
  - intros v Hv. apply In_tab in Hv. destruct Hv as (i & Hi & ->). auto.
Qed.

Lemma lweight_pos : forall m y i, (1 <= m)%nat -> lnodes m y -> (i <= m)%nat -> 0 < lob_weight m (y i).
Proof. intros m y i Hm Hy Hi. unfold lob_weight. pose proof (lnodes_P m y i Hm Hy Hi). apply Rdiv_lt_0_compat; lra. Qed.

Lemma lideal_rule : forall m y, (1 <= m)%nat -> lnodes m y -> lobatto_rule (S m) (lideal m y).
Proof.
  intros m y Hm Hy. pose proof Hy as (A & B & C & D). split.
  - apply closed_tab; auto; [lia| | |].
    + replace (S m - 1)%nat with m by lia. auto.
    + intros i j Hij. apply C. lia.
    + intros i Hi. apply (lweight_pos m y); auto. lia.
  - intros p Hp. unfold lideal. rewrite rule_tab. apply (lob_exact m y); auto. exists p. split; auto. lia.
Qed.

Lemma lobatto_rule_nodes : forall m x w, (1 <= m)%nat -> lobatto_rule (S m) (tab (S m) x, tab (S m) w) ->
  lnodes m x /\ forall i, (i <= m)%nat -> w i = lob_weight m (x i).
Proof.
  intros m x w Hm ((_ & _ & G1 & G2 & G3 & G4) & Ex). cbn [fst snd] in *.
  rewrite nth_error_tab in G1 by lia. injection G1 as X0.
  replace (S m - 1)%nat with m in G2 by lia. rewrite nth_error_tab in G2 by lia. injection G2 as X1.
  assert (W0 : forall i, (i <= m)%nat -> 0 < w i) by (intros i Hi; apply G4, In_tab; exists i; split; [lia|auto]).
  assert (Z2 : forall i j, (i < j <= m)%nat -> x i < x j).
  { intros i j Hij. apply (G3 i j); [lia| |]; apply nth_error_tab; lia. }
  assert (ND' : forall i j, (i <= m)%nat -> (j <= m)%nat -> i <> j -> x i <> x j).
  { intros i j Hi Hj Hij. destruct (Nat.lt_total i j) as [L|[L|L]]; [|lia|].
    - specialize (Z2 i j ltac:(lia)). lra.
    - specialize (Z2 j i ltac:(lia)). lra. }
  assert (Exf : forall f, ispoly (2 * m) f -> is_RInt f (-1) 1 (Rsum (tab (S m) (fun i => w i * f (x i))))).
  { intros f (p & Lp & Ep). apply (is_RInt_ext (peval p)); [intros t _; symmetry; apply Ep|].
    rewrite (Rsum_tab_ext (S m) _ (fun i => w i * peval p (x i))) by (intros; rewrite Ep; auto).
    rewrite <- rule_tab. apply Ex. lia. }
  assert (Z3 : forall i, (0 < i < m)%nat -> gg m (x i) = 0).
  { intros i Hi. set (u := fun j => x (S j)). destruct (prod_poly (m - 1) u) as (p & Lp & Ep).
    set (l := sdiv (x i) p).
    assert (ui : x i = u (i - 1)%nat) by (unfold u; f_equal; lia).
    assert (Pi0 : prod (m - 1) u (x i) = 0) by (rewrite ui; apply prod_zero; lia).
    assert (El : forall t, prod (m - 1) u t = (t - x i) * peval l t).
    { intro t. rewrite Ep, (sdiv_eval (x i) p t), <- Ep, Pi0. fold l. ring. }
    assert (Ll : ispoly (m - 1) (peval l)).
    { exists l. split; auto. unfold l. rewrite sdiv_len. lia. }
    assert (Lj : forall j, (0 < j < m)%nat -> j <> i -> peval l (x j) = 0).
    { intros j Hj Hij. pose proof (El (x j)) as E. replace (x j) with (u (j - 1)%nat) in E at 1 by (unfold u; f_equal; lia).
      rewrite prod_zero in E by lia. specialize (ND' j i ltac:(lia) ltac:(lia) Hij).
      symmetry in E. apply Rmult_integral in E. destruct E; [lra|auto]. }
    assert (Li : peval l (x i) <> 0).
    { intro E0. assert (Q : forall t, peval l t = 0).
      { apply (zero_poly (m - 1) (peval l) u Ll).
        - intros a b Hab. unfold u. apply ND'; lia.
        - intros j Hj. unfold u. destruct (Nat.eq_dec (S j) i) as [->|]; auto. apply Lj; lia. }
      pose proof (prod_pos (m - 1) u 2) as Pp. rewrite El, Q in Pp. assert (0 < (2 - x i) * 0); [apply Pp|lra].
      intros j Hj. unfold u. assert (x (S j) < 1); [rewrite <- X1; apply Z2; lia|lra]. }
    pose proof (Exf (fun t => gg m t * peval l t)) as I1.
    pose proof (gg_orth m (m - 1) (peval l) Hm Ll ltac:(lia)) as I2.
    assert (I3 : Rsum (tab (S m) (fun j => w j * (gg m (x j) * peval l (x j)))) = 0).
    { rewrite <- (is_RInt_unique _ _ _ _ I2). symmetry. apply is_RInt_unique. apply I1.
      apply (ispoly_weaken (pred (S (S m) + (m - 1)))); [apply ispoly_mult; [apply gg_poly; auto|auto]|lia]. }
    rewrite (Rsum_tab_ext (S m) _ (fun j => if Nat.eqb j i then w i * (gg m (x i) * peval l (x i)) else 0)) in I3.
    2:{ intros j Hj. destruct (Nat.eqb_spec j i) as [->|Hij]; auto.
        destruct (Nat.eq_dec j 0) as [->|]; [rewrite X0, gg_m1 by auto; ring|].
        destruct (Nat.eq_dec j m) as [->|]; [rewrite X1, gg_1 by auto; ring|].
        rewrite (Lj j ltac:(lia) Hij). ring. }
    rewrite (Rsum_tab_single (S m) i) in I3 by lia.
    specialize (W0 i ltac:(lia)). apply Rmult_integral in I3. destruct I3 as [I3|I3]; [lra|].
    apply Rmult_integral in I3. destruct I3; [auto|contradiction]. }
  assert (ZZ : lnodes m x).
  { split; [auto|]. split; [auto|]. split; [auto|]. intros i Hi. pose proof (gg_dP m (x i)) as E.
    rewrite (Z3 i Hi), Rmult_0_r in E.
    assert (-1 < x i < 1) by (rewrite <- X0, <- X1; split; apply Z2; lia).
    assert (0 < 1 - x i * x i) by nra. apply Rmult_eq_reg_l with (1 - x i * x i); lra. }
  split; auto. intros i Hi.
  pose proof (lkern_int m (x i) Hm) as I1.
  assert (I2 : Rsum (tab (S m) (fun j => w j * lkern m (x i) (x j))) = 2).
  { rewrite <- (is_RInt_unique _ _ _ _ I1). symmetry. apply is_RInt_unique. apply Exf.
    apply (ispoly_weaken (S m)); [|lia]. apply lkern_poly. }
  assert (GZ : forall j, (j <= m)%nat -> gg m (x j) = 0) by (intros j Hj; apply (lnodes_gg m x); auto).
  rewrite (Rsum_tab_ext (S m) _ (fun j => if Nat.eqb j i then w i * lkern m (x i) (x i) else 0)) in I2.
  2:{ intros j Hj. destruct (Nat.eqb_spec j i) as [->|Hij]; auto. rewrite lkern_off; [ring|apply GZ; lia|apply GZ; lia|].
      apply ND'; lia. }
  rewrite (Rsum_tab_single (S m) i) in I2 by lia. rewrite lkern_diag in I2 by (apply GZ; lia).
  pose proof (lnodes_P m x i Hm ZZ Hi) as LP. unfold lob_weight. rewrite <- I2. unfold Rdiv.
  rewrite Rmult_assoc, Rinv_r by lra. ring.
Qed.

Lemma lobatto_tab : forall n q, lobatto_rule n q -> exists x w, q = (tab n x, tab n w).
Proof.
  intros n [xs ws] ((A & B & _) & _). cbn [fst snd] in A, B.
  exists (fun i => nth i xs 0), (fun i => nth i ws 0). rewrite (list_tab xs 0), (list_tab ws 0) at 1. rewrite A, B. auto.
Qed.

Lemma lobatto_rule_unique : forall n q q', (2 <= n)%nat -> lobatto_rule n q -> lobatto_rule n q' -> q = q'.
Proof.
  intros n q q' Hn Hq Hq'. destruct (lobatto_tab n q Hq) as (x & w & ->). destruct (lobatto_tab n q' Hq') as (x' & w' & ->).
  destruct n as [|m]; [lia|].
  destruct (lobatto_rule_nodes m x w ltac:(lia) Hq) as (Z & W). destruct (lobatto_rule_nodes m x' w' ltac:(lia) Hq') as (Z' & W').
  pose proof (lnodes_unique m x x' ltac:(lia) Z Z') as U. f_equal; apply tab_ext; intros i Hi.
  - apply U. lia.
  - rewrite W, W', U by lia. reflexivity.
Qed.

Lemma lobatto_exists : forall n, (2 <= n)%nat -> exists g, lobatto_rule n g.
Proof.
  intros [|m] Hn; [lia|]. destruct (zeros_exist m) as (z & Hz). destruct (lnodes_exist m z ltac:(lia) Hz) as (y & Hy & _).
  exists (lideal m y). apply lideal_rule; auto. lia.
Qed.

(** The inner nodes are the critical points of the Legendre polynomial of degree n-1. *)
Lemma lobatto_zeros : forall n g p, (2 <= n)%nat -> lobatto_rule n g -> legendre_polynomial (n - 1) p ->
  forall x, In x (fst g) <-> (x = -1 \/ x = 1 \/ (-1 < x < 1 /\ is_derive (peval p) x 0)).
Proof.
  intros n g p Hn Hg Hp x. destruct (lobatto_tab n g Hg) as (y & w & ->). destruct n as [|m]; [lia|].
  replace (S m - 1)%nat with m in Hp by lia.
  destruct (lobatto_rule_nodes m y w ltac:(lia) Hg) as (Z & _). pose proof Z as (A & B & C & D).
  assert (E : forall t, peval p t = Pn m t) by (apply legendre_Pn; auto).
  assert (DD : forall t, is_derive (peval p) t (dP m t)).
  { intro t. apply (is_derive_ext (Pn m)); [intro; symmetry; apply E|apply Pn_derive]. }
  cbn [fst]. rewrite In_tab. split.
  - intros (i & Hi & ->). destruct (Nat.eq_dec i 0) as [->|]; [auto|]. destruct (Nat.eq_dec i m) as [->|]; [auto|].
    right; right. split; [apply (lnodes_range m y); auto; lia|]. rewrite <- (D i) by lia. apply DD.
  - intros [->|[->|(Hx & H)]]; [exists 0%nat; split; [lia|auto]|exists m; split; [lia|auto]|].
    assert (E0 : dP m x = 0).
    { pose proof (is_derive_unique _ _ _ H) as U1. pose proof (is_derive_unique _ _ _ (DD x)) as U2. congruence. }
    destruct (lnodes_all m y x ltac:(lia) Z E0 Hx) as (i & Hi & Ei). exists i. split; [lia|auto].
Qed.

(** ** The computed rule *)
Lemma lob_guess_real : forall m k, (1 <= m)%nat -> (k <= m)%nat -> @lob_guess RS (S m) k = - cos (gam m k).
Proof.
  intros m k Hm Hk. transitivity (cos (IZR (Z.of_nat (S m - 1 - k)) * PI / (IZR (Z.of_nat (S m)) - 1))); [reflexivity|].
  rewrite !IZR_INR. replace (S m - 1 - k)%nat with (m - k)%nat by lia. rewrite minus_INR, S_INR by auto.
  pose proof (INR_pos m Hm). replace ((INR m - INR k) * PI / (INR m + 1 - 1)) with (PI - gam m k) by (unfold gam; field; lra).
  rewrite cos_minus, cos_PI, sin_PI. req. ring.
Qed.

Lemma lob_w_real : forall m (v : R * R), @lob_w RS (S m) v = 2 / ((INR m + 1) * INR m) / (snd v * snd v).
Proof.
  intros m v. transitivity (2 / (IZR (Z.of_nat (S m)) * (IZR (Z.of_nat (S m)) - 1)) / (snd v * snd v)); [reflexivity|].
  rewrite IZR_INR, S_INR. replace (INR m + 1 - 1) with (INR m) by ring. reflexivity.
Qed.

Lemma sin_gam : forall m k, 0 < gam m k < PI / 2 -> (1 <= k)%nat -> (1 <= m)%nat ->
  3.2 <= INR m * INR m * (sin (gam m k) * sin (gam m k)).
Proof.
  intros m k G Hk Hm. pose proof PI_fine. pose proof (INR_pos m Hm) as M. pose proof (sin_lower (gam m k) ltac:(lra)) as SL.
  assert (g2 : gam m k * gam m k <= 2.481) by nra.
  assert (S1 : 0.58 * gam m k <= sin (gam m k)) by nra.
  assert (G1 : 3.14 <= INR m * gam m k).
  { unfold gam. replace (INR m * (INR k * PI / INR m)) with (INR k * PI) by (field; lra).
    assert (1 <= INR k) by (change 1 with (INR 1); apply le_INR; lia). nra. }
  replace (INR m * INR m * (sin (gam m k) * sin (gam m k))) with ((INR m * sin (gam m k)) * (INR m * sin (gam m k))) by ring.
  assert (1.82 <= INR m * sin (gam m k)) by nra. nra.
Qed.

Section Res.
Variables (m : nat) (z y : nat -> R).
Hypothesis Hm : (1 <= m)%nat.
Hypothesis Hz : zeros m z.
Hypothesis Hy : lnodes m y.
Hypothesis Hi : forall i, (0 < i < m)%nat -> z (i - 1)%nat < y i < z i.

Definition lres (k : nat) (v : R * R) : Prop :=
  @lob_newton RS (S m) 100 (lob_guess (S m) k) = Some v /\
  Rabs (fst v - y k) <= tol /\ z (k - 1)%nat < fst v < z k /\
  0 < @lob_w RS (S m) v /\
  Rabs (@lob_w RS (S m) v - lob_weight m (y k)) <= (INR m + 1) ^ 4 * tol ^ 2 * lob_weight m (y k).

Lemma lob_sign : forall k x, (0 < k < m)%nat -> z (k - 1)%nat < x < z k -> 0 < (-1) ^ (m - k) * Pn m x.
Proof.
  intros k x Hk Hx. pose proof Hz as (Z1 & Z2 & Z3). apply (zeros_sign m k z x Hz); [lia| |].
  - intros i Hik. destruct (Nat.eq_dec i (k - 1)) as [->|]; [lra|]. specialize (Z2 i (k - 1)%nat ltac:(lia)). lra.
  - intros i Hik. destruct (Nat.eq_dec i k) as [->|]; [lra|]. specialize (Z2 k i ltac:(lia)). lra.
Qed.

Lemma weight_ratio : forall W b p M, 0 < W -> 0 <= b <= 0.395 -> 0 < p <= M -> M * (1 - b) <= p ->
  0 < W / (p * p) /\ Rabs (W / (p * p) - W / (M * M)) <= 5.48 * b * (W / (M * M)).
Proof.
  intros W b p M HW Hb Hp Hq. assert (P2 : 0 < p * p) by nra. assert (M2 : 0 < M * M) by nra.
  split; [apply Rdiv_lt_0_compat; auto|].
  assert (p * p <= M * M) by nra.
  assert (L : W / (M * M) <= W / (p * p)) by (apply Rmult_le_compat_l; [lra|apply Rinv_le_contravar; auto]).
  rewrite Rabs_right by lra.
  assert (U : W / (p * p) <= (1 + 5.48 * b) * (W / (M * M))); [|lra].
  apply Rmult_le_reg_r with (p * p); auto. unfold Rdiv at 1. rewrite Rmult_assoc, Rinv_l, Rmult_1_r by lra.
  set (r := M * (1 - b)) in *. assert (0 < r) by (unfold r; nra). assert (r * r <= p * p) by nra.
  assert (WM : 0 < W / (M * M)) by (apply Rdiv_lt_0_compat; auto).
  apply Rle_trans with ((1 + 5.48 * b) * (W / (M * M)) * (r * r)).
  - unfold r. replace ((1 + 5.48 * b) * (W / (M * M)) * (M * (1 - b) * (M * (1 - b)))) with (W * ((1 + 5.48 * b) * ((1 - b) * (1 - b)))) by (field; nra).
    assert (1 <= (1 + 5.48 * b) * ((1 - b) * (1 - b))); [|nra].
    assert (0 <= b * (3.48 - 9.96 * b + 5.48 * (b * b))); [|lra].
    apply Rmult_le_pos; [lra|]. nra.
  - apply Rmult_le_compat_l; auto. apply Rmult_le_pos; lra.
Qed.

Lemma lob_iter : forall k, (0 < k)%nat -> (2 * k <= m)%nat -> exists v, lres k v.
Proof.
  intros k H0 Hk. pose proof (INR_pos m Hm) as M. assert (T0 : 0 < tol) by (apply Rinv_0_lt_compat, pow_lt; lra).
  assert (LWP : 0 < lob_weight m (y k)) by (apply (lweight_pos m y); auto; lia).
  assert (N4 : 0 <= (INR m + 1) ^ 4 * tol ^ 2) by (apply Rmult_le_pos; apply pow_le; lra).
  destruct (Nat.eq_dec (2 * k) m) as [E|E].
  - (* the middle node of an odd rule *)
    assert (Y0 : y k = 0).
    { pose proof (lnodes_sym m y k Hm Hy ltac:(lia)) as Q. replace (m - k)%nat with k in Q by lia. lra. }
    assert (G0 : cos (gam m k) = 0).
    { replace (gam m k) with (PI / 2); [apply cos_PI2|]. unfold gam. rewrite <- E in M |- *. rewrite mult_INR in *. simpl (INR 2) in *. field. lra. }
    pose proof (lnodes_gg m y k Hm Hy ltac:(lia)) as Gy. rewrite Y0 in Gy.
    exists (0, Pn m 0). unfold lres. rewrite lob_guess_real, G0, Ropp_0 by lia. cbn [fst].
    split.
    { change 100%nat with (S 99). rewrite lob_unfold by exact Hm. unfold lstep. rewrite Gy.
      replace (0 - 0 / ((INR m + 1) * Pn m 0)) with 0 by (unfold Rdiv; ring). rewrite Rminus_eq_0, Rabs_R0.
      rewrite Rleb_true by (fold tol; lra). reflexivity. }
    rewrite Y0, Rminus_eq_0, Rabs_R0. split; [lra|]. split; [rewrite <- Y0; apply Hi; lia|].
    rewrite lob_w_real. cbn [snd].
    pose proof (lnodes_P m y k Hm Hy ltac:(lia)) as LP. rewrite Y0 in LP, LWP.
    assert (P0 : 0 < Pn m 0 * Pn m 0) by (apply Rmult_lt_reg_l with (INR m * (INR m + 1)); nra).
    replace (2 / ((INR m + 1) * INR m) / (Pn m 0 * Pn m 0)) with (lob_weight m 0).
    2:{ unfold lob_weight. field. assert (Pn m 0 <> 0) by (intro Q; rewrite Q in P0; lra). repeat split; auto; lra. }
    split; auto. rewrite Rminus_eq_0, Rabs_R0. apply Rmult_le_pos; lra.
  - assert (Hk' : (2 * k < m)%nat) by lia.
    pose proof (start_close m z y Hm Hz Hy Hi k H0 Hk') as (Da & Db).
    pose proof (gam_range m z y Hm Hz Hy Hi k H0 Hk') as GR.
    assert (CP : cos (psi m y k) = - y k).
    { transitivity (y (m - k)%nat); [eapply cos_psi; eauto; lia|apply lnodes_sym; auto; lia]. }
    rewrite CP in Da, Db. set (c := cos (gam m k)) in *. set (s := sin (gam m k)) in *. set (dl := c - - y k) in *.
    assert (s0 : 0 < s) by (apply sin_gt_0; lra). assert (cs : c * c + s * s = 1) by (pose proof (sin2_cos2 (gam m k)) as Q; unfold Rsqr in Q; fold s c in Q; lra).
    assert (yk : y k < 0).
    { assert (P1 : psi m y k < PI / 2) by (eapply psi_half; eauto).
      assert (0 < psi m y k < PI) by (eapply psi_range; eauto; lia).
      assert (0 < cos (psi m y k)) by (apply cos_gt_0; lra). lra. }
    set (L := INR m * (INR m + 1)) in *. set (B := L / (s * s)).
    assert (ss : 0 < s * s) by nra. assert (L0 : 0 < L) by (unfold L; nra).
    assert (B0 : 0 < B) by (apply Rdiv_lt_0_compat; auto).
    assert (W : forall x, Rabs (x - y k) <= dl -> 0 < 1 - x * x /\ L <= B * (1 - x * x)).
    { intros x Hx. apply Rabs_le_between in Hx. unfold dl in Hx. assert (-c <= x <= c) by lra.
      assert (s * s <= 1 - x * x) by nra. split; [lra|]. unfold B.
      apply Rle_trans with (L / (s * s) * (s * s)); [apply Req_le; field; lra|].
      apply Rmult_le_compat_l; [apply Rlt_le; exact B0|auto]. }
    assert (BD : B * (dl * dl) <= 0.79).
    { unfold B. apply Rmult_le_reg_r with (s * s); auto. replace (L / (s * s) * (dl * dl) * (s * s)) with (L * (dl * dl)) by (field; lra).
      exact Db. }
    assert (BD8 : B * (dl * dl) <= 0.8) by lra.
    assert (SG : (-1) ^ (m - k) * (-1) ^ (m - k) = 1) by apply pow_m1_sq.
    pose proof Hy as (_ & _ & _ & Dy). pose proof Hz as (Z1 & Z2 & Z3).
    assert (Dst : Rabs (- c - y k) <= dl) by (rewrite Rabs_left1; unfold dl in *; lra).
    assert (dl1 : dl <= 1).
    { unfold dl. pose proof (COS_bound (gam m k)). fold c in H. lra. }
    destruct (lob_newton_ok m (y k) (z (k - 1)%nat) (z k) ((-1) ^ (m - k)) B dl Hm SG (Dy k ltac:(lia)) (Hi k ltac:(lia))
      (Z3 (k - 1)%nat ltac:(lia)) (Z3 k ltac:(lia)) (fun x => lob_sign k x ltac:(lia)) Da ltac:(lra) W BD8 99 (- c) Dst) as (zz & zo & Q1 & Q2 & Q3 & Q4 & Q5).
    { pose proof pow_start. lra. }
    destruct (lob_step m (y k) (z (k - 1)%nat) (z k) ((-1) ^ (m - k)) B dl Hm SG (Dy k ltac:(lia)) (Hi k ltac:(lia))
      (Z3 (k - 1)%nat ltac:(lia)) (Z3 k ltac:(lia)) (fun x => lob_sign k x ltac:(lia)) ltac:(lra) W BD8 zz Q4) as (R1 & _).
    destruct (lob_step m (y k) (z (k - 1)%nat) (z k) ((-1) ^ (m - k)) B dl Hm SG (Dy k ltac:(lia)) (Hi k ltac:(lia))
      (Z3 (k - 1)%nat ltac:(lia)) (Z3 k ltac:(lia)) (fun x => lob_sign k x ltac:(lia)) ltac:(lra) W BD8 zo Q5) as (_ & R2 & R3 & _).
    exists (zz, Pn m zo). unfold lres. rewrite lob_guess_real by lia. fold c. split; [exact Q1|]. cbn [fst].
    fold tol in Q2, Q3. split; [auto|]. split; [auto|]. rewrite lob_w_real. cbn [snd].
    set (sg := (-1) ^ (m - k)) in *. set (e := zo - y k) in *.
    assert (ee : 0 <= e * e <= dl * dl).
    { split; [nra|]. apply Rabs_le_between in Q5. nra. }
    assert (et : e * e <= tol * tol) by (apply Rabs_le_between in Q3; nra).
    set (b := B * (e * e) / 2).
    assert (Hb : 0 <= b <= 0.395).
    { unfold b. split; [nra|]. assert (B * (e * e) <= B * (dl * dl)) by (apply Rmult_le_compat_l; lra). lra. }
    destruct (weight_ratio (2 / ((INR m + 1) * INR m)) b (sg * Pn m zo) (sg * Pn m (y k))) as (A1 & A2); auto.
    { apply Rdiv_lt_0_compat; nra. }
    assert (S1 : sg * Pn m zo * (sg * Pn m zo) = Pn m zo * Pn m zo) by (transitivity (sg * sg * (Pn m zo * Pn m zo)); [ring|rewrite SG; ring]).
    assert (S2 : sg * Pn m (y k) * (sg * Pn m (y k)) = Pn m (y k) * Pn m (y k)) by (transitivity (sg * sg * (Pn m (y k) * Pn m (y k))); [ring|rewrite SG; ring]).
    rewrite S1 in A1, A2. rewrite S2 in A2. split; auto.
    assert (EW : 2 / ((INR m + 1) * INR m) / (Pn m (y k) * Pn m (y k)) = lob_weight m (y k)).
    { unfold lob_weight. field. assert (Pn m (y k) <> 0) by (intro Q; rewrite Q in R2; lra). repeat split; auto; lra. }
    rewrite EW in A2. eapply Rle_trans; [exact A2|]. apply Rmult_le_compat_r; [lra|].
    pose proof (sin_gam m k GR H0 Hm) as SGm. fold s in SGm.
    assert (Bb : 3.2 * B <= INR m * INR m * L).
    { unfold B. apply Rmult_le_reg_r with (s * s); auto. replace (3.2 * (L / (s * s)) * (s * s)) with (3.2 * L) by (field; lra). nra. }
    assert (BN : 3.2 * B <= (INR m + 1) ^ 4).
    { eapply Rle_trans; [exact Bb|]. unfold L. simpl. 
      replace ((INR m + 1) * ((INR m + 1) * ((INR m + 1) * ((INR m + 1) * 1)))) with ((INR m + 1) * (INR m + 1) * ((INR m + 1) * (INR m + 1))) by ring.
      apply Rmult_le_compat; nra. }
    unfold b. simpl (tol ^ 2). rewrite Rmult_1_r.
    apply Rle_trans with (3.2 * B * (tol * tol)).
    + assert (0 <= B * (e * e)) by nra. assert (B * (e * e) <= B * (tol * tol)) by (apply Rmult_le_compat_l; lra). lra.
    + apply Rmult_le_compat_r; [nra|auto].
Qed.

Lemma lob_results : exists v, forall k, (1 <= k < S m - S m / 2)%nat -> lres k (v k).
Proof.
  pose proof (half_cases (S m)).
  destruct (finite_choice (R * R) (fun k v => (1 <= k)%nat -> lres k v) (0, 0) (S m - S m / 2)%nat) as (v & Hv).
  - intros k Hk. destruct (Nat.eq_dec k 0) as [->|]; [exists (0, 0); lia|].
    destruct (lob_iter k ltac:(lia) ltac:(lia)) as (v & Hv). eauto.
  - exists v. intros k Hk. apply Hv; lia.
Qed.

Variable v : nat -> R * R.
Hypothesis Hv : forall k, (1 <= k < S m - S m / 2)%nat -> lres k (v k).
Let X := @lob_pt RS (S m) v.
Let Wt := @lob_wt RS (S m) v.

Lemma lob_gen : @lob_generate RS (S m) = Ok (tab (S m) X, tab (S m) Wt).
Proof. apply (lob_generate_Ok (S := RS) (S m) v); [lia|]. intros k Hk. apply Hv; auto. Qed.

Lemma X_cases : forall j, (j <= m)%nat ->
  (j = 0%nat /\ X j = -1) \/ (j = m /\ X j = 1) \/ ((2 * j = m)%nat /\ (0 < j)%nat /\ X j = 0) \/
  ((0 < j)%nat /\ (2 * j < m)%nat /\ X j = fst (v j)) \/ ((j < m)%nat /\ (m < 2 * j)%nat /\ X j = - fst (v (m - j)%nat)).
Proof.
  intros j Hj. pose proof (half_cases (S m)) as HC. unfold X, lob_pt. replace (S m - 1)%nat with m by lia.
  destruct (Nat.eqb_spec j m); [right; left; split; [auto|reflexivity]|].
  destruct (Nat.eqb_spec j 0); [left; split; [auto|reflexivity]|].
  destruct (Nat.eqb_spec j (S m / 2)) as [Ej|Ej].
  - destruct (Nat.odd (S m)) eqn:Ho.
    + pose proof (odd_half (S m) Ho). right; right; left. split; [lia|]. split; [lia|reflexivity].
    + pose proof (even_half (S m) Ho). right; right; right; right. rewrite andb_false_l.
      destruct (Nat.ltb_spec j (S m / 2)); [lia|]. split; [lia|]. split; [lia|reflexivity].
  - rewrite andb_false_r. right; right; right. destruct (Nat.ltb_spec j (S m / 2)).
    + left. split; [lia|]. split; [lia|reflexivity].
    + right. split; [lia|]. split; [lia|reflexivity].
Qed.

Lemma X_near : forall j, (j <= m)%nat -> Rabs (X j - y j) <= tol.
Proof.
  intros j Hj. pose proof (half_cases (S m)) as HC. assert (T0 : 0 < tol) by (apply Rinv_0_lt_compat, pow_lt; lra).
  pose proof Hy as (Y0 & Y1 & _). destruct (X_cases j Hj) as [(-> & E)|[(-> & E)|[(H1 & H2 & E)|[(H1 & H2 & E)|(H1 & H2 & E)]]]]; rewrite E.
  - rewrite Y0, Rminus_eq_0, Rabs_R0. lra.
  - rewrite Y1, Rminus_eq_0, Rabs_R0. lra.
  - pose proof (lnodes_sym m y j Hm Hy Hj) as Q. replace (m - j)%nat with j in Q by lia. replace (y j) with 0 by lra.
    rewrite Rminus_eq_0, Rabs_R0. lra.
  - apply (Hv j); lia.
  - destruct (Hv (m - j)%nat ltac:(lia)) as (_ & A & _). rewrite (lnodes_sym m y j Hm Hy Hj) in A.
    rewrite <- Rabs_Ropp. replace (- (- fst (v (m - j)%nat) - y j)) with (fst (v (m - j)%nat) - - y j) by ring. exact A.
Qed.

(** Every computed inner node lies between the same two zeros of P_m as the exact node. *)
Lemma X_between : forall j, (0 < j < m)%nat -> z (j - 1)%nat < X j < z j.
Proof.
  intros j Hj. pose proof (half_cases (S m)) as HC.
  destruct (X_cases j ltac:(lia)) as [(H1 & E)|[(H1 & E)|[(H1 & H2 & E)|[(H1 & H2 & E)|(H1 & H2 & E)]]]]; try lia; rewrite E.
  - pose proof (lnodes_sym m y j Hm Hy ltac:(lia)) as Q. replace (m - j)%nat with j in Q by lia. replace 0 with (y j) by lra. apply Hi. lia.
  - apply (Hv j); lia.
  - destruct (Hv (m - j)%nat ltac:(lia)) as (_ & _ & A & _).
    pose proof (zeros_sym m z j Hz ltac:(lia)) as Q1. pose proof (zeros_sym m z (j - 1)%nat Hz ltac:(lia)) as Q2.
    replace (m - 1 - j)%nat with (m - j - 1)%nat in Q1 by lia. replace (m - 1 - (j - 1))%nat with (m - j)%nat in Q2 by lia. lra.
Qed.

Lemma X_incr : forall i j, (i < j <= m)%nat -> X i < X j.
Proof.
  intros i j Hij. pose proof Hz as (Z1 & Z2 & Z3).
  assert (E0 : X 0%nat = -1).
  { destruct (X_cases 0%nat ltac:(lia)) as [(H1 & E)|[(H1 & E)|[(H1 & H2 & E)|[(H1 & H2 & E)|(H1 & H2 & E)]]]]; try lia; auto. }
  assert (E1 : X m = 1).
  { destruct (X_cases m ltac:(lia)) as [(H1 & E)|[(H1 & E)|[(H1 & H2 & E)|[(H1 & H2 & E)|(H1 & H2 & E)]]]]; try lia; auto. }
  assert (I : forall j, (0 < j < m)%nat -> -1 < X j < 1).
  { intros k Hk. pose proof (X_between k Hk). pose proof (Z1 (k - 1)%nat ltac:(lia)). pose proof (Z1 k ltac:(lia)). lra. }
  destruct (Nat.eq_dec i 0) as [->|].
  - rewrite E0. destruct (Nat.eq_dec j m) as [->|]; [rewrite E1; lra|]. apply I. lia.
  - destruct (Nat.eq_dec j m) as [->|]; [rewrite E1; apply I; lia|].
    pose proof (X_between i ltac:(lia)). pose proof (X_between j ltac:(lia)).
    destruct (Nat.eq_dec i (j - 1)) as [->|]; [lra|]. specialize (Z2 i (j - 1)%nat ltac:(lia)). lra.
Qed.

Lemma lweight_opp : forall x, lob_weight m (- x) = lob_weight m x.
Proof.
  intro x. unfold lob_weight. rewrite Pn_opp.
  replace ((-1) ^ m * Pn m x * ((-1) ^ m * Pn m x)) with (Pn m x * Pn m x); auto.
  transitivity ((-1) ^ m * (-1) ^ m * (Pn m x * Pn m x)); [rewrite pow_m1_sq|]; ring.
Qed.

Lemma W_end : 2 / ((INR m + 1) * INR m) = lob_weight m 1.
Proof. unfold lob_weight. rewrite Pn_1. f_equal. ring. Qed.

Lemma W_cases : forall j, (j <= m)%nat ->
  ((j = 0%nat \/ j = m) /\ Wt j = 2 / ((INR m + 1) * INR m)) \/
  ((0 < j)%nat /\ (2 * j < m)%nat /\ Wt j = @lob_w RS (S m) (v j)) \/
  ((j < m)%nat /\ (m <= 2 * j)%nat /\ Wt j = @lob_w RS (S m) (v (m - j)%nat)).
Proof.
  intros j Hj. pose proof (half_cases (S m)) as HC. unfold Wt, lob_wt. replace (S m - 1)%nat with m by lia.
  assert (E0 : @Scalar.sdiv RS s2 (@smul RS (@sofN RS (S m)) (@ssub RS (@sofN RS (S m)) s1)) = 2 / ((INR m + 1) * INR m)) .
  { transitivity (2 / (IZR (Z.of_nat (S m)) * (IZR (Z.of_nat (S m)) - 1))); [reflexivity|].
    rewrite IZR_INR, S_INR. replace (INR m + 1 - 1) with (INR m) by ring. reflexivity. }
  destruct (Nat.eqb_spec j m); [left; split; [auto|exact E0]|].
  destruct (Nat.eqb_spec j 0); [left; split; [auto|exact E0]|]. cbn [orb].
  right. destruct (Nat.leb_spec (S m / 2) j).
  - right. split; [lia|]. split; [lia|reflexivity].
  - left. split; [lia|]. split; [lia|reflexivity].
Qed.

Lemma W_pos : forall j, (j <= m)%nat -> 0 < Wt j.
Proof.
  intros j Hj. pose proof (half_cases (S m)) as HC. pose proof (INR_pos m Hm).
  destruct (W_cases j Hj) as [(_ & E)|[(H1 & H2 & E)|(H1 & H2 & E)]]; rewrite E.
  - apply Rdiv_lt_0_compat; nra.
  - apply (Hv j); lia.
  - apply (Hv (m - j)%nat); lia.
Qed.

Lemma W_near : forall j, (j <= m)%nat -> Rabs (Wt j - lob_weight m (y j)) <= (INR m + 1) ^ 4 * tol ^ 2 * lob_weight m (y j).
Proof.
  intros j Hj. pose proof (half_cases (S m)) as HC. pose proof (INR_pos m Hm) as M. pose proof Hy as (Y0 & Y1 & _).
  assert (T0 : 0 < tol) by (apply Rinv_0_lt_compat, pow_lt; lra).
  assert (N4 : 0 <= (INR m + 1) ^ 4 * tol ^ 2) by (apply Rmult_le_pos; apply pow_le; lra).
  pose proof (lweight_pos m y j Hm Hy Hj) as LP.
  destruct (W_cases j Hj) as [(H0 & E)|[(H1 & H2 & E)|(H1 & H2 & E)]]; rewrite E.
  - replace (lob_weight m (y j)) with (2 / ((INR m + 1) * INR m)) in *.
    + rewrite Rminus_eq_0, Rabs_R0. apply Rmult_le_pos; lra.
    + rewrite W_end. destruct H0 as [->| ->]; [rewrite Y0; replace (-1) with (- (1)) by ring; rewrite lweight_opp; auto|rewrite Y1; auto].
  - apply (Hv j); lia.
  - destruct (Hv (m - j)%nat ltac:(lia)) as (_ & _ & _ & _ & A). rewrite (lnodes_sym m y j Hm Hy Hj), lweight_opp in A. exact A.
Qed.

Lemma lob_sym : forall i j, (i + j + 1 = S m)%nat -> X j = - X i /\ Wt j = Wt i.
Proof.
  intros i j Hij. pose proof (half_cases (S m)) as HC. split.
  - destruct (X_cases i ltac:(lia)) as [(H1 & E)|[(H1 & E)|[(H1 & H2 & E)|[(H1 & H2 & E)|(H1 & H2 & E)]]]];
      destruct (X_cases j ltac:(lia)) as [(H1' & E')|[(H1' & E')|[(H1' & H2' & E')|[(H1' & H2' & E')|(H1' & H2' & E')]]]];
      try lia; rewrite E, E'; try lra.
    + replace (m - j)%nat with i by lia. auto.
    + replace (m - i)%nat with j by lia. req. ring.
  - destruct (W_cases i ltac:(lia)) as [(H0 & E)|[(H1 & H2 & E)|(H1 & H2 & E)]];
      destruct (W_cases j ltac:(lia)) as [(H0' & E')|[(H1' & H2' & E')|(H1' & H2' & E')]]; try lia; rewrite E, E'; auto.
    + replace (m - j)%nat with i by lia. auto.
    + replace (m - i)%nat with j by lia. auto.
    + replace (m - j)%nat with i by lia. replace (m - i)%nat with j by lia. assert (i = j) by lia. subst. auto.
Qed.
End Res.

Lemma lob_main : forall n, (2 <= n)%nat -> exists q g, @lob_generate RS n = Ok q /\ lobatto_rule n g /\
  good_closed_rule n q /\ symmetric_rule q /\ rule_close tol (INR n ^ 4 * tol ^ 2) q g /\
  nth_error (snd q) 0 = Some (2 / (INR n * (INR n - 1))).
Proof.
  intros [|m] Hn; [lia|]. assert (Hm : (1 <= m)%nat) by lia.
  destruct (zeros_exist m) as (z & Hz). destruct (lnodes_exist m z Hm Hz) as (y & Hy & Hi).
  destruct (lob_results m z y Hm Hz Hy Hi) as (v & Hv).
  exists (tab (S m) (@lob_pt RS (S m) v), tab (S m) (@lob_wt RS (S m) v)), (lideal m y).
  split; [apply (lob_gen m z y); auto|]. split; [apply lideal_rule; auto|].
  split; [|split; [|split]].
  - apply closed_tab; [lia| | | |].
    + destruct (X_cases m Hm v 0%nat ltac:(lia)) as [(H1 & E)|[(H1 & E)|[(H1 & H2 & E)|[(H1 & H2 & E)|(H1 & H2 & E)]]]]; try lia; auto.
    + replace (S m - 1)%nat with m by lia.
      destruct (X_cases m Hm v m ltac:(lia)) as [(H1 & E)|[(H1 & E)|[(H1 & H2 & E)|[(H1 & H2 & E)|(H1 & H2 & E)]]]]; try lia; auto.
    + intros i j Hij. apply (X_incr m z y); auto. lia.
    + intros i H. apply (W_pos m z y); auto. lia.
  - apply symmetric_tab. apply (lob_sym m); auto.
  - rewrite S_INR. apply rule_close_tab.
    + intros i H. apply (X_near m z y); auto. lia.
    + intros i H. apply (W_near m z y); auto. lia.
  - cbn [snd]. rewrite nth_error_tab by lia. f_equal.
    destruct (W_cases m Hm v 0%nat ltac:(lia)) as [(H0 & E)|[(H1 & H2 & E)|(H1 & H2 & E)]]; try lia.
    rewrite E, S_INR. replace (INR m + 1 - 1) with (INR m) by ring. auto.
Qed.

Lemma lob_succeeds : forall n, (2 <= n)%nat -> exists q, @lob_generate RS n = Ok q.
Proof. intros n Hn. destruct (lob_main n Hn) as (q & g & E & _). eauto. Qed.

Lemma lob_good : forall n q, (2 <= n)%nat -> @lob_generate RS n = Ok q ->
  good_closed_rule n q /\ symmetric_rule q /\ nth_error (snd q) 0 = Some (2 / (INR n * (INR n - 1))).
Proof.
  intros n q Hn H. destruct (lob_main n Hn) as (q' & g & E & _ & A & B & _ & C). rewrite H in E. injection E as <-. auto.
Qed.

Lemma lob_close : forall n q g, (2 <= n)%nat -> @lob_generate RS n = Ok q -> lobatto_rule n g ->
  rule_close tol (INR n ^ 4 * tol ^ 2) q g.
Proof.
  intros n q g Hn H Hg. destruct (lob_main n Hn) as (q' & g' & E & G & _ & _ & C & _). rewrite H in E. injection E as <-.
  rewrite (lobatto_rule_unique n g g' Hn Hg G). exact C.
Qed.

Lemma lob_error : forall n q g (f f1 : R -> R) A B, (2 <= n)%nat -> @lob_generate RS n = Ok q -> lobatto_rule n g ->
  (forall t, -1 <= t <= 1 -> is_derive f t (f1 t)) -> (forall t, -1 <= t <= 1 -> Rabs (f t) <= A) ->
  (forall t, -1 <= t <= 1 -> Rabs (f1 t) <= B) ->
  Rabs (apply_rule q f - apply_rule g f) <= (2 * INR n ^ 4 * tol * A + 2 * B) * tol.
Proof.
  intros n q g f f1 A B Hn H Hg Df FA FB. destruct n as [|m]; [lia|]. assert (Hm : (1 <= m)%nat) by lia.
  destruct (zeros_exist m) as (z & Hz). destruct (lnodes_exist m z Hm Hz) as (y & Hy & Hi).
  destruct (lob_results m z y Hm Hz Hy Hi) as (v & Hv).
  rewrite (lobatto_rule_unique (S m) g (lideal m y) Hn Hg (lideal_rule m y Hm Hy)).
  rewrite (lob_gen m z y Hm v Hv) in H. injection H as <-. unfold lideal. rewrite !rule_tab.
  assert (S2 : Rsum (tab (S m) (fun i => lob_weight m (y i))) = 2).
  { pose proof (lob_exact m y (fun _ => 1) Hm Hy) as G.
    rewrite (Rsum_tab_ext (S m) _ (fun i => lob_weight m (y i) * 1)) by (intros; ring).
    assert (C : is_RInt (fun _ : R => 1) (-1) 1 2).
    { evar_last; [apply (is_RInt_const (V := R_NormedModule))|]. unfold scal; simpl; unfold mult; simpl; req; ring. }
    rewrite <- (is_RInt_unique _ _ _ _ C). symmetry. apply is_RInt_unique. apply G.
    apply (ispoly_weaken 1); [apply ispoly_const|lia]. }
  assert (XR : forall x : nat -> R, x 0%nat = -1 -> x m = 1 -> (forall i j, (i < j <= m)%nat -> x i < x j) ->
     forall i, (i < S m)%nat -> -1 <= x i <= 1).
  { intros x X0 X1 XI i H. destruct (Nat.eq_dec i 0) as [->|]; [lra|]. destruct (Nat.eq_dec i m) as [->|]; [lra|].
    rewrite <- X0, <- X1. split; left; apply XI; lia. }
  pose proof (close_error (S m) tol (INR (S m) ^ 4 * tol ^ 2) (@lob_pt RS (S m) v) (@lob_wt RS (S m) v) y
     (fun i => lob_weight m (y i)) f f1 A B) as C.
  eapply Rle_trans; [apply C; auto|].
  - left; apply Rinv_0_lt_compat, pow_lt; lra.
  - apply XR.
    + destruct (X_cases m Hm v 0%nat ltac:(lia)) as [(H1 & E)|[(H1 & E)|[(H1 & H2 & E)|[(H1 & H2 & E)|(H1 & H2 & E)]]]]; try lia; auto.
    + destruct (X_cases m Hm v m ltac:(lia)) as [(H1 & E)|[(H1 & E)|[(H1 & H2 & E)|[(H1 & H2 & E)|(H1 & H2 & E)]]]]; try lia; auto.
    + intros i j Hij. apply (X_incr m z y); auto.
  - apply XR; apply Hy.
  - intros i H. left. apply lweight_pos; auto. lia.
  - intros i H. apply (X_near m z y); auto. lia.
  - intros i H. rewrite S_INR. apply (W_near m z y); auto. lia.
  - rewrite S2. apply Req_le. ring.
Qed.

Lemma lob_poly_error : forall n q p A B, (2 <= n)%nat -> @lob_generate RS n = Ok q -> deg_le p (2 * n - 3) ->
  (forall t, -1 <= t <= 1 -> Rabs (peval p t) <= A) -> (forall t, -1 <= t <= 1 -> Rabs (Derive (peval p) t) <= B) ->
  Rabs (apply_rule q (peval p) - RInt (peval p) (-1) 1) <= (2 * INR n ^ 4 * tol * A + 2 * B) * tol.
Proof.
  intros n q p A B Hn H Hp HA HB. destruct (lobatto_exists n Hn) as (g & Hg).
  assert (E : RInt (peval p) (-1) 1 = apply_rule g (peval p)).
  { apply is_RInt_unique. apply Hg. unfold deg_le in Hp. lia. }
  rewrite E. apply (lob_error n q g (peval p) (Derive (peval p))); auto.
  intros t _. apply Derive_correct. clear. induction p as [|a p IH]; [apply ex_derive_const|]. simpl.
  apply (ex_derive_plus (K := R_AbsRing) (V := R_NormedModule) (fun _ => a) (fun x => x * peval p x)); [apply ex_derive_const|].
  apply (ex_derive_mult (fun x => x) (peval p)); [apply ex_derive_id|apply IH].
Qed.

Lemma lob_no_convergence : forall (S : Scalar) n, (2 <= n)%nat ->
  (exists q, @lob_generate S n = Ok q /\ length (fst q) = n /\ length (snd q) = n /\
     forall idx, (1 <= idx < n - n / 2)%nat -> @lob_newton S n 100 (lob_guess n idx) <> None) \/
  ((exists idx, (1 <= idx < n - n / 2)%nat /\ @lob_newton S n 100 (lob_guess n idx) = None) /\
   @lob_generate S n = Throw ExRuntime).
Proof.
  intros S n Hn. destruct (lob_choice (S := S) n) as [(r & Hr)|(i & Hi & E)].
  - left. eexists. split; [apply lob_generate_Ok; eauto|]. cbn [fst snd]. rewrite !tab_length. repeat split; auto.
    intros i Hi. rewrite Hr; auto. discriminate.
  - right. split; eauto. eapply lob_generate_Throw; eauto.
Qed.

Lemma lob_small : forall (S : Scalar), @lob_generate S 0 = UB /\
  @lob_generate S 1 = Ok ([@s0 S], [Scalar.sdiv s2 (smul (sofN 1) (ssub (sofN 1) s1))]).
Proof. intro S. split; reflexivity. Qed.

Lemma lobatto_three : lobatto_rule 3 ([-1; 0; 1], [1 / 3; 4 / 3; 1 / 3]).
Proof.
  set (y := fun i : nat => match i with O => -1 | 1%nat => 0 | _ => 1 end).
  assert (Hy : lnodes 2 y).
  { split; [reflexivity|]. split; [reflexivity|]. split.
    - intros [|[|[|i]]] [|[|[|j]]] H; try lia; unfold y; lra.
    - intros [|[|i]] H; try lia. simpl. ring. }
  pose proof (lideal_rule 2 y ltac:(lia) Hy) as G.
  replace ([-1; 0; 1], [1 / 3; 4 / 3; 1 / 3]) with (lideal 2 y); auto.
  assert (E0 : lob_weight 2 (-1) = 1 / 3) by (unfold lob_weight; simpl; field).
  assert (E1 : lob_weight 2 0 = 4 / 3) by (unfold lob_weight; simpl; field).
  assert (E2 : lob_weight 2 1 = 1 / 3) by (unfold lob_weight; simpl; field).
  unfold lideal, tab. cbn [map seq]. unfold y. rewrite E0, E1, E2. reflexivity.
Qed.
