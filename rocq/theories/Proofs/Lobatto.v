(** The ideal Gauss-Lobatto rule: nodes, weights, exactness, uniqueness. *)
From Coq Require Import List Bool Arith ZArith Lia Reals Lra Psatz.
From Coquelicot Require Import Coquelicot.
From Verif Require Import Base.Outcome Base.Scalar Base.RScalar Model.Primitive Spec.Sums Spec.RealRules
  Spec.LegendreSpec Proofs.Tab Proofs.SumFacts Proofs.PrimitiveFacts Proofs.ChebReal Proofs.ChebInt
  Proofs.ChebExact Proofs.Legendre Proofs.LegendreZeros Proofs.LegendreAngles Proofs.GLNewton Proofs.GLRule.
Import ListNotations.
Local Open Scope R_scope.

(** Integration of polynomials through cardinal functions. *)
Section Interp.
Variables (N : nat) (z : nat -> R) (K : nat -> R -> R) (I : nat -> R).
Hypothesis Dz : forall i j, (i < j < N)%nat -> z i <> z j.
Hypothesis Kp : forall i, (i < N)%nat -> ispoly N (K i).
Hypothesis K0 : forall i j, (i < N)%nat -> (j < N)%nat -> i <> j -> K i (z j) = 0.
Hypothesis K1 : forall i, (i < N)%nat -> K i (z i) <> 0.
Hypothesis KI : forall i, (i < N)%nat -> is_RInt (K i) (-1) 1 (I i).

Lemma interp_int : forall t, ispoly N t -> is_RInt t (-1) 1 (Rsum (tab N (fun i => I i / K i (z i) * t (z i)))).
Proof.
  intros t Ht.
  assert (T : forall x, t x = Rsum (tab N (fun i => t (z i) / K i (z i) * K i x))).
  { intro x. set (u := fun x => t x + -1 * Rsum (tab N (fun i => t (z i) / K i (z i) * K i x))).
    assert (Z : u x = 0).
    { apply (zero_poly N u z); auto.
      - unfold u. apply ispoly_add; auto. apply ispoly_scal.
        assert (G : forall m, (m <= N)%nat -> ispoly N (fun x => Rsum (tab m (fun i => t (z i) / K i (z i) * K i x)))).
        { induction m as [|m IH]; intro Hm; [exists []; split; [simpl; lia|intro; reflexivity]|].
          apply (ispoly_ext _ (fun x => Rsum (tab m (fun i => t (z i) / K i (z i) * K i x)) +
            t (z m) / K m (z m) * K m x)); [|intro; apply Rsum_tab_S].
          apply ispoly_add; [apply IH; lia|]. apply ispoly_scal, Kp. lia. }
        apply G; auto.
      - intros j Hj. unfold u.
        rewrite (Rsum_tab_ext N _ (fun i => if Nat.eqb i j then t (z j) else 0)).
        + rewrite Rsum_tab_single by auto. ring.
        + intros i Hi. destruct (Nat.eqb_spec i j) as [->|Hij]; [field; apply K1; auto|]. rewrite (K0 i j) by auto. ring. }
    unfold u in Z. lra. }
  assert (G : forall m, (m <= N)%nat -> is_RInt (fun x => Rsum (tab m (fun i => t (z i) / K i (z i) * K i x))) (-1) 1
     (Rsum (tab m (fun i => I i / K i (z i) * t (z i))))).
  { induction m as [|m IH]; intro Hm; [apply zero_int|].
    apply (is_RInt_ext (fun x => 1 * Rsum (tab m (fun i => t (z i) / K i (z i) * K i x)) +
       t (z m) / K m (z m) * K m x)); [intros x _; rewrite Rsum_tab_S; req; ring|].
    rewrite Rsum_tab_S. evar_last; [apply is_RInt_lin; [apply IH; lia|apply KI; lia]|].
    req. unfold Rdiv. ring. }
  apply (is_RInt_ext (fun x => Rsum (tab N (fun i => t (z i) / K i (z i) * K i x)))); [intros x _; symmetry; apply T|].
  apply G; auto.
Qed.
End Interp.

(** Division by a product of linear factors. *)
Lemma prod_poly : forall k z, ispoly (S k) (prod k z).
Proof.
  induction k as [|k IH]; intro z; [apply ispoly_const|].
  apply (ispoly_ext _ (fun t => t * prod k z t + (- z k) * prod k z t)); [|intro; simpl; ring].
  apply ispoly_add; [apply ispoly_x; auto|]. apply (ispoly_weaken (S k)); [apply ispoly_scal; auto|lia].
Qed.

Lemma prod_zero : forall k z i, (i < k)%nat -> prod k z (z i) = 0.
Proof.
  induction k as [|k IH]; intros z i Hi; [lia|]. simpl. destruct (Nat.eq_dec i k) as [->|]; [ring|].
  rewrite IH by lia. ring.
Qed.

Lemma prod_div : forall k j z f, ispoly (k + j) f ->
  exists s r, ispoly j s /\ ispoly k r /\ forall x, f x = prod k z x * s x + r x.
Proof.
  induction k as [|k IH]; intros j z f Hf.
  - exists f, (fun _ => 0). split; auto. split; [exists []; split; auto|]. intro. simpl. ring.
  - replace (S k + j)%nat with (k + S j)%nat in Hf by lia. destruct (IH (S j) z f Hf) as (s & r & (p & Lp & Ep) & Hr & E).
    exists (peval (sdiv (z k) p)), (fun x => peval p (z k) * prod k z x + r x). split; [|split].
    + exists (sdiv (z k) p). rewrite sdiv_len. split; auto. lia.
    + apply ispoly_add; [apply ispoly_scal, prod_poly|]. apply (ispoly_weaken k); auto.
    + intro x. rewrite E, Ep, (sdiv_eval (z k) p x). simpl. ring.
Qed.

(** P_m' and the function whose zeros are the nodes. *)
Definition gg (m : nat) (x : R) : R := x * Pn m x - Pm m x.

Lemma gg_dP : forall m x, INR m * gg m x = - ((1 - x * x) * dP m x).
Proof. intros m x. rewrite leg_A. unfold gg. ring. Qed.

Lemma gg_poly : forall m, (1 <= m)%nat -> ispoly (S (S m)) (gg m).
Proof.
  intros m Hm. unfold gg. apply (ispoly_ext _ (fun x => x * Pn m x + -1 * Pm m x)); [|intro; ring].
  apply ispoly_add; [apply ispoly_x, Pn_poly|]. apply ispoly_scal. destruct m as [|m]; [lia|]. cbn [Pm].
  apply (ispoly_weaken (S m)); [apply Pn_poly|lia].
Qed.

Lemma gg_orth : forall m k s, (1 <= m)%nat -> ispoly k s -> (S k <= m)%nat -> is_RInt (fun x => gg m x * s x) (-1) 1 0.
Proof.
  intros m k s Hm Hs Hk. destruct m as [|m]; [lia|].
  apply (is_RInt_ext (fun x => 1 * (Pn (S m) x * (x * s x)) + -1 * (Pn m x * s x)));
    [intros x _; unfold gg; cbn [Pm]; req; ring|].
  evar_last; [apply is_RInt_lin; [apply (span_orth (S m) (S k)); [|lia]|apply (span_orth m k); [|lia]]|req; ring].
  - apply span_poly, ispoly_x; auto.
  - apply span_poly; auto.
Qed.

Definition lkern (m : nat) (y x : R) : R := kern m y x + INR m * (Pn m x * Pn m y).

Lemma lkern_poly : forall m y, ispoly (S m) (lkern m y).
Proof.
  intros m y. unfold lkern. apply ispoly_add.
  - apply (ispoly_weaken m); [apply poly_span, kern_span|lia].
  - apply (ispoly_ext _ (fun x => INR m * Pn m y * Pn m x)); [|intro; ring]. apply ispoly_scal, Pn_poly.
Qed.

Lemma lkern_off : forall m y x, gg m y = 0 -> gg m x = 0 -> x <> y -> lkern m y x = 0.
Proof.
  intros m y x Ey Ex N. unfold lkern, kern. pose proof (CD m x y) as C.
  unfold gg in Ex, Ey. replace (Pm m y) with (y * Pn m y) in C by lra. replace (Pm m x) with (x * Pn m x) in C by lra.
  apply Rmult_eq_reg_l with (x - y); [|lra]. rewrite Rmult_plus_distr_l, C. ring.
Qed.

Lemma lkern_diag : forall m y, gg m y = 0 -> lkern m y y = INR m * (INR m + 1) * (Pn m y * Pn m y).
Proof.
  intros m y Ey. unfold lkern, kern. rewrite CD_diag. unfold gg in Ey. pose proof (leg_B m y) as B.
  replace (Pm m y) with (y * Pn m y) by lra.
  replace (dP m y * (y * Pn m y) - dPm m y * Pn m y) with ((y * dP m y - dPm m y) * Pn m y) by ring. rewrite B. ring.
Qed.

Lemma lkern_ge_1 : forall m y, (1 <= m)%nat -> 1 <= lkern m y y.
Proof.
  intros m y Hm. unfold lkern. pose proof (kern_ge_1 m y Hm). pose proof (pos_INR m). nra.
Qed.

Lemma lkern_int : forall m y, (1 <= m)%nat -> is_RInt (lkern m y) (-1) 1 2.
Proof.
  intros m y Hm. unfold lkern.
  apply (is_RInt_ext (fun x => 1 * kern m y x + INR m * Pn m y * (Pn m x * Pn 0 x))).
  - intros x _. change (Pn 0 x) with 1. req. ring.
  - evar_last; [apply is_RInt_lin; [apply kern_int; auto|apply Pn_orth; lia]|]. req. ring.
Qed.

Definition lob_weight (m : nat) (y : R) : R := 2 / (INR m * (INR m + 1) * (Pn m y * Pn m y)).

(** The m+1 nodes. *)
Definition lnodes (m : nat) (y : nat -> R) : Prop :=
  y 0%nat = -1 /\ y m = 1 /\ (forall i j, (i < j <= m)%nat -> y i < y j) /\
  (forall i, (0 < i < m)%nat -> dP m (y i) = 0).

Lemma gg_1 : forall m, (1 <= m)%nat -> gg m 1 = 0.
Proof. intros [|m] Hm; [lia|]. unfold gg. cbn [Pm]. rewrite !Pn_1. ring. Qed.
Lemma gg_m1 : forall m, (1 <= m)%nat -> gg m (-1) = 0.
Proof.
  intros [|m] Hm; [lia|]. unfold gg. cbn [Pm]. replace (-1) with (- (1)) by ring.
  rewrite !Pn_opp, !Pn_1. simpl. ring.
Qed.

Lemma lnodes_gg : forall m y i, (1 <= m)%nat -> lnodes m y -> (i <= m)%nat -> gg m (y i) = 0.
Proof.
  intros m y i Hm (A & B & C & D) Hi. destruct (Nat.eq_dec i 0) as [->|]; [rewrite A; apply gg_m1; auto|].
  destruct (Nat.eq_dec i m) as [->|]; [rewrite B; apply gg_1; auto|].
  pose proof (gg_dP m (y i)) as E. rewrite D in E by lia. rewrite Rmult_0_r, Ropp_0 in E.
  apply Rmult_integral in E. destruct E as [E|E]; auto. pose proof (INR_pos m ltac:(lia)). lra.
Qed.

Lemma lnodes_P : forall m y i, (1 <= m)%nat -> lnodes m y -> (i <= m)%nat -> 0 < INR m * (INR m + 1) * (Pn m (y i) * Pn m (y i)).
Proof.
  intros m y i Hm H Hi. rewrite <- lkern_diag by (apply (lnodes_gg m y); auto). pose proof (lkern_ge_1 m (y i) Hm). lra.
Qed.

Theorem lob_exact : forall m y f, (1 <= m)%nat -> lnodes m y -> ispoly (2 * m) f ->
  is_RInt f (-1) 1 (Rsum (tab (S m) (fun i => lob_weight m (y i) * f (y i)))).
Proof.
  intros m y f Hm Hy Hf. pose proof Hy as (A & B & C & D).
  replace (2 * m)%nat with (S m + pred m)%nat in Hf by lia.
  destruct (prod_div (S m) (pred m) y f Hf) as (s & r & Hs & Hr & E).
  destruct (factor (S m) (gg m) y) as (c & Hc).
  { apply gg_poly; auto. }
  { intros i j H. specialize (C i j ltac:(lia)). lra. }
  { intros i Hi. apply (lnodes_gg m y); auto. lia. }
  assert (C0 : c <> 0).
  { intro. subst c. assert (G : forall x, gg m x = 0) by (intro; rewrite Hc; ring).
    (* then P_m' vanishes on (-1,1), so P_m is constant there *)
    destruct (zeros_exist m) as (z & Hz). pose proof (proj1 Hz 0%nat ltac:(lia)) as Z1.
    pose proof (proj2 (proj2 Hz) 0%nat ltac:(lia)) as Z0. pose proof (gg_dP m (z 0%nat)) as Q. rewrite G in Q.
    pose proof (zero_slope m (z 0%nat) Hm Z0) as ZS.
    rewrite Rmult_0_r in Q. replace ((1 - z 0%nat * z 0%nat) * dP m (z 0%nat)) with 0 in ZS by lra. lra. }
  pose proof (interp_int (S m) y (fun i => lkern m (y i)) (fun _ => 2)) as IP.
  assert (IR : is_RInt r (-1) 1 (Rsum (tab (S m) (fun i => 2 / lkern m (y i) (y i) * r (y i))))).
  { apply IP; auto.
    - intros i j H. specialize (C i j ltac:(lia)). lra.
    - intros. apply lkern_poly.
    - intros i j Hi Hj Hij. apply lkern_off; try (apply (lnodes_gg m y); auto; lia).
      destruct (Nat.lt_total i j) as [L|[L|L]]; [|lia|].
      + specialize (C i j ltac:(lia)). lra.
      + specialize (C j i ltac:(lia)). lra.
    - intros i Hi. pose proof (lkern_ge_1 m (y i) Hm). lra.
    - intros. apply lkern_int; auto. }
  assert (IS : is_RInt (fun x => gg m x * s x) (-1) 1 0) by (apply (gg_orth m (pred m)); auto; lia).
  apply (is_RInt_ext (fun x => / c * (gg m x * s x) + 1 * r x)).
  { intros x _. rewrite E, Hc. req. field. auto. }
  evar_last; [apply is_RInt_lin; [exact IS|exact IR]|]. rewrite Rmult_0_r, Rplus_0_l, Rmult_1_l.
  apply Rsum_tab_ext. intros i Hi. rewrite E, prod_zero, lkern_diag by (auto; apply (lnodes_gg m y); auto; lia).
  unfold lob_weight. ring.
Qed.

Lemma dP_poly : forall m, ispoly m (dP m).
Proof.
  induction m as [|m IH]; [exists []; split; auto|].
  apply (ispoly_ext _ (fun x => INR (S m) * Pn m x + x * dP m x)); [|intro; apply dP_S].
  apply ispoly_add; [apply ispoly_scal, Pn_poly|apply ispoly_x; auto].
Qed.

(** Two node sequences agree. *)
Lemma lnodes_all : forall m y x, (1 <= m)%nat -> lnodes m y -> dP m x = 0 -> -1 < x < 1 -> exists i, (0 < i < m)%nat /\ y i = x.
Proof.
  intros m y x Hm Hy E Hx. pose proof Hy as (A & B & C & D).
  destruct m as [|[|m]]; [lia| |].
  { exfalso. simpl in E. lra. }
  set (w := fun i => y (S i)).
  destruct (factor (S m) (dP (S (S m))) w) as (c & Hc).
  { apply dP_poly. }
  { intros i j H. unfold w. specialize (C (S i) (S j) ltac:(lia)). lra. }
  { intros i Hi. apply D. lia. }
  assert (C0 : c <> 0).
  { intro. subst c. destruct (zeros_exist (S (S m))) as (z & Hz).
    pose proof (zero_slope (S (S m)) (z 0%nat) ltac:(lia) (proj2 (proj2 Hz) 0%nat ltac:(lia))) as Q.
    rewrite Hc in Q. lra. }
  rewrite Hc in E. apply Rmult_integral in E. destruct E as [E|E]; [lra|].
  assert (F : forall k, prod k w x = 0 -> exists i, (i < k)%nat /\ w i = x).
  { induction k as [|k IH]; simpl; intro P; [lra|]. apply Rmult_integral in P. destruct P as [P|P].
    - destruct (IH P) as (i & Hi & Ei). exists i. split; auto.
    - exists k. split; [lia|lra]. }
  destruct (F _ E) as (i & Hi & Ei). exists (S i). split; [lia|exact Ei].
Qed.

Lemma lnodes_range : forall m y i, lnodes m y -> (0 < i < m)%nat -> -1 < y i < 1.
Proof. intros m y i (A & B & C & D) Hi. rewrite <- A, <- B. split; apply C; lia. Qed.

Lemma lnodes_unique : forall m y y', (1 <= m)%nat -> lnodes m y -> lnodes m y' -> forall i, (i <= m)%nat -> y i = y' i.
Proof.
  assert (L : forall m y y', (1 <= m)%nat -> lnodes m y -> lnodes m y' -> forall i, (i <= m)%nat ->
    (forall j, (j < i)%nat -> y j = y' j) -> y i <= y' i).
  { intros m y y' Hm H H' i Hi IH. pose proof H as (A & B & C & D). pose proof H' as (A' & B' & C' & D').
    destruct (Nat.eq_dec i 0) as [->|N0]; [lra|]. destruct (Nat.eq_dec i m) as [->|Nm]; [lra|].
    destruct (lnodes_all m y (y' i) Hm H) as (j & Hj & E); [apply D'; lia|apply (lnodes_range m y'); auto; lia|].
    rewrite <- E. destruct (Nat.lt_total j i) as [Lt|[->|Lt]]; [|lra|].
    - exfalso. rewrite IH in E by auto. specialize (C' j i ltac:(lia)). lra.
    - left. apply C. lia. }
  intros m y y' Hm H H' i. induction i as [i IH] using lt_wf_ind. intro Hi. apply Rle_antisym.
  - apply (L m); auto. intros j Hj. apply IH; lia.
  - apply (L m); auto. intros j Hj. symmetry. apply IH; lia.
Qed.

Lemma lnodes_sym : forall m y i, (1 <= m)%nat -> lnodes m y -> (i <= m)%nat -> y (m - i)%nat = - y i.
Proof.
  intros m y i Hm H Hi. pose proof H as (A & B & C & D).
  assert (H' : lnodes m (fun i => - y (m - i)%nat)).
  { split; [|split; [|split]].
    - rewrite Nat.sub_0_r, B. ring.
    - rewrite Nat.sub_diag, A. ring.
    - intros a b Hab. specialize (C (m - b)%nat (m - a)%nat ltac:(lia)). lra.
    - intros j Hj. rewrite dP_opp, D by lia. ring. }
  pose proof (lnodes_unique m y _ Hm H H' i Hi) as E. cbv beta in E. lra.
Qed.

(** Existence: between consecutive zeros of P_m there is a zero of P_m'. *)
Lemma dP_continuity : forall n, continuity (dP n).
Proof.
  intros n x. apply derivable_continuous_pt. exists (Derive (dP n) x). apply is_derive_Reals.
  apply Derive_correct, dP_ex.
Qed.

Lemma dP_ivt : forall n a b s, a < b -> s * dP n a < 0 -> 0 < s * dP n b -> exists y, a < y < b /\ dP n y = 0.
Proof.
  intros n a b s L A B.
  destruct (IVT (fun x => s * dP n x) a b) as (y & Hy & E); auto.
  - apply (continuity_scal (dP n) s), dP_continuity.
  - exists y. assert (dP n y = 0).
    { apply Rmult_integral in E. destruct E as [E|E]; auto. rewrite E in A. lra. }
    split; auto. split.
    + destruct (Req_dec a y) as [->|]; [rewrite H in A; lra|lra].
    + destruct (Req_dec y b) as [->|]; [rewrite H in B; lra|lra].
Qed.

Lemma lnodes_exist : forall m z, (1 <= m)%nat -> zeros m z -> exists y, lnodes m y /\
  forall i, (0 < i < m)%nat -> z (i - 1)%nat < y i < z i.
Proof.
  intros m z Hm Hz. pose proof Hz as (Z1 & Z2 & Z3).
  destruct (finite_choice R (fun i t => (0 < i < m)%nat -> z (i - 1)%nat < t < z i /\ dP m t = 0) 0 m) as (t & Ht).
  { intros i Hi. destruct (Nat.eq_dec i 0) as [->|N0]; [exists 0; lia|].
    pose proof (dP_sign m z (m - 1 - i) Hz ltac:(lia)) as S1.
    pose proof (dP_sign m z (m - i) Hz ltac:(lia)) as S2.
    replace (m - 1 - (m - 1 - i))%nat with i in S1 by lia. replace (m - 1 - (m - i))%nat with (i - 1)%nat in S2 by lia.
    replace (m - i)%nat with (S (m - 1 - i)) in S2 by lia. simpl pow in S2.
    destruct (dP_ivt m (z (i - 1)%nat) (z i) ((-1) ^ (m - 1 - i))) as (y & Hy & E).
    - apply Z2. lia.
    - lra.
    - lra.
    - exists y. auto. }
  set (y := fun i => if Nat.eqb i 0 then -1 else if Nat.eqb i m then 1 else t i).
  assert (Hy : forall i, (0 < i < m)%nat -> z (i - 1)%nat < y i < z i /\ dP m (y i) = 0).
  { intros i Hi. unfold y. destruct (Nat.eqb_spec i 0); [lia|]. destruct (Nat.eqb_spec i m); [lia|]. apply Ht; lia. }
  assert (Y0 : y 0%nat = -1) by reflexivity.
  assert (Ym : y m = 1).
  { unfold y. destruct (Nat.eqb_spec m 0); [lia|]. rewrite Nat.eqb_refl. reflexivity. }
  exists y. split; [|intros i Hi; apply Hy; auto].
  split; [auto|split; [auto|split]].
  - intros i j Hij. destruct (Nat.eq_dec i 0) as [->|N0]; destruct (Nat.eq_dec j m) as [->|Nm].
    + rewrite Y0, Ym. lra.
    + rewrite Y0. destruct (Hy j ltac:(lia)) as ((P & _) & _). specialize (Z1 (j - 1)%nat ltac:(lia)). lra.
    + rewrite Ym. destruct (Hy i ltac:(lia)) as ((_ & P) & _). specialize (Z1 i ltac:(lia)). lra.
    + destruct (Hy i ltac:(lia)) as ((_ & P) & _). destruct (Hy j ltac:(lia)) as ((Q & _) & _).
      destruct (Nat.eq_dec i (j - 1)) as [->|Ne]; [lra|]. specialize (Z2 i (j - 1)%nat ltac:(lia)). lra.
  - intros i Hi. apply Hy; auto.
Qed.
