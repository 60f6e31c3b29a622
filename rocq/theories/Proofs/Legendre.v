(** Legendre polynomials over the reals: recurrences, differential equation, orthogonality,
    Christoffel-Darboux formulas, expansion of polynomials. *)
From Coq Require Import List Bool Arith ZArith Lia Reals Lra Psatz.
From Coquelicot Require Import Coquelicot.
From Verif Require Import Spec.Sums Spec.RealRules Proofs.Tab Proofs.SumFacts Proofs.ChebReal Proofs.ChebInt.
Import ListNotations.
Local Open Scope R_scope.

Ltac req := match goal with |- @eq _ ?a ?b => change (@eq R a b) end.

Fixpoint Pn (n : nat) (x : R) : R :=
  match n with
  | O => 1
  | S m => match m with
           | O => x
           | S k => ((2 * INR m + 1) * x * Pn m x - INR m * Pn k x) / INR (S m)
           end
  end.

Fixpoint dP (n : nat) (x : R) : R :=
  match n with O => 0 | S m => INR (S m) * Pn m x + x * dP m x end.

(** P_{n-1} and P_{n-1}', 0 for n = 0. *)
Definition Pm (n : nat) (x : R) : R := match n with O => 0 | S m => Pn m x end.
Definition dPm (n : nat) (x : R) : R := match n with O => 0 | S m => dP m x end.

Lemma INR_S_pos : forall n, 0 < INR (S n).
Proof. intro n. apply lt_0_INR. lia. Qed.
Lemma INR_S_nz : forall n, INR (S n) <> 0.
Proof. intro n. pose proof (INR_S_pos n). lra. Qed.

Lemma Pn_rec : forall n x, INR (S n) * Pn (S n) x = (2 * INR n + 1) * x * Pn n x - INR n * Pm n x.
Proof.
  intros [|m] x; [simpl; ring|]. cbn [Pm].
  change (Pn (S (S m)) x) with (((2 * INR (S m) + 1) * x * Pn (S m) x - INR (S m) * Pn m x) / INR (S (S m))).
  field. apply INR_S_nz.
Qed.

Lemma dP_S : forall n x, dP (S n) x = INR (S n) * Pn n x + x * dP n x.
Proof. reflexivity. Qed.

Lemma leg_AB : forall n x,
  (1 - x * x) * dP n x = INR n * (Pm n x - x * Pn n x) /\ x * dP n x - dPm n x = INR n * Pn n x.
Proof.
  induction n as [|n IH]; intro x; [simpl; split; ring|]. destruct (IH x) as (A & B).
  pose proof (Pn_rec n x) as Rc. rewrite S_INR in *. cbn [Pm dPm].
  assert (B' : x * dP (S n) x - dP n x = (INR n + 1) * Pn (S n) x).
  { rewrite dP_S, S_INR. rewrite Rc. nra. }
  split; [|exact B'].
  pose proof (dP_S n x) as D. rewrite S_INR in D.
  replace ((1 - x * x) * dP (S n) x) with (dP (S n) x - x * (x * dP (S n) x)) by ring.
  replace (x * dP (S n) x) with (dP n x + (INR n + 1) * Pn (S n) x) by lra. rewrite D. ring.
Qed.

Lemma leg_A : forall n x, (1 - x * x) * dP n x = INR n * (Pm n x - x * Pn n x).
Proof. intros. apply leg_AB. Qed.
Lemma leg_B : forall n x, x * dP n x - dPm n x = INR n * Pn n x.
Proof. intros. apply leg_AB. Qed.

Lemma Pn_derive : forall n x, is_derive (Pn n) x (dP n x).
Proof.
  intros n x. cut (is_derive (Pn n) x (dP n x) /\ is_derive (Pn (S n)) x (dP (S n) x)); [tauto|].
  induction n as [|n (IH1 & IH2)].
  - split.
    + apply (is_derive_const (K := R_AbsRing) (V := R_NormedModule)).
    + replace (dP 1 x) with (1 : R) by (req; simpl; ring). apply (is_derive_id (K := R_AbsRing)).
  - split; auto.
    apply (is_derive_ext (fun x => / INR (S (S n)) * ((2 * INR (S n) + 1) * x * Pn (S n) x - INR (S n) * Pn n x))).
    { intro t. req. change (Pn (S (S n)) t) with (((2 * INR (S n) + 1) * t * Pn (S n) t - INR (S n) * Pn n t) / INR (S (S n))).
      unfold Rdiv. ring. }
    evar_last.
    { apply (is_derive_scal (fun x => (2 * INR (S n) + 1) * x * Pn (S n) x - INR (S n) * Pn n x)).
      apply (is_derive_minus (K := R_AbsRing) (V := R_NormedModule) (fun x => (2 * INR (S n) + 1) * x * Pn (S n) x)).
      - apply (is_derive_mult (K := R_AbsRing) (fun x => (2 * INR (S n) + 1) * x) (Pn (S n))).
        + apply (is_derive_scal (fun x => x)). apply (is_derive_id (K := R_AbsRing)).
        + exact IH2.
        + intros; apply Rmult_comm.
      - apply is_derive_scal. exact IH1. }
    unfold minus, plus, opp, mult; simpl (AbelianGroup.sort _). cbn -[INR Pn dP].
    pose proof (leg_B (S n) x) as B. cbn [dPm] in B. rewrite (dP_S (S n)).
    apply Rmult_eq_reg_l with (INR (S (S n))); [|apply INR_S_nz].
    rewrite <- Rmult_assoc, Rinv_r, Rmult_1_l by apply INR_S_nz.
    rewrite (S_INR (S n)). change (one : R) with 1. nra.
Qed.

Lemma Pm_derive : forall n x, is_derive (Pm n) x (dPm n x).
Proof. intros [|n] x; [apply (is_derive_const (K := R_AbsRing) (V := R_NormedModule))|apply Pn_derive]. Qed.

Lemma Pn_cont : forall n x, continuous (Pn n) x.
Proof. intros. apply (ex_derive_continuous (K := R_AbsRing) (V := R_NormedModule)). exists (dP n x). apply Pn_derive. Qed.

Lemma dP_ex : forall n x, ex_derive (dP n) x.
Proof.
  induction n as [|n IH]; intro x; [apply ex_derive_const|].
  apply (ex_derive_plus (K := R_AbsRing) (V := R_NormedModule) (fun x => INR (S n) * Pn n x) (fun x => x * dP n x)).
  - apply (ex_derive_scal (Pn n)). exists (dP n x). apply Pn_derive.
  - apply (ex_derive_mult (fun x => x) (dP n)); auto. apply ex_derive_id.
Qed.

Lemma dP_cont : forall n x, continuous (dP n) x.
Proof. intros. apply (ex_derive_continuous (K := R_AbsRing) (V := R_NormedModule)). apply dP_ex. Qed.

(** Legendre's equation: ((1 - x^2) P_n')' = - n (n+1) P_n. *)
Lemma leg_ode : forall n x, is_derive (fun x => (1 - x * x) * dP n x) x (- (INR n * (INR n + 1)) * Pn n x).
Proof.
  intros n x. apply (is_derive_ext (fun x => INR n * (Pm n x - x * Pn n x))); [intro; symmetry; apply leg_A|].
  evar_last.
  { apply is_derive_scal. apply (is_derive_minus (K := R_AbsRing) (V := R_NormedModule) (Pm n)); [apply Pm_derive|].
    apply (is_derive_mult (K := R_AbsRing) (fun x => x) (Pn n)); [apply (is_derive_id (K := R_AbsRing))|apply Pn_derive|].
    intros; apply Rmult_comm. }
  unfold minus, plus, opp, mult; cbn -[INR Pn dP Pm dPm]. change (one : R) with 1.
  pose proof (leg_B n x). nra.
Qed.

Lemma leg_ode2 : forall n x, (1 - x * x) * Derive (dP n) x = 2 * x * dP n x - INR n * (INR n + 1) * Pn n x.
Proof.
  intros n x. pose proof (leg_ode n x) as H.
  assert (K : is_derive (fun x => (1 - x * x) * dP n x) x (- (2 * x) * dP n x + (1 - x * x) * Derive (dP n) x)).
  { evar_last.
    - apply (is_derive_mult (K := R_AbsRing) (fun x => 1 - x * x) (dP n)).
      + auto_derive; auto.
      + apply Derive_correct, dP_ex.
      + intros; apply Rmult_comm.
    - unfold plus, mult; cbn -[INR Pn dP]. ring. }
  pose proof (is_derive_unique _ _ _ H) as E1. pose proof (is_derive_unique _ _ _ K) as E2. rewrite E1 in E2. lra.
Qed.

Lemma Pn_1 : forall n, Pn n 1 = 1.
Proof.
  intro n. cut (Pn n 1 = 1 /\ Pn (S n) 1 = 1); [tauto|]. induction n as [|n (A & B)]; [simpl; auto|]. split; auto.
  pose proof (Pn_rec (S n) 1) as E. cbn [Pm] in E. rewrite A, B in E.
  apply Rmult_eq_reg_l with (INR (S (S n))); [|apply INR_S_nz]. rewrite E. rewrite (S_INR (S n)). ring.
Qed.

Lemma Pn_opp : forall n x, Pn n (- x) = (-1) ^ n * Pn n x.
Proof.
  intros n x. cut (Pn n (- x) = (-1) ^ n * Pn n x /\ Pn (S n) (- x) = (-1) ^ S n * Pn (S n) x); [tauto|].
  induction n as [|n (A & B)]; [simpl; split; ring|]. split; auto.
  pose proof (Pn_rec (S n) x) as E. pose proof (Pn_rec (S n) (- x)) as F. cbn [Pm] in E, F. rewrite A, B in F.
  apply Rmult_eq_reg_l with (INR (S (S n))); [|apply INR_S_nz]. rewrite F.
  replace (INR (S (S n)) * ((-1) ^ S (S n) * Pn (S (S n)) x)) with ((-1) ^ S (S n) * (INR (S (S n)) * Pn (S (S n)) x)) by ring.
  rewrite E. simpl pow. ring.
Qed.

Lemma dP_opp : forall n x, dP n (- x) = - ((-1) ^ n * dP n x).
Proof.
  induction n as [|n IH]; intro x; [simpl; ring|]. rewrite !dP_S, IH, Pn_opp. simpl pow. ring.
Qed.

(** |P_n| <= 1 on [-1,1]. *)
Lemma energy_alg : forall x d p e c : R, (1 - x * x) * e = 2 * x * d - c * p ->
  (d * p + p * d) * c + p * p * 0 + (- c * p * d + (1 - x * x) * d * e) = 2 * x * (d * d).
Proof.
  intros x d p e c H. replace ((1 - x * x) * d * e) with (d * ((1 - x * x) * e)) by ring. rewrite H. ring.
Qed.

Lemma Pn_energy : forall n x, is_derive (fun x => Pn n x * Pn n x * (INR n * (INR n + 1)) + (1 - x * x) * dP n x * dP n x) x
  (2 * x * (dP n x * dP n x)).
Proof.
  intros n x. evar_last.
  - apply (is_derive_plus (K := R_AbsRing) (V := R_NormedModule)
      (fun x => Pn n x * Pn n x * (INR n * (INR n + 1))) (fun x => (1 - x * x) * dP n x * dP n x)).
    + apply (is_derive_mult (K := R_AbsRing) (fun x => Pn n x * Pn n x) (fun _ => INR n * (INR n + 1))).
      * apply (is_derive_mult (K := R_AbsRing) (Pn n) (Pn n)); [apply Pn_derive|apply Pn_derive|intros; apply Rmult_comm].
      * apply (is_derive_const (K := R_AbsRing) (V := R_NormedModule)).
      * intros; apply Rmult_comm.
    + apply (is_derive_mult (K := R_AbsRing) (fun x => (1 - x * x) * dP n x) (dP n)).
      * apply leg_ode.
      * apply Derive_correct, dP_ex.
      * intros; apply Rmult_comm.
  - unfold plus, mult, zero; cbn -[INR Pn dP]. pose proof (leg_ode2 n x) as E. req.
    apply energy_alg. exact E.
Qed.

Lemma energy_mono : forall n x y, 0 <= x -> x <= y ->
  Pn n x * Pn n x * (INR n * (INR n + 1)) + (1 - x * x) * dP n x * dP n x <=
  Pn n y * Pn n y * (INR n * (INR n + 1)) + (1 - y * y) * dP n y * dP n y.
Proof.
  intros n x y H0 [L| ->]; [|lra].
  set (f := fun x => Pn n x * Pn n x * (INR n * (INR n + 1)) + (1 - x * x) * dP n x * dP n x).
  destruct (MVT_cor2 f (fun x => 2 * x * (dP n x * dP n x)) x y L) as (c & E & Hc).
  { intros c Hc. apply is_derive_Reals. apply Pn_energy. }
  assert (0 <= dP n c * dP n c) by apply Rle_0_sqr.
  assert (0 <= f y - f x) by (rewrite E; apply Rmult_le_pos; [|lra]; apply Rmult_le_pos; lra).
  unfold f in *. lra.
Qed.

Lemma Pn_bound : forall n x, -1 <= x <= 1 -> Rabs (Pn n x) <= 1.
Proof.
  assert (K : forall n x, 0 <= x <= 1 -> Rabs (Pn n x) <= 1).
  { intros [|n] x Hx; [simpl; rewrite Rabs_R1; lra|].
    pose proof (energy_mono (S n) x 1 (proj1 Hx) (proj2 Hx)) as M. rewrite Pn_1 in M.
    assert (0 <= (1 - x * x) * dP (S n) x * dP (S n) x).
    { rewrite Rmult_assoc. apply Rmult_le_pos; [nra|apply Rle_0_sqr]. }
    pose proof (INR_S_pos n). set (c := INR (S n) * (INR (S n) + 1)) in *. assert (0 < c) by (unfold c; nra).
    assert (Pn (S n) x * Pn (S n) x <= 1) by nra.
    apply Rabs_le. split; nra. }
  intros n x Hx. destruct (Rle_lt_dec 0 x); [apply K; lra|].
  replace x with (- (- x)) by ring. rewrite Pn_opp, Rabs_mult, <- RPow_abs.
  replace (Rabs (-1)) with 1 by (rewrite Rabs_left; lra). rewrite pow1, Rmult_1_l.
  apply K. lra.
Qed.

(** Orthogonality. *)
Lemma Pn_orth : forall n m, n <> m -> is_RInt (fun x => Pn n x * Pn m x) (-1) 1 0.
Proof.
  intros n m Hnm.
  set (c := INR m * (INR m + 1) - INR n * (INR n + 1)).
  assert (Hc : c <> 0).
  { unfold c. pose proof (pos_INR n). pose proof (pos_INR m).
    destruct (Nat.lt_total n m) as [L|[L|L]]; [|lia|]; apply lt_INR in L; nra. }
  set (W := fun x => (1 - x * x) * dP n x * Pn m x - (1 - x * x) * dP m x * Pn n x).
  assert (D : forall x, is_derive W x (c * (Pn n x * Pn m x))).
  { intro x. unfold W. evar_last.
    - apply (is_derive_minus (K := R_AbsRing) (V := R_NormedModule) (fun x => (1 - x * x) * dP n x * Pn m x)).
      + apply (is_derive_mult (K := R_AbsRing) (fun x => (1 - x * x) * dP n x) (Pn m));
          [apply leg_ode|apply Pn_derive|intros; apply Rmult_comm].
      + apply (is_derive_mult (K := R_AbsRing) (fun x => (1 - x * x) * dP m x) (Pn n));
          [apply leg_ode|apply Pn_derive|intros; apply Rmult_comm].
    - unfold minus, plus, opp, mult; cbn -[INR Pn dP]. unfold c. ring. }
  assert (I : is_RInt (fun x => c * (Pn n x * Pn m x)) (-1) 1 (W 1 - W (-1))).
  { apply (is_RInt_derive (V := R_CompleteNormedModule) W); [intros; apply D|].
    intros x _. apply (continuous_scal_r (K := R_AbsRing) (V := R_NormedModule) c (fun x => Pn n x * Pn m x)).
    apply (continuous_mult (K := R_AbsRing)); apply Pn_cont. }
  apply (is_RInt_scal (V := R_NormedModule) _ _ _ (/ c)) in I.
  eapply is_RInt_ext in I; [|intros x _; unfold scal; simpl; unfold mult; simpl; rewrite <- Rmult_assoc, Rinv_l, Rmult_1_l by auto; reflexivity].
  replace 0 with (scal (/ c) (W 1 - W (-1))); auto.
  unfold W, scal; simpl; unfold mult; simpl. ring.
Qed.

Lemma is_RInt_lin : forall (f g : R -> R) c d a b I J, is_RInt f a b I -> is_RInt g a b J ->
  is_RInt (fun x => c * f x + d * g x) a b (c * I + d * J).
Proof.
  intros f g c d a b I J Hf Hg.
  apply (is_RInt_plus (V := R_NormedModule) (fun x => c * f x) (fun x => d * g x)).
  - apply (is_RInt_scal (V := R_NormedModule) f a b c I Hf).
  - apply (is_RInt_scal (V := R_NormedModule) g a b d J Hg).
Qed.

Lemma zero_int : forall a b, is_RInt (fun _ => 0) a b 0.
Proof.
  intros a b. evar_last; [apply (is_RInt_const (V := R_NormedModule))|].
  unfold scal; simpl; unfold mult; simpl; req; ring.
Qed.

Lemma Pn_mult_x : forall n x, (2 * INR n + 1) * (x * Pn n x) = INR (S n) * Pn (S n) x + INR n * Pm n x.
Proof. intros n x. rewrite Pn_rec. ring. Qed.

Lemma Pn_norm : forall n, is_RInt (fun x => Pn n x * Pn n x) (-1) 1 (2 / (2 * INR n + 1)).
Proof.
  induction n as [|n IH].
  - replace (2 / (2 * INR 0 + 1)) with (1 - -1) by (simpl; field).
    apply (is_RInt_ext (fun _ => 1)); [intros; req; simpl; ring|].
    replace (1 - -1) with (scal (1 - -1) (1 : R)) by (unfold scal; simpl; unfold mult; simpl; ring).
    apply (is_RInt_const (V := R_NormedModule)).
  - (* x P_{n+1} P_n two ways *)
    assert (A : is_RInt (fun x => x * Pn (S n) x * Pn n x) (-1) 1
       (/ (2 * INR (S n) + 1) * (INR (S (S n)) * 0 + INR (S n) * (2 / (2 * INR n + 1))))).
    { apply (is_RInt_ext (fun x => / (2 * INR (S n) + 1) * (INR (S (S n)) * (Pn (S (S n)) x * Pn n x) + INR (S n) * (Pn n x * Pn n x)))).
      - intros x _. pose proof (Pn_mult_x (S n) x) as E. cbn [Pm] in E.
        pose proof (INR_S_pos n).
        replace (INR (S (S n)) * (Pn (S (S n)) x * Pn n x) + INR (S n) * (Pn n x * Pn n x)) with
          ((2 * INR (S n) + 1) * (x * Pn (S n) x) * Pn n x) by (rewrite E; ring). req. field. lra.
      - apply (is_RInt_scal (V := R_NormedModule)). apply is_RInt_lin; auto. apply Pn_orth. lia. }
    assert (E : forall x, Pn (S n) x * Pn (S n) x = / INR (S n) * ((2 * INR n + 1) * (x * Pn (S n) x * Pn n x) + - INR n * (Pm n x * Pn (S n) x))).
    { intro x. pose proof (Pn_rec n x) as Rc. pose proof (INR_S_pos n).
      apply Rmult_eq_reg_l with (INR (S n)); [|lra]. rewrite <- (Rmult_assoc _ (/ _)), Rinv_r, Rmult_1_l by lra.
      rewrite <- Rmult_assoc, Rc. ring. }
    apply (is_RInt_ext (fun x => / INR (S n) * ((2 * INR n + 1) * (x * Pn (S n) x * Pn n x) + - INR n * (Pm n x * Pn (S n) x)))).
    { intros; symmetry; apply E. }
    assert (B : is_RInt (fun x => Pm n x * Pn (S n) x) (-1) 1 0).
    { destruct n as [|k]; [|apply Pn_orth; lia].
      apply (is_RInt_ext (fun _ => 0)); [intros; req; simpl; ring|].
      apply zero_int. }
    replace (2 / (2 * INR (S n) + 1)) with (/ INR (S n) * ((2 * INR n + 1) *
      (/ (2 * INR (S n) + 1) * (INR (S (S n)) * 0 + INR (S n) * (2 / (2 * INR n + 1)))) + - INR n * 0)).
    { apply (is_RInt_scal (V := R_NormedModule)). apply is_RInt_lin; auto. }
    pose proof (pos_INR n). rewrite S_INR. field. lra.
Qed.

(** Functions that are polynomials with at most d coefficients. *)
Definition ispoly (d : nat) (f : R -> R) : Prop := exists p, (length p <= d)%nat /\ forall x, f x = peval p x.
(** Combinations of P_0 .. P_{n-1}. *)
Definition span (n : nat) (f : R -> R) : Prop := exists c : nat -> R, forall x, f x = Rsum (tab n (fun j => c j * Pn j x)).

Fixpoint padd (p q : list R) : list R :=
  match p, q with [], _ => q | _, [] => p | a :: p', b :: q' => (a + b) :: padd p' q' end.
Lemma padd_len : forall p q, length (padd p q) = Nat.max (length p) (length q).
Proof. induction p as [|a p IH]; intros [|b q]; simpl; auto. Qed.
Lemma peval_padd : forall p q x, peval (padd p q) x = peval p x + peval q x.
Proof. induction p as [|a p IH]; intros [|b q] x; simpl; try ring. rewrite IH. ring. Qed.
Lemma peval_map : forall c p x, peval (map (Rmult c) p) x = c * peval p x.
Proof. induction p as [|a p IH]; intros x; simpl; [ring|]. rewrite IH. ring. Qed.

Lemma ispoly_ext : forall d f g, ispoly d f -> (forall x, g x = f x) -> ispoly d g.
Proof. intros d f g (p & A & B) E. exists p. split; auto. intro. rewrite E. auto. Qed.
Lemma ispoly_weaken : forall d e f, ispoly d f -> (d <= e)%nat -> ispoly e f.
Proof. intros d e f (p & A & B) L. exists p. split; auto. lia. Qed.
Lemma ispoly_add : forall d f g, ispoly d f -> ispoly d g -> ispoly d (fun x => f x + g x).
Proof.
  intros d f g (p & A & B) (q & C & D). exists (padd p q). rewrite padd_len. split; [lia|].
  intro. rewrite peval_padd, B, D. auto.
Qed.
Lemma ispoly_scal : forall d c f, ispoly d f -> ispoly d (fun x => c * f x).
Proof. intros d c f (p & A & B). exists (map (Rmult c) p). rewrite map_length. split; auto. intro. rewrite peval_map, B. auto. Qed.
Lemma ispoly_x : forall d f, ispoly d f -> ispoly (S d) (fun x => x * f x).
Proof. intros d f (p & A & B). exists (0 :: p). simpl. split; [lia|]. intro. rewrite B. ring. Qed.
Lemma ispoly_const : forall c, ispoly 1 (fun _ => c).
Proof. intro c. exists [c]. split; auto. intro; simpl; ring. Qed.
Lemma ispoly_peval : forall p, ispoly (length p) (peval p).
Proof. intro p. exists p. auto. Qed.
Lemma ispoly_cont : forall d f x, ispoly d f -> continuous f x.
Proof.
  intros d f x (p & _ & B). apply (continuous_ext (peval p)); [intro; auto|]. apply continuous_peval.
Qed.

Lemma Pn_poly : forall n, ispoly (S n) (Pn n).
Proof.
  intro n. cut (ispoly (S n) (Pn n) /\ ispoly (S (S n)) (Pn (S n))); [tauto|].
  induction n as [|n (A & B)].
  - split; [apply ispoly_const|]. exists [0; 1]. split; auto. intro x. simpl. ring.
  - split; auto. apply (ispoly_ext _ (fun x => (2 * INR (S n) + 1) / INR (S (S n)) * (x * Pn (S n) x) + - INR (S n) / INR (S (S n)) * Pn n x)).
    + apply ispoly_add; apply ispoly_scal.
      * apply ispoly_x; auto.
      * eapply ispoly_weaken; eauto.
    + intro x. pose proof (Pn_rec (S n) x) as E. cbn [Pm] in E.
      apply Rmult_eq_reg_l with (INR (S (S n))); [|apply INR_S_nz]. rewrite E. field. apply INR_S_nz.
Qed.

Lemma span_ext : forall n f g, span n f -> (forall x, g x = f x) -> span n g.
Proof. intros n f g (c & H) E. exists c. intro. rewrite E. auto. Qed.
Lemma span_0 : forall n, span n (fun _ => 0).
Proof. intro n. exists (fun _ => 0). intro x. rewrite Rsum_tab_mult_l. ring. Qed.
Lemma span_add : forall n f g, span n f -> span n g -> span n (fun x => f x + g x).
Proof.
  intros n f g (c & H) (d & K). exists (fun j => c j + d j). intro x. rewrite H, K, <- Rsum_tab_plus.
  apply Rsum_tab_ext. intros. ring.
Qed.
Lemma span_scal : forall n a f, span n f -> span n (fun x => a * f x).
Proof.
  intros n a f (c & H). exists (fun j => a * c j). intro x. rewrite H, <- Rsum_tab_mult_l.
  apply Rsum_tab_ext. intros. ring.
Qed.
Lemma span_S : forall n f, span (S n) f -> exists c g, span n g /\ forall x, f x = c * Pn n x + g x.
Proof.
  intros n f (c & H). exists (c n), (fun x => Rsum (tab n (fun j => c j * Pn j x))). split.
  - exists c. auto.
  - intro x. rewrite H, Rsum_tab_S. ring.
Qed.
Lemma span_up : forall n f, span n f -> span (S n) f.
Proof.
  intros n f (c & H). exists (fun j => if Nat.ltb j n then c j else 0). intro x. rewrite H, Rsum_tab_S.
  rewrite Nat.ltb_irrefl, Rmult_0_l, Rplus_0_r. apply Rsum_tab_ext. intros i Hi.
  apply Nat.ltb_lt in Hi. rewrite Hi. auto.
Qed.
Lemma span_weaken : forall n m f, span n f -> (n <= m)%nat -> span m f.
Proof. intros n m f H L. induction L; auto. apply span_up. auto. Qed.
Lemma span_P : forall n k, (k < n)%nat -> span n (Pn k).
Proof.
  intros n k H. apply (span_weaken (S k)); [|lia]. exists (fun j => if Nat.eqb j k then 1 else 0). intro x.
  rewrite Rsum_tab_S, Nat.eqb_refl. rewrite (Rsum_tab_ext k _ (fun _ => 0)).
  - rewrite Rsum_tab_const. ring.
  - intros i Hi. destruct (Nat.eqb_spec i k); [lia|ring].
Qed.
Lemma span_x : forall n f, span n f -> span (S n) (fun x => x * f x).
Proof.
  induction n as [|n IH]; intros f H.
  - apply (span_ext _ (fun _ => 0)); [apply span_0|]. destruct H as (c & H). intro x. rewrite H. unfold tab, Rsum. simpl. ring.
  - destruct (span_S n f H) as (c & g & Hg & E).
    apply (span_ext _ (fun x => c * (/ (2 * INR n + 1) * (INR (S n) * Pn (S n) x + INR n * Pm n x)) + x * g x)).
    + apply span_add; [|apply span_up, IH; auto]. apply span_scal, span_scal. apply span_add; apply span_scal.
      * apply span_P. lia.
      * destruct n; [apply span_0|apply span_P; lia].
    + intro x. rewrite E, <- Pn_mult_x. pose proof (pos_INR n). field. lra.
Qed.
Lemma span_peval : forall p, span (length p) (peval p).
Proof.
  induction p as [|a p IH]; [apply span_0|]. simpl.
  apply (span_add _ (fun _ => a) (fun x => x * peval p x)).
  - apply (span_ext _ (fun x => a * Pn 0 x)); [|intro; simpl; ring]. apply span_scal, span_P. lia.
  - apply span_x; auto.
Qed.
Lemma span_poly : forall n f, ispoly n f -> span n f.
Proof. intros n f (p & A & B). apply (span_ext _ (peval p)); auto. apply (span_weaken (length p)); auto. apply span_peval. Qed.

Lemma poly_span : forall n f, span n f -> ispoly n f.
Proof.
  induction n as [|n IH]; intros f H.
  - exists []. split; auto. destruct H as (c & H). intro x. rewrite H. unfold tab, Rsum. simpl. ring.
  - destruct (span_S n f H) as (c & g & Hg & E).
    apply (ispoly_ext _ (fun x => c * Pn n x + g x)); auto.
    apply ispoly_add; [apply ispoly_scal, Pn_poly|]. eapply ispoly_weaken; [apply IH; auto|lia].
Qed.

(** P_n is orthogonal to all polynomials of lower degree. *)
Lemma span_orth : forall n k f, span k f -> (k <= n)%nat -> is_RInt (fun x => Pn n x * f x) (-1) 1 0.
Proof.
  intros n. induction k as [|k IH]; intros f H L.
  - apply (is_RInt_ext (fun _ => 0)).
    + destruct H as (c & H). intros x _. rewrite H. unfold tab, Rsum. simpl. req. ring.
    + apply zero_int.
  - destruct (span_S k f H) as (c & g & Hg & E).
    apply (is_RInt_ext (fun x => c * (Pn n x * Pn k x) + 1 * (Pn n x * g x))).
    + intros x _. rewrite E. req. ring.
    + replace 0 with (c * 0 + 1 * 0) by ring. apply is_RInt_lin; [apply Pn_orth; lia|apply IH; auto; lia].
Qed.

(** Christoffel-Darboux. *)
Lemma CD : forall n x y,
  (x - y) * Rsum (tab n (fun k => (2 * INR k + 1) * (Pn k x * Pn k y))) =
  INR n * (Pn n x * Pm n y - Pm n x * Pn n y).
Proof.
  induction n as [|n IH]; intros x y; [unfold tab, Rsum; simpl; ring|].
  rewrite Rsum_tab_S, Rmult_plus_distr_l, IH. cbn [Pm].
  replace (INR (S n) * (Pn (S n) x * Pn n y - Pn n x * Pn (S n) y)) with
    ((INR (S n) * Pn (S n) x) * Pn n y - Pn n x * (INR (S n) * Pn (S n) y)) by ring.
  rewrite !Pn_rec. ring.
Qed.

Lemma CD_diag : forall n x,
  Rsum (tab n (fun k => (2 * INR k + 1) * (Pn k x * Pn k x))) = INR n * (dP n x * Pm n x - dPm n x * Pn n x).
Proof.
  induction n as [|n IH]; intros x; [unfold tab, Rsum; simpl; ring|].
  rewrite Rsum_tab_S, IH. cbn [Pm dPm]. rewrite dP_S.
  replace (INR (S n) * ((INR (S n) * Pn n x + x * dP n x) * Pn n x - dP n x * Pn (S n) x)) with
    (INR (S n) * (INR (S n) * Pn n x + x * dP n x) * Pn n x - dP n x * (INR (S n) * Pn (S n) x)) by ring.
  rewrite Pn_rec, S_INR. pose proof (leg_B n x) as B.
  replace (dPm n x) with (x * dP n x - INR n * Pn n x) by lra. ring.
Qed.

Lemma CD_pos : forall n x, 0 < dP (S n) x * Pn n x - dP n x * Pn (S n) x.
Proof.
  intros n x. pose proof (CD_diag (S n) x) as E. cbn [Pm dPm] in E.
  assert (K : forall k, 1 <= Rsum (tab (S k) (fun k => (2 * INR k + 1) * (Pn k x * Pn k x)))).
  { induction k as [|k IH]; [unfold tab, Rsum; simpl; lra|]. rewrite Rsum_tab_S.
    assert (0 <= (2 * INR (S k) + 1) * (Pn (S k) x * Pn (S k) x)).
    { apply Rmult_le_pos; [pose proof (pos_INR (S k)); lra|apply Rle_0_sqr]. }
    lra. }
  specialize (K n). rewrite E in K. pose proof (INR_S_pos n). nra.
Qed.
