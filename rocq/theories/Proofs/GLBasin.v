(** C45: Newton's iteration for the zeros of the Legendre polynomials on intervals slightly larger than
    those of exact arithmetic. *)
From Coq Require Import List Bool Arith ZArith Lia Reals Lra Psatz.
From Coquelicot Require Import Coquelicot.
From Verif Require Import Base.Outcome Base.Scalar Base.RScalar Model.Primitive Spec.Sums Spec.RealRules
  Proofs.Tab Proofs.SumFacts Proofs.PrimitiveFacts Proofs.ChebReal Proofs.ChebInt Proofs.Legendre
  Proofs.LegendreZeros Proofs.LegendreAngles Proofs.GLNewton.
Import ListNotations.
Local Open Scope R_scope.

Lemma abs_in : forall x e, Rabs x <= e -> - e <= x <= e.
Proof. intros x e H. apply Rabs_le_between. exact H. Qed.

(** The energy at 0, and from it the slope at a zero. *)
Lemma energy_zero : forall n, (1 <= n)%nat ->
  (INR n + 1) / 2 <= Pn n 0 * Pn n 0 * (INR n * (INR n + 1)) + (INR n * Pm n 0) * (INR n * Pm n 0).
Proof.
  intros n Hn. induction Hn as [|n Hn IH].
  - simpl. lra.
  - assert (N1 : 1 <= INR n) by (apply (le_INR 1); auto). rewrite S_INR. change (Pm (S n) 0) with (Pn n 0).
    pose proof (Pn_rec n 0) as Rc. rewrite S_INR in Rc. set (N := INR n) in *. set (p := Pn n 0) in *. set (q := Pm n 0) in *.
    set (p' := Pn (S n) 0) in *. clearbody p q p' N.
    assert (E : p' * p' * ((N + 1) * (N + 1 + 1)) = (N + 2) / (N + 1) * ((N * q) * (N * q))).
    { replace (p' * p' * ((N + 1) * (N + 1 + 1))) with (((N + 1) * p') * ((N + 1) * p') * ((N + 2) / (N + 1))) by (field; lra).
      rewrite Rc. field. lra. }
    rewrite E.
    assert (E2 : (N + 1) * p * ((N + 1) * p) = (N + 1) / N * (p * p * (N * (N + 1)))) by (field; lra).
    rewrite E2.
    assert (A : 0 <= (N * q) * (N * q)) by exact (Rle_0_sqr _).
    assert (B : 0 <= p * p * (N * (N + 1))) by (apply Rmult_le_pos; [exact (Rle_0_sqr _)|nra]).
    set (a := (N * q) * (N * q)) in *. set (b := p * p * (N * (N + 1))) in *. clearbody a b.
    assert (C : (N + 2) / (N + 1) <= (N + 1) / N).
    { apply Rmult_le_reg_r with (N * (N + 1)); [nra|].
      replace ((N + 2) / (N + 1) * (N * (N + 1))) with ((N + 2) * N) by (field; lra).
      replace ((N + 1) / N * (N * (N + 1))) with ((N + 1) * (N + 1)) by (field; lra). nra. }
    assert (D : (N + 2) / (N + 1) * b <= (N + 1) / N * b) by (apply Rmult_le_compat_r; auto).
    replace ((N + 1 + 1) / 2) with ((N + 2) / (N + 1) * ((N + 1) / 2)) by (field; lra).
    apply Rle_trans with ((N + 2) / (N + 1) * (b + a)); [|lra].
    apply Rmult_le_compat_l; auto. left. apply Rdiv_lt_0_compat; lra.
Qed.

Lemma slope_zero : forall n r, (1 <= n)%nat -> 0 <= r -> Pn n r = 0 ->
  (INR n + 1) / 2 <= (1 - r * r) * (dP n r * dP n r).
Proof.
  intros n r Hn Hr Z. pose proof (energy_mono n 0 r ltac:(lra) Hr) as E. cbv beta in E. rewrite Z in E.
  pose proof (energy_zero n Hn) as E0. pose proof (leg_A n 0) as A.
  assert (D0 : dP n 0 = INR n * Pm n 0) by lra. rewrite D0 in E. lra.
Qed.

Section Basin.
Variables (n : nat) (r h sg : R).
Let f := fun x => sg * Pn n x.
Let f1 := fun x => sg * dP n x.
Let m := f1 r.
Let L := INR n * (INR n + 1).
Let N1 := INR n + 1.
Let Q := 1 - r * r.
Let rho := / 1000 / (N1 * N1).
Let lam := 0.004 * h + rho.
Hypothesis Hn : (1 <= n)%nat.
Hypothesis SG : sg * sg = 1.
Hypothesis R0 : 0 <= r.
Hypothesis H0 : 0 <= h.
Hypothesis X0 : r + h < 1.
Hypothesis Zr : Pn n r = 0.
Hypothesis M0 : 0 < m.
Hypothesis H1 : Q <= 1.2 * (1 - (r + h) * (r + h)).
Hypothesis H2 : 3.6 <= N1 * N1 * Q.
Hypothesis H3 : 1.2 * L * h <= 1.
Hypothesis H4 : forall x, r <= x <= r + h -> m <= f1 x <= 1.2 * m.
Hypothesis H5 : forall x y, r <= x -> x <= y -> y <= r + h -> f1 x <= f1 y.

Definition inJ (x : R) : Prop := r - lam <= x <= r + h + rho.

Lemma N2 : 2 <= N1.
Proof. unfold N1. pose proof (le_INR _ _ Hn) as E. simpl in E. lra. Qed.
Lemma rho_pos : 0 < rho.
Proof. unfold rho. pose proof N2. apply Rdiv_lt_0_compat; nra. Qed.
Lemma rho_N : rho * (N1 * N1) = / 1000.
Proof. unfold rho. pose proof N2. field. lra. Qed.
Lemma Lh : L = N1 * N1 - N1 /\ 0 <= L.
Proof. unfold L, N1. pose proof (pos_INR n). split; [ring|nra]. Qed.
Lemma h_N : h * (N1 * N1) <= 1.67.
Proof. pose proof N2. destruct Lh as (E & _). rewrite E in H3. assert (N1 * N1 <= 2 * (N1 * N1 - N1)) by nra. nra. Qed.
Lemma Q_pos : 0 < Q /\ Q <= 1.
Proof. assert (r < 1) by lra. unfold Q. clear - R0 H. split; nra. Qed.
Lemma rho_Q : rho <= Q / 3600.
Proof.
  pose proof rho_N. pose proof N2. apply Rmult_le_reg_r with (N1 * N1); [nra|]. lra.
Qed.
Lemma lam_N : lam * (N1 * N1) <= 0.00768 /\ 0 < lam.
Proof.
  pose proof rho_N as E. pose proof h_N. pose proof rho_pos. pose proof N2. unfold lam. split; [|lra].
  rewrite Rmult_plus_distr_r, E. lra.
Qed.
Lemma inJ_sq : forall x, inJ x -> Q / 1.25 <= 1 - x * x /\ -1 < x < 1.
Proof.
  intros x Hx. unfold inJ in Hx. pose proof rho_Q. pose proof rho_pos. destruct Q_pos.
  assert (B : - (r + h + rho) <= x <= r + h + rho) by (unfold lam in Hx; lra).
  assert (K : Q / 1.25 <= 1 - (r + h + rho) * (r + h + rho)).
  { assert (rho <= 1 / 3600) by lra. assert (Y0 : 0 <= r + h) by lra. set (y := r + h) in *. clearbody y.
    assert (E : 1 - (y + rho) * (y + rho) = 1 - y * y - rho * (2 * y + rho)) by ring. rewrite E.
    assert (rho * (2 * y + rho) <= rho * 3) by (apply Rmult_le_compat_l; lra). lra. }
  assert (x * x <= (r + h + rho) * (r + h + rho)) by nra.
  split; [lra|]. assert (0 < 1 - x * x) by lra. split; nra.
Qed.

Lemma bf_der : forall x, is_derive f x (f1 x).
Proof. intro x. unfold f, f1. apply (is_derive_scal (Pn n) x sg), Pn_derive. Qed.
Lemma bf1_der : forall x, is_derive f1 x (sg * Derive (dP n) x).
Proof. intro x. unfold f1. apply (is_derive_scal (dP n) x sg). apply Derive_correct. apply dP_ex. Qed.
Lemma bf_r : f r = 0.
Proof. unfold f. rewrite Zr. ring. Qed.

(** Mean values. *)
Lemma mv : forall (g g1 : R -> R) x y, (forall t, is_derive g t (g1 t)) ->
  exists c, (x <= c <= y \/ y <= c <= x) /\ g y - g x = g1 c * (y - x).
Proof.
  intros g g1 x y Hd. destruct (MVT_gen g x y g1) as (c & Hc & E).
  - intros t _. apply Hd.
  - intros t _. apply derivable_continuous_pt. exists (g1 t). apply is_derive_Reals. apply Hd.
  - exists c. split; [|exact E]. unfold Rmin, Rmax in Hc. destruct (Rle_dec x y); [left|right]; lra.
Qed.

Lemma inJ_r : inJ r.
Proof. unfold inJ. destruct lam_N. pose proof rho_pos. lra. Qed.
Lemma inJ_between : forall x y c, inJ x -> inJ y -> (x <= c <= y \/ y <= c <= x) -> inJ c.
Proof. unfold inJ. intros. lra. Qed.
Lemma inJ_dist : forall x, inJ x -> Rabs (x - r) <= 1.004 * h + 2 * rho.
Proof. intros x Hx. unfold inJ, lam in Hx. pose proof rho_pos. apply Rabs_le. lra. Qed.

(** Bounds on the first two derivatives. *)
Lemma sup_f1 : exists M, 0 <= M /\ (forall x, inJ x -> Rabs (f1 x) <= M) /\ exists c, inJ c /\ Rabs (f1 c) = M.
Proof.
  destruct (continuity_ab_maj (fun x => Rabs (f1 x)) (r - lam) (r + h + rho)) as (c & Hc & Hc').
  - pose proof inJ_r. unfold inJ in *. lra.
  - intros x _. apply (continuity_pt_comp f1 Rabs); [|apply Rcontinuity_abs].
    apply derivable_continuous_pt. exists (sg * Derive (dP n) x). apply is_derive_Reals. apply bf1_der.
  - exists (Rabs (f1 c)). split; [apply Rabs_pos|]. split; [intros x Hx; apply Hc; exact Hx|]. exists c. split; auto.
Qed.

Lemma f2_bound : forall M x, (forall x, inJ x -> Rabs (f1 x) <= M) -> 0 <= M -> inJ x ->
  Rabs (sg * Derive (dP n) x) <= M * (N1 * N1).
Proof.
  intros M x HM M1 Hx. destruct (inJ_sq x Hx) as (A & B). destruct Q_pos as (Q0 & Q1). pose proof N2. destruct Lh as (_ & L0).
  pose proof (leg_ode2 n x) as E. fold L in E.
  assert (Fb : Rabs (f x) <= M * (1.004 * h + 2 * rho)).
  { destruct (mv f f1 r x bf_der) as (c & Hc & Ec). rewrite bf_r, Rminus_0_r in Ec. rewrite Ec, Rabs_mult.
    apply Rmult_le_compat; auto using Rabs_pos, inJ_dist. apply HM. apply (inJ_between r x); auto using inJ_r. }
  assert (LF : L * Rabs (f x) <= M * 0.84).
  { apply Rle_trans with (L * (M * (1.004 * h + 2 * rho))); [apply Rmult_le_compat_l; auto|].
    replace (L * (M * (1.004 * h + 2 * rho))) with (M * (1.004 * (L * h) + 2 * (rho * L))) by ring.
    apply Rmult_le_compat_l; auto. pose proof rho_N. destruct Lh as (EL & _). pose proof rho_pos.
    assert (rho * L <= rho * (N1 * N1)) by (apply Rmult_le_compat_l; [lra|rewrite EL; lra]). lra. }
  assert (P : (1 - x * x) * Rabs (sg * Derive (dP n) x) <= M * 2.84).
  { rewrite <- (Rabs_pos_eq (1 - x * x)) at 1 by lra. rewrite <- Rabs_mult.
    assert (E' : (1 - x * x) * (sg * Derive (dP n) x) = 2 * x * f1 x - L * f x).
    { transitivity (sg * ((1 - x * x) * Derive (dP n) x)); [ring|]. rewrite E. unfold f1, f. ring. }
    rewrite E'.
    eapply Rle_trans; [apply Rabs_triang|]. rewrite Rabs_Ropp, !Rabs_mult, (Rabs_pos_eq 2), (Rabs_pos_eq L) by lra.
    pose proof (HM x Hx). assert (Rabs x <= 1) by (apply Rabs_le; lra).
    assert (2 * Rabs x * Rabs (f1 x) <= 2 * M).
    { rewrite Rmult_assoc. apply Rmult_le_compat_l; [lra|]. rewrite <- (Rmult_1_l M). apply Rmult_le_compat; auto using Rabs_pos. }
    lra. }
  set (w := Rabs (sg * Derive (dP n) x)) in *. assert (W : 0 <= w) by apply Rabs_pos. clearbody w.
  assert (P2 : Q / 1.25 * w <= M * 2.84) by nra.
  apply Rmult_le_reg_l with (Q / 1.25); [lra|]. eapply Rle_trans; [exact P2|].
  replace (Q / 1.25 * (M * (N1 * N1))) with (M * (N1 * N1 * Q * / 1.25)) by (unfold Rdiv; generalize (/ 1.25); intro; ring).
  apply Rmult_le_compat_l; lra.
Qed.

Lemma near_int : forall x, inJ x -> exists y, r <= y <= r + h /\ Rabs (x - y) <= lam /\ (r <= x -> y <= x /\ Rabs (x - y) <= rho).
Proof.
  intros x Hx. unfold inJ in Hx. destruct lam_N as (_ & L0). pose proof rho_pos.
  destruct (Rle_dec x r) as [A|A].
  - exists r. split; [lra|]. split; [apply Rabs_le; lra|]. intros. split; [lra|apply Rabs_le; lra].
  - destruct (Rle_dec x (r + h)) as [B|B].
    + exists x. replace (x - x) with 0 by ring. rewrite Rabs_R0. lra.
    + exists (r + h). split; [lra|]. unfold lam. split; [apply Rabs_le; lra|]. intros _. split; [lra|apply Rabs_le; lra].
Qed.

Lemma basin_f1 : forall x, inJ x -> 0.99 * m <= f1 x <= 1.21 * m.
Proof.
  destruct sup_f1 as (M & M1 & HM & c & Hc & Ec). destruct lam_N as (LN & L0).
  assert (D : forall x, inJ x -> exists y, r <= y <= r + h /\ Rabs (f1 x - f1 y) <= M * 0.00768).
  { intros x Hx. destruct (near_int x Hx) as (y & Hy & Dy & _). exists y. split; auto.
    assert (Jy : inJ y) by (unfold inJ; pose proof rho_pos; lra).
    destruct (mv f1 (fun x => sg * Derive (dP n) x) y x bf1_der) as (e & He & E). rewrite E, Rabs_mult.
    pose proof (f2_bound M e HM M1 (inJ_between y x e Jy Hx He)) as F2. cbv beta in E.
    apply Rle_trans with (M * (N1 * N1) * lam); [apply Rmult_le_compat; auto using Rabs_pos|].
    rewrite Rmult_assoc. apply Rmult_le_compat_l; auto. lra. }
  assert (MB : M <= 1.2095 * m).
  { destruct (D c Hc) as (y & Hy & Dy). pose proof (H4 y Hy).
    assert (Rabs (f1 c) <= Rabs (f1 c - f1 y) + f1 y).
    { replace (f1 c) with ((f1 c - f1 y) + f1 y) at 1 by ring. eapply Rle_trans; [apply Rabs_triang|].
      rewrite (Rabs_pos_eq (f1 y)) by lra. lra. }
    lra. }
  intros x Hx. destruct (D x Hx) as (y & Hy & Dy). pose proof (H4 y Hy). apply abs_in in Dy.
  assert (f1 x <= M) by (eapply Rle_trans; [apply Rle_abs|apply HM; auto]). split; lra.
Qed.

Lemma basin_lip : forall x y, inJ x -> inJ y -> Rabs (f1 x - f1 y) <= 1.21 * m * (N1 * N1) * Rabs (x - y).
Proof.
  intros x y Hx Hy. destruct (mv f1 (fun x => sg * Derive (dP n) x) y x bf1_der) as (e & He & E). rewrite E, Rabs_mult.
  apply Rmult_le_compat_r; [apply Rabs_pos|]. apply f2_bound; [|lra|].
  - intros t Ht. pose proof (basin_f1 t Ht). rewrite Rabs_pos_eq; lra.
  - apply (inJ_between y x); auto.
Qed.

(** Newton's correction q = f/f1. *)
Lemma basin_step : forall x, inJ x ->
  Rabs (f x / f1 x - (x - r)) <= 0.23 * Rabs (x - r) /\
  Rabs (f x / f1 x - (x - r)) <= 1.23 * (N1 * N1) * (Rabs (x - r) * Rabs (x - r)) /\
  (r <= x -> f x / f1 x <= (x - r) * 1.0013).
Proof.
  intros x Hx. destruct (basin_f1 x Hx) as (A & B). assert (F0 : 0 < f1 x) by lra.
  destruct (mv f f1 r x bf_der) as (c & Hc & Ec). rewrite bf_r, Rminus_0_r in Ec.
  assert (Jc : inJ c) by (apply (inJ_between r x); auto using inJ_r).
  destruct (basin_f1 c Jc) as (A' & B'). pose proof N2.
  assert (E : f x / f1 x - (x - r) = (f1 c - f1 x) / f1 x * (x - r)) by (rewrite Ec; field; lra).
  assert (DD : forall K, Rabs (f1 c - f1 x) <= K * f1 x -> Rabs ((f1 c - f1 x) / f1 x) <= K).
  { intros K HK. unfold Rdiv. rewrite Rabs_mult, Rabs_inv, (Rabs_pos_eq (f1 x)) by lra.
    apply Rmult_le_reg_r with (f1 x); auto. rewrite Rmult_assoc, Rinv_l by lra. lra. }
  split; [|split].
  - rewrite E, Rabs_mult. apply Rmult_le_compat_r; [apply Rabs_pos|]. apply DD. apply Rabs_le. lra.
  - rewrite E, Rabs_mult, <- Rmult_assoc. apply Rmult_le_compat_r; [apply Rabs_pos|]. apply DD.
    eapply Rle_trans; [apply basin_lip; auto|].
    assert (Rabs (c - x) <= Rabs (x - r)) by (unfold Rabs; destruct (Rcase_abs (c - x)), (Rcase_abs (x - r)); lra).
    set (a := Rabs (c - x)) in *. set (b := Rabs (x - r)) in *. assert (0 <= a) by apply Rabs_pos. assert (0 <= b) by apply Rabs_pos. clearbody a b.
    apply Rle_trans with (1.21 * m * (N1 * N1) * b); [apply Rmult_le_compat_l; auto; nra|].
    replace (1.21 * m * (N1 * N1) * b) with ((N1 * N1 * b) * (1.21 * m)) by ring.
    replace (1.23 * (N1 * N1) * b * f1 x) with ((N1 * N1 * b) * (1.23 * f1 x)) by ring.
    apply Rmult_le_compat_l; [nra|lra].
  - intros Hr. assert (Hc' : r <= c <= x) by lra.
    assert (K : f1 c <= f1 x + 0.00122 * m).
    { destruct (near_int x Hx) as (y & Hy & _ & Dy). destruct (Dy Hr) as (Dy1 & Dy2).
      assert (Jy : inJ y) by (unfold inJ; destruct lam_N; pose proof rho_pos; lra).
      assert (LR : forall a b, inJ a -> inJ b -> Rabs (a - b) <= rho -> Rabs (f1 a - f1 b) <= 0.00121 * m).
      { intros a b Ha Hb Hab. eapply Rle_trans; [apply basin_lip; auto|].
        apply Rle_trans with (1.21 * m * (N1 * N1) * rho); [apply Rmult_le_compat_l; auto; nra|].
        pose proof rho_N as RN. replace (1.21 * m * (N1 * N1) * rho) with (1.21 * m * (rho * (N1 * N1))) by ring.
        rewrite RN. lra. }
      destruct (Rle_dec c y) as [Q1|Q1].
      - assert (Q2 : f1 c <= f1 y) by (apply H5; lra). pose proof (LR x y Hx Jy Dy2) as Q3. apply abs_in in Q3. lra.
      - assert (Q3 : Rabs (f1 c - f1 x) <= 0.00121 * m).
        { apply LR; auto. apply abs_in in Dy2. apply Rabs_le. lra. }
        apply abs_in in Q3. lra. }
    apply Rmult_le_reg_r with (f1 x); auto. unfold Rdiv. rewrite Rmult_assoc, Rinv_l, Rmult_1_r by lra.
    rewrite Ec. rewrite (Rmult_comm (f1 c)), Rmult_assoc. apply Rmult_le_compat_l; lra.
Qed.

(** r is the only zero of P_n there. *)
Lemma basin_zero : forall x, inJ x -> Pn n x = 0 -> x = r.
Proof.
  intros x Hx Z. destruct (mv f f1 r x bf_der) as (c & Hc & Ec). rewrite bf_r, Rminus_0_r in Ec.
  assert (Jc : inJ c) by (apply (inJ_between r x); auto using inJ_r). destruct (basin_f1 c Jc) as (A & _).
  unfold f in Ec. rewrite Z, Rmult_0_r in Ec. symmetry in Ec. apply Rmult_integral in Ec. destruct Ec; lra.
Qed.

(** A perturbed step: z' = z - q + eta with |eta| <= e0 + 0.0015 |z - r| stays in the interval ... *)
Lemma basin_stay : forall x x' e0, inJ x -> e0 <= rho / 2 ->
  Rabs (x' - (x - f x / f1 x)) <= e0 + 0.0015 * Rabs (x - r) -> inJ x'.
Proof.
  intros x x' e0 Hx He H. destruct (basin_step x Hx) as (A & _ & B). pose proof rho_pos.
  apply abs_in in A. apply abs_in in H. set (q := f x / f1 x) in *. clearbody q.
  unfold inJ, lam in *. destruct (Rle_dec r x) as [C|C].
  - rewrite (Rabs_pos_eq (x - r)) in * by lra. specialize (B C). lra.
  - rewrite (Rabs_left1 (x - r)) in * by lra. lra.
Qed.
(** ... and settles only near the zero. *)
Lemma basin_final : forall x x' e0 t, inJ x -> 0 <= e0 ->
  Rabs (x' - (x - f x / f1 x)) <= e0 + 0.0015 * Rabs (x - r) -> Rabs (x' - x) <= t ->
  Rabs (x - r) <= 1.5 * (t + e0) /\
  Rabs (x' - r) <= e0 + 0.0015 * Rabs (x - r) + 1.23 * (N1 * N1) * (Rabs (x - r) * Rabs (x - r)).
Proof.
  intros x x' e0 t Hx He H Ht. destruct (basin_step x Hx) as (A & B & _).
  set (q := f x / f1 x) in *. clearbody q. split.
  - assert (K : Rabs (x - r) <= Rabs (q - (x - r)) + Rabs (x' - (x - q)) + Rabs (x' - x)).
    { unfold Rabs. destruct (Rcase_abs (x - r)), (Rcase_abs (q - (x - r))), (Rcase_abs (x' - (x - q))), (Rcase_abs (x' - x)); lra. }
    pose proof (Rabs_pos (x' - x)). lra.
  - replace (x' - r) with ((x' - (x - q)) - (q - (x - r))) by ring. eapply Rle_trans; [apply Rabs_triang|]. rewrite Rabs_Ropp. lra.
Qed.
End Basin.

(** The hypotheses of the section, and its results, for use elsewhere. *)
Definition basin (n : nat) (r h sg : R) : Prop :=
  (1 <= n)%nat /\ sg * sg = 1 /\ 0 <= r /\ 0 <= h /\ r + h < 1 /\ Pn n r = 0 /\ 0 < sg * dP n r /\
  1 - r * r <= 1.2 * (1 - (r + h) * (r + h)) /\ 3.6 <= (INR n + 1) * (INR n + 1) * (1 - r * r) /\
  1.2 * (INR n * (INR n + 1)) * h <= 1 /\
  (forall x, r <= x <= r + h -> sg * dP n r <= sg * dP n x <= 1.2 * (sg * dP n r)) /\
  (forall x y, r <= x -> x <= y -> y <= r + h -> sg * dP n x <= sg * dP n y).

Section Use.
Variables (n : nat) (r h sg : R).
Hypothesis B : basin n r h sg.
Let m := sg * dP n r.
Let N := INR n + 1.

Lemma use_sq : forall x, inJ n r h x -> (1 - r * r) / 1.25 <= 1 - x * x /\ -1 < x < 1.
Proof. destruct B as (B1 & B2 & B3 & B4 & B5 & B6 & B7 & B8 & B9 & B10 & B11 & B12). apply (inJ_sq n r h sg); auto. Qed.
Lemma use_f1 : forall x, inJ n r h x -> 0.99 * m <= sg * dP n x <= 1.21 * m.
Proof. destruct B as (B1 & B2 & B3 & B4 & B5 & B6 & B7 & B8 & B9 & B10 & B11 & B12). apply (basin_f1 n r h sg); auto. Qed.
Lemma use_lip : forall x y, inJ n r h x -> inJ n r h y -> Rabs (sg * dP n x - sg * dP n y) <= 1.21 * m * (N * N) * Rabs (x - y).
Proof. destruct B as (B1 & B2 & B3 & B4 & B5 & B6 & B7 & B8 & B9 & B10 & B11 & B12). apply (basin_lip n r h sg); auto. Qed.
Lemma use_zero : forall x, inJ n r h x -> Pn n x = 0 -> x = r.
Proof. destruct B as (B1 & B2 & B3 & B4 & B5 & B6 & B7 & B8 & B9 & B10 & B11 & B12). apply (basin_zero n r h sg); auto. Qed.
Lemma use_quot : forall x, inJ n r h x -> dP n x <> 0 /\ (sg * Pn n x) / (sg * dP n x) = Pn n x / dP n x.
Proof.
  intros x Hx. pose proof (use_f1 x Hx) as (F & _). destruct B as (_ & SG & _ & _ & _ & _ & M0 & _). fold m in M0.
  assert (sg <> 0) by (intro E; rewrite E in SG; lra).
  assert (dP n x <> 0) by (intro E; rewrite E in F; lra). split; auto. field. auto.
Qed.
Lemma use_q : forall x, inJ n r h x -> Rabs (Pn n x / dP n x) <= 1.23 * Rabs (x - r).
Proof.
  intros x Hx. destruct (use_quot x Hx) as (_ & <-).
  destruct B as (B1 & B2 & B3 & B4 & B5 & B6 & B7 & B8 & B9 & B10 & B11 & B12).
  destruct (basin_step n r h sg B1 B2 B3 B4 B5 B6 B7 B8 B9 B10 B11 B12 x Hx) as (K & _).
  set (q := sg * Pn n x / (sg * dP n x)) in *. replace q with ((q - (x - r)) + (x - r)) by ring.
  eapply Rle_trans; [apply Rabs_triang|]. lra.
Qed.
Lemma use_stay : forall x x' e0, inJ n r h x -> e0 * (N * N) <= / 2000 ->
  Rabs (x' - (x - Pn n x / dP n x)) <= e0 + 0.0015 * Rabs (x - r) -> inJ n r h x'.
Proof.
  intros x x' e0 Hx He. destruct (use_quot x Hx) as (_ & <-).
  destruct B as (B1 & B2 & B3 & B4 & B5 & B6 & B7 & B8 & B9 & B10 & B11 & B12).
  intro H. apply (basin_stay n r h sg) with x e0; auto.
  pose proof (N2 n B1) as K. fold N in K. fold N. apply Rmult_le_reg_r with (N * N); [nra|].
  replace (/ 1000 / (N * N) / 2 * (N * N)) with (/ 2000) by (field; lra). exact He.
Qed.
Lemma use_final : forall x x' e0 t, inJ n r h x -> 0 <= e0 ->
  Rabs (x' - (x - Pn n x / dP n x)) <= e0 + 0.0015 * Rabs (x - r) -> Rabs (x' - x) <= t ->
  Rabs (x - r) <= 1.5 * (t + e0) /\
  forall e1, Rabs (x' - (x - Pn n x / dP n x)) <= e1 -> Rabs (x' - r) <= e1 + 1.23 * (N * N) * (Rabs (x - r) * Rabs (x - r)).
Proof.
  intros x x' e0 t Hx He. destruct (use_quot x Hx) as (_ & <-). intros H Ht.
  destruct B as (B1 & B2 & B3 & B4 & B5 & B6 & B7 & B8 & B9 & B10 & B11 & B12). split.
  - apply (basin_final n r h sg B1 B2 B3 B4 B5 B6 B7 B8 B9 B10 B11 B12 x x' e0 t); auto.
  - intros e1 H1'. destruct (basin_step n r h sg B1 B2 B3 B4 B5 B6 B7 B8 B9 B10 B11 B12 x Hx) as (_ & K & _). fold N in K.
    set (q := sg * Pn n x / (sg * dP n x)) in *.
    replace (x' - r) with ((x' - (x - q)) - (q - (x - r))) by ring. eapply Rle_trans; [apply Rabs_triang|]. rewrite Rabs_Ropp. lra.
Qed.
Lemma use_slope : N / 2 <= (1 - r * r) * (m * m).
Proof.
  destruct B as (B1 & B2 & B3 & B4 & B5 & B6 & B7 & B8 & B9 & B10 & B11 & B12).
  pose proof (slope_zero n r B1 B3 B6) as K. fold N in K. unfold m.
  replace (sg * dP n r * (sg * dP n r)) with (sg * sg * (dP n r * dP n r)) by ring. rewrite B2, Rmult_1_l. exact K.
Qed.
End Use.
