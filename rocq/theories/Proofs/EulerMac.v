(** Integration by parts on the panels of the trapezoid rule (Euler-Maclaurin). *)
From Coq Require Import List Bool Arith ZArith Lia Reals Lra Psatz.
From Coquelicot Require Import Coquelicot.
From Verif Require Import Base.Outcome Base.Scalar Base.RScalar Model.Primitive
  Spec.Sums Spec.RealRules Spec.ErrorSpec Proofs.Tab Proofs.SumFacts Proofs.PrimitiveFacts
  Proofs.ChebReal Proofs.ChebInt Proofs.ChebExact Proofs.TrapReal Proofs.GaussError.
Import ListNotations.
Local Open Scope R_scope.

(** Functions with mean zero on [0,1], each the derivative of the next. *)
Fixpoint bern (k : nat) : R -> R :=
  match k with
  | O => fun _ => 1
  | S k' => fun x => RInt (bern k') 0 x - RInt (fun y => RInt (bern k') 0 y) 0 1
  end.

Lemma prim_derive : forall (b : R -> R) c x, (forall y, continuous b y) -> is_derive (fun x => RInt b 0 x - c) x (b x).
Proof.
  intros b c x C.
  assert (D : is_derive (fun x => RInt b 0 x) x (b x)).
  { apply (is_derive_RInt b (fun x => RInt b 0 x) 0 x).
    - apply filter_forall. intro y. apply (RInt_correct (V := R_CompleteNormedModule)).
      apply (ex_RInt_continuous (V := R_CompleteNormedModule)). intros; apply C.
    - apply C. }
  assert (K : is_derive (fun _ : R => c) x 0) by apply (is_derive_const (K := R_AbsRing) (V := R_NormedModule)).
  pose proof (is_derive_minus (K := R_AbsRing) (V := R_NormedModule) _ _ _ _ _ D K) as H.
  replace (b x) with (minus (b x) 0) by (change (b x - 0 = b x); ring). exact H.
Qed.

Lemma bern_derive : forall k x, is_derive (bern (S k)) x (bern k x).
Proof.
  induction k as [|k IH]; intro x.
  - apply (prim_derive (bern 0)). intro y. apply continuous_const.
  - apply (prim_derive (bern (S k))).
    intro y. apply (ex_derive_continuous (K := R_AbsRing) (V := R_NormedModule)). eexists. apply IH.
Qed.

Lemma bern_cont : forall k x, continuous (bern k) x.
Proof.
  intros [|k] x; [apply continuous_const|]. apply (ex_derive_continuous (K := R_AbsRing) (V := R_NormedModule)).
  eexists. apply bern_derive.
Qed.

Lemma bern_int : forall k a b, ex_RInt (bern k) a b.
Proof. intros. apply (ex_RInt_continuous (V := R_CompleteNormedModule)). intros; apply bern_cont. Qed.

Lemma bern_mean : forall k, RInt (bern (S k)) 0 1 = 0.
Proof.
  intro k. cbn [bern]. set (c := RInt (fun y => RInt (bern k) 0 y) 0 1).
  rewrite (RInt_minus (V := R_CompleteNormedModule) (fun x => RInt (bern k) 0 x) (fun _ => c)).
  - rewrite RInt_const. fold c. unfold minus, plus, opp, scal; simpl. unfold mult; simpl.
    match goal with |- @eq _ ?a ?b => change (@eq R a b) end. ring.
  - apply (ex_RInt_continuous (V := R_CompleteNormedModule)). intros z _.
    apply (ex_derive_continuous (K := R_AbsRing) (V := R_NormedModule)). exists (bern k z).
    apply (is_derive_RInt (bern k) (fun x => RInt (bern k) 0 x) 0 z).
    + apply filter_forall. intro y. apply (RInt_correct (V := R_CompleteNormedModule)). apply bern_int.
    + apply bern_cont.
  - apply ex_RInt_const.
Qed.

Lemma bern_step : forall k, bern (S k) 1 - bern (S k) 0 = RInt (bern k) 0 1.
Proof.
  intro k. cbn [bern]. rewrite RInt_point. unfold zero; simpl. ring.
Qed.

Lemma bern_ends : forall k, bern (S (S k)) 1 = bern (S (S k)) 0.
Proof. intro k. pose proof (bern_step (S k)) as H. rewrite bern_mean in H. lra. Qed.

Lemma bern_one : forall x, bern 1 x = x - / 2.
Proof.
  intro x. assert (E : forall y, RInt (fun _ => 1) 0 y = y).
  { intro y. rewrite RInt_const. unfold scal; simpl. unfold mult; simpl. ring. }
  cbn [bern]. rewrite E. f_equal.
  transitivity (RInt (fun y : R => y) 0 1); [apply RInt_ext; intros; apply E|].
  apply is_RInt_unique. replace (/ 2) with (minus (1 ^ 2 / 2) (0 ^ 2 / 2)) by (unfold minus, plus, opp; simpl; field).
  apply (is_RInt_derive (fun x => x ^ 2 / 2)).
  - intros y _. auto_derive; [auto|]. field.
  - intros y _. apply continuous_id.
Qed.

(** Mean zero and a bounded derivative: half the bound. *)
Lemma mean_zero : forall (b b' : R -> R) c, (forall x, is_derive b x (b' x)) -> (forall x, continuous b x) -> RInt b 0 1 = 0 ->
  (forall x, 0 <= x <= 1 -> Rabs (b' x) <= c) -> forall x, 0 <= x <= 1 -> Rabs (b x) <= c / 2.
Proof.
  intros b b' c D C Z B x Hx.
  assert (c0 : 0 <= c) by (eapply Rle_trans; [apply Rabs_pos|apply (B 0); lra]).
  assert (Lip : forall y, 0 <= y <= 1 -> Rabs (b x - b y) <= c * Rabs (x - y)).
  { intros y Hy. destruct (MVT_gen b y x b') as (z & Hz & E).
    - intros; apply D.
    - intros; apply continuity_pt_filterlim, C.
    - rewrite E, Rabs_mult. apply Rmult_le_compat_r; [apply Rabs_pos|]. apply B. revert Hz. unfold Rmin, Rmax. destruct Rle_dec; lra. }
  assert (Eb : forall u v, ex_RInt b u v) by (intros; apply (ex_RInt_continuous (V := R_CompleteNormedModule)); intros; apply C).
  assert (E : RInt (fun y => b x - b y) 0 1 = b x).
  { rewrite (RInt_minus (V := R_CompleteNormedModule) (fun _ => b x) b); [|apply ex_RInt_const|apply Eb].
    rewrite RInt_const, Z. unfold minus, plus, opp, scal; simpl. unfold mult; simpl.
    match goal with |- @eq _ ?a ?b => change (@eq R a b) end. ring. }
  assert (Ed : forall u v, ex_RInt (fun y => b x - b y) u v)
    by (intros; apply (ex_RInt_minus (V := R_NormedModule) (fun _ => b x) b); [apply ex_RInt_const|apply Eb]).
  rewrite <- E. rewrite <- (RInt_Chasles (V := R_CompleteNormedModule) _ 0 x 1 (Ed _ _) (Ed _ _)).
  assert (I1 : is_RInt (fun y => c * (x - y)) 0 x (c * x ^ 2 / 2)).
  { replace (c * x ^ 2 / 2) with (minus (- c * (x - x) ^ 2 / 2) (- c * (x - 0) ^ 2 / 2)) by (unfold minus, plus, opp; simpl; field).
    apply (is_RInt_derive (fun y => - c * (x - y) ^ 2 / 2)).
    - intros y _. auto_derive; [auto|]. field.
    - intros y _. apply (ex_derive_continuous (K := R_AbsRing) (V := R_NormedModule)). auto_derive. auto. }
  assert (I2 : is_RInt (fun y => c * (y - x)) x 1 (c * (1 - x) ^ 2 / 2)).
  { replace (c * (1 - x) ^ 2 / 2) with (minus (c * (1 - x) ^ 2 / 2) (c * (x - x) ^ 2 / 2)) by (unfold minus, plus, opp; simpl; field).
    apply (is_RInt_derive (fun y => c * (y - x) ^ 2 / 2)).
    - intros y _. auto_derive; [auto|]. field.
    - intros y _. apply (ex_derive_continuous (K := R_AbsRing) (V := R_NormedModule)). auto_derive. auto. }
  assert (A1 : Rabs (RInt (fun y => b x - b y) 0 x) <= c * x ^ 2 / 2).
  { apply (norm_RInt_le (V := R_NormedModule) (fun y => b x - b y) (fun y => c * (x - y)) 0 x _ _ ltac:(lra)).
    - intros y Hy. unfold norm; simpl. unfold abs; simpl. eapply Rle_trans; [apply Lip; lra|]. rewrite Rabs_pos_eq; lra.
    - apply (RInt_correct (V := R_CompleteNormedModule)), Ed.
    - exact I1. }
  assert (A2 : Rabs (RInt (fun y => b x - b y) x 1) <= c * (1 - x) ^ 2 / 2).
  { apply (norm_RInt_le (V := R_NormedModule) (fun y => b x - b y) (fun y => c * (y - x)) x 1 _ _ ltac:(lra)).
    - intros y Hy. unfold norm; simpl. unfold abs; simpl. eapply Rle_trans; [apply Lip; lra|]. rewrite Rabs_left1; lra.
    - apply (RInt_correct (V := R_CompleteNormedModule)), Ed.
    - exact I2. }
  change (Rabs (RInt (fun y => b x - b y) 0 x + RInt (fun y => b x - b y) x 1) <= c / 2).
  eapply Rle_trans; [apply Rabs_triang|].
  assert (x ^ 2 + (1 - x) ^ 2 <= 1) by nra.
  assert (c * (x ^ 2 + (1 - x) ^ 2) <= c * 1) by (apply Rmult_le_compat_l; lra). lra.
Qed.

Lemma bern_small : forall k x, 0 <= x <= 1 -> Rabs (bern k x) <= (/ 2) ^ k.
Proof.
  induction k as [|k IH]; intros x Hx.
  - cbn [bern pow]. rewrite Rabs_R1. lra.
  - replace ((/ 2) ^ S k) with ((/ 2) ^ k / 2) by (simpl; field).
    apply (mean_zero (bern (S k)) (bern k)); auto; [apply bern_derive|apply bern_cont|apply bern_mean].
Qed.

(** Reflection at 1/2; functions of odd index from the third on vanish at the ends. *)
Lemma bern_reflect : forall k x, bern k (1 - x) = (-1) ^ k * bern k x.
Proof.
  induction k as [|k IH]; intro x; [simpl; ring|].
  set (D := fun x => bern (S k) (1 - x) - (-1) ^ S k * bern (S k) x).
  assert (DD : forall y, is_derive D y 0).
  { intro y. unfold D. pose proof (bern_derive k) as B.
    assert (B1 : is_derive (fun x => bern (S k) (1 - x)) y (- bern k (1 - y))).
    { replace (- bern k (1 - y)) with (scal (-1) (bern k (1 - y))) by (unfold scal; simpl; unfold mult; simpl; ring).
      apply (is_derive_comp (K := R_AbsRing) (V := R_NormedModule) (bern (S k)) (fun x => 1 - x)); [apply B|]. auto_derive; auto; ring. }
    assert (B2 : is_derive (fun x => (-1) ^ S k * bern (S k) x) y ((-1) ^ S k * bern k y)) by (apply (is_derive_scal (bern (S k))), B).
    pose proof (is_derive_minus (K := R_AbsRing) (V := R_NormedModule) _ _ _ _ _ B1 B2) as B3.
    replace 0 with (minus (- bern k (1 - y)) ((-1) ^ S k * bern k y)); [exact B3|].
    rewrite IH. unfold minus, plus, opp; simpl. ring. }
  assert (Cst : forall y, D y = D 0).
  { intro y. destruct (MVT_gen D 0 y (fun _ => 0)) as (z & _ & E).
    - intros; apply DD.
    - intros z _. apply continuity_pt_filterlim. apply (ex_derive_continuous (K := R_AbsRing) (V := R_NormedModule)). eexists. apply DD.
    - lra. }
  assert (I1 : is_RInt (fun x => bern (S k) (1 - x)) 0 1 0).
  { pose proof (is_RInt_comp_lin (V := R_NormedModule) (bern (S k)) (-1) 1 0 1 0) as L.
    replace (-1 * 0 + 1) with 1 in L by ring. replace (-1 * 1 + 1) with 0 in L by ring.
    assert (A : is_RInt (bern (S k)) 1 0 0).
    { replace 0 with (opp 0 : R) at 2 by (unfold opp; simpl; ring). apply (is_RInt_swap (V := R_NormedModule)).
      pose proof (RInt_correct (V := R_CompleteNormedModule) (bern (S k)) 0 1 (bern_int _ _ _)) as C. rewrite bern_mean in C.
      replace (@opp R_AbelianGroup 0) with 0 by (unfold opp; simpl; ring). exact C. }
    apply L in A. apply (is_RInt_scal (V := R_NormedModule) _ _ _ (-1)) in A.
    assert (Z : scal (-1) 0 = 0) by (unfold scal; simpl; unfold mult; simpl; ring).
    refine (is_RInt_ext (V := R_NormedModule) _ _ _ _ _ _ (eq_rect _ (fun v => is_RInt _ 0 1 v) A _ Z)). intros y _. unfold scal; simpl. unfold mult; simpl.
    replace (-1 * y + 1) with (1 - y) by ring. ring. }
  assert (I2 : is_RInt (fun x => (-1) ^ S k * bern (S k) x) 0 1 0).
  { replace 0 with (scal ((-1) ^ S k) (RInt (bern (S k)) 0 1) : R) at 2 by (rewrite bern_mean; unfold scal; simpl; unfold mult; simpl; ring).
    apply (is_RInt_scal (V := R_NormedModule)). apply (RInt_correct (V := R_CompleteNormedModule)), bern_int. }
  assert (I3 : is_RInt D 0 1 0).
  { replace 0 with (minus 0 0 : R) at 2 by (unfold minus, plus, opp; simpl; ring). apply (is_RInt_minus (V := R_NormedModule)); auto. }
  assert (I4 : is_RInt D 0 1 (D 0)).
  { apply (is_RInt_ext (V := R_NormedModule) (fun _ => D 0)); [intros; symmetry; apply Cst|].
    assert (Z : scal (1 - 0) (D 0) = D 0) by (unfold scal; simpl; unfold mult; simpl; ring).
    exact (eq_rect _ (fun v => is_RInt (fun _ => D 0) 0 1 v) (is_RInt_const (V := R_NormedModule) 0 1 (D 0)) _ Z). }
  apply (is_RInt_unique (V := R_CompleteNormedModule)) in I3. apply (is_RInt_unique (V := R_CompleteNormedModule)) in I4.
  assert (Z : D 0 = 0) by (rewrite <- I4; exact I3).
  pose proof (Cst x) as Cx. rewrite Z in Cx. unfold D in Cx. lra.
Qed.

Lemma bern_odd : forall k, Nat.even k = false -> bern (S (S k)) 0 = 0.
Proof.
  intros k O. pose proof (bern_reflect (S (S k)) 0) as Q. rewrite Rminus_0_r, bern_ends in Q.
  assert (E : (-1) ^ S (S k) = -1).
  { assert (Nat.odd k = true) by (unfold Nat.odd; rewrite O; auto). apply Nat.odd_spec in H. destruct H as (j & ->).
    replace (S (S (2 * j + 1))) with (S (2 * (S j))) by lia. rewrite pow_1_odd. reflexivity. }
  rewrite E in Q. lra.
Qed.

(** One panel. *)
Section Panel.
Variables (F : nat -> R -> R) (a h : R).
Hypothesis Hh : 0 < h.

Definition ker (k : nat) (t : R) : R := h ^ k * bern k ((t - a) / h).

Lemma ker_derive : forall k t, is_derive (ker (S k)) t (ker k t).
Proof.
  intros k t. unfold ker. replace (h ^ k * bern k ((t - a) / h)) with (h ^ S k * (/ h * bern k ((t - a) / h))) by (simpl; field; lra).
  apply (is_derive_scal (fun t => bern (S k) ((t - a) / h))).
  apply (is_derive_comp (K := R_AbsRing) (V := R_NormedModule) (bern (S k)) (fun t => (t - a) / h)); [apply bern_derive|].
  auto_derive; auto. field. lra.
Qed.

Lemma ker_cont : forall k t, continuous (ker k) t.
Proof.
  intros [|k] t; [apply continuous_const|]. apply (ex_derive_continuous (K := R_AbsRing) (V := R_NormedModule)). eexists. apply ker_derive.
Qed.

Lemma ker_small : forall k t, a <= t <= a + h -> Rabs (ker k t) <= (h / 2) ^ k.
Proof.
  intros k t Ht. unfold ker. rewrite Rabs_mult, (Rabs_pos_eq (h ^ k)) by (apply pow_le; lra).
  unfold Rdiv at 2. rewrite Rpow_mult_distr. apply Rmult_le_compat_l; [apply pow_le; lra|]. apply bern_small. split.
  - apply Rmult_le_pos; [lra|]. apply Rlt_le, Rinv_0_lt_compat. lra.
  - apply Rmult_le_reg_r with h; [lra|]. unfold Rdiv. rewrite Rmult_assoc, Rinv_l by lra. lra.
Qed.

(** Integration by parts. *)
Lemma parts : forall k, (forall t, a <= t <= a + h -> is_derive (F k) t (F (S k) t)) -> (forall t, a <= t <= a + h -> continuous (F (S k)) t) ->
  RInt (fun t => ker k t * F k t) a (a + h) =
  ker (S k) (a + h) * F k (a + h) - ker (S k) a * F k a - RInt (fun t => ker (S k) t * F (S k) t) a (a + h).
Proof.
  intros k D C.
  assert (Ck : forall t, a <= t <= a + h -> continuous (F k) t).
  { intros t Ht. apply (ex_derive_continuous (K := R_AbsRing) (V := R_NormedModule)). eexists. apply D, Ht. }
  assert (E1 : ex_RInt (fun t => ker k t * F k t) a (a + h)).
  { apply cont_int; [lra|]. intros t Ht. apply (continuous_mult (K := R_AbsRing)); [apply ker_cont|auto]. }
  assert (E2 : ex_RInt (fun t => ker (S k) t * F (S k) t) a (a + h)).
  { apply cont_int; [lra|]. intros t Ht. apply (continuous_mult (K := R_AbsRing)); [apply ker_cont|auto]. }
  assert (I : is_RInt (fun t => ker k t * F k t + ker (S k) t * F (S k) t) a (a + h)
     (minus (ker (S k) (a + h) * F k (a + h)) (ker (S k) a * F k a))).
  { apply (is_RInt_derive (fun t => ker (S k) t * F k t)).
    - intros t Ht. rewrite Rmin_left, Rmax_right in Ht by lra.
      apply (is_derive_mult (ker (S k)) (F k) t (ker k t) (F (S k) t)); [apply ker_derive|apply D; auto|intros; apply Rmult_comm].
    - intros t Ht. rewrite Rmin_left, Rmax_right in Ht by lra.
      apply (continuous_plus (V := R_NormedModule)); apply (continuous_mult (K := R_AbsRing)); auto; apply ker_cont. }
  apply (is_RInt_unique (V := R_CompleteNormedModule)) in I. rewrite (RInt_plus (V := R_CompleteNormedModule)) in I by auto.
  unfold minus, plus, opp in I; simpl in I.
  match goal with |- @eq _ ?x ?y => change (@eq R x y) end.
  match type of I with @eq _ ?x ?y => change (@eq R x y) in I end. lra.
Qed.

Definition corr (k : nat) : R := bern (S k) 0.

Lemma ker_ends : forall k, ker (S (S k)) (a + h) = h ^ S (S k) * bern (S (S k)) 0 /\ ker (S (S k)) a = h ^ S (S k) * bern (S (S k)) 0.
Proof.
  intro k. unfold ker. replace ((a + h - a) / h) with 1 by (field; lra). replace ((a - a) / h) with 0 by (field; lra).
  rewrite bern_ends. auto.
Qed.

(** The panel sum, with corrections that depend only on differences of derivatives at the ends. *)
Lemma panel_em : forall N, (forall k t, (k <= N)%nat -> a <= t <= a + h -> is_derive (F k) t (F (S k) t)) ->
  (forall t, a <= t <= a + h -> continuous (F (S N)) t) ->
  h * (F 0%nat a + F 0%nat (a + h)) / 2 - RInt (F 0%nat) a (a + h) =
  Rsum (tab N (fun k => (-1) ^ k * (h ^ S (S k) * bern (S (S k)) 0) * (F (S k) (a + h) - F (S k) a)))
  + (-1) ^ N * RInt (fun t => ker (S N) t * F (S N) t) a (a + h).
Proof.
  induction N as [|N IH]; intros D C.
  - unfold tab; simpl (Rsum _). pose proof (parts 0 (fun t Ht => D 0%nat t (le_n _) Ht) C) as P.
    rewrite (RInt_ext (V := R_CompleteNormedModule) (fun t => ker 0 t * F 0%nat t) (F 0%nat)) in P by (intros; unfold ker; simpl; apply Rmult_1_l || (unfold bern; rewrite !Rmult_1_l; reflexivity)).
    unfold Rsum; simpl. rewrite P. unfold ker at 1 2. rewrite !bern_one. replace ((a + h - a) / h) with 1 by (field; lra).
    replace ((a - a) / h) with 0 by (field; lra). simpl. field.
  - rewrite IH; [|intros; apply D; auto; lia|].
    + rewrite Rsum_tab_S. rewrite (parts (S N)) by (auto; intros; apply D; auto).
      destruct (ker_ends N) as (-> & ->). simpl ((-1) ^ S N). ring.
    + intros t Ht. apply (ex_derive_continuous (K := R_AbsRing) (V := R_NormedModule)). eexists. apply D; auto.
Qed.
End Panel.

Lemma Rsum_tab_telescope : forall m (g : nat -> R), Rsum (tab m (fun i => g (S i) - g i)) = g m - g 0%nat.
Proof. induction m as [|m IH]; intro g; [unfold tab; simpl; unfold Rsum; simpl; ring|]. rewrite Rsum_tab_S, IH. ring. Qed.

Lemma Rsum_tab_zero : forall m (g : nat -> R), (forall i, (i < m)%nat -> g i = 0) -> Rsum (tab m g) = 0.
Proof. intros m g H. rewrite (Rsum_tab_ext m g (fun _ => 0)) by auto. rewrite Rsum_tab_const. ring. Qed.

Lemma Rsum_tab_swap : forall m n (g : nat -> nat -> R), Rsum (tab m (fun i => Rsum (tab n (fun k => g i k)))) = Rsum (tab n (fun k => Rsum (tab m (fun i => g i k)))).
Proof.
  induction m as [|m IH]; intros n g.
  - unfold tab at 1; simpl. unfold Rsum at 1; simpl. symmetry. apply Rsum_tab_zero. intros. unfold tab; simpl. reflexivity.
  - rewrite Rsum_tab_S, IH. rewrite <- Rsum_tab_plus. apply Rsum_tab_ext. intros i Hi. rewrite Rsum_tab_S. reflexivity.
Qed.

Theorem periodic_error : forall n lo up q (F : nat -> R -> R) M N, (2 <= n)%nat -> lo < up -> @uniform_generate RS n lo up = Ok q ->
  (1 <= N)%nat -> smooth lo up N F M -> (forall t, lo <= t <= up -> continuous (F N) t) ->
  (forall k, (1 <= k < N)%nat -> Nat.odd k = true -> F k lo = F k up) ->
  Rabs (apply_rule q (F 0%nat) - RInt (F 0%nat) lo up) <= (up - lo) * M * ((up - lo) / (2 * INR (n - 1))) ^ N.
Proof.
  intros n lo up q F M N Hn L Hq HN (D & B) C P. destruct n as [|m]; [lia|]. destruct N as [|N]; [lia|].
  assert (Hm : (1 <= m)%nat) by lia. assert (Pm : 0 < INR m) by (apply lt_0_INR; lia).
  replace (S m - 1)%nat with m by lia.
  set (h := (up - lo) / INR m). assert (Ph : 0 < h) by (apply Rdiv_lt_0_compat; lra).
  rewrite (uniform_textbook_m m lo up q (F 0%nat) Hm Hq), (panels m lo up (F 0%nat) Hm L).
  2:{ intros x Hx. apply (ex_derive_continuous (K := R_AbsRing) (V := R_NormedModule)). eexists. apply D; [lia|auto]. }
  set (c := fun i : nat => Rsum (tab N (fun k => (-1) ^ k * (h ^ S (S k) * bern (S (S k)) 0) * (F (S k) (ux m lo up (S i)) - F (S k) (ux m lo up i))))).
  set (r := fun i : nat => (-1) ^ N * RInt (fun t => ker (ux m lo up i) h (S N) t * F (S N) t) (ux m lo up i) (ux m lo up (S i))).
  assert (E : forall i, (i < m)%nat -> (up - lo) / INR m * (F 0%nat (ux m lo up i) + F 0%nat (ux m lo up (S i))) / 2 - RInt (F 0%nat) (ux m lo up i) (ux m lo up (S i)) = c i + r i).
  { intros i Hi. fold h. pose proof (ux_range m lo up i Hm ltac:(lia) L). pose proof (ux_range m lo up (S i) Hm ltac:(lia) L).
    unfold c, r. rewrite (ux_step m lo up i) in *. fold h in H0 |- *. apply panel_em; auto.
    - intros k t Hk Ht. apply D; [lia|lra].
    - intros t Ht. apply C. lra. }
  assert (Z : Rsum (tab m c) = 0).
  { unfold c. rewrite Rsum_tab_swap. apply Rsum_tab_zero. intros k Hk.
    rewrite Rsum_tab_mult_l, (Rsum_tab_telescope m (fun i => F (S k) (ux m lo up i))), ux_first, ux_last by auto.
    destruct (Nat.even k) eqn:Ek; [|rewrite (bern_odd k Ek); ring].
    rewrite (P (S k)); [ring|lia|]. rewrite Nat.odd_succ. exact Ek. }
  assert (T : Rsum (tab m (fun i => (up - lo) / INR m * (F 0%nat (ux m lo up i) + F 0%nat (ux m lo up (S i))) / 2))
     - Rsum (tab m (fun i => RInt (F 0%nat) (ux m lo up i) (ux m lo up (S i)))) = Rsum (tab m r) - Rsum (tab m (fun _ => 0))).
  { pose (g := (fun i => RInt (F 0%nat) (ux m lo up i) (ux m lo up (S i))) : nat -> R).
    change (fun i => RInt (F 0%nat) (ux m lo up i) (ux m lo up (S i))) with g.
    rewrite (Rsum_tab_ext m _ (fun i => g i + (c i + r i))).
    2:{ intros i Hi. pose proof (E i Hi) as Ei. change (RInt (F 0%nat) (ux m lo up i) (ux m lo up (S i))) with (g i) in Ei. 
        rewrite <- Ei. match goal with |- @eq _ ?a ?b => change (@eq R a b) end. ring. }
    rewrite (Rsum_tab_plus m g), (Rsum_tab_plus m c r), Z, Rsum_tab_const.
    change (Rsum (@tab R m g) + (0 + Rsum (tab m r)) - Rsum (@tab R m g) = Rsum (tab m r) - INR m * 0). ring. }
  rewrite T. eapply Rle_trans; [apply (Rsum_tab_abs_le m r (fun _ => 0) (h * ((h / 2) ^ S N * M)))|].
  - intros i Hi. rewrite Rminus_0_r. unfold r. rewrite Rabs_mult, <- RPow_abs, (Rabs_left (-1)) by lra. replace (- -1) with 1 by ring. rewrite pow1, Rmult_1_l.
    pose proof (ux_range m lo up i Hm ltac:(lia) L). pose proof (ux_range m lo up (S i) Hm ltac:(lia) L).
    rewrite (ux_step m lo up i) in *. fold h in H0 |- *. set (x := ux m lo up i) in *.
    assert (Cx : forall t, x <= t <= x + h -> continuous (fun t => ker x h (S N) t * F (S N) t) t).
    { intros t Ht. apply (continuous_mult (K := R_AbsRing)); [apply ker_cont; auto|apply C; lra]. }
    replace (h * ((h / 2) ^ S N * M)) with ((x + h - x) * ((h / 2) ^ S N * M)) by ring.
    apply (norm_RInt_le_const (V := R_NormedModule) (fun t => ker x h (S N) t * F (S N) t)); [lra| |].
    + intros t Ht. unfold norm; simpl. unfold abs; simpl. rewrite Rabs_mult. apply Rmult_le_compat; try apply Rabs_pos.
      * apply ker_small; auto.
      * apply B. lra.
    + apply (RInt_correct (V := R_CompleteNormedModule)). apply cont_int; [lra|exact Cx].
  - right. replace ((up - lo) / (2 * INR m)) with (h / 2) by (unfold h; field; lra). unfold h. field. lra.
Qed.
