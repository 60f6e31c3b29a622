(** The Gauss-Legendre rule: success, accuracy, uniqueness of the ideal rule. *)
From Coq Require Import List Bool Arith ZArith Lia Reals Lra Psatz.
From Coquelicot Require Import Coquelicot.
From Verif Require Import Base.Outcome Base.Scalar Base.RScalar Model.Primitive Spec.Sums Spec.RealRules
  Spec.LegendreSpec Proofs.Tab Proofs.SumFacts Proofs.PrimitiveFacts Proofs.ChebReal Proofs.ChebInt
  Proofs.ChebExact Proofs.Legendre Proofs.LegendreZeros Proofs.LegendreAngles Proofs.GLNewton.
Import ListNotations.
Local Open Scope R_scope.

(** ** The Legendre evaluation *)
Lemma Pn_legendre : forall n, exists p, legendre_polynomial n p /\ forall x, peval p x = Pn n x.
Proof.
  intro n. destruct (Pn_poly n) as (p & A & B). exists p. split; [|intro; symmetry; apply B].
  split; [unfold deg_le; lia|]. split; [rewrite <- B; apply Pn_1|].
  intros s Hs. apply (is_RInt_ext (fun x => Pn n x * peval s x)); [intros x _; rewrite B; reflexivity|].
  apply (span_orth n (length s)); auto. apply span_peval.
Qed.

Lemma ispoly_mult : forall d e f g, ispoly d f -> ispoly e g -> ispoly (pred (d + e)) (fun x => f x * g x).
Proof.
  intros d e f g (p & L & E) Hg. revert d f L E. induction p as [|a p IH]; intros d f L E.
  - apply (ispoly_ext _ (fun _ => 0)); [exists []; split; [simpl; lia|auto]|]. intro x. rewrite E. simpl. ring.
  - simpl in L. destruct d as [|d]; [lia|]. cbn [Nat.add pred].
    apply (ispoly_ext _ (fun x => a * g x + x * (peval p x * g x))).
    2:{ intro x. rewrite E. simpl. ring. }
    destruct p as [|b p].
    + apply (ispoly_ext _ (fun x => a * g x)); [|intro; simpl; ring].
      apply (ispoly_weaken e); [apply ispoly_scal; auto|lia].
    + apply ispoly_add.
      * apply (ispoly_weaken e); [apply ispoly_scal; auto|lia].
      * destruct d as [|d]; [simpl in L; lia|]. replace (S d + e)%nat with (S (d + e)) by lia.
        apply ispoly_x. apply (IH (S d)); [simpl in *; lia|auto].
Qed.

Lemma sq_int_zero : forall n f, span n f -> is_RInt (fun x => f x * f x) (-1) 1 0 -> forall x, f x = 0.
Proof.
  induction n as [|n IH]; intros f Hf Hi.
  - destruct Hf as (c & E). intro x. rewrite E. reflexivity.
  - destruct (span_S n f Hf) as (c & g & Hg & E).
    assert (K : is_RInt (fun x => Pn n x * f x) (-1) 1 (c * (2 / (2 * INR n + 1)))).
    { apply (is_RInt_ext (fun x => c * (Pn n x * Pn n x) + 1 * (Pn n x * g x))); [intros x _; req; rewrite E; ring|].
      evar_last; [apply is_RInt_lin; [apply Pn_norm|apply (span_orth n n); auto]|]. req. ring. }
    assert (G : exists I, is_RInt (fun x => g x * g x) (-1) 1 I /\ 0 <= I).
    { assert (Hc : forall x, continuous (fun x => g x * g x) x).
      { intro x. pose proof (ispoly_cont _ g x (poly_span n g Hg)).
        apply (continuous_mult (K := R_AbsRing)); auto. }
      exists (RInt (fun x => g x * g x) (-1) 1). split.
      - apply (RInt_correct (V := R_CompleteNormedModule)), (ex_RInt_continuous (V := R_CompleteNormedModule)). auto.
      - apply RInt_ge_0; [lra| |intros; nra]. apply (ex_RInt_continuous (V := R_CompleteNormedModule)). auto. }
    destruct G as (I & GI & I0).
    assert (Q : is_RInt (fun x => f x * f x) (-1) 1 (c * c * (2 / (2 * INR n + 1)) + I)).
    { apply (is_RInt_ext (fun x => 1 * (c * c * (Pn n x * Pn n x) + 2 * c * (Pn n x * g x)) + 1 * (g x * g x)));
        [intros x _; req; rewrite E; ring|].
      pose proof (is_RInt_lin _ _ (c * c) (2 * c) _ _ _ _ (Pn_norm n) (span_orth n n g Hg (le_n n))) as Q1.
      pose proof (is_RInt_lin _ _ 1 1 _ _ _ _ Q1 GI) as Q2. cbv beta in Q2.
      evar_last; [exact Q2|]. req. ring. }
    pose proof (is_RInt_unique _ _ _ _ Hi) as U1. pose proof (is_RInt_unique _ _ _ _ Q) as U2.
    assert (U : c * c * (2 / (2 * INR n + 1)) + I = 0) by congruence.
    assert (0 < 2 / (2 * INR n + 1)) by (apply Rdiv_lt_0_compat; pose proof (pos_INR n); lra).
    assert (C0 : c = 0).
    { destruct (Req_dec c 0) as [|Nc]; auto. assert (0 < c * c) by nra.
      assert (0 < c * c * (2 / (2 * INR n + 1))) by (apply Rmult_lt_0_compat; auto). lra. }
    subst c.
    assert (Eg : forall x, f x = g x) by (intro; rewrite E; ring).
    intro x. rewrite Eg. apply IH; auto.
    apply (is_RInt_ext (fun x => f x * f x)); [intros y _; rewrite !Eg; auto|exact Hi].
Qed.

Lemma legendre_unique : forall n p q, legendre_polynomial n p -> legendre_polynomial n q ->
  forall x, peval p x = peval q x.
Proof.
  assert (K : forall n p, legendre_polynomial n p -> forall x, peval p x = Pn n x).
  { intros n p (A & B & C).
    assert (Sp : span (S n) (peval p)).
    { apply span_poly. exists p. split; auto. unfold deg_le in A. lia. }
    destruct (span_S n _ Sp) as (c & g & Hg & E).
    assert (G0 : forall x, g x = 0).
    { apply (sq_int_zero n g Hg). destruct (poly_span n g Hg) as (s & Ls & Es).
      pose proof (C s Ls) as I1.
      pose proof (span_orth n n g Hg (le_n n)) as I2.
      apply (is_RInt_ext (fun x => 1 * (peval p x * peval s x) + (- c) * (Pn n x * g x))).
      { intros x _. req. rewrite <- Es, E. ring. }
      evar_last; [apply is_RInt_lin; [exact I1|exact I2]|]. req. ring. }
    assert (c = 1).
    { rewrite E, G0, Pn_1 in B. lra. }
    subst c. intro x. rewrite E, G0. ring. }
  intros n p q Hp Hq x. rewrite (K n p Hp), (K n q Hq). reflexivity.
Qed.

Lemma legendre_Pn : forall n p, legendre_polynomial n p -> forall x, peval p x = Pn n x.
Proof.
  intros n p Hp x. destruct (Pn_legendre n) as (q & Hq & E). rewrite <- E. apply (legendre_unique n); auto.
Qed.

Lemma legendre_eval : forall n p x v d u, legendre_polynomial n p -> @eval_Pn RS x n = (v, d, u) ->
  v = peval p x /\ (x <> 1 -> x <> -1 -> is_derive (peval p) x d) /\
  (forall n' p', n = S n' -> legendre_polynomial n' p' -> u = peval p' x).
Proof.
  intros n p x v d u Hp E. rewrite eval_Pn_real in E. injection E as <- <- <-.
  pose proof (legendre_Pn n p Hp) as P. split; [rewrite P; reflexivity|]. split.
  - intros X1 X2. rewrite eval_dP by nra. apply (is_derive_ext (Pn n)); [intro; symmetry; apply P|]. apply Pn_derive.
  - intros n' p' -> Hp'. rewrite (legendre_Pn n' p' Hp'). reflexivity.
Qed.

Lemma legendre_ode : forall n p, legendre_polynomial n p -> exists d1 d2, forall x,
  is_derive (peval p) x (d1 x) /\ is_derive d1 x (d2 x) /\
  (1 - x ^ 2) * d2 x - 2 * x * d1 x + INR n * (INR n + 1) * peval p x = 0.
Proof.
  intros n p Hp. pose proof (legendre_Pn n p Hp) as P. exists (dP n), (Derive (dP n)). intro x.
  split; [|split].
  - apply (is_derive_ext (Pn n)); [intro; symmetry; apply P|]. apply Pn_derive.
  - apply Derive_correct, dP_ex.
  - replace (x ^ 2) with (x * x) by ring. rewrite leg_ode2, P. ring.
Qed.

Lemma legendre_bound : forall n p, legendre_polynomial n p ->
  forall x, -1 <= x <= 1 -> Rabs (peval p x) <= 1.
Proof. intros n p Hp x Hx. rewrite (legendre_Pn n p Hp). apply Pn_bound; auto. Qed.

Lemma legendre_exists : forall n, exists p, legendre_polynomial n p.
Proof. intro n. destruct (Pn_legendre n) as (p & H & _). eauto. Qed.

Lemma legendre_second : legendre_polynomial 2 [-1 / 2; 0; 3 / 2].
Proof.
  destruct (Pn_legendre 2) as (p & (A & B & C) & E). split; [unfold deg_le; simpl; lia|]. split; [simpl; lra|].
  intros s Hs. apply (is_RInt_ext (fun x => peval p x * peval s x)); [|apply C; auto].
  intros x _. rewrite E. req. simpl. field.
Qed.

(** ** The ideal rule *)
Lemma Rsum_tab_single : forall n i c, (i < n)%nat -> Rsum (tab n (fun j => if Nat.eqb j i then c else 0)) = c.
Proof.
  induction n as [|n IH]; intros i c Hi; [lia|]. rewrite Rsum_tab_S. destruct (Nat.eqb_spec n i) as [->|Hne].
  - rewrite (Rsum_tab_ext i _ (fun _ => 0)); [rewrite Rsum_tab_const; ring|].
    intros j Hj. destruct (Nat.eqb_spec j i); [lia|auto].
  - rewrite IH by lia. ring.
Qed.

Definition ideal (n : nat) (z : nat -> R) : list R * list R := (tab n z, tab n (fun i => gauss_w n (z i))).

Lemma ideal_gauss : forall n z, (1 <= n)%nat -> zeros n z -> gauss_rule n (ideal n z).
Proof.
  intros n z Hn Hz. split.
  - apply good_tab; [apply Hz|intros; apply (gauss_w_pos n z); auto|apply Hz].
  - intros p Hp. unfold ideal. rewrite rule_tab. apply (gauss_exact n z); auto. exists p. split; auto.
Qed.

Lemma gauss_rule_nodes : forall n x w, gauss_rule n (tab n x, tab n w) -> zeros n x /\
  forall i, (i < n)%nat -> w i = gauss_w n (x i).
Proof.
  intros n x w (G & Ex). destruct (Nat.eq_dec n 0) as [->|Hn0].
  { split; [split; [|split]; intros; lia|intros; lia]. }
  destruct G as (_ & _ & G3 & G4 & G5). cbn [fst snd] in *.
  assert (Z1 : forall i, (i < n)%nat -> -1 < x i < 1) by (intros i Hi; apply G4, In_tab; eauto).
  assert (W0 : forall i, (i < n)%nat -> 0 < w i) by (intros i Hi; apply G5, In_tab; eauto).
  assert (Z2 : forall i j, (i < j < n)%nat -> x i < x j).
  { intros i j Hij. apply (G3 i j); [lia| |]; apply nth_error_tab; lia. }
  assert (ND : forall i j, (i < j < n)%nat -> x i <> x j) by (intros i j Hij; specialize (Z2 i j Hij); lra).
  assert (ND' : forall i j, (i < n)%nat -> (j < n)%nat -> i <> j -> x i <> x j).
  { intros i j Hi Hj Hij. destruct (Nat.lt_total i j) as [L|[L|L]]; [apply ND; lia|lia|intro E; apply (ND j i); [lia|auto]]. }
  assert (Exf : forall f, ispoly (2 * n) f -> is_RInt f (-1) 1 (Rsum (tab n (fun i => w i * f (x i))))).
  { intros f (p & Lp & Ep). apply (is_RInt_ext (peval p)); [intros t _; symmetry; apply Ep|].
    rewrite (Rsum_tab_ext n _ (fun i => w i * peval p (x i))) by (intros; rewrite Ep; auto).
    rewrite <- rule_tab. apply Ex; auto. }
  assert (PP : forall k, ispoly (S k) (prod k x)).
  { induction k as [|k IH]; [apply ispoly_const|].
    apply (ispoly_ext _ (fun t => t * prod k x t + (- x k) * prod k x t)); [|intro; simpl; ring].
    apply ispoly_add; [apply ispoly_x; auto|]. apply (ispoly_weaken (S k)); [apply ispoly_scal; auto|lia]. }
  assert (P0 : forall k i, (i < k)%nat -> prod k x (x i) = 0).
  { induction k as [|k IH]; intros i Hi; [lia|]. simpl. destruct (Nat.eq_dec i k) as [->|]; [ring|].
    rewrite IH by lia. ring. }
  assert (Z3 : forall i, (i < n)%nat -> Pn n (x i) = 0).
  { intros i Hi. destruct (PP n) as (p & Lp & Ep).
    set (l := sdiv (x i) p).
    assert (El : forall t, prod n x t = (t - x i) * peval l t).
    { intro t. rewrite Ep, (sdiv_eval (x i) p t), <- Ep, P0 by auto. fold l. ring. }
    assert (Ll : ispoly n (peval l)).
    { exists l. split; auto. unfold l. rewrite sdiv_len. lia. }
    assert (Lj : forall j, (j < n)%nat -> j <> i -> peval l (x j) = 0).
    { intros j Hj Hij. pose proof (El (x j)) as E. rewrite P0 in E by auto. specialize (ND' j i Hj Hi Hij).
      symmetry in E. apply Rmult_integral in E. destruct E; [lra|auto]. }
    assert (Li : peval l (x i) <> 0).
    { intro E0. assert (Q : forall t, peval l t = 0).
      { apply (zero_poly n (peval l) x Ll ND). intros j Hj. destruct (Nat.eq_dec j i) as [->|]; auto. }
      pose proof (prod_pos n x 2) as Pp. rewrite El, Q in Pp. assert (0 < (2 - x i) * 0); [apply Pp|lra].
      intros j Hj. specialize (Z1 j Hj). lra. }
    pose proof (Exf (fun t => Pn n t * peval l t)) as I1.
    pose proof (span_orth n n (peval l) (span_poly n _ Ll) (le_n n)) as I2.
    assert (I3 : Rsum (tab n (fun j => w j * (Pn n (x j) * peval l (x j)))) = 0).
    { rewrite <- (is_RInt_unique _ _ _ _ I2). symmetry. apply is_RInt_unique. apply I1.
      apply (ispoly_weaken (pred (S n + n))); [apply ispoly_mult; [apply Pn_poly|auto]|lia]. }
    rewrite (Rsum_tab_ext n _ (fun j => if Nat.eqb j i then w i * (Pn n (x i) * peval l (x i)) else 0)) in I3.
    2:{ intros j Hj. destruct (Nat.eqb_spec j i) as [->|Hij]; auto. rewrite (Lj j Hj Hij). ring. }
    rewrite (Rsum_tab_single n i) in I3 by auto.
    specialize (W0 i Hi). apply Rmult_integral in I3. destruct I3 as [I3|I3]; [lra|].
    apply Rmult_integral in I3. destruct I3; [auto|contradiction]. }
  assert (ZZ : zeros n x) by (split; [|split]; auto).
  split; auto. intros i Hi.
  pose proof (kern_int n (x i) ltac:(lia)) as I1.
  assert (I2 : Rsum (tab n (fun j => w j * kern n (x i) (x j))) = 2).
  { rewrite <- (is_RInt_unique _ _ _ _ I1). symmetry. apply is_RInt_unique. apply Exf.
    apply (ispoly_weaken n); [|lia]. apply poly_span, kern_span. }
  rewrite (Rsum_tab_ext n _ (fun j => if Nat.eqb j i then w i * kern n (x i) (x i) else 0)) in I2.
  2:{ intros j Hj. destruct (Nat.eqb_spec j i) as [->|Hij]; auto. rewrite kern_off; [ring|auto|auto|].
      intro E. apply (ND' i j); auto. }

  rewrite (Rsum_tab_single n i) in I2 by auto. rewrite kern_diag in I2 by auto.
  pose proof (zero_slope n (x i) ltac:(lia) (Z3 i Hi)) as ZS. unfold gauss_w. rewrite <- I2. unfold Rdiv.
  rewrite Rmult_assoc, Rinv_r by lra. ring.
Qed.

Lemma gauss_rule_unique : forall n q q', gauss_rule n q -> gauss_rule n q' -> q = q'.
Proof.
  assert (T : forall n q, gauss_rule n q -> exists x w, q = (tab n x, tab n w)).
  { intros n [xs ws] ((A & B & _) & _). cbn [fst snd] in A, B.
    exists (fun i => nth i xs 0), (fun i => nth i ws 0). rewrite (list_tab xs 0), (list_tab ws 0) at 1. rewrite A, B. auto. }
  intros n q q' Hq Hq'. destruct (T n q Hq) as (x & w & ->). destruct (T n q' Hq') as (x' & w' & ->).
  destruct (gauss_rule_nodes n x w Hq) as (Z & W). destruct (gauss_rule_nodes n x' w' Hq') as (Z' & W').
  pose proof (zeros_unique n x x' Z Z') as U. f_equal; apply tab_ext; auto.
  intros i Hi. rewrite W, W', U by auto. reflexivity.
Qed.

(** ** The generated rule *)
Definition gl_nodes (n : nat) (v : nat -> R * R) (j : nat) : R :=
  if Nat.leb (n / 2) j then fst (v (n - 1 - j)%nat) else - fst (v j).
Definition gl_weights (n : nat) (v : nat -> R * R) (j : nat) : R :=
  if Nat.leb (n / 2) j then @gl_w RS (v (n - 1 - j)%nat) else @gl_w RS (v j).

Lemma half_cases : forall n, (n = 2 * (n / 2) \/ n = 2 * (n / 2) + 1)%nat.
Proof. intro n. destruct (Nat.odd n) eqn:Ho; [pose proof (odd_half n Ho)|pose proof (even_half n Ho)]; lia. Qed.

Section Gen.
Variables (n : nat) (z : nat -> R) (v : nat -> R * R).
Hypothesis Hz : zeros n z.
Hypothesis Hv : forall k, (k < n - n / 2)%nat -> gl_res n z k (v k).

Lemma gen_ok : @gl_generate RS n = Ok (tab n (gl_nodes n v), tab n (gl_weights n v)).
Proof. apply (gl_generate_Ok (S := RS) n v). intros k Hk. apply Hv; auto. Qed.

Lemma res_incr : forall k k', (k < k' < n - n / 2)%nat -> fst (v k') < fst (v k).
Proof.
  intros k k' H. pose proof (half_cases n).
  destruct (Hv k ltac:(lia)) as (_ & A & _). destruct (Hv k' ltac:(lia)) as (_ & B & _).
  apply Rle_lt_trans with (cos (phi n k')); [lra|].
  apply Rle_lt_trans with (cos (phi n (S k))); [|pose proof (next_below n z Hz k ltac:(lia)); lra].
  destruct (Nat.eq_dec k' (S k)) as [->|Hne]; [lra|].
  pose proof (phi_range n z Hz k' ltac:(lia)). pose proof (phi_range n z Hz (S k) ltac:(lia)). pose proof PI_RGT_0.
  left. apply cos_dec; try lra. unfold phi. apply Rmult_lt_compat_r.
  - apply Rdiv_lt_0_compat; [lra|apply NN_pos].
  - apply Rplus_lt_compat_r, lt_INR. lia.
Qed.

Lemma res_sign : forall k, (k < n - n / 2)%nat -> 0 <= fst (v k) < 1 /\ ((k < n / 2)%nat -> 0 < fst (v k)).
Proof.
  intros k Hk. pose proof (half_cases n). destruct (Hv k Hk) as (_ & _ & _ & A & B & C & _).
  destruct (Nat.eq_dec (2 * k + 1) n) as [E|E].
  - rewrite (A E). split; [lra|]. intro. lia.
  - specialize (C ltac:(lia)). split; [lra|auto].
Qed.

Lemma nodes_incr : forall i j, (i < j < n)%nat -> gl_nodes n v i < gl_nodes n v j.
Proof.
  intros i j H. pose proof (half_cases n). unfold gl_nodes.
  destruct (Nat.leb_spec (n / 2) i); destruct (Nat.leb_spec (n / 2) j); try lia.
  - apply res_incr. lia.
  - destruct (res_sign i ltac:(lia)) as (_ & A). destruct (res_sign (n - 1 - j) ltac:(lia)) as (B & _).
    specialize (A ltac:(lia)). lra.
  - pose proof (res_incr i j ltac:(lia)). lra.
Qed.

Lemma nodes_range : forall i, (i < n)%nat -> -1 < gl_nodes n v i < 1.
Proof.
  intros i H. pose proof (half_cases n). unfold gl_nodes. destruct (Nat.leb_spec (n / 2) i).
  - destruct (res_sign (n - 1 - i) ltac:(lia)) as (A & _). lra.
  - destruct (res_sign i ltac:(lia)) as (A & _). lra.
Qed.

Lemma weights_pos : forall i, (i < n)%nat -> 0 < gl_weights n v i.
Proof.
  intros i H. pose proof (half_cases n). unfold gl_weights. destruct (Nat.leb_spec (n / 2) i); apply Hv; lia.
Qed.

Lemma gen_sym : forall i j, (i + j + 1 = n)%nat -> gl_nodes n v j = - gl_nodes n v i /\ gl_weights n v j = gl_weights n v i.
Proof.
  intros i j H. pose proof (half_cases n). unfold gl_nodes, gl_weights.
  destruct (Nat.leb_spec (n / 2) i); destruct (Nat.leb_spec (n / 2) j); try lia.
  - replace (n - 1 - j)%nat with i by lia. replace (n - 1 - i)%nat with j by lia. assert (i = j) by lia. subst j.
    split; auto. destruct (Hv i ltac:(lia)) as (_ & _ & _ & A & _). rewrite A by lia. ring.
  - replace (n - 1 - i)%nat with j by lia. auto.
  - replace (n - 1 - j)%nat with i by lia. split; auto. ring.
Qed.

Lemma nodes_near : forall i, (i < n)%nat -> Rabs (gl_nodes n v i - z i) <= tol.
Proof.
  intros i H. pose proof (half_cases n). unfold gl_nodes. destruct (Nat.leb_spec (n / 2) i).
  - destruct (Hv (n - 1 - i) ltac:(lia)) as (_ & A & B & _). unfold rt in A, B.
    replace (n - 1 - (n - 1 - i))%nat with i in A, B by lia. unfold eps52 in B. fold tol in B.
    rewrite Rabs_pos_eq; lra.
  - destruct (Hv i ltac:(lia)) as (_ & A & B & _). unfold rt in A, B.
    rewrite (zeros_sym n z i Hz) in A, B by lia. unfold eps52 in B. fold tol in B. rewrite Rabs_left1; lra.
Qed.

Lemma gauss_w_opp : forall m r, gauss_w m (- r) = gauss_w m r.
Proof.
  intros m r. unfold gauss_w. rewrite dP_opp.
  replace ((1 - - r * - r) * - ((-1) ^ m * dP m r) * - ((-1) ^ m * dP m r)) with ((1 - r * r) * dP m r * dP m r); auto.
  symmetry. transitivity ((1 - r * r) * (dP m r * dP m r) * ((-1) ^ m * (-1) ^ m)); [ring|]. rewrite pow_m1_sq. ring.
Qed.

Lemma weights_near : forall i, (i < n)%nat ->
  Rabs (gl_weights n v i - gauss_w n (z i)) <= 2 * ((INR n + 1) * (INR n + 1)) * tol * gauss_w n (z i).
Proof.
  intros i H. pose proof (half_cases n). unfold gl_weights. destruct (Nat.leb_spec (n / 2) i).
  - destruct (Hv (n - 1 - i) ltac:(lia)) as (_ & _ & _ & _ & _ & _ & _ & A). unfold rt in A.
    replace (n - 1 - (n - 1 - i))%nat with i in A by lia. exact A.
  - destruct (Hv i ltac:(lia)) as (_ & _ & _ & _ & _ & _ & _ & A). unfold rt in A.
    rewrite (zeros_sym n z i Hz), gauss_w_opp in A by lia. exact A.
Qed.
End Gen.

Lemma rule_close_tab : forall n x w y v dx dw, (forall i, (i < n)%nat -> Rabs (x i - y i) <= dx) ->
  (forall i, (i < n)%nat -> Rabs (w i - v i) <= dw * v i) ->
  rule_close dx dw (tab n x, tab n w) (tab n y, tab n v).
Proof.
  intros n x w y v dx dw A B. unfold rule_close. cbn [fst snd]. rewrite !tab_length. split; auto. split; auto.
  split; intros i a b Ha Hb.
  - assert (i < n)%nat by (rewrite <- (tab_length n x); apply nth_error_Some; congruence).
    rewrite nth_error_tab in Ha, Hb by auto. injection Ha as <-. injection Hb as <-. auto.
  - assert (i < n)%nat by (rewrite <- (tab_length n w); apply nth_error_Some; congruence).
    rewrite nth_error_tab in Ha, Hb by auto. injection Ha as <-. injection Hb as <-. auto.
Qed.

Lemma gl_main : forall n, (1 <= n)%nat -> exists q g, @gl_generate RS n = Ok q /\ gauss_rule n g /\
  good_rule n (-1) 1 q /\ symmetric_rule q /\ rule_close tol (2 * ((INR n + 1) * (INR n + 1)) * tol) q g.
Proof.
  intros n Hn. destruct (zeros_exist n) as (z & Hz). destruct (gl_results n z Hz) as (v & Hv).
  exists (tab n (gl_nodes n v), tab n (gl_weights n v)), (ideal n z).
  split; [apply (gen_ok n z); auto|]. split; [apply ideal_gauss; auto|]. split; [|split].
  - apply good_tab; [apply (nodes_range n z); auto|apply (weights_pos n z); auto|apply (nodes_incr n z); auto].
  - apply symmetric_tab. apply (gen_sym n z); auto.
  - apply rule_close_tab; [apply (nodes_near n z); auto|apply (weights_near n z); auto].
Qed.

Lemma gl_succeeds : forall n, exists q, @gl_generate RS n = Ok q.
Proof.
  intro n. destruct n as [|n]; [eexists; reflexivity|]. destruct (gl_main (S n) ltac:(lia)) as (q & g & E & _). eauto.
Qed.

Lemma gl_good : forall n q, (1 <= n)%nat -> @gl_generate RS n = Ok q ->
  good_rule n (-1) 1 q /\ symmetric_rule q.
Proof.
  intros n q Hn H. destruct (gl_main n Hn) as (q' & g & E & _ & A & B & _). rewrite H in E. injection E as <-. auto.
Qed.

Lemma gl_close : forall n q g, (1 <= n)%nat -> @gl_generate RS n = Ok q -> gauss_rule n g ->
  rule_close tol (2 * (INR n + 1) ^ 2 * tol) q g.
Proof.
  intros n q g Hn H Hg. destruct (gl_main n Hn) as (q' & g' & E & G & _ & _ & C). rewrite H in E. injection E as <-.
  rewrite (gauss_rule_unique n g g' Hg G). replace ((INR n + 1) ^ 2) with ((INR n + 1) * (INR n + 1)) by ring. exact C.
Qed.

Lemma gauss_exists : forall n, (1 <= n)%nat -> exists g, gauss_rule n g.
Proof. intros n Hn. destruct (gl_main n Hn) as (q & g & _ & G & _). eauto. Qed.

Lemma gauss_zeros : forall n g p, gauss_rule n g -> legendre_polynomial n p ->
  forall x, In x (fst g) <-> peval p x = 0.
Proof.
  intros n g p Hg Hp x. rewrite (legendre_Pn n p Hp).
  assert (T : exists y w, g = (tab n y, tab n w)).
  { destruct g as [xs ws]. destruct Hg as ((A & B & _) & _). cbn [fst snd] in A, B.
    exists (fun i => nth i xs 0), (fun i => nth i ws 0). rewrite (list_tab xs 0), (list_tab ws 0) at 1. rewrite A, B. auto. }
  destruct T as (y & w & ->). cbn [fst]. destruct (gauss_rule_nodes n y w Hg) as (Z & _). rewrite In_tab. split.
  - intros (i & Hi & ->). apply Z; auto.
  - intro E. destruct (zeros_all n y x Z E) as (i & Hi & Ei). eauto.
Qed.

(** Error of a rule close to another one, for a differentiable integrand. *)
Lemma close_error : forall n dx dw x w y v (f f1 : R -> R) A B, 0 <= dx ->
  (forall i, (i < n)%nat -> -1 <= x i <= 1) -> (forall i, (i < n)%nat -> -1 <= y i <= 1) ->
  (forall i, (i < n)%nat -> 0 <= v i) ->
  (forall i, (i < n)%nat -> Rabs (x i - y i) <= dx) -> (forall i, (i < n)%nat -> Rabs (w i - v i) <= dw * v i) ->
  (forall t, -1 <= t <= 1 -> is_derive f t (f1 t)) -> (forall t, -1 <= t <= 1 -> Rabs (f t) <= A) ->
  (forall t, -1 <= t <= 1 -> Rabs (f1 t) <= B) ->
  Rabs (Rsum (tab n (fun i => w i * f (x i))) - Rsum (tab n (fun i => v i * f (y i)))) <=
  (dw * A + dx * B) * Rsum (tab n v).
Proof.
  intros n dx dw x w y v f f1 A B H0 Hx Hy Hv Dx Dw Df FA FB.
  induction n as [|n IH].
  - unfold tab, Rsum; simpl. rewrite Rminus_0_r, Rabs_R0. lra.
  - rewrite !Rsum_tab_S. specialize (IH (fun i Hi => Hx i ltac:(lia)) (fun i Hi => Hy i ltac:(lia))
      (fun i Hi => Hv i ltac:(lia)) (fun i Hi => Dx i ltac:(lia)) (fun i Hi => Dw i ltac:(lia))).
    match goal with |- Rabs (?a + ?b - (?c + ?d)) <= _ => replace (a + b - (c + d)) with ((a - c) + (b - d)) by ring end.
    eapply Rle_trans; [apply Rabs_triang|]. rewrite Rmult_plus_distr_l. apply Rplus_le_compat; auto.
    pose proof (Hx n ltac:(lia)) as X. pose proof (Hy n ltac:(lia)) as Y. pose proof (Hv n ltac:(lia)) as V.
    pose proof (Dx n ltac:(lia)) as DX. pose proof (Dw n ltac:(lia)) as DW.
    replace (w n * f (x n) - v n * f (y n)) with ((w n - v n) * f (x n) + v n * (f (x n) - f (y n))) by ring.
    eapply Rle_trans; [apply Rabs_triang|]. rewrite !Rabs_mult, (Rabs_pos_eq (v n)) by auto.
    pose proof (FA (x n) X) as FX. pose proof (Rabs_pos (f (x n))). pose proof (Rabs_pos (w n - v n)).
    assert (D : Rabs (f (x n) - f (y n)) <= dx * B).
    { destruct (MVT_gen f (y n) (x n) f1) as (c & Hc & E).
      - intros t Ht. apply Df. unfold Rmin, Rmax in Ht. destruct (Rle_dec (y n) (x n)); lra.
      - intros t Ht. apply derivable_continuous_pt. exists (f1 t). apply is_derive_Reals. apply Df.
        unfold Rmin, Rmax in Ht. destruct (Rle_dec (y n) (x n)); lra.
      - rewrite E, Rabs_mult, Rmult_comm. apply Rmult_le_compat; try apply Rabs_pos; auto.
        apply FB. unfold Rmin, Rmax in Hc. destruct (Rle_dec (y n) (x n)); lra. }
    assert (Rabs (w n - v n) * Rabs (f (x n)) <= dw * v n * A) by (apply Rmult_le_compat; auto).
    assert (v n * Rabs (f (x n) - f (y n)) <= v n * (dx * B)) by (apply Rmult_le_compat_l; auto).
    nra.
Qed.

Lemma gl_error : forall n q g (f f1 : R -> R) A B, (1 <= n)%nat -> @gl_generate RS n = Ok q -> gauss_rule n g ->
  (forall t, -1 <= t <= 1 -> is_derive f t (f1 t)) -> (forall t, -1 <= t <= 1 -> Rabs (f t) <= A) ->
  (forall t, -1 <= t <= 1 -> Rabs (f1 t) <= B) ->
  Rabs (apply_rule q f - apply_rule g f) <= (4 * (INR n + 1) ^ 2 * A + 2 * B) * tol.
Proof.
  intros n q g f f1 A B Hn H Hg Df FA FB.
  destruct (zeros_exist n) as (z & Hz). destruct (gl_results n z Hz) as (v & Hv).
  rewrite (gauss_rule_unique n g (ideal n z) Hg (ideal_gauss n z Hn Hz)).
  rewrite (gen_ok n z v Hv) in H. injection H as <-. unfold ideal. rewrite !rule_tab.
  assert (S2 : Rsum (tab n (fun i => gauss_w n (z i))) = 2).
  { pose proof (gauss_exact n z (fun _ => 1) Hn Hz) as G.
    rewrite (Rsum_tab_ext n _ (fun i => gauss_w n (z i) * 1)) by (intros; ring).
    assert (C : is_RInt (fun _ : R => 1) (-1) 1 2).
    { evar_last; [apply (is_RInt_const (V := R_NormedModule))|]. unfold scal; simpl; unfold mult; simpl; req; ring. }
    rewrite <- (is_RInt_unique _ _ _ _ C). symmetry. apply is_RInt_unique. apply G.
    apply (ispoly_weaken 1); [apply ispoly_const|lia]. }
  pose proof (close_error n tol (2 * ((INR n + 1) * (INR n + 1)) * tol) (gl_nodes n v) (gl_weights n v) z
     (fun i => gauss_w n (z i)) f f1 A B) as C.
  eapply Rle_trans; [apply C; auto|].
  - left; apply Rinv_0_lt_compat, pow_lt; lra.
  - intros i Hi. pose proof (nodes_range n z v Hv i Hi). lra.
  - intros i Hi. pose proof (proj1 Hz i Hi). lra.
  - intros i Hi. left. apply gauss_w_pos; auto.
  - apply (nodes_near n z v); auto.
  - apply (weights_near n z v); auto.
  - rewrite S2. apply Req_le. ring.
Qed.

Lemma gl_poly_error : forall n q p A B, (1 <= n)%nat -> @gl_generate RS n = Ok q -> deg_le p (2 * n - 1) ->
  (forall t, -1 <= t <= 1 -> Rabs (peval p t) <= A) -> (forall t, -1 <= t <= 1 -> Rabs (Derive (peval p) t) <= B) ->
  Rabs (apply_rule q (peval p) - RInt (peval p) (-1) 1) <= (4 * (INR n + 1) ^ 2 * A + 2 * B) * tol.
Proof.
  intros n q p A B Hn H Hp HA HB. destruct (gauss_exists n Hn) as (g & Hg).
  assert (E : RInt (peval p) (-1) 1 = apply_rule g (peval p)).
  { apply is_RInt_unique. apply Hg. unfold deg_le in Hp. lia. }
  rewrite E. apply (gl_error n q g (peval p) (Derive (peval p))); auto.
  intros t _. apply Derive_correct. clear. induction p as [|a p IH]; [apply ex_derive_const|]. simpl.
  apply (ex_derive_plus (K := R_AbsRing) (V := R_NormedModule) (fun _ => a) (fun x => x * peval p x)); [apply ex_derive_const|].
  apply (ex_derive_mult (fun x => x) (peval p)); [apply ex_derive_id|apply IH].
Qed.

Lemma gl_no_convergence : forall (S : Scalar) n,
  (exists q, @gl_generate S n = Ok q /\ length (fst q) = n /\ length (snd q) = n /\
     forall idx, (idx < n - n / 2)%nat -> @gl_newton S n 100 (gl_guess n idx) <> None) \/
  ((exists idx, (idx < n - n / 2)%nat /\ @gl_newton S n 100 (gl_guess n idx) = None) /\
   @gl_generate S n = Throw ExRuntime).
Proof.
  intros S n. destruct (gl_choice (S := S) n) as [(r & Hr)|(i & Hi & E)].
  - left. eexists. split; [apply gl_generate_Ok; eauto|]. cbn [fst snd]. rewrite !tab_length. repeat split; auto.
    intros i Hi. rewrite Hr; auto. discriminate.
  - right. split; eauto. eapply gl_generate_Throw; eauto.
Qed.

Lemma gauss_two : gauss_rule 2 ([- / sqrt 3; / sqrt 3], [1; 1]).
Proof.
  assert (S3 : sqrt 3 * sqrt 3 = 3) by (apply sqrt_sqrt; lra).
  assert (P3 : 0 < sqrt 3) by (apply sqrt_lt_R0; lra).
  assert (S1 : 1 < sqrt 3) by nra.
  set (y := / sqrt 3). assert (Ey : y * y = / 3) by (unfold y; rewrite <- Rinv_mult_distr, S3 by lra; auto).
  assert (P : 0 < y) by (apply Rinv_0_lt_compat; auto).
  assert (Y1 : y < 1) by nra.
  set (z := fun i => match i with O => - y | _ => y end).
  assert (Zp : Pn 2 y = 0).
  { transitivity ((3 * (y * y) - 1) / 2); [simpl; field|]. rewrite Ey. field. }
  assert (Zz : zeros 2 z).
  { split; [|split].
    - intros [|[|i]] Hi; simpl; try lia; lra.
    - intros [|[|i]] [|[|j]] Hij; simpl; try lia; lra.
    - intros [|[|i]] Hi; try lia; cbn [z]; [rewrite Pn_opp, Zp; ring|exact Zp]. }
  pose proof (ideal_gauss 2 z ltac:(lia) Zz) as G.
  replace ([- y; y], [1; 1]) with (ideal 2 z); auto. unfold ideal, tab. cbn [map seq].
  change (z 0%nat) with (- y). change (z 1%nat) with y. rewrite gauss_w_opp.
  assert (W : gauss_w 2 y = 1).
  { unfold gauss_w. transitivity (2 / ((1 - y * y) * (9 * (y * y)))); [f_equal; simpl; ring|]. rewrite Ey. field. }
  rewrite W. reflexivity.
Qed.
