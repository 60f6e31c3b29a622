(** Zeros of Legendre polynomials and Gauss quadrature. *)
From Coq Require Import List Bool Arith ZArith Lia Reals Lra Psatz.
From Coquelicot Require Import Coquelicot.
From Verif Require Import Spec.Sums Spec.RealRules Proofs.Tab Proofs.SumFacts Proofs.ChebReal Proofs.ChebInt
  Proofs.Legendre.
Import ListNotations.
Local Open Scope R_scope.

(** Division by x - r. *)
Fixpoint sdiv (r : R) (p : list R) : list R :=
  match p with [] => [] | _ :: p' => match p' with [] => [] | _ => peval p' r :: sdiv r p' end end.

Lemma sdiv_len : forall r p, length (sdiv r p) = pred (length p).
Proof. intros r. induction p as [|a [|b p] IH]; auto. simpl in *. lia. Qed.

Lemma sdiv_eval : forall r p x, peval p x = peval p r + (x - r) * peval (sdiv r p) x.
Proof.
  intros r p x. induction p as [|a [|b p] IH]; [simpl; ring|simpl; ring|].
  set (q := b :: p) in *. change (peval (a :: q)) with (fun x => a + x * peval q x). cbv beta.
  change (sdiv r (a :: q)) with (peval q r :: sdiv r q). cbn [peval]. rewrite IH at 1. ring.
Qed.

Fixpoint prod (n : nat) (z : nat -> R) (x : R) : R :=
  match n with O => 1 | S m => prod m z x * (x - z m) end.

Lemma factor : forall n f z, ispoly (S n) f -> (forall i j, (i < j < n)%nat -> z i <> z j) ->
  (forall i, (i < n)%nat -> f (z i) = 0) -> exists c, forall x, f x = c * prod n z x.
Proof.
  induction n as [|n IH]; intros f z (p & L & E) D Hz.
  - destruct p as [|a [|b p]]; [exists 0|exists a|simpl in L; lia]; intro x; rewrite E; simpl; ring.
  - destruct (IH (peval (sdiv (z n) p)) z) as (c & Hc).
    + exists (sdiv (z n) p). rewrite sdiv_len. split; auto. lia.
    + intros i j H. apply D. lia.
    + intros i Hi. pose proof (Hz i ltac:(lia)) as A. pose proof (Hz n ltac:(lia)) as B. rewrite E in A, B.
      rewrite (sdiv_eval (z n)), B in A. assert (z i <> z n) by (apply D; lia).
      apply Rmult_eq_reg_l with (z i - z n); lra.
    + exists c. intro x. rewrite E, (sdiv_eval (z n)), <- E, Hz by lia. rewrite Hc. simpl. ring.
Qed.

Lemma prod_pos : forall n z x, (forall i, (i < n)%nat -> z i < x) -> 0 < prod n z x.
Proof.
  induction n as [|n IH]; intros z x H; simpl; [lra|]. apply Rmult_lt_0_compat; [apply IH; auto|].
  specialize (H n ltac:(lia)). lra.
Qed.

Lemma prod_nz : forall n z x, (forall i, (i < n)%nat -> z i <> x) -> prod n z x <> 0.
Proof.
  induction n as [|n IH]; intros z x H; simpl; [lra|]. apply Rmult_integral_contrapositive_currified.
  - apply IH; auto.
  - specialize (H n ltac:(lia)). lra.
Qed.

Lemma prod_sign : forall n m z x, (m <= n)%nat -> (forall i, (i < m)%nat -> z i < x) ->
  (forall i, (m <= i < n)%nat -> x < z i) -> 0 < (-1) ^ (n - m) * prod n z x.
Proof.
  induction n as [|n IH]; intros m z x L A B.
  - replace (0 - m)%nat with 0%nat by lia. simpl. lra.
  - destruct (Nat.eq_dec m (S n)) as [->|N].
    + rewrite Nat.sub_diag. simpl (_ ^ 0). rewrite Rmult_1_l. apply prod_pos. auto.
    + replace (S n - m)%nat with (S (n - m)) by lia. simpl.
      specialize (IH m z x ltac:(lia) A ltac:(intros; apply B; lia)). specialize (B n ltac:(lia)).
      replace (-1 * (-1) ^ (n - m) * (prod n z x * (x - z n))) with ((-1) ^ (n - m) * prod n z x * (z n - x)) by ring.
      apply Rmult_lt_0_compat; lra.
Qed.

Lemma zero_poly : forall n f z, ispoly n f -> (forall i j, (i < j < n)%nat -> z i <> z j) ->
  (forall i, (i < n)%nat -> f (z i) = 0) -> forall x, f x = 0.
Proof.
  intros [|n] f z H D Hz x.
  - destruct H as (p & L & E). destruct p; [|simpl in L; lia]. rewrite E. reflexivity.
  - destruct (factor n f z H) as (c & Hc); [intros; apply D; lia|auto|].
    pose proof (Hz n ltac:(lia)) as A. rewrite Hc in A. apply Rmult_integral in A. destruct A as [->|A].
    + rewrite Hc. ring.
    + exfalso. revert A. apply prod_nz. intros i Hi. apply D. lia.
Qed.

(** z 0 < ... < z (n-1) are the zeros of P_n. *)
Definition zeros (n : nat) (z : nat -> R) : Prop :=
  (forall i, (i < n)%nat -> -1 < z i < 1) /\ (forall i j, (i < j < n)%nat -> z i < z j) /\
  (forall i, (i < n)%nat -> Pn n (z i) = 0).

Lemma zeros_factor : forall n z, zeros n z -> exists c, 0 < c /\ forall x, Pn n x = c * prod n z x.
Proof.
  intros n z (A & B & C). destruct (factor n (Pn n) z (Pn_poly n)) as (c & Hc); auto.
  - intros i j H. specialize (B i j H). lra.
  - exists c. split; auto. pose proof (Pn_1 n) as E. rewrite Hc in E.
    assert (0 < prod n z 1) by (apply prod_pos; intros; apply A; auto). nra.
Qed.

Lemma zeros_sign : forall n m z x, zeros n z -> (m <= n)%nat -> (forall i, (i < m)%nat -> z i < x) ->
  (forall i, (m <= i < n)%nat -> x < z i) -> 0 < (-1) ^ (n - m) * Pn n x.
Proof.
  intros n m z x H L A B. destruct (zeros_factor n z H) as (c & Hc & E). rewrite E.
  pose proof (prod_sign n m z x L A B). nra.
Qed.

Lemma zeros_all : forall n z x, zeros n z -> Pn n x = 0 -> exists i, (i < n)%nat /\ z i = x.
Proof.
  intros n z x H E. destruct (zeros_factor n z H) as (c & Hc & F). rewrite F in E.
  assert (P : prod n z x = 0) by nra. clear - P. induction n as [|n IH]; simpl in P; [lra|].
  apply Rmult_integral in P. destruct P as [P|P].
  - destruct (IH P) as (i & Hi & Ei). exists i. split; auto.
  - exists n. split; auto. lra.
Qed.

Lemma finite_choice : forall (A : Type) (Q : nat -> A -> Prop) (d : A) n, (forall i, (i < n)%nat -> exists a, Q i a) ->
  exists f, forall i, (i < n)%nat -> Q i (f i).
Proof.
  intros A Q d n H. induction n as [|n IH].
  - exists (fun _ => d). intros. lia.
  - destruct IH as (f & Hf); [auto|]. destruct (H n ltac:(lia)) as (a & Ha).
    exists (fun i => if Nat.eqb i n then a else f i). intros i Hi. destruct (Nat.eqb_spec i n) as [->|N]; auto.
    apply Hf. lia.
Qed.

Lemma Pn_continuity : forall n, continuity (Pn n).
Proof.
  intros n x. apply derivable_continuous_pt. exists (dP n x). apply is_derive_Reals. apply Pn_derive.
Qed.

Lemma Pn_ivt : forall n a b s, a < b -> s * Pn n a < 0 -> 0 < s * Pn n b -> exists y, a < y < b /\ Pn n y = 0.
Proof.
  intros n a b s L A B.
  destruct (IVT (fun x => s * Pn n x) a b) as (y & Hy & E); auto.
  - apply (continuity_scal (Pn n) s), Pn_continuity.
  - assert (s <> 0) by (intros ->; lra). exists y.
    assert (Pn n y = 0) by (apply Rmult_eq_reg_l with s; lra). split; auto.
    assert (y <> a) by (intros ->; lra). assert (y <> b) by (intros ->; lra). lra.
Qed.

Lemma pow_m1_sq : forall k, (-1) ^ k * (-1) ^ k = 1.
Proof. intro k. rewrite <- Rpow_mult_distr. replace (-1 * -1) with 1 by ring. apply pow1. Qed.

Lemma interlace : forall n, exists w z, zeros n w /\ zeros (S n) z /\
  forall i, (i < n)%nat -> z i < w i < z (S i).
Proof.
  induction n as [|n (w & z & Hw & Hz & I)].
  - exists (fun _ => 0), (fun _ => 0). split; [split; [|split]; intros; lia|]. split; [|intros; lia].
    split; [|split]; intros; try lia; [lra|reflexivity].
  - pose proof Hw as (W1 & W2 & W3). pose proof Hz as (Z1 & Z2 & Z3).
    set (e := fun i => match i with O => -1 | S k => if Nat.ltb k (S n) then z k else 1 end).
    assert (E0 : e 0%nat = -1) by reflexivity.
    assert (EI : forall i, (i < S n)%nat -> e (S i) = z i).
    { intros i Hi. cbn [e]. apply Nat.ltb_lt in Hi. rewrite Hi. auto. }
    assert (EN : e (S (S n)) = 1). { cbn [e]. rewrite Nat.ltb_irrefl. auto. }
    assert (Wz : forall i j, (i < n)%nat -> (j < S n)%nat -> ((i < j)%nat -> w i < z j) /\ ((j <= i)%nat -> z j < w i)).
    { intros i j Hi Hj. destruct (I i Hi) as (I1 & I2). split; intro H.
      - destruct (Nat.eq_dec j (S i)) as [->|N]; auto. assert (z (S i) < z j) by (apply Z2; lia). lra.
      - destruct (Nat.eq_dec j i) as [->|N]; auto. assert (z j < z i) by (apply Z2; lia). lra. }
    assert (SG : forall i, (i <= S (S n))%nat -> 0 < (-1) ^ (S (S n) - i) * Pn (S (S n)) (e i)).
    { intros [|i] Hi.
      - rewrite E0. replace (-1) with (- (1)) at 2 by lra. rewrite Pn_opp, Pn_1, Nat.sub_0_r, Rmult_1_r, pow_m1_sq. lra.
      - destruct (Nat.eq_dec i (S n)) as [->|N].
        + rewrite EN, Pn_1, Nat.sub_diag. simpl. lra.
        + rewrite EI by lia. replace (S (S n) - S i)%nat with (S (n - i)) by lia.
          pose proof (Pn_rec (S n) (z i)) as Rc. cbn [Pm] in Rc. rewrite Z3 in Rc by lia.
          pose proof (zeros_sign n i w (z i) Hw ltac:(lia) ltac:(intros; apply Wz; lia) ltac:(intros; apply Wz; lia)) as P.
          pose proof (INR_S_pos n). pose proof (INR_S_pos (S n)). simpl pow.
          apply Rmult_lt_reg_l with (INR (S (S n))); auto. rewrite Rmult_0_r.
          replace (INR (S (S n)) * (-1 * (-1) ^ (n - i) * Pn (S (S n)) (z i))) with
            (- (-1) ^ (n - i) * (INR (S (S n)) * Pn (S (S n)) (z i))) by ring.
          rewrite Rc. nra. }
    assert (L : forall i, (i < S (S n))%nat -> e i < e (S i)).
    { intros [|i] Hi.
      - rewrite E0. rewrite EI by lia. apply Z1. lia.
      - rewrite EI by lia. destruct (Nat.eq_dec i n) as [->|N].
        + rewrite EN. apply Z1. lia.
        + rewrite EI by lia. apply Z2. lia. }
    destruct (finite_choice R (fun i y => e i < y < e (S i) /\ Pn (S (S n)) y = 0) 0 (S (S n))) as (y & Hy).
    { intros i Hi. apply Pn_ivt with ((-1) ^ (S (S n) - S i)); auto.
      - pose proof (SG i ltac:(lia)) as P. replace (S (S n) - i)%nat with (S (S (S n) - S i)) in P by lia.
        simpl pow in P. simpl (S (S n) - S i)%nat in *. lra. }
    exists z, y. split; auto.
    assert (EL : forall i, (i < S (S n))%nat -> -1 <= e i).
    { intros [|i] Hi; [rewrite E0; lra|]. rewrite EI by lia. apply Rlt_le, Z1. lia. }
    assert (EU : forall i, (i < S (S n))%nat -> e (S i) <= 1).
    { intros i Hi. destruct (Nat.eq_dec i (S n)) as [->|N]; [rewrite EN; lra|].
      rewrite EI by lia. apply Rlt_le, Z1. lia. }
    assert (EM : forall j i, (i <= j)%nat -> (j <= S (S n))%nat -> e i <= e j).
    { induction j as [|j IHj]; intros i H1 H2; [replace i with 0%nat by lia; lra|].
      destruct (Nat.eq_dec i (S j)) as [->|N]; [lra|].
      specialize (IHj i ltac:(lia) ltac:(lia)). specialize (L j ltac:(lia)). lra. }
    split.
    + split; [|split].
      * intros i Hi. destruct (Hy i Hi) as (A & _). specialize (EL i Hi). specialize (EU i Hi). lra.
      * intros i j Hij. destruct (Hy i ltac:(lia)) as (A & _). destruct (Hy j ltac:(lia)) as (B & _).
        pose proof (EM j (S i) ltac:(lia) ltac:(lia)). lra.
      * intros i Hi. apply Hy; auto.
    + intros i Hi. destruct (Hy i ltac:(lia)) as (A & _). destruct (Hy (S i) ltac:(lia)) as (B & _).
      rewrite EI in A, B by lia. lra.
Qed.

Lemma zeros_exist : forall n, exists z, zeros n z.
Proof. intro n. destruct (interlace n) as (w & _ & H & _). eauto. Qed.

(** Division by P_n. *)
Lemma poly_div : forall n k f, (1 <= n)%nat -> ispoly (n + k) f ->
  exists s t, ispoly k s /\ span n t /\ forall x, f x = Pn n x * s x + t x.
Proof.
  intros n k f Hn. revert f. induction k as [|k IH]; intros f H.
  - exists (fun _ => 0), f. split; [exists []; split; auto|]. split; [|intro; ring].
    rewrite Nat.add_0_r in H. apply span_poly; auto.
  - destruct H as (p & L & E). destruct p as [|a p].
    + exists (fun _ => 0), (fun _ => 0). split; [exists []; split; auto; simpl; lia|]. split; [apply span_0|].
      intro x. rewrite E. simpl. ring.
    + destruct (IH (peval p)) as (s & t & Hs & Ht & F).
      { exists p. split; auto. simpl in L. lia. }
      destruct (span_S n (fun x => x * t x) (span_x n t Ht)) as (c & g & Hg & G).
      exists (fun x => x * s x + c), (fun x => a * Pn 0 x + g x). split; [|split].
      * apply ispoly_add; [apply ispoly_x; auto|]. eapply ispoly_weaken; [apply ispoly_const|lia].
      * apply span_add; auto. apply span_scal, span_P. lia.
      * intro x. rewrite E. cbn [peval]. rewrite F. specialize (G x). cbv beta in G. change (Pn 0 x) with 1.
        replace (x * (Pn n x * s x + t x)) with (Pn n x * (x * s x) + x * t x) by ring. rewrite G. ring.
Qed.

Definition gauss_w (n : nat) (r : R) : R := 2 / ((1 - r * r) * dP n r * dP n r).

Definition kern (n : nat) (r x : R) : R := Rsum (tab n (fun k => (2 * INR k + 1) * (Pn k x * Pn k r))).

Lemma kern_span : forall n r, span n (kern n r).
Proof.
  intros n r. exists (fun k => (2 * INR k + 1) * Pn k r). intro x. unfold kern. apply Rsum_tab_ext. intros. ring.
Qed.

Lemma kern_diag : forall n r, Pn n r = 0 -> kern n r r = (1 - r * r) * dP n r * dP n r.
Proof.
  intros n r E. unfold kern. rewrite CD_diag. pose proof (leg_A n r) as A. rewrite E in *.
  rewrite Rmult_0_r, Rminus_0_r in *. rewrite A. ring.
Qed.

Lemma kern_ge_1 : forall n r, (1 <= n)%nat -> 1 <= kern n r r.
Proof.
  intros n r Hn. destruct n as [|n]; [lia|]. clear Hn. unfold kern. induction n as [|n IH].
  - unfold tab, Rsum; simpl; lra.
  - rewrite Rsum_tab_S.
    assert (0 <= (2 * INR (S n) + 1) * (Pn (S n) r * Pn (S n) r)).
    { apply Rmult_le_pos; [pose proof (pos_INR (S n)); lra|apply Rle_0_sqr]. }
    lra.
Qed.

Lemma zero_slope : forall n r, (1 <= n)%nat -> Pn n r = 0 -> 1 <= (1 - r * r) * dP n r * dP n r.
Proof. intros n r Hn E. rewrite <- kern_diag by auto. apply kern_ge_1; auto. Qed.

Lemma kern_off : forall n r s, Pn n r = 0 -> Pn n s = 0 -> r <> s -> kern n r s = 0.
Proof.
  intros n r s Er Es N. pose proof (CD n s r) as C. rewrite Er, Es in C. fold (kern n r s) in C.
  apply Rmult_eq_reg_l with (s - r); lra.
Qed.

Lemma kern_int : forall n r, (1 <= n)%nat -> is_RInt (kern n r) (-1) 1 2.
Proof.
  intros n r Hn. destruct n as [|n]; [lia|]. clear Hn.
  assert (K : forall m, is_RInt (fun x => Rsum (tab (S m) (fun k => (2 * INR k + 1) * (Pn k x * Pn k r)))) (-1) 1 2).
  { induction m as [|m IH].
    - apply (is_RInt_ext (fun x => Pn 0 x * Pn 0 x)); [intros; unfold tab, Rsum; simpl; req; ring|].
      replace 2 with (2 / (2 * INR 0 + 1)) by (simpl; field). apply Pn_norm.
    - apply (is_RInt_ext (fun x => 1 * Rsum (tab (S m) (fun k => (2 * INR k + 1) * (Pn k x * Pn k r))) +
        ((2 * INR (S m) + 1) * Pn (S m) r) * (Pn (S m) x * Pn 0 x))).
      + intros x _. rewrite (Rsum_tab_S (S m)). req. simpl (Pn 0 x). ring.
      + evar_last; [apply is_RInt_lin; [exact IH|apply Pn_orth; lia]|]. req. ring. }
  apply K.
Qed.

Theorem gauss_exact : forall n z f, (1 <= n)%nat -> zeros n z -> ispoly (2 * n) f ->
  is_RInt f (-1) 1 (Rsum (tab n (fun i => gauss_w n (z i) * f (z i)))).
Proof.
  intros n z f Hn Hz Hf. pose proof Hz as (Z1 & Z2 & Z3).
  replace (2 * n)%nat with (n + n)%nat in Hf by lia.
  destruct (poly_div n n f Hn Hf) as (s & t & Hs & Ht & E).
  assert (T : forall x, t x = Rsum (tab n (fun i => t (z i) / kern n (z i) (z i) * kern n (z i) x))).
  { intro x.
    set (u := fun x => t x + -1 * Rsum (tab n (fun i => t (z i) / kern n (z i) (z i) * kern n (z i) x))).
    assert (Z : u x = 0).
    { apply (zero_poly n u z).
      - apply poly_span. unfold u. apply span_add; auto. apply span_scal.
        assert (G : forall m, span n (fun x => Rsum (tab m (fun i => t (z i) / kern n (z i) (z i) * kern n (z i) x)))).
        { induction m as [|m IH]; [apply (span_ext _ (fun _ => 0)); [apply span_0|intro; reflexivity]|].
          apply (span_ext _ (fun x => Rsum (tab m (fun i => t (z i) / kern n (z i) (z i) * kern n (z i) x)) +
            t (z m) / kern n (z m) (z m) * kern n (z m) x)); [|intro; apply Rsum_tab_S].
          apply span_add; auto. apply span_scal, kern_span. }
        apply G.
      - intros i j H. specialize (Z2 i j H). lra.
      - intros j Hj.
        assert (G : forall m, (m <= n)%nat -> Rsum (tab m (fun i => t (z i) / kern n (z i) (z i) * kern n (z i) (z j))) =
            if Nat.ltb j m then t (z j) else 0).
        { induction m as [|m IH]; intro Hm; [reflexivity|]. rewrite Rsum_tab_S, IH by lia.
          destruct (Nat.ltb_spec j m), (Nat.ltb_spec j (S m)); try lia.
          - rewrite (kern_off n (z m) (z j)); [ring|apply Z3; lia|apply Z3; lia|].
            assert (z j < z m) by (apply Z2; lia). lra.
          - assert (j = m) by lia. subst j. pose proof (kern_ge_1 n (z m) Hn). field. lra.
          - rewrite (kern_off n (z m) (z j)); [ring|apply Z3; lia|apply Z3; lia|].
            assert (z m < z j) by (apply Z2; lia). lra. }
        unfold u. rewrite G by lia. apply Nat.ltb_lt in Hj. rewrite Hj. ring. }
    unfold u in Z. lra. }
  assert (G : forall m, is_RInt (fun x => Rsum (tab m (fun i => t (z i) / kern n (z i) (z i) * kern n (z i) x))) (-1) 1
     (Rsum (tab m (fun i => t (z i) / kern n (z i) (z i) * 2)))).
  { induction m as [|m IH]; [apply zero_int|].
    apply (is_RInt_ext (fun x => 1 * Rsum (tab m (fun i => t (z i) / kern n (z i) (z i) * kern n (z i) x)) +
       t (z m) / kern n (z m) (z m) * kern n (z m) x)); [intros x _; rewrite Rsum_tab_S; req; ring|].
    rewrite Rsum_tab_S. replace (Rsum (tab m (fun i => t (z i) / kern n (z i) (z i) * 2))) with
      (1 * Rsum (tab m (fun i => t (z i) / kern n (z i) (z i) * 2))) by ring.
    apply is_RInt_lin; auto. apply kern_int; auto. }
  apply (is_RInt_ext (fun x => 1 * (Pn n x * s x) +
     1 * Rsum (tab n (fun i => t (z i) / kern n (z i) (z i) * kern n (z i) x)))).
  { intros x _. rewrite E, (T x). req. ring. }
  replace (Rsum (tab n (fun i => gauss_w n (z i) * f (z i)))) with
    (1 * 0 + 1 * Rsum (tab n (fun i => t (z i) / kern n (z i) (z i) * 2))).
  - apply is_RInt_lin; auto. apply (span_orth n n); auto. apply span_poly; auto.
  - rewrite Rmult_0_r, Rplus_0_l, Rmult_1_l. apply Rsum_tab_ext. intros i Hi.
    rewrite E, Z3 by auto. unfold gauss_w. rewrite kern_diag by (apply Z3; auto).
    pose proof (zero_slope n (z i) Hn (Z3 i Hi)). field.
    split; [intros K; rewrite K in H; lra|]. intros K. assert (z i = 1 \/ z i = -1) by nra. specialize (Z1 i Hi). lra.
Qed.

Lemma gauss_w_pos : forall n z i, (1 <= n)%nat -> zeros n z -> (i < n)%nat -> 0 < gauss_w n (z i).
Proof.
  intros n z i Hn (Z1 & Z2 & Z3) Hi. pose proof (zero_slope n (z i) Hn (Z3 i Hi)).
  unfold gauss_w. apply Rdiv_lt_0_compat; lra.
Qed.
