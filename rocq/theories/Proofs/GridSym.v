(** Sums over the point blocks of the tabulated grids, reduced by symmetry. *)
From Coq Require Import ZArith List Bool Reals Lra Lia.
From Verif Require Import Base.Scalar Base.RScalar Model.S2 Model.GridCode Spec.SphereInt.
Import ListNotations.
Local Open Scope R_scope.

(** ** Real values of literals *)
Definition rval (d : lit) : R := IZR (fst d) / IZR (10 ^ snd d).

Lemma rval_lit : forall d, lit_val (S:=RS) d = rval d.
Proof.
  intros [m e]. unfold lit_val, rval. cbn [fst snd]. destruct (Z.ltb_spec m 0); cbn; auto.
  rewrite opp_IZR. unfold Rdiv. rewrite Ropp_mult_distr_l, Ropp_involutive. reflexivity.
Qed.
Lemma rval_neg : forall d, rval (lneg d) = - rval d.
Proof. intros [m e]. unfold rval, lneg. cbn [fst snd]. rewrite opp_IZR. unfold Rdiv. lra. Qed.
Lemma rval_o : rval o = 0.
Proof. unfold rval, o. cbn. unfold Rdiv. rewrite Rmult_0_l. reflexivity. Qed.

Definition at3 (f : R -> R -> R -> R) (p : lit3) : R :=
  let '(x, y, z) := p in f (rval x) (rval y) (rval z).
Fixpoint lsum (l : list lit3) (f : R -> R -> R -> R) : R :=
  match l with [] => 0 | p :: r => at3 f p + lsum r f end.

(** ** Parities of the harmonics *)
Lemma cpow_negx : forall m x y, cpow m (- x) y =
  if Nat.even m then (fst (cpow m x y), - snd (cpow m x y)) else (- fst (cpow m x y), snd (cpow m x y)).
Proof.
  induction m as [|m IH]; intros x y; [cbn; rewrite Ropp_0; reflexivity|].
  rewrite Nat.even_succ, <- Nat.negb_even. cbn [cpow]. rewrite IH.
  destruct (cpow m x y) as [a b]. cbn [fst snd]. destruct (Nat.even m); cbn [negb]; f_equal; ring.
Qed.
Lemma cpow_negy : forall m x y, cpow m x (- y) = (fst (cpow m x y), - snd (cpow m x y)).
Proof.
  induction m as [|m IH]; intros x y; [cbn; rewrite Ropp_0; reflexivity|].
  cbn [cpow]. rewrite IH. destruct (cpow m x y) as [a b]. cbn [fst snd]. f_equal; ring.
Qed.
(** i^m (a - i b) *)
Definition irot (k : nat) (a b : R) : R * R :=
  match k with O => (a, - b) | 1%nat => (b, a) | 2%nat => (- a, b) | _ => (- b, - a) end.
Lemma cpow_swap : forall m x y, cpow m y x = irot (m mod 4) (fst (cpow m x y)) (snd (cpow m x y)).
Proof.
  induction m as [|m IH]; intros x y; [cbn; rewrite Ropp_0; reflexivity|].
  assert (C : (m mod 4 = 0 \/ m mod 4 = 1 \/ m mod 4 = 2 \/ m mod 4 = 3)%nat)
    by (pose proof (Nat.mod_upper_bound m 4 ltac:(lia)); lia).
  assert (E : (S m mod 4 = (if Nat.eqb (m mod 4) 3 then 0 else S (m mod 4)))%nat).
  { pose proof (Nat.div_mod m 4 ltac:(lia)) as D. destruct C as [C|[C|[C|C]]]; rewrite C in *; cbn [Nat.eqb].
    - symmetry. apply (Nat.mod_unique _ _ (m / 4)); lia.
    - symmetry. apply (Nat.mod_unique _ _ (m / 4)); lia.
    - symmetry. apply (Nat.mod_unique _ _ (m / 4)); lia.
    - symmetry. apply (Nat.mod_unique _ _ (S (m / 4))); lia. }
  rewrite E. cbn [cpow]. rewrite IH. destruct (cpow m x y) as [a b]. cbn [fst snd].
  destruct C as [C|[C|[C|C]]]; rewrite C; cbn [Nat.eqb irot]; f_equal; ring.
Qed.

Lemma geg_neg : forall m n z, geg m n (- z) = if Nat.even n then geg m n z else - geg m n z.
Proof.
  intros m n z.
  enough ((geg m n (- z) = if Nat.even n then geg m n z else - geg m n z) /\
          (geg m (S n) (- z) = if Nat.even (S n) then geg m (S n) z else - geg m (S n) z)) by tauto.
  induction n as [|n [I1 I2]]; [split; reflexivity|]. split; [exact I2|].
  change (geg m (S (S n)) (- z)) with
    (((2 * INR (S (S n)) + 2 * INR m - 1) * (- z) * geg m (S n) (- z) - (INR (S (S n)) - 1) * geg m n (- z))
     / (INR (S (S n)) + 2 * INR m)).
  change (geg m (S (S n)) z) with
    (((2 * INR (S (S n)) + 2 * INR m - 1) * z * geg m (S n) z - (INR (S (S n)) - 1) * geg m n z)
     / (INR (S (S n)) + 2 * INR m)).
  rewrite I1, I2. change (Nat.even (S (S n))) with (Nat.even n).
  rewrite Nat.even_succ, <- Nat.negb_even.
  unfold Rdiv. destruct (Nat.even n); cbn [negb]; ring.
Qed.

(** ** The sixteen images under sign changes and exchange of x and y *)
Definition sgn4 (f : R -> R -> R -> R) (x y z : R) : R :=
  f x y z + f (- x) y z + f x (- y) z + f (- x) (- y) z.
Definition d4h (f : R -> R -> R -> R) (x y z : R) : R :=
  sgn4 f x y z + sgn4 f y x z + sgn4 f x y (- z) + sgn4 f y x (- z).

Definition octok (s : bool) (m n : nat) : bool := negb s && Nat.eqb (m mod 4) 0 && Nat.even n.

Lemma even_mod4 : forall m, Nat.even m = Nat.eqb (m mod 4) 0 || Nat.eqb (m mod 4) 2.
Proof.
  intro m. pose proof (Nat.div_mod m 4 ltac:(lia)) as D. rewrite D at 1.
  replace (4 * (m / 4) + m mod 4)%nat with (m mod 4 + 2 * (2 * (m / 4)))%nat by lia.
  rewrite Nat.even_add_mul_2. pose proof (Nat.mod_upper_bound m 4 ltac:(lia)) as B.
  destruct (m mod 4) as [|[|[|[|k]]]]; try reflexivity. lia.
Qed.

Lemma d4h_harm : forall s m n x y z,
  d4h (harm s m n) x y z = if octok s m n then 16 * harm s m n x y z else 0.
Proof.
  intros s m n x y z. unfold d4h, sgn4, harm, octok.
  rewrite !geg_neg, !cpow_negy, !cpow_negx. rewrite !(cpow_swap m x y).
  pose proof (even_mod4 m) as E. rewrite !E. pose proof (Nat.mod_upper_bound m 4 ltac:(lia)) as B.
  destruct (cpow m x y) as [a b]. cbn [fst snd].
  destruct (m mod 4) as [|[|[|[|k]]]]; [| | | |lia]; cbn [Nat.eqb orb irot fst snd];
  destruct s, (Nat.even n); cbn [negb andb fst snd]; ring.
Qed.

(** The four images under even sign changes. *)
Definition d2 (f : R -> R -> R -> R) (x y z : R) : R :=
  f x y z + f (- x) (- y) z + f (- x) y (- z) + f x (- y) (- z).
Definition tetok (s : bool) (m n : nat) : bool := Nat.even m && (if s then negb (Nat.even n) else Nat.even n).

Lemma d2_harm : forall s m n x y z,
  d2 (harm s m n) x y z = if tetok s m n then 4 * harm s m n x y z else 0.
Proof.
  intros s m n x y z. unfold d2, harm, tetok.
  rewrite !geg_neg, !cpow_negy, !cpow_negx. destruct (cpow m x y) as [a b]. cbn [fst snd].
  destruct s, (Nat.even m), (Nat.even n); cbn [negb andb fst snd]; ring.
Qed.

(** ** Representatives of a block with multiplicities *)
Definition reps (b : block) : list (lit3 * Z) :=
  match b with
  | LL6 a | DE6 a => [((o, o, a), 2%Z); ((a, o, o), 4%Z)]
  | LL8 a | DE8 a => [((a, a, a), 8%Z)]
  | LL12 a | DE12 a => [((a, a, o), 4%Z); ((a, o, a), 8%Z)]
  | LL24 a b => [((a, a, b), 8%Z); ((a, b, a), 16%Z)]
  | DE24 a b => [((b, b, a), 8%Z); ((a, b, b), 16%Z)]
  | LL24o a b | DE24o a b => [((a, b, o), 8%Z); ((a, o, b), 8%Z); ((b, o, a), 8%Z)]
  | LL48 a b c | DE48 a b c => [((a, b, c), 16%Z); ((a, c, b), 16%Z); ((b, c, a), 16%Z)]
  | AB12 a b => [((o, a, b), 4%Z); ((a, b, o), 4%Z); ((b, o, a), 4%Z)]
  | AB60 x1 y1 z1 x2 y2 z2 x3 y3 z3 x4 y4 z4 x5 y5 z5 =>
    [((x1, y1, z1), 4%Z); ((y1, z1, x1), 4%Z); ((z1, x1, y1), 4%Z);
     ((x2, y2, z2), 4%Z); ((y2, z2, x2), 4%Z); ((z2, x2, y2), 4%Z);
     ((x3, y3, z3), 4%Z); ((y3, z3, x3), 4%Z); ((z3, x3, y3), 4%Z);
     ((x4, y4, z4), 4%Z); ((y4, z4, x4), 4%Z); ((z4, x4, y4), 4%Z);
     ((x5, y5, z5), 4%Z); ((y5, z5, x5), 4%Z); ((z5, x5, y5), 4%Z)]
  end.
Definition is_oct (b : block) : bool := match b with AB12 _ _ | AB60 _ _ _ _ _ _ _ _ _ _ _ _ _ _ _ => false | _ => true end.

Fixpoint rsum (l : list (lit3 * Z)) (f : R -> R -> R -> R) : R :=
  match l with [] => 0 | (p, k) :: r => IZR k * at3 f p + rsum r f end.

Lemma block_oct : forall b f, is_oct b = true -> lsum (block_points b) f = rsum (reps b) (d4h f) / 16.
Proof.
  intros b f H. destruct b; try discriminate H;
  cbn [block_points reps ll6 ll8 ll12 ll24 ll24o ll48 de6 de8 de12 de24 de24o de48 lsum rsum at3];
  unfold d4h, sgn4; rewrite ?rval_neg, ?rval_o, ?Ropp_0; field.
Qed.
Lemma block_tet : forall b f, is_oct b = false -> lsum (block_points b) f = rsum (reps b) (d2 f) / 4.
Proof.
  intros b f H. destruct b; try discriminate H;
  cbn [block_points reps ab12 ab60 lsum rsum at3];
  unfold d2; rewrite ?rval_neg, ?rval_o, ?Ropp_0; field.
Qed.

Lemma rsum_scal : forall l f g c, (forall x y z, f x y z = c * g x y z) -> rsum l f = c * rsum l g.
Proof.
  induction l as [|[[[x y] z] k] l IH]; intros f g c H; cbn [rsum at3]; [ring|].
  rewrite (IH f g c H), H. ring.
Qed.

Lemma block_oct_harm : forall b s m n, is_oct b = true ->
  lsum (block_points b) (harm s m n) = if octok s m n then rsum (reps b) (harm s m n) else 0.
Proof.
  intros b s m n H. rewrite block_oct by auto.
  rewrite (rsum_scal _ _ (harm s m n) (if octok s m n then 16 else 0)).
  - destruct (octok s m n); field.
  - intros. rewrite d4h_harm. destruct (octok s m n); ring.
Qed.
Lemma block_tet_harm : forall b s m n, is_oct b = false ->
  lsum (block_points b) (harm s m n) = if tetok s m n then rsum (reps b) (harm s m n) else 0.
Proof.
  intros b s m n H. rewrite block_tet by auto.
  rewrite (rsum_scal _ _ (harm s m n) (if tetok s m n then 4 else 0)).
  - destruct (tetok s m n); field.
  - intros. rewrite d2_harm. destruct (tetok s m n); ring.
Qed.
