(** Order facts about binary64. *)
From Coq Require Import ZArith Bool Reals Lra Lia.
From Flocq Require Import IEEE754.BinarySingleNaN Core.Raux.
From Verif Require Import Base.Scalar Base.FScalar Model.Batcher Spec.BatchSpec.
Local Open Scope Z_scope.

Definition not_nan (x : F64) : Prop := is_nan x = false.

(** Lexicographic key of a non-NaN value. *)
Definition key (x : F64) : Z * R :=
  match x with
  | B754_infinity true => (-1, 0%R)
  | B754_infinity false => (1, 0%R)
  | B754_nan => (0, 0%R)
  | _ => (0, B2R x)
  end.
Definition key_lt (a b : Z * R) : Prop := fst a < fst b \/ fst a = fst b /\ (snd a < snd b)%R.

Lemma Bltb_key : forall x y : F64, not_nan x -> not_nan y ->
  (Bltb x y = true <-> key_lt (key x) (key y)).
Proof.
  intros x y Hx Hy. unfold key_lt.
  assert (FF : forall a b : F64, is_finite a = true -> is_finite b = true ->
    key a = (0, B2R a) -> key b = (0, B2R b) ->
    (Bltb a b = true <-> fst (key a) < fst (key b) \/ fst (key a) = fst (key b) /\ (snd (key a) < snd (key b))%R)).
  { intros a b Fa Fb Ka Kb. rewrite Bltb_correct by auto. rewrite Ka, Kb. simpl.
    destruct (Rlt_bool_spec (B2R a) (B2R b)); split; intro G; auto; try discriminate; try lia.
    destruct G as [G|[_ G]]; [lia|]. exfalso. lra. }
  destruct x as [sx|sx| |sx mx ex Bx]; try discriminate Hx;
    destruct y as [sy|sy| |sy my ey By]; try discriminate Hy;
    try (apply FF; reflexivity);
    try (destruct sx); try (destruct sy); cbn; split; intro G; try discriminate; auto;
    try (destruct G as [G|[G1 G2]]); try lia; try lra; try (left; lia).
Qed.

Lemma Bltb_asym : forall x y : F64, Bltb x y = true -> Bltb y x = false.
Proof.
  intros x y H. destruct (is_nan x) eqn:Nx.
  { destruct x; try discriminate Nx. destruct y; discriminate H. }
  destruct (is_nan y) eqn:Ny.
  { destruct y; try discriminate Ny. destruct x as [|[]| |]; discriminate H. }
  destruct (Bltb y x) eqn:E; auto. exfalso.
  apply Bltb_key in H; auto. apply Bltb_key in E; auto. unfold key_lt in *.
  destruct H as [H|[H1 H2]], E as [E|[E1 E2]]; try lia. lra.
Qed.

Lemma Bltb_ntrans : forall x y z : F64, not_nan x -> not_nan y -> not_nan z ->
  Bltb y x = false -> Bltb z y = false -> Bltb z x = false.
Proof.
  intros x y z Nx Ny Nz H1 H2. destruct (Bltb z x) eqn:E; auto. exfalso.
  assert (G1 : ~ key_lt (key y) (key x)) by (intro G; apply Bltb_key in G; auto; congruence).
  assert (G2 : ~ key_lt (key z) (key y)) by (intro G; apply Bltb_key in G; auto; congruence).
  apply Bltb_key in E; auto. unfold key_lt in *.
  destruct (key x) as [a b], (key y) as [c d], (key z) as [e f]. simpl in *.
  destruct (Z.lt_trichotomy c a) as [?|[?|?]]; [tauto| |].
  - destruct (Z.lt_trichotomy e c) as [?|[?|?]]; [tauto| |].
    + destruct (Rlt_dec d b); [tauto|]. destruct (Rlt_dec f d); [tauto|].
      destruct E as [E|[E1 E2]]; [lia|lra].
    + destruct E as [E|[E1 E2]]; lia.
  - destruct (Z.lt_trichotomy e c) as [?|[?|?]]; [tauto| |]; destruct E as [E|[E1 E2]]; lia.
Qed.

Lemma Bltb_nan_r : forall x : F64, Bltb x B754_nan = false.
Proof. destruct x as [|[]| |]; reflexivity. Qed.


Lemma zero_mul : forall (d : F64), @Bmult 53 1024 Hprec Hmax mode_NE (f_of 0 0) d = B754_nan \/
  exists s, @Bmult 53 1024 Hprec Hmax mode_NE (f_of 0 0) d = B754_zero s.
Proof.
  intro d. change (f_of 0 0) with (@B754_zero 53 1024 false).
  destruct d as [s|s| |s m e B]; simpl; eauto.
Qed.

Lemma float_laws : forall m, @order_laws (FS m) not_nan.
Proof.
  intro m. split.
  - exact Bltb_asym.
  - exact Bltb_ntrans.
  - intros lo d p Nl Np H.
    change (Bltb p (@Bplus 53 1024 Hprec Hmax mode_NE lo (@Bmult 53 1024 Hprec Hmax mode_NE (f_of 0 0) d)) = false).
    change (Bltb p lo = false) in H.
    destruct (zero_mul d) as [->|[s ->]].
    + destruct lo as [s|s| |s mm e B]; apply Bltb_nan_r.
    + destruct lo as [s'|s'| |s' mm e B]; try discriminate Nl; try exact H.
      (* lo is a zero *)
      assert (E : forall t t' : bool, Bltb p (@B754_zero 53 1024 t) = Bltb p (@B754_zero 53 1024 t')).
      { intros t t'. destruct p as [|[]| |[]]; reflexivity. }
      unfold Bplus. destruct (Bool.eqb s' s).
      * exact H.
      * rewrite (E _ s'). exact H.
Qed.
