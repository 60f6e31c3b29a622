(** Sorted lists of indices: std::sort, std::unique, std::set_union. *)
From Coq Require Import List Arith Lia Permutation Sorted.
From Verif Require Import Base.Scalar Model.Batcher Spec.BatchSpec.
Import ListNotations.

Notation incr := (StronglySorted lt).
Notation ndecr := (StronglySorted le).

Lemma In_unique : forall l x, In x (std_unique l) <-> In x l.
Proof.
  induction l as [|a l IH]; intro x; [reflexivity|]. destruct l as [|b l].
  - reflexivity.
  - simpl. simpl in IH. destruct (Nat.eqb_spec a b).
    + subst. rewrite IH. simpl. tauto.
    + simpl. rewrite IH. simpl. tauto.
Qed.

Lemma unique_incr : forall l, ndecr l -> incr (std_unique l).
Proof.
  induction l as [|a l IH]; intro H; [constructor|]. inversion H as [|? ? H2 H3]; subst.
  specialize (IH H2). destruct l as [|b l].
  - constructor; constructor.
  - assert (E : std_unique (a :: b :: l)
                = if a =? b then std_unique (b :: l) else a :: std_unique (b :: l)) by reflexivity.
    rewrite E. clear E. destruct (Nat.eqb_spec a b); auto.
    constructor; auto. apply Forall_forall. intros x Hx. apply (proj1 (In_unique _ _)) in Hx.
    inversion H3 as [|? ? Hab Hal]; subst. inversion H2 as [|? ? _ Hbl]; subst.
    rewrite Forall_forall in Hbl. destruct Hx as [<-|Hx]; [lia|]. specialize (Hbl x Hx). lia.
Qed.

Lemma insert_In : forall x l y, In y (insert_sorted x l) <-> y = x \/ In y l.
Proof.
  intros x l y. induction l as [|a l IH]; simpl; [intuition|].
  destruct (Nat.leb x a); simpl; [intuition|]. rewrite IH. intuition.
Qed.
Lemma insert_ndecr : forall x l, ndecr l -> ndecr (insert_sorted x l).
Proof.
  intros x l H. induction H as [|a l Hs IH Hf]; simpl; [repeat constructor|].
  destruct (Nat.leb_spec x a).
  - constructor; [constructor; auto|]. constructor; auto.
    apply Forall_forall. intros y Hy. rewrite Forall_forall in Hf. specialize (Hf y Hy). lia.
  - constructor; auto. apply Forall_forall. intros y Hy. apply (proj1 (insert_In _ _ _)) in Hy.
    destruct Hy as [->|Hy]; [lia|]. rewrite Forall_forall in Hf. auto.
Qed.
Lemma sort_In : forall l x, In x (std_sort l) <-> In x l.
Proof.
  unfold std_sort. induction l as [|a l IH]; intro x; simpl; [reflexivity|].
  rewrite insert_In, IH. intuition.
Qed.
Lemma sort_ndecr : forall l, ndecr (std_sort l).
Proof. unfold std_sort. induction l; simpl; [constructor|]. apply insert_ndecr; auto. Qed.

Lemma set_union_nil_l : forall b, set_union [] b = b.
Proof. destruct b; reflexivity. Qed.
Lemma set_union_nil_r : forall a, set_union a [] = a.
Proof. destruct a; reflexivity. Qed.
Lemma set_union_cons : forall x a y b, set_union (x :: a) (y :: b)
  = if Nat.ltb x y then x :: set_union a (y :: b)
    else if Nat.ltb y x then y :: set_union (x :: a) b else x :: set_union a b.
Proof. reflexivity. Qed.

Lemma set_union_spec : forall a b, incr a -> incr b ->
  incr (set_union a b) /\ forall x, In x (set_union a b) <-> In x a \/ In x b.
Proof.
  induction a as [|x a IHa].
  - intros b _ Hb. rewrite set_union_nil_l. split; auto. simpl. tauto.
  - induction b as [|y b IHb]; intros Ha Hb.
    + rewrite set_union_nil_r. split; auto. simpl. tauto.
    + rewrite set_union_cons. inversion Ha; subst. inversion Hb; subst.
      destruct (Nat.ltb_spec x y); [|destruct (Nat.ltb_spec y x)].
      * destruct (IHa (y :: b) H1 Hb) as [I1 I2]. split.
        -- constructor; auto. apply Forall_forall. intros z Hz. apply I2 in Hz.
           rewrite Forall_forall in H2, H4. destruct Hz as [Hz|[<-|Hz]]; auto.
           specialize (H4 z Hz). lia.
        -- intro z. simpl. rewrite I2. simpl. tauto.
      * destruct (IHb Ha H3) as [I1 I2]. split.
        -- constructor; auto. apply Forall_forall. intros z Hz. apply I2 in Hz.
           rewrite Forall_forall in H2, H4. destruct Hz as [[<-|Hz]|Hz]; auto.
           specialize (H2 z Hz). lia.
        -- intro z. change (In z (y :: set_union (x :: a) b) <-> In z (x :: a) \/ In z (y :: b)).
           simpl In at 1. rewrite I2. simpl. tauto.
      * assert (x = y) by lia. subst y. destruct (IHa b H1 H3) as [I1 I2]. split.
        -- constructor; auto. apply Forall_forall. intros z Hz. apply I2 in Hz.
           rewrite Forall_forall in H2, H4. destruct Hz; auto.
        -- intro z. simpl. rewrite I2. tauto.
Qed.

(** ** Adjacent elements *)
Definition adj (l : list nat) (x y : nat) : Prop :=
  In x l /\ In y l /\ x < y /\ forall z, In z l -> z <= x \/ y <= z.

Lemma incr_app : forall a b, incr (a ++ b) ->
  incr a /\ incr b /\ forall x y, In x a -> In y b -> x < y.
Proof.
  induction a as [|x a IH]; simpl; intros b H.
  - split; [constructor|]. split; auto. easy.
  - inversion H; subst. destruct (IH b H2) as (I1 & I2 & I3).
    rewrite Forall_forall in H3. split; [|split; auto].
    + constructor; auto. apply Forall_forall. intros y Hy. apply H3. apply in_or_app; auto.
    + intros u v [<-|Hu] Hv; [apply H3; apply in_or_app; auto|auto].
Qed.

Lemma adj_split : forall l x y, incr l -> (adj l x y <-> exists a b, l = a ++ x :: y :: b).
Proof.
  intros l x y Hi. split.
  - intros (Hx & Hy & Hlt & Hb). apply in_split in Hx. destruct Hx as (a & b & ->).
    exists a. destruct b as [|z b].
    + exfalso. apply in_app_or in Hy. destruct Hy as [Hy|[Hy|[]]]; [|lia].
      destruct (incr_app _ _ Hi) as (_ & _ & H). specialize (H y x Hy (or_introl eq_refl)). lia.
    + exists b. f_equal. f_equal. f_equal.
      destruct (incr_app _ _ Hi) as (_ & H2 & H3). inversion H2; subst. inversion H1; subst.
      rewrite Forall_forall in H4, H6.
      assert (x < z) by (apply H4; simpl; auto).
      destruct (Hb z) as [Hz|Hz]; [apply in_or_app; simpl; auto|lia|].
      apply in_app_or in Hy. destruct Hy as [Hy|[Hy|[Hy|Hy]]]; [|lia|auto|].
      * specialize (H3 y x Hy (or_introl eq_refl)). lia.
      * specialize (H6 y Hy). lia.
  - intros (a & b & ->). destruct (incr_app _ _ Hi) as (_ & H2 & H3). inversion H2; subst.
    inversion H1; subst. rewrite Forall_forall in H4, H6.
    split; [apply in_or_app; simpl; auto|]. split; [apply in_or_app; simpl; auto|].
    split; [apply H4; simpl; auto|]. intros z Hz. apply in_app_or in Hz.
    destruct Hz as [Hz|[->|[->|Hz]]]; auto.
    + left. apply Nat.lt_le_incl. apply H3; simpl; auto.
    + right. apply Nat.lt_le_incl. apply H6; auto.
Qed.

Lemma incr_splits : forall n l, incr l -> hd_error l = Some 0 -> In n l ->
  (forall x, In x l -> x <= n) -> splits n l.
Proof.
  intros n l Hi Hh Hn Hm. split; auto. split.
  - apply in_split in Hn. destruct Hn as (a & b & ->). destruct b as [|z b].
    + apply last_last.
    + exfalso. destruct (incr_app _ _ Hi) as (_ & H2 & _). inversion H2; subst.
      rewrite Forall_forall in H3. assert (n < z) by (apply H3; simpl; auto).
      assert (z <= n) by (apply Hm; apply in_or_app; simpl; auto). lia.
  - intros a x y b ->. destruct (incr_app _ _ Hi) as (_ & H2 & _). inversion H2; subst.
    rewrite Forall_forall in H3. apply H3; simpl; auto.
Qed.

Lemma incr_length : forall l n, incr l -> (forall x, In x l -> x <= n) -> length l <= n + 1.
Proof.
  intros l n Hi Hm. assert (ND : NoDup l).
  { induction Hi as [|x l Hs IH Hf]; constructor.
    - intro Hx. rewrite Forall_forall in Hf. specialize (Hf x Hx). lia.
    - apply IH. intros y Hy. apply Hm; simpl; auto. }
  assert (I : incl l (seq 0 (n + 1))).
  { intros x Hx. apply in_seq. specialize (Hm x Hx). lia. }
  pose proof (NoDup_incl_length ND I) as H. rewrite seq_length in H. auto.
Qed.

Lemma incr_hd : forall l, incr l -> In 0 l -> hd_error l = Some 0.
Proof.
  intros l Hi H0. inversion Hi as [|x l' Hs Hf]; subst; [easy|]. simpl. f_equal.
  destruct H0 as [->|H0]; auto. rewrite Forall_forall in Hf. specialize (Hf 0 H0). lia.
Qed.

(** ** any_oversize *)
Lemma any_oversize_iff : forall maxsz l, incr l ->
  (any_oversize maxsz l = true <-> exists x y, adj l x y /\ maxsz < y - x).
Proof.
  intros maxsz l Hi.
  assert (A : any_oversize maxsz l = true <-> exists a x y b, l = a ++ x :: y :: b /\ maxsz < y - x).
  { clear Hi. induction l as [|x l IH].
    - split; [discriminate|]. intros (a & x & y & b & E & _). destruct a; discriminate.
    - destruct l as [|y l].
      + split; [discriminate|]. intros (a & u & v & b & E & _).
        destruct a as [|? [|? a]]; discriminate.
      + change (any_oversize maxsz (x :: y :: l))
          with (orb (Nat.ltb maxsz (y - x)) (any_oversize maxsz (y :: l))).
        rewrite Bool.orb_true_iff, IH, Nat.ltb_lt. split.
        * intros [H|(a & u & v & b & E & H)].
          -- exists [], x, y, l. auto.
          -- exists (x :: a), u, v, b. rewrite E. auto.
        * intros (a & u & v & b & E & H). destruct a as [|w a].
          -- injection E as -> -> ->. auto.
          -- injection E as -> E. right. exists a, u, v, b. auto. }
  rewrite A. split.
  - intros (a & x & y & b & E & H). exists x, y. split; auto. apply adj_split; eauto.
  - intros (x & y & Ha & H). apply adj_split in Ha; auto. destruct Ha as (a & b & E).
    exists a, x, y, b; auto.
Qed.

Lemma any_oversize_false : forall maxsz l, incr l -> any_oversize maxsz l = false ->
  forall x y, adj l x y -> y - x <= maxsz.
Proof.
  intros maxsz l Hi H x y Ha. destruct (le_lt_dec (y - x) maxsz); auto.
  assert (any_oversize maxsz l = true) by (apply any_oversize_iff; eauto). congruence.
Qed.
