(** Lists given by a function on indices; closed forms of the fill loops. *)
From Coq Require Import List Bool Arith Lia.
From Verif Require Import Base.Outcome Base.OutcomeFacts.
Import ListNotations.

Definition tab {A} (n : nat) (f : nat -> A) : list A := map f (seq 0 n).

Section Tab.
Context {A : Type}.

Lemma tab_length : forall n (f : nat -> A), length (tab n f) = n.
Proof. intros; unfold tab; rewrite map_length, seq_length; auto. Qed.

Lemma tab_ext : forall n (f g : nat -> A),
  (forall i, i < n -> f i = g i) -> tab n f = tab n g.
Proof.
  intros n f g H; unfold tab; apply map_ext_in; intros i Hi.
  apply in_seq in Hi; apply H; lia.
Qed.

Lemma nth_tab : forall n (f : nat -> A) i d, i < n -> nth i (tab n f) d = f i.
Proof.
  intros n f i d H; unfold tab.
  rewrite nth_indep with (d' := f 0) by (rewrite map_length, seq_length; auto).
  rewrite map_nth, seq_nth by auto; auto.
Qed.

Lemma nth_error_tab : forall n (f : nat -> A) i, i < n -> nth_error (tab n f) i = Some (f i).
Proof.
  intros n f i H. rewrite nth_error_nth' with (d := f i) by (rewrite tab_length; auto).
  rewrite nth_tab; auto.
Qed.

Lemma vget_tab : forall n (f : nat -> A) i, i < n -> vget (tab n f) i = Ok (f i).
Proof. intros; unfold vget; rewrite nth_error_tab; auto. Qed.

Lemma list_eq_nth : forall (l l' : list A) d, length l = length l' ->
  (forall i, i < length l -> nth i l d = nth i l' d) -> l = l'.
Proof. intros; eapply nth_ext; eauto. Qed.

Lemma vset_tab : forall n (f : nat -> A) i a, i < n ->
  vset (tab n f) i a = Ok (tab n (fun j => if Nat.eqb j i then a else f j)).
Proof.
  intros n f i a H. rewrite vset_Ok by (rewrite tab_length; auto). f_equal.
  apply list_eq_nth with (d := a). rewrite upd_length, !tab_length; auto.
  intros j Hj. rewrite upd_length, tab_length in Hj.
  rewrite nth_upd by (rewrite tab_length; auto). rewrite !nth_tab by auto. auto.
Qed.

Lemma repeat_tab : forall n (a : A), repeat a n = tab n (fun _ => a).
Proof.
  intros n a; unfold tab. generalize 0.
  induction n; intros; simpl; auto. rewrite <- IHn; auto.
Qed.

Lemma list_tab : forall (l : list A) d, l = tab (length l) (fun i => nth i l d).
Proof.
  intros l d. apply list_eq_nth with (d := d). rewrite tab_length; auto.
  intros i Hi. rewrite nth_tab; auto.
Qed.

Lemma tab_S : forall n (f : nat -> A), tab (S n) f = tab n f ++ [f n].
Proof. intros; unfold tab; rewrite seq_S, map_app; auto. Qed.

Lemma tab_S_l : forall n (f : nat -> A), tab (S n) f = f 0 :: tab n (fun i => f (S i)).
Proof. intros; unfold tab; simpl. rewrite <- seq_shift, map_map; auto. Qed.

Lemma tab_app : forall n m (f : nat -> A),
  tab (n + m) f = tab n f ++ tab m (fun i => f (n + i)).
Proof.
  intros n m f; revert n; induction m; intros n.
  - rewrite Nat.add_0_r; unfold tab at 3; simpl; rewrite app_nil_r; auto.
  - replace (n + S m) with (S (n + m)) by lia.
    rewrite !tab_S, IHm, app_assoc; auto.
Qed.

Lemma In_tab : forall n (f : nat -> A) x, In x (tab n f) <-> exists i, i < n /\ x = f i.
Proof.
  intros n f x; unfold tab; rewrite in_map_iff; split.
  - intros (i & He & Hi); apply in_seq in Hi; exists i; split; [lia|auto].
  - intros (i & Hi & He); exists i; split; auto; apply in_seq; lia.
Qed.

Lemma map_tab : forall B (g : A -> B) n (f : nat -> A),
  map g (tab n f) = tab n (fun i => g (f i)).
Proof. intros; unfold tab; rewrite map_map; auto. Qed.

Lemma rev_tab : forall n (f : nat -> A), rev (tab n f) = tab n (fun i => f (n - 1 - i)).
Proof.
  induction n; intros f. reflexivity.
  rewrite tab_S, rev_app_distr, IHn, tab_S_l. simpl. f_equal.
  - f_equal; lia.
  - apply tab_ext; intros; f_equal; lia.
Qed.

End Tab.

Lemma combine_tab : forall A B n (f : nat -> A) (g : nat -> B),
  combine (tab n f) (tab n g) = tab n (fun i => (f i, g i)).
Proof.
  intros A B n; induction n; intros f g; auto.
  rewrite !tab_S_l; simpl; rewrite IHn; auto.
Qed.

(** A loop that fills position i with [p i]. *)
Lemma fill_loop : forall A n (p f0 : nat -> A),
  for_range 0 n (fun i v => vset v i (p i)) (tab n f0) = Ok (tab n p).
Proof.
  intros A n p f0.
  destruct (for_range_ok _ (fun i v => v = tab n (fun j => if j <? i then p j else f0 j))
              0 n (fun i v => vset v i (p i)) (tab n f0)) as (v & Hr & Hv).
  - lia.
  - apply tab_ext; intros; auto.
  - intros i v Hi ->. rewrite vset_tab by lia. eexists; split; [reflexivity|].
    apply tab_ext; intros j Hj.
    destruct (Nat.eqb_spec j i); destruct (Nat.ltb_spec j i);
      destruct (Nat.ltb_spec j (S i)); try lia; subst; auto.
  - rewrite Hr, Hv. f_equal. apply tab_ext; intros j Hj.
    destruct (Nat.ltb_spec j n); [auto|lia].
Qed.

(** A loop that rewrites position i in place by [g i]. *)
Lemma update_loop : forall A n (g : nat -> A -> A) (f : nat -> A),
  for_range 0 n (fun i v => let* x := vget v i in vset v i (g i x)) (tab n f)
  = Ok (tab n (fun i => g i (f i))).
Proof.
  intros A n g f.
  destruct (for_range_ok _
     (fun i v => v = tab n (fun j => if j <? i then g j (f j) else f j))
     0 n (fun i v => let* x := vget v i in vset v i (g i x)) (tab n f)) as (v & Hr & Hv).
  - lia.
  - apply tab_ext; intros; auto.
  - intros i v Hi ->. rewrite vget_tab by lia. simpl.
    rewrite vset_tab by lia. eexists; split; [reflexivity|].
    apply tab_ext; intros j Hj. rewrite Nat.ltb_irrefl.
    destruct (Nat.eqb_spec j i); destruct (Nat.ltb_spec j i);
      destruct (Nat.ltb_spec j (S i)); try lia; subst; auto.
  - rewrite Hr, Hv. f_equal. apply tab_ext; intros j Hj.
    destruct (Nat.ltb_spec j n); [auto|lia].
Qed.
