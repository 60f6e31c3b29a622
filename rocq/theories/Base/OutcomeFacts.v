(** Facts about the outcome vocabulary (no model content). *)
From Coq Require Import List Arith Lia.
From Verif Require Import Base.Outcome.
Import ListNotations.

Lemma bind_Ok_inv : forall A B (m : outcome A) (k : A -> outcome B) b,
  bind m k = Ok b -> exists a, m = Ok a /\ k a = Ok b.
Proof. intros A B m k b H; destruct m; simpl in H; try discriminate; eauto. Qed.

Lemma vget_Ok : forall A (v : list A) i a, vget v i = Ok a <-> nth_error v i = Some a.
Proof.
  intros; unfold vget; destruct (nth_error v i); split; intro H; inversion H; auto.
Qed.

Lemma vget_nth : forall A (d : A) (v : list A) i,
  i < length v -> vget v i = Ok (nth i v d).
Proof.
  intros A d v i H; unfold vget.
  rewrite (nth_error_nth' v d H); reflexivity.
Qed.

Lemma vget_oob : forall A (v : list A) i, length v <= i -> vget v i = UB.
Proof.
  intros A v i H; unfold vget.
  apply nth_error_None in H; rewrite H; reflexivity.
Qed.

(** Functional update used to describe the effect of [vset]. *)
Fixpoint upd {A} (v : list A) (i : nat) (a : A) : list A :=
  match v, i with
  | [], _ => []
  | _ :: r, O => a :: r
  | x :: r, S j => x :: upd r j a
  end.

Lemma upd_length : forall A (v : list A) i a, length (upd v i a) = length v.
Proof. induction v; destruct i; simpl; intros; auto. Qed.

Lemma nth_upd : forall A (v : list A) i j a d,
  i < length v -> nth j (upd v i a) d = if Nat.eqb j i then a else nth j v d.
Proof.
  induction v as [|x r IH]; intros i j a d H; simpl in H; [lia|].
  destruct i, j; simpl; auto. apply IH; lia.
Qed.

Lemma vset_Ok : forall A (v : list A) i a, i < length v -> vset v i a = Ok (upd v i a).
Proof.
  induction v as [|x r IH]; intros i a H; simpl in H; [lia|].
  destruct i; simpl; auto. rewrite IH by lia; reflexivity.
Qed.

Lemma vset_oob : forall A (v : list A) i a, length v <= i -> vset v i a = UB.
Proof.
  induction v as [|x r IH]; intros i a H; simpl in *; auto.
  destruct i; [lia|]; simpl. rewrite IH by lia; reflexivity.
Qed.

Lemma vset_Ok_inv : forall A (v : list A) i a v',
  vset v i a = Ok v' -> i < length v /\ v' = upd v i a.
Proof.
  intros A v i a v' H.
  destruct (Nat.lt_ge_cases i (length v)) as [Hl|Hl].
  - rewrite vset_Ok in H by auto; inversion H; auto.
  - rewrite vset_oob in H by auto; discriminate.
Qed.

(** Total-correctness rule for counted loops. *)
Lemma for_range_ok : forall S (P : nat -> S -> Prop) lo hi body s,
  lo <= hi -> P lo s ->
  (forall i s, lo <= i < hi -> P i s -> exists s', body i s = Ok s' /\ P (Datatypes.S i) s') ->
  exists s', for_range lo hi body s = Ok s' /\ P hi s'.
Proof.
  intros S P lo hi body s Hle H0 Hstep. unfold for_range.
  remember (hi - lo) as k eqn:Hk. revert lo s Hle H0 Hk Hstep.
  induction k as [|k IH]; intros lo s Hle H0 Hk Hstep; simpl.
  - exists s; split; auto. replace hi with lo by lia; auto.
  - destruct (Hstep lo s) as [s1 [E1 P1]]; [lia|auto|].
    rewrite E1; simpl. apply IH; auto; try lia.
    intros; apply Hstep; auto; lia.
Qed.

(** Partial-correctness rule: whatever the body may raise, a normal exit of the
    loop satisfies the invariant. *)
Lemma for_range_partial : forall S (P : nat -> S -> Prop) lo hi body s s',
  lo <= hi -> P lo s ->
  (forall i s s', lo <= i < hi -> P i s -> body i s = Ok s' -> P (Datatypes.S i) s') ->
  for_range lo hi body s = Ok s' -> P hi s'.
Proof.
  intros S P lo hi body s s' Hle H0 Hstep. unfold for_range.
  remember (hi - lo) as k eqn:Hk. revert lo s Hle H0 Hk Hstep.
  induction k as [|k IH]; intros lo s Hle H0 Hk Hstep Hrun; simpl in Hrun.
  - inversion Hrun; subst. replace hi with lo by lia; auto.
  - apply bind_Ok_inv in Hrun; destruct Hrun as [s1 [E1 E2]].
    apply IH with (lo := Datatypes.S lo) (s := s1); auto; try lia.
    + apply Hstep with s; auto; lia.
    + intros; eapply Hstep; eauto; lia.
Qed.

(** Pure loops: when the body is always [Ok (f i s)] the loop is a fold. *)
Lemma for_count_pure : forall S (f : nat -> S -> S) body k lo s,
  (forall i s, lo <= i < lo + k -> body i s = Ok (f i s)) ->
  for_count k lo body s = Ok (fold_left (fun s i => f i s) (seq lo k) s).
Proof.
  intros S f body k; induction k as [|k IH]; intros lo s H; simpl; auto.
  rewrite H by lia; simpl. apply IH; intros; apply H; lia.
Qed.

Lemma for_range_empty : forall S lo hi (body : nat -> S -> outcome S) s,
  hi <= lo -> for_range lo hi body s = Ok s.
Proof. intros; unfold for_range; replace (hi - lo) with 0 by lia; auto. Qed.
