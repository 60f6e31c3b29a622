(** Specification vocabulary for batching. *)
From Coq Require Import List Arith Permutation.
From Verif Require Import Base.Scalar Model.S2 Model.Batcher.
Import ListNotations.

Section Batch.
Context {S : Scalar}.

(** What the C++ standard says about std::partition: a rearrangement in which all
    elements satisfying the predicate precede all others. *)
Definition conforming (part : (pw S -> bool) -> list (pw S) -> list (pw S)) : Prop :=
  forall f l, Permutation (part f l) l /\
    exists yes no, part f l = yes ++ no /\
      Forall (fun e => f e = true) yes /\ Forall (fun e => f e = false) no.

(** The elements of consecutive index ranges [i0,i1), [i1,i2), ... of [l]. *)
Fixpoint pieces {A} (idx : list nat) (l : list A) : list (list A) :=
  match idx with
  | i :: ((j :: _) as r) => firstn (j - i) (skipn i l) :: pieces r l
  | _ => []
  end.

(** [splits n idx]: 0 = i0 < i1 < ... < ik = n. *)
Definition splits (n : nat) (idx : list nat) : Prop :=
  hd_error idx = Some 0 /\ last idx 0 = n /\
  forall a x y b, idx = a ++ x :: y :: b -> x < y.

(** All coordinates of a point satisfy [P]. *)
Definition coords (P : S -> Prop) (p : @pt3 S) : Prop :=
  P (coord 0 p) /\ P (coord 1 p) /\ P (coord 2 p).

(** Laws of the order used by the batcher: [<] is a strict weak order on the values
    satisfying [good], asymmetric everywhere, and adding [0 * d] to a lower bound
    cannot move it above a value it bounds. They hold for the reals with
    [good := True] and for binary64 with [good := not NaN]. *)
Record order_laws (good : S -> Prop) : Prop := {
  ol_asym : forall x y : S, sltb x y = true -> sltb y x = false;
  ol_trans : forall x y z : S, good x -> good y -> good z ->
    sltb y x = false -> sltb z y = false -> sltb z x = false;
  ol_zero : forall lo d p : S, good lo -> good p ->
    sltb p lo = false -> sltb p (sadd lo (smul (sofN 0) d)) = false
}.

(** Point [p] lies in the closed box [lo,up] ([<] never holds outwards). *)
Definition inside (lo up p : @pt3 S) : Prop :=
  forall k, k < 3 -> sltb (coord k p) (coord k lo) = false
                  /\ sltb (coord k up) (coord k p) = false.
End Batch.

(** At most [m] of the points of [q] coincide (as points, whatever their weights). *)
Definition coincide_at_most {S : Scalar} (m : nat) (q : list (pw S)) : Prop :=
  forall p K l, Permutation q (K ++ l) -> Forall (fun e => fst e = p) K -> length K <= m.
