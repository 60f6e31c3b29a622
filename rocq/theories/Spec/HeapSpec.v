(** Which batcher variables share a quadrature, and where iterators stand, read off a
    program text. Variables are numbered in order of creation; [nv] is the number of
    batchers existing so far. *)
From Coq Require Import List Arith Bool ZArith.
From Verif Require Import Base.Scalar Model.S2 Model.Composite Model.Batcher Model.Heap.
Import ListNotations.

Definition mem (v : nat) (A : list nat) : bool := existsb (Nat.eqb v) A.

Section Alias.
Context {S : Scalar}.

(** Number of batchers after one operation. *)
Definition nvars_after (nv : nat) (c : op S) : nat :=
  match c with
  | OpNew _ _ | OpNewIdx _ _ _ | OpNewShared _ _ | OpNewSharedIdx _ _ _
  | OpCopy _ | OpMove _ | OpClone _ => nv + 1
  | _ => nv
  end.

(** The variables [A] hold the quadrature at address [a]; those holding it after [c]. *)
Definition next_alias (nv a : nat) (A : list nat) (c : op S) : list nat :=
  match c with
  | OpCopy v => if mem v A then nv :: A else A
  | OpMove v => if mem v A then nv :: remove Nat.eq_dec v A else A
  | OpNewShared _ b | OpNewSharedIdx _ b _ => if Nat.eqb b a then nv :: A else A
  | _ => A
  end.
Fixpoint aliases (nv a : nat) (A : list nat) (cs : list (op S)) : list nat :=
  match cs with
  | [] => A
  | c :: r => aliases (nvars_after nv c) a (next_alias nv a A c) r
  end.

(** The variable through which an operation changes a quadrature's points, weights or
    centre. *)
Definition writes (c : op S) : option nat :=
  match c with
  | OpRecenter v _ | OpSetPoint v _ _ | OpSetWeight v _ _ => Some v
  | _ => None
  end.

(** [cs] changes nothing through a variable holding the quadrature at [a], and does not
    batch it in place. *)
Fixpoint leaves_alone (nv a : nat) (A : list nat) (cs : list (op S)) : Prop :=
  match cs with
  | [] => True
  | c :: r =>
      (forall v, writes c = Some v -> ~ In v A) /\ (forall m, c <> OpNewShared m a) /\
      leaves_alone (nvars_after nv c) a (next_alias nv a A c) r
  end.

(** [cs] changes quadratures only through variables holding the one at [a], and batches no
    other quadrature in place. *)
Fixpoint only_touches (nv a : nat) (A : list nat) (cs : list (op S)) : Prop :=
  match cs with
  | [] => True
  | c :: r =>
      (forall v, writes c = Some v -> In v A) /\ (forall m b, c = OpNewShared m b -> b = a) /\
      only_touches (nvars_after nv c) a (next_alias nv a A c) r
  end.

(** The variable that owns, after [cs], what [v] owned before: it changes when the owner
    is moved from. *)
Fixpoint owner (nv v : nat) (cs : list (op S)) : nat :=
  match cs with
  | [] => v
  | c :: r => owner (nvars_after nv c)
                (match c with OpMove u => if Nat.eqb u v then nv else v | _ => v end) r
  end.

(** How far [cs] advances the iterator variable [k]. *)
Definition moves_iter (k : nat) (c : op S) : Z :=
  match c with
  | OpInc j | OpPostInc j => if Nat.eqb j k then 1 else 0
  | OpPlus j d => if Nat.eqb j k then d else 0
  | _ => 0
  end%Z.
Fixpoint travel (k : nat) (cs : list (op S)) : Z :=
  match cs with [] => 0%Z | c :: r => (moves_iter k c + travel k r)%Z end.
End Alias.
