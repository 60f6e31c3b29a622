(** Scoping of batchers, iterators and shared quadratures, read off a program text. *)
From Coq Require Import List Arith Bool ZArith.
From Verif Require Import Base.Outcome Base.Scalar Model.S2 Model.Composite Model.Batcher Model.Heap Model.Lifetime.
Import ListNotations.

(** [sc_vars] batchers have been created, those in [sc_dead] destroyed; [sc_own] lists for
    every iterator the batcher whose batches it walks over; [sc_held] are the quadratures
    the caller still holds. *)
Record scope : Type := mkScope {
  sc_vars : nat;
  sc_dead : list nat;
  sc_own : list nat;
  sc_held : list nat
}.
Definition alive (sc : scope) (v : nat) : Prop := v < sc_vars sc /\ ~ In v (sc_dead sc).
(** Iterator [k] belongs to batcher [v], which still exists. *)
Definition valid (sc : scope) (k v : nat) : Prop := nth_error (sc_own sc) k = Some v /\ alive sc v.

Section Spec.
Context {S : Scalar}.

(** [sc] permits operation [c] and becomes [sc']: only existing batchers, iterators of
    existing batchers and quadratures still held are used. Moving a batcher hands its
    iterators on; destroying it invalidates them. *)
Inductive scoped : scope -> lop S -> scope -> Prop :=
| sc_new : forall n d o h m q, scoped (mkScope n d o h) (LOp (OpNew m q)) (mkScope (n + 1) d o h)
| sc_newidx : forall n d o h m q i, scoped (mkScope n d o h) (LOp (OpNewIdx m q i)) (mkScope (n + 1) d o h)
| sc_shared : forall n d o h m a, In a h ->
    scoped (mkScope n d o h) (LOp (OpNewShared m a)) (mkScope (n + 1) d o h)
| sc_sharedidx : forall n d o h m a i, In a h ->
    scoped (mkScope n d o h) (LOp (OpNewSharedIdx m a i)) (mkScope (n + 1) d o h)
| sc_copy : forall n d o h v, alive (mkScope n d o h) v ->
    scoped (mkScope n d o h) (LOp (OpCopy v)) (mkScope (n + 1) d o h)
| sc_clone : forall n d o h v, alive (mkScope n d o h) v ->
    scoped (mkScope n d o h) (LOp (OpClone v)) (mkScope (n + 1) d o h)
| sc_move : forall n d o h v, alive (mkScope n d o h) v ->
    scoped (mkScope n d o h) (LOp (OpMove v))
      (mkScope (n + 1) d (map (fun u => if Nat.eqb u v then n else u) o) h)
| sc_recenter : forall sc v c, alive sc v -> scoped sc (LOp (OpRecenter v c)) sc
| sc_setpoint : forall sc v i p, alive sc v -> scoped sc (LOp (OpSetPoint v i p)) sc
| sc_setweight : forall sc v i w, alive sc v -> scoped sc (LOp (OpSetWeight v i w)) sc
| sc_begin : forall n d o h v, alive (mkScope n d o h) v ->
    scoped (mkScope n d o h) (LOp (OpBegin v)) (mkScope n d (o ++ [v]) h)
| sc_end : forall n d o h v, alive (mkScope n d o h) v ->
    scoped (mkScope n d o h) (LOp (OpEnd v)) (mkScope n d (o ++ [v]) h)
| sc_inc : forall sc k v, valid sc k v -> scoped sc (LOp (OpInc k)) sc
| sc_postinc : forall n d o h k v, valid (mkScope n d o h) k v ->
    scoped (mkScope n d o h) (LOp (OpPostInc k)) (mkScope n d (o ++ [v]) h)
| sc_plus : forall n d o h k v z, valid (mkScope n d o h) k v ->
    scoped (mkScope n d o h) (LOp (OpPlus k z)) (mkScope n d (o ++ [v]) h)
| sc_destroy : forall n d o h v, alive (mkScope n d o h) v ->
    scoped (mkScope n d o h) (LDestroy v) (mkScope n (v :: d) o h)
| sc_drop : forall n d o h a, In a h ->
    scoped (mkScope n d o h) (LDrop a) (mkScope n d o (remove Nat.eq_dec a h)).

Inductive scopes : scope -> list (lop S) -> scope -> Prop :=
| sc_nil : forall sc, scopes sc [] sc
| sc_cons : forall a c b cs e, scoped a c b -> scopes b cs e -> scopes a (c :: cs) e.

(** The caller starts with [n] quadratures. *)
Definition scope0 (n : nat) : scope := mkScope 0 [] [] (seq 0 n).

(** The program without its lifetime operations. *)
Fixpoint erase (cs : list (lop S)) : list (op S) :=
  match cs with
  | [] => []
  | LOp c :: r => c :: erase r
  | _ :: r => erase r
  end.

(** Batcher [v] exists and shares the quadrature at address [a]. *)
Definition shares (sc : scope) (s : state S) (a v : nat) : Prop :=
  alive sc v /\ exists b, vget (vars s) v = Ok b /\ b_quad b = Some a.
(** [l] lists exactly the batchers sharing the quadrature at [a], each once. *)
Definition sharers (sc : scope) (s : state S) (a : nat) (l : list nat) : Prop :=
  NoDup l /\ forall v, In v l <-> shares sc s a v.
End Spec.
