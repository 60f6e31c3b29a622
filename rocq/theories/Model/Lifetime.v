(** Lifetimes of batchers, of the quadratures they share and of their iterators,
    include/integratorxx/batch/spherical_micro_batcher.hpp:246-249, 263-265, 333-335,
    395-405, 450-466, 483-489. On top of Model/Heap.v every shared quadrature gets the
    use count of its [shared_ptr] control block, and batchers can be destroyed.

    Simplifications: objects the caller shares with batchers (l.395-405) exist from the
    start, each held by the caller through one [shared_ptr]; the storage of a destroyed
    object or vector is not handed out again, so touching it is undefined behaviour and
    never a valid access to something newer. *)
From Coq Require Import List Bool Arith ZArith.
From Verif Require Import Base.Outcome Base.Scalar Model.Quadrature Model.S2
  Model.Composite Model.Batcher Model.Heap.
Import ListNotations.

Section Lifetime.
Context {S : Scalar}.
Variable std_partition : (pw S -> bool) -> list (pw S) -> list (pw S).

(** spherical_micro_batcher.hpp:248-249 : the state of Model/Heap.v; [cnt] the use count
    of the object at each address (0: destroyed); [held] the addresses the caller holds a
    [shared_ptr] to; [dead] the destroyed batcher variables; [gone] the released
    [partition_idx_] storages. *)
Record lstate : Type := mkL {
  base : state S;
  cnt : list nat;
  held : list nat;
  dead : list nat;
  gone : list nat
}.

(** The operations of Model/Heap.v (l.395-513); the implicit destructor of batcher
    variable [v] (members l.246-249); the caller letting go of the object at [a]. *)
Inductive lop : Type :=
| LOp (c : op S)
| LDestroy (v : nat)
| LDrop (a : nat).

(** Is [x] in the list? (helper for the checks below, l.246-249) *)
Definition isin (x : nat) (l : list nat) : bool := existsb (Nat.eqb x) l.

(** Naming a destroyed variable is undefined behaviour (l.246-249). *)
Definition var_ok (s : lstate) (v : nat) : outcome unit :=
  if isin v (dead s) then UB else Ok tt.

(** l.248 : touching the object at [a], which must not have been destroyed. *)
Definition obj_ok (s : lstate) (a : nat) : outcome unit :=
  let* n := vget (cnt s) a in if Nat.eqb n 0 then UB else Ok tt.

(** l.248 : touching [*quad_] of variable [v]; null is dealt with in Model/Heap.v. *)
Definition quad_ok (s : lstate) (v : nat) : outcome unit :=
  let* b := vget (vars (base s)) v in
  match b_quad b with Some a => obj_ok s a | None => Ok tt end.

(** l.263,333 : using [idx_it] of iterator [k], whose vector must still exist. *)
Definition vec_ok (s : lstate) (k : nat) : outcome unit :=
  let* it := vget (iters (base s)) k in
  if isin (i_vec it) (gone s) then UB else Ok tt.

(** Lifetime conditions of an operation (l.395-513). *)
Definition lcheck (s : lstate) (c : op S) : outcome unit :=
  match c with
  | OpNew _ _ | OpNewIdx _ _ _ => Ok tt
  | OpNewShared _ a | OpNewSharedIdx _ a _ => if isin a (held s) then obj_ok s a else UB
  | OpCopy v | OpMove v => var_ok s v
  | OpClone v | OpRecenter v _ | OpSetPoint v _ _ | OpSetWeight v _ _
  | OpBegin v | OpEnd v => let* _ := var_ok s v in quad_ok s v
  | OpInc k | OpPostInc k | OpPlus k _ => vec_ok s k
  end.

(** One more, one fewer owner of the object at [a] (l.248). *)
Definition incr (n : list nat) (a : nat) : outcome (list nat) :=
  let* x := vget n a in vset n a (Nat.add x 1).
(** One fewer owner (l.248); below zero is undefined behaviour. *)
Definition decr (n : list nat) (a : nat) : outcome (list nat) :=
  let* x := vget n a in
  match x with O => UB | Datatypes.S y => vset n a y end.

(** Use counts after an operation: [make_shared] (l.416-446) and [clone] (l.487-489)
    create an object with one owner; adopting (l.395-405) and copying (l.483) add an
    owner; moving (l.484) does not. *)
Definition lcount (s : lstate) (c : op S) : outcome (list nat) :=
  match c with
  | OpNew _ _ | OpNewIdx _ _ _ | OpClone _ => Ok (cnt s ++ [1])
  | OpNewShared _ a | OpNewSharedIdx _ a _ => incr (cnt s) a
  | OpCopy v =>
      let* b := vget (vars (base s)) v in
      match b_quad b with Some a => incr (cnt s) a | None => Ok (cnt s) end
  | _ => Ok (cnt s)
  end.

(** One operation. Destroying a batcher (l.246-249) releases its index vector and its
    share of the quadrature; a moved-from batcher (null [quad_], l.484) has neither. *)
Definition lstep (fuel : nat) (s : lstate) (c : lop) : outcome lstate :=
  match c with
  | LOp c =>
      let* _ := lcheck s c in
      let* b := step std_partition fuel (base s) c in
      let* n := lcount s c in
      Ok (mkL b n (held s) (dead s) (gone s))
  | LDestroy v =>
      let* _ := var_ok s v in
      let* b := vget (vars (base s)) v in
      match b_quad b with
      | Some a =>
          let* n := decr (cnt s) a in
          Ok (mkL (base s) n (held s) (v :: dead s) (b_vec b :: gone s))
      | None => Ok (mkL (base s) (cnt s) (held s) (v :: dead s) (gone s))
      end
  | LDrop a =>
      if isin a (held s) then
        let* n := decr (cnt s) a in
        Ok (mkL (base s) n (remove Nat.eq_dec a (held s)) (dead s) (gone s))
      else UB
  end.

(** A program (l.395-513). *)
Fixpoint lrun (fuel : nat) (s : lstate) (cs : list lop) : outcome lstate :=
  match cs with
  | [] => Ok s
  | c :: r => let* s' := lstep fuel s c in lrun fuel s' r
  end.

(** The caller holds the objects [h0]; no batcher exists yet. *)
Definition linit (h0 : list (sphobj S)) : lstate :=
  mkL (mkState h0 [] []) (repeat 1 (length h0)) (seq 0 (length h0)) [] [].

(** l.493-499 : quadrature(), points(), weights() of variable [v]. *)
Definition lview (s : lstate) (v : nat) : outcome (sphobj S) :=
  let* _ := var_ok s v in let* _ := quad_ok s v in view (base s) v.

(** l.305-317,376-388 : *it for iterator [k]: reads the index vector, the points and the
    weights. *)
Definition lderef (s : lstate) (k : nat) : outcome ((@pt3 S * @pt3 S) * (list (@pt3 S) * list S)) :=
  let* _ := vec_ok s k in
  let* it := vget (iters (base s)) k in
  let* _ := obj_ok s (i_obj it) in
  iter_deref (base s) k.

End Lifetime.
Arguments lstate : clear implicits.
Arguments lop : clear implicits.
