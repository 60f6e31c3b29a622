(** Object-level model of batchers and batch iterators sharing quadratures,
    include/integratorxx/batch/spherical_micro_batcher.hpp:220-513.

    A heap maps addresses to spherical quadrature objects; [shared_ptr] copies are
    copies of the address. Destruction is added in Model/Lifetime.v (an address is never
    reused). Batcher variables and iterator variables live side by side in [vars]
    and [iters], numbered in order of creation. Assignment between batchers does
    not exist in the code: the user-declared move constructor (l.484) deletes it. *)
From Coq Require Import List Bool Arith ZArith.
From Verif Require Import Base.Outcome Base.Scalar Model.Quadrature Model.S2
  Model.Composite Model.Batcher.
Import ListNotations.

Section Heap.
Context {S : Scalar}.
Notation pt3 := (@pt3 S).
Variable std_partition : (pw S -> bool) -> list (pw S) -> list (pw S).

(** spherical_micro_batcher.hpp:263-265,333-335 : the members of a (const) iterator: a
    position [i_pos] in the index vector with storage [i_vec] and elements [i_idx]
    (index vectors never change after construction), and the point and weight storage
    of the quadrature at address [i_obj]. *)
Record iter : Type := mkIter {
  i_vec : nat;
  i_idx : list nat;
  i_pos : nat;
  i_obj : nat
}.

(** Program state (members spherical_micro_batcher.hpp:246-249, 263-265): heap of quadrature objects, the batcher and the iterator variables. *)
Record state : Type := mkState {
  heap : list (sphobj S);
  vars : list batcher;
  iters : list iter
}.

(** spherical_micro_batcher.hpp:521-523,621-622 : generate_batches reads the pairs of
    *quad_ and writes them back permuted (points and weights of a quadrature have
    equal length, so pairing loses nothing). *)
Definition batch_object (fuel maxsz : nat) (o : sphobj S)
  : outcome (sphobj S * list nat) :=
  let q := combine (qpoints (sph_quad o)) (qweights (sph_quad o)) in
  let* (q', idx) := generate_batches std_partition fuel maxsz q in
  Ok (mkSph (mkQuad (map fst q') (map snd q')) (sph_center o), idx).

(** spherical_micro_batcher.hpp:395-513 : the operations of the public interface that create or change batchers, quadratures
    reached through them, and iterators. *)
Inductive op : Type :=
(** l.416-421, 432-437 (and make_batcher l.637-668): put a copy of the quadrature into a fresh object and batch it *)
| OpNew (maxsz : nat) (o : sphobj S)
(** l.424-430, 440-446: the same, adopting a given partition *)
| OpNewIdx (maxsz : nat) (o : sphobj S) (idx : list nat)
(** l.400-405: batch an existing shared quadrature in place (address a) *)
| OpNewShared (maxsz a : nat)
(** l.395-397: adopt an existing shared quadrature and a given partition *)
| OpNewSharedIdx (maxsz a : nat) (idx : list nat)
(** l.483: copy constructor of variable v *)
| OpCopy (v : nat)
(** l.484: move constructor of variable v *)
| OpMove (v : nat)
(** l.487-489: v.clone() *)
| OpClone (v : nat)
(** l.509-511: v.recenter(c) *)
| OpRecenter (v : nat) (c : pt3)
(** l.497 (or l.494): v.points()[i] = p *)
| OpSetPoint (v i : nat) (p : pt3)
(** l.499 (or l.494): v.weights()[i] = w *)
| OpSetWeight (v i : nat) (w : S)
(** l.450-453, 459-462: auto it = v.begin(), cbegin() *)
| OpBegin (v : nat)
(** l.454-457, 463-466: auto it = v.end(), cend() *)
| OpEnd (v : nat)
(** l.271, 342: ++it *)
| OpInc (k : nat)
(** l.272-276, 343-347: auto it2 = it++ *)
| OpPostInc (k : nat)
(** l.278-281, 349-352: auto it2 = it + d *)
| OpPlus (k : nat) (d : Z).

(** l.248 : address held by a non-null shared_ptr; dereferencing null is undefined behaviour. *)
Definition deref_quad (b : batcher) : outcome nat :=
  match b_quad b with Some a => Ok a | None => UB end.

(** l.484 : what the defaulted move constructor leaves behind: a null shared_ptr and an
    empty vector. *)
Definition moved_from (b : batcher) : batcher := mkBatcher (b_max b) None (b_vec b) [].

(** Moving an iterator of a vector with [n] elements; outside [0, n] undefined behaviour. *)
Definition move_pos (n pos : nat) (d : Z) : outcome nat :=
  let z := (Z.of_nat pos + d)%Z in
  if (Z.leb 0 z && Z.leb z (Z.of_nat n))%bool then Ok (Z.to_nat z) else UB.

(** l.271,279 : advance iterator variable [k] by [d] positions. *)
Definition advance (s : state) (k : nat) (d : Z) : outcome (iter * state) :=
  let* it := vget (iters s) k in
  let* pos := move_pos (length (i_idx it)) (i_pos it) d in
  let it' := mkIter (i_vec it) (i_idx it) pos (i_obj it) in
  let* its := vset (iters s) k it' in
  Ok (it', mkState (heap s) (vars s) its).

(** l.395-513 : one operation; new batchers and iterators are appended to [vars] and [iters]. *)
Definition step (fuel : nat) (s : state) (c : op) : outcome state :=
  let nv := length (vars s) in
  match c with
  | OpNew maxsz o =>
      let* (o', idx) := batch_object fuel maxsz o in
      Ok (mkState (heap s ++ [o'])
                  (vars s ++ [mkBatcher maxsz (Some (length (heap s))) nv idx]) (iters s))
  | OpNewIdx maxsz o idx =>
      Ok (mkState (heap s ++ [o])
                  (vars s ++ [mkBatcher maxsz (Some (length (heap s))) nv idx]) (iters s))
  | OpNewShared maxsz a =>
      let* o := vget (heap s) a in
      let* (o', idx) := batch_object fuel maxsz o in
      let* h := vset (heap s) a o' in
      Ok (mkState h (vars s ++ [mkBatcher maxsz (Some a) nv idx]) (iters s))
  | OpNewSharedIdx maxsz a idx =>
      let* _ := vget (heap s) a in
      Ok (mkState (heap s) (vars s ++ [mkBatcher maxsz (Some a) nv idx]) (iters s))
  | OpCopy v =>
      let* b := vget (vars s) v in
      Ok (mkState (heap s) (vars s ++ [mkBatcher (b_max b) (b_quad b) nv (b_idx b)]) (iters s))
  | OpMove v =>
      let* b := vget (vars s) v in
      let* vs := vset (vars s) v (moved_from b) in
      Ok (mkState (heap s) (vs ++ [b]) (iters s))
  | OpClone v =>
      let* b := vget (vars s) v in
      let* a := deref_quad b in
      let* o := vget (heap s) a in
      Ok (mkState (heap s ++ [sph_clone o])
                  (vars s ++ [mkBatcher (b_max b) (Some (length (heap s))) nv (b_idx b)]) (iters s))
  | OpRecenter v c =>
      let* b := vget (vars s) v in
      let* a := deref_quad b in
      let* o := vget (heap s) a in
      let* o' := recenter c o in
      let* h := vset (heap s) a o' in
      Ok (mkState h (vars s) (iters s))
  | OpSetPoint v i p =>
      let* b := vget (vars s) v in
      let* a := deref_quad b in
      let* o := vget (heap s) a in
      let* ps := vset (qpoints (sph_quad o)) i p in
      let* h := vset (heap s) a (mkSph (mkQuad ps (qweights (sph_quad o))) (sph_center o)) in
      Ok (mkState h (vars s) (iters s))
  | OpSetWeight v i w =>
      let* b := vget (vars s) v in
      let* a := deref_quad b in
      let* o := vget (heap s) a in
      let* ws := vset (qweights (sph_quad o)) i w in
      let* h := vset (heap s) a (mkSph (mkQuad (qpoints (sph_quad o)) ws) (sph_center o)) in
      Ok (mkState h (vars s) (iters s))
  | OpBegin v =>
      let* b := vget (vars s) v in
      let* a := deref_quad b in
      Ok (mkState (heap s) (vars s) (iters s ++ [mkIter (b_vec b) (b_idx b) 0 a]))
  | OpEnd v =>
      let* b := vget (vars s) v in
      let* a := deref_quad b in
      match b_idx b with
      | [] => UB      (* end()-1 of an empty vector *)
      | _ => Ok (mkState (heap s) (vars s)
                   (iters s ++ [mkIter (b_vec b) (b_idx b) (Nat.sub (length (b_idx b)) 1) a]))
      end
  | OpInc k => let* (_, s') := advance s k 1 in Ok s'
  | OpPostInc k =>
      let* it := vget (iters s) k in
      let* (_, s') := advance s k 1 in
      Ok (mkState (heap s') (vars s') (iters s' ++ [it]))
  | OpPlus k d =>
      let* (it', s') := advance s k d in
      Ok (mkState (heap s') (vars s') (iters s' ++ [it']))
  end.

(** A program using the interface of l.395-513. *)
Fixpoint run (fuel : nat) (s : state) (cs : list op) : outcome state :=
  match cs with
  | [] => Ok s
  | c :: r => let* s' := step fuel s c in run fuel s' r
  end.

(** spherical_micro_batcher.hpp:493-499 : what quadrature(), points(), weights() of
    variable [v] show. *)
Definition view (s : state) (v : nat) : outcome (sphobj S) :=
  let* b := vget (vars s) v in let* a := deref_quad b in vget (heap s) a.

(** spherical_micro_batcher.hpp:468-480 : v.at(i). The bound is checked before quad_ is
    touched. *)
Definition var_at (s : state) (v i : nat) : outcome ((pt3 * pt3) * (list pt3 * list S)) :=
  let* b := vget (vars s) v in
  match nbatches (b_idx b) with
  | Some nb =>
      if Nat.leb nb i then Throw ExRuntime
      else let* a := deref_quad b in let* o := vget (heap s) a in batch_at o (b_idx b) i
  | None => let* a := deref_quad b in let* o := vget (heap s) a in batch_at o (b_idx b) i
  end.

(** spherical_micro_batcher.hpp:305-317,376-388 : *it for iterator variable [k]. *)
Definition iter_deref (s : state) (k : nat) : outcome ((pt3 * pt3) * (list pt3 * list S)) :=
  let* it := vget (iters s) k in
  let* o := vget (heap s) (i_obj it) in
  deref_batch o (i_idx it) (i_pos it).

(** spherical_micro_batcher.hpp:283-284 : it == jt; comparing iterators of different
    vectors is undefined behaviour. *)
Definition iter_eq (s : state) (k j : nat) : outcome bool :=
  let* a := vget (iters s) k in
  let* b := vget (iters s) j in
  if Nat.eqb (i_vec a) (i_vec b) then Ok (Nat.eqb (i_pos a) (i_pos b)) else UB.

(** A loop using l.271,283-284,305-317: [for(; it != jt; ++it) f( *it );], collecting the values of *it. *)
Fixpoint iter_loop (fuel : nat) (s : state) (k j : nat)
  (acc : list ((pt3 * pt3) * (list pt3 * list S)))
  : outcome (state * list ((pt3 * pt3) * (list pt3 * list S))) :=
  match fuel with
  | O => OutOfFuel
  | Datatypes.S fuel' =>
    let* e := iter_eq s k j in
    if e then Ok (s, acc)
    else
      let* b := iter_deref s k in
      let* (_, s') := advance s k 1 in
      iter_loop fuel' s' k j (acc ++ [b])
  end.

End Heap.
Arguments state : clear implicits.
Arguments op : clear implicits.
