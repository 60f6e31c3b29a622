(** Outcomes of modelled C++ calls.

    This file models no particular line of the repository: it is the vocabulary
    in which every modelled call reports its result. *)
From Coq Require Import List Arith.

(** C++ exception kinds that the modelled code can raise. *)
Inductive exn : Set :=
| ExOutOfRange   (** std::out_of_range, e.g. vector::at, quadrature.hpp:146,157 *)
| ExRuntime      (** std::runtime_error, e.g. gausslegendre.hpp:84 *)
| ExBadCast.     (** std::bad_cast, radial_transform.hpp:19 (reference dynamic_cast) *)

(** Result of a modelled call. [AssertFail] is an [assert] firing in a build
    without NDEBUG. [UB] is undefined behaviour. [OutOfFuel] means that the fuel
    given to the model of a [while] loop was exhausted; it is never a success. *)
Inductive outcome (A : Type) : Type :=
| Ok (a : A)
| Throw (e : exn)
| AssertFail
| UB
| OutOfFuel.
Arguments Ok {A} a.
Arguments Throw {A} e.
Arguments AssertFail {A}.
Arguments UB {A}.
Arguments OutOfFuel {A}.

(** Sequencing of calls: anything but [Ok] ends the computation. *)
Definition bind {A B} (m : outcome A) (k : A -> outcome B) : outcome B :=
  match m with
  | Ok a => k a
  | Throw e => Throw e
  | AssertFail => AssertFail
  | UB => UB
  | OutOfFuel => OutOfFuel
  end.

Declare Scope outcome_scope.
Delimit Scope outcome_scope with outcome.
Notation "'let*' x := m 'in' k" := (bind m (fun x => k))
  (at level 200, x pattern, m at level 100, k at level 200, right associativity)
  : outcome_scope.
Open Scope outcome_scope.

(** [assert(c)]: with assertions compiled in ([dbg = true]) a false condition
    aborts; with NDEBUG the condition is not looked at. *)
Definition cassert (dbg c : bool) : outcome unit :=
  if dbg then (if c then Ok tt else AssertFail) else Ok tt.

(** [v[i]] read of a std::vector: out of bounds is undefined behaviour. *)
Definition vget {A} (v : list A) (i : nat) : outcome A :=
  match nth_error v i with
  | Some a => Ok a
  | None => UB
  end.

(** [v[i] = a] write of a std::vector: out of bounds is undefined behaviour. *)
Fixpoint vset {A} (v : list A) (i : nat) (a : A) : outcome (list A) :=
  match v, i with
  | nil, _ => UB
  | _ :: r, O => Ok (a :: r)
  | x :: r, S j => match vset r j a with
                   | Ok r' => Ok (x :: r')
                   | _ => UB
                   end
  end.

(** [v.at(i)] : bounds-checked access, raises std::out_of_range. *)
Definition vat {A} (v : list A) (i : nat) : outcome A :=
  match nth_error v i with
  | Some a => Ok a
  | None => Throw ExOutOfRange
  end.

(** [for(size_t i = lo; i < hi; ++i) body] with loop state [s]. *)
Fixpoint for_count {S} (k lo : nat) (body : nat -> S -> outcome S) (s : S)
  : outcome S :=
  match k with
  | O => Ok s
  | Datatypes.S k' => let* s' := body lo s in for_count k' (Datatypes.S lo) body s'
  end.

Definition for_range {S} (lo hi : nat) (body : nat -> S -> outcome S) (s : S)
  : outcome S := for_count (hi - lo) lo body s.
