(** RadialGridPartition objects over sequences of operations,
    include/integratorxx/composite_quadratures/pruned_spherical_quadrature.hpp. *)
From Coq Require Import List Arith.
From Verif Require Import Base.Outcome Base.Scalar Model.Quadrature Model.S2 Model.Composite.
Import ListNotations.

Section Partition.
Context {S : Scalar}.

(** Calls on one object: add_quad (l.34-43), finalize (l.46-50) with the number of points of the radial grid
    passed, assignment through the reference returned by partition_idx() (l.79). *)
Inductive pcall : Type :=
| CAdd (rn idx : nat) (q : aquad S)
| CFinalize (rn : nat)
| CWrite (l : list nat).

(** pruned_spherical_quadrature.hpp:34-50,79 : one call. *)
Definition pcall_run (dbg : bool) (c : pcall) (p : rgp S) : outcome (rgp S) :=
  match c with
  | CAdd rn idx q => add_quad dbg rn idx q p
  | CFinalize rn => finalize rn p
  | CWrite l => Ok (mkRgp l (rgp_quads p))
  end.

(** A sequence of calls on one object. *)
Fixpoint pcalls_run (dbg : bool) (cs : list pcall) (p : rgp S) : outcome (rgp S) :=
  match cs with
  | [] => Ok p
  | c :: cs => let* p := pcall_run dbg c p in pcalls_run dbg cs p
  end.

(** Statements of a program over partition variables, numbered in order of construction. *)
Inductive pop : Type :=
| PNew                                                (** l.54 : default constructor *)
| PConstruct (rn : nat) (args : list (nat * aquad S)) (** l.73-77 : variadic constructor *)
| PCopy (j : nat)                                     (** l.56-57 : copy constructor *)
| PMove (j : nat)                                     (** l.58-60 : move constructor *)
| PAssign (i j : nat)                                 (** l.62-66 : copy assignment *)
| PMoveAssign (i j : nat)                             (** l.67-71 : move assignment *)
| PCall (i : nat) (c : pcall)                         (** l.34-50,79 : member calls *)
| PGenerate (i : nat) (r : rquad S) (c : @pt3 S).     (** l.194-200 : PrunedSphericalQuadrature(r, p, c) *)

(** The variables, and the grids generated so far. *)
Record pstate : Type := mkPState { ps_vars : list (rgp S); ps_grids : list (sphobj S) }.

(** Replacing a variable. *)
Fixpoint pset (l : list (rgp S)) (i : nat) (p : rgp S) : list (rgp S) :=
  match l, i with
  | [], _ => []
  | _ :: l, O => p :: l
  | x :: l, Datatypes.S i => x :: pset l i p
  end.

(** pruned_spherical_quadrature.hpp:34-79,194-200 : one statement. A std::vector is empty after being moved
    from by construction; after move assignment its contents are unspecified: [left target source] is whatever
    the source then holds, also for assignment of an object to itself. *)
Definition pstep (left : rgp S -> rgp S -> rgp S) (dbg : bool) (s : pstate) (o : pop) : outcome pstate :=
  let vars := ps_vars s in
  match o with
  | PNew => Ok (mkPState (vars ++ [rgp_empty]) (ps_grids s))
  | PConstruct rn args => let* p := rgp_construct dbg rn args in Ok (mkPState (vars ++ [p]) (ps_grids s))
  | PCopy j => let* p := vget vars j in Ok (mkPState (vars ++ [p]) (ps_grids s))
  | PMove j => let* p := vget vars j in Ok (mkPState (pset vars j rgp_empty ++ [p]) (ps_grids s))
  | PAssign i j =>
    let* _ := vget vars i in
    let* p := vget vars j in Ok (mkPState (pset vars i p) (ps_grids s))
  | PMoveAssign i j =>
    let* t := vget vars i in
    let* p := vget vars j in Ok (mkPState (pset (pset vars i p) j (left t p)) (ps_grids s))
  | PCall i c =>
    let* p := vget vars i in
    let* p := pcall_run dbg c p in Ok (mkPState (pset vars i p) (ps_grids s))
  | PGenerate i r c =>
    let* p := vget vars i in
    let* g := pruned_construct dbg r p c in Ok (mkPState vars (ps_grids s ++ [g]))
  end.

(** A program from no variables. *)
Fixpoint prun (left : rgp S -> rgp S -> rgp S) (dbg : bool) (s : pstate) (os : list pop) : outcome pstate :=
  match os with
  | [] => Ok s
  | o :: os => let* s := pstep left dbg s o in prun left dbg s os
  end.

End Partition.
Arguments pcall : clear implicits. Arguments pop : clear implicits. Arguments pstate : clear implicits.
