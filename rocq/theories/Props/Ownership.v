(** Property C50: ownership of radial traits by grid specifications. For every scalar type, data set and build and
    every program over the operations of Model/SpecHeap.v; vocabulary in Spec/OwnSpec.v. *)
From Coq Require Import List Bool Arith ZArith QArith.
From Verif Require Import Base.Outcome Base.Scalar Base.QScalar Model.Quadrature Model.Radial Model.S2 Model.Composite
  Model.Factory Model.SpecHeap Spec.OwnSpec Proofs.OwnSim Proofs.OwnEx.
Import ListNotations.
Local Open Scope nat_scope.

(** C50. Specifications are values: a program over objects that own their traits through pointers shows exactly what
    the same program over plain values shows, results, exceptions and final values included. It is undefined exactly
    when the program over values is, so no block is ever deleted twice or used after its deletion. *)
Theorem C50_values : forall (S : Scalar) (grids : afam -> Z -> @static_grid S) dbg prog,
  (let* (s, rs) := run grids dbg st0 prog in Ok (observe s, rs)) = vrun grids dbg [] prog.
Proof. intros S. exact values. Qed.

(** C50. Each block that is not deleted belongs to exactly one variable, and no variable points to a deleted block; the
    temporaries of every call are gone, also after an exception. *)
Theorem C50_owners : forall (S : Scalar) (grids : afam -> Z -> @static_grid S) dbg prog s rs,
  run grids dbg st0 prog = Ok (s, rs) ->
  (forall a, live (mem s) a <-> exists v, owns (vars s) v a) /\
  (forall v w a, owns (vars s) v a -> owns (vars s) w a -> v = w).
Proof. intros S. exact owners. Qed.

(** C50. Once every variable is destroyed nothing is left allocated. *)
Theorem C50_no_leak : forall (S : Scalar) (grids : afam -> Z -> @static_grid S) dbg prog s rs,
  run grids dbg st0 prog = Ok (s, rs) ->
  (forall v, v < length (vars s) -> nth_error (vars s) v = Some None) -> forall a, ~ live (mem s) a.
Proof. intros S. exact no_leak. Qed.

(** C50. No operation changes what a variable it does not write to shows: pruned specifications do not follow later
    changes of the specification they were made from, nor copies those of the original. *)
Theorem C50_independent : forall (S : Scalar) (grids : afam -> Z -> @static_grid S) dbg prog s rs c s' r v,
  run grids dbg st0 prog = Ok (s, rs) -> step grids dbg s c = Ok (s', r) ->
  v < length (vars s) -> ~ In v (targets c) ->
  nth_error (observe s') v = nth_error (observe s) v.
Proof. intros S. exact independent. Qed.

(** C50. After [v = w] both show the same value and all others are unchanged, also when [v] is [w]. *)
Theorem C50_assigned : forall (S : Scalar) (grids : afam -> Z -> @static_grid S) dbg prog s rs v w s' r,
  run grids dbg st0 prog = Ok (s, rs) -> step grids dbg s (OAssign v w) = Ok (s', r) ->
  nth_error (observe s') v = nth_error (observe s) w /\
  (forall u, u <> v -> nth_error (observe s') u = nth_error (observe s) u).
Proof. intros S. exact assigned. Qed.

(** C50. Generating from a specification without traits raises std::runtime_error, provided its [radial_quad] has been
    given a value. *)
Theorem C50_unset_raises : forall (S : Scalar) (grids : afam -> Z -> @static_grid S) dbg prog s rs v o,
  run grids dbg st0 prog = Ok (s, rs) ->
  nth_error (observe s) v = Some (Some o) -> o_traits o = None -> (forall rs, o_data o <> DP None rs) ->
  exists s', step grids dbg s (OGrid v) = Ok (s', RRaised ExRuntime) /\ observe s' = observe s.
Proof. intros S. exact unset_raises. Qed.

(** C50, finding. Without that proviso it is false: the defaulted constructor leaves [radial_quad] indeterminate, and
    passing, copying or comparing the object reads it. *)
Theorem C50_default_refuted : forall (S : Scalar) (grids : afam -> Z -> @static_grid S) dbg, exists prog s rs o,
  run grids dbg st0 prog = Ok (s, rs) /\ nth_error (observe s) 0 = Some (Some o) /\ o_traits o = None /\
  step grids dbg s (OGrid 0) = UB /\ step grids dbg s (OCopy 0) = UB /\ step grids dbg s (OEq 0 0) = UB.
Proof. exact default_refuted. Qed.

(** A program that prunes, copies, writes, moves, fails and cleans up; the results it sees, the pointers and the traits
    each variable shows. *)
Example C50_ex : forall grids dbg, summary (run grids dbg st0 own_prog) =
  Some ([RNone; RNone; RNone; RNone; RBool true; RNone; RNone; RBool false; RRaised ExBadCast;
         RRaised ExRuntime; RNone; RRaised ExRuntime],
        [Some (Some 0); Some (Some 6); Some None; Some (Some 7)],
        [Some (Some (Becke 20 2%Q)); Some (Some (Becke 10 1%Q)); Some None; Some (Some (Becke 10 1%Q))],
        3).
Proof. exact own_ex. Qed.
Example C50_ex_clean : forall grids dbg, summary (run grids dbg st0 (own_prog ++ own_clean)) =
  Some ([RNone; RNone; RNone; RNone; RBool true; RNone; RNone; RBool false; RRaised ExBadCast;
         RRaised ExRuntime; RNone; RRaised ExRuntime; RNone; RNone; RNone; RNone],
        [None; None; None; None], [None; None; None; None], 0).
Proof. exact own_clean_ex. Qed.
(** A grid of 24 points is generated; an assignment between different variables. *)
Example C50_ex_grid : exists s rs g, run ex_grid true st0 grid_prog = Ok (s, rs) /\
  nth_error rs 4 = Some (RGrid g) /\ length (qpoints (sph_quad g)) = 24.
Proof. exact grid_prog_ex. Qed.
Example C50_ex_assign : forall grids dbg, exists s rs s' r, run grids dbg st0 (firstn 3 grid_prog) = Ok (s, rs) /\
  step grids dbg s (OAssign 2 1) = Ok (s', r) /\
  option_map (option_map o_traits) (nth_error (observe s') 2) = Some (Some (Some (Becke 4 1%Q))).
Proof. exact assign_ex. Qed.

Print Assumptions C50_values.
Print Assumptions C50_owners.
Print Assumptions C50_no_leak.
Print Assumptions C50_independent.
Print Assumptions C50_assigned.
Print Assumptions C50_unset_raises.
Print Assumptions C50_default_refuted.
