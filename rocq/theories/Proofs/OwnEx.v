(** Example programs over specification objects. *)
From Coq Require Import List Bool Arith ZArith QArith.
From Verif Require Import Base.Outcome Base.Scalar Base.QScalar Model.Quadrature Model.Radial Model.S2
  Model.Composite Model.Factory Model.SpecHeap Spec.OwnSpec.
Import ListNotations.
Local Open Scope nat_scope.

(** Prune, copy, overwrite the original's traits, compare, assign to itself, move the traits
    from one variable to another, compare, generate from the one left without traits. *)
Definition own_prog : list (op QS) :=
  [ONewU (TVal (Becke 10 1%Q)) RQBecke (AQ LebedevLaikov) 302; OPrune (CallCreate Robust) 0; OCopy 1;
   OWrite 0 (Becke 20 2%Q); OEq 1 2; OAssign 2 2; OSteal 1 2; OEq 1 2; OWrite 0 (MK 20 2%Q); OGrid 2;
   ONewU (TOf 1) RQBecke (AQOther 9) 302; OPrune CallRobust 3].
Definition own_clean : list (op QS) := [ODestroy 2; ODestroy 0; ODestroy 1; ODestroy 3].


(** What a run shows: the results, the pointers, the traits seen and the blocks not deleted. *)
Definition summary (r : outcome (state QS * list (result QS))) :=
  match r with
  | Ok (s, rs) => Some (rs, map (option_map o_traits) (vars s), map (option_map o_traits) (observe s),
                        length (filter (fun x => match x with Some _ => true | None => false end) (mem s)))
  | _ => None
  end.

Lemma own_ex : forall grids dbg, summary (run grids dbg st0 own_prog) =
  Some ([RNone; RNone; RNone; RNone; RBool true; RNone; RNone; RBool false; RRaised ExBadCast;
         RRaised ExRuntime; RNone; RRaised ExRuntime],
        [Some (Some 0); Some (Some 6); Some None; Some (Some 7)],
        [Some (Some (Becke 20 2%Q)); Some (Some (Becke 10 1%Q)); Some None; Some (Some (Becke 10 1%Q))],
        3).
Proof. intros grids dbg. reflexivity. Qed.

Lemma own_clean_ex : forall grids dbg, summary (run grids dbg st0 (own_prog ++ own_clean)) =
  Some ([RNone; RNone; RNone; RNone; RBool true; RNone; RNone; RBool false; RRaised ExBadCast;
         RRaised ExRuntime; RNone; RRaised ExRuntime; RNone; RNone; RNone; RNone], [None; None; None; None], [None; None; None; None], 0).
Proof. intros grids dbg. reflexivity. Qed.

(** Grids of zero points placed at the origin. *)
Definition ex_grid (f : afam) (n : Z) : @static_grid QS :=
  (repeat (0%Q, 0%Q, 0%Q) (Z.to_nat n), repeat 1%Q (Z.to_nat n)).
Definition grid_prog : list (op QS) :=
  [ONewU (TVal (Becke 4 1%Q)) RQBecke (AQ LebedevLaikov) 6; OPrune (CallCreate Unpruned) 0; OValue;
   OAssign 2 1; OGrid 2].

Lemma grid_prog_ex : exists s rs g, run ex_grid true st0 grid_prog = Ok (s, rs) /\
  nth_error rs 4 = Some (RGrid g) /\ length (qpoints (sph_quad g)) = 24.
Proof.
  assert (H : match run ex_grid true st0 grid_prog with
              | Ok (s, rs) => match nth_error rs 4 with
                              | Some (RGrid g) => Nat.eqb (length (qpoints (sph_quad g))) 24 | _ => false end
              | _ => false end = true) by (vm_compute; reflexivity).
  destruct (run ex_grid true st0 grid_prog) as [[s rs]|e| | |]; try discriminate.
  exists s, rs. destruct (nth_error rs 4) as [[|b|g|e]|]; try discriminate. exists g.
  split; [reflexivity|]. split; [reflexivity|]. apply Nat.eqb_eq, H.
Qed.

Lemma assign_ex : forall grids dbg, exists s rs s' r, run grids dbg st0 (firstn 3 grid_prog) = Ok (s, rs) /\
  step grids dbg s (OAssign 2 1) = Ok (s', r) /\
  option_map (option_map o_traits) (nth_error (observe s') 2) = Some (Some (Some (Becke 4 1%Q))).
Proof. intros. eexists _, _, _, _. split; [reflexivity|]. split; reflexivity. Qed.

Lemma default_refuted : forall (S : Scalar) (grids : afam -> Z -> @static_grid S) dbg, exists prog s rs o,
  run grids dbg st0 prog = Ok (s, rs) /\ nth_error (observe s) 0 = Some (Some o) /\ o_traits o = None /\
  step grids dbg s (OGrid 0) = UB /\ step grids dbg s (OCopy 0) = UB /\ step grids dbg s (OEq 0 0) = UB.
Proof.
  intros. exists [ODefault], (mkSt [] [Some (mkObj None (DP None []))]), [RNone], (mkObj None (DP None [])).
  repeat split.
Qed.
