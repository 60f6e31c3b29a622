(** What programs over specification objects should do: every variable simply holds its
    traits as a value, and assigning or copying a variable copies the value. *)
From Coq Require Import List Bool Arith ZArith.
From Verif Require Import Base.Outcome Base.Scalar Model.Quadrature Model.Primitive
  Model.Radial Model.S2 Model.Composite Model.Factory Model.SpecHeap.
Import ListNotations.

Section OwnSpec.
Context {S : Scalar}.
Variable grids : afam -> Z -> @static_grid S.
Variable dbg : bool.

Notation vobj := (obj (rtraits S)).

(** Reading a variable; destroyed ones must not be read. *)
Definition value_of (vs : list (option vobj)) (v : nat) : outcome vobj :=
  match nth_error vs v with Some (Some o) => Ok o | _ => UB end.

(** Replacing one variable. *)
Fixpoint put (vs : list (option vobj)) (v : nat) (x : option vobj) : list (option vobj) :=
  match vs, v with
  | [], _ => []
  | _ :: r, O => x :: r
  | y :: r, Datatypes.S v' => y :: put r v' x
  end.

(** A specification whose [radial_quad] has a value. *)
Definition readable (o : vobj) : outcome vobj :=
  match o_data o with DP None _ => UB | _ => Ok o end.

Definition traits_of (o : vobj) : outcome (rtraits S) :=
  match o_traits o with Some t => Ok t | None => UB end.

Definition source (vs : list (option vobj)) (src : tsrc S) : outcome (rtraits S) :=
  match src with
  | TVal t => Ok t
  | TOf w => let* o := value_of vs w in traits_of o
  end.

Definition is_pruned (o : vobj) : outcome vobj :=
  match o_data o with DP _ _ => Ok o | DU _ _ _ => UB end.

Definition v_eq (a b : vobj) : outcome bool :=
  match o_data a, o_data b with
  | DP (Some qa) ra, DP (Some qb) rb =>
      Ok (pruned_spec_eqb (mkPruned qa (o_traits a) ra) (mkPruned qb (o_traits b) rb))
  | _, _ => UB
  end.

Definition v_prune (c : pcall) (o : vobj) : outcome vobj :=
  match o_data o with
  | DP _ _ => UB
  | DU rq aq n =>
    let u := mkUnpruned rq (o_traits o) aq n in
    let* p := match c with
              | CallRobust => robust_psi4_pruning_scheme u
              | CallTreutler => treutler_pruning_scheme u
              | CallCreate sch => create_pruned_spec sch u
              end in
    Ok (mkObj (p_traits p) (DP (Some (p_rq p)) (p_regions p)))
  end.

Definition v_grid (o : vobj) : outcome (sphobj S) :=
  match o_data o with
  | DU rq aq n => generate_grid_unpruned grids dbg (mkUnpruned rq (o_traits o) aq n)
  | DP (Some rq) rs => generate_grid_pruned grids dbg (mkPruned rq (o_traits o) rs)
  | DP None _ => UB
  end.

Definition vstep (vs : list (option vobj)) (c : op S)
  : outcome (list (option vobj) * result S) :=
  match c with
  | ONewU src rq aq n =>
    let* t := source vs src in Ok (vs ++ [Some (mkObj (Some t) (DU rq aq n))], RNone)
  | ONewP src rq rs =>
    let* t := source vs src in Ok (vs ++ [Some (mkObj (Some t) (DP (Some rq) rs))], RNone)
  | OAdopt rq w rs =>
    let* o := value_of vs w in
    Ok (put vs w (Some (mkObj None (o_data o)))
          ++ [Some (mkObj (o_traits o) (DP (Some rq) rs))], RNone)
  | ODefault => Ok (vs ++ [Some (mkObj None (DP None []))], RNone)
  | OValue => Ok (vs ++ [Some (mkObj None (DP (Some (RQOther 0)) []))], RNone)
  | OCopy w =>
    let* o := value_of vs w in
    let* o := readable o in
    Ok (vs ++ [Some o], RNone)
  | OAssign v w =>
    let* old := value_of vs v in
    let* o := value_of vs w in
    let* _ := is_pruned old in
    let* _ := is_pruned o in
    let* o := readable o in
    Ok (put vs v (Some o), RNone)
  | OSteal v w =>
    let* ow := value_of vs w in
    let* ov := value_of vs v in
    Ok (put (put vs w (Some (mkObj None (o_data ow))))
          v (Some (mkObj (o_traits ow) (o_data ov))), RNone)
  | OSetTraits v t =>
    let* o := value_of vs v in
    Ok (put vs v (Some (mkObj t (o_data o))), RNone)
  | OWrite v t =>
    let* o := value_of vs v in
    let* t0 := traits_of o in
    if rkind_eqb (rkind_of t) (rkind_of t0)
    then Ok (put vs v (Some (mkObj (Some t) (o_data o))), RNone)
    else Ok (vs, RRaised ExBadCast)
  | OSetRq v rq =>
    let* o := value_of vs v in
    Ok (put vs v (Some (mkObj (o_traits o) (set_rq (o_data o) rq))), RNone)
  | OSetRegions v rs =>
    let* o := value_of vs v in
    let* d := set_regions (o_data o) rs in
    Ok (put vs v (Some (mkObj (o_traits o) d)), RNone)
  | OSetAngular v aq n =>
    let* o := value_of vs v in
    let* d := set_angular (o_data o) aq n in
    Ok (put vs v (Some (mkObj (o_traits o) d)), RNone)
  | ODestroy v => let* _ := value_of vs v in Ok (put vs v None, RNone)
  | OEq v w =>
    let* a := value_of vs v in
    let* b := value_of vs w in
    let* e := v_eq a b in
    Ok (vs, RBool e)
  | OPrune c v =>
    let* o := value_of vs v in
    let* r := catch (v_prune c o) in
    match r with
    | inl p => Ok (vs ++ [Some p], RNone)
    | inr e => Ok (vs, RRaised e)
    end
  | OGrid v =>
    let* o := value_of vs v in
    let* r := catch (v_grid o) in
    match r with
    | inl g => Ok (vs, RGrid g)
    | inr e => Ok (vs, RRaised e)
    end
  end.

Fixpoint vrun (vs : list (option vobj)) (prog : list (op S))
  : outcome (list (option vobj) * list (result S)) :=
  match prog with
  | [] => Ok (vs, [])
  | c :: rest =>
    let* (vs1, r) := vstep vs c in
    let* (vs2, rs) := vrun vs1 rest in
    Ok (vs2, r :: rs)
  end.

(** A block that has not been deleted, and a variable that points to it. *)
Definition live (m : memory S) (a : nat) : Prop := exists t, nth_error m a = Some (Some t).
Definition owns (vs : list (option (obj nat))) (v a : nat) : Prop :=
  exists o, nth_error vs v = Some (Some o) /\ o_traits o = Some a.

(** The values a state shows: each variable with the traits its pointer leads to. *)
Definition look (m : memory S) (o : obj nat) : vobj :=
  mkObj (match o_traits o with
         | Some a => match nth_error m a with Some (Some t) => Some t | _ => None end
         | None => None
         end) (o_data o).
Definition observe (s : state S) : list (option vobj) := map (option_map (look (mem s))) (vars s).

(** The variables an operation may change. *)
Definition targets (c : op S) : list nat :=
  match c with
  | OAdopt _ w _ => [w]
  | OAssign v _ => [v]
  | OSteal v w => [v; w]
  | OSetTraits v _ | OWrite v _ | OSetRq v _ | OSetRegions v _ | OSetAngular v _ _
  | ODestroy v => [v]
  | _ => []
  end.

End OwnSpec.
