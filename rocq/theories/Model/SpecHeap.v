(** Grid specification objects and the radial traits they own through
    std::unique_ptr: construction, copying, assignment, member access, destruction, and
    the functions that take specifications by value
    (include/integratorxx/generators/spherical_factory.hpp:23-93,173-186 and
    impl/pruned_grid.hpp:86-108, impl/robust_pruning.hpp:27-74,
    impl/treutler_pruning.hpp:19-66; paths below are relative to
    include/integratorxx/generators/). Allocation does not fail. *)
From Coq Require Import List Bool Arith ZArith.
From Verif Require Import Base.Outcome Base.Scalar Model.Quadrature Model.Primitive
  Model.Radial Model.S2 Model.Composite Model.Factory.
Import ListNotations.

(** Members of a specification other than [radial_traits]: of
    UnprunedSphericalGridSpecification (spherical_factory.hpp:27,30-31) or of
    PrunedSphericalGridSpecification (62,65), where [None] is the indeterminate value
    that the defaulted constructor (68) leaves in [radial_quad]. *)
Inductive sdata : Type :=
| DU (rq : radial_quad) (aq : angular_quad) (asz : Z)
| DP (rq : option radial_quad) (rs : list region).

(** A specification object (spherical_factory.hpp:26-31, 61-65); [P] is what stands for
    the traits: an address in the heap here, the traits themselves in Spec/OwnSpec.v. *)
Record obj (P : Type) : Type := mkObj { o_traits : option P; o_data : sdata }.
Arguments mkObj {P}. Arguments o_traits {P}. Arguments o_data {P}.

(** Exceptions as values: what a caller that catches everything sees (the [throw]s are
    at impl/pruned_grid.hpp:90 and spherical_factory.hpp:175,183). *)
Definition catch {A} (m : outcome A) : outcome (A + exn) :=
  match m with
  | Ok a => Ok (inl a) | Throw e => Ok (inr e)
  | AssertFail => AssertFail | UB => UB | OutOfFuel => OutOfFuel
  end.

(** The functions that make a pruned specification from an unpruned one: spherical_factory.hpp:97-99 (robust_psi4_pruning_scheme), 103-105
    (treutler_pruning_scheme), 109-111 (create_pruned_spec). *)
Inductive pcall : Set := CallRobust | CallTreutler | CallCreate (sch : pruning_scheme).

Section SpecHeap.
Context {S : Scalar}.
Variable grids : afam -> Z -> @static_grid S.
Variable dbg : bool.

(** Where a constructor taking [const RadialTraits&] (spherical_factory.hpp:33, 73)
    finds the traits: an object outside the specifications, or [*w.radial_traits]. *)
Inductive tsrc : Type := TVal (t : rtraits S) | TOf (w : nat).

(** What a program does with its specification variables. New variables are numbered
    in the order they are made. *)
Inductive op : Type :=
| ONewU (src : tsrc) (rq : radial_quad) (aq : angular_quad) (asz : Z)  (** 33-35 *)
| ONewP (src : tsrc) (rq : radial_quad) (rs : list region)             (** 73-74 *)
| OAdopt (rq : radial_quad) (w : nat) (rs : list region)  (** 70-71, std::move(w.radial_traits) *)
| ODefault                                                (** 68, [Spec p;] *)
| OValue                                                  (** 68, [Spec p{};] *)
| OCopy (w : nat)                                         (** 37-39, 76-79 *)
| OAssign (v w : nat)                                     (** 81-86 *)
| OSteal (v w : nat)            (** v.radial_traits = std::move(w.radial_traits) *)
| OSetTraits (v : nat) (t : option (rtraits S)) (** v.radial_traits = new traits or nullptr *)
| OWrite (v : nat) (t : rtraits S) (** dynamic_cast<T&>( *v.radial_traits) = t *)
| OSetRq (v : nat) (rq : radial_quad)                     (** 27, 62 *)
| OSetRegions (v : nat) (rs : list region)                (** 65 *)
| OSetAngular (v : nat) (aq : angular_quad) (asz : Z)     (** 30-31 *)
| ODestroy (v : nat)
| OEq (v w : nat)                                         (** 88-92 *)
| OPrune (c : pcall) (v : nat)                            (** 97-111 *)
| OGrid (v : nat).                                        (** 173-186 *)

(** What the program sees of an operation: spherical_factory.hpp:88 ([RBool]), 173,181 ([RGrid]) or an
    exception it catches. *)
Inductive result : Type :=
| RNone | RBool (b : bool) | RGrid (g : sphobj S) | RRaised (e : exn).

(** Heap blocks of radial traits, [None] once deleted, and the variables, [None] once
    destroyed (spherical_factory.hpp:23, 28, 63). *)
Definition memory : Type := list (option (rtraits S)).
(** See [memory] (spherical_factory.hpp:23, 28, 63). *)
Record state : Type := mkSt { mem : memory; vars : list (option (obj nat)) }.
(** Nothing made yet; stands for no line of the repository (the start of a program that
    uses spherical_factory.hpp:26-93). *)
Definition st0 : state := mkSt [] [].

(** Access to a variable: to a destroyed one is undefined
    (spherical_factory.hpp:26, 61). *)
Definition getv (vs : list (option (obj nat))) (v : nat) : outcome (obj nat) :=
  let* x := vget vs v in match x with Some o => Ok o | None => UB end.

(** [*p] and [p->...] for a radial_traits_ptr (spherical_factory.hpp:23): null and
    deleted blocks are undefined. *)
Definition h_deref (m : memory) (p : option nat) : outcome (rtraits S) :=
  match p with
  | None => UB
  | Some a => let* x := vget m a in match x with Some t => Ok t | None => UB end
  end.

(** make_unique in clone() (../quadratures/radial/becke.hpp:33-35, mhl.hpp:32-34,
    muraknowles.hpp:150-152, treutlerahlrichs.hpp:43-45). *)
Definition h_alloc (m : memory) (t : rtraits S) : memory * nat := (m ++ [Some t], length m).

(** ~unique_ptr and unique_ptr::reset (spherical_factory.hpp:23) through the virtual
    destructor (../quadratures/radial/radial_transform.hpp:11); deleting a deleted block is undefined. *)
Definition h_free (m : memory) (p : option nat) : outcome memory :=
  match p with
  | None => Ok m
  | Some a => let* x := vget m a in
              match x with Some _ => vset m a None | None => UB end
  end.

(** [other.radial_traits ? other.radial_traits->clone() : nullptr]
    (spherical_factory.hpp:38, 78, 83). *)
Definition h_clone (m : memory) (p : option nat) : outcome (memory * option nat) :=
  match p with
  | None => Ok (m, None)
  | Some a => let* t := h_deref m (Some a) in
              let '(m', a') := h_alloc m (rt_clone t) in Ok (m', Some a')
  end.

(** Copy of the members other than the traits (spherical_factory.hpp:38-39, 77-79,
    82,84): reading an indeterminate [radial_quad] is undefined. *)
Definition copy_data (d : sdata) : outcome sdata :=
  match d with DP None _ => UB | _ => Ok d end.

(** Copy constructors (spherical_factory.hpp:37-39, 76-79). There is no move
    constructor, so this is also what std::move of a specification does. *)
Definition h_copy (m : memory) (o : obj nat) : outcome (memory * obj nat) :=
  let* d := copy_data (o_data o) in
  let* (m', p) := h_clone m (o_traits o) in
  Ok (m', mkObj p d).

(** A call with a specification passed by value: the parameter is copied, and destroyed
    on return or when an exception leaves the function (spherical_factory.hpp:97-111,
    173,181; impl/robust_pruning.hpp:29,50; impl/treutler_pruning.hpp:21,43;
    impl/pruned_grid.hpp:87). *)
Definition by_value {A} (m : memory) (o : obj nat)
  (body : memory -> obj nat -> outcome (memory * (A + exn))) : outcome (memory * (A + exn)) :=
  let* (m1, c) := h_copy m o in
  let* (m2, r) := body m1 c in
  let* m3 := h_free m2 (o_traits c) in
  Ok (m3, r).

(** PrunedSphericalGridSpecification(rq, traits->clone(), regions)
    (impl/robust_pruning.hpp:40-42, impl/treutler_pruning.hpp:32-34,
    impl/pruned_grid.hpp:102-104): the clone is adopted
    (spherical_factory.hpp:70-71); returned without copying. *)
Definition h_make (m : memory) (rq : radial_quad) (t : rtraits S) (rs : list region)
  : outcome (memory * (obj nat + exn)) :=
  let '(m', a) := h_alloc m (rt_clone t) in
  Ok (m', inl (mkObj (Some a) (DP (Some rq) rs))).

(** impl/robust_pruning.hpp:27-44 with [k = 4] and impl/treutler_pruning.hpp:19-36 with
    [k = 3]: *_pruning_scheme_impl. *)
Definition h_scheme_impl (k : nat) (low med : Z) (f : afam) (m : memory) (u : obj nat)
  : outcome (memory * (obj nat + exn)) :=
  by_value m u (fun m u =>
    match o_data u with
    | DP _ _ => UB
    | DU rq _ asz =>
      let* t := h_deref m (o_traits u) in
      let rsz := rt_npts t in
      let r_div_k := (rsz / k + 1)%nat in
      let r_div_2 := (rsz / 2 + 1)%nat in
      h_make m rq t [mkRegion 0 r_div_k (AQ f) low;
                     mkRegion r_div_k r_div_2 (AQ f) med;
                     mkRegion r_div_2 rsz (AQ f) asz]
    end).

(** impl/robust_pruning.hpp:49-74 : robust_psi4_pruning_scheme. *)
Definition h_robust (m : memory) (u : obj nat) : outcome (memory * (obj nat + exn)) :=
  by_value m u (fun m u =>
    match o_data u with
    | DU _ (AQ f) asz =>
      let* r := catch (robust_sizes f asz) in
      match r with
      | inl (low, med) => h_scheme_impl 4 low med f m u
      | inr e => Ok (m, inr e)
      end
    | DU _ (AQOther _) _ => Ok (m, inr ExRuntime)
    | DP _ _ => UB
    end).

(** impl/treutler_pruning.hpp:42-66 : treutler_pruning_scheme. *)
Definition h_treutler (m : memory) (u : obj nat) : outcome (memory * (obj nat + exn)) :=
  by_value m u (fun m u =>
    match o_data u with
    | DU _ (AQ f) asz =>
      let '(low, med) := treutler_sizes f in h_scheme_impl 3 low med f m u
    | DU _ (AQOther _) _ => Ok (m, inr ExRuntime)
    | DP _ _ => UB
    end).

(** impl/pruned_grid.hpp:86-108 : create_pruned_spec. *)
Definition h_create (sch : pruning_scheme) (m : memory) (u : obj nat)
  : outcome (memory * (obj nat + exn)) :=
  by_value m u (fun m u =>
    match o_data u with
    | DP _ _ => UB
    | DU rq aq asz =>
      match o_traits u with
      | None => Ok (m, inr ExRuntime)
      | Some _ =>
        match sch with
        | Robust => h_robust m u
        | Treutler => h_treutler m u
        | Unpruned =>
          let* t := h_deref m (o_traits u) in
          h_make m rq t [mkRegion 0 (rt_npts t) aq asz]
        end
      end
    end).

(** impl/robust_pruning.hpp:49, impl/treutler_pruning.hpp:42, impl/pruned_grid.hpp:86. *)
Definition h_prune (c : pcall) : memory -> obj nat -> outcome (memory * (obj nat + exn)) :=
  match c with
  | CallRobust => h_robust | CallTreutler => h_treutler | CallCreate sch => h_create sch
  end.

(** spherical_factory.hpp:173-178 and 181-186 : generate_grid; the grid copies what it
    needs, so nothing of the specification is kept. *)
Definition h_grid (m : memory) (o : obj nat) : outcome (memory * (sphobj S + exn)) :=
  by_value m o (fun m c =>
    match o_traits c with
    | None => Ok (m, inr ExRuntime)
    | Some _ =>
      let* t := h_deref m (o_traits c) in
      match o_data c with
      | DU rq aq asz =>
        let* r := catch (generate_unpruned_grid grids dbg rq t aq asz) in Ok (m, r)
      | DP (Some rq) rs =>
        let* r := catch (generate_pruned_grid grids dbg rq t rs) in Ok (m, r)
      | DP None _ => UB
      end
    end).

(** spherical_factory.hpp:88-92 : operator== of pruned specifications (there is none for
    unpruned ones); short-circuiting, so that the traits are only looked at when the
    enumerators agree. *)
Definition h_eq (m : memory) (a b : obj nat) : outcome bool :=
  match o_data a, o_data b with
  | DP (Some qa) ra, DP (Some qb) rb =>
    if negb (radial_quad_eqb qa qb) then Ok false
    else
      let* e := match o_traits a, o_traits b with
                | Some _, Some _ =>
                  let* t := h_deref m (o_traits a) in
                  let* t' := h_deref m (o_traits b) in
                  Ok (rt_compare t t')
                | Some _, None => Ok false
                | None, Some _ => Ok false
                | None, None => Ok true
                end in
      Ok (e && list_eqb region_eqb ra rb)
  | _, _ => UB
  end.

(** Writes to the plain members (spherical_factory.hpp:27, 62). *)
Definition set_rq (d : sdata) (rq : radial_quad) : sdata :=
  match d with DU _ aq n => DU rq aq n | DP _ rs => DP (Some rq) rs end.
(** spherical_factory.hpp:65; an unpruned specification has no such member, so that no
    program does this ([UB] stands for a program that does not compile). *)
Definition set_regions (d : sdata) (rs : list region) : outcome sdata :=
  match d with DU _ _ _ => UB | DP rq _ => Ok (DP rq rs) end.
(** spherical_factory.hpp:30-31; the same for pruned specifications. *)
Definition set_angular (d : sdata) (aq : angular_quad) (n : Z) : outcome sdata :=
  match d with DU rq _ _ => Ok (DU rq aq n) | DP _ _ => UB end.

(** Argument of a constructor taking [const RadialTraits&]
    (spherical_factory.hpp:33, 73). *)
Definition h_src (s : state) (src : tsrc) : outcome (rtraits S) :=
  match src with
  | TVal t => Ok t
  | TOf w => let* o := getv (vars s) w in h_deref (mem s) (o_traits o)
  end.

(** Only pruned specifications can be assigned and compared
    (spherical_factory.hpp:81, 88); see [set_regions]. *)
Definition pruned_only (o : sdata) : outcome unit :=
  match o with DP _ _ => Ok tt | DU _ _ _ => UB end.

(** One operation: see [op] for the lines (spherical_factory.hpp:26-93, 97-111,
    173-186). *)
Definition step (s : state) (c : op) : outcome (state * result) :=
  let m := mem s in
  let vs := vars s in
  match c with
  | ONewU src rq aq asz =>
    let* t := h_src s src in
    let '(m', a) := h_alloc m (rt_clone t) in
    Ok (mkSt m' (vs ++ [Some (mkObj (Some a) (DU rq aq asz))]), RNone)
  | ONewP src rq rs =>
    let* t := h_src s src in
    let '(m', a) := h_alloc m (rt_clone t) in
    Ok (mkSt m' (vs ++ [Some (mkObj (Some a) (DP (Some rq) rs))]), RNone)
  | OAdopt rq w rs =>
    let* o := getv vs w in
    let* vs' := vset vs w (Some (mkObj None (o_data o))) in
    Ok (mkSt m (vs' ++ [Some (mkObj (o_traits o) (DP (Some rq) rs))]), RNone)
  | ODefault => Ok (mkSt m (vs ++ [Some (mkObj None (DP None []))]), RNone)
  | OValue => Ok (mkSt m (vs ++ [Some (mkObj None (DP (Some (RQOther 0)) []))]), RNone)
  | OCopy w =>
    let* o := getv vs w in
    let* (m', o') := h_copy m o in
    Ok (mkSt m' (vs ++ [Some o']), RNone)
  | OAssign v w =>
    let* ov := getv vs v in
    let* ow := getv vs w in
    let* _ := pruned_only (o_data ov) in
    let* _ := pruned_only (o_data ow) in
    let* d := copy_data (o_data ow) in
    let* (m1, p) := h_clone m (o_traits ow) in
    let* m2 := h_free m1 (o_traits ov) in
    let* vs' := vset vs v (Some (mkObj p d)) in
    Ok (mkSt m2 vs', RNone)
  | OSteal v w =>
    let* ow := getv vs w in
    let* vs1 := vset vs w (Some (mkObj None (o_data ow))) in
    let* ov := getv vs1 v in
    let* m1 := h_free m (o_traits ov) in
    let* vs2 := vset vs1 v (Some (mkObj (o_traits ow) (o_data ov))) in
    Ok (mkSt m1 vs2, RNone)
  | OSetTraits v t =>
    let* o := getv vs v in
    let '(m1, p) := match t with
                    | Some t => let '(m', a) := h_alloc m t in (m', Some a)
                    | None => (m, None)
                    end in
    let* m2 := h_free m1 (o_traits o) in
    let* vs' := vset vs v (Some (mkObj p (o_data o))) in
    Ok (mkSt m2 vs', RNone)
  | OWrite v t =>
    let* o := getv vs v in
    let* t0 := h_deref m (o_traits o) in
    if rkind_eqb (rkind_of t) (rkind_of t0)
    then match o_traits o with
         | Some a => let* m' := vset m a (Some t) in Ok (mkSt m' vs, RNone)
         | None => UB
         end
    else Ok (s, RRaised ExBadCast)
  | OSetRq v rq =>
    let* o := getv vs v in
    let* vs' := vset vs v (Some (mkObj (o_traits o) (set_rq (o_data o) rq))) in
    Ok (mkSt m vs', RNone)
  | OSetRegions v rs =>
    let* o := getv vs v in
    let* d := set_regions (o_data o) rs in
    let* vs' := vset vs v (Some (mkObj (o_traits o) d)) in
    Ok (mkSt m vs', RNone)
  | OSetAngular v aq n =>
    let* o := getv vs v in
    let* d := set_angular (o_data o) aq n in
    let* vs' := vset vs v (Some (mkObj (o_traits o) d)) in
    Ok (mkSt m vs', RNone)
  | ODestroy v =>
    let* o := getv vs v in
    let* m' := h_free m (o_traits o) in
    let* vs' := vset vs v None in
    Ok (mkSt m' vs', RNone)
  | OEq v w =>
    let* ov := getv vs v in
    let* ow := getv vs w in
    let* b := h_eq m ov ow in
    Ok (s, RBool b)
  | OPrune c v =>
    let* o := getv vs v in
    let* (m', r) := h_prune c m o in
    match r with
    | inl p => Ok (mkSt m' (vs ++ [Some p]), RNone)
    | inr e => Ok (mkSt m' vs, RRaised e)
    end
  | OGrid v =>
    let* o := getv vs v in
    let* (m', r) := h_grid m o in
    match r with
    | inl g => Ok (mkSt m' vs, RGrid g)
    | inr e => Ok (mkSt m' vs, RRaised e)
    end
  end.

(** A program: operations in order (spherical_factory.hpp:26-93, 97-111, 173-186). *)
Fixpoint run (s : state) (prog : list op) : outcome (state * list result) :=
  match prog with
  | [] => Ok (s, [])
  | c :: rest =>
    let* (s1, r) := step s c in
    let* (s2, rs) := run s1 rest in
    Ok (s2, r :: rs)
  end.

End SpecHeap.
Arguments tsrc : clear implicits.
Arguments op : clear implicits.
Arguments result : clear implicits.
Arguments state : clear implicits.
Arguments memory : clear implicits.
