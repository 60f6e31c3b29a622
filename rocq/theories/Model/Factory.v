(** Model of include/integratorxx/generators/*.hpp (paths below are relative to
    include/integratorxx/generators/). *)
From Coq Require Import List Bool Arith ZArith Ascii String.
From Verif Require Import Base.Outcome Base.Scalar Model.Quadrature Model.Primitive
  Model.Radial Model.S2 Model.Composite.
Import ListNotations.

(** radial_factory.hpp:7-12 : enum class RadialQuad : uint32_t. A value that is not
    one of the named enumerators is representable; [RQOther] stands for those. *)
Inductive radial_quad : Set :=
| RQBecke | RQMurrayHandyLaming | RQMuraKnowles | RQTreutlerAhlrichs
| RQOther (code : N).

(** s2_factory.hpp:9-14 : enum class AngularQuad : uint32_t. *)
Inductive angular_quad : Set := AQ (f : afam) | AQOther (code : N).

(** radial_factory.hpp:7-12 : [==] on the enumeration. *)
Definition radial_quad_eqb (a b : radial_quad) : bool :=
  match a, b with
  | RQBecke, RQBecke | RQMurrayHandyLaming, RQMurrayHandyLaming
  | RQMuraKnowles, RQMuraKnowles | RQTreutlerAhlrichs, RQTreutlerAhlrichs => true
  | RQOther x, RQOther y => N.eqb x y
  | _, _ => false
  end.

(** s2_factory.hpp:9-14 : [==] on the enumeration. *)
Definition angular_quad_eqb (a b : angular_quad) : bool :=
  match a, b with
  | AQ f, AQ g => afam_eqb f g
  | AQOther x, AQOther y => N.eqb x y
  | _, _ => false
  end.

(** impl/radial_factory.hpp:12, impl/s2_factory.hpp:12 : std::toupper on an unsigned char in the "C" locale. *)
Definition toupper (c : ascii) : ascii :=
  let n := nat_of_ascii c in
  if Nat.leb 97 n && Nat.leb n 122 then ascii_of_nat (n - 32) else c.

(** impl/radial_factory.hpp:11-12, impl/s2_factory.hpp:11-12 : std::transform. *)
Fixpoint upcase (s : string) : string :=
  match s with
  | EmptyString => EmptyString
  | String c r => String (toupper c) (upcase r)
  end.

(** impl/radial_factory.hpp:10-22 : radial_from_string. *)
Definition radial_from_string (name : string) : outcome radial_quad :=
  let name := upcase name in
  if String.eqb name "BECKE" then Ok RQBecke
  else if String.eqb name "MURAKNOWLES" then Ok RQMuraKnowles
  else if String.eqb name "MK" then Ok RQMuraKnowles
  else if String.eqb name "MURRAYHANDYLAMING" then Ok RQMurrayHandyLaming
  else if String.eqb name "MHL" then Ok RQMurrayHandyLaming
  else if String.eqb name "TREUTLERAHLRICHS" then Ok RQTreutlerAhlrichs
  else if String.eqb name "TA" then Ok RQTreutlerAhlrichs
  else Throw ExRuntime.

(** impl/s2_factory.hpp:10-22 : angular_from_string. *)
Definition angular_from_string (name : string) : outcome angular_quad :=
  let name := upcase name in
  if String.eqb name "AHRENSBEYLKIN" then Ok (AQ AhrensBeylkin)
  else if String.eqb name "AB" then Ok (AQ AhrensBeylkin)
  else if String.eqb name "DELLEY" then Ok (AQ Delley)
  else if String.eqb name "LEBEDEVLAIKOV" then Ok (AQ LebedevLaikov)
  else if String.eqb name "LEBEDEV" then Ok (AQ LebedevLaikov)
  else if String.eqb name "LL" then Ok (AQ LebedevLaikov)
  else if String.eqb name "WOMERSLEY" then Ok (AQ Womersley)
  else Throw ExRuntime.

(** Quadrature classes a caller can name: RadialTransformQuadrature<Base, Traits>
    (quadratures/radial/radial_transform.hpp:22-24) with one of the primitive rules
    (quadratures/primitive/*.hpp) and one of the traits classes, an angular class
    (quadratures/s2/*.hpp), or some other class. Point and weight types are left out:
    the comparisons below take them from the class itself. *)
Inductive base_rule : Set :=
| BUniform | BChebyshev1 | BChebyshev2 | BChebyshev2Modified | BChebyshev3 | BLegendre | BLobatto.
(** See above (quadratures/radial/radial_transform.hpp:22-24, quadratures/s2/*.hpp). *)
Inductive quad_class : Set :=
| CRadial (b : base_rule) (k : rkind) | CAngular (f : afam) | COther (code : N).

(** is_becke_v, is_mk_v, is_mhl_v, is_ta_v: the same class as the alias
    (quadratures/radial/becke.hpp:86-97, muraknowles.hpp:177-190, mhl.hpp:88-100,
    treutlerahlrichs.hpp:104-116). *)
Definition is_becke (c : quad_class) : bool :=
  match c with CRadial BChebyshev2 KBecke => true | _ => false end.
(** quadratures/radial/muraknowles.hpp:177-190. *)
Definition is_mk (c : quad_class) : bool :=
  match c with CRadial BUniform KMK => true | _ => false end.
(** quadratures/radial/mhl.hpp:88-100. *)
Definition is_mhl (c : quad_class) : bool :=
  match c with CRadial BUniform (KMHL M) => Nat.eqb M 2 | _ => false end.
(** quadratures/radial/treutlerahlrichs.hpp:104-116. *)
Definition is_ta (c : quad_class) : bool :=
  match c with CRadial BChebyshev2 KTA => true | _ => false end.
(** is_ahrens_beyklin_v, is_delley_v, is_lebedev_laikov_v, is_womersley_v
    (quadratures/s2/ahrens_beylkin.hpp:527-531, delley.hpp:223-227,
    lebedev_laikov.hpp:239-243, womersley.hpp:850-854). *)
Definition is_angular (f : afam) (c : quad_class) : bool :=
  match c with CAngular g => afam_eqb g f | _ => false end.

(** radial_factory.hpp:14-22 : radial_from_type<T>(). *)
Definition radial_from_type (c : quad_class) : outcome radial_quad :=
  if is_becke c then Ok RQBecke
  else if is_mk c then Ok RQMuraKnowles
  else if is_mhl c then Ok RQMurrayHandyLaming
  else if is_ta c then Ok RQTreutlerAhlrichs
  else Throw ExRuntime.

(** s2_factory.hpp:16-24 : angular_from_type<T>(). *)
Definition angular_from_type (c : quad_class) : outcome angular_quad :=
  if is_angular AhrensBeylkin c then Ok (AQ AhrensBeylkin)
  else if is_angular Delley c then Ok (AQ Delley)
  else if is_angular LebedevLaikov c then Ok (AQ LebedevLaikov)
  else if is_angular Womersley c then Ok (AQ Womersley)
  else Throw ExRuntime.

(** spherical_factory.hpp:13-17 : enum class PruningScheme. *)
Inductive pruning_scheme : Set := Unpruned | Robust | Treutler.

(** Conversion of an int64_t to size_t, and back (impl/robust_pruning.hpp:13,20-21,
    impl/treutler_pruning.hpp:13-14). Sizes in specifications are integers in
    [0, 2^64). *)
Definition to_size (z : Z) : Z := Z.modulo z (2 ^ 64).
(** The way back (impl/robust_pruning.hpp:13, impl/treutler_pruning.hpp:13). *)
Definition to_int64 (z : Z) : Z := if Z.leb (2 ^ 63) z then (z - 2 ^ 64)%Z else z.

(** spherical_factory.hpp:45-59 : struct PruningRegion. *)
Record region : Type := mkRegion {
  r_st : nat;            (** l.46 idx_st *)
  r_en : nat;            (** l.47 idx_en *)
  r_aq : angular_quad;   (** l.49 *)
  r_asz : Z              (** l.50 *)
}.

(** spherical_factory.hpp:53-58 : PruningRegion::operator==. *)
Definition region_eqb (a b : region) : bool :=
  Nat.eqb (r_st b) (r_st a) && Nat.eqb (r_en b) (r_en a)
  && angular_quad_eqb (r_aq b) (r_aq a) && Z.eqb (r_asz b) (r_asz a).

(** spherical_factory.hpp:91 : std::vector operator== : same length and element-wise [==]. *)
Fixpoint list_eqb {A} (eqb : A -> A -> bool) (a b : list A) : bool :=
  match a, b with
  | [], [] => true
  | x :: a', y :: b' => eqb x y && list_eqb eqb a' b'
  | _, _ => false
  end.

Section Factory.
Context {S : Scalar}.
Notation pt3 := (@pt3 S).
Notation pt3_0 := (@pt3_0 S).
Variable grids : afam -> Z -> @static_grid S.

(** Scheme constructed by each enumerator: impl/radial_types.hpp:6-9 with the
    aliases of quadratures/radial/*.hpp (MurrayHandyLaming is MHL<2>, mhl.hpp:89-92). *)
Definition rkind_of_enum (rq : radial_quad) : option rkind :=
  match rq with
  | RQBecke => Some KBecke
  | RQMurrayHandyLaming => Some (KMHL 2)
  | RQMuraKnowles => Some KMK
  | RQTreutlerAhlrichs => Some KTA
  | RQOther _ => None
  end.

(** quadratures/radial/radial_transform.hpp:42-43 with 35-36 : the constructor of a
    radial quadrature class of kind [k] from a [const RadialTraits&]: cast, then
    generate. *)
Definition radial_construct (dbg : bool) (k : rkind) (t : rtraits S)
  : outcome (rquad S) :=
  let* t' := rt_cast k t in
  construct dbg (radial_generate t').

(** impl/radial_factory.hpp:24-39 : RadialFactory::generate. *)
Definition radial_factory_generate (dbg : bool) (rq : radial_quad) (t : rtraits S)
  : outcome (rquad S) :=
  match rq with
  | RQBecke => radial_construct dbg KBecke t
  | RQMuraKnowles => radial_construct dbg KMK t
  | RQMurrayHandyLaming => radial_construct dbg (KMHL 2) t
  | RQTreutlerAhlrichs => radial_construct dbg KTA t
  | RQOther _ => Throw ExRuntime
  end.

(** radial_factory.hpp:38-39 : arguments of make_radial_traits after the enumerator: (npts), (npts, R) or
    (npts, R, alpha). *)
Inductive rargs : Type :=
| Args1 (n : nat) | Args2 (n : nat) (R : S) | Args3 (n : nat) (R alpha : S).

(** radial_factory.hpp:28-34 (detail) and 38-62 : make_radial_traits(rq, args...).
    A traits class is constructible from the arguments or yields nullptr, which is
    reported as runtime_error. Default arguments: R = 1.0, alpha = 0.6. *)
Definition make_radial_traits (rq : radial_quad) (a : rargs) : outcome (rtraits S) :=
  match rq, a with
  | RQBecke, Args1 n => Ok (Becke n s1)
  | RQBecke, Args2 n R => Ok (Becke n R)
  | RQMurrayHandyLaming, Args1 n => Ok (MHL 2 n s1)
  | RQMurrayHandyLaming, Args2 n R => Ok (MHL 2 n R)
  | RQMuraKnowles, Args1 n => Ok (MK n s1)
  | RQMuraKnowles, Args2 n R => Ok (MK n R)
  | RQTreutlerAhlrichs, Args1 n => Ok (TA n s1 (sdec 6 1))
  | RQTreutlerAhlrichs, Args2 n R => Ok (TA n R (sdec 6 1))
  | RQTreutlerAhlrichs, Args3 n R al => Ok (TA n R al)
  | _, _ => Throw ExRuntime
  end.

(** An angular class constructed from a size: quadratures/s2/*.hpp constructors
    (e.g. womersley.hpp:40) through quadrature.hpp:229-230. *)
Definition angular_construct (dbg : bool) (f : afam) (n : nat) : outcome (aquad S) :=
  construct dbg (s2_generate grids f n).

(** impl/s2_factory.hpp:24-39 : S2Factory::generate. *)
Definition s2_factory_generate (dbg : bool) (aq : angular_quad) (n : nat)
  : outcome (aquad S) :=
  match aq with
  | AQ AhrensBeylkin => angular_construct dbg AhrensBeylkin n
  | AQ Delley => angular_construct dbg Delley n
  | AQ LebedevLaikov => angular_construct dbg LebedevLaikov n
  | AQ Womersley => angular_construct dbg Womersley n
  | AQOther _ => Throw ExRuntime
  end.

(** spherical_factory.hpp:26-40 : UnprunedSphericalGridSpecification; the
    unique_ptr may be null (after a move). *)
Record unpruned_spec : Type := mkUnpruned {
  u_rq : radial_quad; u_traits : option (rtraits S);
  u_aq : angular_quad; u_asz : Z
}.

(** spherical_factory.hpp:61-66 : PrunedSphericalGridSpecification. *)
Record pruned_spec : Type := mkPruned {
  p_rq : radial_quad; p_traits : option (rtraits S); p_regions : list region
}.

(** spherical_factory.hpp:37-39 : copy constructor (deep copy of the traits). *)
Definition unpruned_copy (u : unpruned_spec) : unpruned_spec :=
  mkUnpruned (u_rq u) (option_map rt_clone (u_traits u)) (u_aq u) (u_asz u).

(** spherical_factory.hpp:76-79 (copy constructor) and 81-86 (assignment). *)
Definition pruned_copy (p : pruned_spec) : pruned_spec :=
  mkPruned (p_rq p) (option_map rt_clone (p_traits p)) (p_regions p).

(** spherical_factory.hpp:88-92 : PrunedSphericalGridSpecification::operator==. *)
Definition pruned_spec_eqb (a b : pruned_spec) : bool :=
  radial_quad_eqb (p_rq a) (p_rq b)
  && match p_traits a with
     | Some t => match p_traits b with Some t' => rt_compare t t' | None => false end
     | None => match p_traits b with Some _ => false | None => true end
     end
  && list_eqb region_eqb (p_regions a) (p_regions b).

(** spherical_factory.hpp:147-154 : generate_unpruned_grid(rq, aq): SphericalQuadrature
    centred at the origin (default argument, spherical_quadrature.hpp:150). *)
Definition make_unpruned (dbg : bool) (r : rquad S) (a : aquad S) : outcome (sphobj S) :=
  spherical_construct dbg r a pt3_0.

(** impl/unpruned_grid.hpp:12-36 (detail) : by radial enumerator. *)
Definition generate_unpruned_impl (dbg : bool) (rq : radial_quad) (t : rtraits S)
  (a : aquad S) : outcome (sphobj S) :=
  match rq with
  | RQBecke => let* r := radial_construct dbg KBecke t in make_unpruned dbg r a
  | RQMuraKnowles => let* r := radial_construct dbg KMK t in make_unpruned dbg r a
  | RQMurrayHandyLaming =>
      let* r := radial_construct dbg (KMHL 2) t in make_unpruned dbg r a
  | RQTreutlerAhlrichs => let* r := radial_construct dbg KTA t in make_unpruned dbg r a
  | RQOther _ => Throw ExRuntime
  end.

(** impl/unpruned_grid.hpp:40-57 : generate_unpruned_grid(rq, traits, aq, nang). *)
Definition generate_unpruned_grid (dbg : bool) (rq : radial_quad) (t : rtraits S)
  (aq : angular_quad) (nang : Z) : outcome (sphobj S) :=
  match aq with
  | AQ f => let* a := angular_construct dbg f (Z.to_nat nang) in
            generate_unpruned_impl dbg rq t a
  | AQOther _ => Throw ExRuntime
  end.

(** spherical_factory.hpp:173-178 : generate_grid(unpruned specification). *)
Definition generate_grid_unpruned (dbg : bool) (gs : unpruned_spec)
  : outcome (sphobj S) :=
  match u_traits gs with
  | None => Throw ExRuntime
  | Some t => generate_unpruned_grid dbg (u_rq gs) t (u_aq gs) (u_asz gs)
  end.

(** impl/pruned_grid.hpp:19-23 : building the partition; only [idx_st] and
    [angular_size] of each region are used. *)
Fixpoint add_regions (dbg : bool) (f : afam) (rn : nat) (rs : list region) (p : rgp S)
  : outcome (rgp S) :=
  match rs with
  | [] => Ok p
  | r :: rest =>
    let* a := angular_construct dbg f (Z.to_nat (r_asz r)) in
    let* p := add_quad dbg rn (r_st r) a p in
    add_regions dbg f rn rest p
  end.

(** impl/pruned_grid.hpp:15-27 : make_pruned_grid_impl. *)
Definition make_pruned_grid_impl (dbg : bool) (f : afam) (rq : rquad S)
  (rs : list region) : outcome (sphobj S) :=
  let* p := add_regions dbg f (npts rq) rs rgp_empty in
  let* p := finalize (npts rq) p in
  pruned_construct dbg rq p pt3_0.

(** impl/pruned_grid.hpp:29-57 : make_pruned_grid. *)
Definition make_pruned_grid (dbg : bool) (rq : rquad S) (rs : list region)
  : outcome (sphobj S) :=
  match rs with
  | [] => Throw ExRuntime
  | r0 :: _ =>
    if existsb (fun r => negb (angular_quad_eqb (r_aq r) (r_aq r0))) rs
    then Throw ExRuntime
    else match r_aq r0 with
         | AQ f => make_pruned_grid_impl dbg f rq rs
         | AQOther _ => Throw ExRuntime
         end
  end.

(** impl/pruned_grid.hpp:61-83 : generate_pruned_grid(rq, traits, regions). *)
Definition generate_pruned_grid (dbg : bool) (rq : radial_quad) (t : rtraits S)
  (rs : list region) : outcome (sphobj S) :=
  match rq with
  | RQBecke => let* r := radial_construct dbg KBecke t in make_pruned_grid dbg r rs
  | RQMuraKnowles => let* r := radial_construct dbg KMK t in make_pruned_grid dbg r rs
  | RQMurrayHandyLaming =>
      let* r := radial_construct dbg (KMHL 2) t in make_pruned_grid dbg r rs
  | RQTreutlerAhlrichs => let* r := radial_construct dbg KTA t in make_pruned_grid dbg r rs
  | RQOther _ => Throw ExRuntime
  end.

(** spherical_factory.hpp:181-186 : generate_grid(pruned specification). *)
Definition generate_grid_pruned (dbg : bool) (gs : pruned_spec) : outcome (sphobj S) :=
  match p_traits gs with
  | None => Throw ExRuntime
  | Some t => generate_pruned_grid dbg (p_rq gs) t (p_regions gs)
  end.

(** impl/robust_pruning.hpp:10-24 : get_robust_low_med_sizes, result (low, med). *)
Definition robust_sizes (f : afam) (asz : Z) : outcome (Z * Z) :=
  let base_order := algebraic_order_by_npts f (to_int64 asz) in
  if Z.ltb base_order 0 then Throw ExRuntime
  else
    let med_order := next_algebraic_order f
                       (if Z.ltb 6 base_order then (base_order - 6)%Z else base_order) in
    let low_order := next_algebraic_order f 7 in
    Ok (to_size (npts_by_algebraic_order f low_order),
        to_size (npts_by_algebraic_order f med_order)).

(** impl/treutler_pruning.hpp:10-17 : get_treutler_low_med_sizes, result (low, med). *)
Definition treutler_sizes (f : afam) : Z * Z :=
  (to_size (npts_by_algebraic_order f (next_algebraic_order f 7)),
   to_size (npts_by_algebraic_order f (next_algebraic_order f 11))).

(** Dereference of the unique_ptr [unp.radial_traits]: null is undefined behaviour
    (impl/robust_pruning.hpp:31, impl/treutler_pruning.hpp:23). *)
Definition deref_traits (u : unpruned_spec) : outcome (rtraits S) :=
  match u_traits u with Some t => Ok t | None => UB end.

(** impl/robust_pruning.hpp:49-74 and 27-44 : robust_psi4_pruning_scheme(unp). *)
Definition robust_psi4_pruning_scheme (u : unpruned_spec) : outcome pruned_spec :=
  match u_aq u with
  | AQOther _ => Throw ExRuntime
  | AQ f =>
    let* (low_sz, med_sz) := robust_sizes f (u_asz u) in
    let* t := deref_traits u in
    let rsz := rt_npts t in
    let r_div_4 := (rsz / 4 + 1)%nat in
    let r_div_2 := (rsz / 2 + 1)%nat in
    Ok (mkPruned (u_rq u) (Some (rt_clone t))
         [mkRegion 0 r_div_4 (AQ f) low_sz;
          mkRegion r_div_4 r_div_2 (AQ f) med_sz;
          mkRegion r_div_2 rsz (AQ f) (u_asz u)])
  end.

(** impl/treutler_pruning.hpp:42-66 and 19-36 : treutler_pruning_scheme(unp). *)
Definition treutler_pruning_scheme (u : unpruned_spec) : outcome pruned_spec :=
  match u_aq u with
  | AQOther _ => Throw ExRuntime
  | AQ f =>
    let '(low_sz, med_sz) := treutler_sizes f in
    let* t := deref_traits u in
    let rsz := rt_npts t in
    let r_div_3 := (rsz / 3 + 1)%nat in
    let r_div_2 := (rsz / 2 + 1)%nat in
    Ok (mkPruned (u_rq u) (Some (rt_clone t))
         [mkRegion 0 r_div_3 (AQ f) low_sz;
          mkRegion r_div_3 r_div_2 (AQ f) med_sz;
          mkRegion r_div_2 rsz (AQ f) (u_asz u)])
  end.

(** impl/pruned_grid.hpp:86-108 : create_pruned_spec(scheme, unp). *)
Definition create_pruned_spec (sch : pruning_scheme) (u : unpruned_spec)
  : outcome pruned_spec :=
  match u_traits u with
  | None => Throw ExRuntime
  | Some t =>
    match sch with
    | Robust => robust_psi4_pruning_scheme u
    | Treutler => treutler_pruning_scheme u
    | Unpruned =>
      Ok (mkPruned (u_rq u) (Some (rt_clone t))
            [mkRegion 0 (rt_npts t) (u_aq u) (u_asz u)])
    end
  end.

End Factory.
Arguments unpruned_spec : clear implicits.
Arguments pruned_spec : clear implicits.
Arguments rargs : clear implicits.
