(** Model of the angular quadratures,
    include/integratorxx/quadratures/s2/*.hpp and util/copy_grid.hpp (paths below
    are relative to include/integratorxx/). *)
From Coq Require Import ZArith List Bool Arith.
From Verif Require Import Base.Outcome Base.Scalar Model.S2Tables.
Import ListNotations.

(** The four angular families (generators/s2_factory.hpp:9-14 lists them; the
    classes are quadratures/s2/*.hpp). *)
Inductive afam : Set := AhrensBeylkin | Delley | LebedevLaikov | Womersley.

(** generators/s2_factory.hpp:9-14 : [==] on the enumeration. *)
Definition afam_eqb (a b : afam) : bool :=
  match a, b with
  | AhrensBeylkin, AhrensBeylkin | Delley, Delley
  | LebedevLaikov, LebedevLaikov | Womersley, Womersley => true
  | _, _ => false
  end.

(** A C++ [switch] whose cases are [(k, v)] pairs returning [v], with
    [default: return -1]. *)
Fixpoint switch (cases : list (Z * Z)) (x : Z) : Z :=
  match cases with
  | [] => -1
  | (k, v) :: r => if Z.eqb x k then v else switch r x
  end.

(** lebedev_laikov.hpp:198-232, delley.hpp:182-219, ahrens_beylkin.hpp:407-521 : a C++
    [if(x <= t) return v; else if ... else return last] chain. *)
Fixpoint chain (tests : list (Z * Z)) (last x : Z) : Z :=
  match tests with
  | [] => last
  | (t, v) :: r => if Z.leb x t then v else chain r last x
  end.

(** [npts_by_algebraic_order] : lebedev_laikov.hpp:119-156, delley.hpp:96-137,
    ahrens_beylkin.hpp:169-286, womersley.hpp:325-580. The argument is an int64_t;
    the model takes any integer. *)
Definition npts_by_algebraic_order (f : afam) (order : Z) : Z :=
  match f with
  | AhrensBeylkin => switch ab_npts_by_order order
  | Delley => switch de_npts_by_order order
  | LebedevLaikov => switch ll_npts_by_order order
  | Womersley => switch wo_npts_by_order order
  end.

(** [algebraic_order_by_npts] : lebedev_laikov.hpp:158-195, delley.hpp:139-180,
    ahrens_beylkin.hpp:288-405, womersley.hpp:582-837. *)
Definition algebraic_order_by_npts (f : afam) (npts : Z) : Z :=
  match f with
  | AhrensBeylkin => switch ab_order_by_npts npts
  | Delley => switch de_order_by_npts npts
  | LebedevLaikov => switch ll_order_by_npts npts
  | Womersley => switch wo_order_by_npts npts
  end.

(** [next_algebraic_order] : lebedev_laikov.hpp:198-232, delley.hpp:182-219,
    ahrens_beylkin.hpp:407-521, womersley.hpp:839-846. *)
Definition next_algebraic_order (f : afam) (order : Z) : Z :=
  match f with
  | AhrensBeylkin => chain ab_next_chain ab_next_last order
  | Delley => chain de_next_chain de_next_last order
  | LebedevLaikov => chain ll_next_chain ll_next_last order
  | Womersley => if Z.ltb order 1 then 1%Z
                 else if Z.ltb 125 order then 125%Z else order
  end.

(** Which static grid an [npts] argument selects, if any: the [if(npts == k)]
    chains lebedev_laikov.hpp:48-109, delley.hpp:52-87, ahrens_beylkin.hpp:51-163,
    womersley.hpp:196-320 (with womersley.hpp:57-187 for npts >= 2049). *)
Definition select (branches : list (Z * Z)) (npts : Z) : option Z :=
  match find (fun kv => Z.eqb npts (fst kv)) branches with
  | Some kv => Some (snd kv)
  | None => None
  end.

(** The selection made by [generate] of each family (lines above). *)
Definition grid_selected (f : afam) (npts : Z) : option Z :=
  match f with
  | AhrensBeylkin => select ab_dispatch npts
  | Delley => select de_dispatch npts
  | LebedevLaikov => select ll_dispatch npts
  | Womersley => if Z.leb 2049 npts then select wo_dispatch_large npts
                 else select wo_dispatch_small npts
  end.

Section Generate.
Context {S : Scalar}.
Local Open Scope scalar_scope.

(** types.hpp : cartesian_pt_t<T> = std::array<T,3>. *)
Definition pt3 : Type := (S * S * S)%type.
(** types.hpp:9 : a value-initialised point. *)
Definition pt3_0 : pt3 := (s0, s0, s0).

(** A static grid struct such as lebedev_laikov_14: its two arrays
    (e.g. lebedev_laikov/lebedev_laikov_14.hpp:13-45). *)
Definition static_grid : Type := (list pt3 * list S)%type.

(** util/copy_grid.hpp:12-13 : std::copy(src.begin(), src.end(), dst.begin()): writing past the end of the
    destination is undefined behaviour. *)
Fixpoint copy_over {A} (src dst : list A) : outcome (list A) :=
  match src, dst with
  | [], _ => Ok dst
  | _ :: _, [] => UB
  | x :: src', _ :: dst' => let* r := copy_over src' dst' in Ok (x :: r)
  end.

(** util/copy_grid.hpp:6-14. *)
Definition copy_grid (g : static_grid) (a : list pt3 * list S)
  : outcome (list pt3 * list S) :=
  let* ps := copy_over (fst g) (fst a) in
  let* ws := copy_over (snd g) (snd a) in
  Ok (ps, ws).

(** The static data, [grids f n] standing for the struct of family [f] with suffix
    [n] (files quadratures/s2/<family>/<family>_<n>.hpp). It is a parameter here;
    Model/GridData*.v transcribe actual files. *)
Variable grids : afam -> Z -> static_grid.

(** Whether [generate] multiplies the weights by 4 pi at the end:
    lebedev_laikov.hpp:111-113 and delley.hpp:89-91 do,
    ahrens_beylkin.hpp:164-166 and womersley.hpp:321-322 do not. *)
Definition scales_weights (f : afam) : bool :=
  match f with
  | LebedevLaikov | Delley => true
  | AhrensBeylkin | Womersley => false
  end.

(** [generate(npts)] : lebedev_laikov.hpp:40-118, delley.hpp:45-94,
    ahrens_beylkin.hpp:45-167, womersley.hpp:189-323. Zero-filled vectors, at most
    one copy_grid, then the 4 pi loop (the loop index of delley.hpp:90 is an [int];
    overflow for npts > 2^31-1 is not modelled). *)
Definition s2_generate (f : afam) (n : nat) : outcome (list pt3 * list S) :=
  let a := (repeat pt3_0 n, repeat s0 n) in
  let* a := match grid_selected f (Z.of_nat n) with
            | Some m => copy_grid (grids f m) a
            | None => Ok a
            end in
  if scales_weights f
  then let* ws := for_range 0 n
                    (fun i ws => let* w := vget ws i in
                                 vset ws i (w * (sofZ 4 * spi))) (snd a) in
       Ok (fst a, ws)
  else Ok a.

End Generate.
