(** The static data behind [generate]: the struct of a family with a given suffix. *)
From Coq Require Import ZArith List.
From Verif Require Import Base.Scalar Model.S2 Model.GridCode Model.GridsLL Model.GridsDelley Model.GridsAB
  Model.GridsWomersley.
Import ListNotations.

(** The entry of a table, by suffix: the number in the name of a struct such as
    lebedev_laikov_14 (lebedev_laikov/lebedev_laikov_14.hpp:11). *)
Fixpoint by_suffix {A : Type} (n : Z) (l : list (Z * A)) : option A :=
  match l with
  | [] => None
  | (k, a) :: r => if Z.eqb k n then Some a else by_suffix n r
  end.

(** The arrays of quadratures/s2/<family>/<family>_<n>.hpp. All files of the first three families are
    transcribed, of the Womersley family those with at most 513 points. A suffix without transcription
    gives empty arrays, which is not what a larger Womersley file holds: theorems about this
    function exclude those sizes. *)
Definition repo_grids {S : Scalar} (f : afam) (n : Z) : @static_grid S :=
  let coded_at l := match by_suffix n l with Some g => coded_grid g | None => ([], []) end in
  match f with
  | LebedevLaikov => coded_at ll_grids
  | Delley => coded_at de_grids
  | AhrensBeylkin => coded_at ab_grids
  | Womersley => match by_suffix n wo_grids with Some ps => womersley_grid n ps | None => ([], []) end
  end.
