(** Specification vocabulary for names, factories and pruning specifications. *)
From Coq Require Import Arith ZArith Ascii String List.
From Verif Require Import Base.Scalar Model.Radial Model.S2Tables Model.S2 Model.Factory
  Spec.TraitsSpec.
Import ListNotations.
Local Open Scope string_scope.

(** The same character, or upper and lower case of one of the 26 letters. *)
Definition same_letter (c d : ascii) : Prop :=
  c = d \/ exists k, k < 26 /\
    ((c = ascii_of_nat (65 + k) /\ d = ascii_of_nat (97 + k)) \/
     (c = ascii_of_nat (97 + k) /\ d = ascii_of_nat (65 + k))).

(** Strings equal up to case. *)
Definition same_name (s t : string) : Prop :=
  Forall2 same_letter (list_ascii_of_string s) (list_ascii_of_string t).

(** The documented names and abbreviations of the radial schemes (radial_factory.hpp:7-12
    enumerators) and angular families (s2_factory.hpp:9-14 enumerators). *)
Definition radial_names : list (string * radial_quad) :=
  [("Becke", RQBecke);
   ("MuraKnowles", RQMuraKnowles); ("MK", RQMuraKnowles);
   ("MurrayHandyLaming", RQMurrayHandyLaming); ("MHL", RQMurrayHandyLaming);
   ("TreutlerAhlrichs", RQTreutlerAhlrichs); ("TA", RQTreutlerAhlrichs)].

Definition angular_names : list (string * angular_quad) :=
  [("AhrensBeylkin", AQ AhrensBeylkin); ("AB", AQ AhrensBeylkin);
   ("Delley", AQ Delley);
   ("LebedevLaikov", AQ LebedevLaikov); ("Lebedev", AQ LebedevLaikov); ("LL", AQ LebedevLaikov);
   ("Womersley", AQ Womersley)].

(** The quadrature class that belongs to each radial enumerator. *)
Definition schemes : list (radial_quad * rkind) :=
  [(RQBecke, KBecke); (RQMuraKnowles, KMK); (RQMurrayHandyLaming, KMHL 2);
   (RQTreutlerAhlrichs, KTA)].

(** The class behind each radial enumerator: base rule and traits. *)
Definition radial_classes : list (radial_quad * quad_class) :=
  [(RQBecke, CRadial BChebyshev2 KBecke); (RQMuraKnowles, CRadial BUniform KMK);
   (RQMurrayHandyLaming, CRadial BUniform (KMHL 2));
   (RQTreutlerAhlrichs, CRadial BChebyshev2 KTA)].

(** A data set in which the file of every supported size has that many entries. *)
Definition data_sized {S : Scalar} (grids : afam -> Z -> @static_grid S) : Prop :=
  forall f m, algebraic_order_by_npts f m <> (-1)%Z ->
    length (fst (grids f m)) = Z.to_nat m /\ length (snd (grids f m)) = Z.to_nat m.

(** The radial ranges written in a pruning specification. *)
Definition spec_ranges {S : Scalar} (p : pruned_spec S) : list (nat * nat) :=
  map (fun r => (r_st r, r_en r)) (p_regions p).

(** Same scheme, same traits ([==] on parameters; or both unset), same regions. *)
Definition same_spec {S : Scalar} (a b : pruned_spec S) : Prop :=
  p_rq a = p_rq b /\
  match p_traits a, p_traits b with
  | Some t, Some t' => same_traits t t'
  | None, None => True
  | _, _ => False
  end /\
  p_regions a = p_regions b.
