(** Specification vocabulary for radial traits objects. *)
From Coq Require Import List.
From Verif Require Import Base.Scalar Model.Radial.
Import ListNotations.

(** The real parameters of a traits object. *)
Definition rt_params {S : Scalar} (t : rtraits S) : list S :=
  match t with
  | Becke _ R => [R] | MHL _ _ R => [R] | MK _ R => [R] | TA _ R alpha => [R; alpha]
  end.

(** Same scheme, same size, and parameter-wise [==]. *)
Definition same_traits {S : Scalar} (a b : rtraits S) : Prop :=
  rkind_of a = rkind_of b /\ rt_npts a = rt_npts b /\
  Forall2 (fun x y => seqb x y = true) (rt_params a) (rt_params b).
