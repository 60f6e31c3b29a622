(** Specification vocabulary for one-dimensional rules given as (nodes, weights). *)
From Coq Require Import List Arith Reals.
From Flocq Require Import IEEE754.BinarySingleNaN.
From Verif Require Import Base.Outcome Base.Scalar Base.FScalar.

(** Entries i < j at mirrored positions (i + j + 1 = length) carry opposite nodes and
    the same weight, bit for bit. *)
Definition mirrored {S : Scalar} (q : list S * list S) : Prop :=
  length (fst q) = length (snd q) /\
  forall i j x y v w, i < j -> i + j + 1 = length (fst q) ->
    nth_error (fst q) i = Some x -> nth_error (fst q) j = Some y ->
    nth_error (snd q) i = Some v -> nth_error (snd q) j = Some w ->
    y = sopp x /\ x = sopp y /\ w = v.

(** The node in the middle of a rule with an odd number of nodes. *)
Definition middle_node {S : Scalar} (q : list S * list S) (x : S) : Prop :=
  exists k, length (fst q) = 2 * k + 1 /\ nth_error (fst q) k = Some x.

(** binary64 sum and product, rounded to nearest even. *)
Definition fadd (x y : F64) : F64 := @Bplus 53 1024 Hprec Hmax mode_NE x y.
Definition fmul (x y : F64) : F64 := @Bmult 53 1024 Hprec Hmax mode_NE x y.
Definition fzero : F64 := B754_zero false.
