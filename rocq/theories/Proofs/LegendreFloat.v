(** The Legendre evaluation in binary64 at the end point 1. *)
From Coq Require Import ZArith Arith.
From Flocq Require Import IEEE754.BinarySingleNaN.
From Verif Require Import Base.Scalar Base.FScalar Model.Primitive.

Lemma eval_Pn_end : forall lib, exists (n : nat) (x v d u : FS lib),
  is_finite x = true /\ eval_Pn x n = (v, d, u) /\ is_nan d = true.
Proof.
  intro lib. exists 2%nat, (f_of 1 0).
  exists (fst (fst (@eval_Pn (FS lib) (f_of 1 0) 2))), (snd (fst (@eval_Pn (FS lib) (f_of 1 0) 2))), (snd (@eval_Pn (FS lib) (f_of 1 0) 2)).
  split; [vm_compute; reflexivity|]. split; [|vm_compute; reflexivity].
  destruct (@eval_Pn (FS lib) (f_of 1 0) 2) as [[a b] c]. reflexivity.
Qed.
