(** C51: batching in binary64 ends when points are not too close together. *)
From Coq Require Import List Permutation Reals.
From Flocq Require Import IEEE754.BinarySingleNaN Core.Raux.
From Verif Require Import Base.Scalar Base.FScalar Base.Outcome Model.S2 Model.Batcher
  Spec.BatchSpec Spec.SeparateSpec Proofs.BatchApart.
Import ListNotations.
Local Open Scope R_scope.

(** In binary64, for every std::partition and every libm: if no more than maxsz points
    are so close that no two of them have a binary64 number strictly between them in
    some coordinate, then batching ends after at most npts sweeps, the points are
    rearranged only, and each batch has between one and maxsz points. *)
Theorem C51_batches : forall m part, @conforming (FS m) part ->
  forall maxsz (q : list ((F64 * F64 * F64) * F64)),
  q <> [] -> Forall (fun e => moderate_pt (fst e)) q -> crowded_at_most maxsz q ->
  exists q' idx,
    (forall fuel, (length q <= fuel)%nat -> generate_batches (S:=FS m) part fuel maxsz q = Ok (q', idx)) /\
    Permutation q' q /\ splits (length q) idx /\ concat (pieces idx q') = q' /\
    Forall (fun b => (1 <= length b <= maxsz)%nat) (pieces idx q').
Proof. exact F_batches. Qed.

(** In particular every limit works when the points are pairwise separated. *)
Theorem C51_separated : forall m part, @conforming (FS m) part ->
  forall maxsz (q : list ((F64 * F64 * F64) * F64)), (1 <= maxsz)%nat ->
  q <> [] -> Forall (fun e => moderate_pt (fst e)) q ->
  ForallOrdPairs (fun a b => separated_pts (fst a) (fst b)) q ->
  exists q' idx,
    (forall fuel, (length q <= fuel)%nat -> generate_batches (S:=FS m) part fuel maxsz q = Ok (q', idx)) /\
    Permutation q' q /\ splits (length q) idx /\ concat (pieces idx q') = q' /\
    Forall (fun b => (1 <= length b <= maxsz)%nat) (pieces idx q').
Proof. exact F_separated. Qed.

(** The bound on crowds cannot be dropped: distinct neighbours are never parted. *)
Theorem C51_neighbours_refuted : exists q : list ((F64 * F64 * F64) * F64),
  q <> [] /\ Forall (fun e => moderate_pt (fst e)) q /\
  NoDup (map (fun e => (B2R (fst (fst (fst e))), B2R (snd (fst (fst e))), B2R (snd (fst e)))) q) /\
  crowded_at_most 2 q /\ ~ crowded_at_most 1 q /\
  forall m part, @conforming (FS m) part ->
  forall fuel, generate_batches (S:=FS m) part fuel 1 q = OutOfFuel.
Proof. exact crowd_sharp. Qed.

(** Nor can the bound on magnitudes: two finite points whose extent overflows are
    never parted, however far from each other. *)
Theorem C51_overflow_refuted : exists q : list ((F64 * F64 * F64) * F64),
  q <> [] /\ Forall (fun e => is_finite (fst (fst (fst e))) = true /\ is_finite (snd (fst (fst e))) = true
                   /\ is_finite (snd (fst e)) = true) q /\
  ForallOrdPairs (fun a b => separated_pts (fst a) (fst b)) q /\ crowded_at_most 1 q /\
  forall m part, @conforming (FS m) part ->
  forall fuel, generate_batches (S:=FS m) part fuel 1 q = OutOfFuel.
Proof. exact overflow_refuted. Qed.

(** (1, 0, 1/2), (1, 0, -2) and (1 + 2^-40, 0, 1/2) meet the hypotheses. *)
Example C51_ex : sep_pts <> [] /\ Forall (fun e => moderate_pt (fst e)) sep_pts /\
  ForallOrdPairs (fun a b => separated_pts (fst a) (fst b)) sep_pts.
Proof. exact sep_ex. Qed.

Print Assumptions C51_batches.
Print Assumptions C51_separated.
Print Assumptions C51_neighbours_refuted.
Print Assumptions C51_overflow_refuted.
