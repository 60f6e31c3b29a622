(** Property C47: lifetimes of batchers, shared quadratures and iterators. For every scalar type, every
    std::partition and every program over the operations of Model/Heap.v extended by destruction. *)
From Coq Require Import List Bool Arith ZArith QArith.
From Verif Require Import Base.Outcome Base.Scalar Base.QScalar Model.Quadrature Model.S2 Model.Composite
  Model.Batcher Model.Heap Model.Lifetime Spec.LifetimeSpec Proofs.LifetimeFacts Proofs.BatchEx Proofs.LifetimeEx.
Import ListNotations.
Local Open Scope nat_scope.

(** C47. A program that names only existing batchers, iterators of existing batchers and quadratures still held never
    touches anything destroyed: it ends exactly as the same program without any destruction. *)
Theorem C47_safe : forall (S : Scalar) part fuel (h0 : list (sphobj S)) cs sc,
  scopes (scope0 (length h0)) cs sc ->
  (let* s := lrun part fuel (linit h0) cs in Ok (base s)) = run part fuel (mkState h0 [] []) (erase cs).
Proof. intros S. exact life_safe. Qed.

(** C47. The rule is sharp: the first operation that breaks it is undefined behaviour. *)
Theorem C47_sharp : forall (S : Scalar) part fuel (h0 : list (sphobj S)) cs sc c s,
  scopes (scope0 (length h0)) cs sc -> lrun part fuel (linit h0) cs = Ok s ->
  (forall sc', ~ scoped sc c sc') -> lstep part fuel s c = UB.
Proof. intros S. exact life_out. Qed.

(** C47. Existing batchers show their quadrature, iterators work exactly as long as the batcher they belong to exists
    (not merely as long as the quadrature does). *)
Theorem C47_views : forall (S : Scalar) part fuel (h0 : list (sphobj S)) cs sc s,
  scopes (scope0 (length h0)) cs sc -> lrun part fuel (linit h0) cs = Ok s ->
  (forall v, alive sc v -> lview s v = view (base s) v) /\ (forall v, ~ alive sc v -> lview s v = UB) /\
  (forall k v, valid sc k v -> lderef s k = iter_deref (base s) k) /\ (forall k, (forall v, ~ valid sc k v) -> lderef s k = UB).
Proof. intros S. exact life_views. Qed.

(** C47. Destroying a batcher changes nothing for the others and their iterators. *)
Theorem C47_others_survive : forall (S : Scalar) part fuel (h0 : list (sphobj S)) cs sc s u s',
  scopes (scope0 (length h0)) cs sc -> lrun part fuel (linit h0) cs = Ok s ->
  lstep part fuel s (LDestroy u) = Ok s' -> forall v, v <> u ->
  lview s' v = lview s v /\ (forall k, nth_error (sc_own sc) k = Some v -> lderef s' k = lderef s k).
Proof. intros S. exact life_others. Qed.

(** C47. The use count of a quadrature is the number of existing batchers that share it, plus one while the caller
    holds it. *)
Theorem C47_use_count : forall (S : Scalar) part fuel (h0 : list (sphobj S)) cs sc s a,
  scopes (scope0 (length h0)) cs sc -> lrun part fuel (linit h0) cs = Ok s -> a < length (heap (base s)) ->
  exists l, sharers sc (base s) a l /\
    vget (cnt s) a = Ok (length l + if in_dec Nat.eq_dec a (sc_held sc) then 1 else 0).
Proof. intros S. exact life_count. Qed.

(** C47. A quadrature, and so every reference obtained from quadrature(), points() or weights(), is usable exactly as
    long as a batcher shares it or the caller holds it. *)
Theorem C47_object_lifetime : forall (S : Scalar) part fuel (h0 : list (sphobj S)) cs sc s a,
  scopes (scope0 (length h0)) cs sc -> lrun part fuel (linit h0) cs = Ok s -> a < length (heap (base s)) ->
  (obj_ok s a = Ok tt <-> (In a (sc_held sc) \/ exists v, shares sc (base s) a v)) /\
  (obj_ok s a = UB <-> (~ In a (sc_held sc) /\ forall v, ~ shares sc (base s) a v)).
Proof. intros S. exact life_object. Qed.

(** C47. Nothing leaks: when all batchers are destroyed and the caller holds nothing, no quadrature is left. *)
Theorem C47_no_leak : forall (S : Scalar) part fuel (h0 : list (sphobj S)) cs sc s,
  scopes (scope0 (length h0)) cs sc -> lrun part fuel (linit h0) cs = Ok s ->
  (forall v, ~ alive sc v) -> sc_held sc = [] -> cnt s = repeat 0 (length (heap (base s))).
Proof. intros S. exact life_no_leak. Qed.

(** C47. A copy that keeps the quadrature does not keep the iterators of the original: batcher 1, a copy of 0, still
    shows the points, yet dereferencing an iterator of the destroyed batcher 0 is undefined behaviour. *)
Theorem C47_copy_keeps_iterators_refuted : exists (cs : list (lop QS)) sc s o,
  scopes (scope0 0) cs sc /\ lrun stable_partition 9 (linit []) cs = Ok s /\
  lview s 1 = Ok o /\ iter_deref (base s) 0 <> UB /\ lderef s 0 = UB.
Proof. exact dangling. Qed.

(** A quadrature shared by the caller; the batcher is moved, the moved-from one destroyed, the caller lets go, a copy
    is made, and the iterator taken first goes on to batch 1. Use counts 2, later 0; then the two ways to break the rule. *)
Example C47_case : scopes (S := QS) (scope0 1) life_prog (mkScope 3 [0] [1] []) /\
  (let* s := lrun stable_partition 9 (linit [exo]) life_prog in
   let* b := lderef s 0 in Ok (cnt s, snd (snd b) : list Q)) = Ok ([2], [2; 4; 5]%Q) /\
  (let* s := lrun stable_partition 9 (linit [exo]) (life_prog ++ [LDestroy 2; LDestroy 1]) in Ok (cnt s)) = Ok [0] /\
  (let* s := lrun stable_partition 9 (linit [exo]) (life_prog ++ [LDestroy 1]) in lderef s 0) = UB /\
  lrun stable_partition 9 (linit [exo]) (life_prog ++ [LDestroy 0]) = UB.
Proof. exact life_ex. Qed.

Print Assumptions C47_safe.
Print Assumptions C47_sharp.
Print Assumptions C47_views.
Print Assumptions C47_others_survive.
Print Assumptions C47_use_count.
Print Assumptions C47_object_lifetime.
Print Assumptions C47_no_leak.
Print Assumptions C47_copy_keeps_iterators_refuted.
