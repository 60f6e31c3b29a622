(** Concrete programs with destruction. *)
From Coq Require Import List Arith Bool ZArith QArith Lia.
From Verif Require Import Base.Outcome Base.Scalar Base.QScalar Model.Quadrature Model.S2 Model.Composite Model.Batcher
  Model.Heap Model.Lifetime Spec.LifetimeSpec Proofs.BatchEx.
Import ListNotations.
Local Open Scope nat_scope.

Ltac scoping := repeat (first
  [ apply sc_nil | eapply sc_cons | apply sc_new | apply sc_newidx
  | apply sc_shared; cbn; tauto | apply sc_sharedidx; cbn; tauto
  | apply sc_copy | apply sc_clone | apply sc_move | apply sc_recenter | apply sc_begin | apply sc_end
  | eapply sc_inc | apply sc_destroy | apply sc_drop; cbn; tauto ]);
  try (split; cbn; [lia|intuition lia]); try (split; [reflexivity|split; cbn; [lia|intuition lia]]).

(** An iterator of a destroyed batcher, while a copy keeps the quadrature. *)
Definition dangling_prog : list (lop QS) := [LOp (OpNewIdx 8 exo [0; 2; 5]); LOp (OpCopy 0); LOp (OpBegin 0); LDestroy 0].
Lemma dangling : exists (cs : list (lop QS)) sc s o, scopes (scope0 0) cs sc /\ lrun stable_partition 9 (linit []) cs = Ok s /\
  lview s 1 = Ok o /\ iter_deref (base s) 0 <> UB /\ lderef s 0 = UB.
Proof.
  assert (F : (let* s := lrun stable_partition 9 (linit []) dangling_prog in
               Ok (match lview s 1, iter_deref (base s) 0, lderef s 0 with Ok _, Ok _, UB => true | _, _, _ => false end)) = Ok true)
    by (vm_compute; reflexivity).
  destruct (lrun stable_partition 9 (linit []) dangling_prog) as [s| | | |] eqn:E; try discriminate F.
  cbn [bind] in F. destruct (lview s 1) as [o| | | |] eqn:V; try discriminate F.
  destruct (iter_deref (base s) 0) as [d| | | |] eqn:D; try discriminate F. destruct (lderef s 0) eqn:L; try discriminate F.
  exists dangling_prog. eexists. exists s, o. split; [unfold scope0, dangling_prog; cbn [length seq]; scoping|].
  split; [exact E|]. split; [exact V|]. split; [rewrite D; discriminate|exact L].
Qed.

(** Moved-from batchers may go: the iterator follows the new owner. Two owners besides the caller, who lets go first. *)
Definition life_prog : list (lop QS) :=
  [LOp (OpNewSharedIdx 8 0 [0; 2; 5]); LOp (OpBegin 0); LOp (OpMove 0); LDestroy 0; LDrop 0; LOp (OpCopy 1); LOp (OpInc 0)].
Lemma life_ex : scopes (S := QS) (scope0 1) life_prog (mkScope 3 [0] [1] []) /\
  (let* s := lrun stable_partition 9 (linit [exo]) life_prog in
   let* b := lderef s 0 in Ok (cnt s, snd (snd b) : list Q)) = Ok ([2], [2; 4; 5]%Q) /\
  (let* s := lrun stable_partition 9 (linit [exo]) (life_prog ++ [LDestroy 2; LDestroy 1]) in Ok (cnt s)) = Ok [0] /\
  (let* s := lrun stable_partition 9 (linit [exo]) (life_prog ++ [LDestroy 1]) in lderef s 0) = UB /\
  lrun stable_partition 9 (linit [exo]) (life_prog ++ [LDestroy 0]) = UB.
Proof.
  split; [unfold scope0, life_prog; cbn [length seq]; scoping; cbn; try apply sc_nil|].
  repeat split; vm_compute; reflexivity.
Qed.
