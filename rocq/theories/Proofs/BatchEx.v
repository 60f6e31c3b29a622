(** A conforming std::partition and worked cases for the batcher theorems. *)
From Coq Require Import List Bool Arith ZArith QArith Lia Permutation Reals Lra.
From Flocq Require Import IEEE754.BinarySingleNaN.
From Verif Require Import Base.Outcome Base.Scalar Base.QScalar Base.RScalar Base.FScalar
  Model.Quadrature Model.S2 Model.Composite Model.Batcher Model.Heap
  Spec.QuadSpec Spec.Sums Spec.SphereSpec Spec.BatchSpec Spec.HeapSpec
  Proofs.Sizes Proofs.BatchProps Proofs.BatchFloat Proofs.BatchAccess.
Import ListNotations.
Local Open Scope nat_scope.

Definition stable_partition {A} (f : A -> bool) (l : list A) : list A :=
  filter f l ++ filter (fun e => negb (f e)) l.

Lemma stable_conforming : forall S : Scalar, @conforming S stable_partition.
Proof.
  intros S f l. split.
  - unfold stable_partition. induction l as [|x l IH]; simpl; auto. destruct (f x); simpl.
    + constructor. auto.
    + rewrite <- Permutation_middle. constructor. auto.
  - exists (filter f l), (filter (fun e => negb (f e)) l). split; auto.
    split; apply Forall_forall; intros x Hx; apply filter_In in Hx; destruct Hx; auto.
    destruct (f x); auto; discriminate.
Qed.

Definition exo : sphobj QS :=
  mkSph (mkQuad [(0, 0, 0); (1, 0, 0); ((-1) # 1, 0, 0); (1 # 2, 1, 0); (1, 1, 1)]%Q [1; 3; 2; 4; 5]%Q)
        (0, 0, 0)%Q.

Lemma exo_batches : sized 5 (sph_quad exo) /\
  (let* (o, idx) := batch_object stable_partition 10 2 exo in
   Ok (qpoints (sph_quad o) : list (Q * Q * Q), qweights (sph_quad o) : list Q, idx))
  = Ok ([((-1) # 1, 0, 0); (0, 0, 0); (1, 0, 0); (1 # 2, 1, 0); (1, 1, 1)]%Q,
        [2; 1; 3; 4; 5]%Q, [0; 1; 2; 3; 4; 5]).
Proof. split; [apply sized_intro; reflexivity|]. vm_compute. reflexivity. Qed.

Lemma splits_ex : splits 5 [0; 1; 2; 3; 4; 5].
Proof.
  split; [reflexivity|]. split; [reflexivity|]. intros a x y b E.
  do 5 (destruct a as [|? a]; [injection E as <- <- <-; lia|injection E as <- E]).
  destruct a as [|? [|? a]]; discriminate.
Qed.

Lemma at_ex : sized 5 (sph_quad exo) /\ splits 5 [0; 2; 5] /\
  (let* b := batch_at exo [0; 2; 5] 0 in
   Ok (fst b : (Q * Q * Q) * (Q * Q * Q), fst (snd b) : list (Q * Q * Q), snd (snd b) : list Q))
  = Ok (((0, 0, 0), (1, 0, 0)), [(0, 0, 0); (1, 0, 0)], [1; 3])%Q.
Proof.
  split; [apply sized_intro; reflexivity|]. split; [|vm_compute; reflexivity].
  split; [reflexivity|]. split; [reflexivity|]. intros a x y b E.
  do 2 (destruct a as [|? a]; [injection E as <- <- <-; lia|injection E as <- E]).
  destruct a as [|? [|? a]]; discriminate.
Qed.

Lemma heap_ex :
  let c := (7, 0, 0)%Q in
  let init := [OpNewIdx 8 exo [0; 5]; OpClone 0] in
  let cs := [OpCopy 1; OpMove 1; OpRecenter 2 c] in
  let cs' := [OpCopy 0; OpRecenter 2 c; OpMove 1] in
  only_touches (S:=QS) 2 1 [1] cs /\ leaves_alone (S:=QS) 2 1 [1] cs' /\
  aliases (S:=QS) 2 1 [1] cs' = [3] /\
  (let* s := run (S:=QS) stable_partition 9 (mkState [] [] []) (init ++ cs) in
   let* a := view s 0 in let* d := view s 2 in let* e := view s 3 in
   Ok (sph_center a : Q * Q * Q, sph_center d : Q * Q * Q, sph_center e : Q * Q * Q))
  = Ok ((0, 0, 0), (7, 0, 0), (7, 0, 0))%Q /\
  (let* s := run (S:=QS) stable_partition 9 (mkState [] [] []) (init ++ cs') in
   let* a := view s 0 in let* d := view s 2 in let* e := view s 3 in
   Ok (sph_center a : Q * Q * Q, sph_center d : Q * Q * Q, sph_center e : Q * Q * Q))
  = Ok ((7, 0, 0), (7, 0, 0), (0, 0, 0))%Q.
Proof.
  cbv zeta. split; [|split; [|split; [reflexivity|split; vm_compute; reflexivity]]].
  - simpl. repeat split; try discriminate. intros v E. injection E as <-. right; left; auto.
  - simpl. repeat split; try discriminate. intros v E. injection E as <-. intros [E|[]]; discriminate.
Qed.

Lemma copy_ex :
  let prog := [OpNewIdx 8 exo [0; 5]; OpCopy 0; OpClone 0; OpSetWeight 0 1 (9%Q : QS)] in
  (let* s := run (S:=QS) stable_partition 9 (mkState [] [] []) prog in
   let* a := view s 0 in let* d := view s 1 in let* e := view s 2 in
   Ok (qweights (sph_quad a) : list Q, qweights (sph_quad d) : list Q, qweights (sph_quad e) : list Q))
  = Ok ([1; 9; 2; 4; 5]%Q, [1; 9; 2; 4; 5]%Q, [1; 3; 2; 4; 5]%Q).
Proof. vm_compute. reflexivity. Qed.

(** Batcher 0 with an iterator at its second batch; the quadrature is recentred and the
    batcher moved (to variable 1) before the iterator is read. *)
Lemma iter_ex :
  let c := (7, 0, 0)%Q in
  let cs := [OpInc 0; OpRecenter 0 c; OpMove 0] in
  owner (S:=QS) 1 0 cs = 1 /\ travel (S:=QS) 0 cs = 1%Z /\
  (let* s := run (S:=QS) stable_partition 9 (mkState [] [] []) ([OpNewIdx 8 exo [0; 2; 5]; OpBegin 0] ++ cs) in
   let* b := iter_deref s 0 in
   Ok (fst (snd b) : list (Q * Q * Q), snd (snd b) : list Q))
  = Ok ([(6, 0, 0); (15 # 2, 1, 0); (8, 1, 1)]%Q, [2; 4; 5]%Q).
Proof. split; [reflexivity|]. split; [reflexivity|]. vm_compute. reflexivity. Qed.

Lemma loop_ex :
  (let* s := run (S:=QS) stable_partition 9 (mkState [] [] []) [OpNewIdx 8 exo [0; 2; 5]; OpBegin 0; OpEnd 0] in
   let* (s', bs) := iter_loop 3 s 0 1 [] in
   Ok (map (fun b => snd (snd b)) bs : list (list Q)))
  = Ok [[1; 3]; [2; 4; 5]]%Q.
Proof. vm_compute. reflexivity. Qed.

Lemma plus_ex :
  (let* s := run (S:=QS) stable_partition 9 (mkState [] [] []) [OpNewIdx 8 exo [0; 2; 5]; OpBegin 0] in
   let* s' := step stable_partition 9 s (OpPlus 0 1) in
   let* b := iter_deref s 0 in let* b' := iter_deref s' 0 in let* e := iter_deref s' 1 in
   Ok (snd (snd b) : list Q, snd (snd b') : list Q, snd (snd e) : list Q))
  = Ok ([1; 3]%Q, [2; 4; 5]%Q, [2; 4; 5]%Q).
Proof. vm_compute. reflexivity. Qed.

Lemma plus_not_pure : exists (cs : list (op QS)) s s1,
  run stable_partition 9 (mkState [] [] []) cs = Ok s /\
  step stable_partition 9 s (OpPlus 0 1) = Ok s1 /\ iter_deref s1 0 <> iter_deref s 0.
Proof.
  pose proof plus_ex as F.
  destruct (run (S:=QS) stable_partition 9 (mkState [] [] []) [OpNewIdx 8 exo [0; 2; 5]; OpBegin 0]) as [s| | | |] eqn:E; try discriminate F.
  cbn [bind] in F. destruct (step stable_partition 9 s (OpPlus 0 1)) as [s1| | | |] eqn:E1; try discriminate F. cbn [bind] in F.
  exists [OpNewIdx 8 exo [0; 2; 5]; OpBegin 0], s, s1. split; [exact E|]. split; [exact E1|].
  intro X. rewrite X in F. destruct (iter_deref s 0) as [b| | | |]; try discriminate F. cbn [bind] in F.
  destruct (iter_deref s1 1) as [e| | | |]; try discriminate F. cbn [bind] in F. injection F as F1 F2 _. rewrite F1 in F2. discriminate F2.
Qed.

(** One batch per point for 2^31 + 1 points. *)
Lemma splits_seq : forall n, splits n (seq 0 (Datatypes.S n)).
Proof.
  intro n. split; [reflexivity|]. split.
  - rewrite seq_S, last_last. reflexivity.
  - intros a x y b E.
    assert (X : nth_error (seq 0 (Datatypes.S n)) (length a) = Some x)
      by (rewrite E, nth_error_app2, Nat.sub_diag by lia; reflexivity).
    assert (Y : nth_error (seq 0 (Datatypes.S n)) (length a + 1) = Some y)
      by (rewrite E, nth_error_app2 by lia; replace (length a + 1 - length a) with 1 by lia; reflexivity).
    assert (LX : length a < Datatypes.S n) by (rewrite <- (seq_length (Datatypes.S n) 0); apply nth_error_Some; congruence).
    assert (LY : length a + 1 < Datatypes.S n) by (rewrite <- (seq_length (Datatypes.S n) 0); apply nth_error_Some; congruence).
    apply (nth_error_nth _ _ 0) in X. apply (nth_error_nth _ _ 0) in Y.
    rewrite seq_nth in X, Y by lia. lia.
Qed.

Lemma wrap_witness : forall (S : Scalar) (p : @pt3 S) (w : S), exists n (o : sphobj S) idx i,
  sized n (sph_quad o) /\ splits n idx /\ nbatches idx = Some n /\ i < n /\ batch_at o idx i = UB.
Proof.
  intros S p w. remember (Z.to_nat (2 ^ 31)) as i eqn:Ei.
  assert (Hi : Z.of_nat i = (2 ^ 31)%Z) by (rewrite Ei; apply Z2Nat.id; lia).
  clear Ei. exists (Datatypes.S i), (mkSph (mkQuad (repeat p (Datatypes.S i)) (repeat w (Datatypes.S i))) p),
    (seq 0 (Datatypes.S (Datatypes.S i))), i.
  split; [apply sized_intro; apply repeat_length|]. split; [apply splits_seq|].
  assert (L : length (seq 0 (Datatypes.S (Datatypes.S i))) - 1 = Datatypes.S i) by (rewrite seq_length; lia).
  split; [rewrite (splits_nb _ _ (splits_seq (Datatypes.S i))), L; reflexivity|].
  split; [lia|]. apply (batch_at_wrap (Datatypes.S i)); [apply splits_seq|lia|lia].
Qed.

Lemma coincide_ex : coincide_at_most 1 ([((0, 0, 0), 1); ((0, 0, 1), 1); ((2, 0, 0), 3)]%R : list (pw RS)).
Proof.
  intros p K l HP HK. destruct K as [|x [|y K]]; simpl; try lia. exfalso.
  inversion HK as [|? ? Hx HK']; subst. inversion HK' as [|? ? Hy _]; subst.
  assert (ND : NoDup (map fst (([((0, 0, 0), 1); ((0, 0, 1), 1); ((2, 0, 0), 3)]%R) : list (pw RS)))).
  { simpl. repeat constructor; simpl; intros H; repeat destruct H as [H|H]; try contradiction;
      injection H; intros; lra. }
  apply (Permutation_NoDup (Permutation_map fst HP)) in ND. simpl in ND.
  inversion ND as [|? ? Hn _]. apply Hn. left. auto.
Qed.
Lemma coincide_zero_ex : ~ coincide_at_most 0 ([((0, 0, 0), 1)]%R : list (pw RS)).
Proof.
  intro H. specialize (H (0, 0, 0)%R [((0, 0, 0), 1)%R] []). simpl in H.
  assert (1 <= 0); [|lia]. apply H; auto.
Qed.

Lemma binary64_stuck : exists a b c : (F64 * F64 * F64) * F64,
  NoDup (map (fun e => (B2SF (fst (fst (fst e))), B2SF (snd (fst (fst e))), B2SF (snd (fst e)))) [a; b; c]) /\
  Forall (fun e => is_finite (fst (fst (fst e))) = true /\ is_finite (snd (fst (fst e))) = true
                   /\ is_finite (snd (fst e)) = true) [a; b; c] /\
  forall m part, @conforming (FS m) part ->
  forall fuel, generate_batches (S:=FS m) part fuel 1 [a; b; c] = OutOfFuel.
Proof.
  exists pA, pB, pC. split; [|split].
  - vm_compute. repeat constructor; simpl; intros H; repeat destruct H as [H|H]; try contradiction;
      discriminate H.
  - repeat constructor.
  - intros m part Hc fuel. apply ABC_stuck. auto.
Qed.

Lemma batches_are_all : forall (S : Scalar) part, @conforming S part ->
  forall good, order_laws good ->
  forall n fuel maxsz (o o' : sphobj S) idx, sized n (sph_quad o) ->
  Forall (coords good) (qpoints (sph_quad o)) ->
  batch_object part fuel maxsz o = Ok (o', idx) ->
  Permutation (concat (pieces idx (nodes (sph_quad o')))) (nodes (sph_quad o)).
Proof.
  intros S part Hc good laws n fuel maxsz o o' idx HS Hg H.
  destruct (batch_object_spec part Hc good laws _ _ _ _ _ _ HS Hg H) as (_ & E & _).
  rewrite E. apply (batch_object_perm part Hc _ _ _ _ _ _ HS H).
Qed.
