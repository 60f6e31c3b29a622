(** C24-C29, C39: micro-batching. Statements hold for every scalar type unless RS (exact
    arithmetic) or FS (binary64) is named, and for every conforming std::partition. *)
From Coq Require Import List Bool Arith ZArith QArith Lia Permutation Reals.
From Flocq Require Import IEEE754.BinarySingleNaN.
From Verif Require Import Base.Outcome Base.Scalar Base.QScalar Base.RScalar Base.FScalar
  Model.Quadrature Model.S2 Model.Composite Model.Batcher Model.Heap
  Spec.QuadSpec Spec.Sums Spec.SphereSpec Spec.BatchSpec Spec.HeapSpec
  Proofs.FloatFacts Proofs.BatchProps Proofs.BatchFloat Proofs.BatchAccess Proofs.HeapFacts
  Proofs.BatchEx.
Import ListNotations.
Local Open Scope nat_scope.

(** ** C24 *)
Theorem C24_permutation : forall (S : Scalar) part, @conforming S part ->
  forall n fuel maxsz (o o' : sphobj S) idx, sized n (sph_quad o) ->
  batch_object part fuel maxsz o = Ok (o', idx) ->
  Permutation (nodes (sph_quad o')) (nodes (sph_quad o)) /\ sph_center o' = sph_center o /\
  sized n (sph_quad o').
Proof. intros S. exact batch_object_perm. Qed.

(** The batches in order are the whole grid: nothing is lost between them. *)
Theorem C24_batches_are_all : forall (S : Scalar) part, @conforming S part ->
  forall good, order_laws good ->
  forall n fuel maxsz (o o' : sphobj S) idx, sized n (sph_quad o) ->
  Forall (coords good) (qpoints (sph_quad o)) ->
  batch_object part fuel maxsz o = Ok (o', idx) ->
  Permutation (concat (pieces idx (nodes (sph_quad o')))) (nodes (sph_quad o)).
Proof. exact batches_are_all. Qed.

(** The laws hold in exact arithmetic for all points and in binary64 for all points
    without NaN coordinates (infinities and overflowing extents included). *)
Theorem C24_laws_exact : @order_laws RS (fun _ => True).
Proof. exact real_laws. Qed.
Theorem C24_laws_binary64 : forall m, @order_laws (FS m) (fun x : F64 => is_nan x = false).
Proof. exact float_laws. Qed.

Theorem C24_integral : forall part, @conforming RS part ->
  forall n fuel maxsz (o o' : sphobj RS) idx (f : @pt3 RS -> R), sized n (sph_quad o) ->
  batch_object part fuel maxsz o = Ok (o', idx) ->
  integrate f (sph_quad o') = integrate f (sph_quad o).
Proof. exact batch_object_integrate. Qed.

Example C24_conforming_ex : forall S : Scalar, @conforming S stable_partition.
Proof. exact stable_conforming. Qed.
Example C24_ex : sized 5 (sph_quad exo) /\
  (let* (o, idx) := batch_object stable_partition 10 2 exo in
   Ok (qpoints (sph_quad o) : list (Q * Q * Q), qweights (sph_quad o) : list Q, idx))
  = Ok ([((-1) # 1, 0, 0); (0, 0, 0); (1, 0, 0); (1 # 2, 1, 0); (1, 1, 1)]%Q,
        [2; 1; 3; 4; 5]%Q, [0; 1; 2; 3; 4; 5]).
Proof. exact exo_batches. Qed.

(** ** C25 *)
Theorem C25_sizes : forall (S : Scalar) part, @conforming S part ->
  forall good, order_laws good ->
  forall n fuel maxsz (o o' : sphobj S) idx, sized n (sph_quad o) ->
  Forall (coords good) (qpoints (sph_quad o)) ->
  batch_object part fuel maxsz o = Ok (o', idx) ->
  splits n idx /\
  concat (pieces idx (nodes (sph_quad o'))) = nodes (sph_quad o') /\
  concat (pieces idx (qpoints (sph_quad o'))) = qpoints (sph_quad o') /\
  concat (pieces idx (qweights (sph_quad o'))) = qweights (sph_quad o') /\
  Forall (fun b => 1 <= length b <= maxsz) (pieces idx (qpoints (sph_quad o'))).
Proof. intros S. exact batch_object_spec. Qed.

Example C25_ex : splits 5 [0; 1; 2; 3; 4; 5] /\
  pieces [0; 2; 5] [10; 20; 30; 40; 50] = [[10; 20]; [30; 40; 50]].
Proof. split; [apply splits_ex|reflexivity]. Qed.

(** ** C26 *)
Theorem C26_box : forall (S : Scalar) good, @order_laws S good ->
  forall (ps : list (@pt3 S)) lo up, Forall (coords good) ps ->
  get_box_bounds ps = Ok (lo, up) ->
  Forall (inside lo up) ps /\
  (forall k, k < 3 -> (exists p, In p ps /\ coord k p = coord k lo) /\
                      (exists p, In p ps /\ coord k p = coord k up)) /\
  (forall lo' up', Forall (inside lo' up') ps -> inside lo' up' lo /\ inside lo' up' up).
Proof. intros S. exact box_tight. Qed.

(** Every batch is non-empty, so every batch has a box. *)
Theorem C26_box_exists : forall (S : Scalar) (ps : list (@pt3 S)), ps <> [] ->
  exists lo up, get_box_bounds ps = Ok (lo, up).
Proof. intros S. exact Proofs.RefineFacts.box_bounds_total. Qed.

Example C26_ex : get_box_bounds (S:=QS) [(1, 5, 2); (3, 4, 0); (2, 7, 1)]%Q
  = Ok ((1, 4, 0), (3, 7, 2))%Q.
Proof. vm_compute. reflexivity. Qed.

(** ** C27 *)
(** Exact arithmetic: batching a non-empty grid ends exactly when no more than
    max_batch_size of its points coincide; npts iterations then suffice. *)
Theorem C27_terminates_iff : forall part, @conforming RS part ->
  forall maxsz (q : list (pw RS)), q <> [] ->
  ((exists fuel q' idx, generate_batches part fuel maxsz q = Ok (q', idx))
     <-> coincide_at_most maxsz q) /\
  (~ coincide_at_most maxsz q -> forall fuel, generate_batches part fuel maxsz q = OutOfFuel).
Proof. exact generate_terminates_iff. Qed.

Theorem C27_iterations : forall part, @conforming RS part ->
  forall maxsz (q : list (pw RS)), q <> [] -> coincide_at_most maxsz q ->
  exists q' idx, forall fuel, length q <= fuel ->
    generate_batches part fuel maxsz q = Ok (q', idx).
Proof. exact generate_terminates. Qed.

(** Whatever the arithmetic, a non-empty grid causes no undefined behaviour or
    exception; the empty grid does. *)
Theorem C27_outcomes : forall (S : Scalar) part, @conforming S part ->
  forall fuel maxsz (q : list (pw S)), q <> [] ->
  generate_batches part fuel maxsz q = OutOfFuel \/
  exists q' idx, generate_batches part fuel maxsz q = Ok (q', idx).
Proof. intros S. exact generate_outcomes. Qed.
Theorem C27_empty_refuted : forall (S : Scalar) part, @conforming S part ->
  forall fuel maxsz, generate_batches part fuel maxsz ([] : list (pw S)) = UB.
Proof. intros S part _. exact (generate_empty part). Qed.

(** Any arithmetic satisfying the order laws (so also binary64): too many coincident
    points never end. *)
Theorem C27_coincident_forever : forall (S : Scalar) part, @conforming S part ->
  forall good, order_laws good ->
  forall fuel maxsz q K l (p : @pt3 S),
  Forall (fun e : pw S => coords good (fst e)) q ->
  Permutation q (K ++ l) -> Forall (fun e : pw S => fst e = p) K -> maxsz < length K ->
  generate_batches part fuel maxsz q = OutOfFuel.
Proof. intros S. exact generate_stuck. Qed.

(** binary64: three distinct finite points and a limit of one never end. *)
Theorem C27_binary64_refuted : exists a b c : (F64 * F64 * F64) * F64,
  NoDup (map (fun e => (B2SF (fst (fst (fst e))), B2SF (snd (fst (fst e))), B2SF (snd (fst e)))) [a; b; c]) /\
  Forall (fun e => is_finite (fst (fst (fst e))) = true /\ is_finite (snd (fst (fst e))) = true
                   /\ is_finite (snd (fst e)) = true) [a; b; c] /\
  forall m part, @conforming (FS m) part ->
  forall fuel, generate_batches (S:=FS m) part fuel 1 [a; b; c] = OutOfFuel.
Proof. exact binary64_stuck. Qed.

Example C27_ex : coincide_at_most 1 ([((0, 0, 0), 1); ((0, 0, 1), 1); ((2, 0, 0), 3)]%R : list (pw RS)).
Proof. exact coincide_ex. Qed.
Example C27_zero_ex : ~ coincide_at_most 0 ([((0, 0, 0), 1)]%R : list (pw RS)).
Proof. exact coincide_zero_ex. Qed.

(** ** C28 *)
(** [w] is the clone of [v], in the fresh address [a]; [cs] is any later program. *)
Theorem C28_clone_independent : forall (S : Scalar) part fuel h0 cs0 (s : state S) v s1 cs s2,
  run part fuel (mkState h0 [] []) cs0 = Ok s ->
  step part fuel s (OpClone v) = Ok s1 -> run part fuel s1 cs = Ok s2 ->
  let w := length (vars s) in let a := length (heap s) in
  view s1 w = view s v /\
  (leaves_alone (w + 1) a [w] cs ->
     forall u, In u (aliases (w + 1) a [w] cs) -> view s2 u = view s v) /\
  (only_touches (w + 1) a [w] cs ->
     forall u, u < w -> ~ In (OpMove u) cs -> view s2 u = view s u).
Proof. intros S. exact clone_independent. Qed.

(** [w] is a copy of [v]: as long as neither is moved from, both see every change made
    through either. *)
Theorem C28_copy_shares : forall (S : Scalar) part fuel (s : state S) v s1 cs s2,
  step part fuel s (OpCopy v) = Ok s1 -> run part fuel s1 cs = Ok s2 ->
  let w := length (vars s) in
  ~ In (OpMove v) cs -> ~ In (OpMove w) cs ->
  view s2 w = view s2 v /\
  (forall c s3, step part fuel s2 (OpRecenter v c) = Ok s3 ->
    exists o o', view s2 w = Ok o /\ recenter c o = Ok o' /\
      view s3 w = Ok o' /\ view s3 v = Ok o') /\
  (forall i p s3, step part fuel s2 (OpSetPoint v i p) = Ok s3 ->
    exists o o', view s2 w = Ok o /\ view s3 w = Ok o' /\ view s3 v = Ok o' /\
      vset (qpoints (sph_quad o)) i p = Ok (qpoints (sph_quad o')) /\
      qweights (sph_quad o') = qweights (sph_quad o) /\ sph_center o' = sph_center o) /\
  (forall i x s3, step part fuel s2 (OpSetWeight v i x) = Ok s3 ->
    exists o o', view s2 w = Ok o /\ view s3 w = Ok o' /\ view s3 v = Ok o' /\
      vset (qweights (sph_quad o)) i x = Ok (qweights (sph_quad o')) /\
      qpoints (sph_quad o') = qpoints (sph_quad o) /\ sph_center o' = sph_center o).
Proof. intros S. exact copy_shares. Qed.

Example C28_ex :
  let c := (7, 0, 0)%Q in
  let init := [OpNewIdx 8 exo [0; 5]; OpClone 0] in
  let cs := [OpCopy 1; OpMove 1; OpRecenter 2 c] in
  let cs' := [OpCopy 0; OpRecenter 2 c; OpMove 1] in
  only_touches (S:=QS) 2 1 [1] cs /\ leaves_alone (S:=QS) 2 1 [1] cs' /\
  aliases (S:=QS) 2 1 [1] cs' = [3] /\
  (let* s := run (S:=QS) stable_partition 9 (mkState [] [] []) (init ++ cs) in
   let* a := view s 0 in let* d := view s 2 in let* e := view s 3 in
   Ok (sph_center a : Q * Q * Q, sph_center d : Q * Q * Q, sph_center e : Q * Q * Q))
  = Ok ((0, 0, 0), (7, 0, 0), (7, 0, 0))%Q /\
  (let* s := run (S:=QS) stable_partition 9 (mkState [] [] []) (init ++ cs') in
   let* a := view s 0 in let* d := view s 2 in let* e := view s 3 in
   Ok (sph_center a : Q * Q * Q, sph_center d : Q * Q * Q, sph_center e : Q * Q * Q))
  = Ok ((7, 0, 0), (7, 0, 0), (0, 0, 0))%Q.
Proof. exact heap_ex. Qed.
Example C28_copy_ex :
  let prog := [OpNewIdx 8 exo [0; 5]; OpCopy 0; OpClone 0; OpSetWeight 0 1 (9%Q : QS)] in
  (let* s := run (S:=QS) stable_partition 9 (mkState [] [] []) prog in
   let* a := view s 0 in let* d := view s 1 in let* e := view s 2 in
   Ok (qweights (sph_quad a) : list Q, qweights (sph_quad d) : list Q, qweights (sph_quad e) : list Q))
  = Ok ([1; 9; 2; 4; 5]%Q, [1; 9; 2; 4; 5]%Q, [1; 3; 2; 4; 5]%Q).
Proof. exact copy_ex. Qed.

(** ** C29 *)
Theorem C29_at : forall (S : Scalar) n (o : sphobj S) idx, sized n (sph_quad o) -> splits n idx ->
  nbatches idx = Some (length idx - 1) /\
  forall i,
    (length idx - 1 <= i -> batch_at o idx i = Throw ExRuntime) /\
    (i < length idx - 1 -> (Z.of_nat i < 2 ^ 31)%Z ->
       exists box ps ws, batch_at o idx i = Ok (box, (ps, ws)) /\
       get_box_bounds ps = Ok box /\
       nth_error (pieces idx (qpoints (sph_quad o))) i = Some ps /\
       nth_error (pieces idx (qweights (sph_quad o))) i = Some ws).
Proof. intros S. exact batch_at_spec. Qed.

(** The index is cast to int: from batch 2^31 on, at() leaves the index vector. *)
Theorem C29_wrap : forall (S : Scalar) n (o : sphobj S) idx i, splits n idx ->
  (2 ^ 31 <= Z.of_nat i < 2 ^ 32)%Z -> i < length idx - 1 -> batch_at o idx i = UB.
Proof. intros S. exact batch_at_wrap. Qed.
Theorem C29_all_indices_refuted : forall (S : Scalar) (p : @pt3 S) (w : S), exists n (o : sphobj S) idx i,
  sized n (sph_quad o) /\ splits n idx /\ nbatches idx = Some n /\ i < n /\ batch_at o idx i = UB.
Proof. exact wrap_witness. Qed.

Theorem C29_iterate : forall (S : Scalar) n (o : sphobj S) idx, sized n (sph_quad o) -> splits n idx ->
  exists bs, iterate_batches o idx = Ok bs /\ length bs = length idx - 1 /\
    (forall i box ps ws, nth_error bs i = Some (box, (ps, ws)) ->
       get_box_bounds ps = Ok box /\
       nth_error (pieces idx (qpoints (sph_quad o))) i = Some ps /\
       nth_error (pieces idx (qweights (sph_quad o))) i = Some ws) /\
    (forall i b, (Z.of_nat i < 2 ^ 31)%Z -> (nth_error bs i = Some b <-> batch_at o idx i = Ok b)).
Proof. intros S. exact iterate_spec. Qed.

(** A batcher adopted with an empty index vector: any access is undefined behaviour. *)
Theorem C29_empty_index_refuted : forall (S : Scalar) (o : sphobj S) i,
  batch_at o [] i = UB /\ iterate_batches o [] = UB.
Proof. intros S. exact empty_index. Qed.

Example C29_ex : sized 5 (sph_quad exo) /\ splits 5 [0; 2; 5] /\
  (let* b := batch_at exo [0; 2; 5] 0 in
   Ok (fst b : (Q * Q * Q) * (Q * Q * Q), fst (snd b) : list (Q * Q * Q), snd (snd b) : list Q))
  = Ok (((0, 0, 0), (1, 0, 0)), [(0, 0, 0); (1, 0, 0)], [1; 3])%Q.
Proof. exact at_ex. Qed.

(** ** C39 *)
(** The moved-to variable [w] takes over everything [v] held; every other variable and
    every iterator is unaffected; using [v] is undefined behaviour. *)
Theorem C39_move : forall (S : Scalar) part fuel (s : state S) v s1,
  step part fuel s (OpMove v) = Ok s1 ->
  let w := length (vars s) in
  view s1 w = view s v /\ (forall i, var_at s1 w i = var_at s v i) /\
  (forall u, u < w -> u <> v -> view s1 u = view s u /\ forall i, var_at s1 u i = var_at s u i) /\
  (forall k, iter_deref s1 k = iter_deref s k) /\
  view s1 v = UB /\ (forall i, var_at s1 v i = UB) /\
  (forall c, step part fuel s1 (OpRecenter v c) = UB) /\
  step part fuel s1 (OpClone v) = UB /\
  step part fuel s1 (OpBegin v) = UB /\ step part fuel s1 (OpEnd v) = UB.
Proof. intros S. exact move_spec. Qed.

(** Iterator [k] is v.begin() or v.end(). After any program [cs] dereferencing it gives
    the batch, as it is then, at its position in whatever variable now owns what [v] owned. *)
Theorem C39_iterator_live : forall (S : Scalar) part fuel (s : state S) v c s1 cs s2,
  (c = OpBegin v \/ c = OpEnd v) ->
  step part fuel s c = Ok s1 -> run part fuel s1 cs = Ok s2 ->
  let k := length (iters s) in let w := owner (length (vars s)) v cs in
  exists b, vget (vars s2) w = Ok b /\ vget (vars s) v = Ok b /\
  forall p, Z.of_nat p = (Z.of_nat (match c with OpBegin _ => 0 | _ => length (b_idx b) - 1 end) + travel k cs)%Z ->
    p < length (b_idx b) - 1 -> (Z.of_nat p < 2 ^ 31)%Z ->
    iter_deref s2 k = var_at s2 w p.
Proof. intros S. exact iterator_live. Qed.

(** The loop over [begin(), end()) collects exactly the batches of C29_iterate. *)
Theorem C39_loop : forall (S : Scalar) part fuel (s : state S) v s1 s2 n,
  step part fuel s (OpBegin v) = Ok s1 -> step part fuel s1 (OpEnd v) = Ok s2 ->
  exists b, vget (vars s) v = Ok b /\ forall o, view s v = Ok o -> length (b_idx b) <= n ->
  (let* (s', bs) := iter_loop n s2 (length (iters s)) (length (iters s) + 1) [] in Ok bs)
  = iterate_batches o (b_idx b).
Proof. intros S. exact begin_end_loop. Qed.

(** [auto jt = it + d] also moves [it] itself. *)
Theorem C39_plus_moves_operand : forall (S : Scalar) part fuel (s : state S) k d s1,
  step part fuel s (OpPlus k d) = Ok s1 ->
  exists it it', vget (iters s) k = Ok it /\ vget (iters s1) k = Ok it' /\
    vget (iters s1) (length (iters s)) = Ok it' /\
    Z.of_nat (i_pos it') = (Z.of_nat (i_pos it) + d)%Z /\
    iter_deref s1 (length (iters s)) = iter_deref s1 k.
Proof. intros S. exact plus_moves. Qed.
(** It is not the case that [it + d] leaves [it] alone. *)
Theorem C39_plus_pure_refuted : exists (cs : list (op QS)) s s1,
  run stable_partition 9 (mkState [] [] []) cs = Ok s /\
  step stable_partition 9 s (OpPlus 0 1) = Ok s1 /\ iter_deref s1 0 <> iter_deref s 0.
Proof. exact plus_not_pure. Qed.
Example C39_plus_ex :
  (let* s := run (S:=QS) stable_partition 9 (mkState [] [] []) [OpNewIdx 8 exo [0; 2; 5]; OpBegin 0] in
   let* s' := step stable_partition 9 s (OpPlus 0 1) in
   let* b := iter_deref s 0 in let* b' := iter_deref s' 0 in let* e := iter_deref s' 1 in
   Ok (snd (snd b) : list Q, snd (snd b') : list Q, snd (snd e) : list Q))
  = Ok ([1; 3]%Q, [2; 4; 5]%Q, [2; 4; 5]%Q).
Proof. exact plus_ex. Qed.

Example C39_live_ex :
  let c := (7, 0, 0)%Q in
  let cs := [OpInc 0; OpRecenter 0 c; OpMove 0] in
  owner (S:=QS) 1 0 cs = 1 /\ travel (S:=QS) 0 cs = 1%Z /\
  (let* s := run (S:=QS) stable_partition 9 (mkState [] [] []) ([OpNewIdx 8 exo [0; 2; 5]; OpBegin 0] ++ cs) in
   let* b := iter_deref s 0 in
   Ok (fst (snd b) : list (Q * Q * Q), snd (snd b) : list Q))
  = Ok ([(6, 0, 0); (15 # 2, 1, 0); (8, 1, 1)]%Q, [2; 4; 5]%Q).
Proof. exact iter_ex. Qed.
Example C39_loop_ex :
  (let* s := run (S:=QS) stable_partition 9 (mkState [] [] []) [OpNewIdx 8 exo [0; 2; 5]; OpBegin 0; OpEnd 0] in
   let* (s', bs) := iter_loop 3 s 0 1 [] in
   Ok (map (fun b => snd (snd b)) bs : list (list Q)))
  = Ok [[1; 3]; [2; 4; 5]]%Q.
Proof. exact loop_ex. Qed.

Print Assumptions C24_permutation.
Print Assumptions C24_batches_are_all.
Print Assumptions C24_laws_exact.
Print Assumptions C24_laws_binary64.
Print Assumptions C24_integral.
Print Assumptions C25_sizes.
Print Assumptions C26_box.
Print Assumptions C26_box_exists.
Print Assumptions C27_terminates_iff.
Print Assumptions C27_iterations.
Print Assumptions C27_outcomes.
Print Assumptions C27_empty_refuted.
Print Assumptions C27_coincident_forever.
Print Assumptions C27_binary64_refuted.
Print Assumptions C28_clone_independent.
Print Assumptions C28_copy_shares.
Print Assumptions C29_at.
Print Assumptions C29_wrap.
Print Assumptions C29_all_indices_refuted.
Print Assumptions C29_iterate.
Print Assumptions C29_empty_index_refuted.
Print Assumptions C39_move.
Print Assumptions C39_iterator_live.
Print Assumptions C39_loop.
Print Assumptions C39_plus_moves_operand.
Print Assumptions C39_plus_pure_refuted.
