(** Batcher objects: boxes, access, iteration, and histories over a heap. *)
From Coq Require Import List Arith ZArith Lia Permutation Sorted Bool Reals.
From Verif Require Import Base.Outcome Base.OutcomeFacts Base.Scalar Base.RScalar Model.Quadrature
  Model.S2 Model.Composite Model.Batcher Model.Heap Spec.QuadSpec Spec.Sums Spec.SphereSpec
  Spec.BatchSpec Proofs.ListNat Proofs.BatchFacts Proofs.RefineFacts Proofs.Sizes
  Proofs.CompositeProps Proofs.BatchProps.
Import ListNotations.
Local Open Scope nat_scope.

Lemma splits_incr : forall n idx, splits n idx -> incr idx.
Proof.
  intros n idx (_ & _ & H). induction idx as [|x idx IH]; [constructor|].
  constructor.
  - apply IH. intros a u v b E. apply (H (x :: a) u v b). rewrite E. auto.
  - destruct idx as [|y idx]; [constructor|].
    assert (Hxy : x < y) by (apply (H [] x y idx); auto).
    assert (Hi : incr (y :: idx)).
    { apply IH. intros a u v b E. apply (H (x :: a) u v b). rewrite E. auto. }
    inversion Hi as [|? ? _ HF]; subst. constructor; auto.
    eapply Forall_impl; [|exact HF]. intros; simpl in *; lia.
Qed.

Lemma splits_adj : forall n idx i, splits n idx -> i + 1 < length idx ->
  exists st en, nth_error idx i = Some st /\ nth_error idx (i + 1) = Some en /\
    st < en /\ en <= n.
Proof.
  intros n idx i HS Hi. assert (Hinc := splits_incr _ _ HS). destruct HS as (_ & HL & H).
  destruct (nth_error idx i) as [st|] eqn:E1; [|apply nth_error_None in E1; lia].
  destruct (nth_error idx (i + 1)) as [en|] eqn:E2; [|apply nth_error_None in E2; lia].
  exists st, en. split; auto. split; auto.
  apply nth_error_split in E1. destruct E1 as (a & b & -> & La). subst i.
  rewrite nth_error_app2 in E2 by lia. replace (length a + 1 - length a) with 1 in E2 by lia.
  destruct b as [|z b]; [discriminate|]. simpl in E2. injection E2 as ->.
  split; [eapply H; eauto|].
  destruct (@exists_last _ (a ++ st :: en :: b)) as (l & w & E); [destruct a; discriminate|].
  rewrite E, last_last in HL. subst w.
  assert (In en (l ++ [n])) by (rewrite <- E; apply in_or_app; simpl; auto).
  rewrite E in Hinc. apply incr_app in Hinc. destruct Hinc as (_ & _ & Hlt).
  apply in_app_or in H0. destruct H0 as [H0|[->|[]]]; auto. 
  apply Nat.lt_le_incl. apply Hlt; simpl; auto.
Qed.

Lemma pieces_nth : forall {A} idx (l : list A) i st en, nth_error idx i = Some st ->
  nth_error idx (i + 1) = Some en -> nth_error (pieces idx l) i = Some (slice st en l).
Proof.
  induction idx as [|x idx IH]; intros l i st en H1 H2; [destruct i; discriminate|].
  destruct idx as [|y idx].
  - destruct i as [|[|i]]; simpl in *; discriminate.
  - change (pieces (x :: y :: idx) l) with (slice x y l :: pieces (y :: idx) l).
    destruct i as [|i].
    + simpl in *. injection H1 as ->. injection H2 as ->. auto.
    + simpl nth_error at 1. apply IH; auto.
Qed.
Lemma pieces_length : forall {A} idx (l : list A), length (pieces idx l) = length idx - 1.
Proof.
  induction idx as [|x idx IH]; intro l; auto. destruct idx as [|y idx]; auto.
  change (pieces (x :: y :: idx) l) with (slice x y l :: pieces (y :: idx) l).
  cbn [length]. rewrite IH. simpl. lia.
Qed.

Section Access.
Context {S : Scalar}.

Lemma deref_Ok : forall n (o : sphobj S) idx i, sized n (sph_quad o) -> splits n idx ->
  i + 1 < length idx ->
  exists box ps ws, deref_batch o idx i = Ok (box, (ps, ws)) /\
    get_box_bounds ps = Ok box /\
    nth_error (pieces idx (qpoints (sph_quad o))) i = Some ps /\
    nth_error (pieces idx (qweights (sph_quad o))) i = Some ws.
Proof.
  intros n o idx i HS HI Hi. destruct (splits_adj n idx i HI Hi) as (st & en & E1 & E2 & Hlt & Hen).
  destruct HS as (_ & Lp & Lw & _).
  destruct (box_bounds_total (slice st en (qpoints (sph_quad o)))) as (lo & up & EB).
  { intro E. apply (f_equal (@length _)) in E.
    assert (E' : length (slice st en (qpoints (sph_quad o))) = 0) by exact E.
    rewrite slice_length in E' by lia. lia. }
  exists (lo, up), (slice st en (qpoints (sph_quad o))), (slice st en (qweights (sph_quad o))).
  split; [|split; auto; split; apply pieces_nth; auto].
  unfold deref_batch. unfold vget at 1. rewrite E1. cbn [bind].
  unfold vget. rewrite E2. cbn [bind].
  rewrite Lp, Lw. rewrite !(proj2 (Nat.leb_le _ _)) by lia. simpl andb. cbv iota.
  rewrite EB. reflexivity.
Qed.

Lemma to_int32_small : forall i, (Z.of_nat i < 2 ^ 31)%Z -> to_int32 i = Z.of_nat i.
Proof. intros i H. unfold to_int32. rewrite Z.mod_small; lia. Qed.

Lemma batch_at_small : forall (o : sphobj S) idx i, (Z.of_nat i < 2 ^ 31)%Z ->
  batch_at o idx i = match nbatches idx with
    | Some nb => if Nat.leb nb i then Throw ExRuntime else deref_batch o idx i
    | None => deref_batch o idx i end.
Proof.
  intros o idx i H. unfold batch_at. rewrite to_int32_small by auto.
  replace (Z.ltb (Z.of_nat i) 0) with false by (symmetry; apply Z.ltb_ge; lia).
  rewrite Nat2Z.id. reflexivity.
Qed.

Lemma splits_nb : forall n idx, splits n idx -> nbatches idx = Some (length idx - 1).
Proof. intros n idx (H & _). destruct idx; [discriminate|]. reflexivity. Qed.

Lemma batch_at_spec : forall n (o : sphobj S) idx, sized n (sph_quad o) -> splits n idx ->
  nbatches idx = Some (length idx - 1) /\
  forall i,
    (length idx - 1 <= i -> batch_at o idx i = Throw ExRuntime) /\
    (i < length idx - 1 -> (Z.of_nat i < 2 ^ 31)%Z ->
       exists box ps ws, batch_at o idx i = Ok (box, (ps, ws)) /\
       get_box_bounds ps = Ok box /\
       nth_error (pieces idx (qpoints (sph_quad o))) i = Some ps /\
       nth_error (pieces idx (qweights (sph_quad o))) i = Some ws).
Proof.
  intros n o idx HS HI. assert (NB := splits_nb _ _ HI).
  split; auto. intro i. split.
  - intro H. unfold batch_at. rewrite NB. rewrite (proj2 (Nat.leb_le _ _) H). reflexivity.
  - intros H H31. rewrite batch_at_small, NB by auto.
    destruct (Nat.leb_spec (length idx - 1) i); [lia|]. apply (deref_Ok n); auto. lia.
Qed.

(** Batches from number 2^31 on cannot be reached with at(). *)
Lemma batch_at_wrap : forall n (o : sphobj S) idx i, splits n idx ->
  (2 ^ 31 <= Z.of_nat i < 2 ^ 32)%Z -> i < length idx - 1 -> batch_at o idx i = UB.
Proof.
  intros n o idx i HI H Hi. unfold batch_at. rewrite (splits_nb _ _ HI).
  destruct (Nat.leb_spec (length idx - 1) i); [lia|].
  replace (Z.ltb (to_int32 i) 0) with true; [reflexivity|]. symmetry. apply Z.ltb_lt.
  unfold to_int32. replace (Z.of_nat i + 2 ^ 31)%Z with ((Z.of_nat i - 2 ^ 31) + 1 * 2 ^ 32)%Z by lia.
  rewrite Z.mod_add, Z.mod_small; lia.
Qed.

Lemma iterate_spec : forall n (o : sphobj S) idx, sized n (sph_quad o) -> splits n idx ->
  exists bs, iterate_batches o idx = Ok bs /\ length bs = length idx - 1 /\
    (forall i box ps ws, nth_error bs i = Some (box, (ps, ws)) ->
       get_box_bounds ps = Ok box /\
       nth_error (pieces idx (qpoints (sph_quad o))) i = Some ps /\
       nth_error (pieces idx (qweights (sph_quad o))) i = Some ws) /\
    (forall i b, (Z.of_nat i < 2 ^ 31)%Z -> (nth_error bs i = Some b <-> batch_at o idx i = Ok b)).
Proof.
  intros n o idx HS HI.
  assert (NB := splits_nb _ _ HI).
  assert (NE : idx <> []) by (destruct HI as (H & _); destruct idx; [discriminate|easy]).
  assert (G : exists bs, for_range 0 (length idx - 1)
      (fun i acc => let* b := deref_batch o idx i in Ok (acc ++ [b])) [] = Ok bs /\
      length bs = length idx - 1 /\ (forall i, i < length idx - 1 -> exists b,
        nth_error bs i = Some b /\ deref_batch o idx i = Ok b)).
  { apply for_range_ok with (P := fun k bs => length bs = k /\ forall i, i < k -> exists b,
        nth_error bs i = Some b /\ deref_batch o idx i = Ok b).
    - lia.
    - split; auto. intros; lia.
    - intros i bs Hi (L & HA). destruct (deref_Ok n o idx i HS HI) as (box & ps & ws & ED & _); [lia|].
      exists (bs ++ [(box, (ps, ws))]). rewrite ED. split; auto. split.
      + rewrite app_length. simpl. lia.
      + intros j Hj. destruct (Nat.eq_dec j i) as [->|].
        * exists (box, (ps, ws)). split; [rewrite nth_error_app2, <- L, Nat.sub_diag by lia; auto|]. auto.
        * destruct (HA j) as (b & E1 & E2); [lia|]. exists b. split; auto.
          rewrite nth_error_app1 by lia. auto. }
  destruct G as (bs & E & L & HA). exists bs. split.
  { unfold iterate_batches. destruct idx; [easy|]. exact E. }
  split; auto. split.
  - intros i box ps ws H.
    assert (i < length bs) by (apply nth_error_Some; congruence).
    destruct (HA i) as (b' & E1 & E2); [lia|]. rewrite H in E1. injection E1 as <-.
    destruct (deref_Ok n o idx i HS HI) as (box' & ps' & ws' & ED & X); [lia|].
    rewrite E2 in ED. injection ED as <- <- <-. exact X.
  - intros i b H31. rewrite batch_at_small, NB by auto.
    destruct (Nat.leb_spec (length idx - 1) i) as [Hle|Hlt].
    + split; [|discriminate]. intro H.
      assert (i < length bs) by (apply nth_error_Some; congruence). lia.
    + destruct (HA i Hlt) as (b' & E1 & E2). rewrite E1, E2. split; congruence.
Qed.

(** An empty index vector: at(i) and iteration are undefined behaviour. *)
Lemma empty_index : forall (o : sphobj S) i,
  batch_at o [] i = UB /\ iterate_batches o [] = UB.
Proof.
  intros o i. split; [|reflexivity]. unfold batch_at, deref_batch. cbn [nbatches].
  destruct (Z.ltb _ _); [reflexivity|]. unfold vget. destruct (Z.to_nat _); reflexivity.
Qed.

(** Boxes. *)
Variable good : S -> Prop.
Hypothesis laws : order_laws good.
Lemma box_tight : forall (ps : list (@pt3 S)) lo up, Forall (coords good) ps ->
  get_box_bounds ps = Ok (lo, up) ->
  Forall (inside lo up) ps /\
  (forall k, k < 3 -> (exists p, In p ps /\ coord k p = coord k lo) /\
                      (exists p, In p ps /\ coord k p = coord k up)) /\
  (forall lo' up', Forall (inside lo' up') ps -> inside lo' up' lo /\ inside lo' up' up).
Proof.
  intros ps lo up Hg H. destruct (box_bounds_spec good laws ps lo up Hg H) as [H1 H2].
  split; auto. split; auto. intros lo' up' HF. rewrite Forall_forall in HF.
  split; intros k Hk; destruct (H2 k Hk) as [(p & Hp & E) (p' & Hp' & E')].
  - rewrite <- E. apply HF; auto.
  - rewrite <- E'. apply HF; auto.
Qed.
End Access.

(** ** batching a quadrature object *)
Section Object.
Context {S : Scalar}.
Variable part : (pw S -> bool) -> list (pw S) -> list (pw S).
Hypothesis Hconf : conforming part.

Lemma combine_split_fst : forall {A B} (l : list (A * B)), combine (map fst l) (map snd l) = l.
Proof. induction l as [|[a b] l IH]; simpl; auto. rewrite IH. auto. Qed.

Lemma batch_object_perm : forall n fuel maxsz (o o' : sphobj S) idx, sized n (sph_quad o) ->
  batch_object part fuel maxsz o = Ok (o', idx) ->
  Permutation (nodes (sph_quad o')) (nodes (sph_quad o)) /\ sph_center o' = sph_center o /\
  sized n (sph_quad o').
Proof.
  intros n fuel maxsz o o' idx HS H. unfold batch_object in H.
  apply bind_Ok_inv in H. destruct H as ([q' i] & HG & H). injection H as <- <-.
  apply generate_perm in HG; auto. split; [|split; auto].
  - unfold nodes. simpl. rewrite combine_split_fst. auto.
  - destruct HS as (_ & Lp & Lw & _). assert (L := Permutation_length HG).
    assert (L' : length q' = n).
    { rewrite L. etransitivity; [apply combine_length|]. lia. }
    apply sized_intro; simpl; rewrite map_length; exact L'.
Qed.

Variable good : S -> Prop.
Hypothesis laws : order_laws good.

Lemma batch_object_spec : forall n fuel maxsz (o o' : sphobj S) idx, sized n (sph_quad o) ->
  Forall (coords good) (qpoints (sph_quad o)) ->
  batch_object part fuel maxsz o = Ok (o', idx) ->
  splits n idx /\
  concat (pieces idx (nodes (sph_quad o'))) = nodes (sph_quad o') /\
  concat (pieces idx (qpoints (sph_quad o'))) = qpoints (sph_quad o') /\
  concat (pieces idx (qweights (sph_quad o'))) = qweights (sph_quad o') /\
  Forall (fun b => 1 <= length b <= maxsz) (pieces idx (qpoints (sph_quad o'))).
Proof.
  intros n fuel maxsz o o' idx HS Hg H.
  destruct (batch_object_perm n fuel maxsz o o' idx HS H) as (HP & _ & HS').
  unfold batch_object in H.
  apply bind_Ok_inv in H. destruct H as ([q' i] & HG & H). injection H as <- <-. simpl in *.
  assert (Hg' : Forall (fun e : pw S => coords good (fst e))
                  (combine (qpoints (sph_quad o)) (qweights (sph_quad o)))).
  { apply Forall_forall. intros [p w] He. apply in_combine_l in He.
    rewrite Forall_forall in Hg. simpl. auto. }
  assert (HS2 := HS). destruct HS2 as (_ & Lp & Lw & _).
  assert (Ln : length (combine (qpoints (sph_quad o)) (qweights (sph_quad o))) = n).
  { rewrite combine_length. lia. }
  destruct (generate_Ok part Hconf good laws _ _ _ _ _ Hg' HG) as (P & HSp & HC & HB).
  change (@pt3 S * @carrier S)%type with (pw S) in Ln.
  assert (Ln' : length (combine (qpoints (sph_quad o)) (qweights (sph_quad o)) : list (pw S)) = n) by exact Ln.
  rewrite Ln' in HSp. split; auto.
  assert (MP : forall {A B} (f : A -> B) idx l, pieces idx (map f l) = map (map f) (pieces idx l)).
  { intros A B f. induction idx as [|x idx IH]; intro l; auto. destruct idx as [|y idx]; auto.
    change (pieces (x :: y :: idx) (map f l)) with (slice x y (map f l) :: pieces (y :: idx) (map f l)).
    change (pieces (x :: y :: idx) l) with (slice x y l :: pieces (y :: idx) l).
    simpl map. rewrite IH. f_equal. unfold slice. rewrite skipn_map, firstn_map. auto. }
  assert (CM : forall {A B} (f : A -> B) l, concat (map (map f) l) = map f (concat l)).
  { intros. rewrite concat_map. auto. }
  split. { unfold nodes. simpl. rewrite combine_split_fst. exact HC. }
  rewrite !MP, !CM. split; [exact (f_equal (map fst) HC)|].
  split; [exact (f_equal (map snd) HC)|].
  apply Forall_forall. intros b Hb. apply in_map_iff in Hb. destruct Hb as (b' & <- & Hb').
  rewrite map_length. rewrite Forall_forall in HB. exact (HB b' Hb').
Qed.
End Object.

Lemma batch_object_integrate : forall part (Hconf : @conforming RS part) n fuel maxsz (o o' : sphobj RS) idx
  (f : @pt3 RS -> R), sized n (sph_quad o) ->
  batch_object part fuel maxsz o = Ok (o', idx) ->
  integrate f (sph_quad o') = integrate f (sph_quad o).
Proof.
  intros part Hconf n fuel maxsz o o' idx f HS H.
  apply (@batch_object_perm RS part Hconf n) in H; auto. destruct H as (HP & _).
  apply integrate_perm. exact HP.
Qed.
