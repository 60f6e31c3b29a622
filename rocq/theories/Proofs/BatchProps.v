(** Batching: whole-algorithm theorems. *)
From Coq Require Import List Arith ZArith Lia Permutation Sorted Bool Reals Lra.
From Verif Require Import Base.Outcome Base.OutcomeFacts Base.Scalar Base.RScalar Model.Quadrature
  Model.S2 Model.Composite Model.Batcher Spec.QuadSpec Spec.Sums Spec.SphereSpec Spec.BatchSpec
  Proofs.ListNat Proofs.BatchFacts Proofs.RefineFacts Proofs.TraitsFacts Proofs.CompositeProps.
Import ListNotations.
Local Open Scope nat_scope.

Lemma firstn_skipn_slice : forall {A} i j (l : list A), firstn (j - i) (skipn i l) = slice i j l.
Proof. reflexivity. Qed.

Lemma pieces_concat : forall {A} idx i (l : list A), incr (i :: idx) ->
  (forall x, In x (i :: idx) -> x <= length l) ->
  firstn i l ++ concat (pieces (i :: idx) l) = firstn (last (i :: idx) 0) l.
Proof.
  induction idx as [|j idx IH]; intros i l Hi Hb.
  - simpl. rewrite app_nil_r. auto.
  - change (pieces (i :: j :: idx) l) with (firstn (j - i) (skipn i l) :: pieces (j :: idx) l).
    change (last (i :: j :: idx) 0) with (last (j :: idx) 0).
    cbn [concat]. rewrite app_assoc. inversion Hi as [|? ? H1 H2]; subst. inversion H2; subst.
    assert (E : firstn i l ++ firstn (j - i) (skipn i l) = firstn j l).
    { rewrite <- (firstn_skipn i (firstn j l)). rewrite firstn_firstn, Nat.min_l by lia.
      rewrite skipn_firstn_comm. auto. }
    rewrite E. apply IH; auto. intros x Hx. apply Hb. simpl in *; tauto.
Qed.

Lemma pieces_In : forall {A} idx (l : list A) b, In b (pieces idx l) <->
  exists a x y c, idx = a ++ x :: y :: c /\ b = slice x y l.
Proof.
  intros A idx l b. induction idx as [|i idx IH].
  - simpl. split; [easy|]. intros (a & x & y & c & E & _). destruct a; discriminate.
  - destruct idx as [|j idx].
    + simpl. split; [easy|]. intros (a & x & y & c & E & _). destruct a as [|? [|? a]]; discriminate.
    + change (pieces (i :: j :: idx) l) with (slice i j l :: pieces (j :: idx) l).
      split.
      * intros [<-|H]; [exists [], i, j, idx; auto|]. apply IH in H.
        destruct H as (a & x & y & c & E & ->). exists (i :: a), x, y, c. rewrite E. auto.
      * intros (a & x & y & c & E & ->). destruct a as [|z a].
        -- injection E as -> -> ->. left; auto.
        -- injection E as -> E. right. apply IH. eauto 8.
Qed.

Section Gen.
Context {S : Scalar}.
Variable part : (pw S -> bool) -> list (pw S) -> list (pw S).
Hypothesis Hconf : conforming part.

Lemma initial : forall q : list (pw S), q <> [] ->
  exists lo up q1 its, get_box_bounds (map fst q) = Ok (lo, up) /\
    partition_box part 3 lo up 0 q = (q1, its) /\
    partition_box0 part 3 0 q = Ok (q1, its) /\ Permutation q1 q /\ Inv (length q) its q1.
Proof.
  intros q Hq. destruct (box_bounds_total (map fst q)) as (lo & up & EB).
  { destruct q; [easy|discriminate]. }
  destruct (partition_box part 3 lo up 0 q) as [q1 its] eqn:EP.
  exists lo, up, q1, its. split; auto. split; auto.
  split. { unfold partition_box0. rewrite EB. cbn [bind]. rewrite EP. auto. }
  apply (partition_box_spec part Hconf) in EP. destruct EP as (P & Hi & H0 & Hb & _).
  split; auto. split; [apply Permutation_length; auto|]. split; auto. split; auto.
  intros x Hx. specialize (Hb x Hx). simpl in Hb. lia.
Qed.

Lemma generate_perm : forall fuel maxsz q q' idx,
  generate_batches part fuel maxsz q = Ok (q', idx) -> Permutation q' q.
Proof.
  intros fuel maxsz q q' idx H. destruct q as [|e r]; [discriminate|].
  destruct (initial (e :: r)) as (lo & up & q1 & its & _ & _ & EP & P & HI); [easy|].
  unfold generate_batches in H. rewrite EP in H. cbn [bind] in H.
  apply (refine_Ok part Hconf (length (e :: r))) in H; auto. destruct H as (P' & _).
  rewrite P'. auto.
Qed.

(** No undefined behaviour on a non-empty grid, whatever the arithmetic. *)
Lemma generate_outcomes : forall fuel maxsz q, q <> [] ->
  generate_batches part fuel maxsz q = OutOfFuel \/
  exists q' idx, generate_batches part fuel maxsz q = Ok (q', idx).
Proof.
  intros fuel maxsz q Hq.
  destruct (initial q Hq) as (lo & up & q1 & its & _ & _ & EP & P & HI).
  unfold generate_batches. rewrite EP. cbn [bind]. apply (refine_total part Hconf (length q)); auto.
Qed.

Lemma generate_empty : forall fuel maxsz, generate_batches part fuel maxsz [] = UB.
Proof. reflexivity. Qed.

(** A larger iteration budget does not change a result. *)
Lemma refine_fuel : forall maxsz fuel its q r, refine part fuel maxsz its q = Ok r ->
  refine part (Datatypes.S fuel) maxsz its q = Ok r.
Proof.
  intros maxsz. induction fuel as [|fuel IH]; intros its q r H.
  - simpl in *. destruct (any_oversize maxsz its); [discriminate|]. auto.
  - simpl in H. change (refine part (Datatypes.S (Datatypes.S fuel)) maxsz its q) with
      (if any_oversize maxsz its then
         bind (refine_sweep part maxsz its q []) (fun qn => let '(q', new) := qn in
           refine part (Datatypes.S fuel) maxsz (set_union its (std_unique (std_sort new))) q')
       else Ok (q, its)).
    destruct (any_oversize maxsz its); auto.
    destruct (refine_sweep part maxsz its q []) as [[q1 new]| | | |]; auto.
    cbn [bind] in *. apply IH; auto.
Qed.
Lemma generate_fuel : forall maxsz fuel fuel' q r, fuel <= fuel' ->
  generate_batches part fuel maxsz q = Ok r -> generate_batches part fuel' maxsz q = Ok r.
Proof.
  intros maxsz fuel fuel' q r Hle H. induction Hle; auto.
  unfold generate_batches in *. destruct (partition_box0 part 3 0 q) as [[q1 its]| | | |]; auto.
  cbn [bind] in *. apply refine_fuel. auto.
Qed.

Variable good : S -> Prop.
Hypothesis laws : order_laws good.

Lemma initial_n : forall q lo up q1 its, Forall (fun e : pw S => coords good (fst e)) q ->
  get_box_bounds (map fst q) = Ok (lo, up) ->
  partition_box part 3 lo up 0 q = (q1, its) -> In (length q) its.
Proof.
  intros q lo up q1 its Hg EB EP. apply (partition_box_spec part Hconf) in EP.
  destruct EP as (_ & _ & _ & _ & _ & HC & _). apply HC.
  eapply batch_covered; eauto. 
Qed.

Lemma generate_Ok : forall fuel maxsz q q' idx,
  Forall (fun e : pw S => coords good (fst e)) q ->
  generate_batches part fuel maxsz q = Ok (q', idx) ->
  Permutation q' q /\ splits (length q) idx /\
  concat (pieces idx q') = q' /\
  Forall (fun b => 1 <= length b <= maxsz) (pieces idx q').
Proof.
  intros fuel maxsz q q' idx Hg H.
  assert (HP := generate_perm _ _ _ _ _ H).
  destruct q as [|e r]; [discriminate|].
  destruct (initial (e :: r)) as (lo & up & q1 & its & EB & EP & E0 & P & HI); [easy|].
  assert (Hn := initial_n _ _ _ _ _ Hg EB EP).
  unfold generate_batches in H. rewrite E0 in H. cbn [bind] in H.
  apply (refine_Ok part Hconf (length (e :: r))) in H; auto.
  destruct H as (_ & (HL & Hi & H0 & Hb) & Hinc & HO).
  split; auto. split.
  { apply incr_splits; auto. apply incr_hd; auto. }
  split.
  - assert (Hh := incr_hd _ Hi H0). destruct idx as [|i idx]; [discriminate|].
    injection Hh as ->. pose proof (pieces_concat idx 0 q' Hi) as HC.
    rewrite firstn_O in HC. rewrite <- (app_nil_l (concat _)).
    etransitivity; [apply HC; rewrite HL; auto|].
    destruct (incr_splits (length (e :: r)) (0 :: idx) Hi eq_refl (Hinc _ Hn) Hb) as (_ & HLs & _).
    rewrite HLs, <- HL. apply firstn_all.
  - apply Forall_forall. intros b Hb'. apply pieces_In in Hb'.
    destruct Hb' as (a & x & y & c & E & ->).
    assert (Ha : adj idx x y) by (apply adj_split; eauto).
    assert (y <= length q') by (rewrite HL; apply Hb; apply Ha).
    assert (x < y) by apply Ha. rewrite slice_length by lia.
    split; [lia|]. eapply any_oversize_false; eauto.
Qed.

(** More than [maxsz] coincident points: the loop never ends. *)
Lemma generate_stuck : forall fuel maxsz q K l (p : @pt3 S),
  Forall (fun e : pw S => coords good (fst e)) q ->
  Permutation q (K ++ l) -> Forall (fun e : pw S => fst e = p) K -> maxsz < length K ->
  generate_batches part fuel maxsz q = OutOfFuel.
Proof.
  intros fuel maxsz q K l p Hg HP HK HM.
  assert (Hq : q <> []).
  { intros ->. apply Permutation_length in HP. rewrite app_length in HP. simpl in HP. lia. }
  destruct (initial q Hq) as (lo & up & q1 & its & EB & EP & E0 & P & HI).
  assert (Hn := initial_n _ _ _ _ _ Hg EB EP).
  unfold generate_batches. rewrite E0. cbn [bind].
  apply (refine_stuck part Hconf (length q) (length q) maxsz K); auto.
  { apply coincident_inseparable with p. auto. }
  apply (partition_box_spec part Hconf) in EP. destruct EP as (_ & _ & _ & _ & BK & _).
  destruct (BK K l) as (a & b & l'' & Ia & Ib & Hab & Hbe & Hz & HP'); auto.
  { intros ->. simpl in HM. lia. }
  { apply coincident_boxes with p. auto. }
  exists a, b, l''. split.
  - split; auto. split; auto. destruct Ib as [Ib| ->]; auto.
  - rewrite !Nat.sub_0_r in HP'. split; auto.
    apply Permutation_length in HP'. rewrite app_length in HP'.
    rewrite slice_length in HP'; try lia. rewrite (Permutation_length P). lia.
Qed.
End Gen.

(** ** Exact arithmetic *)
Lemma Rltb_true : forall x y : R, Rltb x y = true <-> (x < y)%R.
Proof. intros. unfold Rltb. destruct (Rlt_dec x y); split; auto; discriminate. Qed.
Lemma Rltb_false : forall x y : R, Rltb x y = false <-> (y <= x)%R.
Proof.
  intros. unfold Rltb. destruct (Rlt_dec x y); split; auto; try discriminate; intros; lra.
Qed.

Lemma real_laws : @order_laws RS (fun _ => True).
Proof.
  split; simpl; intros.
  - apply Rltb_true in H. apply Rltb_false. lra.
  - apply Rltb_false in H2, H3. apply Rltb_false. lra.
  - unfold sofN; simpl. apply Rltb_false in H1. apply Rltb_false.
    replace (lo + 0 * d)%R with lo by ring. auto.
Qed.
Lemma real_coords : forall q : list (pw RS), Forall (fun e => coords (fun _ => True) (fst e)) q.
Proof. intro q. apply Forall_forall. intros. repeat split; auto. Qed.

Lemma box_all_Ok : forall (ps : list (@pt3 RS)) lo up p, get_box_bounds ps = Ok (lo, up) -> In p ps ->
  forall k, k < 3 -> (coord k lo <= coord k p <= coord k up)%R.
Proof.
  intros ps lo up p H Hp k Hk. apply (box_bounds_spec _ real_laws) in H.
  - destruct H as [H _]. rewrite Forall_forall in H. destruct (H p Hp k Hk) as [H1 H2].
    simpl in H1, H2. apply Rltb_false in H1, H2. lra.
  - apply Forall_forall. intros. repeat split; auto.
Qed.

Lemma coord_ext : forall a b : @pt3 RS, (forall k, k < 3 -> coord k a = coord k b) -> a = b.
Proof.
  intros [[ax ay] az] [[bx b_y] bz] H.
  assert (H0 := H 0 ltac:(lia)). assert (H1 := H 1 ltac:(lia)). assert (H2 := H 2 ltac:(lia)).
  simpl in *. subst. auto.
Qed.

Lemma R_splittable : forall part (Hconf : @conforming RS part) maxsz (q q1 : list (pw RS)) st en,
  coincide_at_most maxsz q -> Permutation q1 q -> maxsz < en - st -> en <= length q ->
  splittable part q1 st en.
Proof.
  intros part Hconf maxsz q q1 st en HC HP HM Hen els' bits (lo & up & np & EB & ENP & EP).
  assert (L1 : length q1 = length q) by (apply Permutation_length; auto).
  assert (L : length (slice st en q1) = en - st) by (apply slice_length; lia).
  assert (NP : 2 <= np) by (destruct (point_in_box lo up (s0, s0, s0)); lia).
  apply (partition_box_spec part Hconf) in EP.
  destruct EP as (_ & _ & _ & _ & _ & _ & HX). rewrite L in HX.
  replace (st + (en - st)) with en in HX by lia. apply HX.
  - intro E. rewrite E in L. simpl in L. lia.
  - apply (batch_covered _ real_laws); auto; [lia|apply real_coords].
  - intros b Hb.
    (* some coordinate has positive extent *)
    assert (D : exists k, k < 3 /\ (coord k lo < coord k up)%R).
    { destruct (Rlt_dec (coord 0 lo) (coord 0 up)) as [?|N0]; [exists 0; auto|].
      destruct (Rlt_dec (coord 1 lo) (coord 1 up)) as [?|N1]; [exists 1; auto|].
      destruct (Rlt_dec (coord 2 lo) (coord 2 up)) as [?|N2]; [exists 2; auto|].
      exfalso.
      assert (A : length (slice st en q1) <= maxsz).
      { apply (HC lo (slice st en q1) (firstn st q1 ++ skipn en q1)).
        - rewrite <- HP. rewrite (slice_split st en q1) at 1 by lia.
          rewrite Permutation_app_swap_app. apply Permutation_refl.
        - apply Forall_forall. intros e He. apply coord_ext. intros k Hk.
          pose proof (box_all_Ok _ _ _ (fst e) EB (in_map fst _ _ He) k Hk) as B.
          destruct k as [|[|[|k]]]; [ | | |lia];
            change (carrier RS) with R in *; lra. }
      rewrite L in A. lia. }
    destruct D as (k & Hk & D).
    destruct (box_bounds_spec _ real_laws _ _ _ (proj2 (Forall_forall _ _) (fun p _ => conj I (conj I I))) EB) as [_ HT].
    destruct (HT k Hk) as [(p1 & Hp1 & E1) (p2 & Hp2 & E2)].
    apply in_map_iff in Hp1, Hp2. destruct Hp1 as (e1 & <- & He1), Hp2 as (e2 & <- & He2).
    destruct (point_in_box (fst b) (snd b) (fst e1)) eqn:B1;
      [|apply Exists_exists; exists e1; auto].
    destruct (point_in_box (fst b) (snd b) (fst e2)) eqn:B2;
      [|apply Exists_exists; exists e2; auto].
    exfalso. apply In_sub_boxes in Hb. destruct Hb as (i & j & m & Hi & Hj & Hm & ->).
    simpl fst in B1, B2. simpl snd in B1, B2.
    apply point_in_box_iff in B1, B2. specialize (B1 k Hk). specialize (B2 k Hk).
    assert (G : forall t (l u : R), t < np -> (l < u)%R ->
      sltb l (@cut RS np l u t) = false -> sltb (@cut RS np l u (t + 1)) u = false -> False).
    { intros t l u Ht Hlu C1 C2. simpl in C1, C2. apply Rltb_false in C1, C2.
      unfold cut in C1, C2. destruct (Nat.ltb_spec t np); [|lia]. unfold sofN in C1, C2; simpl in C1, C2.
      assert (Np : (2 <= IZR (Z.of_nat np))%R) by (apply (IZR_le 2); lia).
      assert (Hd : (0 < (u - l) / IZR (Z.of_nat np))%R).
      { apply Rdiv_lt_0_compat; lra. }
      assert (t = 0).
      { destruct (Nat.eq_dec t 0); auto. exfalso.
        assert (1 <= IZR (Z.of_nat t))%R by (apply (IZR_le 1); lia). nra. }
      subst t. simpl Nat.add in C2. destruct (Nat.ltb_spec 1 np); [|lia].
      change (Z.of_nat 1) with 1%Z in C2.
      assert (E : (u = l + IZR (Z.of_nat np) * ((u - l) / IZR (Z.of_nat np)))%R) by (field; lra).
      rewrite E in C2 at 1. nra. }
    destruct k as [|[|[|k]]]; [| | |lia]; simpl in B1, B2, E1, E2, D |- *;
      rewrite E1 in B1; rewrite E2 in B2; destruct B1 as [B1 _]; destruct B2 as [_ B2].
    + apply (G i _ _ Hi D B1 B2).
    + apply (G j _ _ Hj D B1 B2).
    + apply (G m _ _ Hm D B1 B2).
Qed.

Lemma generate_terminates : forall part (Hconf : @conforming RS part) maxsz (q : list (pw RS)),
  q <> [] -> coincide_at_most maxsz q ->
  exists q' idx, forall fuel, length q <= fuel -> generate_batches part fuel maxsz q = Ok (q', idx).
Proof.
  intros part Hconf maxsz q Hq HC.
  destruct (initial part Hconf q Hq) as (lo & up & q1 & its & EB & EP & E0 & P & HI).
  destruct (refine_terminates part Hconf (length q) maxsz (length q) its q1) as (q' & idx & E); auto.
  - intros q2 st en P2. apply R_splittable with (maxsz := maxsz); auto. rewrite P2. auto.
  - destruct HI as (_ & _ & H0 & _). destruct its; [easy|]. simpl. lia.
  - exists q', idx. intros fuel Hf. apply (generate_fuel part maxsz (length q)); auto.
    unfold generate_batches. rewrite E0. cbn [bind]. auto.
Qed.

Lemma generate_terminates_iff : forall part (Hconf : @conforming RS part) maxsz (q : list (pw RS)),
  q <> [] ->
  ((exists fuel q' idx, generate_batches part fuel maxsz q = Ok (q', idx)) <-> coincide_at_most maxsz q) /\
  (~ coincide_at_most maxsz q -> forall fuel, generate_batches part fuel maxsz q = OutOfFuel).
Proof.
  intros part Hconf maxsz q Hq.
  assert (ST : forall p K l, Permutation q (K ++ l) -> Forall (fun e => fst e = p) K ->
    maxsz < length K -> forall fuel, generate_batches part fuel maxsz q = OutOfFuel).
  { intros p K l H1 H2 H3 fuel.
    apply (generate_stuck part Hconf _ real_laws) with (K := K) (l := l) (p := p); auto.
    apply real_coords. }
  split; [split|].
  - intros (fuel & q' & idx & H) p K l HP HK. destruct (le_lt_dec (length K) maxsz); auto.
    rewrite (ST p K l HP HK l0 fuel) in H. discriminate.
  - intro HC. destruct (generate_terminates part Hconf maxsz q Hq HC) as (q' & idx & H).
    exists (length q), q', idx. auto.
  - intros HN fuel. destruct (generate_outcomes part Hconf fuel maxsz q Hq) as [H|(q' & idx & H)]; auto.
    exfalso. apply HN. intros p K l HP HK. destruct (le_lt_dec (length K) maxsz); auto.
    rewrite (ST p K l HP HK l0 fuel) in H. discriminate.
Qed.
