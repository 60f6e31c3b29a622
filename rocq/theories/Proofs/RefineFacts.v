(** The refinement loop of the batcher: invariants for any scalar type. *)
From Coq Require Import List Arith Lia Permutation Sorted Bool.
From Verif Require Import Base.Outcome Base.OutcomeFacts Base.Scalar Model.Quadrature Model.S2
  Model.Composite Model.Batcher Spec.BatchSpec Proofs.ListNat Proofs.BatchFacts.
Import ListNotations.

Lemma firstn_slice : forall {A} st en (q q' : list A), firstn en q = firstn en q' ->
  slice st en q = slice st en q'.
Proof.
  intros A st en q q' H. unfold slice.
  rewrite <- !skipn_firstn_comm, H. auto.
Qed.

Lemma adj_cons : forall x y r s e, incr (x :: y :: r) ->
  (adj (x :: y :: r) s e <-> (s = x /\ e = y) \/ adj (y :: r) s e).
Proof.
  intros x y r s e Hi. assert (Hi' : incr (y :: r)) by (inversion Hi; auto).
  rewrite !adj_split by auto. split.
  - intros (a & b & E). destruct a as [|z a].
    + injection E as -> -> ->. auto.
    + injection E as -> E. right. eauto.
  - intros [[-> ->]|(a & b & E)]; [exists [], r; auto|]. exists (x :: a), b. rewrite E. auto.
Qed.

Section Boxes.
Context {S : Scalar}.
Variable good : S -> Prop.
Hypothesis laws : order_laws good.

Lemma sltb_irrefl : forall x : S, sltb x x = false.
Proof. intro x. destruct (sltb x x) eqn:E; auto. rewrite <- E. apply (ol_asym _ laws). auto. Qed.

Lemma minmax_spec : forall (l : list S) x mn mx, good x -> Forall good l ->
  minmax_from x l = (mn, mx) ->
  In mn (x :: l) /\ In mx (x :: l) /\
  forall y, In y (x :: l) -> sltb y mn = false /\ sltb mx y = false.
Proof.
  intros l x mn mx Hx Hl H. unfold minmax_from in H.
  assert (G : forall l pre m1 m2 mn mx, Forall good pre -> Forall good l ->
    In m1 pre -> In m2 pre ->
    (forall y, In y pre -> sltb y m1 = false /\ sltb m2 y = false) ->
    fold_left (fun (mm : S * S) (y : S) =>
      (if sltb y (fst mm) then y else fst mm, if sltb y (snd mm) then snd mm else y)) l (m1, m2)
      = (mn, mx) ->
    In mn (pre ++ l) /\ In mx (pre ++ l) /\
    forall y, In y (pre ++ l) -> sltb y mn = false /\ sltb mx y = false).
  { clear - laws. induction l as [|z l IH]; intros pre m1 m2 mn mx Gp Gl I1 I2 HB H.
    - simpl in H. injection H as <- <-. rewrite app_nil_r. auto.
    - inversion Gl; subst. simpl in H.
      assert (Gp' := Gp). rewrite Forall_forall in Gp'.
      replace (pre ++ z :: l) with ((pre ++ [z]) ++ l) by (rewrite <- app_assoc; auto).
      eapply IH; [| | | | | exact H]; auto.
      + apply Forall_app. auto.
      + apply in_or_app. destruct (sltb z m1); simpl; auto.
      + apply in_or_app. destruct (sltb z m2); simpl; auto.
      + intros y Hy. apply in_app_or in Hy. destruct Hy as [Hy|[<-|[]]].
        * destruct (HB y Hy) as [B1 B2]. split.
          -- destruct (sltb z m1) eqn:E; auto.
             apply (ol_trans _ laws) with m1; auto. apply (ol_asym _ laws). auto.
          -- destruct (sltb z m2) eqn:E; auto.
             apply (ol_trans _ laws) with m2; auto.
        * split.
          -- destruct (sltb z m1) eqn:E; auto. apply sltb_irrefl.
          -- destruct (sltb z m2) eqn:E; [apply (ol_asym _ laws); auto|apply sltb_irrefl]. }
  change (In mn ([x] ++ l) /\ In mx ([x] ++ l) /\
    forall y, In y ([x] ++ l) -> sltb y mn = false /\ sltb mx y = false).
  eapply G; eauto; simpl; auto.
  intros y [<-|[]]. split; apply sltb_irrefl.
Qed.

Lemma coords_coord : forall P (p : @pt3 S) k, coords P p -> P (coord k p).
Proof. intros P p [|[|k]] (H0 & H1 & H2); auto. Qed.

Lemma box_bounds_spec : forall (ps : list (@pt3 S)) lo up, Forall (coords good) ps ->
  get_box_bounds ps = Ok (lo, up) ->
  Forall (inside lo up) ps /\
  (forall k, k < 3 -> (exists p, In p ps /\ coord k p = coord k lo) /\
                      (exists p, In p ps /\ coord k p = coord k up)).
Proof.
  intros ps lo up Hg H. destruct ps as [|p r]; [discriminate|]. simpl in H.
  destruct (minmax_from (coord 0 p) (map (coord 0) r)) as [x0 x1] eqn:E0.
  destruct (minmax_from (coord 1 p) (map (coord 1) r)) as [y0 y1] eqn:E1.
  destruct (minmax_from (coord 2 p) (map (coord 2) r)) as [z0 z1] eqn:E2.
  injection H as <- <-. inversion Hg as [|? ? Hp Hr]; subst.
  assert (HR : forall k, Forall good (map (coord k) r)).
  { intro k. apply Forall_forall. intros v Hv. apply in_map_iff in Hv.
    destruct Hv as (u & <- & Hu). rewrite Forall_forall in Hr. apply coords_coord. auto. }
  apply minmax_spec in E0; [|apply coords_coord; auto|apply HR].
  apply minmax_spec in E1; [|apply coords_coord; auto|apply HR].
  apply minmax_spec in E2; [|apply coords_coord; auto|apply HR].
  assert (M : forall k v, In v (coord k p :: map (coord k) r) <-> exists u, In u (p :: r) /\ coord k u = v).
  { intros k v. change (coord k p :: map (coord k) r) with (map (coord k) (p :: r)).
    rewrite in_map_iff. split; intros (u & A & B); exists u; auto. }
  destruct E0 as (A0 & B0 & C0), E1 as (A1 & B1 & C1), E2 as (A2 & B2 & C2).
  rewrite M in A0, A1, A2, B0, B1, B2. split.
  - apply Forall_forall. intros u Hu k Hk.
    assert (HM : forall k, In (coord k u) (coord k p :: map (coord k) r)) by (intro; apply M; eauto).
    destruct k as [|[|[|k]]]; [apply (C0 _ (HM 0))|apply (C1 _ (HM 1))|apply (C2 _ (HM 2))|lia].
  - intros k Hk. destruct k as [|[|[|k]]]; [| | |lia]; simpl; auto.
Qed.

Lemma cut_1d : forall npart (lo up p : S), 1 <= npart -> good lo -> good p ->
  sltb p lo = false -> sltb up p = false ->
  exists i, i < npart /\ sltb (cut npart lo up (i + 1)) p = false /\ sltb p (cut npart lo up i) = false.
Proof.
  intros npart lo up p Hn Gl Gp Hl Hu.
  assert (Z : sltb p (cut npart lo up 0) = false).
  { unfold cut. destruct (Nat.ltb_spec 0 npart); [|lia]. apply (ol_zero _ laws); auto. }
  assert (T : sltb (cut npart lo up npart) p = false).
  { unfold cut. rewrite Nat.ltb_irrefl. auto. }
  assert (G : forall m, 1 <= m -> sltb (cut npart lo up m) p = false ->
    exists i, i < m /\ sltb (cut npart lo up (i + 1)) p = false /\ sltb p (cut npart lo up i) = false).
  { induction m as [|m IH]; intros Hm HT; [lia|]. destruct (sltb p (cut npart lo up m)) eqn:E.
    - destruct m as [|m]; [congruence|]. apply (ol_asym _ laws) in E.
      destruct IH as (i & Hi & H); auto; [lia|]. exists i. split; auto; lia.
    - exists m. rewrite Nat.add_1_r. auto. }
  destruct (G npart Hn T) as (i & H). eauto.
Qed.

Lemma point_in_box_iff : forall lo up p : @pt3 S,
  point_in_box lo up p = true <-> inside lo up p.
Proof.
  intros lo up p. unfold point_in_box, inside. split.
  - destruct (sltb (coord 0 up) (coord 0 p)) eqn:E0; [discriminate|].
    destruct (sltb (coord 0 p) (coord 0 lo)) eqn:E1; [discriminate|].
    destruct (sltb (coord 1 up) (coord 1 p)) eqn:E2; [discriminate|].
    destruct (sltb (coord 1 p) (coord 1 lo)) eqn:E3; [discriminate|].
    destruct (sltb (coord 2 up) (coord 2 p)) eqn:E4; [discriminate|].
    destruct (sltb (coord 2 p) (coord 2 lo)) eqn:E5; [discriminate|].
    intros _ [|[|[|k]]] Hk; auto; lia.
  - intro H. destruct (H 0) as [A0 B0]; [lia|]. destruct (H 1) as [A1 B1]; [lia|].
    destruct (H 2) as [A2 B2]; [lia|]. rewrite A0, A1, A2, B0, B1, B2. auto.
Qed.

Lemma In_sub_boxes : forall npart (lo up : @pt3 S) b, In b (sub_boxes npart lo up) <->
  exists i j k, i < npart /\ j < npart /\ k < npart /\
   b = ((cut npart (coord 0 lo) (coord 0 up) i,
         cut npart (coord 1 lo) (coord 1 up) j,
         cut npart (coord 2 lo) (coord 2 up) k),
        (cut npart (coord 0 lo) (coord 0 up) (i + 1),
         cut npart (coord 1 lo) (coord 1 up) (j + 1),
         cut npart (coord 2 lo) (coord 2 up) (k + 1))).
Proof.
  intros npart lo up b. unfold sub_boxes. rewrite in_flat_map. split.
  - intros (i & Hi & H). apply in_flat_map in H. destruct H as (j & Hj & H).
    apply in_map_iff in H. destruct H as (k & <- & Hk). apply in_seq in Hi, Hj, Hk.
    exists i, j, k. repeat split; lia.
  - intros (i & j & k & Hi & Hj & Hk & ->). exists i. split; [apply in_seq; lia|].
    apply in_flat_map. exists j. split; [apply in_seq; lia|].
    apply in_map_iff. exists k. split; auto. apply in_seq; lia.
Qed.

Lemma boxes_cover : forall npart (lo up p : @pt3 S), 1 <= npart ->
  coords good lo -> coords good p -> inside lo up p ->
  Exists (fun b => point_in_box (fst b) (snd b) p = true) (sub_boxes npart lo up).
Proof.
  intros npart lo up p Hn Gl Gp HI.
  assert (H : forall k, k < 3 -> exists i, i < npart /\
    sltb (cut npart (coord k lo) (coord k up) (i + 1)) (coord k p) = false /\
    sltb (coord k p) (cut npart (coord k lo) (coord k up) i) = false).
  { intros k Hk. destruct (HI k Hk). apply cut_1d; auto; apply coords_coord; auto. }
  destruct (H 0) as (i & Hi & I1 & I2); [lia|]. destruct (H 1) as (j & Hj & J1 & J2); [lia|].
  destruct (H 2) as (k & Hk & K1 & K2); [lia|].
  apply Exists_exists. eexists. split; [apply In_sub_boxes; exists i, j, k; eauto|].
  apply point_in_box_iff. intros [|[|[|m]]] Hm; simpl; auto; lia.
Qed.

Lemma bounds_good : forall (ps : list (@pt3 S)) lo up, Forall (coords good) ps ->
  get_box_bounds ps = Ok (lo, up) -> coords good lo /\ coords good up.
Proof.
  intros ps lo up Hg H. destruct (box_bounds_spec ps lo up Hg H) as [_ HA].
  rewrite Forall_forall in Hg.
  assert (L : forall k, k < 3 -> good (coord k lo) /\ good (coord k up)).
  { intros k Hk. destruct (HA k Hk) as [(p & Hp & <-) (p' & Hp' & <-)].
    split; apply coords_coord; auto. }
  split; (split; [apply (L 0); lia|split; [apply (L 1); lia|apply (L 2); lia]]).
Qed.

(** Every element of a batch lies in one of the sub-boxes of the batch's bounds. *)
Lemma batch_covered : forall npart (els : list (pw S)) lo up, 1 <= npart ->
  Forall (fun e => coords good (fst e)) els ->
  get_box_bounds (map fst els) = Ok (lo, up) ->
  Forall (fun e => Exists (fun b => point_in_box (fst b) (snd b) (fst e) = true)
                          (sub_boxes npart lo up)) els.
Proof.
  intros npart els lo up Hn Hg H.
  assert (Hg' : Forall (coords good) (map fst els)).
  { apply Forall_forall. intros p Hp. apply in_map_iff in Hp. destruct Hp as (e & <- & He).
    rewrite Forall_forall in Hg. auto. }
  destruct (box_bounds_spec _ _ _ Hg' H) as [HI _]. destruct (bounds_good _ _ _ Hg' H).
  apply Forall_forall. intros e He. rewrite Forall_forall in Hg, HI.
  apply boxes_cover; auto. apply HI. apply in_map. auto.
Qed.
End Boxes.

Lemma box_bounds_total : forall {S : Scalar} (ps : list (@pt3 S)), ps <> [] ->
  exists lo up, get_box_bounds ps = Ok (lo, up).
Proof.
  intros S [|p r] H; [easy|]. simpl.
  destruct (minmax_from (coord 0 p) (map (coord 0) r)).
  destruct (minmax_from (coord 1 p) (map (coord 1) r)).
  destruct (minmax_from (coord 2 p) (map (coord 2) r)). eauto.
Qed.

Section Refine.
Context {S : Scalar}.
Variable part : (pw S -> bool) -> list (pw S) -> list (pw S).
Hypothesis Hconf : conforming part.

(** What a sweep does to the batch [st,en). *)
Definition refined (q : list (pw S)) (st en : nat) (els' : list (pw S)) (bits : list nat) : Prop :=
  exists lo up npart,
    get_box_bounds (map fst (slice st en q)) = Ok (lo, up) /\
    npart = (if point_in_box lo up (s0, s0, s0) then 3 else 2) /\
    partition_box part npart lo up st (slice st en q) = (els', bits).

Lemma refined_perm : forall q st en els' bits, refined q st en els' bits ->
  Permutation els' (slice st en q).
Proof.
  intros q st en els' bits (lo & up & np & _ & _ & H).
  apply (partition_box_spec part Hconf) in H. apply H.
Qed.

Lemma refine_sweep_spec : forall maxsz its q new q' new', incr its ->
  (forall x, In x its -> x <= length q) ->
  refine_sweep part maxsz its q new = Ok (q', new') ->
  exists added, new' = new ++ added /\ Permutation q' q /\
    (forall h, hd_error its = Some h -> firstn h q' = firstn h q) /\
    (forall st en, adj its st en -> en - st <= maxsz -> slice st en q' = slice st en q) /\
    (forall st en, adj its st en -> maxsz < en - st ->
       exists bits, refined q st en (slice st en q') bits /\ incl bits added) /\
    (forall x, In x added -> exists st en els' bits, adj its st en /\ maxsz < en - st /\
       refined q st en els' bits /\ In x bits).
Proof.
  intros maxsz. induction its as [|st its IH]; intros q new q' new' Hi Hb H.
  - simpl in H. injection H as <- <-. exists []. rewrite app_nil_r. repeat split; auto.
    + intros st en ([] & _).
    + intros x [].
  - destruct its as [|en r].
    + simpl in H. injection H as <- <-. exists []. rewrite app_nil_r. repeat split; auto.
      * intros s e HA _. exfalso. destruct HA as ([<-|[]] & [<-|[]] & HA & _). lia.
      * intros x [].
    + assert (Hi' : incr (en :: r)) by (inversion Hi; auto).
      assert (Hlt : st < en).
      { inversion Hi as [|? ? ? HF]; subst. inversion HF; auto. }
      assert (Hen : en <= length q) by (apply Hb; simpl; auto).
      assert (AG : forall s e, adj (en :: r) s e -> en <= s /\ s < e).
      { intros s e (A1 & A2 & A3 & _). split; auto. destruct A1 as [->|A1]; auto.
        inversion Hi' as [|? ? ? HF]; subst. rewrite Forall_forall in HF. specialize (HF s A1). lia. }
      change (refine_sweep part maxsz (st :: en :: r) q new) with
        (if Nat.ltb maxsz (en - st)
         then
           let els := slice st en q in
           bind (get_box_bounds (map fst els)) (fun bb => let '(lo, up) := bb in
           let npart := if point_in_box lo up (s0, s0, s0) then 3 else 2 in
           let '(els', bits) := partition_box part npart lo up st els in
           refine_sweep part maxsz (en :: r) (splice st els' q) (new ++ bits))
         else refine_sweep part maxsz (en :: r) q new) in H.
      destruct (Nat.ltb_spec maxsz (en - st)) as [Hov|Hov].
      * cbv zeta in H. destruct (get_box_bounds (map fst (slice st en q))) as [[lo up]| | | |] eqn:EB;
          try discriminate. cbn [bind] in H.
        set (npart := if point_in_box lo up (s0, s0, s0) then 3 else 2) in *.
        destruct (partition_box part npart lo up st (slice st en q)) as [els' bits] eqn:EP.
        assert (HR : refined q st en els' bits) by (exists lo, up, npart; auto).
        assert (HP := refined_perm _ _ _ _ _ HR).
        assert (HL : length els' = en - st).
        { rewrite (Permutation_length HP). apply slice_length; lia. }
        assert (HL' : length (splice st els' q) = length q) by (apply (splice_length st en); auto; lia).
        destruct (IH (splice st els' q) (new ++ bits) q' new') as (added & E & P & HF & HS & HO & HA); auto.
        { intros x Hx. rewrite HL'. apply Hb. simpl in *; auto. }
        assert (OT : forall s e, adj (en :: r) s e -> slice s e (splice st els' q) = slice s e q).
        { intros s e Ha. destruct (AG s e Ha). apply (slice_splice_other st en); auto; lia. }
        assert (Eq : slice st en q' = els').
        { rewrite (firstn_slice st en q' (splice st els' q)) by (apply HF; auto).
          rewrite (slice_splice_inside st en) by (auto; lia). rewrite Nat.sub_diag.
          unfold slice. rewrite Nat.sub_0_r. simpl. rewrite firstn_all2; auto. lia. }
        exists (bits ++ added). split; [rewrite E, app_assoc; auto|].
        split. { rewrite P. apply (splice_perm st en); auto; lia. }
        split. { intros h Hh. injection Hh as <-.
          assert (F := HF en eq_refl). apply (f_equal (firstn st)) in F.
          rewrite !firstn_firstn in F. rewrite Nat.min_l in F by lia. rewrite F.
          unfold splice. apply firstn_app_len. rewrite firstn_length. lia. }
        split. { intros s e Ha Hm. apply adj_cons in Ha; auto. destruct Ha as [[-> ->]|Ha]; [lia|].
          rewrite (HS s e Ha Hm). auto. }
        split. { intros s e Ha Hm. apply adj_cons in Ha; auto. destruct Ha as [[-> ->]|Ha].
          - exists bits. rewrite Eq. split; auto. apply incl_appl. apply incl_refl.
          - destruct (HO s e Ha Hm) as (b & HRb & Hb').
            exists b. split; [|apply incl_appr; auto].
            destruct HRb as (lo' & up' & np & B1 & B2 & B3). rewrite (OT s e Ha) in B1, B3.
            exists lo', up', np. auto. }
        intros x Hx. apply in_app_or in Hx. destruct Hx as [Hx|Hx].
        -- exists st, en, els', bits. split; [apply adj_cons; auto|]. auto.
        -- destruct (HA x Hx) as (s & e & els2 & b & Ha & Hm & HRb & Hxb).
           exists s, e, els2, b. split; [apply adj_cons; auto|]. split; auto. split; auto.
           destruct HRb as (lo' & up' & np & B1 & B2 & B3). rewrite (OT s e Ha) in B1, B3.
           exists lo', up', np. auto.
      * destruct (IH q new q' new') as (added & E & P & HF & HS & HO & HA); auto.
        { intros x Hx. apply Hb. simpl in *; auto. }
        exists added. split; auto. split; auto.
        assert (F := HF en eq_refl).
        split. { intros h Hh. injection Hh as <-. apply (f_equal (firstn st)) in F.
          rewrite !firstn_firstn in F. rewrite Nat.min_l in F by lia. auto. }
        split. { intros s e Ha Hm. apply adj_cons in Ha; auto. destruct Ha as [[-> ->]|Ha]; auto.
          apply firstn_slice. auto. }
        split. { intros s e Ha Hm. apply adj_cons in Ha; auto. destruct Ha as [[-> ->]|Ha]; [lia|]. auto. }
        intros x Hx. destruct (HA x Hx) as (s & e & els2 & b & Ha & Hr).
        exists s, e, els2, b. split; [apply adj_cons; auto|]. auto.
Qed.

Lemma refine_sweep_total : forall maxsz its q new, incr its ->
  (forall x, In x its -> x <= length q) ->
  exists q' new', refine_sweep part maxsz its q new = Ok (q', new').
Proof.
  intros maxsz. induction its as [|st its IH]; intros q new Hi Hb; [simpl; eauto|].
  destruct its as [|en r]; [simpl; eauto|].
  assert (Hi' : incr (en :: r)) by (inversion Hi; auto).
  assert (Hlt : st < en). { inversion Hi as [|? ? ? HF]; subst. inversion HF; auto. }
  assert (Hen : en <= length q) by (apply Hb; simpl; auto).
  change (refine_sweep part maxsz (st :: en :: r) q new) with
    (if Nat.ltb maxsz (en - st)
     then
       let els := slice st en q in
       bind (get_box_bounds (map fst els)) (fun bb => let '(lo, up) := bb in
       let npart := if point_in_box lo up (s0, s0, s0) then 3 else 2 in
       let '(els', bits) := partition_box part npart lo up st els in
       refine_sweep part maxsz (en :: r) (splice st els' q) (new ++ bits))
     else refine_sweep part maxsz (en :: r) q new).
  destruct (Nat.ltb_spec maxsz (en - st)) as [Hov|Hov].
  - cbv zeta. destruct (box_bounds_total (map fst (slice st en q))) as (lo & up & EB).
    { intro E. apply (f_equal (@length _)) in E. rewrite map_length in E.
      assert (E' : length (slice st en q) = 0) by exact E. rewrite slice_length in E' by lia. lia. }
    rewrite EB. cbn [bind].
    set (npart := if point_in_box lo up (s0, s0, s0) then 3 else 2) in *.
    destruct (partition_box part npart lo up st (slice st en q)) as [els' bits] eqn:EP.
    assert (HR : refined q st en els' bits) by (exists lo, up, npart; auto).
    assert (HP := refined_perm _ _ _ _ _ HR).
    assert (HL : length els' = en - st).
    { rewrite (Permutation_length HP). apply slice_length; lia. }
    apply IH; auto. intros x Hx. rewrite (splice_length st en) by (auto; lia). apply Hb. simpl in *; auto.
  - apply IH; auto. intros x Hx. apply Hb. simpl in *; auto.
Qed.

(** Invariant of the refinement loop. *)
Definition Inv (n : nat) (its : list nat) (q : list (pw S)) : Prop :=
  length q = n /\ incr its /\ In 0 its /\ forall x, In x its -> x <= n.

Definition next_its (its new : list nat) : list nat := set_union its (std_unique (std_sort new)).

Lemma next_its_spec : forall its new, incr its ->
  incr (next_its its new) /\ forall x, In x (next_its its new) <-> In x its \/ In x new.
Proof.
  intros its new Hi. unfold next_its.
  destruct (set_union_spec its (std_unique (std_sort new)) Hi) as [H1 H2].
  { apply unique_incr. apply sort_ndecr. }
  split; auto. intro x. rewrite H2, In_unique, sort_In. tauto.
Qed.

Lemma refined_bits : forall q st en els' bits, st < en -> en <= length q ->
  refined q st en els' bits -> In st bits /\ forall x, In x bits -> st <= x <= en.
Proof.
  intros q st en els' bits Hlt Hen (lo & up & np & _ & _ & H).
  apply (partition_box_spec part Hconf) in H. destruct H as (_ & _ & H1 & H2 & _).
  rewrite slice_length in H2 by lia. split; auto. intros x Hx. specialize (H2 x Hx). lia.
Qed.

Lemma sweep_Inv : forall n maxsz its q q' new, Inv n its q ->
  refine_sweep part maxsz its q [] = Ok (q', new) ->
  Permutation q' q /\ Inv n (next_its its new) q' /\ incl its (next_its its new).
Proof.
  intros n maxsz its q q' new (HL & Hi & H0 & Hb) H.
  destruct (refine_sweep_spec maxsz its q [] q' new Hi) as (added & E & P & _ & _ & _ & HA);
    auto; [intros; rewrite HL; auto|].
  simpl in E. subst added. destruct (next_its_spec its new Hi) as [N1 N2].
  split; auto. split; [|intros x Hx; apply N2; auto].
  split; [rewrite (Permutation_length P); auto|]. split; auto. split; [apply N2; auto|].
  intros x Hx. apply N2 in Hx. destruct Hx as [Hx|Hx]; auto.
  destruct (HA x Hx) as (st & en & els' & bits & Ha & Hm & HR & Hxb).
  assert (En : en <= n) by (apply Hb; apply Ha).
  destruct (refined_bits q st en els' bits) as [_ HB]; [apply Ha|lia|exact HR|].
  specialize (HB x Hxb). lia.
Qed.

(** Partial correctness of the loop. *)
Lemma refine_Ok : forall n maxsz fuel its q q' its', Inv n its q ->
  refine part fuel maxsz its q = Ok (q', its') ->
  Permutation q' q /\ Inv n its' q' /\ incl its its' /\ any_oversize maxsz its' = false.
Proof.
  intros n maxsz. induction fuel as [|fuel IH]; intros its q q' its' HI H; simpl in H.
  - destruct (any_oversize maxsz its) eqn:E; [discriminate|]. injection H as <- <-.
    split; auto. split; auto. split; auto. apply incl_refl.
  - destruct (any_oversize maxsz its) eqn:E.
    + destruct (refine_sweep part maxsz its q []) as [[q1 new]| | | |] eqn:ES; try discriminate.
      cbn [bind] in H. destruct (sweep_Inv n maxsz its q q1 new HI ES) as (P & HI' & HInc).
      destruct (IH _ _ _ _ HI' H) as (P' & HI'' & HInc' & HO).
      split; [etransitivity; eauto|]. split; auto. split; auto. eapply incl_tran; eauto.
    + injection H as <- <-. split; auto. split; auto. split; auto. apply incl_refl.
Qed.

(** The loop either finishes or runs out of iterations: no undefined behaviour. *)
Lemma refine_total : forall n maxsz fuel its q, Inv n its q ->
  refine part fuel maxsz its q = OutOfFuel \/
  exists q' its', refine part fuel maxsz its q = Ok (q', its').
Proof.
  intros n maxsz. induction fuel as [|fuel IH]; intros its q HI; simpl;
    destruct (any_oversize maxsz its) eqn:E; eauto.
  assert (HI' := HI). destruct HI' as (HL & Hi & H0 & Hb).
  destruct (refine_sweep_total maxsz its q [] Hi) as (q1 & new & ES); [intros; rewrite HL; auto|].
  rewrite ES. cbn [bind]. apply IH.
  destruct (sweep_Inv n maxsz its q q1 new HI ES) as (P & HI' & HInc). auto.
Qed.

(** A group of points that no sub-box separates stays in one batch. *)
Definition together (m : nat) (its : list nat) (q K : list (pw S)) : Prop :=
  exists st en l', adj its st en /\ Permutation (slice st en q) (K ++ l') /\ length l' <= m.

Definition inseparable (m : nat) (K : list (pw S)) : Prop :=
  forall els l' lo up, Permutation els (K ++ l') -> length l' <= m ->
    get_box_bounds (map fst els) = Ok (lo, up) ->
    stays K (sub_boxes (if point_in_box lo up (s0, s0, s0) then 3 else 2) lo up).

Lemma coincident_inseparable : forall m (K : list (pw S)) (p : @pt3 S),
  Forall (fun e : pw S => fst e = p) K -> inseparable m K.
Proof. intros m K p HK els l' lo up _ _ _. apply coincident_boxes with p. auto. Qed.

Lemma sweep_together : forall n m maxsz its q q' new (K : list (pw S)), Inv n its q ->
  refine_sweep part maxsz its q [] = Ok (q', new) ->
  inseparable m K -> maxsz < length K ->
  together m its q K -> together m (next_its its new) q' K.
Proof.
  intros n m maxsz its q q' new K (HL & Hi & H0 & Hb) H HK HM (st & en & l' & Ha & HP & Hl').
  destruct (refine_sweep_spec maxsz its q [] q' new Hi) as (added & E & P & _ & _ & HO & HA);
    auto; [intros; rewrite HL; auto|].
  simpl in E. subst added. destruct (next_its_spec its new Hi) as [N1 N2].
  assert (Hlt : st < en) by apply Ha.
  assert (En : en <= length q) by (rewrite HL; apply Hb; apply Ha).
  assert (HPL : en - st = length K + length l').
  { rewrite <- app_length, <- (Permutation_length HP), slice_length; lia. }
  assert (Hm : maxsz < en - st) by lia.
  destruct (HO st en Ha Hm) as (bits & HR & HInc).
  assert (HR' := HR). destruct HR' as (lo & up & np & B1 & B2 & B3).
  apply (partition_box_spec part Hconf) in B3.
  destruct B3 as (_ & _ & Bst & Bb & BK & _).
  rewrite slice_length in Bb, BK by lia. replace (st + (en - st)) with en in * by lia.
  destruct (BK K l') as (a & b & l'' & Ia & Ib & Hab & Hbe & Hz & HP'); auto.
  { intros ->. simpl in HM. lia. }
  { rewrite B2. eapply HK; eauto. }
  assert (a <= en /\ st <= a) by (specialize (Bb a Ia); lia).
  assert (Lq : length q' = length q) by (apply Permutation_length; auto).
  exists a, b, l''. split; [|split].
  - split; [apply N2; auto|]. split.
    { apply N2. destruct Ib as [Ib| ->]; [auto|left; apply Ha]. }
    split; auto. intros z Hzz. apply N2 in Hzz. destruct Hzz as [Hzz|Hzz].
    + destruct Ha as (_ & _ & _ & Ha). destruct (Ha z Hzz); lia.
    + destruct (HA z Hzz) as (s & e & els2 & bits2 & Ha2 & Hm2 & HR2 & Hxb).
      assert (En2 : e <= length q) by (rewrite HL; apply Hb; apply Ha2).
      assert (HR2' := HR2). apply refined_bits in HR2'; [|apply Ha2|auto].
      destruct HR2' as [_ HR2']. specialize (HR2' z Hxb).
      destruct Ha as (Hst & Hen & _ & Ha). destruct Ha2 as (Hs & He & Hse & Ha2).
      destruct (Ha s Hs) as [G1|G1]; [|right; lia].
      destruct (Ha e He) as [G2|G2]; [left; lia|].
      assert (s = st /\ e = en).
      { destruct (Ha2 st Hst); destruct (Ha2 en Hen); lia. }
      destruct H2 as [-> ->].
      destruct HR as (lo1 & up1 & np1 & C1 & C2 & C3).
      destruct HR2 as (lo2 & up2 & np2 & D1 & D2 & D3).
      rewrite C1 in D1. injection D1 as <- <-. subst np1 np2.
      rewrite C3 in D3. injection D3 as _ <-. apply Hz; auto.
  - assert (SE : slice a b q' = slice (a - st) (b - st) (slice st en q')).
    { rewrite (slice_split st en q') at 1 by lia.
      rewrite slice_app_r by (rewrite firstn_length; lia).
      rewrite firstn_length, Nat.min_l by lia.
      rewrite slice_app_l; auto. rewrite slice_length; lia. }
    rewrite SE. auto.
  - apply Permutation_length in HP'. rewrite app_length in HP'.
    rewrite slice_length in HP' by (try (rewrite slice_length by lia); lia). lia.
Qed.

Lemma together_oversize : forall n m maxsz its q K, Inv n its q -> maxsz < length K ->
  together m its q K -> any_oversize maxsz its = true.
Proof.
  intros n m maxsz its q K (HL & Hi & H0 & Hb) HM (st & en & l' & Ha & HP & _).
  apply any_oversize_iff; auto. exists st, en. split; auto.
  apply Permutation_length in HP. rewrite app_length, slice_length in HP.
  - lia.
  - destruct Ha as (_ & _ & Ha & _). lia.
  - rewrite HL. apply Hb. apply Ha.
Qed.

Lemma refine_stuck : forall n m maxsz (K : list (pw S)) fuel its q, Inv n its q ->
  inseparable m K -> maxsz < length K -> together m its q K ->
  refine part fuel maxsz its q = OutOfFuel.
Proof.
  intros n m maxsz K. induction fuel as [|fuel IH]; intros its q HI HK HM HT; simpl;
    rewrite (together_oversize n m maxsz its q K HI HM HT); auto.
  assert (HI' := HI). destruct HI' as (HL & Hi & H0 & Hb).
  destruct (refine_sweep_total maxsz its q [] Hi) as (q1 & new & ES); [intros; rewrite HL; auto|].
  rewrite ES. cbn [bind]. apply IH; auto.
  - destruct (sweep_Inv n maxsz its q q1 new HI ES) as (P & HI' & HInc). auto.
  - eapply sweep_together; eauto.
Qed.

(** Termination, from a progress hypothesis on oversize batches. *)
Definition splittable (q : list (pw S)) (st en : nat) : Prop :=
  forall els' bits, refined q st en els' bits -> exists x, In x bits /\ st < x < en.

Lemma refine_terminates : forall n maxsz fuel its q, Inv n its q ->
  (forall q1 st en, Permutation q1 q -> maxsz < en - st -> en <= n -> splittable q1 st en) ->
  n + 1 <= length its + fuel ->
  exists q' its', refine part fuel maxsz its q = Ok (q', its').
Proof.
  intros n maxsz. induction fuel as [|fuel IH]; intros its q HI HS HF; simpl;
    destruct (any_oversize maxsz its) eqn:E; eauto.
  - exfalso. destruct HI as (HL & Hi & H0 & Hb).
    apply any_oversize_iff in E; auto. destruct E as (x & y & Ha & Hm).
    destruct (Nat.eq_dec maxsz 0) as [->|Hz].
    + destruct (box_bounds_total (map fst (slice x y q))) as (lo & up & EB).
      { intro E. apply (f_equal (@length _)) in E. assert (y <= length q) by (rewrite HL; apply Hb; apply Ha).
        rewrite map_length in E. assert (E' : length (slice x y q) = 0) by exact E.
        rewrite slice_length in E' by lia. lia. }
      set (np := if point_in_box lo up (s0, s0, s0) then 3 else 2).
      destruct (partition_box part np lo up x (slice x y q)) as [els' bits] eqn:EP.
      destruct (HS q x y (Permutation_refl _) Hm) with els' bits as (z & _ & Hz); [apply Hb; apply Ha| |].
      { exists lo, up, np. auto. }
      assert (NI : ~ In z its) by (intro HI; destruct Ha as (_ & _ & _ & Ha); destruct (Ha z HI); lia).
      assert (Hinc : incl (z :: its) (seq 0 (n + 1))).
      { intros u [<-|Hu]; apply in_seq; [|specialize (Hb u Hu); lia].
        assert (y <= n) by (apply Hb; apply Ha). lia. }
      assert (ND : NoDup (z :: its)).
      { constructor; auto. clear - Hi. induction Hi as [|u l Hs IH Hf]; constructor; auto.
        intro Hx. rewrite Forall_forall in Hf. specialize (Hf u Hx). lia. }
      pose proof (NoDup_incl_length ND Hinc) as HLn. rewrite seq_length in HLn. simpl in HLn. lia.
    + assert (NI : ~ In (x + 1) its).
      { intro HI. destruct Ha as (_ & _ & _ & Ha). destruct (Ha (x + 1) HI); lia. }
      assert (Hinc : incl ((x + 1) :: its) (seq 0 (n + 1))).
      { intros u [<-|Hu]; apply in_seq; [|specialize (Hb u Hu); lia].
        assert (y <= n) by (apply Hb; apply Ha). lia. }
      assert (ND : NoDup ((x + 1) :: its)).
      { constructor; auto. clear - Hi. induction Hi as [|u l Hs IH Hf]; constructor; auto.
        intro Hx. rewrite Forall_forall in Hf. specialize (Hf u Hx). lia. }
      pose proof (NoDup_incl_length ND Hinc) as HLn. rewrite seq_length in HLn. simpl in HLn. lia.
  - assert (HI' := HI). destruct HI' as (HL & Hi & H0 & Hb).
    destruct (refine_sweep_total maxsz its q [] Hi) as (q1 & new & ES); [intros; rewrite HL; auto|].
    rewrite ES. cbn [bind].
    destruct (sweep_Inv n maxsz its q q1 new HI ES) as (P & HI' & HInc).
    apply IH; auto.
    + intros q2 st en P2. apply HS. rewrite P2. auto.
    + apply any_oversize_iff in E; auto. destruct E as (x & y & Ha & Hm).
      destruct (refine_sweep_spec maxsz its q [] q1 new Hi) as (added & E & _ & _ & _ & HO & _);
        auto; [intros; rewrite HL; auto|].
      simpl in E. subst added. destruct (HO x y Ha Hm) as (bits & HR & HB).
      destruct (HS q x y (Permutation_refl _) Hm) with (slice x y q1) bits as (z & Hzb & Hz);
        [apply Hb; apply Ha|auto|].
      assert (NI : ~ In z its) by (intro HIz; destruct Ha as (_ & _ & _ & Ha); destruct (Ha z HIz); lia).
      destruct (next_its_spec its new Hi) as [N1 N2].
      assert (ND : NoDup (z :: its)).
      { constructor; auto. clear - Hi. induction Hi as [|u l Hs IH Hf]; constructor; auto.
        intro Hx. rewrite Forall_forall in Hf. specialize (Hf u Hx). lia. }
      assert (Hinc : incl (z :: its) (next_its its new)).
      { intros u [<-|Hu]; apply N2; auto. }
      pose proof (NoDup_incl_length ND Hinc) as HLn. simpl in HLn. unfold next_its in HLn. lia.
Qed.
End Refine.
