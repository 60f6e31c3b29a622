(** Facts about the partitioning step and the refinement loop. *)
From Coq Require Import List Arith Lia Permutation Sorted Bool.
From Verif Require Import Base.Outcome Base.OutcomeFacts Base.Scalar Model.Quadrature Model.S2
  Model.Composite Model.Batcher Spec.BatchSpec Proofs.ListNat.
Import ListNotations.

Lemma filter_perm : forall {A} (f : A -> bool) l l', Permutation l l' ->
  Permutation (filter f l) (filter f l').
Proof.
  intros A f l l' H. induction H; simpl; auto.
  - destruct (f x); auto.
  - destruct (f x), (f y); auto. constructor.
  - etransitivity; eauto.
Qed.
Lemma filter_all : forall {A} (f : A -> bool) l, Forall (fun e => f e = true) l -> filter f l = l.
Proof. intros A f l H. induction H; simpl; auto. rewrite H. f_equal; auto. Qed.
Lemma filter_none : forall {A} (f : A -> bool) l, Forall (fun e => f e = false) l -> filter f l = [].
Proof. intros A f l H. induction H; simpl; auto. rewrite H. auto. Qed.
Lemma firstn_app_len : forall {A} (a b : list A) k, k = length a -> firstn k (a ++ b) = a.
Proof. intros A a b k ->. rewrite firstn_app, Nat.sub_diag, firstn_all, firstn_O, app_nil_r. auto. Qed.
Lemma skipn_app_len : forall {A} (a b : list A) k, k = length a -> skipn k (a ++ b) = b.
Proof. intros A a b k ->. rewrite skipn_app, Nat.sub_diag, skipn_all, skipn_O. auto. Qed.
Lemma filter_false_Forall : forall {A} (f : A -> bool) l,
  Forall (fun e => negb (f e) = true) l -> Forall (fun e => f e = false) l.
Proof. intros A f l. apply Forall_impl. intros a. destruct (f a); auto; discriminate. Qed.

(** ** Slices *)
Lemma skipn_skipn' : forall {A} x y (l : list A), skipn x (skipn y l) = skipn (x + y) l.
Proof.
  intros A x y. induction y as [|y IH]; intro l; [rewrite Nat.add_0_r; auto|].
  rewrite Nat.add_succ_r. destruct l; [rewrite !skipn_nil; auto|]. simpl. apply IH.
Qed.
Lemma slice_length : forall {A} st en (q : list A), st <= en -> en <= length q ->
  length (slice st en q) = en - st.
Proof. intros. unfold slice. rewrite firstn_length, skipn_length. lia. Qed.
Lemma slice_split : forall {A} st en (q : list A), st <= en -> en <= length q ->
  q = firstn st q ++ slice st en q ++ skipn en q.
Proof.
  intros A st en q H1 H2. unfold slice. rewrite <- (firstn_skipn st q) at 1. f_equal.
  rewrite <- (firstn_skipn (en - st) (skipn st q)) at 1. f_equal.
  rewrite skipn_skipn'. f_equal. lia.
Qed.
Lemma splice_eq : forall {A} st en (els q : list A), st <= en -> en <= length q ->
  length els = en - st -> splice st els q = firstn st q ++ els ++ skipn en q.
Proof. intros. unfold splice. do 3 f_equal. lia. Qed.
Lemma splice_perm : forall {A} st en (els q : list A), st <= en -> en <= length q ->
  Permutation els (slice st en q) -> Permutation (splice st els q) q.
Proof.
  intros A st en els q H1 H2 HP.
  assert (L : length els = en - st) by (rewrite (Permutation_length HP); apply slice_length; auto).
  rewrite (splice_eq st en); auto. rewrite (slice_split st en q H1 H2) at 3.
  apply Permutation_app_head. apply Permutation_app_tail. auto.
Qed.
Lemma splice_length : forall {A} st en (els q : list A), st <= en -> en <= length q ->
  length els = en - st -> length (splice st els q) = length q.
Proof.
  intros. rewrite (splice_eq st en) by auto. rewrite !app_length, firstn_length, skipn_length. lia.
Qed.
Lemma slice_app_mid : forall {A} (a b c : list A) st en, st = length a -> en = st + length b ->
  slice st en (a ++ b ++ c) = b.
Proof.
  intros A a b c st en -> ->. unfold slice. rewrite skipn_app_len by auto.
  apply firstn_app_len. lia.
Qed.
Lemma slice_app_l : forall {A} (a b : list A) st en, en <= length a ->
  slice st en (a ++ b) = slice st en a.
Proof.
  intros A a b st en H. unfold slice. rewrite skipn_app, firstn_app, skipn_length.
  replace (en - st - (length a - st)) with 0 by lia. rewrite firstn_O, app_nil_r. auto.
Qed.
Lemma slice_app_r : forall {A} (a b : list A) st en, length a <= st ->
  slice st en (a ++ b) = slice (st - length a) (en - length a) b.
Proof.
  intros A a b st en H. unfold slice. rewrite skipn_app, skipn_all2 by lia.
  replace (en - length a - (st - length a)) with (en - st) by lia. auto.
Qed.
(** A slice disjoint from, or inside, the spliced range. *)
Lemma slice_splice_other : forall {A} st en (els q : list A) s e, st <= en -> en <= length q ->
  length els = en - st -> s <= e -> e <= st \/ en <= s ->
  slice s e (splice st els q) = slice s e q.
Proof.
  intros A st en els q s e H1 H2 HL Hse Ho. rewrite (splice_eq st en) by auto.
  rewrite (slice_split st en q H1 H2) at 3.
  assert (F : length (firstn st q) = st) by (rewrite firstn_length; lia).
  assert (G : length (slice st en q) = en - st) by (apply slice_length; auto).
  destruct Ho.
  - rewrite !slice_app_l by lia. auto.
  - rewrite (slice_app_r (firstn st q)) by lia. rewrite (slice_app_r els) by lia.
    rewrite (slice_app_r (firstn st q)) by lia. rewrite (slice_app_r (slice st en q)) by lia.
    rewrite F, HL, G. auto.
Qed.
Lemma slice_splice_inside : forall {A} st en (els q : list A) s e, st <= en -> en <= length q ->
  length els = en - st -> st <= s -> s <= e -> e <= en ->
  slice s e (splice st els q) = slice (s - st) (e - st) els.
Proof.
  intros A st en els q s e H1 H2 HL Hs Hse He. rewrite (splice_eq st en) by auto.
  assert (F : length (firstn st q) = st) by (rewrite firstn_length; lia).
  rewrite slice_app_r by lia. rewrite slice_app_l by lia. rewrite F. auto.
Qed.

Section Partition.
Context {S : Scalar}.
Variable part : (pw S -> bool) -> list (pw S) -> list (pw S).
Hypothesis Hconf : conforming part.
Notation inbox b e := (point_in_box (fst b) (snd b) (fst e)).

Lemma part_split : forall f l, exists yes no, part f l = yes ++ no /\
  Permutation (yes ++ no) l /\ length (filter f l) = length yes /\
  Forall (fun e => f e = true) yes /\ Forall (fun e => f e = false) no.
Proof.
  intros f l. destruct (Hconf f l) as (HP & yes & no & E & HY & HN).
  exists yes, no. rewrite E in HP. repeat split; auto.
  rewrite <- (Permutation_length (filter_perm f _ _ HP)).
  rewrite filter_app, (filter_all f yes HY), (filter_none f no HN), app_nil_r. auto.
Qed.

Fixpoint cuts {A} (st : nat) (chunks : list (list A)) : list nat :=
  match chunks with [] => [] | c :: r => (st + length c) :: cuts (st + length c) r end.

(** Of the boxes in order, the first one containing some point of [K] contains all
    of them. *)
Fixpoint stays (K : list (pw S)) (boxes : list (@pt3 S * @pt3 S)) : Prop :=
  match boxes with
  | [] => True
  | b :: bs => Forall (fun e => inbox b e = true) K \/
               (Forall (fun e => inbox b e = false) K /\ stays K bs)
  end.

Lemma partition_loop_spec : forall boxes st rest,
  exists chunks left,
    fst (partition_loop part boxes st rest) = concat chunks ++ left /\
    snd (partition_loop part boxes st rest) = cuts st chunks /\
    Permutation (concat chunks ++ left) rest /\
    Forall2 (fun b c => Forall (fun e => inbox b e = true) c) boxes chunks /\
    Forall (fun e => Forall (fun b => inbox b e = false) boxes) left /\
    (forall K l', Permutation rest (K ++ l') ->
       stays K boxes ->
       (exists l'', Permutation left (K ++ l'')) \/
       (exists c1 c c2 l'', chunks = c1 ++ c :: c2 /\ Permutation c (K ++ l''))).
Proof.
  induction boxes as [|[blo bup] boxes IH]; intros st rest.
  - exists [], rest. simpl. repeat split; auto.
    + apply Forall_forall. intros. constructor.
    + intros K l' H _. left. eauto.
  - simpl. set (inb := fun e : pw S => point_in_box blo bup (fst e)).
    destruct (part_split inb rest) as (yes & no & E & HP & HL & HY & HN).
    rewrite E, HL. rewrite firstn_app_len, skipn_app_len by auto.
    destruct (IH (st + length yes) no) as (chunks & left & E1 & E2 & P & F2 & FL & HK).
    destruct (partition_loop part boxes (st + length yes) no) as [tail its].
    simpl in E1, E2. subst tail its.
    exists (yes :: chunks), left. simpl. repeat split.
    + rewrite app_assoc. auto.
    + rewrite <- app_assoc. rewrite P. auto.
    + constructor; auto.
    + apply Forall_forall. intros e He. rewrite Forall_forall in FL, HN. constructor; auto.
      apply HN. apply (Permutation_in e P). apply in_or_app; auto.
    + intros K l' HR HKp. destruct HKp as [Ep|[Ep HKr]]; simpl in Ep.
      * right. exists [], yes, chunks, (filter inb l'). split; auto.
        assert (Permutation (filter inb (yes ++ no)) (filter inb (K ++ l'))).
        { apply filter_perm. rewrite HP. auto. }
        rewrite !filter_app, (filter_all _ _ HY), (filter_none _ _ HN), app_nil_r in H.
        rewrite (filter_all inb K) in H; auto.
      * destruct (HK K (filter (fun e => negb (inb e)) l')) as [(l'' & H)|(c1 & c & c2 & l'' & -> & H)]; auto.
        -- assert (Permutation (filter (fun e => negb (inb e)) (yes ++ no))
                               (filter (fun e => negb (inb e)) (K ++ l'))).
           { apply filter_perm. rewrite HP. auto. }
           rewrite !filter_app in H. rewrite (filter_none _ yes), (filter_all _ no), (filter_all _ K) in H; auto.
           ++ eapply Forall_impl; [|exact Ep]. intros e He. unfold inb. rewrite He. auto.
           ++ eapply Forall_impl; [|exact HN]. simpl. intros e He. rewrite He. auto.
           ++ eapply Forall_impl; [|exact HY]. simpl. intros e He. rewrite He. auto.
        -- left. eauto.
        -- right. exists (yes :: c1), c, c2, l''. auto.
Qed.

Lemma cuts_In : forall {A} (chunks : list (list A)) st x, In x (st :: cuts st chunks) <->
  exists c1 c2, chunks = c1 ++ c2 /\ x = st + length (concat c1).
Proof.
  induction chunks as [|c chunks IH]; intros st x.
  - simpl. split.
    + intros [<-|[]]. exists [], []. simpl. auto.
    + intros (c1 & c2 & E & ->). destruct c1; [|discriminate]. simpl. auto.
  - change (In x (st :: (st + length c) :: cuts (st + length c) chunks) <->
      exists c1 c2, c :: chunks = c1 ++ c2 /\ x = st + length (concat c1)).
    split.
    + intros [<-|H]; [exists [], (c :: chunks); simpl; auto|]. apply IH in H.
      destruct H as (c1 & c2 & -> & ->). exists (c :: c1), c2. simpl. rewrite app_length. split; auto; lia.
    + intros (c1 & c2 & E & ->). destruct c1 as [|d c1]; [left; simpl; lia|].
      injection E as -> ->. right. apply IH. exists c1, c2. simpl. rewrite app_length. split; auto; lia.
Qed.
Lemma cuts_ndecr : forall {A} (chunks : list (list A)) st, ndecr (st :: cuts st chunks).
Proof.
  induction chunks as [|c chunks IH]; intro st; [repeat constructor|]. simpl.
  specialize (IH (st + length c)). constructor; auto. apply Forall_forall. intros x Hx.
  apply cuts_In in Hx. destruct Hx as (? & ? & _ & ->). lia.
Qed.

(** ** partition_box *)
Lemma partition_box_spec : forall npart lo up st els els' bits,
  partition_box part npart lo up st els = (els', bits) ->
  Permutation els' els /\ incr bits /\ In st bits /\
  (forall x, In x bits -> st <= x <= st + length els) /\
  (* a group of points that no sub-box separates stays together *)
  (forall K l', K <> [] -> Permutation els (K ++ l') ->
     stays K (sub_boxes npart lo up) ->
     exists a b l'', In a bits /\ (In b bits \/ b = st + length els) /\ a < b /\
       b <= st + length els /\
       (forall z, In z bits -> z <= a \/ b <= z) /\
       Permutation (slice (a - st) (b - st) els') (K ++ l'')) /\
  (* if each element is in some sub-box, the last iterator is the end *)
  (Forall (fun e => Exists (fun b => inbox b e = true) (sub_boxes npart lo up)) els ->
     In (st + length els) bits) /\
  (* if no sub-box contains all elements, and each element is in some, there is an
     inner cut *)
  (els <> [] ->
   Forall (fun e => Exists (fun b => inbox b e = true) (sub_boxes npart lo up)) els ->
   (forall b, In b (sub_boxes npart lo up) -> Exists (fun e => inbox b e = false) els) ->
     exists x, In x bits /\ st < x < st + length els).
Proof.
  intros npart lo up st els els' bits H. unfold partition_box in H.
  destruct (partition_loop_spec (sub_boxes npart lo up) st els)
    as (chunks & left & E1 & E2 & HP & F2 & FL & HK).
  destruct (partition_loop part (sub_boxes npart lo up) st els) as [e i].
  simpl in E1, E2. subst e i. apply pair_equal_spec in H. destruct H as [<- <-].
  assert (BI : forall x, In x (std_unique (st :: cuts st chunks)) <->
    exists c1 c2, chunks = c1 ++ c2 /\ x = st + length (concat c1)).
  { intro x. rewrite In_unique. apply cuts_In. }
  assert (LEN : length els = length (concat chunks) + length left).
  { rewrite <- (Permutation_length HP), app_length. auto. }
  assert (COV : Forall (fun e => Exists (fun b => inbox b e = true) (sub_boxes npart lo up)) els ->
    left = []).
  { intro HC. destruct left as [|e left]; auto. exfalso.
    rewrite Forall_forall in HC, FL. specialize (FL e (or_introl eq_refl)).
    specialize (HC e). rewrite Exists_exists in HC. rewrite Forall_forall in FL.
    destruct HC as (b & Hb & Hb').
    - apply (Permutation_in e HP). apply in_or_app; simpl; auto.
    - specialize (FL b Hb). congruence. }
  repeat split.
  - auto.
  - apply unique_incr. apply cuts_ndecr.
  - apply BI. exists [], chunks. simpl. auto.
  - apply BI in H. destruct H as (c1 & c2 & -> & ->). lia.
  - apply BI in H. destruct H as (c1 & c2 & -> & ->). rewrite concat_app, app_length in LEN. lia.
  - intros K l' HK0 HKP HKp. destruct (HK K l' HKP HKp) as [(l'' & HL)|(c1 & c & c2 & l'' & -> & HL)].
    + assert (0 < length left).
      { rewrite (Permutation_length HL), app_length. destruct K; [easy|]. simpl. lia. }
      exists (st + length (concat chunks)), (st + length els), l''.
      split; [apply BI; exists chunks, []; rewrite app_nil_r; auto|].
      split; auto. split; [lia|]. split; [lia|]. split.
      * intros z Hz. apply BI in Hz. destruct Hz as (c1 & c2 & -> & ->).
        rewrite concat_app, app_length. lia.
      * rewrite <- HL. replace (concat chunks ++ left) with (concat chunks ++ left ++ []) by
          (rewrite app_nil_r; auto). rewrite slice_app_mid; try lia. reflexivity.
    + assert (0 < length c).
      { rewrite (Permutation_length HL), app_length. destruct K; [easy|]. simpl. lia. }
      exists (st + length (concat c1)), (st + length (concat (c1 ++ [c]))), l''.
      rewrite !concat_app in *. simpl concat in *. rewrite app_nil_r in *. rewrite !app_length in *.
      split; [apply BI; exists c1, (c :: c2); auto|].
      split; [left; apply BI; exists (c1 ++ [c]), c2; split;
              [rewrite <- app_assoc; auto|rewrite concat_app, app_length; simpl; rewrite app_nil_r; auto]|].
      split; [lia|]. split; [lia|]. split.
      * intros z Hz. apply BI in Hz. destruct Hz as (d1 & d2 & E & ->).
        apply app_eq_app in E. destruct E as (m & [(-> & E)|(-> & E)]).
        -- left. rewrite concat_app, app_length. lia.
        -- rewrite concat_app, app_length. destruct m as [|m0 m]; [left; simpl; lia|].
           injection E as -> _. right. simpl. rewrite app_length. lia.
      * rewrite <- HL. rewrite <- app_assoc. rewrite <- app_assoc. rewrite slice_app_mid; try lia. reflexivity.
  - intro HC. rewrite (COV HC) in *. apply BI. exists chunks, []. rewrite app_nil_r.
    simpl in LEN. split; auto. lia.
  - intros NE HC HE. rewrite (COV HC) in *. rewrite app_nil_r in HP. simpl in LEN.
    assert (CH : forall c, In c chunks -> length c < length els).
    { intros c Hc. apply in_split in Hc. destruct Hc as (c1 & c2 & ->).
      apply Forall2_app_inv_r in F2. destruct F2 as (b1 & b2' & F1 & F2 & E).
      inversion F2 as [|b ? b2 ? Hbc F3]; subst.
      rewrite concat_app in HP, LEN. simpl in HP, LEN. rewrite !app_length in LEN.
      destruct (Nat.eq_dec (length (concat c1)) 0) as [Z1|Z1]; [|lia].
      destruct (Nat.eq_dec (length (concat c2)) 0) as [Z2|Z2]; [|lia].
      apply length_zero_iff_nil in Z1, Z2. rewrite Z1, Z2, app_nil_r in HP. simpl in HP.
      exfalso. specialize (HE b). rewrite E in HE.
      assert (Hin : In b (b1 ++ b :: b2)) by (apply in_or_app; simpl; auto).
      specialize (HE Hin). rewrite Exists_exists in HE. destruct HE as (e & He & Hb).
      apply (Permutation_in e (Permutation_sym HP)) in He.
      rewrite Forall_forall in Hbc. specialize (Hbc e He). congruence. }
    assert (FN : forall ch : list (list (pw S)), 0 < length (concat ch) ->
      exists c1 c c2, ch = c1 ++ c :: c2 /\ concat c1 = [] /\ 0 < length c).
    { induction ch as [|c ch IH]; simpl; [lia|]. intro HL. destruct c as [|x c].
      - destruct (IH HL) as (c1 & c & c2 & -> & E & Hc). exists ([] :: c1), c, c2. auto.
      - exists [], (x :: c), ch. simpl. split; auto. split; auto. lia. }
    destruct (FN chunks) as (c1 & c & c2 & E & E0 & Hc).
    { destruct els; [easy|]. simpl in LEN. lia. }
    exists (st + length c). split.
    + apply BI. exists (c1 ++ [c]), c2. rewrite <- app_assoc. split; auto.
      rewrite concat_app, E0. simpl. rewrite app_nil_r. auto.
    + specialize (CH c). rewrite E in CH. specialize (CH (in_elt _ _ _)). lia.
Qed.

Lemma coincident_boxes : forall (K : list (pw S)) (p : @pt3 S) boxes,
  Forall (fun e => fst e = p) K -> stays K boxes.
Proof.
  intros K p boxes HK. induction boxes as [|b boxes IH]; simpl; auto.
  destruct (point_in_box (fst b) (snd b) p) eqn:E; [left|right; split; auto];
    (eapply Forall_impl; [|exact HK]); intros e He; simpl in He; rewrite He; auto.
Qed.
End Partition.
