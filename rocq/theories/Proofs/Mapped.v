(** Stored rules sent through the interval transformation: pairs and sums. *)
From Coq Require Import List Bool Arith ZArith Lia Reals Lra Psatz.
From Coquelicot Require Import Coquelicot.
From Flocq Require Import IEEE754.BinarySingleNaN.
From Verif Require Import Base.Outcome Base.Scalar Base.FScalar Model.BoundFloat
  Spec.Sums Spec.RealRules Spec.ErrorSpec Spec.FloatSpec Spec.LibmSpec Spec.BoundFloatSpec Spec.MappedSpec
  Proofs.BoundFloat Proofs.BoundFloatThm.
Import ListNotations.
Local Open Scope R_scope.

Lemma rule_pairs : forall (q : list F64 * list F64) f,
  apply_rule (real_rule q) f = Rsum (map (fun xw => B2R (snd xw) * f (B2R (fst xw))) (combine (fst q) (snd q))).
Proof.
  intros (x, w) f. unfold apply_rule, wsum, real_rule. cbn [fst snd]. revert w.
  induction x as [|a x IH]; intros [|b w]; try reflexivity. cbn [map combine fst snd]. unfold Rsum in *. cbn [fold_right].
  rewrite <- IH. reflexivity.
Qed.

(** Sums compared pair by pair. *)
Lemma pairs_close : forall (T : F64 * F64 -> F64 * F64 -> Prop) c A B f g la lb, List.Forall2 T la lb ->
  (forall a b, In a la -> T a b -> Rabs (B2R (snd b) * f (B2R (fst b)) - c * (B2R (snd a) * g (B2R (fst a)))) <= A * B2R (snd a) + B) ->
  Rabs (Rsum (map (fun xw => B2R (snd xw) * f (B2R (fst xw))) lb) - c * Rsum (map (fun xw => B2R (snd xw) * g (B2R (fst xw))) la))
   <= A * Rsum (map (fun xw => B2R (snd xw) * 1) la) + INR (length la) * B.
Proof.
  intros T c A B f g la lb F. induction F as [|a b la lb Hab F IH]; intro H.
  - unfold Rsum. simpl. rewrite Rabs_right by lra. lra.
  - specialize (IH (fun x y Hx => H x y (or_intror Hx))). specialize (H a b (or_introl eq_refl) Hab).
    unfold Rsum in *. cbn [map fold_right length]. rewrite S_INR.
    set (X := B2R (snd b) * f (B2R (fst b))) in *. set (Y := B2R (snd a) * g (B2R (fst a))) in *.
    match type of IH with Rabs (?p - c * ?q) <= _ => replace (X + p - c * (Y + q)) with ((X - c * Y) + (p - c * q)) by ring end.
    eapply Rle_trans; [apply Rabs_triang|]. lra.
Qed.

Lemma maps_exist : forall m dbg lo up (q : list F64 * list F64), length (fst q) = length (snd q) ->
  (forall x w, In x (fst q) -> In w (snd q) -> exists yv, transform_f64 m dbg lo up x w = Ok yv) -> exists q', maps_f64 m dbg lo up q q'.
Proof.
  intros m dbg lo up (x, w). unfold maps_f64. cbn [fst snd]. revert w.
  induction x as [|a x IH]; intros [|b w] E H; cbn [length] in E; try discriminate.
  - exists ([], []). repeat split. constructor.
  - destruct (IH w ltac:(lia)) as ((y, v) & L1 & L2 & F). { intros; apply H; right; auto. }
    destruct (H a b (or_introl eq_refl) (or_introl eq_refl)) as ((c, d) & Hc).
    exists (c :: y, d :: v). cbn [fst snd length combine] in *. repeat split; try lia. constructor; auto.
Qed.

Lemma in_pairs : forall (q : list F64 * list F64) a, In a (combine (fst q) (snd q)) -> In (fst a) (fst q) /\ In (snd a) (snd q).
Proof. intros q (x, w) H. split; [eapply in_combine_l|eapply in_combine_r]; exact H. Qed.

Lemma in_real : forall (l : list F64) x, In x l -> In (B2R x) (map B2R l).
Proof. intros. apply in_map. auto. Qed.

(** One weight is at most the sum. *)
Lemma weight_le : forall (q : list F64 * list F64) w, length (fst q) = length (snd q) -> (forall v, In v (snd (real_rule q)) -> 0 < v) ->
  In w (snd q) -> B2R w <= apply_rule (real_rule q) (fun _ => 1).
Proof.
  intros (x, ws) w. unfold apply_rule, wsum, real_rule. cbn [fst snd]. revert x. unfold Rsum.
  induction ws as [|b ws IH]; intros [|a x] E P H; cbn [length] in E; try discriminate; [destruct H|]. destruct H as [<-|H]; cbn [map combine fold_right fst snd].
  - assert (0 <= fold_right Rplus 0 (map (fun pw : R * R => snd pw * 1) (combine (map B2R x) (map B2R ws)))); [|lra].
    assert (P' : forall v, In v (map B2R ws) -> 0 < v) by (intros; apply P; right; auto).
    clear - P'. revert P'. generalize (map B2R x) (map B2R ws). intros l l'. revert l.
    induction l' as [|c l' IH]; intros [|e l] P; cbn [combine map fold_right fst snd]; try lra.
    pose proof (P c (or_introl eq_refl)). specialize (IH l (fun v Hv => P v (or_intror Hv))). lra.
  - specialize (IH x ltac:(lia) (fun v Hv => P v (or_intror Hv)) H). pose proof (P (B2R b) (or_introl eq_refl)). lra.
Qed.

(** A stored rule on [-1,1]. *)
Definition stored (n : nat) (q : list F64 * list F64) : Prop :=
  all_finite q /\ length (fst q) = n /\ length (snd q) = n /\
  (forall x, In x (fst (real_rule q)) -> -1 <= x <= 1) /\ (forall w, In w (snd (real_rule q)) -> 0 < w) /\
  apply_rule (real_rule q) (fun _ => 1) <= 3.

Lemma stored_weight : forall n q w, stored n q -> In w (snd q) -> is_finite w = true /\ 0 < B2R w <= 3.
Proof.
  intros n q w (F & L1 & L2 & _ & P & S) H. split; [apply F; auto|]. split; [apply P, in_real; auto|].
  eapply Rle_trans; [apply (weight_le q w); auto; congruence|]. exact S.
Qed.

Lemma stored_node : forall n q x, stored n q -> In x (fst q) -> is_finite x = true /\ Rabs (B2R x) <= 1.
Proof. intros n q x (F & _ & _ & X & _) H. split; [apply F; auto|]. apply Rabs_le. pose proof (X (B2R x) (in_real _ _ H)). lra. Qed.

Lemma three_60 : 3 <= 2 ^ 60.
Proof. assert (2 ^ 2 <= 2 ^ 60) by (apply Rle_pow; [lra|lia]). lra. Qed.

Lemma extent_pos : forall lo up, 0 <= extent lo up.
Proof. intros. unfold extent. eapply Rle_trans; [apply Rabs_pos|apply Rmax_l]. Qed.

Lemma ulp_pos : 0 < ulp53.
Proof. unfold ulp53. apply Rinv_0_lt_compat, pow_lt. lra. Qed.

Lemma spill_pos : forall lo up, 0 < spill lo up.
Proof.
  intros. unfold spill. pose proof (extent_pos lo up). pose proof ulp_pos. pose proof tiny_lt.
  assert (0 <= 12 * ulp53 * extent lo up) by (apply Rmult_le_pos; lra). lra.
Qed.

Section Finite.
Variables (m : libm) (dbg : bool) (lo up : F64) (n : nat) (q : list F64 * list F64).
Hypothesis Hl : plain_bound lo.
Hypothesis Hu : plain_bound up.
Hypothesis Lt : Bltb lo up = true.
Hypothesis St : stored n q.

Lemma map_runs : exists q', maps_f64 m dbg lo up q q'.
Proof.
  apply maps_exist. { destruct St as (_ & A & B & _). congruence. }
  intros x w Hx Hw. destruct (stored_node n q x St Hx) as (Fx & Ax). destruct (stored_weight n q w St Hw) as (Fw & Aw).
  destruct (finite_thm m dbg lo up x w Hl Hu Lt Fx Ax Fw) as (y & v & E & _).
  { rewrite Rabs_pos_eq by lra. pose proof three_60. lra. }
  eauto.
Qed.

Lemma map_finite : forall q', maps_f64 m dbg lo up q q' -> all_finite q'.
Proof.
  intros q' (E1 & E2 & F). destruct St as (_ & A & B & _).
  assert (G : forall b, In b (combine (fst q') (snd q')) -> is_finite (fst b) = true /\ is_finite (snd b) = true).
  { assert (Q : forall a, In a (combine (fst q) (snd q)) -> In (fst a) (fst q) /\ In (snd a) (snd q)) by apply in_pairs.
    revert Q. induction F as [|a b la lb Hab F IH]; intros Q c; [intros []|]. intros [<-|H]; [|apply IH; auto; intros; apply Q; right; auto].
    destruct (Q a (or_introl eq_refl)) as (Hx & Hw). destruct (stored_node n q _ St Hx) as (Fx & Ax). destruct (stored_weight n q _ St Hw) as (Fw & Aw).
    destruct (finite_thm m dbg lo up (fst a) (snd a) Hl Hu Lt Fx Ax Fw) as (y & v & E & Fy & Fv & _).
    { eapply Rle_trans; [|exact three_60]. apply Rabs_le. split; [|exact (proj2 Aw)]. apply Rle_trans with 0; [lra|]. left. exact (proj1 Aw). }
    assert (Eb : Ok b = Ok (y, v)) by (etransitivity; [symmetry; exact Hab|exact E]). injection Eb as Eb. subst b. auto. }
  assert (LL : length (fst q') = length (snd q')) by congruence.
  intros x [H|H]; apply In_nth_error in H; destruct H as (i & Hi).
  - destruct (nth_error (snd q') i) as [w|] eqn:W.
    2:{ apply nth_error_None in W. assert (i < length (fst q'))%nat by (apply nth_error_Some; congruence). lia. }
    apply (G (x, w)). apply nth_error_In with i. clear - Hi W. revert i Hi W. generalize (fst q') (snd q').
    induction l as [|a l IH]; intros [|b l'] [|i]; cbn; intros; try discriminate; [congruence|apply IH; auto].
  - destruct (nth_error (fst q') i) as [y|] eqn:W.
    2:{ apply nth_error_None in W. assert (i < length (snd q'))%nat by (apply nth_error_Some; congruence). lia. }
    apply (G (y, x)). apply nth_error_In with i. clear - Hi W. revert i Hi W. generalize (fst q') (snd q').
    induction l as [|a l IH]; intros [|b l'] [|i]; cbn; intros; try discriminate; [congruence|apply IH; auto].
Qed.

Let h := (B2R up - B2R lo) / 2.
Let c := (B2R up + B2R lo) / 2.

Lemma h_pos : 0 < h.
Proof. unfold h. pose proof (Bltb_lt lo up (proj1 Hl) (proj1 Hu) Lt). lra. Qed.

Lemma aff_in : forall x, -1 <= x <= 1 -> B2R lo <= h * x + c <= B2R up.
Proof. intros x Hx. pose proof h_pos. unfold h, c in *. nra. Qed.

Lemma mapped_close : forall q' f K L, maps_f64 m dbg lo up q q' ->
  (forall x, B2R lo - spill lo up <= x <= B2R up + spill lo up -> Rabs (f x) <= K) ->
  lipschitz (B2R lo - spill lo up) (B2R up + spill lo up) L f ->
  Rabs (apply_rule (real_rule q') f - h * apply_rule (real_rule q) (fun x => f (h * x + c))) <= move_error n lo up K L.
Proof.
  intros q' f K L (_ & _ & F) FK FL. pose proof (spill_pos lo up) as SP. pose proof h_pos as HP.
  assert (K0 : 0 <= K). { eapply Rle_trans; [apply (Rabs_pos (f (h * 0 + c)))|]. apply FK. pose proof (aff_in 0 ltac:(lra)). lra. }
  assert (L0 : 0 <= L).
  { pose proof (FL (B2R lo) (B2R up)) as A. assert (B : Rabs (B2R lo - B2R up) = 2 * h) by (rewrite Rabs_left; unfold h in *; lra).
    rewrite B in A. specialize (A ltac:(unfold h in *; lra) ltac:(unfold h in *; lra)). pose proof (Rabs_pos (f (B2R lo) - f (B2R up))). nra. }
  pose proof (extent_pos lo up) as EP. pose proof ulp_pos as UP. pose proof tiny_lt as TP.
  set (A := (6 * ulp53 * extent lo up + 2 * tiny) * K + h * L * spill lo up).
  assert (A0 : 0 <= A). { unfold A. assert (0 <= 6 * ulp53 * extent lo up) by (apply Rmult_le_pos; lra).
    apply Rplus_le_le_0_compat; [apply Rmult_le_pos; lra|apply Rmult_le_pos; [apply Rmult_le_pos|]; lra]. }
  rewrite !rule_pairs.
  eapply Rle_trans; [apply (pairs_close _ h A (tiny * K) f (fun x => f (h * x + c)) _ _ F)|].
  - intros a b Ha Hab. destruct (in_pairs q a Ha) as (Hx & Hw). destruct (stored_node n q _ St Hx) as (Fx & Ax). destruct (stored_weight n q _ St Hw) as (Fw & Aw).
    destruct (finite_thm m dbg lo up (fst a) (snd a) Hl Hu Lt Fx Ax Fw) as (y & v & E & Fy & Fv & Ey & Ev).
    { eapply Rle_trans; [|exact three_60]. apply Rabs_le. split; [|exact (proj2 Aw)]. apply Rle_trans with 0; [lra|]. left. exact (proj1 Aw). }
    assert (Eb : Ok b = Ok (y, v)) by (etransitivity; [symmetry; exact Hab|exact E]). injection Eb as Eb. subst b. cbn [fst snd].
    fold h c in Ey. fold h in Ev. fold (extent lo up) in Ey, Ev. fold (spill lo up) in Ey.
    set (x := B2R (fst a)) in *. set (w := B2R (snd a)) in *. rewrite (Rabs_pos_eq w) in Ev by lra.
    assert (Hx1 : -1 <= x <= 1) by (apply Rabs_le_between; exact Ax).
    pose proof (aff_in x Hx1) as In1.
    assert (In2 : B2R lo - spill lo up <= B2R y <= B2R up + spill lo up) by (apply Rabs_le_between in Ey; lra).
    pose proof (FK _ In2) as Ky. pose proof (FL (B2R y) (h * x + c) In2 ltac:(lra)) as Ly.
    replace (B2R v * f (B2R y) - h * (w * f (h * x + c))) with ((B2R v - w * h) * f (B2R y) + w * (h * (f (B2R y) - f (h * x + c)))) by ring.
    eapply Rle_trans; [apply Rabs_triang|]. rewrite !Rabs_mult, (Rabs_pos_eq w), (Rabs_pos_eq h) by lra.
    assert (T1 : Rabs (B2R v - w * h) * Rabs (f (B2R y)) <= (w * (6 * ulp53 * extent lo up + 2 * tiny) + tiny) * K).
    { apply Rmult_le_compat; auto using Rabs_pos. }
    assert (T2 : w * (h * Rabs (f (B2R y) - f (h * x + c))) <= w * (h * (L * spill lo up))).
    { apply Rmult_le_compat_l; [lra|]. apply Rmult_le_compat_l; [lra|]. eapply Rle_trans; [exact Ly|]. apply Rmult_le_compat_l; auto. }
    unfold A. eapply Rle_trans; [apply Rplus_le_compat; [exact T1|exact T2]|]. apply Req_le. ring.
  - pose proof (rule_pairs q (fun _ => 1)) as E1. rewrite <- E1.
    destruct St as (_ & L1 & L2 & _ & _ & S3).
    rewrite combine_length, L1, L2, Nat.min_id.
    eapply Rle_trans; [apply Rplus_le_compat_r; apply Rmult_le_compat_l; [exact A0|exact S3]|].
    unfold A, move_error. fold h. apply Req_le. ring.
Qed.

(** The integral over [lo,up] in the variable of [-1,1]. *)
Lemma int_affine : forall f L, lipschitz (B2R lo - spill lo up) (B2R up + spill lo up) L f ->
  RInt f (B2R lo) (B2R up) = h * RInt (fun x => f (h * x + c)) (-1) 1.
Proof.
  intros f L FL. pose proof (spill_pos lo up) as SP. pose proof h_pos as HP.
  assert (Cf : forall x, B2R lo <= x <= B2R up -> continuous f x).
  { intros x Hx. apply continuity_pt_filterlim. intros e He.
    assert (LP : 0 < Rabs L + 1) by (pose proof (Rabs_pos L); lra).
    exists (Rmin (spill lo up) (e / (Rabs L + 1))). split; [apply Rmin_pos; auto; apply Rdiv_lt_0_compat; auto|].
    intros y (_ & Hy). simpl in *. unfold R_dist in *.
    pose proof (Rmin_l (spill lo up) (e / (Rabs L + 1))). pose proof (Rmin_r (spill lo up) (e / (Rabs L + 1))).
    assert (Hd : Rabs (y - x) < spill lo up) by lra. apply Rabs_lt_between in Hd.
    eapply Rle_lt_trans; [apply FL; lra|].
    apply Rle_lt_trans with (Rabs L * Rabs (y - x)). { apply Rmult_le_compat_r; [apply Rabs_pos|apply Rle_abs]. }
    apply Rle_lt_trans with ((Rabs L) * (e / (Rabs L + 1))). { apply Rmult_le_compat_l; [apply Rabs_pos|lra]. }
    apply Rmult_lt_reg_r with (Rabs L + 1); auto.
    replace (Rabs L * (e / (Rabs L + 1)) * (Rabs L + 1)) with (Rabs L * e) by (field; lra). nra. }
  pose proof (RInt_comp_lin (V := R_CompleteNormedModule) f h c (-1) 1) as E.
  replace (h * -1 + c) with (B2R lo) in E by (unfold h, c; field). replace (h * 1 + c) with (B2R up) in E by (unfold h, c; field).
  rewrite <- E.
  - rewrite (RInt_scal (V := R_CompleteNormedModule)); [reflexivity|].
    apply (ex_RInt_continuous (V := R_CompleteNormedModule)). intros x Hx. rewrite Rmin_left, Rmax_right in Hx by lra.
    apply (continuous_comp (fun x => h * x + c) f).
    + apply (continuous_plus (V := R_NormedModule)); [|apply continuous_const]. apply (continuous_scal_r (V := R_NormedModule)), continuous_id.
    + apply Cf, aff_in, Hx.
  - apply (ex_RInt_continuous (V := R_CompleteNormedModule)). intros x Hx. apply Cf.
    assert (B2R lo <= B2R up) by (unfold h in HP; lra). rewrite Rmin_left, Rmax_right in Hx by lra. exact Hx.
Qed.

(** Any bound on the error in the variable of [-1,1] carries over. *)
Lemma mapped_error : forall q' f K L e, maps_f64 m dbg lo up q q' ->
  (forall x, B2R lo - spill lo up <= x <= B2R up + spill lo up -> Rabs (f x) <= K) ->
  lipschitz (B2R lo - spill lo up) (B2R up + spill lo up) L f ->
  Rabs (apply_rule (real_rule q) (fun x => f (h * x + c)) - RInt (fun x => f (h * x + c)) (-1) 1) <= e ->
  Rabs (apply_rule (real_rule q') f - RInt f (B2R lo) (B2R up)) <= h * e + move_error n lo up K L.
Proof.
  intros q' f K L e M FK FL E. pose proof (mapped_close q' f K L M FK FL) as C. pose proof h_pos as HP. rewrite (int_affine f L FL).
  set (A := apply_rule (real_rule q) (fun x => f (h * x + c))) in *. set (B := RInt (fun x => f (h * x + c)) (-1) 1) in *.
  replace (apply_rule (real_rule q') f - h * B) with (h * (A - B) + (apply_rule (real_rule q') f - h * A)) by ring.
  eapply Rle_trans; [apply Rabs_triang|]. rewrite Rabs_mult, (Rabs_pos_eq h) by lra.
  apply Rplus_le_compat; [apply Rmult_le_compat_l; lra|exact C].
Qed.

Lemma comp_lip : forall f L, lipschitz (B2R lo - spill lo up) (B2R up + spill lo up) L f -> lipschitz (-1) 1 (h * L) (fun x => f (h * x + c)).
Proof.
  intros f L FL x y Hx Hy. pose proof (spill_pos lo up). pose proof h_pos. pose proof (aff_in x Hx). pose proof (aff_in y Hy).
  eapply Rle_trans; [apply FL; lra|]. replace (h * x + c - (h * y + c)) with (h * (x - y)) by ring. rewrite Rabs_mult, (Rabs_pos_eq h) by lra.
  apply Req_le. ring.
Qed.

Lemma comp_bound : forall f K, (forall x, B2R lo - spill lo up <= x <= B2R up + spill lo up -> Rabs (f x) <= K) ->
  forall x, -1 <= x <= 1 -> Rabs (f (h * x + c)) <= K.
Proof. intros f K FK x Hx. apply FK. pose proof (aff_in x Hx). pose proof (spill_pos lo up). lra. Qed.

Lemma comp_smooth : forall N F M, smooth (B2R lo) (B2R up) N F M -> smooth (-1) 1 N (fun k x => h ^ k * F k (h * x + c)) (h ^ N * M).
Proof.
  intros N F M (D & B). pose proof h_pos as HP. split.
  - intros k t Hk Ht. pose proof (D k (h * t + c) Hk (aff_in t Ht)) as Dk.
    evar_last.
    { apply (is_derive_scal (fun x => F k (h * x + c)) t (h ^ k)). apply (is_derive_comp (F k) (fun x => h * x + c) t).
      - exact Dk.
      - auto_derive; [auto|reflexivity]. }
    unfold scal; simpl; unfold mult; simpl. ring.
  - intros t Ht. rewrite Rabs_mult, (Rabs_pos_eq (h ^ N)) by (apply pow_le; lra). apply Rmult_le_compat_l; [apply pow_le; lra|]. apply B, aff_in, Ht.
Qed.
End Finite.
