(** Pairwise separated points are batched completely in binary64. *)
From Coq Require Import List Bool Arith ZArith Lia Reals Lra Permutation.
From Flocq Require Import IEEE754.BinarySingleNaN Core.
From Verif Require Import Base.Scalar Base.FScalar Base.Outcome Model.S2 Model.Batcher Spec.BatchSpec Spec.SeparateSpec Spec.RuleSpec
  Proofs.ListNat Proofs.BatchFacts Proofs.FloatFacts Proofs.FloatOps Proofs.FloatSphere Proofs.FloatErr Proofs.SplitFloat Proofs.RefineFacts Proofs.BatchProps
  Proofs.BatchFloat Proofs.BatchSplit.
Import ListNotations.
Local Open Scope R_scope.

(** Every number of the format below 2^1024 is the value of a binary64 number. *)
Lemma fmt_float : forall x, fmt x -> Rabs x < bpow radix2 1024 ->
  exists f : F64, is_finite f = true /\ B2R f = x.
Proof.
  intros x Hx Hb.
  set (mm := Ztrunc (scaled_mantissa radix2 (FLT_exp (-1074) 53) x)).
  set (ee := cexp radix2 (FLT_exp (-1074) 53) x).
  assert (E : F2R (Float radix2 mm ee) = x) by (symmetry; exact Hx).
  pose proof (binary_normalize_correct 53 1024 Hprec Hmax mode_NE mm ee false) as C. cbv zeta in C.
  rewrite E in C.
  change (round radix2 (SpecFloat.fexp 53 1024) (round_mode mode_NE) x) with (rnd x) in C.
  rewrite (rnd_fmt _ Hx), Rlt_bool_true in C by auto. destruct C as (C1 & C2 & _). eauto.
Qed.

Lemma pow1070 : / 2 ^ 1070 = 16 * eta.
Proof.
  unfold eta. replace 16 with (bpow radix2 4) by (simpl; lra). rewrite <- bpow_plus.
  change (bpow radix2 (4 + -1074)) with (/ IZR (2 ^ 1070)). rewrite pow_IZR. reflexivity.
Qed.
Lemma pow50 : / 2 ^ 50 = 8 * u.
Proof. unfold u. field. Qed.

Lemma separated_apart : forall x y : F64, moderate x -> moderate y -> separated x y -> apart x y.
Proof.
  intros x y [Fx Bx] [Fy By] H. unfold separated in H. rewrite pow1070, pow50 in H.
  pose proof eta_pos as EP. pose proof u_tiny as [U0 U1].
  set (M := Rmax (Rabs (B2R x)) (Rabs (B2R y))) in *.
  assert (Mx : Rabs (B2R x) <= M) by apply Rmax_l. assert (My : Rabs (B2R y) <= M) by apply Rmax_r.
  assert (M0 : 0 <= M) by (pose proof (Rabs_pos (B2R x)); lra).
  set (z := (B2R x + B2R y) / 2).
  assert (Mz : Rabs z <= M).
  { unfold z. apply Rabs_le. apply abs_of in Mx, My. lra. }
  destruct (rnd_err z) as (e & t & He & Ht & E). rewrite half_eta in Ht.
  assert (Z : Rabs (rnd z - z) <= u * M + eta / 2).
  { rewrite E. replace (z * (1 + e) + t - z) with (z * e + t) by ring.
    eapply Rle_trans; [apply Rabs_triang|]. apply Rplus_le_compat; auto. rewrite Rabs_mult, Rmult_comm.
    apply Rmult_le_compat; auto; apply Rabs_pos. }
  assert (UM : 0 <= u * M) by (apply Rmult_le_pos; lra).
  destruct (fmt_float (rnd z)) as (f & Ff & Ef); [apply fmt_rnd| |].
  { apply (fin_bpow _ 900); [|lia]. apply rnd_le_bpow; [lia|]. rewrite <- pow900.
    eapply Rle_trans; [exact Mz|]. apply Rmax_lub; auto. }
  exists f. split; auto. rewrite Ef. apply abs_of in Z.
  assert (G : u * M + eta / 2 < Rabs (B2R x - B2R y) / 2) by lra.
  destruct (Rle_lt_dec (B2R x) (B2R y)) as [O|O].
  - left. rewrite Rabs_left1 in G by lra. unfold z in *. lra.
  - right. rewrite Rabs_pos_eq in G by lra. unfold z in *. lra.
Qed.

Lemma pairs_perm : forall {A} (P : A -> A -> Prop), (forall a b, P a b -> P b a) ->
  forall l l', Permutation l l' -> ForallOrdPairs P l -> ForallOrdPairs P l'.
Proof.
  intros A P HS l l' HP. induction HP as [|x l l' HP IH|x y l|l l' l'' H1 IH1 H2 IH2]; intro H; auto.
  - inversion H as [|? ? F R]; subst. constructor; auto. rewrite Forall_forall in *.
    intros z Hz. apply F. apply (Permutation_in z (Permutation_sym HP) Hz).
  - inversion H as [|? ? F R]; subst. inversion R as [|? ? F' R']; subst. inversion F as [|? ? G1 G2]; subst.
    constructor; [constructor; auto|constructor; auto].
Qed.

Lemma apart_sym : forall p q, apart_pts p q -> apart_pts q p.
Proof. intros p q [(f & F & H)|[(f & F & H)|(f & F & H)]]; [left|right; left|right; right]; exists f; tauto. Qed.

Lemma apart_crowded : forall q : list ((F64 * F64 * F64) * F64),
  ForallOrdPairs (fun a b => apart_pts (fst a) (fst b)) q -> crowded_at_most 1 q.
Proof.
  intros q H K l HP HK.
  apply (pairs_perm _ (fun a b => apart_sym (fst a) (fst b)) _ _ HP) in H.
  destruct K as [|a [|b K]]; simpl; try lia. exfalso.
  inversion H as [|? ? F _]; subst. inversion F; subst.
  apply (HK a b); simpl; auto.
Qed.

Lemma separated_pairs : forall q : list ((F64 * F64 * F64) * F64),
  Forall (fun e => moderate_pt (fst e)) q ->
  ForallOrdPairs (fun a b => separated_pts (fst a) (fst b)) q ->
  ForallOrdPairs (fun a b => apart_pts (fst a) (fst b)) q.
Proof.
  intros q HM H. induction H as [|a l HF H IH]; [constructor|].
  inversion HM as [|? ? Ma Ml]; subst. constructor; auto.
  rewrite Forall_forall in *. intros b Hb. specialize (HF b Hb). specialize (Ml b Hb).
  destruct Ma as (A1 & A2 & A3), Ml as (B1 & B2 & B3).
  destruct HF as [S|[S|S]]; [left|right; left|right; right]; apply separated_apart; auto.
Qed.

Lemma crowded_mono : forall m m' q, (m <= m')%nat -> crowded_at_most m q -> crowded_at_most m' q.
Proof. intros m m' q H HC K l HP HK. specialize (HC K l HP HK). lia. Qed.

Lemma F_batches : forall m part, @conforming (FS m) part ->
  forall maxsz (q : list ((F64 * F64 * F64) * F64)),
  q <> [] -> Forall (fun e => moderate_pt (fst e)) q -> crowded_at_most maxsz q ->
  exists q' idx, (forall fuel, (length q <= fuel)%nat -> generate_batches (S:=FS m) part fuel maxsz q = Ok (q', idx)) /\
    Permutation q' q /\ splits (length q) idx /\ concat (pieces idx q') = q' /\
    Forall (fun b => (1 <= length b <= maxsz)%nat) (pieces idx q').
Proof.
  intros m part Hconf maxsz q Hq HM HC.
  destruct (F_terminates m part Hconf maxsz q Hq HM HC) as (q' & idx & E).
  exists q', idx. split; auto.
  apply (generate_Ok part Hconf not_nan (float_laws m) (length q) maxsz); [apply mod_nan; auto|].
  apply E. auto.
Qed.

Lemma F_separated : forall m part, @conforming (FS m) part ->
  forall maxsz (q : list ((F64 * F64 * F64) * F64)), (1 <= maxsz)%nat ->
  q <> [] -> Forall (fun e => moderate_pt (fst e)) q ->
  ForallOrdPairs (fun a b => separated_pts (fst a) (fst b)) q ->
  exists q' idx, (forall fuel, (length q <= fuel)%nat -> generate_batches (S:=FS m) part fuel maxsz q = Ok (q', idx)) /\
    Permutation q' q /\ splits (length q) idx /\ concat (pieces idx q') = q' /\
    Forall (fun b => (1 <= length b <= maxsz)%nat) (pieces idx q').
Proof.
  intros m part Hconf maxsz q Hm Hq HM HS. apply F_batches; auto.
  apply crowded_mono with 1%nat; auto. apply apart_crowded, separated_pairs; auto.
Qed.

(** Values of small literals. *)
Lemma f_of_val : forall k e : Z, (Z.abs k < 2 ^ 53)%Z -> (-1074 <= e <= 900)%Z ->
  is_finite (f_of k e) = true /\ B2R (f_of k e) = IZR k * bpow radix2 e.
Proof.
  intros k e Hk He. unfold f_of.
  pose proof (binary_normalize_correct 53 1024 Hprec Hmax mode_NE k e false) as C. cbv zeta in C.
  change (F2R (Float radix2 k e)) with (IZR k * bpow radix2 e) in C.
  change (round radix2 (SpecFloat.fexp 53 1024) (round_mode mode_NE) (IZR k * bpow radix2 e)) with (rnd (IZR k * bpow radix2 e)) in C.
  rewrite rnd_fmt in C.
  2: { apply generic_format_FLT. exists (Float radix2 k e); [reflexivity|exact Hk|simpl; lia]. }
  rewrite Rlt_bool_true in C; [destruct C as (C1 & C2 & _); auto|].
  rewrite Rabs_mult, <- abs_IZR, (Rabs_pos_eq (bpow _ _)) by apply bpow_ge_0.
  apply Rle_lt_trans with (bpow radix2 53 * bpow radix2 e).
  - apply Rmult_le_compat_r; [apply bpow_ge_0|]. change (bpow radix2 53) with (IZR (2 ^ 53)). apply IZR_le. lia.
  - rewrite <- bpow_plus. apply bpow_lt. lia.
Qed.
Lemma one_le_900 : 1000 <= 2 ^ 900.
Proof. apply Rle_trans with (2 ^ 10); [lra|]. apply Rle_pow; [lra|lia]. Qed.
Lemma moderate_lit : forall k e : Z, (Z.abs k < 2 ^ 53)%Z -> (-1074 <= e <= 900)%Z ->
  Rabs (IZR k * bpow radix2 e) <= 1000 -> moderate (f_of k e).
Proof.
  intros k e Hk He H. destruct (f_of_val k e Hk He) as [F E]. split; auto. rewrite E.
  eapply Rle_trans; [exact H|exact one_le_900].
Qed.

Definition b52 : R := / 4503599627370496.
Lemma val_A : B2R (f_of 4503599627370497 (-52)) = 1 + b52.
Proof. destruct (f_of_val 4503599627370497 (-52)) as [_ E]; [lia|lia|]. rewrite E. unfold b52. simpl. lra. Qed.
Lemma val_B : B2R (f_of 4503599627370498 (-52)) = 1 + 2 * b52.
Proof. destruct (f_of_val 4503599627370498 (-52)) as [_ E]; [lia|lia|]. rewrite E. unfold b52. simpl. lra. Qed.
Lemma b52_pos : 0 < b52 < 1 / 1000. Proof. unfold b52. lra. Qed.

Lemma ABC_moderate : Forall (fun e => moderate_pt (fst e)) [pA; pB; pC].
Proof.
  pose proof b52_pos.
  assert (Z : moderate (f_of 0 0)) by (apply moderate_lit; [lia|lia|]; rewrite Rmult_0_l, Rabs_R0; lra).
  assert (MA : moderate (f_of 4503599627370497 (-52))).
  { split; [apply f_of_val; lia|]. rewrite val_A, Rabs_pos_eq by lra. pose proof one_le_900. lra. }
  assert (MB : moderate (f_of 4503599627370498 (-52))).
  { split; [apply f_of_val; lia|]. rewrite val_B, Rabs_pos_eq by lra. pose proof one_le_900. lra. }
  assert (MC : moderate (f_of 100 0)).
  { apply moderate_lit; try lia. simpl. rewrite Rabs_pos_eq; lra. }
  apply Forall_cons; [split; [exact MA|split; exact Z]|].
  apply Forall_cons; [split; [exact MB|split; exact Z]|].
  apply Forall_cons; [split; [exact MC|split; exact Z]|]. apply Forall_nil.
Qed.

(** 1 + 2^-52 and 1 + 2^-51 are neighbours. *)
Lemma AB_neighbours : forall f : F64, ~ (1 + b52 < B2R f < 1 + 2 * b52).
Proof.
  intros f H. pose proof b52_pos as HB. assert (G := fmt_B2R f). unfold fmt, generic_format in G.
  assert (M : mag radix2 (B2R f) = 1%Z :> Z).
  { apply mag_unique. simpl. rewrite Rabs_pos_eq by lra. lra. }
  unfold cexp in G. rewrite M in G. change (FLT_exp (-1074) 53 1) with (-52)%Z in G.
  set (k := Ztrunc _) in G. unfold F2R in G. simpl in G. fold b52 in G.
  rewrite G in H. unfold b52 in H.
  assert (4503599627370497 < k)%Z by (apply lt_IZR; lra).
  assert (k < 4503599627370498)%Z by (apply lt_IZR; lra). lia.
Qed.

Lemma not_apart_refl : forall x, ~ apart x x.
Proof. intros x (f & _ & [H|H]); lra. Qed.

Lemma AC_apart : apart (f_of 4503599627370497 (-52)) (f_of 100 0).
Proof.
  exists (f_of 50 0). pose proof b52_pos. destruct (f_of_val 50 0) as [F E]; [lia|lia|].
  destruct (f_of_val 100 0) as [_ E']; [lia|lia|].
  split; auto. left. rewrite val_A, E, E'. simpl. lra.
Qed.

Lemma ABC_crowded : crowded_at_most 2 [pA; pB; pC] /\ ~ crowded_at_most 1 [pA; pB; pC].
Proof.
  split.
  - intros K l HP HK. destruct (le_lt_dec (length K) 2) as [|N]; auto. exfalso.
    assert (LE := Permutation_length HP). rewrite app_length in LE. simpl in LE.
    destruct l; [|simpl in LE; lia]. rewrite app_nil_r in HP.
    apply (HK pA pC); [apply (Permutation_in _ HP); simpl; auto|apply (Permutation_in _ HP); simpl; auto|].
    left. exact AC_apart.
  - intro H. specialize (H [pA; pB] [pC] (Permutation_refl _)). simpl in H.
    assert (2 <= 1)%nat; [apply H|lia].
    assert (AB : ~ apart (f_of 4503599627370497 (-52)) (f_of 4503599627370498 (-52))).
    { intros (f & _ & [Hf|Hf]); rewrite val_A, val_B in Hf.
      - exact (AB_neighbours f Hf).
      - pose proof b52_pos. lra. }
    assert (BA : ~ apart (f_of 4503599627370498 (-52)) (f_of 4503599627370497 (-52))).
    { intros (f & F & Hf). apply AB. exists f. tauto. }
    intros a b [<-|[<-|[]]] [<-|[<-|[]]] [D|[D|D]]; cbn [fst snd pA pB] in D; 
      try (exact (not_apart_refl _ D)); auto.
Qed.

(** No limit below the largest crowd suffices for these three points. *)
Lemma crowd_sharp : exists q : list ((F64 * F64 * F64) * F64),
  q <> [] /\ Forall (fun e => moderate_pt (fst e)) q /\
  NoDup (map (fun e => (B2R (fst (fst (fst e))), B2R (snd (fst (fst e))), B2R (snd (fst e)))) q) /\
  crowded_at_most 2 q /\ ~ crowded_at_most 1 q /\
  forall m part, @conforming (FS m) part ->
  forall fuel, generate_batches (S:=FS m) part fuel 1 q = OutOfFuel.
Proof.
  exists [pA; pB; pC]. split; [discriminate|]. split; [exact ABC_moderate|]. split.
  { pose proof b52_pos. destruct (f_of_val 100 0) as [_ E]; [lia|lia|].
    cbn [map pA pB pC fst snd]. rewrite val_A, val_B, E. simpl (bpow radix2 0).
    constructor; [|constructor; [|constructor; [intros []|constructor]]].
    - intros [H'|[H'|[]]]; injection H'; intros; lra.
    - intros [H'|[]]; injection H'; intros; lra. }
  split; [apply ABC_crowded|]. split; [apply ABC_crowded|].
  intros m part Hc fuel. apply ABC_stuck. exact Hc.
Qed.

(** (1, 0, 1/2), (1, 0, -2) and (1 + 2^-40, 0, 1/2). *)
Definition sep_pts : list ((F64 * F64 * F64) * F64) :=
  [((f_of 1 0, f_of 0 0, f_of 1 (-1)), f_of 1 0);
   ((f_of 1 0, f_of 0 0, f_of (-2) 0), f_of 3 0);
   ((f_of 1099511627777 (-40), f_of 0 0, f_of 1 (-1)), f_of 1 0)].
Lemma sep_ex : sep_pts <> [] /\ Forall (fun e => moderate_pt (fst e)) sep_pts /\
  ForallOrdPairs (fun a b => separated_pts (fst a) (fst b)) sep_pts.
Proof.
  assert (V1 := f_of_val 1 0 ltac:(lia) ltac:(lia)). assert (Vh := f_of_val 1 (-1) ltac:(lia) ltac:(lia)).
  assert (V2 := f_of_val (-2) 0 ltac:(lia) ltac:(lia)). assert (Vx := f_of_val 1099511627777 (-40) ltac:(lia) ltac:(lia)).
  simpl bpow in *. destruct V1 as [F1 V1], Vh as [Fh Vh], V2 as [F2 V2], Vx as [Fx Vx].
  assert (Z : moderate (f_of 0 0)) by (apply moderate_lit; [lia|lia|]; rewrite Rmult_0_l, Rabs_R0; lra).
  pose proof one_le_900 as O.
  assert (M1 : moderate (f_of 1 0)) by (split; auto; rewrite V1; apply Rabs_le; lra).
  assert (Mh : moderate (f_of 1 (-1))) by (split; auto; rewrite Vh; apply Rabs_le; lra).
  assert (M2 : moderate (f_of (-2) 0)) by (split; auto; rewrite V2; apply Rabs_le; lra).
  assert (Mx : moderate (f_of 1099511627777 (-40))) by (split; auto; rewrite Vx; apply Rabs_le; lra).
  assert (T : / 2 ^ 1070 <= / 2 ^ 50).
  { apply Rinv_le_contravar; [apply pow_lt; lra|]. apply Rle_pow; [lra|lia]. }
  split; [discriminate|]. split.
  { apply Forall_cons; [split; [exact M1|split; [exact Z|exact Mh]]|].
    apply Forall_cons; [split; [exact M1|split; [exact Z|exact M2]]|].
    apply Forall_cons; [split; [exact Mx|split; [exact Z|exact Mh]]|]. apply Forall_nil. }
  assert (P50 : / 2 ^ 50 = / 1125899906842624) by (f_equal; lra).
  assert (SX : forall x y : F64, Rabs (B2R x) <= 2 -> Rabs (B2R y) <= 2 -> 3 / 1125899906842624 <= Rabs (B2R x - B2R y) -> separated x y).
  { intros x y Hx Hy H. unfold separated. rewrite P50 in *.
    assert (Rmax (Rabs (B2R x)) (Rabs (B2R y)) <= 2) by (apply Rmax_lub; auto). lra. }
  constructor; [constructor; [|constructor; [|constructor]]|constructor; [constructor; [|constructor]|constructor; constructor]].
  - right. right. apply SX; cbn [fst snd]; rewrite ?Vh, ?V2; try (apply Rabs_le; lra). rewrite Rabs_pos_eq; lra.
  - left. apply SX; cbn [fst snd]; rewrite ?V1, ?Vx; try (apply Rabs_le; lra). rewrite Rabs_left; lra.
  - right. right. apply SX; cbn [fst snd]; rewrite ?Vh, ?V2; try (apply Rabs_le; lra). rewrite Rabs_left; lra.
Qed.

(** Two points whose distance overflows. *)
Definition pH : fpt := ((f_of 1 1023, f_of 0 0, f_of 0 0), f_of 1 0).
Definition pL : fpt := ((f_of (-1) 1023, f_of 0 0, f_of 0 0), f_of 1 0).

Section Overflow.
Variable m : libm.
Notation S := (FS m).
Local Open Scope nat_scope.

Lemma check_HL : check m [pH; pL] [pH; pL] = true.
Proof. vm_compute. reflexivity. Qed.
Lemma check_LH : check m [pL; pH] [pH; pL] = true.
Proof. vm_compute. reflexivity. Qed.

Lemma HL_inseparable : @inseparable S 0 [pH; pL].
Proof.
  intros els l' lo up HP Hl EB. destruct l'; [|simpl in Hl; lia]. rewrite app_nil_r in HP.
  apply staysb_stays.
  assert (C : check m els [pH; pL] = true).
  { apply Permutation_sym in HP. apply Permutation_length_2_inv in HP.
    destruct HP as [->| ->]; [apply check_HL|apply check_LH]. }
  unfold check in C. rewrite EB in C. exact C.
Qed.

Lemma box_HL : match get_box_bounds (map fst ([pH; pL] : list (pw S))) with
  | Ok (lo, up) => staysb m [pH; pL] (sub_boxes 3 lo up) | _ => false end = true.
Proof. vm_compute. reflexivity. Qed.

Lemma HL_stuck : forall part, @conforming S part ->
  forall fuel, generate_batches (S:=S) part fuel 1 [pH; pL] = OutOfFuel.
Proof.
  intros part Hconf fuel.
  destruct (initial part Hconf [pH; pL]) as (lo & up & q1 & its & EB & EP & E0 & P & HI); [easy|].
  assert (NN : Forall (fun e : pw S => coords (S:=S) not_nan (fst e)) [pH; pL]) by (repeat constructor).
  assert (Hn := initial_n part Hconf not_nan (float_laws m) _ _ _ _ _ NN EB EP).
  unfold generate_batches. rewrite E0. cbn [bind].
  apply (refine_stuck part Hconf 2 0 1 [pH; pL]); auto.
  { exact HL_inseparable. }
  assert (FC := box_HL). 
  change (match get_box_bounds (map fst ([pH; pL] : list (pw S))) with
    Ok (lo, up) => staysb m [pH; pL] (sub_boxes 3 lo up) | _ => false end = true) in FC.
  rewrite EB in FC.
  apply (partition_box_spec part Hconf) in EP. destruct EP as (_ & Hi & _ & Hb & BK & _ & _).
  destruct (BK [pH; pL] []) as (a & b & l'' & Ia & Ib & Hab & Hbe & Hz & HP').
  { discriminate. }
  { apply Permutation_refl. }
  { apply staysb_stays. exact FC. }
  rewrite !Nat.sub_0_r in HP'. exists a, b, l''. split; [|split; auto].
  - split; auto. split; auto. destruct Ib as [Ib|Ib]; auto. rewrite Ib. exact Hn.
  - assert (Lq : length q1 = 2) by (rewrite (Permutation_length P); auto).
    apply Permutation_length in HP'. rewrite app_length in HP'. simpl length in Hbe. simpl in Hbe.
    rewrite slice_length in HP' by lia. simpl length in HP'. lia.
Qed.
End Overflow.

Lemma overflow_refuted : exists q : list ((F64 * F64 * F64) * F64),
  q <> [] /\ Forall (fun e => is_finite (fst (fst (fst e))) = true /\ is_finite (snd (fst (fst e))) = true
                   /\ is_finite (snd (fst e)) = true) q /\
  ForallOrdPairs (fun a b => separated_pts (fst a) (fst b)) q /\ crowded_at_most 1 q /\
  forall m part, @conforming (FS m) part ->
  forall fuel, generate_batches (S:=FS m) part fuel 1 q = OutOfFuel.
Proof.
  exists [pH; pL]. split; [discriminate|]. split; [repeat constructor|].
  assert (VH : B2R (f_of 1 1023) = bpow radix2 1023).
  { unfold f_of. pose proof (binary_normalize_correct 53 1024 Hprec Hmax mode_NE 1 1023 false) as C. cbv zeta in C.
    replace (F2R (Float radix2 1 1023)) with (bpow radix2 1023) in C by (unfold F2R; simpl Fnum; simpl Fexp; lra).
    change (round radix2 (SpecFloat.fexp 53 1024) (round_mode mode_NE) (bpow radix2 1023)) with (rnd (bpow radix2 1023)) in C.
    assert (G : fmt (bpow radix2 1023)) by (apply generic_format_FLT_bpow; [exact Hprec|lia]).
    rewrite (rnd_fmt _ G), Rlt_bool_true in C; [exact (proj1 C)|].
    rewrite Rabs_pos_eq by apply bpow_ge_0. apply bpow_lt. lia. }
  assert (VL : B2R (f_of (-1) 1023) = - bpow radix2 1023).
  { unfold f_of. pose proof (binary_normalize_correct 53 1024 Hprec Hmax mode_NE (-1) 1023 false) as C. cbv zeta in C.
    replace (F2R (Float radix2 (-1) 1023)) with (- bpow radix2 1023) in C by (unfold F2R; simpl Fnum; simpl Fexp; lra).
    change (round radix2 (SpecFloat.fexp 53 1024) (round_mode mode_NE) (- bpow radix2 1023)) with (rnd (- bpow radix2 1023)) in C.
    assert (G : fmt (- bpow radix2 1023)) by (apply generic_format_opp, generic_format_FLT_bpow; [exact Hprec|lia]).
    rewrite (rnd_fmt _ G), Rlt_bool_true in C; [exact (proj1 C)|].
    rewrite Rabs_Ropp, Rabs_pos_eq by apply bpow_ge_0. apply bpow_lt. lia. }
  assert (P : 1 <= bpow radix2 1023) by (change 1 with (bpow radix2 0); apply bpow_le; lia).
  split; [|split; [|intros m part Hc fuel; apply HL_stuck; exact Hc]].
  - constructor; [constructor; [|constructor]|constructor; constructor].
    left. cbn [fst snd pH pL]. unfold separated. rewrite VH, VL.
    set (B := bpow radix2 1023) in *. rewrite Rabs_Ropp, (Rabs_pos_eq B), Rmax_left, Rabs_pos_eq by lra.
    assert (/ 2 ^ 1070 <= 1 / 2).
    { replace (1 / 2) with (/ 2 ^ 1) by (simpl; lra). apply Rinv_le_contravar; [lra|]. apply Rle_pow; [lra|lia]. }
    assert (/ 2 ^ 50 <= 1 / 2) by lra.
    assert (/ 2 ^ 50 * B <= 1 / 2 * B) by (apply Rmult_le_compat_r; lra). lra.
  - intros K l HP HK. destruct (le_lt_dec (length K) 1) as [|N]; auto. exfalso.
    assert (LE := Permutation_length HP). rewrite app_length in LE. simpl in LE.
    destruct l; [|simpl in LE; lia]. rewrite app_nil_r in HP.
    apply (HK pH pL); [apply (Permutation_in _ HP); simpl; auto|apply (Permutation_in _ HP); simpl; auto|].
    left. exists (f_of 0 0). split; [reflexivity|]. right. cbn [fst snd pH pL]. rewrite VH, VL.
    destruct (f_of_val 0 0) as [_ E]; [lia|lia|]. rewrite E. lra.
Qed.
