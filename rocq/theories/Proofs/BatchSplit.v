(** In binary64 a batch with two points that are apart is split. *)
From Coq Require Import List Bool Arith ZArith Lia Reals Lra Permutation Classical_Prop.
From Flocq Require Import IEEE754.BinarySingleNaN Core.
From Verif Require Import Base.Scalar Base.FScalar Base.Outcome Model.S2 Model.Batcher Spec.BatchSpec Spec.SeparateSpec Spec.RuleSpec
  Proofs.ListNat Proofs.BatchFacts Proofs.FloatFacts Proofs.FloatOps Proofs.FloatSphere Proofs.FloatErr Proofs.SplitFloat Proofs.RefineFacts Proofs.BatchProps.
Import ListNotations.
Local Open Scope R_scope.

Lemma pow900 : 2 ^ 900 = bpow radix2 900.
Proof. change (bpow radix2 900) with (IZR (2 ^ 900)). rewrite pow_IZR. reflexivity. Qed.

Lemma rnd_le_bpow : forall x e, (-1074 <= e)%Z -> Rabs x <= bpow radix2 e -> Rabs (rnd x) <= bpow radix2 e.
Proof.
  intros x e He H. unfold rnd. apply abs_round_le_generic; auto.
  - apply FLT_exp_valid. exact Hprec.
  - apply valid_rnd_N.
  - apply generic_format_FLT_bpow; [exact Hprec|lia].
Qed.
Lemma bpow_S : forall e, bpow radix2 (e + 1) = 2 * bpow radix2 e.
Proof. intro e. rewrite bpow_plus. simpl (bpow radix2 1). lra. Qed.
Lemma fin_bpow : forall x e, Rabs x <= bpow radix2 e -> (e < 1024)%Z -> Rabs x < bpow radix2 1024.
Proof. intros x e H He. eapply Rle_lt_trans; [exact H|]. apply bpow_lt. lia. Qed.

Section Cuts.
Variable m : libm.
Notation S := (FS m).

Lemma cut_value : forall (l r : F64) np i, (np = 2 \/ np = 3)%nat -> (i < np)%nat ->
  moderate l -> moderate r ->
  is_finite (@cut S np l r i) = true /\
  B2R (@cut S np l r i) = rnd (B2R l + rnd (IZR (Z.of_nat i) * rnd (rnd (B2R r - B2R l) / IZR (Z.of_nat np)))).
Proof.
  intros l r np i Hnp Hi [Fl Bl] [Fr Br]. rewrite pow900 in Bl, Br.
  unfold cut. destruct (Nat.ltb_spec i np); [|lia].
  change (is_finite (fadd l (fmul (f_of (Z.of_nat i) 0) (fdiv (fsub r l) (f_of (Z.of_nat np) 0)))) = true /\
    B2R (fadd l (fmul (f_of (Z.of_nat i) 0) (fdiv (fsub r l) (f_of (Z.of_nat np) 0)))) =
    rnd (B2R l + rnd (IZR (Z.of_nat i) * rnd (rnd (B2R r - B2R l) / IZR (Z.of_nat np))))).
  destruct (f_of_small (Z.of_nat i)) as [Fi Ei]; [lia|].
  destruct (f_of_small (Z.of_nat np)) as [Fn En]; [lia|].
  assert (D : Rabs (rnd (B2R r - B2R l)) <= bpow radix2 901).
  { apply rnd_le_bpow; [lia|]. change 901%Z with (900 + 1)%Z. rewrite bpow_S.
    eapply Rle_trans; [apply Rabs_triang|]. rewrite Rabs_Ropp. lra. }
  assert (SD : is_finite (fsub r l) = true /\ B2R (fsub r l) = rnd (B2R r - B2R l)).
  { unfold fsub. pose proof (Bminus_correct 53 1024 Hprec Hmax mode_NE r l Fr Fl) as C.
    rewrite Rlt_bool_true in C by exact (fin_bpow _ _ D eq_refl). destruct C as (C1 & C2 & _). auto. }
  destruct SD as [FD ED].
  assert (Np : 2 <= IZR (Z.of_nat np) <= 3) by (destruct Hnp as [-> | ->]; simpl; lra).
  assert (Q : Rabs (rnd (rnd (B2R r - B2R l) / IZR (Z.of_nat np))) <= bpow radix2 901).
  { apply rnd_le_bpow; [lia|]. unfold Rdiv. rewrite Rabs_mult.
    rewrite (Rabs_pos_eq (/ _)) by (apply Rlt_le, Rinv_0_lt_compat; lra).
    rewrite <- (Rmult_1_r (bpow radix2 901)). apply Rmult_le_compat; try apply Rabs_pos; auto.
    - apply Rlt_le, Rinv_0_lt_compat; lra.
    - rewrite <- Rinv_1. apply Rinv_le_contravar; lra. }
  assert (SQ : is_finite (fdiv (fsub r l) (f_of (Z.of_nat np) 0)) = true /\
    B2R (fdiv (fsub r l) (f_of (Z.of_nat np) 0)) = rnd (rnd (B2R r - B2R l) / IZR (Z.of_nat np))).
  { assert (N0 : B2R (f_of (Z.of_nat np) 0) <> 0) by (rewrite En; lra).
    unfold fdiv. pose proof (Bdiv_correct 53 1024 Hprec Hmax mode_NE (fsub r l) _ N0) as C.
    rewrite En, ED in C. rewrite Rlt_bool_true in C by exact (fin_bpow _ _ Q eq_refl).
    destruct C as (C1 & C2 & _). rewrite FD in C2. auto. }
  destruct SQ as [FQ EQ].
  assert (Ii : 0 <= IZR (Z.of_nat i) <= 2).
  { split; [apply (IZR_le 0); lia|apply (IZR_le _ 2); lia]. }
  assert (M : Rabs (rnd (IZR (Z.of_nat i) * rnd (rnd (B2R r - B2R l) / IZR (Z.of_nat np)))) <= bpow radix2 902).
  { apply rnd_le_bpow; [lia|]. rewrite Rabs_mult, (Rabs_pos_eq (IZR _)) by lra.
    change 902%Z with (901 + 1)%Z. rewrite bpow_S. apply Rmult_le_compat; try apply Rabs_pos; lra. }
  assert (FM : is_finite (fmul (f_of (Z.of_nat i) 0) (fdiv (fsub r l) (f_of (Z.of_nat np) 0))) = true).
  { apply fmul_finite; auto. rewrite Ei, EQ. exact (fin_bpow _ _ M eq_refl). }
  assert (EM := fmul_R _ _ FM). destruct EM as (_ & _ & EM). rewrite Ei, EQ in EM.
  assert (FA : is_finite (fadd l (fmul (f_of (Z.of_nat i) 0) (fdiv (fsub r l) (f_of (Z.of_nat np) 0)))) = true).
  { apply fadd_finite; auto. rewrite EM. apply (fin_bpow _ 903); [|lia].
    apply rnd_le_bpow; [lia|]. change 903%Z with (902 + 1)%Z. rewrite bpow_S.
    eapply Rle_trans; [apply Rabs_triang|].
    assert (bpow radix2 900 <= bpow radix2 902) by (apply bpow_le; lia). lra. }
  split; auto. destruct (fadd_R _ _ FA) as (_ & _ & EA). rewrite EM in EA. exact EA.
Qed.

Lemma cut_splits : forall (l f r : F64) np t, np = 2%nat \/ (np = 3%nat /\ B2R l <= 0 <= B2R r) -> (t < np)%nat ->
  moderate l -> moderate r -> B2R l < B2R f < B2R r ->
  Bltb l (@cut S np l r t) = false -> Bltb (@cut S np l r (t + 1)) r = false -> False.
Proof.
  intros l f r np t Hnp Ht Ml Mr H C1 C2.
  assert (Hnp' : (np = 2 \/ np = 3)%nat) by tauto.
  set (d := rnd (rnd (B2R r - B2R l) / IZR (Z.of_nat np))).
  assert (C : B2R l < rnd (B2R l + d) < B2R r).
  { unfold d. destruct Hnp as [-> |[-> Hz]].
    - apply (mid_cut l f r H).
    - pose proof (extent _ _ _ (fmt_B2R l) (fmt_B2R f) (fmt_B2R r) H) as HX.
      apply wide_cut; auto. apply Rabs_le. lra. }
  assert (d0 : 0 <= d).
  { destruct (Rle_lt_dec 0 d) as [|N]; auto. exfalso.
    assert (rnd (B2R l + d) <= B2R l); [|lra]. rewrite <- (rnd_B2R l) at 2. apply rnd_mono. lra. }
  assert (LATE : (1 <= t)%nat -> False).
  { intro H1. destruct (cut_value l r np t Hnp' Ht Ml Mr) as [F E].
    rewrite Bltb_correct in C1 by (auto; apply Ml). rewrite E in C1. fold d in C1.
    assert (d <= rnd (IZR (Z.of_nat t) * d)).
    { apply rnd_ge_fmt; [apply fmt_rnd|]. assert (1 <= IZR (Z.of_nat t)) by (apply (IZR_le 1); lia). nra. }
    assert (rnd (B2R l + d) <= rnd (B2R l + rnd (IZR (Z.of_nat t) * d))) by (apply rnd_mono; lra).
    rewrite Rlt_bool_true in C1; [discriminate|lra]. }
  destruct t as [|t]; [|apply LATE; lia].
  simpl Nat.add in C2. destruct (cut_value l r np 1 Hnp') as [F E]; [lia|auto|auto|].
  rewrite Bltb_correct in C2 by (auto; apply Mr). rewrite E in C2. fold d in C2.
  change (IZR (Z.of_nat 1)) with 1 in C2. rewrite Rmult_1_l, (rnd_fmt d) in C2 by apply fmt_rnd.
  rewrite Rlt_bool_true in C2; [discriminate|lra].
Qed.

Lemma Bltb_false_le : forall x y : F64, is_finite x = true -> is_finite y = true ->
  Bltb x y = false -> B2R y <= B2R x.
Proof.
  intros x y Fx Fy H. rewrite Bltb_correct in H by auto.
  destruct (Rlt_bool_spec (B2R x) (B2R y)); [discriminate|auto].
Qed.

Lemma fin_not_nan : forall x : F64, is_finite x = true -> not_nan x.
Proof. intros [] H; try reflexivity; discriminate H. Qed.

Lemma mod_nan : forall q : list ((F64 * F64 * F64) * F64),
  Forall (fun e => moderate_pt (fst e)) q ->
  Forall (fun e : pw S => coords (S:=S) not_nan (fst e)) q.
Proof.
  intros q H. eapply Forall_impl; [|exact H]. intros [[[x y] z] w] ([A _] & [B _] & [C _]).
  repeat split; apply fin_not_nan; assumption.
Qed.

Lemma mod_coord : forall (p : F64 * F64 * F64) k, moderate_pt p -> (k < 3)%nat -> moderate (@coord S k p).
Proof. intros [[x y] z] [|[|[|k]]] (A & B & C) Hk; auto; lia. Qed.

Lemma apart_coord : forall p p', apart_pts p p' ->
  exists k, (k < 3)%nat /\ apart (@coord S k p) (@coord S k p').
Proof.
  intros [[x y] z] [[x' y'] z'] [H|[H|H]]; [exists 0%nat|exists 1%nat|exists 2%nat]; split; auto.
Qed.

Lemma F_splittable : forall part (Hconf : @conforming S part) maxsz (q q1 : list ((F64 * F64 * F64) * F64)) st en,
  Forall (fun e => moderate_pt (fst e)) q ->
  crowded_at_most maxsz q -> Permutation q1 q -> (maxsz < en - st)%nat -> (en <= length q)%nat ->
  splittable part (q1 : list (pw S)) st en.
Proof.
  intros part Hconf maxsz q q1 st en HQ HC HP HM Hen els' bits (lo & up & np & EB & ENP & EP).
  assert (L1 : length q1 = length q) by (apply Permutation_length; auto).
  assert (H1 : (st <= en)%nat) by lia.
  assert (H2 : (en <= @length (pw S) q1)%nat) by (eapply Nat.le_trans; [exact Hen|]; apply Nat.eq_le_incl; symmetry; exact L1).
  assert (L : length (slice st en (q1 : list (pw S))) = (en - st)%nat) by (apply slice_length; auto).
  assert (HQ1 : Forall (fun e => moderate_pt (fst e)) q1).
  { rewrite Forall_forall in HQ |- *. intros e He. apply HQ. apply (Permutation_in e HP He). }
  assert (HS : Forall (fun e => moderate_pt (fst e)) (slice st en (q1 : list (pw S)))).
  { rewrite Forall_forall in HQ1 |- *. intros e He. apply HQ1.
    rewrite (slice_split st en (q1 : list (pw S))) by auto.
    apply in_or_app. right. apply in_or_app. left. exact He. }
  assert (HN := mod_nan _ HS).
  assert (NP : (2 <= np)%nat) by (destruct (point_in_box lo up (s0, s0, s0)); lia).
  (* two elements are apart *)
  assert (D : exists a b : pw S, In a (slice st en (q1 : list (pw S))) /\ In b (slice st en (q1 : list (pw S))) /\ apart_pts (fst a) (fst b)).
  { apply NNPP. intro N.
    assert (A : (length (slice st en (q1 : list (pw S))) <= maxsz)%nat).
    { apply (HC (slice st en (q1 : list (pw S))) (firstn st (q1 : list (pw S)) ++ skipn en (q1 : list (pw S)))).
      - rewrite <- HP. rewrite (slice_split st en (q1 : list (pw S))) at 1 by auto.
        rewrite Permutation_app_swap_app. apply Permutation_refl.
      - intros a b Ia Ib Hab. apply N. exists a, b. auto. }
    rewrite L in A. lia. }
  destruct D as (a & b & Ia & Ib & Hab). apply apart_coord in Hab. destruct Hab as (k & Hk & Hab).
  assert (HN' : Forall (coords (S:=S) not_nan) (map fst (slice st en (q1 : list (pw S))))).
  { apply Forall_map. exact HN. }
  destruct (box_bounds_spec _ (float_laws m) _ _ _ HN' EB) as [HI HT].
  rewrite Forall_forall in HI, HS.
  assert (MB : forall k, (k < 3)%nat -> moderate (@coord S k lo) /\ moderate (@coord S k up)).
  { intros k' Hk'. destruct (HT k' Hk') as [(p & Hp & <-) (p' & Hp' & <-)].
    apply in_map_iff in Hp, Hp'. destruct Hp as (e1 & <- & He1), Hp' as (e2 & <- & He2).
    split; apply mod_coord; auto; apply HS; auto. }
  assert (W : exists f : F64, B2R (@coord S k lo) < B2R f < B2R (@coord S k up)).
  { destruct (MB k Hk) as [[Fl _] [Fu _]].
    destruct (HI _ (in_map fst _ _ Ia) k Hk) as [A1 A2]. destruct (HI _ (in_map fst _ _ Ib) k Hk) as [B1 B2].
    destruct (mod_coord _ _ (HS _ Ia) Hk) as [Fa _]. destruct (mod_coord _ _ (HS _ Ib) Hk) as [Fb _].
    apply Bltb_false_le in A1, A2, B1, B2; auto.
    destruct Hab as (f & _ & [Hf|Hf]); exists f; lra. }
  destruct W as (f & Hf).
  assert (NP' : np = 2%nat \/ (np = 3%nat /\ B2R (@coord S k lo) <= 0 <= B2R (@coord S k up))).
  { destruct (point_in_box lo up (s0, s0, s0)) eqn:Z; [right|left; auto]. split; auto.
    apply point_in_box_iff in Z. destruct (MB k Hk) as [[Fl _] [Fu _]].
    destruct (Z k Hk) as [Z1 Z2].
    assert (Z0 : @coord S k (s0, s0, s0) = f_of 0 0) by (destruct k as [|[|[|k]]]; auto; lia).
    rewrite Z0 in Z1, Z2. destruct (f_of_small 0) as [F0 E0]; [lia|].
    apply Bltb_false_le in Z1; [|auto|auto]. apply Bltb_false_le in Z2; [|auto|auto]. rewrite E0 in Z1, Z2. lra. }
  apply (partition_box_spec part Hconf) in EP.
  destruct EP as (_ & _ & _ & _ & _ & _ & HX). rewrite L in HX.
  replace (st + (en - st))%nat with en in HX by lia. apply HX.
  - intro E. rewrite E in L. simpl in L. lia.
  - apply (batch_covered _ (float_laws m)); auto. lia.
  - intros bx Hb.
    destruct (HT k Hk) as [(p1 & Hp1 & E1) (p2 & Hp2 & E2)].
    apply in_map_iff in Hp1, Hp2. destruct Hp1 as (e1 & <- & He1), Hp2 as (e2 & <- & He2).
    destruct (point_in_box (fst bx) (snd bx) (fst e1)) eqn:B1;
      [|apply Exists_exists; exists e1; auto].
    destruct (point_in_box (fst bx) (snd bx) (fst e2)) eqn:B2;
      [|apply Exists_exists; exists e2; auto].
    exfalso. apply In_sub_boxes in Hb. destruct Hb as (i & j & n & Hi & Hj & Hn & ->).
    cbn [fst snd] in B1, B2.
    apply point_in_box_iff in B1, B2. specialize (B1 k Hk). specialize (B2 k Hk).
    destruct (MB k Hk) as [Ml Mu].
    assert (G : forall t, (t < np)%nat ->
      Bltb (@coord S k lo) (@cut S np (@coord S k lo) (@coord S k up) t) = false ->
      Bltb (@cut S np (@coord S k lo) (@coord S k up) (t + 1)) (@coord S k up) = false -> False).
    { intros t Ht. apply cut_splits with f; auto. }
    rewrite E1 in B1; rewrite E2 in B2; destruct B1 as [B1 _]; destruct B2 as [_ B2].
    destruct k as [|[|[|k]]]; [| | |lia].
    + apply (G i Hi B1 B2).
    + apply (G j Hj B1 B2).
    + apply (G n Hn B1 B2).
Qed.

Lemma F_terminates : forall part (Hconf : @conforming S part) maxsz (q : list ((F64 * F64 * F64) * F64)),
  q <> [] -> Forall (fun e => moderate_pt (fst e)) q -> crowded_at_most maxsz q ->
  exists q' idx, forall fuel, (length q <= fuel)%nat -> generate_batches (S:=S) part fuel maxsz q = Ok (q', idx).
Proof.
  intros part Hconf maxsz q Hq HQ HC.
  destruct (initial (S:=S) part Hconf q Hq) as (lo & up & q1 & its & EB & EP & E0 & P & HI).
  destruct (refine_terminates part Hconf (length q) maxsz (length q) its q1) as (q' & idx & E); auto.
  - intros q2 st en P2 Hm Hn. apply F_splittable with (maxsz := maxsz) (q := q); auto. 
    change (Permutation (q2 : list (pw S)) q). rewrite P2. auto.
  - destruct HI as (_ & _ & H0 & _). destruct its; [easy|]. simpl. lia.
  - exists q', idx. intros fuel Hf. apply (generate_fuel part maxsz (length q)); auto.
    unfold generate_batches. rewrite E0. cbn [bind]. auto.
Qed.
End Cuts.
