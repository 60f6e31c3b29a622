(** Theorems about the interval transformation in binary64. *)
From Coq Require Import Bool ZArith Lia Reals Lra Psatz.
From Flocq Require Import IEEE754.BinarySingleNaN Core.
From Verif Require Import Base.Outcome Base.Scalar Base.FScalar Model.BoundTransform Model.BoundFloat Spec.RuleSpec Spec.FloatSpec Spec.BoundFloatSpec
  Proofs.FloatOps Proofs.FloatSphere Proofs.FloatErr Proofs.ChebFloat Proofs.BoundFloat.
Local Open Scope R_scope.

Lemma finite_not_inf : forall x : F64, is_finite x = true -> Beqb x f_inf = false /\ Beqb x (Bopp f_inf) = false.
Proof. intros [s| | |s mm e B] H; try discriminate H; destruct s; split; reflexivity. Qed.

Lemma run_finite : forall m dbg (lo up x w : F64), is_finite lo = true -> is_finite up = true -> Bltb lo up = true ->
  transform_f64 m dbg lo up x w = Ok (fin_node lo up x, fin_weight lo up w).
Proof.
  intros m dbg lo up x w Fl Fu H. unfold transform_f64. change (@sltb (FS m) lo up) with (Bltb lo up). rewrite H.
  replace (cassert dbg true) with (Ok tt) by (destruct dbg; reflexivity). cbn [bind].
  rewrite (proj1 (finite_not_inf up Fu)), (proj2 (finite_not_inf lo Fl)). reflexivity.
Qed.
Lemma run_up : forall m dbg (lo x w : F64), is_finite lo = true -> transform_f64 m dbg lo f_inf x w = Ok (up_node lo x, up_weight x w).
Proof.
  intros m dbg lo x w Fl. unfold transform_f64. change (@sltb (FS m) lo f_inf) with (Bltb lo f_inf).
  replace (Bltb lo f_inf) with true by (destruct lo; try discriminate Fl; destruct s; reflexivity).
  replace (cassert dbg true) with (Ok tt) by (destruct dbg; reflexivity). cbn [bind].
  rewrite (proj2 (finite_not_inf lo Fl)). reflexivity.
Qed.
Lemma run_low : forall m dbg (up x w : F64), is_finite up = true -> transform_f64 m dbg (Bopp f_inf) up x w = Ok (low_node up x, low_weight x w).
Proof.
  intros m dbg up x w Fl. unfold transform_f64. change (@sltb (FS m) (Bopp f_inf) up) with (Bltb (Bopp f_inf) up).
  replace (Bltb (Bopp f_inf) up) with true by (destruct up; try discriminate Fl; destruct s; reflexivity).
  replace (cassert dbg true) with (Ok tt) by (destruct dbg; reflexivity). cbn [bind].
  rewrite (proj1 (finite_not_inf up Fl)). reflexivity.
Qed.
Lemma run_all : forall m dbg (x w : F64), transform_f64 m dbg (Bopp f_inf) f_inf x w = Ok (all_node x, all_weight x w).
Proof. intros m [|] x w; reflexivity. Qed.

Lemma Bltb_lt : forall a b : F64, is_finite a = true -> is_finite b = true -> Bltb a b = true -> B2R a < B2R b.
Proof. intros a b Fa Fb H. rewrite (Bltb_correct 53 1024 a b Fa Fb) in H. destruct (Rlt_bool_spec (B2R a) (B2R b)); [assumption|discriminate]. Qed.
Lemma Bltb_le : forall a b : F64, is_finite a = true -> is_finite b = true -> Bltb a b = true -> B2R a <= B2R b.
Proof. intros a b Fa Fb H. left. apply Bltb_lt; auto. Qed.

Theorem finite_thm : forall m dbg (lo up x w : F64), plain_bound lo -> plain_bound up -> Bltb lo up = true -> is_finite x = true -> Rabs (B2R x) <= 1 ->
  is_finite w = true -> Rabs (B2R w) <= 2 ^ 60 -> let M := Rmax (Rabs (B2R lo)) (Rabs (B2R up)) in
  exists y v : F64, transform_f64 m dbg lo up x w = Ok (y, v) /\ is_finite y = true /\ is_finite v = true /\
    Rabs (B2R y - ((B2R up - B2R lo) / 2 * B2R x + (B2R up + B2R lo) / 2)) <= 12 * ulp53 * M + 4 * tiny /\
    Rabs (B2R v - B2R w * ((B2R up - B2R lo) / 2)) <= Rabs (B2R w) * (6 * ulp53 * M + 2 * tiny) + tiny.
Proof.
  intros m dbg lo up x w Hl Hu H Fx Ax Fw Aw M. exists (fin_node lo up x), (fin_weight lo up w).
  split; [apply run_finite; auto; [apply Hl|apply Hu]|].
  destruct (fin_node_near lo up x Hl Hu Fx Ax) as (A1 & A2). destruct (fin_weight_near lo up w Hl Hu Fw Aw) as (B1 & B2). auto.
Qed.
Theorem up_thm : forall m dbg (lo x w : F64), plain_bound lo -> inside x -> moderate w -> let r := (1 + B2R x) / (1 - B2R x) in
  exists y v : F64, transform_f64 m dbg lo f_inf x w = Ok (y, v) /\ is_finite y = true /\ Bleb lo y = true /\
    Rabs (B2R y - (B2R lo + r)) <= 8 * ulp53 * (Rabs (B2R lo) + r) /\
    relative v (B2R w * (2 / ((1 - B2R x) * (1 - B2R x)))) (13 * ulp53).
Proof.
  intros m dbg lo x w Hl Hx Hw r. exists (up_node lo x), (up_weight x w). split; [apply run_up, Hl|].
  destruct (up_node_near lo x Hl Hx) as (A1 & A2). split; [exact A1|].
  split; [apply Bleb_of; [apply Hl|exact A1|apply (up_node_mono lo x x Hl Hx Hx (Rle_refl _))]|]. split; [exact A2|].
  apply rel_relative. unfold up_weight. apply (square_weight _ _ w 2 (1 - B2R x)); auto.
  - destruct two_ok. apply exact_rel; auto.
  - rewrite Rabs_pos_eq by lra. simpl. lra.
  - apply minus_rel, Hx.
  - apply ends_between, Hx.
Qed.
Theorem low_thm : forall m dbg (up x w : F64), plain_bound up -> inside x -> moderate w -> let r := (1 - B2R x) / (1 + B2R x) in
  exists y v : F64, transform_f64 m dbg (Bopp f_inf) up x w = Ok (y, v) /\ is_finite y = true /\ Bleb y up = true /\
    Rabs (B2R y - (B2R up - r)) <= 8 * ulp53 * (Rabs (B2R up) + r) /\
    relative v (B2R w * (- 2 / ((1 + B2R x) * (1 + B2R x)))) (13 * ulp53).
Proof.
  intros m dbg up x w Hl Hx Hw r. exists (low_node up x), (low_weight x w). split; [apply run_low, Hl|].
  destruct (low_node_near up x Hl Hx) as (A1 & A2). split; [exact A1|].
  split; [apply Bleb_of; [exact A1|apply Hl|apply (low_node_mono up x x Hl Hx Hx (Rle_refl _))]|]. split; [exact A2|].
  apply rel_relative. unfold low_weight. apply (square_weight _ _ w (-2) (1 + B2R x)); auto.
  - destruct two_ok as (F & E). apply exact_rel; [rewrite is_finite_Bopp; exact F|rewrite B2R_Bopp, E; lra].
  - rewrite Rabs_left by lra. simpl. lra.
  - apply plus_rel, Hx.
  - apply ends_between, Hx.
Qed.
Theorem all_thm : forall m dbg (x w : F64), inside x -> (B2R x = 0 \/ / 2 ^ 700 <= Rabs (B2R x)) -> moderate w ->
  exists y v : F64, transform_f64 m dbg (Bopp f_inf) f_inf x w = Ok (y, v) /\
    relative y (B2R x / (1 + B2R x) / (1 - B2R x)) (9 * ulp53) /\
    relative v (B2R w * ((1 + B2R x * B2R x) / ((B2R x * B2R x - 1) * (B2R x * B2R x - 1)))) (/ 2 ^ 24).
Proof.
  intros m dbg x w Hx Sx Hw. exists (all_node x), (all_weight x w). split; [apply run_all|]. split; [|apply rel_relative, all_weight_rel; auto].
  destruct Sx as [Z|Sx]; [|apply rel_relative, all_node_rel; auto].
  destruct (all_node_zero x (proj1 Hx) Z) as (F & E). split; [exact F|]. rewrite E, Z. unfold Rdiv. rewrite !Rmult_0_l, Rminus_0_r, Rabs_R0. lra.
Qed.

(** Nodes in order stay in order unless both bounds are infinite. *)
Theorem order_thm : forall m dbg (lo up x x' w w' y v y' v' : F64),
  (plain_bound lo /\ plain_bound up /\ Bltb lo up = true) \/ (plain_bound lo /\ up = f_inf) \/ (lo = Bopp f_inf /\ plain_bound up) ->
  inside x -> inside x' -> Bleb x x' = true -> transform_f64 m dbg lo up x w = Ok (y, v) -> transform_f64 m dbg lo up x' w' = Ok (y', v') -> Bleb y y' = true.
Proof.
  intros m dbg lo up x x' w w' y v y' v' HB Hx Hx' L R1 R2.
  assert (L' : B2R x <= B2R x').
  { rewrite (Bleb_correct 53 1024 x x' (proj1 Hx) (proj1 Hx')) in L. destruct (Rle_bool_spec (B2R x) (B2R x')); [assumption|discriminate]. }
  assert (A : forall t, inside t -> Rabs (B2R t) <= 1) by (intros t (_ & Ht); apply Rabs_le; lra).
  destruct HB as [(Hl & Hu & H)|[(Hl & ->)|(-> & Hu)]].
  - rewrite run_finite in R1, R2 by (apply Hl || apply Hu || exact H). apply ok_eq in R1, R2. apply (f_equal fst) in R1, R2. cbn [fst] in R1, R2. subst y y'.
    apply Bleb_of; [apply fin_node_near; auto; apply Hx|apply fin_node_near; auto; apply Hx'|].
    apply fin_node_mono; auto; try apply Hx; try apply Hx'. apply Bltb_le; auto; [apply Hl|apply Hu].
  - rewrite run_up in R1, R2 by apply Hl. apply ok_eq in R1, R2. apply (f_equal fst) in R1, R2. cbn [fst] in R1, R2. subst y y'.
    apply Bleb_of; [apply up_node_near; auto|apply up_node_near; auto|]. apply up_node_mono; auto.
  - rewrite run_low in R1, R2 by apply Hu. apply ok_eq in R1, R2. apply (f_equal fst) in R1, R2. cbn [fst] in R1, R2. subst y y'.
    apply Bleb_of; [apply low_node_near; auto|apply low_node_near; auto|]. apply low_node_mono; auto.
Qed.

Lemma inside_dec : forall x : F64, is_finite x = true -> Bltb (Bopp (f_of 1 0)) x = true -> Bltb x (f_of 1 0) = true -> inside x.
Proof.
  intros x F H1 H2. destruct one_ok as (F1 & E1). split; [exact F|].
  apply Bltb_lt in H1; [|rewrite is_finite_Bopp; exact F1|exact F]. apply Bltb_lt in H2; auto. rewrite B2R_Bopp, E1 in H1. rewrite E1 in H2. lra.
Qed.

(** 0x1.9936e15f45d4bp-3 and its successor, both bounds infinite *)
Definition nm_x : F64 := f_of 7198975441788235 (-55).
Definition nm_y : F64 := f_of 7198975441788236 (-55).
Theorem order_refuted : forall m dbg, exists x x' w y v y' v' : F64, inside x /\ inside x' /\ Bltb x x' = true /\
  transform_f64 m dbg (Bopp f_inf) f_inf x w = Ok (y, v) /\ transform_f64 m dbg (Bopp f_inf) f_inf x' w = Ok (y', v') /\ Bltb y' y = true.
Proof.
  intros m dbg. exists nm_x, nm_y, (f_of 1 0), (all_node nm_x), (all_weight nm_x (f_of 1 0)), (all_node nm_y), (all_weight nm_y (f_of 1 0)).
  split; [apply inside_dec; vm_compute; reflexivity|]. split; [apply inside_dec; vm_compute; reflexivity|].
  split; [vm_compute; reflexivity|]. split; [apply run_all|]. split; [apply run_all|]. vm_compute. reflexivity.
Qed.
(** 3/64 *)
Theorem odd_refuted : forall m dbg, exists x w y v y' v' : F64, inside x /\
  transform_f64 m dbg (Bopp f_inf) f_inf x w = Ok (y, v) /\ transform_f64 m dbg (Bopp f_inf) f_inf (Bopp x) w = Ok (y', v') /\ Beqb y' (Bopp y) = false.
Proof.
  intros m dbg. set (x := f_of 3 (-6)).
  exists x, (f_of 1 0), (all_node x), (all_weight x (f_of 1 0)), (all_node (Bopp x)), (all_weight (Bopp x) (f_of 1 0)).
  split; [apply inside_dec; vm_compute; reflexivity|]. split; [apply run_all|]. split; [apply run_all|]. vm_compute. reflexivity.
Qed.
(** Bounds 1 and 1.3, a node just above -1 *)
Theorem escape_refuted : forall m dbg, exists lo up x w y v : F64, plain_bound lo /\ plain_bound up /\ Bltb lo up = true /\ inside x /\
  transform_f64 m dbg lo up x w = Ok (y, v) /\ Bltb y lo = true.
Proof.
  intros m dbg. set (lo := f_of 1 0). set (up := f_dec 13 1). set (x := f_of (- 9007199254740991) (-53)).
  exists lo, up, x, lo, (fin_node lo up x), (fin_weight lo up lo).
  destruct one_ok as (F1 & E1).
  assert (B8 : 2 <= 2 ^ 800) by (rewrite <- (pow_1 2) at 1; apply pow2_le; lia).
  split; [split; [exact F1|unfold lo; rewrite E1, Rabs_R1; lra]|].
  assert (Fu : is_finite up = true) by (vm_compute; reflexivity).
  split. { split; [exact Fu|]. destruct two_ok as (F2 & E2).
    assert (L : Bltb up (f_of 2 0) = true) by (vm_compute; reflexivity). assert (G : Bltb lo up = true) by (vm_compute; reflexivity).
    apply Bltb_le in L; auto. apply Bltb_le in G; auto. unfold lo in G. rewrite E2 in L. rewrite E1 in G. apply Rabs_le. lra. }
  split; [vm_compute; reflexivity|]. split; [apply inside_dec; vm_compute; reflexivity|]. split; [apply run_finite; vm_compute; reflexivity|]. vm_compute. reflexivity.
Qed.
(** Bounds -2^1023 and 2^1023: the middle node becomes NaN and its weight infinite. *)
Theorem overflow_refuted : forall m dbg, exists lo up x w y v : F64, is_finite lo = true /\ is_finite up = true /\ Bltb lo up = true /\ inside x /\ is_finite w = true /\
  transform_f64 m dbg lo up x w = Ok (y, v) /\ is_nan y = true /\ v = f_inf.
Proof.
  intros m dbg. set (up := f_of 1 1023). set (lo := Bopp up). set (x := f_of 0 0). set (w := f_of 1 0).
  exists lo, up, x, w, (fin_node lo up x), (fin_weight lo up w).
  assert (Fl : is_finite lo = true) by (vm_compute; reflexivity). assert (Fu : is_finite up = true) by (vm_compute; reflexivity).
  assert (H : Bltb lo up = true) by (vm_compute; reflexivity).
  split; [exact Fl|]. split; [exact Fu|]. split; [exact H|]. split; [apply inside_dec; vm_compute; reflexivity|]. split; [vm_compute; reflexivity|].
  split; [apply run_finite; auto|]. split; [vm_compute; reflexivity|].
  assert (E : B2SF (fin_weight lo up w) = B2SF f_inf) by (vm_compute; reflexivity). apply B2SF_inj. exact E.
Qed.

(** Rules with nodes at the ends, such as Gauss-Lobatto, get infinite nodes and weights. *)
Theorem ends_thm : forall m dbg (b w : F64), is_finite b = true -> is_finite w = true -> Bltb (f_of 0 0) w = true ->
  transform_f64 m dbg b f_inf (f_of 1 0) w = Ok (f_inf, f_inf) /\
  transform_f64 m dbg (Bopp f_inf) b (Bopp (f_of 1 0)) w = Ok (Bopp f_inf, Bopp f_inf) /\
  transform_f64 m dbg (Bopp f_inf) f_inf (f_of 1 0) w = Ok (f_inf, f_inf) /\
  transform_f64 m dbg (Bopp f_inf) f_inf (Bopp (f_of 1 0)) w = Ok (Bopp f_inf, f_inf).
Proof.
  intros m dbg b w Fb Fw Hw.
  assert (W : forall s, fmul w (B754_infinity s) = B754_infinity s).
  { intro s. destruct w as [t| | |[|] mm e B]; try discriminate Fw; destruct s; vm_compute in Hw; try discriminate Hw; try (destruct t; discriminate Hw); reflexivity. }
  rewrite run_up, run_low, !run_all by assumption.
  assert (A1 : fadd b f_inf = f_inf) by (destruct b; try discriminate Fb; destruct s; reflexivity).
  assert (A2 : fsub b f_inf = Bopp f_inf) by (destruct b; try discriminate Fb; destruct s; reflexivity).
  assert (I : forall (a : F64) s, B2SF a = SpecFloat.S754_infinity s -> a = B754_infinity s) by (intros a s H; apply B2SF_inj; exact H).
  repeat split.
  - apply (f_equal (@Ok _)), (f_equal2 pair); [|unfold up_weight; match goal with |- fmul w ?t = _ => replace t with (@B754_infinity 53 1024 false) by (symmetry; apply I; vm_compute; reflexivity) end; apply W].
    unfold up_node. match goal with |- fadd b ?t = _ => replace t with f_inf by (symmetry; apply I; vm_compute; reflexivity) end. exact A1.
  - apply (f_equal (@Ok _)), (f_equal2 pair); [|unfold low_weight; match goal with |- fmul w ?t = _ => replace t with (@B754_infinity 53 1024 true) by (symmetry; apply I; vm_compute; reflexivity) end; apply W].
    unfold low_node. match goal with |- fsub b ?t = _ => replace t with f_inf by (symmetry; apply I; vm_compute; reflexivity) end. exact A2.
  - apply (f_equal (@Ok _)), (f_equal2 pair); [|unfold all_weight; match goal with |- fmul w ?t = _ => replace t with (@B754_infinity 53 1024 false) by (symmetry; apply I; vm_compute; reflexivity) end; apply W]. apply (I _ false). vm_compute. reflexivity.
  - apply (f_equal (@Ok _)), (f_equal2 pair); [|unfold all_weight; match goal with |- fmul w ?t = _ => replace t with (@B754_infinity 53 1024 false) by (symmetry; apply I; vm_compute; reflexivity) end; apply W]. apply (I _ true). vm_compute. reflexivity.
Qed.

(** The weights of a doubly infinite interval near +-1: 1 - 67106650 / 2^53 *)
Theorem digits_refuted : forall m dbg, exists x w y v : F64, inside x /\ moderate w /\ transform_f64 m dbg (Bopp f_inf) f_inf x w = Ok (y, v) /\
  is_finite v = true /\ ~ relative v (B2R w * ((1 + B2R x * B2R x) / ((B2R x * B2R x - 1) * (B2R x * B2R x - 1)))) (/ 2 ^ 28).
Proof.
  intros m dbg. set (x := f_of (2 ^ 53 - 67106650) (-53)). set (w := f_of 1 0).
  exists x, w, (all_node x), (all_weight x w). destruct one_ok as (F1 & E1).
  assert (X : inside x) by (apply inside_dec; vm_compute; reflexivity).
  assert (B7 : 1 <= 2 ^ 700) by (rewrite <- (pow_O 2) at 1; apply pow2_le; lia).
  split; [exact X|]. split. { split; [exact F1|]. unfold w. rewrite E1, Rabs_R1. split; [|exact B7]. apply Rle_trans with (/ 1); [apply Rinv_le_contravar; lra|lra]. }
  split; [apply run_all|]. split; [vm_compute; reflexivity|]. intros (_ & H). revert H.
  assert (EX : B2R x = 9007199187634342 / 9007199254740992).
  { destruct (f_of_exact (2 ^ 53 - 67106650) (-53) eq_refl ltac:(lia)) as (_ & E). unfold x. rewrite E. change (2 ^ 53 - 67106650)%Z with 9007199187634342%Z.
    change (bpow radix2 (-53)) with (/ 9007199254740992). reflexivity. }
  assert (EV : B2R (all_weight x w) = 9007793533141568).
  { assert (B : Beqb (all_weight x w) (f_of 4503896766570784 1) = true) by (vm_compute; reflexivity).
    apply Beqb_B2R in B. rewrite B. destruct (f_of_exact 4503896766570784 1 eq_refl ltac:(lia)) as (_ & ->). change (bpow radix2 1) with 2. lra. }
  rewrite EV. unfold w. rewrite E1, Rmult_1_l, EX. clear.
  set (X := 9007199187634342 / 9007199254740992). set (h := / 2 ^ 28). assert (Hh : h = / 268435456) by (unfold h; f_equal; lra).
  assert (S : 0 < (X * X - 1) * (X * X - 1)) by (unfold X; lra).
  assert (N : 0 < 1 + X * X) by (unfold X; lra).
  assert (K : 9007793533141568 * ((X * X - 1) * (X * X - 1)) < (1 + X * X) * (1 - h)) by (rewrite Hh; unfold X; lra).
  set (E := (1 + X * X) / ((X * X - 1) * (X * X - 1))). assert (E0 : 0 < E) by (apply Rdiv_lt_0_compat; assumption).
  assert (K2 : 9007793533141568 < E * (1 - h)).
  { unfold E. replace ((1 + X * X) / ((X * X - 1) * (X * X - 1)) * (1 - h)) with ((1 + X * X) * (1 - h) / ((X * X - 1) * (X * X - 1))) by (unfold Rdiv; ring).
    apply Rmult_lt_reg_r with ((X * X - 1) * (X * X - 1)); [exact S|]. unfold Rdiv. rewrite Rmult_assoc, Rinv_l by lra. lra. }
  intro H. rewrite (Rabs_pos_eq E) in H by lra. apply abs_of in H. lra.
Qed.

Lemma bound_ex : plain_bound (f_of 1 0) /\ plain_bound (f_of 2 0) /\ Bltb (f_of 1 0) (f_of 2 0) = true /\ inside (f_of 3 (-6)) /\ moderate (f_of 1 0) /\
  / 2 ^ 700 <= Rabs (B2R (f_of 3 (-6))) /\ Bltb (f_of 0 0) (f_of 1 0) = true.
Proof.
  destruct one_ok as (F1 & E1). destruct two_ok as (F2 & E2).
  assert (B8 : 2 <= 2 ^ 800) by (rewrite <- (pow_1 2) at 1; apply pow2_le; lia).
  assert (B7 : 64 <= 2 ^ 700) by (apply Rle_trans with (2 ^ 6); [lra|apply pow2_le; lia]).
  assert (I7 : / 2 ^ 700 <= / 64) by (apply Rinv_le_contravar; lra).
  split; [split; [exact F1|rewrite E1, Rabs_R1; lra]|]. split; [split; [exact F2|rewrite E2, Rabs_pos_eq; lra]|]. split; [vm_compute; reflexivity|].
  split; [apply inside_dec; vm_compute; reflexivity|]. split; [split; [exact F1|rewrite E1, Rabs_R1; lra]|]. split; [|vm_compute; reflexivity].
  destruct (f_of_exact 3 (-6) eq_refl ltac:(lia)) as (_ & ->). change (bpow radix2 (-6)) with (/ 64). rewrite Rabs_pos_eq; lra.
Qed.
