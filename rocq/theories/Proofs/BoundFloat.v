(** The interval transformation in binary64. *)
From Coq Require Import Bool ZArith Lia Reals Lra Psatz.
From Flocq Require Import IEEE754.BinarySingleNaN Core Relative.
From Verif Require Import Base.Outcome Base.Scalar Base.FScalar Model.BoundTransform Model.BoundFloat Spec.RuleSpec Spec.FloatSpec Spec.BoundFloatSpec
  Proofs.FloatOps Proofs.FloatSphere Proofs.FloatErr Proofs.ChebFloat.
Local Open Scope R_scope.

Lemma transform_model : forall m dbg (lo up pt w : F64), is_nan lo = false -> is_nan up = false -> lo <> f_inf -> up <> Bopp f_inf ->
  transform_f64 m dbg lo up pt w = @transform_minus_one_to_one (FS m) dbg (bound_of m lo) (bound_of m up) pt w.
Proof.
  intros m dbg lo up pt w Nl Nu Hl Hu.
  destruct lo as [s| [|] | |s ml el Bl]; try discriminate Nl; try (exfalso; apply Hl; reflexivity);
  destruct up as [s'| [|] | |s' mu eu Bu]; try discriminate Nu; try (exfalso; apply Hu; reflexivity); destruct dbg; reflexivity.
Qed.

Lemma rel_relative : forall x v e, rel x v e -> relative x v e.
Proof. intros x v e H. exact (rel_near x v e H). Qed.
Lemma one_ok : is_finite (f_of 1 0) = true /\ B2R (f_of 1 0) = 1.
Proof. exact (f_of_small 1 ltac:(vm_compute; discriminate)). Qed.
Lemma two_ok : is_finite (f_of 2 0) = true /\ B2R (f_of 2 0) = 2.
Proof. exact (f_of_small 2 ltac:(vm_compute; discriminate)). Qed.

Lemma inside_gap : forall x, inside x -> -1 + / 2 ^ 53 <= B2R x <= 1 - / 2 ^ 53.
Proof.
  intros x (F & H). split.
  - destruct (Rle_lt_dec (-1 + / 2 ^ 53) (B2R x)) as [Q|Q]; [exact Q|exfalso].
    pose proof (pred_one x ltac:(apply Rabs_le; lra) ltac:(lra)). lra.
  - destruct (Rle_lt_dec (B2R x) (1 - / 2 ^ 53)) as [Q|Q]; [exact Q|exfalso].
    pose proof (pred_one (Bopp x)) as P. rewrite B2R_Bopp in P. specialize (P ltac:(apply Rabs_le; lra) ltac:(lra)). lra.
Qed.

Lemma p53 : 0 < / 2 ^ 53.
Proof. apply Rinv_0_lt_compat, pow_lt. lra. Qed.
Lemma tiny_ok_900 : forall v, / 2 ^ 900 <= Rabs v -> tiny_ok v.
Proof.
  intros v H. unfold tiny_ok. eapply Rle_trans; [|exact H].
  apply Rle_trans with (bpow radix2 (-900)); [apply bpow_le; lia|]. right.
  change (bpow radix2 (-900)) with (/ IZR (2 ^ 900)). f_equal. rewrite pow_IZR. reflexivity.
Qed.
Lemma pow2_le : forall a b, (a <= b)%nat -> 2 ^ a <= 2 ^ b.
Proof. intros a b H. apply Rle_pow; [lra|exact H]. Qed.
Lemma pow2_inv_le : forall a b, (a <= b)%nat -> / 2 ^ b <= / 2 ^ a.
Proof. intros a b H. apply Rinv_le_contravar; [apply pow_lt; lra|apply pow2_le; exact H]. Qed.
Lemma p2 : forall n, 0 < 2 ^ n.
Proof. intro n. apply pow_lt. lra. Qed.
Lemma p2i : forall n, 0 < / 2 ^ n.
Proof. intro n. apply Rinv_0_lt_compat, p2. Qed.

(** 1 + x and 1 - x *)
Lemma plus_rel : forall x, inside x -> rel (fadd (f_of 1 0) x) (1 + B2R x) u.
Proof.
  intros x (F & H). destruct one_ok as (F1 & E1).
  assert (Fa : is_finite (fadd (f_of 1 0) x) = true).
  { apply finite_add; auto. rewrite E1. apply Rle_trans with 2; [apply Rabs_le; lra|]. rewrite <- (pow_1 2) at 1. apply pow2_le. lia. }
  split; [exact Fa|]. destruct (fadd_R _ _ Fa) as (_ & _ & ->). destruct (rnd_add_err (f_of 1 0) x) as (e & He & ->). exists e. rewrite E1. auto.
Qed.
Lemma minus_rel : forall x, inside x -> rel (fsub (f_of 1 0) x) (1 - B2R x) u.
Proof.
  intros x (F & H). destruct one_ok as (F1 & E1).
  destruct (finite_sub (f_of 1 0) x F1 F) as (Fa & Ea).
  { rewrite E1. apply Rle_trans with 2; [apply Rabs_le; lra|]. rewrite <- (pow_1 2) at 1. apply pow2_le. lia. }
  split; [exact Fa|]. rewrite Ea. destruct (rnd_sub_err (f_of 1 0) x) as (e & He & ->). exists e. rewrite E1. auto.
Qed.

Lemma between : forall v a b, (a <= 810)%nat -> (b <= 810)%nat -> / 2 ^ a <= Rabs v <= 2 ^ b -> tiny_ok v /\ Rabs v <= 2 ^ 899.
Proof.
  intros v a b Ha Hb (H1 & H2). split.
  - apply tiny_ok_900. eapply Rle_trans; [apply (pow2_inv_le a); lia|exact H1].
  - eapply Rle_trans; [exact H2|]. apply pow2_le. lia.
Qed.
Lemma quot_between : forall v w a b c d, / 2 ^ a <= Rabs v <= 2 ^ b -> / 2 ^ c <= Rabs w <= 2 ^ d -> / 2 ^ (a + d) <= Rabs (v / w) <= 2 ^ (b + c).
Proof.
  intros v w a b c d (V1 & V2) (W1 & W2). unfold Rdiv. rewrite Rabs_mult, Rabs_inv.
  pose proof (p2i a). pose proof (p2i c). pose proof (p2 d). assert (W0 : 0 < Rabs w) by lra.
  assert (I1 : / 2 ^ d <= / Rabs w) by (apply Rinv_le_contravar; lra).
  assert (I2 : / Rabs w <= 2 ^ c) by (rewrite <- (Rinv_inv (2 ^ c)); apply Rinv_le_contravar; lra).
  pose proof (p2i d). rewrite !pow_add, Rinv_mult.
  split; apply Rmult_le_compat; lra.
Qed.
Lemma mult_between : forall v w a b c d, / 2 ^ a <= Rabs v <= 2 ^ b -> / 2 ^ c <= Rabs w <= 2 ^ d -> / 2 ^ (a + c) <= Rabs (v * w) <= 2 ^ (b + d).
Proof.
  intros v w a b c d (V1 & V2) (W1 & W2). rewrite Rabs_mult. pose proof (p2i a). pose proof (p2i c). rewrite !pow_add, Rinv_mult.
  split; apply Rmult_le_compat; lra.
Qed.
Lemma ends_between : forall x, inside x -> / 2 ^ 53 <= Rabs (1 + B2R x) <= 2 ^ 1 /\ / 2 ^ 53 <= Rabs (1 - B2R x) <= 2 ^ 1.
Proof. intros x H. pose proof (inside_gap x H). pose proof p53. rewrite !Rabs_pos_eq by lra. rewrite pow_1. lra. Qed.
Lemma u_tiny : 0 < u <= / 10 ^ 15.
Proof. unfold u. split; [apply p53|]. apply Rinv_le_contravar; [apply pow_lt; lra|]. lra. Qed.

Ltac uu := pose proof u_tiny; nra.

Lemma ratio_rel : forall (a b : F64) p q, rel a p u -> rel b q u -> / 2 ^ 53 <= Rabs p <= 2 ^ 1 -> / 2 ^ 53 <= Rabs q <= 2 ^ 1 ->
  rel (fdiv a b) (p / q) (6 * u).
Proof.
  intros a b p q Ha Hb Hp Hq. destruct (between (p / q) 54 54 ltac:(lia) ltac:(lia) (quot_between _ _ _ _ _ _ Hp Hq)) as (T & B).
  assert (q <> 0) by (intro E; rewrite E, Rabs_R0 in Hq; pose proof p53; lra).
  eapply rel_weak; [apply (rel_fdiv _ _ _ _ _ _ Ha Hb); auto; uu|]. uu.
Qed.

(** [lo, inf) *)
Definition up_node (lo x : F64) : F64 := fadd lo (fdiv (fadd (f_of 1 0) x) (fsub (f_of 1 0) x)).
Definition up_weight (x w : F64) : F64 := fmul w (fdiv (f_of 2 0) (fmul (fsub (f_of 1 0) x) (fsub (f_of 1 0) x))).
Definition low_node (up x : F64) : F64 := fsub up (fdiv (fsub (f_of 1 0) x) (fadd (f_of 1 0) x)).
Definition low_weight (x w : F64) : F64 := fmul w (fdiv (Bopp (f_of 2 0)) (fmul (fadd (f_of 1 0) x) (fadd (f_of 1 0) x))).

Lemma ratio_big : forall r (q : F64), rel q r (6 * u) -> 0 < r <= 2 ^ 54 -> 0 <= B2R q <= 1.1 * r /\ near q r (6 * u * r).
Proof.
  intros r q H Hr. pose proof (rel_near _ _ _ H) as N. rewrite (Rabs_pos_eq r) in N by lra. split; [|exact N].
  destruct H as (_ & d & Hd & ->). apply abs_of in Hd. split; uu.
Qed.
Lemma big_sum : forall (lo q : F64) s, plain_bound lo -> 0 <= B2R q <= s -> s <= 2 ^ 60 -> Rabs (B2R lo) + s <= 2 ^ 900.
Proof.
  intros lo q s (_ & H) _ Hs. apply Rle_trans with (2 ^ 800 + 2 ^ 800).
  - apply Rplus_le_compat; [exact H|]. eapply Rle_trans; [exact Hs|]. apply pow2_le. lia.
  - replace (2 ^ 800 + 2 ^ 800) with (2 ^ 801) by (change (2 ^ 801) with (2 * 2 ^ 800); ring). apply pow2_le. lia.
Qed.
Lemma ratio_le : forall x, inside x -> 0 < (1 + B2R x) / (1 - B2R x) <= 2 ^ 54 /\ 0 < (1 - B2R x) / (1 + B2R x) <= 2 ^ 54.
Proof.
  intros x H. pose proof (ends_between x H) as (A & B). pose proof H as (_ & C).
  pose proof (quot_between _ _ _ _ _ _ A B) as (_ & Q1). pose proof (quot_between _ _ _ _ _ _ B A) as (_ & Q2). cbn [Nat.add] in Q1, Q2.
  assert (P1 : 0 < (1 + B2R x) / (1 - B2R x)) by (apply Rdiv_lt_0_compat; lra).
  assert (P2 : 0 < (1 - B2R x) / (1 + B2R x)) by (apply Rdiv_lt_0_compat; lra).
  rewrite Rabs_pos_eq in Q1, Q2 by lra. auto.
Qed.
Lemma le_54 : forall r, r <= 2 ^ 54 -> 1.1 * r <= 2 ^ 60.
Proof. intros r H. lra. Qed.

Lemma up_node_near : forall lo x, plain_bound lo -> inside x -> let r := (1 + B2R x) / (1 - B2R x) in
  near (up_node lo x) (B2R lo + r) (8 * u * (Rabs (B2R lo) + r)).
Proof.
  intros lo x Hlo Hx r. destruct (ends_between x Hx) as (A & B). destruct (ratio_le x Hx) as (R1 & _). fold r in R1.
  pose proof (ratio_rel _ _ _ _ (plus_rel x Hx) (minus_rel x Hx) A B) as Q. fold r in Q.
  destruct (ratio_big r _ Q R1) as (Q1 & Q2). set (q := fdiv _ _) in *.
  pose proof (big_sum lo q (1.1 * r) Hlo Q1 (le_54 r (proj2 R1))) as BS.
  assert (L0 : near lo (B2R lo) 0) by (split; [apply Hlo|rewrite Rminus_diag_eq, Rabs_R0 by reflexivity; lra]).
  eapply near_weak; [apply (near_fadd lo q _ _ _ _ (Rabs (B2R lo) + 1.1 * r) L0 Q2); [|exact BS]|].
  - eapply Rle_trans; [apply Rabs_triang|]. rewrite (Rabs_pos_eq (B2R q)) by lra. lra.
  - pose proof u_tiny. pose proof (Rabs_pos (B2R lo)). nra.
Qed.
Lemma low_node_near : forall up x, plain_bound up -> inside x -> let r := (1 - B2R x) / (1 + B2R x) in
  near (low_node up x) (B2R up - r) (8 * u * (Rabs (B2R up) + r)).
Proof.
  intros up x Hup Hx r. destruct (ends_between x Hx) as (A & B). destruct (ratio_le x Hx) as (_ & R1). fold r in R1.
  pose proof (ratio_rel _ _ _ _ (minus_rel x Hx) (plus_rel x Hx) B A) as Q. fold r in Q.
  destruct (ratio_big r _ Q R1) as (Q1 & Q2). set (q := fdiv _ _) in *.
  pose proof (big_sum up q (1.1 * r) Hup Q1 (le_54 r (proj2 R1))) as BS.
  assert (L0 : near up (B2R up) 0) by (split; [apply Hup|rewrite Rminus_diag_eq, Rabs_R0 by reflexivity; lra]).
  eapply near_weak; [apply (near_fsub up q _ _ _ _ (Rabs (B2R up) + 1.1 * r) L0 Q2); [|exact BS]|].
  - unfold Rminus. eapply Rle_trans; [apply Rabs_triang|]. rewrite Rabs_Ropp, (Rabs_pos_eq (B2R q)) by lra. lra.
  - pose proof u_tiny. pose proof (Rabs_pos (B2R up)). nra.
Qed.

Lemma square_weight : forall (c b w : F64) p q, rel c p 0 -> / 2 ^ 1 <= Rabs p <= 2 ^ 2 -> rel b q u -> / 2 ^ 53 <= Rabs q <= 2 ^ 1 -> moderate w ->
  rel (fmul w (fdiv c (fmul b b))) (B2R w * (p / (q * q))) (13 * u).
Proof.
  intros c b w p q Hc Hp Hb Hq (Fw & Mw). pose proof u_tiny.
  pose proof (mult_between _ _ _ _ _ _ Hq Hq) as S. destruct (between _ 106 2 ltac:(lia) ltac:(lia) S) as (S1 & S2).
  assert (RS : rel (fmul b b) (q * q) (4 * u)) by (eapply rel_weak; [apply (rel_fmul _ _ _ _ _ _ Hb Hb); auto; uu|uu]).
  pose proof (quot_between _ _ _ _ _ _ Hp S) as D. destruct (between _ 3 108 ltac:(lia) ltac:(lia) D) as (D1 & D2).
  assert (q * q <> 0) by (intro E; rewrite E, Rabs_R0 in S; pose proof (p2i (53 + 53)); lra).
  assert (RD : rel (fdiv c (fmul b b)) (p / (q * q)) (10 * u + / 10 ^ 3 * u)).
  { eapply rel_weak; [apply (rel_fdiv _ _ _ _ _ _ Hc RS); auto; uu|uu]. }
  assert (Hw : rel w (B2R w) 0) by (apply exact_rel; auto).
  pose proof (mult_between _ _ _ _ _ _ Mw D) as M.
  destruct (between _ 703 808 ltac:(lia) ltac:(lia) M) as (M1 & M2).
  eapply rel_weak; [apply (rel_fmul _ _ _ _ _ _ Hw RD); auto; uu|uu].
Qed.

(** ** Finite bounds *)
Definition fin_node (lo up x : F64) : F64 := fadd (fdiv (fmul (fsub up lo) x) (f_of 2 0)) (fdiv (fadd up lo) (f_of 2 0)).
Definition fin_weight (lo up w : F64) : F64 := fmul w (fdiv (fsub up lo) (f_of 2 0)).
Definition reach (lo up : F64) : R := Rmax (Rabs (B2R lo)) (Rabs (B2R up)).

Lemma halve : forall (a : F64) v e K, near a v e -> Rabs (B2R a) <= K -> K <= 2 ^ 900 -> near (fdiv a (f_of 2 0)) (v / 2) (e / 2 + u * K + tiny).
Proof.
  intros a v e K (F & H) HK Hb. destruct two_ok as (F2 & E2).
  destruct (finite_div a (f_of 2 0) F) as (Fd & Ed); [rewrite E2; lra| |].
  { rewrite E2. unfold Rdiv. rewrite Rabs_mult, (Rabs_pos_eq (/ 2)) by lra. pose proof (Rabs_pos (B2R a)). lra. }
  split; [exact Fd|]. rewrite Ed, E2. destruct (rnd_err (B2R a / 2)) as (e1 & t & He1 & Ht & ->).
  replace (B2R a / 2 * (1 + e1) + t - v / 2) with ((B2R a - v) / 2 + (B2R a / 2 * e1 + t)) by field.
  pose proof u_pos. rewrite tiny_half. pose proof (bpow_gt_0 radix2 (-1075)).
  eapply Rle_trans; [apply Rabs_triang|]. unfold Rdiv at 1. rewrite Rabs_mult, (Rabs_pos_eq (/ 2)) by lra.
  assert (Rabs (B2R a / 2 * e1 + t) <= u * K + bpow radix2 (-1075)); [|lra].
  eapply Rle_trans; [apply Rabs_triang|]. apply Rplus_le_compat; [|exact Ht]. rewrite Rabs_mult, Rmult_comm.
  apply Rmult_le_compat; try apply Rabs_pos; auto. unfold Rdiv. rewrite Rabs_mult, (Rabs_pos_eq (/ 2)) by lra. pose proof (Rabs_pos (B2R a)). lra.
Qed.
Lemma near_le : forall a v e K, near a v e -> Rabs v <= K -> Rabs (B2R a) <= K + e.
Proof. intros a v e K (_ & H) HK. replace (B2R a) with (v + (B2R a - v)) by ring. eapply Rle_trans; [apply Rabs_triang|]. lra. Qed.
Lemma tiny_lt : 0 < tiny <= / 10 ^ 15.
Proof.
  split; [apply bpow_gt_0|]. apply Rle_trans with (bpow radix2 (-53)); [apply bpow_le; lia|].
  replace (bpow radix2 (-53)) with u; [apply u_tiny|]. unfold u. change (bpow radix2 (-53)) with (/ IZR (2 ^ 53)). f_equal. rewrite pow_IZR. reflexivity.
Qed.

Lemma fin_parts : forall lo up, plain_bound lo -> plain_bound up -> let M := reach lo up in
  0 <= M /\ M <= 2 ^ 800 /\ Rabs (B2R up - B2R lo) <= 2 * M /\ near (fsub up lo) (B2R up - B2R lo) (2 * u * M) /\ Rabs (B2R (fsub up lo)) <= 2.1 * M /\
  near (fadd up lo) (B2R up + B2R lo) (2 * u * M) /\ Rabs (B2R (fadd up lo)) <= 2.1 * M.
Proof.
  intros lo up (Fl & Hl) (Fu & Hu) M.
  assert (M1 : Rabs (B2R lo) <= M) by apply Rmax_l. assert (M2 : Rabs (B2R up) <= M) by apply Rmax_r.
  assert (M0 : 0 <= M) by (pose proof (Rabs_pos (B2R lo)); lra). assert (MB : M <= 2 ^ 800) by (apply Rmax_lub; assumption).
  assert (B9 : 2 * M <= 2 ^ 900).
  { apply Rle_trans with (2 ^ 801); [change (2 ^ 801) with (2 * 2 ^ 800); lra|apply pow2_le; lia]. }
  assert (D : Rabs (B2R up - B2R lo) <= 2 * M) by (unfold Rminus; eapply Rle_trans; [apply Rabs_triang|]; rewrite Rabs_Ropp; lra).
  assert (S : Rabs (B2R up + B2R lo) <= 2 * M) by (eapply Rle_trans; [apply Rabs_triang|]; lra).
  assert (N : forall v : F64, is_finite v = true -> near v (B2R v) 0) by (intros v Fv; split; [exact Fv|rewrite Rminus_diag_eq, Rabs_R0 by reflexivity; lra]).
  pose proof (near_fsub up lo _ _ _ _ _ (N up Fu) (N lo Fl) D B9) as ND. pose proof (near_fadd up lo _ _ _ _ _ (N up Fu) (N lo Fl) S B9) as NS.
  apply near_weak with (e' := 2 * u * M) in ND; [|lra]. apply near_weak with (e' := 2 * u * M) in NS; [|lra].
  pose proof u_tiny as U. assert (u * M <= / 10 ^ 15 * M) by (apply Rmult_le_compat_r; lra).
  pose proof (near_le _ _ _ _ ND D). pose proof (near_le _ _ _ _ NS S).
  repeat split; try assumption; try apply ND; try apply NS; lra.
Qed.

Lemma fin_node_near : forall lo up x, plain_bound lo -> plain_bound up -> is_finite x = true -> Rabs (B2R x) <= 1 ->
  near (fin_node lo up x) ((B2R up - B2R lo) / 2 * B2R x + (B2R up + B2R lo) / 2) (12 * u * reach lo up + 4 * tiny).
Proof.
  intros lo up x Hl Hu Fx Hx. destruct (fin_parts lo up Hl Hu) as (M0 & MB & D & ND & BD & NS & BS). set (M := reach lo up) in *.
  pose proof u_tiny as U. pose proof tiny_lt as TT. assert (UM : 0 <= u * M <= / 10 ^ 15 * M) by (split; [apply Rmult_le_pos; lra|apply Rmult_le_compat_r; lra]).
  assert (UT : u * tiny <= / 10 ^ 15 * tiny) by (apply Rmult_le_compat_r; lra).
  assert (B9 : 4 * M + 1 <= 2 ^ 900).
  { apply Rle_trans with (2 ^ 803); [change (2 ^ 803) with (2 * (2 * (2 * 2 ^ 800))); pose proof (pow_R1_Rle 2 800 ltac:(lra)); lra|apply pow2_le; lia]. }
  assert (X0 : near x (B2R x) 0) by (split; [exact Fx|rewrite Rminus_diag_eq, Rabs_R0 by reflexivity; lra]).
  pose proof (near_fmul _ x _ _ _ _ (2.1 * M) 1 ND X0 BD Hx Hx ltac:(lra)) as NP.
  apply near_weak with (e' := 4.1 * u * M + tiny) in NP; [|lra].
  assert (BP : Rabs ((B2R up - B2R lo) * B2R x) <= 2 * M) by (rewrite Rabs_mult, <- (Rmult_1_r (2 * M)); apply Rmult_le_compat; try apply Rabs_pos; assumption).
  pose proof (near_le _ _ _ _ NP BP) as BP'.
  pose proof (halve _ _ _ (2.1 * M + tiny) NP ltac:(lra) ltac:(lra)) as N1.
  pose proof (halve _ _ _ (2.1 * M) NS BS ltac:(lra)) as N2.
  apply near_weak with (e' := 4.2 * u * M + 2 * tiny) in N1; [|lra]. apply near_weak with (e' := 3.2 * u * M + tiny) in N2; [|lra].
  assert (B1 : Rabs ((B2R up - B2R lo) * B2R x / 2) <= M) by (unfold Rdiv; rewrite Rabs_mult, (Rabs_pos_eq (/ 2)) by lra; lra).
  assert (B2 : Rabs ((B2R up + B2R lo) / 2) <= M).
  { unfold Rdiv; rewrite Rabs_mult, (Rabs_pos_eq (/ 2)) by lra. pose proof (Rabs_triang (B2R up) (B2R lo)).
    assert (Rabs (B2R lo) <= M) by apply Rmax_l. assert (Rabs (B2R up) <= M) by apply Rmax_r. lra. }
  pose proof (near_le _ _ _ _ N1 B1) as C1. pose proof (near_le _ _ _ _ N2 B2) as C2.
  assert (K : Rabs (B2R (fdiv (fmul (fsub up lo) x) (f_of 2 0)) + B2R (fdiv (fadd up lo) (f_of 2 0))) <= 2.1 * M + 3 * tiny).
  { eapply Rle_trans; [apply Rabs_triang|]. lra. }
  replace ((B2R up - B2R lo) / 2 * B2R x) with ((B2R up - B2R lo) * B2R x / 2) by field.
  eapply near_weak; [apply (near_fadd _ _ _ _ _ _ _ N1 N2 K); lra|]. lra.
Qed.

Lemma fin_weight_near : forall lo up w, plain_bound lo -> plain_bound up -> is_finite w = true -> Rabs (B2R w) <= 2 ^ 60 ->
  near (fin_weight lo up w) (B2R w * ((B2R up - B2R lo) / 2)) (Rabs (B2R w) * (6 * u * reach lo up + 2 * tiny) + tiny).
Proof.
  intros lo up w Hl Hu Fw Hw. destruct (fin_parts lo up Hl Hu) as (M0 & MB & D & ND & BD & _ & _). set (M := reach lo up) in *.
  pose proof u_tiny as U. pose proof tiny_lt as TT. assert (UM : 0 <= u * M <= / 10 ^ 15 * M) by (split; [apply Rmult_le_pos; lra|apply Rmult_le_compat_r; lra]).
  assert (UT : u * tiny <= / 10 ^ 15 * tiny) by (apply Rmult_le_compat_r; lra).
  assert (B9 : 2.1 * M <= 2 ^ 900).
  { apply Rle_trans with (2 ^ 803); [change (2 ^ 803) with (2 * (2 * (2 * 2 ^ 800))); pose proof (pow_R1_Rle 2 800 ltac:(lra)); lra|apply pow2_le; lia]. }
  pose proof (halve _ _ _ (2.1 * M) ND BD B9) as N1. apply near_weak with (e' := 3.2 * u * M + tiny) in N1; [|lra].
  assert (B1 : Rabs ((B2R up - B2R lo) / 2) <= M) by (unfold Rdiv; rewrite Rabs_mult, (Rabs_pos_eq (/ 2)) by lra; lra).
  pose proof (near_le _ _ _ _ N1 B1) as C1.
  assert (W0 : near w (B2R w) 0) by (split; [exact Fw|rewrite Rminus_diag_eq, Rabs_R0 by reflexivity; lra]).
  pose proof (Rabs_pos (B2R w)) as WP. set (W := Rabs (B2R w)) in *.
  assert (BW : W * (1.1 * M + tiny) <= 2 ^ 900).
  { apply Rle_trans with (2 ^ 60 * 2 ^ 802); [apply Rmult_le_compat; try lra|rewrite <- pow_add; apply pow2_le; lia]. }
  eapply near_weak; [apply (near_fmul w _ _ _ _ _ W (1.1 * M + tiny) W0 N1 (Rle_refl _)); lra|].
  assert (0 <= W * (u * M)) by (apply Rmult_le_pos; lra). assert (W * (u * tiny) <= W * (/ 10 ^ 15 * tiny)) by (apply Rmult_le_compat_l; lra).
  assert (0 <= W * tiny) by (apply Rmult_le_pos; lra). lra.
Qed.

(** ** Both bounds infinite *)
Definition all_node (x : F64) : F64 := fdiv (fdiv x (fadd (f_of 1 0) x)) (fsub (f_of 1 0) x).
Definition all_weight (x w : F64) : F64 :=
  fmul w (fdiv (fadd (f_of 1 0) (fmul x x)) (fmul (fsub (fmul x x) (f_of 1 0)) (fsub (fmul x x) (f_of 1 0)))).

Lemma all_node_rel : forall x, inside x -> / 2 ^ 700 <= Rabs (B2R x) -> rel (all_node x) (B2R x / (1 + B2R x) / (1 - B2R x)) (9 * u).
Proof.
  intros x Hx Sx. pose proof Hx as (Fx & Ix). destruct (ends_between x Hx) as (A & B). pose proof u_tiny.
  assert (X1 : / 2 ^ 700 <= Rabs (B2R x) <= 2 ^ 0) by (split; [exact Sx|rewrite pow_O; apply Rabs_le; lra]).
  assert (R0 : rel x (B2R x) 0) by (apply exact_rel; auto).
  pose proof (quot_between _ _ _ _ _ _ X1 A) as Q1. destruct (between _ 701 53 ltac:(lia) ltac:(lia) Q1) as (T1 & U1).
  pose proof (quot_between _ _ _ _ _ _ Q1 B) as Q2. destruct (between _ 702 106 ltac:(lia) ltac:(lia) Q2) as (T2 & U2).
  assert (R1 : rel (fdiv x (fadd (f_of 1 0) x)) (B2R x / (1 + B2R x)) (4 * u)).
  { eapply rel_weak; [apply (rel_fdiv _ _ _ _ _ _ R0 (plus_rel x Hx)); auto; lra|lra]. }
  eapply rel_weak; [apply (rel_fdiv _ _ _ _ _ _ R1 (minus_rel x Hx)); auto; lra|]. nra.
Qed.

Lemma all_node_zero : forall x, is_finite x = true -> B2R x = 0 -> is_finite (all_node x) = true /\ B2R (all_node x) = 0.
Proof.
  intros x Fx Zx. destruct x as [s| | |s mm e Bx]; try discriminate Fx.
  - destruct s; vm_compute; auto.
  - exfalso. simpl in Zx. apply eq_0_F2R in Zx. destruct s; discriminate Zx.
Qed.

(** x * x - 1 keeps half of the digits. *)
Lemma square_gap : forall x, inside x -> Rabs (rnd (B2R x * B2R x) - B2R x * B2R x) <= / 2 ^ 27 * (1 - B2R x * B2R x).
Proof.
  intros x Hx. pose proof (inside_gap x Hx) as G. pose proof Hx as (Fx & Ix).
  set (a := Rabs (B2R x)). assert (A : B2R x * B2R x = a * a) by (unfold a, Rabs; destruct Rcase_abs; ring). rewrite A.
  assert (a1 : 0 <= a < 1) by (split; [apply Rabs_pos|apply Rabs_def1; lra]).
  assert (E : Rabs (rnd (a * a) - a * a) <= u * (a * a) + tiny).
  { destruct (rnd_err (a * a)) as (e & t & He & Ht & ->). replace (a * a * (1 + e) + t - a * a) with (e * (a * a) + t) by ring.
    eapply Rle_trans; [apply Rabs_triang|]. rewrite Rabs_mult, (Rabs_pos_eq (a * a)) by nra. rewrite tiny_half. pose proof (bpow_gt_0 radix2 (-1075)).
    apply Rplus_le_compat; [apply Rmult_le_compat_r; [nra|exact He]|lra]. }
  pose proof tiny_u as TU. pose proof u_tiny as U.
  assert (TU' : tiny <= / 10 ^ 6 * u).
  { eapply Rle_trans; [exact TU|]. rewrite Rmult_comm. apply Rmult_le_compat_r; [lra|]. apply Rinv_le_contravar; [apply pow_lt; lra|lra]. }
  assert (P27 : / 2 ^ 27 * / 2 ^ 27 = / 2 * u) by (unfold u; rewrite <- Rinv_mult, <- pow_add, <- Rinv_mult; reflexivity).
  pose proof (p2i 27) as P0. set (h := / 2 ^ 27) in *.
  assert (h1 : h <= 1 / 1000) by (unfold h; apply Rle_trans with (/ 1000); [apply Rinv_le_contravar; lra|lra]).
  destruct (Rle_lt_dec (/ 2) a) as [Ha|Ha].
  - set (t := 1 - a). assert (s1 : 1.5 * t <= 1 - a * a) by (unfold t; nra).
    destruct (Rle_lt_dec t (1.5 * h)) as [Ht|Ht].
    + assert (E2 : Rabs (rnd (a * a) - a * a) <= t * t).
      { assert (GF : generic_format radix2 (FLT_exp (-1074) 53) (2 * a - 1)).
        { assert (Ga : generic_format radix2 (FLT_exp (-1074) 53) a) by (unfold a; apply generic_format_abs, (generic_format_B2R 53 1024 x)).
          assert (C : cexp radix2 (FLT_exp (-1074) 53) a = (-53)%Z).
          { unfold cexp. rewrite (mag_unique_pos radix2 a 0); [reflexivity|]. simpl. split; [|lra].
            unfold Z.pow_pos. simpl. lra. }
          unfold generic_format in Ga. rewrite C in Ga. set (k := Ztrunc (scaled_mantissa radix2 (FLT_exp (-1074) 53) a)) in *.
          apply generic_format_FLT. exists (Float radix2 (2 * k - 2 ^ 53) (-53)).
          - rewrite Ga. change (2 * (IZR k * bpow radix2 (-53)) - 1 = IZR (2 * k - 2 ^ 53) * bpow radix2 (-53)). rewrite minus_IZR, mult_IZR.
            assert (IZR (2 ^ 53) * bpow radix2 (-53) = 1) by (change (IZR (2 ^ 53)) with (bpow radix2 53); rewrite <- bpow_plus; reflexivity). lra.
          - change (Z.abs (2 * k - 2 ^ 53) < 2 ^ 53)%Z. assert (k1 : IZR k = a * 2 ^ 53).
            { unfold F2R in Ga. simpl Fnum in Ga. simpl Fexp in Ga. assert (bp : bpow radix2 (-53) = / 2 ^ 53).
              { change (bpow radix2 (-53)) with (/ IZR (2 ^ 53)). f_equal. rewrite pow_IZR. reflexivity. }
              rewrite bp in Ga. rewrite Ga at 1. field. }
            assert (2 ^ 52 <= k)%Z by (apply le_IZR; rewrite k1; replace (IZR (2 ^ 52)) with (2 ^ 52) by (rewrite pow_IZR; reflexivity); replace (2 ^ 53) with (2 * 2 ^ 52) by ring; pose proof (p2 52); nra).
            assert (k < 2 ^ 53)%Z by (apply lt_IZR; rewrite k1; replace (IZR (2 ^ 53)) with (2 ^ 53) by (rewrite pow_IZR; reflexivity); pose proof (p2 53); nra).
            lia.
          - simpl. lia. }
        assert (VE : Valid_exp (FLT_exp (-1074) 53)) by (apply FLT_exp_valid; exact Hprec).
        destruct (round_N_pt radix2 (FLT_exp (-1074) 53) (fun z => negb (Z.even z)) (a * a)) as (_ & N). specialize (N _ GF).
        eapply Rle_trans; [exact N|]. unfold t. replace (2 * a - 1 - a * a) with (- ((1 - a) * (1 - a))) by ring.
        rewrite Rabs_Ropp, Rabs_pos_eq by nra. lra. }
      assert (0 <= t) by (unfold t; lra). nra.
    + assert (u * (a * a) <= u * 1) by (apply Rmult_le_compat_l; nra).
      assert (h * (1.5 * (1.5 * h)) <= h * (1 - a * a)) by (apply Rmult_le_compat_l; lra). lra.
  - assert (3 / 4 <= 1 - a * a) by nra. assert (u * (a * a) <= u * 1) by (apply Rmult_le_compat_l; nra).
    assert (h * (3 / 4) <= h * (1 - a * a)) by (apply Rmult_le_compat_l; lra).
    assert (u <= h * / 100) by nra. lra.
Qed.

Lemma gap_rel : forall x, inside x -> rel (fsub (fmul x x) (f_of 1 0)) (B2R x * B2R x - 1) (/ 2 ^ 27 + 2 * u) /\
  rel (fadd (f_of 1 0) (fmul x x)) (1 + B2R x * B2R x) (3 * u).
Proof.
  intros x Hx. pose proof Hx as (Fx & Ix). pose proof u_tiny as U. destruct one_ok as (F1 & E1).
  assert (X2 : 0 <= B2R x * B2R x < 1) by (split; nra).
  assert (B9 : 10 <= 2 ^ 900) by (apply Rle_trans with (2 ^ 4); [lra|apply pow2_le; lia]).
  assert (Fp : is_finite (fmul x x) = true) by (apply finite_mul; auto; rewrite Rabs_pos_eq; lra).
  destruct (fmul_R _ _ Fp) as (_ & _ & Ep). pose proof (square_gap x Hx) as SG. set (s := B2R x * B2R x) in *.
  assert (Sp : 0 <= rnd s <= 1).
  { split; [rewrite <- rnd_0; apply rnd_mono; lra|]. rewrite <- E1, <- (rnd_B2R (f_of 1 0)), E1. apply rnd_mono. lra. }
  assert (h27 : 0 < / 2 ^ 27 <= 1 / 1000) by (split; [apply p2i|apply Rle_trans with (/ 1000); [apply Rinv_le_contravar; lra|lra]]).
  split.
  - destruct (finite_sub (fmul x x) (f_of 1 0) Fp F1) as (Fs & Es); [rewrite Ep, E1; apply Rabs_le; lra|].
    split; [exact Fs|]. rewrite Es. destruct (rnd_sub_err (fmul x x) (f_of 1 0)) as (e & He & ->). rewrite Ep, E1.
    set (d := (rnd s - s) / (s - 1)). assert (Hd : Rabs d <= / 2 ^ 27).
    { unfold d, Rdiv. rewrite Rabs_mult, Rabs_inv. rewrite (Rabs_left (s - 1)) by lra.
      apply Rmult_le_reg_r with (- (s - 1)); [lra|]. rewrite Rmult_assoc, Rinv_l, Rmult_1_r by lra. lra. }
    exists (d + e + d * e). split.
    + eapply Rle_trans; [apply Rabs_triang|]. eapply Rle_trans; [apply Rplus_le_compat_r, Rabs_triang|]. rewrite Rabs_mult.
      assert (Rabs d * Rabs e <= 1 * u) by (apply Rmult_le_compat; try apply Rabs_pos; lra). lra.
    + unfold d. field. lra.
  - assert (Fa : is_finite (fadd (f_of 1 0) (fmul x x)) = true) by (apply finite_add; auto; rewrite Ep, E1; apply Rabs_le; lra).
    split; [exact Fa|]. destruct (fadd_R _ _ Fa) as (_ & _ & ->). destruct (rnd_add_err (f_of 1 0) (fmul x x)) as (e & He & ->). rewrite Ep, E1.
    assert (SE : Rabs (rnd s - s) <= u + tiny).
    { destruct (rnd_err s) as (e2 & t2 & He2 & Ht2 & ->). replace (s * (1 + e2) + t2 - s) with (e2 * s + t2) by ring.
      eapply Rle_trans; [apply Rabs_triang|]. rewrite Rabs_mult, (Rabs_pos_eq s) by lra. rewrite tiny_half. pose proof (bpow_gt_0 radix2 (-1075)).
      assert (Rabs e2 * s <= u * 1) by (apply Rmult_le_compat; try apply Rabs_pos; lra). lra. }
    assert (TU : tiny <= u * / 10). { eapply Rle_trans; [apply tiny_u|]. apply Rmult_le_compat_l; [lra|]. apply Rinv_le_contravar; lra. }
    set (d := (rnd s - s) / (1 + s)). assert (Hd : Rabs d <= 1.1 * u).
    { unfold d, Rdiv. rewrite Rabs_mult, Rabs_inv. rewrite (Rabs_pos_eq (1 + s)) by lra.
      apply Rmult_le_reg_r with (1 + s); [lra|]. rewrite Rmult_assoc, Rinv_l, Rmult_1_r by lra. nra. }
    exists (d + e + d * e). split.
    + eapply Rle_trans; [apply Rabs_triang|]. eapply Rle_trans; [apply Rplus_le_compat_r, Rabs_triang|]. rewrite Rabs_mult.
      assert (Rabs d * Rabs e <= (1.1 * u) * (/ 10 ^ 15)) by (apply Rmult_le_compat; try apply Rabs_pos; lra). lra.
    + unfold d. field. lra.
Qed.

Lemma all_weight_rel : forall x w, inside x -> moderate w ->
  rel (all_weight x w) (B2R w * ((1 + B2R x * B2R x) / ((B2R x * B2R x - 1) * (B2R x * B2R x - 1)))) (/ 2 ^ 24).
Proof.
  intros x w Hx (Fw & Mw). destruct (gap_rel x Hx) as (G1 & G2). pose proof u_tiny as U. pose proof Hx as (Fx & Ix). pose proof (inside_gap x Hx) as IG.
  set (s := B2R x * B2R x) in *.
  assert (s1 : 0 <= s <= 1 - / 2 ^ 53) by (unfold s; pose proof p53; split; nra).
  assert (h27 : 0 < / 2 ^ 27 <= / 10 ^ 8) by (split; [apply p2i|apply Rinv_le_contravar; [apply pow_lt; lra|lra]]).
  assert (h24 : / 2 ^ 24 = 8 * / 2 ^ 27) by (replace (2 ^ 27) with (8 * 2 ^ 24) by ring; field).
  assert (uh : u <= / 2 ^ 27 * / 10 ^ 6).
  { unfold u. rewrite <- Rinv_mult. apply Rinv_le_contravar; [apply Rmult_lt_0_compat; apply pow_lt; lra|lra]. }
  rewrite h24. set (h := / 2 ^ 27) in *.
  assert (Q : / 2 ^ 53 <= Rabs (s - 1) <= 2 ^ 0) by (rewrite pow_O, Rabs_left1 by (pose proof p53; lra); lra).
  assert (N : / 2 ^ 0 <= Rabs (1 + s) <= 2 ^ 1) by (rewrite pow_O, pow_1, Rabs_pos_eq by lra; rewrite Rinv_1; pose proof p53; lra).
  pose proof (mult_between _ _ _ _ _ _ Q Q) as S. destruct (between _ 106 0 ltac:(lia) ltac:(lia) S) as (S1 & S2).
  assert (RS : rel (fmul (fsub (fmul x x) (f_of 1 0)) (fsub (fmul x x) (f_of 1 0))) ((s - 1) * (s - 1)) (2.1 * h)).
  { eapply rel_weak; [apply (rel_fmul _ _ _ _ _ _ G1 G1); auto; lra|]. nra. }
  pose proof (quot_between _ _ _ _ _ _ N S) as D. destruct (between _ 0 107 ltac:(lia) ltac:(lia) D) as (D1 & D2).
  assert ((s - 1) * (s - 1) <> 0) by (intro E; rewrite E, Rabs_R0 in S; pose proof (p2i (53 + 53)); lra).
  assert (RD : rel (fdiv (fadd (f_of 1 0) (fmul x x)) (fmul (fsub (fmul x x) (f_of 1 0)) (fsub (fmul x x) (f_of 1 0)))) ((1 + s) / ((s - 1) * (s - 1))) (5 * h)).
  { eapply rel_weak; [apply (rel_fdiv _ _ _ _ _ _ G2 RS); auto; lra|]. nra. }
  assert (Hw : rel w (B2R w) 0) by (apply exact_rel; auto).
  pose proof (mult_between _ _ _ _ _ _ Mw D) as M. destruct (between _ 700 807 ltac:(lia) ltac:(lia) M) as (M1 & M2).
  eapply rel_weak; [apply (rel_fmul _ _ _ _ _ _ Hw RD); auto; lra|]. nra.
Qed.

(** ** Order *)
Lemma Bleb_of : forall a b : F64, is_finite a = true -> is_finite b = true -> B2R a <= B2R b -> Bleb a b = true.
Proof. intros a b Fa Fb H. rewrite (Bleb_correct 53 1024 a b Fa Fb). apply Rle_bool_true. exact H. Qed.

Lemma ends_mono : forall x y, inside x -> inside y -> B2R x <= B2R y ->
  0 < B2R (fsub (f_of 1 0) y) <= B2R (fsub (f_of 1 0) x) /\ 0 < B2R (fadd (f_of 1 0) x) <= B2R (fadd (f_of 1 0) y).
Proof.
  intros x y Hx Hy H. destruct one_ok as (F1 & E1). pose proof u_tiny as U. pose proof (inside_gap x Hx) as Gx. pose proof (inside_gap y Hy) as Gy. pose proof p53.
  destruct (plus_rel x Hx) as (A1 & d1 & D1 & Q1). destruct (minus_rel y Hy) as (A2 & d2 & D2 & Q2).
  apply abs_of in D1. apply abs_of in D2.
  destruct (minus_rel x Hx) as (A3 & _). destruct (plus_rel y Hy) as (A4 & _).
  split; split.
  - rewrite Q2. apply Rmult_lt_0_compat; lra.
  - destruct (fsub_R _ _ A2) as (_ & _ & ->). destruct (fsub_R _ _ A3) as (_ & _ & ->). apply rnd_mono. lra.
  - rewrite Q1. apply Rmult_lt_0_compat; lra.
  - destruct (fadd_R _ _ A1) as (_ & _ & ->). destruct (fadd_R _ _ A4) as (_ & _ & ->). apply rnd_mono. lra.
Qed.
Lemma ratio_mono : forall a b a' b' : F64, is_finite (fdiv a b) = true -> is_finite (fdiv a' b') = true ->
  0 < B2R a <= B2R a' -> 0 < B2R b' <= B2R b -> B2R (fdiv a b) <= B2R (fdiv a' b').
Proof.
  intros a b a' b' F F' Ha Hb. destruct (fdiv_R a b F ltac:(lra)) as (_ & ->). destruct (fdiv_R a' b' F' ltac:(lra)) as (_ & ->).
  apply rnd_mono. unfold Rdiv. apply Rmult_le_compat; try lra; [left; apply Rinv_0_lt_compat; lra|apply Rinv_le_contravar; lra].
Qed.

Lemma up_node_mono : forall lo x y, plain_bound lo -> inside x -> inside y -> B2R x <= B2R y ->
  B2R (up_node lo x) <= B2R (up_node lo y) /\ B2R lo <= B2R (up_node lo x).
Proof.
  intros lo x y Hl Hx Hy H. destruct (up_node_near lo x Hl Hx) as (Fx & _). destruct (up_node_near lo y Hl Hy) as (Fy & _).
  unfold up_node in *. destruct (fadd_R _ _ Fx) as (_ & F1 & E1). destruct (fadd_R _ _ Fy) as (_ & F2 & E2). rewrite E1, E2.
  destruct (ends_mono x y Hx Hy H) as (M1 & M2). split.
  - apply rnd_mono, Rplus_le_compat_l, ratio_mono; auto.
  - rewrite <- (rnd_B2R lo) at 1. apply rnd_mono.
    destruct (fdiv_R (fadd (f_of 1 0) x) _ F1 ltac:(lra)) as (_ & ->).
    assert (0 <= rnd (B2R (fadd (f_of 1 0) x) / B2R (fsub (f_of 1 0) x))); [|lra].
    rewrite <- rnd_0. apply rnd_mono. left. apply Rdiv_lt_0_compat; lra.
Qed.
Lemma low_node_mono : forall up x y, plain_bound up -> inside x -> inside y -> B2R x <= B2R y ->
  B2R (low_node up x) <= B2R (low_node up y) /\ B2R (low_node up y) <= B2R up.
Proof.
  intros up x y Hl Hx Hy H. destruct (low_node_near up x Hl Hx) as (Fx & _). destruct (low_node_near up y Hl Hy) as (Fy & _).
  unfold low_node in *. destruct (fsub_R _ _ Fx) as (_ & F1 & E1). destruct (fsub_R _ _ Fy) as (_ & F2 & E2). rewrite E1, E2.
  destruct (ends_mono x y Hx Hy H) as (M1 & M2). split.
  - apply rnd_mono. apply Rplus_le_compat_l, Ropp_le_contravar, ratio_mono; auto.
  - rewrite <- (rnd_B2R up) at 2. apply rnd_mono.
    destruct (fdiv_R (fsub (f_of 1 0) y) _ F2 ltac:(lra)) as (_ & ->).
    assert (0 <= rnd (B2R (fsub (f_of 1 0) y) / B2R (fadd (f_of 1 0) y))); [|lra].
    rewrite <- rnd_0. apply rnd_mono. left. apply Rdiv_lt_0_compat; lra.
Qed.
Lemma fin_node_mono : forall lo up x y, plain_bound lo -> plain_bound up -> B2R lo <= B2R up -> is_finite x = true -> is_finite y = true ->
  Rabs (B2R x) <= 1 -> Rabs (B2R y) <= 1 -> B2R x <= B2R y -> B2R (fin_node lo up x) <= B2R (fin_node lo up y).
Proof.
  intros lo up x y Hl Hu Hlu Fx Fy Ax Ay H. destruct (fin_node_near lo up x Hl Hu Fx Ax) as (Nx & _). destruct (fin_node_near lo up y Hl Hu Fy Ay) as (Ny & _).
  unfold fin_node in *. destruct (fadd_R _ _ Nx) as (F1 & F2 & ->). destruct (fadd_R _ _ Ny) as (F3 & F4 & ->). destruct two_ok as (T1 & T2).
  apply rnd_mono, Rplus_le_compat_r.
  destruct (fdiv_R _ _ F1 ltac:(rewrite T2; lra)) as (G1 & ->). destruct (fdiv_R _ _ F3 ltac:(rewrite T2; lra)) as (G3 & ->). rewrite T2.
  apply rnd_mono. apply Rmult_le_compat_r; [lra|].
  destruct (fmul_R _ _ G1) as (P1 & _ & ->). destruct (fmul_R _ _ G3) as (_ & _ & ->). apply rnd_mono. apply Rmult_le_compat_l; [|exact H].
  destruct (fsub_R _ _ P1) as (_ & _ & ->). rewrite <- rnd_0. apply rnd_mono. lra.
Qed.
