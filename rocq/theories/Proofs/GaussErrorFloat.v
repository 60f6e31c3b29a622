(** The stored Gauss-Legendre and Gauss-Lobatto rules against the integral itself. *)
From Coq Require Import List Bool Arith ZArith Lia Reals Lra Psatz.
From Coquelicot Require Import Coquelicot.
From Flocq Require Import IEEE754.BinarySingleNaN.
From Verif Require Import Base.Outcome Base.Scalar Base.RScalar Base.FScalar Model.Primitive
  Spec.Sums Spec.RealRules Spec.LegendreSpec Spec.ErrorSpec Spec.FloatSpec Spec.LibmSpec
  Proofs.GLRule Proofs.LobattoRule Proofs.GLFloatRule Proofs.LobFloatRule Proofs.GaussError.
Import ListNotations.
Local Open Scope R_scope.

Section Legendre.
Variables (m : libm) (d : R) (n : nat) (qf : list F64 * list F64).
Hypothesis Hm : accurate m d.
Hypothesis Hd : d * (INR n + 1) ^ 2 <= 1 / 2000.
Hypothesis n1 : (1 <= n)%nat.
Hypothesis Hn : (Z.of_nat n < 16384)%Z.
Hypothesis G : @gl_generate (FS m) n = Ok qf.

Lemma gl_lip_error : forall g f K L, gauss_rule n g -> (forall x, -1 <= x <= 1 -> Rabs (f x) <= K) -> lipschitz (-1) 1 L f ->
  Rabs (apply_rule (real_rule qf) f - apply_rule g f) <= (400 * (INR n + 1) ^ 2 * K + 32 * L) * sqrt (INR n + 1) * ulp53.
Proof.
  intros g f K L Hg FK FL. destruct (gl_float m d n qf g Hm Hd n1 Hn G Hg) as (_ & (Lx & Lw & _ & PX & _) & C).
  pose proof Hg as ((_ & _ & _ & GX & GW) & E).
  eapply Rle_trans; [apply (close_lip n (16 * sqrt (INR n + 1) * ulp53) (200 * (INR n + 1) ^ 2 * sqrt (INR n + 1) * ulp53) (real_rule qf) g K L f Lx Lw C); auto|].
  - intros x Hx. specialize (PX x Hx). lra.
  - intros x Hx. specialize (GX x Hx). lra.
  - rewrite (exact_two (2 * n) g) by (auto; lia). apply Req_le. ring.
Qed.

Lemma gl_best : forall f p K L e, (forall x, -1 <= x <= 1 -> Rabs (f x) <= K) -> lipschitz (-1) 1 L f ->
  deg_le p (2 * n - 1) -> within (-1) 1 e f (peval p) ->
  Rabs (apply_rule (real_rule qf) f - RInt f (-1) 1) <= 4 * e + (400 * (INR n + 1) ^ 2 * K + 32 * L) * sqrt (INR n + 1) * ulp53.
Proof.
  intros f p K L e FK FL Lp W. destruct (gauss_exists n n1) as (g & Hg).
  pose proof (gl_lip_error g f K L Hg FK FL) as A.
  assert (B : Rabs (apply_rule g f - RInt f (-1) 1) <= 4 * e).
  { rewrite <- clamp_int, <- (clamp_apply f g).
    - apply (gauss_best n g (clamp f) p); auto; [intros x _; apply (clamp_cont f L); auto|].
      intros x Hx. rewrite clamp_in by auto. apply W; auto.
    - destruct Hg as ((_ & _ & _ & PX & _) & _). intros x Hx. specialize (PX x Hx). lra. }
  replace (apply_rule (real_rule qf) f - RInt f (-1) 1) with
    ((apply_rule g f - RInt f (-1) 1) + (apply_rule (real_rule qf) f - apply_rule g f)) by ring.
  eapply Rle_trans; [apply Rabs_triang|]. lra.
Qed.

Lemma gl_smooth : forall F M K L, smooth (-1) 1 (2 * n) F M -> (forall x, -1 <= x <= 1 -> Rabs (F 0%nat x) <= K) ->
  (forall x, -1 <= x <= 1 -> Rabs (F 1%nat x) <= L) ->
  Rabs (apply_rule (real_rule qf) (F 0%nat) - RInt (F 0%nat) (-1) 1) <=
    8 * M / (2 ^ (2 * n) * INR (fact (2 * n))) + (400 * (INR n + 1) ^ 2 * K + 32 * L) * sqrt (INR n + 1) * ulp53.
Proof.
  intros F M K L S FK FL. destruct (smooth_approx (2 * n) F M ltac:(lia) S) as (p & Lp & W).
  replace (8 * M / (2 ^ (2 * n) * INR (fact (2 * n)))) with (4 * (2 * M / (2 ^ (2 * n) * INR (fact (2 * n))))) by (unfold Rdiv; ring).
  apply (gl_best (F 0%nat) p); auto; [|unfold deg_le; lia]. apply (smooth_lip (-1) 1 (2 * n) F M L); auto. lia.
Qed.

Lemma gl_lip : forall f K L, (forall x, -1 <= x <= 1 -> Rabs (f x) <= K) -> lipschitz (-1) 1 L f ->
  Rabs (apply_rule (real_rule qf) f - RInt f (-1) 1) <=
    4 * L / sqrt (INR (2 * n - 1)) + (400 * (INR n + 1) ^ 2 * K + 32 * L) * sqrt (INR n + 1) * ulp53.
Proof.
  intros f K L FK FL. destruct (lip_approx1 (2 * n - 1) L f ltac:(lia) FL) as (p & Lp & W).
  replace (4 * L / sqrt (INR (2 * n - 1))) with (4 * (L / sqrt (INR (2 * n - 1)))) by (unfold Rdiv; ring).
  apply (gl_best f p); auto. unfold deg_le; lia.
Qed.
End Legendre.

Section Lobatto.
Variables (m : libm) (d : R) (n : nat) (qf : list F64 * list F64).
Hypothesis Hm : accurate m d.
Hypothesis Hd : d * INR n ^ 2 <= 1 / 2000.
Hypothesis n2 : (2 <= n)%nat.
Hypothesis Hn : (Z.of_nat n <= 16384)%Z.
Hypothesis G : @lob_generate (FS m) n = Ok qf.

Lemma lob_lip_error : forall g f K L, lobatto_rule n g -> (forall x, -1 <= x <= 1 -> Rabs (f x) <= K) -> lipschitz (-1) 1 L f ->
  Rabs (apply_rule (real_rule qf) f - apply_rule g f) <= (90 * INR n ^ 2 * K + 48 * L) * sqrt (INR n) * ulp53.
Proof.
  intros g f K L Hg FK FL. destruct (lob_float m d n qf g Hm Hd n2 Hn G Hg) as (_ & GC & C).
  pose proof GC as (Lx & Lw & _). pose proof Hg as (GG & E). pose proof GG as (_ & _ & _ & _ & _ & GW).
  eapply Rle_trans; [apply (close_lip n (24 * sqrt (INR n) * ulp53) (45 * INR n ^ 2 * sqrt (INR n) * ulp53) (real_rule qf) g K L f Lx Lw C); auto|].
  - intro x. apply (closed_nodes n); auto.
  - intro x. apply (closed_nodes n); auto.
  - rewrite (exact_two (2 * n - 2) g) by (auto; lia). apply Req_le. ring.
Qed.

Lemma lob_best : forall f p K L e, (forall x, -1 <= x <= 1 -> Rabs (f x) <= K) -> lipschitz (-1) 1 L f ->
  deg_le p (2 * n - 3) -> within (-1) 1 e f (peval p) ->
  Rabs (apply_rule (real_rule qf) f - RInt f (-1) 1) <= 4 * e + (90 * INR n ^ 2 * K + 48 * L) * sqrt (INR n) * ulp53.
Proof.
  intros f p K L e FK FL Lp W. destruct (lobatto_exists n n2) as (g & Hg).
  pose proof (lob_lip_error g f K L Hg FK FL) as A.
  assert (B : Rabs (apply_rule g f - RInt f (-1) 1) <= 4 * e).
  { rewrite <- clamp_int, <- (clamp_apply f g).
    - apply (lobatto_best n g (clamp f) p); auto; [intros x _; apply (clamp_cont f L); auto|].
      intros x Hx. rewrite clamp_in by auto. apply W; auto.
    - intro x. apply (closed_nodes n); auto. apply Hg. }
  replace (apply_rule (real_rule qf) f - RInt f (-1) 1) with
    ((apply_rule g f - RInt f (-1) 1) + (apply_rule (real_rule qf) f - apply_rule g f)) by ring.
  eapply Rle_trans; [apply Rabs_triang|]. lra.
Qed.

Lemma lob_smooth : forall F M K L, smooth (-1) 1 (2 * n - 2) F M -> (forall x, -1 <= x <= 1 -> Rabs (F 0%nat x) <= K) ->
  (forall x, -1 <= x <= 1 -> Rabs (F 1%nat x) <= L) ->
  Rabs (apply_rule (real_rule qf) (F 0%nat) - RInt (F 0%nat) (-1) 1) <=
    8 * M / (2 ^ (2 * n - 2) * INR (fact (2 * n - 2))) + (90 * INR n ^ 2 * K + 48 * L) * sqrt (INR n) * ulp53.
Proof.
  intros F M K L S FK FL. destruct (smooth_approx (2 * n - 2) F M ltac:(lia) S) as (p & Lp & W).
  replace (8 * M / (2 ^ (2 * n - 2) * INR (fact (2 * n - 2)))) with (4 * (2 * M / (2 ^ (2 * n - 2) * INR (fact (2 * n - 2))))) by (unfold Rdiv; ring).
  apply (lob_best (F 0%nat) p); auto; [|unfold deg_le; lia]. apply (smooth_lip (-1) 1 (2 * n - 2) F M L); auto. lia.
Qed.

Lemma lob_lip : forall f K L, (forall x, -1 <= x <= 1 -> Rabs (f x) <= K) -> lipschitz (-1) 1 L f ->
  Rabs (apply_rule (real_rule qf) f - RInt f (-1) 1) <=
    4 * L / sqrt (INR (2 * n - 3)) + (90 * INR n ^ 2 * K + 48 * L) * sqrt (INR n) * ulp53.
Proof.
  intros f K L FK FL. destruct (lip_approx1 (2 * n - 3) L f ltac:(lia) FL) as (p & Lp & W).
  replace (4 * L / sqrt (INR (2 * n - 3))) with (4 * (L / sqrt (INR (2 * n - 3)))) by (unfold Rdiv; ring).
  apply (lob_best f p); auto. unfold deg_le; lia.
Qed.
End Lobatto.
