(** Rational bounds on PI, from the Machin-like series of the standard library. *)
From Coq Require Import Reals Lra Lia ZArith Machin.
Local Open Scope R_scope.
Definition t237 (n : nat) : R := (-1) ^ n * (2 * (/ 3) ^ (2 * n + 1) + (/ 7) ^ (2 * n + 1)) / IZR (2 * Z.of_nat n + 1).
Lemma tg237 : forall n, tg_alt PI_2_3_7_tg n = t237 n.
Proof.
  intro n. unfold tg_alt, PI_2_3_7_tg, t237, Ratan_seq, Rdiv.
  replace (IZR (2 * Z.of_nat n + 1)) with (INR (2 * n + 1)); [ring|].
  rewrite INR_IZR_INZ. f_equal. lia.
Qed.
Lemma pi_bounds : 3.1415926535897932384 <= PI <= 3.1415926535897932385.
Proof.
  pose proof (PI_2_3_7_ineq 11) as [L U].
  rewrite (sum_eq _ t237) in L by (intros; apply tg237). rewrite (sum_eq _ t237) in U by (intros; apply tg237).
  change (S (2 * 11)) with 23%nat in L. change (2 * 11)%nat with 22%nat in U.
  unfold sum_f_R0, t237 in L, U.
  repeat match type of L with context [(2 * ?n + 1)%nat] => let v := eval compute in (2 * n + 1)%nat in change (2 * n + 1)%nat with v in L end.
  repeat match type of U with context [(2 * ?n + 1)%nat] => let v := eval compute in (2 * n + 1)%nat in change (2 * n + 1)%nat with v in U end.
  repeat match type of L with context [(2 * Z.of_nat ?n + 1)%Z] => let v := eval compute in (2 * Z.of_nat n + 1)%Z in change (2 * Z.of_nat n + 1)%Z with v in L end.
  repeat match type of U with context [(2 * Z.of_nat ?n + 1)%Z] => let v := eval compute in (2 * Z.of_nat n + 1)%Z in change (2 * Z.of_nat n + 1)%Z with v in U end.
  split; lra.
Qed.
Lemma two_over_pi : 0.636619772367581343 <= 2 / PI <= 0.636619772367581344.
Proof.
  pose proof pi_bounds as [L U]. assert (P : 0 < PI) by lra.
  split; apply Rmult_le_reg_r with PI; auto; unfold Rdiv; rewrite (Rmult_assoc 2), Rinv_l by lra; lra.
Qed.
Lemma pi_coarse : 3.14 < PI < 3.15.
Proof. pose proof pi_bounds. lra. Qed.
