(** Womersley files up to 222 points pass the check. *)
From Coq Require Import ZArith List Bool.
From Verif Require Import Model.S2 Model.GridCode Model.GridsWomersley Proofs.GridCheck Proofs.GridRun.
Local Open Scope Z_scope.

Lemma wo_3_ok : plain_ok 3 wo_3. Proof. run. Qed.
Lemma wo_6_ok : plain_ok 6 wo_6. Proof. run. Qed.
Lemma wo_8_ok : plain_ok 8 wo_8. Proof. run. Qed.
Lemma wo_14_ok : plain_ok 14 wo_14. Proof. run. Qed.
Lemma wo_18_ok : plain_ok 18 wo_18. Proof. run. Qed.
Lemma wo_26_ok : plain_ok 26 wo_26. Proof. run. Qed.
Lemma wo_32_ok : plain_ok 32 wo_32. Proof. run. Qed.
Lemma wo_42_ok : plain_ok 42 wo_42. Proof. run. Qed.
Lemma wo_50_ok : plain_ok 50 wo_50. Proof. run. Qed.
Lemma wo_62_ok : plain_ok 62 wo_62. Proof. run. Qed.
Lemma wo_72_ok : plain_ok 72 wo_72. Proof. run. Qed.
Lemma wo_86_ok : plain_ok 86 wo_86. Proof. run. Qed.
Lemma wo_98_ok : plain_ok 98 wo_98. Proof. run. Qed.
Lemma wo_114_ok : plain_ok 114 wo_114. Proof. run. Qed.
Lemma wo_128_ok : plain_ok 128 wo_128. Proof. run. Qed.
Lemma wo_146_ok : plain_ok 146 wo_146. Proof. run. Qed.
Lemma wo_163_ok : plain_ok 163 wo_163. Proof. run. Qed.
Lemma wo_182_ok : plain_ok 182 wo_182. Proof. run. Qed.
Lemma wo_201_ok : plain_ok 201 wo_201. Proof. run. Qed.
Lemma wo_222_ok : plain_ok 222 wo_222. Proof. run. Qed.
