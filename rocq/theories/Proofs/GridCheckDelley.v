(** The Delley files pass the check. *)
From Coq Require Import ZArith List Bool.
From Verif Require Import Model.S2 Model.GridCode Model.GridsDelley Proofs.GridCheck Proofs.GridRun.
Local Open Scope Z_scope.

Lemma de_14_ok : oct_ok Delley 14 de_14. Proof. run. Qed.
Lemma de_26_ok : oct_ok Delley 26 de_26. Proof. run. Qed.
Lemma de_50_ok : oct_ok Delley 50 de_50. Proof. run. Qed.
Lemma de_110_ok : oct_ok Delley 110 de_110. Proof. run. Qed.
Lemma de_194_ok : oct_ok Delley 194 de_194. Proof. run. Qed.
Lemma de_302_ok : oct_ok Delley 302 de_302. Proof. run. Qed.
Lemma de_434_ok : oct_ok Delley 434 de_434. Proof. run. Qed.
Lemma de_590_ok : oct_ok Delley 590 de_590. Proof. run. Qed.
Lemma de_770_ok : oct_ok Delley 770 de_770. Proof. run. Qed.
Lemma de_974_ok : oct_ok Delley 974 de_974. Proof. run. Qed.
Lemma de_1202_ok : oct_ok Delley 1202 de_1202. Proof. run. Qed.
Lemma de_1454_ok : oct_ok Delley 1454 de_1454. Proof. run. Qed.
Lemma de_1730_ok : oct_ok Delley 1730 de_1730. Proof. run. Qed.
Lemma de_2030_ok : oct_ok Delley 2030 de_2030. Proof. run. Qed.
Lemma de_2354_ok : oct_ok Delley 2354 de_2354. Proof. run. Qed.
Lemma de_2702_ok : oct_ok Delley 2702 de_2702. Proof. run. Qed.
Lemma de_3074_ok : oct_ok Delley 3074 de_3074. Proof. run. Qed.
Lemma de_3470_ok : oct_ok Delley 3470 de_3470. Proof. run. Qed.
