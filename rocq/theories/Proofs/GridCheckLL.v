(** The Lebedev-Laikov files pass the check (all that generate can select). *)
From Coq Require Import ZArith List Bool.
From Verif Require Import Model.S2 Model.GridCode Model.GridsLL Proofs.GridCheck Proofs.GridRun.
Local Open Scope Z_scope.

Lemma ll_6_ok : oct_ok LebedevLaikov 6 ll_6. Proof. run. Qed.
Lemma ll_14_ok : oct_ok LebedevLaikov 14 ll_14. Proof. run. Qed.
Lemma ll_26_ok : oct_ok LebedevLaikov 26 ll_26. Proof. run. Qed.
Lemma ll_38_ok : oct_ok LebedevLaikov 38 ll_38. Proof. run. Qed.
Lemma ll_50_ok : oct_ok LebedevLaikov 50 ll_50. Proof. run. Qed.
Lemma ll_74_ok : oct_ok LebedevLaikov 74 ll_74. Proof. run. Qed.
Lemma ll_86_ok : oct_ok LebedevLaikov 86 ll_86. Proof. run. Qed.
Lemma ll_110_ok : oct_ok LebedevLaikov 110 ll_110. Proof. run. Qed.
Lemma ll_146_ok : oct_ok LebedevLaikov 146 ll_146. Proof. run. Qed.
Lemma ll_170_ok : oct_ok LebedevLaikov 170 ll_170. Proof. run. Qed.
Lemma ll_194_ok : oct_ok LebedevLaikov 194 ll_194. Proof. run. Qed.
Lemma ll_230_ok : oct_ok LebedevLaikov 230 ll_230. Proof. run. Qed.
Lemma ll_266_ok : oct_ok LebedevLaikov 266 ll_266. Proof. run. Qed.
Lemma ll_302_ok : oct_ok LebedevLaikov 302 ll_302. Proof. run. Qed.
Lemma ll_350_ok : oct_ok LebedevLaikov 350 ll_350. Proof. run. Qed.
Lemma ll_434_ok : oct_ok LebedevLaikov 434 ll_434. Proof. run. Qed.
Lemma ll_590_ok : oct_ok LebedevLaikov 590 ll_590. Proof. run. Qed.
Lemma ll_770_ok : oct_ok LebedevLaikov 770 ll_770. Proof. run. Qed.
Lemma ll_974_ok : oct_ok LebedevLaikov 974 ll_974. Proof. run. Qed.
Lemma ll_1202_ok : oct_ok LebedevLaikov 1202 ll_1202. Proof. run. Qed.
Lemma ll_1454_ok : oct_ok LebedevLaikov 1454 ll_1454. Proof. run. Qed.
Lemma ll_1730_ok : oct_ok LebedevLaikov 1730 ll_1730. Proof. run. Qed.
Lemma ll_2030_ok : oct_ok LebedevLaikov 2030 ll_2030. Proof. run. Qed.
Lemma ll_2354_ok : oct_ok LebedevLaikov 2354 ll_2354. Proof. run. Qed.
Lemma ll_2702_ok : oct_ok LebedevLaikov 2702 ll_2702. Proof. run. Qed.
Lemma ll_3074_ok : oct_ok LebedevLaikov 3074 ll_3074. Proof. run. Qed.
Lemma ll_3470_ok : oct_ok LebedevLaikov 3470 ll_3470. Proof. run. Qed.
Lemma ll_3890_ok : oct_ok LebedevLaikov 3890 ll_3890. Proof. run. Qed.
Lemma ll_4334_ok : oct_ok LebedevLaikov 4334 ll_4334. Proof. run. Qed.
Lemma ll_4802_ok : oct_ok LebedevLaikov 4802 ll_4802. Proof. run. Qed.
Lemma ll_5810_ok : oct_ok LebedevLaikov 5810 ll_5810. Proof. run. Qed.
