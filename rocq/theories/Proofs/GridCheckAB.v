(** Ahrens-Beylkin files up to 612 points, except 552, pass the check. *)
From Coq Require Import ZArith List Bool.
From Verif Require Import Model.S2 Model.GridCode Model.GridsAB Proofs.GridCheck Proofs.GridRun.
Local Open Scope Z_scope.

Lemma ab_72_ok : tet_ok 72 ab_72. Proof. run. Qed.
Lemma ab_132_ok : tet_ok 132 ab_132. Proof. run. Qed.
Lemma ab_192_ok : tet_ok 192 ab_192. Proof. run. Qed.
Lemma ab_312_ok : tet_ok 312 ab_312. Proof. run. Qed.
Lemma ab_372_ok : tet_ok 372 ab_372. Proof. run. Qed.
Lemma ab_432_ok : tet_ok 432 ab_432. Proof. run. Qed.
Lemma ab_492_ok : tet_ok 492 ab_492. Proof. run. Qed.
Lemma ab_612_ok : tet_ok 612 ab_612. Proof. run. Qed.
