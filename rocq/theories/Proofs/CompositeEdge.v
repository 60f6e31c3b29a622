(** Edge cases of composite quadratures. *)
From Coq Require Import List Bool Arith Lia.
From Verif Require Import Base.Outcome Base.Scalar Model.Quadrature Model.S2 Model.Composite
  Spec.QuadSpec Spec.SphereSpec.
Import ListNotations.

Lemma subquad_unchecked : forall P W n b e (q : quad P W), sized n q ->
  (e < b \/ n < e -> construct false (subquad_generate false b e q) = UB) /\
  (b = e -> e <= n -> construct false (subquad_generate false b e q) = Ok (mkQuad [] [])).
Proof.
  intros P W n b e q (N & L & L' & _). split.
  - intro H. unfold subquad_generate. simpl. rewrite L, L'.
    destruct (Nat.leb_spec b e); simpl; auto. destruct (Nat.leb_spec e n); simpl; auto. lia.
  - intros -> H. unfold subquad_generate. simpl. rewrite L, L', Nat.leb_refl.
    rewrite (proj2 (Nat.leb_le e n) H). simpl. rewrite Nat.sub_diag. reflexivity.
Qed.

Lemma one_point_region_rejected : exists nr idx,
  covers 0 nr [(0, 2); (2, 3)] /\ nr = 3 /\ idx = [0; 2] /\
  forall (S : Scalar) (a : aquad S),
    rgp_construct true nr (map (fun i => (i, a)) idx) = AssertFail.
Proof.
  exists 3, [0; 2]. split; [simpl; lia|]. split; [auto|]. split; [auto|]. intros S a. reflexivity.
Qed.

Lemma empty_partition_UB : forall (S : Scalar) (a : aquad S), exists p,
  rgp_construct true 0 [(0, a)] = Ok p /\ rgp_ranges p = UB.
Proof. intros S a. eexists. split; reflexivity. Qed.
