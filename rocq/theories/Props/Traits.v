(** C13: compare, clone and cast of radial traits. *)
From Coq Require Import List Bool Arith QArith Reals.
From Verif Require Import Base.Outcome Base.Scalar Base.QScalar Base.RScalar Model.Quadrature Model.Radial
  Spec.TraitsSpec Proofs.TraitsFacts.
Import ListNotations.
Local Open Scope nat_scope.

(** compare is true exactly when scheme, size and all parameters agree ([==] on
    parameters), for every scalar type. *)
Theorem C13_compare_iff : forall (S : Scalar) (a b : rtraits S),
  rt_compare a b = true <-> same_traits a b.
Proof. intros S. exact compare_iff. Qed.

(** In exact arithmetic: exactly when the objects are equal. *)
Theorem C13_compare_exact : forall a b : rtraits RS, rt_compare a b = true <-> a = b.
Proof. exact compare_R. Qed.

(** Symmetric and transitive whenever [==] on parameters is (as in IEEE arithmetic). *)
Theorem C13_compare_sym : forall S : Scalar,
  (forall x y : S, seqb x y = true -> seqb y x = true) ->
  forall a b : rtraits S, rt_compare a b = rt_compare b a.
Proof. intros S. exact compare_sym. Qed.
Theorem C13_compare_trans : forall S : Scalar,
  (forall x y z : S, seqb x y = true -> seqb y z = true -> seqb x z = true) ->
  forall a b c : rtraits S,
  rt_compare a b = true -> rt_compare b c = true -> rt_compare a c = true.
Proof. intros S. exact compare_trans. Qed.
(** Reflexive exactly on objects whose parameters compare equal to themselves (not NaN). *)
Theorem C13_compare_refl : forall (S : Scalar) (a : rtraits S),
  rt_compare a a = true <-> Forall (fun x => seqb x x = true) (rt_params a).
Proof. intros S. exact compare_refl_iff. Qed.

(** A clone is indistinguishable from its source. *)
Theorem C13_clone : forall (S : Scalar) (a : rtraits S),
  rkind_of (rt_clone a) = rkind_of a /\ rt_npts (rt_clone a) = rt_npts a /\
  rt_params (rt_clone a) = rt_params a /\
  (forall b, rt_compare (rt_clone a) b = rt_compare a b) /\
  radial_generate (rt_clone a) = radial_generate a.
Proof. intros S. exact clone_same. Qed.

(** Casting succeeds exactly on the object's own scheme. *)
Theorem C13_cast : forall (S : Scalar) k (t : rtraits S),
  (rkind_of t = k -> rt_cast k t = Ok t) /\
  (rkind_of t <> k -> rt_cast k t = Throw ExBadCast).
Proof. intros S. exact cast_iff. Qed.

Example C13_ex_equal : rt_compare (TA 10 (3 # 2 : QS)%Q (6 # 10 : QS)%Q) (TA 10 (6 # 4 : QS)%Q (3 # 5 : QS)%Q) = true.
Proof. reflexivity. Qed.
Example C13_ex_scheme : rt_compare (Becke 10 (1 : QS)%Q) (MK 10 (1 : QS)%Q) = false
  /\ rt_compare (MHL 2 10 (1 : QS)%Q) (MHL 3 10 (1 : QS)%Q) = false
  /\ rt_compare (TA 10 (1 : QS)%Q (1 : QS)%Q) (TA 10 (1 : QS)%Q (2 : QS)%Q) = false.
Proof. repeat split. Qed.
Example C13_ex_cast : rt_cast KMK (MK 7 (2 : QS)%Q) = Ok (MK 7 (2 : QS)%Q)
  /\ rt_cast KMK (Becke 7 (2 : QS)%Q) = Throw ExBadCast.
Proof. split; reflexivity. Qed.
Example C13_ex_per : (forall x y : QS, seqb x y = true -> seqb y x = true) /\
  (forall x y z : QS, seqb x y = true -> seqb y z = true -> seqb x z = true).
Proof.
  split; cbn; intros.
  - apply Qeq_bool_iff. apply Qeq_bool_iff in H. symmetry; auto.
  - apply Qeq_bool_iff. apply Qeq_bool_iff in H, H0. etransitivity; eauto.
Qed.

Print Assumptions C13_compare_iff.
Print Assumptions C13_compare_exact.
Print Assumptions C13_compare_sym.
Print Assumptions C13_compare_trans.
Print Assumptions C13_compare_refl.
Print Assumptions C13_clone.
Print Assumptions C13_cast.
