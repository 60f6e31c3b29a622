(** The one-point uniform rule in binary64. *)
From Coq Require Import List Arith ZArith Lia.
From Flocq Require Import IEEE754.BinarySingleNaN.
From Verif Require Import Base.Outcome Base.Scalar Base.FScalar Model.Primitive
  Proofs.Tab Proofs.PrimitiveFacts.
Import ListNotations.

Lemma uniform_one_nan : forall m (lo up : F64) (q : list F64 * list F64),
  @uniform_generate (FS m) 1 lo up = Ok q ->
  fst q = [B754_nan] /\ (forall w, In w (snd q) -> is_finite w = false).
Proof.
  intros m lo up q H. rewrite (@uniform_closed (FS m) 1 lo up) in H by lia. injection H as <-.
  unfold tab, uni_pt, uni_wt. cbn [fst snd seq map Nat.eqb Nat.sub]. set (d := @uni_dx (FS m) 1 lo up).
  assert (D : d = B754_nan \/ exists s, d = B754_infinity s).
  { subst d. unfold uni_dx, sofN. cbn. change (f_of 0 0) with (B754_zero false : F64).
    destruct (Bminus mode_NE up lo) as [s|s| |s a b c]; cbn; auto; right; eexists; reflexivity. }
  clearbody d. split.
  - f_equal. unfold sofN. cbn.
    change (f_of 0 0) with (B754_zero false : F64).
    destruct D as [->|(s & ->)]; destruct lo; reflexivity.
  - intros w [<-|[]]. 
    assert (Hh : match (@shalf (FS m) : F64) with B754_finite _ _ _ _ => true | _ => false end = true)
      by (vm_compute; reflexivity).
    cbn [smul FS]. generalize dependent (@shalf (FS m)). intros h Hh. cbn in h.
    destruct h; try discriminate. destruct D as [->|(s' & ->)]; reflexivity.
Qed.
