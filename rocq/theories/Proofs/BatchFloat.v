(** binary64 rounding can stop the refinement from separating distinct points. *)
From Coq Require Import List Arith ZArith Lia Permutation Bool.
From Flocq Require Import IEEE754.BinarySingleNaN.
From Verif Require Import Base.Outcome Base.OutcomeFacts Base.Scalar Base.FScalar Model.Quadrature
  Model.S2 Model.Composite Model.Batcher Spec.BatchSpec
  Proofs.ListNat Proofs.BatchFacts Proofs.RefineFacts Proofs.FloatFacts Proofs.BatchProps.
Import ListNotations.
Local Open Scope nat_scope.

Definition fpt : Type := (F64 * F64 * F64) * F64.
(** 1 + 2^-52, 1 + 2^-51 and 100 on the x axis, weight 1. *)
Definition pA : fpt := ((f_of 4503599627370497 (-52), f_of 0 0, f_of 0 0), f_of 1 0).
Definition pB : fpt := ((f_of 4503599627370498 (-52), f_of 0 0, f_of 0 0), f_of 1 0).
Definition pC : fpt := ((f_of 100 0, f_of 0 0, f_of 0 0), f_of 1 0).

Section Fixed.
Variable m : libm.
Notation S := (FS m).

Fixpoint staysb (K : list (pw S)) (boxes : list (@pt3 S * @pt3 S)) : bool :=
  match boxes with
  | [] => true
  | b :: bs => forallb (fun e => point_in_box (fst b) (snd b) (fst e)) K ||
               (forallb (fun e => negb (point_in_box (fst b) (snd b) (fst e))) K && staysb K bs)
  end.

Lemma staysb_stays : forall K boxes, staysb K boxes = true -> stays K boxes.
Proof.
  intros K boxes. induction boxes as [|b bs IH]; simpl; auto. intro H. apply orb_true_iff in H.
  destruct H as [H|H]; [left|right].
  - apply Forall_forall. apply forallb_forall. auto.
  - apply andb_true_iff in H. destruct H as [H1 H2]. split; auto.
    apply Forall_forall. intros e He. rewrite forallb_forall in H1.
    apply negb_true_iff. auto.
Qed.

Definition check (els K : list (pw S)) : bool :=
  match get_box_bounds (map fst els) with
  | Ok (lo, up) => staysb K
                     (sub_boxes (if point_in_box lo up (s0, s0, s0) then 3 else 2) lo up)
  | _ => false
  end.

Lemma check_AB : check [pA; pB] [pA; pB] = true.
Proof. vm_compute. reflexivity. Qed.
Lemma check_BA : check [pB; pA] [pA; pB] = true.
Proof. vm_compute. reflexivity. Qed.

Lemma AB_inseparable : @inseparable S 0 [pA; pB].
Proof.
  intros els l' lo up HP Hl EB. destruct l'; [|simpl in Hl; lia]. rewrite app_nil_r in HP.
  apply staysb_stays.
  assert (C : check els [pA; pB] = true).
  { apply Permutation_sym in HP. apply Permutation_length_2_inv in HP.
    destruct HP as [->| ->]; [apply check_AB|apply check_BA]. }
  unfold check in C. rewrite EB in C. exact C.
Qed.

Definition first_check : bool :=
  match get_box_bounds (map fst ([pA; pB; pC] : list (pw S))) with
  | Ok (lo, up) =>
      staysb [pA; pB] (sub_boxes 3 lo up) &&
      forallb (fun b => existsb (fun e => negb (point_in_box (fst b) (snd b) (fst e))) ([pA; pB; pC] : list (pw S)))
        (sub_boxes 3 lo up)
  | _ => false
  end.
Lemma first_check_true : first_check = true.
Proof. vm_compute. reflexivity. Qed.

Lemma not_nan_ABC : Forall (fun e : pw S => coords (S:=S) not_nan (fst e)) [pA; pB; pC].
Proof. repeat constructor. Qed.

Lemma ABC_stuck : forall part, @conforming S part ->
  forall fuel, generate_batches (S:=S) part fuel 1 [pA; pB; pC] = OutOfFuel.
Proof.
  intros part Hconf fuel.
  destruct (initial part Hconf [pA; pB; pC]) as (lo & up & q1 & its & EB & EP & E0 & P & HI); [easy|].
  assert (Hn := initial_n part Hconf not_nan (float_laws m) _ _ _ _ _ not_nan_ABC EB EP).
  unfold generate_batches. rewrite E0. cbn [bind].
  apply (refine_stuck part Hconf 3 0 1 [pA; pB]); auto.
  { exact AB_inseparable. }
  assert (FC := first_check_true). unfold first_check in FC.
  change (match get_box_bounds (map fst ([pA; pB; pC] : list (pw S))) with Ok (lo, up) => staysb [pA; pB] (sub_boxes 3 lo up) &&
      forallb (fun b => existsb (fun e => negb (point_in_box (fst b) (snd b) (fst e))) ([pA; pB; pC] : list (pw S)))
        (sub_boxes 3 lo up) | _ => false end = true) in FC.
  rewrite EB in FC.
  apply andb_true_iff in FC. destruct FC as [FC1 FC2].
  assert (COV : Forall (fun e : pw S => Exists (fun b => point_in_box (fst b) (snd b) (fst e) = true)
                          (sub_boxes 3 lo up)) [pA; pB; pC]).
  { eapply (@batch_covered S not_nan (float_laws m)); eauto. apply not_nan_ABC. }
  apply (partition_box_spec part Hconf) in EP. destruct EP as (_ & Hi & _ & Hb & BK & _ & HX).
  destruct (BK [pA; pB] [pC]) as (a & b & l'' & Ia & Ib & Hab & Hbe & Hz & HP').
  { discriminate. }
  { apply Permutation_refl. }
  { apply staysb_stays. exact FC1. }
  destruct HX as (x & Hx & Hx').
  { discriminate. }
  { exact COV. }
  { intros bx Hbx. rewrite forallb_forall in FC2. specialize (FC2 bx Hbx).
    apply existsb_exists in FC2. destruct FC2 as (e & He & Hne).
    apply Exists_exists. exists e. split; auto. apply negb_true_iff. auto. }
  rewrite !Nat.sub_0_r in HP'. exists a, b, l''. split; [|split; auto].
  - split; auto. split; auto. destruct Ib as [Ib|Ib]; auto. rewrite Ib. exact Hn.
  - assert (Lq : length q1 = 3) by (rewrite (Permutation_length P); auto).
    simpl length in *. simpl Nat.add in *.
    apply Permutation_length in HP'. rewrite app_length in HP'.
    assert (length (slice a b q1) = b - a) by (apply slice_length; lia).
    simpl length in HP'. destruct (Hz x Hx); lia.
Qed.
End Fixed.
