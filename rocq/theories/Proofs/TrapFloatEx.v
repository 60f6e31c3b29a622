(** Exceptions and examples for the stored trapezoid rule. *)
From Coq Require Import List Bool Arith ZArith Lia Reals Lra Psatz.
From Coquelicot Require Import Coquelicot.
From Flocq Require Import IEEE754.BinarySingleNaN Core.
From Verif Require Import Base.Outcome Base.Scalar Base.RScalar Base.FScalar Model.Primitive Model.BoundFloat
  Spec.Sums Spec.RuleSpec Spec.FloatSpec Spec.RealRules Spec.ErrorSpec Spec.LibmSpec Spec.BoundFloatSpec Spec.TrapFloatSpec
  Proofs.Tab Proofs.SumFacts Proofs.PrimitiveFacts Proofs.FloatOps Proofs.FloatErr Proofs.ChebFloat Proofs.BoundFloat
  Proofs.UniformFloat Proofs.TrapReal Proofs.TrapFloat Proofs.TrapFloatThm.
Import ListNotations.
Local Open Scope R_scope.

Lemma plain_dec : forall x : F64, is_finite x = true -> Bleb (Babs x) (f_of 1 800) = true -> plain_bound x.
Proof.
  intros x F H. split; [exact F|]. destruct (f_of_exact 1 800 eq_refl ltac:(lia)) as (F8 & E8).
  rewrite Bleb_correct in H by (auto; rewrite is_finite_Babs; auto). rewrite B2R_Babs, E8 in H.
  revert H. case Rle_bool_spec; [|discriminate]. intros H _.
  replace (2 ^ 800) with (1 * bpow radix2 800); [exact H|]. rewrite Rmult_1_l.
  change (bpow radix2 800) with (IZR (2 ^ 800)). rewrite pow_IZR. reflexivity.
Qed.

Lemma Bltb_R : forall x y : F64, is_finite x = true -> is_finite y = true -> Bltb x y = true -> B2R x < B2R y.
Proof. intros x y Fx Fy H. rewrite Bltb_correct in H by auto. revert H. case Rlt_bool_spec; auto; discriminate. Qed.

Ltac vm := vm_compute; reflexivity.
Ltac plain := apply plain_dec; vm.
Ltac below := apply Bltb_R; vm.

(** [1, 1 + 2^-52] with three nodes: the first two are equal. *)
Definition near1 : F64 := f_of 4503599627370497 (-52).
Theorem distinct_refuted : forall m, exists n (lo up : F64) (q : list F64 * list F64) x, (2 <= n)%nat /\ plain_bound lo /\ plain_bound up /\ B2R lo < B2R up /\
  @uniform_generate (FS m) n lo up = Ok q /\ nth_error (fst q) 0 = Some x /\ nth_error (fst q) 1 = Some x.
Proof.
  intro m. exists 3%nat, (f_of 1 0), near1. eexists. exists (f_of 1 0).
  split; [lia|]. split; [plain|]. split; [plain|]. split; [below|]. split; [apply stored; lia|]. cbn [fst].
  rewrite !nth_error_tab by lia. split; f_equal; apply B2SF_inj; vm.
Qed.

(** [0, 2^-1074] with four nodes: every node and every weight is zero. *)
Definition low1 : F64 := f_of 1 (-1074).
Theorem vanish_refuted : forall m, exists n (lo up : F64) (q : list F64 * list F64), (2 <= n)%nat /\ plain_bound lo /\ plain_bound up /\ B2R lo < B2R up /\
  @uniform_generate (FS m) n lo up = Ok q /\ List.Forall (fun x => B2R x = B2R lo) (fst q) /\ List.Forall (fun w => B2R w = 0) (snd q).
Proof.
  intro m. exists 4%nat, (f_of 0 0), low1. eexists.
  split; [lia|]. split; [plain|]. split; [plain|]. split; [below|]. split; [apply stored; lia|]. cbn [fst snd].
  assert (Z : forall x : F64, B2SF x = SpecFloat.S754_zero false -> B2R x = 0).
  { intros x H. rewrite <- SF2R_B2SF, H. reflexivity. }
  split; apply Forall_forall; intros x Hx; apply In_tab in Hx; destruct Hx as (i & Hi & ->).
  - rewrite (Z (f_of 0 0)) by vm. apply Z. destruct i as [|[|[|[|i]]]]; [vm|vm|vm|vm|lia].
  - apply Z. destruct i as [|[|[|[|i]]]]; [vm|vm|vm|vm|lia].
Qed.

(** [0, 7] with 26 nodes: the last node is above 7. *)
Theorem above_refuted : forall m, exists n (lo up : F64) (q : list F64 * list F64) x, (2 <= n)%nat /\ plain_bound lo /\ plain_bound up /\ B2R lo < B2R up /\
  @uniform_generate (FS m) n lo up = Ok q /\ nth_error (fst q) (n - 1) = Some x /\ B2R up < B2R x.
Proof.
  intro m. exists 26%nat, (f_of 0 0), (f_of 7 0). eexists. exists (ufx 26 (f_of 0 0) (f_of 7 0) 25).
  split; [lia|]. split; [plain|]. split; [plain|]. split; [below|]. split; [apply stored; lia|]. cbn [fst].
  split; [apply nth_error_tab; lia|]. below.
Qed.

(** [-2^1023, 2^1023]: the first node is NaN, all weights are infinite. *)
Theorem trap_overflow : forall m n, (2 <= n)%nat -> (Z.of_nat n <= 2 ^ 53)%Z -> exists (lo up : F64) (q : list F64 * list F64),
  is_finite lo = true /\ is_finite up = true /\ Bltb lo up = true /\
  @uniform_generate (FS m) n lo up = Ok q /\ nth_error (fst q) 0 = Some B754_nan /\ List.Forall (fun w => w = f_inf) (snd q).
Proof.
  intros m n Hn Hb. exists (Bopp (f_of 1 1023)), (f_of 1 1023). eexists.
  split; [vm|]. split; [vm|]. split; [vm|]. split; [apply stored; lia|]. cbn [fst snd].
  assert (S : fsub (f_of 1 1023) (Bopp (f_of 1 1023)) = f_inf) by (apply B2SF_inj; vm).
  assert (E : ufd n (Bopp (f_of 1 1023)) (f_of 1 1023) = f_inf).
  { unfold ufd. rewrite S. destruct (f_of_small (Z.of_nat (n - 1)) ltac:(lia)) as (F & V).
    assert (P : 0 < B2R (f_of (Z.of_nat (n - 1)) 0)) by (rewrite V; apply IZR_lt; lia).
    revert F P. generalize (f_of (Z.of_nat (n - 1)) 0). intros y F P. destruct y as [s|s| |s mm e B]; try discriminate F.
    - cbn in P. lra.
    - destruct s; [|reflexivity]. exfalso. apply Rlt_not_le in P. apply P. cbn [B2R].
      apply F2R_le_0. cbn. lia. }
  split.
  - rewrite nth_error_tab by lia. f_equal. unfold ufx. rewrite E. reflexivity.
  - apply Forall_forall. intros w Hw. apply In_tab in Hw. destruct Hw as (i & Hi & ->). unfold uw_f, uni_wt.
    change (@uni_dx (FS m) n (Bopp (f_of 1 1023)) (f_of 1 1023)) with (ufd n (Bopp (f_of 1 1023)) (f_of 1 1023)). rewrite E.
    assert (M : @smul (FS m) f_inf (@shalf (FS m)) = f_inf) by (apply B2SF_inj; vm).
    destruct (Nat.eqb i 0); destruct (Nat.eqb i (n - 1)); rewrite ?M; auto.
Qed.

(** Eleven nodes on [0,1]: all hypotheses hold, x^2 is integrated with an error below 0.0017. *)
Lemma ex_bounds : plain_bound (f_of 0 0) /\ plain_bound (f_of 1 0) /\ B2R (f_of 0 0) = 0 /\ B2R (f_of 1 0) = 1.
Proof. split; [plain|]. split; [plain|]. split; [reflexivity|]. apply one_ok. Qed.

Lemma ex_drift : 0 < drift 0 1 11 <= / 10 ^ 13.
Proof.
  split; [apply drift_lt; [lra|lia]|]. unfold drift. rewrite Rabs_R0, Rabs_R1, Rmax_right by lra.
  assert (U : 0 < eps <= / 10 ^ 15) by (exact u_tiny).
  assert (L : least <= / 10 ^ 15).
  { rewrite <- least_bpow. pose proof tiny_lt as T. unfold tiny in T. lra. }
  rewrite INR_IZR_INZ. simpl (IZR _). lra.
Qed.

Theorem trap_ex : forall m, exists q : list F64 * list F64, @uniform_generate (FS m) 11 (f_of 0 0) (f_of 1 0) = Ok q /\
  2 * drift (B2R (f_of 0 0)) (B2R (f_of 1 0)) 11 < (B2R (f_of 1 0) - B2R (f_of 0 0)) / INR (11 - 1) /\
  Rabs (apply_rule (real_rule q) (fun x => x * x) - / 3) <= 0.0017.
Proof.
  intro m. destruct ex_bounds as (P0 & P1 & E0 & E1). pose proof ex_drift as D.
  eexists. split; [apply stored; lia|]. rewrite E0, E1.
  split; [rewrite (INR_IZR_INZ (11 - 1)); simpl (IZR _); lra|].
  set (F := fun (k : nat) (x : R) => match k with 0%nat => x * x | 1%nat => 2 * x | _ => 2 end).
  pose proof (trap_smooth m 11 (f_of 0 0) (f_of 1 0) _ ltac:(lia) ltac:(lia) P0 P1 ltac:(rewrite E0, E1; lra) (stored m 11 _ _ ltac:(lia)) F 2 1.1 2.2) as T.
  cbv zeta in T. rewrite E0, E1 in T.
  assert (I : RInt (F 0%nat) 0 1 = / 3).
  { apply is_RInt_unique. replace (/ 3) with (minus (1 ^ 3 / 3) (0 ^ 3 / 3)) by (unfold minus, plus, opp; simpl; field).
    apply (is_RInt_derive (fun x => x ^ 3 / 3)).
    - intros x _. auto_derive; [auto|]. unfold F. simpl. field.
    - intros x _. apply (ex_derive_continuous (F 0%nat)). unfold F. auto_derive. auto. }
  rewrite I in T. eapply Rle_trans; [apply T|].
  - split.
    + intros [|[|k]] t Hk Ht; [| |lia]; unfold F; auto_derive; auto; ring.
    + intros t Ht. unfold F. rewrite Rabs_pos_eq; lra.
  - intros x Hx. unfold F. apply Rabs_le. nra.
  - intros x y Hx Hy. unfold F. replace (x * x - y * y) with ((x + y) * (x - y)) by ring. rewrite Rabs_mult.
    apply Rmult_le_compat_r; [apply Rabs_pos|]. apply Rabs_le. lra.
  - assert (U : 0 < eps <= / 10 ^ 15) by (exact u_tiny).
    assert (L : least <= / 10 ^ 15).
    { rewrite <- least_bpow. pose proof tiny_lt as TL. unfold tiny in TL. lra. }
    rewrite !INR_IZR_INZ. simpl (IZR _). lra.
Qed.
