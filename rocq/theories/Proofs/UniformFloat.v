(** The uniform trapezoid nodes in binary64. *)
From Coq Require Import List Bool Arith ZArith Lia Reals Lra.
From Flocq Require Import IEEE754.BinarySingleNaN Core.
From Verif Require Import Base.Outcome Base.Scalar Base.FScalar Model.Primitive
  Spec.RuleSpec Proofs.Tab Proofs.PrimitiveFacts Proofs.FloatOps.
Import ListNotations.

Definition ufd (n : nat) (lo up : F64) : F64 := fdiv (fsub up lo) (f_of (Z.of_nat (n - 1)) 0).
Definition ufx (n : nat) (lo up : F64) (i : nat) : F64 :=
  fadd lo (fmul (f_of (Z.of_nat i) 0) (ufd n lo up)).

Lemma uf_closed : forall m n (lo up : F64) (q : list F64 * list F64), 1 <= n ->
  @uniform_generate (FS m) n lo up = Ok q -> fst q = tab n (ufx n lo up).
Proof.
  intros m n lo up q Hn H. rewrite (@uniform_closed (FS m) n lo up Hn) in H.
  injection H as <-. reflexivity.
Qed.

Lemma bpow_double : bpow radix2 (-1074) = (2 * bpow radix2 (-1075))%R.
Proof.
  change (-1074)%Z with (1 + -1075)%Z. rewrite bpow_plus. f_equal.
Qed.

Section U.
Variables (n : nat) (lo up : F64).
Hypothesis Hn : 2 <= n.
Hypothesis Hle : Bleb lo up = true.
Hypothesis Hfin : is_finite (ufx n lo up (n - 1)) = true.

Let N := f_of (Z.of_nat (n - 1)) 0.
Let d := ufd n lo up.

Lemma uf_parts : is_finite lo = true /\ is_finite N = true /\ is_finite d = true /\
  is_finite (fmul N d) = true.
Proof.
  destruct (fadd_R _ _ Hfin) as (A & B & _). destruct (fmul_R _ _ B) as (C & D & _). auto.
Qed.

Lemma IZR_pos : (1 <= IZR (Z.of_nat (n - 1)))%R.
Proof. apply IZR_le. lia. Qed.

Lemma rnd_1 : rnd 1 = 1%R.
Proof. replace 1%R with (B2R (f_of 1 0)). apply rnd_B2R. apply f_of_small. lia. Qed.

Lemma N_pos : (1 <= B2R N)%R.
Proof.
  destruct uf_parts as (_ & F & _). unfold N in *. rewrite f_of_R by auto.
  rewrite <- rnd_1. apply rnd_mono. exact IZR_pos.
Qed.

Lemma uf_sub : is_finite (fsub up lo) = true /\ B2R d = rnd (B2R (fsub up lo) / B2R N).
Proof.
  destruct uf_parts as (_ & _ & F & _). pose proof N_pos. apply fdiv_R; auto. lra.
Qed.

Lemma uf_up : is_finite up = true /\ (B2R lo <= B2R up)%R /\ B2R (fsub up lo) = rnd (B2R up - B2R lo).
Proof.
  destruct uf_sub as (F & _). destruct (fsub_R _ _ F) as (A & B & C). repeat split; auto.
  rewrite Bleb_correct in Hle by auto. revert Hle. case Rle_bool_spec; auto; discriminate.
Qed.

Lemma d_pos : (0 <= B2R d)%R.
Proof.
  destruct uf_sub as (_ & ->). destruct uf_up as (_ & L & E). pose proof N_pos.
  rewrite <- rnd_0. apply rnd_mono. apply Rmult_le_pos.
  - rewrite E, <- rnd_0. apply rnd_mono. lra.
  - apply Rlt_le, Rinv_0_lt_compat. lra.
Qed.

Lemma rnd_pos : forall x, (0 <= x)%R -> (0 <= rnd x)%R.
Proof. intros. rewrite <- rnd_0. apply rnd_mono; auto. Qed.

Lemma uf_i : forall i, i < n -> is_finite (f_of (Z.of_nat i) 0) = true /\
  B2R (f_of (Z.of_nat i) 0) = rnd (IZR (Z.of_nat i)) /\
  (0 <= B2R (f_of (Z.of_nat i) 0))%R.
Proof.
  intros i Hi. destruct uf_parts as (_ & F & _).
  assert (P : (0 <= IZR (Z.of_nat i))%R) by (apply IZR_le; lia).
  assert (Fi : is_finite (f_of (Z.of_nat i) 0) = true).
  { apply f_of_finite. rewrite Rabs_pos_eq by (apply rnd_pos; auto).
    apply Rle_lt_trans with (B2R N).
    - unfold N in *. rewrite f_of_R by auto. apply rnd_mono. apply IZR_le. lia.
    - eapply Rle_lt_trans; [apply Rle_abs|apply finite_lt]. }
  split; auto. rewrite f_of_R by auto. split; auto. apply rnd_pos; auto.
Qed.

Lemma uf_mul : forall i, i < n -> is_finite (fmul (f_of (Z.of_nat i) 0) d) = true /\
  B2R (fmul (f_of (Z.of_nat i) 0) d) = rnd (rnd (IZR (Z.of_nat i)) * B2R d) /\
  (0 <= B2R (fmul (f_of (Z.of_nat i) 0) d) <= B2R (fmul N d))%R.
Proof.
  intros i Hi. destruct (uf_i i Hi) as (Fi & Ei & Pi). pose proof d_pos as Pd.
  destruct uf_parts as (_ & FN & Fd & FNd).
  destruct (fmul_R _ _ FNd) as (_ & _ & EN).
  assert (L : (rnd (rnd (IZR (Z.of_nat i)) * B2R d) <= B2R (fmul N d))%R).
  { rewrite EN. apply rnd_mono. apply Rmult_le_compat_r; auto. unfold N. rewrite f_of_R by auto.
    apply rnd_mono. apply IZR_le. lia. }
  assert (P : (0 <= rnd (rnd (IZR (Z.of_nat i)) * B2R d))%R).
  { apply rnd_pos. apply Rmult_le_pos; auto. rewrite <- Ei. auto. }
  assert (F : is_finite (fmul (f_of (Z.of_nat i) 0) d) = true).
  { apply fmul_finite; auto. rewrite Ei, Rabs_pos_eq by auto.
    eapply Rle_lt_trans; [exact L|]. eapply Rle_lt_trans; [apply Rle_abs|apply finite_lt]. }
  split; auto. destruct (fmul_R _ _ F) as (_ & _ & E). rewrite E, Ei. auto.
Qed.

Lemma uf_node : forall i, i < n -> is_finite (ufx n lo up i) = true /\
  B2R (ufx n lo up i) = rnd (B2R lo + rnd (rnd (IZR (Z.of_nat i)) * B2R d)) /\
  (B2R lo <= B2R (ufx n lo up i))%R.
Proof.
  intros i Hi. destruct (uf_mul i Hi) as (F & E & P & L).
  destruct uf_parts as (Fl & FN & Fd & FNd). destruct (fadd_R _ _ Hfin) as (_ & _ & EN).
  fold d N in EN.
  assert (U : (rnd (B2R lo + B2R (fmul (f_of (Z.of_nat i) 0) d)) <= B2R (ufx n lo up (n - 1)))%R).
  { unfold ufx. fold d N. rewrite EN. apply rnd_mono. lra. }
  assert (D : (B2R lo <= rnd (B2R lo + B2R (fmul (f_of (Z.of_nat i) 0) d)))%R).
  { rewrite <- (rnd_B2R lo) at 1. apply rnd_mono. lra. }
  assert (Fx : is_finite (ufx n lo up i) = true).
  { unfold ufx. fold d. apply fadd_finite; auto. apply Rabs_lt. split.
    - eapply Rlt_le_trans; [|exact D]. pose proof (finite_lt lo) as A. apply Rabs_lt_inv in A. lra.
    - eapply Rle_lt_trans; [exact U|]. eapply Rle_lt_trans; [apply Rle_abs|apply finite_lt]. }
  split; auto. unfold ufx in Fx |- *. fold d in Fx |- *. destruct (fadd_R _ _ Fx) as (_ & _ & Ex).
  rewrite Ex, <- E. auto.
Qed.

Lemma uf_mono : forall i j, i <= j < n ->
  Bleb (ufx n lo up i) (ufx n lo up j) = true.
Proof.
  intros i j Hij. destruct (uf_node i ltac:(lia)) as (Fi & Ei & _).
  destruct (uf_node j ltac:(lia)) as (Fj & Ej & _). rewrite Bleb_correct by auto.
  apply Rle_bool_true. rewrite Ei, Ej. apply rnd_mono. apply Rplus_le_compat_l. apply rnd_mono.
  apply Rmult_le_compat_r; [apply d_pos|]. apply rnd_mono. apply IZR_le. lia.
Qed.

Lemma uf_first : B2R (ufx n lo up 0) = B2R lo /\ Beqb (ufx n lo up 0) lo = true /\
  (ufx n lo up 0 = lo \/ lo = B754_zero true).
Proof.
  destruct (uf_node 0 ltac:(lia)) as (F & E & _).
  assert (Z : B2R (ufx n lo up 0) = B2R lo).
  { rewrite E. change (IZR (Z.of_nat 0)) with 0%R. rewrite rnd_0, Rmult_0_l, rnd_0, Rplus_0_r.
    apply rnd_B2R. }
  destruct uf_parts as (Fl & FN & Fd & FNd). split; auto. split.
  - rewrite Beqb_correct by auto. apply Req_bool_true; auto.
  - unfold ufx. fold d. change (f_of (Z.of_nat 0) 0) with (@B754_zero 53 1024 false).
    clear - Fd Fl. clearbody d.
    destruct d as [s|s| |s m e B] eqn:Ed; try discriminate Fd.
    + destruct lo as [s'|s'| |s' m' e' B'] eqn:El; try discriminate Fl; [|left; reflexivity].
      destruct s', s; auto.
    + destruct lo as [s'|s'| |s' m' e' B'] eqn:El; try discriminate Fl; [|left; reflexivity].
      destruct s', s; auto.
Qed.

(** The last node: not [up] in general, but close to it. *)
Lemma uf_last : (Z.of_nat (n - 1) <= 2 ^ 53)%Z ->
  (Rabs (B2R (ufx n lo up (n - 1)) - B2R up)
   <= u * Rabs (B2R up) + 4 * u * (B2R up - B2R lo) + IZR (Z.of_nat n) * bpow radix2 (-1074))%R.
Proof.
  intro Hsm. destruct uf_parts as (Fl & FN & Fd & FNd).
  destruct (f_of_small (Z.of_nat (n - 1)) ltac:(lia)) as (_ & EN). fold N in EN.
  destruct uf_up as (Fu & L & Es). destruct uf_sub as (Fs & Ed).
  destruct (fmul_R _ _ FNd) as (_ & _ & Ep). destruct (fadd_R _ _ Hfin) as (_ & _ & Ex).
  fold d N in Ex. unfold ufx. fold d N. rewrite Ex.
  destruct (rnd_add_err lo (fmul N d)) as (e3 & H3 & E3). rewrite E3, Ep.
  destruct (rnd_err (B2R N * B2R d)) as (e2 & t2 & H2 & T2 & E2). rewrite E2.
  rewrite Ed. destruct (rnd_err (B2R (fsub up lo) / B2R N)) as (e1 & t1 & H1 & T1 & E1). rewrite E1.
  rewrite Es.
  assert (E0 : exists e, (Rabs e <= u)%R /\ rnd (B2R up - B2R lo) = ((B2R up - B2R lo) * (1 + e))%R).
  { destruct (rnd_add_err up (Bopp lo)) as (e & He & E). rewrite B2R_Bopp in E. exists e. auto. }
  destruct E0 as (e0 & H0 & E0). rewrite E0. rewrite EN.
  pose proof IZR_pos as P.
  replace (IZR (Z.of_nat n)) with (IZR (Z.of_nat (n - 1)) + 1)%R
    by (rewrite <- plus_IZR; f_equal; lia).
  replace (bpow radix2 (-1074)) with (2 * bpow radix2 (-1075))%R
    by (symmetry; exact bpow_double).
  set (M := IZR (Z.of_nat (n - 1))) in *. set (a := B2R lo) in *. set (b := B2R up) in *.
  set (h := bpow radix2 (-1075)) in *. assert (0 < h)%R by apply bpow_gt_0.
  assert (U : (0 < u <= / 1024)%R).
  { unfold u. split; [apply Rinv_0_lt_compat; lra|]. apply Rinv_le_contravar; lra. }
  clearbody M a b h. clear - P L H1 H2 H3 H0 T1 T2 H U.
  assert (Eq : ((a + (M * ((b - a) * (1 + e0) / M * (1 + e1) + t1) * (1 + e2) + t2)) * (1 + e3) - b
     = e3 * b + ((b - a) * ((1 + e0) * (1 + e1) * (1 + e2) - 1) + M * t1 * (1 + e2) + t2) * (1 + e3))%R).
  { field. lra. }
  rewrite Eq. clear Eq.
  assert (A0 : (- u <= e0 <= u)%R) by (apply Rabs_le_inv; auto).
  assert (A1 : (- u <= e1 <= u)%R) by (apply Rabs_le_inv; auto).
  assert (A2 : (- u <= e2 <= u)%R) by (apply Rabs_le_inv; auto).
  assert (A3 : (- u <= e3 <= u)%R) by (apply Rabs_le_inv; auto).
  set (k := ((1 + e0) * (1 + e1) * (1 + e2) - 1)%R).
  assert (K : (Rabs k <= 3.01 * u)%R).
  { assert (K1 : (Rabs ((1 + e0) * (1 + e1) - 1) <= 2.001 * u)%R).
    { replace ((1 + e0) * (1 + e1) - 1)%R with (e0 + e1 + e0 * e1)%R by ring.
      eapply Rle_trans; [apply Rabs_triang|]. eapply Rle_trans.
      apply Rplus_le_compat_r. apply Rabs_triang. rewrite Rabs_mult.
      assert (Rabs e0 * Rabs e1 <= u * u)%R
        by (apply Rmult_le_compat; auto using Rabs_pos). nra. }
    unfold k. replace ((1 + e0) * (1 + e1) * (1 + e2) - 1)%R
      with (((1 + e0) * (1 + e1) - 1) + e2 + ((1 + e0) * (1 + e1) - 1) * e2)%R by ring.
    eapply Rle_trans; [apply Rabs_triang|]. eapply Rle_trans.
    apply Rplus_le_compat_r. apply Rabs_triang. rewrite Rabs_mult.
    assert (Rabs ((1 + e0) * (1 + e1) - 1) * Rabs e2 <= 2.001 * u * u)%R
      by (apply Rmult_le_compat; auto using Rabs_pos). nra. }
  clearbody k.
  assert (B2 : (Rabs (1 + e2) <= 1.001)%R) by (apply Rabs_le; lra).
  assert (B3 : (Rabs (1 + e3) <= 1.001)%R) by (apply Rabs_le; lra).
  assert (C1 : (Rabs ((b - a) * k) <= (b - a) * (3.01 * u))%R).
  { rewrite Rabs_mult, (Rabs_pos_eq (b - a)) by lra. apply Rmult_le_compat_l; lra. }
  assert (C2 : (Rabs (M * t1 * (1 + e2)) <= M * h * 1.001)%R).
  { rewrite !Rabs_mult, (Rabs_pos_eq M) by lra.
    apply Rmult_le_compat; auto using Rabs_pos.
    - apply Rmult_le_pos; auto using Rabs_pos; lra.
    - apply Rmult_le_compat_l; lra. }
  assert (C3 : (Rabs ((b - a) * k + M * t1 * (1 + e2) + t2)
     <= (b - a) * (3.01 * u) + M * h * 1.001 + h)%R).
  { eapply Rle_trans; [apply Rabs_triang|]. apply Rplus_le_compat; auto.
    eapply Rle_trans; [apply Rabs_triang|]. apply Rplus_le_compat; auto. }
  eapply Rle_trans; [apply Rabs_triang|]. rewrite !Rabs_mult.
  assert (C4 : (Rabs e3 * Rabs b <= u * Rabs b)%R) by (apply Rmult_le_compat_r; auto using Rabs_pos).
  assert (C5 : (Rabs ((b - a) * k + M * t1 * (1 + e2) + t2) * Rabs (1 + e3) <=
     ((b - a) * (3.01 * u) + M * h * 1.001 + h) * 1.001)%R)
    by (apply Rmult_le_compat; auto using Rabs_pos).
  assert (0 <= (b - a) * u)%R by (apply Rmult_le_pos; lra).
  assert (0 <= M * h)%R by (apply Rmult_le_pos; lra).
  lra.
Qed.
End U.

Lemma uniform_binary64 : forall m n (lo up : F64) (q : list F64 * list F64) (z : F64), 2 <= n ->
  @uniform_generate (FS m) n lo up = Ok q -> Bleb lo up = true ->
  nth_error (fst q) (n - 1) = Some z -> is_finite z = true ->
  (exists x, nth_error (fst q) 0 = Some x /\ Beqb x lo = true /\ (x = lo \/ lo = B754_zero true)) /\
  (forall i j x y, i <= j -> nth_error (fst q) i = Some x -> nth_error (fst q) j = Some y ->
     is_finite x = true /\ Bleb x y = true) /\
  ((Z.of_nat (n - 1) <= 2 ^ 53)%Z ->
   (Rabs (B2R z - B2R up)
    <= / 2 ^ 53 * Rabs (B2R up) + 4 * / 2 ^ 53 * (B2R up - B2R lo)
       + IZR (Z.of_nat n) * bpow radix2 (-1074))%R).
Proof.
  intros m n lo up q z Hn H Hle Hz Fz. apply uf_closed in H; [|lia]. rewrite H in *.
  rewrite nth_error_tab in Hz by lia. injection Hz as <-.
  split; [|split].
  - destruct (uf_first n lo up Hn Hle Fz) as (_ & E & B). eexists.
    rewrite nth_error_tab by lia. split; [reflexivity|]. auto.
  - intros i j x y Hij Hx Hy.
    assert (Hj : j < n).
    { apply Nat.nlt_ge. intro. rewrite (proj2 (nth_error_None _ _)) in Hy; [discriminate|].
      rewrite tab_length; lia. }
    rewrite nth_error_tab in Hx, Hy by lia. injection Hx as <-; injection Hy as <-.
    split; [apply uf_node; auto; lia|apply uf_mono; auto; lia].
  - apply uf_last; auto.
Qed.

(** [0,1] with 50 nodes: the last node is 1 - 2^-53. *)
Definition u50 : F64 := ufx 50 (f_of 0 0) (f_of 1 0) 49.

Lemma u50_value : B2SF u50 = SpecFloat.S754_finite false 9007199254740991 (-53).
Proof. vm_compute. reflexivity. Qed.

Lemma uniform_last_differs : forall m, exists n (lo up : F64) (q : list F64 * list F64) (z : F64),
  2 <= n /\ @uniform_generate (FS m) n lo up = Ok q /\ Bltb lo up = true /\
  nth_error (fst q) (n - 1) = Some z /\ is_finite z = true /\ Bltb z up = true.
Proof.
  intro m. exists 50, (f_of 0 0), (f_of 1 0).
  eexists. exists u50.
  split; [lia|]. split; [apply (@uniform_closed (FS m) 50 (f_of 0 0) (f_of 1 0)); lia|].
  split; [vm_compute; reflexivity|]. split.
  - change (nth_error (tab 50 (ufx 50 (f_of 0 0) (f_of 1 0))) 49 = Some u50).
    rewrite nth_error_tab by lia. reflexivity.
  - split; vm_compute; reflexivity.
Qed.

(** The hypotheses hold for seven nodes on [-1/10, 2]. *)
Definition u7 (i : nat) : F64 := ufx 7 (f_dec (-1) 1) (f_of 2 0) i.
Lemma u7_ex : Bleb (f_dec (-1) 1) (f_of 2 0) = true /\ is_finite (u7 6) = true /\
  Beqb (u7 0) (f_dec (-1) 1) = true /\ Bltb (u7 2) (u7 3) = true.
Proof. vm_compute. auto. Qed.
