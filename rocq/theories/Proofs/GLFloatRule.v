(** C45: the Gauss-Legendre rule in binary64. *)
From Coq Require Import List Bool Arith ZArith Lia Reals Lra Psatz.
From Coquelicot Require Import Coquelicot.
From Flocq Require Import IEEE754.BinarySingleNaN Core.
From Verif Require Import Base.Outcome Base.Scalar Base.RScalar Base.FScalar Model.Primitive Spec.Sums Spec.RealRules
  Spec.LegendreSpec Spec.RuleSpec Spec.FloatSpec Spec.LibmSpec Proofs.Tab Proofs.SumFacts Proofs.PrimitiveFacts
  Proofs.ChebReal Proofs.ChebInt Proofs.ChebExact Proofs.Legendre Proofs.LegendreZeros Proofs.LegendreAngles Proofs.GLNewton
  Proofs.GLRule Proofs.FloatOps Proofs.FloatErr Proofs.FloatSphere Proofs.ChebFloat Proofs.ChebFloat3
  Proofs.LegendreRound Proofs.GLBasin Proofs.GLFloat.
Import ListNotations.
Local Open Scope R_scope.

(** ** The starting value *)
Lemma quarter_val : is_finite (f_dec 25 2) = true /\ B2R (f_dec 25 2) = / 4.
Proof.
  assert (E : f_dec 25 2 = f_of 1 (-2)) by (apply B2SF_inj; vm_compute; reflexivity).
  rewrite E. destruct (f_of_exact 1 (-2) eq_refl ltac:(lia)) as (F & V). split; auto. rewrite V.
  change (bpow radix2 (-2)) with (/ IZR (2 ^ 2)). change (2 ^ 2)%Z with 4%Z. lra.
Qed.
Lemma half_val : forall m, is_finite (@shalf (FS m)) = true /\ B2R (@shalf (FS m) : F64) = / 2.
Proof.
  intro m. assert (E : @shalf (FS m) = f_of 1 (-1)) by (apply B2SF_inj; vm_compute; reflexivity).
  rewrite E. destruct (f_of_exact 1 (-1) eq_refl ltac:(lia)) as (F & V). split; auto. rewrite V.
  change (bpow radix2 (-1)) with (/ IZR (2 ^ 1)). change (2 ^ 1)%Z with 2%Z. lra.
Qed.

Lemma nat16 : forall n, (Z.of_nat n < 16384)%Z -> INR n <= 16383.
Proof. intros n H. rewrite INR_IZR_INZ. apply IZR_le. lia. Qed.

Lemma angle_rel : forall m n k, (Z.of_nat n < 16384)%Z -> (2 * k + 1 <= n)%nat ->
  rel (fdiv (fmul fpi (fsub (f_of (Z.of_nat (k + 1)) 0) (f_dec 25 2))) (fadd (f_of (Z.of_nat n) 0) (@shalf (FS m))))
    (phi n k) (8 * u).
Proof.
  intros m n k Hn Hk. pose proof u_pos as u0. pose proof u_small as u1.
  destruct (f_of_small (Z.of_nat (k + 1)) ltac:(lia)) as (F1 & E1). destruct (f_of_small (Z.of_nat n) ltac:(lia)) as (F2 & E2).
  destruct quarter_val as (F3 & E3). destruct (half_val m) as (F4 & E4).
  rewrite IZR_INR in E1, E2. rewrite plus_INR in E1. change (INR 1) with 1 in E1.
  pose proof (nat16 n Hn) as N1. pose proof (nat16 k ltac:(lia)) as K1. pose proof (pos_INR n) as n0. pose proof (pos_INR k) as k0.
  assert (A : rel (fsub (f_of (Z.of_nat (k + 1)) 0) (f_dec 25 2)) (INR k + 3 / 4) u).
  { destruct (finite_sub _ _ F1 F3) as (F & E); [apply big900; rewrite E1, E3; apply Rle_trans with 16384; [apply Rabs_le; lra|lra]|].
    destruct (rnd_sub_err (f_of (Z.of_nat (k + 1)) 0) (f_dec 25 2)) as (e & He & Er). split; auto. exists e. split; auto.
    rewrite E, Er, E1, E3. f_equal. lra. }
  assert (B : rel (fadd (f_of (Z.of_nat n) 0) (@shalf (FS m))) (NN n) u).
  { assert (BG : Rabs (B2R (f_of (Z.of_nat n) 0) + B2R (@shalf (FS m) : F64)) <= 2 ^ 900).
    { apply big900; rewrite E2, E4; apply Rle_trans with 16384; [apply Rabs_le; lra|lra]. }
    pose proof (finite_add _ _ F2 F4 BG) as F.
    destruct (rnd_add_err (f_of (Z.of_nat n) 0) (@shalf (FS m))) as (e & He & Er). split; auto. exists e. split; auto.
    destruct (fadd_R _ _ F) as (_ & _ & EF). rewrite EF, Er, E2, E4. reflexivity. }
  pose proof PI_bounds as P. 
  assert (T1 : / 2 ^ 54 <= 1) by (rewrite <- Rinv_1; apply Rinv_le_contravar; [lra|]; apply pow_R1_Rle; lra).
  assert (PK : 2 <= PI * (INR k + 3 / 4) <= 65536).
  { split; [apply Rle_trans with (3 * (3 / 4)); [lra|]; apply Rmult_le_compat; lra|].
    apply Rle_trans with (4 * 16384); [apply Rmult_le_compat; lra|lra]. }
  assert (C : rel (fmul fpi (fsub (f_of (Z.of_nat (k + 1)) 0) (f_dec 25 2))) (PI * (INR k + 3 / 4)) (3.1 * u)).
  { eapply rel_weak; [apply (rel_fmul _ _ _ _ _ _ fpi_rel A); try lra|].
    - apply tiny_ok_1. rewrite Rabs_pos_eq by lra. apply Rle_trans with 1; [|lra]. rewrite <- Rinv_1; apply Rinv_le_contravar; [lra|]; apply pow_R1_Rle; lra.
    - rewrite Rabs_pos_eq by lra. apply Rle_trans with (2 ^ 20); [lra|]. apply Rle_pow; [lra|lia].
    - assert (u * u <= u / 1000) by nra. assert (u * (1 + u) * (1 + u) <= 1.01 * u) by nra. lra. }
  assert (NP : 0.5 <= NN n <= 16384) by (unfold NN; lra).
  assert (V : PI * (INR k + 3 / 4) / NN n = phi n k) by (unfold phi; field; lra).
  assert (PH : 0.0001 <= phi n k <= 200000).
  { rewrite <- V. split; [apply Rmult_le_reg_r with (NN n)|apply Rmult_le_reg_r with (NN n)]; try lra;
      replace (PI * (INR k + 3 / 4) / NN n * NN n) with (PI * (INR k + 3 / 4)) by (field; lra); nra. }
  rewrite <- V. eapply rel_weak; [apply (rel_fdiv _ _ _ _ _ _ C B); try lra|].
  - rewrite V. apply tiny_ok_1. rewrite Rabs_pos_eq by lra. apply Rle_trans with 0.0001; [|lra].
    apply Rle_trans with (/ 2 ^ 20); [apply Rinv_le_contravar; [apply pow_lt; lra|apply Rle_pow; [lra|lia]]|lra].
  - rewrite V, Rabs_pos_eq by lra. apply Rle_trans with (2 ^ 20); [lra|]. apply Rle_pow; [lra|lia].
  - assert (u * u <= u / 1000) by nra. lra.
Qed.

Section Rule.
Variables (m : libm) (d : R) (n : nat) (z : nat -> R).
Hypothesis A : accurate m d.
Hypothesis Hd : d * (INR n + 1) ^ 2 <= 1 / 2000.
Hypothesis Hn : (Z.of_nat n < 16384)%Z.
Hypothesis Hz : zeros n z.
Let N := INR n + 1.
Let sq := sqrt N.
Let U := u * (N * N) * sq.

Lemma basin_ex : forall k, (2 * k + 1 <= n)%nat ->
  exists h sg, basin n (rt n z k) h sg /\ rt n z k + h = cos (phi n k).
Proof.
  intros k Hk. destruct (Nat.eq_dec (2 * k + 1) n) as [E|E].
  - destruct (th_mid n z Hz k E) as (T1 & T2).
    assert (R0 : rt n z k = 0).
    { unfold rt. rewrite <- (cos_th n z Hz k) by lia. rewrite T1. apply cos_PI2. }
    assert (P0 : Pn n 0 = 0) by (pose proof (proj2 (proj2 Hz) (n - 1 - k)%nat ltac:(lia)) as Q; fold (rt n z k) in Q; rewrite R0 in Q; exact Q).
    pose proof (slope_zero n 0 ltac:(lia) ltac:(lra) P0) as SL. pose proof (le_INR 1 n ltac:(lia)) as n1. change (INR 1) with 1 in n1.
    assert (DN : dP n 0 <> 0) by (intro E0; rewrite E0 in SL; lra).
    exists 0, (if Rlt_dec 0 (dP n 0) then 1 else -1). rewrite R0, T2, cos_PI2. split; [|lra].
    unfold basin. split; [lia|]. split; [destruct (Rlt_dec 0 (dP n 0)); lra|]. split; [lra|]. split; [lra|]. split; [lra|].
    split; [exact P0|]. split; [destruct (Rlt_dec 0 (dP n 0)); lra|]. split; [lra|]. split; [nra|]. split; [lra|].
    split.
    + intros x Hx. replace x with 0 by lra. destruct (Rlt_dec 0 (dP n 0)); lra.
    + intros x y H1 H2 H3. replace x with 0 by lra. replace y with 0 by lra. lra.
  - destruct (newton_hyps n z Hz k ltac:(lia)) as (SG & R0 & X0 & Zr & M0 & H1 & H2 & H3 & H4 & SL).
    exists (cos (phi n k) - rt n z k), ((-1) ^ k). split; [|ring].
    replace (rt n z k + (cos (phi n k) - rt n z k)) with (cos (phi n k)) in * by ring.
    unfold basin. replace (rt n z k + (cos (phi n k) - rt n z k)) with (cos (phi n k)) by ring.
    split; [lia|]. split; [exact SG|]. split; [lra|]. split; [lra|]. split; [lra|]. split; [exact Zr|]. split; [exact M0|].
    split; [exact H1|]. split; [exact SL|]. split; [lra|]. split.
    + intros x Hx. split; [apply (f1_m n (rt n z k) (cos (phi n k)) ((-1) ^ k)); auto|
        apply (f1_upper n (rt n z k) (cos (phi n k)) ((-1) ^ k)); auto].
    + intros x y Q1 Q2 Q3. apply (f1_mono n (rt n z k) (cos (phi n k)) ((-1) ^ k)); auto.
Qed.

Lemma guess_float : forall k h, (2 * k + 1 <= n)%nat -> 0 <= h -> rt n z k + h = cos (phi n k) ->
  is_finite (@gl_guess (FS m) n k : F64) = true /\ inJ n (rt n z k) h (B2R (@gl_guess (FS m) n k : F64)).
Proof.
  intros k h Hk Hh Eh. pose proof u_pos as u0. pose proof u_small as u1.
  pose proof (phi_range n z Hz k Hk) as PR. pose proof PI_RGT_0 as P0.
  destruct (cos_near m d _ _ _ A (angle_rel m n k Hn Hk) ltac:(lra) ltac:(lra)) as ((F & C) & _).
  split; [exact F|].
  pose proof (le_INR 1 n ltac:(lia)) as n1. change (INR 1) with 1 in n1. fold N in Hd.
  assert (NN4 : 4 <= N * N) by (apply Rle_trans with (2 * 2); [lra|apply Rmult_le_compat; unfold N; lra]).
  assert (NB : N * N <= 16384 * 16384) by (pose proof (nat16 n Hn); apply Rmult_le_compat; unfold N; lra).
  assert (RH : d + 8 * u * 3.15 <= / 1000 / (N * N)).
  { apply Rmult_le_reg_r with (N * N); [lra|]. replace (/ 1000 / (N * N) * (N * N)) with (/ 1000) by (field; unfold N; lra).
    replace (N ^ 2) with (N * N) in Hd by ring.
    assert (u * (N * N) <= / 9007199254740992 * (16384 * 16384)) by (apply Rmult_le_compat; try lra; unfold u; lra). lra. }
  change (Rabs (B2R (@gl_guess (FS m) n k : F64) - cos (phi n k)) <= d + 8 * u * 3.15) in C.
  apply abs_in in C. unfold inJ. fold N. rewrite Eh. lra.
Qed.

Lemma iter_float : forall k v, (2 * k + 1 <= n)%nat -> @gl_newton (FS m) n 100 (gl_guess n k) = Some v ->
  is_finite (fst v) = true /\ Rabs (B2R (fst v : F64) - rt n z k) <= 16 * u * sq /\
  -1 < B2R (fst v : F64) < 1 /\ rel (@gl_w (FS m) v) (gauss_w n (rt n z k)) (200 * U).
Proof.
  intros k v Hk H. destruct (basin_ex k Hk) as (h & sg & B & Eh).
  destruct (guess_float k h Hk) as (F & J); auto. { apply B. }
  pose proof (iterate m n (rt n z k) h sg B Hn 100 _ v F J H) as S.
  destruct (weight_float m n (rt n z k) h sg B Hn v S) as (W1 & W2). destruct S as (S1 & S2 & _). auto.
Qed.

Lemma U_small : (1 <= n)%nat -> 0 < U <= 0.000004 /\ 0 < u * sq /\ u * sq * (N * N) = U /\ 4 <= N * N.
Proof.
  intro n1. destruct (basin_ex 0 ltac:(lia)) as (h & sg & B & _).
  pose proof (U_facts n (rt n z 0) h sg B Hn) as (X & _).
  apply (le_INR 1) in n1. change (INR 1) with 1 in n1.
  split; [exact X|]. split.
  - apply Rmult_lt_0_compat; [apply u_pos|apply sqrt_lt_R0; unfold N; lra].
  - split; [unfold U; ring|]. apply Rle_trans with (2 * 2); [lra|apply Rmult_le_compat; unfold N; lra].
Qed.

(** Distinct zeros are well separated. *)
Lemma gap_upper : forall i j, (i < j < n)%nat -> (n / 2 <= j)%nat -> z i < z j - / 1000 / (N * N).
Proof.
  intros i j Hij Hj. pose proof (half_cases n) as HC.
  destruct (basin_ex (n - 1 - j) ltac:(lia)) as (h & sg & B & _).
  assert (E : rt n z (n - 1 - j) = z j) by (unfold rt; f_equal; lia). rewrite E in B.
  destruct Hz as (_ & Z2 & Z3). pose proof (Z2 i j Hij) as L.
  destruct (Rlt_dec (z i) (z j - / 1000 / (N * N))) as [|G]; auto. exfalso.
  assert (H0 : 0 <= h) by apply B.
  assert (n1 : 1 <= INR n) by (apply (le_INR 1); lia).
  assert (RP : 0 < / 1000 / (N * N)) by (apply Rdiv_lt_0_compat; [lra|]; apply Rmult_lt_0_compat; unfold N; lra).
  assert (z i = z j); [|lra]. apply (use_zero n (z j) h sg B); [|apply Z3; lia].
  unfold inJ. fold N. lra.
Qed.
Lemma gap : forall i j, (i < j < n)%nat -> z i < z j - / 1000 / (N * N).
Proof.
  intros i j Hij. destruct (le_lt_dec (n / 2) j) as [L|L]; [apply gap_upper; auto|].
  pose proof (half_cases n) as HC.
  pose proof (gap_upper (n - 1 - j) (n - 1 - i) ltac:(lia) ltac:(lia)) as G.
  rewrite (zeros_sym n z i Hz), (zeros_sym n z j Hz) in G by lia. lra.
Qed.

Variable r : nat -> F64 * F64.
Hypothesis Hr : forall k, (k < n - n / 2)%nat -> @gl_newton (FS m) n 100 (gl_guess n k) = Some (r k).

Lemma node_float : forall i, (i < n)%nat -> is_finite (@gl_pt (FS m) n r i : F64) = true /\
  Rabs (B2R (@gl_pt (FS m) n r i : F64) - z i) <= 16 * u * sq /\ -1 < B2R (@gl_pt (FS m) n r i : F64) < 1.
Proof.
  intros i Hi. pose proof (half_cases n) as HC. unfold gl_pt. destruct (Nat.leb_spec (n / 2) i) as [L|L].
  - destruct (iter_float (n - 1 - i) (r (n - 1 - i)%nat) ltac:(lia) (Hr (n - 1 - i)%nat ltac:(lia))) as (F & E & B & _).
    unfold rt in E. replace (n - 1 - (n - 1 - i))%nat with i in E by lia. auto.
  - destruct (iter_float i (r i) ltac:(lia) (Hr i ltac:(lia))) as (F & E & B & _).
    unfold rt in E. rewrite (zeros_sym n z i Hz) in E by lia.
    assert (K : forall x : F64, is_finite x = true -> Rabs (B2R x - - z i) <= 16 * u * sq -> -1 < B2R x < 1 ->
      is_finite (Bopp x) = true /\ Rabs (B2R (Bopp x) - z i) <= 16 * u * sq /\ -1 < B2R (Bopp x) < 1).
    { intros x Fx Ex Bx. rewrite is_finite_Bopp, B2R_Bopp. split; auto. split; [|lra].
      replace (- B2R x - z i) with (- (B2R x - - z i)) by ring. rewrite Rabs_Ropp. exact Ex. }
    exact (K _ F E B).
Qed.

Lemma wt_float : forall i, (i < n)%nat -> rel (@gl_wt (FS m) n r i) (gauss_w n (z i)) (200 * U).
Proof.
  intros i Hi. pose proof (half_cases n) as HC. unfold gl_wt. destruct (Nat.leb_spec (n / 2) i) as [L|L].
  - destruct (iter_float (n - 1 - i) (r (n - 1 - i)%nat) ltac:(lia) (Hr (n - 1 - i)%nat ltac:(lia))) as (_ & _ & _ & W).
    unfold rt in W. replace (n - 1 - (n - 1 - i))%nat with i in W by lia. exact W.
  - destruct (iter_float i (r i) ltac:(lia) (Hr i ltac:(lia))) as (_ & _ & _ & W).
    unfold rt in W. rewrite (zeros_sym n z i Hz), gauss_w_opp in W by lia. exact W.
Qed.
End Rule.

Lemma map_tab : forall {T T' : Type} (f : T -> T') n g, map f (tab n g) = tab n (fun i => f (g i)).
Proof. intros. unfold tab. apply map_map. Qed.

Lemma gl_float_data : forall m d n (qf : list F64 * list F64), accurate m d -> d * (INR n + 1) ^ 2 <= 1 / 2000 ->
  (1 <= n)%nat -> (Z.of_nat n < 16384)%Z -> @gl_generate (FS m) n = Ok qf ->
  exists z x w, zeros n z /\ real_rule qf = (tab n x, tab n w) /\ all_finite qf /\
  (forall i, (i < n)%nat -> Rabs (x i - z i) <= 16 * sqrt (INR n + 1) * u) /\
  (forall i, (i < n)%nat -> -1 < x i < 1) /\
  (forall i j, (i < j < n)%nat -> x i < x j) /\
  (forall i, (i < n)%nat -> 0 < w i) /\
  (forall i, (i < n)%nat -> Rabs (w i - gauss_w n (z i)) <= 200 * (INR n + 1) ^ 2 * sqrt (INR n + 1) * u * gauss_w n (z i)).
Proof.
  intros m d n qf A Hd n1 Hn G. destruct (zeros_exist n) as (z & Hz).
  destruct (gl_choice (S := FS m) n) as [(r & Hr)|(i & Hi & E)].
  2:{ pose proof (gl_generate_Throw (S := FS m) n i Hi E) as T. rewrite G in T. discriminate T. }
  assert (EQ : qf = (tab n (@gl_pt (FS m) n r), tab n (@gl_wt (FS m) n r))).
  { pose proof (gl_generate_Ok (S := FS m) n r Hr) as T. apply ok_inj. rewrite <- G. exact T. }
  subst qf. exists z, (fun i => B2R (@gl_pt (FS m) n r i : F64)), (fun i => B2R (@gl_wt (FS m) n r i : F64)).
  destruct (U_small n z Hn Hz n1) as (UB & US & UN & N4).
  set (N := INR n + 1) in *. set (sq := sqrt N) in *. set (U := u * (N * N) * sq) in *.
  pose proof (node_float m d n z A Hd Hn Hz r Hr) as ND. pose proof (wt_float m d n z A Hd Hn Hz r Hr) as WT.
  fold N sq U in ND, WT.
  split; [exact Hz|]. split; [unfold real_rule; cbn [fst snd]; rewrite !map_tab; reflexivity|]. split.
  { intros y [Hy|Hy]; cbn [fst snd] in Hy; apply In_tab in Hy; destruct Hy as (i & Hi & ->); [apply ND; auto|apply WT; auto]. }
  split. { intros i Hi. destruct (ND i Hi) as (_ & E & _). replace (16 * sq * u) with (16 * u * sq) by ring. exact E. }
  split. { intros i Hi. apply ND; auto. }
  split.
  { intros i j Hij. destruct (ND i ltac:(lia)) as (_ & E1 & _). destruct (ND j ltac:(lia)) as (_ & E2 & _).
    apply abs_in in E1. apply abs_in in E2. pose proof (gap n z Hz i j Hij) as GP. fold N in GP.
    assert (32 * (u * sq) < / 1000 / (N * N)).
    { apply Rmult_lt_reg_r with (N * N); [lra|]. replace (/ 1000 / (N * N) * (N * N)) with (/ 1000) by (field; intro E0; rewrite E0 in N4; lra).
      replace (32 * (u * sq) * (N * N)) with (32 * U) by (rewrite <- UN; ring). lra. }
    lra. }
  assert (WR : forall i, (i < n)%nat -> exists dl, Rabs dl <= 200 * U /\ B2R (@gl_wt (FS m) n r i : F64) = gauss_w n (z i) * (1 + dl)).
  { intros i Hi. destruct (WT i Hi) as (_ & dl & H1 & H2). eauto. }
  split.
  { intros i Hi. destruct (WR i Hi) as (dl & H1 & ->). apply abs_in in H1. apply Rmult_lt_0_compat; [|lra].
    apply (gauss_w_pos n z); auto. }
  intros i Hi. destruct (WR i Hi) as (dl & H1 & ->). pose proof (gauss_w_pos n z i n1 Hz Hi) as GP.
  replace (gauss_w n (z i) * (1 + dl) - gauss_w n (z i)) with (dl * gauss_w n (z i)) by ring.
  rewrite Rabs_mult, (Rabs_pos_eq (gauss_w n (z i))) by lra. apply Rmult_le_compat_r; [lra|].
  replace (200 * N ^ 2 * sq * u) with (200 * U) by (unfold U; ring). exact H1.
Qed.

Lemma gl_float : forall m d n (qf : list F64 * list F64) g, accurate m d -> d * (INR n + 1) ^ 2 <= 1 / 2000 ->
  (1 <= n)%nat -> (Z.of_nat n < 16384)%Z -> @gl_generate (FS m) n = Ok qf -> gauss_rule n g ->
  all_finite qf /\ good_rule n (-1) 1 (real_rule qf) /\
  rule_close (16 * sqrt (INR n + 1) * u) (200 * (INR n + 1) ^ 2 * sqrt (INR n + 1) * u) (real_rule qf) g.
Proof.
  intros m d n qf g A Hd n1 Hn G Hg. destruct (gl_float_data m d n qf A Hd n1 Hn G) as (z & x & w & Hz & E & F & X1 & X2 & X3 & W1 & W2).
  split; auto. rewrite E. rewrite (gauss_rule_unique n g (ideal n z) Hg (ideal_gauss n z n1 Hz)). split.
  - apply good_tab; auto.
  - apply rule_close_tab; auto.
Qed.

Lemma gl_float_error : forall m d n (qf : list F64 * list F64) g (f f1 : R -> R) K L, accurate m d -> d * (INR n + 1) ^ 2 <= 1 / 2000 ->
  (1 <= n)%nat -> (Z.of_nat n < 16384)%Z -> @gl_generate (FS m) n = Ok qf -> gauss_rule n g ->
  (forall t, -1 <= t <= 1 -> is_derive f t (f1 t)) -> (forall t, -1 <= t <= 1 -> Rabs (f t) <= K) ->
  (forall t, -1 <= t <= 1 -> Rabs (f1 t) <= L) ->
  Rabs (apply_rule (real_rule qf) f - apply_rule g f) <= (400 * (INR n + 1) ^ 2 * K + 32 * L) * sqrt (INR n + 1) * u.
Proof.
  intros m d n qf g f f1 K L A Hd n1 Hn G Hg Df FK FL.
  destruct (gl_float_data m d n qf A Hd n1 Hn G) as (z & x & w & Hz & E & F & X1 & X2 & X3 & W1 & W2).
  rewrite E, (gauss_rule_unique n g (ideal n z) Hg (ideal_gauss n z n1 Hz)). unfold ideal. rewrite !rule_tab.
  assert (S2 : Rsum (tab n (fun i => gauss_w n (z i))) = 2).
  { pose proof (gauss_exact n z (fun _ => 1) n1 Hz) as Gx.
    rewrite (Rsum_tab_ext n _ (fun i => gauss_w n (z i) * 1)) by (intros; ring).
    assert (C : is_RInt (fun _ : R => 1) (-1) 1 2).
    { evar_last; [apply (is_RInt_const (V := R_NormedModule))|]. unfold scal; simpl; unfold mult; simpl; req; ring. }
    rewrite <- (is_RInt_unique _ _ _ _ C). symmetry. apply is_RInt_unique. apply Gx.
    apply (ispoly_weaken 1); [apply ispoly_const|lia]. }
  eapply Rle_trans; [apply (close_error n (16 * sqrt (INR n + 1) * u) (200 * (INR n + 1) ^ 2 * sqrt (INR n + 1) * u) x w z
     (fun i => gauss_w n (z i)) f f1 K L); auto|].
  - pose proof u_pos. pose proof (sqrt_pos (INR n + 1)). apply Rmult_le_pos; lra.
  - intros i Hi. pose proof (X2 i Hi). lra.
  - intros i Hi. pose proof (proj1 Hz i Hi). lra.
  - intros i Hi. left. apply gauss_w_pos; auto.
  - rewrite S2. apply Req_le. ring.
Qed.

Lemma gl_float_poly : forall m d n (qf : list F64 * list F64) p K L, accurate m d -> d * (INR n + 1) ^ 2 <= 1 / 2000 ->
  (1 <= n)%nat -> (Z.of_nat n < 16384)%Z -> @gl_generate (FS m) n = Ok qf -> deg_le p (2 * n - 1) ->
  (forall t, -1 <= t <= 1 -> Rabs (peval p t) <= K) -> (forall t, -1 <= t <= 1 -> Rabs (Derive (peval p) t) <= L) ->
  Rabs (apply_rule (real_rule qf) (peval p) - RInt (peval p) (-1) 1) <= (400 * (INR n + 1) ^ 2 * K + 32 * L) * sqrt (INR n + 1) * u.
Proof.
  intros m d n qf p K L A Hd n1 Hn G Hp HK HL. destruct (gauss_exists n n1) as (g & Hg).
  assert (E : RInt (peval p) (-1) 1 = apply_rule g (peval p)).
  { apply is_RInt_unique. apply Hg. unfold deg_le in Hp. lia. }
  rewrite E. apply (gl_float_error m d n qf g (peval p) (Derive (peval p))); auto.
  intros t _. apply Derive_correct. clear. induction p as [|a p IH]; [apply ex_derive_const|]. simpl.
  apply (ex_derive_plus (K := R_AbsRing) (V := R_NormedModule) (fun _ => a) (fun x => x * peval p x)); [apply ex_derive_const|].
  apply (ex_derive_mult (fun x => x) (peval p)); [apply ex_derive_id|apply IH].
Qed.

(** ** Two points *)
Definition ex_angle : F64 := fdiv (fmul fpi (fsub (f_of 1 0) (f_dec 25 2))) (fadd (f_of 2 0) (f_dec 5 1)).
Definition ex_cos : F64 := f_of 9630 (-14).
Definition ex_lib : libm := mkLibm (fun x => if Beqb x ex_angle then ex_cos else m_cos rounded_libm x)
  (m_sin rounded_libm) (m_log rounded_libm) (m_pow rounded_libm).

Lemma ex_angle_val : is_finite ex_angle = true /\ Rabs (B2R ex_angle - 0.942478) <= 0.000001.
Proof.
  assert (E : ex_angle = f_of 8489085302434128 (-53)) by (apply B2SF_inj; vm_compute; reflexivity).
  rewrite E. destruct (f_of_exact 8489085302434128 (-53) eq_refl ltac:(lia)) as (F & V). split; auto. rewrite V.
  change (bpow radix2 (-53)) with (/ IZR (2 ^ 53)). change (2 ^ 53)%Z with 9007199254740992%Z. apply Rabs_le. lra.
Qed.
Lemma cos_9425 : Rabs (cos 0.942478 - 0.587785) <= 0.00002.
Proof.
  pose proof PI_bounds as P. destruct (pre_cos_bound 0.942478 1) as (L & H); [lra|lra|].
  unfold cos_approx, sum_f_R0, cos_term in L, H. cbn [Nat.mul Nat.add] in L, H.
  rewrite !INR_IZR_INZ in L, H.
  change (Z.of_nat (fact 0)) with 1%Z in L, H. change (Z.of_nat (fact 2)) with 2%Z in L, H. change (Z.of_nat (fact 4)) with 24%Z in L, H.
  change (Z.of_nat (fact 6)) with 720%Z in L, H.
  assert (E8 : Z.of_nat (fact 8) = 40320%Z) by (vm_compute; reflexivity). rewrite (INR_IZR_INZ (fact 8)), E8 in H.
  apply Rabs_le. lra.
Qed.

Lemma ex_accurate : accurate ex_lib (/ 20000).
Proof.
  intros x F H. pose proof (rounded_accurate x F H) as ((C1 & C2 & C3) & (S1 & S2 & S3)).
  assert (D : / 2 ^ 54 <= / 20000) by (apply Rinv_le_contravar; lra).
  split; [|repeat split; auto; cbn [ex_lib m_sin] in *; lra].
  cbn [ex_lib m_cos]. destruct (Beqb x ex_angle) eqn:E; [|repeat split; auto; lra].
  destruct ex_angle_val as (FA & VA). rewrite Beqb_correct in E by auto.
  assert (EX : B2R x = B2R ex_angle) by (revert E; case Req_bool_spec; auto; discriminate).
  destruct (f_of_exact 9630 (-14) eq_refl ltac:(lia)) as (FC & VC). fold ex_cos in FC, VC.
  change (bpow radix2 (-14)) with (/ IZR (2 ^ 14)) in VC. change (2 ^ 14)%Z with 16384%Z in VC.
  split; auto. rewrite VC. split; [apply Rabs_le; lra|]. rewrite EX.
  pose proof cos_9425 as CC. apply abs_in in CC.
  assert (LP : Rabs (cos (B2R ex_angle) - cos 0.942478) <= 0.000001).
  { eapply Rle_trans; [apply cos_lip|]. exact VA. }
  apply abs_in in LP. apply Rabs_le. lra.
Qed.

Lemma ex_runs : exists qf : list F64 * list F64, @gl_generate (FS ex_lib) 2 = Ok qf.
Proof.
  assert (G : @gl_guess (FS ex_lib) 2 0 = ex_cos).
  { change (@gl_guess (FS ex_lib) 2 0) with (if Beqb ex_angle ex_angle then ex_cos else m_cos rounded_libm ex_angle).
    assert (E : Beqb ex_angle ex_angle = true) by (vm_compute; reflexivity). rewrite E. reflexivity. }
  assert (T : forall lib, match @gl_newton (FS lib) 2 100 ex_cos with Some _ => true | None => false end = true).
  { intro lib. vm_compute. reflexivity. }
  specialize (T ex_lib). destruct (@gl_newton (FS ex_lib) 2 100 ex_cos) as [v|] eqn:EN; [|discriminate T].
  eexists. apply (gl_generate_Ok (S := FS ex_lib) 2 (fun _ => v)). intros idx Hi.
  assert (idx = 0)%nat as -> by (cbn in Hi; lia). rewrite G. exact EN.
Qed.

Lemma ex_rule : accurate ex_lib (/ 20000) /\ / 20000 * (INR 2 + 1) ^ 2 <= 1 / 2000 /\
  exists qf : list F64 * list F64, @gl_generate (FS ex_lib) 2 = Ok qf /\
    rule_close (28 * u) (3200 * u) (real_rule qf) ([- / sqrt 3; / sqrt 3], [1; 1]).
Proof.
  split; [exact ex_accurate|]. assert (D : / 20000 * (INR 2 + 1) ^ 2 <= 1 / 2000) by (simpl; lra). split; [exact D|].
  destruct ex_runs as (qf & E). exists qf. split; auto.
  destruct (gl_float ex_lib (/ 20000) 2 qf _ ex_accurate D ltac:(lia) ltac:(lia) E gauss_two) as (_ & _ & C1 & C2 & C3 & C4).
  pose proof u_pos as u0.
  assert (S3 : sqrt (INR 2 + 1) <= 1.7321).
  { replace (INR 2 + 1) with 3 by (simpl; ring). rewrite <- (sqrt_square 1.7321) by lra. apply sqrt_le_1_alt. lra. }
  split; auto. split; auto. split.
  - intros i x y Hx Hy. eapply Rle_trans; [apply (C3 i x y Hx Hy)|]. apply Rmult_le_compat_r; lra.
  - intros i v w Hv Hw. eapply Rle_trans; [apply (C4 i v w Hv Hw)|].
    assert (W1 : w = 1).
    { destruct i as [|[|i]]; cbn in Hw; [congruence|congruence|]. destruct i; discriminate Hw. }
    rewrite W1, !Rmult_1_r. apply Rmult_le_compat_r; [lra|]. replace ((INR 2 + 1) ^ 2) with 9 by (simpl; ring). lra.
Qed.
