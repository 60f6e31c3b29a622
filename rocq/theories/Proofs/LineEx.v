(** Concrete cases for stored rules on the whole line. *)
From Coq Require Import List Bool Arith ZArith Lia Reals Lra Psatz.
From Coquelicot Require Import Coquelicot.
From Flocq Require Import Core.Raux IEEE754.BinarySingleNaN.
From Verif Require Import Base.Outcome Base.Scalar Base.RScalar Base.FScalar Model.Primitive Model.BoundFloat
  Spec.Sums Spec.RealRules Spec.LegendreSpec Spec.ErrorSpec Spec.FloatSpec Spec.LibmSpec Spec.BoundFloatSpec Spec.MappedSpec Spec.LineSpec
  Proofs.LobattoRule Proofs.GLFloatRule Proofs.LobFloatRule Proofs.GaussError Proofs.BoundFloat Proofs.BoundFloatThm
  Proofs.Mapped Proofs.MappedGauss Proofs.MappedHalf Proofs.MappedEx Proofs.LineRule.
Import ListNotations.
Local Open Scope R_scope.

(** Lobatto rules: both end nodes go to infinity. *)
Lemma lob_line : forall m d n (qf q' : list F64 * list F64) dbg,
  accurate m d -> d * INR n ^ 2 <= 1 / 2000 -> (2 <= n)%nat -> (Z.of_nat n <= 16384)%Z -> @lob_generate (FS m) n = Ok qf ->
  maps_f64 m dbg (Bopp f_inf) f_inf qf q' -> In f_inf (fst q') /\ In f_inf (snd q').
Proof.
  intros m d n qf q' dbg A D n2 Hn G M. destruct (lobatto_exists n n2) as (g & Hg).
  destruct (lob_float m d n qf g A D n2 Hn G Hg) as (F & (Lx & Lw & _ & E1 & _ & PW) & _).
  unfold real_rule in Lx, Lw, E1, PW. cbn [fst snd] in *. rewrite map_length in Lx, Lw.
  rewrite nth_error_map in E1. destruct (nth_error (fst qf) (n - 1)) as [x|] eqn:X; [|discriminate]. injection E1 as E1.
  destruct (nth_error (snd qf) (n - 1)) as [w|] eqn:W. 2:{ apply nth_error_None in W. lia. }
  assert (Fx : is_finite x = true) by (apply F; left; apply nth_error_In with (n - 1)%nat; auto).
  assert (Fw : is_finite w = true) by (apply F; right; apply nth_error_In with (n - 1)%nat; auto).
  assert (W0 : 0 < B2R w) by (apply PW, in_map; apply nth_error_In with (n - 1)%nat; auto).
  destruct (map_nth m dbg (Bopp f_inf) f_inf qf q' (n - 1) x w M X W) as (y & v & Hy & Hv & T).
  rewrite (is_one x Fx E1) in T.
  assert (Bw : Bltb (f_of 0 0) w = true).
  { rewrite (Bltb_correct 53 1024 (f_of 0 0) w) by auto. apply Rlt_bool_true. exact W0. }
  destruct (ends_thm m dbg b0 w eq_refl Fw Bw) as (_ & _ & T' & _).
  assert (E : Ok (y, v) = Ok (f_inf, f_inf)) by (etransitivity; [symmetry; exact T|exact T']). injection E as -> ->. auto.
Qed.

(** The integrand 1/(1+4y^2) becomes 1/(1+x^2). *)
Definition bump (y : R) : R := / (1 + 4 * y ^ 2).
Definition witch (x : R) : R := / (1 + x ^ 2).

Lemma bump_flat : flattening 8 bump.
Proof.
  intros r s H. unfold bump. set (a := Rabs r) in *. set (b := Rabs s) in *.
  assert (Ra : r ^ 2 = a ^ 2) by (unfold a, Rabs; destruct Rcase_abs; ring). assert (Sb : s ^ 2 = b ^ 2) by (unfold b, Rabs; destruct Rcase_abs; ring).
  assert (a0 : 0 <= a) by apply Rabs_pos.
  assert (D : Rabs (s + r) <= a + b) by (pose proof (Rabs_triang s r); unfold a, b; lra).
  set (A := 1 + 4 * a ^ 2). set (B := 1 + 4 * b ^ 2). assert (A0 : 1 <= A) by (unfold A; simpl; nra). assert (B0 : 1 <= B) by (unfold B; simpl; nra).
  rewrite Ra, Sb. fold A B. 
  replace (/ B - / A) with (- (4 * ((s - r) * (s + r))) * / (A * B)).
  2:{ replace (4 * ((s - r) * (s + r))) with (B - A) by (unfold A, B; rewrite <- Ra, <- Sb; ring). field. lra. }
  assert (AB : 0 < / (A * B)) by (apply Rinv_0_lt_compat; nra).
  rewrite Rabs_mult, (Rabs_pos_eq (/ (A * B))) by lra. rewrite Rabs_Ropp, !Rabs_mult, (Rabs_pos_eq 4) by lra.
  assert (P1 : (1 + a) ^ 2 <= 2 * A) by (unfold A; pose proof (pow2_ge_0 (1 - a)); pose proof (pow2_ge_0 a); lra).
  assert (P2 : (1 + a) * (a + b) <= B).
  { apply Rle_trans with ((1 + b) * (b + b)); [apply Rmult_le_compat; lra|]. unfold B. pose proof (pow2_ge_0 (1 - b)). pose proof (pow2_ge_0 b). lra. }
  assert (P3 : (1 + a) ^ 3 * (a + b) <= 2 * (A * B)).
  { replace ((1 + a) ^ 3 * (a + b)) with ((1 + a) ^ 2 * ((1 + a) * (a + b))) by ring. rewrite <- (Rmult_assoc 2).
    apply Rmult_le_compat; auto; [apply pow_le; lra|apply Rmult_le_pos; lra]. }
  pose proof (Rabs_pos (s - r)) as SR. pose proof (pow_le (1 + a) 3 ltac:(lra)) as P0.
  apply Rle_trans with (4 * Rabs (s - r) * / (A * B) * ((1 + a) ^ 3 * (a + b))).
  - replace (4 * (Rabs (s - r) * Rabs (s + r)) * / (A * B) * (1 + a) ^ 3) with (4 * Rabs (s - r) * / (A * B) * ((1 + a) ^ 3 * Rabs (s + r))) by ring.
    apply Rmult_le_compat_l; [apply Rmult_le_pos; lra|]. apply Rmult_le_compat_l; auto.
  - apply Rle_trans with (4 * Rabs (s - r) * / (A * B) * (2 * (A * B))); [apply Rmult_le_compat_l; auto; apply Rmult_le_pos; lra|].
    apply Req_le. field. lra.
Qed.

Lemma bump_pull : forall x, -1 < x < 1 -> witch x = bump (x / (1 + x) / (1 - x)) * ((1 + x * x) / ((x * x - 1) * (x * x - 1))).
Proof.
  intros x H. assert (x * x < 1) by nra. unfold bump, witch.
  assert (E : 1 + 4 * (x / (1 + x) / (1 - x)) ^ 2 = (1 + x * x) ^ 2 / ((x * x - 1) * (x * x - 1))) by (field; repeat split; try lra; nra).
  rewrite E. field. split; nra.
Qed.

Lemma witch_facts : (forall x, -1 <= x <= 1 -> Rabs (witch x) <= 1) /\ lipschitz (-1) 1 1 witch /\
  within (-1) 1 (44 / 1000) witch (peval [957 / 1000; 0; - (1 / 2)]) /\ RInt witch (-1) 1 = PI / 2.
Proof.
  unfold witch. split; [|split; [|split]].
  - intros x _. assert (1 <= 1 + x ^ 2) by nra. rewrite Rabs_pos_eq by (left; apply Rinv_0_lt_compat; lra). rewrite <- Rinv_1. apply Rinv_le_contravar; lra.
  - intros x y _ _. set (A := 1 + x ^ 2). set (B := 1 + y ^ 2). assert (1 <= A) by (unfold A; nra). assert (1 <= B) by (unfold B; nra).
    replace (/ A - / B) with ((x - y) * (- (x + y) * / (A * B))) by (unfold A, B; field; split; nra).
    rewrite Rabs_mult, Rmult_comm. apply Rmult_le_compat_r; [apply Rabs_pos|].
    assert (0 < A * B) by nra. rewrite Rabs_mult, Rabs_Ropp, (Rabs_pos_eq (/ (A * B))) by (left; apply Rinv_0_lt_compat; auto).
    apply Rmult_le_reg_r with (A * B); auto. rewrite Rmult_assoc, Rinv_l, Rmult_1_r, Rmult_1_l by lra.
    pose proof (pow2_ge_0 (x - / 2)). pose proof (pow2_ge_0 (x + / 2)). pose proof (pow2_ge_0 (y - / 2)). pose proof (pow2_ge_0 (y + / 2)). pose proof (pow2_ge_0 (x * y)).
    apply Rabs_le. unfold A, B. split; lra.
  - intros x Hx. set (t := x ^ 2). assert (t1 : 0 <= t <= 1) by (unfold t; nra).
    replace (peval [957 / 1000; 0; - (1 / 2)] x) with (957 / 1000 - t / 2) by (unfold t; simpl; field).
    replace (/ (1 + t) - (957 / 1000 - t / 2)) with ((43 / 1000 - 457 / 1000 * t + t * t / 2) * / (1 + t)) by (field; lra).
    assert (0 < / (1 + t)) by (apply Rinv_0_lt_compat; lra).
    rewrite Rabs_mult, (Rabs_pos_eq (/ (1 + t))) by lra. apply Rmult_le_reg_r with (1 + t); [lra|]. rewrite Rmult_assoc, Rinv_l, Rmult_1_r by lra.
    pose proof (pow2_ge_0 (t - 413 / 1000)). assert (0 <= t * (1 - t)) by (apply Rmult_le_pos; lra).
    apply Rabs_le. split; lra.
  - apply is_RInt_unique. replace (PI / 2) with (atan 1 - atan (-1)) by (replace (-1) with (- (1)) by ring; rewrite atan_opp, atan_1; lra).
    apply (is_RInt_derive (V := R_CompleteNormedModule) atan (fun x => / (1 + x ^ 2))).
    + intros x _. apply is_derive_Reals. apply derivable_pt_lim_atan.
    + intros x _. apply (ex_derive_continuous (V := R_NormedModule)). auto_derive. nra.
Qed.

Lemma line_small : line_error 2 (44 / 1000) 8 1 1 <= / 5.
Proof.
  unfold line_error. replace (INR 2 + 1) with 3 by (simpl; lra).
  assert (S3 : sqrt 3 <= 2) by (replace 2 with (sqrt (2 * 2)) by (apply sqrt_square; lra); apply sqrt_le_1_alt; lra).
  assert (U : 0 < ulp53 <= / 10 ^ 15) by exact u_tiny. pose proof (sqrt_pos 3).
  assert ((400 * 3 ^ 2 * 1 + 32 * 1) * sqrt 3 * ulp53 <= (400 * 3 ^ 2 * 1 + 32 * 1) * 2 * ulp53).
  { apply Rmult_le_compat_r; [lra|]. apply Rmult_le_compat_l; lra. }
  simpl in *. lra.
Qed.

Lemma ex_line : exists qf q' : list F64 * list F64, @gl_generate (FS ex_lib) 2 = Ok qf /\ maps_f64 ex_lib true (Bopp f_inf) f_inf qf q' /\
  line_integral bump (PI / 2) /\ Rabs (apply_rule (real_rule q') bump - PI / 2) <= / 5.
Proof.
  destruct ex_rule as (A & D & qf & G & _).
  destruct (line_runs ex_lib _ 2 qf A D ltac:(lia) ltac:(lia) G true) as (q' & M). destruct witch_facts as (W1 & W2 & W3 & W4).
  destruct (line_best ex_lib _ 2 qf A D ltac:(lia) ltac:(lia) G true q' bump witch [957 / 1000; 0; - (1 / 2)] 8 1 1 (44 / 1000) M bump_flat bump_pull W1 W2) as (E1 & E2); auto.
  { unfold deg_le. simpl. lia. }
  rewrite W4 in E1, E2. exists qf, q'. split; auto. split; auto. split; auto. eapply Rle_trans; [exact E2|exact line_small].
Qed.

(** The stored rule is symmetric, its image is not. *)
Definition lopsided (q : list F64 * list F64) : bool :=
  match q with
  | ([x1; x2], [w1; w2]) => Beqb x1 (Bopp x2) && Beqb w1 w2 &&
      match transform_f64 ex_lib true (Bopp f_inf) f_inf x1 w1, transform_f64 ex_lib true (Bopp f_inf) f_inf x2 w2 with
      | Ok (y1, v1), Ok (y2, v2) => is_finite (y1 : F64) && is_finite (y2 : F64) && is_finite (v1 : F64) && is_finite (v2 : F64) &&
          Beqb v1 v2 && Bltb (f_of 0 0) v1 && Bltb (Bopp y1) y2
      | _, _ => false
      end
  | _ => false
  end.
Lemma ex_lopsided : match @gl_generate (FS ex_lib) 2 with Ok q => lopsided q | _ => false end = true.
Proof. vm_compute. reflexivity. Qed.

Lemma ltb_lt : forall a b : F64, is_finite a = true -> is_finite b = true -> Bltb a b = true -> B2R a < B2R b.
Proof. intros a b Fa Fb H. rewrite (Bltb_correct 53 1024 a b Fa Fb) in H. destruct (Rlt_bool_spec (B2R a) (B2R b)); [assumption|discriminate]. Qed.
Lemma eqb_eq : forall a b : F64, is_finite a = true -> is_finite b = true -> Beqb a b = true -> B2R a = B2R b.
Proof. intros a b Fa Fb H. rewrite (Beqb_correct 53 1024 a b Fa Fb) in H. destruct (Req_bool_spec (B2R a) (B2R b)); [assumption|discriminate]. Qed.

Lemma ex_odd : exists qf q' : list F64 * list F64, @gl_generate (FS ex_lib) 2 = Ok qf /\ maps_f64 ex_lib true (Bopp f_inf) f_inf qf q' /\
  apply_rule (real_rule qf) (fun x => x) = 0 /\ 0 < apply_rule (real_rule q') (fun y => y).
Proof.
  destruct ex_rule as (A & D & qf & G & _). pose proof ex_lopsided as L. rewrite G in L.
  destruct (gl_stored ex_lib _ 2 qf A D ltac:(lia) ltac:(lia) G) as (Fin & _).
  exists qf. destruct qf as ([|x1 [|x2 [|? ?]]], [|w1 [|w2 [|? ?]]]); try discriminate L. cbn [lopsided] in L.
  apply andb_prop in L. destruct L as (L0 & L). apply andb_prop in L0. destruct L0 as (Lx & Lw).
  destruct (transform_f64 ex_lib true (Bopp f_inf) f_inf x1 w1) as [(y1, v1)| | | |] eqn:T1; try discriminate L.
  destruct (transform_f64 ex_lib true (Bopp f_inf) f_inf x2 w2) as [(y2, v2)| | | |] eqn:T2; try discriminate L.
  repeat (apply andb_prop in L; destruct L as (L & ?)).
  exists ([y1; y2], [v1; v2]). split; [exact G|]. split.
  { split; [reflexivity|]. split; [reflexivity|]. cbn [fst snd combine]. constructor; [exact T1|]. constructor; [exact T2|]. constructor. }
  split.
  - apply eqb_eq in Lx; [|apply Fin; left; left; reflexivity|rewrite is_finite_Bopp; apply Fin; left; right; left; reflexivity].
    apply eqb_eq in Lw; [|apply Fin; right; left; reflexivity|apply Fin; right; right; left; reflexivity].
    rewrite B2R_Bopp in Lx. unfold apply_rule, real_rule, Rsum. cbn. rewrite Lx, Lw. ring.
  - match goal with H : Bltb (Bopp y1) y2 = true |- _ => apply ltb_lt in H; [rewrite B2R_Bopp in H; rename H into Hy|rewrite is_finite_Bopp; auto|auto] end.
    match goal with H : Bltb (f_of 0 0) v1 = true |- _ => apply ltb_lt in H; [change (B2R (f_of 0 0)) with 0 in H; rename H into Hv|auto|auto] end.
    match goal with H : Beqb v1 v2 = true |- _ => apply eqb_eq in H; auto; rename H into Ev end.
    unfold apply_rule, real_rule, Rsum. cbn. rewrite <- Ev. assert (0 < B2R v1 * (B2R y1 + B2R y2)) by (apply Rmult_lt_0_compat; lra). lra.
Qed.
