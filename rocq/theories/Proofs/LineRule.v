(** The stored Gauss-Legendre rule on the whole real line: sums and integrals. *)
From Coq Require Import List Bool Arith ZArith Lia Reals Lra Psatz.
From Coquelicot Require Import Coquelicot.
From Flocq Require Import IEEE754.BinarySingleNaN.
From Verif Require Import Base.Outcome Base.Scalar Base.RScalar Base.FScalar Model.Primitive Model.BoundFloat
  Spec.RuleSpec Spec.Sums Spec.RealRules Spec.LegendreSpec Spec.ErrorSpec Spec.FloatSpec Spec.LibmSpec Spec.BoundFloatSpec Spec.MappedSpec Spec.LineSpec
  Proofs.Tab Proofs.Legendre Proofs.LegendreZeros Proofs.LegendreAngles Proofs.GLRule Proofs.GLNewton Proofs.GLBasin Proofs.GLFloat Proofs.GLFloatRule
  Proofs.FloatOps Proofs.FloatErr Proofs.GaussError Proofs.GaussErrorFloat
  Proofs.BoundFloat Proofs.BoundFloatThm Proofs.Mapped Proofs.MappedGauss Proofs.MappedHalf Proofs.Line.
Import ListNotations.
Local Open Scope R_scope.

(** ** The map of (-1,1) onto the line *)
Definition Yl (x : R) : R := x / (1 + x) / (1 - x).
Definition Jl (x : R) : R := (1 + x * x) / ((x * x - 1) * (x * x - 1)).

Lemma Yl_eq : forall x, -1 < x < 1 -> Yl x = x / (1 - x * x).
Proof. intros x H. unfold Yl. field. split; nra. Qed.
Lemma Jl_pos : forall x, -1 < x < 1 -> 0 < Jl x.
Proof. intros x H. unfold Jl. apply Rdiv_lt_0_compat; [nra|]. assert (x * x < 1) by nra. nra. Qed.
Lemma Jl_grow : forall x, -1 < x < 1 -> Jl x <= 2 * (1 + Rabs (Yl x)) ^ 2.
Proof.
  intros x H. rewrite Yl_eq by auto. assert (s1 : x * x < 1) by nra. unfold Jl.
  set (t := 1 - x * x). assert (t0 : 0 < t <= 1) by (unfold t; nra).
  unfold Rdiv at 2. rewrite Rabs_mult, Rabs_inv, (Rabs_pos_eq t) by lra.
  replace ((x * x - 1) * (x * x - 1)) with (t * t) by (unfold t; ring).
  assert (A : 1 <= t + Rabs x). { assert (S : x * x = Rabs x * Rabs x) by (unfold Rabs; destruct Rcase_abs; ring). unfold t. rewrite S. pose proof (Rabs_pos x). assert (Rabs x < 1) by (apply Rabs_def1; lra). nra. }
  replace (2 * (1 + Rabs x * / t) ^ 2) with (2 * ((t + Rabs x) * (t + Rabs x)) / (t * t)) by (field; lra).
  unfold Rdiv. apply Rmult_le_compat_r; [left; apply Rinv_0_lt_compat; nra|]. nra.
Qed.

Lemma flat_pos : forall L f, flattening L f -> 0 <= L.
Proof.
  intros L f H. pose proof (H 0 1) as A. rewrite Rabs_R0, Rabs_R1 in A. specialize (A ltac:(lra)).
  rewrite Rplus_0_r, pow1, Rmult_1_r, Rminus_0_r, Rabs_R1 in A. pose proof (Rabs_pos (f 1 - f 0)). lra.
Qed.
Lemma flat_lip : forall L f, flattening L f -> forall r s, Rabs (f s - f r) <= L * Rabs (s - r).
Proof.
  intros L f H. assert (A : forall r s, Rabs r <= Rabs s -> Rabs (f s - f r) <= L * Rabs (s - r)).
  { intros r s Q. eapply Rle_trans; [|apply (H r s Q)]. rewrite <- (Rmult_1_r (Rabs (f s - f r))) at 1.
    apply Rmult_le_compat_l; [apply Rabs_pos|]. apply pow_R1_Rle. pose proof (Rabs_pos r). lra. }
  intros r s. destruct (Rle_lt_dec (Rabs r) (Rabs s)) as [Q|Q]; [apply A, Q|].
  rewrite (Rabs_minus_sym (f s)), (Rabs_minus_sym s). apply A. lra.
Qed.
Lemma flat_cont : forall L f x, flattening L f -> continuous f x.
Proof.
  intros L f x H. pose proof (flat_pos L f H) as L0. pose proof (flat_lip L f H x) as A.
  apply continuity_pt_filterlim. intros e He. exists (e / (L + 1)). split; [apply Rdiv_lt_0_compat; lra|].
  intros y (_ & Hy). simpl in *. unfold R_dist in *. eapply Rle_lt_trans; [apply A|].
  apply Rle_lt_trans with (L * (e / (L + 1))). { apply Rmult_le_compat_l; lra. }
  apply Rmult_lt_reg_r with (L + 1); [lra|]. replace (L * (e / (L + 1)) * (L + 1)) with (L * e) by (field; lra). nra.
Qed.

(** One pair: Y the exact node, y the stored one. *)
Lemma line_pair : forall f L KG c Y y J w v, flattening L f -> Rabs (y - Y) <= 9 * ulp53 * (1 + Rabs Y) -> 0 < J <= 2 * (1 + Rabs Y) ^ 2 -> 0 < w ->
  0 <= c <= / 100 -> Rabs (v - w * J) <= c * (w * J) -> Rabs (f Y * J) <= KG -> Rabs (v * f y - w * (f Y * J)) <= (c * KG + 26 * L * ulp53) * w.
Proof.
  intros f L KG c Y y J w v D E HJ Hw Hc Ev HK. pose proof (flat_pos L f D) as L0. pose proof ulp_pos as UP.
  assert (U : ulp53 <= / 10 ^ 15) by exact (proj2 u_tiny). assert (U9 : 9 * ulp53 <= 0.01) by (simpl in U; lra).
  pose proof (Rabs_pos Y) as Y0. set (a := 1 + Rabs Y) in *.
  assert (T : J * Rabs (f y - f Y) <= 25 * L * ulp53).
  { assert (M : exists mn, a * 0.99 <= 1 + mn /\ Rabs (f y - f Y) * (1 + mn) ^ 3 <= L * Rabs (y - Y)).
    { destruct (Rle_lt_dec (Rabs Y) (Rabs y)) as [Q|Q].
      - exists (Rabs Y). split; [unfold a in *; lra|]. apply D, Q.
      - exists (Rabs y). split.
        + pose proof (Rabs_triang_inv Y y) as TI. rewrite (Rabs_minus_sym Y) in TI. assert (9 * ulp53 * a <= 0.01 * a) by (apply Rmult_le_compat_r; [unfold a; lra|exact U9]). unfold a in *. lra.
        + rewrite (Rabs_minus_sym (f y)), (Rabs_minus_sym y). apply D. lra. }
    destruct M as (mn & M1 & M2). pose proof (Rabs_pos (f y - f Y)) as DP. set (d := Rabs (f y - f Y)) in *.
    assert (a0 : 1 <= a) by (unfold a; lra).
    assert (P3 : (a * 0.99) ^ 3 <= (1 + mn) ^ 3) by (apply pow_incr; split; [|exact M1]; apply Rmult_le_pos; lra).
    assert (A1 : d * (a * 0.99) ^ 3 <= L * (9 * ulp53 * a)).
    { eapply Rle_trans; [apply Rmult_le_compat_l; [exact DP|exact P3]|]. eapply Rle_trans; [exact M2|]. apply Rmult_le_compat_l; auto. }
    assert (A2 : d * (2 * a ^ 2) <= 25 * L * ulp53).
    { apply Rmult_le_reg_r with a; [lra|]. 
      replace (d * (2 * a ^ 2) * a) with (2 / 0.970299 * (d * (a * 0.99) ^ 3)) by lra.
      apply Rle_trans with (2 / 0.970299 * (L * (9 * ulp53 * a))); [apply Rmult_le_compat_l; lra|].
      assert (0 <= L * (ulp53 * a)) by (apply Rmult_le_pos; [lra|apply Rmult_le_pos; lra]). lra. }
    eapply Rle_trans; [|exact A2]. rewrite Rmult_comm. apply Rmult_le_compat_l; lra. }
  replace (v * f y - w * (f Y * J)) with ((v - w * J) * f Y + v * (f y - f Y)) by ring.
  eapply Rle_trans; [apply Rabs_triang|]. rewrite !Rabs_mult. rewrite Rabs_mult, (Rabs_pos_eq J) in HK by lra.
  assert (wj : 0 < w * J) by (apply Rmult_lt_0_compat; lra).
  assert (V : Rabs v <= 1.01 * (w * J)). { replace v with (w * J + (v - w * J)) by ring. eapply Rle_trans; [apply Rabs_triang|]. rewrite (Rabs_pos_eq (w * J)) by lra. nra. }
  assert (B1 : Rabs (v - w * J) * Rabs (f Y) <= c * KG * w).
  { apply Rle_trans with (c * (w * J) * Rabs (f Y)); [apply Rmult_le_compat_r; [apply Rabs_pos|exact Ev]|].
    replace (c * (w * J) * Rabs (f Y)) with (c * (Rabs (f Y) * J) * w) by ring. apply Rmult_le_compat_r; [lra|]. apply Rmult_le_compat_l; lra. }
  assert (B2 : Rabs v * Rabs (f y - f Y) <= 26 * L * ulp53 * w).
  { apply Rle_trans with (1.01 * (w * J) * Rabs (f y - f Y)); [apply Rmult_le_compat_r; [apply Rabs_pos|exact V]|].
    replace (1.01 * (w * J) * Rabs (f y - f Y)) with (1.01 * w * (J * Rabs (f y - f Y))) by ring.
    apply Rle_trans with (1.01 * w * (25 * L * ulp53)); [apply Rmult_le_compat_l; lra|].
    assert (0 <= w * (L * ulp53)) by (apply Rmult_le_pos; [lra|apply Rmult_le_pos; lra]). lra. }
  lra.
Qed.

(** ** The integral in the variable of [-1,1] *)
Definition Xl (y : R) : R := 2 * y / (1 + sqrt (1 + 4 * y * y)).

Lemma Xl_facts : forall y, -1 < Xl y < 1 /\ Yl (Xl y) = y /\ (0 < y -> 1 - Xl y <= / y) /\ (y < 0 -> Xl y - -1 <= / - y).
Proof.
  intro y. set (q := sqrt (1 + 4 * y * y)). assert (Q2 : q * q = 1 + 4 * y * y) by (apply sqrt_sqrt; nra).
  assert (Q0 : 0 <= q) by apply sqrt_pos. assert (Q1 : 1 <= q) by nra.
  assert (X : Xl y * (1 + q) = 2 * y) by (unfold Xl; fold q; field; lra). set (x := Xl y) in *.
  assert (Y1 : - (1 + q) < 2 * y < 1 + q).
  { split; [destruct (Rle_lt_dec (2 * y) (- (1 + q))) as [H|H]|destruct (Rle_lt_dec (1 + q) (2 * y)) as [H|H]]; try exact H; exfalso; nra. }
  assert (R1 : -1 < x < 1) by (split; apply Rmult_lt_reg_r with (1 + q); lra).
  assert (E : y * (1 - x * x) = x). { assert (A : (1 - x * x) * (1 + q) = 2). { apply Rmult_eq_reg_r with (1 + q); [|lra].
      replace ((1 - x * x) * (1 + q) * (1 + q)) with ((1 + q) * (1 + q) - (x * (1 + q)) * (x * (1 + q))) by ring. rewrite X. nra. }
    apply Rmult_eq_reg_r with (1 + q); [|lra]. rewrite X, Rmult_assoc, A. ring. }
  assert (X2 : 0 < 1 - x * x) by nra.
  split; [exact R1|]. split; [rewrite Yl_eq by auto; rewrite <- E at 1; field; lra|]. split; intro H.
  - apply Rmult_le_reg_l with y; [lra|]. rewrite Rinv_r by lra. assert (0 < x) by nra. nra.
  - apply Rmult_le_reg_l with (- y); [lra|]. rewrite Rinv_r by lra. assert (x < 0) by nra. nra.
Qed.

Lemma Yl_derive : forall x, -1 < x < 1 -> is_derive Yl x (Jl x) /\ continuous Jl x.
Proof.
  intros x H. assert (x * x < 1) by nra. split.
  - unfold Yl, Jl. auto_derive; [lra|]. field. repeat split; try lra; nra.
  - unfold Jl. apply (ex_derive_continuous (V := R_NormedModule)). auto_derive. nra.
Qed.

Lemma line_sub : forall L f g a b, flattening L f -> (forall x, -1 < x < 1 -> g x = f (Yl x) * Jl x) -> RInt g (Xl a) (Xl b) = RInt f a b.
Proof.
  intros L f g a b D E. destruct (Xl_facts a) as (A1 & A2 & _). destruct (Xl_facts b) as (B1 & B2 & _).
  assert (In : forall x, Rmin (Xl a) (Xl b) <= x <= Rmax (Xl a) (Xl b) -> -1 < x < 1).
  { intros x. unfold Rmin, Rmax. destruct (Rle_dec (Xl a) (Xl b)); lra. }
  pose proof (is_RInt_comp (V := R_CompleteNormedModule) f Yl Jl (Xl a) (Xl b)) as S.
  rewrite A2, B2 in S. rewrite <- (is_RInt_unique _ _ _ _ (S (fun x _ => flat_cont L f (Yl x) D) (fun x Hx => Yl_derive x (In x Hx)))).
  apply RInt_ext. intros x Hx. rewrite E by (apply In; lra). unfold scal; simpl; unfold mult; simpl. ring.
Qed.

Lemma line_lim : forall L KG LG f g, flattening L f -> (forall x, -1 < x < 1 -> g x = f (Yl x) * Jl x) ->
  (forall x, -1 <= x <= 1 -> Rabs (g x) <= KG) -> lipschitz (-1) 1 LG g -> line_integral f (RInt g (-1) 1).
Proof.
  intros L KG LG f g D E GK GL P (e & HP).
  assert (K0 : 0 <= KG) by (pose proof (GK 0 ltac:(lra)); pose proof (Rabs_pos (g 0)); lra).
  set (M := 2 * (KG + 1) / e). pose proof (cond_pos e) as e0. assert (M0 : 0 < M) by (unfold M; apply Rdiv_lt_0_compat; lra).
  assert (EX : forall a b, ex_RInt (clamp g) a b) by (intros a b; apply (ex_RInt_continuous (V := R_CompleteNormedModule)); intros; apply (clamp_cont g LG), GL).
  assert (CB : forall x, Rabs (clamp g x) <= KG) by (intro x; unfold clamp; apply GK, clamp_range).
  assert (Ck : KG * / M < e / 2). { unfold M. replace (/ (2 * (KG + 1) / e)) with (e / (2 * (KG + 1))) by (field; lra).
    apply Rmult_lt_reg_r with (2 * (KG + 1)); [lra|]. replace (KG * (e / (2 * (KG + 1))) * (2 * (KG + 1))) with (KG * e) by (field; lra).
    replace (e / 2 * (2 * (KG + 1))) with (e * (KG + 1)) by field. lra. }
  apply (Filter_prod _ _ _ (fun a => a < - M) (fun b => M < b)).
  - exists (- M). auto.
  - exists M. auto.
  - intros a b Ha Hb. exists (RInt f a b). split.
    + apply (RInt_correct (V := R_CompleteNormedModule)), (ex_RInt_continuous (V := R_CompleteNormedModule)). intros. apply (flat_cont L f), D.
    + apply HP. rewrite <- (line_sub L f g a b D E). rewrite <- clamp_int.
      destruct (Xl_facts a) as (A1 & _ & _ & A3). destruct (Xl_facts b) as (B1 & _ & B3 & _). specialize (A3 ltac:(lra)). specialize (B3 ltac:(lra)).
      set (p := Xl a) in *. set (q := Xl b) in *.
      assert (EG : RInt g p q = RInt (clamp g) p q).
      { apply RInt_ext. intros x. unfold Rmin, Rmax. destruct (Rle_dec p q); intro Hx; symmetry; apply clamp_in; lra. }
      rewrite EG. change (Rabs (RInt (clamp g) p q - RInt (clamp g) (-1) 1) < e).
      rewrite <- (RInt_Chasles (V := R_CompleteNormedModule) (clamp g) (-1) p 1), <- (RInt_Chasles (V := R_CompleteNormedModule) (clamp g) p q 1) by apply EX.
      change (Rabs (RInt (clamp g) p q - (RInt (clamp g) (-1) p + (RInt (clamp g) p q + RInt (clamp g) q 1))) < e).
      replace (RInt (clamp g) p q - (RInt (clamp g) (-1) p + (RInt (clamp g) p q + RInt (clamp g) q 1))) with (- (RInt (clamp g) (-1) p + RInt (clamp g) q 1)) by ring.
      rewrite Rabs_Ropp. eapply Rle_lt_trans; [apply Rabs_triang|].
      pose proof (abs_RInt_le_const (clamp g) (-1) p KG ltac:(lra) (EX _ _) (fun t _ => CB t)) as I1.
      pose proof (abs_RInt_le_const (clamp g) q 1 KG ltac:(lra) (EX _ _) (fun t _ => CB t)) as I2.
      assert (/ - a <= / M) by (apply Rinv_le_contravar; lra). assert (/ b <= / M) by (apply Rinv_le_contravar; lra).
      assert ((p - -1) * KG <= / M * KG) by (apply Rmult_le_compat_r; lra). assert ((1 - q) * KG <= / M * KG) by (apply Rmult_le_compat_r; lra). lra.
Qed.

Section Legendre.
Variables (m : libm) (d : R) (n : nat) (qf : list F64 * list F64).
Hypothesis Hm : accurate m d.
Hypothesis Hd : d * (INR n + 1) ^ 2 <= 1 / 2000.
Hypothesis n1 : (1 <= n)%nat.
Hypothesis Hn : (Z.of_nat n < 16384)%Z.
Hypothesis G : @gl_generate (FS m) n = Ok qf.

(** Nodes keep their distance from the ends. *)
Lemma zero_far : forall z i, zeros n z -> (i < n)%nat -> 3.6 <= (INR n + 1) * (INR n + 1) * (1 - z i * z i).
Proof.
  intros z i Hz Hi. assert (A : forall k, (2 * k + 1 <= n)%nat -> 3.6 <= (INR n + 1) * (INR n + 1) * (1 - z (n - 1 - k)%nat * z (n - 1 - k)%nat)).
  { intros k Hk. destruct (basin_ex n z Hz k Hk) as (h & sg & B & _). unfold basin in B. fold (rt n z k). apply B. }
  pose proof (half_cases n) as HC. destruct (le_lt_dec (n / 2) i) as [Q|Q].
  - pose proof (A (n - 1 - i)%nat ltac:(lia)) as B. replace (n - 1 - (n - 1 - i))%nat with i in B by lia. exact B.
  - pose proof (A i ltac:(lia)) as B. rewrite (zeros_sym n z i Hz) in B by lia. replace (- z i * - z i) with (z i * z i) in B by ring. exact B.
Qed.

Lemma node_far : forall x, In x (fst qf) -> 3 <= (INR n + 1) * (INR n + 1) * (1 - B2R x * B2R x).
Proof.
  intros x H. destruct (gl_float_data m d n qf Hm Hd n1 Hn G) as (z & y & v & Hz & E & _ & X1 & X2 & _).
  pose proof (in_real _ _ H) as H1. change (map B2R (fst qf)) with (fst (real_rule qf)) in H1. rewrite E in H1. cbn [fst] in H1.
  apply In_tab in H1. destruct H1 as (i & Hi & ->). pose proof (zero_far z i Hz Hi) as F. pose proof (X1 i Hi) as B. pose proof (X2 i Hi) as R1.
  pose proof (proj1 Hz i Hi) as R2. destruct (U_small n z Hn Hz n1) as (UB & US & UN & N4).
  set (N := INR n + 1) in *. replace (16 * sqrt N * u) with (16 * (u * sqrt N)) in B by ring. set (e := u * sqrt N) in *.
  assert (D : Rabs (y i * y i - z i * z i) <= 32 * e).
  { replace (y i * y i - z i * z i) with ((y i - z i) * (y i + z i)) by ring. rewrite Rabs_mult.
    assert (Rabs (y i + z i) <= 2) by (apply Rabs_le; lra). pose proof (Rabs_pos (y i + z i)). pose proof (Rabs_pos (y i - z i)). nra. }
  apply Rabs_le_between in D.
  assert (N * N * (y i * y i - z i * z i) <= N * N * (32 * e)) by (apply Rmult_le_compat_l; lra).
  replace (N * N * (32 * e)) with (32 * (e * (N * N))) in H0 by ring. rewrite UN in H0. lra.
Qed.

Variable dbg : bool.

Lemma line_runs : exists q', maps_f64 m dbg (Bopp f_inf) f_inf qf q'.
Proof. apply maps_exist; [apply (gl_lengths m d n qf); auto|]. intros x w _ _. exists (all_node x, all_weight x w). exact (run_all m dbg x w). Qed.

Lemma line_close : forall q' f g L KG, maps_f64 m dbg (Bopp f_inf) f_inf qf q' -> flattening L f ->
  (forall x, -1 < x < 1 -> g x = f (Yl x) * Jl x) -> (forall x, -1 <= x <= 1 -> Rabs (g x) <= KG) ->
  Rabs (apply_rule (real_rule q') f - apply_rule (real_rule qf) g) <= (18 * (INR n + 1) ^ 2 * KG + 78 * L) * ulp53.
Proof.
  intros q' f g L KG (_ & _ & F) D E GK. rewrite !rule_pairs.
  assert (L0 := flat_pos _ _ D). pose proof ulp_pos as UP.
  assert (K0 : 0 <= KG) by (pose proof (GK 0 ltac:(lra)); pose proof (Rabs_pos (g 0)); lra).
  destruct (zeros_exist n) as (z & Hz). destruct (U_small n z Hn Hz n1) as (UB & _ & UN & N4).
  set (N := INR n + 1) in *.
  assert (NB : N * N <= 16384 * 16384) by (pose proof (nat16 n Hn); apply Rmult_le_compat; unfold N; pose proof (pos_INR n); lra).
  assert (US : ulp53 * (16384 * 16384) <= / 10000000) by (unfold ulp53; simpl; lra).
  set (c := 6 * ulp53 * (N * N)). assert (c1 : 0 <= c <= / 100).
  { unfold c. split; [apply Rmult_le_pos; lra|]. assert (ulp53 * (N * N) <= ulp53 * (16384 * 16384)) by (apply Rmult_le_compat_l; lra). lra. }
  set (A := c * KG + 26 * L * ulp53).
  assert (A0 : 0 <= A). { unfold A. apply Rplus_le_le_0_compat; apply Rmult_le_pos; lra. }
  assert (P := pairs_close _ 1 A 0 f g _ _ F). rewrite Rmult_1_l in P.
  eapply Rle_trans; [apply P|].
  - intros a b Ha Hab. destruct (in_pairs qf a Ha) as (Hx & Hw). pose proof (gl_inside m d n qf Hm Hd n1 Hn G _ Hx) as Ix.
    destruct (gl_moderate m d n qf Hm Hd n1 Hn G _ Hw) as (Mw & W0). pose proof (node_far _ Hx) as NF. fold N in NF.
    assert (Eb : Ok b = Ok (all_node (fst a), all_weight (fst a) (snd a))) by (etransitivity; [symmetry; exact Hab|apply run_all]).
    injection Eb as Eb. subst b. cbn [fst snd].
    set (s := 1 - B2R (fst a) * B2R (fst a)) in *. assert (s0 : 0 < s) by (pose proof (proj2 Ix); unfold s; nra).
    assert (UN1 : ulp53 / s <= ulp53 * (N * N) / 3).
    { apply Rmult_le_reg_r with s; [lra|]. replace (ulp53 / s * s) with ulp53 by (field; lra).
      replace (ulp53 * (N * N) / 3 * s) with (ulp53 / 3 * (N * N * s)) by field.
      apply Rle_trans with (ulp53 / 3 * 3); [lra|apply Rmult_le_compat_l; lra]. }
    assert (Far : FloatOps.u * 1000000 <= s).
    { change FloatOps.u with ulp53. apply Rmult_le_reg_l with (N * N); [lra|]. apply Rle_trans with 3; [|exact NF].
      assert (N * N * ulp53 <= 16384 * 16384 * ulp53) by (apply Rmult_le_compat_r; lra). lra. }
    destruct (all_node_near (fst a) Ix) as (_ & Ey). destruct (rel_near _ _ _ (all_weight_far (fst a) (snd a) Ix Mw Far)) as (_ & Ev).
    fold s in Ev. change FloatOps.u with ulp53 in Ey, Ev. set (x := B2R (fst a)) in *. set (w := B2R (snd a)) in *.
    pose proof (proj2 Ix) as X1. fold x in X1. fold (Yl x) in Ey. fold (Jl x) in Ev.
    assert (J0 := Jl_pos x X1). rewrite (Rabs_pos_eq (w * Jl x)) in Ev by (apply Rmult_le_pos; lra).
    rewrite Rmult_1_l, Rplus_0_r, (E x X1). apply (line_pair f L KG c (Yl x)); auto.
    + split; [exact J0|apply Jl_grow, X1].
    + eapply Rle_trans; [exact Ev|]. apply Rmult_le_compat_r; [apply Rmult_le_pos; lra|]. unfold c. lra.
    + rewrite <- (E x X1). apply GK. lra.
  - pose proof (rule_pairs qf (fun _ => 1)) as E1. rewrite <- E1. rewrite Rmult_0_r, Rplus_0_r.
    eapply Rle_trans; [apply Rmult_le_compat_l; [exact A0|exact (gl_pos3 m d n qf Hm Hd n1 Hn G)]|]. unfold A, c. apply Req_le. ring.
Qed.

Lemma line_best : forall q' f g p L KG LG e, maps_f64 m dbg (Bopp f_inf) f_inf qf q' -> flattening L f ->
  (forall x, -1 < x < 1 -> g x = f (x / (1 + x) / (1 - x)) * ((1 + x * x) / ((x * x - 1) * (x * x - 1)))) ->
  (forall x, -1 <= x <= 1 -> Rabs (g x) <= KG) -> lipschitz (-1) 1 LG g -> deg_le p (2 * n - 1) -> within (-1) 1 e g (peval p) ->
  line_integral f (RInt g (-1) 1) /\ Rabs (apply_rule (real_rule q') f - RInt g (-1) 1) <= line_error n e L KG LG.
Proof.
  intros q' f g p L KG LG e M D E GK GL Dp W. split; [apply (line_lim L KG LG); auto|].
  pose proof (line_close q' f g L KG M D E GK) as A. pose proof (gl_best m d n qf Hm Hd n1 Hn G g p KG LG e GK GL Dp W) as B.
  replace (apply_rule (real_rule q') f - RInt g (-1) 1) with ((apply_rule (real_rule qf) g - RInt g (-1) 1) + (apply_rule (real_rule q') f - apply_rule (real_rule qf) g)) by ring.
  eapply Rle_trans; [apply Rabs_triang|]. unfold line_error. lra.
Qed.

(** Nothing overflows. *)
Lemma line_finite : forall q', maps_f64 m dbg (Bopp f_inf) f_inf qf q' -> all_finite q'.
Proof.
  intros q' (L1 & L2 & F). pose proof (gl_lengths m d n qf Hm Hd n1 Hn G) as LL.
  assert (P : List.Forall (fun yv => is_finite (fst yv) = true /\ is_finite (snd yv) = true) (combine (fst q') (snd q'))).
  { assert (Q : forall a, In a (combine (fst qf) (snd qf)) -> inside (fst a) /\ moderate (snd a)).
    { intros a Ha. destruct (in_pairs qf a Ha) as (Hx & Hw). split; [apply (gl_inside m d n qf); auto|apply (gl_moderate m d n qf Hm Hd n1 Hn G _ Hw)]. }
    revert Q. induction F as [|a b la lb Hab F IH]; intro Q; constructor.
    - destruct (Q a (or_introl eq_refl)) as (Ix & Mw).
      assert (Eb : Ok b = Ok (all_node (fst a), all_weight (fst a) (snd a))) by (etransitivity; [symmetry; exact Hab|apply run_all]).
      injection Eb as Eb. subst b. cbn [fst snd]. split; [apply all_node_near, Ix|apply (all_weight_rel _ _ Ix Mw)].
    - apply IH. intros c Hc. apply Q. right. exact Hc. }
  rewrite Forall_forall in P. assert (L3 : length (fst q') = length (snd q')) by congruence.
  intros x [H|H]; apply In_nth_error in H; destruct H as (i & Hi).
  - destruct (nth_error (snd q') i) as [w|] eqn:W.
    2:{ apply nth_error_None in W. assert (i < length (fst q'))%nat by (apply nth_error_Some; congruence). lia. }
    apply (P (x, w)). apply nth_error_In with i. clear - Hi W. revert i Hi W. generalize (fst q') (snd q').
    induction l as [|a l IH]; intros [|b l'] [|i]; cbn; intros; try discriminate; [congruence|apply IH; auto].
  - destruct (nth_error (fst q') i) as [y|] eqn:W.
    2:{ apply nth_error_None in W. assert (i < length (snd q'))%nat by (apply nth_error_Some; congruence). lia. }
    apply (P (y, x)). apply nth_error_In with i. clear - Hi W. revert i Hi W. generalize (fst q') (snd q').
    induction l as [|a l IH]; intros [|b l'] [|i]; cbn; intros; try discriminate; [congruence|apply IH; auto].
Qed.
End Legendre.
