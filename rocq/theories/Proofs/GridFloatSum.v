(** Sums over binary64 grids, literals, and an example. *)
From Coq Require Import ZArith List Bool Reals Lra Lia Psatz.
From Flocq Require Import IEEE754.BinarySingleNaN Core.
From Verif Require Import Base.Outcome Base.Scalar Base.RScalar Base.FScalar Model.Quadrature Model.Radial Model.S2Tables Model.S2
  Model.Composite Model.Factory Model.GridCode Model.Grids Spec.RuleSpec Spec.QuadSpec Spec.SphereSpec Spec.TraitsSpec Spec.FactorySpec Spec.FloatSpec Spec.LibmSpec Spec.GridFloatSpec
  Proofs.FloatOps Proofs.FloatSphere Proofs.FloatErr Proofs.RadialFloat Proofs.ChebFloat Proofs.RadialFloatLib
  Proofs.LitFloat Proofs.AngularFloat Proofs.GridFloat.
Import ListNotations.
Local Open Scope R_scope.

Lemma grid_literal : forall m k e, (0 <= e)%Z -> Rabs (IZR k) / IZR (10 ^ e) <= 2 ^ 900 ->
  is_finite (@lit_val (FS m) (k, e) : F64) = true /\
  B2R (@lit_val (FS m) (k, e) : F64) = round radix2 (FLT_exp (-1074) 53) ZnearestE (IZR k / IZR (10 ^ e)).
Proof.
  intros m k e He B. change (round radix2 (FLT_exp (-1074) 53) ZnearestE (IZR k / IZR (10 ^ e))) with (rnd (IZR k / IZR (10 ^ e))).
  unfold lit_val. cbn [fst snd]. destruct (Z.ltb_spec k 0) as [K|K].
  - change (@sopp (FS m) (@sdec (FS m) (- k) e)) with (Bopp (f_dec (- k) e)).
    destruct (f_dec_pos (- k) e ltac:(lia) He) as (F & V).
    { rewrite opp_IZR. rewrite Rabs_left in B by (apply IZR_lt; exact K). exact B. }
    rewrite is_finite_Bopp, B2R_Bopp, V. split; [exact F|]. rewrite opp_IZR. unfold rnd.
    replace (- IZR k / IZR (10 ^ e)) with (- (IZR k / IZR (10 ^ e))) by (unfold Rdiv; ring). rewrite round_NE_opp. ring.
  - change (@sdec (FS m) k e) with (f_dec k e). destruct (Z.eq_dec k 0) as [->|N].
    + destruct (f_dec_zero e) as (F & V). split; [exact F|]. rewrite V. unfold Rdiv. rewrite Rmult_0_l. symmetry. apply rnd_0.
    + apply f_dec_pos; [lia|exact He|]. rewrite Rabs_pos_eq in B by (apply IZR_le; exact K). exact B.
Qed.

Lemma grid_angular : forall m f dbg n, transcribed f n -> exists (af : aquad (FS m)) (a : aquad RS),
  construct dbg (s2_generate (@repo_grids (FS m)) f n) = Ok af /\ construct dbg (s2_generate (@repo_grids RS) f n) = Ok a /\
  sized n af /\ sized n a /\ close_quads (qpoints af) (qweights af) (qpoints a) (qweights a) ulp53 (4.1 * ulp53).
Proof.
  intros m f dbg n H. destruct (angular_rel m f dbg n H) as (af & a & A1 & A2 & A3 & A4 & A5 & A6). exists af, a.
  split; [exact A1|]. split; [exact A2|]. split; [exact A3|]. split; [exact A4|]. split.
  - revert A5. apply Forall2_mono. intros x y (B1 & B2 & B3). split; [|split]; apply close_of_rel; [apply B1|apply B2|apply B3].
  - revert A6. apply Forall2_mono. intros x y (B & _). apply close_of_rel. exact B.
Qed.

Lemma node_sum : forall F G e ew x w v w', tempered3 F G -> 0 <= e <= / 2 -> 0 <= ew -> close_pt e x v -> rel_close w w' ew ->
  Rabs (B2R w * F (B2R (px x)) (B2R (py x)) (B2R (pz x)) - w' * F (px v) (py v) (pz v)) <= (e + ew + e * ew) * (Rabs w' * G (px v) (py v) (pz v)).
Proof.
  intros F G e ew x w v w' (T1 & T2) He Hw (C1 & C2 & C3) CW.
  destruct (rel_of_close _ _ _ (proj1 He) C1) as (_ & a & Ha & ->). destruct (rel_of_close _ _ _ (proj1 He) C2) as (_ & b & Hb & ->).
  destruct (rel_of_close _ _ _ (proj1 He) C3) as (_ & c & Hc & ->). destruct (rel_of_close _ _ _ Hw CW) as (_ & t & Ht & ->).
  pose proof (T2 (px v) (py v) (pz v) a b c e Ha Hb Hc (proj2 He)) as D. pose proof (T1 (px v) (py v) (pz v)) as B.
  set (f := F (px v) (py v) (pz v)) in *. set (g := G (px v) (py v) (pz v)) in *.
  set (f' := F (px v * (1 + a)) (py v * (1 + b)) (pz v * (1 + c))) in *.
  replace (w' * (1 + t) * f' - w' * f) with (w' * ((f' - f) + t * f + t * (f' - f))) by ring.
  rewrite Rabs_mult. replace ((e + ew + e * ew) * (Rabs w' * g)) with (Rabs w' * (e * g + ew * g + ew * (e * g))) by ring.
  apply Rmult_le_compat_l; [apply Rabs_pos|]. eapply Rle_trans; [apply Rabs_triang|]. eapply Rle_trans; [apply Rplus_le_compat_r, Rabs_triang|].
  rewrite !Rabs_mult. pose proof (Rabs_pos t). pose proof (Rabs_pos f). pose proof (Rabs_pos (f' - f)).
  apply Rplus_le_compat; [apply Rplus_le_compat|]; [exact D|apply Rmult_le_compat; auto|apply Rmult_le_compat; auto].
Qed.
Lemma grid_sum : forall F G e ew pf wf p w, tempered3 F G -> 0 <= e <= / 2 -> 0 <= ew -> close_quads pf wf p w e ew ->
  Rabs (sum3 (map real_pt pf) (map B2R wf) F - sum3 p w F) <= (e + ew + e * ew) * sum3_abs p w G.
Proof.
  intros F G e ew pf wf p w T He Hw (C & D). revert wf w D. induction C as [|x v pf p Hx C IH]; intros wf w D.
  - unfold sum3, sum3_abs. cbn [map combine fold_right]. rewrite Rminus_0_r, Rabs_R0, Rmult_0_r. lra.
  - destruct D as [|y w' wf w Hy D].
    + unfold sum3, sum3_abs. cbn [map combine fold_right]. rewrite Rminus_0_r, Rabs_R0, Rmult_0_r. lra.
    + specialize (IH wf w D). unfold sum3, sum3_abs in *. cbn [map combine fold_right fst snd real_pt px py pz] in *.
      pose proof (node_sum F G e ew x y v w' T He Hw Hx Hy) as N.
      match goal with |- Rabs ((?a + ?b) - (?c + ?d)) <= _ => replace ((a + b) - (c + d)) with ((a - c) + (b - d)) by ring end.
      eapply Rle_trans; [apply Rabs_triang|]. rewrite Rmult_plus_distr_l. apply Rplus_le_compat; [exact N|exact IH].
Qed.

(** exp(-r^2) and an envelope. *)
Definition gauss3 (x y z : R) : R := exp (- (x * x + y * y + z * z)).
Definition gauss3_env (x y z : R) : R := (1 + 5 / 2 * (x * x + y * y + z * z)) * exp (- ((x * x + y * y + z * z) / 4)).
Lemma exp_diff : forall a b m, m <= a -> m <= b -> Rabs (exp (- a) - exp (- b)) <= Rabs (a - b) * exp (- m).
Proof.
  assert (K : forall a b m, m <= a -> a <= b -> Rabs (exp (- a) - exp (- b)) <= Rabs (a - b) * exp (- m)).
  { intros a b m H1 H2. assert (E : exp (- b) <= exp (- a)).
    { destruct (Req_dec a b) as [->|N]; [lra|]. apply Rlt_le, exp_increasing. lra. }
    rewrite (Rabs_pos_eq (exp (- a) - exp (- b))) by lra. rewrite Rabs_left1 by lra.
    assert (I : 1 + - (b - a) <= exp (- (b - a))).
    { destruct (Req_dec (- (b - a)) 0) as [->|N]; [rewrite exp_0; lra|]. apply Rlt_le, exp_ineq1. exact N. }
    assert (X : exp (- b) = exp (- a) * exp (- (b - a))) by (rewrite <- exp_plus; f_equal; ring).
    assert (M : exp (- a) <= exp (- m)).
    { destruct (Req_dec a m) as [->|N]; [lra|]. apply Rlt_le, exp_increasing. lra. }
    pose proof (exp_pos (- a)). rewrite X. apply Rle_trans with (exp (- a) * (b - a)); [nra|]. nra. }
  intros a b m H1 H2. destruct (Rle_dec a b) as [L|L]; [apply K; auto|]. rewrite Rabs_minus_sym, (Rabs_minus_sym a b). apply K; lra.
Qed.
Lemma square_change : forall x a s, Rabs a <= s -> s <= / 2 ->
  x * x / 4 <= (x * (1 + a)) * (x * (1 + a)) /\ Rabs ((x * (1 + a)) * (x * (1 + a)) - x * x) <= 5 / 2 * s * (x * x).
Proof.
  intros x a s Ha Hs. pose proof (Rabs_pos a) as A0. assert (A : - s <= a <= s) by (split; [pose proof (Rle_abs (- a)); rewrite Rabs_Ropp in *; lra|pose proof (Rle_abs a); lra]).
  assert (X : 0 <= x * x) by nra. replace ((x * (1 + a)) * (x * (1 + a))) with ((x * x) * ((1 + a) * (1 + a))) by ring.
  split; [assert (1 / 4 <= (1 + a) * (1 + a)) by nra; nra|].
  replace ((x * x) * ((1 + a) * (1 + a)) - x * x) with ((x * x) * (a * (2 + a))) by ring. rewrite Rabs_mult, (Rabs_pos_eq (x * x)) by exact X.
  rewrite (Rmult_comm (5 / 2 * s)). apply Rmult_le_compat_l; [exact X|]. rewrite Rabs_mult, (Rabs_pos_eq (2 + a)) by lra. nra.
Qed.
Lemma gauss_tempered : tempered3 gauss3 gauss3_env.
Proof.
  split.
  - intros x y z. unfold gauss3, gauss3_env. rewrite Rabs_pos_eq by (apply Rlt_le, exp_pos).
    assert (Q : 0 <= x * x + y * y + z * z) by nra. set (q := x * x + y * y + z * z) in *.
    assert (E : exp (- q) <= exp (- (q / 4))).
    { destruct (Req_dec q 0) as [->|N]; [right; f_equal; lra|]. apply Rlt_le, exp_increasing. lra. }
    pose proof (exp_pos (- (q / 4))). nra.
  - intros x y z a b c s Ha Hb Hc Hs. unfold gauss3, gauss3_env.
    destruct (square_change x a s Ha Hs) as (X1 & X2). destruct (square_change y b s Hb Hs) as (Y1 & Y2). destruct (square_change z c s Hc Hs) as (Z1 & Z2).
    assert (S0 : 0 <= s) by (pose proof (Rabs_pos a); lra).
    assert (Q : 0 <= x * x + y * y + z * z) by nra. set (q := x * x + y * y + z * z) in *.
    set (q' := x * (1 + a) * (x * (1 + a)) + y * (1 + b) * (y * (1 + b)) + z * (1 + c) * (z * (1 + c))).
    eapply Rle_trans; [apply (exp_diff q' q (q / 4)); unfold q', q in *; lra|].
    assert (D : Rabs (q' - q) <= 5 / 2 * s * q).
    { unfold q', q. match goal with |- Rabs (?a + ?b + ?c - (?d + ?e + ?f)) <= _ => replace (a + b + c - (d + e + f)) with ((a - d) + (b - e) + (c - f)) by ring end.
      eapply Rle_trans; [apply Rabs_triang|]. eapply Rle_trans; [apply Rplus_le_compat_r, Rabs_triang|]. lra. }
    pose proof (exp_pos (- (q / 4))) as P. rewrite <- Rmult_assoc. apply Rmult_le_compat_r; [lra|]. nra.
Qed.

Definition ex_regions : list region :=
  [mkRegion 0 8 (AQ LebedevLaikov) 26; mkRegion 8 16 (AQ LebedevLaikov) 50; mkRegion 16 30 (AQ LebedevLaikov) 110].
Lemma grid_float_ex : let t := @MK (FS rounded_libm) 30 ex_R in
  accurate rounded_libm (/ 2 ^ 53) /\ accurate_pow rounded_libm (/ 2 ^ 53) /\ accurate_log rounded_libm (/ 2 ^ 53) /\
  sane_traits t /\ In (RQMuraKnowles, rkind_of t) schemes /\ transcribed Womersley 51 /\
  List.Forall (fun r => r_aq r = AQ LebedevLaikov /\ transcribed LebedevLaikov (Z.to_nat (r_asz r))) ex_regions /\
  (exists rest, map r_st ex_regions = 0%nat :: rest /\ increasing (0%nat :: rest) /\ List.Forall (fun i => (i < rt_npts t - 1)%nat) rest) /\
  point_error (/ 2 ^ 53) t <= / 10 ^ 10 /\ weight_error (/ 2 ^ 53) t <= / 10 ^ 9 /\ tempered3 gauss3 gauss3_env.
Proof.
  intro t. destruct radial_float_ex as (A & P & L & SR & _). split; [exact A|]. split; [exact P|]. split; [exact L|].
  split; [split; [lia|exact SR]|]. split; [cbn; auto|]. split; [intros _; lia|]. split.
  { repeat (apply List.Forall_cons; [split; [reflexivity|intro; discriminate]|]). apply List.Forall_nil. }
  split.
  { exists [8%nat; 16%nat]. split; [reflexivity|]. split; [cbn; lia|]. cbn [t rt_npts]. repeat (apply List.Forall_cons; [lia|]). apply List.Forall_nil. }
  assert (N : INR (30 + 1) = 31) by (simpl; lra). unfold point_error, weight_error, radius_error, radial_weight_error, t. rewrite N. unfold ulp53.
  split; [lra|]. split; [lra|]. exact gauss_tempered.
Qed.
