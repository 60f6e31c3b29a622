(** The error of the radial rules. *)
From Coq Require Import List Bool Arith ZArith Lia Reals Lra Psatz.
From Coquelicot Require Import Coquelicot.
From Verif Require Import Base.Outcome Base.Scalar Base.RScalar Model.Primitive Model.Radial
  Spec.Sums Spec.RealRules Spec.RadialSpec Spec.ErrorSpec Spec.RadialErrSpec Proofs.Tab Proofs.SumFacts Proofs.PrimitiveFacts
  Proofs.ChebReal Proofs.ChebInt Proofs.ChebExact Proofs.TrapReal Proofs.GaussError Proofs.EulerMac Proofs.RadialReal Proofs.RadialRule.
Import ListNotations.
Local Open Scope R_scope.

Section Pull.
Variables (t : rtraits RS) (f g : R -> R).
Hypothesis V : rt_valid t.
Hypothesis P : pulled t f g.
Hypothesis Cg : forall x, base_lo t <= x <= 1 -> continuous g x.

Definition cl (x : R) : R := Rmax (base_lo t) (Rmin x 1).
Definition PG (x : R) : R := g (cl x).

Lemma cl_in : forall x, base_lo t <= x <= 1 -> cl x = x.
Proof. intros x H. unfold cl. rewrite Rmin_left by lra. apply Rmax_right. lra. Qed.

Lemma cl_range : forall x, base_lo t <= cl x <= 1.
Proof.
  intro x. pose proof (base_lo_lt t). unfold cl, Rmax, Rmin. destruct (Rle_dec x 1); destruct Rle_dec; lra.
Qed.

Lemma cl_cont : forall x, continuous cl x.
Proof.
  intro x. apply filterlim_locally. intro eps. exists eps. intros y Hy. unfold ball in *; simpl in *.
  unfold AbsRing_ball, abs, minus, plus, opp in *; simpl in *. eapply Rle_lt_trans; [|exact Hy].
  unfold cl, Rmax, Rmin. repeat destruct Rle_dec; unfold Rabs; repeat destruct Rcase_abs; lra.
Qed.

Lemma PG_cont : forall x, continuous PG x.
Proof. intro x. apply (continuous_comp cl g); [apply cl_cont|apply Cg, cl_range]. Qed.

Lemma pull_in : forall x, base_lo t < x < 1 -> f (Tr t x) * Jr t x = g x.
Proof.
  intros x H. destruct P as (_ & Q). rewrite <- (Q x H).
  rewrite (is_derive_unique _ _ _ (proj1 (radial_derive t x V H))), Jr_eq, (Tr_eq t x). reflexivity.
Qed.

Lemma PG_in : forall x, base_lo t < x < 1 -> PG x = f (Tr t x) * Jr t x.
Proof. intros x H. unfold PG. rewrite cl_in by lra. symmetry. apply pull_in, H. Qed.

Lemma PG_ex : forall a b, ex_RInt PG a b.
Proof. intros. apply (ex_RInt_continuous (V := R_CompleteNormedModule)). intros; apply PG_cont. Qed.

Definition PH (s : R) : R := RInt PG (base_lo t) s.

Lemma PH_cont : forall s, continuous PH s.
Proof.
  intro s. apply cont_auto. exists (PG s). apply (is_derive_RInt PG PH (base_lo t) s).
  - apply filter_forall. intro y. apply (RInt_correct (V := R_CompleteNormedModule)). apply PG_ex.
  - apply PG_cont.
Qed.

Lemma pull_inner : forall a b, base_lo t < a < 1 -> base_lo t < b < 1 ->
  is_RInt f (Tr t a) (Tr t b) (PH b - PH a).
Proof.
  intros a b Ha Hb. destruct P as (Cf & _).
  assert (Bt : forall x, Rmin a b <= x <= Rmax a b -> base_lo t < x < 1).
  { intros x. unfold Rmin, Rmax. destruct (Rle_dec a b); lra. }
  assert (Ef : ex_RInt f (Tr t a) (Tr t b)).
  { apply (ex_RInt_continuous (V := R_CompleteNormedModule)). intros r Hr. apply Cf.
    pose proof (Tr_pos t a V Ha). pose proof (Tr_pos t b V Hb). revert Hr. unfold Rmin, Rmax.
    destruct (Rle_dec (Tr t a) (Tr t b)); lra. }
  apply (RInt_correct (V := R_CompleteNormedModule)) in Ef.
  assert (C : is_RInt PG a b (RInt f (Tr t a) (Tr t b))).
  { eapply is_RInt_ext; [|apply (is_RInt_comp f (Tr t) (Jr t) a b)].
    - intros x Hx. rewrite PG_in by (apply Bt; lra). unfold scal; simpl. unfold mult; simpl. rs_eq. ring.
    - intros x Hx. apply Cf. apply Tr_pos; auto.
    - intros x Hx. split; [apply Tr_derive; auto|apply Jr_cont; auto]. }
  pose proof (RInt_Chasles (V := R_CompleteNormedModule) PG (base_lo t) a b (PG_ex _ _) (PG_ex _ _)) as Ch.
  apply RI_unique in C.
  assert (E : RInt f (Tr t a) (Tr t b) = PH b - PH a).
  { unfold PH. change (RInt PG (base_lo t) a + RInt PG a b = RInt PG (base_lo t) b) in Ch.
    change (RInt PG a b = RInt f (Tr t a) (Tr t b) :> R) in C.
    change (RInt f (Tr t a) (Tr t b) = RInt PG (base_lo t) b - RInt PG (base_lo t) a :> R). lra. }
  rewrite <- E. exact Ef.
Qed.

Lemma PG_int : RInt PG (base_lo t) 1 = RInt g (base_lo t) 1.
Proof.
  pose proof (base_lo_lt t). apply RInt_ext. intros x Hx. rewrite Rmin_left, Rmax_right in Hx by lra.
  unfold PG. rewrite cl_in by lra. reflexivity.
Qed.

Lemma pull_integral : half_line_integral f (RInt g (base_lo t) 1).
Proof.
  rewrite <- PG_int.
  unfold half_line_integral, is_RInt_gen, filterlimi, filter_le, filtermapi. intros Q HQ.
  pose proof (base_lo_lt t) as L.
  assert (K : filterlim (fun ab : R * R => PH (snd ab) - PH (fst ab))
     (filter_prod (at_right (base_lo t)) (at_left 1)) (locally (RInt PG (base_lo t) 1))).
  { replace (RInt PG (base_lo t) 1) with (PH 1 + - PH (base_lo t)).
    2:{ unfold PH. rewrite RInt_point. unfold zero; simpl. rs_eq. ring. }
    apply (filterlim_comp_2 (F := filter_prod (at_right (base_lo t)) (at_left 1))
       (G := locally (PH 1)) (H := locally (- PH (base_lo t)))
       (fun ab : R * R => PH (snd ab)) (fun ab : R * R => - PH (fst ab)) Rplus).
    - apply (filterlim_comp _ _ _ snd PH _ (at_left 1) _); [apply filterlim_snd|].
      apply (filterlim_filter_le_1 (F := locally 1) (G := at_left 1) PH); [|apply PH_cont].
      intros A HA. unfold at_left, Hierarchy.within. revert HA. apply filter_imp. auto.
    - apply (filterlim_comp _ _ _ fst (fun a => - PH a) _ (at_right (base_lo t)) _); [apply filterlim_fst|].
      apply (filterlim_comp _ _ _ PH Ropp _ (locally (PH (base_lo t))) _).
      + apply at_right_cont, PH_cont.
      + apply (filterlim_opp (V := R_NormedModule)).
    - apply (filterlim_plus (V := R_NormedModule)). }
  specialize (K Q HQ). unfold filtermap in K. destruct K as [Q1 Q2 [d1 H1] [d2 H2] K].
  set (s1 := Rmin (base_lo t + d1 / 2) ((base_lo t + 1) / 2)).
  set (s2 := Rmax (1 - d2 / 2) ((base_lo t + 1) / 2)).
  pose proof (cond_pos d1) as P1. pose proof (cond_pos d2) as P2.
  assert (R1 : base_lo t < s1 < 1 /\ s1 <= base_lo t + d1 / 2).
  { unfold s1. pose proof (Rmin_l (base_lo t + d1 / 2) ((base_lo t + 1) / 2)).
    pose proof (Rmin_r (base_lo t + d1 / 2) ((base_lo t + 1) / 2)).
    split; [split; [apply Rmin_glb_lt; lra|lra]|lra]. }
  assert (R2 : base_lo t < s2 < 1 /\ 1 - d2 / 2 <= s2).
  { unfold s2. pose proof (Rmax_l (1 - d2 / 2) ((base_lo t + 1) / 2)).
    pose proof (Rmax_r (1 - d2 / 2) ((base_lo t + 1) / 2)).
    split; [split; [lra|apply Rmax_lub_lt; lra]|lra]. }
  destruct R1 as (R1 & R1'), R2 as (R2 & R2').
  assert (Inj : forall a b, base_lo t < a < 1 -> base_lo t < b < 1 -> Tr t a < Tr t b -> a < b).
  { intros a b Ha Hb Hab. apply Rnot_le_lt. intros [H| ->]; [|lra].
    pose proof (Tr_incr t b a V ltac:(lra) H ltac:(lra)). lra. }
  apply Filter_prod with (fun u => 0 < u < Tr t s1) (fun v => Tr t s2 < v).
  - pose proof (Tr_pos t s1 V R1) as Hp. exists (mkposreal _ Hp). intros u Hu Hu0.
    unfold ball in Hu; simpl in Hu. unfold AbsRing_ball, abs, minus, plus, opp in Hu; simpl in Hu.
    apply Rabs_lt_between in Hu. lra.
  - exists (Tr t s2). auto.
  - intros u v Hu Hv. pose proof (Tr_pos t s2 V R2).
    destruct (Tr_onto t u V ltac:(lra)) as (a & Ha & Ea).
    destruct (Tr_onto t v V ltac:(lra)) as (b & Hb & Eb).
    assert (a < s1) by (apply Inj; auto; lra). assert (s2 < b) by (apply Inj; auto; lra).
    exists (PH b - PH a). cbn [fst snd]. split.
    + rewrite <- Ea, <- Eb. apply pull_inner; auto.
    + apply (K a b).
      * apply H1; [|lra]. unfold ball; simpl. unfold AbsRing_ball, abs, minus, plus, opp; simpl.
        apply Rabs_def1; lra.
      * apply H2; [|lra]. unfold ball; simpl. unfold AbsRing_ball, abs, minus, plus, opp; simpl.
        apply Rabs_def1; lra.
Qed.
End Pull.

(** The radial rule on f is the base rule on g. *)
Lemma pull_sum : forall t f g q b, rt_valid t -> pulled t f g -> @radial_generate RS t = Ok q -> base_rule t b ->
  apply_rule q f = apply_rule b g.
Proof.
  intros t f g q b V P H B. rewrite (base_rule_unique t _ _ B (base_rule_tab t)).
  rewrite radial_real in H. injection H as <-. rewrite !rule_tab. apply Rsum_tab_ext. intros i Hi.
  rewrite <- (pull_in t f g V P) by (apply bx_range, Hi). ring.
Qed.

Lemma continuous_root : forall x, continuous (fun x => sqrt (1 - x * x)) x.
Proof. exact continuous_s. Qed.

Lemma cheb_lo : forall t, chebyshev_scheme t -> base_lo t = -1.
Proof. intros [] T; simpl in *; tauto. Qed.

Lemma cheb_base : forall t, chebyshev_scheme t ->
  base_rule t (tab (rt_npts t) (bx t), tab (rt_npts t) (bw t)) /\ @gc2_generate RS (rt_npts t) = Ok (tab (rt_npts t) (bx t), tab (rt_npts t) (bw t)).
Proof. intros t T. pose proof (base_rule_tab t) as B. split; auto. destruct t; simpl in *; tauto. Qed.

Section Chebyshev.
Variables (t : rtraits RS) (f F : R -> R).
Hypothesis V : rt_valid t.
Hypothesis T : chebyshev_scheme t.
Hypothesis P : pulled t f (fun x => F x * sqrt (1 - x * x)).
Hypothesis CF : forall x, -1 <= x <= 1 -> continuous F x.

Lemma cheb_cont : forall x, base_lo t <= x <= 1 -> continuous (fun x => F x * sqrt (1 - x * x)) x.
Proof.
  intros x Hx. rewrite (cheb_lo t T) in Hx. apply (continuous_mult (K := R_AbsRing)); [auto|apply continuous_root].
Qed.

Lemma cheb_integral : half_line_integral f (RInt (fun x => F x * sqrt (1 - x * x)) (-1) 1).
Proof. rewrite <- (cheb_lo t T) at 1. apply pull_integral; auto. exact cheb_cont. Qed.

Lemma cheb_best : forall p d, (1 <= rt_npts t)%nat -> deg_le p (2 * rt_npts t - 1) -> within (-1) 1 d F (peval p) ->
  rated t f (RInt (fun x => F x * sqrt (1 - x * x)) (-1) 1) (d * PI).
Proof.
  intros p d Hn L W. split; [apply cheb_integral|]. intros q H. destruct (cheb_base t T) as (B & G).
  rewrite (pull_sum t f _ q _ V P H B). apply (gc2_best (rt_npts t) _ F p d); auto.
Qed.
End Chebyshev.

Lemma cheb_smooth : forall t f F M, rt_valid t -> chebyshev_scheme t -> (1 <= rt_npts t)%nat -> smooth (-1) 1 (2 * rt_npts t) F M ->
  pulled t f (fun x => F 0%nat x * sqrt (1 - x * x)) ->
  rated t f (RInt (fun x => F 0%nat x * sqrt (1 - x * x)) (-1) 1) (2 * PI * M / (2 ^ (2 * rt_npts t) * INR (fact (2 * rt_npts t)))).
Proof.
  intros t f F M V T Hn S P. assert (C : forall x, -1 <= x <= 1 -> continuous (F 0%nat) x)
    by (intros; apply (smooth_cont (-1) 1 (2 * rt_npts t) F M); auto; lia).
  split; [apply (cheb_integral t f (F 0%nat)); auto|]. intros q H. destruct (cheb_base t T) as (B & G).
  rewrite (pull_sum t f _ q _ V P H B). apply gc2_smooth; auto.
Qed.

Lemma peval_cont : forall p x, continuous (peval p) x.
Proof.
  induction p as [|a p IH]; intro x; [apply continuous_const|].
  apply (continuous_plus (V := R_NormedModule) (fun _ => a) (fun x => x * peval p x)); [apply continuous_const|].
  apply (continuous_mult (K := R_AbsRing)); [apply continuous_id|apply IH].
Qed.

Lemma cheb_exact : forall t f p q, rt_valid t -> chebyshev_scheme t -> (1 <= rt_npts t)%nat -> deg_le p (2 * rt_npts t - 1) ->
  pulled t f (fun x => peval p x * sqrt (1 - x * x)) -> @radial_generate RS t = Ok q -> half_line_integral f (apply_rule q f).
Proof.
  intros t f p q V T Hn L P H. destruct (cheb_base t T) as (B & G). rewrite (pull_sum t f _ q _ V P H B).
  rewrite <- (is_RInt_unique _ _ _ _ (gc2_exact _ p _ Hn G L)).
  apply (cheb_integral t f (peval p)); auto. intros; apply peval_cont.
Qed.

(** The schemes on (0,1). *)
Lemma trap_lo : forall t, trapezoid_scheme t -> base_lo t = 0.
Proof. intros [] T; simpl in *; tauto. Qed.

Section Trapezoid.
Variables (t : rtraits RS) (f g : R -> R).
Hypothesis V : rt_valid t.
Hypothesis T : trapezoid_scheme t.
Hypothesis P : pulled t f g.
Hypothesis G0 : g 0 = 0.
Hypothesis G1 : g 1 = 0.

Lemma trap_sum : forall q, @radial_generate RS t = Ok q -> exists u, @uniform_generate RS (rt_npts t + 2) 0 1 = Ok u /\ apply_rule q f = apply_rule u g.
Proof.
  intros q H. set (n := rt_npts t). pose proof (uniform_real (n + 1) 0 1 ltac:(lia)) as U. replace (S (n + 1)) with (n + 2)%nat in U by lia.
  eexists. split; [exact U|]. rewrite (pull_sum t f g q _ V P H (base_rule_tab t)). fold n. rewrite !rule_tab.
  replace (n + 2)%nat with (S (S n)) by lia. rewrite Rsum_tab_S, tab_S_l.
  change (Rsum (?a :: ?l)) with (a + Rsum l). rewrite ux_first. replace (S n) with (n + 1)%nat at 2 by lia.
  rewrite ux_last by lia. rewrite G0, G1, !Rmult_0_r, Rplus_0_r, Rplus_0_l.
  assert (Eb : base_inclusive t = true) by (clear -T; destruct t; simpl in *; tauto).
  apply Rsum_tab_ext. intros i Hi. unfold bx, bw. rewrite Eb. fold n.
  unfold uw. destruct (Nat.eqb_spec (S i) 0); [lia|]. destruct (Nat.eqb_spec (S i) (n + 1)); [lia|].
  cbn [orb]. rewrite Rminus_0_r. reflexivity.
Qed.
End Trapezoid.

Lemma trap_integral : forall t f g, rt_valid t -> trapezoid_scheme t -> pulled t f g -> (forall x, 0 <= x <= 1 -> continuous g x) ->
  half_line_integral f (RInt g 0 1).
Proof. intros t f g V T P C. rewrite <- (trap_lo t T) at 1. apply pull_integral; auto. rewrite (trap_lo t T). exact C. Qed.

Lemma trap_second : forall t f G M, rt_valid t -> trapezoid_scheme t -> smooth 0 1 2 G M -> G 0%nat 0 = 0 -> G 0%nat 1 = 0 -> pulled t f (G 0%nat) ->
  rated t f (RInt (G 0%nat) 0 1) (M / (12 * INR (rt_npts t + 1) ^ 2)).
Proof.
  intros t f G M V T S Z0 Z1 P. split.
  - apply (trap_integral t); auto. intros x Hx. apply (smooth_cont 0 1 2 G M); auto.
  - intros q H. destruct (trap_sum t f (G 0%nat) V T P Z0 Z1 q H) as (u & U & ->). destruct S as (D & B).
    pose proof (uniform_C2 (rt_npts t + 2) 0 1 u (G 0%nat) (G 1%nat) (G 2%nat) M ltac:(lia) Rlt_0_1 U (fun x Hx => D 0%nat x (Nat.lt_0_succ _) Hx) (fun x Hx => D 1%nat x (le_n _) Hx) B) as E.
    replace (rt_npts t + 2 - 1)%nat with (rt_npts t + 1)%nat in E by lia.
    eapply Rle_trans; [exact E|]. apply Req_le. replace ((1 - 0) ^ 3) with 1 by ring. rewrite Rmult_1_r. reflexivity.
Qed.

Lemma trap_high : forall t f G M N, rt_valid t -> trapezoid_scheme t -> (1 <= N)%nat -> smooth 0 1 N G M -> (forall x, 0 <= x <= 1 -> continuous (G N) x) ->
  G 0%nat 0 = 0 -> G 0%nat 1 = 0 -> (forall k, (1 <= k < N)%nat -> Nat.odd k = true -> G k 0 = G k 1) -> pulled t f (G 0%nat) ->
  rated t f (RInt (G 0%nat) 0 1) (M / (2 * INR (rt_npts t + 1)) ^ N).
Proof.
  intros t f G M N V T HN S C Z0 Z1 E P. split.
  - apply (trap_integral t); auto. intros x Hx. apply (smooth_cont 0 1 N G M); auto.
  - intros q H. destruct (trap_sum t f (G 0%nat) V T P Z0 Z1 q H) as (u & U & ->).
    pose proof (periodic_error (rt_npts t + 2) 0 1 u G M N ltac:(lia) Rlt_0_1 U HN S C E) as Q.
    replace (rt_npts t + 2 - 1)%nat with (rt_npts t + 1)%nat in Q by lia.
    eapply Rle_trans; [exact Q|]. apply Req_le. assert (0 < INR (rt_npts t + 1)) by (apply lt_0_INR; lia).
    unfold Rdiv. rewrite !Rminus_0_r, !Rmult_1_l. rewrite pow_inv by lra. reflexivity.
Qed.
