(** Radial rules over the reals: shape, change of variable, convergence. *)
From Coq Require Import List Bool Arith ZArith Lia Reals Lra Psatz.
From Coquelicot Require Import Coquelicot.
From Verif Require Import Base.Outcome Base.Scalar Base.RScalar Model.Primitive Model.Radial
  Spec.Sums Spec.RealRules Spec.IntervalSpec Spec.RadialSpec Proofs.Tab Proofs.SumFacts
  Proofs.PrimitiveFacts Proofs.Sizes Proofs.ChebReal Proofs.ChebInt Proofs.ChebExact
  Proofs.TrapReal Proofs.PerezJorda Proofs.RadialReal.
Import ListNotations.
Local Open Scope R_scope.

Lemma interior_tab : forall A n (f : nat -> A), removelast (tl (tab (n + 2) f)) = tab n (fun i => f (S i)).
Proof.
  intros A n f. replace (n + 2)%nat with (S (S n)) by lia. rewrite tab_S_l. cbn [tl].
  rewrite tab_S. apply removelast_last.
Qed.

Definition bx (t : rtraits RS) (i : nat) : R :=
  if base_inclusive t then ux (rt_npts t + 1) 0 1 (S i) else cos (th2 (rt_npts t) i).
Definition bw (t : rtraits RS) (i : nat) : R :=
  if base_inclusive t then 1 / INR (rt_npts t + 1) else PI / INR (rt_npts t + 1) * sin (th2 (rt_npts t) i).

Lemma base_rule_tab : forall t, base_rule t (tab (rt_npts t) (bx t), tab (rt_npts t) (bw t)).
Proof.
  assert (I : forall n, exists u, @uniform_generate RS (n + 2) 0 1 = Ok u /\
     (tab n (fun i => ux (n + 1) 0 1 (S i)), tab n (fun _ => 1 / INR (n + 1))) = interior u).
  { intro n. eexists. split.
    - replace (n + 2)%nat with (S (n + 1)) by lia. apply uniform_real. lia.
    - unfold interior. cbn [fst snd]. replace (S (n + 1)) with (n + 2)%nat by lia. rewrite !interior_tab. f_equal.
      apply tab_ext. intros j Hj. unfold uw. destruct (Nat.eqb_spec (S j) 0); [lia|].
      destruct (Nat.eqb_spec (S j) (n + 1)); [lia|]. cbn [orb]. rewrite Rminus_0_r. reflexivity. }
  intros [n R|M n R|n R|n R al]; unfold bx, bw; cbn [base_inclusive rt_npts base_rule]; auto; apply gc2_real.
Qed.

Lemma base_rule_unique : forall t b b', base_rule t b -> base_rule t b' -> b = b'.
Proof.
  intros [n R|M n R|n R|n R al] b b'; cbn [base_rule]; try congruence;
  intros (u & Hu & ->) (v & Hv & ->); congruence.
Qed.

Lemma base_pt_R : forall t i, (i < rt_npts t)%nat -> @base_pt RS t (i + base_off t) = bx t i.
Proof.
  intros t i Hi. unfold base_pt, bx, base_off, base_n. destruct (base_inclusive t).
  - unfold uni_pt, ux. replace (rt_npts t + 2)%nat with (S (rt_npts t + 1)) by lia. rewrite dx_R, sofN_R.
    replace (i + 1)%nat with (S i) by lia. reflexivity.
  - rewrite Nat.add_0_r. pose proof (gc2_real (rt_npts t)) as E. rewrite gc2_closed in E. injection E as E _.
    apply (f_equal (fun l => nth i l 0)) in E. rewrite !nth_tab in E by auto. exact E.
Qed.

Lemma base_wt_R : forall t i, (i < rt_npts t)%nat -> @base_wt RS t (i + base_off t) = bw t i.
Proof.
  intros t i Hi. unfold base_wt, bw, base_off, base_n. destruct (base_inclusive t).
  - unfold uni_wt. replace (rt_npts t + 2)%nat with (S (rt_npts t + 1)) by lia. rewrite dx_R.
    replace (S (rt_npts t + 1) - 1)%nat with (rt_npts t + 1)%nat by lia.
    destruct (Nat.eqb_spec (i + 1) 0); [lia|]. destruct (Nat.eqb_spec (i + 1) (rt_npts t + 1)); [lia|].
    transitivity ((1 - 0) / INR (rt_npts t + 1)); [reflexivity|]. rewrite Rminus_0_r. reflexivity.
  - rewrite Nat.add_0_r. pose proof (gc2_real (rt_npts t)) as E. rewrite gc2_closed in E. injection E as _ E.
    apply (f_equal (fun l => nth i l 0)) in E. rewrite !nth_tab in E by auto. exact E.
Qed.

Lemma radial_real : forall t, @radial_generate RS t =
  Ok (tab (rt_npts t) (fun i => Tr t (bx t i)), tab (rt_npts t) (fun i => bw t i * Jr t (bx t i))).
Proof.
  intro t. rewrite radial_closed. f_equal; f_equal; apply tab_ext; intros i Hi.
  - unfold rad_pt. rewrite base_pt_R by auto. apply Tr_eq.
  - unfold rad_wt. rewrite base_pt_R, base_wt_R by auto. rewrite Jr_eq. reflexivity.
Qed.

Lemma bx_range : forall t i, (i < rt_npts t)%nat -> base_lo t < bx t i < 1.
Proof.
  intros t i Hi.
  assert (U : 0 < ux (rt_npts t + 1) 0 1 (S i) < 1).
  { unfold ux. pose proof (INR_pos (rt_npts t + 1) ltac:(lia)). pose proof (INR_pos (S i) ltac:(lia)).
    assert (INR (S i) < INR (rt_npts t + 1)) by (apply lt_INR; lia).
    rewrite Rminus_0_r, Rplus_0_l. split.
    - apply Rmult_lt_0_compat; auto. apply Rdiv_lt_0_compat; lra.
    - apply Rmult_lt_reg_r with (INR (rt_npts t + 1)); auto. unfold Rdiv.
      rewrite Rmult_assoc, Rmult_1_l, Rinv_l by lra. lra. }
  assert (C : -1 < cos (th2 (rt_npts t) i) < 1).
  { pose proof (th2_range _ _ Hi). pose proof PI_RGT_0. split; [rewrite <- cos_PI|rewrite <- cos_0]; apply cos_decreasing_1; lra. }
  unfold bx. destruct t as [n R|M n R|n R|n R al]; cbn [base_inclusive base_lo] in *; auto.
Qed.

Lemma bx_incr : forall t i j, (i < j < rt_npts t)%nat -> bx t i < bx t j.
Proof.
  intros t i j H. unfold bx. destruct (base_inclusive t).
  - unfold ux. pose proof (INR_pos (rt_npts t + 1) ltac:(lia)).
    assert (INR (S i) < INR (S j)) by (apply lt_INR; lia).
    assert (0 < (1 - 0) / INR (rt_npts t + 1)) by (apply Rdiv_lt_0_compat; lra). nra.
  - pose proof (th2_range (rt_npts t) i ltac:(lia)). pose proof (th2_range (rt_npts t) j ltac:(lia)).
    apply cos_decreasing_1; try lra. apply th2_decr; auto.
Qed.

Lemma bw_pos : forall t i, (i < rt_npts t)%nat -> 0 < bw t i.
Proof.
  intros t i Hi. pose proof (INR_pos (rt_npts t + 1) ltac:(lia)). unfold bw. destruct (base_inclusive t).
  - apply Rdiv_lt_0_compat; lra.
  - pose proof (th2_range _ _ Hi). apply Rmult_lt_0_compat; [|apply sin_gt_0; lra].
    apply Rdiv_lt_0_compat; [apply PI_RGT_0|auto].
Qed.

Lemma base_rule_good : forall t b, base_rule t b -> good_rule (rt_npts t) (base_lo t) 1 b.
Proof.
  intros t b H. rewrite (base_rule_unique t b _ H (base_rule_tab t)).
  apply good_tab; [apply bx_range|apply bw_pos|intros; apply bx_incr; auto].
Qed.

(** Shape. *)
Lemma radial_shape : forall t q, rt_valid t -> @radial_generate RS t = Ok q ->
  length (fst q) = rt_npts t /\ length (snd q) = rt_npts t /\
  (forall i j x y, (i < j)%nat -> nth_error (fst q) i = Some x -> nth_error (fst q) j = Some y -> x < y) /\
  (forall r, In r (fst q) -> 0 < r) /\ (forall w, In w (snd q) -> 0 < w).
Proof.
  intros t q V H. rewrite radial_real in H. injection H as <-.
  set (n := rt_npts t).
  assert (G : good_rule n 0 (Rsum (tab n (fun i => Tr t (bx t i))) + 1)
      (tab n (fun i => Tr t (bx t i)), tab n (fun i => bw t i * Jr t (bx t i)))).
  { apply good_tab.
    - intros i Hi. assert (P : forall i, (i < n)%nat -> 0 < Tr t (bx t i)) by (intros; apply Tr_pos, bx_range; auto).
      split; auto. clear - P Hi.
      assert (K : forall k, (k <= n)%nat -> 0 <= Rsum (tab k (fun i => Tr t (bx t i))) /\
         forall i, (i < k)%nat -> Tr t (bx t i) <= Rsum (tab k (fun i => Tr t (bx t i)))).
      { induction k as [|k IH]; intro Hk; [split; [unfold tab, Rsum; simpl; lra|lia]|].
        destruct (IH ltac:(lia)) as (A & B). rewrite Rsum_tab_S. specialize (P k ltac:(lia)).
        split; [lra|]. intros j Hj. destruct (Nat.eq_dec j k) as [->|N]; [lra|]. specialize (B j ltac:(lia)). lra. }
      pose proof (proj2 (K n (le_n n)) i Hi). lra.
    - intros i Hi. apply Rmult_lt_0_compat; [apply bw_pos; auto|apply Jr_pos, bx_range; auto].
    - intros i j Hij. apply Tr_incr; auto; try apply bx_range; try lia. apply bx_incr; auto. }
  destruct G as (A & B & C & D & E). split; [exact A|split; [exact B|split; [exact C|split; [|exact E]]]].
  intros r Hr. apply (D r Hr).
Qed.

Lemma radial_nodes : forall t q, @radial_generate RS t = Ok q ->
  exists b, base_rule t b /\ fst q = map (rt_transform t) (fst b) /\
    snd q = map (fun xw => snd xw * rt_jacobian t (fst xw)) (combine (fst b) (snd b)).
Proof.
  intros t q H. rewrite radial_real in H. injection H as <-. cbn [fst snd].
  eexists. split; [apply base_rule_tab|]. cbn [fst snd]. split.
  - rewrite map_tab. apply tab_ext. intros. symmetry. apply Tr_eq.
  - rewrite combine_tab, map_tab. apply tab_ext. intros. cbn [fst snd]. rewrite Jr_eq. reflexivity.
Qed.

Lemma radial_sum : forall t q b f, rt_valid t -> @radial_generate RS t = Ok q -> base_rule t b ->
  apply_rule q f = apply_rule b (fun x => f (rt_transform t x) * Derive (rt_transform t) x).
Proof.
  intros t q b f V H Hb. rewrite (base_rule_unique t b _ Hb (base_rule_tab t)).
  rewrite radial_real in H. injection H as <-. rewrite !rule_tab. apply Rsum_tab_ext. intros i Hi.
  rewrite (is_derive_unique _ _ _ (proj1 (radial_derive t (bx t i) V (bx_range t i Hi)))).
  rewrite Jr_eq, (Tr_eq t (bx t i)). ring.
Qed.

(** Extension of a function on (a,b) by its limits. *)
Lemma ext_cont : forall (g : R -> R) a b la lb, a < b ->
  (forall x, a < x < b -> continuous g x) ->
  filterlim g (at_right a) (locally la) -> filterlim g (at_left b) (locally lb) ->
  forall x, continuous (fun x => if Rle_dec x a then la else if Rle_dec b x then lb else g x) x.
Proof.
  intros g a b la lb L C Ha Hb x. apply filterlim_locally. intro eps.
  set (G := fun x => if Rle_dec x a then la else if Rle_dec b x then lb else g x).
  destruct (total_order_T x a) as [[H|H]|H].
  - generalize (open_lt a x H). apply filter_imp. intros y Hy. unfold G.
    destruct (Rle_dec x a); [|lra]. destruct (Rle_dec y a); [|lra]. apply ball_center.
  - subst x. pose proof (proj1 (filterlim_locally _ _) Ha eps) as K. unfold at_right, within in K.
    generalize (filter_and _ _ K (open_lt b a L)). apply filter_imp. intros y (Hy & Hy2). unfold G.
    destruct (Rle_dec a a); [|lra]. destruct (Rle_dec y a); [apply ball_center|].
    destruct (Rle_dec b y); [lra|]. apply Hy. lra.
  - destruct (total_order_T x b) as [[H1|H1]|H1].
    + pose proof (proj1 (filterlim_locally _ _) (C x (conj H H1)) eps) as K.
      generalize (filter_and _ _ (filter_and _ _ K (open_lt b x H1)) (open_gt a x H)).
      apply filter_imp. intros y ((Hy & Hy2) & Hy3). unfold G.
      destruct (Rle_dec x a); [lra|]. destruct (Rle_dec b x); [lra|].
      destruct (Rle_dec y a); [lra|]. destruct (Rle_dec b y); [lra|]. exact Hy.
    + subst x. pose proof (proj1 (filterlim_locally _ _) Hb eps) as K. unfold at_left, within in K.
      generalize (filter_and _ _ K (open_gt a b L)). apply filter_imp. intros y (Hy & Hy2). unfold G.
      destruct (Rle_dec b a); [lra|]. destruct (Rle_dec b b); [|lra].
      destruct (Rle_dec y a); [lra|]. destruct (Rle_dec b y); [apply ball_center|]. apply Hy. lra.
    + generalize (open_gt b x H1). apply filter_imp. intros y Hy. unfold G.
      destruct (Rle_dec x a); [lra|]. destruct (Rle_dec b x); [|lra].
      destruct (Rle_dec y a); [lra|]. destruct (Rle_dec b y); [|lra]. apply ball_center.
Qed.

(** Limits of the maps and Jacobians at the left end. *)
Definition J0 (t : rtraits RS) : R := match t with Becke _ R => R / 2 | _ => 0 end.

Lemma at_right_cont : forall (g : R -> R) a, continuous g a -> filterlim g (at_right a) (locally (g a)).
Proof.
  intros g a C. apply (filterlim_filter_le_1 (F := locally a) (G := at_right a) g); [|exact C].
  intros P HP. unfold at_right, within. revert HP. apply filter_imp. auto.
Qed.

Lemma squeeze0 : forall (g : R -> R) a b, a < b ->
  (forall eps, 0 < eps -> exists d, 0 < d /\ forall x, a < x < a + d -> x < b -> Rabs (g x) < eps) ->
  filterlim g (at_right a) (locally 0).
Proof.
  intros g a b L H. apply filterlim_locally. intro eps. destruct (H eps (cond_pos eps)) as (d & Hd & K).
  unfold at_right, within.
  assert (Pd : 0 < Rmin d (b - a)) by (apply Rmin_glb_lt; lra).
  exists (mkposreal _ Pd). intros y Hy Hay. unfold ball in *; simpl in *.
  unfold AbsRing_ball, abs, minus, plus, opp in *; simpl in *.
  rewrite Ropp_0, Rplus_0_r. apply Rabs_lt_between in Hy.
  pose proof (Rmin_l d (b - a)). pose proof (Rmin_r d (b - a)). apply K; lra.
Qed.

Lemma cont_auto : forall (g : R -> R) x, ex_derive g x -> continuous g x.
Proof. intros. apply (ex_derive_continuous (K := R_AbsRing) (V := R_NormedModule)). auto. Qed.

Lemma Rpower_small : forall al eps, 0 < al -> 0 < eps -> exists d, 0 < d /\
  forall s, 0 < s < d -> Rpower s al < eps.
Proof.
  intros al eps Ha He. exists (exp (ln eps / al)). split; [apply exp_pos|].
  intros s Hs. unfold Rpower. rewrite <- (exp_ln eps) by auto. apply exp_increasing.
  assert (ln s < ln eps / al). { rewrite <- (ln_exp (ln eps / al)). apply ln_increasing; lra. }
  assert (ln eps = al * (ln eps / al)) by (field; lra). nra.
Qed.

Lemma left_limits : forall t, rt_valid t -> flat_start t ->
  filterlim (Tr t) (at_right (base_lo t)) (locally 0) /\
  filterlim (Jr t) (at_right (base_lo t)) (locally (J0 t)).
Proof.
  intros [n R|M n R|n R|n R al] V F; cbn [rt_valid flat_start base_lo J0] in *.
  - split.
    + replace 0 with (Tr (Becke n R) (-1)) by (unfold Tr; field). apply at_right_cont, cont_auto.
      unfold Tr. auto_derive. lra.
    + replace (R / 2) with (Jr (Becke n R) (-1)) by (unfold Jr; field). apply at_right_cont, cont_auto.
      unfold Jr. auto_derive. lra.
  - destruct V as (HM & HR). split.
    + assert (E : Tr (MHL M n R) 0 = 0).
      { unfold Tr. replace (0 / (1 - 0)) with 0 by field. rewrite ?pow_i by lia. ring. }
      rewrite <- E at 2. apply at_right_cont, cont_auto. unfold Tr. auto_derive. lra.
    + assert (E : Jr (MHL M n R) 0 = 0).
      { unfold Jr. rewrite pow_i by lia. unfold Rdiv. ring. }
      rewrite <- E at 2. apply at_right_cont, cont_auto. unfold Jr. auto_derive.
      rewrite Rplus_0_l || idtac. apply pow_nonzero. lra.
  - split.
    + assert (E : Tr (MK n R) 0 = 0) by (unfold Tr; rewrite !Rmult_0_l, Rminus_0_r, ln_1; ring).
      rewrite <- E at 2. apply at_right_cont, cont_auto. unfold Tr. auto_derive. lra.
    + assert (E : Jr (MK n R) 0 = 0) by (unfold Jr, Rdiv; ring).
      rewrite <- E at 2. apply at_right_cont, cont_auto. unfold Jr. auto_derive. lra.
  - destruct V as (HR & Ha). pose proof ln2c_pos as PL. split.
    + apply (squeeze0 _ (-1) 0); [lra|]. intros eps He.
      exists (eps * ln2c / R). split; [apply Rdiv_lt_0_compat; nra|]. intros x Hx Hx0.
      rewrite Rabs_pos_eq by (apply Rlt_le, Tr_pos; simpl; auto; lra).
      eapply Rle_lt_trans; [apply TA_low; auto; lra|].
      apply Rmult_lt_reg_r with ln2c; auto. unfold Rdiv. rewrite Rmult_assoc, Rinv_l by lra.
      assert (1 + x < eps * ln2c / R) by lra.
      assert (R * (eps * ln2c / R) = eps * ln2c) by (field; lra). nra.
    + apply (squeeze0 _ (-1) 0); [lra|]. intros eps He.
      destruct (Rpower_small al (eps * ln2c / (R * (al + 1))) F) as (d & Hd & K).
      { apply Rdiv_lt_0_compat; nra. }
      exists d. split; auto. intros x Hx Hx0.
      rewrite Rabs_pos_eq by (apply Rlt_le, Jr_pos; simpl; auto; lra).
      specialize (K (1 + x) ltac:(lra)). unfold Jr.
      assert (L : 0 < ln ((1 + 1) / (1 - x)) <= 1 + x).
      { pose proof (Tr_pos (TA n 1 0) x ltac:(simpl; lra) ltac:(simpl; lra)) as A.
        pose proof (TA_low n 1 0 x ltac:(lra) ltac:(lra) ltac:(lra)) as B.
        unfold Tr in A, B. rewrite Rpower_O in A, B by lra. rewrite !Rmult_1_l in A, B.
        split.
        - apply Rmult_lt_reg_r with (/ ln2c); [apply Rinv_0_lt_compat; auto|]. unfold Rdiv in A. lra.
        - apply Rmult_le_reg_r with (/ ln2c); [apply Rinv_0_lt_compat; auto|]. unfold Rdiv in B. lra. }
      assert (Q1 : al * ln ((1 + 1) / (1 - x)) / (1 + x) <= al).
      { apply Rmult_le_reg_r with (1 + x); [lra|]. unfold Rdiv. rewrite Rmult_assoc, Rinv_l by lra. nra. }
      assert (Q2 : 1 / (1 - x) <= 1).
      { apply Rmult_le_reg_r with (1 - x); [lra|]. unfold Rdiv. rewrite Rmult_assoc, Rinv_l by lra. lra. }
      assert (P : 0 < Rpower (1 + x) al) by apply exp_pos.
      set (p := Rpower (1 + x) al) in *.
      apply Rle_lt_trans with (R * p / ln2c * (al + 1)).
      * apply Rmult_le_compat_l; [apply Rlt_le, Rdiv_lt_0_compat; nra|]. lra.
      * apply Rlt_le_trans with (R * (eps * ln2c / (R * (al + 1))) / ln2c * (al + 1)).
        -- apply Rmult_lt_compat_r; [lra|]. apply Rmult_lt_compat_r; [apply Rinv_0_lt_compat; auto|].
           apply Rmult_lt_compat_l; auto.
        -- apply Req_le. field. lra.
Qed.

Lemma Jr_cont : forall t x, rt_valid t -> base_lo t < x < 1 -> continuous (Jr t) x.
Proof.
  intros [n R|M n R|n R|n R al] x V Hx; simpl in V, Hx; apply cont_auto; unfold Jr.
  - auto_derive. assert (0 < (1 - x) ^ 2) by (apply pow_lt; lra). simpl in *. lra.
  - auto_derive. change (1 + - x) with (1 - x). apply Rgt_not_eq. apply pow_lt. lra.
  - pose proof (cube_lt x Hx). auto_derive. lra.
  - pose proof ln2c_pos. unfold Rpower. auto_derive. repeat split; try lra. apply Rdiv_lt_0_compat; lra.
Qed.

Section Converge.
Variables (t : rtraits RS) (f : R -> R).
Hypothesis V : rt_valid t.
Hypothesis F : flat_start t.
Hypothesis Cf : forall r, 0 <= r -> continuous f r.
Hypothesis D : decays t f.

Definition gg (x : R) : R := f (Tr t x) * Jr t x.
Definition GG (x : R) : R :=
  if Rle_dec x (base_lo t) then f 0 * J0 t else if Rle_dec 1 x then 0 else gg x.

Lemma GG_in : forall x, base_lo t < x < 1 -> GG x = gg x.
Proof. intros x H. unfold GG. destruct (Rle_dec x (base_lo t)); [lra|]. destruct (Rle_dec 1 x); [lra|]. auto. Qed.

Lemma gg_right : filterlim gg (at_left 1) (locally 0).
Proof.
  unfold decays in D. eapply filterlim_ext_loc; [|exact D].
  unfold at_left, within. pose proof (base_lo_lt t).
  generalize (open_gt (base_lo t) 1 H). apply filter_imp. intros x Hx Hx1.
  rewrite (is_derive_unique _ _ _ (proj1 (radial_derive t x V (conj Hx Hx1)))).
  unfold gg. rewrite Jr_eq, (Tr_eq t x). reflexivity.
Qed.

Lemma gg_left : filterlim gg (at_right (base_lo t)) (locally (f 0 * J0 t)).
Proof.
  destruct (left_limits t V F) as (A & B). unfold gg.
  apply (filterlim_comp_2 (F := at_right (base_lo t)) (G := locally (f 0)) (H := locally (J0 t))
    (fun x => f (Tr t x)) (Jr t) Rmult).
  - apply (filterlim_comp _ _ _ (Tr t) f _ (locally 0) _); auto. apply Cf. lra.
  - auto.
  - apply (filterlim_mult (K := R_AbsRing)).
Qed.

Lemma GG_cont : forall x, continuous GG x.
Proof.
  apply (ext_cont gg (base_lo t) 1); [apply base_lo_lt| |apply gg_left|apply gg_right].
  intros x Hx. apply (continuous_mult (K := R_AbsRing)); [|apply Jr_cont; auto].
  apply (continuous_comp (Tr t) f).
  - apply cont_auto. exists (Jr t x). apply Tr_derive; auto.
  - apply Cf. apply Rlt_le, Tr_pos; auto.
Qed.

Lemma G_ex : forall a b, ex_RInt GG a b.
Proof. intros. apply (ex_RInt_continuous (V := R_CompleteNormedModule)). intros; apply GG_cont. Qed.

Definition HH (s : R) : R := RInt GG (base_lo t) s.

Lemma HH_cont : forall s, continuous HH s.
Proof.
  intro s. apply cont_auto. exists (GG s). apply (is_derive_RInt GG HH (base_lo t) s).
  - apply filter_forall. intro y. apply (RInt_correct (V := R_CompleteNormedModule)). apply G_ex.
  - apply GG_cont.
Qed.

Lemma inner_int : forall a b, base_lo t < a < 1 -> base_lo t < b < 1 ->
  is_RInt f (Tr t a) (Tr t b) (HH b - HH a).
Proof.
  intros a b Ha Hb.
  assert (Bt : forall x, Rmin a b <= x <= Rmax a b -> base_lo t < x < 1).
  { intros x. unfold Rmin, Rmax. destruct (Rle_dec a b); lra. }
  assert (Ef : ex_RInt f (Tr t a) (Tr t b)).
  { apply (ex_RInt_continuous (V := R_CompleteNormedModule)). intros r Hr. apply Cf.
    pose proof (Tr_pos t a V Ha). pose proof (Tr_pos t b V Hb). revert Hr. unfold Rmin, Rmax.
    destruct (Rle_dec (Tr t a) (Tr t b)); lra. }
  apply (RInt_correct (V := R_CompleteNormedModule)) in Ef.
  assert (C : is_RInt GG a b (RInt f (Tr t a) (Tr t b))).
  { eapply is_RInt_ext; [|apply (is_RInt_comp f (Tr t) (Jr t) a b)].
    - intros x Hx. rewrite GG_in by (apply Bt; lra). unfold gg, scal; simpl. unfold mult; simpl. rs_eq. ring.
    - intros x Hx. apply Cf. apply Rlt_le, Tr_pos; auto.
    - intros x Hx. split; [apply Tr_derive; auto|apply Jr_cont; auto]. }
  pose proof (RInt_Chasles (V := R_CompleteNormedModule) GG (base_lo t) a b (G_ex _ _) (G_ex _ _)) as Ch.
  apply RI_unique in C.
  assert (E : RInt f (Tr t a) (Tr t b) = HH b - HH a).
  { unfold HH. change (RInt GG (base_lo t) a + RInt GG a b = RInt GG (base_lo t) b) in Ch.
    change (RInt GG a b = RInt f (Tr t a) (Tr t b) :> R) in C. 
    change (RInt f (Tr t a) (Tr t b) = RInt GG (base_lo t) b - RInt GG (base_lo t) a :> R). lra. }
  rewrite <- E. exact Ef.
Qed.

Lemma the_integral : half_line_integral f (RInt GG (base_lo t) 1).
Proof.
  unfold half_line_integral, is_RInt_gen, filterlimi, filter_le, filtermapi. intros P HP.
  pose proof (base_lo_lt t) as L.
  assert (K : filterlim (fun ab : R * R => HH (snd ab) - HH (fst ab))
     (filter_prod (at_right (base_lo t)) (at_left 1)) (locally (RInt GG (base_lo t) 1))).
  { replace (RInt GG (base_lo t) 1) with (HH 1 + - HH (base_lo t)).
    2:{ unfold HH. rewrite RInt_point. unfold zero; simpl. rs_eq. ring. }
    apply (filterlim_comp_2 (F := filter_prod (at_right (base_lo t)) (at_left 1))
       (G := locally (HH 1)) (H := locally (- HH (base_lo t)))
       (fun ab : R * R => HH (snd ab)) (fun ab : R * R => - HH (fst ab)) Rplus).
    - apply (filterlim_comp _ _ _ snd HH _ (at_left 1) _); [apply filterlim_snd|].
      apply (filterlim_filter_le_1 (F := locally 1) (G := at_left 1) HH); [|apply HH_cont].
      intros Q HQ. unfold at_left, within. revert HQ. apply filter_imp. auto.
    - apply (filterlim_comp _ _ _ fst (fun a => - HH a) _ (at_right (base_lo t)) _); [apply filterlim_fst|].
      apply (filterlim_comp _ _ _ HH Ropp _ (locally (HH (base_lo t))) _).
      + apply at_right_cont, HH_cont.
      + apply (filterlim_opp (V := R_NormedModule)).
    - apply (filterlim_plus (V := R_NormedModule)). }
  specialize (K P HP). unfold filtermap in K. destruct K as [Q1 Q2 [d1 H1] [d2 H2] K].
  set (s1 := Rmin (base_lo t + d1 / 2) ((base_lo t + 1) / 2)).
  set (s2 := Rmax (1 - d2 / 2) ((base_lo t + 1) / 2)).
  pose proof (cond_pos d1) as P1. pose proof (cond_pos d2) as P2.
  assert (R1 : base_lo t < s1 < 1 /\ s1 <= base_lo t + d1 / 2).
  { unfold s1. pose proof (Rmin_l (base_lo t + d1 / 2) ((base_lo t + 1) / 2)).
    pose proof (Rmin_r (base_lo t + d1 / 2) ((base_lo t + 1) / 2)).
    split; [split; [apply Rmin_glb_lt; lra|lra]|lra]. }
  assert (R2 : base_lo t < s2 < 1 /\ 1 - d2 / 2 <= s2).
  { unfold s2. pose proof (Rmax_l (1 - d2 / 2) ((base_lo t + 1) / 2)).
    pose proof (Rmax_r (1 - d2 / 2) ((base_lo t + 1) / 2)).
    split; [split; [lra|apply Rmax_lub_lt; lra]|lra]. }
  destruct R1 as (R1 & R1'), R2 as (R2 & R2').
  assert (Inj : forall a b, base_lo t < a < 1 -> base_lo t < b < 1 -> Tr t a < Tr t b -> a < b).
  { intros a b Ha Hb Hab. apply Rnot_le_lt. intros [H| ->]; [|lra].
    pose proof (Tr_incr t b a V ltac:(lra) H ltac:(lra)). lra. }
  apply Filter_prod with (fun u => 0 < u < Tr t s1) (fun v => Tr t s2 < v).
  - pose proof (Tr_pos t s1 V R1) as Hp. exists (mkposreal _ Hp). intros u Hu Hu0.
    unfold ball in Hu; simpl in Hu. unfold AbsRing_ball, abs, minus, plus, opp in Hu; simpl in Hu.
    apply Rabs_lt_between in Hu. lra.
  - exists (Tr t s2). auto.
  - intros u v Hu Hv. pose proof (Tr_pos t s2 V R2).
    destruct (Tr_onto t u V ltac:(lra)) as (a & Ha & Ea).
    destruct (Tr_onto t v V ltac:(lra)) as (b & Hb & Eb).
    assert (a < s1) by (apply Inj; auto; lra). assert (s2 < b) by (apply Inj; auto; lra).
    exists (HH b - HH a). cbn [fst snd]. split.
    + rewrite <- Ea, <- Eb. apply inner_int; auto.
    + apply (K a b).
      * apply H1; [|lra]. unfold ball; simpl. unfold AbsRing_ball, abs, minus, plus, opp; simpl.
        apply Rabs_def1; lra.
      * apply H2; [|lra]. unfold ball; simpl. unfold AbsRing_ball, abs, minus, plus, opp; simpl.
        apply Rabs_def1; lra.
Qed.

Lemma with_npts_same : forall n, base_lo (with_npts t n) = base_lo t /\
  (forall x, Tr (with_npts t n) x = Tr t x) /\ (forall x, Jr (with_npts t n) x = Jr t x) /\
  rt_npts (with_npts t n) = n /\ base_inclusive (with_npts t n) = base_inclusive t.
Proof. intro n. destruct t; repeat split; auto. Qed.

Lemma radial_as_base : forall n q, @radial_generate RS (with_npts t n) = Ok q ->
  apply_rule q f = apply_rule (tab n (bx (with_npts t n)), tab n (bw (with_npts t n))) GG.
Proof.
  intros n q H. destruct (with_npts_same n) as (E1 & E2 & E3 & E4 & E5).
  rewrite radial_real in H. injection H as <-. rewrite !rule_tab, E4. apply Rsum_tab_ext. intros i Hi.
  pose proof (bx_range (with_npts t n) i) as B. rewrite E4, E1 in B.
  rewrite GG_in by auto. unfold gg. rewrite E2, E3. ring.
Qed.

Lemma radial_conv : rules_converge (fun n q => @radial_generate RS (with_npts t n) = Ok q) f (RInt GG (base_lo t) 1).
Proof.
  intros eps He. destruct (base_inclusive t) eqn:Eb.
  - assert (E0 : base_lo t = 0 /\ J0 t = 0) by (destruct t; try discriminate; auto). destruct E0 as (E0 & EJ).
    assert (Z0 : GG 0 = 0). { unfold GG. rewrite E0. destruct (Rle_dec 0 0); [|lra]. rewrite EJ. ring. }
    assert (Z1 : GG 1 = 0). { unfold GG. rewrite E0. destruct (Rle_dec 1 0); [lra|]. destruct (Rle_dec 1 1); lra. }
    destruct (uniform_converges 0 1 GG Rlt_0_1 (fun x _ => GG_cont x) eps He) as (N & HN).
    exists N. intros n q Hn H. rewrite (radial_as_base n q H), E0.
    destruct (with_npts_same n) as (E1 & E2 & E3 & E4 & E5).
    pose proof (uniform_real (n + 1) 0 1 ltac:(lia)) as U. replace (S (n + 1)) with (n + 2)%nat in U by lia.
    specialize (HN (n + 2)%nat _ ltac:(lia) U). rewrite rule_tab in HN |- *.
    replace (Rsum (tab n (fun i => bw (with_npts t n) i * GG (bx (with_npts t n) i))))
      with (Rsum (tab (n + 2) (fun i => uw (n + 1) 0 1 i * GG (ux (n + 1) 0 1 i)))); auto.
    replace (n + 2)%nat with (S (S n)) by lia. rewrite Rsum_tab_S, tab_S_l.
    change (Rsum (?a :: ?l)) with (a + Rsum l). rewrite ux_first. replace (S n) with (n + 1)%nat at 2 by lia.
    rewrite ux_last by lia. rewrite Z0, Z1, !Rmult_0_r, Rplus_0_r, Rplus_0_l.
    apply Rsum_tab_ext. intros i Hi. unfold bx, bw. rewrite E5, Eb, E4.
    unfold uw. destruct (Nat.eqb_spec (S i) 0); [lia|]. destruct (Nat.eqb_spec (S i) (n + 1)); [lia|].
    cbn [orb]. rewrite Rminus_0_r. reflexivity.
  - assert (E0 : base_lo t = -1) by (destruct t; try discriminate; auto).
    destruct (gc2_converges GG (fun x _ => GG_cont x) eps He) as (N & HN).
    exists N. intros n q Hn H. rewrite (radial_as_base n q H), E0.
    destruct (with_npts_same n) as (E1 & E2 & E3 & E4 & E5).
    specialize (HN n _ Hn (gc2_real n)).
    replace (apply_rule (tab n (bx (with_npts t n)), tab n (bw (with_npts t n))) GG) with
      (apply_rule (tab n (fun j => cos (th2 n j)), tab n (fun j => PI / INR (n + 1) * sin (th2 n j))) GG); auto.
    rewrite !rule_tab. apply Rsum_tab_ext. intros i Hi. unfold bx, bw. rewrite E5, Eb, E4. reflexivity.
Qed.
End Converge.

Lemma radial_converges : forall t f, rt_valid t -> flat_start t -> (forall r, 0 <= r -> continuous f r) ->
  decays t f -> exists I, half_line_integral f I /\
    rules_converge (fun n q => @radial_generate RS (with_npts t n) = Ok q) f I.
Proof.
  intros t f V F C D. exists (RInt (GG t f) (base_lo t) 1). split.
  - apply the_integral; auto.
  - apply radial_conv; auto.
Qed.

(** Integrands of bounded support decay. *)
Lemma compact_decays : forall t f rho, rt_valid t -> (forall r, rho <= r -> f r = 0) -> decays t f.
Proof.
  intros t f rho V Z. unfold decays. apply (filterlim_ext_loc (fun _ => 0)); [|apply filterlim_const].
  destruct (Tr_onto t (Rmax 1 rho) V) as (x0 & Hx0 & E0).
  { pose proof (Rmax_l 1 rho). lra. }
  unfold at_left, within. generalize (open_gt x0 1 (proj2 Hx0)). apply filter_imp. intros x Hx Hx1.
  assert (rho <= rt_transform t x).
  { rewrite Tr_eq. pose proof (Tr_incr t x0 x V (proj1 Hx0) Hx Hx1). pose proof (Rmax_r 1 rho). lra. }
  rewrite Z by auto. ring.
Qed.

Lemma radial_total : forall t, exists q, @radial_generate RS t = Ok q.
Proof. intro t. eexists. apply radial_real. Qed.

Lemma radial_nodes_good : forall t q, @radial_generate RS t = Ok q ->
  exists b, base_rule t b /\ good_rule (rt_npts t) (base_lo t) 1 b /\
    fst q = map (rt_transform t) (fst b) /\
    snd q = map (fun xw => snd xw * rt_jacobian t (fst xw)) (combine (fst b) (snd b)).
Proof.
  intros t q H. destruct (radial_nodes t q H) as (b & A & B & C). exists b.
  split; [exact A|]. split; [apply base_rule_good; auto|]. split; assumption.
Qed.

Lemma mhl_one_ex : exists q b, @radial_generate RS (MHL 2 1 (2 : RS)) = Ok q /\ q = ([2], [8]) /\
  base_rule (MHL 2 1 (2 : RS)) b /\ b = ([1 / 2], [1 / 2]).
Proof.
  exists ([2], [8]), ([1 / 2], [1 / 2]). split; [|split; [auto|split; [|auto]]].
  - rewrite radial_real. unfold tab, bx, bw, ux, Tr, Jr. cbn [seq map base_inclusive rt_npts].
    change (1 + 1)%nat with 2%nat. change (2 - 1)%nat with 1%nat. change (INR 2) with 2. change (INR 1) with 1.
    assert (P : forall a b c d : R, a = c -> b = d -> Ok ([a], [b]) = Ok ([c], [d])) by congruence.
    apply P; cbn [Nat.add pow]; field.
  - pose proof (base_rule_tab (MHL 2 1 (2 : RS))) as B. cbn [rt_npts] in B. revert B.
    unfold tab, bx, bw, ux. cbn [seq map base_inclusive rt_npts].
    change (1 + 1)%nat with 2%nat. change (INR 2) with 2. change (INR 1) with 1.
    replace (0 + 1 * ((1 - 0) / 2)) with (1 / 2) by field. auto.
Qed.

Lemma tent_ex : let f := fun r => Rmax 0 (1 - r) in
  (forall r, 0 <= r -> continuous f r) /\
  (forall t, rt_valid t -> decays t f) /\ flat_start (TA 10 (1 : RS) (6 / 10 : RS)).
Proof.
  cbv zeta. split; [|split].
  - intros r _. apply continuous_ext with (fun r => (1 - r + Rabs (1 - r)) / 2).
    + intro x. unfold Rmax, Rabs. destruct (Rle_dec 0 (1 - x)), (Rcase_abs (1 - x)); lra.
    + apply (continuous_mult (K := R_AbsRing) (fun r => 1 - r + Rabs (1 - r)) (fun _ => / 2)); [|apply continuous_const].
      apply (continuous_plus (V := R_NormedModule) (fun r => 1 - r) (fun r => Rabs (1 - r))).
      * apply cont_auto. auto_derive; auto.
      * apply (continuous_comp (fun r => 1 - r) Rabs); [apply cont_auto; auto_derive; auto|].
        apply (continuous_abs (K := R_AbsRing)).
  - intros t V. apply (compact_decays t _ 1 V). intros r Hr. apply Rmax_left. lra.
  - simpl. lra.
Qed.
