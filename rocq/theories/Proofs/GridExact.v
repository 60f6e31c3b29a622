(** From the checks of the files to the quadratures that [generate] returns. *)
From Coq Require Import ZArith List Bool Reals Lra Lia Psatz.
From Coquelicot Require RInt Hierarchy.
From Verif Require Import Base.Outcome Base.Scalar Base.RScalar Model.Quadrature Model.S2Tables Model.S2 Model.GridCode
  Model.GridsLL Model.GridsDelley Model.GridsAB Model.GridsWomersley Model.Grids
  Spec.QuadSpec Spec.SphereSpec Spec.SphereInt Proofs.SphereIntFacts Proofs.HarmOrtho Proofs.AngularFacts
  Proofs.HarmBase Proofs.GridSym Proofs.GridCheck Proofs.GridRun Proofs.GridShape Proofs.GridFiles Proofs.PiBounds.
Import ListNotations.
Local Open Scope R_scope.

Lemma hconst_size : forall h, Rabs (hconst h) <= hsize h.
Proof.
  induction h as [|[c [[s m] n]] h IH]; cbn [hconst hsize]; [rewrite Rabs_R0; lra|].
  eapply Rle_trans; [apply Rabs_triang|]. apply Rplus_le_compat; [|exact IH].
  assert (P : 0 <= Rabs c * harm_norm m n) by (apply Rmult_le_pos; [apply Rabs_pos|apply harm_norm_pos]).
  destruct s; [rewrite Rabs_R0; exact P|]. destruct (Nat.eqb (m + n) 0) eqn:E; [|rewrite Rabs_R0; exact P].
  apply Nat.eqb_eq in E. replace m with 0%nat by lia. replace n with 0%nat by lia. rewrite harm_norm_00. lra.
Qed.
Lemma hsize_pos : forall h, 0 <= hsize h.
Proof. intro h. pose proof (hconst_size h). pose proof (Rabs_pos (hconst h)). lra. Qed.

Lemma four_pi_near : Rabs (IZR four_pi_num / IZR four_pi_den - 4 * PI) <= 1 / 100000000000.
Proof. unfold four_pi_num, four_pi_den. pose proof pi_bounds. apply Rabs_le. lra. Qed.

(** The quadrature of a coded file whose weights are scaled by 4 pi, or not. *)
Definition scaled (f : afam) : bool := match f with LebedevLaikov | Delley => true | _ => false end.

Lemma built : forall f dbg n (g : static_grid), algebraic_order_by_npts f (Z.of_nat n) <> (-1)%Z ->
  repo_grids (S := RS) f (Z.of_nat n) = g -> length (fst g) = n -> length (snd g) = n ->
  exists q : quad (@pt3 RS) R, construct dbg (s2_generate (repo_grids (S := RS)) f n) = Ok q /\ sized n q /\
    qpoints q = fst g /\ qweights q = map (fun w : R => if scaled f then w * (4 * PI) else w) (snd g).
Proof.
  intros f dbg n g H E L1 L2. subst g.
  destruct (angular_supported RS dbg (repo_grids (S := RS)) f n H L1 L2) as (q & Q1 & Q2 & Q3 & Q4).
  exists q. split; [exact Q1|]. split; [exact Q2|]. split; [exact Q3|]. exact Q4.
Qed.

Lemma coded_built : forall f dbg n g, algebraic_order_by_npts f (Z.of_nat n) <> (-1)%Z ->
  repo_grids (S := RS) f (Z.of_nat n) = coded_grid g -> csize g = Z.of_nat n -> coded_sph g = true ->
  exists q : quad (@pt3 RS) R, construct dbg (s2_generate (repo_grids (S := RS)) f n) = Ok q /\ sized n q /\
    Forall (near_sphere (5 / 10000000000000000)) (qpoints q) /\
    qweights q = map (fun d => (if scaled f then 4 * PI else 1) * rval d) (coded_weights g) /\
    forall F, s2_sum q F = (if scaled f then 4 * PI else 1) * gsum g F.
Proof.
  intros f dbg n g H E Hs Hn.
  assert (L1 : length (coded_points g) = n) by (apply Nat2Z.inj; rewrite csize_points; exact Hs).
  destruct (built f dbg n (coded_grid g) H E) as (q & Q1 & Q2 & Q3 & Q4).
  - cbn [coded_grid fst]. rewrite map_length. exact L1.
  - cbn [coded_grid snd]. rewrite map_length, coded_lengths. exact L1.
  - assert (W : qweights q = map (fun d => (if scaled f then 4 * PI else 1) * lit_val (S := RS) d) (coded_weights g)).
    { rewrite Q4. cbn [coded_grid snd]. rewrite map_map. apply map_ext. intro d. rewrite (rval_lit d). destruct (scaled f); rs_eq; ring. }
    exists q. split; [exact Q1|]. split; [exact Q2|]. split; [|split].
    + rewrite Q3. cbn [coded_grid fst]. apply Forall_near, coded_sph_sound, Hn.
    + rewrite W. apply map_ext. intro d. rewrite rval_lit. reflexivity.
    + intro F. unfold s2_sum, nodes. rewrite Q3, W. cbn [coded_grid fst]. apply nsum_coded.
Qed.

Lemma plain_built : forall dbg n ps, algebraic_order_by_npts Womersley (Z.of_nat n) <> (-1)%Z ->
  repo_grids (S := RS) Womersley (Z.of_nat n) = womersley_grid (Z.of_nat n) ps ->
  plain_shape (Z.of_nat n) ps = true ->
  exists q : quad (@pt3 RS) R, construct dbg (s2_generate (repo_grids (S := RS)) Womersley n) = Ok q /\ sized n q /\
    Forall (near_sphere (5 / 10000000000000000)) (qpoints q) /\
    qweights q = repeat (4 * PI / INR n) n /\
    forall F, s2_sum q F = 4 * PI * (lsum ps F / IZR (Z.of_nat n)).
Proof.
  intros dbg n ps H E Hs. unfold plain_shape in Hs. apply andb_prop in Hs. destruct Hs as [H1 H2].
  apply Z.eqb_eq, Nat2Z.inj in H1.
  destruct (built Womersley dbg n (womersley_grid (Z.of_nat n) ps) H E) as (q & Q1 & Q2 & Q3 & Q4).
  - cbn [womersley_grid fst]. rewrite map_length. exact H1.
  - cbn [womersley_grid snd]. rewrite repeat_length, Nat2Z.id. reflexivity.
  - assert (W : qweights q = repeat (4 * PI / INR n) n).
    { rewrite Q4. cbn [womersley_grid snd scaled]. rewrite map_id, Nat2Z.id, INR_IZR_INZ. reflexivity. }
    exists q. split; [exact Q1|]. split; [exact Q2|]. split; [|split].
    + rewrite Q3. cbn [womersley_grid fst]. apply Forall_near. apply Forall_forall. intros p Hp.
      rewrite forallb_forall in H2. apply on_sphere_sound, H2, Hp.
    + exact W.
    + intro F. unfold s2_sum, nodes. rewrite Q3, W. cbn [womersley_grid fst]. rewrite <- H1 at 2.
      rewrite nsum_plain, <- INR_IZR_INZ. unfold Rdiv. ring.
Qed.

Lemma integrates_scaled : forall tol L F (q : quad pt3 R), linear F -> near_mean tol 1 L F ->
  (forall f, s2_sum q f = 4 * PI * F f) -> integrates (4 * PI * tol) L q.
Proof.
  intros tol L F q HF Hn Hq h Hd. rewrite Hq, sphere_int_harm.
  pose proof (near_mean_heval tol 1 L F HF Hn h Hd) as G. rewrite Rmult_1_l in G.
  replace (4 * PI * F (heval h) - 4 * PI * hconst h) with (4 * PI * (F (heval h) - hconst h)) by ring.
  pose proof PI_RGT_0. rewrite Rabs_mult, (Rabs_pos_eq (4 * PI)) by lra. rewrite (Rmult_assoc (4 * PI)).
  apply Rmult_le_compat_l; [lra|exact G].
Qed.

Lemma integrates_4pi : forall tol T L F (q : quad pt3 R), linear F -> near_mean tol T L F ->
  (forall f, s2_sum q f = F f) -> integrates (tol + Rabs (T - 4 * PI)) L q.
Proof.
  intros tol T L F q HF Hn Hq h Hd. rewrite Hq, sphere_int_harm.
  pose proof (near_mean_heval tol T L F HF Hn h Hd) as G.
  replace (F (heval h) - 4 * PI * hconst h) with ((F (heval h) - T * hconst h) + (T - 4 * PI) * hconst h) by ring.
  eapply Rle_trans; [apply Rabs_triang|]. rewrite Rabs_mult, Rmult_plus_distr_r.
  apply Rplus_le_compat; [exact G|]. apply Rmult_le_compat_l; [apply Rabs_pos|apply hconst_size].
Qed.

Lemma integrates_weaken : forall t u L q, t <= u -> integrates t L q -> integrates u L q.
Proof.
  intros t u L q H Hi h Hd. eapply Rle_trans; [apply Hi; exact Hd|].
  apply Rmult_le_compat_r; [apply hsize_pos|exact H].
Qed.

(** ** The families *)
Lemma repo_ll : forall n g, by_suffix n ll_grids = Some g -> repo_grids (S := RS) LebedevLaikov n = coded_grid g.
Proof. intros n g H. unfold repo_grids. rewrite H. reflexivity. Qed.
Lemma repo_de : forall n g, by_suffix n de_grids = Some g -> repo_grids (S := RS) Delley n = coded_grid g.
Proof. intros n g H. unfold repo_grids. rewrite H. reflexivity. Qed.
Lemma repo_ab : forall n g, by_suffix n ab_grids = Some g -> repo_grids (S := RS) AhrensBeylkin n = coded_grid g.
Proof. intros n g H. unfold repo_grids. rewrite H. reflexivity. Qed.
Lemma repo_wo : forall n ps, by_suffix n wo_grids = Some ps -> repo_grids (S := RS) Womersley n = womersley_grid n ps.
Proof. intros n g H. unfold repo_grids. rewrite H. reflexivity. Qed.

Lemma shape_parts : forall n s g, shape_ok n s g = true -> csize g = n /\ coded_sph g = true /\
  (if s then coded_pos g else coded_neg g) = true.
Proof.
  intros n s g H. unfold shape_ok in H. apply andb_prop in H. destruct H as [H H3]. apply andb_prop in H. destruct H as [H1 H2].
  apply Z.eqb_eq in H1. auto.
Qed.

Definition order (f : afam) (n : nat) : nat := Z.to_nat (algebraic_order_by_npts f (Z.of_nat n)).

Lemma lebedev_ok : forall dbg n, algebraic_order_by_npts LebedevLaikov (Z.of_nat n) <> (-1)%Z ->
  exists q : quad (@pt3 RS) R, construct dbg (s2_generate repo_grids LebedevLaikov n) = Ok q /\ sized n q /\
    Forall (near_sphere (5 / 10000000000000000)) (qpoints q) /\
    integrates (4 * PI / 100000000000000) (order LebedevLaikov n) q.
Proof.
  intros dbg n H. destruct (table_all _ (fun n g => oct_ok LebedevLaikov n g /\ shape_ok n (ll_pos n) g = true) _ _ ll_files (Z.of_nat n) H) as (g & G1 & G2 & G3).
  destruct (shape_parts _ _ _ G3) as (S1 & S2 & _).
  destruct (coded_built LebedevLaikov dbg n g H (repo_ll _ _ G1) S1 S2) as (q & Q1 & Q2 & Q3 & _ & Q5).
  exists q. split; [exact Q1|]. split; [exact Q2|]. split; [exact Q3|].
  eapply integrates_weaken; [|eapply (integrates_scaled _ _ (gsum g)); [apply gsum_linear|exact (oct_check_sound _ _ _ _ G2)|exact Q5]]. lra.
Qed.

Lemma delley_ok : forall dbg n, algebraic_order_by_npts Delley (Z.of_nat n) <> (-1)%Z ->
  exists q : quad (@pt3 RS) R, construct dbg (s2_generate repo_grids Delley n) = Ok q /\ sized n q /\
    Forall (near_sphere (5 / 10000000000000000)) (qpoints q) /\
    integrates (4 * PI / 100000000000000) (order Delley n) q.
Proof.
  intros dbg n H. destruct (table_all _ (fun n g => oct_ok Delley n g /\ shape_ok n true g = true) _ _ de_files (Z.of_nat n) H) as (g & G1 & G2 & G3).
  destruct (shape_parts _ _ _ G3) as (S1 & S2 & _).
  destruct (coded_built Delley dbg n g H (repo_de _ _ G1) S1 S2) as (q & Q1 & Q2 & Q3 & _ & Q5).
  exists q. split; [exact Q1|]. split; [exact Q2|]. split; [exact Q3|].
  eapply integrates_weaken; [|eapply (integrates_scaled _ _ (gsum g)); [apply gsum_linear|exact (oct_check_sound _ _ _ _ G2)|exact Q5]]. lra.
Qed.

Lemma ahrens_shape : forall dbg n, algebraic_order_by_npts AhrensBeylkin (Z.of_nat n) <> (-1)%Z ->
  exists q : quad (@pt3 RS) R, construct dbg (s2_generate repo_grids AhrensBeylkin n) = Ok q /\ sized n q /\
    Forall (near_sphere (5 / 10000000000000000)) (qpoints q) /\
    ((Z.of_nat n <= 612)%Z -> Z.of_nat n <> 552%Z -> integrates (2 / 100000000000) (order AhrensBeylkin n) q).
Proof.
  intros dbg n H. destruct (table_all _ (fun n g => shape_ok n (ab_pos n) g = true) _ _ ab_files (Z.of_nat n) H) as (g & G1 & G3).
  destruct (shape_parts _ _ _ G3) as (S1 & S2 & _).
  destruct (coded_built AhrensBeylkin dbg n g H (repo_ab _ _ G1) S1 S2) as (q & Q1 & Q2 & Q3 & _ & Q5).
  exists q. split; [exact Q1|]. split; [exact Q2|]. split; [exact Q3|]. intros Hn Hx.
  destruct (table_some _ ab_done tet_ok _ _ ab_exact (Z.of_nat n) H) as (g' & E1 & E2).
  { unfold ab_done. apply andb_true_intro. split; [apply Z.leb_le; exact Hn|]. apply negb_true_iff, Z.eqb_neq, Hx. }
  rewrite G1 in E1. injection E1 as <-.
  eapply integrates_weaken; [|eapply (integrates_4pi _ _ _ (gsum g)); [apply gsum_linear|exact (tet_check_sound _ _ _ _ _ _ E2)|]].
  - pose proof four_pi_near. lra.
  - intro F. rewrite Q5. cbn [scaled]. ring.
Qed.

Lemma womersley_shape : forall dbg n, algebraic_order_by_npts Womersley (Z.of_nat n) <> (-1)%Z -> (Z.of_nat n <= 513)%Z ->
  exists q : quad (@pt3 RS) R, construct dbg (s2_generate repo_grids Womersley n) = Ok q /\ sized n q /\
    Forall (near_sphere (5 / 10000000000000000)) (qpoints q) /\
    qweights q = repeat (4 * PI / INR n) n /\
    ((Z.of_nat n <= 222)%Z -> integrates (4 * PI / 100000000000000) (order Womersley n) q).
Proof.
  intros dbg n H Hn. destruct (table_some _ wo_here (fun n ps => plain_shape n ps = true) _ _ wo_files (Z.of_nat n) H) as (ps & G1 & G2).
  { apply Z.leb_le. exact Hn. }
  destruct (plain_built dbg n ps H (repo_wo _ _ G1) G2) as (q & Q1 & Q2 & Q3 & Q4 & Q5).
  exists q. split; [exact Q1|]. split; [exact Q2|]. split; [exact Q3|]. split; [exact Q4|]. intro Hk.
  destruct (table_some _ wo_done plain_ok _ _ wo_exact (Z.of_nat n) H) as (ps' & E1 & E2).
  { apply Z.leb_le. exact Hk. }
  rewrite G1 in E1. injection E1 as <-.
  eapply integrates_weaken; [|eapply (integrates_scaled _ _ (fun f => lsum ps f / IZR (Z.of_nat n)));
    [apply linear_scal, lsum_linear|exact (plain_check_sound _ _ _ _ _ E2)|exact Q5]]. lra.
Qed.

(** ** Signs *)
Lemma map_scaled_pos : forall k l, 0 < k -> Forall (fun d => 0 < rval d) l -> Forall (fun w => 0 < w) (map (fun d => k * rval d) l).
Proof. intros k l Hk H. apply Forall_map. eapply Forall_impl; [|exact H]. intros d Hd. cbv beta. nra. Qed.
Lemma map_scaled_neg : forall k l, 0 < k -> Exists (fun d => rval d < 0) l -> Exists (fun w => w < 0) (map (fun d => k * rval d) l).
Proof.
  intros k l Hk H. apply Exists_exists in H. destruct H as (d & D1 & D2). apply Exists_exists. exists (k * rval d). split.
  - apply in_map_iff. exists d. auto.
  - nra.
Qed.

Lemma coded_signs : forall f dbg n g (s : bool), algebraic_order_by_npts f (Z.of_nat n) <> (-1)%Z ->
  repo_grids (S := RS) f (Z.of_nat n) = coded_grid g -> shape_ok (Z.of_nat n) s g = true ->
  exists q : quad (@pt3 RS) R, construct dbg (s2_generate (repo_grids (S := RS)) f n) = Ok q /\
    if s then Forall (fun w => 0 < w) (qweights q) else Exists (fun w => w < 0) (qweights q).
Proof.
  intros f dbg n g s H E G. destruct (shape_parts _ _ _ G) as (S1 & S2 & S3).
  destruct (coded_built f dbg n g H E S1 S2) as (q & Q1 & _ & _ & Q4 & _).
  exists q. split; [exact Q1|]. rewrite Q4. pose proof PI_RGT_0.
  assert (Hk : 0 < (if scaled f then 4 * PI else 1)) by (destruct (scaled f); lra).
  destruct s.
  - apply map_scaled_pos; [exact Hk|]. apply coded_pos_sound, S3.
  - apply map_scaled_neg; [exact Hk|]. apply coded_neg_sound, S3.
Qed.

Lemma weight_signs : forall dbg f n, algebraic_order_by_npts f (Z.of_nat n) <> (-1)%Z ->
  (f = Womersley -> (Z.of_nat n <= 513)%Z) ->
  exists q : quad (@pt3 RS) R, construct dbg (s2_generate repo_grids f n) = Ok q /\
    (Forall (fun w => 0 < w) (qweights q) /\ ~ ((f = LebedevLaikov /\ In (Z.of_nat n) [74; 230; 266]%Z) \/ (f = AhrensBeylkin /\ Z.of_nat n = 1572%Z)) \/
     Exists (fun w => w < 0) (qweights q) /\ ((f = LebedevLaikov /\ In (Z.of_nat n) [74; 230; 266]%Z) \/ (f = AhrensBeylkin /\ Z.of_nat n = 1572%Z))).
Proof.
  intros dbg f n H Hw. destruct f.
  - destruct (table_all _ (fun n g => shape_ok n (ab_pos n) g = true) _ _ ab_files (Z.of_nat n) H) as (g & G1 & G3).
    destruct (coded_signs _ dbg n g _ H (repo_ab _ _ G1) G3) as (q & Q1 & Q2). exists q. split; [exact Q1|].
    unfold ab_pos in Q2. destruct (Z.eqb_spec (Z.of_nat n) 1572) as [E|E]; cbn [negb] in Q2; [right|left]; split; auto.
    intros [[? _]|[_ ?]]; [discriminate|auto].
  - destruct (table_all _ (fun n g => oct_ok Delley n g /\ shape_ok n true g = true) _ _ de_files (Z.of_nat n) H) as (g & G1 & _ & G3).
    destruct (coded_signs _ dbg n g _ H (repo_de _ _ G1) G3) as (q & Q1 & Q2). exists q. split; [exact Q1|].
    left. split; [exact Q2|]. intros [[? _]|[? _]]; discriminate.
  - destruct (table_all _ (fun n g => oct_ok LebedevLaikov n g /\ shape_ok n (ll_pos n) g = true) _ _ ll_files (Z.of_nat n) H) as (g & G1 & _ & G3).
    destruct (coded_signs _ dbg n g _ H (repo_ll _ _ G1) G3) as (q & Q1 & Q2). exists q. split; [exact Q1|].
    unfold ll_pos in Q2. destruct (Z.eqb_spec (Z.of_nat n) 74) as [E1|E1]; destruct (Z.eqb_spec (Z.of_nat n) 230) as [E2|E2];
      destruct (Z.eqb_spec (Z.of_nat n) 266) as [E3|E3]; cbn [orb negb] in Q2; try (right; split; [exact Q2|]; left; cbn [In]; intuition congruence).
    left. split; [exact Q2|]. intros [[_ X]|[? _]]; [|discriminate]. cbn [In] in X. intuition congruence.
  - destruct (womersley_shape dbg n H (Hw eq_refl)) as (q & Q1 & Q2 & _ & Q4 & _). exists q. split; [exact Q1|].
    left. split; [|intros [[? _]|[? _]]; discriminate]. rewrite Q4. apply Forall_forall. intros w Hin.
    apply repeat_spec in Hin. subst w. pose proof PI_RGT_0.
    destruct n as [|n]; [exfalso; apply H; reflexivity|]. apply Rdiv_lt_0_compat; [lra|]. apply lt_0_INR. lia.
Qed.

(** ** Weight sums *)
Definition one3 (x y z : R) : R := 1.
Lemma weight_sum : forall tol L q, integrates tol L q -> Rabs (s2_sum q one3 - 4 * PI) <= tol.
Proof.
  intros tol L q H. specialize (H [(1, (false, 0%nat, 0%nat))]).
  assert (D : hdeg_le [(1, (false, 0%nat, 0%nat))] L).
  { intros c s m n [E|[]]. injection E as <- <- <- <-. lia. }
  specialize (H D). rewrite sphere_int_harm in H. cbn [hconst hsize] in H.
  replace (4 * PI * ((if Nat.eqb (0 + 0) 0 then 1 else 0) + 0)) with (4 * PI) in H by (cbn; ring).
  rewrite Rabs_R1, harm_norm_00 in H.
  replace (s2_sum q one3) with (s2_sum q (heval [(1, (false, 0%nat, 0%nat))])); [lra|].
  unfold s2_sum. induction (nodes q) as [|[[[x y] z] w] l IH]; cbn [nsum]; [reflexivity|]. rewrite IH. f_equal.
  unfold one3. cbn [heval]. unfold harm. cbn. ring.
Qed.

(** Sum of the weights of a coded file in units of 10^-20. *)
Fixpoint wtotal (g : coded) : Z :=
  match g with [] => 0 | (b, (m, e)) :: r => bsize b * (m * p10 (20 - e)) + wtotal r end%Z.
Definition wlits (g : coded) : bool := forallb (fun bw => (0 <=? snd (snd bw))%Z && (snd (snd bw) <=? 20)%Z) g.
Lemma lsum_one : forall l, lsum l one3 = INR (length l).
Proof.
  induction l as [|[[x y] z] l IH]; [reflexivity|]. cbn [lsum at3 length]. rewrite IH, S_INR. unfold one3. ring.
Qed.
Lemma wtotal_R : forall g, wlits g = true -> gsum g one3 = IZR (wtotal g) / IZR (p10 20).
Proof.
  assert (T : 0 < IZR (p10 20)) by (apply IZR_lt; reflexivity).
  induction g as [|[b [m e]] g IH]; intro H; cbn [gsum wtotal]; [unfold Rdiv; ring|].
  unfold wlits in H. cbn [forallb snd] in H. apply andb_prop in H. destruct H as [H1 H2]. apply andb_prop in H1. destruct H1 as [H0 H1].
  apply Z.leb_le in H0, H1. rewrite (IH H2), lsum_one, INR_IZR_INZ.
  assert (E : Z.of_nat (length (block_points b)) = bsize b) by (destruct b; reflexivity).
  rewrite E, plus_IZR, mult_IZR, (scaled_R m e 20) by lia. field. lra.
Qed.

Lemma ab_552_shape : shape_ok (Z.of_nat 552) true ab_552 = true. Proof. run. Qed.
Lemma ab_552_lits : wlits ab_552 = true. Proof. vm_compute. reflexivity. Qed.
Lemma ab_552_total : wtotal ab_552 = 1210447316790277392000%Z. Proof. vm_compute. reflexivity. Qed.

Lemma ab_552_sum : forall dbg, exists q, construct dbg (s2_generate repo_grids AhrensBeylkin 552) = Ok q /\
  s2_sum q one3 < 4 * PI - 46 / 100.
Proof.
  intro dbg. assert (H : algebraic_order_by_npts AhrensBeylkin (Z.of_nat 552) <> (-1)%Z) by (vm_compute; discriminate).
  destruct (shape_parts _ _ _ ab_552_shape) as (S1 & S2 & _).
  destruct (coded_built AhrensBeylkin dbg 552 ab_552 H (repo_ab (Z.of_nat 552) ab_552 eq_refl) S1 S2) as (q & Q1 & _ & _ & _ & Q5).
  exists q. split; [exact Q1|]. rewrite Q5. cbn [scaled]. rewrite Rmult_1_l, (wtotal_R _ ab_552_lits), ab_552_total.
  change (p10 20) with 100000000000000000000%Z. pose proof pi_bounds. lra.
Qed.

Lemma ab_552_refuted : exists n (q : quad (@pt3 RS) R), algebraic_order_by_npts AhrensBeylkin (Z.of_nat n) <> (-1)%Z /\
  construct true (s2_generate repo_grids AhrensBeylkin n) = Ok q /\ s2_sum q one3 < 4 * PI - 46 / 100.
Proof.
  exists 552%nat. destruct (ab_552_sum true) as (q & Q1 & Q2). exists q. split; [vm_compute; discriminate|]. auto.
Qed.
Lemma positive_refuted : exists f n (q : quad (@pt3 RS) R), algebraic_order_by_npts f (Z.of_nat n) <> (-1)%Z /\
  construct true (s2_generate repo_grids f n) = Ok q /\ Exists (fun w => w < 0) (qweights q).
Proof.
  exists LebedevLaikov, 74%nat. assert (H : algebraic_order_by_npts LebedevLaikov (Z.of_nat 74) <> (-1)%Z) by (vm_compute; discriminate).
  destruct (weight_signs true LebedevLaikov 74 H ltac:(discriminate)) as (q & Q1 & [[_ Q2]|[Q2 _]]).
  - exfalso. apply Q2. left. split; [reflexivity|]. left. reflexivity.
  - exists q. auto.
Qed.

(** ** Polynomials *)
Lemma sphere_int_ext : forall f g, (forall x y z, x * x + y * y + z * z = 1 -> f x y z = g x y z) -> sphere_int f = sphere_int g.
Proof.
  intros f g H. unfold sphere_int. apply (RInt.RInt_ext (V := Hierarchy.R_CompleteNormedModule)). intros phi _. apply (RInt.RInt_ext (V := Hierarchy.R_CompleteNormedModule)). intros th _. rewrite H; [reflexivity|].
  pose proof (sin2_cos2 th) as E1. pose proof (sin2_cos2 phi) as E2. unfold Rsqr in *.
  replace (sin th * cos phi * (sin th * cos phi) + sin th * sin phi * (sin th * sin phi) + cos th * cos th)
    with (sin th * sin th * (sin phi * sin phi + cos phi * cos phi) + cos th * cos th) by ring.
  rewrite E2. lra.
Qed.
Lemma integrates_tol : forall tol d q, integrates tol d q -> 0 <= tol.
Proof.
  intros tol d q H. pose proof (weight_sum tol d q H) as W. eapply Rle_trans; [|exact W]. apply Rabs_pos.
Qed.
Lemma polynomials_integrated : forall tol d (q : quad (@pt3 RS) R), integrates tol d q ->
  forall p M, p3deg_le p d -> (forall x y z, x * x + y * y + z * z = 1 -> Rabs (p3eval p x y z) <= M) ->
  exists h, hdeg_le h d /\
    (forall x y z, x * x + y * y + z * z = 1 -> p3eval p x y z = heval h x y z) /\
    Rabs (s2_sum q (heval h) - sphere_int (p3eval p)) <= tol * ((INR d + 1) * M).
Proof.
  intros tol d q Hi p M Hp HM. destruct (polynomials_are_harmonics d p Hp) as (h & H1 & H2).
  assert (E : forall x y z, x * x + y * y + z * z = 1 -> p3eval p x y z = heval (normal d h) x y z).
  { intros x y z U. rewrite normal_eval by exact H1. apply H2. exact U. }
  exists (normal d h). split; [apply normal_deg|]. split; [exact E|].
  rewrite (sphere_int_ext _ _ E). eapply Rle_trans; [apply Hi; apply normal_deg|].
  apply Rmult_le_compat_l; [apply (integrates_tol tol d q Hi)|]. rewrite <- S_INR. apply hsize_normal; [exact H1|].
  intros x y z U. rewrite <- H2 by exact U. apply HM. exact U.
Qed.
