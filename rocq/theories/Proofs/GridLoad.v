(** How close to the poles the nodes of the angular grids are, weighted; polynomials evaluated at the nodes. *)
From Coq Require Import ZArith List Bool Reals Lra Lia Psatz.
From Verif Require Import Base.Outcome Base.Scalar Base.RScalar Model.Quadrature Model.S2Tables Model.S2 Model.GridCode
  Model.GridsLL Model.GridsDelley Model.GridsAB Model.GridsWomersley Model.Grids
  Spec.QuadSpec Spec.SphereSpec Spec.SphereInt Spec.PolySpec
  Proofs.GridSym Proofs.GridShape Proofs.GridCheck Proofs.GridRun Proofs.GridFiles Proofs.PiBounds Proofs.GridExact Proofs.NearSphere.
Import ListNotations.
Local Open Scope R_scope.

(** A pole exactly, or a point with 1/(1-z^2) <= k. *)
Definition cap (v : R * R * R) (k : R) : Prop :=
  let '(x, y, z) := v in
  (x = 0 /\ y = 0 /\ z * z = 1 /\ 1 <= k) \/ (/ 10000 <= 1 - z * z /\ / (1 - z * z) <= k).
Inductive loaded : list ((R * R * R) * R) -> R -> Prop :=
| ld_nil : loaded [] 0
| ld_cons : forall v w r k B, cap v k -> loaded r B -> loaded ((v, w) :: r) (Rabs w * k + B).

Lemma loaded_app : forall a b A B, loaded a A -> loaded b B -> loaded (a ++ b) (A + B).
Proof.
  intros a b A B H HB. induction H as [|v w r k C Hk H IH]; [rewrite Rplus_0_l; exact HB|].
  cbn [app]. rewrite Rplus_assoc. apply ld_cons; assumption.
Qed.

(** ** Computation *)
Local Open Scope Z_scope.
Definition MU : Z := 1000000.
Definition WU : Z := 1000000000000.
(** An upper bound of 1/(1-z^2) in units of 1/MU; 1 at the poles. *)
Definition kapn (z : lit) : Z :=
  let T := p10 (snd z) * p10 (snd z) in
  if fst z * fst z =? T then MU else T * MU / (T - fst z * fst z) + 1.
Definition okpt (p : lit3) : bool :=
  let '(x, y, z) := p in
  let T := p10 (snd z) * p10 (snd z) in
  (0 <=? snd z) &&
  if fst z * fst z =? T then (fst x =? 0) && (fst y =? 0) else T <=? 10000 * (T - fst z * fst z).
Fixpoint zsum (l : list lit3) : Z := match l with [] => 0 | (_, _, z) :: r => kapn z + zsum r end.
(** The same sum for a block, with each parameter evaluated once. *)
Definition bsum (b : block) : Z :=
  match b with
  | LL6 a | DE6 a => 2 * kapn a + 4 * kapn o
  | LL8 a | DE8 a => 8 * kapn a
  | LL12 a | DE12 a => 8 * kapn a + 4 * kapn o
  | LL24 a b => 16 * kapn a + 8 * kapn b
  | DE24 a b => 8 * kapn a + 16 * kapn b
  | LL24o a b | DE24o a b => 8 * kapn a + 8 * kapn b + 8 * kapn o
  | LL48 a b c | DE48 a b c => 16 * (kapn a + kapn b + kapn c)
  | AB12 a b => 4 * kapn a + 4 * kapn b + 4 * kapn o
  | AB60 x1 y1 z1 x2 y2 z2 x3 y3 z3 x4 y4 z4 x5 y5 z5 =>
    4 * (kapn x1 + kapn y1 + kapn z1 + kapn x2 + kapn y2 + kapn z2 + kapn x3 + kapn y3 + kapn z3
      + kapn x4 + kapn y4 + kapn z4 + kapn x5 + kapn y5 + kapn z5)
  end.
Lemma kapn_neg : forall d, kapn (lneg d) = kapn d.
Proof. intros [m e]. unfold kapn, lneg. cbn [fst snd]. rewrite Z.mul_opp_opp. reflexivity. Qed.
Lemma bsum_ok : forall b, zsum (block_points b) = bsum b.
Proof.
  destruct b; cbn [block_points bsum]; cbv [ll6 ll8 ll12 ll24 ll24o ll48 de6 de8 de12 de24 de24o de48 ab12 ab60 zsum];
  rewrite ?kapn_neg; ring.
Qed.
Fixpoint gload (g : coded) : Z :=
  match g with
  | [] => 0
  | (b, w) :: r => bsum b * (Z.abs (fst w) * WU / p10 (snd w) + 1) + gload r
  end.
Definition okz (z : lit) : bool :=
  let T := p10 (snd z) * p10 (snd z) in (0 <=? snd z) && (T <=? 10000 * (T - fst z * fst z)).
Definition one_lit (a : lit) : bool := (0 <=? snd a) && (fst a * fst a =? p10 (snd a) * p10 (snd a)).
Definition bvalid (b : block) : bool :=
  match b with
  | LL6 a | DE6 a => one_lit a
  | LL8 a | DE8 a | LL12 a | DE12 a => okz a
  | LL24 a b | DE24 a b | LL24o a b | DE24o a b | AB12 a b => okz a && okz b
  | LL48 a b c | DE48 a b c => okz a && okz b && okz c
  | AB60 x1 y1 z1 x2 y2 z2 x3 y3 z3 x4 y4 z4 x5 y5 z5 => forallb okz [x1; y1; z1; x2; y2; z2; x3; y3; z3; x4; y4; z4; x5; y5; z5]
  end.
Lemma okz_neg : forall d, okz (lneg d) = okz d.
Proof. intros [m e]. unfold okz, lneg. cbn [fst snd]. rewrite Z.mul_opp_opp. reflexivity. Qed.
Lemma one_neg : forall d, one_lit (lneg d) = one_lit d.
Proof. intros [m e]. unfold one_lit, lneg. cbn [fst snd]. rewrite Z.mul_opp_opp. reflexivity. Qed.
Lemma okz_pt : forall x y z, okz z = true -> okpt (x, y, z) = true.
Proof.
  intros x y [z e] H. unfold okz, okpt in *. cbn [fst snd] in *. apply andb_prop in H. destruct H as [H1 H2]. rewrite H1. cbn [andb].
  destruct (Z.eqb_spec (z * z) (p10 e * p10 e)) as [E|E]; [|exact H2]. exfalso. apply Z.leb_le in H1, H2.
  rewrite p10_ok in * by exact H1. pose proof (Z.pow_pos_nonneg 10 e). nia.
Qed.
Lemma one_pt : forall z, one_lit z = true -> okpt (o, o, z) = true.
Proof.
  intros [z e] H. unfold one_lit, okpt in *. cbn [fst snd o] in *. apply andb_prop in H. destruct H as [H1 H2]. rewrite H1, H2. reflexivity.
Qed.
Lemma bvalid_ok : forall b, bvalid b = true -> Forall (fun p => okpt p = true) (block_points b).
Proof.
  assert (O : okz o = true) by reflexivity.
  destruct b; cbn [block_points bvalid forallb]; intro H; rewrite ?andb_true_iff in H; repeat match goal with H : _ /\ _ |- _ => destruct H end;
  cbv [ll6 ll8 ll12 ll24 ll24o ll48 de6 de8 de12 de24 de24o de48 ab12 ab60];
  repeat (apply Forall_nil || apply Forall_cons);
  first [apply okz_pt; rewrite ?okz_neg; assumption | apply one_pt; rewrite ?one_neg; assumption].
Qed.
Definition gvalid (g : coded) : bool := forallb (fun bw => (0 <=? snd (snd bw)) && bvalid (fst bw)) g.

(** In units of 4 pi: 600/(4 pi) > 47 and 110/(4 pi) > 8.7. *)
Definition ll_lim (n : Z) : Z := if n =? 230 then 470 else 87.
Definition check_tab {A : Type} (c : Z -> bool) (ok : Z -> A -> bool) (grids : list (Z * A)) (tab : list (Z * Z)) : bool :=
  forallb (fun p => if c (fst p) then match by_suffix (fst p) grids with Some g => ok (fst p) g | None => false end else true) tab.

Lemma check_tab_ok : forall (A : Type) c ok (grids : list (Z * A)) tab n g, check_tab c ok grids tab = true ->
  switch tab n <> -1 -> c n = true -> by_suffix n grids = Some g -> ok n g = true.
Proof.
  intros A c ok grids tab n g H Hn Hc Hg. unfold check_tab in H. induction tab as [|[k v] tab IH]; cbn [switch] in Hn; [contradiction|].
  cbn [forallb fst] in H. apply andb_prop in H. destruct H as [H1 H2].
  destruct (Z.eqb n k) eqn:E; [|apply IH; assumption]. apply Z.eqb_eq in E. subst k. rewrite Hc, Hg in H1. exact H1.
Qed.

Definition gload10 (lim : Z) (g : coded) : bool := gvalid g && (10 * gload g <=? lim * (MU * WU)).
Definition pload10 (n : Z) (ps : list lit3) : bool := forallb okpt ps && (10 * zsum ps <=? 87 * n * MU).
Lemma ll_loads : check_tab (fun _ => true) (fun n => gload10 (ll_lim n)) ll_grids ll_order_by_npts = true. Proof. run. Qed.
Lemma de_loads : check_tab (fun _ => true) (fun _ => gload10 87) de_grids de_order_by_npts = true. Proof. run. Qed.
Lemma ab_loads : check_tab ab_done (fun _ => gload10 1100) ab_grids ab_order_by_npts = true. Proof. run. Qed.
Lemma wo_loads : check_tab wo_done pload10 wo_grids wo_order_by_npts = true. Proof. run. Qed.

(** ** Soundness *)
Local Open Scope R_scope.
Lemma MU_pos : 0 < IZR MU. Proof. apply IZR_lt. reflexivity. Qed.
Lemma WU_pos : 0 < IZR WU. Proof. apply IZR_lt. reflexivity. Qed.
Lemma div_up : forall a b : Z, (0 < b)%Z -> IZR a / IZR b <= IZR (a / b + 1).
Proof.
  intros a b H. apply IZR_lt in H as HR. apply (Rmult_le_reg_r (IZR b)); [exact HR|].
  unfold Rdiv. rewrite Rmult_assoc, Rinv_l, Rmult_1_r by lra. rewrite <- mult_IZR. apply IZR_le.
  pose proof (Z.div_mod a b ltac:(lia)). pose proof (Z.mod_pos_bound a b H). nia.
Qed.
Lemma kapn_ok : forall p, okpt p = true -> let '(_, _, z) := p in cap (lit3_val (S := RS) p) (IZR (kapn z) / IZR MU).
Proof.
  intros [[[x ex] [y ey]] [z e]] H. pose proof MU_pos as MP. unfold okpt, kapn in *. cbn [fst snd] in *.
  apply andb_prop in H. destruct H as [H1 H2]. apply Z.leb_le in H1. rewrite p10_ok in * by exact H1.
  assert (P : (0 < 10 ^ e)%Z) by (apply Z.pow_pos_nonneg; lia). apply IZR_lt in P as PR.
  unfold cap, lit3_val. rewrite !rval_lit.
  assert (E : rval (z, e) * rval (z, e) * (IZR (10 ^ e) * IZR (10 ^ e)) = IZR (z * z)).
  { unfold rval. cbn [fst snd]. rewrite mult_IZR. field. lra. }
  set (v := rval (z, e)) in *. set (t := IZR (10 ^ e)) in *.
  destruct (Z.eqb_spec (z * z) (10 ^ e * 10 ^ e)) as [Q|Q].
  - left. apply andb_prop in H2. destruct H2 as [X Y]. apply Z.eqb_eq in X, Y. subst x y.
    split; [unfold rval; cbn [fst]; unfold Rdiv; ring|]. split; [unfold rval; cbn [fst]; unfold Rdiv; ring|].
    split; [|right; field; lra]. rewrite Q, mult_IZR in E. fold t in E. apply (Rmult_eq_reg_r (t * t)); [lra|nra].
  - right. apply Z.leb_le in H2. apply IZR_le in H2 as H3. rewrite !mult_IZR, minus_IZR, !mult_IZR in H3. fold t in H3. rewrite mult_IZR in E.
    assert (T : 0 < t * t) by nra.
    assert (A : / 10000 <= 1 - v * v).
    { apply (Rmult_le_reg_r (t * t)); [exact T|]. nra. }
    split; [exact A|].
    assert (D : (0 < 10 ^ e * 10 ^ e - z * z)%Z) by nia.
    pose proof (div_up (10 ^ e * 10 ^ e * MU) _ D) as G.
    rewrite !mult_IZR, minus_IZR, !mult_IZR in G. fold t in G. rewrite <- E in G.
    apply (Rmult_le_reg_r (IZR MU)); [exact MP|]. unfold Rdiv. rewrite Rmult_assoc, Rinv_l, Rmult_1_r by lra.
    eapply Rle_trans; [|exact G]. right. field. assert (0 < (1 - v * v) * (t * t)) by nra. assert (t * t - v * v * (t * t) <> 0) by lra. repeat split; lra.
Qed.

Lemma loaded_block : forall l (W : R), Forall (fun p => okpt p = true) l ->
  loaded (combine (map (lit3_val (S := RS)) l) (map (fun _ => W) l)) (Rabs W * (IZR (zsum l) / IZR MU)).
Proof.
  intros l W H. pose proof MU_pos. induction H as [|[[x y] z] l Hp H1 IH]; cbn [map combine zsum].
  - replace (Rabs W * (0 / IZR MU)) with 0 by (unfold Rdiv; ring). apply ld_nil.
  - rewrite plus_IZR. replace (Rabs W * ((IZR (kapn z) + IZR (zsum l)) / IZR MU))
      with (Rabs W * (IZR (kapn z) / IZR MU) + Rabs W * (IZR (zsum l) / IZR MU)) by (unfold Rdiv; ring).
    apply ld_cons; [exact (kapn_ok (x, y, z) Hp)|exact IH].
Qed.

Lemma kapn_nonneg : forall d, okz d = true \/ one_lit d = true -> (0 <= kapn d)%Z.
Proof.
  intros [z e] H. unfold okz, one_lit, kapn in *. cbn [fst snd] in *. destruct (Z.eqb_spec (z * z) (p10 e * p10 e)) as [Q|Q]; [discriminate|].
  destruct H as [H|H]; [|rewrite andb_false_r in H; discriminate]. apply andb_prop in H. destruct H as [H1 H2]. apply Z.leb_le in H1, H2.
  assert (0 < p10 e)%Z by (rewrite p10_ok by exact H1; apply Z.pow_pos_nonneg; lia).
  pose proof (Z.div_pos (p10 e * p10 e * MU) (p10 e * p10 e - z * z)). unfold MU in *. lia.
Qed.
Lemma zsum_nonneg : forall l, Forall (fun p => okpt p = true) l -> (0 <= zsum l)%Z.
Proof.
  intros l H. induction H as [|[[x y] [z e]] l Hp H1 IH]; cbn [zsum]; [lia|].
  enough (0 <= kapn (z, e))%Z by lia. apply kapn_nonneg. unfold okpt, okz, one_lit in *. cbn [fst snd] in *.
  apply andb_prop in Hp. destruct Hp as [H2 H3]. rewrite H2. cbn [andb]. destruct (Z.eqb_spec (z * z) (p10 e * p10 e)); auto.
Qed.

Lemma loaded_coded : forall g s, 0 <= s -> gvalid g = true -> exists B,
  loaded (combine (map (lit3_val (S := RS)) (coded_points g)) (map (fun d => s * rval d) (coded_weights g))) B /\
  B <= s * (IZR (gload g) / (IZR MU * IZR WU)).
Proof.
  intros g s Hs. pose proof MU_pos as MP. pose proof WU_pos as WP. induction g as [|[b [m e]] g IH]; intro H.
  - exists 0. split; [apply ld_nil|]. cbn [gload]. unfold Rdiv. right. ring.
  - unfold gvalid in H. cbn [forallb fst snd] in H. apply andb_prop in H. destruct H as [H1 H2]. destruct (IH H2) as (B & L & LB).
    apply andb_prop in H1. destruct H1 as [H1 HV]. apply Z.leb_le in H1. pose proof (bvalid_ok b HV) as V.
    unfold coded_points, coded_weights. cbn [flat_map fst snd]. fold (coded_points g). fold (coded_weights g).
    rewrite !map_app, GridCheck.combine_app by (rewrite !map_length; reflexivity). rewrite map_map.
    exists (Rabs (s * rval (m, e)) * (IZR (zsum (block_points b)) / IZR MU) + B).
    split; [apply loaded_app; [apply loaded_block; exact V|exact L]|].
    cbn [gload fst snd]. rewrite plus_IZR, mult_IZR, <- bsum_ok.
    pose proof (zsum_nonneg _ V) as ZN. apply IZR_le in ZN. set (zz := IZR (zsum (block_points b))) in *.
    rewrite p10_ok by exact H1. assert (P : (0 < 10 ^ e)%Z) by (apply Z.pow_pos_nonneg; lia).
    pose proof (div_up (Z.abs m * WU) (10 ^ e) P) as D. apply IZR_lt in P.
    assert (E : Rabs (rval (m, e)) * IZR WU = IZR (Z.abs m * WU) / IZR (10 ^ e)).
    { unfold rval. cbn [fst snd]. rewrite mult_IZR, abs_IZR. unfold Rdiv. rewrite Rabs_mult, (Rabs_pos_eq (/ _)) by (apply Rlt_le, Rinv_0_lt_compat; exact P). ring. }
    rewrite <- E in D. set (K := IZR (Z.abs m * WU / 10 ^ e + 1)) in *. rewrite Rabs_mult, (Rabs_pos_eq s) by exact Hs.
    replace (s * ((zz * K + IZR (gload g)) / (IZR MU * IZR WU))) with (s * (zz / IZR MU) * (K / IZR WU) + s * (IZR (gload g) / (IZR MU * IZR WU))) by (field; lra).
    apply Rplus_le_compat; [|exact LB].
    replace (s * Rabs (rval (m, e)) * (zz / IZR MU)) with (s * (zz / IZR MU) * Rabs (rval (m, e))) by ring.
    apply Rmult_le_compat_l.
    + apply Rmult_le_pos; [exact Hs|]. unfold Rdiv. apply Rmult_le_pos; [exact ZN|apply Rlt_le, Rinv_0_lt_compat; exact MP].
    + apply (Rmult_le_reg_r (IZR WU)); [exact WP|]. unfold Rdiv. rewrite (Rmult_assoc K), Rinv_l by lra. lra.
Qed.
Lemma loaded_plain : forall l (W : R), Forall (fun p => okpt p = true) l ->
  loaded (combine (map (lit3_val (S := RS)) l) (repeat W (length l))) (Rabs W * (IZR (zsum l) / IZR MU)).
Proof.
  intros l W H. replace (repeat W (length l)) with (map (fun _ => W) l); [apply loaded_block; exact H|].
  clear H. induction l as [|a l IH]; cbn; [reflexivity|]. rewrite IH. reflexivity.
Qed.

Definition load_max (f : afam) (n : nat) : R := match f with LebedevLaikov => if Nat.eqb n 230 then 600 else 110 | _ => 110 end.

Lemma gload10_R : forall lim g, gload10 lim g = true -> gvalid g = true /\ IZR (gload g) / (IZR MU * IZR WU) <= IZR lim / 10.
Proof.
  intros lim g H. unfold gload10 in H. apply andb_prop in H. destruct H as [H1 H2]. split; [exact H1|]. apply Z.leb_le, IZR_le in H2.
  rewrite !mult_IZR in H2. pose proof MU_pos. pose proof WU_pos. assert (0 < IZR MU * IZR WU) by nra.
  apply (Rmult_le_reg_r (IZR MU * IZR WU)); [assumption|]. unfold Rdiv. rewrite (Rmult_assoc (IZR (gload g))), Rinv_l by lra. lra.
Qed.

Lemma coded_loaded : forall f dbg n g lim (q : quad (@pt3 RS) R), algebraic_order_by_npts f (Z.of_nat n) <> (-1)%Z ->
  repo_grids (S := RS) f (Z.of_nat n) = coded_grid g -> csize g = Z.of_nat n -> gload10 lim g = true ->
  construct dbg (s2_generate (repo_grids (S := RS)) f n) = Ok q ->
  exists B, loaded (nodes q) B /\ B <= (if scaled f then 4 * PI else 1) * (IZR lim / 10).
Proof.
  intros f dbg n g lim q H E Hs Hl Hq. destruct (gload10_R lim g Hl) as (V & LB).
  assert (L1 : length (coded_points g) = n) by (apply Nat2Z.inj; rewrite csize_points; exact Hs).
  destruct (built f dbg n (coded_grid g) H E) as (q' & Q1 & _ & Q3 & Q4).
  - cbn [coded_grid fst]. rewrite map_length. exact L1.
  - cbn [coded_grid snd]. rewrite map_length, coded_lengths. exact L1.
  - rewrite Hq in Q1. injection Q1 as <-.
    assert (W : qweights q = map (fun d => (if scaled f then 4 * PI else 1) * rval d) (coded_weights g)).
    { rewrite Q4. cbn [coded_grid snd]. rewrite map_map. apply map_ext. intro d. rewrite (rval_lit d). destruct (scaled f); ring. }
    assert (S0 : 0 <= (if scaled f then 4 * PI else 1)) by (pose proof PI_RGT_0; destruct (scaled f); lra).
    destruct (loaded_coded g _ S0 V) as (B & B1 & B2). exists B. unfold nodes. rewrite Q3, W. cbn [coded_grid fst].
    split; [exact B1|]. eapply Rle_trans; [exact B2|]. apply Rmult_le_compat_l; [exact S0|exact LB].
Qed.

Definition tol_of (f : afam) : R := match f with AhrensBeylkin => 2 / 100000000000 | _ => 4 * PI / 100000000000000 end.

Theorem angular_checked : forall f dbg n, algebraic_order_by_npts f (Z.of_nat n) <> (-1)%Z -> checked f n ->
  exists q : quad (@pt3 RS) R, construct dbg (s2_generate repo_grids f n) = Ok q /\ sized n q /\
    Forall (near_sphere (5 / 10000000000000000)) (qpoints q) /\ integrates (tol_of f) (order f n) q /\
    exists B, loaded (nodes q) B /\ B <= load_max f n.
Proof.
  intros f dbg n H C. pose proof pi_bounds as HPI. destruct f; cbn [checked tol_of load_max] in *.
  - (* AB *) destruct C as [C1 C2]. assert (Hn : (Z.of_nat n <= 612)%Z) by lia. assert (Hx : Z.of_nat n <> 552%Z) by lia.
    destruct (ahrens_shape dbg n H) as (q & Q1 & Q2 & Q3 & Q4).
    exists q. split; [exact Q1|]. split; [exact Q2|]. split; [exact Q3|]. split; [exact (Q4 Hn Hx)|].
    destruct (table_all _ (fun n g => shape_ok n (ab_pos n) g = true) _ _ ab_files (Z.of_nat n) H) as (g & G1 & G3).
    destruct (shape_parts _ _ _ G3) as (S1 & _ & _).
    assert (AD : ab_done (Z.of_nat n) = true) by (unfold ab_done; apply andb_true_intro; split; [apply Z.leb_le; exact Hn|]; apply negb_true_iff, Z.eqb_neq, Hx).
    pose proof (check_tab_ok _ _ _ _ _ _ _ ab_loads H AD G1) as LD. cbv beta in LD.
    destruct (coded_loaded AhrensBeylkin dbg n g _ q H (repo_ab _ _ G1) S1 LD Q1) as (B & B1 & B2). exists B. split; [exact B1|].
    cbn [scaled] in B2. lra.
  - (* Delley *) destruct (delley_ok dbg n H) as (q & Q1 & Q2 & Q3 & Q4). exists q. split; [exact Q1|]. split; [exact Q2|]. split; [exact Q3|]. split; [exact Q4|].
    destruct (table_all _ (fun n g => oct_ok Delley n g /\ shape_ok n true g = true) _ _ de_files (Z.of_nat n) H) as (g & G1 & G2 & G3).
    destruct (shape_parts _ _ _ G3) as (S1 & _ & _).
    pose proof (check_tab_ok _ _ _ _ _ _ _ de_loads H eq_refl G1) as LD. cbv beta in LD.
    destruct (coded_loaded Delley dbg n g _ q H (repo_de _ _ G1) S1 LD Q1) as (B & B1 & B2). exists B. split; [exact B1|].
    cbn [scaled] in B2. lra.
  - (* LL *) destruct (lebedev_ok dbg n H) as (q & Q1 & Q2 & Q3 & Q4). exists q. split; [exact Q1|]. split; [exact Q2|]. split; [exact Q3|]. split; [exact Q4|].
    destruct (table_all _ (fun n g => oct_ok LebedevLaikov n g /\ shape_ok n (ll_pos n) g = true) _ _ ll_files (Z.of_nat n) H) as (g & G1 & G2 & G3).
    destruct (shape_parts _ _ _ G3) as (S1 & _ & _).
    pose proof (check_tab_ok _ _ _ _ _ _ _ ll_loads H eq_refl G1) as LD. cbv beta in LD.
    destruct (coded_loaded LebedevLaikov dbg n g _ q H (repo_ll _ _ G1) S1 LD Q1) as (B & B1 & B2). exists B. split; [exact B1|].
    cbn [scaled] in B2. unfold ll_lim in B2. destruct (Nat.eqb_spec n 230) as [N|N]; destruct (Z.eqb_spec (Z.of_nat n) 230) as [M|M]; try lia; lra.
  - (* Womersley *) assert (Hk : (Z.of_nat n <= 222)%Z) by lia. assert (Hn : (Z.of_nat n <= 513)%Z) by lia.
    destruct (womersley_shape dbg n H Hn) as (q & Q1 & Q2 & Q3 & Q4 & Q5).
    exists q. split; [exact Q1|]. split; [exact Q2|]. split; [exact Q3|]. split; [exact (Q5 Hk)|].
    destruct (table_some _ wo_here (fun n ps => plain_shape n ps = true) _ _ wo_files (Z.of_nat n) H) as (ps & G1 & G2).
    { apply Z.leb_le. exact Hn. }
    assert (WD : wo_done (Z.of_nat n) = true) by (apply Z.leb_le; exact Hk).
    pose proof (check_tab_ok _ _ _ _ _ _ _ wo_loads H WD G1) as LD. unfold pload10 in LD. apply andb_prop in LD. destruct LD as [V LB].
    unfold plain_shape in G2. apply andb_prop in G2. destruct G2 as [G2 _]. apply Z.eqb_eq, Nat2Z.inj in G2.
    destruct (built Womersley dbg n (womersley_grid (Z.of_nat n) ps) H (repo_wo _ _ G1)) as (q' & P1 & _ & P3 & _).
    { cbn [womersley_grid fst]. rewrite map_length. exact G2. }
    { cbn [womersley_grid snd]. rewrite repeat_length, Nat2Z.id. reflexivity. }
    rewrite Q1 in P1. injection P1 as <-.
    exists (Rabs (4 * PI / INR n) * (IZR (zsum ps) / IZR MU)). split.
    + unfold nodes. rewrite P3, Q4. cbn [womersley_grid fst]. rewrite <- G2 at 2. apply loaded_plain. apply Forall_forall. apply forallb_forall. exact V.
    + apply Z.leb_le, IZR_le in LB. rewrite !mult_IZR, <- INR_IZR_INZ in LB. pose proof MU_pos as MP.
      assert (N0 : n <> 0%nat) by (intros ->; apply H; reflexivity). assert (NP : 0 < INR n) by (apply lt_0_INR; lia).
      rewrite Rabs_pos_eq by (apply Rlt_le, Rdiv_lt_0_compat; lra).
      apply Rle_trans with (4 * PI / INR n * (8.7 * INR n)); [|unfold Rdiv; rewrite Rmult_comm, Rmult_assoc; replace (INR n * (4 * PI * / INR n)) with (4 * PI) by (field; lra); lra].
      apply Rmult_le_compat_l; [apply Rlt_le, Rdiv_lt_0_compat; lra|].
      apply (Rmult_le_reg_r (IZR MU)); [exact MP|]. unfold Rdiv. rewrite Rmult_assoc, Rinv_l, Rmult_1_r by lra. lra.
Qed.
