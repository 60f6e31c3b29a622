(** From the tables of literals to the inputs of the checker. *)
From Coq Require Import ZArith List Bool Reals Lra Lia Psatz Uint63.
From Bignums Require Import BigN BigZ.
From Verif Require Import Base.Scalar Base.RScalar Model.S2 Model.GridCode Spec.SphereInt
  Proofs.SphereIntFacts Proofs.HarmBase Proofs.LimbCheck Proofs.LimbSound Proofs.LimbLoad Proofs.GridSym.
Import ListNotations.
Local Open Scope R_scope.

(** A point of literals with a rational weight a/b. *)
Definition wpt : Type := (lit3 * (Z * Z))%type.
Definition wpt_R (p : wpt) : rpt :=
  let '((x, y, z), (a, b)) := p in (rval x, rval y, rval z, IZR a / IZR b).

(** Rounding down to units of 1/u. *)
Definition bdown (u : BigZ.t) (d : lit) : BigZ.t := BigZ.div (BigZ.mul (BigZ.of_Z (fst d)) u) (BigZ.of_Z (10 ^ snd d)).
Definition wload (st : nat) (p : wpt) : pt :=
  let '((x, y, z), (a, b)) := p in
  load st (bdown S190b x) (bdown S190b y) (bdown Nb z) (BigZ.div (BigZ.mul (BigZ.of_Z a) Ub) (BigZ.of_Z b)).

(** Points above the equator, and the mirror images of those below. *)
Definition upper (p : wpt) : bool := let '((_, _, z), _) := p in (0 <=? fst z)%Z.
Definition mirror (p : wpt) : wpt := let '((x, y, z), w) := p in ((x, y, lneg z), w).

Definition wpt_ok (p : wpt) : bool :=
  let '((x, y, z), (a, b)) := p in
  let ex := (10 ^ snd x)%Z in let ey := (10 ^ snd y)%Z in
  ((0 <=? snd x) && (0 <=? snd y) && (0 <=? snd z) && (0 <? b) &&
   (Z.abs (fst z) <=? 10 ^ snd z) && (Z.abs a <=? b) &&
   ((fst x * fst x * (ey * ey) + fst y * fst y * (ex * ex)) * 16000000 <=? 16008001 * (ex * ex * (ey * ey))))%Z.

Lemma pow10_pos : forall e : Z, (0 <= e)%Z -> 0 < IZR (10 ^ e).
Proof. intros. apply IZR_lt. apply Z.pow_pos_nonneg; lia. Qed.

Lemma bdown_R : forall ub u d, BigZ.to_Z ub = u -> (0 <= snd d)%Z ->
  IZR (BigZ.to_Z (bdown ub d)) <= IZR u * rval d < IZR (BigZ.to_Z (bdown ub d)) + 1.
Proof.
  intros ub u [m e] <- He. unfold bdown, rval. cbn [fst snd] in *.
  rewrite BigZ.spec_div, BigZ.spec_mul, !BigZ.spec_of_Z. set (u := BigZ.to_Z ub).
  pose proof (zdiv_down (m * u)%Z (10 ^ e)%Z ltac:(apply Z.pow_pos_nonneg; lia)) as H.
  rewrite mult_IZR in H. pose proof (pow10_pos e He).
  replace (IZR u * (IZR m / IZR (10 ^ e))) with (IZR m * IZR u / IZR (10 ^ e)) by (field; lra). exact H.
Qed.

Lemma wpt_ok_sound : forall p, wpt_ok p = true -> pt_ok (wpt_R p).
Proof.
  intros [[[x y] z] [a b]] H. unfold wpt_ok in H. repeat (apply andb_prop in H; destruct H as [H ?Hb]).
  repeat match goal with X : (_ <=? _)%Z = true |- _ => apply Z.leb_le in X | X : (_ <? _)%Z = true |- _ => apply Z.ltb_lt in X end.
  pose proof (pow10_pos _ H) as Px. pose proof (pow10_pos _ Hb4) as Py. pose proof (pow10_pos _ Hb3) as Pz.
  assert (Pb : 0 < IZR b) by (apply IZR_lt; auto).
  cbn [wpt_R pt_ok]. split; [|split].
  - apply IZR_le in Hb1. rewrite abs_IZR in Hb1. apply Rabs_le_between in Hb1 || apply Rcomplements.Rabs_le_between in Hb1.
    unfold rval. split.
    + apply (Rmult_le_reg_r (IZR (10 ^ snd z))); auto. unfold Rdiv. rewrite Rmult_assoc, Rinv_l by lra. lra.
    + apply (Rmult_le_reg_r (IZR (10 ^ snd z))); auto. unfold Rdiv. rewrite Rmult_assoc, Rinv_l by lra. lra.
  - apply IZR_le in Hb. rewrite !mult_IZR, plus_IZR, !mult_IZR in Hb. unfold rval.
    set (ex := IZR (10 ^ snd x)) in *. set (ey := IZR (10 ^ snd y)) in *.
    apply (Rmult_le_reg_r (ex * ex * (ey * ey) * 16000000)).
    { apply Rmult_lt_0_compat; [|lra]. repeat apply Rmult_lt_0_compat; auto. }
    replace ((IZR (fst x) / ex * (IZR (fst x) / ex) + IZR (fst y) / ey * (IZR (fst y) / ey)) * (ex * ex * (ey * ey) * 16000000))
      with ((IZR (fst x) * IZR (fst x) * (ey * ey) + IZR (fst y) * IZR (fst y) * (ex * ex)) * 16000000) by (field; lra).
    replace ((1 + / 4000) * (1 + / 4000) * (ex * ex * (ey * ey) * 16000000)) with (16008001 * (ex * ex * (ey * ey))) by field.
    exact Hb.
  - apply IZR_le in Hb0. rewrite abs_IZR in Hb0. unfold Rdiv. rewrite Rabs_mult, (Rabs_pos_eq (/ IZR b)).
    + apply (Rmult_le_reg_r (IZR b)); auto. rewrite Rmult_assoc, Rinv_l by lra. lra.
    + left. apply Rinv_0_lt_compat. auto.
Qed.

Lemma wload_prep : forall st p, (1 <= st <= 4)%nat -> wpt_ok p = true -> upper p = true -> prep st 0 (wpt_R p) (wload st p).
Proof.
  intros st p Hst H Hu. pose proof (wpt_ok_sound p H) as Hp. destruct p as [[[x y] z] [a b]]. cbn [upper] in Hu. apply Z.leb_le in Hu.
  unfold wpt_ok in H. repeat (apply andb_prop in H; destruct H as [H ?Hb]).
  repeat match goal with X : (_ <=? _)%Z = true |- _ => apply Z.leb_le in X | X : (_ <? _)%Z = true |- _ => apply Z.ltb_lt in X end.
  cbn [wpt_R wload] in *.
  assert (Pb : 0 < IZR b) by (apply IZR_lt; auto).
  apply prep_load; [exact Hst|exact Hp| | | | |].
  - unfold rval. apply Rmult_le_pos; [apply IZR_le; auto|]. left. apply Rinv_0_lt_compat, pow10_pos. auto.
  - pose proof (bdown_R S190b S190 x eq_refl H). fold SR in *. apply Rabs_le. lra.
  - pose proof (bdown_R S190b S190 y eq_refl Hb4). fold SR in *. apply Rabs_le. lra.
  - apply (bdown_R Nb Limb.N z eq_refl Hb3).
  - rewrite BigZ.spec_div, BigZ.spec_mul, !BigZ.spec_of_Z. change (BigZ.to_Z Ub) with U.
    pose proof (zdiv_down (a * U)%Z b Hb2) as Q. rewrite mult_IZR in Q. fold UR in Q.
    replace (UR * (IZR a / IZR b)) with (IZR a * UR / IZR b) by (field; lra). apply Rabs_le. lra.
Qed.

Lemma mirror_ok : forall p, wpt_ok (mirror p) = wpt_ok p.
Proof.
  intros [[[x y] [zm ze]] [a b]]. unfold wpt_ok, mirror, lneg. cbn [fst snd]. rewrite Z.abs_opp. reflexivity.
Qed.
Lemma mirror_up : forall p, upper p = false -> upper (mirror p) = true.
Proof.
  intros [[[x y] [zm ze]] [a b]] H. cbn [upper mirror lneg fst snd] in *. apply Z.leb_le. apply Z.leb_gt in H. lia.
Qed.
Lemma upper_R : forall p, wpt_ok p = true -> upper p = true -> 0 <= snd (fst (wpt_R p)).
Proof.
  intros [[[x y] z] [a b]] H Hu. cbn [upper wpt_R fst snd] in *. apply Z.leb_le in Hu.
  unfold wpt_ok in H. repeat (apply andb_prop in H; destruct H as [H ?Hb]). apply Z.leb_le in Hb3.
  unfold rval. apply Rmult_le_pos; [apply IZR_le; auto|]. left. apply Rinv_0_lt_compat, pow10_pos. auto.
Qed.

Lemma wsum_mirror : forall l s m n,
  wsum (map wpt_R l) (harm s m n) = both (map wpt_R (filter upper l)) (map wpt_R (map mirror (filter (fun p => negb (upper p)) l))) s m n.
Proof.
  unfold both. induction l as [|p l IH]; intros s m n.
  - cbn. ring.
  - cbn [filter]. specialize (IH s m n). cbn [map]. destruct (upper p) eqn:E; cbn [negb map].
    + destruct (wpt_R p) as [[[x y] z] v]. cbn [wsum]. rewrite IH. ring.
    + destruct p as [[[x y] [zm ze]] [a b]]. cbn [mirror wpt_R wsum]. rewrite IH.
      assert (Ez : rval (lneg (zm, ze)) = - rval (zm, ze)) by (unfold rval, lneg; cbn [fst snd]; rewrite opp_IZR; unfold Rdiv; ring).
      rewrite Ez. unfold harm. destruct (cpow m (rval x) (rval y)) as [cr ci]. rewrite geg_neg.
      destruct (Nat.even n); ring.
Qed.

(** The check of a list of weighted points: tolerance tn/td, target gn/gd for the constant, the
    kinds to look at (cosines, sines), stride in m, degree L. *)
Definition wcheck (tn td gn gd : Z) (fc fs : nat -> nat -> bool) (ks : bool) (st L : nat) (l : list wpt) : bool :=
  let ps := filter upper l in
  let ns := map mirror (filter (fun p => negb (upper p)) l) in
  let k1 := Z.of_nat (length ps) in
  let k2 := Z.of_nat (length ns) in
  forallb wpt_ok l && Nat.leb L 1000 && Nat.leb 1 st && Nat.leb st 4 && (0 <? tn)%Z && (0 <? td)%Z && (0 <? gd)%Z &&
  (Z.of_nat (length l) <=? 1000000)%Z &&
  rows k1 k2 (BigZ.of_Z (2 * k1 * U)) (BigZ.of_Z (2 * k2 * U)) (BigZ.of_Z (gn * U / gd)) tn td
       fc fs ks st L L 0 0%uint63 (BigZ.of_Z (U * U)) (map (wload st) ps) (map (wload st) ns).

Lemma Forall_wload : forall st l, (1 <= st <= 4)%nat -> (forall p, In p l -> wpt_ok p = true /\ upper p = true) ->
  Forall pt_ok (map wpt_R l) /\ Forall (fun p => 0 <= snd (fst p)) (map wpt_R l) /\ Forall2 (prep st 0) (map wpt_R l) (map (wload st) l).
Proof.
  intros st l Hst. induction l as [|p l IH]; intro H; cbn [map]; [repeat split; constructor|].
  destruct (IH ltac:(intros; apply H; right; auto)) as (A1 & A2 & A3). destruct (H p (or_introl eq_refl)) as [B1 B2].
  split; [|split]; constructor; auto.
  - apply wpt_ok_sound; auto.
  - apply upper_R; auto.
  - apply wload_prep; auto.
Qed.

Theorem wcheck_sound : forall tn td gn gd fc fs ks st L l, wcheck tn td gn gd fc fs ks st L l = true ->
  forall m n, (m + n <= L)%nat -> Nat.eqb (m mod st) 0 = true -> forall s : bool, (if s then ks && fs m n else fc m n) = true ->
  Rabs (wsum (map wpt_R l) (harm s m n) - (if Nat.eqb (m + n) 0 then if s then 0 else IZR gn / IZR gd else 0))
    <= IZR tn / IZR td * harm_norm m n.
Proof.
  intros tn td gn gd fc fs ks st L l H m n Hmn Hst s Hs. unfold wcheck in H. cbv zeta in H.
  repeat (apply andb_prop in H; destruct H as [H ?Hb]).
  apply Nat.leb_le in Hb6, Hb5, Hb4. apply Z.ltb_lt in Hb3, Hb2, Hb1. apply Z.leb_le in Hb0.
  rewrite forallb_forall in H. rewrite wsum_mirror.
  set (ps := filter upper l) in *. set (ns := map mirror (filter (fun p => negb (upper p)) l)) in *.
  destruct (Forall_wload st ps ltac:(lia)) as (P1 & P2 & P3).
  { intros p Hp. apply filter_In in Hp. destruct Hp. auto. }
  destruct (Forall_wload st ns ltac:(lia)) as (N1 & N2 & N3).
  { intros p Hp. apply in_map_iff in Hp. destruct Hp as (q & <- & Hq). apply filter_In in Hq. destruct Hq as [Q1 Q2].
    apply negb_true_iff in Q2. rewrite mirror_ok. split; [apply H; auto|apply mirror_up; auto]. }
  assert (Hlen : (length ps + length ns = length l)%nat).
  { unfold ps, ns. rewrite map_length. clear. induction l as [|p l IH]; cbn [filter]; [reflexivity|].
    destruct (upper p); cbn [negb length]; lia. }
  assert (HT : Rabs (IZR (BigZ.to_Z (BigZ.of_Z (gn * U / gd))) - UR * (IZR gn / IZR gd)) <= 1).
  { rewrite BigZ.spec_of_Z. pose proof (zdiv_down (gn * U)%Z gd Hb1) as Q. rewrite mult_IZR in Q. fold UR in Q.
    assert (0 < IZR gd) by (apply IZR_lt; auto).
    replace (UR * (IZR gn / IZR gd)) with (IZR gn * UR / IZR gd) by (field; lra).
    apply Rabs_le. lra. }
  assert (Hq : qok 0 0 (BigZ.of_Z (U * U))).
  { unfold qok. rewrite BigZ.spec_of_Z. split; [unfold U; lia|]. rewrite mult_IZR. fold UR.
    change (num_of 0 0) with 1%Z. change (den_of 0 0) with 1%Z. right. field. }
  apply Nat.eqb_eq in Hst. apply Nat.mod_divides in Hst; [|lia]. destruct Hst as [j ->].
  assert (Hj : (j <= L)%nat) by nia.
  pose proof (rows_sound (map wpt_R ps) (map wpt_R ns) P1 N1 P2 N2
    (Z.of_nat (length ps)) (Z.of_nat (length ns)) tn td
    (BigZ.of_Z (2 * Z.of_nat (length ps) * U)) (BigZ.of_Z (2 * Z.of_nat (length ns) * U)) (BigZ.of_Z (gn * U / gd)) (IZR gn / IZR gd)
    ltac:(rewrite map_length; reflexivity) ltac:(rewrite map_length; reflexivity) ltac:(lia) ltac:(lia)
    (BigZ.spec_of_Z _) (BigZ.spec_of_Z _) HT Hb3 Hb2
    fc fs ks st L ltac:(lia) Hb6 L 0%nat 0%uint63 (BigZ.of_Z (U * U)) _ _ eq_refl ltac:(lia) Hq P3 N3 Hb j n Hj ltac:(nia)) as [G1 G2].
  rewrite Nat.add_0_l, (Nat.mul_comm j st) in G1, G2. unfold good in G1, G2.
  destruct s.
  - apply andb_prop in Hs. destruct Hs. apply G2; auto.
  - apply G1; auto.
Qed.

(** ** Sums over coded grids *)
Fixpoint gsum (g : coded) (f : R -> R -> R -> R) : R :=
  match g with [] => 0 | (b, w) :: r => rval w * lsum (block_points b) f + gsum r f end.

Definition block_wpts (bw : block * lit) : list wpt :=
  map (fun pk : lit3 * Z => (fst pk, ((snd pk * fst (snd bw))%Z, (10 ^ snd (snd bw))%Z))) (reps (fst bw)).
Definition coded_wpts (g : coded) : list wpt := flat_map block_wpts g.

Lemma wsum_app : forall a b f, wsum (a ++ b) f = wsum a f + wsum b f.
Proof. induction a as [|[[[x y] z] v] a IH]; intros b f; cbn [app wsum]; [ring|]. rewrite IH. ring. Qed.

Lemma block_wsum : forall b w f, wsum (map wpt_R (block_wpts (b, w))) f = rval w * rsum (reps b) f.
Proof.
  intros b w f. unfold block_wpts. cbn [fst snd]. induction (reps b) as [|[[[x y] z] k] l IH]; cbn [map wsum rsum wpt_R fst snd at3].
  - ring.
  - rewrite IH. unfold rval. rewrite mult_IZR. unfold Rdiv. ring.
Qed.

Lemma gsum_oct : forall g s m n, forallb (fun bw => is_oct (fst bw)) g = true ->
  gsum g (harm s m n) = if octok s m n then wsum (map wpt_R (coded_wpts g)) (harm s m n) else 0.
Proof.
  induction g as [|[b w] g IH]; intros s m n H; cbn [gsum forallb coded_wpts flat_map fst] in *.
  - destruct (octok s m n); reflexivity.
  - apply andb_prop in H. destruct H as [Hb Hg]. rewrite (IH s m n Hg), block_oct_harm by auto.
    rewrite map_app, wsum_app, block_wsum. destruct (octok s m n); [reflexivity|ring].
Qed.
Lemma gsum_tet : forall g s m n, forallb (fun bw => negb (is_oct (fst bw))) g = true ->
  gsum g (harm s m n) = if tetok s m n then wsum (map wpt_R (coded_wpts g)) (harm s m n) else 0.
Proof.
  induction g as [|[b w] g IH]; intros s m n H; cbn [gsum forallb coded_wpts flat_map fst] in *.
  - destruct (tetok s m n); reflexivity.
  - apply andb_prop in H. destruct H as [Hb Hg]. apply negb_true_iff in Hb. rewrite (IH s m n Hg), block_tet_harm by auto.
    rewrite map_app, wsum_app, block_wsum. destruct (tetok s m n); [reflexivity|ring].
Qed.

(** A functional is within [tol] of [T] times the constant coefficient. *)
Definition near_mean (tol T : R) (L : nat) (F : (R -> R -> R -> R) -> R) : Prop :=
  forall s m n, (m + n <= L)%nat ->
  Rabs (F (harm s m n) - (if Nat.eqb (m + n) 0 then if s then 0 else T else 0)) <= tol * harm_norm m n.

Definition oct_check (tn td : Z) (L : nat) (g : coded) : bool :=
  forallb (fun bw => is_oct (fst bw)) g &&
  wcheck tn td 1%Z 1%Z (fun m n => octok false m n) (fun m n => false) false 4 L (coded_wpts g).
Definition tet_check (tn td gn gd : Z) (L : nat) (g : coded) : bool :=
  forallb (fun bw => negb (is_oct (fst bw))) g &&
  wcheck tn td gn gd (fun m n => tetok false m n) (fun m n => tetok true m n) true 2 L (coded_wpts g).

Lemma harm_norm_pos : forall m n, 0 <= harm_norm m n.
Proof. intros. apply sqrt_pos. Qed.

Lemma tol_pos : forall a b : Z, (0 < a)%Z -> (0 < b)%Z -> 0 < IZR a / IZR b.
Proof. intros. apply Rdiv_lt_0_compat; apply IZR_lt; auto. Qed.

Theorem oct_check_sound : forall tn td L g, oct_check tn td L g = true -> near_mean (IZR tn / IZR td) 1 L (gsum g).
Proof.
  intros tn td L g H s m n Hmn. unfold oct_check in H. apply andb_prop in H. destruct H as [Ho H].
  rewrite gsum_oct by auto. destruct (octok s m n) eqn:E.
  - assert (s = false) by (destruct s; [discriminate E|reflexivity]). subst s.
    assert (Em : Nat.eqb (m mod 4) 0 = true).
    { unfold octok in E. cbn [negb andb] in E. apply andb_prop in E. apply E. }
    pose proof (wcheck_sound _ _ _ _ _ _ _ _ _ _ H m n Hmn Em false E) as G.
    replace (IZR 1 / IZR 1) with 1 in G by field. exact G.
  - assert (Z0 : (if Nat.eqb (m + n) 0 then if s then 0 else 1 else 0) = 0).
    { destruct (Nat.eqb (m + n) 0) eqn:F; auto. destruct s; auto. apply Nat.eqb_eq in F.
      replace m with 0%nat in E by lia. replace n with 0%nat in E by lia. discriminate E. }
    rewrite Z0, Rminus_0_r, Rabs_R0. apply Rmult_le_pos; [|apply harm_norm_pos].
    unfold wcheck in H. repeat (apply andb_prop in H; destruct H as [H ?Hb]). left.
    apply tol_pos; apply Z.ltb_lt; auto.
Qed.

Theorem tet_check_sound : forall tn td gn gd L g, tet_check tn td gn gd L g = true ->
  near_mean (IZR tn / IZR td) (IZR gn / IZR gd) L (gsum g).
Proof.
  intros tn td gn gd L g H s m n Hmn. unfold tet_check in H. apply andb_prop in H. destruct H as [Ho H].
  rewrite gsum_tet by auto. destruct (tetok s m n) eqn:E.
  - assert (Em : Nat.even m = true) by (unfold tetok in E; apply andb_prop in E; apply E).
    assert (Em2 : Nat.eqb (m mod 2) 0 = true).
    { apply Nat.eqb_eq. apply Nat.even_spec in Em. destruct Em as [k ->]. rewrite Nat.mul_comm. apply Nat.mod_mul. lia. }
    apply (wcheck_sound _ _ _ _ _ _ _ _ _ _ H m n Hmn Em2 s). destruct s; exact E.
  - assert (Z0 : (if Nat.eqb (m + n) 0 then if s then 0 else IZR gn / IZR gd else 0) = 0).
    { destruct (Nat.eqb (m + n) 0) eqn:F; auto. destruct s; auto. apply Nat.eqb_eq in F.
      replace m with 0%nat in E by lia. replace n with 0%nat in E by lia. discriminate E. }
    rewrite Z0, Rminus_0_r, Rabs_R0. apply Rmult_le_pos; [|apply harm_norm_pos].
    unfold wcheck in H. repeat (apply andb_prop in H; destruct H as [H ?Hb]). left.
    apply tol_pos; apply Z.ltb_lt; auto.
Qed.

(** Plain point lists with equal weights. *)
Definition plain_wpts (n : Z) (ps : list lit3) : list wpt := map (fun p => (p, (1%Z, n))) ps.
Definition plain_check (tn td : Z) (L : nat) (n : Z) (ps : list lit3) : bool :=
  wcheck tn td 1%Z 1%Z (fun _ _ => true) (fun m _ => negb (Nat.eqb m 0)) true 1 L (plain_wpts n ps).

Lemma plain_wsum : forall n ps f, wsum (map wpt_R (plain_wpts n ps)) f = lsum ps f / IZR n.
Proof.
  intros n ps f. unfold plain_wpts. induction ps as [|[[x y] z] ps IH]; cbn [map wsum lsum wpt_R at3].
  - unfold Rdiv. ring.
  - rewrite IH. unfold Rdiv. ring.
Qed.
Theorem plain_check_sound : forall tn td L n ps, plain_check tn td L n ps = true ->
  near_mean (IZR tn / IZR td) 1 L (fun f => lsum ps f / IZR n).
Proof.
  intros tn td L k ps H s m n Hmn. destruct (s && Nat.eqb m 0) eqn:E.
  - apply andb_prop in E. destruct E as [Es Em]. apply Nat.eqb_eq in Em. subst s m.
    assert (Z0 : lsum ps (harm true 0 n) = 0).
    { clear. induction ps as [|[[x y] z] ps IH]; cbn [lsum at3]; [reflexivity|]. rewrite IH. unfold harm. cbn. ring. }
    rewrite Z0. replace (0 / IZR k - (if Nat.eqb (0 + n) 0 then 0 else 0)) with 0
      by (unfold Rdiv; destruct (Nat.eqb (0 + n) 0); ring).
    rewrite Rabs_R0. apply Rmult_le_pos; [|apply harm_norm_pos].
    unfold plain_check, wcheck in H. cbv zeta in H. repeat (apply andb_prop in H; destruct H as [H ?Hb]). left.
    apply tol_pos; apply Z.ltb_lt; auto.
  - pose proof (wcheck_sound _ _ _ _ _ _ _ _ _ _ H m n Hmn eq_refl s) as G.
    rewrite plain_wsum in G. replace (IZR 1 / IZR 1) with 1 in G by field. apply G.
    destruct s; [|reflexivity]. cbn [andb] in *. rewrite E. reflexivity.
Qed.

(** ** From single harmonics to combinations *)
Definition linear (F : (R -> R -> R -> R) -> R) : Prop :=
  (forall c f g, F (fun x y z => c * f x y z + g x y z) = c * F f + F g) /\ F (fun _ _ _ => 0) = 0.

Lemma lsum_linear : forall l, linear (lsum l).
Proof.
  intro l. split; intros; induction l as [|[[x y] z] l IH]; cbn [lsum at3]; try rewrite IH; ring.
Qed.
Lemma gsum_linear : forall g, linear (gsum g).
Proof.
  intro g. split; intros; induction g as [|[b w] g IH]; cbn [gsum]; try ring; rewrite IH.
  - rewrite (proj1 (lsum_linear _)). ring.
  - rewrite (proj2 (lsum_linear _)). ring.
Qed.
Lemma linear_scal : forall F k, linear F -> linear (fun f => F f / k).
Proof. intros F k [H1 H2]. split; intros; [rewrite H1|rewrite H2]; unfold Rdiv; ring. Qed.

Lemma near_mean_heval : forall tol T L F, linear F -> near_mean tol T L F ->
  forall h, hdeg_le h L -> Rabs (F (heval h) - T * hconst h) <= tol * hsize h.
Proof.
  intros tol T L F [HF1 HF2] Hn. induction h as [|[c [[s m] n]] h IH]; intro Hd.
  - change (heval []) with (fun _ _ _ : R => 0). rewrite HF2. cbn [hconst hsize].
    replace (0 - T * 0) with 0 by ring. rewrite Rabs_R0. lra.
  - change (heval ((c, (s, m, n)) :: h)) with (fun x y z => c * harm s m n x y z + heval h x y z).
    rewrite HF1. cbn [hconst hsize].
    assert (Hmn : (m + n <= L)%nat) by (apply (Hd c s m n); left; reflexivity).
    specialize (IH ltac:(intros c' s' m' n' Hin; apply (Hd c' s' m' n'); right; exact Hin)).
    specialize (Hn s m n Hmn).
    set (t := if Nat.eqb (m + n) 0 then if s then 0 else T else 0) in *.
    replace (T * ((if s then 0 else if Nat.eqb (m + n) 0 then c else 0) + hconst h)) with (c * t + T * hconst h)
      by (unfold t; destruct s, (Nat.eqb (m + n) 0); ring).
    replace (c * F (harm s m n) + F (heval h) - (c * t + T * hconst h))
      with (c * (F (harm s m n) - t) + (F (heval h) - T * hconst h)) by ring.
    eapply Rle_trans; [apply Rabs_triang|]. rewrite Rabs_mult.
    assert (Rabs c * Rabs (F (harm s m n) - t) <= Rabs c * (tol * harm_norm m n))
      by (apply Rmult_le_compat_l; [apply Rabs_pos|exact Hn]).
    lra.
Qed.

(** ** Quadrature sums over the coded grids *)
Lemma nsum_app : forall a b f, nsum (a ++ b) f = nsum a f + nsum b f.
Proof. induction a as [|[[[x y] z] v] a IH]; intros b f; cbn [app nsum]; [ring|]. rewrite IH. ring. Qed.

Lemma combine_app : forall (A B : Type) (a a' : list A) (b b' : list B), length a = length b ->
  combine (a ++ a') (b ++ b') = combine a b ++ combine a' b'.
Proof.
  induction a as [|x a IH]; intros a' [|y b] b' H; try discriminate H; cbn [app combine]; [reflexivity|].
  f_equal. apply IH. injection H; auto.
Qed.

Lemma nsum_block : forall (l : list lit3) (k w : R) f,
  nsum (combine (map (lit3_val (S:=RS)) l) (map (fun _ : lit3 => k * w) l)) f = k * (w * lsum l f).
Proof.
  induction l as [|[[x y] z] l IH]; intros k w f; cbn [map combine nsum lsum at3 lit3_val].
  - ring.
  - rewrite IH, !rval_lit. ring.
Qed.

Lemma nsum_coded : forall g k f,
  nsum (combine (map (lit3_val (S:=RS)) (coded_points g)) (map (fun d => k * lit_val (S:=RS) d) (coded_weights g))) f
    = k * gsum g f.
Proof.
  induction g as [|[b w] g IH]; intros k f; unfold coded_points, coded_weights; cbn [flat_map fst snd gsum].
  - cbn. ring.
  - rewrite !map_app, combine_app by (rewrite !map_length; reflexivity).
    rewrite nsum_app. fold (coded_points g). fold (coded_weights g). rewrite IH. rewrite map_map.
    rewrite nsum_block, rval_lit. ring.
Qed.

Lemma nsum_plain : forall (l : list lit3) (w : R) f,
  nsum (combine (map (lit3_val (S:=RS)) l) (repeat w (length l))) f = w * lsum l f.
Proof.
  induction l as [|[[x y] z] l IH]; intros w f; cbn [length repeat map combine nsum lsum at3 lit3_val].
  - ring.
  - rewrite IH, !rval_lit. ring.
Qed.
