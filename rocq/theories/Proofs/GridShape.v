(** Sizes, distances from the unit sphere and signs of the weights of the transcribed grids. *)
From Coq Require Import ZArith List Bool Reals Lra Lia Psatz.
From Bignums Require Import BigN BigZ.
From Verif Require Import Base.Scalar Base.RScalar Model.S2 Model.GridCode Spec.SphereInt Proofs.GridSym.
Import ListNotations.
Local Open Scope R_scope.

(** ** Sizes *)
Definition bsize (b : block) : Z :=
  match b with
  | LL6 _ | DE6 _ => 6 | LL8 _ | DE8 _ => 8 | LL12 _ | DE12 _ => 12
  | LL24 _ _ | LL24o _ _ | DE24 _ _ | DE24o _ _ => 24 | LL48 _ _ _ | DE48 _ _ _ => 48
  | AB12 _ _ => 12
  | AB60 _ _ _ _ _ _ _ _ _ _ _ _ _ _ _ => 60
  end%Z.
Fixpoint csize (g : coded) : Z := match g with [] => 0 | (b, _) :: r => bsize b + csize r end%Z.
Lemma csize_points : forall g, Z.of_nat (length (coded_points g)) = csize g.
Proof.
  induction g as [|[b w] g IH]; [reflexivity|]. unfold coded_points in *. cbn [flat_map fst csize].
  rewrite app_length, Nat2Z.inj_add, IH. f_equal. destruct b; reflexivity.
Qed.
Lemma coded_lengths : forall g, length (coded_weights g) = length (coded_points g).
Proof.
  induction g as [|[b w] g IH]; [reflexivity|]. unfold coded_points, coded_weights in *. cbn [flat_map fst snd].
  rewrite !app_length, IH, map_length. reflexivity.
Qed.

(** ** Distance from the sphere *)
(** Powers of ten, tabulated. *)
Definition tens : list Z := [
   1; 10; 100; 1000; 10000; 100000; 1000000; 10000000; 100000000; 1000000000; 10000000000;
   100000000000; 1000000000000; 10000000000000; 100000000000000; 1000000000000000; 10000000000000000;
   100000000000000000; 1000000000000000000; 10000000000000000000; 100000000000000000000;
   1000000000000000000000; 10000000000000000000000; 100000000000000000000000;
   1000000000000000000000000; 10000000000000000000000000; 100000000000000000000000000;
   1000000000000000000000000000; 10000000000000000000000000000; 100000000000000000000000000000;
   1000000000000000000000000000000; 10000000000000000000000000000000;
   100000000000000000000000000000000; 1000000000000000000000000000000000;
   10000000000000000000000000000000000; 100000000000000000000000000000000000;
   1000000000000000000000000000000000000; 10000000000000000000000000000000000000;
   100000000000000000000000000000000000000; 1000000000000000000000000000000000000000;
   10000000000000000000000000000000000000000]%Z.
Definition p10 (k : Z) : Z := nth (Z.to_nat k) tens (10 ^ k)%Z.
Lemma p10_ok : forall k, (0 <= k)%Z -> p10 k = (10 ^ k)%Z.
Proof.
  intros k Hk. unfold p10. destruct (Nat.lt_ge_cases (Z.to_nat k) (length tens)) as [H|H].
  - rewrite <- (Z2Nat.id k) at 2 3 by auto. generalize (Z.to_nat k) H. clear. intros n H.
    rewrite (nth_indep _ _ 0%Z H).
    change (length tens) with 41%nat in H.
    do 41 (destruct n as [|n]; [reflexivity|]). lia.
  - apply nth_overflow. exact H.
Qed.

(** The same as machine integers. *)
Definition btens : list BigZ.t := Eval vm_compute in map BigZ.of_Z tens.
Definition b10 (k : Z) : BigZ.t := nth (Z.to_nat k) btens (BigZ.of_Z (10 ^ k)).
Lemma b10_ok : forall k, BigZ.to_Z (b10 k) = p10 k.
Proof.
  intro k. unfold b10, p10. rewrite <- (BigZ.spec_of_Z (10 ^ k)) at 2. generalize (Z.to_nat k) (BigZ.of_Z (10 ^ k)%Z). clear. intros n d.
  rewrite <- (map_nth BigZ.to_Z). f_equal.
Qed.

(** |x^2 + y^2 + z^2 - 1| <= 5e-16. *)
Definition e15 : BigZ.t := Eval vm_compute in BigZ.of_Z 2000000000000000.
Definition on_sphere (p : lit3) : bool :=
  let '((x, ex), (y, ey), (z, ez)) := p in
  let k := Z.max ex (Z.max ey ez) in
  let X := BigZ.mul (BigZ.of_Z x) (b10 (k - ex)) in
  let Y := BigZ.mul (BigZ.of_Z y) (b10 (k - ey)) in
  let T := BigZ.mul (BigZ.of_Z z) (b10 (k - ez)) in
  let N := b10 k in let N2 := BigZ.mul N N in
  (0 <=? ex)%Z && (0 <=? ey)%Z && (0 <=? ez)%Z &&
  BigZ.leb (BigZ.mul (BigZ.abs (BigZ.sub (BigZ.add (BigZ.add (BigZ.mul X X) (BigZ.mul Y Y)) (BigZ.mul T T)) N2)) e15) N2.

Definition sq3 (p : lit3) : R := let '(x, y, z) := p in rval x * rval x + rval y * rval y + rval z * rval z.
Definition sph (p : lit3) : Prop := Rabs (sq3 p - 1) <= 5 / 10000000000000000.

Lemma scaled_R : forall m e k, (0 <= e <= k)%Z -> IZR (m * p10 (k - e)) = rval (m, e) * IZR (p10 k).
Proof.
  intros m e k H. rewrite !p10_ok by lia. unfold rval. cbn [fst snd]. rewrite mult_IZR.
  assert (E : (10 ^ k = 10 ^ (k - e) * 10 ^ e)%Z) by (rewrite <- Z.pow_add_r by lia; f_equal; lia).
  rewrite E, mult_IZR. assert (0 < IZR (10 ^ e)) by (apply IZR_lt, Z.pow_pos_nonneg; lia). field. lra.
Qed.

Lemma on_sphere_sound : forall p, on_sphere p = true -> sph p.
Proof.
  intros [[[x ex] [y ey]] [z ez]] H. unfold on_sphere in H. cbv zeta in H.
  apply andb_prop in H. destruct H as [H Hb]. apply andb_prop in H. destruct H as [H Hb0].
  apply andb_prop in H. destruct H as [H Hb1]. apply Z.leb_le in H, Hb0, Hb1. rewrite BigZ.spec_leb in Hb.
  repeat rewrite ?BigZ.spec_mul, ?BigZ.spec_abs, ?BigZ.spec_sub, ?BigZ.spec_add, ?BigZ.spec_of_Z, ?b10_ok in Hb.
  change (BigZ.to_Z e15) with 2000000000000000%Z in Hb. apply Z.leb_le, IZR_le in Hb. unfold sph, sq3.
  set (k := Z.max ex (Z.max ey ez)) in *. assert (Hk : (ex <= k /\ ey <= k /\ ez <= k)%Z) by lia. clearbody k.
  pose proof (scaled_R x ex k ltac:(lia)) as Ex. pose proof (scaled_R y ey k ltac:(lia)) as Ey.
  pose proof (scaled_R z ez k ltac:(lia)) as Ez.
  set (X := (x * p10 (k - ex))%Z) in *. set (Y := (y * p10 (k - ey))%Z) in *. set (Q := (z * p10 (k - ez))%Z) in *. clearbody X Y Q.
  assert (T : 0 < IZR (p10 k)) by (rewrite p10_ok by lia; apply IZR_lt, Z.pow_pos_nonneg; lia).
  rewrite mult_IZR, abs_IZR, minus_IZR, !plus_IZR, !mult_IZR, Ex, Ey, Ez in Hb.
  set (t := IZR (p10 k)) in *. clearbody t.
  set (a := rval (x, ex)) in *. set (b := rval (y, ey)) in *. set (c := rval (z, ez)) in *.
  replace (a * t * (a * t) + b * t * (b * t) + c * t * (c * t) - t * t)
    with ((a * a + b * b + c * c - 1) * (t * t)) in Hb by ring.
  rewrite Rabs_mult, (Rabs_pos_eq (t * t)) in Hb by nra.
  apply (Rmult_le_reg_r (t * t)); [nra|]. lra.
Qed.

Definition bparams (b : block) : list lit3 :=
  match b with
  | LL6 a | DE6 a => [(a, o, o)] | LL8 a | DE8 a => [(a, a, a)] | LL12 a | DE12 a => [(a, a, o)]
  | LL24 a b => [(a, a, b)] | DE24 a b => [(a, b, b)] | LL24o a b | DE24o a b => [(a, b, o)]
  | LL48 a b c | DE48 a b c => [(a, b, c)]
  | AB12 a b => [(a, b, o)]
  | AB60 x1 y1 z1 x2 y2 z2 x3 y3 z3 x4 y4 z4 x5 y5 z5 =>
    [(x1, y1, z1); (x2, y2, z2); (x3, y3, z3); (x4, y4, z4); (x5, y5, z5)]
  end.

Lemma rval_o : rval o = 0. Proof. unfold rval, o. cbn. unfold Rdiv. ring. Qed.
Ltac one_sph :=
  match goal with H : Rabs (?s - 1) <= _ |- Rabs (?t - 1) <= _ =>
    replace t with s by (rewrite ?rval_neg, ?rval_o; ring); exact H end.
Lemma block_sph : forall b, Forall sph (bparams b) -> Forall sph (block_points b).
Proof.
  intros b H. destruct b; cbn [bparams block_points] in *;
  repeat match goal with H : Forall _ (_ :: _) |- _ => inversion H; clear H; subst | H : Forall _ [] |- _ => clear H end;
  unfold sph, sq3 in *; cbv [ll6 ll8 ll12 ll24 ll24o ll48 de6 de8 de12 de24 de24o de48 ab12 ab60];
  repeat (apply Forall_nil || apply Forall_cons);
  first [one_sph | match goal with H : _ |- _ => clear H; one_sph end
        | repeat match goal with H : Rabs (?s - 1) <= _ |- Rabs (?t - 1) <= _ =>
            first [replace t with s by (rewrite ?rval_neg, ?rval_o; ring); exact H | clear H] end].
Qed.

Definition coded_sph (g : coded) : bool := forallb (fun bw => forallb on_sphere (bparams (fst bw))) g.
Lemma coded_sph_sound : forall g, coded_sph g = true -> Forall sph (coded_points g).
Proof.
  induction g as [|[b w] g IH]; intro H; unfold coded_points in *; cbn [flat_map fst]; [constructor|].
  unfold coded_sph in H. cbn [forallb fst] in H. apply andb_prop in H. destruct H as [H1 H2].
  apply Forall_app. split; [|apply IH; exact H2]. apply block_sph.
  apply Forall_forall. intros p Hp. rewrite forallb_forall in H1. apply on_sphere_sound, H1, Hp.
Qed.

Lemma sph_near : forall p, sph p -> near_sphere (5 / 10000000000000000) (lit3_val (S := RS) p).
Proof. intros [[x y] z] H. unfold near_sphere, lit3_val. rewrite !rval_lit. exact H. Qed.
Lemma Forall_near : forall l, Forall sph l -> Forall (near_sphere (5 / 10000000000000000)) (map (lit3_val (S := RS)) l).
Proof. intros l H. apply Forall_map. eapply Forall_impl; [|exact H]. exact sph_near. Qed.

(** ** Signs of the weights *)
Definition coded_pos (g : coded) : bool := forallb (fun bw => (0 <? fst (snd bw))%Z && (0 <=? snd (snd bw))%Z) g.
Lemma coded_pos_sound : forall g, coded_pos g = true -> Forall (fun d => 0 < rval d) (coded_weights g).
Proof.
  induction g as [|[b [m e]] g IH]; intro H; unfold coded_weights in *; cbn [flat_map fst snd]; [constructor|].
  unfold coded_pos in H. cbn [forallb fst snd] in H. apply andb_prop in H. destruct H as [H1 H2].
  apply andb_prop in H1. destruct H1 as [H1 H3]. apply Z.ltb_lt in H1. apply Z.leb_le in H3.
  apply Forall_app. split; [|apply IH; exact H2]. apply Forall_map. apply Forall_forall. intros p _.
  unfold rval. cbn [fst snd]. apply Rdiv_lt_0_compat; apply IZR_lt; [exact H1|]. apply Z.pow_pos_nonneg; lia.
Qed.

(** Some block has a negative weight. *)
Definition coded_neg (g : coded) : bool := existsb (fun bw => (fst (snd bw) <? 0)%Z && (0 <=? snd (snd bw))%Z) g.
Lemma block_nonempty : forall b, exists p, In p (block_points b).
Proof. destruct b; eexists; left; reflexivity. Qed.
Lemma coded_neg_sound : forall g, coded_neg g = true -> Exists (fun d => rval d < 0) (coded_weights g).
Proof.
  intros g H. apply existsb_exists in H. destruct H as ([b [m e]] & Hin & H). cbn [fst snd] in H.
  apply andb_prop in H. destruct H as [H1 H2]. apply Z.ltb_lt in H1. apply Z.leb_le in H2.
  apply Exists_exists. exists (m, e). split.
  - apply in_flat_map. exists (b, (m, e)). split; [exact Hin|]. cbn [fst snd]. destruct (block_nonempty b) as [p Hp].
    apply in_map_iff. exists p. auto.
  - unfold rval. cbn [fst snd]. assert (0 < IZR (10 ^ e)) by (apply IZR_lt, Z.pow_pos_nonneg; lia).
    apply IZR_lt in H1. unfold Rdiv. pose proof (Rinv_0_lt_compat _ H). nra.
Qed.
