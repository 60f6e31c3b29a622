(** Soundness of the three-limb checker. *)
From Coq Require Import ZArith List Bool Reals Lra Lia Psatz Uint63.
From Bignums Require Import BigN BigZ.
From Coquelicot Require Import Rcomplements.
From Verif Require Import Spec.SphereInt Proofs.SphereIntFacts Proofs.HarmStable Proofs.HarmBase
  Proofs.Limb Proofs.LimbCheck.
Import ListNotations.
Local Open Scope R_scope.

Definition UR : R := IZR U.
Lemma UR_big : 1000000000000000000 <= UR.
Proof. unfold UR. apply IZR_le. vm_compute. discriminate. Qed.
Lemma UR_pos : 0 < UR. Proof. pose proof UR_big. lra. Qed.
Lemma N_R : IZR N = 8 * UR.
Proof. unfold UR. rewrite <- mult_IZR. reflexivity. Qed.
Lemma H4_R : IZR H4 = 4 * UR.
Proof. unfold UR. rewrite <- mult_IZR. reflexivity. Qed.
Lemma B2_R : 1000 * IZR (4 * (B * B)) <= UR.
Proof. unfold UR. rewrite <- mult_IZR. apply IZR_le. vm_compute. discriminate. Qed.
Lemma W_R : IZR W = 128 * UR.
Proof. unfold UR. rewrite <- mult_IZR. reflexivity. Qed.

(** Rounded multiplication. *)
Lemma mad_R : forall (M X Y : Z) (x : R), (M * N <= X * Y < (M + 8) * N)%Z -> (0 <= Y < N)%Z ->
  Rabs (IZR X - IZR N * x) <= 2 -> Rabs (IZR M - x * IZR Y) <= 10.
Proof.
  intros M X Y x [H1 H2] [Y1 Y2] HX. pose proof N_R as EN. pose proof UR_pos as HU.
  apply IZR_le in H1, Y1. apply IZR_lt in H2, Y2. rewrite !mult_IZR in H1. rewrite !mult_IZR, plus_IZR in H2.
  set (n := IZR N) in *. assert (Hn : 0 < n) by lra.
  set (t := IZR X - n * x) in *. replace (IZR X) with (n * x + t) in H1, H2 by (unfold t; ring).
  apply Rabs_le_between in HX.
  assert (Hq : 0 <= IZR Y / n < 1).
  { split; [apply Rmult_le_pos; [auto|left; apply Rinv_0_lt_compat; auto]|].
    apply (Rmult_lt_reg_r n); auto. unfold Rdiv. rewrite Rmult_assoc, Rinv_l by lra. lra. }
  set (y := IZR Y / n) in *. assert (EY : IZR Y = y * n) by (unfold y; field; lra). rewrite EY in *.
  assert (A1 : IZR M <= (n * x + t) * y).
  { apply (Rmult_le_reg_r n); auto. lra. }
  assert (A2 : (n * x + t) * y < IZR M + 8).
  { apply (Rmult_lt_reg_r n); auto. lra. }
  assert (Ht : -2 <= t * y <= 2) by nra.
  apply Rabs_le. split; nra.
Qed.

Lemma V_R_range : forall v h e : R, v = UR * (h + 2) + e -> Rabs h <= 8 / 5 -> Rabs e <= UR / 100 ->
  0 <= v < 8 * UR.
Proof.
  intros v h e -> Hh He. pose proof UR_pos. apply Rabs_le_between in Hh. apply Rabs_le_between in He. split; nra.
Qed.
Lemma in_range : forall v : Z, 0 <= IZR v < 8 * UR -> (0 <= v < N)%Z.
Proof. intros v [H1 H2]. rewrite <- N_R in H2. split; [apply le_IZR; auto|apply lt_IZR; auto]. Qed.
Lemma N_lt_W : (N < W)%Z. Proof. reflexivity. Qed.
Lemma cg_in : forall f t, lim f -> cg (V f) t -> (0 <= t < N)%Z -> V f = t.
Proof.
  intros f t Hf Hc Ht. apply cg_eq; auto.
  - split; [apply V_nonneg|apply V_lt_W; auto].
  - pose proof N_lt_W. lia.
Qed.

Lemma scaled : forall t x c : R, 0 <= t <= 1 -> - c <= x <= c -> - c <= t * x <= c.
Proof. intros t x c T X. split; nra. Qed.

(** One step of the recurrence. *)
Lemma step_R : forall (z b h h' e e' : R) zf kf af pf bf df Zz Bz Q,
  0 <= z <= 1 -> 0 <= b <= 1 ->
  lim16 zf Zz -> Rabs (IZR Zz - IZR N * z) <= 2 -> lim kf -> Rabs (IZR (V kf) - 2 * (1 - z) * UR) <= 2 ->
  lim16 bf Bz -> Rabs (IZR Bz - IZR N * b) <= 2 -> dlim df -> cg (V df) (- Q) -> (2 * Q <= Bz <= 2 * Q + 1)%Z ->
  lim af -> IZR (V af) = UR * (h + 2) + e -> lim pf -> IZR (V pf) = UR * (h' + 2) + e' ->
  Rabs h <= 8 / 5 -> Rabs h' <= 8 / 5 -> Rabs ((1 + b) * z * h - b * h') <= 8 / 5 ->
  Rabs e <= UR / 1000 -> Rabs e' <= UR / 1000 ->
  exists u d, step bf df (Col zf kf af pf) = Col zf kf u af /\ lim u /\ Rabs d <= 40 /\
    IZR (V u) = UR * (((1 + b) * z * h - b * h') + 2) + ((1 + b) * z * e - b * e' + d).
Proof.
  intros z b h h' e e' zf kf af pf bf df Zz Bz Q Hz Hb LZ EZ LK EK LB EB LD ED EQ LA EA LP EP Bh Bh' Bn Be Be'.
  pose proof UR_big as HU. pose proof N_R as EN. pose proof H4_R as EH. pose proof B2_R as EB2.
  assert (RA : (0 <= V af < N)%Z) by (apply in_range; eapply V_R_range; eauto; lra).
  assert (RP : (0 <= V pf < N)%Z) by (apply in_range; eapply V_R_range; eauto; lra).
  destruct (step_spec zf kf af pf bf df Zz Bz LZ LK LA LP LB LD ltac:(lia) ltac:(lia)) as (u & M1 & LU & PM1 & BM1 & CU & Hstep).
  pose proof (mad_R _ _ _ _ BM1 RA EZ) as E1.
  apply Rabs_le_between in E1. apply Rabs_le_between in EK.
  apply Rabs_le_between in Bh. apply Rabs_le_between in Bh'. apply Rabs_le_between in Bn.
  apply Rabs_le_between in Be. apply Rabs_le_between in Be'.
  set (d1 := IZR (V kf) + IZR M1 - (UR * (z * h + 2) + z * e)).
  assert (D1 : -12 <= d1 <= 12).
  { unfold d1. replace (UR * (z * h + 2) + z * e) with (2 * (1 - z) * UR + z * IZR (V af)) by (rewrite EA; ring). lra. }
  assert (Bzh : - (8 / 5) <= z * h <= 8 / 5) by (apply scaled; [exact Hz|lra]).
  assert (Bze : - (UR / 1000) <= z * e <= UR / 1000) by (apply scaled; [exact Hz|lra]).
  assert (VU : IZR (V kf + M1) = UR * (z * h + 2) + (z * e + d1)) by (rewrite plus_IZR; unfold d1; ring).
  assert (RU : (0 <= V kf + M1 < N)%Z).
  { apply in_range. apply (V_R_range _ (z * h) (z * e + d1)); [exact VU|apply Rabs_le; lra|apply Rabs_le; lra]. }
  pose proof (cg_in _ _ LU CU RU) as EU. rewrite <- EU in VU, RU.
  set (w := (V u - V pf + H4)%Z).
  assert (EW : IZR w = UR * (z * h - h' + 4) + (z * e - e' + d1)).
  { unfold w. rewrite plus_IZR, minus_IZR, VU, EP, EH. ring. }
  assert (K1 : UR * (4 / 5) <= UR * (z * h - h' + 4)) by (apply Rmult_le_compat_l; lra).
  assert (K2 : UR * (z * h - h' + 4) <= UR * (36 / 5)) by (apply Rmult_le_compat_l; lra).
  assert (LW : (4 * (B * B) <= w)%Z).
  { apply le_IZR. apply Rle_trans with (UR * (4 / 5) - UR / 100); [lra|]. rewrite EW. lra. }
  assert (GW : (w < N)%Z).
  { apply lt_IZR. rewrite EW, EN. lra. }
  destruct (Hstep ltac:(lia) ltac:(unfold w in *; lia)) as (u' & M2 & ES & LU' & PM2 & BM2 & CU').
  fold w in BM2. assert (W0 : (0 <= w)%Z) by (pose proof B_pos; lia).
  pose proof (mad_R _ _ _ _ BM2 (conj W0 GW) EB) as E2. apply Rabs_le_between in E2. apply Rabs_le_between in EB.
  exists u', (d1 + b * d1 + (IZR M2 - b * IZR w) - (IZR Q - 4 * UR * b)).
  assert (HQ : -2 <= IZR Q - 4 * UR * b <= 2).
  { destruct EQ as [Q1 Q2]. apply IZR_le in Q1, Q2. rewrite plus_IZR in Q2. rewrite mult_IZR in Q1, Q2. rewrite EN in EB. lra. }
  set (dd := d1 + b * d1 + (IZR M2 - b * IZR w) - (IZR Q - 4 * UR * b)).
  pose proof (scaled b d1 12 Hb D1) as Bd.
  assert (Hdd : Rabs dd <= 40) by (unfold dd; apply Rabs_le; lra).
  assert (ET : IZR (V u + - Q + M2) = UR * (((1 + b) * z * h - b * h') + 2) + ((1 + b) * z * e - b * e' + dd)).
  { rewrite !plus_IZR, opp_IZR, VU. unfold dd. rewrite EW. ring. }
  assert (Bz2 : Rabs ((1 + b) * z * e - b * e') <= 3 * (UR / 1000)).
  { assert (- (UR / 1000) <= b * (z * e) <= UR / 1000) by (apply scaled; [exact Hb|exact Bze]).
    assert (- (UR / 1000) <= b * e' <= UR / 1000) by (apply scaled; [exact Hb|exact Be']).
    replace ((1 + b) * z * e - b * e') with (z * e + b * (z * e) - b * e') by ring. apply Rabs_le. lra. }
  apply Rabs_le_between in Bz2. apply Rabs_le_between in Hdd.
  assert (RT : (0 <= V u + - Q + M2 < N)%Z).
  { apply in_range. eapply V_R_range; [exact ET|apply Rabs_le; lra|apply Rabs_le; lra]. }
  assert (EV : V u' = (V u + - Q + M2)%Z).
  { apply cg_in; auto. eapply cg_trans; [exact CU'|]. apply cg_add; [|apply cg_refl]. apply cg_add; [apply cg_refl|exact ED]. }
  split; [exact ES|]. split; [exact LU'|]. split; [apply Rabs_le; lra|]. rewrite EV. exact ET.
Qed.

(** ** Turning *)
Lemma f0_V : V f0 = 0%Z. Proof. reflexivity. Qed.
Lemma mad0 : forall xf rf Xz x, lim16 xf Xz -> Rabs (IZR Xz - IZR N * x) <= 2 -> lim rf -> (0 <= V rf < N)%Z ->
  lim (mad xf rf f0) /\ Rabs (IZR (V (mad xf rf f0)) - x * IZR (V rf)) <= 10.
Proof.
  intros xf [r2 r1 r0] Xz x LX EX [L1 L0] RR. pose proof B_pos as HB.
  destruct (mad_spec xf (F3 r2 r1 r0) f0 Xz LX) as (M & PM & BM & CM & LM).
  { split; [apply (top_lim _ _ _ (proj2 RR))|lia]. }
  { unfold f0. change (iv 0%uint63) with 0%Z. lia. }
  split; [exact LM|]. rewrite f0_V, Z.add_0_l in CM.
  assert (EM : V (mad xf (F3 r2 r1 r0) f0) = M).
  { apply cg_in; auto. split; [auto|].
    destruct xf as [X2 X1 X0]. destruct LX as (x2 & x1 & x0 & EXz & _ & _ & _ & B2 & B1 & B0).
    assert (Xz < N)%Z by (rewrite EXz; unfold B, N in *; lia).
    assert (0 <= Xz)%Z by (rewrite EXz; unfold B in *; lia).
    destruct BM as [BM _]. assert (HN : (0 < N)%Z) by reflexivity.
    assert (Xz * V (F3 r2 r1 r0) <= N * V (F3 r2 r1 r0))%Z by (apply Z.mul_le_mono_nonneg_r; lia).
    assert (M * N <= V (F3 r2 r1 r0) * N)%Z by lia. apply Z.mul_le_mono_pos_r in H2; lia. }
  rewrite EM. eapply mad_R; eauto.
Qed.

(** c represents the point p = (x,y,z,v), z >= 0, after m turns; the stride is st. *)
Definition off (u t : R) (f : f3) : Prop := exists E, cg (V f) E /\ Rabs (IZR E - u * t) <= 2.
Definition prep (st m : nat) (p : rpt) (c : pt) : Prop :=
  let '(x, y, z, v) := p in
  let '(qx, qy) := cpow st x y in
  (exists Z1, lim16 (p_z c) Z1 /\ Rabs (IZR Z1 - IZR N * z) <= 2) /\
  lim (p_k c) /\ Rabs (IZR (V (p_k c)) - 2 * (1 - z) * UR) <= 2 /\
  (exists X1, lim16 (p_x c) X1 /\ Rabs (IZR X1 - IZR N * (1 / 2 + qx / 4)) <= 2) /\
  (exists Y1, lim16 (p_y c) Y1 /\ Rabs (IZR Y1 - IZR N * (1 / 2 + qy / 4)) <= 2) /\
  lim (p_e c) /\ off UR (2 * qy - 2 * qx + 2) (p_e c) /\
  lim (p_f c) /\ off UR (2 - 2 * qx - 2 * qy) (p_f c) /\
  lim (p_r c) /\ lim (p_i c) /\
  md (IZR (V (p_r c)) - UR * (v * fst (cpow m x y) + 2)) (IZR (V (p_i c)) - UR * (v * snd (cpow m x y) + 2))
    <= (2 + 164 * INR m) * rho ^ m.

Lemma INR_1000 : forall m, (m <= 1000)%nat -> 0 <= INR m <= 1000.
Proof. intros. split; [apply pos_INR|]. replace 1000 with (INR 1000) by (simpl; lra). apply le_INR; auto. Qed.

(** What the invariant says about the running products. *)
Lemma prod_bounds : forall m x y z v (r i : Z), (m <= 1000)%nat -> pt_ok (x, y, z, v) ->
  md (IZR r - UR * (v * fst (cpow m x y) + 2)) (IZR i - UR * (v * snd (cpow m x y) + 2)) <= (2 + 164 * INR m) * rho ^ m ->
  Rabs (v * fst (cpow m x y)) <= 3 / 2 /\ Rabs (v * snd (cpow m x y)) <= 3 / 2 /\
  Rabs (IZR r - UR * (v * fst (cpow m x y) + 2)) <= 246 * INR m + 3 /\
  Rabs (IZR i - UR * (v * snd (cpow m x y) + 2)) <= 246 * INR m + 3.
Proof.
  intros m x y z v r i Hm Hp Hc. pose proof (pt_md _ _ _ _ Hp) as Hr. destruct Hp as (_ & _ & Hv).
  pose proof (cpow_md m x y Hr) as Hw. pose proof (rho_pow m Hm) as Hq. pose proof (rho_ge1 m) as H1.
  pose proof (INR_1000 m Hm) as HI. pose proof UR_big as HU.
  set (a := fst (cpow m x y)) in *. set (b := snd (cpow m x y)) in *.
  set (da := IZR r - UR * (v * a + 2)) in *. set (db := IZR i - UR * (v * b + 2)) in *.
  assert (He : md da db <= 246 * INR m + 3) by nra.
  pose proof (md_l da db) as Da. pose proof (md_r da db) as Db.
  pose proof (md_l a b) as Aa. pose proof (md_r a b) as Ab.
  assert (Va : Rabs (v * a) <= 3 / 2).
  { rewrite Rabs_mult. pose proof (Rabs_pos v). pose proof (Rabs_pos a). nra. }
  assert (Vb : Rabs (v * b) <= 3 / 2).
  { rewrite Rabs_mult. pose proof (Rabs_pos v). pose proof (Rabs_pos b). nra. }
  repeat split; auto; lra.
Qed.

Lemma cpow_add : forall m j x y, cpow (m + j) x y =
  let '(a, b) := cpow m x y in let '(c, d) := cpow j x y in (c * a - d * b, c * b + d * a).
Proof.
  intros m j x y. induction m as [|m IH].
  - cbn [Nat.add cpow]. destruct (cpow j x y) as [c d]. f_equal; ring.
  - cbn [Nat.add cpow]. rewrite IH. destruct (cpow m x y) as [a b]. destruct (cpow j x y) as [c d]. f_equal; ring.
Qed.

Lemma prod_range : forall (r : Z) (R0 : R) m, (m <= 1000)%nat -> Rabs R0 <= 3 / 2 ->
  Rabs (IZR r - UR * (R0 + 2)) <= 246 * INR m + 3 -> (0 <= r < N)%Z.
Proof.
  intros r R0 m Hm HR He. pose proof (INR_1000 m Hm). pose proof UR_big. apply in_range.
  apply (V_R_range _ R0 (IZR r - UR * (R0 + 2))); [ring|lra|]. eapply Rle_trans; [exact He|]. lra.
Qed.

Lemma prep_turn : forall st m p c, (1 <= st)%nat -> (m + st <= 1000)%nat -> pt_ok p -> prep st m p c -> prep st (m + st) p (turn c).
Proof.
  intros st m [[[x y] z] v] [zf kf xf yf ef ff rf iff] Hst Hm Hp Hc.
  unfold prep in Hc. unfold prep. pose proof (pt_md _ _ _ _ Hp) as Hr.
  pose proof (cpow_md st x y Hr) as Hq.
  pose proof (cpow_add m st x y) as CA. destruct (cpow st x y) as [qx qy]. cbn [p_z p_k p_x p_y p_e p_f p_r p_i turn fst snd] in *.
  destruct Hc as (CZ & CK & CK' & (X1 & LX & EX) & (Y1 & LY & EY) & LE & (E1 & CE & EE) & LF & (F1 & CF & EF) & LR & LI & HM).
  destruct (prod_bounds m x y z v _ _ ltac:(lia) Hp HM) as (Va & Vb & Dr & Di).
  pose proof (prod_range _ _ m ltac:(lia) Va Dr) as RR. pose proof (prod_range _ _ m ltac:(lia) Vb Di) as RI.
  destruct (mad0 xf rf X1 _ LX EX LR RR) as [L1 A1]. destruct (mad0 yf iff Y1 _ LY EY LI RI) as [L2 A2].
  destruct (mad0 xf iff X1 _ LX EX LI RI) as [L3 A3]. destruct (mad0 yf rf Y1 _ LY EY LR RR) as [L4 A4].
  set (m1 := mad xf rf f0) in *. set (m2 := mad yf iff f0) in *. set (m3 := mad xf iff f0) in *. set (m4 := mad yf rf f0) in *.
  destruct (comb_spec m1 iff ef m2 rf L1 LI LE L2 LR) as [L5 C5].
  destruct (comb'_spec m3 m4 ff iff rf L3 L4 LF LI LR) as [L6 C6].
  split; [exact CZ|]. split; [exact CK|]. split; [exact CK'|]. split; [eauto|]. split; [eauto|].
  split; [exact LE|]. split; [exists E1; auto|]. split; [exact LF|]. split; [exists F1; auto|].
  split; [exact L5|]. split; [exact L6|].
  set (T5 := (4 * V m1 + 2 * V iff + E1 - 4 * V m2 - 2 * V rf)%Z).
  set (T6 := (4 * V m3 + 4 * V m4 + F1 - 2 * V iff - 2 * V rf)%Z).
  assert (G5 : cg (V (comb m1 iff ef m2 rf)) T5).
  { eapply cg_trans; [exact C5|]. unfold T5. repeat (apply cg_sub || apply cg_add || apply cg_refl). exact CE. }
  assert (G6 : cg (V (comb' m3 m4 ff iff rf)) T6).
  { eapply cg_trans; [exact C6|]. unfold T6. repeat (apply cg_sub || apply cg_add || apply cg_refl). exact CF. }
  assert (I5 : IZR T5 = 4 * IZR (V m1) + 2 * IZR (V iff) + IZR E1 - 4 * IZR (V m2) - 2 * IZR (V rf)).
  { unfold T5. rewrite !minus_IZR, !plus_IZR, !mult_IZR. reflexivity. }
  assert (I6 : IZR T6 = 4 * IZR (V m3) + 4 * IZR (V m4) + IZR F1 - 2 * IZR (V iff) - 2 * IZR (V rf)).
  { unfold T6. rewrite !minus_IZR, !plus_IZR, !mult_IZR. reflexivity. }
  clearbody T5 T6 m1 m2 m3 m4.
  destruct (cpow m x y) as [a b] eqn:Ecp. cbn [fst snd] in *.
  set (r := IZR (V rf)) in *. set (i := IZR (V iff)) in *.
  set (da := r - UR * (v * a + 2)) in *. set (db := i - UR * (v * b + 2)) in *.
  assert (MD : md (IZR T5 - UR * (v * fst (cpow (m + st) x y) + 2)) (IZR T6 - UR * (v * snd (cpow (m + st) x y) + 2))
               <= (2 + 164 * INR (m + st)) * rho ^ (m + st)).
  { rewrite CA. cbn [fst snd].
    set (s5 := IZR T5 - UR * (v * (qx * a - qy * b) + 2)). set (s6 := IZR T6 - UR * (v * (qx * b + qy * a) + 2)).
    set (t5 := s5 - (qx * da - qy * db)). set (t6 := s6 - (qx * db + qy * da)).
    assert (H5 : Rabs t5 <= 82).
    { replace t5 with (4 * (IZR (V m1) - (1 / 2 + qx / 4) * r) - 4 * (IZR (V m2) - (1 / 2 + qy / 4) * i)
         + (IZR E1 - UR * (2 * qy - 2 * qx + 2))) by (unfold t5, s5, da, db; rewrite I5; field).
      apply Rabs_le_between in A1. apply Rabs_le_between in A2. apply Rabs_le_between in EE. apply Rabs_le. lra. }
    assert (H6 : Rabs t6 <= 82).
    { replace t6 with (4 * (IZR (V m3) - (1 / 2 + qx / 4) * i) + 4 * (IZR (V m4) - (1 / 2 + qy / 4) * r)
         + (IZR F1 - UR * (2 - 2 * qx - 2 * qy))) by (unfold t6, s6, da, db; rewrite I6; field).
      apply Rabs_le_between in A3. apply Rabs_le_between in A4. apply Rabs_le_between in EF. apply Rabs_le. lra. }
    replace s5 with ((qx * da - qy * db) + t5) by (unfold t5; ring).
    replace s6 with ((qx * db + qy * da) + t6) by (unfold t6; ring).
    eapply Rle_trans; [apply md_triang|]. rewrite md_mul.
    pose proof (md_le t5 t6 82 H5 H6) as Mt.
    assert (Mq : md qx qy * md da db <= rho ^ st * ((2 + 164 * INR m) * rho ^ m)).
    { apply Rmult_le_compat; auto using md_pos. }
    pose proof (rho_ge1 (m + st)) as G. rewrite pow_add in *. rewrite plus_INR.
    assert (1 <= INR st) by (change 1 with (INR 1); apply le_INR; auto). nra. }
  destruct (prod_bounds (m + st) x y z v _ _ Hm Hp MD) as (Va' & Vb' & Dr' & Di').
  pose proof (prod_range _ _ (m + st) Hm Va' Dr') as RR'. pose proof (prod_range _ _ (m + st) Hm Vb' Di') as RI'.
  rewrite (cg_in _ _ L5 G5 RR'), (cg_in _ _ L6 G6 RI'). exact MD.
Qed.

(** ** The recurrence *)
Definition kind (s : bool) (m : nat) (x y v : R) : R := v * (if s then snd (cpow m x y) else fst (cpow m x y)).

(** c represents the point p at indices (m, n), kind s. *)
Definition crep (s : bool) (m n : nat) (p : rpt) (c : col) : Prop :=
  let '(x, y, z, v) := p in let 'Col zf kf af pf := c in
  (exists Z1, lim16 zf Z1 /\ Rabs (IZR Z1 - IZR N * z) <= 2) /\
  lim kf /\ Rabs (IZR (V kf) - 2 * (1 - z) * UR) <= 2 /\ lim af /\ lim pf /\
  exists rt e e' h', Rabs (UR * rt - UR * kind s m x y v) <= 246 * INR m + 3 /\ Rabs rt <= 8 / 5 /\
    IZR (V af) = UR * (rt * geg m n z + 2) + e /\ IZR (V pf) = UR * (h' + 2) + e' /\
    (n = 0%nat \/ h' = rt * gegp m n z) /\ Rabs h' <= 8 / 5 /\ stable z 40 n e e' /\ Rabs e' <= UR / 1000.

Lemma start_aux : forall m (r : Z) R0, (m <= 1000)%nat -> Rabs R0 <= 3 / 2 -> Rabs (IZR r - UR * (R0 + 2)) <= 246 * INR m + 3 ->
  forall rt, rt = IZR r / UR - 2 -> Rabs (UR * rt - UR * R0) <= 246 * INR m + 3 /\ Rabs rt <= 8 / 5 /\
    IZR r = UR * (rt + 2).
Proof.
  intros m r R0 Hm HR He rt ->. pose proof UR_big as HU. pose proof (INR_1000 m Hm) as HI.
  assert (E : UR * (IZR r / UR - 2) - UR * R0 = IZR r - UR * (R0 + 2)) by (field; lra).
  rewrite E. split; [exact He|]. split; [|field; lra].
  apply Rabs_le_between in HR. apply Rabs_le_between in He.
  apply Rabs_le. split.
  - apply (Rmult_le_reg_l UR); [lra|]. replace (UR * (IZR r / UR - 2)) with (IZR r - 2 * UR) by (field; lra). nra.
  - apply (Rmult_le_reg_l UR); [lra|]. replace (UR * (IZR r / UR - 2)) with (IZR r - 2 * UR) by (field; lra). nra.
Qed.

Lemma crep_start : forall s st m p c, (m <= 1000)%nat -> pt_ok p -> prep st m p c ->
  crep s m 0 p (if s then scol c else ccol c).
Proof.
  intros s st m [[[x y] z] v] [zf kf xf yf ef ff rf iff] Hm Hp Hc. unfold prep in Hc. destruct (cpow st x y) as [qx qy].
  cbn [p_z p_k p_x p_y p_e p_f p_r p_i] in Hc.
  destruct Hc as (CZ & CK & CK' & _ & _ & _ & _ & _ & _ & LR & LI & HM).
  destruct (prod_bounds m x y z v _ _ Hm Hp HM) as (Va & Vb & Dr & Di).
  pose proof UR_big as HU. unfold crep. destruct s; cbn [scol ccol].
  - destruct (start_aux m _ _ Hm Vb Di _ eq_refl) as (A1 & A2 & A3).
    repeat (split; [assumption|]). exists (IZR (V iff) / UR - 2), 0, 0, (IZR (V iff) / UR - 2).
    split; [exact A1|]. split; [exact A2|]. simpl geg. rewrite Rmult_1_r, Rplus_0_r.
    split; [exact A3|]. split; [exact A3|]. split; [left; reflexivity|]. split; [exact A2|].
    split; [apply stable_0|]. rewrite Rabs_R0. lra.
  - destruct (start_aux m _ _ Hm Va Dr _ eq_refl) as (A1 & A2 & A3).
    repeat (split; [assumption|]). exists (IZR (V rf) / UR - 2), 0, 0, (IZR (V rf) / UR - 2).
    split; [exact A1|]. split; [exact A2|]. simpl geg. rewrite Rmult_1_r, Rplus_0_r.
    split; [exact A3|]. split; [exact A3|]. split; [left; reflexivity|]. split; [exact A2|].
    split; [apply stable_0|]. rewrite Rabs_R0. lra.
Qed.

Lemma stable_small : forall z n e e', (n <= 1000)%nat -> stable z 40 n e e' -> Rabs e <= UR / 1000.
Proof.
  intros z n e e' Hn [_ H]. pose proof (INR_1000 n Hn). pose proof UR_big.
  assert (INR n * INR n * 40 <= 40000000) by nra. lra.
Qed.

Lemma crep_step : forall s m n p c ni di, (m <= 1000)%nat -> (n <= 1000)%nat -> pt_ok p -> 0 <= snd (fst p) ->
  iv ni = Z.of_nat n -> iv di = (Z.of_nat n + 2 * Z.of_nat m + 1)%Z ->
  crep s m n p c -> crep s m (S n) p (step (ratio ni di) (mhalf (ratio ni di)) c).
Proof.
  intros s m n [[[x y] z] v] [zf kf af pf] ni di Hm Hn Hp Hz0 En Ed Hc. cbn [fst snd] in Hz0.
  destruct Hc as ((Z1 & LZ & EZ) & LK & EK & LA & LP & rt & e & e' & h' & D0 & Brt & EA & EP & Hh & Bh' & Hs & Be').
  assert (Hz : 0 <= z <= 1) by (destruct Hp as (H & _); lra).
  destruct (ratio_spec ni di) as (Bz & LB & EB).
  { lia. } { rewrite Ed. unfold B. lia. }
  destruct (mhalf_spec _ _ LB) as (LD & Q & CQ & EQ).
  pose proof (pos_INR n) as Pn. pose proof (pos_INR m) as Pm.
  pose proof (beta_range m n) as Hb. set (b := INR n / (INR n + 2 * INR m + 1)) in *.
  assert (HBz : Rabs (IZR Bz - IZR N * b) <= 2).
  { destruct EB as [E1 E2]. apply IZR_le in E1. apply IZR_lt in E2. rewrite !mult_IZR in E1, E2. rewrite plus_IZR in E2.
    rewrite En, Ed in E1, E2. rewrite !plus_IZR, mult_IZR, <- !INR_IZR_INZ in E1, E2.
    set (d := INR n + 2 * INR m + 1) in *. assert (Hd : 0 < d) by (unfold d; lra).
    assert (X1 : IZR Bz <= IZR N * b).
    { apply (Rmult_le_reg_r d); auto. unfold b. replace (IZR N * (INR n / d) * d) with (INR n * IZR N) by (field; lra). exact E1. }
    assert (X2 : IZR N * b < IZR Bz + 1).
    { apply (Rmult_lt_reg_r d); auto. unfold b. replace (IZR N * (INR n / d) * d) with (INR n * IZR N) by (field; lra). exact E2. }
    apply Rabs_le. lra. }
  assert (Hz' : -1 <= z <= 1) by lra.
  pose proof (geg_bound m n z Hz') as G0. pose proof (geg_bound m (S n) z Hz') as G1.
  assert (EG : geg m (S n) z = (1 + b) * z * geg m n z - b * gegp m n z).
  { rewrite geg_step. unfold b. field. lra. }
  assert (EH : (1 + b) * z * (rt * geg m n z) - b * h' = rt * geg m (S n) z).
  { destruct Hh as [->| ->].
    - assert (Eb : b = 0) by (unfold b; simpl INR; unfold Rdiv; ring). rewrite EG, Eb. ring.
    - rewrite EG. ring. }
  assert (BB : forall t, Rabs t <= 1 -> Rabs (rt * t) <= 8 / 5).
  { intros t Ht. rewrite Rabs_mult. pose proof (Rabs_pos rt). pose proof (Rabs_pos t). nra. }
  pose proof (stable_small _ _ _ _ Hn Hs) as Be.
  destruct (step_R z b (rt * geg m n z) h' e e' zf kf af pf (ratio ni di) (mhalf (ratio ni di)) Z1 Bz Q
    Hz Hb LZ EZ LK EK LB HBz LD CQ EQ LA EA LP EP (BB _ G0) Bh') as (u & d & ES & LU & Hd & EU); auto.
  { rewrite EH. apply BB. exact G1. }
  rewrite ES. rewrite EH in EU. unfold crep.
  split; [eauto|]. repeat (split; [assumption|]).
  exists rt, ((1 + b) * z * e - b * e' + d), e, (rt * geg m n z). repeat (split; [assumption|]).
  split; [right; reflexivity|]. split; [apply BB; exact G0|]. split; [|exact Be].
  apply stable_S; auto.
Qed.

Lemma crep_value : forall s m n x y z v zf kf af pf, (m <= 1000)%nat -> (n <= 1000)%nat -> pt_ok (x, y, z, v) ->
  crep s m n (x, y, z, v) (Col zf kf af pf) ->
  lim af /\ (V af < N)%Z /\ Rabs (IZR (V af) - UR * (v * harm s m n x y z + 2)) <= 40 * (INR n * INR n) + 246 * INR m + 3.
Proof.
  intros s m n x y z v zf kf af pf Hm Hn Hp Hc.
  destruct Hc as (_ & _ & _ & LA & _ & rt & e & e' & h' & D0 & Brt & EA & _ & _ & _ & Hs & _).
  split; [exact LA|]. destruct Hp as (Hz & _ & _). pose proof (geg_bound m n z Hz) as G.
  split.
  - apply in_range. eapply V_R_range; [exact EA| |].
    + rewrite Rabs_mult. pose proof (Rabs_pos rt). pose proof (Rabs_pos (geg m n z)). nra.
    + pose proof (stable_small _ _ _ _ Hn Hs). pose proof UR_big. lra.
  - replace (v * harm s m n x y z) with (kind s m x y v * geg m n z) by (unfold kind, harm; destruct s; ring).
    replace (IZR (V af) - UR * (kind s m x y v * geg m n z + 2)) with ((UR * rt - UR * kind s m x y v) * geg m n z + e)
      by (rewrite EA; ring).
    eapply Rle_trans; [apply Rabs_triang|]. destruct Hs as [_ Hs]. rewrite Rabs_mult.
    pose proof (Rabs_pos (UR * rt - UR * kind s m x y v)). pose proof (Rabs_pos (geg m n z)). nra.
Qed.

(** ** Sums *)
Fixpoint vsum (l : list col) : Z := match l with [] => 0%Z | Col _ _ a _ :: r => (V a + vsum r)%Z end.

Lemma csum_spec : forall l s (k : Z), Forall (fun c => let 'Col _ _ a _ := c in lim a /\ (V a < N)%Z) l ->
  alim s -> (0 <= Va s <= k * N)%Z -> (0 <= k)%Z -> (k + Z.of_nat (length l) < 2 ^ 59)%Z ->
  alim (csum l s) /\ Va (csum l s) = (Va s + vsum l)%Z.
Proof.
  induction l as [|[zf kf a p] l IH]; intros s k Hl Hs Vs Hk HK; cbn [csum vsum length] in *.
  - split; [exact Hs|lia].
  - inversion Hl as [|? ? HA Hl']; subst. destruct HA as [La Va']. rewrite Nat2Z.inj_succ in HK.
    assert (HN : (0 < N)%Z) by reflexivity.
    destruct (accum_spec s a Hs La Va') as [A1 A2].
    { eapply Z.le_lt_trans; [apply Vs|]. apply Z.mul_lt_mono_pos_r; lia. }
    pose proof (V_nonneg a) as Pa.
    destruct (IH (accum s a) (k + 1)%Z Hl' A1) as [B1 B2].
    + rewrite A2. lia.
    + lia.
    + lia.
    + split; [exact B1|]. rewrite B2, A2. lia.
Qed.

Lemma bint_spec : forall x, BigZ.to_Z (bint x) = iv x.
Proof. intro x. reflexivity. Qed.
Lemma bval_spec : forall s, BigZ.to_Z (bval s) = Va s.
Proof.
  intros [t h m l]. unfold bval, c59b. repeat rewrite ?BigZ.spec_add, ?BigZ.spec_mul, ?bint_spec.
  change (iv c59) with B. unfold Va. ring.
Qed.

Lemma vsum_R : forall s m n rs cs, (m <= 1000)%nat -> (n <= 1000)%nat -> Forall pt_ok rs -> Forall2 (crep s m n) rs cs ->
  Forall (fun c => let 'Col _ _ a _ := c in lim a /\ (V a < N)%Z) cs /\ length cs = length rs /\
  Rabs (IZR (vsum cs) - UR * (wsum rs (harm s m n) + 2 * INR (length rs)))
    <= INR (length rs) * (40 * (INR n * INR n) + 246 * INR m + 3).
Proof.
  intros s m n rs cs Hm Hn Hok H. induction H as [|[[[x y] z] v] [zf kf a q] rs cs Hc H IH].
  - split; [constructor|]. split; [reflexivity|]. simpl. replace (0 - UR * (0 + 2 * 0)) with 0 by ring. rewrite Rabs_R0. lra.
  - inversion Hok as [|? ? Hp Hok']; subst. destruct (IH Hok') as (I1 & I2 & I3).
    destruct (crep_value _ _ _ _ _ _ _ _ _ _ _ Hm Hn Hp Hc) as (A1 & A2 & A3).
    split; [constructor; auto|]. split; [simpl; congruence|].
    cbn [vsum wsum length]. rewrite plus_IZR, S_INR.
    replace (IZR (V a) + IZR (vsum cs) - UR * (v * harm s m n x y z + wsum rs (harm s m n) + 2 * (INR (length rs) + 1)))
      with ((IZR (V a) - UR * (v * harm s m n x y z + 2)) + (IZR (vsum cs) - UR * (wsum rs (harm s m n) + 2 * INR (length rs)))) by ring.
    eapply Rle_trans; [apply Rabs_triang|]. lra.
Qed.

(** ** The tests *)
Section Tests.
Variables (rs1 rs2 : list rpt) (Hok1 : Forall pt_ok rs1) (Hok2 : Forall pt_ok rs2).
Variables (Hz1 : Forall (fun p => 0 <= snd (fst p)) rs1) (Hz2 : Forall (fun p => 0 <= snd (fst p)) rs2).
Variables (K1 K2 tn td : Z) (b1 b2 tgt : BigZ.t) (T : R).
Variables (HK1 : K1 = Z.of_nat (length rs1)) (HK2 : K2 = Z.of_nat (length rs2)).
Variables (HK1' : (K1 <= 1000000)%Z) (HK2' : (K2 <= 1000000)%Z).
Variables (Hb1 : BigZ.to_Z b1 = (2 * K1 * U)%Z) (Hb2 : BigZ.to_Z b2 = (2 * K2 * U)%Z).
Variables (HT : Rabs (IZR (BigZ.to_Z tgt) - UR * T) <= 1) (Htn : (0 < tn)%Z) (Htd : (0 < td)%Z).

Definition both (s : bool) (m n : nat) : R :=
  wsum rs1 (harm s m n) + (if Nat.even n then 1 else -1) * wsum rs2 (harm s m n).

Lemma allow_R : forall m n, IZR (allow (K1 + K2) m n) =
  (INR (length rs1) + INR (length rs2)) * (40 * (INR n * INR n) + 246 * INR m + 5).
Proof.
  intros. unfold allow. rewrite HK1, HK2, mult_IZR, !plus_IZR, !mult_IZR, <- !INR_IZR_INZ. reflexivity.
Qed.

Lemma part_R : forall s m n rs cs K b, (m <= 1000)%nat -> (n <= 1000)%nat -> Forall pt_ok rs -> Forall2 (crep s m n) rs cs ->
  K = Z.of_nat (length rs) -> (K <= 1000000)%Z -> BigZ.to_Z b = (2 * K * U)%Z ->
  Rabs (IZR (BigZ.to_Z (BigZ.sub (bval (csum cs acc0)) b)) - UR * wsum rs (harm s m n))
    <= INR (length rs) * (40 * (INR n * INR n) + 246 * INR m + 3).
Proof.
  intros s m n rs cs K b Hm Hn Hok H HK HK' Hb. destruct (vsum_R s m n rs cs Hm Hn Hok H) as (A1 & A2 & A3).
  rewrite BigZ.spec_sub, bval_spec, Hb.
  destruct (csum_spec cs acc0 0%Z A1) as [B1 B2].
  - repeat split; reflexivity.
  - change (Va acc0) with 0%Z. lia.
  - lia.
  - rewrite A2, <- HK. change (2 ^ 59)%Z with 576460752303423488%Z. lia.
  - rewrite B2. change (Va acc0) with 0%Z. rewrite Z.add_0_l, minus_IZR, !mult_IZR, HK, <- INR_IZR_INZ. fold UR.
    replace (IZR (vsum cs) - 2 * INR (length rs) * UR - UR * wsum rs (harm s m n))
      with (IZR (vsum cs) - UR * (wsum rs (harm s m n) + 2 * INR (length rs))) by ring. exact A3.
Qed.

Lemma total_R : forall s m n ps ns, (m <= 1000)%nat -> (n <= 1000)%nat ->
  Forall2 (crep s m n) rs1 ps -> Forall2 (crep s m n) rs2 ns ->
  Rabs (IZR (BigZ.to_Z (total b1 b2 n ps ns)) - UR * both s m n) <= IZR (allow (K1 + K2) m n).
Proof.
  intros s m n ps ns Hm Hn H1 H2. rewrite allow_R.
  pose proof (part_R s m n rs1 ps K1 b1 Hm Hn Hok1 H1 HK1 HK1' Hb1) as P1.
  pose proof (part_R s m n rs2 ns K2 b2 Hm Hn Hok2 H2 HK2 HK2' Hb2) as P2.
  unfold total, both. cbv zeta. set (s1 := BigZ.sub (bval (csum ps acc0)) b1) in *. set (s2 := BigZ.sub (bval (csum ns acc0)) b2) in *.
  pose proof (pos_INR (length rs1)). pose proof (pos_INR (length rs2)).
  apply Rabs_le_between in P1. apply Rabs_le_between in P2.
  assert (E0 : INR (length rs1) * (40 * (INR n * INR n) + 246 * INR m + 3) + INR (length rs2) * (40 * (INR n * INR n) + 246 * INR m + 3)
    <= (INR (length rs1) + INR (length rs2)) * (40 * (INR n * INR n) + 246 * INR m + 5)) by nra.
  destruct (Nat.even n).
  - rewrite BigZ.spec_add, plus_IZR. apply Rabs_le. lra.
  - rewrite BigZ.spec_sub, minus_IZR. apply Rabs_le. lra.
Qed.

(** q is a lower bound. *)
Definition qok (m n : nat) (q : BigZ.t) : Prop :=
  (0 <= BigZ.to_Z q)%Z /\ IZR (BigZ.to_Z q) <= UR * UR * (IZR (num_of m n) / IZR (den_of m n)).

Lemma den_pos : forall m n, 0 < IZR (den_of m n).
Proof. intros. unfold den_of. apply IZR_lt. pose proof (lt_O_fact (n + 2 * m)). lia. Qed.
Lemma num_pos : forall m n, 0 <= IZR (num_of m n).
Proof.
  intros. unfold num_of. apply IZR_le. pose proof (lt_O_fact m). pose proof (lt_O_fact n).
  assert (0 < 4 ^ Z.of_nat m)%Z by (apply Z.pow_pos_nonneg; lia). nia.
Qed.

Lemma within_sound : forall s m n ps ns q, (n <= 1000)%nat -> (m <= 1000)%nat ->
  Forall2 (crep s m n) rs1 ps -> Forall2 (crep s m n) rs2 ns -> qok m n q ->
  within K1 K2 tn td q m n (total b1 b2 n ps ns) = true ->
  Rabs (both s m n) <= IZR tn / IZR td * harm_norm m n.
Proof.
  intros s m n ps ns q Hn Hm H1 H2 [Q0 Q1] H.
  pose proof (total_R s m n ps ns Hm Hn H1 H2) as Hk.
  unfold within in H. rewrite BigZ.spec_leb in H. apply Z.leb_le in H.
  repeat rewrite ?BigZ.spec_mul, ?BigZ.spec_add, ?BigZ.spec_abs, ?BigZ.spec_of_Z in H.
  rewrite norm_R.
  set (z2 := ((2 * Z.of_nat (m + n) + 1) * (if Nat.eqb m 0 then 1 else 2))%Z) in *.
  assert (Hd2 : 0 < IZR z2).
  { unfold z2. apply IZR_lt. destruct (Nat.eqb m 0); lia. }
  clearbody z2. set (al := allow (K1 + K2) m n) in *. clearbody al.
  set (tt := BigZ.to_Z (total b1 b2 n ps ns)) in *. clearbody tt. clear H1 H2.
  apply IZR_le in H. repeat rewrite mult_IZR in H. rewrite plus_IZR, abs_IZR in H.
  set (A := IZR al) in *. set (S0 := IZR tt) in *. set (w := both s m n) in *. set (d2 := IZR z2) in *.
  pose proof (den_pos m n) as Hd. pose proof (num_pos m n) as Hn0.
  assert (Ht : 0 < IZR tn) by (apply IZR_lt; auto). assert (Htd' : 0 < IZR td) by (apply IZR_lt; auto).
  pose proof UR_pos as HU.
  assert (HA : UR * Rabs w <= Rabs S0 + A).
  { replace (UR * Rabs w) with (Rabs (UR * w)) by (rewrite Rabs_mult, (Rabs_pos_eq UR); lra).
    replace (UR * w) with (S0 - (S0 - UR * w)) by ring. unfold Rminus at 1.
    eapply Rle_trans; [apply Rabs_triang|]. rewrite Rabs_Ropp. lra. }
  set (d := IZR (den_of m n)) in *. set (nn := IZR (num_of m n)) in *. set (qq := IZR (BigZ.to_Z q)) in *.
  pose proof (Rabs_pos w) as Hw.
  apply Rsqr_incr_0_var.
  2:{ apply Rmult_le_pos; [|apply sqrt_pos]. apply Rmult_le_pos; [lra|]. left. apply Rinv_0_lt_compat. auto. }
  unfold Rsqr.
  assert (Hr : 0 <= nn / (d * d2)).
  { apply Rmult_le_pos; [auto|]. left. apply Rinv_0_lt_compat. nra. }
  replace (IZR tn / IZR td * R_sqrt.sqrt (nn / (d * d2)) * (IZR tn / IZR td * R_sqrt.sqrt (nn / (d * d2))))
    with (IZR tn * IZR tn / (IZR td * IZR td) * (R_sqrt.sqrt (nn / (d * d2)) * R_sqrt.sqrt (nn / (d * d2)))) by (field; lra).
  rewrite sqrt_sqrt by auto.
  apply (Rmult_le_reg_r (UR * UR * (IZR td * IZR td) * d2)).
  { apply Rmult_lt_0_compat; [apply Rmult_lt_0_compat; nra|exact Hd2]. }
  replace (IZR tn * IZR tn / (IZR td * IZR td) * (nn / (d * d2)) * (UR * UR * (IZR td * IZR td) * d2))
    with (IZR tn * IZR tn * (UR * UR * (nn / d))) by (field; repeat split; lra).
  apply Rle_trans with (IZR tn * IZR tn * qq).
  2:{ apply Rmult_le_compat_l; [nra|exact Q1]. }
  eapply Rle_trans; [|exact H].
  replace (Rabs w * Rabs w * (UR * UR * (IZR td * IZR td) * d2))
    with ((UR * Rabs w) * (UR * Rabs w) * (IZR td * IZR td * d2)) by ring.
  apply Rmult_le_compat_r; [apply Rmult_le_pos; [nra|lra]|].
  apply Rmult_le_compat; nra.
Qed.

Lemma within0_sound : forall ps ns, Forall2 (crep false 0 0) rs1 ps -> Forall2 (crep false 0 0) rs2 ns ->
  within0 K1 K2 tgt tn td (total b1 b2 0 ps ns) = true ->
  Rabs (both false 0 0 - T) <= IZR tn / IZR td.
Proof.
  intros ps ns H1 H2 H. pose proof (total_R false 0 0 ps ns ltac:(lia) ltac:(lia) H1 H2) as Hk.
  unfold within0 in H. rewrite BigZ.spec_leb in H. apply Z.leb_le in H.
  repeat rewrite ?BigZ.spec_mul, ?BigZ.spec_add, ?BigZ.spec_abs, ?BigZ.spec_sub, ?BigZ.spec_of_Z in H.
  change (BigZ.to_Z Ub) with U in H.
  apply IZR_le in H. rewrite !mult_IZR, !plus_IZR, abs_IZR, minus_IZR in H. fold UR in H.
  set (A := IZR (allow (K1 + K2) 0 0)) in *. set (S0 := IZR (BigZ.to_Z (total b1 b2 0 ps ns))) in *.
  set (w := both false 0 0) in *. set (g := IZR (BigZ.to_Z tgt)) in *.
  assert (Htd' : 0 < IZR td) by (apply IZR_lt; auto). pose proof UR_pos as HU.
  assert (HA : UR * Rabs (w - T) <= Rabs (S0 - g) + (A + 1)).
  { replace (UR * Rabs (w - T)) with (Rabs (UR * (w - T))) by (rewrite Rabs_mult, (Rabs_pos_eq UR); lra).
    replace (UR * (w - T)) with ((S0 - g) + (- (S0 - UR * w) + (g - UR * T))) by ring.
    eapply Rle_trans; [apply Rabs_triang|]. eapply Rle_trans; [apply Rplus_le_compat_l, Rabs_triang|].
    rewrite Rabs_Ropp. lra. }
  apply (Rmult_le_reg_r (UR * IZR td)); [nra|].
  replace (IZR tn / IZR td * (UR * IZR td)) with (IZR tn * UR) by (field; lra).
  eapply Rle_trans; [|exact H].
  replace (Rabs (w - T) * (UR * IZR td)) with (UR * Rabs (w - T) * IZR td) by ring.
  apply Rmult_le_compat_r; [lra|]. lra.
Qed.

Definition good (s : bool) (m n : nat) : Prop :=
  Rabs (both s m n - (if Nat.eqb (m + n) 0 then if s then 0 else T else 0)) <= IZR tn / IZR td * harm_norm m n.

(** For the sine kind with m = 0 nothing needs checking. *)
Lemma both_sin0 : forall n, both true 0 n = 0.
Proof.
  intro n. assert (forall l : list rpt, wsum l (harm true 0 n) = 0).
  { induction l as [|[[[x y] z] v] l IH]; cbn [wsum]; [reflexivity|]. rewrite IH. unfold harm. cbn. ring. }
  unfold both. rewrite !H. ring.
Qed.
Lemma good_sin0 : forall n, good true 0 n.
Proof.
  intro n. unfold good. rewrite both_sin0. replace (if Nat.eqb (0 + n) 0 then 0 else 0) with 0 by (destruct (Nat.eqb (0 + n) 0); auto).
  rewrite Rminus_0_r, Rabs_R0. apply Rmult_le_pos; [|apply sqrt_pos].
  left. apply Rdiv_lt_0_compat; apply IZR_lt; auto.
Qed.

Lemma test_sound : forall s m n ps ns q, (n <= 1000)%nat -> (m <= 1000)%nat ->
  Forall2 (crep s m n) rs1 ps -> Forall2 (crep s m n) rs2 ns -> qok m n q ->
  test K1 K2 tgt tn td m n q (total b1 b2 n ps ns) = true -> good s m n.
Proof.
  intros s m n ps ns q Hn Hm H1 H2 Hq H. unfold test in H. unfold good. destruct (Nat.eqb (m + n) 0) eqn:E.
  - apply Nat.eqb_eq in E. assert (m = 0%nat) by lia. assert (n = 0%nat) by lia. subst m n.
    destruct s; [apply good_sin0|]. rewrite harm_norm_00, Rmult_1_r. eapply within0_sound; eauto.
  - rewrite Rminus_0_r. eapply within_sound; eauto.
Qed.

Lemma div_le_R : forall a b : Z, (0 < b)%Z -> IZR (a / b) <= IZR a / IZR b.
Proof. intros. apply zdiv_down. auto. Qed.

Lemma qok_mul : forall m n m' n' q ai bi (a b : Z), qok m n q -> iv ai = a -> iv bi = b -> (0 <= a)%Z -> (0 < b)%Z ->
  IZR (num_of m' n') / IZR (den_of m' n') = IZR (num_of m n) / IZR (den_of m n) * (IZR a / IZR b) ->
  qok m' n' (BigZ.div (BigZ.mul q (bint ai)) (bint bi)).
Proof.
  intros m n m' n' q ai bi a b [Q0 Q1] Ea Eb Ha Hb E. unfold qok.
  rewrite BigZ.spec_div, BigZ.spec_mul, !bint_spec, Ea, Eb. split; [apply Z.div_pos; nia|].
  eapply Rle_trans; [apply div_le_R; auto|]. rewrite mult_IZR, E.
  apply IZR_le in Ha. apply IZR_lt in Hb.
  replace (IZR (BigZ.to_Z q) * IZR a / IZR b) with (IZR (BigZ.to_Z q) * (IZR a / IZR b)) by (field; lra).
  rewrite <- Rmult_assoc. apply Rmult_le_compat_r; [|exact Q1].
  apply Rmult_le_pos; [auto|]. left. apply Rinv_0_lt_compat. auto.
Qed.

Lemma int_succ : forall x k, iv x = k -> (k < 1000000)%Z -> iv (x + 1)%uint63 = (k + 1)%Z.
Proof. intros x k E Hk. apply add_v; auto. unfold B. lia. Qed.

Lemma all_step : forall s m n rs cs ni di, (m <= 1000)%nat -> (n <= 1000)%nat -> Forall pt_ok rs ->
  Forall (fun p => 0 <= snd (fst p)) rs -> iv ni = Z.of_nat n -> iv di = (Z.of_nat n + 2 * Z.of_nat m + 1)%Z ->
  Forall2 (crep s m n) rs cs -> Forall2 (crep s m (S n)) rs (map (step (ratio ni di) (mhalf (ratio ni di))) cs).
Proof.
  intros s m n rs cs ni di Hm Hn Hok Hz En Ed H. induction H; cbn [map]; constructor; inversion Hok; inversion Hz; subst.
  - apply crep_step; auto.
  - auto.
Qed.
Lemma all_start : forall s st m rs cs, (m <= 1000)%nat -> Forall pt_ok rs -> Forall2 (prep st m) rs cs ->
  Forall2 (crep s m 0) rs (map (fun c => if s then scol c else ccol c) cs).
Proof.
  intros s st m rs cs Hm Hok H. induction H; cbn [map]; constructor; inversion Hok; subst; auto.
  eapply crep_start; eauto.
Qed.
Lemma all_turn : forall st m rs cs, (1 <= st)%nat -> (m + st <= 1000)%nat -> Forall pt_ok rs -> Forall2 (prep st m) rs cs ->
  Forall2 (prep st (m + st)) rs (map turn cs).
Proof.
  intros st m rs cs Hs Hm Hok H. induction H; cbn [map]; constructor; inversion Hok; subst; auto.
  apply prep_turn; auto.
Qed.

Lemma row_sound : forall s f fuel m n ni di q ps ns, (m + n + fuel <= 1000)%nat ->
  iv ni = Z.of_nat n -> iv di = (Z.of_nat n + 2 * Z.of_nat m + 1)%Z -> qok m n q ->
  Forall2 (crep s m n) rs1 ps -> Forall2 (crep s m n) rs2 ns ->
  row K1 K2 b1 b2 tgt tn td f fuel m n ni di q ps ns = true ->
  forall k, (n <= k <= n + fuel)%nat -> f k = true -> good s m k.
Proof.
  induction fuel as [|fu IH]; intros m n ni di q ps ns Hm En Ed Hq H1 H2 H k Hk Hf; cbn [row] in H;
    apply andb_prop in H; destruct H as [H0 H].
  - assert (k = n) by lia. subst k. rewrite Hf in H0. eapply test_sound; [| | | | |exact H0]; eauto; lia.
  - destruct (Nat.eq_dec k n) as [->|Hne].
    + rewrite Hf in H0. eapply test_sound; [| | | | |exact H0]; eauto; lia.
    + eapply (IH m (S n)); [lia| | | | | |exact H|lia|exact Hf].
      * rewrite (int_succ _ _ En) by lia. lia.
      * rewrite (int_succ _ _ Ed) by lia. lia.
      * eapply (qok_mul m n); [exact Hq|apply (int_succ _ _ En); lia|exact Ed|lia|lia|].
        rewrite <- num_of_S, <- den_of_S, !mult_IZR. pose proof (den_pos m n).
        assert (0 < IZR (Z.of_nat n + 2 * Z.of_nat m + 1)) by (apply IZR_lt; lia). field. lra.
      * apply all_step; auto; lia.
      * apply all_step; auto; lia.
Qed.

Lemma qturn_ok : forall j m mi q, (m + j <= 1000)%nat -> iv mi = Z.of_nat m -> qok m 0 q -> qok (m + j) 0 (qturn j mi q).
Proof.
  induction j as [|j IH]; intros m mi q Hm Em Hq; cbn [qturn].
  - rewrite Nat.add_0_r. exact Hq.
  - replace (m + S j)%nat with (S m + j)%nat by lia. apply IH; [lia|rewrite (int_succ _ _ Em) by lia; lia|].
    assert (E2 : iv (2 * mi)%uint63 = (2 * Z.of_nat m)%Z) by (rewrite times2; [lia|unfold B; lia]).
    apply (qok_mul m 0 (S m) 0 q _ _ (2 * Z.of_nat m + 2)%Z (2 * Z.of_nat m + 1)%Z); [exact Hq| | | | |].
    + apply add_v; [exact E2|reflexivity|unfold B; lia].
    + apply add_v; [exact E2|reflexivity|unfold B; lia].
    + lia.
    + lia.
    + rewrite <- num_of_m, <- den_of_m, !mult_IZR, !plus_IZR, !mult_IZR, <- !INR_IZR_INZ.
      pose proof (den_pos m 0). pose proof (pos_INR m). simpl IZR. field. lra.
Qed.

Lemma rows_sound : forall fc fs ks st L, (1 <= st)%nat -> (L <= 1000)%nat -> forall k m mi q ps ns, iv mi = Z.of_nat m ->
  (m <= L)%nat -> qok m 0 q -> Forall2 (prep st m) rs1 ps -> Forall2 (prep st m) rs2 ns ->
  rows K1 K2 b1 b2 tgt tn td fc fs ks st L k m mi q ps ns = true ->
  forall j n, (j <= k)%nat -> (m + j * st + n <= L)%nat ->
    (fc (m + j * st)%nat n = true -> good false (m + j * st) n) /\
    (ks = true -> fs (m + j * st)%nat n = true -> good true (m + j * st) n).
Proof.
  intros fc fs ks st L Hst HL. induction k as [|k IH]; intros m mi q ps ns Em Hm Hq H1 H2 H j n Hj Hn; cbn [rows] in H;
    apply andb_prop in H; destruct H as [H0 H]; apply andb_prop in H0; destruct H0 as [Hc Hs].
  all: assert (Base : j = 0%nat -> (fc (m + j * st)%nat n = true -> good false (m + j * st) n) /\
    (ks = true -> fs (m + j * st)%nat n = true -> good true (m + j * st) n)).
  1,3: intros ->; rewrite Nat.mul_0_l, Nat.add_0_r in *;
       assert (E2 : iv (2 * mi + 1)%uint63 = (Z.of_nat 0 + 2 * Z.of_nat m + 1)%Z)
         by (apply add_v; [rewrite times2; [lia|unfold B; lia]|reflexivity|unfold B; lia]);
       split.
  1,3: intro F; eapply (row_sound false (fc m) (L - m) m 0 0%uint63 (2 * mi + 1)%uint63); [lia|reflexivity|exact E2|exact Hq| | |exact Hc|lia|exact F].
  1,3: apply (all_start false st m rs1 ps); auto; lia.
  1,2: apply (all_start false st m rs2 ns); auto; lia.
  1,2: intros -> F; eapply (row_sound true (fs m) (L - m) m 0 0%uint63 (2 * mi + 1)%uint63); [lia|reflexivity|exact E2|exact Hq| | |exact Hs|lia|exact F].
  1,3: apply (all_start true st m rs1 ps); auto; lia.
  1,2: apply (all_start true st m rs2 ns); auto; lia.
  - apply Base. lia.
  - destruct j as [|j]; [apply Base; reflexivity|].
    assert (Hle : (m + st <= L)%nat) by nia.
    assert (E : Nat.leb (m + st) L = true) by (apply Nat.leb_le; exact Hle). rewrite E in H.
    replace (m + S j * st)%nat with (m + st + j * st)%nat by lia.
    assert (Est : iv (of_Z (Z.of_nat st)) = Z.of_nat st).
    { rewrite Uint63.of_Z_spec. apply Z.mod_small. rewrite wB_eq. unfold B. lia. }
    eapply (IH (m + st)%nat); [| | | | |exact H|lia|lia].
    + rewrite (add_v _ _ _ _ Em Est) by (unfold B; lia). lia.
    + exact Hle.
    + apply qturn_ok; auto. lia.
    + apply all_turn; auto; lia.
    + apply all_turn; auto; lia.
Qed.
End Tests.
