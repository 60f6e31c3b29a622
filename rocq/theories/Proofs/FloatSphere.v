(** C41: spherical grids and recentering in binary64. *)
From Coq Require Import List Bool Arith ZArith Reals Lra Lia.
From Flocq Require Import IEEE754.BinarySingleNaN Core Relative.
From Verif Require Import Base.Outcome Base.Scalar Base.FScalar Model.Quadrature Model.S2 Model.Composite
  Spec.QuadSpec Spec.SphereSpec Spec.SphereReal Spec.RuleSpec Spec.FloatSpec Proofs.FloatOps
  Proofs.CompositeFacts Proofs.CompositeProps Proofs.Sizes.
Import ListNotations.
Local Open Scope R_scope.

Lemma u_pos : 0 < u.
Proof. unfold u. apply Rinv_0_lt_compat. lra. Qed.
Lemma u_small : u <= 1 / 1000000.
Proof. unfold u. lra. Qed.
Lemma tiny_half : tiny = 2 * bpow radix2 (-1075).
Proof. unfold tiny. change (-1074)%Z with (1 + -1075)%Z. rewrite bpow_plus. simpl (bpow radix2 1). lra. Qed.
Lemma bpow_pos' : forall e, 0 < bpow radix2 e.
Proof. intro. apply bpow_gt_0. Qed.

(** One coordinate: r * x + c. *)
Lemma mul_add_err : forall r x c : F64, is_finite (fadd (fmul r x) c) = true ->
  Rabs (B2R (fadd (fmul r x) c) - (B2R r * B2R x + B2R c))
  <= u * Rabs (B2R r * B2R x + B2R c) + 2 * u * Rabs (B2R r * B2R x) + tiny.
Proof.
  intros r x c H. destruct (fadd_R _ _ H) as (Fm & Fc & E). destruct (fmul_R _ _ Fm) as (_ & _ & Em).
  destruct (rnd_add_err (fmul r x) c) as (e & He & E1). rewrite E, E1, Em.
  destruct (rnd_err (B2R r * B2R x)) as (e1 & t & He1 & Ht & ->).
  set (P := B2R r * B2R x) in *. set (C := B2R c) in *.
  pose proof u_pos as U0. pose proof u_small as U1. rewrite tiny_half. set (h := bpow radix2 (-1075)) in *.
  assert (0 < h) by apply bpow_gt_0.
  replace ((P * (1 + e1) + t + C) * (1 + e) - (P + C)) with ((P + C) * e + (P * e1 + t) * (1 + e)) by ring.
  assert (A1 : Rabs ((P + C) * e) <= u * Rabs (P + C)).
  { rewrite Rabs_mult, Rmult_comm. apply Rmult_le_compat_r; [apply Rabs_pos|auto]. }
  assert (A2 : Rabs (P * e1 + t) <= u * Rabs P + h).
  { eapply Rle_trans; [apply Rabs_triang|]. rewrite Rabs_mult, (Rmult_comm (Rabs P)).
    apply Rplus_le_compat; [apply Rmult_le_compat_r; [apply Rabs_pos|auto]|auto]. }
  assert (A3 : Rabs (1 + e) <= 2).
  { eapply Rle_trans; [apply Rabs_triang|]. rewrite Rabs_R1. lra. }
  eapply Rle_trans; [apply Rabs_triang|]. rewrite (Rabs_mult (P * e1 + t)).
  pose proof (Rabs_pos P). pose proof (Rabs_pos (P * e1 + t)).
  assert (Rabs (P * e1 + t) * Rabs (1 + e) <= (u * Rabs P + h) * 2).
  { apply Rmult_le_compat; auto. apply Rabs_pos. }
  lra.
Qed.

Lemma rel_mul : forall x, bpow radix2 (-1022) <= Rabs x \/ x = 0 -> exists e, Rabs e <= u /\ rnd x = x * (1 + e).
Proof.
  intros x [H| ->].
  - destruct (relative_error_N_FLT_ex radix2 (-1074) 53 ltac:(lia) (fun z => negb (Z.even z)) x) as (e & He & E).
    { exact H. }
    exists e. split; [rewrite <- bpow_u; exact He|exact E].
  - exists 0. rewrite Rabs_R0, rnd_0. split; [left; apply u_pos|ring].
Qed.
Lemma shrink : forall x e1 e2, no_underflow x -> Rabs e1 <= u -> Rabs e2 <= u ->
  bpow radix2 (-1022) <= Rabs (x * (1 + e1) * (1 + e2)) \/ x * (1 + e1) * (1 + e2) = 0.
Proof.
  intros x e1 e2 [->|H] H1 H2; [right; ring|left].
  rewrite !Rabs_mult. pose proof u_small.
  assert (/ 2 <= Rabs (1 + e1)) by (apply Rabs_le_inv in H1; rewrite Rabs_pos_eq; lra).
  assert (/ 2 <= Rabs (1 + e2)) by (apply Rabs_le_inv in H2; rewrite Rabs_pos_eq; lra).
  replace (bpow radix2 (-1022)) with (bpow radix2 (-1020) * / 2 * / 2).
  2:{ change (-1022)%Z with (-1020 + -2)%Z. rewrite bpow_plus. simpl (bpow radix2 (-2)). lra. }
  assert (0 < bpow radix2 (-1020)) by apply bpow_gt_0.
  apply Rmult_le_compat; [nra|lra| |auto]. apply Rmult_le_compat; lra.
Qed.
Lemma no_underflow_1022 : forall x, no_underflow x -> bpow radix2 (-1022) <= Rabs x \/ x = 0.
Proof.
  intros x [H|H]; [auto|left]. eapply Rle_trans; [|exact H]. apply bpow_le. lia.
Qed.
Lemma three_rel : forall e1 e2 e3, Rabs e1 <= u -> Rabs e2 <= u -> Rabs e3 <= u ->
  Rabs ((1 + e1) * (1 + e2) * (1 + e3) - 1) <= 4 * u.
Proof.
  intros e1 e2 e3 H1 H2 H3. pose proof u_pos. pose proof u_small.
  apply Rabs_le_inv in H1. apply Rabs_le_inv in H2. apply Rabs_le_inv in H3.
  assert (B12 : - (2 * u + u * u) <= (1 + e1) * (1 + e2) - 1 <= 2 * u + u * u).
  { replace ((1 + e1) * (1 + e2) - 1) with (e1 + e2 + e1 * e2) by ring.
    assert (- (u * u) <= e1 * e2 <= u * u) by (split; nra). lra. }
  set (d := (1 + e1) * (1 + e2) - 1) in *. replace ((1 + e1) * (1 + e2)) with (1 + d) by (unfold d; ring).
  replace ((1 + d) * (1 + e3) - 1) with (d + e3 + d * e3) by ring.
  assert (- (3 * u * u) <= d * e3 <= 3 * u * u).
  { assert (- (3 * u) <= d <= 3 * u) by nra. split; nra. }
  apply Rabs_le. split; nra.
Qed.
(** The weight (w * v) * (r * r). *)
Lemma weight_err : forall w v r : F64, is_finite (fmul (fmul w v) (fmul r r)) = true ->
  no_underflow (B2R w * B2R v) -> no_underflow (B2R r * B2R r) ->
  no_underflow (B2R w * B2R v * (B2R r * B2R r)) ->
  Rabs (B2R (fmul (fmul w v) (fmul r r)) - B2R w * B2R v * (B2R r * B2R r))
  <= 4 * u * Rabs (B2R w * B2R v * (B2R r * B2R r)).
Proof.
  intros w v r H N1 N2 N3. destruct (fmul_R _ _ H) as (F1 & F2 & E).
  destruct (fmul_R _ _ F1) as (_ & _ & E1). destruct (fmul_R _ _ F2) as (_ & _ & E2). rewrite E, E1, E2.
  destruct (rel_mul _ (no_underflow_1022 _ N1)) as (e1 & He1 & ->).
  destruct (rel_mul _ (no_underflow_1022 _ N2)) as (e2 & He2 & ->).
  set (A := B2R w * B2R v) in *. set (B := B2R r * B2R r) in *.
  replace (A * (1 + e1) * (B * (1 + e2))) with (A * B * (1 + e1) * (1 + e2)) by ring.
  destruct (rel_mul _ (shrink (A * B) e1 e2 N3 He1 He2)) as (e3 & He3 & ->).
  replace (A * B * (1 + e1) * (1 + e2) * (1 + e3) - A * B) with (A * B * ((1 + e1) * (1 + e2) * (1 + e3) - 1)) by ring.
  rewrite Rabs_mult, Rmult_comm. apply Rmult_le_compat_r; [apply Rabs_pos|]. apply three_rel; auto.
Qed.

Lemma points_err : forall m dbg nr na (r : rquad (FS m)) (a : aquad (FS m)) (c : F64 * F64 * F64), sized nr r -> sized na a ->
  exists o, spherical_construct dbg r a c = Ok o /\ sized (nr * na) (sph_quad o) /\ sph_center o = c /\
  forall i j (ri wi vj w : F64) (uj p : F64 * F64 * F64), point_at r i = Ok ri -> weight_at r i = Ok wi ->
    point_at a j = Ok uj -> weight_at a j = Ok vj ->
    point_at (sph_quad o) (i + j * nr) = Ok p -> weight_at (sph_quad o) (i + j * nr) = Ok w ->
    (forall ax, In ax axes -> is_finite (ax p) = true ->
      Rabs (B2R (ax p) - (B2R ri * B2R (ax uj) + B2R (ax c)))
      <= ulp53 * Rabs (B2R ri * B2R (ax uj) + B2R (ax c)) + 2 * ulp53 * Rabs (B2R ri * B2R (ax uj)) + tiny) /\
    (is_finite w = true -> no_underflow (B2R wi * B2R vj) -> no_underflow (B2R ri * B2R ri) ->
      no_underflow (B2R wi * B2R vj * (B2R ri * B2R ri)) ->
      Rabs (B2R w - B2R wi * B2R vj * (B2R ri * B2R ri)) <= 4 * ulp53 * Rabs (B2R wi * B2R vj * (B2R ri * B2R ri))).
Proof.
  intros m dbg nr na r a c Hr Ha. destruct (spherical_spec dbg nr na r a c Hr Ha) as (o & Ho & Hc & Hs & Hn).
  exists o. do 3 (split; auto). intros i j ri wi vj w uj p P1 P2 P3 P4 P5 P6.
  pose proof (Hn i j ri wi uj vj P1 P2 P3 P4) as E.
  assert (E' : nth_error (nodes (sph_quad o)) (i + j * nr) = Some (p, w)).
  { exact (nodes_nth _ _ _ _ _ _ P5 P6). }
  rewrite E in E'. destruct c as [[cx cy] cz], uj as [[x y] z]. cbn in E'. injection E' as <- <-.
  split.
  - intros ax [<-|[<-|[<-|[]]]] F; cbn in F |- *; apply mul_add_err; exact F.
  - intros F N1 N2 N3. apply weight_err; auto.
Qed.

(** ** Recentering *)
Lemma Beqb_B2R : forall x y : F64, Beqb x y = true -> B2R x = B2R y.
Proof.
  intros x y H. destruct (is_finite x) eqn:Fx, (is_finite y) eqn:Fy.
  - rewrite Beqb_correct in H by auto. apply Req_bool_spec_iff in H || (destruct (Req_bool_spec (B2R x) (B2R y)); [auto|discriminate]).
  - destruct y as [|[]| |]; try discriminate Fy; destruct x as [| | |[]]; try discriminate Fx; discriminate H.
  - destruct x as [|[]| |]; try discriminate Fx; destruct y as [| | |[]]; try discriminate Fy; discriminate H.
  - destruct x; try discriminate Fx; destruct y; try discriminate Fy; auto.
Qed.

(** One coordinate of one recentering: p + (c' - c), exactly p + (c' - c) up to D, C bounds. *)
Lemma shift_err : forall p c c' : F64, is_finite (fadd p (fsub c' c)) = true ->
  is_finite p = true /\
  Rabs (B2R (fadd p (fsub c' c)) - (B2R p + (B2R c' - B2R c)))
  <= u * Rabs (B2R p + (B2R c' - B2R c)) + (u + u * u) * Rabs (B2R c' - B2R c).
Proof.
  intros p c c' H. destruct (fadd_R _ _ H) as (Fp & Fs & E). split; [exact Fp|].
  destruct (fsub_R _ _ Fs) as (_ & _ & Es).
  destruct (rnd_add_err p (fsub c' c)) as (e & He & E1). rewrite E, E1, Es.
  assert (X : exists e1, Rabs e1 <= u /\ rnd (B2R c' - B2R c) = (B2R c' - B2R c) * (1 + e1)).
  { destruct (rnd_add_err c' (Bopp c)) as (e1 & He1 & E2). rewrite B2R_Bopp in E2. exists e1. split; [exact He1|exact E2]. }
  destruct X as (e1 & He1 & ->). set (d := B2R c' - B2R c). set (x := B2R p).
  replace ((x + d * (1 + e1)) * (1 + e) - (x + d)) with ((x + d) * e + d * (e1 + e1 * e)) by ring.
  pose proof u_pos. eapply Rle_trans; [apply Rabs_triang|]. rewrite !Rabs_mult.
  apply Rplus_le_compat.
  - rewrite Rmult_comm. apply Rmult_le_compat_r; [apply Rabs_pos|auto].
  - rewrite Rmult_comm. apply Rmult_le_compat_r; [apply Rabs_pos|].
    eapply Rle_trans; [apply Rabs_triang|]. rewrite Rabs_mult.
    apply Rplus_le_compat; [auto|]. apply Rmult_le_compat; auto; apply Rabs_pos.
Qed.

Lemma recenters_cons : forall {S : Scalar} c cs (o : sphobj S),
  recenters o (c :: cs) = let* o' := recenter c o in recenters o' cs.
Proof.
  intros S c cs o. unfold recenters. cbn [fold_left bind]. destruct (recenter c o) eqn:E; cbn [bind]; auto.
  - clear. induction cs; simpl; auto.
  - clear. induction cs; simpl; auto.
  - clear. induction cs; simpl; auto.
  - clear. induction cs; simpl; auto.
Qed.

Lemma last_cons : forall A (cs : list A) c d, last (c :: cs) d = last cs c.
Proof.
  intros A cs. induction cs as [|b cs IH]; intros c d; [reflexivity|].
  change (last (b :: cs) d = last (b :: cs) c). rewrite !IH. reflexivity.
Qed.

Lemma drift : forall m ax, In ax (@axes F64) -> forall D rho n cs (o o' : sphobj (FS m)) i (p p' : F64 * F64 * F64),
  sized n (sph_quad o) -> recenters o cs = Ok o' ->
  point_at (sph_quad o) i = Ok p -> point_at (sph_quad o') i = Ok p' -> is_finite (ax p') = true ->
  Rabs (B2R (ax (sph_center o))) <= D -> (forall c, In c cs -> Rabs (B2R (ax c)) <= D) ->
  forall x, Rabs (x - B2R (ax (sph_center o))) <= rho ->
  is_finite (ax p) = true /\ B2R (ax (sph_center o')) = B2R (ax (last cs (sph_center o))) /\
  Rabs (B2R (ax p') - (x + (B2R (ax (sph_center o')) - B2R (ax (sph_center o)))))
  <= (1 + u) ^ length cs * Rabs (B2R (ax p) - x) + ((1 + u) ^ length cs - 1) * (rho + 4 * D).
Proof.
  intros m ax Hax D rho n cs. induction cs as [|c cs IH]; intros o o' i p p' Hn Ho Hp Hp' F HD Hcs x Hx.
  - unfold recenters in Ho. simpl in Ho. injection Ho as <-. rewrite Hp in Hp'. injection Hp' as <-.
    split; [auto|]. split; [auto|]. cbn [length pow].
    match goal with |- Rabs (_ - (_ + (?a - ?a))) <= _ => replace (a - a) with 0 by ring end. rewrite Rplus_0_r. lra.
  - rewrite recenters_cons in Ho.
    destruct (recenter_spec n o c Hn) as (o1 & E1 & S1 & _ & Keq & Kne). rewrite E1 in Ho. cbn [bind] in Ho.
    pose proof u_pos as U0. pose proof u_small as U1.
    assert (HD0 : 0 <= D) by (eapply Rle_trans; [apply Rabs_pos|exact HD]).
    assert (Hr0 : 0 <= rho) by (eapply Rle_trans; [apply Rabs_pos|exact Hx]).
    assert (Pw : 1 <= (1 + u) ^ length cs) by (apply pow_R1_Rle; lra).
    assert (L : forall d, last (c :: cs) d = last cs c).
    { intro d. apply last_cons. }
    destruct (pt_eqb c (sph_center o)) eqn:Eq.
    + specialize (Keq eq_refl). subst o1.
      assert (C : B2R (ax c) = B2R (ax (sph_center o))).
      { destruct c as [[cx cy] cz], (sph_center o) as [[ox oy] oz]. cbn in Eq.
        apply andb_prop in Eq. destruct Eq as [Eq E3]. apply andb_prop in Eq. destruct Eq as [E4 E5].
        destruct Hax as [<-|[<-|[<-|[]]]]; cbn; apply Beqb_B2R; auto. }
      destruct (IH o o' i p p' Hn Ho Hp Hp' F HD (fun b Hb => Hcs b (or_intror Hb)) x Hx) as (A1 & A2 & A3).
      split; [auto|]. split.
      { rewrite A2, L. destruct cs as [|b cs]; [simpl; auto|]. rewrite !last_cons. reflexivity. }
      eapply Rle_trans; [exact A3|]. cbn [length pow].
      apply Rplus_le_compat.
      * apply Rmult_le_compat_r; [apply Rabs_pos|]. nra.
      * apply Rmult_le_compat_r; [lra|]. nra.
    + destruct (Kne eq_refl) as (C1 & K1). specialize (K1 i p Hp).
      match type of K1 with _ = Ok ?t => set (p1 := t) in K1 end.
      assert (G : ax p1 = fadd (ax p) (fsub (ax c) (ax (sph_center o)))).
      { unfold p1. destruct p as [[a b] d], c as [[cx cy] cz], (sph_center o) as [[ox oy] oz].
        destruct Hax as [<-|[<-|[<-|[]]]]; reflexivity. }
      set (x1 := x + (B2R (ax c) - B2R (ax (sph_center o)))).
      destruct (IH o1 o' i p1 p' S1 Ho K1 Hp' F) with (x := x1) as (A1 & A2 & A3).
      { rewrite C1. apply Hcs. left. auto. }
      { intros b Hb. apply Hcs. right. auto. }
      { rewrite C1. unfold x1. replace (x + (B2R (ax c) - B2R (ax (sph_center o))) - B2R (ax c)) with (x - B2R (ax (sph_center o))) by ring. exact Hx. }
      rewrite G in A1. destruct (shift_err _ _ _ A1) as (Fp & Er). split; [exact Fp|]. split.
      { rewrite A2, C1, L. reflexivity. }
      rewrite C1 in A3. rewrite G in A3.
      replace (x + (B2R (ax (sph_center o')) - B2R (ax (sph_center o)))) with (x1 + (B2R (ax (sph_center o')) - B2R (ax c))) by (unfold x1; ring).
      eapply Rle_trans; [exact A3|]. clear A3 A2.
      set (q := B2R (fadd (ax p) (fsub (ax c) (ax (sph_center o))))) in *.
      set (d := B2R (ax c) - B2R (ax (sph_center o))) in *.
      set (E0 := Rabs (B2R (ax p) - x)).
      assert (Dd : Rabs d <= 2 * D).
      { unfold d. specialize (Hcs c (or_introl eq_refl)). unfold Rminus. eapply Rle_trans; [apply Rabs_triang|]. rewrite Rabs_Ropp. lra. }
      assert (Ic : Rabs (x + d) <= rho + D).
      { unfold d. replace (x + (B2R (ax c) - B2R (ax (sph_center o)))) with ((x - B2R (ax (sph_center o))) + B2R (ax c)) by ring.
        eapply Rle_trans; [apply Rabs_triang|]. specialize (Hcs c (or_introl eq_refl)). lra. }
      assert (B1 : Rabs (B2R (ax p) + d) <= E0 + (rho + D)).
      { replace (B2R (ax p) + d) with ((B2R (ax p) - x) + (x + d)) by ring. eapply Rle_trans; [apply Rabs_triang|]. unfold E0. lra. }
      assert (B2 : Rabs (q - x1) <= (1 + u) * E0 + u * (rho + 4 * D)).
      { replace (q - x1) with ((q - (B2R (ax p) + d)) + (B2R (ax p) - x)) by (unfold x1; ring).
        eapply Rle_trans; [apply Rabs_triang|]. fold E0.
        assert (u * Rabs (B2R (ax p) + d) <= u * (E0 + (rho + D))) by (apply Rmult_le_compat_l; lra).
        assert ((u + u * u) * Rabs d <= (u + u * u) * (2 * D)) by (apply Rmult_le_compat_l; nra).
        assert (0 <= u * D) by (apply Rmult_le_pos; lra).
        assert (u * (u * D) <= 1 / 2 * (u * D)) by (apply Rmult_le_compat_r; lra). lra. }
      assert (0 <= E0) by apply Rabs_pos.
      set (P := (1 + u) ^ length cs) in *. cbn [length pow]. fold P.
      assert (M : P * Rabs (q - x1) <= P * ((1 + u) * E0 + u * (rho + 4 * D))) by (apply Rmult_le_compat_l; lra).
      nra.
Qed.

Lemma drift0 : forall m ax, In ax (@axes F64) -> forall D rho n cs (o o' : sphobj (FS m)) i (p p' : F64 * F64 * F64),
  sized n (sph_quad o) -> recenters o cs = Ok o' ->
  point_at (sph_quad o) i = Ok p -> point_at (sph_quad o') i = Ok p' -> is_finite (ax p') = true ->
  Rabs (B2R (ax (sph_center o))) <= D -> (forall c, In c cs -> Rabs (B2R (ax c)) <= D) ->
  Rabs (B2R (ax p) - B2R (ax (sph_center o))) <= rho ->
  B2R (ax (sph_center o')) = B2R (ax (last cs (sph_center o))) /\
  Rabs (B2R (ax p') - (B2R (ax p) + (B2R (ax (sph_center o')) - B2R (ax (sph_center o)))))
  <= ((1 + ulp53) ^ length cs - 1) * (rho + 4 * D).
Proof.
  intros m ax Hax D rho n cs o o' i p p' Hn Ho Hp Hp' F HD Hcs Hr.
  destruct (drift m ax Hax D rho n cs o o' i p p' Hn Ho Hp Hp' F HD Hcs _ Hr) as (_ & A & B). split; [exact A|].
  replace (B2R (ax p) - B2R (ax p)) with 0 in B by ring. rewrite Rabs_R0, Rmult_0_r, Rplus_0_l in B. exact B.
Qed.

Lemma recenters_sized : forall {S : Scalar} n cs (o o' : sphobj S), sized n (sph_quad o) -> recenters o cs = Ok o' ->
  sized n (sph_quad o') /\ qweights (sph_quad o') = qweights (sph_quad o).
Proof.
  intros S n cs. induction cs as [|c cs IH]; intros o o' Hn H.
  - injection H as <-. auto.
  - rewrite recenters_cons in H. destruct (recenter_spec n o c Hn) as (o1 & E1 & S1 & W1 & _ & _). rewrite E1 in H.
    destruct (IH o1 o' S1 H) as [A B]. split; [exact A|]. congruence.
Qed.

Lemma recenters_total : forall {S : Scalar} n cs (o : sphobj S), sized n (sph_quad o) ->
  exists o', recenters o cs = Ok o' /\ sized n (sph_quad o') /\ qweights (sph_quad o') = qweights (sph_quad o).
Proof.
  intros S n cs. induction cs as [|c cs IH]; intros o Hn; [exists o; auto|].
  rewrite recenters_cons. destruct (recenter_spec n o c Hn) as (o1 & E1 & S1 & W1 & _ & _). rewrite E1. cbn [bind].
  destruct (IH o1 S1) as (o' & A & B & C). exists o'. split; [exact A|]. split; [exact B|]. congruence.
Qed.

(** Built at c, then recentered: against the exact grid at the last centre. *)
Lemma drift_built : forall m ax, In ax (@axes F64) -> forall dbg D nr na (r : rquad (FS m)) (a : aquad (FS m)) (c : F64 * F64 * F64) cs o',
  sized nr r -> sized na a ->
  (let* o := spherical_construct dbg r a c in recenters o cs) = Ok o' ->
  Rabs (B2R (ax c)) <= D -> (forall b, In b cs -> Rabs (B2R (ax b)) <= D) ->
  forall i j (ri : F64) (uj p : F64 * F64 * F64), point_at r i = Ok ri -> point_at a j = Ok uj ->
  point_at (sph_quad o') (i + j * nr) = Ok p -> is_finite (ax p) = true ->
  let rho := Rabs (B2R ri * B2R (ax uj)) in
  let k := length cs in
  Rabs (B2R (ax p) - (B2R ri * B2R (ax uj) + B2R (ax (last cs c))))
  <= ((1 + ulp53) ^ k - 1) * (rho + 4 * D) + (1 + ulp53) ^ k * (ulp53 * (3 * rho + D) + tiny).
Proof.
  intros m ax Hax dbg D nr na r a c cs o' Hr Ha H HD Hcs i j ri uj p Hri Huj Hp F rho k.
  destruct (points_err m dbg nr na r a c Hr Ha) as (o & Ho & So & Co & K). rewrite Ho in H. cbn [bind] in H.
  assert (Li : exists wi, weight_at r i = Ok wi).
  { destruct Hr as (_ & _ & _ & H1 & H2). destruct (le_lt_dec nr i) as [L|L].
    - destruct (H2 i L) as [E _]. rewrite E in Hri. discriminate.
    - destruct (H1 i L) as [_ (w & E & _)]. eauto. }
  assert (Lj : exists vj, weight_at a j = Ok vj).
  { destruct Ha as (_ & _ & _ & H1 & H2). destruct (le_lt_dec na j) as [L|L].
    - destruct (H2 j L) as [E _]. rewrite E in Huj. discriminate.
    - destruct (H1 j L) as [_ (w & E & _)]. eauto. }
  destruct Li as (wi & Hwi), Lj as (vj & Hvj).
  destruct (recenters_sized _ _ _ _ So H) as [So' _].
  assert (L0 : (i + j * nr < nr * na)%nat).
  { destruct So' as (_ & _ & _ & _ & H2). destruct (le_lt_dec (nr * na) (i + j * nr)) as [L|L]; auto.
    destruct (H2 _ L) as [E _]. rewrite E in Hp. discriminate. }
  pose proof So as (_ & _ & _ & H1 & _). destruct (H1 _ L0) as [(p0 & P0 & _) (w0 & W0 & _)].
  destruct (K i j ri wi vj w0 uj p0 Hri Hwi Huj Hvj P0 W0) as [KP _].
  assert (HDo : Rabs (B2R (ax (sph_center o))) <= D) by (rewrite Co; exact HD).
  assert (Hx : Rabs ((B2R ri * B2R (ax uj) + B2R (ax c)) - B2R (ax (sph_center o))) <= rho).
  { rewrite Co. replace (B2R ri * B2R (ax uj) + B2R (ax c) - B2R (ax c)) with (B2R ri * B2R (ax uj)) by ring. apply Rle_refl. }
  destruct (drift m ax Hax D rho _ cs o o' _ p0 p So H P0 Hp F HDo Hcs _ Hx) as (F0 & C0 & B).
  specialize (KP ax Hax F0). rewrite C0, Co in B.
  replace (B2R ri * B2R (ax uj) + B2R (ax c) + (B2R (ax (last cs c)) - B2R (ax c)))
    with (B2R ri * B2R (ax uj) + B2R (ax (last cs c))) in B by ring.
  eapply Rle_trans; [exact B|]. fold k. rewrite Rplus_comm. apply Rplus_le_compat_l.
  assert (P1 : 1 <= (1 + u) ^ k) by (apply pow_R1_Rle; pose proof u_pos; lra).
  apply Rmult_le_compat_l; [change ulp53 with u; lra|]. eapply Rle_trans; [exact KP|].
  assert (T : Rabs (B2R ri * B2R (ax uj) + B2R (ax c)) <= rho + D).
  { eapply Rle_trans; [apply Rabs_triang|]. unfold rho. lra. }
  fold rho. change ulp53 with u. pose proof u_pos.
  assert (u * Rabs (B2R ri * B2R (ax uj) + B2R (ax c)) <= u * (rho + D)) by (apply Rmult_le_compat_l; lra).
  lra.
Qed.

(** Finding. *)
Definition half_way (m : libm) : rquad (FS m) := mkQuad [f_of 1 (-60)] [f_of 1 0].
Definition two_poles (m : libm) : aquad (FS m) :=
  mkQuad [((f_of 0 0, f_of 0 0), f_of 1 0); ((f_of 0 0, f_of 0 0), f_of (-1) 0)] [f_of 1 0; f_of 1 0].
Definition org : F64 * F64 * F64 := (f_of 0 0, f_of 0 0, f_of 0 0).
Definition off1 : F64 * F64 * F64 := (f_of 0 0, f_of 0 0, f_of 1 0).
Lemma there_and_back : forall m, exists nr na (r : rquad (FS m)) (a : aquad (FS m)) c c1 o o' (p q p' q' : F64 * F64 * F64),
  sized nr r /\ sized na a /\ spherical_construct true r a c = Ok o /\ recenters o [c1; c] = Ok o' /\
  point_at (sph_quad o) 0 = Ok p /\ point_at (sph_quad o) 1 = Ok q /\
  point_at (sph_quad o') 0 = Ok p' /\ point_at (sph_quad o') 1 = Ok q' /\
  Bltb (pz q) (pz p) = true /\ Beqb (pz p') (pz q') = true.
Proof.
  intro m. exists 1%nat, 2%nat, (half_way m), (two_poles m), org, off1.
  assert (T : match spherical_construct true (half_way m) (two_poles m) org with
    | Ok o => match recenters o [off1; org] with
      | Ok o' => match point_at (sph_quad o) 0, point_at (sph_quad o) 1, point_at (sph_quad o') 0, point_at (sph_quad o') 1 with
        | Ok p, Ok q, Ok p', Ok q' => Bltb (pz q) (pz p) && Beqb (pz p') (pz q')
        | _, _, _, _ => false end
      | _ => false end
    | _ => false end = true) by (vm_compute; reflexivity).
  destruct (spherical_construct true (half_way m) (two_poles m) org) as [o| | | |] eqn:E; try discriminate T.
  destruct (recenters o [off1; org]) as [o'| | | |] eqn:E'; try discriminate T.
  destruct (point_at (sph_quad o) 0) as [p| | | |] eqn:E1; try discriminate T.
  destruct (point_at (sph_quad o) 1) as [q| | | |] eqn:E2; try discriminate T.
  destruct (point_at (sph_quad o') 0) as [p'| | | |] eqn:E3; try discriminate T.
  destruct (point_at (sph_quad o') 1) as [q'| | | |] eqn:E4; try discriminate T.
  apply andb_prop in T. destruct T as [T1 T2].
  exists o, o', p, q, p', q'. split; [apply sized_intro; reflexivity|]. split; [apply sized_intro; reflexivity|].
  repeat split; auto.
Qed.
Definition run3 (m : libm) (c1 : F64 * F64 * F64) :=
  let* o := spherical_construct true (half_way m) (two_poles m) org in recenters o [c1; org].
Lemma drift_ex : forall m, In pz (@axes F64) /\ exists o' (p : F64 * F64 * F64),
  run3 m off1 = Ok o' /\ point_at (sph_quad o') 0 = Ok p /\ is_finite (pz p) = true /\
  Rabs (B2R (pz org)) <= 1 /\ (forall b, In b [off1; org] -> Rabs (B2R (pz b)) <= 1).
Proof.
  intro m. split; [right; right; left; reflexivity|].
  assert (T : match run3 m off1 with Ok o' => match point_at (sph_quad o') 0 with Ok p => is_finite (pz p) | _ => false end
    | _ => false end = true) by (vm_compute; reflexivity).
  destruct (run3 m off1) as [o'| | | |] eqn:E; try discriminate T.
  destruct (point_at (sph_quad o') 0) as [p| | | |] eqn:E1; try discriminate T.
  exists o', p. do 3 (split; [auto|]).
  assert (Z : B2R (pz org) = 0) by reflexivity.
  assert (O : B2R (pz off1) = 1). { unfold off1, pz. cbn [snd]. apply (f_of_small 1). lia. }
  split; [rewrite Z, Rabs_R0; lra|].
  intros b [<-|[<-|[]]]; [rewrite O, Rabs_R1; lra|rewrite Z, Rabs_R0; lra].
Qed.
