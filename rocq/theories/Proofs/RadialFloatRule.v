(** C43: whole radial rules in binary64 against the exact rules. *)
From Coq Require Import List Bool Arith ZArith Reals Lra Lia Psatz.
From Flocq Require Import IEEE754.BinarySingleNaN Core.
From Verif Require Import Base.Outcome Base.Scalar Base.RScalar Base.FScalar Model.Primitive Model.Radial
  Spec.RuleSpec Spec.RealRules Spec.FloatSpec Spec.LibmSpec Spec.RadialSpec Proofs.Tab Proofs.PrimitiveFacts Proofs.Sizes
  Proofs.FloatOps Proofs.FloatSphere Proofs.PiBounds Proofs.FloatErr Proofs.ChebReal Proofs.TrapReal Proofs.ChebFloat Proofs.RadialReal
  Proofs.RadialRule Proofs.RadialFloat.
Import ListNotations.
Local Open Scope R_scope.

Lemma rel_trans : forall x v w e e' t, rel x v e -> v = w * (1 + t) -> Rabs t <= e' -> rel x w (e + e' + e * e').
Proof.
  intros x v w e e' t (F & d & Hd & E) -> Ht. split; [exact F|]. exists (d + t + t * d). split; [|rewrite E; ring].
  pose proof (Rabs_triang (d + t) (t * d)). pose proof (Rabs_triang d t). rewrite (Rabs_mult t d) in H.
  assert (Rabs t * Rabs d <= e' * e) by (apply Rmult_le_compat; auto; apply Rabs_pos). lra.
Qed.

(** The stored base nodes. *)
Section Cheb.
Variables (m : libm) (d : R) (t : rtraits (FS m)) (i : nat).
Hypotheses (A : accurate m d) (Hd : d <= 1 / 2000) (Hn : (Z.of_nat (2 * rt_npts t + 2) <= 2 ^ 53)%Z)
  (Hb : base_inclusive t = false) (Hi : (i < rt_npts t)%nat).
Let n := rt_npts t.
Let xh : F64 := @base_pt (FS m) t (i + base_off t).
Let wh : F64 := @base_wt (FS m) t (i + base_off t).
Let th := th2 n i.
Lemma cheb_base : near xh (cos th) (d + 23 * u) /\ -1 <= B2R xh <= 1 /\
  near wh (PI / INR (n + 1) * sin th) (PI / INR (n + 1) * sin th * ((2 * d + 56 * u) / (1 - cos th * cos th))).
Proof.
  pose proof (@base_closed (FS m) t) as BC. unfold base_generate in BC. rewrite Hb in BC.
  assert (Bn : base_n t = n) by (unfold base_n; rewrite Hb; reflexivity).
  assert (Bo : base_off t = 0%nat) by (unfold base_off; rewrite Hb; reflexivity). rewrite Bn in BC.
  destruct (gc2_float m d n _ _ A Hd Hn BC (gc2_real n)) as (F & In1 & (L1 & L2 & C)). cbn [fst snd] in *.
  assert (X : nth_error (tab n (@base_pt (FS m) t)) i = Some xh) by (unfold xh; rewrite Bo, Nat.add_0_r; apply nth_error_tab; auto).
  assert (W : nth_error (tab n (@base_wt (FS m) t)) i = Some wh) by (unfold wh; rewrite Bo, Nat.add_0_r; apply nth_error_tab; auto).
  unfold real_rule in C, In1. cbn [fst snd] in C, In1.
  destruct (C i (B2R xh) (cos th) (B2R wh) (PI / INR (n + 1) * sin th)) as (C1 & C2).
  - apply map_nth_error. exact X.
  - exact (nth_error_tab n (fun j => cos (th2 n j)) i Hi).
  - apply map_nth_error. exact W.
  - exact (nth_error_tab n (fun j => PI / INR (n + 1) * sin (th2 n j)) i Hi).
  - split; [|split].
    + split; [|exact C1]. apply F. left. apply (nth_error_In _ i). exact X.
    + apply In1. apply in_map. apply (nth_error_In _ i). exact X.
    + split; [|exact C2]. apply F. right. apply (nth_error_In _ i). exact W.
Qed.
End Cheb.

Section Unif.
Variables (m : libm) (t : rtraits (FS m)) (i : nat).
Hypotheses (Hn : (Z.of_nat (rt_npts t + 2) <= 2 ^ 50)%Z) (Hb : base_inclusive t = true) (Hi : (i < rt_npts t)%nat).
Let n := rt_npts t.
Let xh : F64 := @base_pt (FS m) t (i + base_off t).
Let wh : F64 := @base_wt (FS m) t (i + base_off t).
Lemma unif_base : rel xh (INR (S i) / INR (n + 1)) (3.01 * u) /\ rel wh (1 / INR (n + 1)) (2 * u).
Proof.
  pose proof u_pos as U. pose proof u_small as U1.
  assert (Bn : base_n t = (n + 2)%nat) by (unfold base_n; rewrite Hb; reflexivity).
  assert (Bo : base_off t = 1%nat) by (unfold base_off; rewrite Hb; reflexivity).
  assert (N1 : 1 <= INR (n + 1)) by (apply (le_INR 1); lia).
  assert (N2 : INR (n + 1) <= 2 ^ 53) by (apply INR_2p; unfold n; lia).
  assert (I1 : 1 <= INR (S i) <= INR (n + 1)) by (split; [apply (le_INR 1)|apply le_INR]; unfold n; lia).
  set (dx := fdiv (fsub (f_of 1 0) (f_of 0 0)) (f_of (Z.of_nat (n + 1)) 0)).
  assert (WN : pw (1 / INR (n + 1)) 53 0).
  { unfold Rdiv. rewrite Rmult_1_l. split; simpl (2 ^ 0); [apply Rinv_le_contravar; lra|]. rewrite <- Rinv_1. apply Rinv_le_contravar; lra. }
  assert (DX : rel dx (1 / INR (n + 1)) (2 * u)).
  { unfold dx. destruct (pw_ok _ _ _ WN ltac:(lia) ltac:(lia)) as (T & B).
    pose proof (fsub_int (f_of 1 0) 1 0 (int_rel 1 ltac:(lia)) ltac:(lia) ltac:(lia)) as O. change (IZR (1 - 0)) with 1 in O.
    eapply rel_weak; [apply (rel_fdiv _ _ _ _ _ _ O (nat_rel (n + 1) ltac:(unfold n; lia))); auto; lra|lra]. }
  assert (Ex : xh = fadd (f_of 0 0) (fmul (f_of (Z.of_nat (S i)) 0) dx)).
  { unfold xh, base_pt. rewrite Hb, Bn, Bo. unfold uni_pt, uni_dx. replace (n + 2 - 1)%nat with (n + 1)%nat by lia.
    replace (i + 1)%nat with (S i) by lia. reflexivity. }
  assert (Ew : wh = dx).
  { unfold wh, base_wt. rewrite Hb, Bn, Bo. unfold uni_wt, uni_dx. replace (n + 2 - 1)%nat with (n + 1)%nat by lia.
    destruct (Nat.eqb_spec (i + 1) 0); [lia|]. destruct (Nat.eqb_spec (i + 1) (n + 1)); [unfold n in *; lia|]. reflexivity. }
  split; [|rewrite Ew; exact DX].
  assert (WX : pw (INR (S i) * (1 / INR (n + 1))) 53 0).
  { replace (INR (S i) * (1 / INR (n + 1))) with (INR (S i) / INR (n + 1)) by (field; lra). split; simpl (2 ^ 0).
    - destruct WN as (WN & _). apply Rle_trans with (1 / INR (n + 1)); auto. apply Rmult_le_compat_r; [left; apply Rinv_0_lt_compat; lra|lra].
    - apply Rmult_le_reg_r with (INR (n + 1)); [lra|]. unfold Rdiv. rewrite Rmult_assoc, Rinv_l by lra. lra. }
  destruct (pw_ok _ _ _ WX ltac:(lia) ltac:(lia)) as (T & B).
  pose proof (rel_fmul _ _ _ _ _ _ (nat_rel (S i) ltac:(unfold n in *; lia)) DX ltac:(lra) ltac:(lra) T B) as Q.
  eapply rel_weak in Q; [|instantiate (1 := 3.01 * u); nra].
  replace (INR (S i) * (1 / INR (n + 1))) with (INR (S i) / INR (n + 1)) in Q by (field; lra).
  rewrite Ex. destruct Q as (F & e & He & E). destruct (f_of_small 0 ltac:(lia)) as (F0 & E0).
  set (p := fmul (f_of (Z.of_nat (S i)) 0) dx) in *.
  assert (F2 : is_finite (fadd (f_of 0 0) p) = true).
  { apply fadd_finite; auto. rewrite E0, Rplus_0_l. change (Rabs (rnd (B2R p)) < bpow radix2 1024). rewrite rnd_B2R. apply finite_lt. }
  split; [exact F2|]. exists e. split; [exact He|]. destruct (fadd_R _ _ F2) as (_ & _ & ->).
  rewrite E0, Rplus_0_l, rnd_B2R. exact E.
Qed.
End Unif.

(** From the entries to the rules. *)
Lemma assemble : forall m (t : rtraits (FS m)) er ew (qf : list F64 * list F64) (q : list R * list R),
  (forall i, (i < rt_npts t)%nat -> rel (@rad_pt (FS m) t i : F64) (Tr (real_traits t) (bx (real_traits t) i)) er /\
     rel (@rad_wt (FS m) t i : F64) (bw (real_traits t) i * Jr (real_traits t) (bx (real_traits t) i)) ew) ->
  @radial_generate (FS m) t = Ok qf -> @radial_generate RS (real_traits t) = Ok q -> rel_rules qf q er ew.
Proof.
  intros m t er ew qf q H Hf Hq. rewrite radial_closed in Hf. injection Hf as <-. rewrite radial_real in Hq. injection Hq as <-.
  assert (N : rt_npts (real_traits t) = rt_npts t) by (destruct t; reflexivity). rewrite N. unfold rel_rules. cbn [fst snd].
  rewrite !tab_length. split; [reflexivity|split; [reflexivity|split]]; intros i x v Hx Hv;
    (assert (J : (i < rt_npts t)%nat);
     [apply Nat.nlt_ge; intro K; rewrite (proj2 (nth_error_None _ _)) in Hv; [discriminate|]; rewrite tab_length; lia|]).
  - pose proof (eq_trans (eq_sym (nth_error_tab (rt_npts t) (@rad_pt (FS m) t) i J)) Hx) as Ex. injection Ex as <-.
    pose proof (eq_trans (eq_sym (nth_error_tab (rt_npts t) (fun i => Tr (real_traits t) (bx (real_traits t) i)) i J)) Hv) as Ev. injection Ev as <-.
    apply close_of_rel. apply H; auto.
  - pose proof (eq_trans (eq_sym (nth_error_tab (rt_npts t) (@rad_wt (FS m) t) i J)) Hx) as Ex. injection Ex as <-.
    pose proof (eq_trans (eq_sym (nth_error_tab (rt_npts t) (fun i => bw (real_traits t) i * Jr (real_traits t) (bx (real_traits t) i)) i J)) Hv) as Ev. injection Ev as <-.
    apply close_of_rel. apply H; auto.
Qed.

(** How the exact maps react to a change of the base node. *)
Lemma quot_err : forall a q, Rabs a <= q -> q <= 1 / 50 -> Rabs (/ (1 - a) - 1) <= 1.03 * q.
Proof.
  intros a q H Hq. apply abs_of in H. replace (/ (1 - a) - 1) with (a * / (1 - a)) by (field; lra). rewrite Rabs_mult.
  assert (0 < / (1 - a) <= 1.03).
  { split; [apply Rinv_0_lt_compat; lra|]. apply Rmult_le_reg_l with (1 - a); [lra|]. rewrite Rinv_r by lra. lra. }
  rewrite (Rabs_pos_eq (/ (1 - a))) by lra. assert (Rabs a <= q) by (apply Rabs_le; lra). pose proof (Rabs_pos a). nra.
Qed.
Lemma comb : forall s t a b, Rabs s <= a -> Rabs t <= b -> Rabs ((1 + s) * (1 + t) - 1) <= a + b + a * b.
Proof.
  intros s t a b Hs Ht. replace ((1 + s) * (1 + t) - 1) with (s + t + s * t) by ring.
  pose proof (Rabs_triang (s + t) (s * t)). pose proof (Rabs_triang s t). rewrite (Rabs_mult s t) in H.
  assert (Rabs s * Rabs t <= a * b) by (apply Rmult_le_compat; auto; apply Rabs_pos). lra.
Qed.
Lemma mix : forall T1 T2 k i e, 0 <= T1 -> 0 < T2 -> Rabs k <= e -> Rabs i <= e ->
  exists s, Rabs s <= e /\ T1 * (1 + k) + T2 * (1 + i) = (T1 + T2) * (1 + s).
Proof.
  intros T1 T2 k i e H1 H2 Hk Hi. exists ((T1 * k + T2 * i) / (T1 + T2)). split; [|field; lra].
  unfold Rdiv. rewrite Rabs_mult, Rabs_inv, (Rabs_pos_eq (T1 + T2)) by lra.
  apply Rmult_le_reg_r with (T1 + T2); [lra|]. rewrite Rmult_assoc, Rinv_l by lra.
  pose proof (Rabs_triang (T1 * k) (T2 * i)) as T. rewrite !Rabs_mult, (Rabs_pos_eq T1), (Rabs_pos_eq T2) in T by lra. nra.
Qed.
(** a = (y-x)/(1-x) and b = (y-x)/(1+x). *)
Section Shift.
Variables x y E : R.
Hypotheses (Hx : -1 < x < 1) (Hy : Rabs (y - x) <= E) (Hq : E / (1 - x * x) <= 1 / 100).
Let q := E / (1 - x * x).
Let a := (y - x) / (1 - x).
Let b := (y - x) / (1 + x).
Lemma shift_q : 0 <= q /\ Rabs (y - x) <= q * (1 - x * x).
Proof.
  assert (P : 0 < 1 - x * x) by nra. assert (0 <= E) by (eapply Rle_trans; [apply Rabs_pos|exact Hy]).
  split; [apply Rmult_le_pos; [auto|left; apply Rinv_0_lt_compat; auto]|]. unfold q. replace (E / (1 - x * x) * (1 - x * x)) with E by (field; lra). exact Hy.
Qed.
Lemma shift_a : Rabs a <= q * (1 + x) /\ Rabs a <= 2 * q.
Proof.
  destruct shift_q as (Q & H). unfold a, Rdiv. rewrite Rabs_mult, Rabs_inv, (Rabs_pos_eq (1 - x)) by lra.
  assert (K : Rabs (y - x) * / (1 - x) <= q * (1 + x)).
  { apply Rmult_le_reg_r with (1 - x); [lra|]. rewrite Rmult_assoc, Rinv_l by lra. nra. }
  split; [exact K|]. nra.
Qed.
Lemma shift_b : Rabs b <= 2 * q.
Proof.
  destruct shift_q as (Q & H). unfold b, Rdiv. rewrite Rabs_mult, Rabs_inv, (Rabs_pos_eq (1 + x)) by lra.
  apply Rmult_le_reg_r with (1 + x); [lra|]. rewrite Rmult_assoc, Rinv_l by lra. assert (0 <= q * (1 + x)) by nra. nra.
Qed.
Lemma shift_y : -1 < y < 1 /\ 1 - y = (1 - x) * (1 - a) /\ 1 + y = (1 + x) * (1 + b).
Proof.
  destruct shift_a as (_ & A). pose proof shift_b as B. destruct shift_q as (Q & _). fold q in Hq.
  apply abs_of in A. apply abs_of in B.
  assert (E1 : 1 - y = (1 - x) * (1 - a)) by (unfold a; field; lra).
  assert (E2 : 1 + y = (1 + x) * (1 + b)) by (unfold b; field; lra).
  assert (0 < (1 - x) * (1 - a)) by (apply Rmult_lt_0_compat; lra).
  assert (0 < (1 + x) * (1 + b)) by (apply Rmult_lt_0_compat; lra). split; [lra|auto].
Qed.
Lemma becke_shift : forall n R, exists t t', Rabs t <= 4.5 * q /\ Rabs t' <= 4.5 * q /\
  Tr (Becke n R) y = Tr (Becke n R) x * (1 + t) /\ Jr (Becke n R) y = Jr (Becke n R) x * (1 + t').
Proof.
  intros n R. destruct shift_a as (_ & A). pose proof shift_b as B. destruct shift_y as (Y & E1 & E2). destruct shift_q as (Q & _). fold q in Hq.
  pose proof (quot_err a (2 * q) A ltac:(lra)) as I. set (i := / (1 - a) - 1) in *. apply abs_of in A as A'.
  assert (Ei : / (1 - a) = 1 + i) by (unfold i; ring).
  exists ((1 + b) * (1 + i) - 1), ((1 + i) * (1 + i) - 1).
  split; [eapply Rle_trans; [apply (comb _ _ _ _ B I)|nra]|].
  split; [eapply Rle_trans; [apply (comb _ _ _ _ I I)|nra]|]. unfold Tr, Jr. rewrite E1, E2. rewrite <- !Ei. split; field; lra.
Qed.
Lemma ta_shift : forall n R al, 0 <= al <= 8 -> q <= 1 / 20000 -> exists t t', Rabs t <= 20 * q /\ Rabs t' <= 24 * q /\
  Tr (TA n R al) y = Tr (TA n R al) x * (1 + t) /\ Jr (TA n R al) y = Jr (TA n R al) x * (1 + t').
Proof.
  intros n R al Ha Hq'. destruct shift_a as (A1 & A). pose proof shift_b as B. destruct shift_y as (Y & E1 & E2). destruct shift_q as (Q & _).
  pose proof (quot_err a (2 * q) A ltac:(lra)) as I. set (i := / (1 - a) - 1) in *. apply abs_of in A as A'. apply abs_of in B as B'.
  assert (Ei : / (1 - a) = 1 + i) by (unfold i; ring).
  assert (Bn : Rabs (- b) <= 2 * q) by (rewrite Rabs_Ropp; auto).
  pose proof (quot_err (- b) (2 * q) Bn ltac:(lra)) as J. set (j := / (1 - - b) - 1) in *.
  assert (Ej : / (1 + b) = 1 + j) by (unfold j; replace (1 - - b) with (1 + b) by ring; ring).
  set (L := ln ((1 + 1) / (1 - x))).
  assert (L1 : (1 + x) / 2 <= L).
  { unfold L. replace ((1 + 1) / (1 - x)) with (/ ((1 - x) / 2)) by (field; lra). rewrite ln_Rinv by lra.
    pose proof (ln_le_sub ((1 - x) / 2) ltac:(lra)). lra. }
  set (l := - ln (1 - a) / L).
  assert (EL : ln ((1 + 1) / (1 - y)) = L * (1 + l)).
  { rewrite E1. replace ((1 + 1) / ((1 - x) * (1 - a))) with ((1 + 1) / (1 - x) * / (1 - a)) by (field; lra).
    rewrite ln_mult, ln_Rinv; try lra.
    - unfold l. fold L. field. lra.
    - apply Rdiv_lt_0_compat; lra.
    - apply Rinv_0_lt_compat; lra. }
  assert (Hl : Rabs l <= 2.05 * q).
  { assert (K : Rabs (ln (1 - a)) <= 1.01 * (q * (1 + x))).
    { replace (1 - a) with (1 + - a) by ring. apply ln_1p; [rewrite Rabs_Ropp; auto|]. nra. }
    unfold l, Rdiv. rewrite Rabs_mult, Rabs_Ropp, Rabs_inv, (Rabs_pos_eq L) by lra.
    apply Rmult_le_reg_r with L; [lra|]. rewrite Rmult_assoc, Rinv_l by lra. nra. }
  set (p := Rpower (1 + b) al - 1).
  assert (EP : Rpower (1 + y) al = Rpower (1 + x) al * (1 + p)).
  { rewrite E2, <- Rpower_mult_distr by lra. unfold p. ring. }
  assert (Hp : Rabs p <= 16.5 * q).
  { unfold p, Rpower. pose proof (ln_1p b (2 * q) B ltac:(lra)) as K.
    assert (K2 : Rabs (al * ln (1 + b)) <= 8 * (1.01 * (2 * q))).
    { rewrite Rabs_mult, (Rabs_pos_eq al) by lra. apply Rmult_le_compat; try apply Rabs_pos; lra. }
    pose proof (exp_1p _ _ K2 ltac:(lra)). lra. }
  pose proof ln2c_pos as LC.
  destruct (mix (al * L / (1 + x)) (1 / (1 - x)) ((1 + l) * (1 + j) - 1) i (4.3 * q)) as (s & Hs & Es).
  { apply Rmult_le_pos; [apply Rmult_le_pos; lra|left; apply Rinv_0_lt_compat; lra]. }
  { apply Rdiv_lt_0_compat; lra. }
  { eapply Rle_trans; [apply (comb _ _ _ _ Hl J)|nra]. }
  { lra. }
  exists ((1 + p) * (1 + l) - 1), ((1 + p) * (1 + s) - 1).
  split; [eapply Rle_trans; [apply (comb _ _ _ _ Hp Hl)|nra]|].
  split; [eapply Rle_trans; [apply (comb _ _ _ _ Hp Hs)|nra]|].
  unfold Tr, Jr. rewrite EL, EP. fold L. split; [field; lra|].
  replace (al * (L * (1 + l)) / (1 + y)) with (al * L / (1 + x) * (1 + ((1 + l) * (1 + j) - 1)))
    by (rewrite E2; replace (1 + j) with (/ (1 + b)) by exact Ej; field; lra).
  replace (1 / (1 - y)) with (1 / (1 - x) * (1 + i)) by (rewrite E1, <- Ei; field; lra).
  rewrite Es. field. lra.
Qed.
End Shift.

(** y = x (1 + dl). *)
Section Scaled.
Variables x dl e : R.
Hypotheses (Hx : 0 < x < 1) (Hdl : Rabs dl <= e).
Let y := x * (1 + dl).
Lemma mhl_shift : forall M n R, (1 <= M <= 8)%nat -> e / (1 - x) <= 1 / 20000 -> exists t t',
  Rabs t <= 1.1 * INR M * (e / (1 - x)) /\ Rabs t' <= 2.2 * INR M * (e / (1 - x)) /\
  Tr (MHL M n R) y = Tr (MHL M n R) x * (1 + t) /\ Jr (MHL M n R) y = Jr (MHL M n R) x * (1 + t').
Proof.
  intros M n R HM Hq. set (q := e / (1 - x)) in *. assert (e0 : 0 <= e) by (eapply Rle_trans; [apply Rabs_pos|exact Hdl]).
  assert (I0 : 0 < / (1 - x)) by (apply Rinv_0_lt_compat; lra).
  assert (Eq : e = q * (1 - x)) by (unfold q; field; lra). assert (q0 : 0 <= q) by (apply Rmult_le_pos; lra).
  assert (eq' : e <= q) by nra.
  set (s := dl * x / (1 - x)). assert (Hs : Rabs s <= q).
  { unfold s, Rdiv. rewrite !Rabs_mult, (Rabs_pos_eq x), (Rabs_pos_eq (/ (1 - x))) by lra. unfold q, Rdiv.
    apply Rmult_le_compat_r; [lra|]. pose proof (Rabs_pos dl). nra. }
  pose proof (quot_err s q Hs ltac:(lra)) as I. set (i := / (1 - s) - 1) in *. apply abs_of in Hs as Hs'.
  assert (Ei : / (1 - s) = 1 + i) by (unfold i; ring).
  set (k := dl / (1 - x) * (1 + i)). assert (Hk : Rabs k <= 1.01 * q).
  { unfold k, Rdiv. rewrite !Rabs_mult, (Rabs_pos_eq (/ (1 - x))) by lra. apply abs_of in I. rewrite (Rabs_pos_eq (1 + i)) by lra.
    assert (Rabs dl * / (1 - x) <= q) by (apply Rmult_le_compat_r; lra).
    assert (0 <= Rabs dl * / (1 - x)) by (apply Rmult_le_pos; [apply Rabs_pos|lra]). nra. }
  assert (E1 : 1 - y = (1 - x) * (1 - s)) by (unfold y, s; field; lra).
  assert (F1 : i = s + s * i) by (unfold i; field; lra). assert (F2 : s + dl = dl / (1 - x)) by (unfold s; field; lra).
  assert (Ek : 1 + k = (1 + dl) * (1 + i)) by (unfold k; rewrite <- F2; lra).
  assert (E2 : y / (1 - y) = x / (1 - x) * (1 + k)) by (rewrite E1, Ek, <- Ei; unfold y; field; lra).
  assert (I1 : 1 <= INR M <= 8).
  { split; [apply (le_INR 1); lia|]. replace 8 with (INR 8) by (simpl; lra). apply le_INR. lia. }
  assert (IM : INR (M - 1) = INR M - 1 /\ INR (M + 1) = INR M + 1) by (rewrite minus_INR, plus_INR by lia; simpl; lra).
  destruct IM as (IM1 & IM2). set (z := INR M * q) in *. assert (Z : q <= z <= 8 * q) by (unfold z; nra).
  pose proof (pow_err k (1.01 * q) M Hk ltac:(fold z; unfold z in *; nra)) as P1.
  pose proof (pow_err dl q (M - 1) ltac:(lra) ltac:(rewrite IM1; unfold z in *; nra)) as P2.
  pose proof (pow_err i (1.03 * q) (M + 1) I ltac:(rewrite IM2; unfold z in *; nra)) as P3.
  exists ((1 + k) ^ M - 1), ((1 + ((1 + dl) ^ (M - 1) - 1)) * (1 + ((1 + i) ^ (M + 1) - 1)) - 1).
  split; [eapply Rle_trans; [exact P1|]; unfold z in *; nra|].
  split; [eapply Rle_trans; [apply (comb _ _ _ _ P2 P3)|]; rewrite IM1, IM2|].
  { replace ((INR M - 1) * q) with (z - q) by (unfold z; ring). replace ((INR M + 1) * (1.03 * q)) with (1.03 * z + 1.03 * q) by (unfold z; ring).
    replace (2.2 * INR M * q) with (2.2 * z) by (unfold z; ring). nra. }
  unfold Tr, Jr. split.
  - rewrite E2, Rpow_mult_distr. ring.
  - replace (y ^ (M - 1)) with (x ^ (M - 1) * (1 + dl) ^ (M - 1)) by (unfold y; rewrite Rpow_mult_distr; ring).
    rewrite E1, Rpow_mult_distr. replace ((1 + i) ^ (M + 1)) with (/ (1 - s) ^ (M + 1)) by (rewrite <- Ei, pow_inv; reflexivity).
    field. split; apply pow_nonzero; lra.
Qed.
Lemma mk_shift : forall n R, e / (1 - x * x * x) <= 1 / 20000 -> exists t t',
  Rabs t <= 3.2 * (e / (1 - x * x * x)) /\ Rabs t' <= 5.4 * (e / (1 - x * x * x)) /\
  Tr (MK n R) y = Tr (MK n R) x * (1 + t) /\ Jr (MK n R) y = Jr (MK n R) x * (1 + t').
Proof.
  intros n R Hq. set (c := x * x * x) in *. pose proof (cube_lt x Hx) as C. fold c in C.
  set (q := e / (1 - c)) in *. assert (e0 : 0 <= e) by (eapply Rle_trans; [apply Rabs_pos|exact Hdl]).
  assert (I0 : 0 < / (1 - c)) by (apply Rinv_0_lt_compat; lra).
  assert (Eq : e = q * (1 - c)) by (unfold q; field; lra). assert (q0 : 0 <= q) by (apply Rmult_le_pos; lra).
  assert (eq' : e <= q) by nra. assert (I3 : INR 3 = 3) by (simpl; lra). assert (I2 : INR 2 = 2) by (simpl; lra).
  pose proof (pow_err dl e 3 Hdl ltac:(rewrite I3; lra)) as P3. rewrite I3 in P3. set (d3 := (1 + dl) ^ 3 - 1) in *.
  pose proof (pow_err dl e 2 Hdl ltac:(rewrite I2; lra)) as P2. rewrite I2 in P2.
  set (s := d3 * c / (1 - c)). assert (Hs : Rabs s <= 3.03 * q * c).
  { unfold s, Rdiv. rewrite !Rabs_mult, (Rabs_pos_eq c), (Rabs_pos_eq (/ (1 - c))) by lra. unfold q, Rdiv.
    replace (3.03 * (e * / (1 - c)) * c) with (3.03 * e * (c * / (1 - c))) by ring. rewrite Rmult_assoc.
    apply Rmult_le_compat_r; [apply Rmult_le_pos; lra|lra]. }
  assert (Hs2 : Rabs s <= 3.03 * q) by (eapply Rle_trans; [exact Hs|nra]).
  pose proof (quot_err s (3.03 * q) Hs2 ltac:(lra)) as I. set (i := / (1 - s) - 1) in *. apply abs_of in Hs2 as Hs'.
  assert (Ei : / (1 - s) = 1 + i) by (unfold i; ring).
  assert (Ey : y * y * y = c * (1 + d3)) by (unfold y, d3, c; ring).
  assert (E1 : 1 - y * y * y = (1 - c) * (1 - s)) by (rewrite Ey; unfold s; field; lra).
  assert (L1 : c <= - ln (1 - c)) by (pose proof (ln_le_sub (1 - c) ltac:(lra)); lra).
  set (l := ln (1 - s) / ln (1 - c)).
  assert (Hl : Rabs l <= 3.2 * q).
  { assert (K : Rabs (ln (1 - s)) <= 1.01 * (3.03 * q * c)).
    { replace (1 - s) with (1 + - s) by ring. apply ln_1p; [rewrite Rabs_Ropp; exact Hs|nra]. }
    unfold l, Rdiv. rewrite Rabs_mult, Rabs_inv. rewrite <- (Rabs_Ropp (ln (1 - c))), (Rabs_pos_eq (- ln (1 - c))) by lra.
    apply Rmult_le_reg_r with (- ln (1 - c)); [lra|]. rewrite Rmult_assoc, Rinv_l by lra. nra. }
  exists l, ((1 + ((1 + dl) ^ 2 - 1)) * (1 + i) - 1). split; [exact Hl|].
  split; [eapply Rle_trans; [apply (comb _ _ _ _ P2 I)|nra]|]. unfold Tr, Jr. fold c. rewrite E1. split.
  - rewrite ln_mult by lra. unfold l. field. lra.
  - replace (1 + i) with (/ (1 - s)) by exact Ei. unfold y. field. lra.
Qed.
End Scaled.
