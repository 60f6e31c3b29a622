(** Integrals behind the Gauss-Chebyshev rules. *)
From Coq Require Import List Arith Lia Reals Lra Psatz.
From Coquelicot Require Import Coquelicot.
From Verif Require Import Spec.Sums Spec.RealRules Proofs.Tab Proofs.SumFacts Proofs.TrigSums.
Import ListNotations.
Local Open Scope R_scope.

(** Coquelicot facts at type R. *)
Lemma RI_unique : forall (f : R -> R) a b l, is_RInt f a b l -> RInt f a b = l.
Proof. intros. apply (is_RInt_unique (V := R_CompleteNormedModule)); auto. Qed.

Lemma is_RInt_Rsum : forall a b n (F : nat -> R -> R) (I : nat -> R),
  (forall k, (k < n)%nat -> is_RInt (F k) a b (I k)) ->
  is_RInt (fun t => Rsum (tab n (fun k => F k t))) a b (Rsum (tab n I)).
Proof.
  induction n; intros F I H.
  - pose proof (is_RInt_const (V := R_NormedModule) a b 0) as E.
    unfold scal in E; simpl in E; unfold mult in E; simpl in E. rewrite Rmult_0_r in E. exact E.
  - rewrite Rsum_tab_S. eapply is_RInt_ext; [intros t _; symmetry; apply Rsum_tab_S|].
    apply (is_RInt_plus (V := R_NormedModule)); auto.
Qed.

Lemma is_RInt_cosk : forall k, is_RInt (fun t => cos (INR k * t)) 0 PI (if Nat.eqb k 0 then PI else 0).
Proof.
  intro k. destruct (Nat.eqb_spec k 0) as [->|Hk].
  - apply (is_RInt_ext (fun _ => 1)). intros t _. simpl. rewrite Rmult_0_l, cos_0. auto.
    pose proof (is_RInt_const (V := R_NormedModule) 0 PI 1) as E.
    unfold scal in E; simpl in E; unfold mult in E; simpl in E.
    rewrite Rmult_1_r, Rminus_0_r in E. exact E.
  - assert (0 < INR k) by (apply lt_0_INR; lia).
    replace 0 with (minus ((fun t => sin (INR k * t) / INR k) PI) ((fun t => sin (INR k * t) / INR k) 0)) at 2.
    2:{ unfold minus, plus, opp; simpl. rewrite sin_INR_PI, Rmult_0_r, sin_0. unfold Rdiv. ring. }
    apply (is_RInt_derive (fun t => sin (INR k * t) / INR k)).
    + intros t _. auto_derive; auto. field. lra.
    + intros t _. apply (ex_derive_continuous (K := R_AbsRing) (V := R_NormedModule)). auto_derive; auto.
Qed.

Lemma is_RInt_cpoly : forall d c, is_RInt (cpoly d c) 0 PI (PI * c 0%nat).
Proof.
  intros d c. unfold cpoly.
  replace (PI * c 0%nat) with (Rsum (tab (S d) (fun k => c k * (if Nat.eqb k 0 then PI else 0)))).
  - apply is_RInt_Rsum. intros k Hk. apply (is_RInt_scal (V := R_NormedModule)). apply is_RInt_cosk.
  - rewrite tab_S_l. unfold Rsum. simpl.
    change (c 0%nat * PI + Rsum (tab d (fun i => c (S i) * 0)) = PI * c 0%nat).
    rewrite (Rsum_tab_ext d _ (fun _ => 0)) by (intros; ring). rewrite Rsum_tab_const. ring.
Qed.

Lemma continuous_peval : forall p x, continuous (peval p) x.
Proof.
  induction p; intro x; simpl. apply continuous_const.
  apply (continuous_plus (V := R_NormedModule)). apply continuous_const.
  apply (continuous_mult (K := R_AbsRing)). apply continuous_id. apply IHp.
Qed.

(** acos at the ends of its domain. *)
Lemma acos_small : forall e x, 0 < e <= PI -> cos e < x <= 1 -> acos x < e.
Proof.
  intros e x He Hx. pose proof (acos_bound x). pose proof (COS_bound e).
  apply cos_decreasing_0; try lra. rewrite cos_acos by lra. lra.
Qed.

Lemma acos_at_1 : filterlim acos (at_left 1) (locally 0).
Proof.
  intros P [e HP]. pose proof PI_RGT_0. pose proof (cond_pos e).
  set (e' := Rmin e PI). assert (He : 0 < e' <= PI).
  { unfold e'. split; [apply Rmin_glb_lt; lra|apply Rmin_r]. }
  assert (Hd : 0 < 1 - cos e').
  { rewrite <- cos_0. apply Rlt_Rminus, cos_decreasing_1; lra. }
  assert (Hle : 1 - cos e' <= 2) by (pose proof (COS_bound e'); lra).
  exists (mkposreal _ Hd). intros x Hx Hx1. unfold ball in Hx; simpl in Hx.
  unfold AbsRing_ball, abs, minus, plus, opp in Hx; simpl in Hx.
  apply HP. unfold ball; simpl. unfold AbsRing_ball, abs, minus, plus, opp; simpl.
  apply Rabs_lt_between in Hx. pose proof (acos_small e' x He ltac:(lra)).
  pose proof (acos_bound x). assert (e' <= e) by apply Rmin_l. apply Rabs_lt_between. lra.
Qed.

Lemma acos_at_m1 : filterlim acos (at_right (-1)) (locally PI).
Proof.
  intros P [e HP]. destruct (acos_at_1 (fun y => Rabs y < e)) as [d Hd].
  { exists e. intros y Hy. unfold ball in Hy; simpl in Hy.
    unfold AbsRing_ball, abs, minus, plus, opp in Hy; simpl in Hy.
    replace y with (y + - 0) by ring. exact Hy. }
  exists d. intros x Hx Hx1. apply HP. unfold ball; simpl.
  unfold AbsRing_ball, abs, minus, plus, opp; simpl.
  replace x with (- (- x)) by ring. rewrite acos_opp.
  replace (PI - acos (- x) + - PI) with (- acos (- x)) by ring. rewrite Rabs_Ropp.
  apply Hd; [|lra]. unfold ball in *; simpl in *.
  unfold AbsRing_ball, abs, minus, plus, opp in *; simpl in *.
  replace (- x + - (1)) with (- (x + - -1)) by ring. rewrite Rabs_Ropp. exact Hx.
Qed.

Section Improper.
Variables (al be : R) (f h : R -> R) (I : R).
Hypothesis Hbe : 0 < be.
Hypothesis Hfh : forall t, 0 < t < PI -> be * sin t * f (al + be * cos t) = h t.
Hypothesis Hf : forall x, al - be < x < al + be -> continuous f x.
Hypothesis Hh : forall t, continuous h t.
Hypothesis HI : is_RInt h 0 PI I.

Let ang (x : R) := acos ((x - al) / be).

Lemma ang_range : forall x, al - be < x < al + be -> 0 < ang x < PI /\ al + be * cos (ang x) = x.
Proof.
  intros x Hx. assert (-1 < (x - al) / be < 1).
  { split; apply Rmult_lt_reg_r with be; auto; unfold Rdiv; rewrite Rmult_assoc, Rinv_l by lra; lra. }
  split; [apply acos_bound_lt; auto|]. unfold ang. rewrite cos_acos by lra. field. lra.
Qed.

Lemma h_ex : forall a b, ex_RInt h a b.
Proof. intros. apply (ex_RInt_continuous (V := R_CompleteNormedModule)). intros; apply Hh. Qed.

Lemma between : forall a b t, 0 < a < PI -> 0 < b < PI -> Rmin a b <= t <= Rmax a b -> 0 < t < PI.
Proof.
  intros a b t Ha Hb Ht. unfold Rmin, Rmax in Ht. destruct (Rle_dec a b); lra.
Qed.

Lemma cos_in : forall t, 0 < t < PI -> al - be < al + be * cos t < al + be.
Proof.
  intros t Ht. assert (-1 < cos t < 1).
  { rewrite <- cos_PI at 1. rewrite <- cos_0. split; apply cos_decreasing_1; lra. }
  nra.
Qed.

Lemma inner : forall a b, al - be < a < al + be -> al - be < b < al + be ->
  is_RInt f a b (RInt h 0 (ang a) - RInt h 0 (ang b)).
Proof.
  intros a b Ha Hb. destruct (ang_range a Ha) as [Ra Ea]. destruct (ang_range b Hb) as [Rb Eb].
  assert (Ef : ex_RInt f a b).
  { apply (ex_RInt_continuous (V := R_CompleteNormedModule)). intros x Hx. apply Hf. unfold Rmin, Rmax in Hx. destruct (Rle_dec a b); lra. }
  apply (RInt_correct (V := R_CompleteNormedModule)) in Ef.
  replace (RInt h 0 (ang a) - RInt h 0 (ang b)) with (RInt f a b); auto.
  pose proof (is_RInt_comp f (fun t => al + be * cos t) (fun t => - (be * sin t)) (ang a) (ang b)) as C.
  cbv beta in C. rewrite Ea, Eb in C.
  assert (C' : is_RInt (fun t => - h t) (ang a) (ang b) (RInt f a b)).
  { eapply is_RInt_ext; [|apply C].
    - intros t Ht. assert (0 < t < PI).
      { apply (between (ang a) (ang b)); auto. lra. }
      unfold scal; simpl; unfold mult; simpl. rewrite <- Hfh by auto. ring.
    - intros t Ht. apply Hf, cos_in, (between (ang a) (ang b)); auto.
    - intros t Ht. split.
      + auto_derive; auto. ring.
      + apply (ex_derive_continuous (K := R_AbsRing) (V := R_NormedModule)). auto_derive; auto. }
  assert (D : is_RInt (fun t => - h t) (ang a) (ang b) (- RInt h (ang a) (ang b))).
  { apply (is_RInt_opp (V := R_NormedModule)). apply (RInt_correct (V := R_CompleteNormedModule)). apply h_ex. }
  apply RI_unique in C'. apply RI_unique in D. rewrite D in C'. rewrite <- C'.
  pose proof (RInt_Chasles (V := R_CompleteNormedModule) h 0 (ang a) (ang b) (h_ex _ _) (h_ex _ _)) as Ch.
  unfold plus in Ch; simpl in Ch. change (RInt h 0 (ang a) + RInt h (ang a) (ang b) = RInt h 0 (ang b)) in Ch.
  lra.
Qed.

Lemma lim_left : filterlim ang (at_left (al + be)) (locally 0).
Proof.
  apply (filterlim_comp _ _ _ (fun x => (x - al) / be) acos _ (at_left 1) _); [|apply acos_at_1].
  intros P [d HP]. assert (Hd : 0 < be * d) by (apply Rmult_lt_0_compat; [auto|apply cond_pos]).
  exists (mkposreal _ Hd). intros x Hx Hx1. unfold ball in Hx; simpl in Hx.
  unfold AbsRing_ball, abs, minus, plus, opp in Hx; simpl in Hx.
  apply HP.
  - unfold ball; simpl. unfold AbsRing_ball, abs, minus, plus, opp; simpl.
    replace ((x - al) / be + - (1)) with ((x + - (al + be)) / be) by (field; lra).
    unfold Rdiv. rewrite Rabs_mult, (Rabs_pos_eq (/ be)) by (apply Rlt_le, Rinv_0_lt_compat; auto).
    apply Rmult_lt_reg_r with be; auto. rewrite Rmult_assoc, Rinv_l by lra. lra.
  - apply Rmult_lt_reg_r with be; auto. unfold Rdiv. rewrite Rmult_assoc, Rinv_l by lra. lra.
Qed.

Lemma lim_right : filterlim ang (at_right (al - be)) (locally PI).
Proof.
  apply (filterlim_comp _ _ _ (fun x => (x - al) / be) acos _ (at_right (-1)) _); [|apply acos_at_m1].
  intros P [d HP]. assert (Hd : 0 < be * d) by (apply Rmult_lt_0_compat; [auto|apply cond_pos]).
  exists (mkposreal _ Hd). intros x Hx Hx1. unfold ball in Hx; simpl in Hx.
  unfold AbsRing_ball, abs, minus, plus, opp in Hx; simpl in Hx.
  apply HP.
  - unfold ball; simpl. unfold AbsRing_ball, abs, minus, plus, opp; simpl.
    replace ((x - al) / be + - (-1)) with ((x + - (al - be)) / be) by (field; lra).
    unfold Rdiv. rewrite Rabs_mult, (Rabs_pos_eq (/ be)) by (apply Rlt_le, Rinv_0_lt_compat; auto).
    apply Rmult_lt_reg_r with be; auto. rewrite Rmult_assoc, Rinv_l by lra. lra.
  - apply Rmult_lt_reg_r with be; auto. unfold Rdiv. rewrite Rmult_assoc, Rinv_l by lra. lra.
Qed.

Lemma H_cont : forall s, continuous (fun s => RInt h 0 s) s.
Proof.
  intro s. apply (ex_derive_continuous (K := R_AbsRing) (V := R_NormedModule)).
  exists (h s). apply (is_derive_RInt h (fun s => RInt h 0 s) 0 s).
  - apply filter_forall. intro y. apply (RInt_correct (V := R_CompleteNormedModule)). apply h_ex.
  - apply Hh.
Qed.

Lemma near_right : at_right (al - be) (fun x => al - be < x < al + be).
Proof.
  assert (Hd : 0 < be) by auto. exists (mkposreal _ Hd). intros x Hx Hx1. unfold ball in Hx; simpl in Hx.
  unfold AbsRing_ball, abs, minus, plus, opp in Hx; simpl in Hx. apply Rabs_lt_between in Hx. lra.
Qed.

Lemma near_left : at_left (al + be) (fun x => al - be < x < al + be).
Proof.
  assert (Hd : 0 < be) by auto. exists (mkposreal _ Hd). intros x Hx Hx1. unfold ball in Hx; simpl in Hx.
  unfold AbsRing_ball, abs, minus, plus, opp in Hx; simpl in Hx. apply Rabs_lt_between in Hx. lra.
Qed.

Lemma improper : open_integral f (al - be) (al + be) I.
Proof.
  unfold open_integral, is_RInt_gen, filterlimi, filter_le, filtermapi. intros P HP.
  assert (L : filterlim (fun ab : R * R => RInt h 0 (ang (fst ab)) - RInt h 0 (ang (snd ab)))
     (filter_prod (at_right (al - be)) (at_left (al + be))) (locally I)).
  { replace I with (RInt h 0 PI - RInt h 0 0).
    2:{ rewrite RInt_point. rewrite (RI_unique _ _ _ _ HI). unfold zero; simpl. ring. }
    unfold Rminus.
    apply (filterlim_comp_2 (F := filter_prod (at_right (al - be)) (at_left (al + be)))
       (G := locally (RInt h 0 PI)) (H := locally (- RInt h 0 0))
       (fun ab : R * R => RInt h 0 (ang (fst ab))) (fun ab : R * R => - RInt h 0 (ang (snd ab))) Rplus).
    - apply (filterlim_comp _ _ _ fst (fun a => RInt h 0 (ang a)) _ (at_right (al - be)) _); [apply filterlim_fst|].
      apply (filterlim_comp _ _ _ ang (fun s => RInt h 0 s) _ (locally PI) _); [apply lim_right|]. apply H_cont.
    - apply (filterlim_comp _ _ _ snd (fun a => - RInt h 0 (ang a)) _ (at_left (al + be)) _); [apply filterlim_snd|].
      apply (filterlim_comp _ _ _ ang (fun s => - RInt h 0 s) _ (locally 0) _); [apply lim_left|].
      apply (filterlim_comp _ _ _ (fun s => RInt h 0 s) Ropp _ (locally (RInt h 0 0)) _); [apply H_cont|].
      apply (filterlim_opp (V := R_NormedModule)).
    - apply (filterlim_plus (V := R_NormedModule)). }
  specialize (L P HP). unfold filtermap in L.
  assert (N : filter_prod (at_right (al - be)) (at_left (al + be))
    (fun ab => (al - be < fst ab < al + be) /\ (al - be < snd ab < al + be))).
  { apply Filter_prod with (fun x => al - be < x < al + be) (fun x => al - be < x < al + be).
    apply near_right. apply near_left. intros; auto. }
  generalize (filter_and _ _ L N). apply filter_imp. intros [a b] [Hp [Ha Hb]].
  exists (RInt h 0 (ang a) - RInt h 0 (ang b)). split; auto. apply inner; auto.
Qed.
End Improper.
