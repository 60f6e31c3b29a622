(** Orthogonality and norms of the real spherical harmonics. *)
From Coq Require Import List Bool Reals Lra Lia Psatz.
From Coquelicot Require Import Coquelicot.
From Verif Require Import Base.RScalar Model.S2 Spec.SphereInt Proofs.Legendre Proofs.SphereIntFacts Proofs.HarmStable.
Import ListNotations.
Local Open Scope R_scope.

(** ** Derivatives of [geg] *)
Definition dstep (m n : nat) (g g' d d' z : R) : R :=
  ((2 * INR n + 2 * INR m + 1) * (g + z * d) - INR n * d') / (INR n + 2 * INR m + 1).
Fixpoint dgeg (m n : nat) (z : R) : R :=
  match n with
  | O => 0
  | S k => dstep m k (geg m k z) (gegp m k z) (dgeg m k z) (match k with O => 0 | S j => dgeg m j z end) z
  end.
Definition dgegp (m n : nat) (z : R) : R := match n with O => 0 | S j => dgeg m j z end.
Lemma dgeg_S : forall m n z, dgeg m (S n) z =
  ((2 * INR n + 2 * INR m + 1) * (geg m n z + z * dgeg m n z) - INR n * dgegp m n z) / (INR n + 2 * INR m + 1).
Proof. intros. destruct n; reflexivity. Qed.

Lemma geg_derive : forall m n z, is_derive (geg m n) z (dgeg m n z).
Proof.
  intros m n z. enough (is_derive (geg m n) z (dgeg m n z) /\ is_derive (gegp m n) z (dgegp m n z)) by tauto.
  induction n as [|n [IH1 IH2]].
  - split; [apply (is_derive_const (V := R_NormedModule))|apply (is_derive_const (V := R_NormedModule))].
  - split; [|exact IH1].
    pose proof (pos_INR m). pose proof (pos_INR n).
    apply (is_derive_ext (fun z => (2 * INR n + 2 * INR m + 1) / (INR n + 2 * INR m + 1) * (z * geg m n z)
       + (- (INR n / (INR n + 2 * INR m + 1))) * gegp m n z)).
    { intro t. rewrite (geg_step m n t). req. field. lra. }
    replace (dgeg m (S n) z) with ((2 * INR n + 2 * INR m + 1) / (INR n + 2 * INR m + 1) * (1 * geg m n z + z * dgeg m n z)
       + (- (INR n / (INR n + 2 * INR m + 1))) * dgegp m n z) by (rewrite dgeg_S; field; lra).
    apply (is_derive_plus (V := R_NormedModule)).
    + apply (is_derive_scal (fun z => z * geg m n z)).
      apply (is_derive_mult (K := R_AbsRing) (fun z => z) (geg m n) z 1 (dgeg m n z)); [apply (is_derive_id (K := R_AbsRing))|exact IH1|].
      intros; apply Rmult_comm.
    + apply (is_derive_scal (gegp m n)). exact IH2.
Qed.

Lemma dgeg_id : forall m n z, (1 - z * z) * dgeg m n z = INR n * (gegp m n z - z * geg m n z).
Proof.
  intros m n z. pose proof (pos_INR m) as Pm.
  enough ((1 - z * z) * dgeg m n z = INR n * (gegp m n z - z * geg m n z) /\
    (1 - z * z) * dgeg m (S n) z = INR (S n) * (geg m n z - z * geg m (S n) z)) by tauto.
  induction n as [|n [IH1 IH2]].
  - split; [simpl; ring|]. rewrite dgeg_S, geg_step. simpl. field. lra.
  - split; [exact IH2|]. pose proof (pos_INR n) as Pn.
    rewrite dgeg_S. cbn [dgegp].
    rewrite (geg_step m (S n)). cbn [gegp].
    assert (E : (1 - z * z) * (((2 * INR (S n) + 2 * INR m + 1) * (geg m (S n) z + z * dgeg m (S n) z) - INR (S n) * dgeg m n z) /
      (INR (S n) + 2 * INR m + 1)) = ((2 * INR (S n) + 2 * INR m + 1) * ((1 - z * z) * geg m (S n) z + z * ((1 - z * z) * dgeg m (S n) z))
       - INR (S n) * ((1 - z * z) * dgeg m n z)) / (INR (S n) + 2 * INR m + 1)).
    { field. rewrite S_INR. lra. }
    rewrite E, IH1, IH2. rewrite (geg_step m n). rewrite !S_INR. field. lra.
Qed.

(** Lowering the order. *)
Lemma geg_lower : forall m n z, 2 * (INR m + 1) * geg m (S n) z =
  (INR n + 2 * INR m + 2) * z * geg (S m) n z - INR n * gegp (S m) n z.
Proof.
  intros m n z. pose proof (pos_INR m) as Pm.
  enough (2 * (INR m + 1) * geg m (S n) z = (INR n + 2 * INR m + 2) * z * geg (S m) n z - INR n * gegp (S m) n z /\
    2 * (INR m + 1) * geg m (S (S n)) z = (INR (S n) + 2 * INR m + 2) * z * geg (S m) (S n) z - INR (S n) * geg (S m) n z) by tauto.
  induction n as [|n [IH1 IH2]].
  - split; [simpl; ring|]. rewrite geg_step. cbn [gegp]. rewrite !S_INR. simpl. field. lra.
  - split; [exact IH2|]. pose proof (pos_INR n) as Pn.
    rewrite (geg_step m (S (S n))). cbn [gegp].
    replace (2 * (INR m + 1) * (((2 * INR (S (S n)) + 2 * INR m + 1) * z * geg m (S (S n)) z - INR (S (S n)) * geg m (S n) z) /
       (INR (S (S n)) + 2 * INR m + 1))) with
      (((2 * INR (S (S n)) + 2 * INR m + 1) * z * (2 * (INR m + 1) * geg m (S (S n)) z) - INR (S (S n)) * (2 * (INR m + 1) * geg m (S n) z)) /
       (INR (S (S n)) + 2 * INR m + 1)) by (field; rewrite !S_INR; lra).
    rewrite IH1, IH2. rewrite (geg_step (S m) (S n)). cbn [gegp]. rewrite (geg_step (S m) n).
    rewrite !S_INR. field. lra.
Qed.

(** ** Integrals in the polar angle *)
Lemma sin_pow_cont : forall m x, continuous (fun th => sin th ^ m) x.
Proof.
  induction m as [|m IH]; intro x; [apply continuous_const|].
  apply (continuous_mult (K := R_AbsRing) sin (fun th => sin th ^ m)); [apply cont_sin|apply IH].
Qed.
Lemma geg_cos_cont : forall m n x, continuous (fun th => geg m n (cos th)) x.
Proof. intros. apply continuous_comp; [apply cont_cos|apply geg_cont]. Qed.
Lemma is_RInt_FTC : forall F f a b, (forall x, is_derive F x (f x)) -> (forall x, continuous f x) ->
  is_RInt f a b (F b - F a).
Proof.
  intros F f a b HF Hf. apply (is_RInt_derive (V := R_CompleteNormedModule) F f); intros; auto.
Qed.
Lemma sin_pow_derive : forall m x, is_derive (fun th => sin th ^ S m) x (INR (S m) * cos x * sin x ^ m).
Proof. intros m x. apply (is_derive_pow sin (S m) x (cos x)). apply is_derive_sin. Qed.

Lemma int_higher : forall m n, is_RInt (fun th => sin th ^ (2 * m + 1) * geg m (S n) (cos th)) 0 PI 0.
Proof.
  intros m n. pose proof (pos_INR m) as Pm.
  set (F := fun th => / (2 * (INR m + 1)) * (sin th ^ S (2 * m + 1) * geg (S m) n (cos th))).
  replace 0 with (F PI - F 0) at 2.
  2:{ unfold F. rewrite sin_PI, sin_0. simpl. ring. }
  apply is_RInt_FTC.
  - intro x. unfold F.
    replace (sin x ^ (2 * m + 1) * geg m (S n) (cos x)) with
      (/ (2 * (INR m + 1)) * ((INR (S (2 * m + 1)) * cos x * sin x ^ (2 * m + 1)) * geg (S m) n (cos x) +
         sin x ^ S (2 * m + 1) * (- sin x * dgeg (S m) n (cos x)))).
    { apply (is_derive_scal (fun th => sin th ^ S (2 * m + 1) * geg (S m) n (cos th))).
      apply (is_derive_mult (K := R_AbsRing) (fun th => sin th ^ S (2 * m + 1)) (fun th => geg (S m) n (cos th))).
      - apply sin_pow_derive.
      - apply (is_derive_comp (geg (S m) n) cos); [apply geg_derive|apply is_derive_cos].
      - intros; apply Rmult_comm. }
    pose proof (geg_lower m n (cos x)) as E. pose proof (dgeg_id (S m) n (cos x)) as D.
    apply (Rmult_eq_reg_l (2 * (INR m + 1))); [|lra].
    rewrite <- Rmult_assoc, Rinv_r, Rmult_1_l by lra.
    replace (2 * (INR m + 1) * (sin x ^ (2 * m + 1) * geg m (S n) (cos x))) with
      (sin x ^ (2 * m + 1) * (2 * (INR m + 1) * geg m (S n) (cos x))) by ring.
    rewrite E.
    replace (sin x ^ S (2 * m + 1) * (- sin x * dgeg (S m) n (cos x))) with
      (- (sin x ^ (2 * m + 1) * ((sin x * sin x) * dgeg (S m) n (cos x)))) by (simpl; ring).
    pose proof (sin2_cos2 x) as SC. unfold Rsqr in SC.
    replace (sin x * sin x) with (1 - cos x * cos x) by lra. rewrite D.
    replace (INR (S (2 * m + 1))) with (2 * (INR m + 1)) by (rewrite S_INR, plus_INR, mult_INR; simpl; ring).
    ring.
  - intro x. apply (continuous_mult (K := R_AbsRing)); [apply sin_pow_cont|apply geg_cos_cont].
Qed.

Lemma wallis_S : forall m I, is_RInt (fun th => sin th ^ (2 * m + 1)) 0 PI I ->
  is_RInt (fun th => sin th ^ (2 * S m + 1)) 0 PI ((2 * INR m + 2) / (2 * INR m + 3) * I).
Proof.
  intros m I H. pose proof (pos_INR m) as Pm.
  set (F := fun th => / (2 * INR m + 3) * ((- cos th) * sin th ^ S (2 * m + 1))).
  assert (D : is_RInt (fun th => sin th ^ (2 * S m + 1) - (2 * INR m + 2) / (2 * INR m + 3) * sin th ^ (2 * m + 1)) 0 PI 0).
  { replace 0 with (F PI - F 0) at 2 by (unfold F; rewrite sin_PI, sin_0; simpl; ring).
    apply is_RInt_FTC.
    - intro x. unfold F.
      replace (sin x ^ (2 * S m + 1) - (2 * INR m + 2) / (2 * INR m + 3) * sin x ^ (2 * m + 1)) with
        (/ (2 * INR m + 3) * ((- (- sin x)) * sin x ^ S (2 * m + 1) + (- cos x) * (INR (S (2 * m + 1)) * cos x * sin x ^ (2 * m + 1)))).
      { apply (is_derive_scal (fun th => (- cos th) * sin th ^ S (2 * m + 1))).
        apply (is_derive_mult (K := R_AbsRing) (fun th => - cos th) (fun th => sin th ^ S (2 * m + 1))).
        - apply (is_derive_opp (V := R_NormedModule) cos). apply is_derive_cos.
        - apply sin_pow_derive.
        - intros; apply Rmult_comm. }
      replace (2 * S m + 1)%nat with (S (S (2 * m + 1))) by lia.
      replace (INR (S (2 * m + 1))) with (2 * INR m + 2) by (rewrite S_INR, plus_INR, mult_INR; simpl; ring).
      pose proof (sin2_cos2 x) as SC. unfold Rsqr in SC.
      replace (- cos x * ((2 * INR m + 2) * cos x * sin x ^ (2 * m + 1))) with
        (- ((2 * INR m + 2) * (1 - sin x * sin x) * sin x ^ (2 * m + 1))).
      2:{ replace (1 - sin x * sin x) with (cos x * cos x) by lra. ring. }
      cbn [pow]. field. lra.
    - intro x. apply (continuous_minus (V := R_NormedModule)); [apply sin_pow_cont|].
      apply (continuous_scal_r (V := R_NormedModule) _ (fun th => sin th ^ (2 * m + 1))). apply sin_pow_cont. }
  pose proof (is_RInt_lin _ _ 1 ((2 * INR m + 2) / (2 * INR m + 3)) _ _ _ _ D H) as G.
  replace ((2 * INR m + 2) / (2 * INR m + 3) * I) with (1 * 0 + (2 * INR m + 2) / (2 * INR m + 3) * I) by ring.
  refine (is_RInt_ext _ _ _ _ _ _ G). intros x _. req. ring.
Qed.

Definition gnorm (m n : nat) : R :=
  2 * 4 ^ m * INR (fact m) * INR (fact m) * INR (fact n) / ((2 * INR (m + n) + 1) * INR (fact (n + 2 * m))).
Lemma fact_pos : forall n, 0 < INR (fact n).
Proof. intro n. apply lt_0_INR. apply lt_O_fact. Qed.
Lemma fact_SR : forall n, INR (fact (S n)) = (INR n + 1) * INR (fact n).
Proof. intro n. rewrite <- S_INR, <- mult_INR. reflexivity. Qed.
Lemma int_lowest : forall m, is_RInt (fun th => sin th ^ (2 * m + 1)) 0 PI (gnorm m 0).
Proof.
  induction m as [|m IH].
  - apply (is_RInt_ext sin); [intros; simpl; req; ring|].
    replace (gnorm 0 0) with (- cos PI - - cos 0) by (unfold gnorm; rewrite cos_PI, cos_0; simpl; field).
    apply (is_RInt_FTC (fun x => - cos x)); [|apply cont_sin].
    intro x. auto_derive; [exact I|ring].
  - pose proof (wallis_S m _ IH) as H.
    replace (gnorm (S m) 0) with ((2 * INR m + 2) / (2 * INR m + 3) * gnorm m 0); [exact H|].
    unfold gnorm. replace (0 + 2 * S m)%nat with (S (S (2 * m))) by lia.
    rewrite Nat.add_0_l, !Nat.add_0_r, !fact_SR, !S_INR. change (fact 0) with 1%nat. cbn [pow].
    rewrite !mult_INR. change (INR 2) with 2.
    pose proof (fact_pos (2 * m)). pose proof (fact_pos m). pose proof (pos_INR m). change (INR 1) with 1. field. lra.
Qed.

(** Inner products for one order. *)
Definition gip (m j n : nat) : R := RInt (fun th => sin th ^ (2 * m + 1) * (geg m j (cos th) * geg m n (cos th))) 0 PI.
Definition gipz (m j n : nat) : R := RInt (fun th => sin th ^ (2 * m + 1) * (geg m j (cos th) * (cos th * geg m n (cos th)))) 0 PI.
Lemma cont_prod : forall (f g : R -> R) x, continuous f x -> continuous g x -> continuous (fun t => f t * g t) x.
Proof. exact (fun f g x => @continuous_mult _ R_AbsRing f g x). Qed.
Ltac cont_prods := lazymatch goal with
  | |- continuous (fun t => sin t ^ ?m * @?g t) ?x => apply (cont_prod (fun t => sin t ^ m) g x); [apply sin_pow_cont|cont_prods]
  | |- continuous (fun t => geg ?m ?n (cos t) * @?g t) ?x => apply (cont_prod (fun t => geg m n (cos t)) g x); [apply geg_cos_cont|cont_prods]
  | |- continuous (fun t => cos t * @?g t) ?x => apply (cont_prod cos g x); [apply cont_cos|cont_prods]
  | |- continuous (fun t => geg ?m ?n (cos t)) ?x => apply geg_cos_cont
  | |- continuous (fun t => sin t) ?x => apply cont_sin
  end.
Ltac by_cont := apply (RInt_correct (V := R_CompleteNormedModule)); apply (ex_RInt_continuous (V := R_CompleteNormedModule)); intros; cont_prods.
Lemma gip_ok : forall m j n, is_RInt (fun th => sin th ^ (2 * m + 1) * (geg m j (cos th) * geg m n (cos th))) 0 PI (gip m j n).
Proof. intros. by_cont. Qed.
Lemma gipz_ok : forall m j n, is_RInt (fun th => sin th ^ (2 * m + 1) * (geg m j (cos th) * (cos th * geg m n (cos th)))) 0 PI (gipz m j n).
Proof. intros. by_cont. Qed.
Lemma gip_sym : forall m j n, gip m j n = gip m n j.
Proof. intros. apply (RInt_ext (V := R_CompleteNormedModule)). intros. req. ring. Qed.
Lemma gipz_sym : forall m j n, gipz m j n = gipz m n j.
Proof. intros. apply (RInt_ext (V := R_CompleteNormedModule)). intros. req. ring. Qed.
Lemma gipz_rec : forall m j n, (2 * INR n + 2 * INR m + 1) * gipz m j n =
  (INR n + 2 * INR m + 1) * gip m j (S n) + INR n * gip m j (pred n).
Proof.
  intros m j n. pose proof (pos_INR m). pose proof (pos_INR n).
  pose proof (is_RInt_lin _ _ (INR n + 2 * INR m + 1) (INR n) _ _ _ _ (gip_ok m j (S n)) (gip_ok m j (pred n))) as H1.
  pose proof (is_RInt_lin _ _ (2 * INR n + 2 * INR m + 1) 0 _ _ _ _ (gipz_ok m j n) (gipz_ok m j n)) as H2.
  assert (E : (2 * INR n + 2 * INR m + 1) * gipz m j n + 0 * gipz m j n =
    (INR n + 2 * INR m + 1) * gip m j (S n) + INR n * gip m j (pred n)); [|lra].
  rewrite <- (is_RInt_unique _ _ _ _ H1), <- (is_RInt_unique _ _ _ _ H2).
  apply (RInt_ext (V := R_CompleteNormedModule)). intros x _. req. rewrite (geg_step m n).
  destruct n as [|n]; cbn [pred gegp]; [simpl (INR 0)|]; field; [lra|]. rewrite S_INR in *. lra.
Qed.

Lemma gip_0S : forall m n, gip m 0 (S n) = 0.
Proof.
  intros m n. apply (is_RInt_unique (V := R_CompleteNormedModule)).
  refine (is_RInt_ext _ _ _ _ _ _ (int_higher m n)). intros. simpl geg at 2. req. cbn [geg]. ring.
Qed.
Lemma gip_lt : forall m j n, (j < n)%nat -> gip m j n = 0.
Proof.
  intros m j. enough (H : (forall n, (j < n)%nat -> gip m j n = 0) /\ (forall n, (S j < n)%nat -> gip m (S j) n = 0)) by apply H.
  assert (St : forall j, (forall n, (j < n)%nat -> gip m j n = 0) -> (forall n, (pred j < n)%nat -> (0 < j)%nat -> gip m (pred j) n = 0) ->
     forall n, (S j < n)%nat -> gip m (S j) n = 0).
  { intros k H0 H1 n Hn. pose proof (pos_INR m). pose proof (pos_INR k). pose proof (pos_INR n).
    pose proof (gipz_rec m k n) as R1. pose proof (gipz_rec m n k) as R2.
    rewrite (gipz_sym m n k) in R2. rewrite (gip_sym m n (S k)) in R2. rewrite (gip_sym m n (pred k)) in R2.
    rewrite (H0 (S n)) in R1 by lia. rewrite (H0 (pred n)) in R1 by lia.
    assert (Z : gipz m k n = 0).
    { apply (Rmult_eq_reg_l (2 * INR n + 2 * INR m + 1)); [lra|lra]. }
    rewrite Z in R2.
    assert (Y : INR k * gip m (pred k) n = 0).
    { destruct k as [|k]; [simpl; ring|]. rewrite H1; [ring|cbn [pred]; lia|lia]. }
    rewrite Y in R2. apply (Rmult_eq_reg_l (INR k + 2 * INR m + 1)); lra. }
  assert (B0 : forall n, (0 < n)%nat -> gip m 0 n = 0) by (intros [|n] ?; [lia|apply gip_0S]).
  induction j as [|j [IH1 IH2]].
  - split; [exact B0|]. apply (St 0%nat); [exact B0|intros; lia].
  - split; [exact IH2|]. apply (St (S j)); [exact IH2|intros; apply IH1; assumption].
Qed.
Lemma gip_nn : forall m n, gip m n n = gnorm m n.
Proof.
  intros m n. pose proof (pos_INR m) as Pm. induction n as [|n IH].
  - apply (is_RInt_unique (V := R_CompleteNormedModule)).
    refine (is_RInt_ext _ _ _ _ _ _ (int_lowest m)). intros. cbn [geg]. req. ring.
  - pose proof (pos_INR n) as Pn.
    pose proof (gipz_rec m (S n) n) as R1. pose proof (gipz_rec m n (S n)) as R2.
    rewrite (gipz_sym m (S n) n) in R1. cbn [pred] in R2. rewrite (gip_lt m n (S (S n))) in R2 by lia.
    assert (Y : INR n * gip m (S n) (pred n) = 0).
    { destruct n as [|n]; [simpl; ring|]. rewrite gip_sym, gip_lt; [ring|cbn [pred]; lia]. }
    rewrite Y in R1. rewrite IH in R2. rewrite S_INR in R2.
    assert (E : gip m (S n) (S n) = (2 * INR n + 2 * INR m + 1) * (INR n + 1) / ((INR n + 2 * INR m + 1) * (2 * INR n + 2 * INR m + 3)) * gnorm m n).
    { apply (Rmult_eq_reg_l (INR n + 2 * INR m + 1)); [|lra].
      apply (Rmult_eq_reg_l (2 * (INR n + 1) + 2 * INR m + 1)); [|lra].
      transitivity ((2 * (INR n + 1) + 2 * INR m + 1) * ((2 * INR n + 2 * INR m + 1) * gipz m n (S n))); [rewrite R1; ring|].
      transitivity ((2 * INR n + 2 * INR m + 1) * ((2 * (INR n + 1) + 2 * INR m + 1) * gipz m n (S n))); [ring|].
      rewrite R2. field. lra. }
    rewrite E. unfold gnorm. replace (S n + 2 * m)%nat with (S (n + 2 * m)) by lia.
    rewrite Nat.add_succ_r, !fact_SR, S_INR, !plus_INR, mult_INR. change (INR 2) with 2.
    pose proof (fact_pos n). pose proof (fact_pos m). pose proof (fact_pos (n + 2 * m)). field. lra.
Qed.
Lemma gip_eq : forall m j n, gip m j n = if Nat.eqb j n then gnorm m n else 0.
Proof.
  intros m j n. destruct (Nat.eqb_spec j n) as [->|H]; [apply gip_nn|].
  destruct (Nat.lt_ge_cases j n); [apply gip_lt; assumption|rewrite gip_sym; apply gip_lt; lia].
Qed.

(** ** Integrals in the azimuth *)
Definition tdot (s : bool) (m : nat) (s' : bool) (m' : nat) : R :=
  if Bool.eqb s s' && Nat.eqb m m' then (if Nat.eqb m 0 then (if s then 0 else 2 * PI) else PI) else 0.
Lemma trig_dot_le : forall s m s' m', (m' <= m)%nat ->
  is_RInt (fun phi => trig s (INR m * phi) * trig s' (INR m' * phi)) 0 (2 * PI) (tdot s m s' m').
Proof.
  intros s m s' m' H.
  assert (Hd : INR (m - m') = INR m - INR m') by (apply minus_INR; exact H).
  assert (Z0 : forall k, Nat.eqb k 0 = true -> k = 0%nat) by (intros k E; apply Nat.eqb_eq; exact E).
  assert (Em : Nat.eqb (m - m') 0 = Nat.eqb m m').
  { destruct (Nat.eqb_spec m m') as [->|Hm]; [rewrite Nat.sub_diag; reflexivity|]. apply Nat.eqb_neq. lia. }
  assert (Ep : Nat.eqb (m + m') 0 = Nat.eqb m 0).
  { destruct (Nat.eqb_spec m 0) as [->|Hm]; [apply Nat.eqb_eq; lia|apply Nat.eqb_neq; lia]. }
  destruct s, s'; unfold tdot; cbn [Bool.eqb andb trig].
  - pose proof (is_RInt_lin _ _ (1/2) (-(1/2)) _ _ _ _ (trig_int false (m - m')) (trig_int false (m + m'))) as G.
    rewrite Em, Ep in G.
    match goal with |- is_RInt _ _ _ ?v => match type of G with is_RInt _ _ _ ?w => replace v with w end end.
    + refine (is_RInt_ext _ _ _ _ _ _ G). intros x _. cbn [trig]. rewrite Hd, plus_INR, Rmult_minus_distr_r, Rmult_plus_distr_r.
      rewrite cos_minus, cos_plus. req. field.
    + destruct (Nat.eqb_spec m m'); destruct (Nat.eqb_spec m 0); try lia; try field; lra.
  - pose proof (is_RInt_lin _ _ (1/2) (1/2) _ _ _ _ (trig_int true (m - m')) (trig_int true (m + m'))) as G.
    replace 0 with (1/2 * 0 + 1/2 * 0) at 2 by ring.
    refine (is_RInt_ext _ _ _ _ _ _ G). intros x _. cbn [trig]. rewrite Hd, plus_INR, Rmult_minus_distr_r, Rmult_plus_distr_r.
    rewrite sin_minus, sin_plus. req. field.
  - pose proof (is_RInt_lin _ _ (1/2) (-(1/2)) _ _ _ _ (trig_int true (m + m')) (trig_int true (m - m'))) as G.
    replace 0 with (1/2 * 0 + - (1/2) * 0) at 2 by ring.
    refine (is_RInt_ext _ _ _ _ _ _ G). intros x _. cbn [trig]. rewrite Hd, plus_INR, Rmult_minus_distr_r, Rmult_plus_distr_r.
    rewrite sin_minus, sin_plus. req. field.
  - pose proof (is_RInt_lin _ _ (1/2) (1/2) _ _ _ _ (trig_int false (m - m')) (trig_int false (m + m'))) as G.
    rewrite Em, Ep in G.
    match goal with |- is_RInt _ _ _ ?v => match type of G with is_RInt _ _ _ ?w => replace v with w end end.
    + refine (is_RInt_ext _ _ _ _ _ _ G). intros x _. cbn [trig]. rewrite Hd, plus_INR, Rmult_minus_distr_r, Rmult_plus_distr_r.
      rewrite cos_minus, cos_plus. req. field.
    + destruct (Nat.eqb_spec m m'); destruct (Nat.eqb_spec m 0); try lia; try field; lra.
Qed.
Lemma tdot_sym : forall s m s' m', tdot s m s' m' = tdot s' m' s m.
Proof.
  intros. unfold tdot. destruct s, s'; cbn [Bool.eqb andb]; try reflexivity;
  rewrite (Nat.eqb_sym m' m); destruct (Nat.eqb_spec m m') as [->|]; reflexivity.
Qed.
Lemma trig_dot : forall s m s' m',
  is_RInt (fun phi => trig s (INR m * phi) * trig s' (INR m' * phi)) 0 (2 * PI) (tdot s m s' m').
Proof.
  intros s m s' m'. destruct (Nat.le_ge_cases m' m) as [H|H]; [apply trig_dot_le; exact H|].
  rewrite tdot_sym. refine (is_RInt_ext _ _ _ _ _ _ (trig_dot_le s' m' s m H)). intros. apply Rmult_comm.
Qed.

(** ** Inner products of combinations *)
Definition pol2 (m n m' n' : nat) : R :=
  RInt (fun th => sin th ^ m * (geg m n (cos th) * (sin th ^ m' * (geg m' n' (cos th) * sin th)))) 0 PI.
Lemma pol2_ok : forall m n m' n', is_RInt (fun th => sin th ^ m * (geg m n (cos th) * (sin th ^ m' * (geg m' n' (cos th) * sin th)))) 0 PI (pol2 m n m' n').
Proof. intros. unfold pol2. by_cont. Qed.
Lemma pol2_same : forall m n n', pol2 m n m n' = if Nat.eqb n n' then gnorm m n' else 0.
Proof.
  intros m n n'. rewrite <- gip_eq. apply (RInt_ext (V := R_CompleteNormedModule)). intros x _. req.
  replace (2 * m + 1)%nat with (m + (m + 1))%nat by lia. rewrite !pow_add. simpl (sin x ^ 1). ring.
Qed.

(** Inner product of two harmonics, and of combinations. *)
Definition hdot1 (s : bool) (m n : nat) (s' : bool) (m' n' : nat) : R :=
  if Bool.eqb s s' && Nat.eqb m m' && Nat.eqb n n' && negb (s && Nat.eqb m 0)
  then 4 * PI * (harm_norm m n * harm_norm m n) else 0.
Lemma harm_norm_sq : forall m n, harm_norm m n * harm_norm m n = (if Nat.eqb m 0 then 1 else 1 / 2) * (gnorm m n / 2).
Proof.
  intros m n. unfold harm_norm. rewrite sqrt_sqrt.
  - unfold gnorm. pose proof (fact_pos (n + 2 * m)). pose proof (pos_INR (m + n)). field. lra.
  - pose proof (fact_pos (n + 2 * m)). pose proof (fact_pos n). pose proof (fact_pos m). pose proof (pos_INR (m + n)).
    pose proof (pow_lt 4 m ltac:(lra)). apply Rlt_le. apply Rdiv_lt_0_compat.
    + repeat apply Rmult_lt_0_compat; try lra. destruct (Nat.eqb m 0); lra.
    + apply Rmult_lt_0_compat; lra.
Qed.
Lemma tdot_pol2 : forall s m n s' m' n', tdot s m s' m' * pol2 m n m' n' = hdot1 s m n s' m' n'.
Proof.
  intros. unfold tdot, hdot1. destruct (Bool.eqb s s') eqn:Es; cbn [andb]; [|ring].
  destruct (Nat.eqb_spec m m') as [<-|Hm]; cbn [andb]; [|ring].
  rewrite pol2_same. destruct (Nat.eqb_spec n n') as [<-|Hn]; cbn [andb]; [|ring].
  rewrite harm_norm_sq. destruct (Nat.eqb m 0), s; cbn [andb negb]; field.
Qed.

Fixpoint hdotr (c : R) (s : bool) (m n : nat) (g : harmonics) : R :=
  match g with [] => 0 | (d, (s', m', n')) :: r => c * d * hdot1 s m n s' m' n' + hdotr c s m n r end.
Fixpoint hdot (h g : harmonics) : R :=
  match h with [] => 0 | (c, (s, m, n)) :: r => hdotr c s m n g + hdot r g end.

Fixpoint innr (c : R) (s : bool) (m n : nat) (g : harmonics) (phi : R) : R :=
  match g with [] => 0 | (d, (s', m', n')) :: r =>
    c * d * pol2 m n m' n' * (trig s (INR m * phi) * trig s' (INR m' * phi)) + innr c s m n r phi end.
Fixpoint inn2 (h g : harmonics) (phi : R) : R :=
  match h with [] => 0 | (c, (s, m, n)) :: r => innr c s m n g phi + inn2 r g phi end.

Lemma innr_ok : forall c s m n g phi, is_RInt (fun th =>
  c * harm s m n (sin th * cos phi) (sin th * sin phi) (cos th) * heval g (sin th * cos phi) (sin th * sin phi) (cos th) * sin th)
  0 PI (innr c s m n g phi).
Proof.
  intros c s m n. induction g as [|[d [[s' m'] n']] r IH]; intro phi; cbn [heval innr].
  - apply (is_RInt_ext (fun _ => 0)); [intros; req; ring|]. apply zero_int.
  - pose proof (is_RInt_lin _ _ (c * d * (trig s (INR m * phi) * trig s' (INR m' * phi))) 1 _ _ _ _ (pol2_ok m n m' n') (IH phi)) as G.
    match goal with |- is_RInt _ _ _ ?v => match type of G with is_RInt _ _ _ ?w => replace v with w by ring end end.
    refine (is_RInt_ext _ _ _ _ _ _ G). intros th _. unfold harm. rewrite !cpow_polar. req.
    destruct s, s'; simpl; ring.
Qed.
Lemma inn2_ok : forall h g phi, is_RInt (fun th =>
  heval h (sin th * cos phi) (sin th * sin phi) (cos th) * heval g (sin th * cos phi) (sin th * sin phi) (cos th) * sin th)
  0 PI (inn2 h g phi).
Proof.
  intros h g. induction h as [|[c [[s m] n]] r IH]; intro phi; cbn [heval inn2].
  - apply (is_RInt_ext (fun _ => 0)); [intros; req; ring|]. apply zero_int.
  - pose proof (is_RInt_lin _ _ 1 1 _ _ _ _ (innr_ok c s m n g phi) (IH phi)) as G.
    match goal with |- is_RInt _ _ _ ?v => match type of G with is_RInt _ _ _ ?w => replace v with w by ring end end.
    refine (is_RInt_ext _ _ _ _ _ _ G). intros th _. req. ring.
Qed.
Lemma innr_int : forall c s m n g, is_RInt (innr c s m n g) 0 (2 * PI) (hdotr c s m n g).
Proof.
  intros c s m n. induction g as [|[d [[s' m'] n']] r IH]; cbn [innr hdotr]; [apply zero_int|].
  pose proof (is_RInt_lin _ _ (c * d * pol2 m n m' n') 1 _ _ _ _ (trig_dot s m s' m') IH) as G.
  rewrite <- tdot_pol2.
  match goal with |- is_RInt _ _ _ ?v => match type of G with is_RInt _ _ _ ?w => replace v with w by ring end end.
  refine (is_RInt_ext _ _ _ _ _ _ G). intros. req. ring.
Qed.
Lemma inn2_int : forall h g, is_RInt (inn2 h g) 0 (2 * PI) (hdot h g).
Proof.
  intros h g. induction h as [|[c [[s m] n]] r IH]; cbn [inn2 hdot]; [apply zero_int|].
  pose proof (is_RInt_lin _ _ 1 1 _ _ _ _ (innr_int c s m n g) IH) as G.
  match goal with |- is_RInt _ _ _ ?v => match type of G with is_RInt _ _ _ ?w => replace v with w by ring end end.
  refine (is_RInt_ext _ _ _ _ _ _ G). intros. req. ring.
Qed.
Theorem sphere_int_dot : forall h g, sphere_int (fun x y z => heval h x y z * heval g x y z) = hdot h g.
Proof.
  intros h g. unfold sphere_int. rewrite (RInt_ext _ (inn2 h g)).
  - apply (is_RInt_unique (V := R_CompleteNormedModule)). apply inn2_int.
  - intros phi _. apply (is_RInt_unique (V := R_CompleteNormedModule)). apply inn2_ok.
Qed.

(** A bound on the sphere bounds the mean square. *)
Lemma on_unit : forall th phi, sin th * cos phi * (sin th * cos phi) + sin th * sin phi * (sin th * sin phi) + cos th * cos th = 1.
Proof.
  intros. pose proof (sin2_cos2 th) as E1. pose proof (sin2_cos2 phi) as E2. unfold Rsqr in *.
  replace (sin th * cos phi * (sin th * cos phi) + sin th * sin phi * (sin th * sin phi) + cos th * cos th)
    with (sin th * sin th * (sin phi * sin phi + cos phi * cos phi) + cos th * cos th) by ring.
  rewrite E2. lra.
Qed.
Lemma mean_square : forall h M, (forall x y z, x * x + y * y + z * z = 1 -> Rabs (heval h x y z) <= M) ->
  hdot h h <= 4 * PI * (M * M).
Proof.
  intros h M H. pose proof PI_RGT_0 as Hpi.
  assert (I1 : forall phi, inn2 h h phi <= 2 * (M * M)).
  { intro phi. apply (is_RInt_le (fun th => heval h (sin th * cos phi) (sin th * sin phi) (cos th) * heval h (sin th * cos phi) (sin th * sin phi) (cos th) * sin th)
      (fun th => (M * M) * sin th + 0 * sin th) 0 PI); [lra|apply inn2_ok| |].
    - replace (2 * (M * M)) with ((M * M) * 2 + 0 * 2) by ring.
      assert (P2 : is_RInt sin 0 PI 2).
      { rewrite <- polar_00. refine (is_RInt_ext _ _ _ _ _ _ (polar_ok 0 0)). intros. simpl. req. ring. }
      apply is_RInt_lin; exact P2.
    - intros th Hth. assert (0 < sin th) by (apply sin_gt_0; lra).
      specialize (H _ _ _ (on_unit th phi)).
      remember (heval h (sin th * cos phi) (sin th * sin phi) (cos th)) as v.
      assert (v * v <= M * M).
      { apply Rabs_le_between in H. nra. }
      nra. }
  apply (is_RInt_le (inn2 h h) (fun _ => 2 * (M * M)) 0 (2 * PI)); [lra|apply inn2_int| |intros; apply I1].
  pose proof (is_RInt_const (V := R_NormedModule) 0 (2 * PI) (2 * (M * M))) as G.
  replace (4 * PI * (M * M)) with (scal (2 * PI - 0) (2 * (M * M))); [exact G|].
  unfold scal; simpl; unfold mult; simpl; ring.
Qed.

(** ** Normal forms *)
Definition hidx : Type := (bool * nat * nat)%type.
Definition hidx_eqb (a b : hidx) : bool :=
  let '(s, m, n) := a in let '(s', m', n') := b in Bool.eqb s s' && Nat.eqb m m' && Nat.eqb n n'.
Lemma hidx_eqb_eq : forall a b, hidx_eqb a b = true <-> a = b.
Proof.
  intros [[s m] n] [[s' m'] n']. cbn. rewrite !Bool.andb_true_iff, !Nat.eqb_eq, Bool.eqb_true_iff. split.
  - intros [[-> ->] ->]. reflexivity.
  - intro E. injection E as -> -> ->. auto.
Qed.
Definition hone (i : hidx) : R -> R -> R -> R := let '(s, m, n) := i in harm s m n.
Definition hnrm (i : hidx) : R := let '(s, m, n) := i in harm_norm m n.
Definition htriv (i : hidx) : bool := let '(s, m, n) := i in s && Nat.eqb m 0.
Fixpoint coef (h : harmonics) (i : hidx) : R :=
  match h with [] => 0 | (c, j) :: r => (if hidx_eqb j i then c else 0) + coef r i end.
Definition idxl (l : nat) : list hidx :=
  (false, 0, l)%nat :: flat_map (fun m => [(false, S m, l - S m)%nat; (true, S m, l - S m)%nat]) (seq 0 l).
Definition idx (d : nat) : list hidx := flat_map idxl (seq 0 (S d)).

Lemma idxl_In : forall l s m n, In (s, m, n) (idxl l) <-> (m + n = l)%nat /\ htriv (s, m, n) = false.
Proof.
  intros l s m n. unfold idxl. cbn [In htriv]. rewrite in_flat_map. split.
  - intros [E|(k & K1 & K2)].
    + injection E as <- <- <-. split; [lia|reflexivity].
    + apply in_seq in K1. cbn [In] in K2. destruct K2 as [E|[E|[]]]; injection E as <- <- <-; (split; [lia|reflexivity]).
  - intros [E1 E2]. destruct m as [|m].
    + left. destruct s; [discriminate|]. f_equal. lia.
    + right. exists m. split; [apply in_seq; lia|]. replace (l - S m)%nat with n by lia. destruct s; cbn [In]; auto.
Qed.
Lemma idx_In : forall d s m n, In (s, m, n) (idx d) <-> (m + n <= d)%nat /\ htriv (s, m, n) = false.
Proof.
  intros d s m n. unfold idx. rewrite in_flat_map. split.
  - intros (l & L1 & L2). apply in_seq in L1. apply idxl_In in L2. destruct L2. split; [lia|assumption].
  - intros [E1 E2]. exists (m + n)%nat. split; [apply in_seq; lia|]. apply idxl_In. auto.
Qed.
Lemma NoDup_flat : forall (A B : Type) (f : A -> list B) l, NoDup l -> (forall x, In x l -> NoDup (f x)) ->
  (forall x y b, In x l -> In y l -> In b (f x) -> In b (f y) -> x = y) -> NoDup (flat_map f l).
Proof.
  intros A B f. induction l as [|a l IH]; intros H1 H2 H3; cbn [flat_map]; [constructor|].
  inversion H1 as [|? ? N1 N2]; subst.
  assert (G : forall (u v : list B), NoDup u -> NoDup v -> (forall b, In b u -> In b v -> False) -> NoDup (u ++ v)).
  { induction u as [|b u IHu]; intros v Hu Hv Hd; cbn [app]; [exact Hv|]. inversion Hu; subst. constructor.
    - rewrite in_app_iff. intros [X|X]; [contradiction|]. apply (Hd b); [left; reflexivity|exact X].
    - apply IHu; auto. intros b' X Y. apply (Hd b'); [right; exact X|exact Y]. }
  apply G.
  - apply H2. left. reflexivity.
  - apply IH; auto. + intros; apply H2; right; assumption.
    + intros x y b X Y. apply H3; right; assumption.
  - intros b X Y. apply in_flat_map in Y. destruct Y as (y & Y1 & Y2).
    assert (a = y) by (apply (H3 a y b); [left; reflexivity|right; exact Y1|exact X|exact Y2]). subst y. contradiction.
Qed.
Lemma idxl_NoDup : forall l, NoDup (idxl l).
Proof.
  intro l. unfold idxl. constructor.
  - rewrite in_flat_map. intros (k & K1 & K2). cbn [In] in K2. destruct K2 as [E|[E|[]]]; discriminate.
  - apply NoDup_flat.
    + apply seq_NoDup.
    + intros x _. constructor; [intros [E|[]]; discriminate|]. constructor; [intros []|constructor].
    + intros x y b _ _ X Y. cbn [In] in X, Y. destruct X as [<-|[<-|[]]]; destruct Y as [E|[E|[]]]; congruence.
Qed.
Lemma idx_NoDup : forall d, NoDup (idx d).
Proof.
  intro d. apply NoDup_flat; [apply seq_NoDup|intros; apply idxl_NoDup|].
  intros x y [[s m] n] _ _ X Y. apply idxl_In in X. apply idxl_In in Y. lia.
Qed.
Lemma idxl_length : forall l, length (idxl l) = (2 * l + 1)%nat.
Proof.
  intro l. unfold idxl. cbn [length].
  assert (G : forall a k, length (flat_map (fun m => [(false, S m, l - S m)%nat; (true, S m, l - S m)%nat]) (seq a k)) = (2 * k)%nat).
  { intros a k. revert a. induction k as [|k IH]; intro a; [reflexivity|]. cbn [seq flat_map app length]. rewrite IH. lia. }
  rewrite G. lia.
Qed.
Lemma idx_length : forall d, length (idx d) = (S d * S d)%nat.
Proof.
  intro d. unfold idx. enough (G : forall k, length (flat_map idxl (seq 0 k)) = (k * k)%nat) by apply G.
  induction k as [|k IH]; [reflexivity|]. rewrite seq_S, flat_map_app, app_length, IH. cbn [flat_map app].
  rewrite app_nil_r, idxl_length. simpl (0 + k)%nat. nia.
Qed.

Definition normal (d : nat) (h : harmonics) : harmonics := map (fun i => (coef h i, i)) (idx d).
Fixpoint isum (f : hidx -> R) (l : list hidx) : R := match l with [] => 0 | i :: r => f i + isum f r end.
Lemma isum_add : forall f g l, isum (fun i => f i + g i) l = isum f l + isum g l.
Proof. intros f g. induction l as [|i l IH]; cbn; [ring|]. rewrite IH. ring. Qed.
Lemma isum_ext : forall f g l, (forall i, In i l -> f i = g i) -> isum f l = isum g l.
Proof. intros f g. induction l as [|i l IH]; intro H; cbn; [reflexivity|]. rewrite IH, H; auto; [left; reflexivity|intros; apply H; right; assumption]. Qed.
Lemma isum_one : forall f j l, NoDup l -> In j l -> isum (fun i => if hidx_eqb j i then f i else 0) l = f j.
Proof.
  intros f j. induction l as [|i l IH]; intros H1 H2; [destruct H2|]. inversion H1; subst. cbn [isum].
  assert (Z : ~ In j l -> isum (fun i => if hidx_eqb j i then f i else 0) l = 0).
  { clear. intro N. induction l as [|i l IH]; [reflexivity|]. cbn [isum]. rewrite IH by (intro; apply N; right; assumption).
    destruct (hidx_eqb j i) eqn:E; [|ring]. apply hidx_eqb_eq in E. subst i. exfalso. apply N. left. reflexivity. }
  destruct H2 as [->|H2].
  - rewrite Z by assumption. rewrite (proj2 (hidx_eqb_eq j j) eq_refl). ring.
  - rewrite IH by assumption. destruct (hidx_eqb j i) eqn:E; [|ring]. apply hidx_eqb_eq in E. subst i. contradiction.
Qed.
Lemma heval_map : forall f l x y z, heval (map (fun i => (f i, i)) l) x y z = isum (fun i => f i * hone i x y z) l.
Proof. intros f. induction l as [|[[s m] n] l IH]; intros; cbn; [reflexivity|]. rewrite IH. reflexivity. Qed.
Lemma hsize_map : forall f l, hsize (map (fun i => (f i, i)) l) = isum (fun i => Rabs (f i) * hnrm i) l.
Proof. intros f. induction l as [|[[s m] n] l IH]; intros; cbn; [reflexivity|]. rewrite IH. reflexivity. Qed.
Lemma hone_triv : forall i x y z, htriv i = true -> hone i x y z = 0.
Proof.
  intros [[s m] n] x y z H. cbn in *. apply Bool.andb_true_iff in H. destruct H as [-> H]. apply Nat.eqb_eq in H. subst m.
  unfold harm. cbn. ring.
Qed.
Lemma normal_eval : forall d h x y z, hdeg_le h d -> heval (normal d h) x y z = heval h x y z.
Proof.
  intros d h x y z H. unfold normal. rewrite heval_map. induction h as [|[c j] r IH]; cbn [coef heval].
  - transitivity (isum (fun _ => 0) (idx d)); [apply isum_ext; intros; ring|].
    generalize (idx d). intro l. induction l as [|i l IHl]; cbn; [reflexivity|]. rewrite IHl. ring.
  - rewrite (isum_ext _ (fun i => (if hidx_eqb j i then c * hone i x y z else 0) + coef r i * hone i x y z)).
    2:{ intros i _. destruct (hidx_eqb j i); ring. }
    rewrite isum_add, IH. 2:{ intros c' s m n Hin. apply (H c' s m n). right. exact Hin. }
    destruct j as [[s m] n]. f_equal.
    destruct (htriv (s, m, n)) eqn:T.
    + transitivity 0.
      * rewrite (isum_ext _ (fun _ => 0)).
        -- generalize (idx d). intro l. induction l as [|i l IHl]; cbn; [reflexivity|]. rewrite IHl. ring.
        -- intros i _. destruct (hidx_eqb (s, m, n) i) eqn:E; [|reflexivity]. apply hidx_eqb_eq in E. subst i. rewrite hone_triv by exact T. ring.
      * pose proof (hone_triv _ x y z T) as Z. cbn [hone] in Z. rewrite Z. ring.
    + rewrite (isum_one (fun i => c * hone i x y z)); [reflexivity|apply idx_NoDup|].
      apply idx_In. split; [|exact T]. apply (H c s m n). left. reflexivity.
Qed.
Lemma normal_deg : forall d h, hdeg_le (normal d h) d.
Proof.
  intros d h c s m n Hin. unfold normal in Hin. apply in_map_iff in Hin. destruct Hin as (i & E & Hi).
  injection E as E1 E2. subst i. apply idx_In in Hi. apply Hi.
Qed.

(** Parseval. *)
Lemma hdot1_idx : forall i j, htriv i = false -> (let '(s, m, n) := i in let '(s', m', n') := j in hdot1 s m n s' m' n') =
  if hidx_eqb i j then 4 * PI * (hnrm i * hnrm i) else 0.
Proof.
  intros [[s m] n] [[s' m'] n'] H. unfold hdot1, hidx_eqb, hnrm. cbn [htriv] in H. rewrite H. cbn [negb].
  rewrite Bool.andb_true_r. reflexivity.
Qed.
Lemma hdotr_map : forall f i c l, htriv i = false -> NoDup l -> In i l ->
  (let '(s, m, n) := i in hdotr c s m n (map (fun i => (f i, i)) l)) = c * f i * (4 * PI * (hnrm i * hnrm i)).
Proof.
  intros f i c l H N Hi. rewrite <- (isum_one (fun i => c * f i * (4 * PI * (hnrm i * hnrm i))) i l N Hi).
  clear N Hi. destruct i as [[s m] n]. induction l as [|j l IH]; [reflexivity|].
  destruct j as [[s' m'] n']. cbn [map hdotr isum]. rewrite IH. f_equal.
  pose proof (hdot1_idx (s, m, n) (s', m', n') H) as E. cbv beta iota in E. rewrite E.
  destruct (hidx_eqb (s, m, n) (s', m', n')) eqn:E'; [|ring]. apply hidx_eqb_eq in E'. rewrite E'. reflexivity.
Qed.
Lemma normal_dot : forall d h, hdot (normal d h) (normal d h) =
  4 * PI * isum (fun i => (Rabs (coef h i) * hnrm i) * (Rabs (coef h i) * hnrm i)) (idx d).
Proof.
  intros d h. unfold normal.
  enough (G : forall l, (forall i, In i l -> In i (idx d)) -> hdot (map (fun i => (coef h i, i)) l) (map (fun i => (coef h i, i)) (idx d)) =
     4 * PI * isum (fun i => (Rabs (coef h i) * hnrm i) * (Rabs (coef h i) * hnrm i)) l) by (apply G; auto).
  induction l as [|i l IH]; intro H; [cbn; ring|]. cbn [map hdot isum].
  assert (Hi : In i (idx d)) by (apply H; left; reflexivity).
  destruct i as [[s m] n]. rewrite IH by (intros; apply H; right; assumption).
  pose proof (hdotr_map (coef h) (s, m, n) (coef h (s, m, n)) (idx d)) as E. cbv beta iota in E. rewrite E.
  - replace (Rabs (coef h (s, m, n)) * hnrm (s, m, n) * (Rabs (coef h (s, m, n)) * hnrm (s, m, n)))
      with ((Rabs (coef h (s, m, n)) * Rabs (coef h (s, m, n))) * (hnrm (s, m, n) * hnrm (s, m, n))) by ring.
    rewrite <- Rabs_mult, Rabs_pos_eq by (apply Rle_0_sqr). ring.
  - apply idx_In in Hi. apply Hi.
  - apply idx_NoDup.
  - exact Hi.
Qed.
Lemma isum_cauchy : forall f l, isum f l * isum f l <= INR (length l) * isum (fun i => f i * f i) l.
Proof.
  intros f. induction l as [|i l IH]; [cbn; lra|]. cbn [isum length]. rewrite S_INR.
  assert (G : 2 * f i * isum f l <= INR (length l) * (f i * f i) + isum (fun i => f i * f i) l).
  { clear IH. induction l as [|j l IH]; [cbn; lra|]. cbn [isum length]. rewrite S_INR.
    pose proof (Rle_0_sqr (f i - f j)) as Q. unfold Rsqr in Q. lra. }
  lra.
Qed.

Theorem hsize_normal : forall d h M, hdeg_le h d ->
  (forall x y z, x * x + y * y + z * z = 1 -> Rabs (heval h x y z) <= M) ->
  hsize (normal d h) <= INR (S d) * M.
Proof.
  intros d h M H1 H2.
  assert (H2' : forall x y z, x * x + y * y + z * z = 1 -> Rabs (heval (normal d h) x y z) <= M).
  { intros. rewrite normal_eval by exact H1. apply H2. assumption. }
  assert (M0 : 0 <= M).
  { apply Rle_trans with (Rabs (heval h 0 0 1)); [apply Rabs_pos|]. apply H2. ring. }
  pose proof (mean_square _ _ H2') as B. rewrite normal_dot in B.
  unfold normal at 1. rewrite hsize_map. set (f := fun i => Rabs (coef h i) * hnrm i) in *.
  pose proof (isum_cauchy f (idx d)) as C. rewrite idx_length, mult_INR in C.
  assert (B' : isum (fun i => f i * f i) (idx d) <= M * M).
  { apply (Rmult_le_reg_l (4 * PI)); [pose proof PI_RGT_0; lra|]. exact B. }
  pose proof (pos_INR (S d)) as P.
  apply Rnot_lt_le. intro L.
  assert ((INR (S d) * M) * (INR (S d) * M) < isum f (idx d) * isum f (idx d)).
  { assert (0 <= INR (S d) * M) by (apply Rmult_le_pos; assumption). nra. }
  assert (INR (S d) * INR (S d) * isum (fun i => f i * f i) (idx d) <= INR (S d) * INR (S d) * (M * M)).
  { apply Rmult_le_compat_l; [nra|exact B']. }
  nra.
Qed.

(** [harm_norm] is the root mean square. *)
Theorem harm_norm_rms : forall s m n, (s = true -> m <> 0%nat) ->
  sphere_int (fun x y z => harm s m n x y z * harm s m n x y z) = 4 * PI * (harm_norm m n * harm_norm m n).
Proof.
  intros s m n H. pose proof (sphere_int_dot [(1, (s, m, n))] [(1, (s, m, n))]) as E. cbn [hdot hdotr] in E.
  transitivity (sphere_int (fun x y z => heval [(1, (s, m, n))] x y z * heval [(1, (s, m, n))] x y z)).
  - unfold sphere_int. apply (RInt_ext (V := R_CompleteNormedModule)). intros phi _. apply (RInt_ext (V := R_CompleteNormedModule)). intros th _. req. cbn [heval]. ring.
  - rewrite E. unfold hdot1. rewrite Bool.eqb_reflx, !Nat.eqb_refl. cbn [andb].
    destruct s; cbn [andb negb]; [|ring]. destruct (Nat.eqb_spec m 0) as [->|]; [exfalso; apply H; reflexivity|]. cbn [negb]. ring.
Qed.
