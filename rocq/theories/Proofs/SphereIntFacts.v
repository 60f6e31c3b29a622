(** Surface integrals of spherical harmonics; polynomials restricted to the sphere. *)
From Coq Require Import List Reals Lra Lia Psatz.
From Coquelicot Require Import Coquelicot.
From Verif Require Import Base.RScalar Model.S2 Spec.SphereInt Proofs.Legendre.
Import ListNotations.
Local Open Scope R_scope.

Lemma geg_SS : forall m n z, geg m (S (S n)) z =
  ((2 * INR (S (S n)) + 2 * INR m - 1) * z * geg m (S n) z - (INR (S (S n)) - 1) * geg m n z)
  / (INR (S (S n)) + 2 * INR m).
Proof. reflexivity. Qed.

Lemma geg_Pn : forall n z, geg 0 n z = Pn n z.
Proof.
  intros n z. enough (geg 0 n z = Pn n z /\ geg 0 (S n) z = Pn (S n) z) by tauto.
  induction n as [|n [IH1 IH2]].
  - split; [reflexivity|]. pose proof (Pn_rec 0 z) as H. simpl in H. simpl. lra.
  - split; [exact IH2|]. rewrite geg_SS, IH1, IH2.
    pose proof (Pn_rec (S n) z) as H. pose proof (INR_S_pos (S n)).
    simpl (Pm (S n) z) in H. simpl (INR 0).
    apply (Rmult_eq_reg_l (INR (S (S n)))); [|lra]. rewrite H.
    rewrite (S_INR (S n)) in *. field. lra.
Qed.

Lemma geg_cont : forall m n z, continuous (geg m n) z.
Proof.
  intros m n z. enough (continuous (geg m n) z /\ continuous (geg m (S n)) z) by tauto.
  induction n as [|n [IH1 IH2]].
  - split; [apply continuous_const|apply continuous_id].
  - split; [exact IH2|].
    apply (continuous_ext (fun z => (2 * INR (S (S n)) + 2 * INR m - 1) / (INR (S (S n)) + 2 * INR m) * (z * geg m (S n) z)
       + (- (INR (S (S n)) - 1) / (INR (S (S n)) + 2 * INR m)) * geg m n z)).
    { intro x. rewrite (geg_SS m n x). req. field. pose proof (INR_S_pos (S n)). pose proof (pos_INR m). lra. }
    apply (continuous_plus (V := R_NormedModule)).
    + apply (continuous_scal_r (V := R_NormedModule) _ (fun z => z * geg m (S n) z)).
      apply (continuous_mult (K := R_AbsRing)); [apply continuous_id|exact IH2].
    + apply (continuous_scal_r (V := R_NormedModule) _ (geg m n)). exact IH1.
Qed.

Lemma cpow_polar : forall m r phi,
  cpow m (r * cos phi) (r * sin phi) = (r ^ m * cos (INR m * phi), r ^ m * sin (INR m * phi)).
Proof.
  induction m as [|m IH]; intros r phi.
  - simpl. rewrite Rmult_0_l, cos_0, sin_0. f_equal; ring.
  - cbn [cpow]. rewrite IH.
    replace (INR (S m) * phi) with (INR m * phi + phi) by (rewrite S_INR; ring).
    rewrite cos_plus, sin_plus. simpl. f_equal; ring.
Qed.

(** The inner integral of one harmonic. *)
Definition trig (s : bool) (t : R) : R := if s then sin t else cos t.
Definition polar (m n : nat) : R := RInt (fun th => sin th ^ m * geg m n (cos th) * sin th) 0 PI.

Lemma cont_cos : forall x, continuous cos x.
Proof. intro x. apply (ex_derive_continuous (V := R_NormedModule)). eexists. apply is_derive_cos. Qed.
Lemma cont_sin : forall x, continuous sin x.
Proof. intro x. apply (ex_derive_continuous (V := R_NormedModule)). eexists. apply is_derive_sin. Qed.

Lemma polar_ok : forall m n, is_RInt (fun th => sin th ^ m * geg m n (cos th) * sin th) 0 PI (polar m n).
Proof.
  intros m n. apply (RInt_correct (V := R_CompleteNormedModule)).
  apply (ex_RInt_continuous (V := R_CompleteNormedModule)). intros x _.
  apply (continuous_mult (K := R_AbsRing)); [|apply cont_sin].
  apply (continuous_mult (K := R_AbsRing)).
  - induction m as [|m IH]; [apply continuous_const|].
    apply (continuous_mult (K := R_AbsRing) sin (fun th => sin th ^ m)); [apply cont_sin|exact IH].
  - apply continuous_comp; [apply cont_cos|apply geg_cont].
Qed.

Fixpoint inner (h : harmonics) (phi : R) : R :=
  match h with
  | [] => 0
  | (c, (s, m, n)) :: r => c * (trig s (INR m * phi) * polar m n) + inner r phi
  end.

Lemma inner_ok : forall h phi, is_RInt (fun th =>
  heval h (sin th * cos phi) (sin th * sin phi) (cos th) * sin th) 0 PI (inner h phi).
Proof.
  induction h as [|[c [[s m] n]] r IH]; intro phi; cbn [heval inner].
  - apply (is_RInt_ext (fun _ => 0)); [intros; req; ring|]. apply zero_int.
  - apply (is_RInt_ext (fun th => (c * trig s (INR m * phi)) * (sin th ^ m * geg m n (cos th) * sin th)
       + 1 * (heval r (sin th * cos phi) (sin th * sin phi) (cos th) * sin th))).
    { intros th _. unfold harm. rewrite cpow_polar. req. destruct s; simpl; ring. }
    replace (c * (trig s (INR m * phi) * polar m n) + inner r phi)
      with ((c * trig s (INR m * phi)) * polar m n + 1 * inner r phi) by ring.
    apply is_RInt_lin; [apply polar_ok|apply IH].
Qed.

Lemma trig_int : forall s m, is_RInt (fun phi => trig s (INR m * phi)) 0 (2 * PI)
  (if s then 0 else if Nat.eqb m 0 then 2 * PI else 0).
Proof.
  intros s m. destruct m as [|m].
  - destruct s; simpl.
    + apply (is_RInt_ext (fun _ => 0)); [intros; rewrite Rmult_0_l, sin_0; reflexivity|apply zero_int].
    + apply (is_RInt_ext (fun _ => 1)); [intros; rewrite Rmult_0_l, cos_0; reflexivity|].
      pose proof (is_RInt_const (V := R_NormedModule) 0 (2 * PI) 1) as H.
      replace (2 * PI) with (scal (2 * PI - 0) 1) at 2; [exact H|].
      unfold scal; simpl; unfold mult; simpl; ring.
  - pose proof (INR_S_nz m) as Hm. remember (INR (S m)) as k.
    assert (E : forall t, t = k * (2 * PI) -> cos t = 1 /\ sin t = 0).
    { intros t ->. subst k. replace (INR (S m) * (2 * PI)) with (0 + 2 * INR (S m) * PI) by ring.
      rewrite cos_period, sin_period, cos_0, sin_0. auto. }
    destruct (E _ eq_refl) as [Ec Es].
    destruct s; cbn [Nat.eqb trig].
    + replace 0 with (minus (- cos (k * (2 * PI)) / k) (- cos (k * 0) / k)) at 2.
      2:{ rewrite Ec, Rmult_0_r, cos_0. unfold minus, plus, opp; simpl. field; auto. }
      apply (is_RInt_derive (V := R_CompleteNormedModule) (fun x => - cos (k * x) / k)).
      * intros x _. auto_derive; auto. field; auto.
      * intros x _. apply continuous_comp; [|apply cont_sin].
        apply (continuous_scal_r (V := R_NormedModule) k (fun x => x)). apply continuous_id.
    + replace 0 with (minus (sin (k * (2 * PI)) / k) (sin (k * 0) / k)) at 2.
      2:{ rewrite Es, Rmult_0_r, sin_0. unfold minus, plus, opp; simpl. field; auto. }
      apply (is_RInt_derive (V := R_CompleteNormedModule) (fun x => sin (k * x) / k)).
      * intros x _. auto_derive; auto. field; auto.
      * intros x _. apply continuous_comp; [|apply cont_cos].
        apply (continuous_scal_r (V := R_NormedModule) k (fun x => x)). apply continuous_id.
Qed.

Lemma polar_0S : forall n, polar 0 (S n) = 0.
Proof.
  intro n. apply (is_RInt_unique (V := R_CompleteNormedModule)).
  pose proof (INR_S_pos n) as Hn. set (k := INR (S n)) in *.
  assert (Hk : k * (k + 1) <> 0) by nra.
  apply (is_RInt_ext (fun th => - sin th * (- (k * (k + 1)) * Pn (S n) (cos th)) / (k * (k + 1)))).
  { intros x _. rewrite geg_Pn. simpl (_ ^ 0). req. field. split; lra. }
  set (F := fun x => (1 - x * x) * dP (S n) x).
  replace 0 with (minus (F (cos PI) / (k * (k + 1))) (F (cos 0) / (k * (k + 1)))) at 2.
  2:{ unfold F. rewrite cos_PI, cos_0. unfold minus, plus, opp; simpl. field. split; lra. }
  apply (is_RInt_derive (V := R_CompleteNormedModule) (fun th => F (cos th) / (k * (k + 1)))).
  - intros x _.
    apply (is_derive_ext (fun th => / (k * (k + 1)) * F (cos th))).
    { intro t. unfold Rdiv. apply Rmult_comm. }
    replace (- sin x * (- (k * (k + 1)) * Pn (S n) (cos x)) / (k * (k + 1)))
      with (/ (k * (k + 1)) * (- sin x * (- (k * (k + 1)) * Pn (S n) (cos x)))) by (field; split; lra).
    apply (is_derive_scal (fun th => F (cos th)) x (/ (k * (k + 1)))).
    apply (is_derive_comp F cos x (- (k * (k + 1)) * Pn (S n) (cos x)) (- sin x)).
    + apply leg_ode.
    + apply is_derive_cos.
  - intros x _.
    apply (continuous_ext (fun th => (- sin th) * (- Pn (S n) (cos th)))).
    { intro t. req. field. split; lra. }
    apply (continuous_mult (K := R_AbsRing)).
    + apply (continuous_opp (V := R_NormedModule)). apply cont_sin.
    + apply (continuous_opp (V := R_NormedModule) (fun th => Pn (S n) (cos th))).
      apply continuous_comp; [apply cont_cos|apply Pn_cont].
Qed.

Lemma polar_00 : polar 0 0 = 2.
Proof.
  apply (is_RInt_unique (V := R_CompleteNormedModule)).
  apply (is_RInt_ext sin); [intros; simpl; req; ring|].
  replace 2 with (minus (- cos PI) (- cos 0)).
  2:{ rewrite cos_PI, cos_0. unfold minus, plus, opp; simpl. ring. }
  apply (is_RInt_derive (V := R_CompleteNormedModule) (fun x => - cos x)).
  - intros x _. auto_derive; auto. ring.
  - intros x _. apply cont_sin.
Qed.

(** The integral of a combination is 4 pi times its constant coefficient. *)
Fixpoint hconst (h : harmonics) : R :=
  match h with
  | [] => 0
  | (c, (s, m, n)) :: r => (if s then 0 else if Nat.eqb (m + n) 0 then c else 0) + hconst r
  end.

Theorem sphere_int_harm : forall h, sphere_int (heval h) = 4 * PI * hconst h.
Proof.
  intro h. unfold sphere_int.
  rewrite (RInt_ext _ (inner h)).
  2:{ intros phi _. apply (is_RInt_unique (V := R_CompleteNormedModule)). apply inner_ok. }
  apply (is_RInt_unique (V := R_CompleteNormedModule)).
  induction h as [|[c [[s m] n]] r IH]; cbn [inner hconst].
  - rewrite Rmult_0_r. apply zero_int.
  - apply (is_RInt_ext (fun phi => (c * polar m n) * trig s (INR m * phi) + 1 * inner r phi)).
    { intros; req; ring. }
    replace (4 * PI * ((if s then 0 else if Nat.eqb (m + n) 0 then c else 0) + hconst r)) with
      ((c * polar m n) * (if s then 0 else if Nat.eqb m 0 then 2 * PI else 0) + 1 * (4 * PI * hconst r)).
    { apply is_RInt_lin; [apply trig_int|exact IH]. }
    destruct s; [ring|]. destruct m as [|m]; cbn [Nat.add Nat.eqb]; [|ring].
    destruct n as [|n]; cbn [Nat.eqb]; [rewrite polar_00|rewrite polar_0S]; ring.
Qed.

(** ** Every polynomial of degree d is, on the sphere, a combination of harmonics of degree at
    most d. *)
Definition hspan (d : nat) (f : R -> R -> R -> R) : Prop :=
  exists h, hdeg_le h d /\ forall x y z, x * x + y * y + z * z = 1 -> f x y z = heval h x y z.

Lemma heval_app : forall a b x y z, heval (a ++ b) x y z = heval a x y z + heval b x y z.
Proof.
  induction a as [|[c [[s m] n]] a IH]; intros; cbn [app heval]; [ring|]. rewrite IH. ring.
Qed.

Definition hscale (k : R) (h : harmonics) : harmonics := map (fun t => (k * fst t, snd t)) h.
Lemma heval_scale : forall k h x y z, heval (hscale k h) x y z = k * heval h x y z.
Proof.
  induction h as [|[c [[s m] n]] h IH]; intros; cbn [hscale map heval fst snd]; [ring|].
  fold (hscale k h). rewrite IH. ring.
Qed.

Lemma hspan_ext : forall d f g, hspan d f ->
  (forall x y z, x * x + y * y + z * z = 1 -> g x y z = f x y z) -> hspan d g.
Proof. intros d f g (h & H1 & H2) E. exists h. split; auto. intros. rewrite E; auto. Qed.
Lemma hspan_weaken : forall d e f, hspan d f -> (d <= e)%nat -> hspan e f.
Proof. intros d e f (h & H1 & H2) E. exists h. split; auto. intros c s m n Hin. specialize (H1 c s m n Hin). lia. Qed.
Lemma hspan_add : forall d f g, hspan d f -> hspan d g -> hspan d (fun x y z => f x y z + g x y z).
Proof.
  intros d f g (h & H1 & H2) (k & K1 & K2). exists (h ++ k). split.
  - intros c s m n Hin. apply in_app_or in Hin. destruct Hin; eauto.
  - intros. rewrite heval_app, H2, K2; auto.
Qed.
Lemma hspan_scal : forall d a f, hspan d f -> hspan d (fun x y z => a * f x y z).
Proof.
  intros d a f (h & H1 & H2). exists (hscale a h). split.
  - intros c s m n Hin. unfold hscale in Hin. apply in_map_iff in Hin.
    destruct Hin as ([c' t] & E & Hin). injection E as _ ->. eauto.
  - intros. rewrite heval_scale, H2; auto.
Qed.
Lemma hspan_0 : forall d, hspan d (fun _ _ _ => 0).
Proof. intro d. exists []. split; [intros c s m n []|]. reflexivity. Qed.
Lemma hspan_harm : forall s m n, hspan (m + n) (harm s m n).
Proof.
  intros s m n. exists [(1, (s, m, n))]. split.
  - intros c s' m' n' [E|[]]. injection E as _ _ -> ->. auto.
  - intros. cbn [heval]. ring.
Qed.

(** Closure of a property of harmonics under combinations. *)
Lemma hspan_lift : forall d e (F : (R -> R -> R -> R) -> R -> R -> R -> R) f,
  (forall g k x y z, (forall a b c, a * a + b * b + c * c = 1 -> g a b c = k a b c) ->
     x * x + y * y + z * z = 1 -> F g x y z = F k x y z) ->
  (forall a g k x y z, F (fun x y z => a * g x y z + k x y z) x y z = a * F g x y z + F k x y z) ->
  (forall x y z, F (fun _ _ _ => 0) x y z = 0) ->
  (forall s m n, (m + n <= d)%nat -> hspan e (F (harm s m n))) ->
  hspan d f -> hspan e (F f).
Proof.
  intros d e F f Fext Flin F0 Hh (h & H1 & H2).
  apply (hspan_ext _ (F (heval h))).
  2:{ intros. apply Fext; auto. }
  clear f H2. induction h as [|[c [[s m] n]] h IH].
  - apply (hspan_ext _ _ _ (hspan_0 e)). intros. apply F0.
  - apply (hspan_ext _ (fun x y z => c * F (harm s m n) x y z + F (heval h) x y z)).
    2:{ intros. apply (Flin c (harm s m n) (heval h)). }
    apply hspan_add.
    + apply hspan_scal. apply Hh. apply (H1 c s). left; reflexivity.
    + apply IH. intros c' s' m' n' Hin. apply (H1 c' s'). right; auto.
Qed.

Lemma hspan_z : forall d f, hspan d f -> hspan (S d) (fun x y z => z * f x y z).
Proof.
  intros d f H. refine (hspan_lift d (S d) (fun f x y z => z * f x y z) f _ _ _ _ H).
  - intros g k x y z E Hs. rewrite E; auto.
  - intros. ring.
  - intros. ring.
  - intros s m n Hd. destruct n as [|n].
    + apply (hspan_weaken (m + 1)); [|lia].
      apply (hspan_ext _ (harm s m 1)); [apply hspan_harm|].
      intros. unfold harm. simpl geg. ring.
    + pose proof (pos_INR m) as Pm. pose proof (pos_INR n) as Pn0.
      set (k := 2 * INR (S (S n)) + 2 * INR m - 1).
      assert (Hk : k <> 0) by (unfold k; rewrite !S_INR; lra).
      assert (Hq : INR (S (S n)) + 2 * INR m <> 0) by (rewrite !S_INR; lra).
      apply (hspan_ext _ (fun x y z => ((INR (S (S n)) + 2 * INR m) / k) * harm s m (S (S n)) x y z
         + ((INR (S (S n)) - 1) / k) * harm s m n x y z)).
      * apply hspan_add; apply hspan_scal; [apply (hspan_weaken (m + S (S n)))|apply (hspan_weaken (m + n))];
          try apply hspan_harm; lia.
      * intros x y z _. unfold harm. rewrite geg_SS. fold k. field. auto.
Qed.

Lemma hspan_cpow : forall s m, hspan m (fun x y _ => if s : bool then snd (cpow m x y) else fst (cpow m x y)).
Proof.
  intros s m. apply (hspan_weaken (m + 0)); [|lia].
  apply (hspan_ext _ (harm s m 0)); [apply hspan_harm|]. intros. unfold harm. simpl. ring.
Qed.

(** Multiplication of one harmonic by x or y. *)
Lemma hspan_mul_harm : forall (u : R -> R -> R -> R),
  (forall s m, hspan (S m) (fun x y z => u x y z * (if s : bool then snd (cpow m x y) else fst (cpow m x y)))) ->
  forall s m n, hspan (S (m + n)) (fun x y z => u x y z * harm s m n x y z).
Proof.
  intros u Hu s m n.
  enough (hspan (S (m + n)) (fun x y z => u x y z * harm s m n x y z) /\
          hspan (S (m + S n)) (fun x y z => u x y z * harm s m (S n) x y z)) by tauto.
  induction n as [|n [IH1 IH2]].
  - split.
    + rewrite Nat.add_0_r. apply (hspan_ext _ _ _ (Hu s m)). intros. unfold harm. simpl. ring.
    + apply (hspan_weaken (S (S m))); [|lia].
      apply (hspan_ext _ _ _ (hspan_z _ _ (Hu s m))). intros. unfold harm. simpl. ring.
  - split; [exact IH2|].
    pose proof (pos_INR m) as Pm. pose proof (pos_INR n) as Pn0.
    apply (hspan_ext _ (fun x y z =>
       ((2 * INR (S (S n)) + 2 * INR m - 1) / (INR (S (S n)) + 2 * INR m)) * (z * (u x y z * harm s m (S n) x y z))
       + (- (INR (S (S n)) - 1) / (INR (S (S n)) + 2 * INR m)) * (u x y z * harm s m n x y z))).
    + apply hspan_add; apply hspan_scal.
      * apply (hspan_weaken (S (S (m + S n)))); [|lia]. apply hspan_z. exact IH2.
      * apply (hspan_weaken (S (m + n))); [exact IH1|lia].
    + intros x y z _. unfold harm. rewrite geg_SS. field. rewrite !S_INR. lra.
Qed.

Lemma hspan_mul : forall (u : R -> R -> R -> R),
  (forall s m, hspan (S m) (fun x y z => u x y z * (if s : bool then snd (cpow m x y) else fst (cpow m x y)))) ->
  forall d f, hspan d f -> hspan (S d) (fun x y z => u x y z * f x y z).
Proof.
  intros u Hu d f H. refine (hspan_lift d (S d) (fun f x y z => u x y z * f x y z) f _ _ _ _ H).
  - intros g k x y z E Hs. rewrite E; auto.
  - intros. ring.
  - intros. ring.
  - intros s m n Hd. apply (hspan_weaken (S (m + n))); [|lia]. apply hspan_mul_harm; auto.
Qed.

Lemma hspan_rho : forall s m, hspan (S (S m)) (fun x y z =>
  (1 - z * z) * (if s : bool then snd (cpow m x y) else fst (cpow m x y))).
Proof.
  intros s m.
  apply (hspan_ext _ (fun x y z => (if s : bool then snd (cpow m x y) else fst (cpow m x y))
    + (-1) * (z * (z * (if s : bool then snd (cpow m x y) else fst (cpow m x y)))))).
  - apply hspan_add.
    + apply (hspan_weaken m); [apply hspan_cpow|lia].
    + apply hspan_scal. apply hspan_z. apply (hspan_z m (fun x y _ => _)). apply hspan_cpow.
  - intros. ring.
Qed.

Lemma hspan_x : forall d f, hspan d f -> hspan (S d) (fun x y z => x * f x y z).
Proof.
  apply (hspan_mul (fun x _ _ => x)). intros s m. destruct m as [|m].
  - apply (hspan_ext _ (fun x y _ => if s then 0 else fst (cpow 1 x y))).
    + destruct s; [apply hspan_0|]. apply (hspan_cpow false 1).
    + intros. destruct s; simpl; ring.
  - apply (hspan_ext _ (fun x y z =>
      (1/2) * (if s then snd (cpow (S (S m)) x y) else fst (cpow (S (S m)) x y))
      + (1/2) * ((1 - z * z) * (if s then snd (cpow m x y) else fst (cpow m x y))))).
    + apply hspan_add; apply hspan_scal; [apply hspan_cpow|apply hspan_rho].
    + intros x y z E. replace (1 - z * z) with (x * x + y * y) by lra.
      cbn [cpow]. destruct (cpow m x y) as [a b]. destruct s; simpl; field.
Qed.

Lemma hspan_y : forall d f, hspan d f -> hspan (S d) (fun x y z => y * f x y z).
Proof.
  apply (hspan_mul (fun _ y _ => y)). intros s m. destruct m as [|m].
  - apply (hspan_ext _ (fun x y _ => if s then 0 else snd (cpow 1 x y))).
    + destruct s; [apply hspan_0|]. apply (hspan_cpow true 1).
    + intros. destruct s; simpl; ring.
  - apply (hspan_ext _ (fun x y z =>
      (if s then -1/2 else 1/2) * (if negb s then snd (cpow (S (S m)) x y) else fst (cpow (S (S m)) x y))
      + (if s then 1/2 else -1/2) * ((1 - z * z) * (if negb s then snd (cpow m x y) else fst (cpow m x y))))).
    + apply hspan_add; apply hspan_scal; [apply hspan_cpow|apply hspan_rho].
    + intros x y z E. replace (1 - z * z) with (x * x + y * y) by lra.
      cbn [cpow]. destruct (cpow m x y) as [a b]. destruct s; simpl; field.
Qed.

Lemma hspan_monomial : forall i j k, hspan (i + j + k) (fun x y z => x ^ i * y ^ j * z ^ k).
Proof.
  induction i as [|i IH]; intros j k.
  - induction j as [|j IHj].
    + induction k as [|k IHk].
      * apply (hspan_ext _ _ _ (hspan_cpow false 0)). intros. simpl. ring.
      * apply (hspan_ext _ _ _ (hspan_z _ _ IHk)). intros. simpl. ring.
    + apply (hspan_ext _ _ _ (hspan_y _ _ IHj)). intros. simpl. ring.
  - apply (hspan_ext _ _ _ (hspan_x _ _ (IH j k))). intros. simpl. ring.
Qed.

Theorem polynomials_are_harmonics : forall d p, p3deg_le p d ->
  exists h, hdeg_le h d /\
    forall x y z, x * x + y * y + z * z = 1 -> p3eval p x y z = heval h x y z.
Proof.
  intros d p H. change (hspan d (p3eval p)).
  induction p as [|[c [[i j] k]] p IH]; cbn [p3eval].
  - apply hspan_0.
  - apply hspan_add.
    + apply hspan_scal. apply (hspan_weaken (i + j + k)); [apply hspan_monomial|].
      apply (H c). left; reflexivity.
    + apply IH. intros c' i' j' k' Hin. apply (H c'). right; auto.
Qed.
