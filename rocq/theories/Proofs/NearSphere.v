(** Polynomials and harmonics that agree on the unit sphere, evaluated at points near it. *)
From Coq Require Import List Reals Lra Lia Psatz Arith.
From Coquelicot Require Import Coquelicot.
From Verif Require Import Base.RScalar Model.S2 Spec.SphereInt Spec.PolySpec Proofs.Legendre Proofs.SphereIntFacts Proofs.HarmStable Proofs.HarmOrtho.
Import ListNotations.
Local Open Scope R_scope.

(** ** The part of a combination with azimuthal index m *)
Fixpoint comp (h : harmonics) (m : nat) (r z phi : R) : R :=
  match h with
  | [] => 0
  | (c, (s, k, n)) :: t => (if Nat.eqb k m then c * (r ^ k * trig s (INR k * phi) * geg k n z) else 0) + comp t m r z phi
  end.

Lemma harm_polar : forall s m n r phi z, harm s m n (r * cos phi) (r * sin phi) z = r ^ m * trig s (INR m * phi) * geg m n z.
Proof. intros. unfold harm. rewrite cpow_polar. destruct s; reflexivity. Qed.

Lemma fourier : forall h m r z phi, m <> 0%nat ->
  is_RInt (fun psi => heval h (r * cos psi) (r * sin psi) z * cos (INR m * psi - INR m * phi)) 0 (2 * PI) (PI * comp h m r z phi).
Proof.
  intros h m r z phi Hm. induction h as [|[c [[s k] n]] t IH]; cbn [heval comp].
  - apply (is_RInt_ext (fun _ => 0)); [intros; req; ring|]. rewrite Rmult_0_r. apply zero_int.
  - set (A := c * (r ^ k * geg k n z) * cos (INR m * phi)). set (B := c * (r ^ k * geg k n z) * sin (INR m * phi)).
    pose proof (is_RInt_lin _ _ A B _ _ _ _ (trig_dot s k false m) (trig_dot s k true m)) as G.
    pose proof (is_RInt_lin _ _ 1 1 _ _ _ _ G IH) as G2.
    match goal with |- is_RInt _ _ _ ?v => match type of G2 with is_RInt _ _ _ ?w => replace v with w end end.
    + refine (is_RInt_ext _ _ _ _ _ _ G2). intros psi _. cbn [trig]. rewrite harm_polar, cos_minus. unfold A, B. req. ring.
    + unfold tdot, A, B. destruct (Nat.eqb_spec k m) as [->|Hk].
      * rewrite (proj2 (Nat.eqb_neq m 0) Hm). destruct s; cbn [Bool.eqb andb trig]; ring.
      * rewrite !Bool.andb_false_r. ring.
Qed.

Lemma comp_bound : forall h m r z phi M, m <> 0%nat ->
  (forall psi, Rabs (heval h (r * cos psi) (r * sin psi) z) <= M) -> Rabs (comp h m r z phi) <= 2 * M.
Proof.
  intros h m r z phi M Hm HM. pose proof PI_RGT_0 as HP.
  assert (0 <= M) by (eapply Rle_trans; [apply Rabs_pos|apply (HM 0)]).
  assert (G : Rabs (PI * comp h m r z phi) <= (2 * PI - 0) * M).
  { apply (norm_RInt_le_const (V := R_NormedModule) (fun psi => heval h (r * cos psi) (r * sin psi) z * cos (INR m * psi - INR m * phi)) 0 (2 * PI)); [lra| |apply fourier; exact Hm].
    intros psi _. change (Rabs (heval h (r * cos psi) (r * sin psi) z * cos (INR m * psi - INR m * phi)) <= M).
    rewrite Rabs_mult. rewrite <- (Rmult_1_r M). apply Rmult_le_compat; try apply Rabs_pos; [apply HM|].
    apply Rabs_le, COS_bound. }
  rewrite Rabs_mult, (Rabs_pos_eq PI) in G by lra. apply (Rmult_le_reg_l PI); [exact HP|]. lra.
Qed.

(** ** Stretching x and y *)
Fixpoint dsum (F : nat -> R) (d : nat) : R := match d with O => 0 | S k => dsum F k + F (S k) end.
Lemma dsum_add : forall F G d, dsum (fun m => F m + G m) d = dsum F d + dsum G d.
Proof. induction d as [|d IH]; cbn [dsum]; [ring|]. rewrite IH. ring. Qed.
Lemma dsum_ext : forall F G d, (forall m, F m = G m) -> dsum F d = dsum G d.
Proof. intros F G d H. induction d as [|d IH]; cbn [dsum]; [reflexivity|]. rewrite IH, H. reflexivity. Qed.
Lemma dsum_one : forall k (f : nat -> R) d, f 0%nat = 0 -> (k <= d)%nat -> dsum (fun m => if Nat.eqb k m then f m else 0) d = f k.
Proof.
  intros k f d F0 Hk. assert (G : forall e, (e < k)%nat -> dsum (fun m => if Nat.eqb k m then f m else 0) e = 0).
  { induction e as [|e IH]; intro He; cbn [dsum]; [reflexivity|]. rewrite IH by lia. rewrite (proj2 (Nat.eqb_neq k (S e))) by lia. ring. }
  induction d as [|d IH]; cbn [dsum].
  - replace k with 0%nat by lia. auto.
  - destruct (Nat.eqb_spec k (S d)) as [->|Hn].
    + rewrite G by lia. ring.
    + rewrite IH by lia. ring.
Qed.

Lemma stretch : forall h d r z phi s, hdeg_le h d ->
  heval h (s * (r * cos phi)) (s * (r * sin phi)) z - heval h (r * cos phi) (r * sin phi) z
  = dsum (fun m => (s ^ m - 1) * comp h m r z phi) d.
Proof.
  intros h d r z phi s. induction h as [|[c [[k m] n]] t IH]; intro Hd; cbn [heval comp].
  - rewrite (dsum_ext _ (fun _ => 0)) by (intro; ring). induction d as [|d ID]; cbn [dsum]; [ring|].
    rewrite <- ID; [ring|]. intros c0 s0 m0 n0 [].
  - assert (Ht : hdeg_le t d) by (intros c0 s0 m0 n0 H0; apply (Hd c0 s0 m0 n0); right; exact H0).
    specialize (IH Ht). assert (Hm : (m + n <= d)%nat) by (apply (Hd c k m n); left; reflexivity).
    rewrite (dsum_ext _ (fun j => (if Nat.eqb m j then (s ^ j - 1) * (c * (r ^ m * trig k (INR m * phi) * geg m n z)) else 0)
      + (s ^ j - 1) * comp t j r z phi)).
    2:{ intro j. destruct (Nat.eqb_spec m j) as [->|]; ring. }
    rewrite dsum_add, <- IH, (dsum_one m (fun j => (s ^ j - 1) * (c * (r ^ m * trig k (INR m * phi) * geg m n z))));
      [|cbn [pow]; ring|lia].
    replace (s * (r * cos phi)) with ((s * r) * cos phi) by ring. replace (s * (r * sin phi)) with ((s * r) * sin phi) by ring.
    rewrite !harm_polar, Rpow_mult_distr. ring.
Qed.

(** ** Powers near one *)
Lemma pow_near : forall s e m, 0 <= e -> Rabs (s - 1) <= e -> INR m * e <= / 101 -> Rabs (s ^ m - 1) <= 1.01 * (INR m * e).
Proof.
  intros s e m He Hs Hm. apply Rabs_le_between in Hs. 
  destruct m as [|m]; [cbn [pow INR]; rewrite Rminus_diag_eq, Rabs_R0 by reflexivity; lra|].
  set (k := S m) in *. assert (K1 : 1 <= INR k) by (unfold k; rewrite S_INR; pose proof (pos_INR m); lra).
  assert (e <= / 101) by nra.
  assert (B : forall j, 1 - INR j * e <= (1 - e) ^ j).
  { induction j as [|j IH]; [cbn [pow INR]; lra|]. rewrite S_INR. cbn [pow].
    assert (0 <= (1 - e) ^ j) by (apply pow_le; lra). pose proof (pos_INR j).
    apply Rle_trans with ((1 - e) * (1 - INR j * e)); [nra|]. apply Rmult_le_compat_l; lra. }
  assert (L : 1 - INR k * e <= s ^ k).
  { eapply Rle_trans; [apply B|]. apply pow_incr. lra. }
  assert (U : s ^ k <= (1 + e) ^ k) by (apply pow_incr; lra).
  assert (V : (1 + e) ^ k * (1 - INR k * e) <= 1).
  { apply Rle_trans with ((1 + e) ^ k * (1 - e) ^ k).
    - apply Rmult_le_compat_l; [apply pow_le; lra|apply B].
    - rewrite <- Rpow_mult_distr. replace 1 with (1 ^ k) at 3 by apply pow1. apply pow_incr. nra. }
  set (w := (1 + e) ^ k) in *. set (t := INR k * e) in *. assert (T0 : 0 <= t) by (unfold t; nra).
  assert (W : w <= 1 + 1.01 * t).
  { apply (Rmult_le_reg_r (1 - t)); [lra|]. eapply Rle_trans; [exact V|]. nra. }
  apply Rabs_le. lra.
Qed.

Lemma sqrt_near : forall e, Rabs e <= / 2 -> Rabs (sqrt (1 + e) - 1) <= Rabs e.
Proof.
  intros e He. pose proof (Rabs_le_between e (/2)) as [Q _]. specialize (Q He).
  assert (S1 : 0 <= sqrt (1 + e)) by apply sqrt_pos. assert (S2 : sqrt (1 + e) * sqrt (1 + e) = 1 + e) by (apply sqrt_sqrt; lra).
  set (s := sqrt (1 + e)) in *. replace e with ((s - 1) * (s + 1)) by lra. rewrite Rabs_mult.
  rewrite <- (Rmult_1_r (Rabs (s - 1))) at 1. apply Rmult_le_compat_l; [apply Rabs_pos|]. rewrite Rabs_pos_eq; lra.
Qed.

(** ** Polar angle *)
Lemma polar_angle : forall u v, u * u + v * v = 1 -> exists phi, u = cos phi /\ v = sin phi.
Proof.
  intros u v H. assert (Hu : -1 <= u <= 1) by nra. destruct (Rle_dec 0 v) as [Hv|Hv].
  - exists (acos u). rewrite cos_acos by exact Hu. split; [reflexivity|]. rewrite sin_acos by exact Hu.
    replace (1 - u²) with (v * v) by (unfold Rsqr; lra). rewrite sqrt_square; auto.
  - exists (- acos u). rewrite cos_neg, sin_neg, cos_acos by exact Hu. split; [reflexivity|]. rewrite sin_acos by exact Hu.
    replace (1 - u²) with ((- v) * (- v)) by (unfold Rsqr; lra). rewrite sqrt_square; lra.
Qed.

(** ** Polynomials *)
Lemma p3size_pos : forall p, 0 <= p3size p.
Proof. induction p as [|[c e] p IH]; cbn [p3size]; [lra|]. pose proof (Rabs_pos c). lra. Qed.

Lemma pow_abs1 : forall x k, Rabs x <= 1 -> Rabs (x ^ k) <= 1.
Proof. intros x k H. rewrite <- RPow_abs. rewrite <- (pow1 k). apply pow_incr. split; [apply Rabs_pos|exact H]. Qed.
Lemma mono_abs1 : forall x y z i j k, Rabs x <= 1 -> Rabs y <= 1 -> Rabs z <= 1 -> Rabs (x ^ i * y ^ j * z ^ k) <= 1.
Proof.
  intros x y z i j k Hx Hy Hz. pose proof (pow_abs1 x i Hx). pose proof (pow_abs1 y j Hy). pose proof (pow_abs1 z k Hz).
  pose proof (Rabs_pos (x ^ i)). pose proof (Rabs_pos (y ^ j)). pose proof (Rabs_pos (z ^ k)).
  rewrite !Rabs_mult. apply Rle_trans with (1 * 1 * 1); [|lra]. apply Rmult_le_compat; auto; [apply Rmult_le_pos; auto|].
  apply Rmult_le_compat; auto.
Qed.
Lemma sphere_box : forall x y z, x * x + y * y + z * z = 1 -> Rabs x <= 1 /\ Rabs y <= 1 /\ Rabs z <= 1.
Proof. intros x y z H. repeat split; apply Rabs_le; split; nra. Qed.

Lemma p3_bound : forall p x y z, x * x + y * y + z * z = 1 -> Rabs (p3eval p x y z) <= p3size p.
Proof.
  intros p x y z H. destruct (sphere_box x y z H) as (X & Y & Z).
  induction p as [|[c [[i j] k]] p IH]; cbn [p3eval p3size]; [rewrite Rabs_R0; lra|].
  eapply Rle_trans; [apply Rabs_triang|]. apply Rplus_le_compat; [|exact IH]. rewrite Rabs_mult.
  rewrite <- (Rmult_1_r (Rabs c)) at 2. apply Rmult_le_compat_l; [apply Rabs_pos|apply mono_abs1; auto].
Qed.

Lemma p3_stretch : forall p d x y z s e, p3deg_le p d -> Rabs x <= 1 -> Rabs y <= 1 -> Rabs z <= 1 ->
  0 <= e -> Rabs (s - 1) <= e -> INR d * e <= / 101 ->
  Rabs (p3eval p (s * x) (s * y) z - p3eval p x y z) <= 1.01 * (INR d * e) * p3size p.
Proof.
  intros p d x y z s e Hd Hx Hy Hz He Hs Hde. induction p as [|[c [[i j] k]] p IH]; cbn [p3eval p3size].
  - rewrite Rminus_diag_eq, Rabs_R0 by reflexivity. lra.
  - assert (Hp : p3deg_le p d) by (intros c0 a0 b0 g0 H0; apply (Hd c0 a0 b0 g0); right; exact H0). specialize (IH Hp).
    assert (Hm : (i + j + k <= d)%nat) by (apply (Hd c i j k); left; reflexivity).
    replace (c * ((s * x) ^ i * (s * y) ^ j * z ^ k) + p3eval p (s * x) (s * y) z - (c * (x ^ i * y ^ j * z ^ k) + p3eval p x y z))
      with (c * ((s ^ (i + j) - 1) * (x ^ i * y ^ j * z ^ k)) + (p3eval p (s * x) (s * y) z - p3eval p x y z))
      by (rewrite !Rpow_mult_distr, pow_add; ring).
    eapply Rle_trans; [apply Rabs_triang|]. rewrite Rmult_plus_distr_l. apply Rplus_le_compat; [|exact IH].
    rewrite Rabs_mult, Rabs_mult, Rmult_comm. apply Rmult_le_compat_r; [apply Rabs_pos|].
    pose proof (mono_abs1 x y z i j k Hx Hy Hz). pose proof (Rabs_pos (x ^ i * y ^ j * z ^ k)).
    assert (I : INR (i + j) <= INR d) by (apply le_INR; lia).
    pose proof (pow_near s e (i + j) He Hs ltac:(nra)) as P. pose proof (Rabs_pos (s ^ (i + j) - 1)).
    apply Rle_trans with (Rabs (s ^ (i + j) - 1) * 1); [apply Rmult_le_compat_l; auto|]. nra.
Qed.

Lemma dsum_bound : forall F d e M, 0 <= e -> 0 <= M -> INR d * e <= / 101 ->
  (forall m, (m <= d)%nat -> m <> 0%nat -> Rabs (F m) <= 1.01 * (INR m * e) * (2 * M)) ->
  Rabs (dsum F d) <= 1.01 * e * (INR d * (INR d + 1)) * M.
Proof.
  intros F d e M He HM. induction d as [|d IH]; intros Hd H; cbn [dsum].
  - rewrite Rabs_R0. cbn [INR]. lra.
  - rewrite S_INR in *. pose proof (pos_INR d). eapply Rle_trans; [apply Rabs_triang|].
    assert (G1 : Rabs (dsum F d) <= 1.01 * e * (INR d * (INR d + 1)) * M).
    { apply IH; [nra|]. intros m Hm Hz. apply H; lia. }
    pose proof (H (S d) (Nat.le_refl _) ltac:(discriminate)) as G2. rewrite S_INR in G2. nra.
Qed.

Lemma node_error : forall p h d x y z delta, p3deg_le p d -> hdeg_le h d ->
  (forall x y z, x * x + y * y + z * z = 1 -> p3eval p x y z = heval h x y z) ->
  0 < 1 - z * z -> Rabs (x * x + y * y + z * z - 1) <= delta -> (INR d + 1) * (delta / (1 - z * z)) <= / 101 ->
  Rabs (heval h x y z - p3eval p x y z) <= 1.01 * (delta / (1 - z * z)) * (INR d * (INR d + 2)) * p3size p.
Proof.
  intros p h d x y z delta Hp Hh Heq Hz Hn Hd. set (c := 1 - z * z) in *.
  assert (D0 : 0 <= delta) by (eapply Rle_trans; [apply Rabs_pos|exact Hn]).
  set (ee := delta / c) in *. assert (E0 : 0 <= ee) by (unfold ee, Rdiv; apply Rmult_le_pos; [lra|apply Rlt_le, Rinv_0_lt_compat; lra]).
  pose proof (pos_INR d) as Pd. assert (E2 : ee <= / 101) by nra.
  set (e := (x * x + y * y + z * z - 1) / c).
  assert (He : Rabs e <= ee).
  { unfold e, ee, Rdiv. rewrite Rabs_mult, (Rabs_pos_eq (/ c)) by (apply Rlt_le, Rinv_0_lt_compat; lra).
    apply Rmult_le_compat_r; [apply Rlt_le, Rinv_0_lt_compat; lra|exact Hn]. }
  assert (Hxy : x * x + y * y = c * (1 + e)) by (unfold e, c; field; unfold c in Hz; lra).
  pose proof (sqrt_near e ltac:(lra)) as Hs. pose proof (Rabs_le_between e ee) as [Q _]. specialize (Q He).
  assert (S1 : 0 < sqrt (1 + e)) by (apply sqrt_lt_R0; lra). assert (S2 : sqrt (1 + e) * sqrt (1 + e) = 1 + e) by (apply sqrt_sqrt; lra).
  set (s := sqrt (1 + e)) in *.
  assert (R1 : 0 < sqrt c) by (apply sqrt_lt_R0; lra). assert (R2 : sqrt c * sqrt c = c) by (apply sqrt_sqrt; lra). set (r := sqrt c) in *.
  destruct (polar_angle (x / (s * r)) (y / (s * r))) as (phi & C1 & C2).
  { replace (x / (s * r) * (x / (s * r)) + y / (s * r) * (y / (s * r))) with ((x * x + y * y) / ((s * s) * (r * r))) by (field; lra).
    rewrite Hxy, S2, R2. field. lra. }
  assert (Ex : x = s * (r * cos phi)) by (rewrite <- C1; field; lra).
  assert (Ey : y = s * (r * sin phi)) by (rewrite <- C2; field; lra).
  assert (On : forall psi, r * cos psi * (r * cos psi) + r * sin psi * (r * sin psi) + z * z = 1).
  { intro psi. replace (r * cos psi * (r * cos psi) + r * sin psi * (r * sin psi)) with ((r * r) * (Rsqr (sin psi) + Rsqr (cos psi))) by (unfold Rsqr; ring).
    rewrite sin2_cos2, R2. unfold c. ring. }
  rewrite Ex, Ey. set (x0 := r * cos phi) in *. set (y0 := r * sin phi) in *.
  pose proof (Heq x0 y0 z (On phi)) as E.
  replace (heval h (s * x0) (s * y0) z - p3eval p (s * x0) (s * y0) z)
    with ((heval h (s * x0) (s * y0) z - heval h x0 y0 z) + - (p3eval p (s * x0) (s * y0) z - p3eval p x0 y0 z)) by lra.
  eapply Rle_trans; [apply Rabs_triang|]. rewrite Rabs_Ropp.
  destruct (sphere_box _ _ _ (On phi)) as (X & Y & Z).
  pose proof (p3_stretch p d x0 y0 z s ee Hp X Y Z E0 ltac:(lra) ltac:(nra)) as B1.
  assert (B2 : Rabs (heval h (s * x0) (s * y0) z - heval h x0 y0 z) <= 1.01 * ee * (INR d * (INR d + 1)) * p3size p).
  { unfold x0, y0. rewrite (stretch h d r z phi s Hh). apply dsum_bound; [exact E0|apply p3size_pos|nra|].
    intros m Hm Hm0. rewrite Rabs_mult. apply Rmult_le_compat; try apply Rabs_pos.
    - apply pow_near; [exact E0|lra|]. assert (INR m <= INR d) by (apply le_INR; exact Hm). nra.
    - apply comp_bound; [exact Hm0|]. intro psi. rewrite <- Heq by apply On. apply p3_bound, On. }
  fold x0 y0 in B2. replace (1.01 * ee * (INR d * (INR d + 2)) * p3size p)
    with (1.01 * ee * (INR d * (INR d + 1)) * p3size p + 1.01 * (INR d * ee) * p3size p) by ring. lra.
Qed.
