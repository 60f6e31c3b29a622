(** Fixed-point arithmetic on three 59-bit limbs held in primitive 63-bit integers: definitions and
    their meaning in Z. *)
From Coq Require Import ZArith Lia List Bool Uint63.
Import ListNotations.

Inductive f3 : Set := F3 (h m l : int).

Local Open Scope uint63_scope.
Definition c59 : int := 576460752303423488.

(** d + x y 2^-177, where the limbs of x are stored times 16. *)
Definition mad (x y d : f3) : f3 :=
  match x, y, d with F3 x2 x1 x0, F3 y2 y1 y0, F3 d2 d1 d0 =>
  match mulc x2 y2, mulc x2 y1, mulc x1 y2, mulc x2 y0, mulc x1 y1, mulc x0 y2 with
  | (h22, l22), (h21, l21), (h12, l12), (h20, _), (h11, _), (h02, _) =>
    let s0 := (l21 >> 4) + (l12 >> 4) + h20 + h11 + h02 + d0 in
    let s1 := (l22 >> 4) + h21 + h12 + d1 + (s0 >> 59) in
    F3 (h22 + d2 + (s1 >> 59)) (s1 mod c59) (s0 mod c59)
  end end.

(** A term of the recurrence: z, 2(1-z), the current and the previous value. *)
Inductive col : Set := Col (z k a p : f3).

(** With u = z a + k: u + b (u - p + 4) + d, the constant 4 being 2^176 units. *)
Definition step (b d : f3) (c : col) : col :=
  match c with Col z k a p =>
    match mad z a k, p, d with F3 u2 u1 u0, F3 p2 p1 p0, F3 d2 d1 d0 =>
    Col z k (mad b (F3 (u2 + 288230376151711743 - p2) (u1 + 576460752303423487 - p1) (u0 + c59 - p0))
                   (F3 (u2 + d2) (u1 + d1) (u0 + d0))) a
    end end.

(** x r - y i for numbers stored with offsets, see below. *)
Definition comb (m1 i e m2 r : f3) : f3 :=
  match m1, i, e, m2, r with F3 a2 a1 a0, F3 i2 i1 i0, F3 e2 e1 e0, F3 b2 b1 b0, F3 r2 r1 r0 =>
  let s0 := 4 * a0 + 2 * i0 + e0 + (3458764513820540928 - 4 * b0 - 2 * r0) in
  let s1 := 4 * a1 + 2 * i1 + e1 + (3458764513820540922 - 4 * b1 - 2 * r1) + (s0 >> 59) in
  F3 (4 * a2 + 2 * i2 + e2 - 6 - 4 * b2 - 2 * r2 + (s1 >> 59)) (s1 mod c59) (s0 mod c59)
  end.
Definition comb' (m1 m2 e i r : f3) : f3 :=
  match m1, m2, e, i, r with F3 a2 a1 a0, F3 b2 b1 b0, F3 e2 e1 e0, F3 i2 i1 i0, F3 r2 r1 r0 =>
  let s0 := 4 * a0 + 4 * b0 + e0 + (2305843009213693952 - 2 * i0 - 2 * r0) in
  let s1 := 4 * a1 + 4 * b1 + e1 + (2305843009213693948 - 2 * i1 - 2 * r1) + (s0 >> 59) in
  F3 (4 * a2 + 4 * b2 + e2 - 4 - 2 * i2 - 2 * r2 + (s1 >> 59)) (s1 mod c59) (s0 mod c59)
  end.
Definition f0 : f3 := F3 0 0 0.

(** Running sums, with one more limb. *)
Inductive acc : Set := Acc (t h m l : int).
Definition accum (s : acc) (a : f3) : acc :=
  match s, a with Acc t h m l, F3 a2 a1 a0 =>
  let s0 := l + a0 in
  let s1 := m + a1 + (s0 >> 59) in
  let s2 := h + a2 + (s1 >> 59) in
  Acc (t + (s2 >> 59)) (s2 mod c59) (s1 mod c59) (s0 mod c59)
  end.

(** Limbs of n 2^177 / d, times 16. *)
Definition ratio (n d : int) : f3 :=
  let (q2, r2) := diveucl_21 (n >> 4) (n << 59) d in
  let (q1, r1) := diveucl_21 (r2 >> 4) (r2 << 59) d in
  let (q0, r0) := diveucl_21 (r1 >> 4) (r1 << 59) d in
  F3 (q2 << 4) (q1 << 4) (q0 << 4).
(** Minus half of it (limbs not times 16). *)
Definition mhalf (b : f3) : f3 :=
  match b with F3 b2 b1 b0 =>
  let q2 := b2 >> 5 in
  let q1 := (b1 >> 5) + ((b2 >> 4) mod 2) * 288230376151711744 in
  let q0 := (b0 >> 5) + ((b1 >> 4) mod 2) * 288230376151711744 in
  F3 (0 - q2 - 1) (576460752303423487 - q1) (c59 - q0)
  end.
Local Close Scope uint63_scope.

Local Open Scope Z_scope.
Notation iv := Uint63.to_Z.
Definition B : Z := 576460752303423488.
Definition W : Z := 3064991081731777716716694054300618367237478244367204352. (* 2^181 *)
Definition N : Z := 191561942608236107294793378393788647952342390272950272. (* 2^177 *)
Definition V (f : f3) : Z := let 'F3 h m l := f in iv h * (B * B) + iv m * B + iv l.
(** Lower limbs in range. *)
Definition lim (f : f3) : Prop := let 'F3 h m l := f in iv m < B /\ iv l < B.
(** x holds the limbs of X times 16. *)
Definition lim16 (x : f3) (X : Z) : Prop :=
  let 'F3 h m l := x in exists x2 x1 x0, X = x2 * (B * B) + x1 * B + x0 /\
    iv h = 16 * x2 /\ iv m = 16 * x1 /\ iv l = 16 * x0 /\
    0 <= x2 < B /\ 0 <= x1 < B /\ 0 <= x0 < B.

Lemma W_eq : W = Uint63.wB * (B * B). Proof. reflexivity. Qed.
Lemma N_eq : N = B * B * B. Proof. reflexivity. Qed.
Lemma B_eq : B = 2 ^ 59. Proof. reflexivity. Qed.
Lemma wB_eq : Uint63.wB = 16 * B. Proof. reflexivity. Qed.

Lemma V_nonneg : forall f, 0 <= V f.
Proof.
  intros [h m l]. unfold V, B. pose proof (Uint63.to_Z_bounded h). pose proof (Uint63.to_Z_bounded m).
  pose proof (Uint63.to_Z_bounded l). lia.
Qed.
Lemma V_lt_W : forall f, lim f -> V f < W.
Proof.
  intros [h m l] [H1 H2]. unfold V. pose proof (Uint63.to_Z_bounded h). rewrite W_eq. unfold B in *.
  rewrite wB_eq in *. unfold B in *. lia.
Qed.

(** Congruence modulo W. *)
Definition cg (a b : Z) : Prop := exists k, a = b + k * W.
Lemma cg_eq : forall a b, cg a b -> 0 <= a < W -> 0 <= b < W -> a = b.
Proof. intros a b [k ->] Ha Hb. unfold W in *. lia. Qed.

Lemma mod_k : forall a, exists k, a mod Uint63.wB = a + k * Uint63.wB.
Proof. intro a. exists (- (a / Uint63.wB)). pose proof (Z.div_mod a Uint63.wB ltac:(rewrite wB_eq; unfold B; lia)). lia. Qed.

Lemma add_small : forall x y, iv x + iv y < Uint63.wB -> iv (x + y)%uint63 = iv x + iv y.
Proof.
  intros. rewrite Uint63.add_spec. apply Z.mod_small. pose proof (Uint63.to_Z_bounded x). pose proof (Uint63.to_Z_bounded y). lia.
Qed.
Lemma sub_small : forall x y, iv y <= iv x -> iv (x - y)%uint63 = iv x - iv y.
Proof.
  intros. rewrite Uint63.sub_spec. apply Z.mod_small. pose proof (Uint63.to_Z_bounded x). pose proof (Uint63.to_Z_bounded y). lia.
Qed.
Lemma mul_small : forall x y, iv x * iv y < Uint63.wB -> iv (x * y)%uint63 = iv x * iv y.
Proof.
  intros. rewrite Uint63.mul_spec. apply Z.mod_small. pose proof (Uint63.to_Z_bounded x). pose proof (Uint63.to_Z_bounded y). nia.
Qed.
Lemma add_k : forall x y, exists k, iv (x + y)%uint63 = iv x + iv y + k * Uint63.wB.
Proof. intros. rewrite Uint63.add_spec. apply mod_k. Qed.
Lemma sub_k : forall x y, exists k, iv (x - y)%uint63 = iv x - iv y + k * Uint63.wB.
Proof. intros. rewrite Uint63.sub_spec. apply mod_k. Qed.
Lemma mul_k : forall x y, exists k, iv (x * y)%uint63 = iv x * iv y + k * Uint63.wB.
Proof. intros. rewrite Uint63.mul_spec. apply mod_k. Qed.
Lemma lsr59 : forall x, iv (x >> 59)%uint63 = iv x / B.
Proof. intro. rewrite Uint63.lsr_spec. reflexivity. Qed.
Lemma lsr4 : forall x, iv (x >> 4)%uint63 = iv x / 16.
Proof. intro. rewrite Uint63.lsr_spec. reflexivity. Qed.
Lemma mod59 : forall x, iv (x mod c59)%uint63 = iv x mod B.
Proof. intro. rewrite Uint63.mod_spec. reflexivity. Qed.

(** Product of a stored limb with another one: high and low part at the 59-bit boundary. *)
Lemma mulc16 : forall x y h l a, mulc x y = (h, l) -> iv x = 16 * a -> 0 <= a ->
  iv h = a * iv y / B /\ iv (l >> 4)%uint63 = (a * iv y) mod B /\ a * iv y = iv h * B + iv (l >> 4)%uint63.
Proof.
  intros x y h l a E Ex Ha. pose proof (Uint63.mulc_spec x y) as H. rewrite E in H. cbn [fst snd] in H.
  rewrite Ex, wB_eq in H. pose proof (Uint63.to_Z_bounded l) as Hl. rewrite wB_eq in Hl. rewrite lsr4.
  assert (E1 : iv h = a * iv y / B).
  { apply (Z.div_unique _ _ _ (a * iv y - B * iv h)); [|ring]. left. unfold B in *. lia. }
  assert (E2 : iv l / 16 = a * iv y - B * iv h).
  { symmetry. apply (Z.div_unique _ _ _ 0); [lia|]. lia. }
  rewrite E2. rewrite Z.mod_eq by (unfold B; lia). rewrite <- E1. split; [reflexivity|]. split; ring.
Qed.

(** The product bound, in Z, for any base. *)
Lemma mad_bound : forall b x2 x1 x0 y2 y1 y0, 8 <= b -> 0 <= x2 < b -> 0 <= x1 < b -> 0 <= x0 < b ->
  0 <= y2 < b -> 0 <= y1 < 2 * b -> 0 <= y0 < 2 * b ->
  let M := x2 * y2 * b + (x2 * y1 + x1 * y2) + x2 * y0 / b + x1 * y1 / b + x0 * y2 / b in
  0 <= M /\ M * (b * b * b) <= (x2 * (b * b) + x1 * b + x0) * (y2 * (b * b) + y1 * b + y0) < (M + 8) * (b * b * b).
Proof.
  intros b x2 x1 x0 y2 y1 y0 Hb B2 B1 B0 Y2 Y1 Y0 M. subst M.
  pose proof (Z.div_mod (x2 * y0) b ltac:(lia)) as G20. pose proof (Z.mod_pos_bound (x2 * y0) b ltac:(lia)) as M20.
  pose proof (Z.div_mod (x1 * y1) b ltac:(lia)) as G11. pose proof (Z.mod_pos_bound (x1 * y1) b ltac:(lia)) as M11.
  pose proof (Z.div_mod (x0 * y2) b ltac:(lia)) as G02. pose proof (Z.mod_pos_bound (x0 * y2) b ltac:(lia)) as M02.
  assert (P20 : 0 <= x2 * y0 / b) by (apply Z.div_pos; nia).
  assert (P11 : 0 <= x1 * y1 / b) by (apply Z.div_pos; nia).
  assert (P02 : 0 <= x0 * y2 / b) by (apply Z.div_pos; nia).
  assert (T1 : 0 <= x1 * y0 < 2 * (b * b)) by nia. assert (T2 : 0 <= x0 * y1 < 2 * (b * b)) by nia.
  assert (T3 : 0 <= x0 * y0 < 2 * (b * b)) by nia.
  set (g20 := x2 * y0 / b) in *. set (g11 := x1 * y1 / b) in *. set (g02 := x0 * y2 / b) in *.
  set (m1 := (x2 * y0) mod b) in *. set (m2 := (x1 * y1) mod b) in *. set (m3 := (x0 * y2) mod b) in *.
  clearbody g20 g11 g02 m1 m2 m3. split; [nia|].
  replace ((x2 * (b * b) + x1 * b + x0) * (y2 * (b * b) + y1 * b + y0)) with
    (x2 * y2 * (b * b * b * b) + (x2 * y1 + x1 * y2) * (b * b * b)
     + (x2 * y0 + x1 * y1 + x0 * y2) * (b * b) + (x1 * y0 + x0 * y1) * b + x0 * y0) by ring.
  rewrite G20, G11, G02. set (t1 := x1 * y0) in *. set (t2 := x0 * y1) in *. set (t3 := x0 * y0) in *.
  clearbody t1 t2 t3.
  assert (Bb : 0 < b * b) by nia.
  assert (Q1 : 0 <= (m1 + m2 + m3) * (b * b) <= 3 * b * (b * b))
    by (split; [apply Z.mul_nonneg_nonneg | apply Z.mul_le_mono_nonneg_r]; lia).
  assert (Q2 : 0 <= (t1 + t2) * b <= 4 * (b * b) * b)
    by (split; [apply Z.mul_nonneg_nonneg | apply Z.mul_le_mono_nonneg_r]; lia).
  assert (Q3 : 8 * (b * b) <= b * (b * b)) by (apply Z.mul_le_mono_nonneg_r; lia).
  split; lia.
Qed.
(** Carrying, in Z. *)
Lemma mad_carry : forall b w x2 x1 y2 y1 h22 p22 h21 p21 h12 p12 h20 h11 h02 d2 d1 d0 u1 v1 u0 v0 k,
  x2 * y2 = h22 * b + p22 -> x2 * y1 = h21 * b + p21 -> x1 * y2 = h12 * b + p12 ->
  p22 + h21 + h12 + d1 + u0 = b * u1 + v1 -> p21 + p12 + h20 + h11 + h02 + d0 = b * u0 + v0 ->
  (h22 + d2 + u1 + k * w) * (b * b) + v1 * b + v0 =
  d2 * (b * b) + d1 * b + d0 + (x2 * y2 * b + (x2 * y1 + x1 * y2) + h20 + h11 + h02) + k * (w * (b * b)).
Proof.
  intros b w x2 x1 y2 y1 h22 p22 h21 p21 h12 p12 h20 h11 h02 d2 d1 d0 u1 v1 u0 v0 k A1 A2 A3 A4 A5.
  assert (v1 = p22 + h21 + h12 + d1 + u0 - b * u1) by lia.
  assert (v0 = p21 + p12 + h20 + h11 + h02 + d0 - b * u0) by lia. subst v1 v0.
  assert (p22 = x2 * y2 - h22 * b) by lia. assert (p21 = x2 * y1 - h21 * b) by lia.
  assert (p12 = x1 * y2 - h12 * b) by lia. subst p22 p21 p12. ring.
Qed.
Lemma B_pos : 8 <= B. Proof. unfold B. lia. Qed.
Lemma add5 : forall a b c d e f : int, iv a + iv b + iv c + iv d + iv e + iv f < Uint63.wB ->
  iv (a + b + c + d + e + f)%uint63 = iv a + iv b + iv c + iv d + iv e + iv f.
Proof.
  intros. pose proof (Uint63.to_Z_bounded a). pose proof (Uint63.to_Z_bounded b). pose proof (Uint63.to_Z_bounded c).
  pose proof (Uint63.to_Z_bounded d). pose proof (Uint63.to_Z_bounded e). pose proof (Uint63.to_Z_bounded f).
  assert (E1 : iv (a + b)%uint63 = iv a + iv b) by (apply add_small; lia).
  assert (E2 : iv (a + b + c)%uint63 = iv a + iv b + iv c) by (rewrite add_small; lia).
  assert (E3 : iv (a + b + c + d)%uint63 = iv a + iv b + iv c + iv d) by (rewrite add_small; lia).
  assert (E4 : iv (a + b + c + d + e)%uint63 = iv a + iv b + iv c + iv d + iv e) by (rewrite add_small; lia).
  rewrite add_small; lia.
Qed.
Lemma add4 : forall a b c d e : int, iv a + iv b + iv c + iv d + iv e < Uint63.wB ->
  iv (a + b + c + d + e)%uint63 = iv a + iv b + iv c + iv d + iv e.
Proof.
  intros. pose proof (Uint63.to_Z_bounded a). pose proof (Uint63.to_Z_bounded b). pose proof (Uint63.to_Z_bounded c).
  pose proof (Uint63.to_Z_bounded d). pose proof (Uint63.to_Z_bounded e).
  assert (E1 : iv (a + b)%uint63 = iv a + iv b) by (apply add_small; lia).
  assert (E2 : iv (a + b + c)%uint63 = iv a + iv b + iv c) by (rewrite add_small; lia).
  assert (E3 : iv (a + b + c + d)%uint63 = iv a + iv b + iv c + iv d) by (rewrite add_small; lia).
  rewrite add_small; lia.
Qed.
Lemma div_bound : forall b a c k, 0 < b -> 0 <= a < b -> 0 <= c -> c < k * b -> 0 <= a * c / b < k * b.
Proof.
  intros b a c k Hb Ha Hc Hk. split; [apply Z.div_pos; nia|]. apply Z.div_lt_upper_bound; [auto|]. nia.
Qed.
Lemma mad_spec : forall x y d X, lim16 x X ->
  (let 'F3 y2 y1 y0 := y in iv y2 < B /\ iv y1 < 2 * B /\ iv y0 < 2 * B) ->
  (let 'F3 d2 d1 d0 := d in iv d1 < 2 * B /\ iv d0 <= 2 * B) ->
  exists M, 0 <= M /\ M * N <= X * V y < (M + 8) * N /\ cg (V (mad x y d)) (V d + M) /\ lim (mad x y d).
Proof.
  intros [X2 X1 X0] [y2 y1 y0] [d2 d1 d0] X (x2 & x1 & x0 & EX & E2 & E1 & E0 & B2 & B1 & B0) (Y2 & Y1 & Y0) (D1 & D0).
  unfold mad.
  destruct (mulc X2 y2) as [h22 l22] eqn:M22. destruct (mulc X2 y1) as [h21 l21] eqn:M21.
  destruct (mulc X1 y2) as [h12 l12] eqn:M12. destruct (mulc X2 y0) as [h20 l20] eqn:M20.
  destruct (mulc X1 y1) as [h11 l11] eqn:M11. destruct (mulc X0 y2) as [h02 l02] eqn:M02.
  apply (mulc16 _ _ _ _ x2) in M22; [|auto|apply B2]. apply (mulc16 _ _ _ _ x2) in M21; [|auto|apply B2].
  apply (mulc16 _ _ _ _ x1) in M12; [|auto|apply B1]. apply (mulc16 _ _ _ _ x2) in M20; [|auto|apply B2].
  apply (mulc16 _ _ _ _ x1) in M11; [|auto|apply B1]. apply (mulc16 _ _ _ _ x0) in M02; [|auto|apply B0].
  destruct M22 as (_ & L22 & F22). destruct M21 as (H21 & L21 & F21). destruct M12 as (H12 & L12 & F12).
  destruct M20 as (H20 & _ & _). destruct M11 as (H11 & _ & _). destruct M02 as (H02 & _ & _).
  pose proof (Uint63.to_Z_bounded y2) as [Y2' _]. pose proof (Uint63.to_Z_bounded y1) as [Y1' _].
  pose proof (Uint63.to_Z_bounded y0) as [Y0' _]. pose proof (Uint63.to_Z_bounded d1) as [D1' _].
  pose proof (Uint63.to_Z_bounded d0) as [D0' _].
  pose proof B_pos as BP8. assert (BP : 0 < B) by lia.
  pose proof (mad_bound B x2 x1 x0 (iv y2) (iv y1) (iv y0) BP8 B2 B1 B0 (conj Y2' Y2) (conj Y1' Y1) (conj Y0' Y0)) as MB.
  cbv zeta in MB. rewrite <- H20, <- H11, <- H02 in MB.
  set (p21 := (l21 >> 4)%uint63) in *. set (p12 := (l12 >> 4)%uint63) in *. set (p22 := (l22 >> 4)%uint63) in *.
  clearbody p21 p12 p22.
  assert (R22 : 0 <= iv p22 < B) by (rewrite L22; apply Z.mod_pos_bound; auto).
  assert (R21 : 0 <= iv p21 < B) by (rewrite L21; apply Z.mod_pos_bound; auto).
  assert (R12 : 0 <= iv p12 < B) by (rewrite L12; apply Z.mod_pos_bound; auto).
  pose proof (div_bound B x2 (iv y1) 2 BP B2 Y1' Y1) as Q21. rewrite <- H21 in Q21.
  pose proof (div_bound B x1 (iv y2) 1 BP B1 Y2' ltac:(lia)) as Q12. rewrite <- H12 in Q12.
  pose proof (div_bound B x2 (iv y0) 2 BP B2 Y0' Y0) as Q20. rewrite <- H20 in Q20.
  pose proof (div_bound B x1 (iv y1) 2 BP B1 Y1' Y1) as Q11. rewrite <- H11 in Q11.
  pose proof (div_bound B x0 (iv y2) 1 BP B0 Y2' ltac:(lia)) as Q02. rewrite <- H02 in Q02.
  clear L22 L21 L12 H21 H12 H20 H11 H02 E2 E1 E0.
  pose proof wB_eq as HW.
  assert (S0 : iv (p21 + p12 + h20 + h11 + h02 + d0)%uint63 = iv p21 + iv p12 + iv h20 + iv h11 + iv h02 + iv d0)
    by (apply add5; lia).
  set (s0 := (p21 + p12 + h20 + h11 + h02 + d0)%uint63) in *. clearbody s0.
  assert (C0 : 0 <= iv s0 / B < 16).
  { split; [apply Z.div_pos; lia|]. apply Z.div_lt_upper_bound; lia. }
  assert (S1 : iv (p22 + h21 + h12 + d1 + (s0 >> 59))%uint63 = iv p22 + iv h21 + iv h12 + iv d1 + iv s0 / B).
  { rewrite <- lsr59. apply add4. rewrite lsr59. lia. }
  set (s1 := (p22 + h21 + h12 + d1 + (s0 >> 59))%uint63) in *. clearbody s1.
  exists (x2 * iv y2 * B + (x2 * iv y1 + x1 * iv y2) + iv h20 + iv h11 + iv h02).
  destruct MB as [MB0 MB]. split; [exact MB0|]. split; [|split].
  - rewrite EX, N_eq. exact MB.
  - destruct (add_k (h22 + d2) (s1 >> 59)) as [k1 K1]. destruct (add_k h22 d2) as [k2 K2].
    exists (k1 + k2). unfold V. rewrite W_eq, !mod59.
    rewrite <- (mad_carry B Uint63.wB x2 x1 (iv y2) (iv y1) (iv h22) (iv p22) (iv h21) (iv p21) (iv h12) (iv p12)
      (iv h20) (iv h11) (iv h02) (iv d2) (iv d1) (iv d0) (iv s1 / B) (iv s1 mod B) (iv s0 / B) (iv s0 mod B) (k1 + k2) F22 F21 F12).
    + rewrite K1, K2, lsr59. ring.
    + rewrite <- S1. apply Z.div_mod. lia.
    + rewrite <- S0. apply Z.div_mod. lia.
  - unfold lim. rewrite !mod59. split; apply Z.mod_pos_bound; auto.
Qed.

(** Adding columns modulo W: the result is congruent to the weighted sum of the columns. *)
Lemma cg_refl : forall a, cg a a.
Proof. intro a. exists 0. ring. Qed.
Lemma cg_trans : forall a b c, cg a b -> cg b c -> cg a c.
Proof. intros a b c [k ->] [l ->]. exists (l + k). ring. Qed.
Lemma cg_add : forall a b c d, cg a b -> cg c d -> cg (a + c) (b + d).
Proof. intros a b c d [k ->] [l ->]. exists (k + l). ring. Qed.
Lemma cg_sub : forall a b c d, cg a b -> cg c d -> cg (a - c) (b - d).
Proof. intros a b c d [k ->] [l ->]. exists (k - l). ring. Qed.
Lemma cg_mul : forall n a b, cg a b -> cg (n * a) (n * b).
Proof. intros n a b [k ->]. exists (n * k). ring. Qed.

(** Top limb of a number in range. *)
Lemma top_lim : forall h m l, V (F3 h m l) < N -> iv h < B.
Proof.
  intros h m l. unfold V. pose proof (Uint63.to_Z_bounded m). pose proof (Uint63.to_Z_bounded l). rewrite N_eq. intro H1.
  assert (iv h * (B * B) < B * (B * B)) by (unfold B in *; lia). unfold B in *; lia.
Qed.

Definition H4 : Z := 95780971304118053647396689196894323976171195136475136. (* 2^176 *)
Lemma H4_eq : 2 * H4 = N. Proof. reflexivity. Qed.
Lemma H4_lim : H4 = 288230376151711743 * (B * B) + 576460752303423487 * B + B. Proof. reflexivity. Qed.

(** One step of the recurrence, in Z. *)
Definition dlim (d : f3) : Prop := let 'F3 d2 d1 d0 := d in iv d1 < B /\ iv d0 <= B.
Lemma w_spec : forall u2 u1 u0 p2 p1 p0 : int,
  lim (F3 u2 u1 u0) -> lim (F3 p2 p1 p0) -> V (F3 u2 u1 u0) < N -> V (F3 p2 p1 p0) < N ->
  4 * (B * B) <= V (F3 u2 u1 u0) - V (F3 p2 p1 p0) + H4 < N ->
  let w2 := (u2 + 288230376151711743 - p2)%uint63 in let w1 := (u1 + 576460752303423487 - p1)%uint63 in
  let w0 := (u0 + c59 - p0)%uint63 in
  V (F3 w2 w1 w0) = V (F3 u2 u1 u0) - V (F3 p2 p1 p0) + H4 /\ iv w2 < B /\ iv w1 < 2 * B /\ iv w0 < 2 * B.
Proof.
  intros u2 u1 u0 p2 p1 p0 [Lu1 Lu0] [Lp1 Lp0] Hu Hp Hw w2 w1 w0.
  pose proof (top_lim _ _ _ Hu) as Lu2. pose proof (top_lim _ _ _ Hp) as Lp2.
  unfold V in Hw. pose proof H4_lim as EH. pose proof wB_eq as EW.
  pose proof (Uint63.to_Z_bounded u2) as [U2 _]. pose proof (Uint63.to_Z_bounded u1) as [U1 _].
  pose proof (Uint63.to_Z_bounded u0) as [U0 _]. pose proof (Uint63.to_Z_bounded p2) as [P2 _].
  pose proof (Uint63.to_Z_bounded p1) as [P1 _]. pose proof (Uint63.to_Z_bounded p0) as [P0 _].
  assert (C2 : iv 288230376151711743%uint63 = 288230376151711743) by reflexivity.
  assert (C1 : iv 576460752303423487%uint63 = 576460752303423487) by reflexivity.
  assert (C0 : iv c59 = B) by reflexivity.
  assert (A2 : iv (u2 + 288230376151711743)%uint63 = iv u2 + 288230376151711743)
    by (rewrite add_small; rewrite C2; unfold B in *; lia).
  assert (A1 : iv (u1 + 576460752303423487)%uint63 = iv u1 + 576460752303423487)
    by (rewrite add_small; rewrite C1; unfold B in *; lia).
  assert (A0 : iv (u0 + c59)%uint63 = iv u0 + B) by (rewrite add_small; rewrite C0; unfold B in *; lia).
  assert (W2 : iv w2 = iv u2 + 288230376151711743 - iv p2).
  { unfold w2. rewrite sub_small; rewrite A2; [reflexivity|]. rewrite EH in Hw. unfold B in *. lia. }
  assert (W1 : iv w1 = iv u1 + 576460752303423487 - iv p1).
  { unfold w1. rewrite sub_small; rewrite A1; [reflexivity|]. unfold B in *. lia. }
  assert (W0 : iv w0 = iv u0 + B - iv p0).
  { unfold w0. rewrite sub_small; rewrite A0; [reflexivity|]. unfold B in *. lia. }
  split; [|split; [|split]].
  - unfold V. rewrite W2, W1, W0, EH. ring.
  - apply (top_lim w2 w1 w0). unfold V. rewrite W2, W1, W0. rewrite EH in Hw. unfold B in *. lia.
  - rewrite W1. unfold B in *. lia.
  - rewrite W0. unfold B in *. lia.
Qed.

Lemma step_spec : forall z k a p b d Zz Bz, lim16 z Zz -> lim k -> lim a -> lim p -> lim16 b Bz -> dlim d ->
  V a < N -> V p < N ->
  exists u M1, lim u /\ 0 <= M1 /\ M1 * N <= Zz * V a < (M1 + 8) * N /\ cg (V u) (V k + M1) /\
    (V u < N -> 4 * (B * B) <= V u - V p + H4 < N ->
     exists u' M2, step b d (Col z k a p) = Col z k u' a /\ lim u' /\
      0 <= M2 /\ M2 * N <= Bz * (V u - V p + H4) < (M2 + 8) * N /\ cg (V u') (V u + V d + M2)).
Proof.
  intros z [k2 k1 k0] [a2 a1 a0] [p2 p1 p0] b [d2 d1 d0] Zz Bz Hz [Hk1 Hk0] [Ha1 Ha0] Hp Hb [Hd1 Hd0] Ha Hp'.
  pose proof B_pos as HB.
  destruct (mad_spec z (F3 a2 a1 a0) (F3 k2 k1 k0) Zz Hz) as (M1 & M0 & MB & MC & ML).
  { split; [apply (top_lim _ _ _ Ha)|]. lia. }
  { lia. }
  exists (mad z (F3 a2 a1 a0) (F3 k2 k1 k0)), M1. repeat split; try assumption; try apply MB.
  unfold step. destruct (mad z (F3 a2 a1 a0) (F3 k2 k1 k0)) as [u2 u1 u0]. intros Hu Hw.
  destruct (w_spec _ _ _ _ _ _ ML Hp Hu Hp' Hw) as (EW & W2 & W1 & W0). cbv zeta in EW, W2, W1, W0.
  destruct ML as [ML1 ML0].
  pose proof (Uint63.to_Z_bounded u1) as [U1 _]. pose proof (Uint63.to_Z_bounded u0) as [U0 _].
  pose proof (Uint63.to_Z_bounded d1) as [D1 _]. pose proof (Uint63.to_Z_bounded d0) as [D0 _].
  pose proof wB_eq as EwB.
  assert (A1 : iv (u1 + d1)%uint63 = iv u1 + iv d1) by (apply add_small; lia).
  assert (A0 : iv (u0 + d0)%uint63 = iv u0 + iv d0) by (apply add_small; lia).
  destruct (mad_spec b (F3 (u2 + 288230376151711743 - p2) (u1 + 576460752303423487 - p1) (u0 + c59 - p0))
                       (F3 (u2 + d2) (u1 + d1) (u0 + d0)) Bz Hb) as (M2 & N0 & NB & NC & NL).
  { auto. }
  { rewrite A1, A0. lia. }
  eexists _, M2. split; [reflexivity|]. split; [exact NL|]. split; [exact N0|]. rewrite EW in NB. split; [exact NB|].
  eapply cg_trans; [exact NC|]. apply cg_add; [|apply cg_refl].
  destruct (add_k u2 d2) as [kk K]. exists kk. unfold V. rewrite A1, A0, K, W_eq. ring.
Qed.

(** Turning: the linear combinations used when m grows. *)
Lemma times2 : forall x, iv x < 8 * B -> iv (2 * x)%uint63 = 2 * iv x.
Proof. intros. rewrite mul_small; [reflexivity|]. rewrite wB_eq. change (iv 2%uint63) with 2. lia. Qed.
Lemma times4 : forall x, iv x < 4 * B -> iv (4 * x)%uint63 = 4 * iv x.
Proof. intros. rewrite mul_small; [reflexivity|]. rewrite wB_eq. change (iv 4%uint63) with 4. lia. Qed.
Lemma times_k : forall n x, exists k, iv (n * x)%uint63 = iv n * iv x + k * Uint63.wB.
Proof. exact mul_k. Qed.

Lemma add_v : forall x y a b, iv x = a -> iv y = b -> a + b < 16 * B -> iv (x + y)%uint63 = a + b.
Proof. intros x y a b <- <- H. apply add_small. rewrite wB_eq. exact H. Qed.
Lemma sub_v : forall x y a b, iv x = a -> iv y = b -> b <= a -> iv (x - y)%uint63 = a - b.
Proof. intros x y a b <- <- H. apply sub_small. exact H. Qed.

Lemma norm3 : forall (t2 s1' s0 : int) (c2 c1 c0 : Z), iv s0 = c0 -> iv s1' = c1 -> 0 <= c1 -> c1 + 16 < 16 * B ->
  (exists k, iv t2 = c2 + k * Uint63.wB) ->
  let s1 := (s1' + (s0 >> 59))%uint63 in
  let r := F3 (t2 + (s1 >> 59)) (s1 mod c59) (s0 mod c59) in
  lim r /\ cg (V r) (c2 * (B * B) + c1 * B + c0).
Proof.
  intros t2 s1' s0 c2 c1 c0 E0 E1 P1 L1 [k Ek] s1 r. pose proof B_pos.
  pose proof (Uint63.to_Z_bounded s0) as [S0 S0']. rewrite wB_eq in S0'.
  assert (D0 : 0 <= c0 / B < 16). { rewrite <- E0. split; [apply Z.div_pos; lia|]. apply Z.div_lt_upper_bound; lia. }
  assert (ES : iv s1 = c1 + c0 / B).
  { unfold s1. apply add_v; [exact E1|rewrite lsr59, E0; reflexivity|lia]. }
  split.
  - unfold r, lim. rewrite !mod59. split; apply Z.mod_pos_bound; lia.
  - destruct (add_k t2 (s1 >> 59)) as [k' Ek']. exists (k + k'). unfold r, V. rewrite Ek', Ek, lsr59, !mod59, ES, E0, W_eq.
    pose proof (Z.div_mod (c1 + c0 / B) B ltac:(lia)) as G1. pose proof (Z.div_mod c0 B ltac:(lia)) as G0.
    set (u1 := (c1 + c0 / B) / B) in *. set (v1 := (c1 + c0 / B) mod B) in *.
    set (u0 := c0 / B) in *. set (v0 := c0 mod B) in *. clearbody u1 v1 u0 v0.
    assert (v1 = c1 + u0 - B * u1) by lia. assert (v0 = c0 - B * u0) by lia. subst v1 v0. ring.
Qed.

Lemma comb_spec : forall m1 i e m2 r, lim m1 -> lim i -> lim e -> lim m2 -> lim r ->
  lim (comb m1 i e m2 r) /\ cg (V (comb m1 i e m2 r)) (4 * V m1 + 2 * V i + V e - 4 * V m2 - 2 * V r).
Proof.
  intros [a2 a1 a0] [i2 i1 i0] [e2 e1 e0] [b2 b1 b0] [r2 r1 r0] [A1 A0] [I1 I0] [E1 E0] [B1 B0] [R1 R0].
  pose proof (Uint63.to_Z_bounded a1) as [Pa1 _]. pose proof (Uint63.to_Z_bounded a0) as [Pa0 _].
  pose proof (Uint63.to_Z_bounded i1) as [Pi1 _]. pose proof (Uint63.to_Z_bounded i0) as [Pi0 _].
  pose proof (Uint63.to_Z_bounded e1) as [Pe1 _]. pose proof (Uint63.to_Z_bounded e0) as [Pe0 _].
  pose proof (Uint63.to_Z_bounded b1) as [Pb1 _]. pose proof (Uint63.to_Z_bounded b0) as [Pb0 _].
  pose proof (Uint63.to_Z_bounded r1) as [Pr1 _]. pose proof (Uint63.to_Z_bounded r0) as [Pr0 _].
  pose proof B_pos as HB.
  assert (K0 : iv 3458764513820540928%uint63 = 6 * B) by reflexivity.
  assert (K1 : iv 3458764513820540922%uint63 = 6 * B - 6) by reflexivity.
  unfold comb.
  pose proof (norm3 (4 * a2 + 2 * i2 + e2 - 6 - 4 * b2 - 2 * r2) (4 * a1 + 2 * i1 + e1 + (3458764513820540922 - 4 * b1 - 2 * r1))
      (4 * a0 + 2 * i0 + e0 + (3458764513820540928 - 4 * b0 - 2 * r0)) (4 * iv a2 + 2 * iv i2 + iv e2 - 6 - 4 * iv b2 - 2 * iv r2)
      (4 * iv a1 + 2 * iv i1 + iv e1 + (6 * B - 6 - 4 * iv b1 - 2 * iv r1))
      (4 * iv a0 + 2 * iv i0 + iv e0 + (6 * B - 4 * iv b0 - 2 * iv r0))) as T.
  cbv zeta in T |- *. destruct T as [T1 T2].
  - assert (H : iv (4 * a0 + 2 * i0 + e0)%uint63 = 4 * iv a0 + 2 * iv i0 + iv e0).
    { apply add_v; [|reflexivity|lia]. apply add_v; [apply times4; lia|apply times2; lia|lia]. }
    apply add_v; [exact H| |lia].
    apply sub_v; [|apply times2; lia|lia]. apply sub_v; [exact K0|apply times4; lia|lia].
  - assert (H : iv (4 * a1 + 2 * i1 + e1)%uint63 = 4 * iv a1 + 2 * iv i1 + iv e1).
    { apply add_v; [|reflexivity|lia]. apply add_v; [apply times4; lia|apply times2; lia|lia]. }
    apply add_v; [exact H| |lia].
    apply sub_v; [|apply times2; lia|lia]. apply sub_v; [exact K1|apply times4; lia|lia].
  - lia.
  - lia.
  - destruct (sub_k (4 * a2 + 2 * i2 + e2 - 6 - 4 * b2) (2 * r2)) as [k1 ->].
    destruct (sub_k (4 * a2 + 2 * i2 + e2 - 6) (4 * b2)) as [k2 ->].
    destruct (sub_k (4 * a2 + 2 * i2 + e2) 6) as [k3 ->].
    destruct (add_k (4 * a2 + 2 * i2) e2) as [k4 ->]. destruct (add_k (4 * a2) (2 * i2)) as [k5 ->].
    destruct (mul_k 4 a2) as [k6 ->]. destruct (mul_k 2 i2) as [k7 ->]. destruct (mul_k 4 b2) as [k8 ->].
    destruct (mul_k 2 r2) as [k9 ->].
    change (iv 4%uint63) with 4. change (iv 2%uint63) with 2. change (iv 6%uint63) with 6.
    exists (k1 + k2 + k3 + k4 + k5 + k6 + k7 - k8 - k9). ring.
  - split; [exact T1|]. eapply cg_trans; [exact T2|]. exists 0. unfold V. ring.
Qed.
Lemma comb'_spec : forall m1 m2 e i r, lim m1 -> lim m2 -> lim e -> lim i -> lim r ->
  lim (comb' m1 m2 e i r) /\ cg (V (comb' m1 m2 e i r)) (4 * V m1 + 4 * V m2 + V e - 2 * V i - 2 * V r).
Proof.
  intros [a2 a1 a0] [b2 b1 b0] [e2 e1 e0] [i2 i1 i0] [r2 r1 r0] [A1 A0] [B1 B0] [E1 E0] [I1 I0] [R1 R0].
  pose proof (Uint63.to_Z_bounded a1) as [Pa1 _]. pose proof (Uint63.to_Z_bounded a0) as [Pa0 _].
  pose proof (Uint63.to_Z_bounded i1) as [Pi1 _]. pose proof (Uint63.to_Z_bounded i0) as [Pi0 _].
  pose proof (Uint63.to_Z_bounded e1) as [Pe1 _]. pose proof (Uint63.to_Z_bounded e0) as [Pe0 _].
  pose proof (Uint63.to_Z_bounded b1) as [Pb1 _]. pose proof (Uint63.to_Z_bounded b0) as [Pb0 _].
  pose proof (Uint63.to_Z_bounded r1) as [Pr1 _]. pose proof (Uint63.to_Z_bounded r0) as [Pr0 _].
  pose proof B_pos as HB.
  assert (K0 : iv 2305843009213693952%uint63 = 4 * B) by reflexivity.
  assert (K1 : iv 2305843009213693948%uint63 = 4 * B - 4) by reflexivity.
  unfold comb'.
  pose proof (norm3 (4 * a2 + 4 * b2 + e2 - 4 - 2 * i2 - 2 * r2) (4 * a1 + 4 * b1 + e1 + (2305843009213693948 - 2 * i1 - 2 * r1))
      (4 * a0 + 4 * b0 + e0 + (2305843009213693952 - 2 * i0 - 2 * r0)) (4 * iv a2 + 4 * iv b2 + iv e2 - 4 - 2 * iv i2 - 2 * iv r2)
      (4 * iv a1 + 4 * iv b1 + iv e1 + (4 * B - 4 - 2 * iv i1 - 2 * iv r1))
      (4 * iv a0 + 4 * iv b0 + iv e0 + (4 * B - 2 * iv i0 - 2 * iv r0))) as T.
  cbv zeta in T |- *. destruct T as [T1 T2].
  - assert (H : iv (4 * a0 + 4 * b0 + e0)%uint63 = 4 * iv a0 + 4 * iv b0 + iv e0).
    { apply add_v; [|reflexivity|lia]. apply add_v; [apply times4; lia|apply times4; lia|lia]. }
    apply add_v; [exact H| |lia].
    apply sub_v; [|apply times2; lia|lia]. apply sub_v; [exact K0|apply times2; lia|lia].
  - assert (H : iv (4 * a1 + 4 * b1 + e1)%uint63 = 4 * iv a1 + 4 * iv b1 + iv e1).
    { apply add_v; [|reflexivity|lia]. apply add_v; [apply times4; lia|apply times4; lia|lia]. }
    apply add_v; [exact H| |lia].
    apply sub_v; [|apply times2; lia|lia]. apply sub_v; [exact K1|apply times2; lia|lia].
  - lia.
  - lia.
  - destruct (sub_k (4 * a2 + 4 * b2 + e2 - 4 - 2 * i2) (2 * r2)) as [k1 ->].
    destruct (sub_k (4 * a2 + 4 * b2 + e2 - 4) (2 * i2)) as [k2 ->].
    destruct (sub_k (4 * a2 + 4 * b2 + e2) 4) as [k3 ->].
    destruct (add_k (4 * a2 + 4 * b2) e2) as [k4 ->]. destruct (add_k (4 * a2) (4 * b2)) as [k5 ->].
    destruct (mul_k 4 a2) as [k6 ->]. destruct (mul_k 4 b2) as [k7 ->]. destruct (mul_k 2 i2) as [k8 ->].
    destruct (mul_k 2 r2) as [k9 ->].
    change (iv 4%uint63) with 4. change (iv 2%uint63) with 2.
    exists (k1 + k2 + k3 + k4 + k5 + k6 + k7 - k8 - k9). ring.
  - split; [exact T1|]. eapply cg_trans; [exact T2|]. exists 0. unfold V. ring.
Qed.

(** Running sums. *)
Definition Va (s : acc) : Z := let 'Acc t h m l := s in iv t * (B * B * B) + iv h * (B * B) + iv m * B + iv l.
Definition alim (s : acc) : Prop := let 'Acc t h m l := s in iv h < B /\ iv m < B /\ iv l < B.
Lemma accum_spec : forall s a, alim s -> lim a -> V a < N -> Va s < 2 ^ 59 * N ->
  alim (accum s a) /\ Va (accum s a) = Va s + V a.
Proof.
  intros [t h m l] [a2 a1 a0] (Hh & Hm & Hl) [A1 A0] HN Hs. pose proof (top_lim _ _ _ HN) as A2. pose proof B_pos as HB.
  pose proof (Uint63.to_Z_bounded a2) as [Pa2 _]. pose proof (Uint63.to_Z_bounded a1) as [Pa1 _].
  pose proof (Uint63.to_Z_bounded a0) as [Pa0 _]. pose proof (Uint63.to_Z_bounded h) as [Ph _].
  pose proof (Uint63.to_Z_bounded m) as [Pm _]. pose proof (Uint63.to_Z_bounded l) as [Pl _].
  pose proof (Uint63.to_Z_bounded t) as [Pt _].
  unfold accum.
  assert (S0 : iv (l + a0)%uint63 = iv l + iv a0) by (apply add_v; auto; lia).
  set (s0 := (l + a0)%uint63) in *. clearbody s0.
  assert (D0 : 0 <= iv s0 / B <= 1).
  { split; [apply Z.div_pos; lia|]. apply Z.lt_succ_r. apply Z.div_lt_upper_bound; lia. }
  assert (S1 : iv (m + a1 + (s0 >> 59))%uint63 = iv m + iv a1 + iv s0 / B).
  { apply add_v; [apply add_v; auto; lia|apply lsr59|lia]. }
  set (s1 := (m + a1 + (s0 >> 59))%uint63) in *. clearbody s1.
  assert (D1 : 0 <= iv s1 / B <= 1).
  { split; [apply Z.div_pos; lia|]. apply Z.lt_succ_r. apply Z.div_lt_upper_bound; lia. }
  assert (S2 : iv (h + a2 + (s1 >> 59))%uint63 = iv h + iv a2 + iv s1 / B).
  { apply add_v; [apply add_v; auto; lia|apply lsr59|lia]. }
  set (s2 := (h + a2 + (s1 >> 59))%uint63) in *. clearbody s2.
  assert (D2 : 0 <= iv s2 / B <= 1).
  { split; [apply Z.div_pos; lia|]. apply Z.lt_succ_r. apply Z.div_lt_upper_bound; lia. }
  assert (Ht : iv t <= B).
  { unfold Va in Hs. rewrite N_eq, <- B_eq in Hs. unfold B in *. lia. }
  assert (S3 : iv (t + (s2 >> 59))%uint63 = iv t + iv s2 / B).
  { apply add_v; [auto|apply lsr59|lia]. }
  split.
  - unfold alim. rewrite !mod59. repeat split; apply Z.mod_pos_bound; lia.
  - unfold Va, V. rewrite S3, !mod59.
    pose proof (Z.div_mod (iv s0) B ltac:(lia)) as G0. pose proof (Z.div_mod (iv s1) B ltac:(lia)) as G1.
    pose proof (Z.div_mod (iv s2) B ltac:(lia)) as G2.
    set (q0 := iv s0 / B) in *. set (r0 := iv s0 mod B) in *. set (q1 := iv s1 / B) in *. set (r1 := iv s1 mod B) in *.
    set (q2 := iv s2 / B) in *. set (r2 := iv s2 mod B) in *. clearbody q0 r0 q1 r1 q2 r2.
    rewrite S0 in G0. rewrite S1 in G1. rewrite S2 in G2.
    assert (r0 = iv l + iv a0 - B * q0) by lia. assert (r1 = iv m + iv a1 + q0 - B * q1) by lia.
    assert (r2 = iv h + iv a2 + q1 - B * q2) by lia. subst r0 r1 r2. ring.
Qed.

(** Division of small numbers. *)
Lemma div_limb : forall r d q r', diveucl_21 (r >> 4) (r << 59) d = (q, r') -> iv r < iv d -> iv d <= B ->
  iv r * B = iv q * iv d + iv r' /\ 0 <= iv r' < iv d /\ 0 <= iv q < B.
Proof.
  intros r d q r' E Hr Hd. pose proof B_pos as HB.
  pose proof (Uint63.to_Z_bounded r) as [R0 R1]. pose proof (Uint63.to_Z_bounded q) as [Q0 Q1].
  pose proof (Uint63.diveucl_21_spec (r >> 4) (r << 59) d) as S. rewrite E in S.
  rewrite lsr4 in S. rewrite Uint63.lsl_spec in S. change (2 ^ iv 59%uint63) with B in S.
  assert (Hlt : iv r / 16 < iv d) by (apply Z.div_lt_upper_bound; lia).

  assert (EE : iv r / 16 * Uint63.wB + (iv r * B) mod Uint63.wB = iv r * B).
  { rewrite wB_eq. pose proof (Z.div_mod (iv r) 16 ltac:(lia)) as G. pose proof (Z.mod_pos_bound (iv r) 16 ltac:(lia)) as G'.
    assert (E1 : (iv r * B) mod (16 * B) = (iv r mod 16) * B).
    { symmetry. apply (Z.mod_unique _ _ (iv r / 16)); [left; nia|]. nia. }
    rewrite E1. nia. }
  rewrite EE in S. destruct (Z.div_eucl (iv r * B) (iv d)) as [q' r''] eqn:ED.
  pose proof (Z_div_mod (iv r * B) (iv d) ltac:(lia)) as G. rewrite ED in G. destruct (S Hlt) as [Eq Er].
  rewrite Eq, Er in *. destruct G as [G1 G2]. split; [lia|]. split; [exact G2|]. nia.
Qed.
Lemma lsl4 : forall q, iv q < B -> iv (q << 4)%uint63 = 16 * iv q.
Proof.
  intros q H. rewrite Uint63.lsl_spec. pose proof (Uint63.to_Z_bounded q). change (2 ^ iv 4%uint63) with 16.
  rewrite Z.mod_small; [ring|]. rewrite wB_eq. lia.
Qed.
Lemma ratio_spec : forall n d, iv n < iv d -> iv d <= B ->
  exists Bz, lim16 (ratio n d) Bz /\ Bz * iv d <= iv n * N < (Bz + 1) * iv d.
Proof.
  intros n d H Hd. unfold ratio.
  destruct (diveucl_21 (n >> 4) (n << 59) d) as [q2 r2] eqn:E2. apply div_limb in E2; auto. destruct E2 as (E2 & R2 & Q2).
  destruct (diveucl_21 (r2 >> 4) (r2 << 59) d) as [q1 r1] eqn:E1. apply div_limb in E1; [|lia|auto]. destruct E1 as (E1 & R1 & Q1).
  destruct (diveucl_21 (r1 >> 4) (r1 << 59) d) as [q0 r0] eqn:E0. apply div_limb in E0; [|lia|auto]. destruct E0 as (E0 & R0 & Q0).
  exists (iv q2 * (B * B) + iv q1 * B + iv q0). split.
  - exists (iv q2), (iv q1), (iv q0). rewrite !lsl4 by lia. repeat split; try lia.
  - rewrite N_eq. replace (iv n * (B * B * B)) with (iv n * B * (B * B)) by ring. rewrite E2.
    replace ((iv q2 * iv d + iv r2) * (B * B)) with (iv q2 * (B * B) * iv d + iv r2 * B * B) by ring. rewrite E1.
    replace ((iv q1 * iv d + iv r1) * B) with (iv q1 * B * iv d + iv r1 * B) by ring. rewrite E0. lia.
Qed.
Lemma lsr5 : forall x, iv (x >> 5)%uint63 = iv x / 32.
Proof. intro. rewrite Uint63.lsr_spec. reflexivity. Qed.
Lemma mod2 : forall x, iv (x mod 2)%uint63 = iv x mod 2.
Proof. intro. rewrite Uint63.mod_spec. reflexivity. Qed.
Lemma mhalf_spec : forall b Bz, lim16 b Bz ->
  dlim (mhalf b) /\ exists Q, cg (V (mhalf b)) (- Q) /\ 2 * Q <= Bz <= 2 * Q + 1.
Proof.
  intros [b2 b1 b0] Bz (x2 & x1 & x0 & EX & E2 & E1 & E0 & B2 & B1 & B0). pose proof B_pos as HB.
  unfold mhalf.
  assert (half : forall b x, iv b = 16 * x -> iv (b >> 5)%uint63 = x / 2).
  { intros b x E. rewrite lsr5, E. change 32 with (16 * 2). apply Z.div_mul_cancel_l; lia. }
  assert (odd : forall b x, iv b = 16 * x -> iv ((b >> 4) mod 2 * 288230376151711744)%uint63 = x mod 2 * 288230376151711744).
  { intros b x E. assert (EE : iv ((b >> 4) mod 2)%uint63 = x mod 2).
    { rewrite mod2, lsr4, E, Z.mul_comm, Z.div_mul by lia. reflexivity. }
    pose proof (Z.mod_pos_bound x 2 ltac:(lia)). rewrite mul_small; rewrite EE; [reflexivity|].
    change (iv 288230376151711744%uint63) with 288230376151711744. rewrite wB_eq. unfold B in *. lia. }
  pose proof (half b2 x2 E2) as A2. pose proof (half b1 x1 E1) as A1. pose proof (half b0 x0 E0) as A0.
  pose proof (odd b2 x2 E2) as O2. pose proof (odd b1 x1 E1) as O1.
  pose proof (Z.div_mod x2 2 ltac:(lia)) as G2. pose proof (Z.mod_pos_bound x2 2 ltac:(lia)) as P2.
  pose proof (Z.div_mod x1 2 ltac:(lia)) as G1. pose proof (Z.mod_pos_bound x1 2 ltac:(lia)) as P1.
  pose proof (Z.div_mod x0 2 ltac:(lia)) as G0. pose proof (Z.mod_pos_bound x0 2 ltac:(lia)) as P0.
  set (y2 := x2 / 2) in *. set (y1 := x1 / 2) in *. set (y0 := x0 / 2) in *.
  set (o2 := x2 mod 2) in *. set (o1 := x1 mod 2) in *. set (o0 := x0 mod 2) in *.
  clearbody y2 y1 y0 o2 o1 o0.
  assert (H1 : iv ((b1 >> 5) + (b2 >> 4) mod 2 * 288230376151711744)%uint63 = y1 + o2 * 288230376151711744).
  { apply add_v; auto. unfold B in *. lia. }
  assert (H0 : iv ((b0 >> 5) + (b1 >> 4) mod 2 * 288230376151711744)%uint63 = y0 + o1 * 288230376151711744).
  { apply add_v; auto. unfold B in *. lia. }
  assert (L1 : iv (576460752303423487 - ((b1 >> 5) + (b2 >> 4) mod 2 * 288230376151711744))%uint63
          = 576460752303423487 - (y1 + o2 * 288230376151711744)).
  { apply sub_v; auto. unfold B in *. lia. }
  assert (L0 : iv (c59 - ((b0 >> 5) + (b1 >> 4) mod 2 * 288230376151711744))%uint63 = B - (y0 + o1 * 288230376151711744)).
  { apply sub_v; auto. unfold B in *. lia. }
  cbv zeta. split.
  - unfold dlim. rewrite L1, L0. unfold B in *. lia.
  - exists (y2 * (B * B) + (y1 + o2 * 288230376151711744) * B + (y0 + o1 * 288230376151711744)). split.
    + unfold V. destruct (sub_k (0 - (b2 >> 5)) 1) as [k1 K1]. destruct (sub_k 0 (b2 >> 5)) as [k2 K2].
      rewrite K1, K2, L1, L0, A2. change (iv 0%uint63) with 0. change (iv 1%uint63) with 1.
      exists (k1 + k2). rewrite W_eq. change 576460752303423487 with (B - 1). ring.
    + rewrite EX. unfold B in *. lia.
Qed.
