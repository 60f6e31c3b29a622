(** Interpolation at the Chebyshev points: error for N times differentiable functions. *)
From Coq Require Import List Bool Arith ZArith Lia Reals Lra Psatz.
From Coquelicot Require Import Coquelicot.
From Verif Require Import Spec.Sums Spec.RealRules Spec.ErrorSpec Proofs.Tab Proofs.SumFacts Proofs.ChebReal Proofs.ChebInt
  Proofs.Legendre Proofs.LegendreZeros Proofs.Lobatto.
Import ListNotations.
Local Open Scope R_scope.

(** Derivatives of coefficient lists. *)
Fixpoint pder (p : list R) : list R := match p with [] => [] | _ :: p' => padd p' (0 :: pder p') end.

Lemma pder_derive : forall p x, is_derive (peval p) x (peval (pder p) x).
Proof.
  induction p as [|a p IH]; intro x.
  - apply (is_derive_const (K := R_AbsRing) (V := R_NormedModule) 0).
  - cbn [peval pder]. rewrite peval_padd. cbn [peval].
    evar_last.
    + apply (is_derive_plus (K := R_AbsRing) (V := R_NormedModule) (fun _ => a) (fun x => x * peval p x)).
      * apply (is_derive_const (K := R_AbsRing) (V := R_NormedModule)).
      * apply (is_derive_mult (fun x => x) (peval p) x 1 (peval (pder p) x)); [apply (is_derive_id (K := R_AbsRing))|apply IH|intros; apply Rmult_comm].
    + unfold plus, mult, zero; simpl. ring.
Qed.

Lemma nth_padd : forall p q k, nth k (padd p q) 0 = nth k p 0 + nth k q 0.
Proof. induction p as [|a p IH]; intros [|b q] [|k]; simpl; try ring. apply IH. Qed.

Lemma nth_scal : forall c p k, nth k (map (Rmult c) p) 0 = c * nth k p 0.
Proof. induction p as [|a p IH]; intros [|k]; simpl; try ring. apply IH. Qed.

Lemma nth_pder : forall p k, nth k (pder p) 0 = INR (S k) * nth (S k) p 0.
Proof.
  induction p as [|a p IH]; intro k; [simpl; destruct k; ring|]. cbn [pder]. rewrite nth_padd.
  destruct k as [|k]; cbn [nth]; [simpl; ring|]. rewrite IH. rewrite (S_INR (S k)). ring.
Qed.

Fixpoint pders (k : nat) (p : list R) : list R := match k with O => p | S k => pder (pders k p) end.

Lemma nth_pders : forall k p j, INR (fact j) * nth j (pders k p) 0 = INR (fact (j + k)) * nth (j + k) p 0.
Proof.
  induction k as [|k IH]; intros p j; cbn [pders]; [rewrite Nat.add_0_r; reflexivity|].
  rewrite nth_pder. replace (j + S k)%nat with (S j + k)%nat by lia. rewrite <- IH.
  rewrite fact_simpl, mult_INR. ring.
Qed.

Lemma peval_const : forall p, (forall j, (1 <= j)%nat -> nth j p 0 = 0) -> forall x, peval p x = nth 0 p 0.
Proof.
  intros p H x. destruct p as [|a p]; [reflexivity|]. cbn [peval nth].
  assert (Z : peval p x = 0); [|rewrite Z; ring].
  assert (H' : forall j, nth j p 0 = 0) by (intro j; apply (H (S j)); lia). clear H.
  induction p as [|b p IH]; [reflexivity|]. cbn [peval]. rewrite IH by (intro j; apply (H' (S j))).
  specialize (H' 0%nat). cbn [nth] in H'. rewrite H'. ring.
Qed.

Lemma pders_top : forall N p x, (length p <= S N)%nat -> peval (pders N p) x = INR (fact N) * nth N p 0.
Proof.
  intros N p x L. rewrite peval_const.
  - pose proof (nth_pders N p 0) as E. rewrite Nat.add_0_l in E. rewrite <- E. change (fact 0) with 1%nat. simpl (INR 1). ring.
  - intros j Hj. pose proof (nth_pders N p j) as E. rewrite (nth_overflow p) in E by lia.
    pose proof (INR_fact_lt_0 j) as P. rewrite Rmult_0_r in E. apply Rmult_integral in E. destruct E; [lra|auto].
Qed.

(** A product of N linear factors has leading coefficient 1. *)
Lemma prod_monic : forall N z, exists p, (length p <= S N)%nat /\ nth N p 0 = 1 /\ forall x, prod N z x = peval p x.
Proof.
  induction N as [|N IH]; intro z; [exists [1]; split; [simpl; lia|split; [reflexivity|intro; simpl; ring]]|].
  destruct (IH z) as (p & L & T & E). exists (padd (0 :: p) (map (Rmult (- z N)) p)). split; [|split].
  - rewrite padd_len, map_length. cbn [length]. lia.
  - rewrite nth_padd, nth_scal. cbn [nth]. rewrite T, (nth_overflow p) by lia. ring.
  - intro x. rewrite peval_padd, peval_map. cbn [peval prod]. rewrite E. ring.
Qed.

(** Interpolation. *)
Lemma interp_exists : forall N z (f : R -> R), (forall i j, (i < j < N)%nat -> z i <> z j) ->
  exists p, (length p <= N)%nat /\ forall i, (i < N)%nat -> peval p (z i) = f (z i).
Proof.
  induction N as [|N IH]; intros z f D; [exists []; split; [simpl; lia|intros; lia]|].
  destruct (IH z f) as (p & L & E); [intros; apply D; lia|].
  destruct (prod_monic N z) as (w & Lw & _ & Ew).
  set (c := (f (z N) - peval p (z N)) / prod N z (z N)).
  assert (NZ : prod N z (z N) <> 0) by (apply prod_nz; intros i Hi; apply D; lia).
  exists (padd p (map (Rmult c) w)). split; [rewrite padd_len, map_length; lia|].
  intros i Hi. rewrite peval_padd, peval_map, <- Ew. destruct (Nat.eq_dec i N) as [->|Ne].
  - unfold c. field. auto.
  - rewrite E, prod_zero by lia. ring.
Qed.

(** Rolle's theorem for N + 1 zeros. *)
Lemma finite_choice : forall n (P : nat -> R -> Prop), (forall i, (i < n)%nat -> exists y, P i y) ->
  exists h : nat -> R, forall i, (i < n)%nat -> P i (h i).
Proof.
  induction n as [|n IH]; intros P H; [exists (fun _ => 0); intros; lia|].
  destruct (IH P) as (h & Hh); [auto|]. destruct (H n) as (y & Hy); [lia|].
  exists (fun i => if Nat.eqb i n then y else h i). intros i Hi. destruct (Nat.eqb_spec i n) as [->|]; auto. apply Hh. lia.
Qed.

Lemma rolle_one : forall (g g1 : R -> R) a b, a < b -> (forall t, a <= t <= b -> is_derive g t (g1 t)) -> g a = 0 -> g b = 0 ->
  exists c, a < c < b /\ g1 c = 0.
Proof.
  intros g g1 a b ab D ga gb.
  assert (pr : forall x, a < x < b -> derivable_pt g x) by (intros x Hx; exists (g1 x); apply is_derive_Reals, D; lra).
  destruct (Rolle g a b pr) as (c & P & E); [|lra|rewrite ga, gb; reflexivity|].
  - intros x Hx. apply derivable_continuous_pt. exists (g1 x). apply is_derive_Reals, D. lra.
  - exists c. split; auto. rewrite <- E. symmetry. apply derive_pt_eq_0. apply is_derive_Reals, D. lra.
Qed.

Lemma rolle : forall N (G : nat -> R -> R) a b z,
  (forall k t, (k < N)%nat -> a <= t <= b -> is_derive (G k) t (G (S k) t)) ->
  (forall i, (i <= N)%nat -> a <= z i <= b) -> (forall i, (i < N)%nat -> z i < z (S i)) ->
  (forall i, (i <= N)%nat -> G 0%nat (z i) = 0) -> exists c, a <= c <= b /\ G N c = 0.
Proof.
  induction N as [|N IH]; intros G a b z D Hz M Z.
  - exists (z 0%nat). split; [apply Hz; lia|apply Z; lia].
  - destruct (finite_choice (S N) (fun i y => z i < y < z (S i) /\ G 1%nat y = 0)) as (h & Hh).
    + intros i Hi. destruct (rolle_one (G 0%nat) (G 1%nat) (z i) (z (S i))) as (c & Hc & E); [apply M; lia| |apply Z; lia|apply Z; lia|eauto].
      intros t Ht. apply D; [lia|]. pose proof (Hz i ltac:(lia)). pose proof (Hz (S i) ltac:(lia)). lra.
    + apply (IH (fun k => G (S k)) a b h).
      * intros k t Hk Ht. apply D; auto. lia.
      * intros i Hi. destruct (Hh i ltac:(lia)) as (? & _). pose proof (Hz i ltac:(lia)). pose proof (Hz (S i) ltac:(lia)). lra.
      * intros i Hi. destruct (Hh i ltac:(lia)) as (? & _). destruct (Hh (S i) ltac:(lia)) as (? & _). lra.
      * intros i Hi. apply Hh. lia.
Qed.

(** A further point put into an increasing sequence. *)
Lemma insert_point : forall N (z : nat -> R) x, (forall i j, (i < j < N)%nat -> z i < z j) -> (forall i, (i < N)%nat -> z i <> x) ->
  exists y : nat -> R, (forall i, (i < N)%nat -> y i < y (S i)) /\ (forall i, (i <= N)%nat -> y i = x \/ exists j, (j < N)%nat /\ y i = z j).
Proof.
  intros N z x I D.
  assert (K : exists k, (k <= N)%nat /\ (forall i, (i < k)%nat -> z i < x) /\ (forall i, (k <= i < N)%nat -> x < z i)).
  { clear -I D. induction N as [|N IH]; [exists 0%nat; repeat split; intros; lia|].
    destruct IH as (k & Hk & A & B); [intros; apply I; lia|intros; apply D; lia|].
    destruct (Rlt_dec (z N) x) as [C|C].
    - exists (S N). split; auto. split; [|intros; lia]. intros i Hi. destruct (Nat.eq_dec i N) as [->|]; auto.
      apply Rlt_trans with (z N); auto. apply I. lia.
    - exists k. split; [lia|]. split; auto. intros i Hi. destruct (Nat.eq_dec i N) as [->|]; [|apply B; lia].
      pose proof (D N ltac:(lia)). lra. }
  destruct K as (k & Hk & A & B).
  exists (fun i => if Nat.ltb i k then z i else if Nat.eqb i k then x else z (pred i)). split.
  - intros i Hi. destruct (Nat.ltb_spec i k), (Nat.ltb_spec (S i) k), (Nat.eqb_spec i k), (Nat.eqb_spec (S i) k); try lia; try (subst; lia).
    + apply I. lia.
    + apply A. lia.
    + cbn [pred]. apply B. lia.
    + cbn [pred]. apply I. lia.
  - intros i Hi. destruct (Nat.ltb_spec i k); [right; exists i; split; [lia|auto]|].
    destruct (Nat.eqb_spec i k); [left; auto|]. right. exists (pred i). split; [lia|auto].
Qed.

(** Error of interpolation. *)
Lemma interp_error : forall N F M a b z p x, smooth a b N F M -> (forall i j, (i < j < N)%nat -> z i < z j) ->
  (forall i, (i < N)%nat -> a <= z i <= b) -> (length p <= N)%nat -> (forall i, (i < N)%nat -> peval p (z i) = F 0%nat (z i)) ->
  a <= x <= b -> Rabs (F 0%nat x - peval p x) <= M / INR (fact N) * Rabs (prod N z x).
Proof.
  intros N F M a b z p x (D & B) I Hz L E Hx. pose proof (INR_fact_lt_0 N) as FP.
  assert (M0 : 0 <= M) by (eapply Rle_trans; [apply Rabs_pos|apply (B x Hx)]).
  destruct (Req_dec (prod N z x) 0) as [Z|NZ].
  - assert (X : exists i, (i < N)%nat /\ z i = x).
    { clear -Z. induction N as [|N IH]; simpl in Z; [lra|]. apply Rmult_integral in Z. destruct Z as [Z|Z].
      - destruct (IH Z) as (i & A & C). exists i. split; auto.
      - exists N. split; auto. lra. }
    destruct X as (i & Hi & <-). rewrite E by auto. rewrite Rminus_eq_0, Rabs_R0. 
    apply Rmult_le_pos; [|apply Rabs_pos]. apply Rmult_le_pos; auto. left. apply Rinv_0_lt_compat. auto.
  - destruct (prod_monic N z) as (w & Lw & Tw & Ew).
    set (c := (F 0%nat x - peval p x) / prod N z x).
    set (s := padd p (map (Rmult c) w)).
    assert (Ls : (length s <= S N)%nat) by (unfold s; rewrite padd_len, map_length; lia).
    assert (Ts : nth N s 0 = c) by (unfold s; rewrite nth_padd, nth_scal, Tw, (nth_overflow p) by lia; ring).
    assert (Es : forall t, peval s t = peval p t + c * prod N z t) by (intro t; unfold s; rewrite peval_padd, peval_map, <- Ew; ring).
    assert (ND : forall i, (i < N)%nat -> z i <> x) by (intros i Hi Q; apply NZ; rewrite <- Q; apply prod_zero; auto).
    destruct (insert_point N z x I ND) as (y & Yi & Yz).
    destruct (rolle N (fun k t => F k t - peval (pders k s) t) a b y) as (t & Ht & Et).
    + intros k t Hk Ht. apply (is_derive_minus (K := R_AbsRing) (V := R_NormedModule)); [apply D; auto|]. apply pder_derive.
    + intros i Hi. destruct (Yz i Hi) as [->|(j & Hj & ->)]; auto.
    + exact Yi.
    + intros i Hi. cbn [pders]. rewrite Es. destruct (Yz i Hi) as [->|(j & Hj & ->)].
      * unfold c. field. auto.
      * rewrite E, prod_zero by auto. ring.
    + cbv beta in Et. rewrite pders_top, Ts in Et by auto.
      replace (F 0%nat x - peval p x) with (c * prod N z x) by (unfold c; field; auto).
      rewrite Rabs_mult. apply Rmult_le_compat_r; [apply Rabs_pos|].
      replace c with (F N t / INR (fact N)) by (apply Rmult_eq_reg_l with (INR (fact N)); [field_simplify; lra|lra]).
      unfold Rdiv. rewrite Rabs_mult, (Rabs_pos_eq (/ _)) by (left; apply Rinv_0_lt_compat; auto).
      apply Rmult_le_compat_r; [left; apply Rinv_0_lt_compat; auto|]. apply B; auto.
Qed.

(** Chebyshev polynomials: the product over the Chebyshev points is at most 2^(1-N). *)
Fixpoint cheb (n : nat) : list R * list R :=
  match n with O => ([1], [0; 1]) | S n => let '(a, b) := cheb n in (b, padd (0 :: map (Rmult 2) b) (map (Rmult (-1)) a)) end.

Lemma cheb_spec : forall n, let '(a, b) := cheb n in
  (length a <= S n)%nat /\ (length b <= S (S n))%nat /\ nth (S n) b 0 = 2 ^ n /\
  (forall t, peval a (cos t) = cos (INR n * t)) /\ (forall t, peval b (cos t) = cos (INR (S n) * t)).
Proof.
  induction n as [|n IH].
  - cbn [cheb]. repeat split; simpl; try lia; try ring; intro t; [rewrite Rmult_0_l, cos_0; ring|rewrite Rmult_1_l; ring].
  - cbn [cheb]. destruct (cheb n) as (a, b). destruct IH as (La & Lb & Tb & Ea & Eb). repeat split; auto.
    + rewrite padd_len. cbn [length]. rewrite !map_length. lia.
    + rewrite nth_padd, nth_scal, (nth_overflow a) by lia. cbn [nth]. rewrite nth_scal, Tb. simpl. ring.
    + intro t. rewrite peval_padd. cbn [peval]. rewrite !peval_map, Ea, Eb.
      replace (INR (S (S n)) * t) with (INR (S n) * t + t) by (rewrite (S_INR (S n)); ring).
      replace (INR n * t) with (INR (S n) * t - t) by (rewrite (S_INR n); ring). rewrite cos_plus, cos_minus. ring.
Qed.

(** Equal polynomial functions have equal leading coefficients. *)
Lemma lead_eq : forall N p q, (length p <= S N)%nat -> (length q <= S N)%nat -> (forall x, peval p x = peval q x) ->
  nth N p 0 = nth N q 0.
Proof.
  intros N p q Lp Lq E.
  assert (G : forall k x, peval (pders k p) x = peval (pders k q) x).
  { induction k as [|k IH]; intro x; [apply E|]. cbn [pders].
    assert (A : Derive (peval (pders k p)) x = peval (pder (pders k p)) x) by apply is_derive_unique, pder_derive.
    rewrite <- A, (Derive_ext _ _ x IH). apply is_derive_unique, pder_derive. }
  specialize (G N 0). rewrite !pders_top in G by auto. pose proof (INR_fact_lt_0 N).
  apply Rmult_eq_reg_l with (INR (fact N)); lra.
Qed.

Lemma cheb_prod : forall N x, (1 <= N)%nat -> -1 <= x <= 1 -> Rabs (prod N (fun i => cos (th1 N i)) x) <= 2 / 2 ^ N.
Proof.
  intros [|N] x HN Hx; [lia|]. set (z := fun i => cos (th1 (S N) i)).
  pose proof (cheb_spec N) as C. destruct (cheb N) as (a, b). destruct C as (_ & Lb & Tb & _ & Eb).
  assert (D : forall i j, (i < j < S N)%nat -> z i <> z j).
  { intros i j H. unfold z. apply Rlt_not_eq. apply cos_decreasing_1; try apply th1_decr; auto.
    all: try (pose proof (th1_range (S N) i ltac:(lia)); lra); pose proof (th1_range (S N) j ltac:(lia)); lra. }
  destruct (factor (S N) (peval b) z) as (c & Hc); auto.
  - exists b. split; auto.
  - intros i Hi. unfold z. rewrite Eb. unfold th1. pose proof (INR_pos (S N) ltac:(lia)).
    replace (INR (S N) * ((2 * INR (S N - 1 - i) + 1) * PI / (2 * INR (S N)))) with (PI / 2 + INR (S N - 1 - i) * PI) by (field; lra).
    rewrite cos_plus, cos_PI2, TrigSums.sin_INR_PI. ring.
  - destruct (prod_monic (S N) z) as (w & Lw & Tw & Ew).
    assert (Ec : c = 2 ^ N).
    { rewrite <- Tb. rewrite (lead_eq (S N) b (map (Rmult c) w)); [rewrite nth_scal, Tw; ring|auto|rewrite map_length; auto|].
      intro y. rewrite Hc, peval_map, <- Ew. reflexivity. }
    assert (P2 : 0 < 2 ^ N) by (apply pow_lt; lra).
    assert (B : Rabs (peval b x) <= 1).
    { rewrite <- (cos_acos x) by lra. rewrite Eb. apply Rabs_le. split; [pose proof (COS_bound (INR (S N) * acos x)); lra|apply COS_bound]. }
    rewrite Hc, Ec, Rabs_mult, (Rabs_pos_eq (2 ^ N)) in B by lra.
    replace (2 / 2 ^ S N) with (/ 2 ^ N) by (simpl; field; lra). fold z.
    apply Rmult_le_reg_l with (2 ^ N); auto. rewrite Rinv_r by lra. exact B.
Qed.

(** The same on any interval. *)
Lemma prod_affine : forall N z al be x, prod N (fun i => al + be * z i) (al + be * x) = be ^ N * prod N z x.
Proof. induction N as [|N IH]; intros z al be x; simpl; [ring|]. rewrite IH. ring. Qed.

Theorem cheb_approx : forall N F M al be, (1 <= N)%nat -> 0 < be -> smooth (al - be) (al + be) N F M ->
  exists p, (length p <= N)%nat /\ within (al - be) (al + be) (2 * M * be ^ N / (2 ^ N * INR (fact N))) (F 0%nat) (peval p).
Proof.
  intros N F M al be HN Hb S. set (y := fun i => cos (th1 N i)). set (z := fun i => al + be * y i).
  assert (I : forall i j, (i < j < N)%nat -> z i < z j).
  { intros i j H. unfold z. apply Rplus_lt_compat_l, Rmult_lt_compat_l; auto.
    apply cos_decreasing_1; try apply th1_decr; auto.
    all: try (pose proof (th1_range N i ltac:(lia)); lra); pose proof (th1_range N j ltac:(lia)); lra. }
  assert (Hz : forall i, (i < N)%nat -> al - be <= z i <= al + be).
  { intros i Hi. unfold z, y. pose proof (COS_bound (th1 N i)). nra. }
  destruct (interp_exists N z (F 0%nat)) as (p & L & E); [intros i j H; apply Rlt_not_eq, I; auto|].
  exists p. split; auto. intros x Hx.
  eapply Rle_trans; [apply (interp_error N F M (al - be) (al + be) z p x); auto|].
  pose proof (INR_fact_lt_0 N) as FP. assert (M0 : 0 <= M) by (eapply Rle_trans; [apply Rabs_pos|apply (proj2 S x Hx)]).
  replace x with (al + be * ((x - al) / be)) by (field; lra). unfold z. rewrite prod_affine, Rabs_mult.
  rewrite (Rabs_pos_eq (be ^ N)) by (apply pow_le; lra).
  assert (B : Rabs (prod N y ((x - al) / be)) <= 2 / 2 ^ N).
  { apply cheb_prod; auto. split; apply Rmult_le_reg_r with be; auto; unfold Rdiv; rewrite Rmult_assoc, Rinv_l by lra; lra. }
  replace (2 * M * be ^ N / (2 ^ N * INR (fact N))) with (M / INR (fact N) * (be ^ N * (2 / 2 ^ N))).
  2:{ assert (2 ^ N <> 0) by (apply pow_nonzero; lra). assert (INR (fact N) <> 0) by lra. field. auto. }
  apply Rmult_le_compat_l; [apply Rmult_le_pos; auto; left; apply Rinv_0_lt_compat; auto|].
  apply Rmult_le_compat_l; auto. apply pow_le. lra.
Qed.
