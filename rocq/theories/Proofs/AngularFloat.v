(** The angular rules in binary64: decimal literals, and the quadratures built from them. *)
From Coq Require Import ZArith List Bool Reals Lra Lia Psatz.
From Flocq Require Import IEEE754.BinarySingleNaN Core.
From Verif Require Import Base.Outcome Base.Scalar Base.RScalar Base.FScalar Model.Quadrature Model.S2Tables Model.S2 Model.GridCode
  Model.GridsLL Model.GridsDelley Model.GridsAB Model.GridsWomersley Model.Grids Spec.RuleSpec Spec.QuadSpec Spec.FloatSpec Spec.LibmSpec Spec.GridFloatSpec
  Proofs.Sizes Proofs.AngularFacts Proofs.GridShape Proofs.GridRun Proofs.GridFiles Proofs.GridExact Proofs.PiBounds
  Proofs.FloatOps Proofs.FloatSphere Proofs.FloatErr Proofs.RadialFloat Proofs.LitFloat.
Import ListNotations.
Local Open Scope R_scope.

(** Zero, or of moderate size. *)
Definition lim (v : R) (a b : nat) : Prop := v = 0 \/ pw (Rabs v) a b.
(** A stored number with relative error e and the number itself. *)
Definition lrel (e : R) (a b : nat) (x : F64) (v : R) : Prop := rel x v e /\ lim v a b.

Lemma rel_zero : forall x v e, rel x v e -> v = 0 -> B2R x = 0.
Proof. intros x v e (_ & d & _ & E) ->. rewrite E. ring. Qed.
Lemma zero_rel : forall x e, is_finite x = true -> B2R x = 0 -> 0 <= e -> rel x 0 e.
Proof. intros x e F E He. split; [exact F|]. exists 0. rewrite Rabs_R0. split; [exact He|]. rewrite E. ring. Qed.
Lemma lim_mul : forall v w a b c d, lim v a b -> lim w c d -> lim (v * w) (a + c) (b + d).
Proof.
  intros v w a b c d [->|H] K; [left; ring|]. destruct K as [->|K]; [left; ring|]. right. rewrite Rabs_mult. apply pw_mul; auto.
Qed.
Lemma lim_weak : forall v a b a' b', lim v a b -> (a <= a')%nat -> (b <= b')%nat -> lim v a' b'.
Proof. intros v a b a' b' [H|H] L1 L2; [left; exact H|right; apply (pw_weak _ a b); auto]. Qed.
Lemma pw_lim : forall v a b, pw v a b -> lim v a b.
Proof. intros v a b H. right. rewrite Rabs_pos_eq; [exact H|]. pose proof (pw_pos _ _ _ H). lra. Qed.

Lemma lrel_mul : forall x y v w e e' a b c d, lrel e a b x v -> lrel e' c d y w -> 0 <= e <= 1 / 1000 -> 0 <= e' <= 1 / 1000 ->
  (a + c <= 899)%nat -> (b + d <= 899)%nat ->
  lrel (e + e' + e * e' + u * (1 + e) * (1 + e')) (a + c) (b + d) (fmul x y) (v * w).
Proof.
  intros x y v w e e' a b c d (Rx & Lx) (Ry & Ly) He He' La Lb. pose proof (lim_mul _ _ _ _ _ _ Lx Ly) as L. split; [|exact L].
  pose proof u_pos as U.
  assert (E0 : 0 <= e + e' + e * e' + u * (1 + e) * (1 + e')).
  { assert (0 <= e * e') by (apply Rmult_le_pos; lra). assert (0 <= u * (1 + e) * (1 + e')) by (repeat apply Rmult_le_pos; lra). lra. }
  destruct L as [Z|P].
  - assert (B0 : B2R x * B2R y = 0).
    { destruct (Rmult_integral _ _ Z) as [H|H]; [rewrite (rel_zero _ _ _ Rx H)|rewrite (rel_zero _ _ _ Ry H)]; ring. }
    assert (F : is_finite (fmul x y) = true).
    { apply finite_mul; [apply Rx|apply Ry|]. rewrite B0, Rabs_R0. apply pow_le. lra. }
    rewrite Z. apply zero_rel; auto. destruct (fmul_R _ _ F) as (_ & _ & ->). rewrite B0. apply rnd_0.
  - destruct (pw_ok _ _ _ P ltac:(lia) ltac:(lia)) as (T & B). unfold tiny_ok in T. rewrite Rabs_Rabsolu in T, B.
    apply rel_fmul; auto; lra.
Qed.
Lemma lrel_weak : forall x v e e' a b a' b', lrel e a b x v -> e <= e' -> (a <= a')%nat -> (b <= b')%nat -> lrel e' a' b' x v.
Proof. intros x v e e' a b a' b' (H & L) He L1 L2. split; [eapply rel_weak; eauto|eapply lim_weak; eauto]. Qed.

(** Adding the zero of the centre changes nothing. *)
Lemma add_zero : forall x v e, rel x v e -> rel (fadd x (f_of 0 0)) v e.
Proof.
  intros x v e (F & d & Hd & E). destruct (f_of_small 0 ltac:(lia)) as (F0 & E0).
  assert (S : B2R x + B2R (f_of 0 0) = B2R x) by (rewrite E0; ring).
  pose proof (Bplus_correct 53 1024 Hprec Hmax mode_NE x (f_of 0 0) F F0) as C. rewrite S in C.
  change (round radix2 (SpecFloat.fexp 53 1024) (round_mode mode_NE) (B2R x)) with (rnd (B2R x)) in C. rewrite rnd_B2R in C.
  rewrite Rlt_bool_true in C by apply abs_B2R_lt_emax. destruct C as (C1 & C2 & _).
  split; [exact C2|]. exists d. split; [exact Hd|]. rewrite <- E. exact C1.
Qed.

(** ** Literals *)
Definition lit_ok (d : lit) : bool := (0 <=? snd d)%Z && (snd d <=? 40)%Z && (Z.abs (fst d) <? 2 ^ 100)%Z.

Lemma dec_rel : forall k e, (0 < k)%Z -> (0 <= e <= 40)%Z -> (k < 2 ^ 100)%Z ->
  rel (f_dec k e) (IZR k / IZR (10 ^ e)) u /\ pw (IZR k / IZR (10 ^ e)) 140 100.
Proof.
  intros k e Hk He Hb. assert (T : (0 < 10 ^ e)%Z) by (apply Z.pow_pos_nonneg; lia).
  assert (T' : (10 ^ e <= 10 ^ 40)%Z) by (apply Z.pow_le_mono_r; lia).
  assert (PT : pw (IZR (10 ^ e)) 0 140).
  { split; [simpl; rewrite Rinv_1; apply (IZR_le 1); lia|]. rewrite pow_IZR. apply IZR_le. eapply Z.le_trans; [exact T'|]. vm_compute. discriminate. }
  assert (PK : pw (IZR k) 0 100).
  { split; [simpl; rewrite Rinv_1; apply (IZR_le 1); lia|]. rewrite pow_IZR. apply IZR_le. change (Z.of_nat 100) with 100%Z. lia. }
  pose proof (pw_div _ _ _ _ _ _ PK PT) as P. cbn [Nat.add] in P. split; [|exact P].
  destruct (f_dec_pos k e Hk ltac:(lia)) as (F & E).
  { destruct P as (_ & P2). eapply Rle_trans; [exact P2|]. apply Rle_pow; [lra|lia]. }
  split; [exact F|]. rewrite E. apply rel_mul. left. pose proof (pw_pos _ _ _ P) as P0. rewrite Rabs_pos_eq by lra.
  eapply Rle_trans; [|apply P]. replace (2 ^ 140) with (bpow radix2 140); [rewrite <- bpow_opp; apply bpow_le; lia|].
  change (bpow radix2 140) with (IZR (2 ^ 140)). rewrite pow_IZR. reflexivity.
Qed.
Lemma lit_rel : forall m d, lit_ok d = true -> lrel u 140 100 (@lit_val (FS m) d : F64) (@lit_val RS d : R).
Proof.
  intros m [k e] H. unfold lit_ok in H. cbn [fst snd] in H. apply andb_prop in H. destruct H as (H & H3). apply andb_prop in H. destruct H as (H1 & H2).
  apply Z.leb_le in H1, H2. apply Z.ltb_lt in H3. unfold lit_val. cbn [fst snd]. destruct (Z.ltb_spec k 0) as [K|K].
  - destruct (dec_rel (- k) e ltac:(lia) ltac:(lia) ltac:(lia)) as ((F & dl & Hd & E) & P).
    change (@sopp RS (@sdec RS (- k) e)) with (- (IZR (- k) / IZR (10 ^ e))). change (@sopp (FS m) (@sdec (FS m) (- k) e)) with (Bopp (f_dec (- k) e)).
    split; [|right; rewrite Rabs_Ropp, Rabs_pos_eq; [exact P|pose proof (pw_pos _ _ _ P); lra]].
    split; [rewrite is_finite_Bopp; exact F|]. exists dl. split; [exact Hd|]. rewrite B2R_Bopp, E. ring.
  - change (@sdec RS k e) with (IZR k / IZR (10 ^ e)). change (@sdec (FS m) k e) with (f_dec k e). destruct (Z.eq_dec k 0) as [->|N].
    + destruct (f_dec_zero e) as (F & E). unfold Rdiv. rewrite Rmult_0_l. split; [|left; reflexivity]. apply zero_rel; auto. apply Rlt_le, u_pos.
    + destruct (dec_rel k e ltac:(lia) ltac:(lia) ltac:(lia)) as (Q & P). split; [exact Q|apply pw_lim; exact P].
Qed.

(** ** The literals of the files *)
Definition block_lits (b : block) : list lit :=
  match b with
  | LL6 a | LL8 a | LL12 a | DE6 a | DE8 a | DE12 a => [a]
  | LL24 a b | LL24o a b | DE24 a b | DE24o a b | AB12 a b => [a; b]
  | LL48 a b c | DE48 a b c => [a; b; c]
  | AB60 x1 y1 z1 x2 y2 z2 x3 y3 z3 x4 y4 z4 x5 y5 z5 => [x1; y1; z1; x2; y2; z2; x3; y3; z3; x4; y4; z4; x5; y5; z5]
  end.
Definition coded_lits (g : coded) : bool := forallb (fun bw => forallb lit_ok (block_lits (fst bw)) && lit_ok (snd bw)) g.
Definition lit3_ok (p : lit3) : bool := let '(x, y, z) := p in lit_ok x && lit_ok y && lit_ok z.

Lemma lneg_ok : forall d, lit_ok d = true -> lit_ok (lneg d) = true.
Proof. intros d H. unfold lit_ok, lneg in *. cbn [fst snd]. rewrite Z.abs_opp. exact H. Qed.
Lemma lit3_intro : forall x y z, lit_ok x = true -> lit_ok y = true -> lit_ok z = true -> lit3_ok (x, y, z) = true.
Proof. intros x y z H1 H2 H3. unfold lit3_ok. rewrite H1, H2, H3. reflexivity. Qed.
Lemma block_ok : forall b, forallb lit_ok (block_lits b) = true -> Forall (fun p => lit3_ok p = true) (block_points b).
Proof.
  intros b H. assert (O : lit_ok o = true) by reflexivity.
  destruct b; cbn [block_lits forallb] in H;
  repeat match goal with H : _ && _ = true |- _ => apply andb_prop in H; destruct H end;
  cbv [block_points ll6 ll8 ll12 ll24 ll24o ll48 de6 de8 de12 de24 de24o de48 ab12 ab60];
  repeat (apply Forall_cons; [apply lit3_intro; auto using lneg_ok|]); apply Forall_nil.
Qed.
Lemma coded_ok : forall g, coded_lits g = true ->
  Forall (fun p => lit3_ok p = true) (coded_points g) /\ Forall (fun d => lit_ok d = true) (coded_weights g).
Proof.
  induction g as [|[b w] g IH]; cbn [coded_lits forallb]; intro H; [split; constructor|].
  apply andb_prop in H. destruct H as (H & H'). apply andb_prop in H. destruct H as (H1 & H2). cbn [fst snd] in *. destruct (IH H') as (I1 & I2).
  unfold coded_points, coded_weights. cbn [flat_map fst snd]. split; apply Forall_app; split; auto; [apply block_ok; auto|].
  apply Forall_forall. intros d Hd. apply in_map_iff in Hd. destruct Hd as (_ & <- & _). exact H2.
Qed.
Lemma by_suffix_in : forall A n (l : list (Z * A)) a (P : A -> bool), by_suffix n l = Some a -> forallb (fun p => P (snd p)) l = true -> P a = true.
Proof.
  intros A n l a P. induction l as [|[k b] l IH]; cbn [by_suffix forallb]; [discriminate|]. intros H F. apply andb_prop in F. destruct F as (F1 & F2).
  destruct (Z.eqb k n); [injection H as <-; exact F1|auto].
Qed.
Lemma ll_lits : forallb (fun p => coded_lits (snd p)) ll_grids = true. Proof. vm_compute. reflexivity. Qed.
Lemma de_lits : forallb (fun p => coded_lits (snd p)) de_grids = true. Proof. vm_compute. reflexivity. Qed.
Lemma ab_lits : forallb (fun p => coded_lits (snd p)) ab_grids = true. Proof. vm_compute. reflexivity. Qed.
Lemma wo_lits : forallb (fun p => forallb lit3_ok (snd p)) wo_grids = true. Proof. vm_compute. reflexivity. Qed.

(** ** The quadratures *)
Definition ptrel (e : R) (p : F64 * F64 * F64) (v : R * R * R) : Prop :=
  lrel e 140 100 (px p) (px v) /\ lrel e 140 100 (py p) (py v) /\ lrel e 140 100 (pz p) (pz v).
Definition angrel (af : quad (F64 * F64 * F64) F64) (a : quad (R * R * R) R) : Prop :=
  Forall2 (ptrel u) (qpoints af) (qpoints a) /\ Forall2 (lrel (4.1 * u) 140 104) (qweights af) (qweights a).

Lemma Forall2_map2 : forall A B C (P : B -> C -> Prop) (f : A -> B) (g : A -> C) l, (forall x, In x l -> P (f x) (g x)) -> Forall2 P (map f l) (map g l).
Proof. intros A B C P f g l. induction l as [|x l IH]; cbn [map]; intro H; constructor; [apply H; left; reflexivity|apply IH; intros; apply H; right; auto]. Qed.
Lemma Forall2_repeat : forall A B (P : A -> B -> Prop) x y n, P x y -> Forall2 P (repeat x n) (repeat y n).
Proof. intros A B P x y n H. induction n; cbn [repeat]; constructor; auto. Qed.

Lemma F2_eq : forall A B (P : A -> B -> Prop) l l' k k', l = k -> l' = k' -> Forall2 P k k' -> Forall2 P l l'.
Proof. intros A B P l l' k k' -> ->. auto. Qed.

Lemma pt_rel : forall m p, lit3_ok p = true -> ptrel u (@lit3_val (FS m) p : F64 * F64 * F64) (@lit3_val RS p : R * R * R).
Proof.
  intros m [[x y] z] H. unfold lit3_ok in H. apply andb_prop in H. destruct H as (H & H3). apply andb_prop in H. destruct H as (H1 & H2).
  split; [|split]; apply lit_rel; auto.
Qed.

Lemma four_pi : lrel (2.01 * u) 0 4 (fmul (f_of 4 0) fpi) (4 * PI).
Proof.
  pose proof pi_coarse as P. pose proof u_pos as U. pose proof u_small as U1.
  assert (L4 : lim 4 0 2) by (apply pw_lim; split; simpl; lra). assert (LP : lim PI 0 2) by (apply pw_lim; split; simpl; lra).
  eapply lrel_weak; [apply (lrel_mul (f_of 4 0) fpi 4 PI 0 u 0 2 0 2)|nra|lia|lia]; try lia; try lra.
  - split; [apply (int_rel 4); lia|exact L4].
  - split; [exact fpi_rel|exact LP].
Qed.
Lemma wt_rel : forall m f d, lit_ok d = true ->
  lrel (4.1 * u) 140 104 ((if match f with LebedevLaikov | Delley => true | _ => false end
      then @smul (FS m) (@lit_val (FS m) d) (smul (sofZ 4) spi) else @lit_val (FS m) d) : F64)
    ((if match f with LebedevLaikov | Delley => true | _ => false end then @smul RS (@lit_val RS d) (smul (sofZ 4) spi) else @lit_val RS d) : R).
Proof.
  intros m f d H. pose proof (lit_rel m d H) as L. pose proof u_pos as U. pose proof u_small as U1.
  assert (A : lrel (4.1 * u) 140 104 (@lit_val (FS m) d : F64) (@lit_val RS d : R)) by (eapply lrel_weak; [exact L|lra|lia|lia]).
  assert (B : lrel (4.1 * u) 140 104 (@smul (FS m) (lit_val d) (smul (sofZ 4) spi)) (@smul RS (lit_val d) (smul (sofZ 4) spi))).
  { change (@smul RS (lit_val d) (smul (sofZ 4) spi)) with ((@lit_val RS d : R) * (4 * PI)).
    change (@smul (FS m) (lit_val d) (smul (sofZ 4) spi)) with (fmul (@lit_val (FS m) d : F64) (fmul (f_of 4 0) fpi)).
    eapply lrel_weak; [apply (lrel_mul _ _ _ _ _ _ _ _ _ _ L four_pi)|nra|lia|lia]; try lia; lra. }
  destruct f; auto.
Qed.
Lemma wo_wt : forall m n, (0 < n <= 513)%Z ->
  lrel (4.1 * u) 140 104 (@sdiv (FS m) (smul (sofZ 4) spi) (sofZ n) : F64) (@sdiv RS (smul (sofZ 4) spi) (sofZ n) : R).
Proof.
  intros m n Hn. pose proof u_pos as U. pose proof u_small as U1.
  change (@sdiv RS (smul (sofZ 4) spi) (sofZ n)) with (4 * PI / IZR n).
  change (@sdiv (FS m) (smul (sofZ 4) spi) (sofZ n)) with (fdiv (fmul (f_of 4 0) fpi) (f_of n 0)).
  pose proof pi_coarse as P. assert (N : 1 <= IZR n <= 513) by (split; apply IZR_le; lia).
  assert (W : pw (4 * PI / IZR n) 10 4).
  { assert (I : / 513 <= / IZR n <= 1) by (split; [apply Rinv_le_contravar; lra|]; rewrite <- Rinv_1; apply Rinv_le_contravar; lra).
    unfold Rdiv. split; [apply Rle_trans with (1 * / 513); [lra|apply Rmult_le_compat; lra]|].
    apply Rle_trans with (4 * PI * 1); [apply Rmult_le_compat_l; lra|simpl; lra]. }
  destruct (pw_ok _ _ _ W ltac:(lia) ltac:(lia)) as (T & B). destruct four_pi as (Q & _). destruct (int_rel n ltac:(lia)) as (F & E).
  apply lrel_weak with (e := 4.1 * u) (a := 10%nat) (b := 4%nat); [|lra|lia|lia]. split; [|apply pw_lim; exact W].
  eapply rel_weak; [apply (rel_fdiv _ _ _ _ _ 0 Q (conj F E)); auto; lra|lra].
Qed.

Lemma coded_angrel : forall m f dbg n g, algebraic_order_by_npts f (Z.of_nat n) <> (-1)%Z -> csize g = Z.of_nat n -> coded_lits g = true ->
  @repo_grids (FS m) f (Z.of_nat n) = coded_grid g -> @repo_grids RS f (Z.of_nat n) = coded_grid g ->
  exists af a, construct dbg (s2_generate (@repo_grids (FS m)) f n) = Ok af /\ construct dbg (s2_generate (@repo_grids RS) f n) = Ok a /\
    sized n af /\ sized n a /\ angrel af a.
Proof.
  intros m f dbg n g H Hs Hl E1 E2.
  assert (L1 : length (coded_points g) = n) by (apply Nat2Z.inj; rewrite csize_points; exact Hs).
  assert (L2 : length (coded_weights g) = n) by (rewrite coded_lengths; exact L1). destruct (coded_ok g Hl) as (O1 & O2).
  destruct (angular_supported (FS m) dbg repo_grids f n H) as (af & A1 & A2 & A3 & A4).
  { rewrite E1. cbn [coded_grid fst]. rewrite map_length. exact L1. }
  { rewrite E1. cbn [coded_grid snd]. rewrite map_length. exact L2. }
  destruct (angular_supported RS dbg repo_grids f n H) as (a & B1 & B2 & B3 & B4).
  { rewrite E2. cbn [coded_grid fst]. rewrite map_length. exact L1. }
  { rewrite E2. cbn [coded_grid snd]. rewrite map_length. exact L2. }
  exists af, a. split; [exact A1|]. split; [exact B1|]. split; [exact A2|]. split; [exact B2|]. split.
  - apply (F2_eq _ _ _ _ _ _ _ A3 B3). rewrite E1, E2. cbn [coded_grid fst]. apply Forall2_map2. intros p Hp. apply pt_rel. rewrite List.Forall_forall in O1. auto.
  - apply (F2_eq _ _ _ _ _ _ _ A4 B4). rewrite E1, E2. cbn [coded_grid snd]. rewrite !map_map. apply Forall2_map2. intros d Hd. apply wt_rel. rewrite List.Forall_forall in O2. auto.
Qed.
Lemma angular_rel : forall m f dbg n, transcribed f n -> exists af a,
  construct dbg (s2_generate (@repo_grids (FS m)) f n) = Ok af /\ construct dbg (s2_generate (@repo_grids RS) f n) = Ok a /\
  sized n af /\ sized n a /\ angrel af a.
Proof.
  intros m f dbg n Ht. destruct (Z.eq_dec (algebraic_order_by_npts f (Z.of_nat n)) (-1)) as [U|H].
  - destruct (angular_unsupported (FS m) dbg repo_grids f n U) as (af & A1 & A2 & A3 & A4).
    destruct (angular_unsupported RS dbg repo_grids f n U) as (a & B1 & B2 & B3 & B4).
    exists af, a. split; [exact A1|]. split; [exact B1|]. split; [exact A2|]. split; [exact B2|].
    pose proof u_pos as U0. destruct (f_of_small 0 ltac:(lia)) as (F0 & E0).
    assert (Z0 : forall e a b, 0 <= e -> lrel e a b (f_of 0 0) 0) by (intros e a0 b He; split; [apply zero_rel; auto|left; reflexivity]).
    assert (G : forall (l : list (F64 * F64 * F64)) (l' : list (R * R * R)), length l = length l' -> List.Forall (fun p => p = @pt3_0 (FS m)) l ->
        List.Forall (fun p => p = @pt3_0 RS) l' -> Forall2 (ptrel u) l l').
    { induction l as [|p l IH]; intros [|p' l'] L F F'; try discriminate; constructor.
      - inversion F; inversion F'; subst. split; [|split]; apply Z0; lra.
      - inversion F; inversion F'; subst. apply IH; auto. }
    assert (G' : forall (l : list F64) (l' : list R), length l = length l' ->
        List.Forall (fun w => w = @s0 (FS m) \/ w = @smul (FS m) s0 (smul (sofZ 4) spi)) l ->
        List.Forall (fun w => w = @s0 RS \/ w = @smul RS s0 (smul (sofZ 4) spi)) l' -> Forall2 (lrel (4.1 * u) 140 104) l l').
    { assert (P : lrel (4.1 * u) 140 104 (@smul (FS m) s0 (smul (sofZ 4) spi)) 0).
      { pose proof u_small. pose proof (lrel_mul (f_of 0 0) (fmul (f_of 4 0) fpi) 0 (4 * PI) 0 (2.01 * u) 0 0 0 4
          (Z0 0 0%nat 0%nat (Rle_refl 0)) four_pi ltac:(lra) ltac:(lra) ltac:(lia) ltac:(lia)) as K.
        rewrite (Rmult_0_l (4 * PI)) in K. eapply lrel_weak; [exact K|nra|lia|lia]. }
      assert (Q : forall x y, (x = @s0 (FS m) \/ x = @smul (FS m) s0 (smul (sofZ 4) spi)) -> (y = @s0 RS \/ y = @smul RS s0 (smul (sofZ 4) spi)) -> lrel (4.1 * u) 140 104 (x : F64) (y : R)).
      { intros x y Hx Hy. assert (Ey : (y : R) = 0).
        { destruct Hy as [-> | ->]; [reflexivity|]. change (0 * (4 * PI) = 0). ring. }
        rewrite Ey. destruct Hx as [-> | ->]; [apply Z0; lra|exact P]. }
      induction l as [|p l IH]; intros [|p' l'] L F F'; try discriminate; constructor; inversion F; inversion F'; subst; auto. }
    destruct A2 as (_ & LA1 & LA2 & _). destruct B2 as (_ & LB1 & LB2 & _).
    split; [apply G; [exact (eq_trans LA1 (eq_sym LB1))|exact A3|exact B3]|apply G'; [exact (eq_trans LA2 (eq_sym LB2))|exact A4|exact B4]].
  - destruct f.
    + destruct (table_all _ (fun n g => shape_ok n (ab_pos n) g = true) _ _ ab_files (Z.of_nat n) H) as (g & G1 & G3).
      destruct (shape_parts _ _ _ G3) as (S1 & _). apply (coded_angrel m AhrensBeylkin dbg n g H S1); [exact (by_suffix_in _ _ _ _ coded_lits G1 ab_lits)| |apply repo_ab; exact G1].
      unfold repo_grids. rewrite G1. reflexivity.
    + destruct (table_all _ (fun n g => oct_ok Delley n g /\ shape_ok n true g = true) _ _ de_files (Z.of_nat n) H) as (g & G1 & _ & G3).
      destruct (shape_parts _ _ _ G3) as (S1 & _). apply (coded_angrel m Delley dbg n g H S1); [exact (by_suffix_in _ _ _ _ coded_lits G1 de_lits)| |apply repo_de; exact G1].
      unfold repo_grids. rewrite G1. reflexivity.
    + destruct (table_all _ (fun n g => oct_ok LebedevLaikov n g /\ shape_ok n (ll_pos n) g = true) _ _ ll_files (Z.of_nat n) H) as (g & G1 & _ & G3).
      destruct (shape_parts _ _ _ G3) as (S1 & _). apply (coded_angrel m LebedevLaikov dbg n g H S1); [exact (by_suffix_in _ _ _ _ coded_lits G1 ll_lits)| |apply repo_ll; exact G1].
      unfold repo_grids. rewrite G1. reflexivity.
    + assert (Hn : (Z.of_nat n <= 513)%Z) by (specialize (Ht eq_refl); lia).
      destruct (table_some _ wo_here (fun n ps => plain_shape n ps = true) _ _ wo_files (Z.of_nat n) H) as (ps & G1 & G2); [apply Z.leb_le; exact Hn|].
      unfold plain_shape in G2. apply andb_prop in G2. destruct G2 as (L & _). apply Z.eqb_eq, Nat2Z.inj in L.
      pose proof (by_suffix_in _ _ _ _ (forallb lit3_ok) G1 wo_lits) as O. rewrite forallb_forall in O.
      assert (EF : @repo_grids (FS m) Womersley (Z.of_nat n) = womersley_grid (Z.of_nat n) ps) by (unfold repo_grids; rewrite G1; reflexivity).
      assert (ER : @repo_grids RS Womersley (Z.of_nat n) = womersley_grid (Z.of_nat n) ps) by (apply repo_wo; exact G1).
      destruct (angular_supported (FS m) dbg repo_grids Womersley n H) as (af & A1 & A2 & A3 & A4).
      { rewrite EF. cbn [womersley_grid fst]. rewrite map_length. exact L. }
      { rewrite EF. cbn [womersley_grid snd]. rewrite repeat_length, Nat2Z.id. reflexivity. }
      destruct (angular_supported RS dbg repo_grids Womersley n H) as (a & B1 & B2 & B3 & B4).
      { rewrite ER. cbn [womersley_grid fst]. rewrite map_length. exact L. }
      { rewrite ER. cbn [womersley_grid snd]. rewrite repeat_length, Nat2Z.id. reflexivity. }
      exists af, a. split; [exact A1|]. split; [exact B1|]. split; [exact A2|]. split; [exact B2|]. split.
      * apply (F2_eq _ _ _ _ _ _ _ A3 B3). rewrite EF, ER. cbn [womersley_grid fst]. apply Forall2_map2. intros p Hp. apply pt_rel. auto.
      * apply (F2_eq _ _ _ _ _ _ _ A4 B4). rewrite EF, ER. cbn [womersley_grid snd]. rewrite !map_id.
        destruct (Nat.eq_dec n 0) as [->|N0]; [constructor|]. apply Forall2_repeat. apply wo_wt. lia.
Qed.
