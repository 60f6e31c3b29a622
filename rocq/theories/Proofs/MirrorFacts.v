(** Mirror symmetry of the rules, for any scalar type with an involutive negation, and
    exact cancellation in binary64. *)
From Coq Require Import List Bool Arith ZArith Lia Reals Lra.
From Flocq Require Import IEEE754.BinarySingleNaN Core.
From Verif Require Import Base.Outcome Base.OutcomeFacts Base.Scalar Base.FScalar
  Model.Primitive Spec.RuleSpec Proofs.Tab Proofs.PrimitiveFacts.
Import ListNotations.

Lemma half_sum : forall n i j, i < j -> i + j + 1 = n -> (i < n / 2 <= j) /\ n - n / 2 <= j.
Proof.
  intros n i j Hij Hn.
  destruct (Nat.odd n) eqn:Ho; [pose proof (odd_half n Ho)|pose proof (even_half n Ho)]; lia.
Qed.

Section Any.
Context {S : Scalar}.
Hypothesis opp_opp : forall x : S, sopp (sopp x) = x.

Lemma mirrored_tab : forall n (p w : nat -> S),
  (forall i j, i < j -> i + j + 1 = n -> (p j = sopp (p i) \/ p i = sopp (p j)) /\ w j = w i) ->
  mirrored (tab n p, tab n w).
Proof.
  intros n p w H. split; cbn [fst snd]; [rewrite !tab_length; auto|].
  intros i j x y v u Hij Hn Hx Hy Hv Hu. rewrite tab_length in Hn.
  rewrite nth_error_tab in Hx, Hy, Hv, Hu by lia.
  injection Hx as <-; injection Hy as <-; injection Hv as <-; injection Hu as <-.
  destruct (H i j Hij Hn) as [[E|E] Ew]; repeat split; auto; rewrite E, opp_opp; auto.
Qed.

Lemma mirror_low : forall n p q m i j, i < j -> i + j + 1 = n -> @mirror S n p q m i = p i.
Proof.
  intros n p q m i j Hij Hn. destruct (half_sum n i j Hij Hn). unfold mirror.
  destruct (Nat.ltb_spec i (n / 2)); auto; lia.
Qed.

Lemma mirror_high : forall n p q m i j, i < j -> i + j + 1 = n -> @mirror S n p q m j = q i.
Proof.
  intros n p q m i j Hij Hn. destruct (half_sum n i j Hij Hn). unfold mirror.
  pose proof (half_le n).
  destruct (Nat.ltb_spec j (n / 2)); [lia|]. destruct (Nat.leb_spec (n - n / 2) j); [|lia].
  f_equal; lia.
Qed.

Lemma mirrored_mirror : forall n (x w : nat -> S) mx mw,
  mirrored (tab n (mirror n x (fun i => sopp (x i)) mx), tab n (mirror n w w mw)).
Proof.
  intros n x w mx mw. apply mirrored_tab. intros i j Hij Hn.
  rewrite !(mirror_low n _ _ _ i j), !(mirror_high n _ _ _ i j) by auto. auto.
Qed.

Lemma gl_mirrored : forall n q, @gl_generate S n = Ok q -> mirrored q.
Proof.
  intros n q H. destruct (@gl_choice S n) as [[r Hr]|(idx & Hi & Hn)].
  - rewrite (gl_generate_Ok n r Hr) in H. injection H as <-.
    apply mirrored_tab. intros i j Hij Hn. destruct (half_sum n i j Hij Hn).
    pose proof (half_le n). unfold gl_pt, gl_wt.
    destruct (Nat.leb_spec (n / 2) i); [lia|]. destruct (Nat.leb_spec (n / 2) j); [|lia].
    replace (n - 1 - j) with i by lia. auto.
  - rewrite (gl_generate_Throw n idx Hi Hn) in H. discriminate.
Qed.

Lemma lob_small : forall n q, @lob_generate S n = Ok q -> n < 2 -> n = 1 /\ mirrored q.
Proof.
  intros n q H Hn. destruct n as [|[|]]; [|split; auto|lia].
  - unfold lob_generate in H. cbn in H. discriminate.
  - unfold lob_generate in H. cbn in H. injection H as <-. split; auto. cbn [fst snd length].
    intros i j x y v w Hij Hs. lia.
Qed.

Lemma lob_mirrored : forall n q, @lob_generate S n = Ok q -> mirrored q.
Proof.
  intros n q H. destruct (le_lt_dec 2 n) as [Hn2|Hn2]; [|apply (lob_small n q H Hn2)].
  destruct (@lob_choice S n) as [[r Hr]|(idx & Hi & Hn)].
  - rewrite (lob_generate_Ok n r Hn2 Hr) in H. injection H as <-.
    apply mirrored_tab. intros i j Hij Hn. destruct (half_sum n i j Hij Hn).
    pose proof (half_le n). unfold lob_pt, lob_wt.
    assert (Hm : Nat.odd n && Nat.eqb i (n / 2) = false).
    { rewrite andb_false_iff. right. apply Nat.eqb_neq. lia. }
    assert (Hm' : Nat.odd n && Nat.eqb j (n / 2) = false).
    { destruct (Nat.odd n) eqn:Ho; auto. apply Nat.eqb_neq. pose proof (odd_half n Ho). lia. }
    rewrite Hm, Hm'.
    destruct (Nat.eqb_spec i (n - 1)); [lia|]. destruct (Nat.eqb_spec j 0); [lia|].
    destruct (Nat.eqb_spec j (n - 1)), (Nat.eqb_spec i 0); try lia; cbn [orb].
    + split; auto.
    + destruct (Nat.ltb_spec i (n / 2)); [|lia]. destruct (Nat.ltb_spec j (n / 2)); [lia|].
      destruct (Nat.leb_spec (n / 2) i); [lia|]. destruct (Nat.leb_spec (n / 2) j); [|lia].
      replace (n - 1 - j) with i by lia. auto.
  - rewrite (lob_generate_Throw n idx Hi Hn) in H. discriminate.
Qed.

Lemma all_mirrored : forall gen n q,
  In gen [@gc1_generate S; gc2_generate; gc2m_generate; gl_generate; lob_generate] ->
  gen n = Ok q -> mirrored q.
Proof.
  intros gen n q Hin H.
  destruct Hin as [<-|[<-|[<-|[<-|[<-|[]]]]]].
  - rewrite gc1_closed in H. injection H as <-. apply mirrored_mirror.
  - rewrite gc2_closed in H. injection H as <-. apply mirrored_mirror.
  - rewrite gc2m_closed in H. injection H as <-. apply mirrored_mirror.
  - apply (gl_mirrored n q H).
  - apply (lob_mirrored n q H).
Qed.
End Any.

Section Middle.
Context {S : Scalar}.

Lemma mirror_middle : forall n k (p q : nat -> S) m, n = 2 * k + 1 -> mirror n p q m k = m.
Proof.
  intros n k p q m Hn.
  assert (E : n / 2 = k).
  { assert (Ho : Nat.odd n = true) by (apply Nat.odd_spec; exists k; auto).
    pose proof (odd_half n Ho). lia. }
  unfold mirror. rewrite E. destruct (Nat.ltb_spec k k); [lia|].
  destruct (Nat.leb_spec (n - k) k); [lia|auto].
Qed.

Lemma middle_tab : forall n (p w : nat -> S) x m,
  (forall k, n = 2 * k + 1 -> p k = m) -> middle_node (tab n p, tab n w) x -> x = m.
Proof.
  intros n p w x m H (k & Hk & Hx). cbn [fst] in *. rewrite tab_length in Hk.
  rewrite nth_error_tab in Hx by lia. injection Hx as <-. auto.
Qed.

Lemma middles : forall gen n q x,
  In gen [@gc1_generate S; gc2_generate; gc2m_generate; lob_generate] ->
  gen n = Ok q -> middle_node q x -> x = s0.
Proof.
  intros gen n q x Hin H Hm.
  destruct Hin as [<-|[<-|[<-|[<-|[]]]]].
  - rewrite gc1_closed in H. injection H as <-. eapply middle_tab; [|exact Hm].
    intros k Hk. apply mirror_middle; auto.
  - rewrite gc2_closed in H. injection H as <-. eapply middle_tab; [|exact Hm].
    intros k Hk. apply mirror_middle; auto.
  - rewrite gc2m_closed in H. injection H as <-. eapply middle_tab; [|exact Hm].
    intros k Hk. apply mirror_middle; auto.
  - destruct (le_lt_dec 2 n) as [Hn2|Hn2].
    + destruct (@lob_choice S n) as [[r Hr]|(idx & Hi & Hn)].
      * rewrite (lob_generate_Ok n r Hn2 Hr) in H. injection H as <-.
        eapply middle_tab; [|exact Hm]. intros k Hk. unfold lob_pt.
        assert (Ho : Nat.odd n = true) by (apply Nat.odd_spec; exists k; auto).
        pose proof (odd_half n Ho). rewrite Ho.
        destruct (Nat.eqb_spec k (n - 1)); [lia|]. destruct (Nat.eqb_spec k 0); [lia|].
        destruct (Nat.eqb_spec k (n / 2)); [auto|lia].
      * rewrite (lob_generate_Throw n idx Hi Hn) in H. discriminate.
    + destruct n as [|[|]]; [| |lia].
      * unfold lob_generate in H. cbn in H. discriminate.
      * unfold lob_generate in H. cbn in H. injection H as <-.
        destruct Hm as (k & Hk & Hx). cbn [fst length] in *.
        assert (k = 0) by lia. subst k. cbn in Hx. injection Hx as <-. auto.
Qed.
End Middle.

(** binary64 *)
Local Notation bmul := (@Bmult 53 1024 Hprec Hmax mode_NE).

Lemma fmul_opp : forall x y : F64, is_finite (fmul x y) = true ->
  fmul x (Bopp y) = Bopp (fmul x y).
Proof.
  intros x y H. unfold fmul in *.
  assert (Fx : is_finite x = true /\ is_finite y = true).
  { destruct x as [|[]| |], y as [|[]| |]; try discriminate H; auto. }
  destruct Fx as [Fx Fy].
  pose proof (Bmult_correct 53 1024 Hprec Hmax mode_NE x y) as C1.
  pose proof (Bmult_correct 53 1024 Hprec Hmax mode_NE x (Bopp y)) as C2.
  assert (Er : round radix2 (SpecFloat.fexp 53 1024) (round_mode mode_NE) (B2R x * B2R (Bopp y))
     = (- round radix2 (SpecFloat.fexp 53 1024) (round_mode mode_NE) (B2R x * B2R y))%R).
  { rewrite B2R_Bopp. replace (B2R x * - B2R y)%R with (- (B2R x * B2R y))%R by ring.
    apply round_NE_opp. }
  rewrite Er, Rabs_Ropp in C2.
  destruct (Rlt_bool _ _) eqn:E.
  - destruct C1 as (R1 & F1 & S1), C2 as (R2 & F2 & S2).
    assert (N1 : is_nan (bmul x y) = false) by (destruct (bmul x y); auto; discriminate).
    rewrite is_finite_Bopp, Fx, Fy in F2. cbn in F2.
    assert (N2 : is_nan (bmul x (Bopp y)) = false)
      by (destruct (bmul x (Bopp y)); auto; discriminate).
    apply B2R_Bsign_inj; [exact F2|rewrite is_finite_Bopp; exact H| |].
    + rewrite B2R_Bopp. change (SpecFloat.fexp 53 1024) with (FLT_exp (3 - 1024 - 53) 53) in *.
      rewrite R2, R1. reflexivity.
    + rewrite S2, Bsign_Bopp, Bsign_Bopp, S1 by (auto; destruct y; auto; discriminate).
      destruct (Bsign x), (Bsign y); auto.
  - exfalso. revert C1 H. generalize (bmul x y). intros b Hb Hf.
    destruct b; try discriminate Hf; destruct (xorb _ _); discriminate Hb.
Qed.

Lemma fadd_opp : forall x : F64, is_finite x = true -> fadd x (Bopp x) = fzero.
Proof.
  intros x F. unfold fadd.
  pose proof (Bplus_correct 53 1024 Hprec Hmax mode_NE x (Bopp x) F) as C.
  rewrite is_finite_Bopp in C. specialize (C F).
  rewrite B2R_Bopp, Rplus_opp_r, round_0, Rabs_R0, Rlt_bool_true in C; auto with typeclass_instances.
  - destruct C as (R & Ff & Sg). rewrite Rcompare_Eq in Sg by auto.
    apply B2R_Bsign_inj; auto.
    rewrite Sg, Bsign_Bopp by (destruct x; auto; discriminate). destruct (Bsign x); auto.
  - apply bpow_gt_0.
Qed.

Lemma pair_cancels : forall (w x : F64) (f : F64 -> F64),
  (forall x, f (Bopp x) = Bopp (f x)) -> is_finite (fmul w (f x)) = true ->
  fadd (fmul w (f x)) (fmul w (f (Bopp x))) = fzero.
Proof. intros w x f Hf F. rewrite Hf, fmul_opp by auto. apply fadd_opp; auto. Qed.

Lemma mirrored_cancels : forall m (q : list (FS m) * list (FS m)) (f : F64 -> F64),
  mirrored q -> (forall x, f (Bopp x) = Bopp (f x)) ->
  forall i j (x y v w : F64), i < j -> i + j + 1 = length (fst q) ->
    nth_error (fst q) i = Some x -> nth_error (fst q) j = Some y ->
    nth_error (snd q) i = Some v -> nth_error (snd q) j = Some w ->
    is_finite (fmul v (f x)) = true ->
    fadd (fmul v (f x)) (fmul w (f y)) = fzero.
Proof.
  intros m q f [_ Hm] Hf i j x y v w Hij Hs Hx Hy Hv Hw Ff.
  destruct (Hm i j x y v w Hij Hs Hx Hy Hv Hw) as (Ey & _ & Ew). rewrite Ew. rewrite Ey.
  apply pair_cancels; auto.
Qed.

Lemma all_mirrored_binary64 : forall m gen n q,
  In gen [@gc1_generate (FS m); @gc2_generate (FS m); @gc2m_generate (FS m);
          @gl_generate (FS m); @lob_generate (FS m)] ->
  gen n = Ok q -> mirrored q.
Proof. intros m. apply all_mirrored. exact (@Bopp_involutive 53 1024). Qed.

(** A math library that returns what glibc returns on the seven arguments that
    Gauss-Legendre with 13 nodes passes to cos (values printed by a C program). *)
Definition cos13 (x : F64) : F64 :=
  if Beqb x (f_of 0x1657184ae74487 (-55)) then f_of 0x1f838b8c811c17 (-53) else
  if Beqb x (f_of 0x1a1047020dcff3 (-54)) then f_of 0x1d6206beb6c24b (-53) else
  if Beqb x (f_of 0x147a80ef53fed1 (-53)) then f_of 0x19aafe4207df60 (-53) else
  if Beqb x (f_of 0x1becde5da115a8 (-53)) then f_of 0x1491b7523c161e (-53) else
  if Beqb x (f_of 0x11af9de5f71640 (-52)) then f_of 0x1cb920325bafa8 (-54) else
  if Beqb x (f_of 0x1568cc9d1da1ac (-52)) then f_of 0x1d84d223638003 (-55) else
  if Beqb x (f_of 0x1921fb54442d18 (-52)) then f_of 0x11a62633145c07 (-106) else
  f_of 0 0.
Definition libm13 : libm := mkLibm cos13 (fun x => x) (fun x => x) (fun x _ => x).

Definition gl_node (S : Scalar) (n k : nat) : option S :=
  match @gl_generate S n with Ok q => nth_error (fst q) k | _ => None end.

Definition positive (S : Scalar) (x : option S) : bool :=
  match x with Some x => sltb s0 x | None => false end.

Lemma gl13 : positive (FS libm13) (gl_node (FS libm13) 13 6) = true.
Proof. vm_compute. reflexivity. Qed.

Lemma gl_node_middle : forall (S : Scalar) k,
  positive S (gl_node S (2 * k + 1) k) = true ->
  exists q x, @gl_generate S (2 * k + 1) = Ok q /\ middle_node q x /\ sltb s0 x = true.
Proof.
  intros S k H. unfold gl_node in H.
  destruct (@gl_choice S (2 * k + 1)) as [[r Hr]|(idx & Hi & Hn)].
  - rewrite (gl_generate_Ok (2 * k + 1) r Hr) in *. cbn [fst] in H.
    rewrite nth_error_tab in H by lia. cbn [positive] in H.
    eexists _, _. split; [reflexivity|]. split; [|exact H].
    exists k. cbn [fst]. rewrite tab_length. split; auto. rewrite nth_error_tab by lia. auto.
  - rewrite (gl_generate_Throw (2 * k + 1) idx Hi Hn) in H. discriminate.
Qed.

Lemma gl_middle_nonzero : exists (m : libm) (n : nat) (q : list (FS m) * list (FS m)) (x : FS m),
  gl_generate n = Ok q /\ middle_node q x /\ sltb s0 x = true.
Proof. exists libm13, 13. apply (gl_node_middle (FS libm13) 6). exact gl13. Qed.

Lemma gl13_ex : exists (q : list (FS libm13) * list (FS libm13)),
  gl_generate 13 = Ok q /\ mirrored q /\ length (fst q) = 13.
Proof.
  destruct (gl_node_middle (FS libm13) 6 gl13) as (q & x & H & (k & Hk & _) & _).
  change (2 * 6 + 1) with 13 in H.
  exists q. split; [exact H|]. split; [exact (@gl_mirrored (FS libm13) (@Bopp_involutive 53 1024) 13 q H)|].
  destruct (@gl_choice (FS libm13) 13) as [[r Hr]|(idx & Hi & Hn)].
  - rewrite (gl_generate_Ok 13 r Hr) in H. injection H as <-. apply tab_length.
  - rewrite (gl_generate_Throw 13 idx Hi Hn) in H. discriminate.
Qed.

Lemma pair_mirrored : forall m (x w : F64), @mirrored (FS m) ([Bopp x; x], [w; w]).
Proof.
  intros m a b. split; [reflexivity|]. intros i j x y v w Hij Hs. cbn [fst length] in Hs.
  assert (i = 0) by lia. assert (j = 1) by lia. subst. cbn [fst snd nth_error].
  intros Hx Hy Hv Hw. injection Hx as <-. injection Hy as <-. injection Hv as <-. injection Hw as <-.
  split; [symmetry; apply (@Bopp_involutive 53 1024)|]. split; reflexivity.
Qed.

(** Two mirrored entries with nodes -+0.3 and weight 0.1, and the integrand x. *)
Lemma odd_ex : let w := f_dec 1 1 in let x := f_dec 3 1 in
  (forall y : F64, (fun y => y) (Bopp y) = Bopp ((fun y => y) y)) /\
  is_finite (fmul w x) = true /\
  @mirrored (FS libm13) ([Bopp x; x], [w; w]).
Proof.
  cbv zeta. split; [reflexivity|]. split; [vm_compute; reflexivity|]. apply pair_mirrored.
Qed.
