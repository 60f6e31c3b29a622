(** Closed forms of the one-dimensional rules, for every scalar type. *)
From Coq Require Import List Bool Arith ZArith Lia.
From Verif Require Import Base.Outcome Base.OutcomeFacts Base.Scalar
  Model.Primitive Proofs.Tab.
Import ListNotations.

Lemma half_lt : forall n i, i < n / 2 -> 2 * i + 2 <= n.
Proof. intros n i H. pose proof (Nat.div_mod n 2). pose proof (Nat.mod_upper_bound n 2). lia. Qed.

Lemma odd_half : forall n, Nat.odd n = true -> n = 2 * (n / 2) + 1.
Proof.
  intros n H. apply Nat.odd_spec in H. destruct H as [m ->].
  replace ((2 * m + 1) / 2) with m; [lia|].
  rewrite Nat.mul_comm, Nat.div_add_l by lia. change (1 / 2) with 0. lia.
Qed.

Lemma even_half : forall n, Nat.odd n = false -> n = 2 * (n / 2).
Proof.
  intros n H. assert (He : Nat.even n = true) by (rewrite <- Nat.negb_odd, H; auto).
  apply Nat.even_spec in He. destruct He as [m ->].
  rewrite Nat.mul_comm, Nat.div_mul by lia. lia.
Qed.

Section Facts.
Context {S : Scalar}.
Local Open Scope scalar_scope.

Lemma store_tab : forall n (f g : nat -> S) i p w, (i < n)%nat ->
  store i p w (tab n f, tab n g)
  = Ok (tab n (fun j => if Nat.eqb j i then p else f j),
        tab n (fun j => if Nat.eqb j i then w else g j)).
Proof. intros; unfold store; simpl. rewrite !vset_tab by auto. reflexivity. Qed.

Lemma fresh_tab : forall n, fresh n = (tab n (fun _ => s0), tab n (fun _ => @s0 S)).
Proof. intros; unfold fresh; rewrite repeat_tab; auto. Qed.

Lemma fill_store_loop : forall n (p w f g : nat -> S),
  for_range 0 n (fun i a => store i (p i) (w i) a) (tab n f, tab n g)
  = Ok (tab n p, tab n w).
Proof.
  intros n p w f g.
  destruct (for_range_ok _
     (fun i a => a = (tab n (fun j => if Nat.ltb j i then p j else f j),
                      tab n (fun j => if Nat.ltb j i then w j else g j)))
     0 n (fun i a => store i (p i) (w i) a) (tab n f, tab n g)) as (v & Hr & Hv).
  - lia.
  - f_equal; apply tab_ext; intros; auto.
  - intros i v Hi ->. rewrite store_tab by lia. eexists; split; [reflexivity|].
    f_equal; apply tab_ext; intros j Hj;
    destruct (Nat.eqb_spec j i); destruct (Nat.ltb_spec j i);
      destruct (Nat.ltb_spec j (Datatypes.S i)); try lia; subst; auto.
  - etransitivity; [exact Hr|]. rewrite Hv. f_equal. f_equal; apply tab_ext; intros j Hj;
    destruct (Nat.ltb_spec j n); auto; lia.
Qed.

(** The mirrored fill loops: [p idx] at the low end, [- p idx] at the high end, or
    the other way round; [mid] in the middle of an odd rule. *)
Definition mirror (n : nat) (p : nat -> S) (q : nat -> S) (mid : S) (j : nat) : S :=
  if Nat.ltb j (n / 2) then p j
  else if Nat.leb (n - n / 2) j then q (n - 1 - j)%nat
  else mid.

Lemma mirror_loop : forall n (p w q v : nat -> S) c d body,
  (forall i a, (i < n / 2)%nat -> fst a = fst a ->
     forall f g, a = (tab n f, tab n g) ->
     body i a = let* a := store i (p i) (w i) a in
                store (n - 1 - i)%nat (q i) (v i) a) ->
  for_range 0 (n / 2) body (tab n (fun _ => c), tab n (fun _ => d))
  = Ok (tab n (mirror n p q c), tab n (mirror n w v d)).
Proof.
  intros n p w q v c d body Hb.
  destruct (for_range_ok _
     (fun i a => a = (tab n (fun j => if Nat.ltb j i then p j
                                      else if Nat.leb (n - i) j then q (n - 1 - j)%nat else c),
                      tab n (fun j => if Nat.ltb j i then w j
                                      else if Nat.leb (n - i) j then v (n - 1 - j)%nat else d)))
     0 (n / 2) body (tab n (fun _ => c), tab n (fun _ => d))) as (r & Hr & Hv).
  - lia.
  - f_equal; apply tab_ext; intros j Hj; simpl;
      destruct (Nat.leb_spec (n - 0) j); auto; lia.
  - intros i a Hi ->. pose proof (half_lt n i ltac:(lia)).
    erewrite Hb; [|lia|auto|reflexivity].
    rewrite store_tab by lia. cbn [bind]. rewrite store_tab by lia.
    eexists; split; [reflexivity|].
    f_equal; apply tab_ext; intros j Hj;
      destruct (Nat.eqb_spec j (n - 1 - i)); destruct (Nat.eqb_spec j i);
      destruct (Nat.ltb_spec j (Datatypes.S i)); destruct (Nat.ltb_spec j i);
      destruct (Nat.leb_spec (n - i) j); destruct (Nat.leb_spec (n - Datatypes.S i) j);
      try lia; subst; auto; f_equal; lia.
  - etransitivity; [exact Hr|]. rewrite Hv. reflexivity.
Qed.

(** The final store of the middle node of an odd rule. *)
Lemma mirror_mid : forall n (p q w v : nat -> S) c d mp mw,
  (if Nat.odd n then store (n / 2) mp mw (tab n (mirror n p q c), tab n (mirror n w v d))
   else Ok (tab n (mirror n p q c), tab n (mirror n w v d)))
  = Ok (tab n (mirror n p q mp), tab n (mirror n w v mw)).
Proof.
  intros n p q w v c d mp mw. destruct (Nat.odd n) eqn:Ho.
  - pose proof (odd_half n Ho). rewrite store_tab by lia.
    f_equal; f_equal; apply tab_ext; intros j Hj; unfold mirror;
      destruct (Nat.eqb_spec j (n / 2)); destruct (Nat.ltb_spec j (n / 2));
      destruct (Nat.leb_spec (n - n / 2) j); auto; lia.
  - pose proof (even_half n Ho).
    f_equal; f_equal; apply tab_ext; intros j Hj; unfold mirror;
      destruct (Nat.ltb_spec j (n / 2)); destruct (Nat.leb_spec (n - n / 2) j); auto; lia.
Qed.

(** Uniform trapezoid. *)
Definition uni_dx (n : nat) (lo up : S) : S := (up - lo) / sofN (n - 1).
Definition uni_pt (n : nat) (lo up : S) (i : nat) : S := lo + sofN i * uni_dx n lo up.
Definition uni_wt (n : nat) (lo up : S) (i : nat) : S :=
  let w := if Nat.eqb i 0 then uni_dx n lo up * shalf else uni_dx n lo up in
  if Nat.eqb i (n - 1) then w * shalf else w.

Lemma uniform_closed : forall n lo up, (1 <= n)%nat ->
  uniform_generate n lo up = Ok (tab n (uni_pt n lo up), tab n (uni_wt n lo up)).
Proof.
  intros n lo up Hn. unfold uniform_generate. destruct n as [|m]; [lia|].
  set (N := Datatypes.S m) in *.
  replace (Nat.add (Nat.sub N 1) 1) with N by lia.
  rewrite !repeat_tab. rewrite fill_loop. cbn [bind].
  rewrite vget_tab by lia. cbn [bind]. rewrite vset_tab by lia. cbn [bind].
  rewrite vget_tab by lia. cbn [bind]. rewrite vset_tab by lia. cbn [bind].
  f_equal; f_equal. apply tab_ext; intros j Hj. unfold uni_wt.
  destruct (Nat.eqb_spec j (N - 1)); subst; auto.
Qed.

(** Gauss-Chebyshev, first kind. *)
Definition gc1_t (n i : nat) : S := (s2 * sofN i - s1) * (spi / sofN n / s2).
Definition gc1_x (n idx : nat) : S := scos (gc1_t n (n - idx)).
Definition gc1_w (n idx : nat) : S :=
  spi / sofN n * ssqrt (s1 - gc1_x n idx * gc1_x n idx).

Lemma gc1_closed : forall n,
  gc1_generate n = Ok (tab n (mirror n (gc1_x n) (fun i => - gc1_x n i) s0),
                       tab n (mirror n (gc1_w n) (gc1_w n) (spi / sofN n))).
Proof.
  intros n. unfold gc1_generate. rewrite fresh_tab.
  rewrite (mirror_loop n (gc1_x n) (gc1_w n) (fun i => - gc1_x n i) (gc1_w n)).
  - cbn [bind]. apply mirror_mid.
  - intros i a Hi _ f g ->. replace (n - i - 1)%nat with (n - 1 - i)%nat by lia. reflexivity.
Qed.

(** Gauss-Chebyshev, second kind. *)
Definition gc2_x (n idx : nat) : S := scos (sofN (n - idx) * (spi / sofN (n + 1))).
Definition gc2_w (n idx : nat) : S :=
  spi / sofN (n + 1) * ssqrt (s1 - gc2_x n idx * gc2_x n idx).

Lemma gc2_closed : forall n,
  gc2_generate n = Ok (tab n (mirror n (gc2_x n) (fun i => - gc2_x n i) s0),
                       tab n (mirror n (gc2_w n) (gc2_w n) (spi / sofN (n + 1)))).
Proof.
  intros n. unfold gc2_generate. rewrite fresh_tab.
  rewrite (mirror_loop n (gc2_x n) (gc2_w n) (fun i => - gc2_x n i) (gc2_w n)).
  - cbn [bind]. apply mirror_mid.
  - intros i a Hi _ f g ->. replace (n - i - 1)%nat with (n - 1 - i)%nat by lia. reflexivity.
Qed.

(** Gauss-Chebyshev, second kind, modified. *)
Definition gc2m_x (n idx : nat) : S :=
  let i := (n - idx)%nat in
  let oonpp := s1 / sofN (n + 1) in
  let ti := sofN i * spi * oonpp in
  s1 - s2 * sofN i * oonpp
  + s2pi * (s1 + s2 / sofZ 3 * (ssin ti * ssin ti)) * scos ti * ssin ti.
Definition gc2m_w (n idx : nat) : S :=
  let ti := sofN (n - idx) * spi * (s1 / sofN (n + 1)) in
  sofZ 16 / sofZ 3 / (sofN n + s1) * (ssin ti * ssin ti) * (ssin ti * ssin ti).

Lemma gc2m_closed : forall n,
  gc2m_generate n = Ok (tab n (mirror n (gc2m_x n) (fun i => - gc2m_x n i) s0),
                        tab n (mirror n (gc2m_w n) (gc2m_w n)
                                 (sofZ 16 / sofZ 3 / (sofN n + s1)))).
Proof.
  intros n. unfold gc2m_generate. rewrite fresh_tab.
  rewrite (mirror_loop n (gc2m_x n) (gc2m_w n) (fun i => - gc2m_x n i) (gc2m_w n)).
  - cbn [bind]. apply mirror_mid.
  - intros i a Hi _ f g ->. pose proof (half_lt n i Hi).
    replace (n - i - 1)%nat with (n - 1 - i)%nat by lia.
    rewrite store_tab by lia. cbn [bind fst snd].
    rewrite !vget_tab by lia. cbn [bind]. rewrite Nat.eqb_refl.
    rewrite !store_tab by lia. cbn [bind]. rewrite !store_tab by lia. reflexivity.
Qed.

(** Gauss-Chebyshev, third kind. *)
Definition gc3_t (n idx : nat) : S :=
  shalf * sofN (2 * (n - idx) - 1) * (spi / sofN (2 * n + 1)).
Definition gc3_x (n idx : nat) : S := scos (gc3_t n idx) * scos (gc3_t n idx).
Definition gc3_w (n idx : nat) : S :=
  s2 * (spi / sofN (2 * n + 1)) * gc3_x n idx * ssqrt ((s1 - gc3_x n idx) / gc3_x n idx).

Lemma gc3_closed : forall n, gc3_generate n = Ok (tab n (gc3_x n), tab n (gc3_w n)).
Proof.
  intros n. unfold gc3_generate. rewrite fresh_tab.
  apply (fill_store_loop n (gc3_x n) (gc3_w n)).
Qed.

(** Gauss-Legendre: success means that every Newton run converged. *)
Definition gl_x (n idx : nat) (r : S * S) : S := fst r.
Definition gl_w (r : S * S) : S := s2 / ((s1 - fst r * fst r) * snd r * snd r).

(** Positions idx < (n+1)/2 hold -pt, mirrored positions hold pt (the middle of an odd
    rule is written twice, last with pt). *)
Definition gl_pt (n : nat) (r : nat -> S * S) (j : nat) : S :=
  if Nat.leb (n / 2) j then fst (r (n - 1 - j)%nat) else - fst (r j).
Definition gl_wt (n : nat) (r : nat -> S * S) (j : nat) : S :=
  if Nat.leb (n / 2) j then gl_w (r (n - 1 - j)%nat) else gl_w (r j).

Lemma half_up : forall n, ((n + 1) / 2 = n - n / 2)%nat.
Proof.
  intro n. destruct (Nat.odd n) eqn:Ho.
  - pose proof (odd_half n Ho) as Hn. set (m := (n / 2)%nat) in *.
    replace (n + 1)%nat with ((m + 1) * 2)%nat by lia. rewrite Nat.div_mul by lia. lia.
  - pose proof (even_half n Ho) as Hn. set (m := (n / 2)%nat) in *.
    replace (n + 1)%nat with (1 + m * 2)%nat by lia. rewrite Nat.div_add by lia.
    change (1 / 2)%nat with 0%nat. lia.
Qed.

Lemma half_le : forall n, (n / 2 <= n)%nat.
Proof. intro n. pose proof (Nat.div_mod n 2). lia. Qed.

Lemma gl_loop : forall n (r : nat -> S * S) c d,
  (forall idx, (idx < n - n / 2)%nat -> gl_newton n 100 (gl_guess n idx) = Some (r idx)) ->
  for_range 0 ((n + 1) / 2)
    (fun idx a =>
       match gl_newton n 100 (gl_guess n idx) with
       | None => Throw ExRuntime
       | Some (z, dp_n) =>
         let pt := z in
         let wgt := s2 / ((s1 - z * z) * dp_n * dp_n) in
         let* a := store idx (- pt) wgt a in
         store (Nat.sub (Nat.sub n 1) idx) pt wgt a
       end) (tab n (fun _ => c), tab n (fun _ => d))
  = Ok (tab n (gl_pt n r), tab n (gl_wt n r)).
Proof.
  intros n r c d Hr. rewrite half_up.
  match goal with |- for_range _ _ ?b _ = _ => set (body := b) end.
  pose proof (half_le n) as Hhl.
  assert (Hod : (n - n / 2 = n / 2 \/ n - n / 2 = n / 2 + 1)%nat).
  { destruct (Nat.odd n) eqn:Ho; [pose proof (odd_half n Ho)|pose proof (even_half n Ho)]; lia. }
  destruct (for_range_ok _
     (fun i a => a = (tab n (fun j => if Nat.leb (n - i) j then fst (r (n - 1 - j)%nat)
                                      else if Nat.ltb j i then - fst (r j) else c),
                      tab n (fun j => if Nat.leb (n - i) j then gl_w (r (n - 1 - j)%nat)
                                      else if Nat.ltb j i then gl_w (r j) else d)))
     0 (n - n / 2)%nat body (tab n (fun _ => c), tab n (fun _ => d))) as (a & Ha & Hv).
  - lia.
  - f_equal; apply tab_ext; intros j Hj; destruct (Nat.leb_spec (n - 0) j); auto; lia.
  - intros i a Hi ->. unfold body. rewrite Hr by lia.
    destruct (r i) as [z dp] eqn:Hri.
    rewrite store_tab by lia. cbn [bind]. rewrite store_tab by lia.
    eexists; split; [reflexivity|].
    f_equal; apply tab_ext; intros j Hj;
      destruct (Nat.eqb_spec j (n - 1 - i)); destruct (Nat.eqb_spec j i);
      destruct (Nat.ltb_spec j (Datatypes.S i)); destruct (Nat.ltb_spec j i);
      destruct (Nat.leb_spec (n - i) j); destruct (Nat.leb_spec (n - Datatypes.S i) j);
      try lia; auto; subst j; try (rewrite Hri; reflexivity);
      try (replace (n - 1 - (n - 1 - i))%nat with i by lia; rewrite Hri; reflexivity).
  - etransitivity; [exact Ha|]. rewrite Hv. f_equal.
    f_equal; apply tab_ext; intros j Hj; unfold gl_pt, gl_wt;
      destruct (Nat.leb_spec (n - (n - n / 2)) j); destruct (Nat.leb_spec (n / 2) j);
      destruct (Nat.ltb_spec j (n - n / 2)); auto; lia.
Qed.

Lemma gl_generate_Ok : forall n (r : nat -> S * S),
  (forall idx, (idx < n - n / 2)%nat -> gl_newton n 100 (gl_guess n idx) = Some (r idx)) ->
  gl_generate n = Ok (tab n (gl_pt n r), tab n (gl_wt n r)).
Proof. intros n r Hr. unfold gl_generate. rewrite fresh_tab. apply gl_loop; auto. Qed.

(** Loops whose body raises at some index raise. *)
Lemma for_range_throw : forall T lo hi (body : nat -> T -> outcome T) s e,
  (forall i s, lo <= i < hi -> (exists s', body i s = Ok s') \/ body i s = Throw e)%nat ->
  (exists s', for_range lo hi body s = Ok s') \/ for_range lo hi body s = Throw e.
Proof.
  intros T lo hi body s e H. unfold for_range.
  remember (hi - lo)%nat as k. assert (Hk : (lo + k <= hi \/ k = 0)%nat) by lia. clear Heqk.
  revert lo s H Hk. induction k; intros lo s H Hk; simpl; eauto.
  destruct (H lo s) as [[s' ->]| ->]; [lia| |right; reflexivity].
  simpl. apply IHk; [|lia]. intros; apply H; lia.
Qed.

Lemma gl_choice : forall n,
  (exists r, forall idx, (idx < n - n / 2)%nat ->
     @gl_newton S n 100 (gl_guess n idx) = Some (r idx)) \/
  (exists idx, (idx < n - n / 2)%nat /\ @gl_newton S n 100 (gl_guess n idx) = None).
Proof.
  intro n. generalize (n - n / 2)%nat as k. induction k as [|k [ [r Hr] | (i & Hi & Hn) ]].
  - left. exists (fun _ => (s0, s0)). intros; exfalso; lia.
  - destruct (@gl_newton S n 100 (gl_guess n k)) as [v|] eqn:E.
    + left. exists (fun i => if Nat.eqb i k then v else r i). intros i Hi.
      destruct (Nat.eqb_spec i k); subst; auto. apply Hr; lia.
    + right; exists k; split; auto.
  - right; exists i; split; auto.
Qed.

Lemma gl_generate_Throw : forall n idx,
  (idx < n - n / 2)%nat -> @gl_newton S n 100 (gl_guess n idx) = None ->
  gl_generate n = Throw (A := list S * list S) ExRuntime.
Proof.
  intros n idx Hi Hn. unfold gl_generate. rewrite fresh_tab, half_up.
  match goal with |- for_range _ _ ?b _ = _ => set (body := b) end.
  (* generalise over the state: arrays of length n given by functions *)
  assert (G : forall k lo f g, (lo + k = n - n / 2 -> lo <= idx ->
     for_count k lo body (tab n f, tab n g) = Throw ExRuntime)%nat).
  { induction k; intros lo f g Hk Hlo; [lia|]. simpl.
    unfold body at 1. destruct (gl_newton n 100 (gl_guess n lo)) as [[z dp]|] eqn:E.
    - pose proof (half_le n).
      rewrite store_tab by lia. cbn [bind]. rewrite store_tab by lia. cbn [bind].
      apply IHk; [lia|]. destruct (Nat.eq_dec lo idx); [subst; congruence|lia].
    - reflexivity. }
  unfold for_range. apply G; lia.
Qed.

(** Gauss-Lobatto. *)
Definition lob_w (n : nat) (r : S * S) : S :=
  s2 / (sofN n * (sofN n - s1)) / (snd r * snd r).
Definition lob_pt (n : nat) (r : nat -> S * S) (j : nat) : S :=
  if Nat.eqb j (n - 1) then s1
  else if Nat.eqb j 0 then - s1
  else if Nat.odd n && Nat.eqb j (n / 2) then s0
  else if Nat.ltb j (n / 2) then fst (r j) else - fst (r (n - 1 - j)%nat).
Definition lob_wt (n : nat) (r : nat -> S * S) (j : nat) : S :=
  if Nat.eqb j (n - 1) || Nat.eqb j 0 then s2 / (sofN n * (sofN n - s1))
  else if Nat.leb (n / 2) j then lob_w n (r (n - 1 - j)%nat) else lob_w n (r j).

Lemma lob_generate_Ok : forall n (r : nat -> S * S), (2 <= n)%nat ->
  (forall idx, (1 <= idx < n - n / 2)%nat -> lob_newton n 100 (lob_guess n idx) = Some (r idx)) ->
  lob_generate n = Ok (tab n (lob_pt n r), tab n (lob_wt n r)).
Proof.
  intros n r Hn2 Hr. unfold lob_generate, arrays. rewrite fresh_tab, half_up.
  pose proof (half_le n) as Hhl.
  assert (Hod : (n - n / 2 = n / 2 \/ n - n / 2 = n / 2 + 1)%nat).
  { destruct (Nat.odd n) eqn:Ho; [pose proof (odd_half n Ho)|pose proof (even_half n Ho)]; lia. }
  match goal with |- bind (for_range _ _ ?b _) _ = _ => set (body := b) end.
  destruct (for_range_ok _
     (fun i a => a = (tab n (fun j => if Nat.eqb j 0 || Nat.eqb j (n - 1) then s0 else
                                      if Nat.leb (n - i) j then - fst (r (n - 1 - j)%nat)
                                      else if Nat.ltb j i then fst (r j) else s0),
                      tab n (fun j => if Nat.eqb j 0 || Nat.eqb j (n - 1) then s0 else
                                      if Nat.leb (n - i) j then lob_w n (r (n - 1 - j)%nat)
                                      else if Nat.ltb j i then lob_w n (r j) else s0)))
     1%nat (n - n / 2)%nat body (tab n (fun _ => s0), tab n (fun _ => s0))) as (a & Ha & Hv).
  - lia.
  - f_equal; apply tab_ext; intros j Hj; destruct (Nat.eqb_spec j 0);
      destruct (Nat.eqb_spec j (n - 1)); destruct (Nat.leb_spec (n - 1) j);
      destruct (Nat.ltb_spec j 1); auto; lia.
  - intros i a Hi ->. unfold body. rewrite Hr by lia.
    destruct (r i) as [z dp] eqn:Hri.
    rewrite store_tab by lia. cbn [bind]. rewrite store_tab by lia.
    eexists; split; [reflexivity|].
    f_equal; apply tab_ext; intros j Hj;
      destruct (Nat.eqb_spec j (n - 1 - i)); destruct (Nat.eqb_spec j i);
      destruct (Nat.eqb_spec j 0); destruct (Nat.eqb_spec j (n - 1));
      destruct (Nat.ltb_spec j (Datatypes.S i)); destruct (Nat.ltb_spec j i);
      destruct (Nat.leb_spec (n - i) j); destruct (Nat.leb_spec (n - Datatypes.S i) j);
      cbn [orb]; try lia; auto; subst j; try (rewrite Hri; reflexivity);
      try (replace (n - 1 - (n - 1 - i))%nat with i by lia; rewrite Hri; reflexivity).
  - rewrite Ha, Hv. cbn [bind]. rewrite store_tab by lia. cbn [bind].
    rewrite store_tab by lia. cbn [bind].
    destruct (Nat.odd n) eqn:Ho.
    + pose proof (odd_half n Ho). cbn [fst snd]. rewrite vset_tab by lia. cbn [bind].
      f_equal. f_equal; apply tab_ext; intros j Hj; unfold lob_pt, lob_wt; rewrite ?Ho; cbn [andb];
      destruct (Nat.eqb_spec j 0); destruct (Nat.eqb_spec j (n - 1));
      destruct (Nat.eqb_spec j (n / 2));
      destruct (Nat.leb_spec (n - (n - n / 2)) j); destruct (Nat.leb_spec (n / 2) j);
      destruct (Nat.ltb_spec j (n / 2));
      destruct (Nat.ltb_spec j (n - n / 2)); cbn [orb]; auto; lia.
    + pose proof (even_half n Ho).
      f_equal. f_equal; apply tab_ext; intros j Hj; unfold lob_pt, lob_wt; rewrite ?Ho; cbn [andb];
      destruct (Nat.eqb_spec j 0); destruct (Nat.eqb_spec j (n - 1));
      destruct (Nat.leb_spec (n - (n - n / 2)) j); destruct (Nat.leb_spec (n / 2) j);
      destruct (Nat.ltb_spec j (n / 2));
      destruct (Nat.ltb_spec j (n - n / 2)); cbn [orb]; auto; lia.
Qed.

Lemma lob_choice : forall n,
  (exists r, forall idx, (1 <= idx < n - n / 2)%nat ->
     @lob_newton S n 100 (lob_guess n idx) = Some (r idx)) \/
  (exists idx, (1 <= idx < n - n / 2)%nat /\ @lob_newton S n 100 (lob_guess n idx) = None).
Proof.
  intro n. generalize (n - n / 2)%nat as k. induction k as [|k [ [r Hr] | (i & Hi & Hn) ]].
  - left. exists (fun _ => (s0, s0)). intros; exfalso; lia.
  - destruct (@lob_newton S n 100 (lob_guess n k)) as [v|] eqn:E.
    + left. exists (fun i => if Nat.eqb i k then v else r i). intros i Hi.
      destruct (Nat.eqb_spec i k); subst; auto. apply Hr; lia.
    + destruct (Nat.eq_dec k 0).
      * subst. left. exists r. intros; exfalso; lia.
      * right; exists k; split; auto; lia.
  - right; exists i; split; auto; lia.
Qed.

Lemma lob_generate_Throw : forall n idx,
  (1 <= idx < n - n / 2)%nat -> @lob_newton S n 100 (lob_guess n idx) = None ->
  lob_generate n = Throw (A := list S * list S) ExRuntime.
Proof.
  intros n idx Hi Hn. unfold lob_generate, arrays. rewrite fresh_tab, half_up.
  match goal with |- bind (for_range _ _ ?b _) _ = _ => set (body := b) end.
  assert (G : forall k lo f g, (1 <= lo -> lo + k = n - n / 2 -> lo <= idx ->
     for_count k lo body (tab n f, tab n g) = Throw ExRuntime)%nat).
  { induction k; intros lo f g H1 Hk Hlo; [lia|]. simpl.
    unfold body at 1. destruct (lob_newton n 100 (lob_guess n lo)) as [[z dp]|] eqn:E.
    - pose proof (half_le n).
      rewrite store_tab by lia. cbn [bind]. rewrite store_tab by lia. cbn [bind].
      apply IHk; [lia|lia|]. destruct (Nat.eq_dec lo idx); [subst; congruence|lia].
    - reflexivity. }
  unfold for_range. rewrite G by lia. reflexivity.
Qed.

End Facts.
