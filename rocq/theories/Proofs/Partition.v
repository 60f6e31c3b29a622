(** C53: radial partitions as objects. *)
From Coq Require Import List Bool Arith ZArith Lia Permutation.
From Verif Require Import Base.Outcome Base.OutcomeFacts Base.Scalar Model.Quadrature Model.S2 Model.Composite Model.Partition
  Spec.QuadSpec Spec.SphereSpec Spec.PartSpec Proofs.Sizes Proofs.CompositeFacts Proofs.PrunedFacts Proofs.CompositeProps Proofs.PrunedRelease.
Import ListNotations.
Local Open Scope nat_scope.

Lemma fits_dec : forall dbg n be, {fits dbg n be} + {~ fits dbg n be}.
Proof.
  intros dbg n [b e]. unfold fits. cbn [fst snd]. destruct (le_dec e n) as [H|H]; [|right; tauto].
  destruct dbg; [destruct (lt_dec b e)|destruct (le_dec b e)]; (left; tauto) || (right; tauto).
Qed.
Lemma adjacent_cons : forall A (x y : A) l, adjacent (x :: y :: l) = (x, y) :: adjacent (y :: l).
Proof. reflexivity. Qed.

Section Objects.
Context {S : Scalar}.

Lemma region_exact : forall dbg nr (r : rquad S) b e (a : aquad S), sized nr r -> length (qpoints a) = length (qweights a) ->
  (fits dbg nr (b, e) -> pruned_region dbg r ((b, e), a) = Ok (region_pts r ((b, e), a), region_wts r ((b, e), a))) /\
  (~ fits dbg nr (b, e) -> pruned_region dbg r ((b, e), a) = if dbg then AssertFail else UB).
Proof.
  intros dbg nr r b e a Hr Ha. pose proof (sized_wf _ _ _ _ Hr) as W. pose proof (sized_npts _ _ _ _ Hr) as N.
  destruct dbg.
  - unfold fits. cbn [fst snd]. split.
    + intros [H1 H2]. apply pruned_region_closed; auto. rewrite N. exact H2.
    + intro H. unfold pruned_region, subquad_generate, cassert. rewrite N.
      destruct (Nat.leb_spec b nr); [|reflexivity]. cbn [bind]. destruct (Nat.leb_spec e nr); [|reflexivity]. cbn [bind].
      destruct (Nat.ltb_spec b e); [elim H; auto|reflexivity].
  - destruct (release_region r ((b, e), a) W Ha) as [R1 R2]. unfold fits, fine_region in *. cbn [fst snd] in *. rewrite N in *. auto.
Qed.

Lemma skipn_cons : forall A (l : list A) k x, nth_error l k = Some x -> skipn k l = x :: skipn (Datatypes.S k) l.
Proof. induction l as [|y l IH]; intros [|k] x H; try discriminate; cbn [nth_error skipn] in *; [injection H as ->; reflexivity|]. apply IH. auto. Qed.

(** The loop from position k of both vectors. *)
Lemma loop_exact : forall dbg nr (r : rquad S) idx (qs : list (aquad S)), sized nr r ->
  Forall (fun a : aquad S => length (qpoints a) = length (qweights a)) qs -> idx <> [] ->
  forall fuel k acc, length qs - k < fuel -> k < length idx -> k <= length qs ->
  let rgs := combine (adjacent (skipn k idx)) (skipn k qs) in
  (~ Forall (fits dbg nr) (map fst rgs) -> pruned_loop fuel dbg r (mkRgp idx qs) k k acc = if dbg then AssertFail else UB) /\
  (Forall (fits dbg nr) (map fst rgs) ->
   (length idx <> Datatypes.S (length qs) -> pruned_loop fuel dbg r (mkRgp idx qs) k k acc = UB) /\
   (length idx = Datatypes.S (length qs) ->
    pruned_loop fuel dbg r (mkRgp idx qs) k k acc = Ok (fst acc ++ flat_map (region_pts r) rgs, snd acc ++ flat_map (region_wts r) rgs))).
Proof.
  intros dbg nr r idx qs Hr Hq Hne fuel. induction fuel as [|fuel IH]; intros k acc Hf Hk Hkq rgs; [lia|].
  rewrite pruned_loop_step by auto. cbn [rgp_idx rgp_quads].
  destruct (nth_error idx k) as [i0|] eqn:E0; [|apply nth_error_None in E0; lia].
  destruct (le_lt_dec (length idx) (k + 1)) as [L|L].
  - (* last entry of idx *)
    assert (Er : rgs = []).
    { unfold rgs. rewrite (skipn_cons _ _ _ _ E0), (skipn_all2 idx) by lia. reflexivity. }
    rewrite Er. cbn [map flat_map]. rewrite !app_nil_r.
    replace (Nat.eqb k (length idx - 1)) with true by (symmetry; apply Nat.eqb_eq; lia). cbn [andb].
    destruct (Nat.eqb_spec k (length qs)) as [K|K].
    + split; [intro H; elim H; constructor|]. intros _. split; [lia|]. intros _. destruct acc; reflexivity.
    + split; [intro H; elim H; constructor|]. intros _. split; [|lia]. intros _. unfold vget. rewrite E0. cbn [bind].
      rewrite (proj2 (nth_error_None idx (k + 1))) by lia. reflexivity.
  - replace (Nat.eqb k (length idx - 1)) with false by (symmetry; apply Nat.eqb_neq; lia). cbn [andb].
    unfold vget. rewrite E0. cbn [bind].
    destruct (nth_error idx (k + 1)) as [i1|] eqn:E1; [|apply nth_error_None in E1; lia]. cbn [bind].
    destruct (nth_error qs k) as [a|] eqn:E2.
    + cbn [bind]. assert (Ka : k < length qs) by (apply nth_error_Some; congruence).
      assert (Wa : length (qpoints a) = length (qweights a)) by (rewrite Forall_forall in Hq; apply Hq; eapply nth_error_In; eauto).
      assert (Er : rgs = ((i0, i1), a) :: combine (adjacent (skipn (Datatypes.S k) idx)) (skipn (Datatypes.S k) qs)).
      { unfold rgs. rewrite (skipn_cons _ _ _ _ E0), (skipn_cons _ _ _ _ E2). replace (k + 1) with (Datatypes.S k) in E1 by lia.
        rewrite (skipn_cons _ _ _ _ E1), adjacent_cons. reflexivity. }
      rewrite Er. cbn [map fst snd flat_map].
      destruct (region_exact dbg nr r i0 i1 a Hr Wa) as [R1 R2].
      destruct (fits_dec dbg nr (i0, i1)) as [F|F].
      * rewrite (R1 F). cbn [bind].
        destruct (IH (Datatypes.S k) (fst acc ++ region_pts r ((i0, i1), a), snd acc ++ region_wts r ((i0, i1), a))) as [I1 I2]; [lia|lia|lia|].
        cbn [fst snd] in I2. split.
        -- intro H. apply I1. intro H'. apply H. constructor; auto.
        -- intro H. inversion H as [|? ? _ H']. subst. rewrite !app_assoc. apply I2. exact H'.
      * rewrite (R2 F). split; [destruct dbg; reflexivity|]. intro H. inversion H. contradiction.
    + apply nth_error_None in E2.
      assert (Er : rgs = []) by (unfold rgs; rewrite (skipn_all2 qs) by lia; destruct (adjacent (skipn k idx)); reflexivity).
      rewrite Er. cbn [map]. split; [intro H; elim H; constructor|]. intros _. split; [reflexivity|]. lia.
Qed.

(** Construction from any state of the partition object. *)
Lemma any_state : forall dbg nr (r : rquad S) idx (qs : list (aquad S)) c, sized nr r -> Forall (fun a => exists na, sized na a) qs ->
  let rgs := combine (adjacent idx) qs in
  (Forall (fits dbg nr) (map fst rgs) -> length idx = Datatypes.S (length qs) ->
   exists o, pruned_construct dbg r (mkRgp idx qs) c = Ok o /\ sph_center o = c /\
     sized (list_sum (map (fun ra => (snd (fst ra) - fst (fst ra)) * npts (snd ra)) rgs)) (sph_quad o) /\
     Permutation (nodes (sph_quad o)) (flat_map (fun ra => flat_map (fun rw => shell c rw (snd ra))
       (firstn (snd (fst ra) - fst (fst ra)) (skipn (fst (fst ra)) (nodes r)))) rgs)) /\
  (Forall (fits dbg nr) (map fst rgs) -> length idx <> Datatypes.S (length qs) -> pruned_construct dbg r (mkRgp idx qs) c = UB) /\
  (~ Forall (fits dbg nr) (map fst rgs) -> pruned_construct dbg r (mkRgp idx qs) c = if dbg then AssertFail else UB).
Proof.
  intros dbg nr r idx qs c Hr Hs rgs.
  assert (Hq : Forall (fun a : aquad S => length (qpoints a) = length (qweights a)) qs).
  { eapply Forall_impl; [|exact Hs]. intros a (na & H). exact (sized_wf _ _ _ _ H). }
  pose proof (sized_wf _ _ _ _ Hr) as Wr. pose proof (sized_npts _ _ _ _ Hr) as N.
  destruct idx as [|i idx].
  { split; [intros _ X; discriminate X|]. split; [reflexivity|]. intro H. elim H. constructor. }
  destruct (loop_exact dbg nr r (i :: idx) qs Hr Hq ltac:(discriminate) (Datatypes.S (length qs)) 0 ([], [])) as [L1 L2]; [rewrite Nat.sub_0_r; apply Nat.lt_succ_diag_r|cbn [length]; apply Nat.lt_0_succ|apply Nat.le_0_l|].
  cbn [skipn] in L1, L2. fold rgs in L1, L2.
  unfold pruned_construct, pruned_generate. cbn [rgp_quads]. split; [|split].
  - intros F E. rewrite (proj2 (L2 F) E). cbn [bind fst snd app]. rewrite shift_grid_closed. cbn [bind].
    assert (Ww : Forall wf_region rgs).
    { apply Forall_forall. intros [be a] H. apply in_combine_r in H. rewrite Forall_forall in Hq. apply (Hq a H). }
    assert (Fr : Forall (fine_region r) rgs).
    { apply Forall_forall. intros rg H. rewrite Forall_forall in F. destruct (F (fst rg) (in_map fst _ _ H)) as [F1 F2].
      split; [destruct dbg; lia|rewrite N; exact F2]. }
    destruct (release_flat r rgs c Wr Ww Fr) as (F1 & F2 & F3).
    rewrite construct_Ok by (rewrite map_length; congruence). cbn [bind].
    eexists. split; [reflexivity|]. split; [reflexivity|]. split; [|exact F3].
    apply sized_intro; [rewrite map_length|]; auto.
  - intros F E. rewrite (proj1 (L2 F) E). reflexivity.
  - intro F. rewrite (L1 F). destruct dbg; reflexivity.
Qed.

(** ** Histories with one radial size *)
Lemma last_app1 : forall (l : list nat) x, last (l ++ [x]) 0 = x.
Proof. intros. apply last_last. Qed.
Lemma not_nil_app : forall A (l : list A) x, l ++ [x] <> [].
Proof. intros A [|y l] x H; discriminate. Qed.

Lemma add_ok : forall n i q (p p1 : rgp S), 1 <= n -> add_quad true n i q p = Ok p1 ->
  p1 = mkRgp (rgp_idx p ++ [i]) (rgp_quads p ++ [q]) /\ i < n /\ (rgp_idx p <> [] -> last (rgp_idx p) 0 < i /\ i < n - 1) /\ (rgp_idx p = [] -> i = 0).
Proof.
  intros n i q p p1 Hn H. unfold add_quad, cassert in H. destruct (rgp_idx p) as [|i0 l].
  - destruct (Nat.eqb_spec i 0); [|discriminate H]. cbn [bind] in H. injection H as <-. split; [reflexivity|]. split; [lia|]. split; [congruence|auto].
  - destruct (Nat.ltb_spec (last (i0 :: l) 0) i); [|discriminate H]. destruct (Nat.eqb_spec n 0); [lia|]. cbn [orb andb] in H.
    destruct (Nat.ltb_spec i (n - 1)); [|discriminate H]. cbn [bind] in H. injection H as <-. split; [reflexivity|]. split; [lia|]. split; [intros _; lia|discriminate].
Qed.
Lemma closed_calls : forall n cs (p p' : rgp S), 1 <= n -> Forall (call_for n) cs -> rgp_idx p <> [] -> last (rgp_idx p) 0 = n ->
  pcalls_run true cs p = Ok p' -> p' = p /\ adds cs = [].
Proof.
  intros n cs. induction cs as [|c cs IH]; intros p p' Hn F Hne L H.
  - cbn [pcalls_run] in H. injection H as <-. auto.
  - inversion F as [|? ? F1 F2]; subst. cbn [pcalls_run] in H. apply bind_Ok_inv in H. destruct H as (p1 & H1 & H2). destruct c as [rn i q|rn|l]; cbn [pcall_run call_for] in *.
    + apply add_ok in H1; [|lia]. destruct H1 as (_ & _ & X & _). specialize (X Hne). lia.
    + rewrite F1 in H1. unfold finalize in H1. destruct (rgp_idx p) as [|i l] eqn:E; [congruence|]. rewrite Nat.eqb_refl in H1. injection H1 as <-.
      rewrite <- E in *. destruct (IH p p' Hn F2 Hne eq_refl H2) as [I1 I2]. split; [exact I1|]. exact I2.
    + destruct F1.
Qed.
Lemma open_calls : forall n cs (p p' : rgp S), 1 <= n -> Forall (call_for n) cs -> (rgp_idx p <> [] -> last (rgp_idx p) 0 < n) ->
  pcalls_run true cs p = Ok p' ->
  (In (CFinalize n) cs -> add_quads true n (adds cs) p = Ok p') /\
  (~ In (CFinalize n) cs -> p' = mkRgp (rgp_idx p ++ map fst (adds cs)) (rgp_quads p ++ map snd (adds cs))).
Proof.
  intros n cs. induction cs as [|c cs IH]; intros p p' Hn F L H.
  - cbn [pcalls_run] in H. injection H as <-. split; [intros []|]. intros _. cbn [adds flat_map map]. rewrite !app_nil_r. destruct p; reflexivity.
  - inversion F as [|? ? F1 F2]; subst. cbn [pcalls_run] in H. apply bind_Ok_inv in H. destruct H as (p1 & H1 & H2). destruct c as [rn i q|rn|l]; cbn [pcall_run call_for] in *.
    + subst rn. pose proof (add_ok n i q p p1 Hn H1) as (E & Li & _).
      destruct (IH p1 p' Hn F2) as [I1 I2]; [rewrite E; cbn [rgp_idx]; rewrite last_app1; auto|exact H2|].
      change (adds (CAdd n i q :: cs)) with ((i, q) :: adds cs). split.
      * intros [X|X]; [discriminate X|]. cbn [add_quads]. rewrite H1. cbn [bind]. apply I1. exact X.
      * intro X. rewrite I2 by (intro Y; apply X; right; exact Y). rewrite E. cbn [rgp_idx rgp_quads map fst snd]. rewrite <- !app_assoc. reflexivity.
    + subst rn. split; [|intro X; elim X; left; reflexivity]. intros _. change (adds (CFinalize n :: cs)) with (adds cs).
      assert (Ne : rgp_idx p <> []) by (intro E; unfold finalize in H1; rewrite E in H1; discriminate H1).
      assert (Lp : rgp_idx p1 <> [] /\ last (rgp_idx p1) 0 = n).
      { unfold finalize in H1. specialize (L Ne). destruct (rgp_idx p) as [|i0 l] eqn:E; [congruence|].
        destruct (Nat.eqb_spec (last (i0 :: l) 0) n); [lia|]. injection H1 as <-. cbn [rgp_idx]. split; [|exact (last_app1 (i0 :: l) n)].
        intro X. apply (not_nil_app _ (i0 :: l) n). exact X. }
      destruct (closed_calls n cs p1 p' Hn F2 (proj1 Lp) (proj2 Lp) H2) as [-> ->]. exact H1.
    + destruct F1.
Qed.

(** Member calls in any order amount to the constructor, or leave an object that must not be used. *)
Lemma calls_construct : forall n cs (p : rgp S), 1 <= n -> Forall (call_for n) cs -> pcalls_run true cs rgp_empty = Ok p ->
  (In (CFinalize n) cs -> rgp_construct true n (adds cs) = Ok p) /\
  (~ In (CFinalize n) cs -> forall dbg nr (r : rquad S) c, sized nr r -> n <= nr -> Forall (fun ia => exists na, sized na (snd ia)) (adds cs) ->
     pruned_construct dbg r p c = UB).
Proof.
  intros n cs p Hn F H. destruct (open_calls n cs rgp_empty p Hn F ltac:(intro X; elim X; reflexivity) H) as [C1 C2]. split; [exact C1|].
  intros X dbg nr r c Hr Hnr Hs. specialize (C2 X). cbn [rgp_idx rgp_quads rgp_empty app] in C2.
  assert (Fin : (exists p', rgp_construct true n (adds cs) = Ok p') \/ adds cs = []).
  { destruct (adds cs) as [|ia l] eqn:E; [right; reflexivity|left]. 
    assert (E2 : pcalls_run true (cs ++ [CFinalize n]) rgp_empty = finalize n p).
    { clear - H. revert H. generalize (@rgp_empty S). induction cs as [|c cs IH]; intros p0 H; cbn [pcalls_run app] in *.
      - injection H as <-. cbn [pcall_run]. destruct (finalize n p0); reflexivity.
      - apply bind_Ok_inv in H. destruct H as (p1 & -> & H). cbn [bind]. apply IH. exact H. }
    assert (Fp : exists p', finalize n p = Ok p').
    { rewrite C2. destruct ia as [i q]. unfold finalize. cbn [rgp_idx map fst]. destruct (Nat.eqb _ n); eauto. }
    destruct Fp as (p' & Fp). exists p'. rewrite Fp in E2.
    assert (A : adds (cs ++ [CFinalize n]) = adds cs) by (unfold adds; rewrite flat_map_app; cbn [flat_map app]; apply app_nil_r).
    rewrite <- E, <- A. apply (open_calls n (cs ++ [CFinalize n]) rgp_empty p' Hn); [|intro Y; elim Y; reflexivity|exact E2|apply in_or_app; right; left; reflexivity].
    apply Forall_app. split; [exact F|]. constructor; [reflexivity|constructor]. }
  rewrite C2. assert (Hq : Forall (fun a : aquad S => exists na, sized na a) (map snd (adds cs))).
  { apply Forall_forall. intros a I. apply in_map_iff in I. destruct I as (ia & <- & I). rewrite Forall_forall in Hs. apply Hs. exact I. }
  destruct (any_state dbg nr r (map fst (adds cs)) (map snd (adds cs)) c Hr Hq) as (_ & U & _).
  apply U; [|rewrite !map_length; lia].
  destruct Fin as [(p' & Fp)|E]; [|rewrite E; constructor].
  apply rgp_construct_inv in Fp; [|exact Hn]. destruct Fp as (_ & _ & Ne & Hh & Hi & Hla). clear - Hi Hla Hnr Ne.
  assert (K : forall l m, increasing l -> last l 0 < n -> Forall (fits dbg nr) (map fst (combine (adjacent l) m : list ((nat * nat) * aquad S)))).
  { induction l as [|i l IH]; intros m Hi0 Hl; [constructor|]. destruct l as [|j l]; [constructor|]. rewrite adjacent_cons. destruct m as [|a m]; [constructor|].
    cbn [combine map fst]. destruct Hi0 as [H1 H2]. change (last (i :: j :: l) 0) with (last (j :: l) 0) in Hl. constructor; [|apply IH; auto].
    assert (j <= last (j :: l) 0).
    { clear - H2. revert j H2. induction l as [|k l IH]; intros j H2; [cbn; lia|]. destruct H2 as [A B]. specialize (IH k B).
      change (last (j :: k :: l) 0) with (last (k :: l) 0). lia. }
    unfold fits. cbn [fst snd]. destruct dbg; lia. }
  apply K; auto.
Qed.

(** ** A partition made for n radial points, used with nr points *)
Lemma adjacent_ranges : forall l n, adjacent (l ++ [n]) = ranges_of l n.
Proof.
  induction l as [|i l IH]; intro n; [reflexivity|]. destruct l as [|j l]; [reflexivity|].
  change ((i :: j :: l) ++ [n]) with (i :: (j :: l ++ [n])). rewrite adjacent_cons.
  change (j :: l ++ [n]) with ((j :: l) ++ [n]). rewrite IH. reflexivity.
Qed.
Lemma covers_fits : forall dbg rs (qs : list (aquad S)) lo n nr, covers lo n rs -> n <= nr -> Forall (fits dbg nr) (map fst (combine rs qs)).
Proof.
  intros dbg rs. induction rs as [|[b e] rs IH]; intros qs lo n nr H Hn; [constructor|]. destruct qs as [|a qs]; [constructor|]. cbn [combine map fst].
  destruct H as (-> & L & C). constructor; [|eapply IH; eauto]. pose proof (covers_le _ _ _ C). unfold fits. cbn [fst snd]. destruct dbg; lia.
Qed.
Lemma covers_not_fits : forall dbg rs (qs : list (aquad S)) lo n nr, covers lo n rs -> length rs = length qs -> lo < n -> nr < n ->
  ~ Forall (fits dbg nr) (map fst (combine rs qs)).
Proof.
  intros dbg rs. induction rs as [|[b e] rs IH]; intros qs lo n nr H Hl H1 H2 F; [cbn in H; lia|]. destruct qs as [|a qs]; [discriminate Hl|].
  destruct H as (-> & L & C). cbn [combine map fst] in F. inversion F as [|? ? F1 F2]; subst. destruct (Nat.eq_dec e n) as [->|Ne].
  - unfold fits in F1. cbn [fst snd] in F1. lia.
  - pose proof (covers_le _ _ _ C). apply (IH qs e n nr C); auto; lia.
Qed.

Lemma other_grid : forall dbg n args (p : rgp S) nr (r : rquad S) c, 1 <= n -> rgp_construct true n args = Ok p ->
  Forall (fun ia => exists na, sized na (snd ia)) args -> sized nr r ->
  (n <= nr -> exists o rs, pruned_construct dbg r p c = Ok o /\ sph_center o = c /\ covers 0 n rs /\ map fst rs = map fst args /\
     Permutation (nodes (sph_quad o)) (flat_map (fun ra => flat_map (fun rw => shell c rw (snd ra))
       (firstn (snd (fst ra) - fst (fst ra)) (skipn (fst (fst ra)) (nodes r)))) (combine rs (map snd args)))) /\
  (nr < n -> pruned_construct dbg r p c = if dbg then AssertFail else UB).
Proof.
  intros dbg n args p nr r c Hn H Hs Hr. apply rgp_construct_inv in H; [|exact Hn]. destruct H as (E1 & E2 & Ne & Hh & Hi & Hla).
  destruct p as [idx qs]. cbn [rgp_idx rgp_quads] in *. subst idx qs.
  assert (Ne' : map fst args <> []) by (destruct args; [congruence|discriminate]).
  assert (Hq : Forall (fun a : aquad S => exists na, sized na a) (map snd args)).
  { apply Forall_forall. intros a I. apply in_map_iff in I. destruct I as (ia & <- & I). rewrite Forall_forall in Hs. apply Hs. exact I. }
  pose proof (ranges_cover (map fst args) n 0 Hh Ne' Hi Hla) as C. 
  destruct (any_state dbg nr r (map fst args ++ [n]) (map snd args) c Hr Hq) as (A & _ & B). rewrite adjacent_ranges in *.
  split.
  - intro L. destruct A as (o & O1 & O2 & _ & O4); [eapply covers_fits; eauto|rewrite app_length, !map_length; cbn [length]; apply Nat.add_1_r|].
    exists o, (ranges_of (map fst args) n). split; [exact O1|]. split; [exact O2|]. split; [exact C|]. split; [apply ranges_of_fst|exact O4].
  - intro L. apply B. eapply covers_not_fits; [exact C|rewrite ranges_of_length, !map_length; reflexivity|lia|exact L].
Qed.

(** ** Programs over partition variables *)
Definition shape (n : nat) (p : rgp S) : Prop :=
  Forall (fun a => exists na, sized na a) (rgp_quads p) /\
  ((length (rgp_idx p) = length (rgp_quads p) /\ (rgp_idx p = [] \/ (hd 0 (rgp_idx p) = 0 /\ increasing (rgp_idx p) /\ last (rgp_idx p) 0 < n))) \/
   (exists l, rgp_idx p = l ++ [n] /\ length l = length (rgp_quads p) /\ l <> [] /\ hd 0 l = 0 /\ increasing l /\ last l 0 < n)).

Lemma shape_empty : forall n, shape n rgp_empty.
Proof. intro n. split; [constructor|]. left. split; [reflexivity|]. left. reflexivity. Qed.
Lemma shape_construct : forall n args (p : rgp S), 1 <= n -> Forall (fun ia => exists na, sized na (snd ia)) args ->
  rgp_construct true n args = Ok p -> shape n p.
Proof.
  intros n args p Hn Hs H. apply rgp_construct_inv in H; [|exact Hn]. destruct H as (E1 & E2 & Ne & Hh & Hi & Hla). split.
  - rewrite E2. apply Forall_forall. intros a I. apply in_map_iff in I. destruct I as (ia & <- & I). rewrite Forall_forall in Hs. apply Hs. exact I.
  - right. exists (map fst args). rewrite E2, !map_length. split; [exact E1|]. split; [reflexivity|]. split; [intro X; apply map_eq_nil in X; exact (Ne X)|]. auto.
Qed.
Lemma inc_app : forall l i, increasing l -> (l <> [] -> last l 0 < i) -> increasing (l ++ [i]).
Proof.
  induction l as [|x l IH]; intros i H L; [exact I|]. destruct l as [|y l].
  - cbn in *. split; [apply L; discriminate|exact I].
  - destruct H as [H1 H2]. change ((x :: y :: l) ++ [i]) with (x :: (y :: l) ++ [i]). split; [exact H1|]. apply IH; [exact H2|]. intros _. apply L. discriminate.
Qed.
Lemma shape_call : forall n c (p p' : rgp S), 1 <= n -> call_for n c -> match c with CAdd _ _ q => exists na, sized na q | _ => True end ->
  shape n p -> pcall_run true c p = Ok p' -> shape n p'.
Proof.
  intros n c p p' Hn F Q (Sq & Sh) H. destruct c as [rn i q|rn|l]; cbn [pcall_run call_for] in *; [| |destruct F]; subst rn.
  - apply add_ok in H; [|exact Hn]. destruct H as (-> & Li & Lr & Lz). split; [cbn [rgp_quads]; apply Forall_app; split; [exact Sq|constructor; [exact Q|constructor]]|].
    cbn [rgp_idx rgp_quads]. destruct Sh as [(Hl & Sh)|(l & E & _)].
    + left. rewrite !app_length, Hl. split; [reflexivity|]. right. rewrite last_app1. split; [|split; [|exact Li]].
      * destruct (rgp_idx p) as [|i0 l]; [rewrite Lz by reflexivity; reflexivity|]. destruct Sh as [X|(Hh & _)]; [discriminate X|exact Hh].
      * apply inc_app; [|intro X; exact (proj1 (Lr X))]. destruct Sh as [->|(_ & Hi & _)]; [exact I|exact Hi].
    + rewrite E in Lr. specialize (Lr (not_nil_app _ _ _)). rewrite last_app1 in Lr. lia.
  - unfold finalize in H. destruct (rgp_idx p) as [|i l] eqn:E; [discriminate H|]. split.
    + destruct (Nat.eqb _ n); injection H as <-; exact Sq.
    + destruct Sh as [(Hl & [X|(Hh & Hi & Hla)])|(l' & El & Sh)]; [discriminate X| |].
      * destruct (Nat.eqb_spec (last (i :: l) 0) n) as [X|X]; [lia|]. injection H as <-. cbn [rgp_idx rgp_quads]. right. exists (i :: l).
        split; [reflexivity|]. split; [exact Hl|]. split; [discriminate|]. auto.
      * destruct (Nat.eqb_spec (last (i :: l) 0) n) as [X|X]; [|elim X; rewrite El; apply last_app1]. injection H as <-. right. exists l'. rewrite E. auto.
Qed.

Lemma vget_pset : forall (l : list (rgp S)) i p j q, vget (pset l i p) j = Ok q -> q = p \/ vget l j = Ok q.
Proof.
  induction l as [|x l IH]; intros [|i] p [|j] q H; cbn [pset] in H; try (right; exact H); try discriminate H.
  - left. cbn in H. injection H as ->. reflexivity.
  - exact (IH i p j q H).
Qed.
Lemma Forall_pset : forall (P : rgp S -> Prop) l i p, Forall P l -> P p -> Forall P (pset l i p).
Proof.
  intros P l. induction l as [|x l IH]; intros i p F H; [constructor|]. inversion F; subst. destruct i; cbn [pset]; constructor; auto.
Qed.
Lemma Forall_vget : forall (P : rgp S -> Prop) l i p, Forall P l -> vget l i = Ok p -> P p.
Proof.
  intros P l i p F H. unfold vget in H. destruct (nth_error l i) as [x|] eqn:E; [|discriminate H]. injection H as <-.
  rewrite Forall_forall in F. apply F. eapply nth_error_In; eauto.
Qed.

Definition full (n : nat) (os : list (pop S)) (g : sphobj S) : Prop :=
  exists i r rs qs, In (PGenerate i r (sph_center g)) os /\ sized n r /\ every_shell (sph_center g) r rs qs (sph_quad g).

Lemma program : forall left n, 1 <= n -> (forall t p : rgp S, left t p = rgp_empty \/ left t p = t \/ left t p = p) ->
  forall os s s', Forall (stmt_for n) os -> Forall (shape n) (ps_vars s) -> prun left true s os = Ok s' ->
  exists gs, ps_grids s' = ps_grids s ++ gs /\ Forall (full n os) gs.
Proof.
  intros left n Hn HL os. induction os as [|o os IH]; intros s s' F V H.
  - cbn [prun] in H. injection H as <-. exists []. rewrite app_nil_r. split; [reflexivity|constructor].
  - inversion F as [|? ? F1 F2]; subst. cbn [prun] in H. apply bind_Ok_inv in H. destruct H as (s1 & H1 & H2).
    assert (K : Forall (shape n) (ps_vars s1) /\ exists gs, ps_grids s1 = ps_grids s ++ gs /\ Forall (full n [o]) gs).
    { assert (N : ps_grids s1 = ps_grids s -> exists gs, ps_grids s1 = ps_grids s ++ gs /\ Forall (full n [o]) gs).
      { intros ->. exists []. rewrite app_nil_r. split; [reflexivity|constructor]. }
      destruct o as [|rn args|j|j|i j|i j|i c|i r c]; cbn [pstep stmt_for] in H1, F1.
      - injection H1 as <-. split; [|apply N; reflexivity]. apply Forall_app. split; [exact V|]. constructor; [apply shape_empty|constructor].
      - destruct F1 as [-> Fa]. apply bind_Ok_inv in H1. destruct H1 as (p & Hp & H1). injection H1 as <-. split; [|apply N; reflexivity].
        apply Forall_app. split; [exact V|]. constructor; [eapply shape_construct; eauto|constructor].
      - apply bind_Ok_inv in H1. destruct H1 as (p & Hp & H1). injection H1 as <-. split; [|apply N; reflexivity].
        apply Forall_app. split; [exact V|]. constructor; [eapply Forall_vget; eauto|constructor].
      - apply bind_Ok_inv in H1. destruct H1 as (p & Hp & H1). injection H1 as <-. split; [|apply N; reflexivity].
        apply Forall_app. split; [apply Forall_pset; [exact V|apply shape_empty]|]. constructor; [exact (Forall_vget _ _ _ _ V Hp)|constructor].
      - apply bind_Ok_inv in H1. destruct H1 as (t & Ht & H1). apply bind_Ok_inv in H1. destruct H1 as (p & Hp & H1). injection H1 as <-.
        split; [|apply N; reflexivity]. apply Forall_pset; [exact V|exact (Forall_vget _ _ _ _ V Hp)].
      - apply bind_Ok_inv in H1. destruct H1 as (t & Ht & H1). apply bind_Ok_inv in H1. destruct H1 as (p & Hp & H1). injection H1 as <-.
        split; [|apply N; reflexivity]. apply Forall_pset; [apply Forall_pset; [exact V|exact (Forall_vget _ _ _ _ V Hp)]|].
        destruct (HL t p) as [->|[->| ->]]; [apply shape_empty|exact (Forall_vget _ _ _ _ V Ht)|exact (Forall_vget _ _ _ _ V Hp)].
      - destruct F1 as [Fc Fq]. apply bind_Ok_inv in H1. destruct H1 as (p & Hp & H1). apply bind_Ok_inv in H1. destruct H1 as (p1 & Hp1 & H1). injection H1 as <-.
        split; [|apply N; reflexivity]. apply Forall_pset; [exact V|]. eapply shape_call; [exact Hn|exact Fc|exact Fq|exact (Forall_vget _ _ _ _ V Hp)|exact Hp1].
      - apply bind_Ok_inv in H1. destruct H1 as (p & Hp & H1). apply bind_Ok_inv in H1. destruct H1 as (g & Hg & H1). injection H1 as <-.
        split; [exact V|]. exists [g]. split; [reflexivity|]. constructor; [|constructor].
        destruct (Forall_vget _ _ _ _ V Hp) as (Sq & Sh). destruct p as [idx qs]. cbn [rgp_idx rgp_quads] in *.
        pose proof (sized_npts _ _ _ _ F1) as Np.
        destruct (any_state true n r idx qs c F1 Sq) as (A & B & C).
        assert (Dec : {Forall (fits true n) (map fst (combine (adjacent idx) qs))} + {~ Forall (fits true n) (map fst (combine (adjacent idx) qs))})
          by (apply Forall_dec; apply fits_dec).
        destruct Dec as [D|D]; [|rewrite (C D) in Hg; discriminate Hg].
        destruct Sh as [(Hl & _)|(l & -> & Hl & Ne & Hh & Hi & Hla)].
        + rewrite (B D) in Hg; [discriminate Hg|]. rewrite Hl. apply Nat.neq_succ_diag_r.
        + destruct (A D) as (o & O1 & O2 & _ & O4); [rewrite app_length, Hl; cbn [length]; apply Nat.add_1_r|].
          rewrite O1 in Hg. injection Hg as <-. rewrite adjacent_ranges in O4.
          exists i, r, (ranges_of l n), qs. rewrite O2. split; [left; reflexivity|]. split; [exact F1|]. split; [|split; [|exact O4]].
          * replace (npts r) with n by (symmetry; exact Np). apply ranges_cover; auto.
          * rewrite ranges_of_length. exact Hl. }
    destruct K as (V1 & gs1 & G1 & K1). destruct (IH s1 s' F2 V1 H2) as (gs2 & G2 & K2).
    exists (gs1 ++ gs2). rewrite G2, G1, app_assoc. split; [reflexivity|]. apply Forall_app. split.
    + eapply Forall_impl; [|exact K1]. intros g (i & r & rs & qs & [X|[]] & Y). exists i, r, rs, qs. split; [left; exact X|exact Y].
    + eapply Forall_impl; [|exact K2]. intros g (i & r & rs & qs & X & Y). exists i, r, rs, qs. split; [right; exact X|exact Y].
Qed.

Lemma program0 : forall left n, 1 <= n -> (forall t p : rgp S, left t p = rgp_empty \/ left t p = t \/ left t p = p) ->
  forall os s', Forall (stmt_for n) os -> prun left true (mkPState [] []) os = Ok s' ->
  Forall (fun g => exists i r rs qs, In (PGenerate i r (sph_center g)) os /\ sized n r /\ every_shell (sph_center g) r rs qs (sph_quad g)) (ps_grids s').
Proof.
  intros left n Hn HL os s' F H. destruct (program left n Hn HL os (mkPState [] []) s' F ltac:(constructor) H) as (gs & -> & K). exact K.
Qed.
End Objects.
