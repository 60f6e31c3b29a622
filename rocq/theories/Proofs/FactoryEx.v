(** Statements assembled for Props/Factory.v, findings and example data. *)
From Coq Require Import Bool Arith ZArith List Lia Permutation Reals Lra.
From Flocq Require Import IEEE754.BinarySingleNaN.
From Verif Require Import Base.Outcome Base.OutcomeFacts Base.Scalar Base.FScalar Model.Quadrature
  Model.Radial Model.S2Tables Model.S2 Model.Composite Model.Factory
  Spec.QuadSpec Spec.SphereSpec Spec.TraitsSpec Spec.FactorySpec
  Proofs.Sizes Proofs.S2Facts Proofs.TraitsFacts Proofs.PrunedFacts
  Proofs.CompositeProps Proofs.FloatFacts Proofs.FactoryFacts Proofs.PruningFacts.
Import ListNotations.
Local Open Scope nat_scope.

(** A data set with all points at the north pole and unit weights. *)
Definition ex_grids {S : Scalar} (f : afam) (m : Z) : @static_grid S :=
  (repeat (s0, s0, s1) (Z.to_nat m), repeat s1 (Z.to_nat m)).

Lemma ex_sized : forall S : Scalar, data_sized (@ex_grids S).
Proof. intros S f m _. unfold ex_grids; cbn [fst snd]. rewrite !repeat_length. auto. Qed.

Lemma small_base : exists f z, algebraic_order_by_npts f z <> (-1)%Z /\
  forall (S : Scalar) (u : unpruned_spec S) t, u_traits u = Some t -> u_aq u = AQ f -> u_asz u = z ->
  exists p r, create_pruned_spec Robust u = Ok p /\ In r (p_regions p) /\ (z < r_asz r)%Z.
Proof.
  exists LebedevLaikov, 6%Z. split; [vm_compute; discriminate|].
  intros S u t Ht Hf Hz.
  destruct (robust_regions u t LebedevLaikov Ht Hf) as (low & med & E & E1 & _).
  { rewrite Hz. vm_compute. discriminate. }
  eexists. eexists. split; [exact E|]. split; [left; reflexivity|]. cbn [r_asz].
  rewrite E1. vm_compute. reflexivity.
Qed.

Lemma treutler_invalid : exists f z, algebraic_order_by_npts f z = (-1)%Z /\
  forall (S : Scalar) (u : unpruned_spec S) t, u_traits u = Some t -> u_aq u = AQ f -> u_asz u = z ->
  exists p r, create_pruned_spec Treutler u = Ok p /\ In r (p_regions p) /\ r_asz r = z.
Proof.
  exists LebedevLaikov, 7%Z. split; [vm_compute; reflexivity|].
  intros S u t Ht Hf Hz.
  destruct (treutler_regions u t LebedevLaikov Ht Hf) as (low & med & E & E1 & _).
  eexists. eexists. split; [exact E|]. split; [right; right; left; reflexivity|]. exact Hz.
Qed.

Lemma make_traits_args : forall (S : Scalar) rq k n (R alpha : S), In (rq, k) schemes ->
  (exists t : rtraits S, make_radial_traits rq (Args1 n) = Ok t /\ rt_npts t = n /\ hd_error (rt_params t) = Some s1) /\
  (exists t, make_radial_traits rq (Args2 n R) = Ok t /\ rt_npts t = n /\ hd_error (rt_params t) = Some R) /\
  (k = KTA -> @make_radial_traits S rq (Args1 n) = Ok (TA n s1 (sdec 6 1)) /\
              make_radial_traits rq (Args2 n R) = Ok (TA n R (sdec 6 1)) /\
              make_radial_traits rq (Args3 n R alpha) = Ok (TA n R alpha)) /\
  (k <> KTA -> make_radial_traits rq (Args3 n R alpha) = Throw ExRuntime).
Proof.
  intros S rq k n R alpha Hin. cbn [In schemes] in Hin.
  repeat (destruct Hin as [Hin|Hin]; [injection Hin as <- <-;
    (split; [eexists; split; [reflexivity|split; reflexivity]|]);
    (split; [eexists; split; [reflexivity|split; reflexivity]|]);
    split; intro H; (discriminate H || reflexivity || (repeat split; reflexivity) || congruence)|]). destruct Hin.
Qed.

Local Opaque npts_by_algebraic_order algebraic_order_by_npts next_algebraic_order.

Lemma robust_full : forall (S : Scalar) (u : unpruned_spec S) t f,
  u_traits u = Some t -> u_aq u = AQ f -> algebraic_order_by_npts f (u_asz u) <> (-1)%Z ->
  let n := rt_npts t in let b := algebraic_order_by_npts f (u_asz u) in
  exists low med p, create_pruned_spec Robust u = Ok p /\
    p_rq p = u_rq u /\ p_traits p = Some t /\
    p_regions p = [mkRegion 0 (n / 4 + 1) (AQ f) low;
                   mkRegion (n / 4 + 1) (n / 2 + 1) (AQ f) med;
                   mkRegion (n / 2 + 1) n (AQ f) (u_asz u)] /\
    (3 <= n -> covers 0 n (spec_ranges p)) /\
    low = npts_by_algebraic_order f (next_algebraic_order f 7) /\
    med = npts_by_algebraic_order f (next_algebraic_order f (if Z.ltb 6 b then b - 6 else b))%Z /\
    (med <= u_asz u)%Z /\ (7 <= b -> low <= u_asz u)%Z.
Proof.
  intros S u t f Ht Hf Hb n b.
  destruct (robust_regions u t f Ht Hf Hb) as (low & med & E & E1 & E2 & E3 & E4).
  exists low, med. eexists. split; [exact E|]. split; [reflexivity|]. split; [reflexivity|].
  split; [reflexivity|]. split; [exact (robust_covers n)|]. split; [exact E1|].
  split; [exact E2|]. exact (conj E3 E4).
Qed.

Lemma treutler_full : forall (S : Scalar) (u : unpruned_spec S) t f,
  u_traits u = Some t -> u_aq u = AQ f ->
  let n := rt_npts t in let b := algebraic_order_by_npts f (u_asz u) in
  exists low med p, create_pruned_spec Treutler u = Ok p /\
    p_rq p = u_rq u /\ p_traits p = Some t /\
    p_regions p = [mkRegion 0 (n / 3 + 1) (AQ f) low;
                   mkRegion (n / 3 + 1) (n / 2 + 1) (AQ f) med;
                   mkRegion (n / 2 + 1) n (AQ f) (u_asz u)] /\
    (4 <= n -> covers 0 n (spec_ranges p)) /\
    low = npts_by_algebraic_order f (next_algebraic_order f 7) /\
    med = npts_by_algebraic_order f (next_algebraic_order f 11) /\
    (low <= med)%Z /\ (11 <= b -> med <= u_asz u)%Z.
Proof.
  intros S u t f Ht Hf n b.
  destruct (treutler_regions u t f Ht Hf) as (low & med & E & E1 & E2 & E3 & E4).
  exists low, med. eexists. split; [exact E|]. split; [reflexivity|]. split; [reflexivity|].
  split; [reflexivity|]. split; [exact (treutler_covers n)|]. split; [exact E1|].
  split; [exact E2|]. exact (conj E3 E4).
Qed.

Lemma list_sum3 : forall a b c, list_sum [a; b; c] = a + b + c.
Proof. intros; unfold list_sum; cbn [fold_right]. lia. Qed.

Lemma scheme_generation : forall (S : Scalar) (grids : afam -> Z -> @static_grid S),
  data_sized grids -> forall sch (u : unpruned_spec S) p t k f,
  sch = Robust \/ sch = Treutler ->
  u_traits u = Some t -> u_aq u = AQ f -> In (u_rq u, k) schemes -> rkind_of t = k ->
  create_pruned_spec sch u = Ok p ->
  ((exists o, generate_grid_pruned grids true p = Ok o) <-> 5 <= rt_npts t) /\
  (rt_npts t < 5 -> generate_grid_pruned grids true p = AssertFail) /\
  (forall o, generate_grid_pruned grids true p = Ok o ->
     npts (sph_quad o) = list_sum (map (fun r => (r_en r - r_st r) * Z.to_nat (r_asz r))
                                       (p_regions p))).
Proof.
  intros S grids D sch u p t k f Hsch Ht Hf Hin Hk Hp.
  assert (G : exists d low med, 2 <= d /\
     (accepted (rt_npts t) [0; rt_npts t / d + 1; rt_npts t / 2 + 1] <-> 5 <= rt_npts t) /\
     p = mkPruned (u_rq u) (Some t)
       [mkRegion 0 (rt_npts t / d + 1) (AQ f) low;
        mkRegion (rt_npts t / d + 1) (rt_npts t / 2 + 1) (AQ f) med;
        mkRegion (rt_npts t / 2 + 1) (rt_npts t) (AQ f) (u_asz u)]).
  { destruct Hsch as [->| ->].
    - unfold create_pruned_spec in Hp. rewrite Ht in Hp. unfold robust_psi4_pruning_scheme in Hp.
      rewrite Hf in Hp. destruct (robust_sizes f (u_asz u)) as [[low med]| | | |]; try discriminate Hp.
      cbn [bind] in Hp. unfold deref_traits in Hp. rewrite Ht in Hp. cbn [bind] in Hp.
      rewrite clone_id in Hp. injection Hp as <-. exists 4, low, med.
      split; [lia|]. split; [apply robust_accepted|reflexivity].
    - destruct (treutler_regions u t f Ht Hf) as (low & med & E & _). rewrite E in Hp.
      injection Hp as <-. exists 3, low, med.
      split; [lia|]. split; [apply treutler_accepted|reflexivity]. }
  destruct G as (d & low & med & Hd & Ha & ->).
  destruct (three_regions_generate grids D (u_rq u) k t f d low med (u_asz u) Hin Hk Hd Ha)
    as (G1 & G2 & G3).
  split; [exact G1|]. split; [exact G2|]. intros o Ho. rewrite (G3 o Ho).
  cbn [p_regions map r_st r_en r_asz]. rewrite list_sum3.
  replace (rt_npts t / d + 1 - 0) with (rt_npts t / d + 1) by lia.
  replace (rt_npts t / 2 + 1 - (rt_npts t / d + 1)) with (rt_npts t / 2 - rt_npts t / d) by lia.
  reflexivity.
Qed.

Lemma four_points : forall (S : Scalar) (grids : afam -> Z -> @static_grid S),
  data_sized grids -> exists (u : unpruned_spec S) p,
  create_pruned_spec Robust u = Ok p /\ covers 0 4 (spec_ranges p) /\
  generate_grid_pruned grids true p = AssertFail.
Proof.
  intros S grids D.
  destruct (robust_full S (mkUnpruned RQMuraKnowles (Some (MK 4 s1)) (AQ LebedevLaikov) 302%Z)
    (MK 4 s1) LebedevLaikov eq_refl eq_refl) as (low & med & p & E & _ & _ & _ & C & _).
  { vm_compute. discriminate. }
  eexists. exists p. split; [exact E|]. split; [apply C; cbn [rt_npts]; lia|].
  eapply scheme_generation with (sch := Robust) (f := LebedevLaikov) (k := KMK); [exact D|auto| | | | |exact E|];
    try reflexivity.
  - simpl; auto.
  - cbn [rt_npts]; lia.
Qed.

Lemma spec_equivalence : forall (S : Scalar),
  (forall x y : S, seqb x y = true -> seqb y x = true) ->
  (forall x y z : S, seqb x y = true -> seqb y z = true -> seqb x z = true) ->
  (forall a : pruned_spec S, pruned_spec_eqb a a = true <->
     forall t, p_traits a = Some t -> Forall (fun x => seqb x x = true) (rt_params t)) /\
  (forall a b : pruned_spec S, pruned_spec_eqb a b = true -> pruned_spec_eqb b a = true) /\
  (forall a b c : pruned_spec S,
     pruned_spec_eqb a b = true -> pruned_spec_eqb b c = true -> pruned_spec_eqb a c = true).
Proof.
  intros S H1 H2. split; [|exact (conj (spec_eqb_sym H1) (spec_eqb_trans H2))].
  intro a. rewrite spec_eqb_refl_iff. unfold params. destruct (p_traits a) as [t|].
  - split; [intros H t' E; injection E as <-; auto|auto].
  - split; [discriminate|auto].
Qed.

(** == on binary64 *)
Lemma Beqb_key : forall x y : F64,
  Beqb x y = true <-> (is_nan x = false /\ is_nan y = false /\ key x = key y).
Proof.
  intros x y. destruct (is_nan x) eqn:Nx.
  { destruct x; try discriminate Nx. destruct y; split; intro H; try discriminate H;
      destruct H as [H _]; discriminate H. }
  destruct (is_nan y) eqn:Ny.
  { destruct y; try discriminate Ny. destruct x; split; intro H; try discriminate H;
      destruct H as [_ [H _]]; discriminate H. }
  assert (FF : forall a b : F64, is_finite a = true -> is_finite b = true ->
    key a = (0%Z, B2R a) -> key b = (0%Z, B2R b) -> (Beqb a b = true <-> false = false /\ false = false /\ key a = key b)).
  { intros a b Fa Fb Ka Kb. rewrite Beqb_correct by auto. rewrite Ka, Kb.
    destruct (Raux.Req_bool_spec (B2R a) (B2R b)) as [E|E]; split; intro G; auto; try discriminate.
    - rewrite E. auto.
    - destruct G as (_ & _ & G). injection G as G. contradiction. }
  destruct x as [sx|sx| |sx mx ex Bx]; try discriminate Nx;
    destruct y as [sy|sy| |sy my ey By]; try discriminate Ny;
    try (apply FF; reflexivity);
    try (destruct sx); try (destruct sy); cbn; split; intro G; try discriminate; auto;
    destruct G as (_ & _ & G); discriminate G.
Qed.

Lemma float_eq_laws : forall m,
  (forall x y : FS m, seqb x y = true -> seqb y x = true) /\
  (forall x y z : FS m, seqb x y = true -> seqb y z = true -> seqb x z = true) /\
  (forall x : FS m, seqb x x = true <-> @is_nan 53 1024 x = false).
Proof.
  intro m. split; [|split].
  - intros x y H. change (Beqb (prec:=53) (emax:=1024) x y = true) in H.
    change (Beqb (prec:=53) (emax:=1024) y x = true). apply Beqb_key in H. apply Beqb_key.
    destruct H as (H1 & H2 & H3). auto.
  - intros x y z H H'. change (Beqb (prec:=53) (emax:=1024) x y = true) in H.
    change (Beqb (prec:=53) (emax:=1024) y z = true) in H'.
    change (Beqb (prec:=53) (emax:=1024) x z = true).
    apply Beqb_key in H, H'. apply Beqb_key. destruct H as (H1 & H2 & H3), H' as (H1' & H2' & H3').
    split; [auto|]. split; [auto|congruence].
  - intro x. change (Beqb (prec:=53) (emax:=1024) x x = true <-> @is_nan 53 1024 x = false).
    rewrite Beqb_key. split; [tauto|auto].
Qed.
