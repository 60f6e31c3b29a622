(** C30-C34: names, factories, pruning schemes, specifications and pruned generation.
    Statements hold for every scalar type (in particular binary64) unless they say
    otherwise, for every data set [grids] whose files have their nominal lengths
    ([data_sized]); vocabulary in Spec/FactorySpec.v. *)
From Coq Require Import Bool Arith ZArith QArith Ascii String List Lia Permutation Reals.
From Verif Require Import Base.Outcome Base.Scalar Base.QScalar Base.RScalar Base.FScalar
  Model.Quadrature Model.Radial Model.S2Tables Model.S2 Model.Composite Model.Factory
  Spec.QuadSpec Spec.SphereSpec Spec.TraitsSpec Spec.FactorySpec
  Proofs.NameFacts Proofs.FactoryFacts Proofs.PruningFacts Proofs.FactoryEx.
Import ListNotations.
Local Open Scope nat_scope.

(** ** C30 *)
Theorem C30_radial_names : forall s q,
  radial_from_string s = Ok q <-> exists name, In (name, q) radial_names /\ same_name s name.
Proof. exact radial_name_iff. Qed.

Theorem C30_radial_unknown : forall s,
  (forall name q, In (name, q) radial_names -> ~ same_name s name) ->
  radial_from_string s = Throw ExRuntime.
Proof. exact radial_name_throws. Qed.

Theorem C30_angular_names : forall s q,
  angular_from_string s = Ok q <-> exists name, In (name, q) angular_names /\ same_name s name.
Proof. exact angular_name_iff. Qed.

Theorem C30_angular_unknown : forall s,
  (forall name q, In (name, q) angular_names -> ~ same_name s name) ->
  angular_from_string s = Throw ExRuntime.
Proof. exact angular_name_throws. Qed.

Theorem C30_case_insensitive : forall s t, same_name s t ->
  radial_from_string s = radial_from_string t /\ angular_from_string s = angular_from_string t.
Proof. intros s t H. exact (conj (radial_name_case s t H) (angular_name_case s t H)). Qed.

(** The enumerator of a class: the one whose factory constructs that class; any other class
    (another base rule, another MHL exponent, ...) throws. *)
Theorem C30_radial_type : forall c q,
  (radial_from_type c = Ok q <-> In (q, c) radial_classes) /\
  ((forall q', ~ In (q', c) radial_classes) -> radial_from_type c = Throw ExRuntime).
Proof. intros c q. exact (conj (radial_type_iff c q) (radial_type_throws c)). Qed.

Theorem C30_angular_type : forall c q,
  (angular_from_type c = Ok q <-> exists f, c = CAngular f /\ q = AQ f) /\
  ((forall f, c <> CAngular f) -> angular_from_type c = Throw ExRuntime).
Proof. intros c q. exact (conj (angular_type_iff c q) (angular_type_throws c)). Qed.

Example C30_type_ex : radial_from_type (CRadial BUniform (KMHL 2)) = Ok RQMurrayHandyLaming
  /\ radial_from_type (CRadial BUniform (KMHL 3)) = Throw ExRuntime
  /\ radial_from_type (CRadial BUniform KTA) = Throw ExRuntime
  /\ angular_from_type (CAngular Delley) = Ok (AQ Delley)
  /\ angular_from_type (CRadial BChebyshev2 KTA) = Throw ExRuntime.
Proof. repeat split. Qed.

Example C30_ex : same_name "mUrAkNoWlEs" "MuraKnowles"
  /\ radial_from_string "mUrAkNoWlEs" = Ok RQMuraKnowles
  /\ angular_from_string "lebedev" = Ok (AQ LebedevLaikov)
  /\ radial_from_string "Becke " = Throw ExRuntime
  /\ ~ same_name "Becke " "Becke".
Proof.
  split; [apply upcase_iff; reflexivity|]. repeat split; try reflexivity.
  intro H. apply upcase_iff in H. discriminate H.
Qed.

(** ** C31 *)
Theorem C31_radial : forall (S : Scalar) dbg rq k (t : rtraits S),
  In (rq, k) schemes -> rkind_of t = k ->
  radial_factory_generate dbg rq t = construct dbg (radial_generate t).
Proof. intros S. exact radial_direct. Qed.

Theorem C31_radial_bad_cast : forall (S : Scalar) dbg rq k (t : rtraits S),
  In (rq, k) schemes -> rkind_of t <> k ->
  radial_factory_generate dbg rq t = Throw ExBadCast.
Proof. intros S. exact radial_bad_cast. Qed.

Theorem C31_radial_unknown : forall (S : Scalar) dbg rq (t : rtraits S),
  (forall k, ~ In (rq, k) schemes) -> radial_factory_generate dbg rq t = Throw ExRuntime.
Proof. intros S. exact radial_unknown. Qed.

Theorem C31_angular : forall (S : Scalar) (grids : afam -> Z -> @static_grid S) dbg n,
  (forall f, s2_factory_generate grids dbg (AQ f) n = construct dbg (s2_generate grids f n)) /\
  (forall c, s2_factory_generate grids dbg (AQOther c) n = Throw ExRuntime).
Proof. intros S grids dbg n. exact (conj (fun f => angular_direct grids dbg f n) (fun c => eq_refl)). Qed.

(** The factory's unpruned grid is SphericalQuadrature(radial, angular) of the directly
    constructed rules, at the origin. *)
Theorem C31_unpruned : forall (S : Scalar) (grids : afam -> Z -> @static_grid S),
  data_sized grids -> forall dbg rq k (t : rtraits S) f n,
  In (rq, k) schemes -> rkind_of t = k ->
  exists r a o, construct dbg (radial_generate t) = Ok r /\
    construct dbg (s2_generate grids f n) = Ok a /\
    spherical_construct dbg r a (s0, s0, s0) = Ok o /\
    generate_grid_unpruned grids dbg (mkUnpruned rq (Some t) (AQ f) (Z.of_nat n)) = Ok o /\
    sized (rt_npts t * n) (sph_quad o).
Proof. intros S. exact unpruned_direct. Qed.

Theorem C31_unpruned_errors : forall (S : Scalar) (grids : afam -> Z -> @static_grid S),
  data_sized grids -> forall dbg rq aq z,
  generate_grid_unpruned grids dbg (mkUnpruned rq None aq z) = Throw ExRuntime /\
  (forall (t : rtraits S), (forall f, aq <> AQ f) ->
     generate_grid_unpruned grids dbg (mkUnpruned rq (Some t) aq z) = Throw ExRuntime) /\
  (forall (t : rtraits S), (forall k, ~ In (rq, k) schemes) ->
     generate_grid_unpruned grids dbg (mkUnpruned rq (Some t) aq z) = Throw ExRuntime) /\
  (forall (t : rtraits S) f k, In (rq, k) schemes -> rkind_of t <> k -> aq = AQ f ->
     generate_grid_unpruned grids dbg (mkUnpruned rq (Some t) aq z) = Throw ExBadCast).
Proof. intros S. exact unpruned_errors. Qed.

(** make_radial_traits(rq, args) gives traits of the scheme's own class, so the factory
    accepts them. *)
Theorem C31_make_traits : forall (S : Scalar) dbg rq k a (t : rtraits S), In (rq, k) schemes ->
  make_radial_traits rq a = Ok t ->
  rkind_of t = k /\ radial_factory_generate dbg rq t = construct dbg (radial_generate t).
Proof.
  intros S dbg rq k a t H1 H2. pose proof (make_traits_kind rq k a t H1 H2) as H.
  exact (conj H (radial_direct dbg rq k t H1 H)).
Qed.

(** Defaults R = 1, alpha = 6/10. *)
Theorem C31_make_traits_args : forall (S : Scalar) rq k n (R alpha : S), In (rq, k) schemes ->
  (exists t : rtraits S, make_radial_traits rq (Args1 n) = Ok t /\ rt_npts t = n /\ hd_error (rt_params t) = Some s1) /\
  (exists t, make_radial_traits rq (Args2 n R) = Ok t /\ rt_npts t = n /\ hd_error (rt_params t) = Some R) /\
  (k = KTA -> @make_radial_traits S rq (Args1 n) = Ok (TA n s1 (sdec 6 1)) /\
              make_radial_traits rq (Args2 n R) = Ok (TA n R (sdec 6 1)) /\
              make_radial_traits rq (Args3 n R alpha) = Ok (TA n R alpha)) /\
  (k <> KTA -> make_radial_traits rq (Args3 n R alpha) = Throw ExRuntime).
Proof. exact make_traits_args. Qed.

Example C31_ex : data_sized (@ex_grids QS)
  /\ In (RQMuraKnowles, KMK) schemes /\ rkind_of (MK 7 (2 : QS)%Q) = KMK
  /\ rkind_of (Becke 7 (2 : QS)%Q) <> KMK.
Proof. split; [exact (ex_sized QS)|]. repeat split; simpl; auto; discriminate. Qed.

(** ** C32 *)
(** [n] radial points, base order [b]; regions and angular sizes chosen. *)
Theorem C32_robust : forall (S : Scalar) (u : unpruned_spec S) t f,
  u_traits u = Some t -> u_aq u = AQ f -> algebraic_order_by_npts f (u_asz u) <> (-1)%Z ->
  let n := rt_npts t in let b := algebraic_order_by_npts f (u_asz u) in
  exists low med p, create_pruned_spec Robust u = Ok p /\
    p_rq p = u_rq u /\ p_traits p = Some t /\
    p_regions p = [mkRegion 0 (n / 4 + 1) (AQ f) low;
                   mkRegion (n / 4 + 1) (n / 2 + 1) (AQ f) med;
                   mkRegion (n / 2 + 1) n (AQ f) (u_asz u)] /\
    (3 <= n -> covers 0 n (spec_ranges p)) /\
    low = npts_by_algebraic_order f (next_algebraic_order f 7) /\
    med = npts_by_algebraic_order f (next_algebraic_order f (if Z.ltb 6 b then b - 6 else b))%Z /\
    (med <= u_asz u)%Z /\ (7 <= b -> low <= u_asz u)%Z.
Proof. exact robust_full. Qed.

Theorem C32_robust_invalid_base : forall (S : Scalar) (u : unpruned_spec S) t f,
  u_traits u = Some t -> u_aq u = AQ f -> (0 <= u_asz u < 2 ^ 64)%Z ->
  algebraic_order_by_npts f (u_asz u) = (-1)%Z ->
  create_pruned_spec Robust u = Throw ExRuntime.
Proof. intros S. exact robust_invalid. Qed.

Theorem C32_treutler : forall (S : Scalar) (u : unpruned_spec S) t f,
  u_traits u = Some t -> u_aq u = AQ f ->
  let n := rt_npts t in let b := algebraic_order_by_npts f (u_asz u) in
  exists low med p, create_pruned_spec Treutler u = Ok p /\
    p_rq p = u_rq u /\ p_traits p = Some t /\
    p_regions p = [mkRegion 0 (n / 3 + 1) (AQ f) low;
                   mkRegion (n / 3 + 1) (n / 2 + 1) (AQ f) med;
                   mkRegion (n / 2 + 1) n (AQ f) (u_asz u)] /\
    (4 <= n -> covers 0 n (spec_ranges p)) /\
    low = npts_by_algebraic_order f (next_algebraic_order f 7) /\
    med = npts_by_algebraic_order f (next_algebraic_order f 11) /\
    (low <= med)%Z /\ (11 <= b -> med <= u_asz u)%Z.
Proof. exact treutler_full. Qed.

(** Debug builds accept the resulting specification exactly when there are at least 5
    radial points; the point count is the sum over the regions. *)
Theorem C32_generation : forall (S : Scalar) (grids : afam -> Z -> @static_grid S),
  data_sized grids -> forall sch (u : unpruned_spec S) p t k f,
  sch = Robust \/ sch = Treutler ->
  u_traits u = Some t -> u_aq u = AQ f -> In (u_rq u, k) schemes -> rkind_of t = k ->
  create_pruned_spec sch u = Ok p ->
  ((exists o, generate_grid_pruned grids true p = Ok o) <-> 5 <= rt_npts t) /\
  (rt_npts t < 5 -> generate_grid_pruned grids true p = AssertFail) /\
  (forall o, generate_grid_pruned grids true p = Ok o ->
     npts (sph_quad o) = list_sum (map (fun r => (r_en r - r_st r) * Z.to_nat (r_asz r))
                                       (p_regions p))).
Proof. exact scheme_generation. Qed.

(** Findings: with base order below 7 the inner region is larger than the base, and the
    Treutler scheme accepts base sizes that are not supported at all. *)
Theorem C32_small_base_refuted : exists f z, algebraic_order_by_npts f z <> (-1)%Z /\
  forall (S : Scalar) (u : unpruned_spec S) t, u_traits u = Some t -> u_aq u = AQ f -> u_asz u = z ->
  exists p r, create_pruned_spec Robust u = Ok p /\ In r (p_regions p) /\ (z < r_asz r)%Z.
Proof. exact small_base. Qed.

Theorem C32_treutler_invalid_base_refuted : exists f z, algebraic_order_by_npts f z = (-1)%Z /\
  forall (S : Scalar) (u : unpruned_spec S) t, u_traits u = Some t -> u_aq u = AQ f -> u_asz u = z ->
  exists p r, create_pruned_spec Treutler u = Ok p /\ In r (p_regions p) /\ r_asz r = z.
Proof. exact treutler_invalid. Qed.

(** Valid three-region partitions of 4 radial points are rejected in debug builds. *)
Theorem C32_four_points_refuted : forall (S : Scalar) (grids : afam -> Z -> @static_grid S),
  data_sized grids -> exists (u : unpruned_spec S) p,
  create_pruned_spec Robust u = Ok p /\ covers 0 4 (spec_ranges p) /\
  generate_grid_pruned grids true p = AssertFail.
Proof. exact four_points. Qed.

Example C32_ex : forall S : Scalar,
  let u := mkUnpruned RQMuraKnowles (Some (MK 75 (s1 : S))) (AQ LebedevLaikov) 302%Z in
  algebraic_order_by_npts LebedevLaikov 302 = 29%Z /\
  (let* p := create_pruned_spec Robust u in
   Ok (map (fun r => (r_st r, r_en r, r_asz r)) (p_regions p)))
  = Ok [(0, 19, 26%Z); (19, 38, 194%Z); (38, 75, 302%Z)] /\
  (let* p := create_pruned_spec Treutler u in
   Ok (map (fun r => (r_st r, r_en r, r_asz r)) (p_regions p)))
  = Ok [(0, 26, 26%Z); (26, 38, 50%Z); (38, 75, 302%Z)].
Proof. intro S. vm_compute. auto. Qed.

(** ** C33 *)
Theorem C33_equality : forall (S : Scalar) (a b : pruned_spec S),
  pruned_spec_eqb a b = true <-> same_spec a b.
Proof. intros S. exact spec_eqb_iff. Qed.

Theorem C33_equivalence : forall (S : Scalar),
  (forall x y : S, seqb x y = true -> seqb y x = true) ->
  (forall x y z : S, seqb x y = true -> seqb y z = true -> seqb x z = true) ->
  (forall a : pruned_spec S, pruned_spec_eqb a a = true <->
     forall t, p_traits a = Some t -> Forall (fun x => seqb x x = true) (rt_params t)) /\
  (forall a b : pruned_spec S, pruned_spec_eqb a b = true -> pruned_spec_eqb b a = true) /\
  (forall a b c : pruned_spec S,
     pruned_spec_eqb a b = true -> pruned_spec_eqb b c = true -> pruned_spec_eqb a c = true).
Proof. exact spec_equivalence. Qed.

(** The hypotheses hold in binary64; there reflexivity fails exactly for NaN parameters. *)
Theorem C33_binary64 : forall m,
  (forall x y : FS m, seqb x y = true -> seqb y x = true) /\
  (forall x y z : FS m, seqb x y = true -> seqb y z = true -> seqb x z = true) /\
  (forall x : FS m, seqb x x = true <-> @Flocq.IEEE754.BinarySingleNaN.is_nan 53 1024 x = false).
Proof. exact float_eq_laws. Qed.

Theorem C33_copy : forall (S : Scalar) (grids : afam -> Z -> @static_grid S) (a : pruned_spec S),
  p_rq (pruned_copy a) = p_rq a /\ p_regions (pruned_copy a) = p_regions a /\
  (forall b, pruned_spec_eqb (pruned_copy a) b = pruned_spec_eqb a b) /\
  (forall dbg, generate_grid_pruned grids dbg (pruned_copy a) = generate_grid_pruned grids dbg a).
Proof. intros S. exact spec_copy. Qed.

(** Exact arithmetic: equality is identity, and equal specifications generate equal
    grids. *)
Theorem C33_real : forall (a b : pruned_spec RS), pruned_spec_eqb a b = true <-> a = b.
Proof. exact spec_eqb_R. Qed.

Theorem C33_same_grid : forall (grids : afam -> Z -> @static_grid RS) dbg (a b : pruned_spec RS),
  pruned_spec_eqb a b = true ->
  generate_grid_pruned grids dbg a = generate_grid_pruned grids dbg b.
Proof. intros grids dbg a b H. apply spec_eqb_R in H. rewrite H. reflexivity. Qed.

Example C33_ex :
  let a := mkPruned RQBecke (Some (Becke 5 (2 : QS)%Q)) [mkRegion 0 5 (AQ Delley) 17%Z] in
  let b := mkPruned RQBecke (Some (Becke 5 (3 : QS)%Q)) [mkRegion 0 5 (AQ Delley) 17%Z] in
  pruned_spec_eqb a a = true /\ pruned_spec_eqb a b = false.
Proof. vm_compute. auto. Qed.

(** ** C34 *)
Theorem C34_errors : forall (S : Scalar) (grids : afam -> Z -> @static_grid S) dbg rq k (t : rtraits S),
  In (rq, k) schemes -> rkind_of t = k ->
  generate_grid_pruned grids dbg (mkPruned rq (Some t) []) = Throw ExRuntime /\
  (forall rs r r', In r rs -> In r' rs -> r_aq r <> r_aq r' ->
     generate_grid_pruned grids dbg (mkPruned rq (Some t) rs) = Throw ExRuntime) /\
  (forall rs r, In r rs -> (forall f, r_aq r <> AQ f) ->
     generate_grid_pruned grids dbg (mkPruned rq (Some t) rs) = Throw ExRuntime).
Proof. intros S. exact pruned_errors. Qed.

Theorem C34_radial_errors : forall (S : Scalar) (grids : afam -> Z -> @static_grid S) dbg rq (t : rtraits S) rs,
  generate_grid_pruned grids dbg (mkPruned rq None rs) = Throw ExRuntime /\
  ((forall k, ~ In (rq, k) schemes) ->
     generate_grid_pruned grids dbg (mkPruned rq (Some t) rs) = Throw ExRuntime) /\
  (forall k, In (rq, k) schemes -> rkind_of t <> k ->
     generate_grid_pruned grids dbg (mkPruned rq (Some t) rs) = Throw ExBadCast).
Proof. intros S. exact pruned_errors_radial. Qed.

(** One family, at least one region: the grid is the pruned quadrature whose i-th range
    starts at the i-th region's start and ends at the next start (the last at the radial
    size), with that region's angular rule; accepted exactly when the starts are. *)
Theorem C34_regions : forall (S : Scalar) (grids : afam -> Z -> @static_grid S),
  data_sized grids -> forall rq k (t : rtraits S) f rs,
  In (rq, k) schemes -> rkind_of t = k -> rs <> [] -> Forall (fun r => r_aq r = AQ f) rs ->
  1 <= rt_npts t ->
  (forall o, generate_grid_pruned grids true (mkPruned rq (Some t) rs) = Ok o ->
    exists r (quads : list (aquad S)) rgs,
      construct true (radial_generate t) = Ok r /\
      Forall2 (fun reg a => construct true (s2_generate grids f (Z.to_nat (r_asz reg))) = Ok a)
        rs quads /\
      map fst rgs = map r_st rs /\ covers 0 (rt_npts t) rgs /\
      sized (list_sum (map (fun ra => (snd (fst ra) - fst (fst ra)) * npts (snd ra))
                       (combine rgs quads))) (sph_quad o) /\
      Permutation (nodes (sph_quad o))
        (flat_map (fun ra => flat_map (fun rw => shell (s0, s0, s0) rw (snd ra))
            (firstn (snd (fst ra) - fst (fst ra)) (skipn (fst (fst ra)) (nodes r))))
          (combine rgs quads))) /\
  ((exists o, generate_grid_pruned grids true (mkPruned rq (Some t) rs) = Ok o) <->
   (exists rest, map r_st rs = 0 :: rest /\ increasing (0 :: rest) /\
      Forall (fun i => i < rt_npts t - 1) rest)) /\
  (~ (exists rest, map r_st rs = 0 :: rest /\ increasing (0 :: rest) /\
        Forall (fun i => i < rt_npts t - 1) rest) ->
   generate_grid_pruned grids true (mkPruned rq (Some t) rs) = AssertFail).
Proof. intros S. exact pruned_regions. Qed.

(** Finding: the end indices written in the regions are ignored. *)
Theorem C34_end_index_ignored : forall (S : Scalar) (grids : afam -> Z -> @static_grid S)
  dbg rq (t : option (rtraits S)) rs rs',
  map (fun r => (r_st r, r_aq r, r_asz r)) rs = map (fun r => (r_st r, r_aq r, r_asz r)) rs' ->
  generate_grid_pruned grids dbg (mkPruned rq t rs) = generate_grid_pruned grids dbg (mkPruned rq t rs').
Proof. intros S. exact regions_end_ignored. Qed.

Example C34_ex :
  let t := MHL 2 6 (1 : QS)%Q in
  let gen rs := let* o := generate_grid_pruned (@ex_grids QS) true
                            (mkPruned RQMurrayHandyLaming (Some t) rs) in
                Ok (npts (sph_quad o)) in
  gen [mkRegion 0 2 (AQ LebedevLaikov) 6%Z; mkRegion 2 99 (AQ LebedevLaikov) 14%Z] = Ok 68
  /\ gen [mkRegion 0 2 (AQ LebedevLaikov) 6%Z; mkRegion 2 6 (AQ Delley) 17%Z] = Throw ExRuntime
  /\ gen [mkRegion 0 2 (AQ LebedevLaikov) 6%Z; mkRegion 5 6 (AQ LebedevLaikov) 14%Z] = AssertFail.
Proof. vm_compute. auto. Qed.

Print Assumptions C30_radial_names.
Print Assumptions C30_radial_unknown.
Print Assumptions C30_angular_names.
Print Assumptions C30_angular_unknown.
Print Assumptions C30_case_insensitive.
Print Assumptions C30_radial_type.
Print Assumptions C30_angular_type.
Print Assumptions C31_radial.
Print Assumptions C31_radial_bad_cast.
Print Assumptions C31_radial_unknown.
Print Assumptions C31_angular.
Print Assumptions C31_unpruned.
Print Assumptions C31_unpruned_errors.
Print Assumptions C31_make_traits.
Print Assumptions C31_make_traits_args.
Print Assumptions C32_robust.
Print Assumptions C32_robust_invalid_base.
Print Assumptions C32_treutler.
Print Assumptions C32_generation.
Print Assumptions C32_small_base_refuted.
Print Assumptions C32_treutler_invalid_base_refuted.
Print Assumptions C32_four_points_refuted.
Print Assumptions C33_equality.
Print Assumptions C33_equivalence.
Print Assumptions C33_binary64.
Print Assumptions C33_copy.
Print Assumptions C33_real.
Print Assumptions C33_same_grid.
Print Assumptions C34_errors.
Print Assumptions C34_radial_errors.
Print Assumptions C34_regions.
Print Assumptions C34_end_index_ignored.
