(** C14, C15, C16: angular size/order lookups and construction. All statements are
    for every integer argument, in particular every 64-bit one. *)
From Coq Require Import ZArith List Bool Lia.
From Verif Require Import Base.Outcome Base.Scalar Base.QScalar Model.Quadrature Model.S2Tables
  Model.S2 Spec.QuadSpec Proofs.S2Facts Proofs.AngularFacts.
Import ListNotations.
Local Open Scope Z_scope.

(** ** C14 *)
(** The two lookups are inverse to each other; -1 means unsupported. *)
Theorem C14_lookups_inverse : forall f o n,
  (npts_by_algebraic_order f o = n /\ n <> -1) <->
  (algebraic_order_by_npts f n = o /\ o <> -1).
Proof. exact lookups_inverse. Qed.

(** Any result other than -1 is positive and only given to positive arguments. *)
Theorem C14_lookups_range : forall f x,
  (npts_by_algebraic_order f x = -1 \/ (0 < x /\ 0 < npts_by_algebraic_order f x)) /\
  (algebraic_order_by_npts f x = -1 \/ (0 < x /\ 0 < algebraic_order_by_npts f x)).
Proof. exact lookups_range. Qed.

Theorem C14_lookups_monotone : forall f o o',
  npts_by_algebraic_order f o <> -1 -> npts_by_algebraic_order f o' <> -1 ->
  (o < o' <-> npts_by_algebraic_order f o < npts_by_algebraic_order f o').
Proof. exact lookups_monotone_iff. Qed.

(** The size can carry the order: N >= (floor(L/2)+1)^2, the dimension of the space of
    polynomials of degree floor(L/2) on the sphere (necessary for exactness). *)
Theorem C14_sizes_feasible : forall f o, npts_by_algebraic_order f o <> -1 ->
  (o / 2 + 1) * (o / 2 + 1) <= npts_by_algebraic_order f o.
Proof. exact sizes_feasible. Qed.

(** Lebedev-Laikov and Delley grids of order L = 5 mod 6 have (L+1)^2/3 + 2 points;
    Womersley orders are exactly 1..125 with ceil((L+1)^2/2) + 1 points (odd orders
    below 17 use one point less). *)
Theorem C14_octahedral_sizes : forall f o, f = LebedevLaikov \/ f = Delley ->
  npts_by_algebraic_order f o <> -1 -> o mod 6 = 5 ->
  npts_by_algebraic_order f o = (o + 1) * (o + 1) / 3 + 2.
Proof. exact octahedral_sizes. Qed.
Theorem C14_womersley_orders : forall o,
  npts_by_algebraic_order Womersley o <> -1 <-> 1 <= o <= 125.
Proof. exact womersley_orders. Qed.
Theorem C14_womersley_sizes : forall o, 2 <= o <= 125 -> (Z.even o = true \/ 17 <= o) ->
  npts_by_algebraic_order Womersley o = ((o + 1) * (o + 1) + 1) / 2 + 1.
Proof. exact womersley_sizes. Qed.

Example C14_ex : npts_by_algebraic_order LebedevLaikov 35 = 434
  /\ algebraic_order_by_npts LebedevLaikov 434 = 35
  /\ npts_by_algebraic_order LebedevLaikov 36 = -1
  /\ npts_by_algebraic_order AhrensBeylkin (-9223372036854775808) = -1
  /\ npts_by_algebraic_order Womersley 124 = 7814
  /\ 35 mod 6 = 5.
Proof. vm_compute. repeat split. Qed.

(** ** C15 *)
(** [M] is the family's largest supported order; the result is the least supported
    order not below the request, or [M] when there is none. *)
Theorem C15_next_order : forall f o, exists M,
  npts_by_algebraic_order f M <> -1 /\
  (forall s, npts_by_algebraic_order f s <> -1 -> s <= M) /\
  npts_by_algebraic_order f (next_algebraic_order f o) <> -1 /\
  (o <= M -> o <= next_algebraic_order f o /\
     forall s, npts_by_algebraic_order f s <> -1 -> o <= s -> next_algebraic_order f o <= s) /\
  (M < o -> next_algebraic_order f o = M).
Proof. exact next_order_full. Qed.

Theorem C15_next_idempotent : forall f o,
  next_algebraic_order f (next_algebraic_order f o) = next_algebraic_order f o.
Proof. exact next_order_idem. Qed.

Theorem C15_next_monotone : forall f o o', o <= o' ->
  next_algebraic_order f o <= next_algebraic_order f o'.
Proof. exact next_order_mono. Qed.

(** A supported order is its own successor, and the grid for it has a valid size. *)
Theorem C15_next_fixed_iff : forall f o,
  next_algebraic_order f o = o <-> npts_by_algebraic_order f o <> -1.
Proof. exact next_fixed_iff. Qed.

Example C15_ex : next_algebraic_order LebedevLaikov 32 = 35
  /\ next_algebraic_order LebedevLaikov 9223372036854775807 = 131
  /\ next_algebraic_order Womersley (-3) = 1 /\ next_algebraic_order Delley 0 = 5.
Proof. vm_compute. repeat split. Qed.

(** ** C16 *)
(** Construction with a supported size selects the data file of that size, and gives
    the file's points; no other size selects a file. *)
Theorem C16_dispatch : forall f n m,
  grid_selected f n = Some m <-> (m = n /\ algebraic_order_by_npts f n <> -1).
Proof. exact dispatch_iff. Qed.

Theorem C16_supported : forall (S : Scalar) dbg (grids : afam -> Z -> @static_grid S) f n,
  algebraic_order_by_npts f (Z.of_nat n) <> -1 ->
  length (fst (grids f (Z.of_nat n))) = n -> length (snd (grids f (Z.of_nat n))) = n ->
  exists q, construct dbg (s2_generate grids f n) = Ok q /\ sized n q /\
    qpoints q = fst (grids f (Z.of_nat n)) /\
    qweights q = map (fun w => if match f with LebedevLaikov | Delley => true | _ => false end
                               then (w * (sofZ 4 * spi))%S else w)
                     (snd (grids f (Z.of_nat n))).
Proof. exact angular_supported. Qed.
Example C16_supported_ex : algebraic_order_by_npts LebedevLaikov (Z.of_nat 6) <> -1.
Proof. vm_compute. discriminate. Qed.

(** The README's "construction fails for any other size" does not hold: every
    unsupported size gives an object whose points are all zero and whose weights are
    all zero (times 4 pi). *)
Theorem C16_unsupported_silent : forall (S : Scalar) dbg (grids : afam -> Z -> @static_grid S) f n,
  algebraic_order_by_npts f (Z.of_nat n) = -1 ->
  exists q, construct dbg (s2_generate grids f n) = Ok q /\ sized n q /\
    Forall (fun p => p = pt3_0) (qpoints q) /\
    Forall (fun w => w = s0 \/ w = (s0 * (sofZ 4 * spi))%S) (qweights q).
Proof. exact angular_unsupported. Qed.

Theorem C16_unsupported_fails_refuted : exists f n,
  algebraic_order_by_npts f (Z.of_nat n) = -1 /\
  forall (S : Scalar) dbg (grids : afam -> Z -> @static_grid S),
    exists q, construct dbg (s2_generate grids f n) = Ok q.
Proof. exact angular_silent. Qed.

Print Assumptions C14_lookups_inverse.
Print Assumptions C14_lookups_range.
Print Assumptions C14_lookups_monotone.
Print Assumptions C14_sizes_feasible.
Print Assumptions C14_octahedral_sizes.
Print Assumptions C14_womersley_orders.
Print Assumptions C14_womersley_sizes.
Print Assumptions C15_next_order.
Print Assumptions C15_next_idempotent.
Print Assumptions C15_next_monotone.
Print Assumptions C15_next_fixed_iff.
Print Assumptions C16_dispatch.
Print Assumptions C16_supported.
Print Assumptions C16_unsupported_silent.
Print Assumptions C16_unsupported_fails_refuted.
